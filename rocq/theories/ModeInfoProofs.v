(** Mode information of intra frames: the code (ModeInfo.v) against the standard (SpecBlock.v). *)
From Coq Require Import String.
From Verif Require Import GoBase Bitstream Util UtilProofs Constants Tables Frame Writes Symbol SpecMath SpecSymbol SymbolProofs CdfMoves CdfMemory SpecPartition LoopFilter Intra SpecCoeffs CoeffRun Elements ElementsSim SpecBlock ModeInfo.
Local Open Scope string_scope.
Local Open Scope Z_scope.

(** ** What the standard sees, in terms of the decoder's state *)
Definition cell3 (g : list (list (list Z))) (i j k : Z) : Z := match idx3 g i j k with Ok v => v | _ => 0 end.
(** the neighbour at row r and column c; [skips] is the array of skip flags *)
Definition nb_at (skips : list (list Z)) (e : BEnv) (r c : Z) : nb := mkNb (cell (bYModes e) r c) (cell skips r c) (cell (bSegIds e) r c) (cell3 (bPaletteSizes e) 0 r c).
Definition blk_of (skips : list (list Z)) (e : BEnv) : blk :=
  mkBlk (bMiSize e) (if bAvailU e then Some (nb_at skips e (bMiRow e - 1) (bMiCol e)) else None) (if bAvailL e then Some (nb_at skips e (bMiRow e) (bMiCol e - 1)) else None)
    (if bAvailU e && bAvailL e then Some (cell (bSegIds e) (bMiRow e - 1) (bMiCol e - 1)) else None) (bHasChroma e).
Definition frm_of (e : BEnv) : frm :=
  mkFrm (bDisable e) (bSegEnabled e) (bSegPreSkip e =? 1) (bLastActive e) (fun s => cell (bFeature e) s 6 =? 1) (fun s => nth (Z.to_nat s) (bLosslessArray e) false)
    (negb (bCodedLossless e) && bEnableCdef e && negb (bAllowIntraBc e)) (bCdefBits e) (bUse128 e) (bQRes e) (bLfPresent e) (bLfMulti e =? 1) (bLfRes e) (bNumPlanes e) (bSubX e) (bSubY e)
    (bScreen e =? 1) (bFilterIntra e).
(** a decoded neighbour: its entries exist and hold values of the standard *)
Definition nb_ok (e : BEnv) (r c : Z) : Prop :=
  (exists m, idx2 (bYModes e) r c = Ok m /\ 0 <= m < 13) /\ (exists s, idx2 (bSegIds e) r c = Ok s /\ 0 <= s < 8) /\ (exists s, idx2 (bSkipModes e) r c = Ok s /\ 0 <= s <= 1) /\
  (exists p, idx3 (bPaletteSizes e) 0 r c = Ok p).
Definition env_ok (e : BEnv) : Prop :=
  0 <= bMiSize e < 22 /\ 0 <= bSegPreSkip e <= 1 /\ 0 <= bLastActive e < 8 /\ array2 8 8 (bFeature e) /\ zlen (bLosslessArray e) = 8 /\
  0 <= bCdefBits e <= 3 /\ 0 <= bQRes e <= 3 /\ 0 <= bLfRes e <= 3 /\ 0 <= bLfMulti e <= 1 /\ 0 <= bScreen e <= 1 /\
  (bAvailU e = true -> nb_ok e (bMiRow e - 1) (bMiCol e)) /\ (bAvailL e = true -> nb_ok e (bMiRow e) (bMiCol e - 1)) /\
  (bAvailU e = true -> bAvailL e = true -> exists s, idx2 (bSegIds e) (bMiRow e - 1) (bMiCol e - 1) = Ok s /\ 0 <= s < 8).
(** How the code decodes a segment: its own de-interleaving, not clipped; outside 0 .. 7 it panics *)
Definition code_segment (v pred max : Z) : prog Z := let s := NegDeinterleave v pred max in if (0 <=? s) && (s <? 8) then Done s else Fail.
Definition code_variant : variant := mkVariant code_segment 31 2 false.
(** what is needed for a panic *)
Definition can_fail (e : BEnv) : Prop := bSegEnabled e = true \/ bScreen e = 1 \/ bFilterIntra e = true.
(** the CDEF grid position of the block, and its entry *)
Definition cdef_row (e : BEnv) : Z := 16 * (bMiRow e / 16).
Definition cdef_col (e : BEnv) : Z := 16 * (bMiCol e / 16).
Definition cdef_old (e : BEnv) (g : list (list Z)) : option Z := match idx2 g (cdef_row e) (cdef_col e) with Ok v => if v =? -1 then None else Some v | _ => None end.
(** g' is g with the entry of the block set *)
Definition cdef_new (e : BEnv) (g g' : list (list Z)) (v : option Z) : Prop :=
  forall i j, idx2 g' i j = if (i =? cdef_row e) && (j =? cdef_col e) then match v with Some v => Ok v | None => idx2 g i j end else idx2 g i j.
Definition uv_of (c : chroma) : Z * option (Z * Z) * Z := (cMode c, cCfl c, cAngle c).
(** the result in terms of the standard's *)
Definition same_info (e : BEnv) (g : list (list Z)) (ref : list Z) (i : info) (x : IntraInfo) : Prop :=
  xSkip x = iSkip i /\ xSegId x = iSeg i /\ xLossless x = fLossless (frm_of e) (iSeg i) /\ cdef_new e g (xCdef x) (iCdef i) /\ xQ x = iQ i /\ xLf x = iLf i /\
  xRefFrame x = -1 :: tl ref /\ xYMode x = iYMode i /\ xYAngle x = iYAngle i /\ xUV x = option_map uv_of (iChroma i) /\ iFilter i = None.

(** ** Facts about tables *)
Definition blocks : list Z := map Z.of_nat (seq 0 22).
Lemma in_blocks b : 0 <= b < 22 -> In b blocks.
Proof. intros H. unfold blocks. apply in_map_iff. exists (Z.to_nat b). split; [lia|]. apply in_seq. lia. Qed.
Lemma block_facts b : 0 <= b < 22 -> idx BLOCK_WIDTH b = Ok (bsize_w b) /\ idx BLOCK_HEIGHT b = Ok (bsize_h b) /\ idx NUM_4X4_BLOCKS_WIDE b = Ok (bsize_w b / 4) /\ idx NUM_4X4_BLOCKS_HIGH b = Ok (bsize_h b / 4) /\
  idx MI_WIDTH_LOG2 b = Ok (Z.log2 (bsize_w b) - 2) /\ idx MI_HEIGHT_LOG2 b = Ok (Z.log2 (bsize_h b) - 2) /\ 1 <= bsize_w b / 4 <= 32 /\ 1 <= bsize_h b / 4 <= 32.
Proof. intros H. apply in_blocks in H. unfold blocks in H. cbn in H. repeat (destruct H as [<-|H]; [repeat split; vm_compute; congruence|]). contradiction. Qed.
Lemma mode_ctx_facts m : 0 <= m < 13 -> idx INTRA_MODE_CONTEXT m = Ok (mode_class m) /\ 0 <= mode_class m < 5.
Proof.
  intros H. assert (HI : In m (map Z.of_nat (seq 0 13))) by (apply in_map_iff; exists (Z.to_nat m); split; [lia|apply in_seq; lia]). cbn in HI.
  repeat (destruct HI as [<-|HI]; [repeat split; vm_compute; congruence|]). contradiction.
Qed.
Lemma palette_facts b : 0 <= b < 22 -> 3 <= b -> bsize_w b <= 64 -> bsize_h b <= 64 -> 0 <= Z.log2 (bsize_w b) + Z.log2 (bsize_h b) - 6 < 7.
Proof. intros H. apply in_blocks in H. unfold blocks in H. cbn in H. repeat (destruct H as [<-|H]; [vm_compute; intuition congruence|]). contradiction. Qed.
Lemma residual_4x4 sx sy b : 0 <= b < 22 -> exists r, getPlaneResidualSize sx sy b 1 = Ok r /\ (r =? BLOCK_4X4) = (chroma_side (bsize_w b) sx =? 4) && (chroma_side (bsize_h b) sy =? 4).
Proof. intros H. apply in_blocks in H. unfold blocks in H. cbn in H. destruct sx, sy; repeat (destruct H as [<-|H]; [eexists; split; vm_compute; reflexivity|]); contradiction. Qed.
Lemma Max_max a b : Max a b = Z.max a b. Proof. unfold Max. destruct (Z.leb_spec b a); lia. Qed.
Lemma Clip3_is lo hi v : lo <= hi -> Clip3 lo hi v = clamp lo hi v.
Proof. unfold Clip3, clamp. intros. destruct (Z.ltb_spec v lo); [lia|]. destruct (Z.ltb_spec hi v); lia. Qed.
Lemma cell_ok g i j v : idx2 g i j = Ok v -> cell g i j = v. Proof. unfold cell. intros ->. reflexivity. Qed.
Lemma bool_01 v : 0 <= v <= 1 -> bool_of v = (v =? 1).
Proof. intros H. unfold bool_of. destruct (Z.eqb_spec v 0), (Z.eqb_spec v 1); try lia; reflexivity. Qed.

Lemma skipn_cons {A} (l : list A) : forall n v t, skipn n l = v :: t -> skipn (S n) l = t.
Proof. induction l as [|x l IH]; intros [|n] v t E; cbn in *; try discriminate; [congruence|]. destruct n; [exact (IH 0%nat v t E)|]. exact (IH _ _ _ E). Qed.
Lemma skipn_more {A} (l : list A) : forall n m v t, skipn n l = v :: t -> skipn (n + S m) l = skipn m t.
Proof. induction l as [|x l IH]; intros [|n] m v t E; cbn in *; try discriminate; [congruence|]. exact (IH _ _ _ _ E). Qed.
Lemma upd_split {A} (l : list A) n a v t : skipn n l = v :: t -> (n < length l)%nat -> upd_nat l n a = (firstn n l ++ a :: t)%list.
Proof. revert n. induction l as [|x l IH]; intros [|n] E Hn; cbn in *; try lia; [injection E as _ <-; reflexivity|]. f_equal. apply IH; [exact E|lia]. Qed.

Ltac tab := unfold block_cdfs; cbn; tauto.
Ltac inr := repeat constructor; lia.

(** ** The CDEF grid *)
Lemma align16 a : Z.land a (Z.lnot (16 - 1)) = 16 * (a / 16).
Proof. rewrite <- Z.ldiff_land. change (16 - 1) with (Z.ones 4). rewrite Z.ldiff_ones_r by lia. rewrite Z.shiftl_mul_pow2, Z.shiftr_div_pow2 by lia. change (2 ^ 4) with 16. lia. Qed.
(** the inner loop writes the rows i, i + 16, ... below the limit, all in column c *)
Lemma cdefInner_ok fuel : forall i c lim v g i' g', cdefInner fuel i c lim v g = Ok (i', g') ->
  lim <= i' /\ i <= i' /\ (i' - i) mod 16 = 0 /\ forall a b, idx2 g' a b = if (b =? c) && (i <=? a) && (a <? i') && ((a - i) mod 16 =? 0) then Ok v else idx2 g a b.
Proof.
  induction fuel as [|fuel IH]; intros i c lim v g i' g' E; [discriminate|]. cbn [cdefInner] in E. destruct (Z.ltb_spec i lim) as [Hi|Hi].
  - apply rbind_inv in E as (g1 & E1 & E). destruct (IH _ _ _ _ _ _ _ E) as (H1 & H2 & H3 & H4). split; [exact H1|]. split; [lia|].
    assert (H5 : (i' - i) mod 16 = 0) by (replace (i' - i) with (i' - (i + 16) + 1 * 16) by lia; rewrite Z.mod_add by lia; exact H3). split; [exact H5|].
    intros a b. rewrite H4.
    assert (EM : (a - (i + 16)) mod 16 = (a - i) mod 16) by (replace (a - i) with (a - (i + 16) + 1 * 16) by lia; rewrite Z.mod_add by lia; reflexivity). rewrite EM.
    destruct (Z.eqb_spec b c) as [->|Nb]; cbn [andb]; [|apply (idx2_upd2_other _ _ _ _ _ _ _ E1); congruence].
    destruct (Z.eqb_spec ((a - i) mod 16) 0) as [EA|NA]; rewrite ?andb_true_r, ?andb_false_r.
    + destruct (Z.eq_dec a i) as [->|Na].
      * destruct (Z.leb_spec (i + 16) i); [lia|]. destruct (Z.leb_spec i i); [|lia]. destruct (Z.ltb_spec i i'); [|lia]. cbn [andb]. apply (idx2_upd2_same _ _ _ _ _ E1).
      * pose proof (Z.div_mod (a - i) 16 ltac:(lia)).
        destruct (Z.leb_spec (i + 16) a), (Z.leb_spec i a); try lia; cbn [andb]; [destruct (a <? i'); [reflexivity|]; apply (idx2_upd2_other _ _ _ _ _ _ _ E1); congruence|apply (idx2_upd2_other _ _ _ _ _ _ _ E1); congruence].
    + apply (idx2_upd2_other _ _ _ _ _ _ _ E1). intros [= ->]. apply NA. rewrite Z.sub_diag. reflexivity.
  - injection E as <- <-. split; [lia|]. split; [lia|]. split; [rewrite Z.sub_diag; reflexivity|]. intros a b.
    destruct (Z.leb_spec i a), (Z.ltb_spec a i); try lia; rewrite ?andb_false_r; reflexivity.
Qed.
Lemma cdefOuter_column fuel : forall i c rl cl v g g', cdefOuter fuel i c rl cl v g = Ok g' -> forall a b, b <> c -> idx2 g' a b = idx2 g a b.
Proof.
  induction fuel as [|fuel IH]; intros i c rl cl v g g' E a b Hb; [discriminate|]. cbn [cdefOuter] in E. destruct (i <? rl); [|injection E as <-; reflexivity].
  apply rbind_inv in E as ([i' g1] & E1 & E). cbn [fst snd] in E. rewrite (IH _ _ _ _ _ _ _ E a b Hb). destruct (cdefInner_ok _ _ _ _ _ _ _ _ E1) as (_ & _ & _ & H). rewrite H.
  destruct (Z.eqb_spec b c); [contradiction|reflexivity].
Qed.

Section Proofs.
Context (e : BEnv) (endp : Z) (OK : env_ok e).
Notation dis := (bDisable e).
Notation ag := (agrees block_cdfs dis endp (can_fail e)).
Notation f := (frm_of e).
Notation k := (blk_of (bSkipModes e) e).

Lemma y_mode_ok : ag (std_y_mode k) (intraFrameYModeSymbol e) (fun a b => a = b /\ 0 <= b < 13).
Proof.
  destruct OK as (_ & _ & _ & _ & _ & _ & _ & _ & _ & _ & NU & NL & _). unfold intraFrameYModeSymbol, std_y_mode, blk_of. cbn [kAbove kLeft].
  eapply (agrees_lift _ _ _ _ _ _ _ (class_at (if bAvailU e then Some (nb_at (bSkipModes e) e (bMiRow e - 1) (bMiCol e)) else None))).
  { destruct (bAvailU e); [|reflexivity]. destruct (NU eq_refl) as ((m & E & Hm) & _). rewrite E. cbn [rbind class_at nb_at nMode]. rewrite (cell_ok _ _ _ _ E). apply mode_ctx_facts, Hm. }
  eapply (agrees_lift _ _ _ _ _ _ _ (class_at (if bAvailL e then Some (nb_at (bSkipModes e) e (bMiRow e) (bMiCol e - 1)) else None))).
  { destruct (bAvailL e); [|reflexivity]. destruct (NL eq_refl) as ((m & E & Hm) & _). rewrite E. cbn [rbind class_at nb_at nMode]. rewrite (cell_ok _ _ _ _ E). apply mode_ctx_facts, Hm. }
  apply (agrees_sym _ _ _ _ "IntraFrameYModeCdf" [5; 5] 13); [tab|].
  repeat constructor.
  1,2: destruct (bAvailU e) eqn:EU; cbn [class_at nb_at nMode]; [|lia]; destruct (NU eq_refl) as ((m & E & Hm) & _); rewrite (cell_ok _ _ _ _ E); apply mode_ctx_facts, Hm.
  1,2: destruct (bAvailL e) eqn:EL; cbn [class_at nb_at nMode]; [|lia]; destruct (NL eq_refl) as ((m & E & Hm) & _); rewrite (cell_ok _ _ _ _ E); apply mode_ctx_facts, Hm.
Qed.

(** neighbouring segments: what the code keeps (-1: none) *)
Lemma segs_ok : exists ul u l, prevSegIds e = Ok (ul, u, l) /\ predSegId ul u l = seg_pred k /\ segIdCtx ul u l = seg_context k /\ 0 <= seg_pred k < 8.
Proof.
  destruct OK as (_ & _ & _ & _ & _ & _ & _ & _ & _ & _ & NU & NL & NC). unfold prevSegIds, seg_pred, seg_context, blk_of. cbn [kAbove kLeft kCorner].
  destruct (bAvailU e) eqn:EU, (bAvailL e) eqn:EL; cbn [andb];
    repeat match goal with H : true = true -> true = true -> _ |- _ => specialize (H eq_refl eq_refl); destruct H as (c & Ec & Hc); rewrite Ec end;
    try (destruct (NU eq_refl) as (_ & (u & Eu & Hu) & _); rewrite Eu); try (destruct (NL eq_refl) as (_ & (l & El & Hl) & _); rewrite El); cbn [rbind nb_at nSeg];
    repeat match goal with H : idx2 (bSegIds e) _ _ = Ok _ |- _ => rewrite (cell_ok _ _ _ _ H); clear H end;
    do 3 eexists; (split; [reflexivity|]); unfold predSegId, segIdCtx;
    repeat match goal with |- context [?a =? ?b] => destruct (Z.eqb_spec a b) | |- context [?a <? ?b] => destruct (Z.ltb_spec a b) end; try lia; cbn [andb orb];
    repeat match goal with |- context [?a =? ?b] => destruct (Z.eqb_spec a b) end; try lia; cbn [andb orb]; repeat split; lia.
Qed.
Lemma seg_ctx_range : 0 <= seg_context k < 3.
Proof. unfold seg_context. destruct (kAbove k), (kLeft k), (kCorner k); repeat match goal with |- context [if ?b then _ else _] => destruct b end; lia. Qed.

Definition Qseg (a : Z) (b : Z * bool) : Prop := b = (a, fLossless f a) /\ 0 <= a < 8.
Lemma lossless_ok s : 0 <= s < 8 -> idx (bLosslessArray e) s = Ok (fLossless f s).
Proof. destruct OK as (_ & _ & _ & _ & HL & _). intros H. rewrite (idx_ok (bLosslessArray e) s false) by lia. reflexivity. Qed.
Lemma segment_gen decode skip : (forall v, 0 <= v < 8 -> decode v (seg_pred k) (bLastActive e + 1) = code_segment v (seg_pred k) (bLastActive e + 1)) -> 0 <= skip <= 1 -> ag (std_segment decode f k skip) (intraSegmentId e skip) Qseg.
Proof.
  intros HD Hs. destruct segs_ok as (ul & u & l & EP & E1 & E2 & HP). unfold std_segment, intraSegmentId. change (fSegEnabled f) with (bSegEnabled e). destruct (bSegEnabled e) eqn:ESE.
  - unfold readSegmentId. apply agrees_assoc. eapply agrees_lift; [exact EP|]. cbv beta iota zeta. rewrite E1, E2. destruct (Z.eqb_spec skip 1) as [E|NE].
    + apply agrees_ret. eapply agrees_lift; [apply lossless_ok, HP|]. apply agrees_done. split; [reflexivity|exact HP].
    + apply agrees_assoc. eapply (agrees_symk _ _ _ _ "SegmentIdCdf" [3] 8); [tab|pose proof seg_ctx_range; inr|]. intros v Hv. apply agrees_ret. change (fLastSeg f) with (bLastActive e). rewrite HD by lia. unfold code_segment.
      destruct (Z.leb_spec 0 (NegDeinterleave v (seg_pred k) (bLastActive e + 1))), (Z.ltb_spec (NegDeinterleave v (seg_pred k) (bLastActive e + 1)) 8); cbn [andb].
      1: eapply agrees_lift; [apply lossless_ok; lia|]; apply agrees_done; split; [reflexivity|lia].
      all: intros s F; cbn [run]; rewrite bind_eq; cbn [lift]; rewrite idx_panic; [split; [left; exact ESE|reflexivity]|]; destruct OK as (_ & _ & _ & _ & HL & _); lia.
  - apply agrees_ret. eapply agrees_lift; [apply lossless_ok; lia|]. apply agrees_done. split; [reflexivity|lia].
Qed.
Lemma segment_ok skip : 0 <= skip <= 1 -> ag (std_segment code_segment f k skip) (intraSegmentId e skip) Qseg.
Proof. apply segment_gen. reflexivity. Qed.
Lemma skip_ctx_ok : exists a l, (if bAvailU e then idx2 (bSkipModes e) (bMiRow e - 1) (bMiCol e) else Ok 0) = Ok a /\ (if bAvailL e then idx2 (bSkipModes e) (bMiRow e) (bMiCol e - 1) else Ok 0) = Ok l /\
  a + l = skip_count k /\ 0 <= a <= 1 /\ 0 <= l <= 1.
Proof.
  destruct OK as (_ & _ & _ & _ & _ & _ & _ & _ & _ & _ & NU & NL & _). unfold skip_count, blk_of. cbn [kAbove kLeft].
  destruct (bAvailU e), (bAvailL e); try (destruct (NU eq_refl) as (_ & _ & (a & Ea & Ha) & _)); try (destruct (NL eq_refl) as (_ & _ & (l & El & Hl) & _)); cbn [nb_at nSkip];
    repeat match goal with H : idx2 _ _ _ = Ok _ |- _ => rewrite (cell_ok _ _ _ _ H); rewrite H; clear H end; do 2 eexists; repeat (split; [reflexivity|]); lia.
Qed.
Lemma skip_ok seg : 0 <= seg < 8 -> ag (std_skip (skip_count k) f seg) (readSkip e seg) (fun a b => a = b /\ 0 <= b <= 1).
Proof.
  intros Hs. destruct skip_ctx_ok as (a & l & Ea & El & E & Ha & Hl). unfold std_skip, readSkip.
  assert (G : (if bSegPreSkip e =? 1 then segFeatureActive e seg SEG_LVL_SKIP else Ok false) = Ok (fPreSkip f && fSegEnabled f && fSegSkip f seg)).
  { unfold frm_of, segFeatureActive, SEG_LVL_SKIP. cbn [fPreSkip fSegEnabled fSegSkip]. destruct (bSegPreSkip e =? 1); [|reflexivity]. destruct (bSegEnabled e); [|reflexivity].
    destruct OK as (_ & _ & _ & HF & _). destruct (proj2 (array2_get 8 8 (bFeature e) seg 6 HF) ltac:(lia)) as [v Ev]. rewrite Ev. cbn [rbind andb]. rewrite (cell_ok _ _ _ _ Ev). reflexivity. }
  eapply agrees_lift; [exact G|]. cbv beta. destruct (fPreSkip f && fSegEnabled f && fSegSkip f seg).
  - apply agrees_done. lia.
  - eapply agrees_lift; [exact Ea|]. eapply agrees_lift; [exact El|]. rewrite <- E. eapply agrees_weaken; [apply (agrees_sym _ _ _ _ "SkipCdf" [3] 2); [tab|inr]|]. cbv beta. intros x y [H1 H2]. split; [exact H1|lia].
Qed.

Lemma delta_ok name path dims v n : In (name, dims, n) block_cdfs -> path_in path dims -> n = 4 -> v = 3 ->
  ag (std_delta name path) (let* x := esym dis name path in readDelta dis v x) (fun a b => a = b /\ -1024 <= b <= 1024).
Proof.
  intros HI HP Hn ->. unfold std_delta. eapply agrees_symk; [exact HI|exact HP|]. intros x Hx. unfold readDelta.
  eapply (agrees_bind _ _ _ _ _ _ _ _ (fun a b => a = b /\ 0 <= b <= 1024)).
  - destruct (x =? 3).
    + unfold literal_bits. apply agrees_bitsk; [lia|]. intros m Hm. change (2 ^ 3) with 8 in Hm. cbv zeta. apply agrees_bitsk; [lia|]. intros y Hy. apply agrees_done.
      assert (2 ^ (m + 1) <= 2 ^ 8) by (apply Z.pow_le_mono_r; lia). assert (0 < 2 ^ (m + 1)) by (apply Z.pow_pos_nonneg; lia). change (2 ^ 8) with 256 in *.
      rewrite shl_small by (change (2 ^ 63) with 9223372036854775808; lia). lia.
    + apply agrees_done. lia.
  - intros a b (-> & Hb). unfold bool_of at 1. destruct (b =? 0); cbn [negb]; [apply agrees_done; lia|]. apply agrees_bitk. intros s Hs. apply agrees_done. unfold bool_of. destruct (s =? 0); cbn [negb]; lia.
Qed.
Lemma sb_skip skip : 0 <= skip <= 1 -> sbSkipped e skip = whole_sb_skipped f k skip.
Proof. intros H. unfold sbSkipped, whole_sb_skipped. rewrite bool_01 by lia. unfold BLOCK_128X128, BLOCK_64X64. reflexivity. Qed.
Lemma shl_res d r : -1024 <= d <= 1024 -> 0 <= r <= 3 -> shl d r = d * 2 ^ r.
Proof.
  intros Hd Hr. apply shl_small; [lia|]. change (2 ^ 63) with 9223372036854775808. assert (0 < 2 ^ r) by (apply Z.pow_pos_nonneg; lia).
  assert (H8 : 2 ^ r <= 2 ^ 3) by (apply Z.pow_le_mono_r; lia). change (2 ^ 3) with 8 in H8. nia.
Qed.
Lemma q_ok skip read q : 0 <= skip <= 1 -> ag (std_q f k skip read q) (readDeltaQIndex e skip read q) eq.
Proof.
  intros Hs. unfold std_q, readDeltaQIndex. rewrite sb_skip by lia. destruct (whole_sb_skipped f k skip); cbn [orb]; [apply agrees_done; reflexivity|].
  destruct read; cbn [negb]; [|apply agrees_done; reflexivity].
  eapply agrees_eq; [reflexivity|intros s; rewrite <- (bind_assoc (esym dis "DeltaQCdf" [])); reflexivity|].
  eapply agrees_bind; [apply (delta_ok "DeltaQCdf" [] [] DELTA_Q_SMALL 4); [tab|constructor|reflexivity|reflexivity]|]. intros a b (-> & Hb). cbv beta. apply agrees_done.
  unfold bool_of. destruct (Z.eqb_spec b 0); cbn [negb]; [reflexivity|]. rewrite Clip3_is by lia. destruct OK as (_ & _ & _ & _ & _ & _ & HQ & _). rewrite shl_res by lia. reflexivity.
Qed.
Lemma lf_step_ok i lf old : 0 <= i < 4 -> idx lf i = Ok old ->
  ag (andthen (if fLfMulti f then std_delta "DeltaLFMultiCdf" [i] else std_delta "DeltaLFCdf" []) (fun d => Done (if d =? 0 then old else clamp (-63) 63 (old + d * 2 ^ fLfRes f))))
   (let* v := if bLfMulti e =? 0 then esym dis "DeltaLFCdf" [] else esym dis "DeltaLFMultiCdf" [i] in
    let* d := readDelta dis DELTA_LF_SMALL v in
    if bool_of d then let* old := lift (idx lf i) in lift (upd lf i (Clip3 (- MAX_LOOP_FILTER) MAX_LOOP_FILTER (old + shl d (bLfRes e)))) else ret lf)
   (fun a l => l = upd_nat lf (Z.to_nat i) a).
Proof.
  intros Hi E. destruct OK as (_ & _ & _ & _ & _ & _ & _ & HL & HM & _).
  eapply agrees_eq; [reflexivity|intros s; rewrite <- bind_assoc; reflexivity|].
  eapply (agrees_bind _ _ _ _ _ _ _ _ (fun a b => a = b /\ -1024 <= b <= 1024)).
  { change (fLfMulti f) with (bLfMulti e =? 1). destruct (Z.eqb_spec (bLfMulti e) 0) as [E0|E0], (Z.eqb_spec (bLfMulti e) 1) as [E1|E1]; try lia.
    - eapply (delta_ok "DeltaLFCdf" [] [] DELTA_LF_SMALL 4); [tab|constructor|reflexivity|reflexivity].
    - eapply (delta_ok "DeltaLFMultiCdf" [i] [4] DELTA_LF_SMALL 4); [tab|inr|reflexivity|reflexivity]. }
  intros a b (-> & Hb). cbv beta. change (fLfRes f) with (bLfRes e). unfold bool_of. destruct (Z.eqb_spec b 0) as [Eb|Nb]; cbn [negb].
  - apply agrees_done. symmetry. apply idx_inv in E as (Hr & E). clear -Hr E. revert Hr E. generalize (Z.to_nat i). intros n _. revert n.
    induction lf as [|x lf IH]; intros [|n] E; cbn in *; try congruence. f_equal. apply IH, E.
  - eapply agrees_lift; [exact E|]. apply idx_inv in E as (Hr & _). unfold MAX_LOOP_FILTER. rewrite Clip3_is by lia. rewrite shl_res by lia. rewrite upd_ok by exact Hr. intros s F. cbn [run lift]. split; [destruct s; exact F|]. eexists. split; [destruct s; reflexivity|reflexivity].
Qed.
Lemma lf_loop_ok n : forall i (lf : list Z), 0 <= i -> i + Z.of_nat n <= 4 -> zlen lf = 4 ->
  ag (std_lfs f i (firstn n (skipn (Z.to_nat i) lf)))
   (for_from n i (fun i lf => let* v := if bLfMulti e =? 0 then esym dis "DeltaLFCdf" [] else esym dis "DeltaLFMultiCdf" [i] in
    let* d := readDelta dis DELTA_LF_SMALL v in
    if bool_of d then let* old := lift (idx lf i) in lift (upd lf i (Clip3 (- MAX_LOOP_FILTER) MAX_LOOP_FILTER (old + shl d (bLfRes e)))) else ret lf) lf)
   (fun a l => l = firstn (Z.to_nat i) lf ++ a ++ skipn (Z.to_nat i + n) lf)%list.
Proof.
  induction n as [|n IH]; intros i lf H0 H1 HL; cbn [firstn std_lfs for_from].
  - apply agrees_done. cbn [app]. rewrite Nat.add_0_r, firstn_skipn. reflexivity.
  - assert (Hlen : (length lf = 4)%nat) by (unfold zlen in HL; lia).
    destruct (skipn (Z.to_nat i) lf) as [|v tl] eqn:ES; [exfalso; apply (f_equal (@length Z)) in ES; rewrite skipn_length in ES; cbn in ES; lia|]. cbn [firstn std_lfs].
    assert (En : nth_error lf (Z.to_nat i) = Some v).
    { rewrite <- (firstn_skipn (Z.to_nat i) lf), ES. rewrite nth_error_app2 by (rewrite firstn_length; lia). rewrite firstn_length. replace (Z.to_nat i - Nat.min (Z.to_nat i) (length lf))%nat with 0%nat by lia. reflexivity. }
    assert (E : idx lf i = Ok v) by (rewrite (idx_ok lf i 0) by lia; f_equal; apply nth_error_nth, En).
    eapply (agrees_run _ _ _ _ _ (andthen (andthen (if fLfMulti f then std_delta "DeltaLFMultiCdf" [i] else std_delta "DeltaLFCdf" []) (fun d => Done (if d =? 0 then v else clamp (-63) 63 (v + d * 2 ^ fLfRes f))))
       (fun x => andthen (std_lfs f (i + 1) (firstn n tl)) (fun l => Done (x :: l))))).
    { intros d h. symmetry. apply run_assoc. }
    eapply agrees_bind; [apply lf_step_ok; [lia|exact E]|]. cbv beta. intros a b ->.
    rewrite (upd_split lf (Z.to_nat i) a v tl ES ltac:(lia)). set (lf' := (firstn (Z.to_nat i) lf ++ a :: tl)%list).
    assert (HF : length (firstn (Z.to_nat i) lf) = Z.to_nat i) by (rewrite firstn_length; lia).
    assert (Htl : (length tl = 3 - Z.to_nat i)%nat) by (apply (f_equal (@length Z)) in ES; rewrite skipn_length in ES; cbn in ES; lia).
    assert (HL' : zlen lf' = 4) by (unfold zlen, lf'; rewrite app_length; cbn [length]; lia).
    assert (ESn : skipn (Z.to_nat (i + 1)) lf' = tl).
    { unfold lf'. rewrite skipn_app, HF. rewrite skipn_all2 by lia. replace (Z.to_nat (i + 1) - Z.to_nat i)%nat with 1%nat by lia. reflexivity. }
    specialize (IH (i + 1) lf' ltac:(lia) ltac:(lia) HL'). rewrite ESn in IH.
    match goal with |- agrees _ _ _ _ _ ?m _ => eapply (agrees_eq _ _ _ _ _ _ m (let* l := m in ret l)) end;
      [reflexivity|intros s; rewrite bind_eq; match goal with |- ?x = match ?y with _ => _ end => change x with y; destruct y as [[? ?]| |]; reflexivity end|].
    eapply agrees_bind; [exact IH|]. cbv beta. intros l l' ->. apply agrees_done.
    replace (Z.to_nat (i + 1)) with (S (Z.to_nat i)) by lia. unfold lf'. rewrite firstn_app, HF. replace (S (Z.to_nat i) - Z.to_nat i)%nat with 1%nat by lia. change (firstn 1 (a :: tl)) with [a].
    rewrite (firstn_all2 (n := S (Z.to_nat i)) (firstn (Z.to_nat i) lf)) by lia. rewrite skipn_app, HF. rewrite (skipn_all2 (firstn (Z.to_nat i) lf)) by lia. cbn [app].
    replace (S (Z.to_nat i) + n - Z.to_nat i)%nat with (S n) by lia. cbn [skipn]. rewrite <- app_assoc. cbn [app]. f_equal. f_equal. f_equal.
    symmetry. apply (skipn_more _ _ _ _ _ ES).
Qed.
Lemma lf_ok skip read lf : 0 <= skip <= 1 -> zlen lf = 4 -> ag (std_lf f k skip read lf) (readDeltaLf e skip read lf) eq.
Proof.
  intros Hs HL. unfold std_lf, readDeltaLf. rewrite sb_skip by lia. destruct (whole_sb_skipped f k skip); cbn [orb]; [apply agrees_done; reflexivity|].
  destruct read; cbn [negb andb orb]; [|apply agrees_done; reflexivity]. change (fLf f) with (bLfPresent e). destruct (bLfPresent e); cbn [negb]; [|apply agrees_done; reflexivity].
  destruct OK as (_ & _ & _ & _ & _ & _ & _ & _ & HM & _). cbv zeta.
  assert (EC : (if bool_of (bLfMulti e) then if 1 <? bNumPlanes e then FRAME_LF_COUNT else FRAME_LF_COUNT - 2 else 1) = Z.of_nat (lf_count f)).
  { unfold lf_count, frm_of. cbn [fLfMulti fPlanes]. rewrite bool_01 by lia. unfold FRAME_LF_COUNT. destruct (bLfMulti e =? 1); [|reflexivity]. destruct (1 <? bNumPlanes e); reflexivity. }
  rewrite EC. unfold for_to. replace (Z.to_nat (Z.of_nat (lf_count f) - 0)) with (lf_count f) by lia.
  assert (HC : (lf_count f <= 4)%nat) by (unfold lf_count; repeat match goal with |- context [if ?b then _ else _] => destruct b end; lia).
  match goal with |- agrees _ _ _ _ _ ?m _ => eapply (agrees_eq _ _ _ _ _ _ m (let* l := m in ret l)) end;
      [reflexivity|intros s; rewrite bind_eq; match goal with |- ?x = match ?y with _ => _ end => change x with y; destruct y as [[? ?]| |]; reflexivity end|].
  eapply agrees_bind; [apply (lf_loop_ok (lf_count f) 0 lf); lia|]. cbv beta. intros a b ->. apply agrees_done. cbn. reflexivity.
Qed.

Lemma angle_ok mode : 0 <= mode <= 13 -> ag (std_angle k mode) (intraAngleInfo e mode) eq.
Proof.
  intros Hm. unfold std_angle, intraAngleInfo. change (kSize k) with (bMiSize e). unfold isDirectionalMode, BLOCK_8X8, V_PRED, D67_PRED, MAX_ANGLE_DELTA.
  destruct (Z.leb_spec 3 (bMiSize e)), (Z.leb_spec 1 mode), (Z.leb_spec mode 8); cbn [andb]; try (apply agrees_done; reflexivity).
  eapply (agrees_symk _ _ _ _ "AngleDeltaCdf" [8] 7); [tab|inr|]. intros v Hv. apply agrees_done. reflexivity.
Qed.
Lemma alpha_ok s s' : 0 <= s < 3 -> 0 <= s' < 3 -> ag (std_alpha 2 s s') (cflAlpha dis s s') eq.
Proof.
  intros H H'. unfold std_alpha, cflAlpha, CFL_SIGN_ZERO, CFL_SIGN_NEG. destruct (Z.eqb_spec s 0); cbn [negb]; [apply agrees_done; reflexivity|].
  replace ((s - 1) * 3 + s') with (3 * (s - 1) + s') by lia.
  eapply (agrees_symk _ _ _ _ "CflAlphaCdf" [6] 16); [tab|inr|]. intros v Hv. apply agrees_done. replace (1 + v) with (v + 1) by lia. reflexivity.
Qed.
Lemma cfl_ok : ag (std_cfl 2) (readCflAlphas dis) eq.
Proof.
  unfold std_cfl, readCflAlphas. eapply (agrees_symk _ _ _ _ "CflSignCdf" [] 8); [tab|constructor|]. intros j Hj. cbv zeta.
  assert (E1 : Z.quot (j + 1) 3 = (j + 1) / 3) by (apply Z.quot_div_nonneg; lia). assert (E2 : Z.rem (j + 1) 3 = (j + 1) mod 3) by (apply Z.rem_mod_nonneg; lia). rewrite E1, E2.
  pose proof (Z.div_mod (j + 1) 3 ltac:(lia)). pose proof (Z.mod_pos_bound (j + 1) 3 ltac:(lia)). pose proof (Z.div_pos (j + 1) 3 ltac:(lia) ltac:(lia)).
  eapply agrees_bind; [apply alpha_ok; lia|]. intros a b ->. eapply agrees_bind; [apply alpha_ok; lia|]. intros a' b' ->. apply agrees_done. reflexivity.
Qed.
Lemma uv_mode_ok ll ymode : 0 <= ymode < 13 -> ag (Sym (if cfl_allowed 31 f k ll then "UVModeCflAllowedCdf" else "UVModeCflNotAllowedCdf") [ymode] Done) (uvModeSymbol e ll ymode) (fun a b => a = b /\ 0 <= b <= 13).
Proof.
  intros Hy. destruct OK as (HS & _). destruct (block_facts _ HS) as (EW & EH & _). destruct (residual_4x4 (bSubX e) (bSubY e) _ HS) as (r & Er & E4). unfold uvModeSymbol.
  assert (A1 : ag (Sym "UVModeCflAllowedCdf" [ymode] Done) (esym dis "UVModeCflAllowedCdf" [ymode]) (fun a b => a = b /\ 0 <= b <= 13)).
  { eapply agrees_weaken; [apply (agrees_sym _ _ _ _ "UVModeCflAllowedCdf" [13] 14); [tab|inr]|]. cbv beta. intros x y [H1 H2]. split; [exact H1|lia]. }
  assert (A2 : ag (Sym "UVModeCflNotAllowedCdf" [ymode] Done) (esym dis "UVModeCflNotAllowedCdf" [ymode]) (fun a b => a = b /\ 0 <= b <= 13)).
  { eapply agrees_weaken; [apply (agrees_sym _ _ _ _ "UVModeCflNotAllowedCdf" [13] 13); [tab|inr]|]. cbv beta. intros x y [H1 H2]. split; [exact H1|lia]. }
  destruct ll; cbn [negb].
  - eapply (agrees_lift _ _ _ _ _ _ _ (cfl_allowed 31 f k true)). { rewrite Er. cbn [rbind]. rewrite E4. reflexivity. } cbv beta. destruct (cfl_allowed 31 f k true); [exact A1|]. eapply agrees_lift; [reflexivity|]. cbv beta iota. exact A2.
  - eapply agrees_lift; [reflexivity|]. cbv beta iota. eapply (agrees_lift _ _ _ _ _ _ _ (cfl_allowed 31 f k false)).
    { rewrite EW, EH. cbn [rbind]. rewrite Max_max. unfold cfl_allowed. change (kSize k) with (bMiSize e). destruct (Z.ltb_spec (Z.max (bsize_w (bMiSize e)) (bsize_h (bMiSize e))) 32), (Z.leb_spec (Z.max (bsize_w (bMiSize e)) (bsize_h (bMiSize e))) 31); try lia; reflexivity. }
    cbv beta. destruct (cfl_allowed 31 f k false); [exact A1|exact A2].
Qed.
Lemma chroma_ok ll ymode : 0 <= ymode < 13 -> ag (std_chroma 31 2 f k ll ymode) (intraChroma e ll ymode) (fun c x => x = uv_of c).
Proof.
  intros Hy. unfold std_chroma, intraChroma.
  match goal with |- agrees _ _ _ _ (Sym ?n ?p ?g) _ _ => change (Sym n p g) with (andthen (Sym n p Done) g) end.
  eapply agrees_bind; [apply uv_mode_ok, Hy|]. cbv beta. intros m m' (-> & Hm). unfold UV_CFL_PRED.
  eapply (agrees_bind _ _ _ _ _ _ _ _ eq).
  - destruct (m' =? 13); [|apply agrees_done; reflexivity]. eapply agrees_bind; [apply cfl_ok|]. intros a b ->. apply agrees_done. reflexivity.
  - intros a b ->. eapply agrees_bind; [apply angle_ok, Hm|]. intros x y ->. apply agrees_done. reflexivity.
Qed.
Lemma pal_ctx_ok : exists a l, (if bAvailU e then let! v := idx3 (bPaletteSizes e) 0 (bMiRow e - 1) (bMiCol e) in Ok (int_of (0 <? v)) else Ok 0) = Ok a /\
  (if bAvailL e then let! v := idx3 (bPaletteSizes e) 0 (bMiRow e) (bMiCol e - 1) in Ok (int_of (0 <? v)) else Ok 0) = Ok l /\ a + l = pal_count k /\ 0 <= a <= 1 /\ 0 <= l <= 1.
Proof.
  destruct OK as (_ & _ & _ & _ & _ & _ & _ & _ & _ & _ & NU & NL & _). unfold pal_count, blk_of. cbn [kAbove kLeft].
  destruct (bAvailU e), (bAvailL e); try (destruct (NU eq_refl) as (_ & _ & _ & (a & Ea))); try (destruct (NL eq_refl) as (_ & _ & _ & (l & El))); cbn [nb_at nPalette]; unfold cell3;
    repeat match goal with H : idx3 _ _ _ _ = Ok _ |- _ => rewrite H; clear H end; cbn [rbind]; do 2 eexists; repeat (split; [reflexivity|]); unfold int_of;
    repeat match goal with |- context [if ?b then _ else _] => destruct b end; lia.
Qed.
Lemma palette_ok ymode c : ag (std_palette false f k ymode c) 
   (let* w := lift (idx BLOCK_WIDTH (bMiSize e)) in
    let* h := lift (idx BLOCK_HEIGHT (bMiSize e)) in
    if (BLOCK_8X8 <=? bMiSize e) && (w <=? 64) && (h <=? 64) && bool_of (bScreen e) then paletteModeInfo e ymode (option_map cMode c) else ret tt) (fun _ _ => True).
Proof.
  destruct OK as (HS & _ & _ & _ & _ & _ & _ & _ & _ & HSc & _). destruct (block_facts _ HS) as (EW & EH & _ & _ & EL & EM & _). eapply agrees_lift; [exact EW|]. eapply agrees_lift; [exact EH|].
  unfold std_palette, palette_possible. change (kSize k) with (bMiSize e). change (fScreen f) with (bScreen e =? 1). rewrite bool_01 by lia. unfold BLOCK_8X8.
  destruct (Z.leb_spec 3 (bMiSize e)) as [H3|], (Z.leb_spec (bsize_w (bMiSize e)) 64) as [HW|], (Z.leb_spec (bsize_h (bMiSize e)) 64) as [HH|], (Z.eqb_spec (bScreen e) 1) as [ESc|]; cbn [andb]; try (apply agrees_done; exact I).
  pose proof (palette_facts _ HS H3 HW HH) as HP. unfold paletteModeInfo. eapply agrees_lift; [exact EL|]. eapply agrees_lift; [exact EM|].
  eapply (agrees_bind _ _ _ _ _ _ _ _ (fun _ _ => True)).
  - unfold DC_PRED. destruct (ymode =? 0); [|apply agrees_done; exact I]. destruct pal_ctx_ok as (a & l & Ea & El & E & Ha & Hl). eapply agrees_lift; [exact Ea|]. eapply agrees_lift; [exact El|]. rewrite <- E.
    replace (Z.log2 (bsize_w (bMiSize e)) - 2 + (Z.log2 (bsize_h (bMiSize e)) - 2) - 2) with (Z.log2 (bsize_w (bMiSize e)) + Z.log2 (bsize_h (bMiSize e)) - 6) by lia.
    eapply (agrees_symk _ _ _ _ "PaletteYModeCdf" [7; 3] 2); [tab|inr|]. intros v Hv. unfold bool_of. destruct (v =? 0); cbn [negb]; [apply agrees_done; exact I|apply agrees_panic; right; left; exact ESc].
  - intros _ _ _. destruct c as [c|]; cbn [option_map]; [|apply agrees_done; exact I]. unfold DC_PRED. destruct (cMode c =? 0); [apply agrees_panic; right; left; exact ESc|apply agrees_done; exact I].
Qed.
Lemma filter_ok ymode : ag (std_filter false f k ymode) (filterIntraModeInfo e ymode) (fun a _ => a = None).
Proof.
  destruct OK as (HS & _). destruct (block_facts _ HS) as (EW & EH & _). unfold std_filter, filterIntraModeInfo. change (fFilter f) with (bFilterIntra e). change (kSize k) with (bMiSize e). unfold DC_PRED.
  destruct (bFilterIntra e) eqn:EFi; [|apply agrees_done; reflexivity]. destruct (ymode =? 0); cbn [andb]; [|apply agrees_done; reflexivity]. eapply agrees_lift; [exact EW|]. eapply agrees_lift; [exact EH|]. rewrite Max_max.
  destruct (Z.max (bsize_w (bMiSize e)) (bsize_h (bMiSize e)) <=? 32); [apply agrees_panic; right; right; exact EFi|apply agrees_done; reflexivity].
Qed.

(** blocks of at most 64x64 whose column of 64x64 areas is not beyond the row *)
Definition cdef_in (g : list (list Z)) : Prop := fCdef f = true ->
  (exists v, idx2 g (cdef_row e) (cdef_col e) = Ok v) /\ cdef_col e + bsize_w (bMiSize e) / 4 <= cdef_row e + 16 /\ bsize_w (bMiSize e) <= 64 /\ bsize_h (bMiSize e) <= 64.
Lemma cdef_ok skip g : 0 <= skip <= 1 -> cdef_in g -> ag (std_cdef f skip (cdef_old e g)) (readCdef e skip g) (fun v g' => cdef_new e g g' v).
Proof.
  intros Hs HC. unfold std_cdef, readCdef. rewrite bool_01 by lia.
  assert (EF : (skip =? 1) || bCodedLossless e || negb (bEnableCdef e) || bAllowIntraBc e = (skip =? 1) || negb (fCdef f)).
  { unfold frm_of. cbn [fCdef]. destruct (skip =? 1), (bCodedLossless e), (bEnableCdef e), (bAllowIntraBc e); reflexivity. }
  rewrite EF. unfold cdef_in in HC.
  assert (Same : cdef_new e g g (cdef_old e g)).
  { intros i j. unfold cdef_old. destruct (Z.eqb_spec i (cdef_row e)) as [->|]; [|reflexivity]. destruct (Z.eqb_spec j (cdef_col e)) as [->|]; [|reflexivity]. cbn [andb].
    destruct (idx2 g (cdef_row e) (cdef_col e)) as [x| |]; try reflexivity. destruct (x =? -1); reflexivity. }
  destruct (skip =? 1); cbn [orb]; [apply agrees_done; exact Same|]. destruct (fCdef f); cbn [negb]; [|apply agrees_done; exact Same].
  destruct (HC eq_refl) as ((x & Ex) & H1 & H2 & H3). clear HC. destruct OK as (HS & _ & _ & _ & _ & HB & _). destruct (block_facts _ HS) as (_ & _ & EW & EH & _ & _ & HW & HH).
  eapply (agrees_lift _ _ _ _ _ _ _ 16); [reflexivity|]. cbv zeta. rewrite !align16. fold (cdef_row e) (cdef_col e). eapply agrees_lift; [exact Ex|]. cbv beta.
  unfold cdef_old in *. rewrite Ex in *. destruct (Z.eqb_spec x (-1)) as [Ex1|Nx]; [|apply agrees_done; exact Same].
  unfold literal_bits. apply agrees_bitsk; [change (fCdefBits f) with (bCdefBits e); lia|]. intros v _.
  destruct (upd2_succeeds _ _ _ _ v Ex) as [g1 E1]. eapply agrees_lift; [exact E1|]. eapply agrees_lift; [exact EW|]. eapply agrees_lift; [exact EH|].
  set (r := cdef_row e) in *. set (c := cdef_col e) in *. set (w4 := bsize_w (bMiSize e) / 4) in *. set (h4 := bsize_h (bMiSize e) / 4) in *.
  assert (W16 : w4 <= 16) by (unfold w4; apply (Z.div_le_mono _ 64 4) in H2; [exact H2|lia]). assert (H16 : h4 <= 16) by (unfold h4; apply (Z.div_le_mono _ 64 4) in H3; [exact H3|lia]).
  assert (G : exists g2, cdefOuter (Z.to_nat h4 + 1) r c (r + h4) (c + w4) v g1 = Ok g2 /\ forall i j, idx2 g2 i j = if (i =? r) && (j =? c) then Ok v else idx2 g i j).
  { assert (I1 : forall i j, idx2 g1 i j = if (i =? r) && (j =? c) then Ok v else idx2 g i j).
    { intros i j. destruct (Z.eqb_spec i r) as [->|]; [destruct (Z.eqb_spec j c) as [->|]|]; cbn [andb]; [apply (idx2_upd2_same _ _ _ _ _ E1)|apply (idx2_upd2_other _ _ _ _ _ _ _ E1); congruence..]. }
    replace (Z.to_nat h4 + 1)%nat with (S (S (Z.to_nat h4 - 1))) by lia. cbn [cdefOuter]. destruct (Z.ltb_spec r (r + h4)); [|lia].
    destruct (Z.ltb_spec r (c + w4)) as [HL|HL].
    - replace (Z.to_nat (c + w4 - r) + 1)%nat with (S (S (Z.to_nat (c + w4 - r) - 1))) by lia. cbn [cdefInner]. destruct (Z.ltb_spec r (c + w4)); [|lia].
      assert (E2 : idx2 g1 r c = Ok v) by (rewrite I1, !Z.eqb_refl; reflexivity). destruct (upd2_succeeds _ _ _ _ v E2) as [g2 E3]. rewrite E3. cbn [rbind].
      destruct (Z.ltb_spec (r + 16) (c + w4)); [lia|]. cbn [rbind fst snd]. destruct (Z.ltb_spec (r + 16 + 16) (r + h4)); [lia|]. exists g2. split; [reflexivity|]. intros i j. rewrite <- I1.
      destruct (Z.eq_dec i r) as [->|]; [destruct (Z.eq_dec j c) as [->|]|]; [rewrite (idx2_upd2_same _ _ _ _ _ E3); congruence|apply (idx2_upd2_other _ _ _ _ _ _ _ E3); congruence..].
    - replace (Z.to_nat (c + w4 - r) + 1)%nat with 1%nat by lia. cbn [cdefInner]. destruct (Z.ltb_spec r (c + w4)); [lia|]. cbn [rbind fst snd]. destruct (Z.ltb_spec (r + 16) (r + h4)); [lia|].
      exists g1. split; [reflexivity|exact I1]. }
  destruct G as (g2 & E2 & G). rewrite E2. intros s F. cbn [run lift]. split; [destruct s; exact F|]. exists g2. split; [destruct s; reflexivity|]. intros i j. exact (G i j).
Qed.

(** ** The whole function *)
Lemma intra_ok read seg ll g q lf ref : bAllowIntraBc e = false -> zlen lf = 4 -> zlen ref = 2 -> cdef_in g ->
  ag (std_intra code_variant f k read (cdef_old e g) q lf) (intraFrameModeInfo e read seg ll g q lf ref) (same_info e g ref).
Proof.
  intros HI HL HR HC. unfold std_intra, intraFrameModeInfo. pose proof OK as (HS & HP & _). destruct (block_facts _ HS) as (EW & EH & _). change (fPreSkip f) with (bSegPreSkip e =? 1).
  cbn [vSegment vCflLimit vNegative vRest code_variant].
  eapply (agrees_bind _ _ _ _ _ _ _ _ (fun a b => (bSegPreSkip e = 1 -> Qseg a b) /\ (bSegPreSkip e = 0 -> a = 0 /\ b = (seg, ll)))).
  { destruct (Z.eqb_spec (bSegPreSkip e) 1) as [E1|E1]; [eapply agrees_weaken; [apply (segment_ok 0); lia|]; intros a b H; split; [intros _; exact H|intros; lia]|].
    apply agrees_done. split; [intros; lia|intros _; split; reflexivity]. }
  intros seg0 s0 HS0. cbv beta.
  eapply (agrees_bind _ _ _ _ _ _ _ _ (fun a b => a = b /\ 0 <= b <= 1)).
  { destruct (Z.eq_dec (bSegPreSkip e) 1) as [E1|E1].
    - destruct HS0 as [HS0 _]. destruct (HS0 E1) as [-> Hr]. apply (skip_ok). exact Hr.
    - assert (G := skip_ok 0 ltac:(lia)). eapply agrees_eq; [| |exact G].
      + unfold std_skip. change (fPreSkip f) with (bSegPreSkip e =? 1). destruct (Z.eqb_spec (bSegPreSkip e) 1); [contradiction|]. reflexivity.
      + intros s. unfold readSkip. destruct (Z.eqb_spec (bSegPreSkip e) 1); [contradiction|]. reflexivity. }
  intros skip0 skip (-> & Hskip).
  eapply (agrees_bind _ _ _ _ _ _ _ _ (Qseg)).
  { rewrite bool_01 by lia. destruct (Z.eqb_spec (bSegPreSkip e) 1) as [E1|E1]; cbn [negb]; [apply agrees_done; apply HS0, E1|apply (segment_ok); exact Hskip]. }
  intros sg sgp (-> & Hsg). cbn [fst snd].
  eapply agrees_bind; [apply cdef_ok; [exact Hskip|exact HC]|]. cbv beta. intros cd g' Hg.
  eapply agrees_bind; [apply (q_ok); exact Hskip|]. intros q0 q' ->.
  eapply agrees_bind; [apply (lf_ok); [exact Hskip|exact HL]|]. intros lf0 lf' ->.
  destruct ref as [|r0 ref]; [discriminate|]. eapply agrees_lift; [apply upd_ok; lia|]. eapply agrees_lift; [apply upd_ok; rewrite zlen_upd_nat; lia|]. change (upd_nat (upd_nat (r0 :: ref) (Z.to_nat 0) INTRA_FRAME) (Z.to_nat 0) NONE) with (-1 :: ref).
  rewrite HI. apply agrees_ret.
  eapply agrees_bind; [apply (y_mode_ok)|]. cbv beta. intros y0 y (-> & Hy).
  eapply agrees_bind; [apply angle_ok; lia|]. intros ya0 ya ->.
  eapply (agrees_bind _ _ _ _ _ _ _ _ (fun c x => x = option_map uv_of c)).
  { change (kChroma k) with (bHasChroma e). destruct (bHasChroma e); [|apply agrees_done; reflexivity]. eapply agrees_bind; [apply (chroma_ok); exact Hy|]. cbv beta. intros c x ->. apply agrees_done. reflexivity. }
  intros c x ->.
  assert (EU : match option_map uv_of c with Some c0 => Some (fst (fst c0)) | None => None end = option_map cMode c) by (destruct c; reflexivity). rewrite EU.
  match goal with |- agrees _ _ _ _ _ (bind (lift (idx BLOCK_WIDTH (bMiSize e))) (fun w => bind (lift (idx BLOCK_HEIGHT (bMiSize e))) (fun h => bind (@?m w h) ?kk))) _ =>
    eapply (agrees_eq _ _ _ _ _ _ _ (bind (bind (lift (idx BLOCK_WIDTH (bMiSize e))) (fun w => bind (lift (idx BLOCK_HEIGHT (bMiSize e))) (fun h => m w h))) kk)) end;
    [reflexivity|intros s; rewrite EW, EH; rewrite !bind_eq; cbn [lift]; rewrite !bind_eq; cbn [lift]; reflexivity|].
  eapply agrees_bind; [apply (palette_ok)|]. intros _ _ _. eapply agrees_bind; [apply (filter_ok)|]. cbv beta. intros fl _ ->. apply agrees_done.
  unfold same_info. cbn. repeat (split; [first [reflexivity|exact Hg]|]). reflexivity.
Qed.

(** ** Against the standard itself *)
Definition negs (a : Z * Z) : Z * Z := (- fst a, - snd a).
Definition flip_chroma (c : chroma) : chroma := mkChroma (cMode c) (option_map negs (cCfl c)) (cAngle c).
Definition flip (i : info) : info := mkInfo (iSkip i) (iSeg i) (iCdef i) (iQ i) (iLf i) (iYMode i) (iYAngle i) (option_map flip_chroma (iChroma i)) (iFilter i).
Lemma alpha_std s s' : 0 <= s < 3 -> 0 <= s' < 3 -> ag (std_alpha 1 s s') (cflAlpha dis s s') (fun a b => b = - a /\ (a = 0 -> s = 0)).
Proof.
  intros H H'. unfold std_alpha, cflAlpha, CFL_SIGN_ZERO, CFL_SIGN_NEG. destruct (Z.eqb_spec s 0); cbn [negb]; [apply agrees_done; lia|].
  replace ((s - 1) * 3 + s') with (3 * (s - 1) + s') by lia.
  eapply (agrees_symk _ _ _ _ "CflAlphaCdf" [6] 16); [tab|inr|]. intros v Hv. apply agrees_done. destruct (Z.eqb_spec s 1), (Z.eqb_spec s 2); lia.
Qed.
Lemma cfl_std : ag (std_cfl 1) (readCflAlphas dis) (fun a b => b = negs a /\ a <> (0, 0)).
Proof.
  unfold std_cfl, readCflAlphas. eapply (agrees_symk _ _ _ _ "CflSignCdf" [] 8); [tab|constructor|]. intros j Hj. cbv zeta.
  assert (E1 : Z.quot (j + 1) 3 = (j + 1) / 3) by (apply Z.quot_div_nonneg; lia). assert (E2 : Z.rem (j + 1) 3 = (j + 1) mod 3) by (apply Z.rem_mod_nonneg; lia). rewrite E1, E2.
  pose proof (Z.div_mod (j + 1) 3 ltac:(lia)). pose proof (Z.mod_pos_bound (j + 1) 3 ltac:(lia)). pose proof (Z.div_pos (j + 1) 3 ltac:(lia) ltac:(lia)).
  eapply agrees_bind; [apply alpha_std; lia|]. cbv beta. intros a b [-> Ha]. eapply agrees_bind; [apply alpha_std; lia|]. cbv beta. intros a' b' [-> Ha']. apply agrees_done. split; [reflexivity|]. intros [= -> ->]. lia.
Qed.
Lemma chroma_std ll ymode : 0 <= ymode < 13 -> (ll = true \/ Z.max (bsize_w (bMiSize e)) (bsize_h (bMiSize e)) <> 32) -> ag (std_chroma 32 1 f k ll ymode) (intraChroma e ll ymode) (fun c x => x = uv_of (flip_chroma c)).
Proof.
  intros Hy HZ. unfold std_chroma, intraChroma.
  assert (EL : cfl_allowed 32 f k ll = cfl_allowed 31 f k ll).
  { unfold cfl_allowed. change (kSize k) with (bMiSize e). destruct ll; [reflexivity|]. destruct HZ as [HZ|HZ]; [discriminate|].
    destruct (Z.leb_spec (Z.max (bsize_w (bMiSize e)) (bsize_h (bMiSize e))) 32), (Z.leb_spec (Z.max (bsize_w (bMiSize e)) (bsize_h (bMiSize e))) 31); try lia; reflexivity. }
  rewrite EL.
  match goal with |- agrees _ _ _ _ (Sym ?n ?p ?g) _ _ => change (Sym n p g) with (andthen (Sym n p Done) g) end.
  eapply agrees_bind; [apply uv_mode_ok, Hy|]. cbv beta. intros m m' (-> & Hm). unfold UV_CFL_PRED.
  eapply (agrees_bind _ _ _ _ _ _ _ _ (fun a b => b = option_map negs a)).
  - destruct (m' =? 13); [|apply agrees_done; reflexivity]. eapply agrees_bind; [apply cfl_std|]. cbv beta. intros a b [-> _]. apply agrees_done. reflexivity.
  - intros a b ->. eapply agrees_bind; [apply angle_ok, Hm|]. intros x y ->. apply agrees_done. reflexivity.
Qed.
Lemma palette_std ymode c : bScreen e = 0 -> ag (std_palette true f k ymode c) 
   (let* w := lift (idx BLOCK_WIDTH (bMiSize e)) in
    let* h := lift (idx BLOCK_HEIGHT (bMiSize e)) in
    if (BLOCK_8X8 <=? bMiSize e) && (w <=? 64) && (h <=? 64) && bool_of (bScreen e) then paletteModeInfo e ymode (option_map cMode c) else ret tt) (fun _ _ => True).
Proof.
  intros HS0. eapply agrees_eq; [|reflexivity|apply (palette_ok ymode c)]. unfold std_palette, palette_possible. change (fScreen f) with (bScreen e =? 1). rewrite HS0. reflexivity.
Qed.
Lemma filter_std ymode : bFilterIntra e = false -> ag (std_filter true f k ymode) (filterIntraModeInfo e ymode) (fun a _ => a = None).
Proof. intros HF. eapply agrees_eq; [|reflexivity|apply (filter_ok ymode)]. unfold std_filter. change (fFilter f) with (bFilterIntra e). rewrite HF. reflexivity. Qed.
Lemma segment_std skip : bSegEnabled e = false -> 0 <= skip <= 1 -> ag (std_segment std_decode_segment f k skip) (intraSegmentId e skip) Qseg.
Proof. intros HF Hs. eapply agrees_eq; [|reflexivity|apply (segment_ok skip Hs)]. unfold std_segment. change (fSegEnabled f) with (bSegEnabled e). rewrite HF. reflexivity. Qed.
Lemma intra_std read seg ll g q lf ref : bSegEnabled e = false -> bScreen e = 0 -> bFilterIntra e = false -> (bHasChroma e = false \/ Z.max (bsize_w (bMiSize e)) (bsize_h (bMiSize e)) <> 32) -> bAllowIntraBc e = false -> zlen lf = 4 -> zlen ref = 2 -> cdef_in g ->
  ag (std_intra standard f k read (cdef_old e g) q lf) (intraFrameModeInfo e read seg ll g q lf ref) (fun i => same_info e g ref (flip i)).
Proof.
  intros Z1 Z2 Z3 Z4 HI HL HR HC. unfold std_intra, intraFrameModeInfo. pose proof OK as (HS & HP & _). destruct (block_facts _ HS) as (EW & EH & _). change (fPreSkip f) with (bSegPreSkip e =? 1).
  cbn [vSegment vCflLimit vNegative vRest standard].
  eapply (agrees_bind _ _ _ _ _ _ _ _ (fun a b => (bSegPreSkip e = 1 -> Qseg a b) /\ (bSegPreSkip e = 0 -> a = 0 /\ b = (seg, ll)))).
  { destruct (Z.eqb_spec (bSegPreSkip e) 1) as [E1|E1]; [eapply agrees_weaken; [apply (segment_std 0 Z1); lia|]; intros a b H; split; [intros _; exact H|intros; lia]|].
    apply agrees_done. split; [intros; lia|intros _; split; reflexivity]. }
  intros seg0 s0 HS0. cbv beta.
  eapply (agrees_bind _ _ _ _ _ _ _ _ (fun a b => a = b /\ 0 <= b <= 1)).
  { destruct (Z.eq_dec (bSegPreSkip e) 1) as [E1|E1].
    - destruct HS0 as [HS0 _]. destruct (HS0 E1) as [-> Hr]. apply (skip_ok). exact Hr.
    - assert (G := skip_ok 0 ltac:(lia)). eapply agrees_eq; [| |exact G].
      + unfold std_skip. change (fPreSkip f) with (bSegPreSkip e =? 1). destruct (Z.eqb_spec (bSegPreSkip e) 1); [contradiction|]. reflexivity.
      + intros s. unfold readSkip. destruct (Z.eqb_spec (bSegPreSkip e) 1); [contradiction|]. reflexivity. }
  intros skip0 skip (-> & Hskip).
  eapply (agrees_bind _ _ _ _ _ _ _ _ (Qseg)).
  { rewrite bool_01 by lia. destruct (Z.eqb_spec (bSegPreSkip e) 1) as [E1|E1]; cbn [negb]; [apply agrees_done; apply HS0, E1|apply (segment_std _ Z1); exact Hskip]. }
  intros sg sgp (-> & Hsg). cbn [fst snd].
  eapply agrees_bind; [apply cdef_ok; [exact Hskip|exact HC]|]. cbv beta. intros cd g' Hg.
  eapply agrees_bind; [apply (q_ok); exact Hskip|]. intros q0 q' ->.
  eapply agrees_bind; [apply (lf_ok); [exact Hskip|exact HL]|]. intros lf0 lf' ->.
  destruct ref as [|r0 ref]; [discriminate|]. eapply agrees_lift; [apply upd_ok; lia|]. eapply agrees_lift; [apply upd_ok; rewrite zlen_upd_nat; lia|]. change (upd_nat (upd_nat (r0 :: ref) (Z.to_nat 0) INTRA_FRAME) (Z.to_nat 0) NONE) with (-1 :: ref).
  rewrite HI. apply agrees_ret.
  eapply agrees_bind; [apply (y_mode_ok)|]. cbv beta. intros y0 y (-> & Hy).
  eapply agrees_bind; [apply angle_ok; lia|]. intros ya0 ya ->.
  eapply (agrees_bind _ _ _ _ _ _ _ _ (fun c x => x = option_map uv_of (option_map flip_chroma c))).
  { change (kChroma k) with (bHasChroma e). destruct (bHasChroma e); [|apply agrees_done; reflexivity]. eapply agrees_bind; [apply chroma_std; [exact Hy|right; destruct Z4; [discriminate|assumption]]|]. cbv beta. intros c x ->. apply agrees_done. reflexivity. }
  intros c x ->.
  assert (EU : match option_map uv_of (option_map flip_chroma c) with Some c0 => Some (fst (fst c0)) | None => None end = option_map cMode c) by (destruct c; reflexivity). rewrite EU.
  match goal with |- agrees _ _ _ _ _ (bind (lift (idx BLOCK_WIDTH (bMiSize e))) (fun w => bind (lift (idx BLOCK_HEIGHT (bMiSize e))) (fun h => bind (@?m w h) ?kk))) _ =>
    eapply (agrees_eq _ _ _ _ _ _ _ (bind (bind (lift (idx BLOCK_WIDTH (bMiSize e))) (fun w => bind (lift (idx BLOCK_HEIGHT (bMiSize e))) (fun h => m w h))) kk)) end;
    [reflexivity|intros s; rewrite EW, EH; rewrite !bind_eq; cbn [lift]; rewrite !bind_eq; cbn [lift]; reflexivity|].
  eapply agrees_bind; [apply (palette_std _ _ Z2)|]. intros _ _ _. eapply agrees_bind; [apply (filter_std _ Z3)|]. cbv beta. intros fl _ ->. apply agrees_done.
  unfold same_info. cbn. repeat (split; [first [reflexivity|exact Hg]|]). reflexivity.
Qed.
End Proofs.
