(** Properties C148 and C149: segments, skip mode and the inter flag of inter frames. *)
From Coq Require Import String.
From Verif Require Import GoBase Bitstream Util UtilProofs Constants Tables Frame Writes Symbol SpecMath SpecSymbol SymbolProofs PropUtil CdfMoves CdfMemory SpecPartition LoopFilter Intra SpecCoeffs CoeffRun Elements ElementsSim ElementsDemo SpecBlock ModeInfo ModeInfoProofs PropModeInfo InterMode SpecInterMode PropInterMode.
Local Open Scope string_scope.
Local Open Scope Z_scope.

(** ** C148 Segments *)
Definition prev_map (e : IEnv) (r c : Z) : option Z := match idx2 (nPrevSeg e) r c with Ok v => Some v | _ => None end.
Lemma Min_min a b : Min a b = Z.min a b. Proof. unfold Min. destruct (Z.leb_spec a b); lia. Qed.
(** The segment predicted from the previous map is the least one in the block (7 if there is none below). *)
Theorem C148_predicted : forall e v, 0 <= bMiSize (nB e) < 22 -> getSegmentId e = Ok v ->
  is_least (prev_map e) (bMiRow (nB e)) (bMiCol (nB e)) (Z.min (nRows e - bMiRow (nB e)) (bsize_h (bMiSize (nB e)) / 4)) (Z.min (nCols e - bMiCol (nB e)) (bsize_w (bMiSize (nB e)) / 4)) v.
Proof.
  intros e v Hb E. destruct (block_facts _ Hb) as (_ & _ & EW & EH & _). unfold getSegmentId in E. rewrite EW, EH in E. cbn [rbind] in E. rewrite !Min_min in E.
  set (row := bMiRow (nB e)) in *. set (col := bMiCol (nB e)) in *. set (h := Z.min (nRows e - row) _) in *. set (w := Z.min (nCols e - col) _) in *. unfold rfor_to in E.
  pose (P := fun (y : Z) (s : Z) => (forall r c t, row <= r < row + y -> col <= c < col + w -> prev_map e r c = Some t -> s <= t) /\ s <= 7 /\ (s = 7 \/ exists r c, row <= r < row + y /\ col <= c < col + w /\ prev_map e r c = Some s)).
  assert (G : P (0 + Z.of_nat (Z.to_nat (h - 0))) v).
  { apply (rfor_from_post P _ _ _ _ _) with (3 := E).
    - split; [intros; lia|]. split; [lia|left; reflexivity].
    - intros y s s1 Hy (P1 & P2 & P3) E1. unfold rfor_to in E1.
      pose (R := fun (x : Z) (q : Z) => q <= s /\ (forall c t, col <= c < col + x -> prev_map e (row + y) c = Some t -> q <= t) /\ (q = s \/ exists c, col <= c < col + x /\ prev_map e (row + y) c = Some q)).
      assert (G : R (0 + Z.of_nat (Z.to_nat (w - 0))) s1).
      { apply (rfor_from_post R _ _ _ _ _) with (3 := E1).
        - split; [lia|]. split; [intros; lia|left; reflexivity].
        - intros x q q1 Hx (R1 & R2 & R3) E2. apply rbind_inv in E2 as (u & Eu & E2). injection E2 as <-. rewrite Min_min. assert (EP : prev_map e (row + y) (col + x) = Some u) by (unfold prev_map; rewrite Eu; reflexivity).
          split; [lia|]. split.
          + intros c t Hc Et. destruct (Z.eq_dec c (col + x)) as [-> |NE]; [rewrite EP in Et; injection Et as <-; lia|]. specialize (R2 c t ltac:(lia) Et). lia.
          + destruct (Z.le_gt_cases q u); [replace (Z.min q u) with q by lia|replace (Z.min q u) with u by lia].
            * destruct R3 as [->|(c & Hc & Ec)]; [left; reflexivity|right; exists c; split; [lia|exact Ec]].
            * right. exists (col + x). split; [lia|exact EP]. }
      destruct G as (R1 & R2 & R3). split; [|split; [lia|]].
      + intros r c t Hr Hc Et. destruct (Z.eq_dec r (row + y)) as [-> |NE]; [apply (R2 c t); [lia|exact Et]|]. specialize (P1 r c t ltac:(lia) Hc Et). lia.
      + destruct R3 as [->|(c & Hc & Ec)]; [|right; exists (row + y), c; split; [lia|]; split; [lia|exact Ec]]. destruct P3 as [->|(r & c & Hr & Hc & Ec)]; [left; reflexivity|right; exists r, c; split; [lia|]; split; [lia|exact Ec]]. }
  destruct G as (G1 & _ & G3). split.
  - intros r c t Hr Hc Et. apply (G1 r c t); [lia|exact Hc|exact Et].
  - destruct G3 as [G3|(r & c & Hr & Hc & Ec)]; [left; exact G3|right; exists r, c; split; [lia|]; split; [lia|exact Ec]].
Qed.
Print Assumptions C148_predicted.
(** It is found whenever the map covers the frame. *)
Theorem C148_predicted_found : forall e, 0 <= bMiSize (nB e) < 22 ->
  (forall r c, bMiRow (nB e) <= r < nRows e -> bMiCol (nB e) <= c < nCols e -> exists v, idx2 (nPrevSeg e) r c = Ok v) -> exists v, getSegmentId e = Ok v.
Proof.
  intros e Hb H. destruct (block_facts _ Hb) as (_ & _ & EW & EH & _). unfold getSegmentId. rewrite EW, EH. cbn [rbind]. rewrite !Min_min.
  match goal with |- exists v, rfor_to ?a ?b ?body ?s = Ok v => destruct (rfor_to_ok (fun _ => True) a b body s I) as (v & E & _); [|exists v; exact E] end. intros y s Hy _.
  match goal with |- exists v, rfor_to ?a ?b ?body ?s = Ok v /\ True => destruct (rfor_to_ok (fun _ => True) a b body s I) as (v & E & _); [|exists v; split; [exact E|exact I]] end. intros x q Hx _.
  destruct (H (bMiRow (nB e) + y) (bMiCol (nB e) + x) ltac:(lia) ltac:(lia)) as [u Eu]. rewrite Eu. eexists. split; [reflexivity|exact I].
Qed.
Print Assumptions C148_predicted_found.
(** Without an update of the map the predicted segment is used and nothing is read; without segmentation the segment is 0. *)
Theorem C148_kept : forall e pre skip ctx s v, (bSegEnabled (nB e) = false -> interSegmentId e pre skip ctx s = Ok ((0, ctx), s)) /\
  (bSegEnabled (nB e) = true -> nUpdateMap e = 0 -> getSegmentId e = Ok v -> interSegmentId e pre skip ctx s = Ok ((v, ctx), s)).
Proof. intros e pre skip ctx s v. unfold interSegmentId. split; intros ->; [reflexivity|]. intros -> ->. reflexivity. Qed.
Print Assumptions C148_kept.
(** With an update and no temporal prediction the segment is read as in intra frames: in full for 8 segments and predictions (from the neighbours) of 0 and 1 (C104). *)
Theorem C148_read_partial : forall e endp pre ctx s v, ienv_ok e -> bSegEnabled (nB e) = true -> nUpdateMap e = 1 -> nTemporal e = 0 -> getSegmentId e = Ok v -> (pre = 0 \/ pre = 1 /\ bSegPreSkip (nB e) = 1) ->
  bLastActive (nB e) = 7 -> seg_pred (blk_of (bSkipModes (nB e)) (view e)) <= 1 -> ready endp s ->
  follows_program (can_fail (nB e)) (bDisable (nB e)) endp (std_segment std_decode_segment (frm_of (nB e)) (blk_of (bSkipModes (nB e)) (view e)) 0) (interSegmentId e pre 0 ctx) (fun a b => b = (a, ctx) /\ 0 <= a < 8) s.
Proof.
  intros e endp pre ctx s v (OK & _) HS HU HT HV HP HLA HPR HR.
  assert (F : follows_program (can_fail (nB e)) (bDisable (nB e)) endp (std_segment std_decode_segment (frm_of (nB e)) (blk_of (bSkipModes (nB e)) (view e)) 0) (intraSegmentId (nB e) 0) (fun a b => b = (a, fLossless (frm_of (nB e)) a) /\ 0 <= a < 8) s)
    by exact (C104_segment_partial (view e) endp 0 s OK ltac:(lia) HLA HPR HR).
  unfold follows_program in *. unfold intraSegmentId in F. rewrite HS in F.
  assert (E : interSegmentId e pre 0 ctx s = (let* s := readSegmentId (nB e) 0 in ret (s, ctx)) s).
  { unfold interSegmentId. rewrite HS, HV, HU, HT, bind_eq. cbn [lift]. change (bool_of 1) with true. cbv iota. destruct HP as [-> |[-> ->]]; reflexivity. }
  destruct (segs_ok (view e) OK) as (ul & u & l & EP & E1 & E2 & HB). change (prevSegIds (view e)) with (prevSegIds (nB e)) in EP. change (bSkipModes (view e)) with (bSkipModes (nB e)) in E1, E2, HB.
  destruct (run _ _ (fst s) (snd s)) as [[[a d] h]| |]; [|exact F|].
  - destruct F as (R & b & Eb & -> & Ha). split; [exact R|]. exists (a, ctx). split; [|split; [reflexivity|exact Ha]]. rewrite E. apply bind_inv in Eb as (x & t & E3 & E4). rewrite bind_eq, E3. apply bind_inv in E4 as (y & t1 & E5 & E6). apply lift_inv in E5 as [E5 ->]. injection E6 as <- _ <-. reflexivity.
  - destruct F as [C F]. exfalso. 
    destruct (sym_total endp (bDisable (nB e)) "SegmentIdCdf" [3] 8 [seg_context (blk_of (bSkipModes (nB e)) (view e))] s ltac:(tab) ltac:(pose proof (seg_ctx_range (view e)) as HC9; change (bSkipModes (view e)) with (bSkipModes (nB e)) in HC9; inr) (proj1 (ready_fit _ _) HR)) as (x & d & h & Hx & _ & Ex & _).
    unfold readSegmentId in F. rewrite bind_eq in F. rewrite bind_eq, EP in F. cbn [lift] in F. rewrite E1, E2 in F. change (0 =? 1) with false in F. cbv iota beta in F. rewrite bind_eq, Ex in F. cbn [ret] in F. rewrite HLA in F. change (7 + 1) with 8 in F.
    rewrite bind_eq in F. assert (EL := lossless_ok (view e) OK). change (bLosslessArray (view e)) with (bLosslessArray (nB e)) in EL. rewrite EL in F; [discriminate|]. apply (proj1 (C18_still_a_bijection _ 8 HB)). exact Hx.
Qed.
Print Assumptions C148_read_partial.
(** Refuted: temporal prediction ends the decoder. *)
Theorem C148_temporal_refuted : forall e pre ctx s, bSegEnabled (nB e) = true -> nUpdateMap e = 1 -> nTemporal e = 1 -> (pre = 0 \/ bSegPreSkip (nB e) = 1) -> interSegmentId e pre 0 ctx s = Panic.
Proof.
  intros e pre ctx s HS HU HT HP. unfold interSegmentId. rewrite HS, HU, HT, bind_eq. unfold lift at 1. destruct (getSegmentId e) as [v| |] eqn:E; [|reflexivity|].
  - change (bool_of 1) with true. cbv iota. assert (EB : bool_of pre && negb (bool_of (bSegPreSkip (nB e))) = false) by (destruct HP as [->| ->]; [reflexivity|apply andb_false_r]). rewrite EB. rewrite andb_false_r. reflexivity.
  - exfalso. revert E. unfold getSegmentId. destruct (idx NUM_4X4_BLOCKS_WIDE (bMiSize (nB e))) eqn:E1; [|discriminate|exfalso; exact (idx_nh _ _ E1)]. cbn [rbind]. destruct (idx NUM_4X4_BLOCKS_HIGH (bMiSize (nB e))) eqn:E2; [|discriminate|exfalso; exact (idx_nh _ _ E2)]. cbn [rbind].
    apply rfor_to_nh. intros y q. apply rfor_to_nh. intros x q1. destruct (idx2 (nPrevSeg e) _ _) eqn:E3; try discriminate. exfalso. exact (idx2_nh _ _ _ E3).
Qed.
Print Assumptions C148_temporal_refuted.
Lemma fill_post (ctx c' : list Z) base n v : rfor_to 0 n (fun i c => upd c (base + i) v) ctx = Ok c' -> 0 <= n -> zlen c' = zlen ctx /\ (forall p, base <= p < base + n -> idx c' p = Ok v) /\ (forall p, ~ base <= p < base + n -> idx c' p = idx ctx p).
Proof.
  intros E Hn. unfold rfor_to in E. pose (P := fun (i : Z) (c : list Z) => zlen c = zlen ctx /\ (forall p, base <= p < base + i -> idx c p = Ok v) /\ (forall p, ~ base <= p < base + i -> idx c p = idx ctx p)).
  assert (G : P (0 + Z.of_nat (Z.to_nat (n - 0))) c').
  { apply (rfor_from_post P _ _ _ _ _) with (3 := E); [split; [reflexivity|]; split; [intros; lia|reflexivity]|]. intros j a a1 Hj (P0 & P1 & P2) E1. split; [apply upd_inv in E1 as [_ ->]; rewrite zlen_upd_nat; exact P0|]. split; intros p Hp.
    - destruct (Z.eq_dec p (base + j)) as [-> |NE]; [apply (idx_upd_same _ _ _ _ E1)|]. rewrite (idx_upd_other _ _ _ p _ E1) by lia. apply P1. lia.
    - rewrite (idx_upd_other _ _ _ p _ E1) by lia. apply P2. lia. }
  replace (0 + Z.of_nat (Z.to_nat (n - 0))) with n in G by lia. exact G.
Qed.
(** For a skipped block the flags of temporal prediction are cleared above the block. *)
Theorem C148_cleared_partial : forall e v ctx c', 0 <= bMiSize (nB e) < 22 -> segPredContext e v ctx = Ok c' ->
  (forall p, bMiCol (nB e) <= p < bMiCol (nB e) + bsize_w (bMiSize (nB e)) / 4 -> idx c' p = Ok v) /\
  (forall p, ~ bMiCol (nB e) <= p < bMiCol (nB e) + bsize_w (bMiSize (nB e)) / 4 -> ~ bMiRow (nB e) <= p < bMiRow (nB e) + bsize_h (bMiSize (nB e)) / 4 -> idx c' p = idx ctx p).
Proof.
  intros e v ctx c' Hb E. destruct (block_facts _ Hb) as (_ & _ & EW & EH & _ & _ & PW & PH). unfold segPredContext in E. rewrite EW, EH in E. cbn [rbind] in E. apply rbind_inv in E as (c & E1 & E2).
  destruct (fill_post _ _ _ _ _ E1 ltac:(lia)) as (_ & A1 & A2). destruct (fill_post _ _ _ _ _ E2 ltac:(lia)) as (_ & B1 & B2). split; intros p Hp.
  - destruct (Z_le_dec (bMiRow (nB e)) p), (Z_lt_dec p (bMiRow (nB e) + bsize_h (bMiSize (nB e)) / 4)); first [apply B1; lia|rewrite B2 by lia; apply A1; exact Hp].
  - intros Hq. rewrite B2 by exact Hq. apply A2, Hp.
Qed.
Print Assumptions C148_cleared_partial.
(** Refuted: those to the left are also cleared in the row of flags above, at the columns numbered as the block's rows. *)
Theorem C148_left_refuted : forall e v ctx c' p, 0 <= bMiSize (nB e) < 22 -> segPredContext e v ctx = Ok c' -> bMiRow (nB e) <= p < bMiRow (nB e) + bsize_h (bMiSize (nB e)) / 4 -> idx c' p = Ok v.
Proof.
  intros e v ctx c' p Hb E Hp. destruct (block_facts _ Hb) as (_ & _ & EW & EH & _ & _ & PW & PH). unfold segPredContext in E. rewrite EW, EH in E. cbn [rbind] in E. apply rbind_inv in E as (c & E1 & E2).
  destruct (fill_post _ _ _ _ _ E2 ltac:(lia)) as (_ & B1 & _). apply B1, Hp.
Qed.
Print Assumptions C148_left_refuted.
(** Refuted: the row of flags has three elements (clearAboveContext); a skipped block that ends beyond the third column or row ends the decoder. *)
Theorem C148_short_refuted : forall e ctx s, 0 <= bMiSize (nB e) < 22 -> 0 <= bMiCol (nB e) -> 0 <= bMiRow (nB e) -> zlen ctx = 3 -> 3 < bMiCol (nB e) + bsize_w (bMiSize (nB e)) / 4 \/ 3 < bMiRow (nB e) + bsize_h (bMiSize (nB e)) / 4 ->
  bSegEnabled (nB e) = true -> nUpdateMap e = 1 -> forall x, interSegmentId e 0 1 ctx s <> Ok x.
Proof.
  intros e ctx s Hb HC HR HL HB HS HU [[v c] s'] E. unfold interSegmentId in E. rewrite HS, HU in E. apply bind_inv in E as (p & s1 & _ & E). change (bool_of 1) with true in E. change (bool_of 0) with false in E. cbn [andb negb] in E. cbv iota in E.
  apply bind_inv in E as (c1 & s2 & E1 & _). apply lift_inv in E1 as [E1 _].
  destruct (block_facts _ Hb) as (_ & _ & EW & EH & _ & _ & PW & PH). unfold segPredContext in E1. rewrite EW, EH in E1. cbn [rbind] in E1. apply rbind_inv in E1 as (c0 & E1 & E2).
  destruct (fill_post _ _ _ _ _ E1 ltac:(lia)) as (L1 & A1 & _). destruct (fill_post _ _ _ _ _ E2 ltac:(lia)) as (L2 & B1 & _).
  destruct HB as [HB|HB]; [specialize (A1 (bMiCol (nB e) + bsize_w (bMiSize (nB e)) / 4 - 1) ltac:(lia)); apply idx_inv in A1 as [A1 _]; lia|specialize (B1 (bMiRow (nB e) + bsize_h (bMiSize (nB e)) / 4 - 1) ltac:(lia)); apply idx_inv in B1 as [B1 _]; lia].
Qed.
Print Assumptions C148_short_refuted.
Definition seg_in (b : BEnv) (upd temporal : Z) : IEnv :=
  mkIEnv b upd temporal 0 [1; 7] false false false true 0 true true true false (repeat (repeat [1; -1] 64) 64) (repeat (repeat 6 3) 2 ++ [[6; 4; 6; 6; 6]] ++ repeat (repeat 5 64) 61)%list 3 3 (repeat (repeat 3 8) 8) (repeat 0 8) (repeat (repeat 6 64) 64) 0 64 0 64.
Definition sized (b : BEnv) (r c size : Z) : BEnv :=
  mkBEnv (bDisable b) (bSegPreSkip b) (bSegEnabled b) (bLastActive b) (bFeature b) (bLosslessArray b) (bCodedLossless b) (bEnableCdef b) (bAllowIntraBc b) (bCdefBits b) (bUse128 b) (bQRes b) (bLfPresent b) (bLfMulti b) (bLfRes b) (bNumPlanes b) (bSubX b) (bSubY b) (bScreen b) (bFilterIntra b) r c size (bAvailU b) (bAvailL b) (bHasChroma b)
    (bYModes b) (bSegIds b) (bSkipModes b) (bPaletteSizes b).
Example C148_case : getSegmentId (seg_in demo_b 1 0) = Ok 4 /\ ienv_ok (seg_in demo_b 1 0) /\ seg_pred (blk_of (bSkipModes demo_b) (view (seg_in demo_b 1 0))) = 1 /\
  match interSegmentId (seg_in demo_b 1 0) 0 0 [9] demo_es, interSegmentId (seg_in demo_b 0 0) 0 0 [9] demo_es, interSegmentId (seg_in demo_b 1 1) 0 0 [9] demo_es with Ok (a, _), Ok (b, _), Panic => (a, b) = ((1, [9]), (4, [9])) | _, _, _ => False end /\
  segPredContext (seg_in (sized demo_b 0 4 6) 1 0) 0 (repeat 1 10) = Ok [0; 0; 0; 0; 0; 0; 0; 0; 1; 1].
Proof.
  split; [vm_compute; reflexivity|]. split; [split; [unfold seg_in; demo_ok|split; intros _; split; eexists; reflexivity]|]. split; [vm_compute; reflexivity|]. split; vm_compute; reflexivity.
Qed.

(** ** C149 Skip mode and the inter flag *)
Lemma ctx_inter e : isInterCtx e (nbrs_of e) = inter_ctx (above_of e) (left_of e) /\ 0 <= isInterCtx e (nbrs_of e) < 4.
Proof.
  unfold isInterCtx, leftIntra, aboveIntra, nbrs_of, inter_ctx, above_of, left_of, INTRA_FRAME. destruct (bAvailU (nB e)), (bAvailL (nB e)); cbn [andb orb intra_nb fst snd nbL0 nbA0];
    unfold refs_at; cbn [fst snd]; repeat match goal with |- context [?a <=? 0] => destruct (a <=? 0) end; cbn; lia.
Qed.
(** feature of a segment, and its value *)
Definition seg_value (e : IEnv) (seg f : Z) : option Z := if bSegEnabled (nB e) && (cell (bFeature (nB e)) seg f =? 1) then Some (cell (nFeatureData e) seg f) else None.
Lemma active_ok b seg f : env_ok b -> 0 <= seg < 8 -> 0 <= f < 8 -> segFeatureActive b seg f = Ok (bSegEnabled b && (cell (bFeature b) seg f =? 1)).
Proof.
  intros OK Hs Hf. unfold segFeatureActive. destruct (bSegEnabled b); [|reflexivity]. destruct OK as (_ & _ & _ & HF & _). destruct (proj2 (array2_get 8 8 (bFeature b) seg f HF) ltac:(lia)) as [v Ev]. rewrite Ev. cbn [rbind andb]. rewrite (cell_ok _ _ _ _ Ev). reflexivity.
Qed.
Lemma active_in e seg f : ienv_ok e -> 0 <= seg < 8 -> 0 <= f < 8 -> segFeatureActive (nB e) seg f = Ok (bSegEnabled (nB e) && (cell (bFeature (nB e)) seg f =? 1)).
Proof. intros (OK & _). exact (active_ok (view e) seg f OK). Qed.
(** Outside of skip mode and of segments with global motion the flag is the standard's. *)
Theorem C149_is_inter_partial : forall e endp seg s, ienv_ok e -> 0 <= seg < 8 -> array2 8 8 (nFeatureData e) -> seg_value e seg 7 = None -> ready endp s ->
  exists n, neighbours e = Ok n /\ follows_program False (bDisable (nB e)) endp (std_is_inter (seg_value e seg 5) false (above_of e) (left_of e)) (readIsInter e n 0 seg) (fun a b => b = a /\ 0 <= a <= 1) s.
Proof.
  intros e endp seg s HE Hs HD HG HR. exists (nbrs_of e). split; [apply neighbours_ok, HE|]. apply agrees_follows; [|exact HR]. unfold readIsInter. change (bool_of 0) with false. cbv iota. change SEG_LVL_REF_FRAME with 5. change SEG_LVL_GLOBALMV with 7.
  eapply agrees_lift; [apply (active_in e); [exact HE|exact Hs|lia]|]. unfold seg_value in *. destruct (bSegEnabled (nB e) && (cell (bFeature (nB e)) seg 5 =? 1)).
  - destruct (proj2 (array2_get 8 8 (nFeatureData e) seg 5 HD) ltac:(lia)) as [v Ev]. eapply agrees_lift; [exact Ev|]. rewrite (cell_ok _ _ _ _ Ev). cbn [std_is_inter]. apply agrees_done. change INTRA_FRAME with 0. destruct (v =? 0); cbn; lia.
  - eapply agrees_lift; [apply (active_in e); [exact HE|exact Hs|lia]|]. destruct (bSegEnabled (nB e) && (cell (bFeature (nB e)) seg 7 =? 1)); [discriminate|]. destruct (ctx_inter e) as [EC HC]. cbn [std_is_inter]. rewrite <- EC.
    eapply agrees_weaken; [apply (agrees_sym _ _ _ _ "IsInterCdf" [4] 2); [tab|inr]|]. cbv beta. intros a b [-> Hb]. lia.
Qed.
Print Assumptions C149_is_inter_partial.
(** In skip mode a block is inter coded. *)
Theorem C149_skip_mode_inter : forall e n seg s, readIsInter e n 1 seg s = Ok (1, s). Proof. reflexivity. Qed.
Print Assumptions C149_skip_mode_inter.
(** Refuted: in a segment with global motion a block is inter coded; the code makes it intra. *)
Theorem C149_global_refuted : forall e n seg s A L, ienv_ok e -> 0 <= seg < 8 -> seg_value e seg 5 = None -> seg_value e seg 7 <> None ->
  std_is_inter (seg_value e seg 5) true A L = Done 1 /\ readIsInter e n 0 seg s = Ok (0, s).
Proof.
  intros e n seg s A L HE Hs H5 H7. rewrite H5. split; [reflexivity|]. unfold readIsInter. change (bool_of 0) with false. cbv iota. change SEG_LVL_REF_FRAME with 5. change SEG_LVL_GLOBALMV with 7. unfold seg_value in *.
  rewrite (active_in e seg 5 HE Hs) by lia. rewrite (active_in e seg 7 HE Hs) by lia. rewrite bind_eq. cbn [lift]. destruct (bSegEnabled (nB e) && (cell (bFeature (nB e)) seg 5 =? 1)); [discriminate|]. rewrite bind_eq. cbn [lift].
  destruct (bSegEnabled (nB e) && (cell (bFeature (nB e)) seg 7 =? 1)); [reflexivity|congruence].
Qed.
Print Assumptions C149_global_refuted.
(** Skip mode is not coded (0) if the frame has none, for blocks with a side below 8, and in segments with a feature skip, reference or global motion. *)
Definition skip_mode_coded (e : IEnv) (seg : Z) : bool :=
  bool_of (nSkipPresent e) && (8 <=? bsize_w (bMiSize (nB e))) && (8 <=? bsize_h (bMiSize (nB e))) && match seg_value e seg 6, seg_value e seg 5, seg_value e seg 7 with None, None, None => true | _, _, _ => false end.
Lemma skip_mode_ok e seg s : ienv_ok e -> 0 <= seg < 8 -> readSkipMode e seg s = if skip_mode_coded e seg then Panic else Ok (0, s).
Proof.
  intros HE Hs. pose proof HE as (OK & _). unfold readSkipMode. change SEG_LVL_SKIP with 6. change SEG_LVL_REF_FRAME with 5. change SEG_LVL_GLOBALMV with 7. rewrite !(active_in e seg _ HE Hs) by lia. pose proof OK as (Hb & _). change (bMiSize (view e)) with (bMiSize (nB e)) in Hb. destruct (block_facts _ Hb) as (EW & EH & _).
  unfold skip_mode_coded, seg_value. set (a := bSegEnabled (nB e) && (cell (bFeature (nB e)) seg 6 =? 1)). set (b := bSegEnabled (nB e) && (cell (bFeature (nB e)) seg 5 =? 1)). set (c := bSegEnabled (nB e) && (cell (bFeature (nB e)) seg 7 =? 1)).
  rewrite EW, EH. rewrite bind_eq. cbn [lift]. rewrite bind_eq. replace (if a then Ok true else Ok b) with (Ok (a || b)) by (destruct a; reflexivity). cbn [lift]. rewrite bind_eq. replace (if a || b then Ok true else Ok c) with (Ok (a || b || c)) by (destruct a, b; reflexivity). cbn [lift].
  rewrite bind_eq. cbn [lift]. rewrite bind_eq. cbn [lift]. destruct (Z.leb_spec 8 (bsize_w (bMiSize (nB e)))), (Z.ltb_spec (bsize_w (bMiSize (nB e))) 8), (Z.leb_spec 8 (bsize_h (bMiSize (nB e)))), (Z.ltb_spec (bsize_h (bMiSize (nB e))) 8); try lia;
    destruct a, b, c, (bool_of (nSkipPresent e)); reflexivity.
Qed.
Theorem C149_skip_mode_partial : forall e seg s, ienv_ok e -> 0 <= seg < 8 -> skip_mode_coded e seg = false -> readSkipMode e seg s = Ok (0, s).
Proof. intros e seg s HE Hs H. rewrite skip_mode_ok by assumption. rewrite H. reflexivity. Qed.
Print Assumptions C149_skip_mode_partial.
(** Refuted: where it is coded the decoder ends. *)
Theorem C149_skip_mode_refuted : forall e seg s, ienv_ok e -> 0 <= seg < 8 -> skip_mode_coded e seg = true -> readSkipMode e seg s = Panic.
Proof. intros e seg s HE Hs H. rewrite skip_mode_ok by assumption. rewrite H. reflexivity. Qed.
Print Assumptions C149_skip_mode_refuted.
Definition gm_b : BEnv :=
  mkBEnv false 0 true 7 (repeat [0; 0; 0; 0; 0; 0; 0; 1] 8) (repeat false 8) false true false 2 false 1 true 1 1 3 true true 0 false 1 1 6 true true true
    (repeat (repeat 1 64) 64) (repeat (repeat 1 64) 64) (repeat (repeat 0 2) 2) (repeat (repeat (repeat 0 2) 2) 2).
Example C149_case : seg_value (seg_in gm_b 1 0) 3 5 = None /\ seg_value (seg_in gm_b 1 0) 3 7 = Some 3 /\ match readIsInter (seg_in gm_b 1 0) (mkNbrs 1 (-1) 1 (-1)) 0 3 demo_es with Ok (v, _) => v = 0 | _ => False end /\
  match readIsInter (seg_in demo_b 1 0) (mkNbrs 1 (-1) 1 (-1)) 0 3 demo_es, readIsInter (seg_in demo_b 1 0) (mkNbrs 0 (-1) 0 (-1)) 0 3 (seg_es 25000) with Ok (v, _), Ok (w, _) => (v, w) = (1, 0) | _, _ => False end /\
  skip_mode_coded (mkIEnv demo_nb 0 0 1 [1; 7] false false false true 0 true true true false [] [] 3 3 [] [] [] 0 64 0 64) 0 = true.
Proof. repeat (split; [vm_compute; reflexivity|]). vm_compute. reflexivity. Qed.
