(** Properties C102-C110: mode information of intra frames. *)
From Coq Require Import String.
From Verif Require Import GoBase Bitstream Util UtilProofs Constants Tables Frame Writes Symbol SpecMath SpecSymbol SymbolProofs PropSymbol PropUtil CdfMoves CdfMemory SpecPartition LoopFilter Intra SpecCoeffs CoeffRun Elements ElementsSim ElementsDemo SpecBlock ModeInfo ModeInfoProofs.
Local Open Scope string_scope.
Local Open Scope Z_scope.

(** The decoder is inside a tile whose data ends at bit [endp], and every table of the block level is a CDF with the right number of symbols. *)
Definition ready (endp : Z) (s : ES) : Prop := in_tile (fst s) endp /\ table_ok block_cdfs (snd s).
(** The computation [m] reads what the program [p] of the standard asks for, and the results are related by Q: same symbols with the same tables and contexts.
    It panics exactly where the program fails; this happens only if [bad]. *)
Definition follows_program {A B} (bad : Prop) (dis : bool) (endp : Z) (p : prog A) (m : M ES B) (Q : A -> B -> Prop) (s : ES) : Prop :=
  match run dis p (fst s) (snd s) with
  | Ok (a, d, h) => ready endp (d, h) /\ exists b, m s = Ok (b, (d, h)) /\ Q a b
  | Hang => bad /\ m s = Panic
  | Panic => False
  end.
Lemma ready_fit endp s : ready endp s <-> fit block_cdfs endp s.
Proof. unfold ready, fit. rewrite in_tile_state. reflexivity. Qed.
Lemma agrees_follows {A B} (bad : Prop) dis endp (p : prog A) (m : M ES B) (Q : A -> B -> Prop) s : agrees block_cdfs dis endp bad p m Q -> ready endp s -> follows_program bad dis endp p m Q s.
Proof.
  intros H R. apply ready_fit in R. specialize (H s R). unfold follows_program. destruct (run dis p (fst s) (snd s)) as [[[a d] h]| |]; auto. destruct H as (F & b & E & HQ). split; [apply ready_fit, F|eauto].
Qed.

(** ** A concrete state: default tables; a 16x16 block (size 6) with neighbours, 4:2:0, segmentation after skip, CDEF, all deltas present *)
Definition demo_es : ES := (demo_dec, demo_heap).
Lemma demo_ready : ready 24 demo_es.
Proof. split; [unfold in_tile, zlen; cbn; lia|]. apply table_okb_ok. vm_compute. reflexivity. Qed.
Definition demo_b : BEnv :=
  mkBEnv false 0 true 7 (repeat (repeat 0 8) 8) (repeat false 8) false true false 2 false 1 true 1 1 3 true true 0 false 1 1 6 true true true
    (repeat (repeat 1 64) 64) (repeat (repeat 1 64) 64) (repeat (repeat 0 2) 2) (repeat (repeat (repeat 0 2) 2) 2).
Lemma demo_b_ok : env_ok demo_b.
Proof.
  unfold env_ok, demo_b, nb_ok, array2, array1, zlen. cbn [bMiSize bSegPreSkip bLastActive bFeature bLosslessArray bCdefBits bQRes bLfRes bLfMulti bScreen bAvailU bAvailL bYModes bSegIds bSkipModes bPaletteSizes bMiRow bMiCol].
  repeat (split; [first [lia|reflexivity|(split; [reflexivity|repeat constructor])]|]).
  split; [|split]; intros; repeat split; eexists; (split; [vm_compute; reflexivity|lia]) || (vm_compute; reflexivity).
Qed.

(** ** C102: intra_frame_mode_info *)
(** What the function does is what the standard's syntax does with these differences (code_variant): the segment is de-interleaved as in C18 and not clipped (C104), the limit
    of chroma from luma is 31 instead of 32 and its signs are exchanged (C108), palettes in chroma and recursive filters are not read (C109), the context of the skip flag is
    taken from another array (C103); and for blocks whose column of 64x64 areas is not beyond its row, of at most 64x64 (C105). *)
Theorem C102_intra_mode_info_partial : forall e endp read seg ll g q lf ref s, env_ok e -> bAllowIntraBc e = false -> zlen lf = 4 -> zlen ref = 2 -> cdef_in e g -> ready endp s ->
  follows_program (can_fail e) (bDisable e) endp (std_intra code_variant (frm_of e) (blk_of (bSkipModes e) e) read (cdef_old e g) q lf) (intraFrameModeInfo e read seg ll g q lf ref) (same_info e g ref) s.
Proof. intros e endp read seg ll g q lf ref s H1 H2 H3 H4 H5 HR. apply agrees_follows; [|exact HR]. apply (intra_ok e endp H1); assumption. Qed.
Print Assumptions C102_intra_mode_info_partial.

Lemma blk_same skips e : (bAvailU e = true -> cell skips (bMiRow e - 1) (bMiCol e) = cell (bSkipModes e) (bMiRow e - 1) (bMiCol e)) ->
  (bAvailL e = true -> cell skips (bMiRow e) (bMiCol e - 1) = cell (bSkipModes e) (bMiRow e) (bMiCol e - 1)) -> blk_of skips e = blk_of (bSkipModes e) e.
Proof. intros HU HL. unfold blk_of, nb_at. destruct (bAvailU e), (bAvailL e); try rewrite (HU eq_refl); try rewrite (HL eq_refl); reflexivity. Qed.
(** Without segmentation, screen content tools and filter intra, if the skip flags of the neighbours agree in both arrays, for blocks without chroma or of longer side other
    than 32: exactly the standard's result, but for the sign of the chroma from luma parameters (flip).  In particular the function returns. *)
Theorem C102_standard_partial : forall e endp read seg ll g q lf ref skips s, env_ok e -> bAllowIntraBc e = false -> zlen lf = 4 -> zlen ref = 2 -> cdef_in e g ->
  bSegEnabled e = false -> bScreen e = 0 -> bFilterIntra e = false -> (bHasChroma e = false \/ Z.max (bsize_w (bMiSize e)) (bsize_h (bMiSize e)) <> 32) ->
  (bAvailU e = true -> cell skips (bMiRow e - 1) (bMiCol e) = cell (bSkipModes e) (bMiRow e - 1) (bMiCol e)) ->
  (bAvailL e = true -> cell skips (bMiRow e) (bMiCol e - 1) = cell (bSkipModes e) (bMiRow e) (bMiCol e - 1)) -> ready endp s ->
  exists i d h x, run (bDisable e) (std_intra standard (frm_of e) (blk_of skips e) read (cdef_old e g) q lf) (fst s) (snd s) = Ok (i, d, h) /\
    intraFrameModeInfo e read seg ll g q lf ref s = Ok (x, (d, h)) /\ same_info e g ref (flip i) x /\ ready endp (d, h).
Proof.
  intros e endp read seg ll g q lf ref skips s H1 H2 H3 H4 H5 Z1 Z2 Z3 Z4 HU HL HR. rewrite (blk_same skips e HU HL).
  assert (F := agrees_follows _ _ _ _ _ _ s (intra_std e endp H1 read seg ll g q lf ref Z1 Z2 Z3 Z4 H2 H3 H4 H5) HR). unfold follows_program in F.
  destruct (run (bDisable e) (std_intra standard (frm_of e) (blk_of (bSkipModes e) e) read (cdef_old e g) q lf) (fst s) (snd s)) as [[[i d] h]| |]; [|contradiction|].
  - destruct F as (R & x & E & Q). exists i, d, h, x. auto.
  - destruct F as ([B|[B|B]] & _); rewrite B in *; discriminate.
Qed.
Print Assumptions C102_standard_partial.
Definition demo_g : list (list Z) := repeat (repeat (-1) 32) 32.
Definition demo_info : res (IntraInfo * ES) := intraFrameModeInfo demo_b true 0 false demo_g 100 [0; 0; 0; 0] [0; 5] demo_es.
Example C102_case : env_ok demo_b /\ cdef_in demo_b demo_g /\ ready 24 demo_es /\
  match demo_info with Ok (x, _) => (xSkip x, xSegId x, xQ x, xLf x, xRefFrame x, xYMode x, xYAngle x, xUV x) = (0, 1, 100, [0; 0; 0; 0], [-1; 5], 12, 0, Some (9, None, 0)) | _ => False end.
Proof.
  split; [exact demo_b_ok|]. split; [intros _; split; [exists (-1); vm_compute; reflexivity|vm_compute; repeat split; congruence]|]. split; [exact demo_ready|]. vm_compute. reflexivity.
Qed.

(** ** C103: the skip flag *)
Theorem C103_skip_partial : forall e endp seg s, env_ok e -> 0 <= seg < 8 -> ready endp s ->
  follows_program (can_fail e) (bDisable e) endp (std_skip (skip_count (blk_of (bSkipModes e) e)) (frm_of e) seg) (readSkip e seg) (fun a b => a = b /\ 0 <= b <= 1) s.
Proof. intros e endp seg s H1 H2 HR. apply agrees_follows; [|exact HR]. apply (skip_ok e endp H1 seg H2). Qed.
Print Assumptions C103_skip_partial.
(** Refuted: the context comes from the skip modes (of compound prediction, 0 in intra frames), not from the skip flags. *)
Theorem C103_context_refuted : forall e endp seg skips s, env_ok e -> 0 <= seg < 8 -> bSegPreSkip e = 0 -> ready endp s ->
  (bAvailU e = true -> cell (bSkipModes e) (bMiRow e - 1) (bMiCol e) = 0) -> (bAvailL e = true -> cell (bSkipModes e) (bMiRow e) (bMiCol e - 1) = 0) ->
  std_skip (skip_count (blk_of skips e)) (frm_of e) seg = Sym "SkipCdf" [skip_count (blk_of skips e)] Done /\ readSkip e seg s = esym (bDisable e) "SkipCdf" [0] s.
Proof.
  intros e endp seg skips s OK Hs HP HR HU HL. split; [unfold std_skip; change (fPreSkip (frm_of e)) with (bSegPreSkip e =? 1); rewrite HP; reflexivity|].
  destruct (skip_ctx_ok e OK) as (a & l & Ea & El & E & _). unfold readSkip. rewrite HP. change (0 =? 1) with false. cbv iota. rewrite bind_eq. cbn [lift]. rewrite Ea, El, !bind_eq. cbn [lift]. rewrite !bind_eq. cbn [lift]. f_equal. f_equal. rewrite E.
  unfold skip_count, blk_of. cbn [kAbove kLeft]. destruct (bAvailU e), (bAvailL e); cbn [nb_at nSkip]; try rewrite (HU eq_refl); try rewrite (HL eq_refl); reflexivity.
Qed.
Print Assumptions C103_context_refuted.
(** Refuted: the skip modes are kept for 2x2 units of 4x4 samples (SkipModes is [2][2]int); with a neighbour above outside of these no flag can be read. *)
Theorem C103_small_array_refuted : forall e seg s, array2 2 2 (bSkipModes e) -> bSegPreSkip e = 0 -> bAvailU e = true -> 3 <= bMiRow e \/ 2 <= bMiCol e -> readSkip e seg s = Panic.
Proof.
  intros e seg s HA HP HU HB. unfold readSkip. rewrite HP, HU. change (0 =? 1) with false. cbv iota. rewrite bind_eq. cbn [lift]. rewrite bind_eq.
  destruct (idx2 (bSkipModes e) (bMiRow e - 1) (bMiCol e)) as [v| |] eqn:E; cbn [lift]; [|reflexivity|exfalso; exact (idx2_nh _ _ _ E)].
  exfalso. assert (G : exists v, idx2 (bSkipModes e) (bMiRow e - 1) (bMiCol e) = Ok v) by eauto. apply (array2_get 2 2 _ _ _ HA) in G. lia.
Qed.
Print Assumptions C103_small_array_refuted.
(** both neighbours skipped: the standard's context is 2, the code's 0, and the flags read differ *)
Definition skip_es : ES := (mkDec 5000 40000 9 (mkBS [0xA5; 0x5A; 0xF0] 15 0), demo_heap).
Example C103_case : skip_count (blk_of (repeat (repeat 1 2) 2) demo_b) = 2 /\
  match run false (std_skip 2 (frm_of demo_b) 0) (fst skip_es) (snd skip_es), readSkip demo_b 0 skip_es with Ok (a, _, _), Ok (b, _) => (a, b) = (1, 0) | _, _ => False end.
Proof. split; vm_compute; reflexivity. Qed.

(** ** C104: the segment *)
Theorem C104_segment_partial : forall e endp skip s, env_ok e -> 0 <= skip <= 1 -> bLastActive e = 7 -> seg_pred (blk_of (bSkipModes e) e) <= 1 -> ready endp s ->
  follows_program (can_fail e) (bDisable e) endp (std_segment std_decode_segment (frm_of e) (blk_of (bSkipModes e) e) skip) (intraSegmentId e skip) (fun a b => b = (a, fLossless (frm_of e) a) /\ 0 <= a < 8) s.
Proof.
  intros e endp skip s OK Hs HL HP HR. apply agrees_follows; [|exact HR]. apply (segment_gen e endp OK); [|exact Hs]. intros v Hv. rewrite HL. change (7 + 1) with 8.
  destruct (segs_ok e OK) as (_ & _ & _ & _ & _ & _ & HB). unfold std_decode_segment, code_segment. cbv zeta. rewrite (C18_agrees_with_spec_ref_0_1_partial v _ 8) by lia.
  assert (G : 0 <= spec_neg_deinterleave v (seg_pred (blk_of (bSkipModes e) e)) 8 < 8).
  { rewrite <- (C18_agrees_with_spec_ref_0_1_partial v _ 8) by lia. apply (proj1 (C18_still_a_bijection _ 8 HB)). exact Hv. }
  destruct (Z.leb_spec 0 (spec_neg_deinterleave v (seg_pred (blk_of (bSkipModes e) e)) 8)); [|lia]. destruct (Z.ltb_spec (spec_neg_deinterleave v (seg_pred (blk_of (bSkipModes e) e)) 8) 8); [|lia]. cbn [andb]. unfold clamp. f_equal. lia.
Qed.
Print Assumptions C104_segment_partial.
(** Refuted: with a prediction of 2 or more a coded 0 (the segment predicted) means segment 0. *)
Theorem C104_prediction_refuted : forall e endp s t, env_ok e -> bSegEnabled e = true -> 2 <= seg_pred (blk_of (bSkipModes e) e) <= bLastActive e -> ready endp s ->
  esym (bDisable e) "SegmentIdCdf" [seg_context (blk_of (bSkipModes e) e)] s = Ok (0, t) ->
  std_decode_segment 0 (seg_pred (blk_of (bSkipModes e) e)) (bLastActive e + 1) = Done (seg_pred (blk_of (bSkipModes e) e)) /\ exists ll, intraSegmentId e 0 s = Ok ((0, ll), t).
Proof.
  intros e endp s t OK HE HP HR Hsym. pose proof OK as (_ & _ & HLA & _). destruct (segs_ok e OK) as (ul & u & l & E1 & E2 & E3 & HB). split.
  - unfold std_decode_segment, spec_neg_deinterleave, clamp. change (Z.odd 0) with false. change (0 / 2) with 0. f_equal.
    repeat match goal with |- context [?a =? ?b] => destruct (Z.eqb_spec a b) | |- context [?a <=? ?b] => destruct (Z.leb_spec a b) | |- context [?a <? ?b] => destruct (Z.ltb_spec a b) end; lia.
  - exists (fLossless (frm_of e) 0). unfold intraSegmentId, readSegmentId. rewrite HE, bind_eq. rewrite bind_eq. rewrite E1. cbn [lift]. rewrite E3, E2. change (0 =? 1) with false. cbv iota. rewrite bind_eq, Hsym. cbn [ret].
    assert (EN : NegDeinterleave 0 (seg_pred (blk_of (bSkipModes e) e)) (bLastActive e + 1) = 0) by (unfold NegDeinterleave; destruct (Z.eqb_spec (seg_pred (blk_of (bSkipModes e) e)) 1); [lia|reflexivity]).
    rewrite EN, bind_eq, (lossless_ok e OK 0) by lia. reflexivity.
Qed.
Print Assumptions C104_prediction_refuted.
(** Refuted: a value beyond the last segment is not clipped; with two segments and a prediction of 1 it ends the decoder. *)
Theorem C104_clip_refuted : forall e endp s v t, env_ok e -> bSegEnabled e = true -> seg_pred (blk_of (bSkipModes e) e) = 1 -> bLastActive e = 1 -> ready endp s ->
  esym (bDisable e) "SegmentIdCdf" [seg_context (blk_of (bSkipModes e) e)] s = Ok (v, t) -> 2 <= v -> std_decode_segment v 1 2 = Done 0 /\ intraSegmentId e 0 s = Panic.
Proof.
  intros e endp s v t OK HE HP HL HR Hsym Hv. pose proof OK as (_ & _ & _ & _ & HLL & _). destruct (segs_ok e OK) as (ul & u & l & E1 & E2 & E3 & _). split.
  - unfold std_decode_segment, spec_neg_deinterleave, clamp. f_equal. change (1 =? 0) with false. change (2 - 1 <=? 1) with true. cbv iota. lia.
  - unfold intraSegmentId, readSegmentId. rewrite HE, bind_eq. rewrite bind_eq. rewrite E1. cbn [lift]. rewrite E3, E2. change (0 =? 1) with false. cbv iota. rewrite bind_eq, Hsym. cbn [ret]. rewrite HP, HL.
    assert (EN : NegDeinterleave v 1 (1 + 1) = 1 - v) by (unfold NegDeinterleave; cbn [Z.eqb Pos.eqb negb]; change (1 + 1 - 1 <=? 1) with true; cbv iota; lia).
    rewrite EN, bind_eq. rewrite idx_panic by lia. reflexivity.
Qed.
Print Assumptions C104_clip_refuted.
(** the neighbours' segments are 3 and 8 segments are in use: the standard decodes segment 3, the code segment 0; with 2 segments and prediction 1 a value of 2 or more *)
Definition with_seg (v last : Z) : BEnv :=
  mkBEnv false 0 true last (repeat (repeat 0 8) 8) (repeat false 8) false true false 2 false 1 true 1 1 3 true true 0 false 1 1 6 true true true
    (repeat (repeat 1 64) 64) (repeat (repeat v 64) 64) (repeat (repeat 0 2) 2) (repeat (repeat (repeat 0 2) 2) 2).
Definition seg_es (v : Z) : ES := (mkDec v 40000 9 (mkBS [0xA5; 0x5A; 0xF0] 15 0), demo_heap).
Example C104_case : (let e := with_seg 3 7 in seg_pred (blk_of (bSkipModes e) e) = 3 /\ seg_context (blk_of (bSkipModes e) e) = 2 /\ match esym false "SegmentIdCdf" [2] (seg_es 39000), intraSegmentId e 0 (seg_es 39000) with Ok (v, _), Ok (s, _) => (v, fst s) = (0, 0) | _, _ => False end) /\
  (let e := with_seg 1 1 in seg_pred (blk_of (bSkipModes e) e) = 1 /\ match esym false "SegmentIdCdf" [2] (seg_es 9), intraSegmentId e 0 (seg_es 9) with Ok (v, _), Panic => v = 7 | _, _ => False end).
Proof. split; [split; [|split]|split]; vm_compute; reflexivity. Qed.

(** ** C105: the CDEF index *)
Theorem C105_cdef_partial : forall e endp skip g s, env_ok e -> 0 <= skip <= 1 -> cdef_in e g -> ready endp s ->
  follows_program (can_fail e) (bDisable e) endp (std_cdef (frm_of e) skip (cdef_old e g)) (readCdef e skip g) (fun v g' => cdef_new e g g' v) s.
Proof. intros e endp skip g s OK Hs HC HR. apply agrees_follows; [|exact HR]. apply (cdef_ok e endp OK skip g Hs HC). Qed.
Print Assumptions C105_cdef_partial.
Lemma idx2_upd2_back {A} (l l' : list (list A)) i j v a b x : upd2 l i j v = Ok l' -> idx2 l' a b = Ok x -> exists y, idx2 l a b = Ok y.
Proof.
  intros E H. destruct (Z.eq_dec a i) as [->|]; [destruct (Z.eq_dec b j) as [->|]|]; [|exists x; rewrite <- H; symmetry; apply (idx2_upd2_other _ _ _ _ _ _ _ E); congruence..].
  unfold upd2 in E. apply rbind_inv in E as (r & Er & E). apply rbind_inv in E as (r' & Er' & E). apply upd_inv in Er' as [Hr _]. unfold idx2. rewrite Er. cbn [rbind]. rewrite (idx_ok r j v Hr). eauto.
Qed.
Lemma cdefInner_back fuel : forall i c lim v g i' g' a b x, cdefInner fuel i c lim v g = Ok (i', g') -> idx2 g' a b = Ok x -> exists y, idx2 g a b = Ok y.
Proof.
  induction fuel as [|fuel IH]; intros i c lim v g i' g' a b x E H; [discriminate|]. cbn [cdefInner] in E. destruct (i <? lim); [|injection E as <- <-; eauto].
  apply rbind_inv in E as (g1 & E1 & E). destruct (IH _ _ _ _ _ _ _ _ _ _ E H) as [y Hy]. exact (idx2_upd2_back _ _ _ _ _ _ _ _ E1 Hy).
Qed.
Lemma cdefOuter_back fuel : forall i c rl cl v g g' a b x, cdefOuter fuel i c rl cl v g = Ok g' -> idx2 g' a b = Ok x -> exists y, idx2 g a b = Ok y.
Proof.
  induction fuel as [|fuel IH]; intros i c rl cl v g g' a b x E H; [discriminate|]. cbn [cdefOuter] in E. destruct (i <? rl); [|injection E as <-; eauto].
  apply rbind_inv in E as ([i' g1] & E1 & E). cbn [fst snd] in E. destruct (IH _ _ _ _ _ _ _ _ _ _ E H) as [y Hy]. exact (cdefInner_back _ _ _ _ _ _ _ _ _ _ _ E1 Hy).
Qed.
Lemma cdefOuter_keep fuel : forall i c rl cl v g g' a, cdefOuter fuel i c rl cl v g = Ok g' -> idx2 g a c = Ok v -> idx2 g' a c = Ok v.
Proof.
  induction fuel as [|fuel IH]; intros i c rl cl v g g' a E H; [discriminate|]. cbn [cdefOuter] in E. destruct (i <? rl); [|injection E as <-; exact H].
  apply rbind_inv in E as ([i' g1] & E1 & E). cbn [fst snd] in E. apply (IH _ _ _ _ _ _ _ _ E). destruct (cdefInner_ok _ _ _ _ _ _ _ _ E1) as (_ & _ & _ & G). rewrite G. destruct (_ && _); [reflexivity|exact H].
Qed.
Lemma bind_inv_es {A B} (m : M ES A) (k : A -> M ES B) s b s' : bind m k s = Ok (b, s') -> exists a s1, m s = Ok (a, s1) /\ k a s1 = Ok (b, s').
Proof. rewrite bind_eq. destruct (m s) as [[a s1]| |]; try discriminate. eauto. Qed.
Lemma lift_inv {A} (r : res A) (s : ES) a s' : lift r s = Ok (a, s') -> r = Ok a /\ s' = s.
Proof. unfold lift. destruct r; try discriminate. intros [= -> ->]. auto. Qed.
(** what readCdef does when it reads an index *)
Lemma readCdef_reads e g s g' s' : 0 <= bMiSize e < 22 -> fCdef (frm_of e) = true -> idx2 g (cdef_row e) (cdef_col e) = Ok (-1) -> readCdef e 0 g s = Ok (g', s') ->
  exists v g1, upd2 g (cdef_row e) (cdef_col e) v = Ok g1 /\ cdefOuter (Z.to_nat (bsize_h (bMiSize e) / 4) + 1) (cdef_row e) (cdef_col e) (cdef_row e + bsize_h (bMiSize e) / 4) (cdef_col e + bsize_w (bMiSize e) / 4) v g1 = Ok g'.
Proof.
  intros HS HF HO E. destruct (block_facts _ HS) as (_ & _ & EW & EH & _). unfold readCdef in E. unfold frm_of in HF. cbn [fCdef] in HF.
  destruct (bCodedLossless e); [discriminate|]. destruct (bEnableCdef e); [|discriminate]. destruct (bAllowIntraBc e); [discriminate|]. cbn [negb orb bool_of Z.eqb] in E.
  apply bind_inv_es in E as (z & s1 & E1 & E). apply lift_inv in E1 as [E1 ->]. injection E1 as <-. cbv zeta in E. rewrite !align16 in E. fold (cdef_row e) (cdef_col e) in E.
  apply bind_inv_es in E as (old & s1 & E1 & E). apply lift_inv in E1 as [E1 ->]. rewrite HO in E1. injection E1 as <-. change (-1 =? -1) with true in E. cbv iota in E.
  apply bind_inv_es in E as (v & s1 & E1 & E). apply bind_inv_es in E as (g1 & s2 & E2 & E). apply lift_inv in E2 as [E2 ->].
  apply bind_inv_es in E as (w & s2 & E3 & E). apply lift_inv in E3 as [E3 ->]. rewrite EW in E3. injection E3 as <-.
  apply bind_inv_es in E as (h & s2 & E3 & E). apply lift_inv in E3 as [E3 ->]. rewrite EH in E3. injection E3 as <-. apply lift_inv in E as [E ->]. exists v, g1. auto.
Qed.
(** Refuted: right of the diagonal the index read is also stored for the area below, which the block does not cover; if there is none the decoder panics. *)
Theorem C105_below_refuted : forall e g s g' s', 0 <= bMiSize e < 22 -> fCdef (frm_of e) = true -> idx2 g (cdef_row e) (cdef_col e) = Ok (-1) -> cdef_row e < cdef_col e ->
  readCdef e 0 g s = Ok (g', s') -> exists v old, idx2 g' (cdef_row e) (cdef_col e) = Ok v /\ idx2 g' (cdef_row e + 16) (cdef_col e) = Ok v /\ idx2 g (cdef_row e + 16) (cdef_col e) = Ok old.
Proof.
  intros e g s g' s' HS HF HO HL E. destruct (readCdef_reads _ _ _ _ _ HS HF HO E) as (v & g1 & E1 & E2). destruct (block_facts _ HS) as (_ & _ & _ & _ & _ & _ & HW & HH).
  assert (HD : cdef_row e + 16 <= cdef_col e) by (unfold cdef_row, cdef_col in *; lia).
  assert (K1 : idx2 g' (cdef_row e) (cdef_col e) = Ok v) by (apply (cdefOuter_keep _ _ _ _ _ _ _ _ _ E2); apply (idx2_upd2_same _ _ _ _ _ E1)).
  assert (K2 : idx2 g' (cdef_row e + 16) (cdef_col e) = Ok v).
  { replace (Z.to_nat (bsize_h (bMiSize e) / 4) + 1)%nat with (S (Z.to_nat (bsize_h (bMiSize e) / 4))) in E2 by lia. cbn [cdefOuter] in E2. destruct (Z.ltb_spec (cdef_row e) (cdef_row e + bsize_h (bMiSize e) / 4)); [|lia].
    apply rbind_inv in E2 as ([i' g2] & E3 & E2). cbn [fst snd] in E2. apply (cdefOuter_keep _ _ _ _ _ _ _ _ _ E2). destruct (cdefInner_ok _ _ _ _ _ _ _ _ E3) as (I1 & I2 & I3 & I4). rewrite I4, Z.eqb_refl.
    replace (cdef_row e + 16 - cdef_row e) with 16 by lia. destruct (Z.leb_spec (cdef_row e) (cdef_row e + 16)); [|lia]. destruct (Z.ltb_spec (cdef_row e + 16) i'); [|lia]. reflexivity. }
  destruct (cdefOuter_back _ _ _ _ _ _ _ _ _ _ _ E2 K2) as [y Hy]. destruct (idx2_upd2_back _ _ _ _ _ _ _ _ E1 Hy) as [old Ho]. exists v, old. auto.
Qed.
Print Assumptions C105_below_refuted.
(** Refuted: a block of 128 samples width covers two areas in each row of areas; no index is stored for the right one. *)
Theorem C105_wide_refuted : forall e g s g' s', 0 <= bMiSize e < 22 -> fCdef (frm_of e) = true -> idx2 g (cdef_row e) (cdef_col e) = Ok (-1) -> readCdef e 0 g s = Ok (g', s') ->
  forall r, idx2 g' r (cdef_col e + 16) = idx2 g r (cdef_col e + 16).
Proof.
  intros e g s g' s' HS HF HO E r. destruct (readCdef_reads _ _ _ _ _ HS HF HO E) as (v & g1 & E1 & E2). rewrite (cdefOuter_column _ _ _ _ _ _ _ _ E2) by lia. apply (idx2_upd2_other _ _ _ _ _ _ _ E1). intros [= _ H]. lia.
Qed.
Print Assumptions C105_wide_refuted.
(** a block in the second area of the first row; a 128x128 block in the first *)
Definition at_pos (r c size : Z) : BEnv :=
  mkBEnv false 0 false 0 (repeat (repeat 0 8) 8) (repeat false 8) false true false 2 true 1 true 1 1 3 true true 0 false r c size false false true [] [] [] [].
Example C105_case : match readCdef (at_pos 4 20 6) 0 demo_g demo_es, readCdef (at_pos 0 0 15) 0 demo_g demo_es with
  | Ok (g, _), Ok (g', _) => (cell g 0 16, cell g 16 16, cell g 16 0, cell g' 0 0, cell g' 16 0, cell g' 0 16, cell g' 16 16) = (1, 1, -1, 1, 1, -1, -1) | _, _ => False end /\
  match readCdef (at_pos 4 20 6) 0 (firstn 16 demo_g) demo_es with Panic => True | _ => False end.
Proof. split; vm_compute; [reflexivity|exact I]. Qed.

(** ** C106: quantizer and loop filter deltas *)
Theorem C106_delta_q : forall e endp skip read q s, env_ok e -> 0 <= skip <= 1 -> ready endp s ->
  follows_program (can_fail e) (bDisable e) endp (std_q (frm_of e) (blk_of (bSkipModes e) e) skip read q) (readDeltaQIndex e skip read q) eq s.
Proof. intros e endp skip read q s OK Hs HR. apply agrees_follows; [|exact HR]. apply (q_ok e endp OK skip read q Hs). Qed.
Print Assumptions C106_delta_q.
Theorem C106_delta_lf : forall e endp skip read lf s, env_ok e -> 0 <= skip <= 1 -> zlen lf = 4 -> ready endp s ->
  follows_program (can_fail e) (bDisable e) endp (std_lf (frm_of e) (blk_of (bSkipModes e) e) skip read lf) (readDeltaLf e skip read lf) eq s.
Proof. intros e endp skip read lf s OK Hs HL HR. apply agrees_follows; [|exact HR]. apply (lf_ok e endp OK skip read lf Hs HL). Qed.
Print Assumptions C106_delta_lf.
(** A quantizer index in 1 .. 255 stays there. *)
Theorem C106_q_range : forall e skip read q s q' s', readDeltaQIndex e skip read q s = Ok (q', s') -> 1 <= q <= 255 -> 1 <= q' <= 255.
Proof.
  intros e skip read q s q' s' E Hq. unfold readDeltaQIndex in E. destruct (sbSkipped e skip); [injection E as <- _; exact Hq|]. destruct read; [|injection E as <- _; exact Hq].
  apply bind_inv_es in E as (v & s1 & _ & E). apply bind_inv_es in E as (d & s2 & _ & E). injection E as <- _. destruct (bool_of d); [|exact Hq]. rewrite Clip3_is by lia. unfold clamp. lia.
Qed.
Print Assumptions C106_q_range.
Definition q_es : ES := (mkDec 300 40000 1000 (mkBS (repeat 0xA5 300) 15 0), demo_heap).
Example C106_case : ready 1015 q_es /\ match readDeltaQIndex demo_b 0 true 100 q_es with Ok (q, _) => q = 96 | _ => False end /\ match readDeltaLf demo_b 0 true [0; 5; 7; 60] q_es with Ok (l, _) => l = [-4; 5; 7; 60] | _ => False end.
Proof. split; [split; [unfold in_tile, zlen; cbn; lia|apply demo_ready]|]. split; vm_compute; reflexivity. Qed.

(** ** C107: luma mode and angle *)
Theorem C107_y_mode : forall e endp s, env_ok e -> ready endp s ->
  follows_program (can_fail e) (bDisable e) endp (std_y_mode (blk_of (bSkipModes e) e)) (intraFrameYModeSymbol e) (fun a b => a = b /\ 0 <= b < 13) s.
Proof. intros e endp s OK HR. apply agrees_follows; [|exact HR]. apply (y_mode_ok e endp OK). Qed.
Print Assumptions C107_y_mode.
Theorem C107_angle : forall e endp mode s, 0 <= mode <= 13 -> ready endp s ->
  follows_program (can_fail e) (bDisable e) endp (std_angle (blk_of (bSkipModes e) e) mode) (intraAngleInfo e mode) eq s.
Proof. intros e endp mode s Hm HR. apply agrees_follows; [|exact HR]. apply (angle_ok e endp mode Hm). Qed.
Print Assumptions C107_angle.
Theorem C107_angle_range : forall e endp mode s a s', 0 <= mode <= 13 -> ready endp s -> intraAngleInfo e mode s = Ok (a, s') -> -3 <= a <= 3 /\ (a <> 0 -> 1 <= mode <= 8 /\ 3 <= bMiSize e).
Proof.
  intros e endp mode s a s' Hm HR E. unfold intraAngleInfo, isDirectionalMode, BLOCK_8X8, V_PRED, D67_PRED, MAX_ANGLE_DELTA in E.
  destruct (Z.leb_spec 3 (bMiSize e)), (Z.leb_spec 1 mode), (Z.leb_spec mode 8); cbn [andb] in E; try (injection E as <- _; split; [lia|intros H9; exfalso; apply H9; reflexivity]).
  apply bind_inv_es in E as (v & s1 & E1 & E). injection E as <- _.
  assert (G := agrees_sym block_cdfs (bDisable e) endp True "AngleDeltaCdf" [8] 7 [mode - 1] ltac:(tab) ltac:(inr) s (proj1 (ready_fit endp s) HR)).
  destruct (run (bDisable e) (Sym "AngleDeltaCdf" [mode - 1] Done) (fst s) (snd s)) as [[[x d] h]| |]; [|contradiction|].
  - destruct G as (_ & b & Eb & -> & Hb). rewrite E1 in Eb. injection Eb as -> _. split; [lia|lia].
  - destruct G as [_ G]. rewrite E1 in G. discriminate.
Qed.
Print Assumptions C107_angle_range.
Example C107_case : match intraFrameYModeSymbol demo_b demo_es, intraAngleInfo demo_b 3 demo_es with Ok (m, _), Ok (a, _) => (m, a) = (1, 0) | _, _ => False end.
Proof. vm_compute. reflexivity. Qed.

(** ** C108: chroma mode *)
Theorem C108_chroma_partial : forall e endp ll ymode s, env_ok e -> 0 <= ymode < 13 -> (ll = true \/ Z.max (bsize_w (bMiSize e)) (bsize_h (bMiSize e)) <> 32) -> ready endp s ->
  follows_program (can_fail e) (bDisable e) endp (std_chroma 32 1 (frm_of e) (blk_of (bSkipModes e) e) ll ymode) (intraChroma e ll ymode) (fun c x => x = uv_of (flip_chroma c)) s.
Proof. intros e endp ll ymode s OK Hy HZ HR. apply agrees_follows; [|exact HR]. apply (chroma_std e endp OK ll ymode Hy HZ). Qed.
Print Assumptions C108_chroma_partial.
(** Refuted: the parameters of chroma from luma have the wrong sign, always (they are never both 0). *)
Theorem C108_sign_refuted : forall e endp s, ready endp s -> exists u v d h, run (bDisable e) (std_cfl 1) (fst s) (snd s) = Ok ((u, v), d, h) /\ readCflAlphas (bDisable e) s = Ok ((- u, - v), (d, h)) /\ (u, v) <> (0, 0).
Proof.
  intros e endp s HR. set (e0 := mkBEnv (bDisable e) 0 false 0 [] [] false false false 0 false 0 false 0 0 0 false false 0 false 0 0 0 false false false [] [] [] []).
  assert (F := agrees_follows _ _ _ _ _ _ s (cfl_std e0 endp) HR). unfold follows_program in F. change (bDisable e0) with (bDisable e) in F.
  destruct (run (bDisable e) (std_cfl 1) (fst s) (snd s)) as [[[[u v] d] h]| |]; [|contradiction|destruct F as ([B|[B|B]] & _); discriminate].
  destruct F as (_ & b & E & -> & N). exists u, v, d, h. auto.
Qed.
Print Assumptions C108_sign_refuted.
(** Refuted: a block with a side of 32 (and no longer one) is read with the table without chroma from luma. *)
Theorem C108_limit_refuted : forall e ymode s, 0 <= bMiSize e < 22 -> Z.max (bsize_w (bMiSize e)) (bsize_h (bMiSize e)) = 32 ->
  cfl_allowed 32 (frm_of e) (blk_of (bSkipModes e) e) false = true /\ uvModeSymbol e false ymode s = esym (bDisable e) "UVModeCflNotAllowedCdf" [ymode] s.
Proof.
  intros e ymode s HS HZ. split; [unfold cfl_allowed; change (kSize (blk_of (bSkipModes e) e)) with (bMiSize e); rewrite HZ; reflexivity|]. destruct (block_facts _ HS) as (EW & EH & _).
  unfold uvModeSymbol. cbn [negb]. rewrite bind_eq. cbn [lift]. rewrite EW, EH. cbn [rbind]. rewrite Max_max, HZ. rewrite bind_eq. reflexivity.
Qed.
Print Assumptions C108_limit_refuted.
Example C108_case : match run false (std_cfl 1) (fst q_es) (snd q_es), readCflAlphas false q_es with Ok (a, _, _), Ok (b, _) => (a, b) = ((2, 1), (-2, -1)) | _, _ => False end /\ Z.max (bsize_w 9) (bsize_h 9) = 32.
Proof. split; vm_compute; reflexivity. Qed.

(** ** C109: palettes, recursive filters and intra block copy *)
(** Refuted: intra block copy, recursive filters, and palettes (of luma; for chroma even the flag) end the decoder. *)
Theorem C109_intrabc_refuted : forall e read seg ll g q lf ref s x, bAllowIntraBc e = true -> intraFrameModeInfo e read seg ll g q lf ref s <> Ok x.
Proof.
  intros e read seg ll g q lf ref s [x s'] HB E. unfold intraFrameModeInfo in E. do 8 (apply bind_inv_es in E as (? & ? & _ & E)). rewrite HB in E. apply bind_inv_es in E as (? & ? & E1 & _). discriminate.
Qed.
Print Assumptions C109_intrabc_refuted.
Theorem C109_filter_refuted : forall e s, 0 <= bMiSize e < 22 -> bFilterIntra e = true -> Z.max (bsize_w (bMiSize e)) (bsize_h (bMiSize e)) <= 32 -> filterIntraModeInfo e 0 s = Panic.
Proof.
  intros e s HS HF HZ. destruct (block_facts _ HS) as (EW & EH & _). unfold filterIntraModeInfo. rewrite HF. change (0 =? DC_PRED) with true. cbn [andb]. rewrite EW, EH. rewrite bind_eq. cbn [lift]. rewrite bind_eq. cbn [lift].
  rewrite Max_max. destruct (Z.leb_spec (Z.max (bsize_w (bMiSize e)) (bsize_h (bMiSize e))) 32); [reflexivity|lia].
Qed.
Print Assumptions C109_filter_refuted.
Theorem C109_palette_refuted : forall e ymode s x, paletteModeInfo e ymode (Some 0) s <> Ok x.
Proof.
  intros e ymode s [x s'] E. unfold paletteModeInfo in E. do 3 (apply bind_inv_es in E as (? & ? & _ & E)). change (0 =? DC_PRED) with true in E. cbv iota in E. apply bind_inv_es in E as (? & ? & E1 & _). discriminate.
Qed.
Print Assumptions C109_palette_refuted.
(** With these tools off the function returns (C102_standard_partial); here with segmentation. *)
Theorem C109_off_partial : forall e endp ymode c s, env_ok e -> bScreen e = 0 -> bFilterIntra e = false -> ready endp s ->
  follows_program (can_fail e) (bDisable e) endp (andthen (std_palette true (frm_of e) (blk_of (bSkipModes e) e) ymode c) (fun _ => std_filter true (frm_of e) (blk_of (bSkipModes e) e) ymode))
    (let* w := lift (idx BLOCK_WIDTH (bMiSize e)) in let* h := lift (idx BLOCK_HEIGHT (bMiSize e)) in
     (if (BLOCK_8X8 <=? bMiSize e) && (w <=? 64) && (h <=? 64) && bool_of (bScreen e) then paletteModeInfo e ymode (option_map cMode c) else ret tt) ;; filterIntraModeInfo e ymode) (fun a _ => a = None) s.
Proof.
  intros e endp ymode c s OK HS HF HR. apply agrees_follows; [|exact HR]. pose proof OK as (Hsz & _). destruct (block_facts _ Hsz) as (EW & EH & _).
  match goal with |- agrees _ _ _ _ _ (bind (lift (idx BLOCK_WIDTH (bMiSize e))) (fun w => bind (lift (idx BLOCK_HEIGHT (bMiSize e))) (fun h => bind (@?m w h) ?kk))) _ =>
    eapply (agrees_eq _ _ _ _ _ _ _ (bind (bind (lift (idx BLOCK_WIDTH (bMiSize e))) (fun w => bind (lift (idx BLOCK_HEIGHT (bMiSize e))) (fun h => m w h))) kk)) end;
    [reflexivity|intros s0; rewrite EW, EH; rewrite !bind_eq; cbn [lift]; rewrite !bind_eq; cbn [lift]; reflexivity|].
  eapply agrees_bind; [apply (palette_std e endp OK ymode c HS)|]. intros _ _ _. apply (filter_std e endp OK ymode HF).
Qed.
Print Assumptions C109_off_partial.
Example C109_case : match filterIntraModeInfo (mkBEnv false 0 false 0 [] [] false false false 0 false 0 false 0 0 0 false false 0 true 0 0 6 false false false [] [] [] []) 0 demo_es with Panic => True | _ => False end.
Proof. vm_compute. exact I. Qed.

(** ** C110: reference frames of an intra block *)
(** Refuted: the standard has INTRA_FRAME (0), NONE (-1); the code leaves NONE and what was there. *)
Theorem C110_ref_frame_refuted : forall e read seg ll g q lf r0 r1 s x s', intraFrameModeInfo e read seg ll g q lf [r0; r1] s = Ok (x, s') -> xRefFrame x = [-1; r1].
Proof.
  intros e read seg ll g q lf r0 r1 s x s' E. unfold intraFrameModeInfo in E. do 6 (apply bind_inv_es in E as (? & ? & _ & E)).
  apply bind_inv_es in E as (ra & ? & E1 & E). apply lift_inv in E1 as [E1 ->]. injection E1 as <-. apply bind_inv_es in E as (rb & ? & E1 & E). apply lift_inv in E1 as [E1 ->]. injection E1 as <-.
  do 8 (apply bind_inv_es in E as (? & ? & _ & E)). injection E as <- _. reflexivity.
Qed.
Print Assumptions C110_ref_frame_refuted.
Example C110_case : match demo_info with Ok (x, _) => xRefFrame x = [-1; 5] | _ => False end.
Proof. vm_compute. reflexivity. Qed.
