(** More about C95 (temporal candidates), C144 (which neighbours are blended) and C89 (Wiener taps). *)
From Verif Require Import GoBase Bitstream Util UtilProofs Constants Tables Frame Writes MvStack PredictInter SpecFilter LoopFilterProofs PropMvStack PropPredictInter.
From Verif Require Restoration.

(** ** C95: temporal candidates *)
(** Once there is a candidate, a temporal vector is never added (the standard appends it unless it is there); its weight of 2 goes to the first candidate,
    whether that is the same vector or not. *)
Theorem C95_temporal_refuted : forall e isCompound dr dc s s', 0 < sNum s -> temporalSample e isCompound dr dc s = Ok s' ->
  sNum s' = sNum s /\ sStack s' = sStack s /\ (sWeight s' = sWeight s \/ exists w, idx (sWeight s) 0 = Ok w /\ idx (sWeight s') 0 = Ok (w + 2) /\ forall k, k <> 0 -> idx (sWeight s') k = idx (sWeight s) k).
Proof.
  intros e isCompound dr dc s s' HN H.
  assert (G : forall s0 : Mst, sNum s0 = sNum s -> sStack s0 = sStack s -> sWeight s0 = sWeight s -> forall m, (if 0 <? sNum s0 then addWeight 0 2 s0 else m) = Ok s' ->
    sNum s' = sNum s /\ sStack s' = sStack s /\ (sWeight s' = sWeight s \/ exists w, idx (sWeight s) 0 = Ok w /\ idx (sWeight s') 0 = Ok (w + 2) /\ forall k, k <> 0 -> idx (sWeight s') k = idx (sWeight s) k)).
  { intros s0 E1 E2 E3 m E. rewrite E1 in E. destruct (Z.ltb_spec 0 (sNum s)); [|lia]. unfold addWeight in E. apply rbind_inv in E as (w & Ew & E). apply rbind_inv in E as (W & EW & E). injection E as <-.
    cbn [set_stack sNum sStack sWeight]. rewrite E1, E2. rewrite E3 in *. split; [reflexivity|]. split; [reflexivity|]. right. exists w. split; [exact Ew|]. split; [exact (idx_upd_same _ _ _ _ EW)|]. intros k Hk. apply (idx_upd_other _ _ _ _ _ EW). lia. }
  unfold temporalSample in H. cbv zeta in H. destruct (negb (isInside e _ _)); [injection H as <-; auto|]. apply rbind_inv in H as (c0 & _ & H).
  destruct (fst c0 =? -32768). { destruct ((dr =? 0) && (dc =? 0)); injection H as <-; auto. }
  destruct (negb isCompound).
  - apply rbind_inv in H as (u & _ & H). refine (G _ _ _ _ _ H); destruct ((dr =? 0) && (dc =? 0)); reflexivity.
  - apply rbind_inv in H as (c1 & _ & H). destruct (fst c1 =? -32768). { destruct ((dr =? 0) && (dc =? 0)); injection H as <-; auto. }
    apply rbind_inv in H as (u & _ & H). refine (G _ _ _ _ _ H); destruct ((dr =? 0) && (dc =? 0)); reflexivity.
Qed.
Print Assumptions C95_temporal_refuted.
(** A different projected vector, (40, -8): the one candidate (12, -224) only gains weight. *)
Example C95_temporal_example :
  temporalSample (mkMvEnv 1 1 3 2 2 0 2 0 2 (repeat (repeat 3 64) 64) (repeat (repeat (1, -1) 64) 64) (1, -1) [[1; 1]; [1; 1]] (repeat (repeat NEWMV 64) 64)
    (repeat (repeat ((13, -700), (0, 0)) 64) 64) (repeat 0 8) (repeat (repeat 0 6) 8) false false true [false; false; false] (repeat (repeat (repeat (40, -8) 4) 4) 8)) false 0 0
    (mkMst 1 0 0 0 0 0 0 0 ((0, 0), (0, 0)) [((12, -224), (0, 0)); ((0, 0), (0, 0))] [5; 0; 0; 0; 0; 0; 0; 0] [0]) =
  Ok (mkMst 1 0 0 0 0 1 0 0 ((0, 0), (0, 0)) [((12, -224), (0, 0)); ((0, 0), (0, 0))] [7; 0; 0; 0; 0; 0; 0; 0] [0]).
Proof. vm_compute. reflexivity. Qed.

(** ** C144: which neighbours above are blended *)
(** Where no block above is inter coded, nothing is blended. *)
Theorem C144_intra_neighbours : forall fuel e k r0 r1 plane w h x4 nCount nLimit w4 f f',
  (forall c r, x4 <= c -> idx3 (pRefFrames e) (kRow k - 1) (Z.lor c 1) 0 = Ok r -> r <= 0) ->
  overlapAbove fuel e k r0 r1 plane w h x4 nCount nLimit w4 f = Ok f' -> f' = f.
Proof.
  induction fuel as [|fuel IH]; intros e k r0 r1 plane w h x4 nCount nLimit w4 f f' HI H; [discriminate|]. cbn [overlapAbove] in H.
  destruct (_ && _); [|injection H as <-; reflexivity]. apply rbind_inv in H as (sz & _ & H). apply rbind_inv in H as (n4 & _ & H). cbv zeta in H. apply rbind_inv in H as (rf & Er & H).
  pose proof (HI x4 rf ltac:(lia) Er). change INTRA_FRAME with 0 in H. destruct (Z.ltb_spec 0 rf); [lia|]. revert H. apply IH.
  intros c r Hc. apply HI. assert (2 <= Clip3 2 16 n4) by (unfold Clip3; destruct (Z.ltb_spec n4 2); [lia|]; destruct (Z.ltb_spec 16 n4); lia). lia.
Qed.
Print Assumptions C144_intra_neighbours.

(** Blending changes only samples of the rectangle of the predictions. *)
Lemma blending_inside plane X Y w h pass pred mask f f' : overlapBlending plane X Y w h pass pred mask f = Ok f' ->
  forall p r c, ~ (p = plane /\ Y <= r < Y + h /\ X <= c < X + w) -> idx3 f' p r c = idx3 f p r c.
Proof.
  intros H p r c N. unfold overlapBlending, rfor_to in H. refine ((fun A B => rfor_from_post (fun _ (g : frame) => idx3 g p r c = idx3 f p r c) _ _ _ _ _ A B H) eq_refl _). clear H. cbv beta. intros i a b Hi Ha H.
  refine ((fun A B => rfor_from_post (fun _ (g : frame) => idx3 g p r c = idx3 f p r c) _ _ _ _ _ A B H) Ha _). clear H. cbv beta. intros j a' b' Hj Ha' H.
  apply rbind_inv in H as (m & _ & H). apply rbind_inv in H as (c0 & _ & H). apply rbind_inv in H as (o & _ & H). apply rbind_inv in H as (v & _ & H).
  rewrite <- Ha'. apply (idx3_upd3_other _ _ _ _ _ _ _ _ _ H). intros [= ]. apply N. lia.
Qed.
(** The blocks above are blended into the first half of the rows (at most 32 samples of luma) only, each over at most the width of the block. *)
Theorem C144_above_extent : forall fuel e k r0 r1 plane w h x4 nCount nLimit w4 f f', 0 <= plane -> 0 <= h -> 0 <= w ->
  overlapAbove fuel e k r0 r1 plane w h x4 nCount nLimit w4 f = Ok f' ->
  let Y := 4 * kRow k / (if (0 <? plane) && pSubY e then 2 else 1) in
  forall p r c, (forall x, x4 <= x < kCol k + w4 -> let X := 4 * x / (if (0 <? plane) && pSubX e then 2 else 1) in ~ (p = plane /\ Y <= r < Y + h / 2 /\ r < Y + 32 /\ X <= c < X + w)) ->
  idx3 f' p r c = idx3 f p r c.
Proof.
  assert (SX : forall e plane v, 0 <= plane -> shr v (subx e plane) = v / (if (0 <? plane) && pSubX e then 2 else 1)).
  { intros e plane v Hp. unfold subx, shr. destruct (Z.eqb_spec plane 0) as [->|N]; [change (0 <? 0) with false; cbn [andb]; rewrite Z.div_1_r; apply Z.shiftr_0_r|]. destruct (Z.ltb_spec 0 plane); [|lia]. cbn [andb].
    destruct (pSubX e); cbn [int_of]; rewrite Z.shiftr_div_pow2 by lia; reflexivity. }
  assert (SY : forall e plane v, 0 <= plane -> shr v (suby e plane) = v / (if (0 <? plane) && pSubY e then 2 else 1)).
  { intros e plane v Hp. unfold suby, shr. destruct (Z.eqb_spec plane 0) as [->|N]; [change (0 <? 0) with false; cbn [andb]; rewrite Z.div_1_r; apply Z.shiftr_0_r|]. destruct (Z.ltb_spec 0 plane); [|lia]. cbn [andb].
    destruct (pSubY e); cbn [int_of]; rewrite Z.shiftr_div_pow2 by lia; reflexivity. }
  induction fuel as [|fuel IH]; intros e k r0 r1 plane w h x4 nCount nLimit w4 f f' Hp Hh Hw H Y p r c HN; [discriminate|]. cbn [overlapAbove] in H.
  destruct (_ && _) eqn:EC; [|injection H as <-; reflexivity]. apply andb_prop in EC as [_ EC]. apply Z.ltb_lt in EC. assert (x4 < kCol k + w4) by (unfold Min in EC; destruct (Z.leb_spec (kCols k) (kCol k + w4)); lia).
  apply rbind_inv in H as (sz & _ & H). apply rbind_inv in H as (n4 & _ & H). cbv zeta in H. apply rbind_inv in H as (rf & Er & H).
  assert (ST : 2 <= Clip3 2 16 n4) by (unfold Clip3; destruct (Z.ltb_spec n4 2); [lia|]; destruct (Z.ltb_spec 16 n4); lia).
  assert (HN' : forall x, x4 + Clip3 2 16 n4 <= x < kCol k + w4 -> let X := 4 * x / (if (0 <? plane) && pSubX e then 2 else 1) in ~ (p = plane /\ Y <= r < Y + h / 2 /\ r < Y + 32 /\ X <= c < X + w)) by (intros x Hx; apply HN; lia).
  destruct (INTRA_FRAME <? rf).
  - apply rbind_inv in H as (f1 & E1 & H). rewrite (IH _ _ _ _ _ _ _ _ _ _ _ _ _ Hp Hh Hw H p r c HN'). unfold overlapOne in E1. cbv zeta in E1.
    apply rbind_inv in E1 as (m & _ & E1). apply rbind_inv in E1 as (rf' & _ & E1). apply rbind_inv in E1 as (ri & _ & E1). apply rbind_inv in E1 as ([[[a b] c'] d] & _ & E1). apply rbind_inv in E1 as (o & _ & E1). apply rbind_inv in E1 as (o' & _ & E1).
    apply (blending_inside _ _ _ _ _ _ _ _ _ _ E1). rewrite SX, SY by exact Hp. rewrite (Z.mul_comm x4), (Z.mul_comm (kRow k)). fold Y. intros (Q1 & Q2 & Q3). apply (HN x4 ltac:(lia)). split; [exact Q1|].
    assert (M1 : forall a b, Min a b <= a /\ Min a b <= b) by (intros a0 b0; unfold Min; destruct (Z.leb_spec a0 b0); lia).
    pose proof (M1 (shr h 1) (shr 32 (suby e plane))) as [M2 M3]. pose proof (M1 w (shr (Clip3 2 16 n4 * MI_SIZE) (subx e plane))) as [M4 _].
    assert (S1 : shr h 1 = h / 2) by (unfold shr; rewrite Z.shiftr_div_pow2 by lia; reflexivity). rewrite S1 in *.
    assert (shr 32 (suby e plane) <= 32) by (rewrite SY by exact Hp; destruct ((0 <? plane) && pSubY e); vm_compute; discriminate). lia.
  - exact (IH _ _ _ _ _ _ _ _ _ _ _ _ _ Hp Hh Hw H p r c HN').
Qed.
Print Assumptions C144_above_extent.

Definition case_pe (first : list Z) : PEnv := mkPEnv (repeat 16 8) (repeat 16 8) 16 16 [0; 1; 2; 3; 4; 5; 6] false [] [] (repeat (repeat first 64) 64) [1; -1] (repeat (repeat [(0, 0); (0, 0)] 64) 64) (repeat (repeat [1; 2] 2) 4) (repeat slope 8) true true 8.
Definition case_ke : KEnv := mkKEnv OBMC false [] 13 0 COMPOUND_AVERAGE false 0 BLOCK_8X8 2 1 16 16 true false (repeat (repeat BLOCK_8X8 64) 64).
Example C144_above_example :
  (exists f', overlapAbove 33 (case_pe [1; -1]) case_ke 3 11 0 8 8 1 0 1 2 (repeat (repeat (repeat 200 16) 16) 3) = Ok f' /\ idx3 f' 0 8 4 = Ok 113 /\ idx3 f' 0 12 4 = Ok 200) /\
  overlapAbove 33 (case_pe [0; -1]) case_ke 3 11 0 8 8 1 0 1 2 (repeat (repeat (repeat 200 16) 16) 3) = Ok (repeat (repeat (repeat 200 16) 16) 3).
Proof. split; [eexists; split; [vm_compute; reflexivity|]; vm_compute; auto|vm_compute; reflexivity]. Qed.

(** ** C89: the taps of the Wiener filter *)
(** The seven taps of AV1 are c0, c1, c2, 128 - 2 (c0 + c1 + c2), c2, c1, c0; refuted: the code stores the last three all at the same place. *)
Theorem C89_taps_refuted : forall c0 c1 c2, Restoration.wienerCoefficient [c0; c1; c2] = Ok [c0; c1; c2; 128 - 2 * (c0 + c1 + c2); 0; c2; 0].
Proof.
  intros c0 c1 c2. unfold Restoration.wienerCoefficient, rfor_to. change (Z.to_nat (3 - 0)) with 3%nat. cbn [rfor_from]. change (6 - 1) with 5. change (0 + 1 + 1) with 2. change (0 + 1) with 1.
  change (idx [c0; c1; c2] 0) with (Ok c0). cbn [rbind]. change (upd [0; 0; 0; 128; 0; 0; 0] 0 c0) with (Ok [c0; 0; 0; 128; 0; 0; 0]). cbn [rbind]. change (upd [c0; 0; 0; 128; 0; 0; 0] 5 c0) with (Ok [c0; 0; 0; 128; 0; c0; 0]). cbn [rbind].
  change (idx [c0; 0; 0; 128; 0; c0; 0] 3) with (Ok 128). cbn [rbind]. set (m0 := 128 - 2 * c0). change (upd [c0; 0; 0; 128; 0; c0; 0] 3 m0) with (Ok [c0; 0; 0; m0; 0; c0; 0]). cbn [rbind].
  change (idx [c0; c1; c2] 1) with (Ok c1). cbn [rbind]. change (upd [c0; 0; 0; m0; 0; c0; 0] 1 c1) with (Ok [c0; c1; 0; m0; 0; c0; 0]). cbn [rbind]. change (upd [c0; c1; 0; m0; 0; c0; 0] 5 c1) with (Ok [c0; c1; 0; m0; 0; c1; 0]). cbn [rbind].
  change (idx [c0; c1; 0; m0; 0; c1; 0] 3) with (Ok m0). cbn [rbind]. set (m1 := m0 - 2 * c1). change (upd [c0; c1; 0; m0; 0; c1; 0] 3 m1) with (Ok [c0; c1; 0; m1; 0; c1; 0]). cbn [rbind].
  change (idx [c0; c1; c2] 2) with (Ok c2). cbn [rbind]. change (upd [c0; c1; 0; m1; 0; c1; 0] 2 c2) with (Ok [c0; c1; c2; m1; 0; c1; 0]). cbn [rbind]. change (upd [c0; c1; c2; m1; 0; c1; 0] 5 c2) with (Ok [c0; c1; c2; m1; 0; c2; 0]). cbn [rbind].
  change (idx [c0; c1; c2; m1; 0; c2; 0] 3) with (Ok m1). cbn [rbind]. set (m2 := m1 - 2 * c2). change (upd [c0; c1; c2; m1; 0; c2; 0] 3 m2) with (Ok [c0; c1; c2; m2; 0; c2; 0]).
  replace (128 - 2 * (c0 + c1 + c2)) with m2 by (unfold m2, m1, m0; lia). reflexivity.
Qed.
Print Assumptions C89_taps_refuted.
Example C89_taps_case : Restoration.wienerCoefficient [3; -7; 15] = Ok [3; -7; 15; 106; 0; 15; 0].
Proof. reflexivity. Qed.
