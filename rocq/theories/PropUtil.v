(** Property theorems C12-C20: integer utilities. *)
From Coq Require Import Permutation Sorted.
From Verif Require Import GoBase Constants Bitstream BitstreamProofs Util UtilProofs SpecMath.

(** C12 *)
Theorem C12_TileLog2_least : forall blk target, 1 <= blk < 2 ^ 62 -> target <= 2 ^ 62 ->
  exists k, TileLog2 blk target = Ok k /\ is_least (fun k => target <= blk * 2 ^ k) k.
Proof.
  intros blk target Hb Ht. destruct (TileLog2_spec blk target Hb Ht) as (r & E & H0 & H1 & H2).
  exists r. split; [exact E|]. split; [exact H0|]. split; [exact H1|].
  intros j Hj Hc. specialize (H2 j Hj). lia.
Qed.
Print Assumptions C12_TileLog2_least.
Example C12_case : TileLog2 4096 1000000 = Ok 8 /\ 4096 * 2 ^ 8 = 1048576.
Proof. split; reflexivity. Qed.
(** With blkSize 0 the loop never stops, however long it runs. *)
Theorem C12_TileLog2_zero_diverges : forall iterations target k, 0 < target ->
  TileLog2_loop iterations 0 target k = Hang.
Proof. intros. apply TileLog2_zero. assumption. Qed.
Print Assumptions C12_TileLog2_zero_diverges.
Example C12_zero_case : TileLog2 0 1 = Hang.
Proof. reflexivity. Qed.

(** C13 *)
Theorem C13_FloorLog2 : forall x, 1 <= x < 2 ^ 63 ->
  exists s, FloorLog2 x = Ok s /\ 0 <= s /\ 2 ^ s <= x < 2 ^ (s + 1).
Proof.
  intros x Hx. rewrite FloorLog2_pos by lia. exists (Z.log2 x). split; [reflexivity|].
  pose proof (Z.log2_nonneg x). split; [assumption|]. destruct (Z.log2_spec x ltac:(lia)). lia.
Qed.
Print Assumptions C13_FloorLog2.
Theorem C13_FloorLog2_0 : FloorLog2 0 = Ok (-1).
Proof. reflexivity. Qed.
Theorem C13_FloorLog2_negative_diverges : forall iterations x s, x < 0 ->
  FloorLog2_loop iterations x s = Hang.
Proof. intros. apply FloorLog2_loop_neg. assumption. Qed.
Print Assumptions C13_FloorLog2_negative_diverges.
Theorem C13_CeilLog2 : forall x, 1 <= x <= 2 ^ 62 ->
  exists i, CeilLog2 x = Ok i /\ is_least (fun i => x <= 2 ^ i) i.
Proof.
  intros x Hx. destruct (CeilLog2_spec x ltac:(lia)) as (r & E & H0 & H1 & H2 & H3).
  exists r. split; [exact E|]. split; [lia|]. split; [exact H1|].
  intros j Hj Hc. destruct (Z_lt_le_dec x 2) as [Hx2|Hx2]; [rewrite (H3 Hx2) in Hj; lia|].
  specialize (H2 Hx2). assert (2 ^ j <= 2 ^ (r - 1)) by (apply Z.pow_le_mono_r; lia). lia.
Qed.
Print Assumptions C13_CeilLog2.
Example C13_case : FloorLog2 1000 = Ok 9 /\ CeilLog2 1000 = Ok 10 /\ CeilLog2 1024 = Ok 10 /\ FloorLog2 (-1) = Hang.
Proof. repeat split; reflexivity. Qed.

(** C14 *)
Theorem C14_Round2_nearest : forall x n, 0 <= n <= 62 -> - 2 ^ 62 <= x < 2 ^ 62 ->
  exists r, Round2 x n = Ok r /\ nearest_half_up x n r.
Proof.
  intros x n Hn Hx. rewrite (Round2_spec x n Hn Hx). destruct (Z.eqb_spec n 0) as [->|Hn0].
  - exists x. split; [reflexivity|]. unfold nearest_half_up. change (2 ^ 0) with 1. lia.
  - eexists. split; [reflexivity|]. unfold nearest_half_up.
    replace n with (Z.succ (n - 1)) by lia. rewrite Z.pow_succ_r by lia.
    replace (Z.succ (n - 1) - 1) with (n - 1) by lia.
    set (h := 2 ^ (n - 1)). assert (0 < h) by (apply pow2_pos; lia).
    pose proof (Z.div_mod (x + h) (2 * h) ltac:(lia)). pose proof (Z.mod_pos_bound (x + h) (2 * h) ltac:(lia)).
    nia.
Qed.
Print Assumptions C14_Round2_nearest.
Theorem C14_nearest_unique : forall x n r r', 0 <= n -> nearest_half_up x n r -> nearest_half_up x n r' -> r = r'.
Proof.
  unfold nearest_half_up. intros x n r r' Hn H1 H2. pose proof (pow2_pos n Hn). nia.
Qed.
Print Assumptions C14_nearest_unique.
Example C14_case : Round2 (-5) 1 = Ok (-2) /\ Round2 5 1 = Ok 3 /\ Round2 (-7) 2 = Ok (-2).
Proof. repeat split; reflexivity. Qed.

(** C15: the claim is false for every non-negative x that does not round like 2; it holds for x < 0. *)
Theorem C15_Round2Signed_negative_partial : forall x n, 0 <= n <= 62 -> - 2 ^ 62 < x < 0 ->
  exists r, Round2Signed x n = Ok (- r) /\ nearest_half_up (- x) n r.
Proof.
  intros x n Hn Hx. destruct (C14_Round2_nearest (- x) n Hn ltac:(lia)) as (r & E & Hr).
  exists r. split; [|exact Hr]. unfold Round2Signed. destruct (Z.leb_spec 0 x); [lia|].
  rewrite (i64_id (- x)) by lia. rewrite E. cbn [rbind]. rewrite i64_id; [reflexivity|].
  unfold nearest_half_up in Hr. pose proof (pow2_pos n ltac:(lia)). nia.
Qed.
Print Assumptions C15_Round2Signed_negative_partial.
Theorem C15_Round2Signed_ignores_x_refuted : forall x y n, 0 <= x -> 0 <= y -> Round2Signed x n = Round2Signed y n.
Proof.
  intros x y n Hx Hy. unfold Round2Signed.
  destruct (Z.leb_spec 0 x); [|lia]. destruct (Z.leb_spec 0 y); [|lia]. reflexivity.
Qed.
Print Assumptions C15_Round2Signed_ignores_x_refuted.
Example C15_case : Round2Signed 1000 1 = Ok 1 /\ ~ nearest_half_up 1000 1 1 /\ Round2Signed (-1000) 1 = Ok (-500).
Proof. repeat split; try reflexivity. unfold nearest_half_up. lia. Qed.

(** C16 *)
Theorem C16_Clip3 : forall lo hi z, lo <= hi ->
  lo <= Clip3 lo hi z <= hi /\ (lo <= z <= hi -> Clip3 lo hi z = z) /\ Clip3 lo hi z = Z.max lo (Z.min hi z).
Proof.
  intros lo hi z H. unfold Clip3. destruct (Z.ltb_spec z lo); [lia|]. destruct (Z.ltb_spec hi z); lia.
Qed.
Print Assumptions C16_Clip3.
Example C16_case : Clip3 1 255 300 = 255 /\ Clip3 1 255 (-3) = 1 /\ Clip3 1 255 77 = 77.
Proof. repeat split. Qed.
(** Min, Max and Abs are what their names say (Abs up to the most negative 64-bit integer). *)
Theorem C16_Min_Max_Abs : forall x y, Min x y = Z.min x y /\ Max x y = Z.max x y /\
  (- 2 ^ 63 < x < 2 ^ 63 -> Abs x = Z.abs x) /\ (x = - 2 ^ 63 -> Abs x = x).
Proof.
  intros x y. unfold Min, Max, Abs. repeat split.
  - destruct (Z.leb_spec x y); lia.
  - destruct (Z.leb_spec y x); lia.
  - intros H. destruct (Z.leb_spec 0 x); [lia|]. rewrite i64_id by lia. lia.
  - intros ->. reflexivity.
Qed.
Print Assumptions C16_Min_Max_Abs.
Example C16_Min_Max_Abs_case : Min (-3) 5 = -3 /\ Max (-3) 5 = 5 /\ Abs (-7) = 7.
Proof. repeat split. Qed.
(** HasNewmv holds exactly for the inter modes that code a new motion vector: NEWMV, NEAREST_NEWMV,
    NEW_NEARESTMV, NEAR_NEWMV, NEW_NEARMV and NEW_NEWMV, numbered 17, 20, 21, 22, 23, 25 in shared/constants.go. *)
Theorem C16_HasNewmv : forall mode, HasNewmv mode = true <-> In mode [17; 20; 21; 22; 23; 25].
Proof.
  intros mode. unfold HasNewmv. rewrite !orb_true_iff, !Z.eqb_eq.
  change NEWMV with 17; change NEW_NEWMV with 25; change NEAR_NEWMV with 22; change NEW_NEARMV with 23;
  change NEAREST_NEWMV with 20; change NEW_NEARESTMV with 21. cbn [In]. intuition lia.
Qed.
Print Assumptions C16_HasNewmv.
Example C16_HasNewmv_case : HasNewmv 17 = true /\ HasNewmv 14 = false /\ HasNewmv 24 = false.
Proof. repeat split. Qed.
(** Clip1 is not a clamp: it returns 2 whatever sample it is given. *)
Theorem C16_Clip1_constant_refuted : forall x bitDepth, 2 <= bitDepth -> Clip1 x bitDepth = 2.
Proof.
  intros x d Hd. unfold Clip1, Clip3. destruct (Z.ltb_spec d 1); [lia|].
  change (2 <? 0) with false. cbv iota.
  destruct (Z.ltb_spec (2 ^ (d - 1)) 2) as [Hc|Hc]; [|reflexivity].
  assert (2 ^ 1 <= 2 ^ (d - 1)) by (apply Z.pow_le_mono_r; lia). lia.
Qed.
Print Assumptions C16_Clip1_constant_refuted.
(** Its result is at least a legal sample of the bit depth. *)
Theorem C16_Clip1_in_range_partial : forall x bitDepth, 2 <= bitDepth -> 0 <= Clip1 x bitDepth < 2 ^ bitDepth.
Proof.
  intros x d Hd. rewrite C16_Clip1_constant_refuted by lia.
  assert (2 ^ 2 <= 2 ^ d) by (apply Z.pow_le_mono_r; lia). lia.
Qed.
Print Assumptions C16_Clip1_in_range_partial.
Example C16_Clip1_case : Clip1 200 8 = 2 /\ Z.max 0 (Z.min 255 200) = 200.
Proof. split; reflexivity. Qed.

(** C17 *)
Lemma IR_lin r v : 0 <= r < 2 ^ 61 -> 0 <= v < 2 ^ 61 ->
  (v > 2 * r /\ InverseRecenter r v = v) \/
  (v <= 2 * r /\ exists k, v = 2 * k /\ InverseRecenter r v = r + k) \/
  (v <= 2 * r /\ exists k, v = 2 * k - 1 /\ InverseRecenter r v = r - k).
Proof.
  intros Hr Hv. rewrite (InverseRecenter_val r v Hr Hv).
  destruct (Z.ltb_spec (2 * r) v); [left; lia|right].
  pose proof (Z.div_mod v 2 ltac:(lia)). pose proof (Z.mod_pos_bound v 2 ltac:(lia)).
  pose proof (Z.div_mod (v + 1) 2 ltac:(lia)). pose proof (Z.mod_pos_bound (v + 1) 2 ltac:(lia)).
  destruct (Z.eqb_spec (v mod 2) 1).
  - right. split; [lia|]. exists ((v + 1) / 2). split; [|reflexivity]. lia.
  - left. split; [lia|]. exists (v / 2). split; [|reflexivity]. lia.
Qed.
Theorem C17_InverseRecenter_injective : forall r v w, 0 <= r < 2 ^ 61 -> 0 <= v < 2 ^ 61 -> 0 <= w < 2 ^ 61 ->
  InverseRecenter r v = InverseRecenter r w -> v = w.
Proof.
  intros r v w Hr Hv Hw E.
  destruct (IR_lin r v Hr Hv) as [(?&Ev)|[(?&k&?&Ev)|(?&k&?&Ev)]];
  destruct (IR_lin r w Hr Hw) as [(?&Ew)|[(?&k2&?&Ew)|(?&k2&?&Ew)]]; lia.
Qed.
Print Assumptions C17_InverseRecenter_injective.
Theorem C17_InverseRecenter_onto : forall r w, 0 <= r < 2 ^ 60 -> 0 <= w < 2 ^ 61 ->
  exists v, 0 <= v < 2 ^ 61 /\ InverseRecenter r v = w.
Proof.
  intros r w Hr Hw.
  assert (Hc : w > 2 * r \/ r <= w <= 2 * r \/ w < r) by lia.
  destruct Hc as [Hc|[Hc|Hc]];
    [exists w | exists (2 * (w - r)) | exists (2 * (r - w) - 1)]; (split; [lia|]);
    [destruct (IR_lin r w ltac:(lia) ltac:(lia)) as [(?&E)|[(?&k&?&E)|(?&k&?&E)]]
    |destruct (IR_lin r (2 * (w - r)) ltac:(lia) ltac:(lia)) as [(?&E)|[(?&k&?&E)|(?&k&?&E)]]
    |destruct (IR_lin r (2 * (r - w) - 1) ltac:(lia) ltac:(lia)) as [(?&E)|[(?&k&?&E)|(?&k&?&E)]]]; lia.
Qed.
Print Assumptions C17_InverseRecenter_onto.
Theorem C17_InverseRecenter_nonneg_nearest_first : forall r v w, 0 <= r < 2 ^ 61 -> 0 <= v <= w -> w < 2 ^ 61 ->
  0 <= InverseRecenter r v /\ Z.abs (InverseRecenter r v - r) <= Z.abs (InverseRecenter r w - r).
Proof.
  intros r v w Hr Hv Hw.
  destruct (IR_lin r v Hr ltac:(lia)) as [(?&Ev)|[(?&k&?&Ev)|(?&k&?&Ev)]];
  destruct (IR_lin r w Hr ltac:(lia)) as [(?&Ew)|[(?&k2&?&Ew)|(?&k2&?&Ew)]]; lia.
Qed.
Print Assumptions C17_InverseRecenter_nonneg_nearest_first.
Example C17_case : map (InverseRecenter 3) [0; 1; 2; 3; 4; 5; 6; 7; 8] = [3; 2; 4; 1; 5; 0; 6; 7; 8].
Proof. reflexivity. Qed.

(** C18: the code is a bijection of 0..max-1, but it is the specified one only for ref = 0 and ref = 1
    (the guard reads ref == 1 where the AV1 specification has "ref is non zero"). *)
Lemma ND_ref1 diff max : 0 <= diff < max -> 1 < max -> NegDeinterleave diff 1 max = spec_neg_deinterleave diff 1 max.
Proof.
  intros Hd Hm. unfold NegDeinterleave, spec_neg_deinterleave.
  change (1 =? 1) with true. change (1 =? 0) with false. cbn [negb].
  destruct (Z.leb_spec (max - 1) 1); [reflexivity|]. change (2 * 1) with 2.
  destruct (Z.ltb_spec 2 max); [|lia]. destruct (Z.leb_spec diff 2); [|reflexivity].
  assert (diff = 0 \/ diff = 1 \/ diff = 2) as [->|[->| ->]] by lia; reflexivity.
Qed.
Theorem C18_agrees_with_spec_ref_0_1_partial : forall diff ref max, 0 <= diff < max -> 0 <= ref < max -> ref <= 1 ->
  NegDeinterleave diff ref max = spec_neg_deinterleave diff ref max.
Proof.
  intros diff ref max Hd Hr H1. assert (ref = 0 \/ ref = 1) as [->| ->] by lia; [reflexivity|].
  apply ND_ref1; lia.
Qed.
Print Assumptions C18_agrees_with_spec_ref_0_1_partial.
Theorem C18_wrong_for_every_other_ref_refuted : forall ref max, 2 <= ref < max ->
  NegDeinterleave 0 ref max <> spec_neg_deinterleave 0 ref max.
Proof.
  intros ref max H. unfold NegDeinterleave, spec_neg_deinterleave.
  destruct (Z.eqb_spec ref 1); [lia|]. destruct (Z.eqb_spec ref 0); [lia|]. cbn [negb].
  destruct (Z.leb_spec (max - 1) ref); [lia|].
  change (Z.odd 0) with false. change (0 / 2) with 0.
  destruct (Z.ltb_spec (2 * ref) max).
  - destruct (Z.leb_spec 0 (2 * ref)); lia.
  - destruct (Z.leb_spec 0 (2 * (max - ref - 1))); lia.
Qed.
Print Assumptions C18_wrong_for_every_other_ref_refuted.
Theorem C18_still_a_bijection : forall ref max, 0 <= ref < max ->
  (forall d, 0 <= d < max -> 0 <= NegDeinterleave d ref max < max) /\
  (forall d d', 0 <= d < max -> 0 <= d' < max -> NegDeinterleave d ref max = NegDeinterleave d' ref max -> d = d').
Proof.
  intros ref max Hr. destruct (Z.eq_dec ref 1) as [->|Hne].
  - assert (V : forall d, 0 <= d < max -> NegDeinterleave d 1 max =
       if max =? 2 then 1 - d else if d =? 0 then 1 else if d =? 1 then 2 else if d =? 2 then 0 else d).
    { intros d Hd. unfold NegDeinterleave. change (negb (1 =? 1)) with false. cbv iota.
      destruct (Z.leb_spec (max - 1) 1); destruct (Z.eqb_spec max 2); try lia.
      change (2 * 1) with 2. destruct (Z.ltb_spec 2 max); [|lia].
      destruct (Z.leb_spec d 2).
      - assert (d = 0 \/ d = 1 \/ d = 2) as [->|[->| ->]] by lia; reflexivity.
      - destruct (Z.eqb_spec d 0), (Z.eqb_spec d 1), (Z.eqb_spec d 2); lia. }
    split; intros d; intros; [rewrite (V d) by lia|rewrite (V d), (V d') in * by lia];
      repeat match goal with |- context [?a =? ?b] => destruct (Z.eqb_spec a b)
                           | H : context [?a =? ?b] |- _ => destruct (Z.eqb_spec a b) end; lia.
  - assert (V : forall d, NegDeinterleave d ref max = d).
    { intros d. unfold NegDeinterleave. destruct (Z.eqb_spec ref 1); [lia|reflexivity]. }
    split; intros; [rewrite V|rewrite !V in *]; lia.
Qed.
Print Assumptions C18_still_a_bijection.
Example C18_case : map (fun d => NegDeinterleave d 1 5) [0;1;2;3;4] = [1;2;0;3;4] /\
  NegDeinterleave 0 4 8 = 0 /\ spec_neg_deinterleave 0 4 8 = 4.
Proof. repeat split. Qed.

(** C19 *)
Theorem C19_Sort : forall arr i1 i2, 0 <= i1 <= i2 -> i2 < zlen arr ->
  exists before mid mid' after, arr = before ++ mid ++ after /\ zlen before = i1 /\ zlen mid = i2 - i1 + 1 /\
    Sort arr i1 i2 = Ok (before ++ mid' ++ after) /\ Permutation mid mid' /\ Sorted Z.le mid'.
Proof.
  intros arr i1 i2 H12 Hl. unfold Sort, zlen in *.
  destruct (Z.ltb_spec i1 0); [lia|]. destruct (Z.ltb_spec (i2 + 1) i1); [lia|].
  destruct (Z.ltb_spec (Z.of_nat (length arr)) (i2 + 1)); [lia|]. cbn [orb].
  destruct (Z.ltb_spec i2 i1); [lia|].
  set (n1 := Z.to_nat i1). set (k := Z.to_nat (i2 + 1 - i1)).
  exists (firstn n1 arr), (firstn k (skipn n1 arr)), (sort_ints (firstn k (skipn n1 arr))), (skipn (Z.to_nat (i2 + 1)) arr).
  split; [|split; [|split; [|split; [reflexivity|split; [apply sort_perm|apply sort_sorted]]]]].
  - rewrite <- (firstn_skipn n1 arr) at 1. f_equal. rewrite <- (firstn_skipn k (skipn n1 arr)) at 1. f_equal.
    rewrite skipn_skipn_add. f_equal. subst n1 k. lia.
  - rewrite firstn_length. subst n1. lia.
  - rewrite firstn_length, skipn_length. subst n1 k. lia.
Qed.
Print Assumptions C19_Sort.
Theorem C19_Sort_panics_iff_bad_range : forall arr i1 i2,
  Sort arr i1 i2 = Panic <-> ~ (0 <= i1 <= i2 /\ i2 < zlen arr).
Proof.
  intros arr i1 i2. unfold Sort.
  destruct (Z.ltb_spec i1 0); [cbn; split; [lia|reflexivity]|].
  destruct (Z.ltb_spec (i2 + 1) i1); [cbn; split; [lia|reflexivity]|].
  destruct (Z.ltb_spec (zlen arr) (i2 + 1)); [cbn; split; [lia|reflexivity]|]. cbn [orb].
  destruct (Z.ltb_spec i2 i1); split; try discriminate; try lia; reflexivity.
Qed.
Print Assumptions C19_Sort_panics_iff_bad_range.
Example C19_case : Sort [9; 7; 3; 5; 1; 0] 1 4 = Ok [9; 1; 3; 5; 7; 0] /\ Sort [1; 2] 1 2 = Panic.
Proof. split; reflexivity. Qed.

(** C20: false of the code.  Brev copies bit 1 of x into every position; Cos128 panics outside the
    first quarter turn. *)
Lemma land1_bit x : Z.land (shr x 1) 1 = if Z.testbit x 1 then 1 else 0.
Proof.
  unfold shr. rewrite land1_mod. replace (Z.testbit x 1) with (Z.testbit (Z.shiftr x 1) 0)
    by (rewrite Z.shiftr_spec by lia; reflexivity).
  rewrite Z.bit0_odd, Zmod_odd. reflexivity.
Qed.
Theorem C20_Brev_actual_refuted : forall n x, 0 <= n -> Brev n x = if Z.testbit x 1 then 2 ^ n - 1 else 0.
Proof. intros n x Hn. rewrite (Brev_value n x Hn), land1_bit. destruct (Z.testbit x 1); lia. Qed.
Print Assumptions C20_Brev_actual_refuted.
(** Hence it reverses bits only when every one of the n low bits equals bit 1. *)
Theorem C20_Brev_correct_only_for_uniform_bits_partial : forall n x, 0 <= n ->
  (is_bit_reversal n x (Brev n x) <-> forall i, 0 <= i < n -> Z.testbit x i = Z.testbit x 1).
Proof.
  intros n x Hn. rewrite (C20_Brev_actual_refuted n x Hn).
  pose proof (pow2_pos n Hn). split.
  - intros [_ H1] i Hi. specialize (H1 (n - 1 - i) ltac:(lia)).
    replace (n - 1 - (n - 1 - i)) with i in H1 by lia. rewrite <- H1.
    destruct (Z.testbit x 1); [|apply Z.testbit_0_l].
    replace (2 ^ n - 1) with (Z.ones n) by (rewrite Z.ones_equiv; lia). apply Z.ones_spec_low. lia.
  - intros H1. split; [destruct (Z.testbit x 1); lia|]. intros i Hi. rewrite (H1 (n - 1 - i)) by lia.
    destruct (Z.testbit x 1); [|apply Z.testbit_0_l].
    replace (2 ^ n - 1) with (Z.ones n) by (rewrite Z.ones_equiv; lia). apply Z.ones_spec_low. lia.
Qed.
Print Assumptions C20_Brev_correct_only_for_uniform_bits_partial.
Example C20_Brev_case : Brev 3 1 = 0 /\ is_bit_reversal 3 1 4 /\ Brev 3 2 = 7.
Proof.
  repeat split; try reflexivity; try lia. intros i Hi.
  assert (i = 0 \/ i = 1 \/ i = 2) as [->|[->| ->]] by lia; reflexivity.
Qed.
Lemma land255 a : Z.land a 255 = a mod 256.
Proof. change 255 with (Z.ones 8). rewrite Z.land_ones by lia. reflexivity. Qed.
Theorem C20_Cos128_first_quarter_partial : forall angle, angle mod 256 <= 64 ->
  exists c, Cos128 angle = Ok c /\ nth_error Cos128_Lookup (Z.to_nat (angle mod 256)) = Some c /\ 0 <= c <= 4096.
Proof.
  intros a H. unfold Cos128. rewrite land255. pose proof (Z.mod_pos_bound a 256 ltac:(lia)).
  destruct (Z.leb_spec 0 (a mod 256)); [|lia]. cbn [orb].
  rewrite (idx_ok _ _ 0) by (change (zlen Cos128_Lookup) with 65; lia).
  eexists. split; [reflexivity|].
  assert (Hall : forallb (fun c => (0 <=? c) && (c <=? 4096)) Cos128_Lookup = true) by reflexivity.
  rewrite forallb_forall in Hall.
  rewrite (nth_error_nth' _ 0) by (change (length Cos128_Lookup) with 65%nat; lia).
  split; [reflexivity|].
  specialize (Hall (nth (Z.to_nat (a mod 256)) Cos128_Lookup 0)).
  rewrite andb_true_iff in Hall. destruct Hall as [h1 h2].
  { apply nth_In. change (length Cos128_Lookup) with 65%nat. lia. }
  lia.
Qed.
Print Assumptions C20_Cos128_first_quarter_partial.
Theorem C20_Cos128_panics_elsewhere_refuted : forall angle, 64 < angle mod 256 -> Cos128 angle = Panic.
Proof.
  intros a H. unfold Cos128. rewrite land255. pose proof (Z.mod_pos_bound a 256 ltac:(lia)).
  destruct (Z.leb_spec 0 (a mod 256)); [|lia]. cbn [orb].
  apply idx_panic. right. change (zlen Cos128_Lookup) with 65. lia.
Qed.
Print Assumptions C20_Cos128_panics_elsewhere_refuted.
Theorem C20_Sin128_panics_on_acute_angles_refuted : forall angle, angle mod 256 < 64 -> Sin128 angle = Panic.
Proof.
  intros a H. apply C20_Cos128_panics_elsewhere_refuted.
  pose proof (Z.mod_pos_bound a 256 ltac:(lia)). pose proof (Z.div_mod a 256 ltac:(lia)).
  replace (a - 64) with (a mod 256 + 192 + (a / 256 - 1) * 256) by lia.
  rewrite Z.mod_add by lia. rewrite Z.mod_small; lia.
Qed.
Print Assumptions C20_Sin128_panics_on_acute_angles_refuted.
Example C20_Cos128_case : Cos128 32 = Ok 2896 /\ Cos128 (-256) = Ok 4096 /\ Cos128 128 = Panic /\ Sin128 32 = Panic.
Proof. repeat split; reflexivity. Qed.
