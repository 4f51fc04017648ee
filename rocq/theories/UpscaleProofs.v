(** Proofs about the upscaling process. *)
From Verif Require Import GoBase Util UtilProofs Constants Frame Writes Upscale.

Lemma Clip1_two v bd : 2 <= bd -> Clip1 v bd = 2.
Proof.
  intros Hd. unfold Clip1, Clip3. destruct (Z.ltb_spec bd 1); [lia|]. change (2 <? 0) with false. cbv iota.
  destruct (Z.ltb_spec (2 ^ (bd - 1)) 2) as [Hc|Hc]; [|reflexivity]. assert (2 ^ 1 <= 2 ^ (bd - 1)) by (apply Z.pow_le_mono_r; lia). lia.
Qed.
Definition sub_shift (plane : Z) (b : bool) : Z := if 0 <? plane then int_of b else 0.
Lemma sub_shift_range plane b : 0 <= sub_shift plane b <= 1. Proof. unfold sub_shift. destruct (0 <? plane), b; cbn; lia. Qed.
(** the size of a plane: half, rounded up, when subsampled *)
Definition half_up (sub n : Z) : Z := (n + sub) / 2 ^ sub.
Lemma Round2_half n sub : 0 <= sub <= 1 -> 0 <= n < 2 ^ 32 -> Round2 n sub = Ok (half_up sub n).
Proof.
  intros Hs Hn. change (2 ^ 32) with 4294967296 in Hn. rewrite Round2_spec by (change (2 ^ 62) with 4611686018427387904; lia). f_equal. unfold half_up.
  assert (sub = 0 \/ sub = 1) as [-> | ->] by lia; [change (0 =? 0) with true; cbv iota; change (2 ^ 0) with 1; rewrite Z.div_1_r; lia|reflexivity].
Qed.
Lemma half_up_range sub n : 0 <= sub <= 1 -> 0 <= n -> 0 <= half_up sub n <= n /\ (0 < n -> 0 < half_up sub n).
Proof.
  intros Hs Hn. unfold half_up. assert (sub = 0 \/ sub = 1) as [-> | ->] by lia; [change (2 ^ 0) with 1; rewrite Z.div_1_r; lia|]. change (2 ^ 1) with 2.
  pose proof (Z.div_mod (n + 1) 2 ltac:(lia)). pose proof (Z.mod_pos_bound (n + 1) 2 ltac:(lia)). lia.
Qed.

(** ** The filter *)
Lemma Clip3_in lo hi z : lo <= hi -> lo <= Clip3 lo hi z <= hi.
Proof. intros. unfold Clip3. destruct (Z.ltb_spec z lo); [lia|]. destruct (Z.ltb_spec hi z); lia. Qed.
Definition taps_ok : bool := forallb (fun r => match r with [a; b; c; d; e; f; g; h] => a + b + c + d + e + f + g + h =? 128 | _ => false end) UPSCALE_FILTER.
Lemma taps_sum k : 0 <= k < 64 -> exists a b c d e f g h, idx UPSCALE_FILTER k = Ok [a; b; c; d; e; f; g; h] /\ a + b + c + d + e + f + g + h = 128 /\
  Z.abs a + Z.abs b + Z.abs c + Z.abs d + Z.abs e + Z.abs f + Z.abs g + Z.abs h <= 256.
Proof.
  intros Hk. destruct (idx UPSCALE_FILTER k) as [r| |] eqn:E; [|rewrite (idx_ok _ _ []) in E by exact Hk; discriminate|rewrite (idx_ok _ _ []) in E by exact Hk; discriminate].
  assert (F : Forall (fun r => exists a b c d e f g h, r = [a; b; c; d; e; f; g; h] /\ a + b + c + d + e + f + g + h = 128 /\
    Z.abs a + Z.abs b + Z.abs c + Z.abs d + Z.abs e + Z.abs f + Z.abs g + Z.abs h <= 256) UPSCALE_FILTER).
  { unfold UPSCALE_FILTER. repeat (constructor; [do 8 eexists; split; [reflexivity|split; [reflexivity|cbn; lia]]|]). constructor. }
  destruct (idx_Forall _ _ _ _ F E) as (a & b & c & d & e & f & g & h & -> & H1 & H2). exists a, b, c, d, e, f, g, h. auto.
Qed.
Lemma subpel_range srcX : 0 <= shr (Z.land srcX SUPERRES_SCALE_MASK) SUPERRES_EXTRA_BITS < 64.
Proof.
  change SUPERRES_SCALE_MASK with (Z.ones 14). change SUPERRES_EXTRA_BITS with 8. rewrite Z.land_ones by lia. unfold shr. rewrite Z.shiftr_div_pow2 by lia. change (2 ^ 14) with 16384. change (2 ^ 8) with 256.
  pose proof (Z.mod_pos_bound srcX 16384 ltac:(lia)). split; [apply Z.div_pos; lia|apply Z.div_lt_upper_bound; lia].
Qed.
(** the eight taps written out *)
Lemma upSum_eq f plane y minX maxX srcX (col : Z -> Z) : minX <= maxX -> (forall x, minX <= x <= maxX -> idx3 f plane y x = Ok (col x)) ->
  exists a b c d e i g h, idx UPSCALE_FILTER ((srcX mod 2 ^ 14) / 2 ^ 8) = Ok [a; b; c; d; e; i; g; h] /\
  let at_ k := col (Clip3 minX maxX (srcX / 2 ^ 14 + k)) in
  upSum f plane y minX maxX srcX = Ok (at_ (-3) * a + at_ (-2) * b + at_ (-1) * c + at_ 0 * d + at_ 1 * e + at_ 2 * i + at_ 3 * g + at_ 4 * h).
Proof.
  intros Hm Hc. pose proof (subpel_range srcX) as R.
  assert (E1 : shr (Z.land srcX SUPERRES_SCALE_MASK) SUPERRES_EXTRA_BITS = (srcX mod 2 ^ 14) / 2 ^ 8).
  { change SUPERRES_SCALE_MASK with (Z.ones 14). change SUPERRES_EXTRA_BITS with 8. rewrite Z.land_ones by lia. unfold shr. rewrite Z.shiftr_div_pow2 by lia. reflexivity. }
  assert (E2 : shr srcX SUPERRES_SCALE_BITS = srcX / 2 ^ 14) by (unfold shr; change SUPERRES_SCALE_BITS with 14; apply Z.shiftr_div_pow2; lia).
  rewrite E1 in R. destruct (taps_sum _ R) as (a & b & c & d & e & i & g & h & ET & _). exists a, b, c, d, e, i, g, h. split; [exact ET|]. cbv zeta.
  unfold upSum. rewrite E1, E2. set (px := srcX / 2 ^ 14). set (ph := srcX mod 2 ^ 14 / 2 ^ 8) in *. unfold rfor_to. change (Z.to_nat (SUPERRES_FILTER_TAPS - 0)) with 8%nat. cbn [rfor_from].
  assert (HX : forall z, idx3 f plane y (Clip3 minX maxX z) = Ok (col (Clip3 minX maxX z))) by (intro z; apply Hc, Clip3_in, Hm).
  unfold idx2. rewrite ET. change SUPERRES_FILTER_OFFSET with 3. cbn [rbind]. rewrite !HX. cbn [rbind].
  change (idx [a; b; c; d; e; i; g; h] 0) with (Ok a). change (idx [a; b; c; d; e; i; g; h] (0 + 1)) with (Ok b). change (idx [a; b; c; d; e; i; g; h] (0 + 1 + 1)) with (Ok c). change (idx [a; b; c; d; e; i; g; h] (0 + 1 + 1 + 1)) with (Ok d).
  change (idx [a; b; c; d; e; i; g; h] (0 + 1 + 1 + 1 + 1)) with (Ok e). change (idx [a; b; c; d; e; i; g; h] (0 + 1 + 1 + 1 + 1 + 1)) with (Ok i). change (idx [a; b; c; d; e; i; g; h] (0 + 1 + 1 + 1 + 1 + 1 + 1)) with (Ok g). change (idx [a; b; c; d; e; i; g; h] (0 + 1 + 1 + 1 + 1 + 1 + 1 + 1)) with (Ok h).
  cbn [rbind]. f_equal.
Qed.
(** a flat row stays flat *)
Lemma upSum_flat f plane y minX maxX srcX v : minX <= maxX -> (forall x, minX <= x <= maxX -> idx3 f plane y x = Ok v) -> upSum f plane y minX maxX srcX = Ok (128 * v).
Proof.
  intros Hm Hc. destruct (upSum_eq f plane y minX maxX srcX (fun _ => v) Hm Hc) as (a & b & c & d & e & i & g & h & ET & ->). cbv beta. f_equal.
  assert (R : 0 <= srcX mod 2 ^ 14 / 2 ^ 8 < 64). { change (2 ^ 14) with 16384. change (2 ^ 8) with 256. pose proof (Z.mod_pos_bound srcX 16384 ltac:(lia)). split; [apply Z.div_pos; lia|apply Z.div_lt_upper_bound; lia]. }
  destruct (taps_sum _ R) as (a' & b' & c' & d' & e' & i' & g' & h' & ET' & HS & _). rewrite ET in ET'. injection ET' as <- <- <- <- <- <- <- <-. nia.
Qed.
Lemma abs8 a b c d e f g h : Z.abs (a + b + c + d + e + f + g + h) <= Z.abs a + Z.abs b + Z.abs c + Z.abs d + Z.abs e + Z.abs f + Z.abs g + Z.abs h.
Proof. do 7 (etransitivity; [apply Z.abs_triangle|apply Z.add_le_mono_r]). reflexivity. Qed.
(** the sum is bounded by the largest sample *)
Lemma upSum_bound f plane y minX maxX srcX s B : minX <= maxX -> (forall x, minX <= x <= maxX -> exists v, idx3 f plane y x = Ok v /\ Z.abs v <= B) -> upSum f plane y minX maxX srcX = Ok s -> Z.abs s <= 256 * B.
Proof.
  intros Hm Hc E. set (col := fun x => match idx3 f plane y x with Ok v => v | _ => 0 end).
  assert (HB : 0 <= B) by (destruct (Hc minX ltac:(lia)) as (v & _ & ?); lia).
  assert (H0 : forall x, minX <= x <= maxX -> idx3 f plane y x = Ok (col x)) by (intros x Hx; unfold col; destruct (Hc x Hx) as (v & -> & _); reflexivity).
  assert (H1 : forall x, minX <= x <= maxX -> Z.abs (col x) <= B) by (intros x Hx; unfold col; destruct (Hc x Hx) as (v & -> & ?); assumption).
  destruct (upSum_eq f plane y minX maxX srcX col Hm H0) as (a & b & c & d & e & i & g & h & ET & EQ). rewrite EQ in E. injection E as <-.
  assert (R : 0 <= srcX mod 2 ^ 14 / 2 ^ 8 < 64). { change (2 ^ 14) with 16384. change (2 ^ 8) with 256. pose proof (Z.mod_pos_bound srcX 16384 ltac:(lia)). split; [apply Z.div_pos; lia|apply Z.div_lt_upper_bound; lia]. }
  destruct (taps_sum _ R) as (a' & b' & c' & d' & e' & i' & g' & h' & ET' & _ & HS). rewrite ET in ET'. injection ET' as <- <- <- <- <- <- <- <-. clear EQ ET R.
  assert (K : forall z t, Z.abs (col (Clip3 minX maxX z) * t) <= B * Z.abs t) by (intros z t; rewrite Z.abs_mul; apply Z.mul_le_mono_nonneg_r; [lia|]; apply H1, Clip3_in, Hm).
  cbv zeta. set (px := srcX / 2 ^ 14). pose proof (K (px + -3) a). pose proof (K (px + -2) b). pose proof (K (px + -1) c). pose proof (K (px + 0) d). pose proof (K (px + 1) e). pose proof (K (px + 2) i). pose proof (K (px + 3) g). pose proof (K (px + 4) h).
  assert (B * (Z.abs a + Z.abs b + Z.abs c + Z.abs d + Z.abs e + Z.abs i + Z.abs g + Z.abs h) <= B * 256) as HF by (apply Z.mul_le_mono_nonneg_l; assumption).
  rewrite !Z.mul_add_distr_l in HF. etransitivity; [apply abs8|]. rewrite (Z.mul_comm 256 B). etransitivity; [|exact HF]. repeat apply Z.add_le_mono; assumption.
Qed.

(** ** One plane and all planes *)
Lemma upPlane_writes e f plane g g' : 2 <= uBitDepth e -> 0 <= uUpscaledWidth e < 2 ^ 32 -> 0 <= uFrameHeight e < 2 ^ 32 -> upPlane e f plane g = Ok g' ->
  writes get3 (fun _ => Ok 2) (fun q => exists y, 0 <= y < half_up (sub_shift plane (uSubY e)) (uFrameHeight e) /\ exists x, 0 <= x < half_up (sub_shift plane (uSubX e)) (uUpscaledWidth e) /\ q = (plane, y, x)) g g'.
Proof.
  intros Hb Hw Hh. unfold upPlane. cbv zeta. fold (sub_shift plane (uSubX e)). fold (sub_shift plane (uSubY e)). rewrite (Round2_half (uUpscaledWidth e)), (Round2_half (uFrameHeight e)) by (assumption || apply sub_shift_range).
  intros H. apply rbind_inv in H as (dw & _ & H). cbn [rbind] in H. apply rbind_inv in H as (st & _ & H). apply rbind_inv in H as (ini & _ & H). revert H. apply writes_loop.
  - intros y Hy. apply decided_range. intros. apply decided_eq3.
  - intros y a a' Hy. apply writes_loop; [intros; apply decided_eq3|]. intros x b b' Hx H. apply rbind_inv in H as (v & Ev & H). eapply writes_upd3; [|exact H].
    unfold upSample in Ev. apply rbind_inv in Ev as (s & _ & Ev). apply rbind_inv in Ev as (r & _ & Ev). injection Ev as <-. rewrite Clip1_two by exact Hb. reflexivity.
Qed.
Lemma upscaling_writes e f g : 2 <= uBitDepth e -> 0 <= uUpscaledWidth e < 2 ^ 32 -> 0 <= uFrameHeight e < 2 ^ 32 -> upscalingProcess e f = Ok g ->
  writes get3 (fun _ => Ok 2) (fun q => exists plane, 0 <= plane < uNumPlanes e /\ exists y, 0 <= y < half_up (sub_shift plane (uSubY e)) (uFrameHeight e) /\ exists x, 0 <= x < half_up (sub_shift plane (uSubX e)) (uUpscaledWidth e) /\ q = (plane, y, x)) zero9 g.
Proof.
  intros Hb Hw Hh. unfold upscalingProcess. apply writes_loop.
  - intros p Hp. apply decided_range. intros. apply decided_range. intros. apply decided_eq3.
  - intros p a a' Hp. apply upPlane_writes; assumption.
Qed.
Lemma zero9_shape : array3 3 9 9 zero9.
Proof. split; [reflexivity|]. repeat constructor. Qed.
Lemma upPlane_keep e f plane g g' : array3 3 9 9 g -> upPlane e f plane g = Ok g' -> array3 3 9 9 g'.
Proof.
  intros HG. unfold upPlane. cbv zeta. intros H. do 5 (apply rbind_inv in H as (? & _ & H)). revert H. apply rfor_to_keep; [exact HG|]. intros y b b' _ Hb. apply rfor_to_keep; [exact Hb|]. intros xx c c' _ Hc H.
  apply rbind_inv in H as (v & _ & H). exact (array3_upd _ _ _ _ _ _ _ _ _ Hc H).
Qed.
Lemma upscaling_shape e f g : upscalingProcess e f = Ok g -> array3 3 9 9 g.
Proof. apply rfor_to_keep; [exact zero9_shape|]. intros p b b' _ Hb. apply upPlane_keep. exact Hb. Qed.

Lemma upSample_ok e f plane maxX ini st y x B : 0 <= maxX -> 0 <= B < 2 ^ 32 -> (forall x, 0 <= x <= maxX -> exists v, idx3 f plane y x = Ok v /\ Z.abs v <= B) -> exists v, upSample e f plane maxX ini st y x = Ok v.
Proof.
  intros Hm HB Hc. unfold upSample. set (col := fun x => match idx3 f plane y x with Ok v => v | _ => 0 end).
  assert (H0 : forall x, 0 <= x <= maxX -> idx3 f plane y x = Ok (col x)) by (intros z Hz; unfold col; destruct (Hc z Hz) as (v & -> & _); reflexivity).
  destruct (upSum_eq f plane y 0 maxX (upSrcX ini st x) col Hm H0) as (a & b & c & d & i & j & k & l & _ & E). rewrite E. cbn [rbind]. unfold Round2. change (FILTER_BITS =? 0) with false. change (FILTER_BITS <? 0) with false. cbv iota. cbn [rbind]. eexists. reflexivity.
Qed.
(** It succeeds when every plane fits the arrays. *)
Lemma upscaling_ok e f B : array3 3 16 16 f -> (forall p y x v, idx3 f p y x = Ok v -> Z.abs v <= B) -> 0 <= B < 2 ^ 32 -> 0 <= uNumPlanes e <= 3 -> 0 <= uFrameWidth e < 2 ^ 32 ->
  0 < uUpscaledWidth e -> 0 <= uFrameHeight e ->
  uUpscaledWidth e <= 9 -> uFrameHeight e <= 9 -> 2 <= uMiCols e <= 4 -> exists g, upscalingProcess e f = Ok g.
Proof.
  intros HA HB HB' Hn HFW Hw Hh Hw' Hh' Hc. destruct (rfor_to_ok (array3 3 9 9) 0 (uNumPlanes e) (fun plane g => upPlane e f plane g) zero9 zero9_shape) as (g & E & _); [|exists g; exact E].
  intros plane g Hp Hg. pose proof (sub_shift_range plane (uSubX e)) as SX. pose proof (sub_shift_range plane (uSubY e)) as SY.
  unfold upPlane. cbv zeta. fold (sub_shift plane (uSubX e)). fold (sub_shift plane (uSubY e)). set (sx := sub_shift plane (uSubX e)) in *. set (sy := sub_shift plane (uSubY e)) in *.
  change (2 ^ 32) with 4294967296 in *. rewrite (Round2_half (uFrameWidth e)), (Round2_half (uUpscaledWidth e)), (Round2_half (uFrameHeight e)) by (change (2 ^ 32) with 4294967296; lia). cbn [rbind].
  pose proof (half_up_range sx (uUpscaledWidth e) SX ltac:(lia)) as [UW1 UW2]. specialize (UW2 Hw). pose proof (half_up_range sy (uFrameHeight e) SY Hh) as [PH _].
  unfold upStep, upInitial. destruct (Z.eqb_spec (half_up sx (uUpscaledWidth e)) 0); [lia|]. cbn [rbind].
  assert (MX : 0 <= shr (uMiCols e) sx * MI_SIZE - 1 <= 15).
  { change MI_SIZE with 4. unfold shr. rewrite Z.shiftr_div_pow2 by lia. clear - SX Hc. assert (sx = 0 \/ sx = 1) as [-> | ->] by lia; [change (2 ^ 0) with 1; rewrite Z.div_1_r; lia|]. change (2 ^ 1) with 2.
    pose proof (Z.div_mod (uMiCols e) 2 ltac:(lia)). pose proof (Z.mod_pos_bound (uMiCols e) 2 ltac:(lia)). lia. }
  apply (rfor_to_ok (array3 3 9 9)); [exact Hg|]. intros y b Hy Hb. apply (rfor_to_ok (array3 3 9 9)); [exact Hb|]. intros x d Hx Hd.
  match goal with |- context [upSample e f plane ?m ?i ?st y x] => destruct (upSample_ok e f plane m i st y x B (proj1 MX) HB') as [v ->] end.
  { intros z Hz. destruct (proj2 (array3_get 3 16 16 f plane y z HA)) as [v Ev]; [lia|]. exists v. split; [exact Ev|exact (HB _ _ _ _ Ev)]. }
  cbn [rbind]. destruct (proj2 (array3_get 3 9 9 d plane y x Hd)) as [u Eu]; [lia|]. destruct (upd3_succeeds _ _ _ _ _ v Eu) as [g' E']. exists g'. split; [exact E'|]. exact (array3_upd _ _ _ _ _ _ _ _ _ Hd E').
Qed.

(** ** Where the taps are *)
(** without super-resolution *)
Lemma up_same w : 0 < w < 2 ^ 32 -> upStep w w = Ok (2 ^ 14) /\ upInitial w w (2 ^ 14) = Ok 128.
Proof.
  change (2 ^ 32) with 4294967296. intros Hw. unfold upStep, upInitial. destruct (Z.eqb_spec w 0); [lia|]. change SUPERRES_SCALE_BITS with 14. change SUPERRES_EXTRA_BITS with 8.
  assert (E : shl w 14 = w * 2 ^ 14). { unfold shl. rewrite Z.shiftl_mul_pow2 by lia. apply i64_id. change (2 ^ 14) with 16384. change (2 ^ 63) with 9223372036854775808. lia. }
  rewrite E. split.
  - f_equal. change (2 ^ 14) with 16384. rewrite (Z.quot_div_nonneg w 2) by lia. pose proof (Z.div_mod w 2 ltac:(lia)). pose proof (Z.mod_pos_bound w 2 ltac:(lia)). rewrite Z.quot_div_nonneg by lia. symmetry. apply (Z.div_unique_pos _ _ _ (w / 2)); lia.
  - f_equal. rewrite Z.sub_diag. replace (w * 2 ^ 14 - w * 2 ^ 14) with 0 by lia. change (shl 0 (14 - 1)) with 0. change (Z.quot 0 2) with 0. rewrite (Z.quot_small (- 0 + Z.quot w 2) w).
    + reflexivity.
    + change (-0 + Z.quot w 2) with (0 + Z.quot w 2). rewrite Z.add_0_l. rewrite Z.quot_div_nonneg by lia. split; [apply Z.div_pos; lia|apply Z.div_lt_upper_bound; lia].
Qed.
Lemma srcX_same x : upSrcX 128 (2 ^ 14) x = (x - 1) * 2 ^ 14 + 128.
Proof. unfold upSrcX. change (shl 1 SUPERRES_SCALE_BITS) with (2 ^ 14). lia. Qed.
Lemma upSum_same f plane y maxX x (col : Z -> Z) : 0 <= maxX -> (forall x, 0 <= x <= maxX -> idx3 f plane y x = Ok (col x)) -> upSum f plane y 0 maxX (upSrcX 128 (2 ^ 14) x) = Ok (128 * col (Clip3 0 maxX (x - 1))).
Proof.
  intros Hm Hc. rewrite srcX_same. destruct (upSum_eq f plane y 0 maxX ((x - 1) * 2 ^ 14 + 128) col Hm Hc) as (a & b & c & d & e & i & g & h & ET & ->).
  assert (E1 : ((x - 1) * 2 ^ 14 + 128) mod 2 ^ 14 = 128) by (rewrite Z.add_comm, Z.mod_add by lia; reflexivity).
  assert (E2 : ((x - 1) * 2 ^ 14 + 128) / 2 ^ 14 = x - 1) by (rewrite Z.div_add_l by lia; change (128 / 2 ^ 14) with 0; lia).
  rewrite E1 in ET. change (idx UPSCALE_FILTER (128 / 2 ^ 8)) with (Ok [0; 0; 0; 128; 0; 0; 0; 0]) in ET. injection ET as <- <- <- <- <- <- <- <-. rewrite E2. cbv zeta. f_equal. rewrite Z.add_0_r. lia.
Qed.

(** with super-resolution: the position of output column x in the input row, in 1/2^14 columns, is that of its centre, up to an error below a quarter of the width *)
Lemma up_position dw uw x : 0 < dw < uw -> uw <= 1024 -> uw <= 16 * (uw - dw) -> 0 <= x < uw ->
  exists st ini, upStep dw uw = Ok st /\ upInitial dw uw st = Ok ini /\ 0 < st <= 2 ^ 14 /\ 4 * Z.abs (uw * (upSrcX ini st x - 128) - ((2 * x + 1) * dw - uw) * 2 ^ 13) <= uw * (uw + 10).
Proof.
  intros Hd Hu Hl Hx. unfold upStep, upInitial, upSrcX. destruct (Z.eqb_spec uw 0); [lia|]. change SUPERRES_SCALE_BITS with 14. change SUPERRES_EXTRA_BITS with 8. change (shl 1 (8 - 1)) with 128. change (shl 1 14) with 16384. change (14 - 1) with 13.
  assert (E : forall z, 0 <= z <= 1024 -> shl z 14 = z * 16384) by (intros z Hz; unfold shl; rewrite Z.shiftl_mul_pow2 by lia; change (2 ^ 14) with 16384; apply i64_id; change (2 ^ 63) with 9223372036854775808; lia).
  assert (E' : shl (uw - dw) 13 = (uw - dw) * 8192) by (unfold shl; rewrite Z.shiftl_mul_pow2 by lia; change (2 ^ 13) with 8192; apply i64_id; change (2 ^ 63) with 9223372036854775808; lia).
  rewrite (E dw) by lia. rewrite E'. change (2 ^ 14) with 16384. change (2 ^ 13) with 8192. rewrite (Z.quot_div_nonneg uw 2) by lia.
  set (h := uw / 2). assert (Hh : 2 * h <= uw <= 2 * h + 1) by (unfold h; pose proof (Z.div_mod uw 2 ltac:(lia)); pose proof (Z.mod_pos_bound uw 2 ltac:(lia)); lia). clearbody h.
  rewrite (Z.quot_div_nonneg (dw * 16384 + h) uw) by lia. set (st := (dw * 16384 + h) / uw). pose proof (Z.div_mod (dw * 16384 + h) uw ltac:(lia)) as D. pose proof (Z.mod_pos_bound (dw * 16384 + h) uw ltac:(lia)) as Dm. fold st in D. set (r := (dw * 16384 + h) mod uw) in *. clearbody r st.
  exists st. set (err := uw * st - dw * 16384). assert (Herr : - h - 1 <= err <= h) by (unfold err; lia). 
  set (q := Z.quot (- ((uw - dw) * 8192) + h) uw). pose proof (Z.quot_rem (- ((uw - dw) * 8192) + h) uw ltac:(lia)) as Q. pose proof (Z.rem_nonpos (- ((uw - dw) * 8192) + h) uw ltac:(lia) ltac:(lia)) as Qn. pose proof (Z.rem_bound_abs (- ((uw - dw) * 8192) + h) uw ltac:(lia)) as Qb.
  fold q in Q. set (r' := Z.rem (- ((uw - dw) * 8192) + h) uw) in *. clearbody r' q.
  set (e2 := Z.quot err 2). assert (He2 : -1 <= err - 2 * e2 <= 1). { unfold e2. pose proof (Z.quot_rem err 2 ltac:(lia)). pose proof (Z.rem_bound_abs err 2 ltac:(lia)). lia. } clearbody e2.
  assert (Hq : - 8192 <= q <= -511) by nia.
  assert (HA : -16384 <= q + 128 - e2 < 0) by lia.
  eexists. split; [reflexivity|]. split; [reflexivity|]. split; [nia|].
  change SUPERRES_SCALE_MASK with (Z.ones 14). rewrite Z.land_ones by lia. change (2 ^ 14) with 16384.
  assert (M : (q + 128 - e2) mod 16384 = q + 128 - e2 + 16384) by (symmetry; apply (Z.mod_unique_pos _ _ (-1)); lia). rewrite M.
  replace (uw * (- (16384) + (q + 128 - e2 + 16384) + x * st - 128) - ((2 * x + 1) * dw - uw) * 8192) with ((uw * q - (dw - uw) * 8192) - uw * e2 + x * err) by (unfold err; lia).
  assert (Q' : uw * q - (dw - uw) * 8192 = h - r') by lia. rewrite Q'.
  assert (B1 : Z.abs ((2 * x - uw) * err) <= uw * (h + 1)). { rewrite Z.abs_mul. apply Z.mul_le_mono_nonneg; lia. }
  assert (B2 : Z.abs (uw * (err - 2 * e2)) <= uw * 1). { rewrite Z.abs_mul. apply Z.mul_le_mono_nonneg; lia. }
  assert (X : 2 * (h - r' - uw * e2 + x * err) = (2 * x - uw) * err + uw * (err - 2 * e2) + 2 * (h - r')) by lia.
  clear - X B1 B2 Qn Qb Hh Hx. set (T := h - r' - uw * e2 + x * err) in *. clearbody T. set (P1 := (2 * x - uw) * err) in *. clearbody P1. set (P2 := uw * (err - 2 * e2)) in *. clearbody P2.
  assert (uw * (2 * h) <= uw * uw) by (apply Z.mul_le_mono_nonneg_l; lia). rewrite Z.mul_add_distr_l in *. lia.
Qed.
