(** Proofs about the util model. *)
From Verif Require Import GoBase Bitstream BitstreamProofs Util Constants.
From Coq Require Import Permutation Sorted.

Lemma shl_small x n : 0 <= n -> - 2 ^ 63 <= x * 2 ^ n < 2 ^ 63 -> shl x n = x * 2 ^ n.
Proof. intros Hn H. unfold shl. rewrite Z.shiftl_mul_pow2 by lia. apply i64_id. exact H. Qed.

Lemma shr_div x n : 0 <= n -> shr x n = x / 2 ^ n.
Proof. intros Hn. unfold shr. apply Z.shiftr_div_pow2. exact Hn. Qed.

Lemma pow2_pos n : 0 <= n -> 0 < 2 ^ n.
Proof. intros. apply Z.pow_pos_nonneg; lia. Qed.

(** TileLog2 *)
Lemma TileLog2_loop_spec fuel : forall blk target k, 1 <= blk -> blk < 2 ^ 62 -> target <= 2 ^ 62 -> 0 <= k ->
  (k = 0 \/ blk * 2 ^ (k - 1) < target) -> 63 <= k + Z.of_nat fuel ->
  exists r, TileLog2_loop fuel blk target k = Ok r /\ k <= r /\ target <= blk * 2 ^ r /\
    (forall j, k <= j < r -> blk * 2 ^ j < target).
Proof.
  induction fuel as [|f IH]; intros blk target k Hb Hb2 Ht Hk Hlt Hf.
  - exfalso. destruct Hlt as [->|Hlt]; [lia|].
    assert (2 ^ 62 <= 2 ^ (k - 1)) by (apply Z.pow_le_mono_r; lia). nia.
  - cbn [TileLog2_loop].
    assert (Hs : shl blk k = blk * 2 ^ k).
    { apply shl_small; [exact Hk|]. destruct Hlt as [->|Hlt].
      - change (2 ^ 0) with 1. lia.
      - destruct (Z.eq_dec k 0) as [->|]; [change (2 ^ 0) with 1; lia|].
        replace k with (Z.succ (k - 1)) by lia. rewrite Z.pow_succ_r by lia.
        pose proof (pow2_pos (k - 1) ltac:(lia)). nia. }
    rewrite Hs. destruct (Z.ltb_spec (blk * 2 ^ k) target) as [Hc|Hc].
    + destruct (IH blk target (k + 1) Hb Hb2 Ht ltac:(lia)) as (r & E & Hr1 & Hr2 & Hr3).
      { right. replace (k + 1 - 1) with k by lia. exact Hc. }
      { lia. }
      exists r. split; [exact E|]. split; [lia|]. split; [exact Hr2|].
      intros j Hj. destruct (Z.eq_dec j k) as [->|]; [exact Hc|]. apply Hr3. lia.
    + exists k. split; [reflexivity|]. split; [lia|]. split; [exact Hc|]. intros j Hj. lia.
Qed.

Lemma TileLog2_spec blk target : 1 <= blk < 2 ^ 62 -> target <= 2 ^ 62 ->
  exists r, TileLog2 blk target = Ok r /\ 0 <= r /\ target <= blk * 2 ^ r /\
    (forall j, 0 <= j < r -> blk * 2 ^ j < target).
Proof. intros Hb Ht. apply TileLog2_loop_spec; try lia. Qed.

Lemma TileLog2_zero fuel : forall target k, 0 < target -> TileLog2_loop fuel 0 target k = Hang.
Proof.
  induction fuel as [|f IH]; intros target k H; cbn [TileLog2_loop];
    (assert (E : shl 0 k = 0) by (unfold shl; rewrite Z.shiftl_0_l; reflexivity));
    rewrite E; destruct (Z.ltb_spec 0 target); try lia; [reflexivity|apply IH; exact H].
Qed.

(** CeilLog2 *)
Lemma CeilLog2_loop_spec fuel : forall x i, 0 < i -> 2 <= x <= 2 ^ 62 -> 2 ^ (i - 1) < x -> 63 <= i + Z.of_nat fuel ->
  exists r, CeilLog2_loop fuel x i (2 ^ i) = Ok r /\ i <= r <= 62 /\ 2 ^ (r - 1) < x <= 2 ^ r.
Proof.
  induction fuel as [|f IH]; intros x i Hi Hx Hlt Hf; cbn [CeilLog2_loop].
  - assert (2 ^ 62 <= 2 ^ (i - 1)) by (apply Z.pow_le_mono_r; lia). lia.
  - destruct (Z.ltb_spec (2 ^ i) x) as [Hc|Hc].
    + assert (i < 62) by (apply (Z.pow_lt_mono_r_iff 2); lia).
      replace (shl (2 ^ i) 1) with (2 ^ (i + 1)).
      2:{ symmetry. rewrite shl_small.
          - rewrite Z.pow_add_r by lia. reflexivity.
          - lia.
          - assert (0 < 2 ^ i) by (apply pow2_pos; lia). change (2 ^ 1) with 2. lia. }
      destruct (IH x (i + 1) ltac:(lia) Hx) as (r & E & Hr1 & Hr2).
      { replace (i + 1 - 1) with i by lia. exact Hc. }
      { lia. }
      exists r. split; [exact E|]. split; [lia|exact Hr2].
    + exists i. split; [reflexivity|]. split; [|lia].
      destruct (Z_le_gt_dec i 62); [lia|]. exfalso.
      assert (2 ^ 62 <= 2 ^ (i - 1)) by (apply Z.pow_le_mono_r; lia). lia.
Qed.

Lemma CeilLog2_spec x : x <= 2 ^ 62 -> exists r, CeilLog2 x = Ok r /\ 0 <= r <= 62 /\ x <= 2 ^ r /\
   (2 <= x -> 2 ^ (r - 1) < x) /\ (x < 2 -> r = 0).
Proof.
  intros Hx. unfold CeilLog2. destruct (Z.ltb_spec x 2) as [H|H].
  - exists 0. repeat split; try lia.
  - destruct (CeilLog2_loop_spec 65 x 1 ltac:(lia) ltac:(lia)) as (r & E & Hr1 & Hr2).
    + change (2 ^ (1 - 1)) with 1. lia.
    + lia.
    + exists r. change (2 ^ 1) with 2 in E. repeat split; try lia. exact E.
Qed.

(** Round2 *)
Lemma Round2_spec x n : 0 <= n <= 62 -> - 2 ^ 62 <= x < 2 ^ 62 ->
  Round2 x n = Ok (if n =? 0 then x else (x + 2 ^ (n - 1)) / 2 ^ n).
Proof.
  intros Hn Hx. unfold Round2. destruct (Z.eqb_spec n 0); [reflexivity|].
  destruct (Z.ltb_spec n 0); [lia|].
  assert (0 < 2 ^ (n - 1)) by (apply pow2_pos; lia).
  assert (2 ^ (n - 1) <= 2 ^ 61) by (apply Z.pow_le_mono_r; lia).
  rewrite shl_1 by lia. rewrite i64_id by lia. rewrite shr_div by lia. reflexivity.
Qed.

(** sort_ints *)
Lemma insert_perm x l : Permutation (x :: l) (insert_z x l).
Proof.
  induction l as [|y t IH]; [reflexivity|]. cbn [insert_z]. destruct (x <=? y); [reflexivity|].
  rewrite perm_swap. apply perm_skip. exact IH.
Qed.
Lemma sort_perm l : Permutation l (sort_ints l).
Proof.
  induction l as [|x t IH]; [reflexivity|]. cbn [sort_ints].
  rewrite <- insert_perm. apply perm_skip. exact IH.
Qed.
Lemma insert_sorted x l : Sorted Z.le l -> Sorted Z.le (insert_z x l).
Proof.
  induction l as [|y t IH]; intros H; [repeat constructor|].
  cbn [insert_z]. destruct (Z.leb_spec x y).
  - constructor; [exact H|]. constructor. exact H0.
  - inversion H as [|? ? Ht Hh]; subst. constructor; [apply IH; exact Ht|].
    destruct t as [|z t]; cbn [insert_z]; [constructor; lia|].
    destruct (x <=? z); constructor; [lia|]. inversion Hh; assumption.
Qed.
Lemma sort_sorted l : Sorted Z.le (sort_ints l).
Proof. induction l as [|x t IH]; [constructor|]. apply insert_sorted. exact IH. Qed.
Lemma sort_length l : length (sort_ints l) = length l.
Proof. symmetry. apply Permutation_length. apply sort_perm. Qed.

(** Brev *)
Lemma Brev_value n x : 0 <= n -> Brev n x = Z.land (shr x 1) 1 * (2 ^ n - 1).
Proof.
  intros Hn. unfold Brev, pfor_to.
  pose proof (pfor_from_inv (fun i t => t = Z.land (shr x 1) 1 * (2 ^ n - 2 ^ (n - i))) (Z.to_nat (n - 0)) 0
    (fun i t => t + Z.shiftl (Z.land (shr x 1) 1) (n - 1 - i)) 0) as G.
  rewrite G; clear G.
  - replace (n - (0 + Z.of_nat (Z.to_nat (n - 0)))) with 0 by lia. reflexivity.
  - replace (n - 0) with n by lia. lia.
  - intros j a Hj ->. rewrite Z.shiftl_mul_pow2 by lia.
    replace (n - j) with (Z.succ (n - 1 - j)) by lia. rewrite Z.pow_succ_r by lia.
    replace (n - (j + 1)) with (n - 1 - j) by lia. ring.
Qed.

(** InverseRecenter *)
Lemma land1_mod x : Z.land x 1 = x mod 2.
Proof. change 1 with (Z.ones 1) at 1. rewrite Z.land_ones by lia. reflexivity. Qed.

Lemma InverseRecenter_val r v : 0 <= r < 2 ^ 61 -> 0 <= v < 2 ^ 61 ->
  InverseRecenter r v = if 2 * r <? v then v else if v mod 2 =? 1 then r - (v + 1) / 2 else r + v / 2.
Proof.
  intros Hr Hv. unfold InverseRecenter. rewrite i64_id by lia. destruct (Z.ltb_spec (2 * r) v); [reflexivity|].
  rewrite land1_mod. pose proof (Z.mod_pos_bound v 2 ltac:(lia)).
  pose proof (Z.div_mod v 2 ltac:(lia)). rewrite (i64_id (v + 1)) by lia.
  rewrite !shr_div, Z.pow_1_r by lia.
  pose proof (Z.div_mod (v + 1) 2 ltac:(lia)). pose proof (Z.mod_pos_bound (v + 1) 2 ltac:(lia)).
  rewrite !i64_id by lia.
  destruct (Z.eqb_spec (v mod 2) 0) as [E|E]; destruct (Z.eqb_spec (v mod 2) 1) as [E1|E1]; cbn [negb]; try reflexivity; lia.
Qed.
