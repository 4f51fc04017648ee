(** Proofs about the bitstream model. *)
From Verif Require Import GoBase Bitstream SpecBits SpecStream.


Lemma length_byte_bits x : length (byte_bits x) = 8%nat.
Proof. reflexivity. Qed.

Lemma length_bits_of d : length (bits_of d) = (8 * length d)%nat.
Proof.
  induction d as [|x d IH]; [reflexivity|]. cbn [bits_of flat_map].
  rewrite app_length, length_byte_bits. unfold bits_of in IH. rewrite IH. cbn [length]. lia.
Qed.

Lemma length_rest s : 0 <= Position s ->
  Z.of_nat (length (rest s)) = Z.max 0 (8 * zlen (Data s) - Position s).
Proof.
  intros H. unfold rest. rewrite skipn_length, length_bits_of. unfold zlen. lia.
Qed.

Lemma bits_left_rest s : 0 <= Position s -> bits_left s = length (rest s).
Proof. intros H. unfold bits_left. pose proof (length_rest s H). lia. Qed.

(** nth bit of the byte string *)
Lemma nth_bits_of d k j : (j < 8)%nat -> (k < length d)%nat ->
  nth_error (bits_of d) (8 * k + j) = Some (Z.testbit (nth k d 0) (7 - Z.of_nat j)).
Proof.
  revert k; induction d as [|x d IH]; intros k Hj Hk; [cbn in Hk; lia|].
  cbn [bits_of flat_map]. destruct k as [|k].
  - rewrite nth_error_app1 by (rewrite length_byte_bits; lia).
    replace (8 * 0 + j)%nat with j by lia. cbn [nth].
    do 8 (destruct j as [|j]; [reflexivity|]). lia.
  - rewrite nth_error_app2 by (rewrite length_byte_bits; lia).
    rewrite length_byte_bits. replace (8 * S k + j - 8)%nat with (8 * k + j)%nat by lia.
    apply IH; [exact Hj|cbn in Hk; lia].
Qed.

Lemma nth_error_skipn {A} (l : list A) n : nth_error l n = match skipn n l with [] => None | a :: _ => Some a end.
Proof. revert n; induction l as [|a l IH]; intros [|n]; cbn; auto. Qed.

Lemma land1_testbit x n : 0 <= n -> Z.land (Z.shiftr x n) 1 = b2z (Z.testbit x n).
Proof.
  intros Hn. change 1 with (Z.ones 1). rewrite Z.land_ones by lia.
  rewrite Z.shiftr_div_pow2 by lia. change (2 ^ 1) with 2.
  rewrite <- (Z.testbit_spec' x n Hn). reflexivity.
Qed.

Lemma readBit_ok s b l : 0 <= Position s -> rest s = b :: l -> readBit s = Ok (b2z b, s).
Proof.
  intros H0 Hr. unfold readBit.
  assert (Hl : Position s < 8 * zlen (Data s)).
  { pose proof (length_rest s H0) as HL. rewrite Hr in HL. cbn [length] in HL. lia. }
  assert (Hd : Position s = 8 * (Position s / 8) + Position s mod 8) by (apply Z.div_mod; lia).
  assert (Hm : 0 <= Position s mod 8 < 8) by (apply Z.mod_pos_bound; lia).
  assert (Hq : 0 <= Position s / 8 < zlen (Data s)) by (split; [apply Z.div_pos; lia|lia]).
  rewrite (idx_ok _ _ 0 Hq).
  assert (E : nth_error (bits_of (Data s)) (Z.to_nat (Position s)) = Some b).
  { rewrite nth_error_skipn. fold (rest s). rewrite Hr. reflexivity. }
  replace (Z.to_nat (Position s)) with (8 * Z.to_nat (Position s / 8) + Z.to_nat (Position s mod 8))%nat in E by lia.
  unfold zlen in Hq. rewrite nth_bits_of in E; [|apply Nat2Z.inj_lt; rewrite Z2Nat.id; lia|apply Nat2Z.inj_lt; rewrite Z2Nat.id; lia]. injection E as E.
  rewrite land1_testbit by lia. rewrite <- E.
  replace (8 - Position s mod 8 - 1) with (7 - Z.of_nat (Z.to_nat (Position s mod 8))) by lia.
  reflexivity.
Qed.

Lemma readBit_panic s : 0 <= Position s -> rest s = [] -> readBit s = Panic.
Proof.
  intros H0 Hr. unfold readBit.
  pose proof (length_rest s H0) as HL. rewrite Hr in HL. cbn [length] in HL.
  rewrite idx_panic; [reflexivity|]. right.
  apply Z.div_le_lower_bound; lia.
Qed.

Lemma skipn_skipn' {A} (l : list A) : forall m n, skipn m (skipn n l) = skipn (n + m) l.
Proof. induction l as [|a l IH]; intros m [|n]; cbn; auto. - destruct m; reflexivity. Qed.

Lemma rest_adv s n : 0 <= Position s -> 0 <= n -> rest (adv s n) = skipn (Z.to_nat n) (rest s).
Proof.
  intros H0 Hn. unfold rest, adv, set_pos; cbn [Data Position].
  rewrite skipn_skipn'. f_equal. lia.
Qed.

Lemma wf_adv s n : wf s -> 0 <= n -> wf (adv s n).
Proof. intros [Hd Hp] Hn. split; cbn; [exact Hd|lia]. Qed.

Lemma adv_adv s m n : adv (adv s m) n = adv s (m + n).
Proof. unfold adv, set_pos; cbn. f_equal. lia. Qed.

Lemma adv_0 s : adv s 0 = s.
Proof. destruct s; unfold adv, set_pos; cbn. f_equal; lia. Qed.

Lemma be_nonneg l : 0 <= be l < 2 ^ Z.of_nat (length l).
Proof.
  induction l as [|b l IH]; [cbn; lia|]. cbn [be length].
  rewrite Nat2Z.inj_succ, Z.pow_succ_r by lia. destruct b; cbn [b2z]; lia.
Qed.

Lemma be_app l r : be (l ++ r) = be l * 2 ^ Z.of_nat (length r) + be r.
Proof.
  induction l as [|b l IH]; [cbn; lia|]. cbn [be app]. rewrite IH, app_length.
  rewrite Nat2Z.inj_add, Z.pow_add_r by lia. lia.
Qed.

Lemma F_loop_ok n : forall x s l r, 0 <= Position s -> rest s = l ++ r -> length l = n ->
  0 <= x -> x * 2 ^ Z.of_nat n + 2 ^ Z.of_nat n <= 2 ^ 63 ->
  F_loop n x s = Ok (x * 2 ^ Z.of_nat n + be l, adv s (Z.of_nat n)).
Proof.
  induction n as [|n IH]; intros x s l r H0 Hr Hl Hx Hb.
  - destruct l; [|discriminate]. cbn [F_loop]. unfold ret. cbn [be]. rewrite adv_0.
    f_equal. f_equal. change (2 ^ Z.of_nat 0) with 1. lia.
  - destruct l as [|b l]; [discriminate|]. cbn [F_loop]. cbn [app] in Hr.
    rewrite (bind_ok _ _ _ _ _ (readBit_ok _ _ _ H0 Hr)).
    unfold bind at 1. unfold modify. fold (adv s 1).
    assert (E2 : 2 ^ Z.of_nat (S n) = 2 * 2 ^ Z.of_nat n) by (rewrite Nat2Z.inj_succ, Z.pow_succ_r; lia).
    assert (P0 : 1 <= 2 ^ Z.of_nat n) by (pose proof (Z.pow_pos_nonneg 2 (Z.of_nat n)); lia).
    assert (Hbz : 0 <= b2z b <= 1) by (destruct b; cbn; lia).
    assert (Hsm : 2 * x + b2z b < 2 ^ 63) by nia.
    rewrite i64_id by (split; [lia|exact Hsm]).
    rewrite (IH (2 * x + b2z b) (adv s 1) l r).
    + rewrite adv_adv. cbn [be]. injection Hl as Hl. rewrite Hl. f_equal. f_equal; [rewrite E2; ring|].
      f_equal. lia.
    + cbn; lia.
    + rewrite rest_adv by lia. rewrite Hr. reflexivity.
    + injection Hl as Hl. exact Hl.
    + lia.
    + nia.
Qed.

Lemma F_ok n s l r : 0 <= Position s -> rest s = l ++ r -> Z.of_nat (length l) = n -> n <= 63 ->
  F n s = Ok (be l, adv s n).
Proof.
  intros H0 Hr Hl Hn. unfold F. rewrite <- Hl, Nat2Z.id.
  rewrite (F_loop_ok (length l) 0 s l r H0 Hr eq_refl); [f_equal; f_equal; lia|lia|].
  rewrite Z.mul_0_l, Z.add_0_l. apply Z.pow_le_mono_r; lia.
Qed.

Lemma F_loop_panic n : forall x s, 0 <= Position s -> (length (rest s) < n)%nat -> F_loop n x s = Panic.
Proof.
  induction n as [|n IH]; intros x s H0 Hl; [lia|].
  cbn [F_loop]. destruct (rest s) as [|b l] eqn:E.
  - rewrite (bind_panic _ _ _ (readBit_panic _ H0 E)). reflexivity.
  - rewrite (bind_ok _ _ _ _ _ (readBit_ok _ _ _ H0 E)).
    unfold bind at 1. unfold modify. fold (adv s 1). apply IH; [cbn; lia|].
    rewrite rest_adv by lia. rewrite E. change (Z.to_nat 1) with 1%nat. cbn in Hl |- *. lia.
Qed.

Lemma F_panic n s : 0 <= Position s -> Z.of_nat (length (rest s)) < n -> F n s = Panic.
Proof. intros H0 H. apply F_loop_panic; lia. Qed.

(** F either returns the value of the next bits or panics. *)
Lemma F_total n s : 0 <= Position s -> 0 <= n <= 63 ->
  (exists l r, rest s = l ++ r /\ Z.of_nat (length l) = n /\ F n s = Ok (be l, adv s n))
  \/ (Z.of_nat (length (rest s)) < n /\ F n s = Panic).
Proof.
  intros H0 Hn. destruct (Z_lt_le_dec (Z.of_nat (length (rest s))) n) as [H|H].
  - right. split; [exact H|]. apply F_panic; assumption.
  - left. exists (firstn (Z.to_nat n) (rest s)), (skipn (Z.to_nat n) (rest s)).
    assert (El : Z.of_nat (length (firstn (Z.to_nat n) (rest s))) = n) by (rewrite firstn_length; lia).
    split; [symmetry; apply firstn_skipn|]. split; [exact El|].
    apply F_ok with (r := skipn (Z.to_nat n) (rest s)); [exact H0|symmetry; apply firstn_skipn|exact El|lia].
Qed.

Lemma F_inv n s v s' : 0 <= Position s -> n <= 63 -> F n s = Ok (v, s') ->
  exists l r, rest s = l ++ r /\ length l = Z.to_nat n /\ v = be l /\ s' = adv s (Z.max 0 n) /\
              0 <= v < 2 ^ (Z.max 0 n).
Proof.
  intros H0 Hn E. destruct (Z_lt_le_dec n 0) as [Hneg|Hpos].
  - unfold F in E. replace (Z.to_nat n) with O in E by lia. cbn in E. injection E as <- <-.
    exists [], (rest s). replace (Z.max 0 n) with 0 by lia. rewrite adv_0. cbn.
    repeat split; auto; try lia.
  - destruct (F_total n s H0 ltac:(lia)) as [(l & r & Hr & Hl & E')|[_ E']]; rewrite E' in E; [|discriminate].
    injection E as <- <-. exists l, r. replace (Z.max 0 n) with n by lia.
    pose proof (be_nonneg l) as Hb. rewrite Hl in Hb.
    repeat split; auto; lia.
Qed.

Lemma starts_app s l r : starts s (l ++ r) ->
  starts s l /\ starts (adv s (Z.of_nat (length l))) r.
Proof.
  intros [H0 [t Ht]]. split.
  - split; [exact H0|]. exists (r ++ t). rewrite Ht, app_assoc. reflexivity.
  - split; [cbn; lia|]. exists t. rewrite rest_adv by lia. rewrite Nat2Z.id, Ht, <- app_assoc.
    rewrite skipn_app, skipn_all, Nat.sub_diag. reflexivity.
Qed.

Lemma F_starts n s l : starts s l -> Z.of_nat (length l) = n -> n <= 63 -> F n s = Ok (be l, adv s n).
Proof. intros [H0 [r Hr]] Hl Hn. eapply F_ok; eauto. Qed.

(** enc_f *)
Lemma length_enc_f n v : length (enc_f n v) = n.
Proof. induction n as [|n IH]; cbn; auto. Qed.

Lemma be_enc_f n v : be (enc_f n v) = v mod 2 ^ Z.of_nat n.
Proof.
  induction n as [|n IH].
  - cbn. rewrite Z.mod_1_r. reflexivity.
  - cbn [enc_f be]. rewrite length_enc_f, IH.
    rewrite Nat2Z.inj_succ, Z.pow_succ_r by lia.
    assert (P : 0 < 2 ^ Z.of_nat n) by (apply Z.pow_pos_nonneg; lia).
    rewrite (Z.mul_comm 2), Z.rem_mul_r by lia.
    unfold b2z. rewrite <- (Z.testbit_spec' v (Z.of_nat n)) by lia. unfold Z.b2z. ring.
Qed.

Lemma be_enc_f_small n v : 0 <= v < 2 ^ Z.of_nat n -> be (enc_f n v) = v.
Proof. intros H. rewrite be_enc_f. apply Z.mod_small. exact H. Qed.

Lemma F_enc n s v : starts s (enc_f n v) -> 0 <= v < 2 ^ Z.of_nat n -> (n <= 63)%nat ->
  F (Z.of_nat n) s = Ok (v, adv s (Z.of_nat n)).
Proof.
  intros H Hv Hn. rewrite (F_starts (Z.of_nat n) s (enc_f n v) H).
  - rewrite be_enc_f_small by exact Hv. reflexivity.
  - rewrite length_enc_f. reflexivity.
  - lia.
Qed.

Lemma F1_bit s b : starts s [b] -> F 1 s = Ok (b2z b, adv s 1).
Proof. intros H. rewrite (F_starts 1 s [b] H); [|reflexivity|lia]. destruct b; reflexivity. Qed.

Lemma Fbool_bit s b : starts s [b] -> Fbool s = Ok (b, adv s 1).
Proof.
  intros H. unfold Fbool. rewrite (bind_ok _ _ _ _ _ (F1_bit _ _ H)). unfold ret.
  destruct b; reflexivity.
Qed.

Lemma starts_bits s l : starts s l -> forall b t, l = b :: t -> starts s [b] /\ starts (adv s 1) t.
Proof. intros H b t ->. change (b :: t) with ([b] ++ t) in H. apply starts_app in H. exact H. Qed.

(** Fbool total *)
Lemma Fbool_total s : 0 <= Position s ->
  (exists b r, rest s = b :: r /\ Fbool s = Ok (b, adv s 1)) \/ (rest s = [] /\ Fbool s = Panic).
Proof.
  intros H0. destruct (rest s) as [|b r] eqn:E.
  - right. split; [reflexivity|]. unfold Fbool. rewrite (bind_panic _ _ _ (F_panic 1 s H0 ltac:(rewrite E; cbn; lia))). reflexivity.
  - left. exists b, r. split; [reflexivity|]. apply Fbool_bit. split; [exact H0|]. exists r. exact E.
Qed.

(* ------------------------------------------------------------------ *)
(** FloorLog2 *)
Lemma FloorLog2_loop_ok fuel : forall x s, 0 < x < 2 ^ Z.of_nat fuel -> FloorLog2_loop fuel x s = Ok (Z.log2 x + s).
Proof.
  induction fuel as [|f IH]; intros x s H; [cbn in H; lia|].
  cbn [FloorLog2_loop]. destruct (Z.eqb_spec x 0); [lia|].
  unfold shr. rewrite Z.shiftr_div_pow2, Z.pow_1_r by lia.
  rewrite Nat2Z.inj_succ, Z.pow_succ_r in H by lia.
  destruct (Z.eq_dec x 1) as [->|Hx].
  - change (1 / 2) with 0. change (Z.log2 1) with 0. destruct f; cbn; f_equal; lia.
  - assert (1 <= x / 2) by (apply Z.div_le_lower_bound; lia).
    assert (x / 2 < 2 ^ Z.of_nat f) by (apply Z.div_lt_upper_bound; lia).
    rewrite IH by lia.
    assert (E : Z.log2 (x / 2) = Z.log2 x - 1).
    { rewrite <- (Z.pow_1_r 2) at 1. rewrite <- Z.shiftr_div_pow2 by lia. rewrite Z.log2_shiftr by lia.
      assert (1 <= Z.log2 x) by (apply (Z.log2_le_mono 2 x); lia). lia. }
    rewrite E. f_equal. lia.
Qed.

Lemma FloorLog2_pos x : 0 < x < 2 ^ 63 -> FloorLog2 x = Ok (Z.log2 x).
Proof.
  intros H. unfold FloorLog2. rewrite FloorLog2_loop_ok; [f_equal; lia|].
  change (Z.of_nat 64) with 64. split; [lia|]. eapply Z.lt_trans; [apply H|]. reflexivity.
Qed.

Lemma FloorLog2_0 : FloorLog2 0 = Ok (-1).
Proof. reflexivity. Qed.

Lemma FloorLog2_loop_neg fuel : forall x s, x < 0 -> FloorLog2_loop fuel x s = Hang.
Proof.
  induction fuel as [|f IH]; intros x s H; cbn [FloorLog2_loop]; destruct (Z.eqb_spec x 0); try lia; [reflexivity|].
  apply IH. unfold shr. rewrite Z.shiftr_div_pow2, Z.pow_1_r by lia. apply Z.div_lt_upper_bound; lia.
Qed.

(* ------------------------------------------------------------------ *)
(** Uvlc *)
Lemma Uvlc_zeros_ok k : forall fuel lz s, starts s (repeat false k ++ [true]) -> (k < fuel)%nat ->
  Uvlc_zeros fuel lz s = Ok (lz + Z.of_nat k, adv s (Z.of_nat k + 1)).
Proof.
  induction k as [|k IH]; intros fuel lz s H Hf; (destruct fuel as [|fuel]; [lia|]); cbn [Uvlc_zeros].
  - cbn in H. rewrite (bind_ok _ _ _ _ _ (Fbool_bit _ _ H)). unfold ret. okeq.
  - cbn [repeat app] in H. destruct (starts_bits _ _ H _ _ eq_refl) as [H1 H2].
    rewrite (bind_ok _ _ _ _ _ (Fbool_bit _ _ H1)). rewrite IH by (assumption || lia).
    rewrite adv_adv. okeq.
Qed.

Lemma Uvlc_zeros_panic k : forall fuel lz s, 0 <= Position s -> rest s = repeat false k -> (k < fuel)%nat ->
  Uvlc_zeros fuel lz s = Panic.
Proof.
  induction k as [|k IH]; intros fuel lz s H0 Hr Hf; (destruct fuel as [|fuel]; [lia|]); cbn [Uvlc_zeros].
  - destruct (Fbool_total s H0) as [(b & r & E & _)|[_ E]]; [rewrite Hr in E; discriminate|].
    rewrite (bind_panic _ _ _ E). reflexivity.
  - destruct (Fbool_total s H0) as [(b & r & E & E2)|[E _]]; [|rewrite Hr in E; discriminate].
    rewrite Hr in E. injection E as <- <-. rewrite (bind_ok _ _ _ _ _ E2).
    apply IH; [cbn; lia| |lia]. rewrite rest_adv by lia. rewrite Hr. reflexivity.
Qed.

Lemma starts_length s l : starts s l -> (length l <= length (rest s))%nat.
Proof. intros [_ [r Hr]]. rewrite Hr, app_length. lia. Qed.

Lemma Uvlc_enc s v : 0 <= v < 2 ^ 32 - 1 -> starts s (enc_uvlc v) ->
  Uvlc s = Ok (v, adv s (Z.of_nat (length (enc_uvlc v)))).
Proof.
  intros Hv H. unfold enc_uvlc in *. set (k := Z.to_nat (Z.log2 (v + 1))) in *.
  assert (Hl : 0 <= Z.log2 (v + 1) < 32).
  { split; [apply Z.log2_nonneg|]. apply Z.log2_lt_pow2; lia. }
  assert (Hk : Z.of_nat k = Z.log2 (v + 1)) by (unfold k; lia).
  destruct (Z.log2_spec (v + 1) ltac:(lia)) as [Hlo Hhi]. rewrite <- Hk in *.
  rewrite Z.pow_succ_r in Hhi by lia.
  replace (repeat false k ++ true :: enc_f k (v + 1)) with ((repeat false k ++ [true]) ++ enc_f k (v + 1)) in *
    by (rewrite <- app_assoc; reflexivity).
  destruct (starts_app _ _ _ H) as [H1 H2].
  rewrite app_length, repeat_length in H2. cbn [length] in H2.
  unfold Uvlc. unfold bind at 1. unfold get.
  rewrite (bind_ok _ _ _ _ _ (Uvlc_zeros_ok k (S (bits_left s)) 0 s H1 ltac:(
    rewrite bits_left_rest by apply H1; pose proof (starts_length _ _ H1) as HH; rewrite app_length, repeat_length in HH; cbn in HH; lia))).
  rewrite Z.add_0_l. destruct (Z.leb_spec 32 (Z.of_nat k)); [lia|].
  replace (Z.of_nat (k + 1)) with (Z.of_nat k + 1) in H2 by lia.
  rewrite (bind_ok _ _ _ _ _ (F_starts (Z.of_nat k) _ _ H2 ltac:(rewrite length_enc_f; reflexivity) ltac:(lia))).
  unfold ret. rewrite adv_adv, be_enc_f. rewrite !app_length, repeat_length, length_enc_f. cbn [length].
  rewrite Z.shiftl_mul_pow2 by lia.
  assert (E : (v + 1) mod 2 ^ Z.of_nat k = v + 1 - 2 ^ Z.of_nat k).
  { symmetry. apply Z.mod_unique with (q := 1); lia. }
  rewrite E. okeq.
Qed.

Lemma Uvlc_saturate s k : (32 <= k)%nat -> starts s (repeat false k ++ [true]) ->
  Uvlc s = Ok (2 ^ 32 - 1, adv s (Z.of_nat k + 1)).
Proof.
  intros Hk H. unfold Uvlc. unfold bind at 1. unfold get.
  rewrite (bind_ok _ _ _ _ _ (Uvlc_zeros_ok k (S (bits_left s)) 0 s H ltac:(
    rewrite bits_left_rest by apply H; pose proof (starts_length _ _ H) as HH; rewrite app_length, repeat_length in HH; cbn in HH; lia))).
  destruct (Z.leb_spec 32 (0 + Z.of_nat k)); [reflexivity|lia].
Qed.

Lemma split_zeros (l : list bool) : (exists k r, l = repeat false k ++ true :: r) \/ l = repeat false (length l).
Proof.
  induction l as [|b l IH]; [right; reflexivity|]. destruct b.
  - left. exists O, l. reflexivity.
  - destruct IH as [(k & r & ->)|E].
    + left. exists (S k), r. reflexivity.
    + right. cbn [length repeat]. rewrite <- E. reflexivity.
Qed.

Lemma Uvlc_no_one s : 0 <= Position s -> rest s = repeat false (length (rest s)) -> Uvlc s = Panic.
Proof.
  intros H0 Hr. unfold Uvlc. unfold bind at 1. unfold get.
  rewrite (bind_panic _ _ _ (Uvlc_zeros_panic (length (rest s)) (S (bits_left s)) 0 s H0 Hr ltac:(rewrite bits_left_rest by exact H0; lia))).
  reflexivity.
Qed.

(** Complete description of a uvlc read that returns. *)
Lemma Uvlc_inv s v s' : 0 <= Position s -> Uvlc s = Ok (v, s') ->
  exists k, starts s (repeat false k ++ [true]) /\
   ((32 <= k)%nat /\ v = 2 ^ 32 - 1 /\ s' = adv s (Z.of_nat k + 1)
    \/ (k < 32)%nat /\ 2 ^ Z.of_nat k <= v + 1 < 2 ^ (Z.of_nat k + 1) /\ s' = adv s (2 * Z.of_nat k + 1)).
Proof.
  intros H0 E. destruct (split_zeros (rest s)) as [(k & r & Hr)|Hr].
  - exists k. assert (Hs : starts s (repeat false k ++ [true])).
    { split; [exact H0|]. exists r. rewrite <- app_assoc. exact Hr. }
    split; [exact Hs|]. destruct (le_lt_dec 32 k) as [Hk|Hk].
    + left. rewrite (Uvlc_saturate s k Hk Hs) in E. injection E as <- <-. auto.
    + right. split; [exact Hk|]. unfold Uvlc in E. unfold bind at 1 in E. unfold get in E.
      rewrite (bind_ok _ _ _ _ _ (Uvlc_zeros_ok k (S (bits_left s)) 0 s Hs ltac:(
        rewrite bits_left_rest by apply Hs; pose proof (starts_length _ _ Hs) as HH; rewrite app_length, repeat_length in HH; cbn in HH; lia))) in E.
      destruct (Z.leb_spec 32 (0 + Z.of_nat k)); [lia|].
      apply bind_inv in E. destruct E as (x & s1 & E1 & E2). unfold ret in E2. injection E2 as <- <-.
      apply F_inv in E1; [|cbn; lia|lia]. destruct E1 as (l & r' & _ & _ & Hx & -> & Hx2).
      rewrite Z.max_r in * by lia. rewrite Z.add_0_l in *.
      rewrite Z.shiftl_mul_pow2 by lia. rewrite Z.pow_add_r by lia. split; [lia|].
      rewrite adv_adv. f_equal. lia.
  - rewrite (Uvlc_no_one s H0 Hr) in E. discriminate.
Qed.

Lemma Uvlc_never_hangs s : 0 <= Position s -> Uvlc s <> Hang.
Proof.
  intros H0 E. destruct (split_zeros (rest s)) as [(k & r & Hr)|Hr].
  - assert (Hs : starts s (repeat false k ++ [true])).
    { split; [exact H0|]. exists r. rewrite <- app_assoc. exact Hr. }
    unfold Uvlc in E. unfold bind at 1 in E. unfold get in E.
    rewrite (bind_ok _ _ _ _ _ (Uvlc_zeros_ok k (S (bits_left s)) 0 s Hs ltac:(
        rewrite bits_left_rest by apply Hs; pose proof (starts_length _ _ Hs) as HH; rewrite app_length, repeat_length in HH; cbn in HH; lia))) in E.
    destruct (Z.leb_spec 32 (0 + Z.of_nat k)); [discriminate|].
    destruct (F_total (0 + Z.of_nat k) (adv s (Z.of_nat k + 1)) ltac:(cbn; lia) ltac:(lia)) as [(l & r' & _ & _ & E')|[_ E']].
    + rewrite (bind_ok _ _ _ _ _ E') in E. discriminate.
    + rewrite (bind_panic _ _ _ E') in E. discriminate.
  - rewrite (Uvlc_no_one s H0 Hr) in E. discriminate.
Qed.

(* ------------------------------------------------------------------ *)
(** Leb128 *)
Lemma testbit_above a n i : 0 <= a < 2 ^ n -> n <= i -> Z.testbit a i = false.
Proof.
  intros Ha Hi. destruct (Z_lt_le_dec i 0); [apply Z.testbit_neg_r; lia|].
  destruct (Z.eq_dec a 0) as [->|]; [apply Z.bits_0|].
  apply Z.bits_above_log2; [lia|]. apply Z.lt_le_trans with n; [apply Z.log2_lt_pow2; lia|lia].
Qed.

Lemma land_shiftl_disjoint a b n : 0 <= n -> 0 <= a < 2 ^ n -> Z.land a (Z.shiftl b n) = 0.
Proof.
  intros Hn Ha. apply Z.bits_inj'. intros i Hi.
  rewrite Z.land_spec, Z.bits_0. destruct (Z_lt_le_dec i n) as [H|H].
  - rewrite Z.shiftl_spec_low by lia. apply andb_false_r.
  - rewrite (testbit_above a n i) by lia. reflexivity.
Qed.

Lemma lor_disjoint_add a b n : 0 <= n -> 0 <= a < 2 ^ n -> Z.lor a (Z.shiftl b n) = a + b * 2 ^ n.
Proof.
  intros Hn Ha. rewrite <- Z.shiftl_mul_pow2 by lia.
  pose proof (land_shiftl_disjoint a b n Hn Ha) as E.
  rewrite Z.add_nocarry_lxor by exact E. rewrite Z.lxor_lor by exact E. reflexivity.
Qed.

Lemma land_7f x : Z.land x 0x7f = x mod 128.
Proof. change 0x7f with (Z.ones 7). rewrite Z.land_ones by lia. reflexivity. Qed.

Lemma byte_high_bit x : 0 <= x < 256 -> bool_of (Z.land x 0x80) = (128 <=? x).
Proof.
  intros H. assert (E : x = 128 * (x / 128) + x mod 128) by (apply Z.div_mod; lia).
  assert (Hm : 0 <= x mod 128 < 128) by (apply Z.mod_pos_bound; lia).
  assert (Hq : 0 <= x / 128 < 2) by (split; [apply Z.div_pos; lia|apply Z.div_lt_upper_bound; lia]).
  assert (Ht : Z.testbit x 7 = (128 <=? x)).
  { destruct (Z.testbit_spec' x 7 ltac:(lia)). change (2 ^ 7) with 128.
    apply Z.b2z_inj. rewrite Z.testbit_spec' by lia. change (2 ^ 7) with 128.
    rewrite Z.mod_small by lia. destruct (Z.leb_spec 128 x); cbn [Z.b2z]; lia. }
  destruct (128 <=? x) eqn:Eb.
  - unfold bool_of. destruct (Z.eqb_spec (Z.land x 0x80) 0) as [E0|]; [|reflexivity].
    assert (Z.testbit (Z.land x 0x80) 7 = true) as H7 by (rewrite Z.land_spec, Ht; reflexivity).
    rewrite E0 in H7. discriminate.
  - unfold bool_of. destruct (Z.eqb_spec (Z.land x 0x80) 0) as [|E0]; [reflexivity|exfalso]. apply E0.
    apply Z.bits_inj'. intros i Hi. rewrite Z.land_spec, Z.bits_0.
    destruct (Z.eq_dec i 7) as [->|Hi7]; [rewrite Ht; reflexivity|].
    change 0x80 with (2 ^ 7). rewrite Z.pow2_bits_false by lia. apply andb_false_r.
Qed.


Lemma length_enc_leb128 k v : length (enc_leb128 k v) = (8 * k)%nat.
Proof.
  revert v; induction k as [|k IH]; intros v; [reflexivity|].
  destruct k as [|k]; [reflexivity|].
  change (enc_leb128 (S (S k)) v) with (true :: enc_f 7 (v mod 128) ++ enc_leb128 (S k) (v / 128)).
  cbn [length]. rewrite app_length, length_enc_f, IH. lia.
Qed.

Lemma Leb128_loop_ok k : forall n i value s v, (0 < k <= n)%nat -> 0 <= i -> 0 <= value < 2 ^ (7 * i) ->
  0 <= v < 2 ^ (7 * Z.of_nat k) -> starts s (enc_leb128 k v) ->
  Leb128_loop n i value s =
    Ok (value + v * 2 ^ (7 * i), set_leb_adv s (Leb128Bytes s + Z.of_nat k) (8 * Z.of_nat k)).
Proof.
  induction k as [|k IH]; intros n i value s v Hk Hi Hval Hv H; [lia|].
  destruct n as [|n]; [lia|]. cbn [Leb128_loop].
  destruct k as [|k].
  - change (enc_leb128 1 v) with (false :: enc_f 7 v) in H.
    assert (Hb : be (false :: enc_f 7 v) = v) by (cbn [be b2z]; rewrite be_enc_f_small by exact Hv; lia).
    rewrite (bind_ok _ _ _ _ _ (F_starts 8 s _ H eq_refl ltac:(lia))). rewrite Hb.
    unfold bind at 1. unfold modify.
    change (2 ^ (7 * Z.of_nat 1)) with 128 in Hv.
    rewrite byte_high_bit by lia. destruct (Z.leb_spec 128 v); [lia|]. cbn [negb].
    unfold ret. rewrite land_7f, Z.mod_small by lia.
    replace (i * 7) with (7 * i) by lia. rewrite lor_disjoint_add by lia. reflexivity.
  - change (enc_leb128 (S (S k)) v) with ((true :: enc_f 7 (v mod 128)) ++ enc_leb128 (S k) (v / 128)) in H.
    destruct (starts_app _ _ _ H) as [H1 H2].
    assert (Hm : 0 <= v mod 128 < 128) by (apply Z.mod_pos_bound; lia).
    assert (Hb : be (true :: enc_f 7 (v mod 128)) = 128 + v mod 128).
    { cbn [be b2z]. rewrite length_enc_f, be_enc_f_small by exact Hm. reflexivity. }
    rewrite (bind_ok _ _ _ _ _ (F_starts 8 s _ H1 eq_refl ltac:(lia))). rewrite Hb.
    unfold bind at 1. unfold modify.
    rewrite byte_high_bit by lia. destruct (Z.leb_spec 128 (128 + v mod 128)); [|lia]. cbn [negb].
    rewrite land_7f. replace ((128 + v mod 128) mod 128) with (v mod 128)
      by (rewrite Z.add_mod by lia; rewrite Z.mod_same, Z.add_0_l, !Z.mod_mod by lia; reflexivity).
    replace (i * 7) with (7 * i) by lia. rewrite lor_disjoint_add by lia.
    assert (P : 0 < 2 ^ (7 * i)) by (apply Z.pow_pos_nonneg; lia).
    assert (E7 : 2 ^ (7 * (i + 1)) = 128 * 2 ^ (7 * i)).
    { replace (7 * (i + 1)) with (7 + 7 * i) by lia. rewrite Z.pow_add_r by lia. reflexivity. }
    assert (Ek : 2 ^ (7 * Z.of_nat (S (S k))) = 128 * 2 ^ (7 * Z.of_nat (S k))).
    { replace (7 * Z.of_nat (S (S k))) with (7 + 7 * Z.of_nat (S k)) by lia. rewrite Z.pow_add_r by lia. reflexivity. }
    rewrite (IH n (i + 1) _ (set_lebbytes (adv s 8) (Leb128Bytes (adv s 8) + 1)) (v / 128)).
    + unfold set_leb_adv, set_lebbytes, adv, set_pos; cbn [Data Position Leb128Bytes].
      rewrite E7. pose proof (Z.div_mod v 128 ltac:(lia)).
      f_equal; f_equal; [nia|okeq].
    + lia.
    + lia.
    + rewrite E7. nia.
    + split; [apply Z.div_pos; lia|]. apply Z.div_lt_upper_bound; [lia|]. rewrite <- Ek. apply Hv.
    + exact H2.
Qed.

Lemma Leb128_enc s k v : (1 <= k <= 8)%nat -> 0 <= v < 2 ^ (7 * Z.of_nat k) -> starts s (enc_leb128 k v) ->
  Leb128 s = Ok (v, set_leb_adv s (Z.of_nat k) (8 * Z.of_nat k)).
Proof.
  intros Hk Hv H. unfold Leb128. unfold bind at 1. unfold modify.
  rewrite (Leb128_loop_ok k 8 0 0 (set_lebbytes s 0) v).
  - unfold set_leb_adv, set_lebbytes; cbn [Data Position Leb128Bytes]. okeq.
  - lia.
  - lia.
  - cbn; lia.
  - exact Hv.
  - destruct H as [H0 H]. split; [exact H0|exact H].
Qed.

(** Range and framing of any leb128 read. *)
Lemma Leb128_loop_inv n : forall i value s v s', 0 <= Position s -> 0 <= i -> 0 <= value < 2 ^ (7 * i) ->
  Leb128_loop n i value s = Ok (v, s') ->
  exists k, (k <= n)%nat /\ ((n > 0)%nat -> (k > 0)%nat) /\ s' = set_leb_adv s (Leb128Bytes s + Z.of_nat k) (8 * Z.of_nat k) /\
   0 <= v < 2 ^ (7 * (i + Z.of_nat k)) /\ (8 * k <= length (rest s))%nat.
Proof.
  induction n as [|n IH]; intros i value s v s' H0 Hi Hval E.
  - cbn in E. injection E as <- <-. exists O. split; [lia|]. split; [lia|].
    split; [destruct s; unfold set_leb_adv; cbn; f_equal; lia|]. split; [|lia].
    replace (i + Z.of_nat 0) with i by lia. exact Hval.
  - cbn [Leb128_loop] in E. apply bind_inv in E. destruct E as (x & s1 & E1 & E2).
    apply F_inv in E1; [|exact H0|lia]. destruct E1 as (l & r & Hr & Hl & Hx & -> & Hx2).
    change (Z.max 0 8) with 8 in *. change (2 ^ 8) with 256 in Hx2. change (Z.to_nat 8) with 8%nat in Hl.
    apply (f_equal (@length bool)) in Hr as Hlen. rewrite app_length, Hl in Hlen.
    unfold bind at 1 in E2. unfold modify in E2.
    rewrite land_7f in E2. replace (i * 7) with (7 * i) in E2 by lia.
    rewrite lor_disjoint_add in E2 by lia.
    assert (Hm : 0 <= x mod 128 < 128) by (apply Z.mod_pos_bound; lia).
    assert (P : 0 < 2 ^ (7 * i)) by (apply Z.pow_pos_nonneg; lia).
    assert (E7 : 2 ^ (7 * (i + 1)) = 128 * 2 ^ (7 * i)).
    { replace (7 * (i + 1)) with (7 + 7 * i) by lia. rewrite Z.pow_add_r by lia. reflexivity. }
    destruct (negb (bool_of (Z.land x 128))).
    + unfold ret in E2. injection E2 as <- <-. exists 1%nat. split; [lia|]. split; [lia|].
      split; [reflexivity|]. split; [|lia]. change (Z.of_nat 1) with 1. rewrite E7. nia.
    + apply IH in E2; [|cbn; lia|lia|rewrite E7; nia].
      destruct E2 as (k & Hk & _ & -> & Hv & Hlen2). exists (S k). split; [lia|]. split; [lia|].
      split.
      { unfold set_leb_adv, set_lebbytes, adv, set_pos; cbn [Data Position Leb128Bytes]. f_equal; lia. }
      split; [replace (i + Z.of_nat (S k)) with (i + 1 + Z.of_nat k) by lia; exact Hv|].
      change (rest (set_lebbytes (adv s 8) (Leb128Bytes (adv s 8) + 1))) with (rest (adv s 8)) in Hlen2.
      rewrite rest_adv in Hlen2 by lia. rewrite skipn_length in Hlen2. lia.
Qed.

Lemma Leb128_inv s v s' : 0 <= Position s -> Leb128 s = Ok (v, s') ->
  exists k, (1 <= k <= 8)%nat /\ s' = set_leb_adv s (Z.of_nat k) (8 * Z.of_nat k) /\ 0 <= v < 2 ^ (7 * Z.of_nat k)
   /\ (8 * k <= length (rest s))%nat.
Proof.
  intros H0 E. unfold Leb128 in E. unfold bind at 1 in E. unfold modify in E.
  apply Leb128_loop_inv in E; [|exact H0|lia|cbn; lia].
  destruct E as (k & Hk & Hk0 & -> & Hv & Hlen). exists k. split; [lia|]. split; [reflexivity|].
  split; [exact Hv|exact Hlen].
Qed.

(* ------------------------------------------------------------------ *)
(** Su *)
Lemma land_pow2_mod x n : 0 <= n -> 0 <= x < 2 ^ (n + 1) -> bool_of (Z.land x (2 ^ n)) = (2 ^ n <=? x).
Proof.
  intros Hn Hx. rewrite Z.pow_add_r, Z.pow_1_r in Hx by lia.
  assert (P : 0 < 2 ^ n) by (apply Z.pow_pos_nonneg; lia).
  assert (Ht : Z.testbit x n = (2 ^ n <=? x)).
  { apply Z.b2z_inj. rewrite Z.testbit_spec' by lia.
    destruct (Z.leb_spec (2 ^ n) x); cbn [Z.b2z].
    - replace (x / 2 ^ n) with 1; [reflexivity|]. apply Z.div_unique with (r := x - 2 ^ n); lia.
    - rewrite Z.div_small by lia. reflexivity. }
  unfold bool_of. destruct (Z.eqb_spec (Z.land x (2 ^ n)) 0) as [E0|E0].
  - rewrite <- Ht. assert (Z.testbit (Z.land x (2 ^ n)) n = false) as H7 by (rewrite E0; apply Z.bits_0).
    rewrite Z.land_spec, Z.pow2_bits_true, andb_true_r in H7 by lia. rewrite H7. reflexivity.
  - rewrite <- Ht. destruct (Z.testbit x n) eqn:Et; [reflexivity|exfalso]. apply E0.
    apply Z.bits_inj'. intros i Hi. rewrite Z.land_spec, Z.bits_0.
    destruct (Z.eq_dec i n) as [->|Hin]; [rewrite Et; reflexivity|].
    rewrite Z.pow2_bits_false by lia. apply andb_false_r.
Qed.

Lemma shl_1 n : 0 <= n < 63 -> shl 1 n = 2 ^ n.
Proof.
  intros H. unfold shl. rewrite Z.shiftl_mul_pow2, Z.mul_1_l by lia. apply i64_id.
  assert (0 < 2 ^ n) by (apply Z.pow_pos_nonneg; lia).
  assert (2 ^ n < 2 ^ 63) by (apply Z.pow_lt_mono_r; lia). lia.
Qed.

Lemma Su_value n x : (1 <= n <= 62)%nat -> 0 <= x < 2 ^ Z.of_nat n ->
  (if bool_of (Z.land x (shl 1 (Z.of_nat n - 1))) then x - 2 * shl 1 (Z.of_nat n - 1) else x)
  = (if 2 ^ (Z.of_nat n - 1) <=? x then x - 2 ^ Z.of_nat n else x).
Proof.
  intros Hn Hx. rewrite shl_1 by lia. rewrite land_pow2_mod by (try lia; replace (Z.of_nat n - 1 + 1) with (Z.of_nat n) by lia; lia).
  replace (2 ^ Z.of_nat n) with (2 * 2 ^ (Z.of_nat n - 1)); [reflexivity|].
  replace (Z.of_nat n) with (Z.succ (Z.of_nat n - 1)) at 2 by lia. rewrite Z.pow_succ_r by lia. reflexivity.
Qed.

Lemma Su_enc s n v : (1 <= n <= 62)%nat -> - 2 ^ (Z.of_nat n - 1) <= v < 2 ^ (Z.of_nat n - 1) ->
  starts s (enc_su n v) -> Su (Z.of_nat n) s = Ok (v, adv s (Z.of_nat n)).
Proof.
  intros Hn Hv H. unfold enc_su in H.
  assert (E2 : 2 ^ Z.of_nat n = 2 * 2 ^ (Z.of_nat n - 1)).
  { replace (Z.of_nat n) with (Z.succ (Z.of_nat n - 1)) at 1 by lia. rewrite Z.pow_succ_r by lia. reflexivity. }
  assert (P : 0 < 2 ^ (Z.of_nat n - 1)) by (apply Z.pow_pos_nonneg; lia).
  assert (Hm : 0 <= v mod 2 ^ Z.of_nat n < 2 ^ Z.of_nat n) by (apply Z.mod_pos_bound; lia).
  unfold Su. rewrite (bind_ok _ _ _ _ _ (F_enc n s _ H Hm ltac:(lia))).
  destruct (Z.leb_spec (Z.of_nat n) 0); [lia|]. unfold ret. rewrite Su_value by lia.
  destruct (Z_lt_le_dec v 0) as [Hneg|Hpos].
  - assert (E : v mod 2 ^ Z.of_nat n = v + 2 ^ Z.of_nat n) by (symmetry; apply Z.mod_unique with (q := -1); lia).
    rewrite E. destruct (Z.leb_spec (2 ^ (Z.of_nat n - 1)) (v + 2 ^ Z.of_nat n)); [|lia]. f_equal. f_equal. lia.
  - rewrite Z.mod_small by lia. destruct (Z.leb_spec (2 ^ (Z.of_nat n - 1)) v); [lia|]. reflexivity.
Qed.

Lemma Su_inv s n v s' : 0 <= Position s -> 1 <= n <= 62 -> Su n s = Ok (v, s') ->
  - 2 ^ (n - 1) <= v < 2 ^ (n - 1) /\ s' = adv s n /\ n <= Z.of_nat (length (rest s)).
Proof.
  intros H0 Hn E. unfold Su in E. apply bind_inv in E. destruct E as (x & s1 & E1 & E2).
  apply F_inv in E1; [|exact H0|lia]. destruct E1 as (l & r & Hr & Hl & Hx & -> & Hx2).
  replace (Z.max 0 n) with n in * by lia. unfold ret in E2. injection E2 as <- <-.
  destruct (Z.leb_spec n 0); [lia|].
  pose proof (Su_value (Z.to_nat n) x ltac:(lia) ltac:(rewrite Z2Nat.id by lia; exact Hx2)) as E.
  rewrite Z2Nat.id in E by lia. rewrite E.
  assert (E2 : 2 ^ n = 2 * 2 ^ (n - 1)).
  { replace n with (Z.succ (n - 1)) at 1 by lia. rewrite Z.pow_succ_r by lia. reflexivity. }
  split; [destruct (Z.leb_spec (2 ^ (n - 1)) x); lia|]. split; [reflexivity|].
  rewrite Hr, app_length. lia.
Qed.

(* ------------------------------------------------------------------ *)
(** Ns *)
Lemma Ns_head n : 0 < n < 2 ^ 62 -> forall s,
  Ns n s = bind (F (Z.log2 n)) (fun v =>
     if v <? 2 ^ (Z.log2 n + 1) - n then ret v
     else bind (F 1) (fun e => ret (2 * v - (2 ^ (Z.log2 n + 1) - n) + e))) s.
Proof.
  intros Hn s. unfold Ns.
  assert (Hl : 0 <= Z.log2 n < 62).
  { split; [apply Z.log2_nonneg|]. apply Z.log2_lt_pow2; lia. }
  rewrite (FloorLog2_pos n) by lia. unfold lift at 1. unfold bind at 1.
  rewrite shl_1 by lia. replace (Z.log2 n + 1 - 1) with (Z.log2 n) by lia.
  unfold bind at 1 3. destruct (F (Z.log2 n) s) as [[v s']| |] eqn:E; [|reflexivity|reflexivity].
  destruct (v <? 2 ^ (Z.log2 n + 1) - n); [reflexivity|].
  unfold bind. destruct (F 1 s') as [[e s'']| |]; [|reflexivity|reflexivity].
  unfold shl. rewrite Z.shiftl_mul_pow2, Z.pow_1_r by lia.
  enough (Hv : 0 <= v < 2 ^ 62) by (rewrite i64_id by lia; f_equal; f_equal; lia).
  clear -E Hl. unfold F in E.
  assert (G : forall k x t w t', 0 <= x < 2 ^ (62 - Z.of_nat k) -> (k <= 62)%nat ->
     F_loop k x t = Ok (w, t') -> 0 <= w < 2 ^ 62).
  { induction k as [|k IH]; intros x t w t' Hx Hk E'.
    - cbn in E'. injection E' as <- <-. exact Hx.
    - cbn [F_loop] in E'. apply bind_inv in E'. destruct E' as (b & t1 & Eb & E').
      apply bind_inv in E'. destruct E' as ([] & t2 & _ & E').
      assert (Hb : 0 <= b <= 1).
      { unfold readBit in Eb. destruct (idx (Data t) (Position t / 8)) as [y| |]; try discriminate.
        injection Eb as <- _. change 1 with (Z.ones 1). rewrite Z.land_ones by lia. change (2 ^ 1) with 2.
        pose proof (Z.mod_pos_bound (Z.shiftr y (8 - Position t mod 8 - Z.ones 1)) 2 ltac:(lia)). cbn [Z.ones]. cbn. 
        change (Z.ones 1) with 1 in *. lia. }
      assert (E2 : 2 ^ (62 - Z.of_nat k) = 2 * 2 ^ (62 - Z.of_nat (S k))).
      { replace (62 - Z.of_nat k) with (Z.succ (62 - Z.of_nat (S k))) by lia. rewrite Z.pow_succ_r by lia. reflexivity. }
      assert (B : 2 ^ (62 - Z.of_nat k) <= 2 ^ 62) by (apply Z.pow_le_mono_r; lia).
      rewrite i64_id in E' by lia.
      eapply IH; [|lia|exact E']. lia. }
  eapply (G (Z.to_nat (Z.log2 n)) 0); [|lia|exact E].
  split; [lia|]. apply Z.pow_pos_nonneg; lia.
Qed.

Lemma log2_bounds n : 0 < n -> 2 ^ Z.log2 n <= n < 2 * 2 ^ Z.log2 n.
Proof. intros H. pose proof (Z.log2_spec n H) as Hs. rewrite Z.pow_succ_r in Hs by apply Z.log2_nonneg. exact Hs. Qed.

Lemma Ns_enc s n v : 0 < n < 2 ^ 62 -> 0 <= v < n -> starts s (enc_ns n v) ->
  Ns n s = Ok (v, adv s (Z.of_nat (length (enc_ns n v)))).
Proof.
  intros Hn Hv H. rewrite Ns_head by exact Hn. unfold enc_ns in *.
  pose proof (log2_bounds n ltac:(lia)) as HL.
  assert (Hl : 0 <= Z.log2 n < 62).
  { split; [apply Z.log2_nonneg|]. apply Z.log2_lt_pow2; lia. }
  assert (E2 : 2 ^ (Z.log2 n + 1) = 2 * 2 ^ Z.log2 n) by (rewrite Z.pow_add_r by lia; lia).
  set (m := 2 ^ (Z.log2 n + 1) - n) in *.
  destruct (Z.ltb_spec v m) as [Hvm|Hvm].
  - replace (Z.log2 n + 1 - 1) with (Z.log2 n) in * by lia.
    rewrite length_enc_f.
    assert (Hvr : 0 <= v < 2 ^ Z.of_nat (Z.to_nat (Z.log2 n))) by (rewrite Z2Nat.id by lia; lia).
    pose proof (F_enc _ _ _ H Hvr ltac:(lia)) as EF. rewrite Z2Nat.id in EF by lia.
    rewrite (bind_ok _ _ _ _ _ EF). destruct (Z.ltb_spec v m); [|lia]. rewrite Z2Nat.id by lia. reflexivity.
  - rewrite length_enc_f.
    set (u := v + m) in *.
    assert (Ew : Z.to_nat (Z.log2 n + 1) = S (Z.to_nat (Z.log2 n))) by lia.
    assert (Hsplit : enc_f (Z.to_nat (Z.log2 n + 1)) u = enc_f (Z.to_nat (Z.log2 n)) (u / 2) ++ [Z.odd u]).
    { rewrite Ew. clear. induction (Z.to_nat (Z.log2 n)) as [|k IH].
      - cbn [enc_f app]. rewrite Z.bit0_odd. reflexivity.
      - change (enc_f (S (S k)) u) with (Z.testbit u (Z.of_nat (S k)) :: enc_f (S k) u).
        rewrite IH. cbn [enc_f app]. f_equal.
        rewrite <- Z.div2_div, Z.div2_spec, Z.shiftr_spec by lia. f_equal. lia. }
    rewrite Hsplit in H. destruct (starts_app _ _ _ H) as [H1 H2]. rewrite length_enc_f in H2.
    assert (Hu : 0 <= u / 2 < 2 ^ Z.of_nat (Z.to_nat (Z.log2 n))).
    { rewrite Z2Nat.id by lia. split; [apply Z.div_pos; unfold u; lia|]. apply Z.div_lt_upper_bound; unfold u, m; lia. }
    pose proof (F_enc _ _ _ H1 Hu ltac:(lia)) as EF. rewrite Z2Nat.id in EF by lia.
    rewrite (bind_ok _ _ _ _ _ EF).
    assert (Hum : m <= u / 2) by (apply Z.div_le_lower_bound; unfold u; lia).
    destruct (Z.ltb_spec (u / 2) m); [lia|]. rewrite Z2Nat.id in H2 by lia.
    rewrite (bind_ok _ _ _ _ _ (F1_bit _ _ H2)). unfold ret. rewrite adv_adv.
    f_equal. f_equal.
    + pose proof (Zdiv2_odd_eqn u) as Eo. rewrite Z.div2_div in Eo. unfold b2z. unfold u in *. destruct (Z.odd (v + m)); lia.
    + f_equal. lia.
Qed.

Lemma Ns_inv s n v s' : 0 <= Position s -> 0 < n < 2 ^ 62 -> Ns n s = Ok (v, s') ->
  0 <= v < n /\ exists k, s' = adv s k /\ 0 <= k <= Z.of_nat (length (rest s)) /\ (k = Z.log2 n \/ k = Z.log2 n + 1).
Proof.
  intros H0 Hn E. rewrite Ns_head in E by exact Hn. apply bind_inv in E. destruct E as (x & s1 & E1 & E2).
  assert (Hl : 0 <= Z.log2 n < 62).
  { split; [apply Z.log2_nonneg|]. apply Z.log2_lt_pow2; lia. }
  apply F_inv in E1; [|exact H0|lia]. destruct E1 as (l & r & Hr & Hlen & Hx & -> & Hx2).
  replace (Z.max 0 (Z.log2 n)) with (Z.log2 n) in * by lia.
  pose proof (log2_bounds n ltac:(lia)) as HL.
  assert (Ep : 2 ^ (Z.log2 n + 1) = 2 * 2 ^ Z.log2 n) by (rewrite Z.pow_add_r by lia; lia).
  apply (f_equal (@length bool)) in Hr as Hrl. rewrite app_length in Hrl.
  destruct (Z.ltb_spec x (2 ^ (Z.log2 n + 1) - n)) as [Hc|Hc].
  - unfold ret in E2. injection E2 as <- <-. split; [lia|]. exists (Z.log2 n). repeat split; try lia.
  - apply bind_inv in E2. destruct E2 as (e & s2 & E2 & E3). unfold ret in E3. injection E3 as <- <-.
    apply F_inv in E2; [|cbn; lia|lia]. destruct E2 as (l2 & r2 & Hr2 & Hlen2 & He & -> & He2).
    change (Z.max 0 1) with 1 in *. change (2 ^ 1) with 2 in He2.
    rewrite rest_adv in Hr2 by lia. apply (f_equal (@length bool)) in Hr2. rewrite skipn_length, app_length in Hr2.
    split; [lia|]. exists (Z.log2 n + 1). rewrite adv_adv. repeat split; try lia.
Qed.

(* ------------------------------------------------------------------ *)
(** Le *)
Lemma length_enc_le n v : length (enc_le n v) = (8 * n)%nat.
Proof. revert v; induction n as [|n IH]; intros v; [reflexivity|]. cbn [enc_le]. rewrite app_length, length_enc_f, IH. lia. Qed.

Lemma Le_loop_ok n : forall i t s v, 0 <= i -> (i + Z.of_nat n <= 7) -> 0 <= t < 2 ^ (8 * i) ->
  0 <= v < 2 ^ (8 * Z.of_nat n) -> starts s (enc_le n v) ->
  Le_loop n i t s = Ok (t + v * 2 ^ (8 * i), adv s (8 * Z.of_nat n)).
Proof.
  induction n as [|n IH]; intros i t s v Hi Hin Ht Hv H.
  - cbn [Le_loop]. unfold ret. change (2 ^ (8 * Z.of_nat 0)) with 1 in Hv. rewrite adv_0. f_equal. f_equal. nia.
  - cbn [Le_loop]. cbn [enc_le] in H. destruct (starts_app _ _ _ H) as [H1 H2]. rewrite length_enc_f in H2.
    assert (Hm : 0 <= v mod 256 < 256) by (apply Z.mod_pos_bound; lia).
    rewrite (bind_ok _ _ _ _ _ (F_enc 8 s _ H1 Hm ltac:(lia))). change (Z.of_nat 8) with 8 in *.
    assert (P : 0 < 2 ^ (8 * i)) by (apply Z.pow_pos_nonneg; lia).
    assert (P6 : 2 ^ (8 * i) <= 2 ^ 48) by (apply Z.pow_le_mono_r; lia).
    assert (E8 : 2 ^ (8 * (i + 1)) = 256 * 2 ^ (8 * i)).
    { replace (8 * (i + 1)) with (8 + 8 * i) by lia. rewrite Z.pow_add_r by lia. reflexivity. }
    assert (En : 2 ^ (8 * Z.of_nat (S n)) = 256 * 2 ^ (8 * Z.of_nat n)).
    { replace (8 * Z.of_nat (S n)) with (8 + 8 * Z.of_nat n) by lia. rewrite Z.pow_add_r by lia. reflexivity. }
    assert (Esh : shl (v mod 256) (i * 8) = v mod 256 * 2 ^ (8 * i)).
    { unfold shl. rewrite Z.shiftl_mul_pow2 by lia. replace (i * 8) with (8 * i) by lia. apply i64_id. nia. }
    rewrite Esh. rewrite i64_id by nia.
    rewrite (IH (i + 1) _ (adv s 8) (v / 256)).
    + rewrite adv_adv, E8. pose proof (Z.div_mod v 256 ltac:(lia)). f_equal; f_equal; [nia|okeq].
    + lia.
    + lia.
    + rewrite E8. nia.
    + split; [apply Z.div_pos; lia|]. apply Z.div_lt_upper_bound; [lia|]. rewrite <- En. apply Hv.
    + exact H2.
Qed.

Lemma Le_enc s n v : (n <= 7)%nat -> 0 <= v < 2 ^ (8 * Z.of_nat n) -> starts s (enc_le n v) ->
  Le (Z.of_nat n) s = Ok (v, adv s (8 * Z.of_nat n)).
Proof.
  intros Hn Hv H. unfold Le. rewrite Nat2Z.id. rewrite (Le_loop_ok n 0 0 s v); [|lia|lia|cbn; lia|exact Hv|exact H].
  f_equal. f_equal. cbn; lia.
Qed.

(* ------------------------------------------------------------------ *)
(** TrailingBits, ByteAlignment *)
Lemma TrailingBits_loop_ok n : forall s, 0 <= Position s -> (n <= length (rest s))%nat ->
  TrailingBits_loop n s = Ok (tt, adv s (Z.of_nat n)).
Proof.
  induction n as [|n IH]; intros s H0 H; [cbn; unfold ret; rewrite adv_0; reflexivity|].
  cbn [TrailingBits_loop]. destruct (F_total 1 s H0 ltac:(lia)) as [(l & r & Hr & Hl & E)|[Hc _]]; [|lia].
  rewrite (bind_ok _ _ _ _ _ E). rewrite IH.
  - rewrite adv_adv. okeq.
  - cbn; lia.
  - rewrite rest_adv by lia. rewrite skipn_length. lia.
Qed.

Lemma TrailingBits_loop_panic n : forall s, 0 <= Position s -> (length (rest s) < n)%nat ->
  TrailingBits_loop n s = Panic.
Proof.
  induction n as [|n IH]; intros s H0 H; [lia|].
  cbn [TrailingBits_loop]. destruct (F_total 1 s H0 ltac:(lia)) as [(l & r & Hr & Hl & E)|[Hc E]].
  - rewrite (bind_ok _ _ _ _ _ E). apply IH; [cbn; lia|]. rewrite rest_adv by lia. rewrite skipn_length.
    rewrite Hr, app_length in H |- *. lia.
  - rewrite (bind_panic _ _ _ E). reflexivity.
Qed.

Lemma TrailingBits_spec s k : 0 <= Position s ->
  TrailingBits k s = if Z.max 1 k <=? Z.of_nat (length (rest s)) then Ok (tt, adv s (Z.max 1 k)) else Panic.
Proof.
  intros H0. unfold TrailingBits.
  destruct (F_total 1 s H0 ltac:(lia)) as [(l & r & Hr & Hl & E)|[Hc E]].
  - rewrite (bind_ok _ _ _ _ _ E). destruct (Z.leb_spec (Z.max 1 k) (Z.of_nat (length (rest s)))) as [H|H].
    + rewrite TrailingBits_loop_ok; [|cbn; lia|rewrite rest_adv, skipn_length by lia; lia].
      rewrite adv_adv. okeq.
    + apply TrailingBits_loop_panic; [cbn; lia|]. rewrite rest_adv, skipn_length by lia.
      rewrite Hr, app_length in H |- *. lia.
  - rewrite (bind_panic _ _ _ E). destruct (Z.leb_spec (Z.max 1 k) (Z.of_nat (length (rest s)))); [lia|reflexivity].
Qed.

Lemma land7 x : Z.land x 7 = x mod 8.
Proof. change 7 with (Z.ones 3). rewrite Z.land_ones by lia. reflexivity. Qed.


Lemma ByteAlignment_loop_ok fuel : forall s, 0 <= Position s <= 8 * zlen (Data s) ->
  (8 - Position s mod 8) mod 8 < Z.of_nat fuel ->
  ByteAlignment_loop fuel s = Ok (tt, set_pos s (align_up (Position s))).
Proof.
  induction fuel as [|f IH]; intros s H0 Hf.
  - pose proof (Z.mod_pos_bound (8 - Position s mod 8) 8 ltac:(lia)). lia.
  - cbn [ByteAlignment_loop]. unfold bind at 1. unfold get. rewrite land7. unfold bool_of.
    pose proof (Z.mod_pos_bound (Position s) 8 ltac:(lia)) as Hm.
    pose proof (Z.div_mod (Position s) 8 ltac:(lia)) as Hd.
    destruct (Z.eqb_spec (Position s mod 8) 0) as [Ez|Ez]; cbn [negb].
    + unfold ret. f_equal. f_equal. unfold set_pos, align_up. destruct s as [d p k]; cbn [Position Data Leb128Bytes] in *.
      f_equal. replace ((p + 7) / 8) with (p / 8) by (apply Z.div_unique with (r := 7); lia). lia.
    + assert (Hlt : Position s < 8 * zlen (Data s)).
      { destruct (Z.eq_dec (Position s) (8 * zlen (Data s))) as [E|]; [|lia]. exfalso. apply Ez. rewrite E.
        rewrite Z.mul_comm. apply Z.mod_mul. lia. }
      destruct (F_total 1 s ltac:(lia) ltac:(lia)) as [(l & r & Hr & Hl & E)|[Hc E]].
      2:{ rewrite length_rest in Hc by lia. lia. }
      rewrite (bind_ok _ _ _ _ _ E).
      assert (Em : (8 - Position s mod 8) mod 8 = 8 - Position s mod 8) by (apply Z.mod_small; lia).
      rewrite IH.
      * cbn [adv set_pos Position Data]. f_equal. f_equal. unfold set_pos, adv; cbn. f_equal.
        unfold align_up. f_equal. destruct (Z.eq_dec (Position s mod 8) 7) as [E7|E7].
        -- transitivity (Position s / 8 + 1); [symmetry; apply Z.div_unique with (r := 7); lia|apply Z.div_unique with (r := 6); lia].
        -- transitivity (Position s / 8 + 1); [symmetry; apply Z.div_unique with (r := Position s mod 8); lia|apply Z.div_unique with (r := Position s mod 8 - 1); lia].
      * cbn. lia.
      * cbn [adv set_pos Position Data]. 
        destruct (Z.eq_dec (Position s mod 8) 7) as [E7|E7].
        -- replace ((Position s + 1) mod 8) with 0 by (apply Z.mod_unique with (q := Position s / 8 + 1); lia). change ((8 - 0) mod 8) with 0. lia.
        -- replace ((Position s + 1) mod 8) with (Position s mod 8 + 1) by (apply Z.mod_unique with (q := Position s / 8); lia).
           rewrite Z.mod_small by lia. lia.
Qed.

Lemma ByteAlignment_ok s : 0 <= Position s <= 8 * zlen (Data s) ->
  ByteAlignment s = Ok (tt, set_pos s (align_up (Position s))).
Proof.
  intros H. apply ByteAlignment_loop_ok; [exact H|].
  pose proof (Z.mod_pos_bound (8 - Position s mod 8) 8 ltac:(lia)). change (Z.of_nat 9) with 9. lia.
Qed.

Lemma align_up_spec p : p <= align_up p < p + 8 /\ align_up p mod 8 = 0.
Proof.
  unfold align_up. split; [|apply Z.mod_mul; lia].
  pose proof (Z.div_mod (p + 7) 8 ltac:(lia)). pose proof (Z.mod_pos_bound (p + 7) 8 ltac:(lia)). lia.
Qed.
