(** C42 (ordering of the candidate stack), C72 (precision), C73 (clamping), C74 (stack contents), C75 (the search as a whole). *)
From Coq Require Import Permutation.
From Verif Require Import GoBase Bitstream Util UtilProofs Constants Tables Frame MvStack SpecFilter LoopFilterProofs MvStackProofs.

(** ** C42 *)
(** Sorting a range of the stack permutes the weights, inside the range only, into decreasing order. *)
Theorem C42_weights_partial : forall start fin isCompound s s', 0 <= start -> sorting start fin isCompound s = Ok s' ->
  Permutation (sWeight s) (sWeight s') /\
  (forall k, ~ (start <= k < fin) -> idx (sWeight s') k = idx (sWeight s) k) /\
  (forall a b wa wb, start <= a <= b -> b < fin -> idx (sWeight s') a = Ok wa -> idx (sWeight s') b = Ok wb -> wb <= wa).
Proof.
  intros start fin c s s' Hs H. unfold sorting in H. apply rbind_inv in H as ([st' W'] & E & H). injection H as <-. cbn [fst snd sWeight set_stack].
  apply (sortLoop_inv _ start fin c _ _ _ _ fin Hs ltac:(lia)) in E; [exact E|]. intros; lia.
Qed.
Print Assumptions C42_weights_partial.
(** It always terminates. *)
Theorem C42_terminates_partial : forall start fin isCompound s, 0 <= start -> sorting start fin isCompound s <> Hang.
Proof. exact sorting_nh. Qed.
Print Assumptions C42_terminates_partial.
(** A range that is in order already is left alone, vectors included. *)
Theorem C42_in_order_partial : forall start fin isCompound s, 0 <= start -> fin <= zlen (sWeight s) ->
  (forall a b wa wb, start <= a <= b -> b < fin -> idx (sWeight s) a = Ok wa -> idx (sWeight s) b = Ok wb -> wb <= wa) -> sorting start fin isCompound s = Ok s.
Proof.
  intros start fin c s Hs HL HT. unfold sorting. enough (K : sortLoop (Z.to_nat (fin - start)) start fin c (sStack s) (sWeight s) = Ok (sStack s, sWeight s)) by (rewrite K; destruct s; reflexivity).
  destruct (Z.lt_ge_cases start fin).
  - replace (Z.to_nat (fin - start)) with (S (Z.to_nat (fin - start - 1))) by lia. cbn [sortLoop]. replace (start <? fin) with true by (symmetry; apply Z.ltb_lt; lia). rewrite sortPass_sorted by (try assumption; lia). cbn [rbind].
    destruct (Z.to_nat (fin - start - 1)); cbn [sortLoop]; rewrite Z.ltb_irrefl; reflexivity.
  - replace (Z.to_nat (fin - start)) with O by lia. cbn [sortLoop]. replace (start <? fin) with false by (symmetry; apply Z.ltb_ge; lia). reflexivity.
Qed.
Print Assumptions C42_in_order_partial.
(** Refuted: when two candidates are swapped, the vector of the first is lost; its weight takes the vector's place. *)
Theorem C42_vectors_refuted : forall m0 m1 w0 w1 n new found total close zero nc rc g W drl, w0 < w1 ->
  sorting 0 2 true (mkMst n new found total close zero nc rc g [m0; m1] (w0 :: w1 :: W) drl) =
  Ok (mkMst n new found total close zero nc rc g [m1; ((w0, w0), (w0, w0))] (w1 :: w0 :: W) drl).
Proof.
  intros m0 m1 w0 w1 n new found total close zero nc rc g W drl H. unfold sorting. cbn [sStack sWeight]. change (Z.to_nat (2 - 0)) with 2%nat. cbn [sortLoop]. change (0 <? 2) with true. cbv iota.
  unfold sortPass at 1, rfor_to. change (Z.to_nat (2 - (0 + 1))) with 1%nat. cbn [rfor_from]. change (0 + 1 - 1) with 0. change (0 + 1) with 1.
  rewrite (idx_mid [] (w1 :: W) w0 0 eq_refl : idx (w0 :: w1 :: W) 0 = Ok w0). rewrite (idx_mid [w0] W w1 1 eq_refl : idx (w0 :: w1 :: W) 1 = Ok w1). cbn [rbind].
  replace (w0 <? w1) with true by (symmetry; apply Z.ltb_lt; exact H). unfold swapStack at 1.
  rewrite (idx_mid [] (w1 :: W) w0 0 eq_refl : idx (w0 :: w1 :: W) 0 = Ok w0). rewrite (idx_mid [w0] W w1 1 eq_refl : idx (w0 :: w1 :: W) 1 = Ok w1). cbn [rbind].
  rewrite (upd_mid [] (w1 :: W) w0 w1 0 eq_refl : upd (w0 :: w1 :: W) 0 w1 = Ok (w1 :: w1 :: W)). cbn [rbind].
  rewrite (upd_mid [w1] W w1 w0 1 eq_refl : upd (w1 :: w1 :: W) 1 w0 = Ok (w1 :: w0 :: W)). cbn [rbind].
  cbn [fst snd]. change (idx [m0; m1] 0) with (Ok m0). change (idx [m0; m1] 1) with (Ok m1). cbn [rbind fst snd]. change (upd [m0; m1] 0 (fst m1, snd m1)) with (Ok [(fst m1, snd m1); m1]). cbn [rbind].
  rewrite <- surjective_pairing. change (idx [m1; m1] 1) with (Ok m1). cbn [rbind]. change (upd [m1; m1] 1 (w0, w0, (w0, w0))) with (Ok [m1; (w0, w0, (w0, w0))]). cbn [rbind fst snd].
  (* second pass *)
  unfold sortPass, rfor_to. change (0 <? 1) with true. cbv iota. change (Z.to_nat (1 - (0 + 1))) with 0%nat. cbn [rfor_from rbind]. change (0 <? 0) with false. cbv iota. cbn [rbind fst snd]. reflexivity.
Qed.
Print Assumptions C42_vectors_refuted.
(** Refuted: the stack array has room for two candidates, so sorting never moves the third or a later one: it panics instead. *)
Theorem C42_third_candidate_refuted : forall start fin isCompound s s', 0 <= start -> zlen (sStack s) = 2 -> sorting start fin isCompound s = Ok s' ->
  forall k, 2 <= k -> idx (sWeight s') k = idx (sWeight s) k.
Proof.
  intros start fin c s s' Hs L H. unfold sorting in H. apply rbind_inv in H as ([st' W'] & E & H). injection H as <-. cbn [sWeight set_stack snd]. exact (proj2 (sortLoop_two _ _ _ _ _ _ _ _ Hs L E)).
Qed.
Print Assumptions C42_third_candidate_refuted.
Theorem C42_three_panic_refuted : forall fin isCompound s k a b, zlen (sStack s) = 2 -> 2 <= k -> k + 1 < fin -> idx (sWeight s) k = Ok a -> idx (sWeight s) (k + 1) = Ok b -> a < b -> sorting 0 fin isCompound s = Panic.
Proof.
  intros fin c s k a b L Hk Hf Ea Eb Hab. destruct (sorting 0 fin c s) as [s'| |] eqn:E; [|reflexivity|exfalso; revert E; apply sorting_nh; lia]. exfalso.
  pose proof (C42_third_candidate_refuted _ _ _ _ _ (Z.le_refl 0) L E) as K. destruct (C42_weights_partial _ _ _ _ _ (Z.le_refl 0) E) as (_ & _ & S).
  rewrite <- K in Ea, Eb by lia. specialize (S k (k + 1) a b ltac:(lia) Hf Ea Eb). lia.
Qed.
Print Assumptions C42_three_panic_refuted.
Definition s_case (W : list Z) : Mst := mkMst 2 0 0 0 0 0 0 0 ((0, 0), (0, 0)) [((1, 2), (3, 4)); ((5, 6), (7, 8))] W [0].
Example C42_case : sorting 0 2 false (s_case [4; 640; 9; 0; 0; 0; 0; 0]) = Ok (mkMst 2 0 0 0 0 0 0 0 ((0, 0), (0, 0)) [((5, 6), (3, 4)); ((4, 4), (7, 8))] [640; 4; 9; 0; 0; 0; 0; 0] [0])
  /\ sorting 0 2 false (s_case [640; 4; 9; 0; 0; 0; 0; 0]) = Ok (s_case [640; 4; 9; 0; 0; 0; 0; 0]) /\ sorting 0 4 false (s_case [640; 20; 4; 9; 0; 0; 0; 0]) = Panic.
Proof. repeat split; vm_compute; reflexivity. Qed.

(** ** C72 precision *)
(** [r] is [v] rounded to a multiple of [u], to the nearest, ties and everything in between towards zero *)
Definition rounds_to_zero (u v r : Z) : Prop := (exists k, r = u * k) /\ 2 * Z.abs (v - r) <= u /\ Z.abs r <= Z.abs v + u / 2 /\ (2 * Z.abs (v - r) = u -> Z.abs r < Z.abs v).
Theorem C72_integer : forall e m, vHigh e = false -> vInt e = true -> - 2 ^ 40 <= fst m <= 2 ^ 40 -> - 2 ^ 40 <= snd m <= 2 ^ 40 ->
  rounds_to_zero 8 (fst m) (fst (lowerPrecision e m)) /\ rounds_to_zero 8 (snd m) (snd (lowerPrecision e m)).
Proof.
  intros e m HH HI H1 H2. unfold lowerPrecision. rewrite HH, HI. cbn [fst snd].
  assert (K : forall v, - 2 ^ 40 <= v <= 2 ^ 40 -> rounds_to_zero 8 v (lowerComp true v)).
  { intros v Hv. change (2 ^ 40) with 1099511627776 in Hv. unfold lowerComp. cbv zeta. rewrite Abs_abs by (change (2 ^ 62) with 4611686018427387904; lia). rewrite shr_div by lia. change (2 ^ 3) with 8.
    pose proof (Z.div_mod (Z.abs v + 3) 8 ltac:(lia)). pose proof (Z.mod_pos_bound (Z.abs v + 3) 8 ltac:(lia)). set (q := (Z.abs v + 3) / 8) in *.
    rewrite shl_small by (change (2 ^ 3) with 8; change (2 ^ 63) with 9223372036854775808; lia). change (2 ^ 3) with 8. unfold rounds_to_zero. change (8 / 2) with 4.
    destruct (Z.ltb_spec 0 v); (split; [|lia]); [exists q|exists (- q)]; lia. }
  split; apply K; assumption.
Qed.
Print Assumptions C72_integer.
Theorem C72_quarter : forall e m, vHigh e = false -> vInt e = false -> rounds_to_zero 2 (fst m) (fst (lowerPrecision e m)) /\ rounds_to_zero 2 (snd m) (snd (lowerPrecision e m)).
Proof.
  intros e m HH HI. unfold lowerPrecision. rewrite HH, HI. cbn [fst snd].
  assert (K : forall v, rounds_to_zero 2 v (lowerComp false v)).
  { intros v. unfold lowerComp, bool_of. rewrite land1_mod. pose proof (Z.div_mod v 2 ltac:(lia)). pose proof (Z.mod_pos_bound v 2 ltac:(lia)). unfold rounds_to_zero. change (2 / 2) with 1.
    destruct (Z.eqb_spec (v mod 2) 0); cbn [negb]; [split; [exists (v / 2); lia|lia]|]. destruct (Z.ltb_spec 0 v); (split; [|lia]); [exists (v / 2)|exists (v / 2 + 1)]; lia. }
  split; apply K.
Qed.
Print Assumptions C72_quarter.
Theorem C72_high : forall e m, vHigh e = true -> lowerPrecision e m = m.
Proof. intros e m H. unfold lowerPrecision. rewrite H. reflexivity. Qed.
Print Assumptions C72_high.

(** ** C73 clamping *)
(** The block of [size] samples at [pos] (both in samples), displaced by [v] eighths of a sample, reaches at most its own size and 16 samples beyond the frame of [frame] samples. *)
Definition near_frame (pos size frame v : Z) : Prop := - (size + 16) * 8 <= pos * 8 + v /\ pos * 8 + v + size * 8 <= (frame + size + 16) * 8.
Lemma block_dims k w4 w : idx NUM_4X4_BLOCKS_WIDE k = Ok w4 -> idx BLOCK_WIDTH k = Ok w -> w = 4 * w4.
Proof.
  intros H1 H2. pose proof (idx_inv _ _ _ H1) as I. change (zlen NUM_4X4_BLOCKS_WIDE) with 22 in I.
  assert (A : forallb (fun k => match idx NUM_4X4_BLOCKS_WIDE k, idx BLOCK_WIDTH k with Ok a, Ok b => b =? 4 * a | _, _ => false end) (map Z.of_nat (seq 0 22)) = true) by (vm_compute; reflexivity).
  rewrite forallb_forall in A. specialize (A k). rewrite H1, H2 in A. apply Z.eqb_eq, A, in_map_iff. exists (Z.to_nat k). split; [lia|apply in_seq; lia].
Qed.
Lemma block_dims_h k w4 w : idx NUM_4X4_BLOCKS_HIGH k = Ok w4 -> idx BLOCK_HEIGHT k = Ok w -> w = 4 * w4.
Proof.
  intros H1 H2. pose proof (idx_inv _ _ _ H1) as I. change (zlen NUM_4X4_BLOCKS_HIGH) with 22 in I.
  assert (A : forallb (fun k => match idx NUM_4X4_BLOCKS_HIGH k, idx BLOCK_HEIGHT k with Ok a, Ok b => b =? 4 * a | _, _ => false end) (map Z.of_nat (seq 0 22)) = true) by (vm_compute; reflexivity).
  rewrite forallb_forall in A. specialize (A k). rewrite H1, H2 in A. apply Z.eqb_eq, A, in_map_iff. exists (Z.to_nat k). split; [lia|apply in_seq; lia].
Qed.
(** Clamping returns the nearest vector that keeps the block near the frame. *)
Theorem C73_clamp : forall e m bw bh r, 0 <= vMiRows e -> 0 <= vMiCols e -> idx BLOCK_WIDTH (vMiSize e) = Ok bw -> idx BLOCK_HEIGHT (vMiSize e) = Ok bh -> clampMv e bw bh m = Ok r ->
  near_frame (4 * vMiRow e) bh (4 * vMiRows e) (fst r) /\ near_frame (4 * vMiCol e) bw (4 * vMiCols e) (snd r) /\
  (forall v, near_frame (4 * vMiRow e) bh (4 * vMiRows e) v -> Z.abs (fst r - fst m) <= Z.abs (v - fst m)) /\
  (forall v, near_frame (4 * vMiCol e) bw (4 * vMiCols e) v -> Z.abs (snd r - snd m) <= Z.abs (v - snd m)).
Proof.
  intros e m bw bh r HR HC EW EH H. unfold clampMv, clampMvRow, clampMvCol in H. apply rbind_inv in H as (r0 & E0 & H). apply rbind_inv in H as (c0 & E1 & H). injection H as <-.
  apply rbind_inv in E0 as (bh4 & B0 & E0). injection E0 as <-. apply rbind_inv in E1 as (bw4 & B1 & E1). injection E1 as <-.
  pose proof (block_dims _ _ _ B1 EW) as ->. pose proof (block_dims_h _ _ _ B0 EH) as ->.
  assert (1 <= bh4 <= 32) by (eapply num4_pos; [|exact B0]; auto). assert (1 <= bw4 <= 32) by (eapply num4_pos; [|exact B1]; auto).
  cbn [fst snd]. unfold MI_SIZE, MV_BORDER. rewrite !Clip3_clamp by lia. unfold clamp, near_frame. repeat split; intros; lia.
Qed.
Print Assumptions C73_clamp.
Lemma context_post e c n s s' : 0 <= sNum s -> contextAndClamping e c n s = Ok s' ->
  sNum s' = sNum s /\ sNum s <= zlen (sDrl s) /\ sClose s' = sClose s /\ sTotal s' = sTotal s /\
  (sNewCtx s', sRefCtx s') = (if sClose s =? 0 then (Z.min (sTotal s) 1, sTotal s) else if sClose s =? 1 then (3 - Z.min n 1, 2 + sTotal s) else (5 - Z.min n 1, 5)) /\
  (c = false -> exists bw bh, idx BLOCK_WIDTH (vMiSize e) = Ok bw /\ idx BLOCK_HEIGHT (vMiSize e) = Ok bh /\
     forall i, 0 <= i < sNum s -> exists x y, idx (sStack s) i = Ok x /\ idx (sStack s') i = Ok y /\ clampMv e bw bh (fst x) = Ok (fst y)).
Proof.
  intros Hn H. unfold contextAndClamping in H. apply rbind_inv in H as (bw & EW & H). apply rbind_inv in H as (bh & EH & H). apply rbind_inv in H as (drl & ED & H). apply rbind_inv in H as (st & ES & H).
  assert (LD : sNum s <= zlen (sDrl s)).
  { unfold rfor_to in ED. enough (K : (fun m (d : list Z) => zlen d = zlen (sDrl s) /\ m <= zlen (sDrl s)) (0 + Z.of_nat (Z.to_nat (sNum s - 0))) drl) by (cbv beta in K; lia).
    revert ED. apply (rfor_from_post (fun m (d : list Z) => zlen d = zlen (sDrl s) /\ m <= zlen (sDrl s))); [split; [reflexivity|unfold zlen; lia]|].
    intros i a b Hi [A B] E. apply rbind_inv in E as (z & _ & E). pose proof (upd_len _ _ _ _ E). unfold upd in E. destruct (Z.ltb_spec i 0); [discriminate|]. destruct (Z.leb_spec (zlen a) i); [discriminate|]. lia. }
  rewrite !Min_min in H. match type of H with (let '(_, _) := ?x in _) = _ => destruct x as [nc rc] eqn:EC end. injection H as <-. cbn. split; [reflexivity|]. split; [exact LD|]. split; [reflexivity|]. split; [reflexivity|]. split; [reflexivity|].
  intros ->. exists bw, bh. split; [exact EW|]. split; [exact EH|].
  unfold rfor_to in ES at 1. change (Z.to_nat (1 - 0)) with 1%nat in ES. cbn [rfor_from] in ES. apply rbind_inv in ES as (st1 & ES & X). injection X as <-.
  unfold rfor_to in ES.
  enough (K : (fun m (t : list mvs) => (forall i, 0 <= i < m -> exists x y, idx (sStack s) i = Ok x /\ idx t i = Ok y /\ clampMv e bw bh (fst x) = Ok (fst y)) /\ (forall i, m <= i -> idx t i = idx (sStack s) i)) (0 + Z.of_nat (Z.to_nat (sNum s - 0))) st1).
  { intros i Hi. apply (proj1 K). lia. }
  revert ES. apply (rfor_from_post (fun m (t : list mvs) => (forall i, 0 <= i < m -> exists x y, idx (sStack s) i = Ok x /\ idx t i = Ok y /\ clampMv e bw bh (fst x) = Ok (fst y)) /\ (forall i, m <= i -> idx t i = idx (sStack s) i))); [split; [intros; lia|reflexivity]|].
  intros i a b Hi [A B] E. apply rbind_inv in E as (x & Ex & E). apply rbind_inv in E as (m & Em & E). change (sel 0 x) with (fst x) in Em. change (set_sel 0 x m) with (m, snd x) in E. split.
  - intros k Hk. destruct (Z.eq_dec k i) as [->|].
    + exists x, (m, snd x). split; [rewrite <- B by lia; exact Ex|]. split; [exact (idx_upd_same _ _ _ _ E)|exact Em].
    + destruct (A k ltac:(lia)) as (x0 & y0 & X1 & X2 & X3). exists x0, y0. split; [exact X1|]. split; [|exact X3]. rewrite (idx_upd_other _ _ _ _ _ E); [exact X2|lia].
  - intros k Hk. rewrite (idx_upd_other _ _ _ _ _ E); [apply B; lia|lia].
Qed.

Definition Q (a b : Mst) : Prop := sNum a <= sNum b /\ sNew a <= sNew b /\ sDrl b = sDrl a.
Lemma R_Q a b : R a b -> Q a b. Proof. intros [? ? ? ? ? ? ? ? ?]. repeat split; assumption. Qed.
Lemma Q_trans a b c : Q a b -> Q b c -> Q a c. Proof. intros (A1 & A2 & A3) (B1 & B2 & B3). repeat split; [lia|lia|congruence]. Qed.
(** The whole search: what a run that returns looks like at its end. *)
Lemma findMvStack_end e c s s' : findMvStack e c s = Ok s' -> exists s1 n, contextAndClamping e c n s1 = Ok s' /\ 0 <= sNum s1 /\ sDrl s1 = sDrl s /\ 0 <= n /\
  0 <= sClose s1 <= 2 /\ 0 <= sTotal s1 <= 2 /\ (sNum s1 < 2 -> c = false).
Proof.
  intros H. unfold findMvStack in H. apply rbind_inv in H as (bw4 & _ & H). apply rbind_inv in H as (bh4 & _ & H).
  apply rbind_inv in H as (a0 & E0 & H). assert (I0 : sNum a0 = 0 /\ sNew a0 = 0 /\ sFound a0 = 0 /\ sDrl a0 = sDrl s).
  { unfold mvInit in E0. do 2 (apply rbind_inv in E0 as (? & _ & E0)). injection E0 as <-. cbn. auto. }
  destruct I0 as (N0 & W0 & F0 & D0). clear E0.
  apply rbind_inv in H as (a1 & E1 & H). apply scanRow_R in E1. cbv zeta in H.
  apply rbind_inv in H as (a2 & E2 & H). apply scanCol_R in E2.
  apply rbind_inv in H as (a3 & E3 & H). assert (R3 : R (set_found a2 0) a3) by (match type of E3 with (if ?b then _ else _) = _ => destruct b end; [exact (scanPoint_R _ _ _ _ _ _ E3)|injection E3 as <-; apply R_refl]). clear E3.
  set (ab3 := matched a3 (sFound a1)) in *. set (a4 := set_close a3 (ab3 + sFound a2)) in *.
  apply rbind_inv in H as (a5 & E5 & H). apply bonus_R in E5.
  apply rbind_inv in H as (a6 & E6 & H). assert (R6 : R (set_zero a5 0) a6) by (match type of E6 with (if ?b then _ else _) = _ => destruct b end; [exact (temporalScan_R _ _ _ _ E6)|injection E6 as <-; apply R_refl]). clear E6.
  apply rbind_inv in H as (a7 & E7 & H). apply scanPoint_R in E7.
  apply rbind_inv in H as (a8 & E8 & H). apply scanRow_R in E8.
  apply rbind_inv in H as (a9 & E9 & H). apply scanCol_R in E9.
  apply rbind_inv in H as (b1 & B1 & H). assert (R10 : R (set_found a9 0) b1) by (match type of B1 with (if ?b then _ else _) = _ => destruct b end; [exact (scanRow_R _ _ _ _ _ B1)|injection B1 as <-; apply R_refl]). clear B1.
  apply rbind_inv in H as (b2 & B2 & H). assert (R11 : R (set_found b1 0) b2) by (match type of B2 with (if ?b then _ else _) = _ => destruct b end; [exact (scanCol_R _ _ _ _ _ B2)|injection B2 as <-; apply R_refl]). clear B2.
  set (tot := matched b2 (matched b1 (matched a8 (matched a7 ab3))) + matched a9 (sFound a2)) in *.
  apply rbind_inv in H as (b3 & B3 & H). apply sorting_R in B3 as [R12 N12].
  apply rbind_inv in H as (b4 & B4 & H). apply sorting_R in B4 as [R13 N13].
  apply rbind_inv in H as (b5 & B5 & H).
  assert (R14 : R b4 b5 /\ (sNum b5 < 2 -> c = false)).
  { destruct (Z.ltb_spec (sNum b4) 2); [destruct (extraSearch_R _ _ _ _ B5) as [-> X]; split; [exact X|reflexivity]|injection B5 as <-; split; [apply R_refl|lia]]. }
  destruct R14 as [R14 C14]. exists b5, (sNew a4). split; [exact H|].
  assert (F1 : sFound a1 = 0 \/ sFound a1 = 1) by (destruct (r_found _ _ E1) as [X|X]; [left; congruence|auto]).
  assert (F2 : sFound a2 = 0 \/ sFound a2 = 1) by (destruct (r_found _ _ E2) as [X|X]; cbn in X; auto).
  assert (MM : forall x v, v = 0 \/ v = 1 -> matched x v = 0 \/ matched x v = 1) by (intros x v Hv; unfold matched; destruct (sFound x =? 1); auto).
  assert (A3 : ab3 = 0 \/ ab3 = 1) by (apply MM; exact F1).
  assert (T : 0 <= tot <= 2).
  { unfold tot. pose proof (MM b2 _ (MM b1 _ (MM a8 _ (MM a7 _ A3)))) as P1. pose proof (MM a9 _ F2) as P2. lia. }
  assert (Q0 : Q a0 a3) by (eapply Q_trans; [apply (R_Q _ _ E1)|]; eapply Q_trans; [apply (R_Q _ _ E2)|exact (R_Q _ _ R3)]).
  assert (Q1 : Q a3 b5).
  { eapply Q_trans; [apply (R_Q _ _ E5)|]. eapply Q_trans; [apply (R_Q _ _ R6)|]. eapply Q_trans; [apply (R_Q _ _ E7)|]. eapply Q_trans; [apply (R_Q _ _ E8)|]. eapply Q_trans; [apply (R_Q _ _ E9)|].
    eapply Q_trans; [apply (R_Q _ _ R10)|]. eapply Q_trans; [apply (R_Q _ _ R11)|]. eapply Q_trans; [apply (R_Q _ _ R12)|]. eapply Q_trans; [apply (R_Q _ _ R13)|exact (R_Q _ _ R14)]. }
  destruct Q0 as (Q01 & Q02 & Q03). destruct Q1 as (Q11 & Q12 & Q13).
  assert (XC : sClose b5 = ab3 + sFound a2).
  { rewrite (r_close _ _ R14), (r_close _ _ R13), (r_close _ _ R12). change (sClose b2 = ab3 + sFound a2). rewrite (r_close _ _ R11). change (sClose b1 = ab3 + sFound a2). rewrite (r_close _ _ R10). change (sClose a9 = ab3 + sFound a2). rewrite (r_close _ _ E9). change (sClose a8 = ab3 + sFound a2). rewrite (r_close _ _ E8). change (sClose a7 = ab3 + sFound a2).
    rewrite (r_close _ _ E7), (r_close _ _ R6). change (sClose a5 = ab3 + sFound a2). rewrite (r_close _ _ E5). reflexivity. }
  assert (XT : sTotal b5 = tot) by (rewrite (r_total _ _ R14), (r_total _ _ R13), (r_total _ _ R12); reflexivity).
  assert (S4 : sNew a4 = sNew a3) by reflexivity. rewrite S4, XC, XT.
  clear - N0 W0 D0 Q01 Q02 Q03 Q11 Q12 Q13 F2 A3 T C14.
  split; [lia|]. split; [congruence|]. split; [lia|]. split; [lia|]. split; [exact T|exact C14].
Qed.
(** Every candidate found is clamped to the frame. *)
Theorem C73_candidates : forall e s s', 0 <= vMiRows e -> 0 <= vMiCols e -> findMvStack e false s = Ok s' -> exists bw bh, idx BLOCK_WIDTH (vMiSize e) = Ok bw /\ idx BLOCK_HEIGHT (vMiSize e) = Ok bh /\
  forall i, 0 <= i < sNum s' -> exists m, idx (sStack s') i = Ok m /\ near_frame (4 * vMiRow e) bh (4 * vMiRows e) (fst (fst m)) /\ near_frame (4 * vMiCol e) bw (4 * vMiCols e) (snd (fst m)).
Proof.
  intros e s s' HR HC H. apply findMvStack_end in H as (s1 & n & H & N & _ & _ & _ & _ & _). apply context_post in H as (EN & _ & _ & _ & _ & H); [|exact N]. destruct (H eq_refl) as (bw & bh & EW & EH & K). exists bw, bh. split; [exact EW|]. split; [exact EH|].
  intros i Hi. rewrite EN in Hi. destruct (K i Hi) as (x & y & _ & Ey & Ec). exists y. split; [exact Ey|]. destruct (C73_clamp e (fst x) bw bh (fst y) HR HC EW EH Ec) as (A & B & _). auto.
Qed.
Print Assumptions C73_candidates.

(** ** C75 the search as a whole *)
(** It terminates for every neighbourhood. *)
Theorem C75_terminates_partial : forall e isCompound s, findMvStack e isCompound s <> Hang.
Proof.
  intros e c s. unfold findMvStack. cbv zeta.
  apply rbind_nh; [apply idx_nh|intro bw4]. apply rbind_nh; [apply idx_nh|intro bh4]. destruct (mvInit e c s) as [a0| |] eqn:E0; cbn [rbind]; [|discriminate|exfalso; exact (mvInit_nh _ _ _ E0)].
  assert (N0 : sNum a0 = 0) by (unfold mvInit in E0; do 2 (apply rbind_inv in E0 as (? & _ & E0)); injection E0 as <-; reflexivity).
  destruct (scanRow e c (-1) a0) as [a1| |] eqn:E1; cbn [rbind]; [|discriminate|exfalso; exact (scanRow_nh _ _ _ _ E1)]. apply scanRow_R in E1.
  destruct (scanCol e c (-1) (set_found a1 0)) as [a2| |] eqn:E2; cbn [rbind]; [|discriminate|exfalso; exact (scanCol_nh _ _ _ _ E2)]. apply scanCol_R in E2.
  match goal with |- rbind ?m _ <> _ => destruct m as [a3| |] eqn:E3; cbn [rbind] end; [|discriminate|exfalso; revert E3; match goal with |- (if ?b then _ else _) = _ -> _ => destruct b end; [apply scanPoint_nh|discriminate]].
  assert (R3 : R (set_found a2 0) a3) by (match type of E3 with (if ?b then _ else _) = _ => destruct b end; [exact (scanPoint_R _ _ _ _ _ _ E3)|injection E3 as <-; apply R_refl]).
  assert (N3 : 0 <= sNum a3) by (destruct E1, E2, R3; cbn in *; lia).
  repeat (apply rbind_nh; [first [apply bonus_nh | apply scanPoint_nh | apply scanRow_nh | apply scanCol_nh | (apply sorting_nh; cbn; lia) | match goal with |- (if ?b then _ else _) <> _ => destruct b; [first [apply temporalScan_nh | apply scanRow_nh | apply scanCol_nh | apply extraSearch_nh]|discriminate] end]|intro]).
  apply context_nh.
Qed.
Print Assumptions C75_terminates_partial.
(** The contexts it derives for the mode symbols are in range. *)
Theorem C75_contexts_partial : forall e isCompound s s', findMvStack e isCompound s = Ok s' -> 0 <= sNewCtx s' <= 5 /\ 0 <= sRefCtx s' <= 5.
Proof.
  intros e c s s' H. apply findMvStack_end in H as (s1 & n & H & N & _ & Hn & HC & HT & _). apply context_post in H as (_ & _ & _ & _ & X & _); [|exact N].
  destruct (Z.eqb_spec (sClose s1) 0); [injection X as -> ->; lia|]. destruct (Z.eqb_spec (sClose s1) 1); injection X as -> ->; lia.
Qed.
Print Assumptions C75_contexts_partial.
(** Refuted: with the decoder's array for the DRL contexts (one entry) the search returns only if it found at most one candidate ... *)
Theorem C75_one_candidate_refuted : forall e isCompound s s', zlen (sDrl s) = 1 -> findMvStack e isCompound s = Ok s' -> 0 <= sNum s' <= 1.
Proof.
  intros e c s s' L H. apply findMvStack_end in H as (s1 & n & H & N & D & _). apply context_post in H as (EN & LD & _); [|exact N]. rewrite D in LD. lia.
Qed.
Print Assumptions C75_one_candidate_refuted.
(** ... and for blocks with two reference frames never. *)
Theorem C75_compound_refuted : forall e s, zlen (sDrl s) = 1 -> findMvStack e true s = Panic.
Proof.
  intros e s L. destruct (findMvStack e true s) as [s'| |] eqn:E; [|reflexivity|exfalso; exact (C75_terminates_partial _ _ _ E)]. exfalso.
  pose proof (C75_one_candidate_refuted _ _ _ _ L E) as K. apply findMvStack_end in E as (s1 & n & H & N & _ & _ & _ & _ & C). apply context_post in H as (EN & _); [|exact N]. discriminate C. lia.
Qed.
Print Assumptions C75_compound_refuted.

(** ** C74 stack contents *)
Definition distinct (s : Mst) : Prop := forall i j x y, 0 <= i < sNum s -> 0 <= j < sNum s -> idx (sStack s) i = Ok x -> idx (sStack s) j = Ok y -> fst x = fst y -> i = j.
Lemma mv_eqb_eq a b : mv_eqb a b = true <-> a = b.
Proof. unfold mv_eqb. rewrite andb_true_iff, !Z.eqb_eq. destruct a, b; cbn. split; [intros [-> ->]; reflexivity|intros [= -> ->]; auto]. Qed.
Lemma findMv_spec n : forall i m st r, findMv n i m st = Ok r -> match r with Some k => i <= k < i + Z.of_nat n /\ exists x, idx st k = Ok x /\ fst x = m | None => forall k, i <= k < i + Z.of_nat n -> exists x, idx st k = Ok x /\ fst x <> m end.
Proof.
  induction n as [|n IH]; intros i m st r H; cbn [findMv] in H; [injection H as <-; intros; lia|]. apply rbind_inv in H as (x & Ex & H). destruct (mv_eqb m (fst x)) eqn:E.
  - injection H as <-. apply mv_eqb_eq in E. split; [lia|]. exists x. auto.
  - apply IH in H. destruct r as [k|].
    + destruct H as [A B]. split; [lia|exact B].
    + intros k Hk. destruct (Z.eq_dec k i) as [->|]; [exists x; split; [exact Ex|]; intro X; symmetry in X; apply mv_eqb_eq in X; congruence|]. apply H. lia.
Qed.
(** Searching a neighbour of a single-reference block adds its vector once: either an entry with this vector gets the weight added, or it becomes a new last entry with this weight; all else stays, and the vectors stay distinct. *)
Theorem C74_single_partial : forall e r c l w s s', 0 <= sNum s < MAX_REF_MV_STACK_SIZE -> distinct s -> searchStack e r c l w s = Ok s' -> distinct s' /\
  exists k old x wk, (k < sNum s /\ sNum s' = sNum s /\ idx (sWeight s) k = Ok old /\ idx (sStack s) k = Ok x \/ k = sNum s /\ sNum s' = sNum s + 1 /\ old = 0) /\
    0 <= k /\ idx (sStack s') k = Ok x /\ idx (sWeight s') k = Ok wk /\ wk = old + w /\
    ((exists md, idx2 (vYModes e) r c = Ok md /\ (md = GLOBALMV \/ md = GLOBAL_GLOBALMV) /\ fst x = lowerPrecision e (fst (sGlobal s))) \/ (exists cm, idx2 (vMvs e) r c = Ok cm /\ fst x = lowerPrecision e (sel l cm))) /\
    (forall i, i <> k -> idx (sStack s') i = idx (sStack s) i /\ idx (sWeight s') i = idx (sWeight s) i).
Proof.
  intros e r c l w s s' Hn HD H. unfold searchStack in H. apply rbind_inv in H as (x & EY & H). apply rbind_inv in H as (x0 & _ & H). apply rbind_inv in H as (x1 & _ & H). apply rbind_inv in H as (x2 & _ & H). apply rbind_inv in H as (x3 & EG & H). apply rbind_inv in H as (x4 & EM & H). cbv zeta in H.
  assert (G : (exists md, idx2 (vYModes e) r c = Ok md /\ (md = GLOBALMV \/ md = GLOBAL_GLOBALMV) /\ lowerPrecision e x4 = lowerPrecision e (fst (sGlobal s))) \/ (exists cm, idx2 (vMvs e) r c = Ok cm /\ lowerPrecision e x4 = lowerPrecision e (sel l cm))).
  { destruct x3.
    - left. exists x. split; [exact EY|]. injection EM as <-. split; [|reflexivity]. destruct (Z.eqb_spec x GLOBALMV); [auto|]. destruct (Z.eqb_spec x GLOBAL_GLOBALMV); [auto|discriminate EG].
    - right. apply rbind_inv in EM as (cm & Ec & EM). injection EM as <-. exists cm. auto. }
  clear EG EM EY. apply rbind_inv in H as (at_ & EF & H).
  set (s1 := set_found (if HasNewmv x then set_new s (sNew s + 1) else s) 1) in *.
  assert (S1 : sNum s1 = sNum s /\ sStack s1 = sStack s /\ sWeight s1 = sWeight s) by (unfold s1; destruct (HasNewmv x); auto). destruct S1 as (S1 & S2 & S3). rewrite S1, S2 in EF. clearbody s1. set (m := lowerPrecision e x4) in *. clearbody m. apply findMv_spec in EF. destruct at_ as [k|].
  - destruct EF as (Hk & y & Ey & Em). unfold addWeight in H. rewrite S3 in H. apply rbind_inv in H as (w0 & Ew & H). apply rbind_inv in H as (W & EW & H). injection H as <-. cbn [sNum sStack sWeight set_stack]. rewrite S1, S2. split.
    + unfold distinct. cbn. first [exact HD | rewrite S1, S2; exact HD | rewrite S2; exact HD].
    + exists k, w0, y, (w0 + w). split; [left; repeat split; try assumption; lia|]. split; [lia|]. split; [exact Ey|]. split; [exact (idx_upd_same _ _ _ _ EW)|]. split; [lia|]. split; [rewrite Em; exact G|]. intros i Hi. split; [reflexivity|]. apply (idx_upd_other _ _ _ _ _ EW). lia.
  - replace (sNum s1 <? MAX_REF_MV_STACK_SIZE) with true in H by (symmetry; apply Z.ltb_lt; lia). unfold push1 in H. rewrite S1, S2, S3 in H. apply rbind_inv in H as (old & Eo & H). apply rbind_inv in H as (st & Es & H). apply rbind_inv in H as (W & EW & H). injection H as <-. cbn [sNum sStack sWeight set_stack]. split.
    + unfold distinct. cbn. intros i j xi xj Hi Hj Ei Ej EE. destruct (Z.eq_dec i (sNum s)) as [->|Ni]; destruct (Z.eq_dec j (sNum s)) as [->|Nj]; [reflexivity| | |].
      * exfalso. rewrite (idx_upd_same _ _ _ _ Es) in Ei. injection Ei as <-. rewrite (idx_upd_other _ _ _ _ _ Es) in Ej by lia. destruct (EF j ltac:(lia)) as (y & Ey & Ny). rewrite Ej in Ey. injection Ey as <-. cbn in EE. congruence.
      * exfalso. rewrite (idx_upd_same _ _ _ _ Es) in Ej. injection Ej as <-. rewrite (idx_upd_other _ _ _ _ _ Es) in Ei by lia. destruct (EF i ltac:(lia)) as (y & Ey & Ny). rewrite Ei in Ey. injection Ey as <-. cbn in EE. congruence.
      * rewrite (idx_upd_other _ _ _ _ _ Es) in Ei by lia. rewrite (idx_upd_other _ _ _ _ _ Es) in Ej by lia. apply (HD i j xi xj); try assumption; lia.
    + exists (sNum s), 0, (m, snd old), w. split; [right; auto|]. split; [lia|]. split; [exact (idx_upd_same _ _ _ _ Es)|]. split; [exact (idx_upd_same _ _ _ _ EW)|]. split; [lia|]. split; [exact G|]. intros i Hi. split; [apply (idx_upd_other _ _ _ _ _ Es); lia|apply (idx_upd_other _ _ _ _ _ EW); lia].
Qed.
Print Assumptions C74_single_partial.
(** Refuted for two references: a pair that is in the stack already is pushed a second time. *)
Theorem C74_compound_refuted : forall e r c w s m md g st1 w0 w1 W, idx2 (vMvs e) r c = Ok m -> idx2 (vYModes e) r c = Ok md -> md <> GLOBAL_GLOBALMV ->
  sNum s = 1 -> sStack s = [m; st1] -> sWeight s = w0 :: w1 :: W -> g = sGlobal s ->
  exists s', compoundSearch e r c w s = Ok s' /\ sNum s' = 2 /\ sStack s' = [m; m] /\ sWeight s' = w0 + w :: w :: W.
Proof.
  intros e r c w s m md g st1 w0 w1 W E1 E2 N HN HS HW _. unfold compoundSearch. rewrite E1, E2. cbn [rbind]. replace (md =? GLOBAL_GLOBALMV) with false by (symmetry; apply Z.eqb_neq; exact N). cbn [rbind]. destruct s as [n nw f t cl z nc rc gl st Wt d]. cbn in HN, HS, HW. subst n st Wt.
  cbn [sNum set_found]. unfold rfor_to. change (Z.to_nat (1 - 0)) with 1%nat. cbn [rfor_from]. cbn [sStack set_found]. change (idx [m; st1] 0) with (Ok m). cbn [rbind].
  assert (MM : forall x, mv_eqb x x = true) by (intro; apply mv_eqb_eq; reflexivity). rewrite !MM. cbn [andb]. unfold addWeight. cbn [sWeight set_found]. change (idx (w0 :: w1 :: W) 0) with (Ok w0). cbn [rbind].
  rewrite (upd_mid [] (w1 :: W) w0 (w0 + w) 0 eq_refl : upd (w0 :: w1 :: W) 0 (w0 + w) = Ok (w0 + w :: w1 :: W)). cbn [rbind]. cbn [sNum set_stack]. change (1 <? MAX_REF_MV_STACK_SIZE) with true. cbv iota. unfold push2. cbn [sNum sStack sWeight set_stack set_found].
  change (upd [m; st1] 1 m) with (Ok [m; m]). cbn [rbind]. rewrite (upd_mid [w0 + w] W w1 w 1 eq_refl : upd (w0 + w :: w1 :: W) 1 w = Ok (w0 + w :: w :: W)). cbn [rbind]. eexists. split; [reflexivity|]. destruct (HasNewmv md); cbn; auto.
Qed.
Print Assumptions C74_compound_refuted.

(** ** A concrete neighbourhood: an 8x8 block at (1, 1) of a 2x2 tile... *)
Definition e_case : MvEnv := mkMvEnv 1 1 3 2 2 0 2 0 2 (repeat (repeat 3 64) 64) (repeat (repeat (1, -1) 64) 64) (1, -1) [[1; 1]; [1; 1]] (repeat (repeat NEWMV 64) 64)
  (repeat (repeat ((13, -700), (0, 0)) 64) 64) (repeat 0 8) (repeat (repeat 0 6) 8) false false false [false; false; false] [].
Definition s0_case : Mst := mkMst 0 0 0 0 0 0 0 0 ((0, 0), (0, 0)) [((0, 0), (0, 0)); ((0, 0), (0, 0))] [0; 0; 0; 0; 0; 0; 0; 0] [0].
Example C73_case : exists s', findMvStack e_case false s0_case = Ok s' /\ sNum s' = 1 /\ idx (sStack s') 0 = Ok ((12, -224), (0, 0)) /\ sNewCtx s' = 4 /\ sRefCtx s' = 5.
Proof. eexists. split; [vm_compute; reflexivity|]. repeat split; vm_compute; reflexivity. Qed.
Example C74_case : exists s1 s2, distinct s0_case /\ searchStack e_case 0 1 0 4 s0_case = Ok s1 /\ distinct s1 /\ sNum s1 = 1 /\ searchStack e_case 1 0 0 6 s1 = Ok s2 /\ sNum s2 = 1 /\ sWeight s2 = [10; 0; 0; 0; 0; 0; 0; 0] /\ idx (sStack s2) 0 = Ok ((12, -700), (0, 0)).
Proof.
  assert (D0 : distinct s0_case) by (intros i j x y Hi; change (sNum s0_case) with 0 in Hi; lia).
  destruct (searchStack e_case 0 1 0 4 s0_case) as [s1| |] eqn:E1; [|vm_compute in E1; discriminate|vm_compute in E1; discriminate]. exists s1.
  destruct (C74_single_partial e_case 0 1 0 4 s0_case s1 ltac:(split; [apply Z.le_refl|reflexivity]) D0 E1) as [D1 _]. vm_compute in E1. injection E1 as <-.
  eexists. split; [exact D0|]. split; [reflexivity|]. split; [exact D1|]. split; [reflexivity|]. split; [vm_compute; reflexivity|]. repeat split; vm_compute; reflexivity.
Qed.
