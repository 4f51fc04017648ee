(** Proofs about the motion vector candidate search. *)
From Coq Require Import Permutation.
From Verif Require Import GoBase Bitstream Util UtilProofs Constants Tables Frame MvStack SpecFilter LoopFilterProofs.

Lemma upd_mid {A} (p s : list A) x v k : zlen p = k -> upd (p ++ x :: s) k v = Ok (p ++ v :: s).
Proof.
  intros <-. rewrite upd_ok by (unfold zlen; rewrite app_length; cbn [length]; lia). f_equal. unfold zlen. rewrite Nat2Z.id. induction p as [|a p IH]; cbn [app length upd_nat]; [reflexivity|]. f_equal. exact IH.
Qed.
Lemma idx_mid {A} (p s : list A) x k : zlen p = k -> idx (p ++ x :: s) k = Ok x.
Proof. intros <-. rewrite (idx_ok _ _ x) by (unfold zlen; rewrite app_length; cbn [length]; lia). f_equal. unfold zlen. rewrite Nat2Z.id, app_nth2, Nat.sub_diag by lia. reflexivity. Qed.
Lemma idx_split {A} (l : list A) k v : idx l k = Ok v -> exists p s, l = p ++ v :: s /\ zlen p = k.
Proof.
  intros H. pose proof (idx_inv _ _ _ H) as I. unfold idx in H. destruct (Z.ltb_spec k 0); [discriminate|]. destruct (nth_error l (Z.to_nat k)) eqn:E; [|discriminate]. injection H as <-.
  apply nth_error_split in E as (p & s & -> & L). exists p, s. split; [reflexivity|]. unfold zlen. lia.
Qed.
Lemma idx_app_l {A} (p s : list A) k : k < zlen p -> idx (p ++ s) k = idx p k.
Proof. intros H. unfold idx. destruct (k <? 0) eqn:E; [reflexivity|]. apply Z.ltb_ge in E. rewrite nth_error_app1; [reflexivity|]. unfold zlen in H. lia. Qed.
Lemma idx_app_r {A} (p s : list A) k : zlen p <= k -> idx (p ++ s) k = idx s (k - zlen p).
Proof.
  intros H. unfold zlen in *. unfold idx. destruct (Z.ltb_spec k 0); [lia|]. destruct (Z.ltb_spec (k - Z.of_nat (length p)) 0); [lia|]. rewrite nth_error_app2 by lia. replace (Z.to_nat (k - Z.of_nat (length p))) with (Z.to_nat k - length p)%nat by lia. reflexivity.
Qed.

(** swapping adjacent entries *)
Lemma swap_weights i c st W st' W' : swapStack (i - 1) i c st W = Ok (st', W') ->
  exists p a b s, W = p ++ a :: b :: s /\ W' = p ++ b :: a :: s /\ zlen p = i - 1.
Proof.
  unfold swapStack. intros H. apply rbind_inv in H as (t & E1 & H). apply rbind_inv in H as (wj & E2 & H). apply rbind_inv in H as (W1 & E3 & H). apply rbind_inv in H as (W2 & E4 & H).
  destruct (idx_split _ _ _ E1) as (p & s & -> & L). rewrite idx_app_r in E2 by lia. replace (i - zlen p) with 1 in E2 by lia. destruct s as [|b s]; [discriminate|]. injection E2 as ->.
  rewrite (upd_mid p (wj :: s) t wj) in E3 by exact L. injection E3 as <-.
  change (p ++ wj :: wj :: s) with (p ++ [wj] ++ wj :: s) in E4. rewrite app_assoc in E4. rewrite (upd_mid (p ++ [wj]) s wj t) in E4 by (unfold zlen in *; rewrite app_length; cbn [length]; lia). injection E4 as <-.
  exists p, t, wj, s. split; [reflexivity|]. split; [|exact L].
  repeat (apply rbind_inv in H as (? & _ & H)). injection H as _ <-. rewrite <- app_assoc. reflexivity.
Qed.
Lemma swap_idx i (p : list Z) (a b : Z) (s : list Z) : zlen p = i - 1 -> let W := p ++ a :: b :: s in let W' := p ++ b :: a :: s in
  idx W (i - 1) = Ok a /\ idx W i = Ok b /\ idx W' (i - 1) = Ok b /\ idx W' i = Ok a /\ (forall k, k <> i - 1 -> k <> i -> idx W' k = idx W k).
Proof.
  intros L. cbv zeta. assert (K : forall (x y : Z), idx (p ++ x :: y :: s) i = Ok y).
  { intros. change (p ++ x :: y :: s) with (p ++ [x] ++ y :: s). rewrite app_assoc. apply idx_mid. unfold zlen in *. rewrite app_length. cbn [length]. lia. }
  repeat split; try apply K; try (apply idx_mid; exact L).
  intros k K1 K2. destruct (Z.lt_ge_cases k (zlen p)); [rewrite !idx_app_l by lia; reflexivity|]. rewrite !idx_app_r by lia.
  replace (k - zlen p) with (2 + (k - zlen p - 2)) by lia. set (m := k - zlen p - 2). assert (0 <= m) by (unfold m; lia). unfold idx. destruct (Z.ltb_spec (2 + m) 0); [lia|].
  replace (Z.to_nat (2 + m)) with (S (S (Z.to_nat m))) by lia. reflexivity.
Qed.

Record pass_inv (start fin : Z) (W0 : list Z) (i ne : Z) (W : list Z) : Prop := {
  pi_ne : start <= ne <= i - 1;
  pi_perm : Permutation W0 W;
  pi_out : forall k, ~ (start <= k < i) -> idx W k = idx W0 k;
  pi_in : forall a, start <= a < i -> exists a', start <= a' < i /\ idx W a = idx W0 a';
  pi_sorted : forall a b wa wb, start <= a <= b -> b < i -> ne <= b -> idx W a = Ok wa -> idx W b = Ok wb -> wb <= wa }.
Lemma sortPass_inv start fin c st W ne st' W' : 0 <= start < fin -> sortPass start fin c st W = Ok (ne, st', W') -> pass_inv start fin W fin ne W'.
Proof.
  intros Hs H. unfold sortPass, rfor_to in H.
  enough (K : (fun i (a : Z * list mvs * list Z) => pass_inv start fin W i (fst (fst a)) (snd a)) (start + 1 + Z.of_nat (Z.to_nat (fin - (start + 1)))) (ne, st', W')).
  { cbv beta in K. cbn [fst snd] in K. replace (start + 1 + Z.of_nat (Z.to_nat (fin - (start + 1)))) with fin in K by lia. exact K. }
  revert H. apply (rfor_from_post (fun i (a : Z * list mvs * list Z) => pass_inv start fin W i (fst (fst a)) (snd a))).
  - cbn [fst snd]. split; [lia|apply Permutation_refl|reflexivity| |].
    + intros a Ha. exists a. split; [lia|reflexivity].
    + intros a b wa wb Ha Hb _ E1 E2. assert (a = b) as -> by lia. rewrite E1 in E2. injection E2 as ->. lia.
  - intros i [[ne0 st0] W0] [[ne1 st1] W1] Hi [I1 I2 I3 I4 I5] H. cbn [fst snd] in *. apply rbind_inv in H as (va & Ea & H). apply rbind_inv in H as (vb & Eb & H).
    destruct (Z.ltb_spec va vb).
    + apply rbind_inv in H as ([st2 W2] & H & E). injection E as <- <- <-. cbn [fst snd] in *. apply swap_weights in H as (p & a & b & s & -> & -> & L).
      destruct (swap_idx i p a b s L) as (S1 & S2 & S3 & S4 & S5). cbv zeta in *. rewrite S1 in Ea. injection Ea as ->. rewrite S2 in Eb. injection Eb as ->.
      set (W2 := p ++ vb :: va :: s) in *. set (W1 := p ++ va :: vb :: s) in *.
      assert (OUT : idx W1 i = idx W i) by (apply I3; lia).
      split.
      * lia.
      * eapply Permutation_trans; [exact I2|]. unfold W1, W2. apply Permutation_app_head. constructor.
      * intros k Hk. rewrite S5 by lia. apply I3. lia.
      * intros k Hk. destruct (Z.eq_dec k (i - 1)) as [->|]; [exists i; split; [lia|]; rewrite S3, <- OUT, S2; reflexivity|].
        destruct (Z.eq_dec k i) as [->|].
        { destruct (I4 (i - 1) ltac:(lia)) as (a' & R & E). exists a'. split; [lia|]. rewrite S4, <- E, S1. reflexivity. }
        destruct (I4 k ltac:(lia)) as (a' & R & E). exists a'. split; [lia|]. rewrite S5 by assumption. exact E.
      * intros k b wa wb Hk Hb Hne E1 E2. assert (b = i) as -> by lia. rewrite S4 in E2. injection E2 as <-.
        destruct (Z.eq_dec k i) as [->|]; [rewrite S4 in E1; injection E1 as <-; lia|].
        destruct (Z.eq_dec k (i - 1)) as [->|]; [rewrite S3 in E1; injection E1 as <-; lia|].
        rewrite S5 in E1 by assumption. apply (I5 k (i - 1) wa va); try lia; assumption.
    + injection H as <- <- <-. cbn [fst snd] in *. split.
      * lia.
      * exact I2.
      * intros k Hk. apply I3. lia.
      * intros k Hk. destruct (Z.eq_dec k i) as [->|]; [exists i; split; [lia|]; apply I3; lia|]. destruct (I4 k ltac:(lia)) as (a' & R & E). exists a'. split; [lia|exact E].
      * intros k b wa wb Hk Hb Hne E1 E2. destruct (Z.eq_dec b i) as [->|]; [|apply (I5 k b wa wb); try lia; assumption].
        rewrite E2 in Eb. injection Eb as ->. destruct (Z.eq_dec k i) as [->|]; [rewrite E1 in E2; injection E2 as ->; lia|].
        assert (va <= wa) by (apply (I5 k (i - 1) wa va); try lia; assumption). lia.
Qed.

Lemma sortLoop_inv n : forall start fin c st W st' W' F, 0 <= start -> fin <= F ->
  (forall a b wa wb, start <= a <= b -> b < F -> fin <= b -> idx W a = Ok wa -> idx W b = Ok wb -> wb <= wa) ->
  sortLoop n start fin c st W = Ok (st', W') ->
  Permutation W W' /\ (forall k, ~ (start <= k < fin) -> idx W' k = idx W k) /\ (forall a b wa wb, start <= a <= b -> b < F -> idx W' a = Ok wa -> idx W' b = Ok wb -> wb <= wa).
Proof.
  induction n as [|n IH]; intros start fin c st W st' W' F Hs HF HT H; cbn [sortLoop] in H; destruct (Z.ltb_spec start fin) as [L|L].
  - discriminate.
  - injection H as <- <-. split; [apply Permutation_refl|]. split; [reflexivity|]. intros a b wa wb Ha Hb. apply HT; lia.
  - apply rbind_inv in H as ([[ne st1] W1] & HP & H). cbv iota in H. apply sortPass_inv in HP as [I1 I2 I3 I4 I5]; [|lia].
    destruct (IH start ne c st1 W1 st' W' F Hs ltac:(lia)) as (A & B & C); [|exact H|].
    + intros a b wa wb Ha Hb Hne E1 E2. destruct (Z.lt_ge_cases b fin); [apply (I5 a b wa wb); try lia; assumption|]. rewrite I3 in E2 by lia.
      destruct (Z.lt_ge_cases a fin); [destruct (I4 a ltac:(lia)) as (a' & Ra & Ea); rewrite Ea in E1; apply (HT a' b wa wb); try lia; assumption|].
      rewrite I3 in E1 by lia. apply (HT a b wa wb); try lia; assumption.
    + split; [eapply Permutation_trans; eassumption|]. split; [|exact C]. intros k Hk. rewrite B by lia. apply I3. lia.
  - injection H as <- <-. split; [apply Permutation_refl|]. split; [reflexivity|]. intros a b wa wb Ha Hb. apply HT; lia.
Qed.
(** termination *)
Lemma swap_nh i j c st W : swapStack i j c st W <> Hang.
Proof. unfold swapStack. repeat (apply rbind_nh; [first [apply idx_nh | apply upd_nh]|intro]). discriminate. Qed.
Lemma sortPass_nh start fin c st W : sortPass start fin c st W <> Hang.
Proof.
  unfold sortPass, rfor_to. apply rfor_from_nh. intros i [[ne st0] W0]. apply rbind_nh; [apply idx_nh|intro]. apply rbind_nh; [apply idx_nh|intro].
  match goal with |- (if ?b then _ else _) <> _ => destruct b end; [|discriminate]. apply rbind_nh; [apply swap_nh|discriminate].
Qed.
Lemma sortLoop_nh n : forall start fin c st W, 0 <= start -> fin - start <= Z.of_nat n -> sortLoop n start fin c st W <> Hang.
Proof.
  induction n as [|n IH]; intros start fin c st W Hs H; cbn [sortLoop]; destruct (Z.ltb_spec start fin) as [L|L]; try discriminate; [lia|].
  destruct (sortPass start fin c st W) as [[[ne st1] W1]| |] eqn:E; cbn [rbind]; [|discriminate|exfalso; exact (sortPass_nh _ _ _ _ _ E)].
  apply sortPass_inv in E as [I1 _ _ _ _]; [|lia]. apply IH; lia.
Qed.
(** a range already in order is left alone *)
Lemma sortPass_sorted start fin c st W : 0 <= start < fin -> fin <= zlen W -> (forall a b wa wb, start <= a <= b -> b < fin -> idx W a = Ok wa -> idx W b = Ok wb -> wb <= wa) ->
  sortPass start fin c st W = Ok (start, st, W).
Proof.
  intros Hs HL HT. unfold sortPass, rfor_to.
  destruct (rfor_from_inv (fun _ a => a = (start, st, W)) (Z.to_nat (fin - (start + 1))) (start + 1) (fun i '(ne, st, W) =>
    let! a := idx W (i - 1) in let! b := idx W i in
    if a <? b then let! p := swapStack (i - 1) i c st W in Ok (i, fst p, snd p) else Ok (ne, st, W)) (start, st, W)) as (r & E & ->); [reflexivity| |exact E].
  intros i a Hi ->. rewrite (idx_ok W (i - 1) 0), (idx_ok W i 0) by lia. cbn [rbind]. assert (K : nth (Z.to_nat i) W 0 <= nth (Z.to_nat (i - 1)) W 0) by (apply (HT (i - 1) i); try lia; apply idx_ok; lia).
  match goal with |- context [if ?b then _ else _] => replace b with false by (symmetry; apply Z.ltb_ge; exact K) end. eexists. split; reflexivity.
Qed.
(** with a stack of two entries, a sort that returns leaves the entries from the third on alone *)
Lemma swap_two i c st W r : zlen st = 2 -> swapStack (i - 1) i c st W = Ok r -> i = 1 /\ zlen (fst r) = 2.
Proof.
  intros L H. assert (I : i <= 1 /\ 0 <= i - 1).
  { unfold swapStack in H. do 4 (apply rbind_inv in H as (? & _ & H)). apply rbind_inv in H as (a & Ea & H). apply rbind_inv in H as (b & Eb & H). apply idx_inv in Ea. apply idx_inv in Eb. lia. }
  split; [lia|]. unfold swapStack in H. do 6 (apply rbind_inv in H as (? & _ & H)). apply rbind_inv in H as (st1 & E1 & H). apply rbind_inv in H as (b & _ & H). apply rbind_inv in H as (st2 & E2 & H). injection H as <-. cbn [fst].
  unfold upd in E1, E2. destruct (_ || _) in E1; [discriminate|]. injection E1 as <-. destruct (_ || _) in E2; [discriminate|]. injection E2 as <-.
  assert (UL : forall (l : list mvs) k v, length (upd_nat l k v) = length l) by (induction l as [|? ? IHl]; intros [|k] v; cbn [upd_nat length]; try reflexivity; f_equal; apply IHl).
  unfold zlen in *. rewrite !UL. exact L.
Qed.
Lemma sortPass_two start fin c st W ne st' W' : 0 <= start -> zlen st = 2 -> sortPass start fin c st W = Ok (ne, st', W') -> zlen st' = 2 /\ forall k, 2 <= k -> idx W' k = idx W k.
Proof.
  intros Hs L H. unfold sortPass, rfor_to in H.
  refine ((fun A B => rfor_from_post (fun _ (a : Z * list mvs * list Z) => zlen (snd (fst a)) = 2 /\ forall k, 2 <= k -> idx (snd a) k = idx W k) _ _ _ _ _ A B H) _ _).
  - cbn [fst snd]. auto.
  - intros i [[ne0 st0] W0] [[ne1 st1] W1] Hi [I1 I2] E. cbn [fst snd] in *. apply rbind_inv in E as (va & _ & E). apply rbind_inv in E as (vb & _ & E).
    match type of E with (if ?b then _ else _) = _ => destruct b end; [|injection E as <- <- <-; auto].
    apply rbind_inv in E as ([st2 W2] & E & X). injection X as <- <- <-. cbn [fst snd]. destruct (swap_two _ _ _ _ _ I1 E) as [-> L2]. split; [exact L2|].
    apply swap_weights in E as (p & a & b & s & -> & -> & Lp). intros k Hk. destruct (swap_idx 1 p a b s Lp) as (_ & _ & _ & _ & S5). cbv zeta in S5. rewrite S5 by lia. apply I2. exact Hk.
Qed.
Lemma sortLoop_two n : forall start fin c st W st' W', 0 <= start -> zlen st = 2 -> sortLoop n start fin c st W = Ok (st', W') -> zlen st' = 2 /\ forall k, 2 <= k -> idx W' k = idx W k.
Proof.
  induction n as [|n IH]; intros start fin c st W st' W' Hs L H; cbn [sortLoop] in H; destruct (start <? fin); try discriminate; try (injection H as <- <-; auto).
  apply rbind_inv in H as ([[ne st1] W1] & HP & H). cbv iota in H. destruct (sortPass_two _ _ _ _ _ _ _ _ Hs L HP) as [L1 K1]. destruct (IH _ _ _ _ _ _ _ Hs L1 H) as [L2 K2]. split; [exact L2|]. intros. rewrite K2, K1 by assumption. reflexivity.
Qed.

(** ** What the search may change *)
Record R (a b : Mst) : Prop := mkR {
  r_found : sFound b = sFound a \/ sFound b = 1; r_num : sNum a <= sNum b; r_new : sNew a <= sNew b; r_drl : sDrl b = sDrl a; r_close : sClose b = sClose a; r_total : sTotal b = sTotal a;
  r_global : sGlobal b = sGlobal a; r_stack : zlen (sStack b) = zlen (sStack a); r_weight : zlen (sWeight b) = zlen (sWeight a) }.
Lemma R_refl s : R s s. Proof. split; try reflexivity; auto; lia. Qed.
Lemma R_trans a b c : R a b -> R b c -> R a c.
Proof.
  intros [A1 A2 A3 A4 A5 A6 A7 A8 A9] [B1 B2 B3 B4 B5 B6 B7 B8 B9]. split; try congruence; lia.
Qed.
Lemma upd_len {A} (l l' : list A) i v : upd l i v = Ok l' -> zlen l' = zlen l.
Proof.
  unfold upd. destruct (_ || _); [discriminate|]. intros [= <-]. unfold zlen. f_equal. generalize (Z.to_nat i). induction l as [|a l IH]; intros [|k]; cbn [upd_nat length]; try reflexivity. f_equal. apply IH.
Qed.
Lemma R_set_found s : R s (set_found s 1). Proof. split; cbn; try reflexivity; auto; lia. Qed.
Lemma R_set_zero s z : R s (set_zero s z). Proof. split; cbn; try reflexivity; auto; lia. Qed.
Lemma R_set_new s n : sNew s <= n -> R s (set_new s n). Proof. split; cbn; try reflexivity; auto; lia. Qed.
Lemma addWeight_R i w s s' : addWeight i w s = Ok s' -> R s s'.
Proof. intros H. unfold addWeight in H. apply rbind_inv in H as (v & _ & H). apply rbind_inv in H as (W & E & H). injection H as <-. apply upd_len in E. split; cbn; try reflexivity; auto; lia. Qed.
Lemma push1_R m w s s' : push1 m w s = Ok s' -> R s s'.
Proof.
  intros H. unfold push1 in H. apply rbind_inv in H as (v & _ & H). apply rbind_inv in H as (st & E1 & H). apply rbind_inv in H as (W & E & H). injection H as <-. apply upd_len in E, E1. split; cbn; try reflexivity; auto; lia.
Qed.
Lemma push2_R m w s s' : push2 m w s = Ok s' -> R s s'.
Proof. intros H. unfold push2 in H. apply rbind_inv in H as (st & E1 & H). apply rbind_inv in H as (W & E & H). injection H as <-. apply upd_len in E, E1. split; cbn; try reflexivity; auto; lia. Qed.
Lemma loop_R n : forall i body s s', (forall j a b, body j a = Ok b -> R a b) -> rfor_from n i body s = Ok s' -> R s s'.
Proof.
  intros i body s s' HB H. refine ((fun A B => rfor_from_post (fun _ => R s) _ _ _ _ _ A B H) (R_refl s) _). intros j a b _ Ha E. eapply R_trans; [exact Ha|]. eapply HB. exact E.
Qed.
Lemma searchStack_R e r c l w s s' : searchStack e r c l w s = Ok s' -> R s s'.
Proof.
  intros H. unfold searchStack in H. do 6 (apply rbind_inv in H as (? & _ & H)). cbv zeta in H. apply rbind_inv in H as (at_ & _ & H).
  set (s1 := set_found (if HasNewmv x then set_new s (sNew s + 1) else s) 1) in *.
  assert (R1 : R s s1) by (unfold s1; destruct (HasNewmv x); [eapply R_trans; [apply (R_set_new s (sNew s + 1)); lia|apply R_set_found]|apply R_set_found]).
  eapply R_trans; [exact R1|]. destruct at_ as [i|]; [exact (addWeight_R _ _ _ _ H)|]. destruct (sNum s1 <? MAX_REF_MV_STACK_SIZE); [exact (push1_R _ _ _ _ H)|injection H as <-; apply R_refl].
Qed.
Lemma compoundSearch_R e r c w s s' : compoundSearch e r c w s = Ok s' -> R s s'.
Proof.
  intros H. unfold compoundSearch in H. apply rbind_inv in H as (c0 & _ & H). apply rbind_inv in H as (md & _ & H). apply rbind_inv in H as (c1 & _ & H). cbv zeta in H. apply rbind_inv in H as (s1 & E1 & H). apply rbind_inv in H as (s2 & E2 & H). injection H as <-.
  apply (R_trans s (set_found s 1)); [apply R_set_found|]. apply (R_trans _ s1).
  - unfold rfor_to in E1. revert E1. apply loop_R. intros j a b E. apply rbind_inv in E as (x & _ & E). match type of E with (if ?b then _ else _) = _ => destruct b end; [exact (addWeight_R _ _ _ _ E)|injection E as <-; apply R_refl].
  - apply (R_trans _ s2); [match type of E2 with (if ?b then _ else _) = _ => destruct b end; [exact (push2_R _ _ _ _ E2)|injection E2 as <-; apply R_refl]|].
    destruct (HasNewmv md); [apply R_set_new; lia|apply R_refl].
Qed.
Lemma addRefMv_R e c r k w s s' : addRefMv e c r k w s = Ok s' -> R s s'.
Proof.
  intros H. unfold addRefMv in H. apply rbind_inv in H as (i & _ & H). destruct (i =? 0); [injection H as <-; apply R_refl|]. destruct (negb c).
  - unfold rfor_to in H. revert H. apply loop_R. intros j a b E. apply rbind_inv in E as (x & _ & E). match type of E with (if ?b then _ else _) = _ => destruct b end; [exact (searchStack_R _ _ _ _ _ _ _ E)|injection E as <-; apply R_refl].
  - apply rbind_inv in H as (x & _ & E). match type of E with (if ?b then _ else _) = _ => destruct b end; [exact (compoundSearch_R _ _ _ _ _ _ E)|injection E as <-; apply R_refl].
Qed.
Lemma scanLoop_R n : forall e c along row col b4 end4 far s16 i s s', scanLoop n e c along row col b4 end4 far s16 i s = Ok s' -> R s s'.
Proof.
  induction n as [|n IH]; intros e c along row col b4 end4 far s16 i s s' H; cbn [scanLoop] in H; (destruct (i <? end4); [|injection H as <-; apply R_refl]); [discriminate|]. cbv zeta in H.
  match type of H with (if ?b then _ else _) = _ => destruct b end; [injection H as <-; apply R_refl|]. apply rbind_inv in H as (sz & _ & H). apply rbind_inv in H as (l & _ & H). apply rbind_inv in H as (s1 & E & H).
  eapply R_trans; [exact (addRefMv_R _ _ _ _ _ _ _ E)|exact (IH _ _ _ _ _ _ _ _ _ _ _ _ H)].
Qed.
Lemma scanRow_R e c d s s' : scanRow e c d s = Ok s' -> R s s'.
Proof. intros H. unfold scanRow in H. apply rbind_inv in H as (b & _ & H). cbv zeta in H. exact (scanLoop_R _ _ _ _ _ _ _ _ _ _ _ _ _ H). Qed.
Lemma scanCol_R e c d s s' : scanCol e c d s = Ok s' -> R s s'.
Proof. intros H. unfold scanCol in H. apply rbind_inv in H as (b & _ & H). cbv zeta in H. exact (scanLoop_R _ _ _ _ _ _ _ _ _ _ _ _ _ H). Qed.
Lemma scanPoint_R e c d d' s s' : scanPoint e c d d' s = Ok s' -> R s s'.
Proof.
  intros H. unfold scanPoint in H. cbv zeta in H. match type of H with (if ?b then _ else _) = _ => destruct b end; [|injection H as <-; apply R_refl]. apply rbind_inv in H as (r & _ & H).
  destruct (fst r =? 0); [injection H as <-; apply R_refl|exact (addRefMv_R _ _ _ _ _ _ _ H)].
Qed.
Lemma temporalSample_R e c dr dc s s' : temporalSample e c dr dc s = Ok s' -> R s s'.
Proof.
  intros H. unfold temporalSample in H. cbv zeta in H. match type of H with (if ?b then _ else _) = _ => destruct b end; [injection H as <-; apply R_refl|].
  set (o := (dr =? 0) && (dc =? 0)) in *. set (s1 := if o then set_zero s 1 else s) in *. assert (R1 : R s s1) by (unfold s1; destruct o; [apply R_set_zero|apply R_refl]).
  apply rbind_inv in H as (c0 & _ & H). match type of H with (if ?b then _ else _) = _ => destruct b end; [injection H as <-; exact R1|]. eapply R_trans; [exact R1|]. clearbody s1. clear R1. destruct c; cbn [negb] in H.
  - apply rbind_inv in H as (c1 & _ & H). match type of H with (if ?b then _ else _) = _ => destruct b end; [injection H as <-; apply R_refl|].
    match type of H with context [findMv2 _ _ _ (sStack ?x)] => set (s2 := x) in *; assert (R2 : R s1 s2) by (unfold s2; destruct o; [apply R_set_zero|apply R_refl]) end.
    eapply R_trans; [exact R2|]. apply rbind_inv in H as (x & _ & H). destruct (0 <? sNum s2); [exact (addWeight_R _ _ _ _ H)|]. match type of H with (if ?b then _ else _) = _ => destruct b end; [exact (push2_R _ _ _ _ H)|injection H as <-; apply R_refl].
  - match type of H with context [findMv _ _ _ (sStack ?x)] => set (s2 := x) in *; assert (R2 : R s1 s2) by (unfold s2; destruct o; [apply R_set_zero|apply R_refl]) end.
    eapply R_trans; [exact R2|]. apply rbind_inv in H as (x & _ & H). destruct (0 <? sNum s2); [exact (addWeight_R _ _ _ _ H)|]. match type of H with (if ?b then _ else _) = _ => destruct b end; [exact (push1_R _ _ _ _ H)|injection H as <-; apply R_refl].
Qed.
Lemma loop_by_R lo hi step body s s' : (forall j a b, body j a = Ok b -> R a b) -> rfor_by lo hi step body s = Ok s' -> R s s'.
Proof. intros HB. unfold rfor_by. apply (rfor_step_post (R s)); [apply R_refl|]. intros j a b Ha E. eapply R_trans; [exact Ha|exact (HB _ _ _ E)]. Qed.
Lemma temporalScan_R e c s s' : temporalScan e c s = Ok s' -> R s s'.
Proof.
  intros H. unfold temporalScan in H. do 2 (apply rbind_inv in H as (? & _ & H)). cbv zeta in H. revert H. apply loop_by_R. intros j a b. apply loop_by_R. intros k a' b'. apply temporalSample_R.
Qed.
Lemma bonus_R n s s' : bonus n s = Ok s' -> R s s'.
Proof. unfold bonus. destruct (0 <? n); [unfold rfor_to; apply loop_R; intros; eapply addWeight_R; eassumption|intros [= <-]; apply R_refl]. Qed.
Lemma swap_len i j c st W r : swapStack i j c st W = Ok r -> zlen (fst r) = zlen st /\ zlen (snd r) = zlen W.
Proof.
  intros H. unfold swapStack in H. do 2 (apply rbind_inv in H as (? & _ & H)). apply rbind_inv in H as (W1 & E1 & H). apply rbind_inv in H as (W2 & E2 & H). do 2 (apply rbind_inv in H as (? & _ & H)).
  apply rbind_inv in H as (st1 & E3 & H). apply rbind_inv in H as (? & _ & H). apply rbind_inv in H as (st2 & E4 & H). injection H as <-. apply upd_len in E1, E2, E3, E4. cbn [fst snd]. lia.
Qed.
Lemma sortLoop_len n : forall start fin c st W r, sortLoop n start fin c st W = Ok r -> zlen (fst r) = zlen st /\ zlen (snd r) = zlen W.
Proof.
  induction n as [|n IH]; intros start fin c st W r H; cbn [sortLoop] in H; destruct (start <? fin); try discriminate; try (injection H as <-; split; reflexivity).
  apply rbind_inv in H as ([[ne st1] W1] & HP & H). cbv iota in H. destruct (IH _ _ _ _ _ _ H) as [A B].
  assert (K : zlen st1 = zlen st /\ zlen W1 = zlen W).
  { unfold sortPass, rfor_to in HP. refine ((fun A B => rfor_from_post (fun _ (a : Z * list mvs * list Z) => zlen (snd (fst a)) = zlen st /\ zlen (snd a) = zlen W) _ _ _ _ _ A B HP) _ _); [split; reflexivity|].
    intros i [[ne0 st0] W0] [[ne2 st2] W2] _ [I1 I2] E. cbn [fst snd] in *. do 2 (apply rbind_inv in E as (? & _ & E)). match type of E with (if ?b then _ else _) = _ => destruct b end; [|injection E as <- <- <-; auto].
    apply rbind_inv in E as (p & E & X). injection X as <- <- <-. apply swap_len in E. lia. }
  lia.
Qed.
Lemma sorting_R a b c s s' : sorting a b c s = Ok s' -> R s s' /\ sNum s' = sNum s.
Proof. intros H. unfold sorting in H. apply rbind_inv in H as (p & E & H). injection H as <-. apply sortLoop_len in E. cbn. split; [|reflexivity]. split; cbn; try reflexivity; auto; lia. Qed.
Lemma addExtra_R e c r k s s' : addExtra e c r k s = Ok s' -> R s s'.
Proof.
  unfold addExtra. cbv zeta. unfold rfor_to. apply loop_R. intros j a b E. apply rbind_inv in E as (x & _ & E). destruct (INTRA_FRAME <? sel j x); [|injection E as <-; apply R_refl]. destruct c; [discriminate|].
  do 4 (apply rbind_inv in E as (? & _ & E)). destruct (sNum a =? 0); [exact (push1_R _ _ _ _ E)|injection E as <-; apply R_refl].
Qed.
Lemma extraLoop_R n : forall e c pass m i s s', extraLoop n e c pass m i s = Ok s' -> R s s'.
Proof.
  induction n as [|n IH]; intros e c pass m i s s' H; cbn [extraLoop] in H; (destruct ((i <? m) && (sNum s <? 2)); [|injection H as <-; apply R_refl]); [discriminate|]. cbv zeta in H.
  match type of H with (if ?b then _ else _) = _ => destruct b end; [injection H as <-; apply R_refl|]. apply rbind_inv in H as (s1 & E & H). do 2 (apply rbind_inv in H as (? & _ & H)).
  eapply R_trans; [exact (addExtra_R _ _ _ _ _ _ E)|exact (IH _ _ _ _ _ _ _ H)].
Qed.
Lemma extraSearch_R e c s s' : extraSearch e c s = Ok s' -> c = false /\ R s s'.
Proof.
  intros H. unfold extraSearch in H. do 2 (apply rbind_inv in H as (? & _ & H)). cbv zeta in H. apply rbind_inv in H as (s1 & E & H). destruct c; [discriminate|]. split; [reflexivity|].
  apply (R_trans _ s1); [unfold rfor_to in E; revert E; apply loop_R; intros; eapply extraLoop_R; eassumption|].
  unfold rfor_to in H. revert H. apply loop_R. intros j a b E'. apply rbind_inv in E' as (old & _ & E'). apply rbind_inv in E' as (st & Eu & E'). injection E' as <-. apply upd_len in Eu. split; cbn; try reflexivity; auto; lia.
Qed.

(** ** Termination *)
Lemma num4_pos l k v : (l = NUM_4X4_BLOCKS_WIDE \/ l = NUM_4X4_BLOCKS_HIGH) -> idx l k = Ok v -> 1 <= v <= 32.
Proof.
  intros HL. assert (F : Forall (fun v => 1 <= v <= 32) l) by (destruct HL as [-> | ->]; unfold NUM_4X4_BLOCKS_WIDE, NUM_4X4_BLOCKS_HIGH; repeat constructor; lia).
  intros H. exact (idx_Forall _ _ _ _ F H).
Qed.
Lemma Min_min a b : Min a b = Z.min a b. Proof. unfold Min. repeat match goal with |- context [?x <? ?y] => destruct (Z.ltb_spec x y) | |- context [?x <=? ?y] => destruct (Z.leb_spec x y) end; lia. Qed.
Lemma Max_max a b : Max a b = Z.max a b. Proof. unfold Max. repeat match goal with |- context [?x <? ?y] => destruct (Z.ltb_spec x y) | |- context [?x <=? ?y] => destruct (Z.leb_spec x y) end; lia. Qed.
Lemma findMv_nh n : forall i m st, findMv n i m st <> Hang.
Proof. induction n; intros; cbn [findMv]; [discriminate|]. apply rbind_nh; [apply idx_nh|]. intro. destruct (mv_eqb m (fst a)); [discriminate|apply IHn]. Qed.
Lemma findMv2_nh n : forall i m st, findMv2 n i m st <> Hang.
Proof. induction n; intros; cbn [findMv2]; [discriminate|]. apply rbind_nh; [apply idx_nh|]. intro. match goal with |- (if ?b then _ else _) <> _ => destruct b end; [discriminate|apply IHn]. Qed.
Ltac nhv := repeat first [discriminate | apply idx_nh | apply upd_nh | apply idx2_nh | apply idx3_nh | apply findMv_nh | apply findMv2_nh | (apply rbind_nh; [|intro; cbv zeta]) | (unfold rfor_to; apply rfor_from_nh; intros)
  | match goal with |- (if ?b then _ else _) <> Hang => destruct b | |- match ?b with Some _ => _ | None => _ end <> Hang => destruct b end].
Lemma addWeight_nh i w s : addWeight i w s <> Hang. Proof. unfold addWeight. nhv. Qed.
Lemma push1_nh m w s : push1 m w s <> Hang. Proof. unfold push1. nhv. Qed.
Lemma push2_nh m w s : push2 m w s <> Hang. Proof. unfold push2. nhv. Qed.
Lemma searchStack_nh e r c l w s : searchStack e r c l w s <> Hang. Proof. unfold searchStack. nhv; first [apply addWeight_nh | apply push1_nh]. Qed.
Lemma compoundSearch_nh e r c w s : compoundSearch e r c w s <> Hang. Proof. unfold compoundSearch. nhv; first [apply addWeight_nh | apply push2_nh]. Qed.
Lemma addRefMv_nh e c r k w s : addRefMv e c r k w s <> Hang. Proof. unfold addRefMv. nhv; first [apply searchStack_nh | apply compoundSearch_nh]. Qed.
Lemma scanLoop_nh n : forall e c along row col b4 end4 far s16 i s, 1 <= b4 -> end4 - i <= Z.of_nat n -> scanLoop n e c along row col b4 end4 far s16 i s <> Hang.
Proof.
  induction n as [|n IH]; intros e c along row col b4 end4 far s16 i s Hb Hn; cbn [scanLoop]; destruct (Z.ltb_spec i end4); try discriminate; [lia|]. cbv zeta.
  match goal with |- (if ?b then _ else _) <> _ => destruct b end; [discriminate|]. apply rbind_nh; [apply idx2_nh|intro sz].
  match goal with |- context [idx ?t sz] => destruct (idx t sz) as [l| |] eqn:E end; cbn [rbind]; [|discriminate|exfalso; revert E; apply idx_nh].
  assert (1 <= l) by (eapply num4_pos; [|exact E]; destruct along; auto). apply rbind_nh; [apply addRefMv_nh|intro s1]. apply IH; [exact Hb|].
  rewrite !Max_max, Min_min. destruct far, s16; lia.
Qed.
Lemma scanRow_nh e c d s : scanRow e c d s <> Hang.
Proof.
  unfold scanRow. destruct (idx NUM_4X4_BLOCKS_WIDE (vMiSize e)) as [b| |] eqn:E; cbn [rbind]; [|discriminate|exfalso; revert E; apply idx_nh]. cbv zeta. apply num4_pos in E; [|auto]. apply scanLoop_nh; lia.
Qed.
Lemma scanCol_nh e c d s : scanCol e c d s <> Hang.
Proof.
  unfold scanCol. destruct (idx NUM_4X4_BLOCKS_HIGH (vMiSize e)) as [b| |] eqn:E; cbn [rbind]; [|discriminate|exfalso; revert E; apply idx_nh]. cbv zeta. apply num4_pos in E; [|auto]. apply scanLoop_nh; lia.
Qed.
Lemma scanPoint_nh e c d d' s : scanPoint e c d d' s <> Hang. Proof. unfold scanPoint. cbv zeta. nhv; apply addRefMv_nh. Qed.
Lemma temporalSample_nh e c dr dc s : temporalSample e c dr dc s <> Hang. Proof. unfold temporalSample. cbv zeta. nhv; first [apply addWeight_nh | apply push1_nh | apply push2_nh]. Qed.
Lemma temporalScan_nh e c s : temporalScan e c s <> Hang.
Proof.
  unfold temporalScan. apply rbind_nh; [apply idx_nh|intro]. apply rbind_nh; [apply idx_nh|intro]. cbv zeta. apply rfor_by_nh; [destruct (16 <=? a0); lia|]. intros. apply rfor_by_nh; [destruct (16 <=? a); lia|]. intros. apply temporalSample_nh.
Qed.
Lemma bonus_nh n s : bonus n s <> Hang. Proof. unfold bonus. nhv; apply addWeight_nh. Qed.
Lemma sorting_nh a b c s : 0 <= a -> sorting a b c s <> Hang.
Proof. intros H. unfold sorting. apply rbind_nh; [apply sortLoop_nh; lia|discriminate]. Qed.
Lemma addExtra_nh e c r k s : addExtra e c r k s <> Hang. Proof. unfold addExtra. cbv zeta. nhv; apply push1_nh. Qed.
Lemma extraLoop_nh n : forall e c pass m i s, m - i <= Z.of_nat n -> extraLoop n e c pass m i s <> Hang.
Proof.
  induction n as [|n IH]; intros e c pass m i s Hn; cbn [extraLoop]; destruct (Z.ltb_spec i m); cbn [andb]; try discriminate; destruct (sNum s <? 2); try discriminate; [lia|]. cbv zeta.
  match goal with |- (if ?b then _ else _) <> _ => destruct b end; [discriminate|]. apply rbind_nh; [apply addExtra_nh|intro s1]. apply rbind_nh; [apply idx2_nh|intro sz].
  match goal with |- context [idx ?t sz] => destruct (idx t sz) as [l| |] eqn:E end; cbn [rbind]; [|discriminate|exfalso; revert E; apply idx_nh].
  assert (1 <= l) by (eapply num4_pos; [|exact E]; destruct (pass =? 0); auto). apply IH. lia.
Qed.
Lemma extraSearch_nh e c s : extraSearch e c s <> Hang.
Proof.
  unfold extraSearch. apply rbind_nh; [apply idx_nh|intro]. apply rbind_nh; [apply idx_nh|intro]. cbv zeta. apply rbind_nh; [unfold rfor_to; apply rfor_from_nh; intros; apply extraLoop_nh; lia|intro s1]. nhv.
Qed.
Lemma Round2_nh x n : Round2 x n <> Hang. Proof. unfold Round2. nhv. Qed.
Lemma Round2Signed_nh x n : Round2Signed x n <> Hang. Proof. unfold Round2Signed. nhv; apply Round2_nh. Qed.
Lemma setupGlobalMv_nh e l : setupGlobalMv e l <> Hang. Proof. unfold setupGlobalMv. cbv zeta. nhv; apply Round2Signed_nh. Qed.
Lemma context_nh e c n s : contextAndClamping e c n s <> Hang.
Proof.
  unfold contextAndClamping. apply rbind_nh; [apply idx_nh|intro bw]. apply rbind_nh; [apply idx_nh|intro bh]. apply rbind_nh; [nhv|intro drl]. apply rbind_nh.
  - unfold rfor_to. apply rfor_from_nh. intros. apply rfor_from_nh. intros. unfold clampMv, clampMvRow, clampMvCol. nhv.
  - intro st. match goal with |- (let '(_, _) := ?x in _) <> _ => destruct x end. discriminate.
Qed.
Lemma mvInit_nh e c s : mvInit e c s <> Hang. Proof. unfold mvInit. apply rbind_nh; [apply setupGlobalMv_nh|intro]. apply rbind_nh; [destruct c; [apply setupGlobalMv_nh|discriminate]|discriminate]. Qed.
