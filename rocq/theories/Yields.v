(** [yields m P]: whenever m returns, the value satisfies P. *)
From Verif Require Import GoBase Bitstream SpecBits SpecStream BitstreamProofs ReaderOps.

Definition yields {A} (m : BS A) (P : A -> Prop) : Prop :=
  forall s a s', 0 <= Position s -> m s = Ok (a, s') -> 0 <= Position s' /\ P a.

Lemma y_ret {A} (a : A) (P : A -> Prop) : P a -> yields (ret a) P.
Proof. intros H s b s' H0 [= <- <-]. auto. Qed.
Lemma y_panic {A} (P : A -> Prop) : yields panic P.
Proof. intros s b s' H0 E. discriminate. Qed.
Lemma y_bind {A B} (m : BS A) (k : A -> BS B) (Q : A -> Prop) (P : B -> Prop) :
  yields m Q -> (forall a, Q a -> yields (k a) P) -> yields (bind m k) P.
Proof.
  intros Hm Hk s b s' H0 E. apply bind_inv in E. destruct E as (a & s1 & E1 & E2).
  destruct (Hm _ _ _ H0 E1) as [H1 Q1]. apply (Hk a Q1 s1 b s' H1 E2).
Qed.
Lemma y_weaken {A} (m : BS A) (Q P : A -> Prop) : yields m Q -> (forall a, Q a -> P a) -> yields m P.
Proof. intros H HQ s a s' H0 E. destruct (H _ _ _ H0 E). auto. Qed.
Lemma y_forward {A} (m : BS A) : forward m -> yields m (fun _ => True).
Proof. intros H s a s' H0 E. destruct (H _ _ _ H0 E) as (_ & ? & _). split; [lia|exact I]. Qed.
Lemma y_F n : 0 <= n <= 63 -> yields (F n) (fun v => 0 <= v < 2 ^ n).
Proof.
  intros Hn s a s' H0 E. destruct (F_total n s H0 Hn) as [(l & r & Hr & Hl & E2)|[_ E2]]; rewrite E2 in E; [|discriminate].
  injection E as <- <-. split; [cbn; lia|]. rewrite <- Hl. apply be_nonneg.
Qed.
Lemma y_Fbool : yields Fbool (fun _ => True).
Proof. apply y_forward. apply fw_Fbool. Qed.
Lemma y_Uvlc : yields Uvlc (fun _ => True).
Proof. apply y_forward. apply (fw_call RUvlc). Qed.
Lemma y_Su n : 1 <= n <= 62 -> yields (Su n) (fun v => - 2 ^ (n - 1) <= v < 2 ^ (n - 1)).
Proof.
  intros Hn s a s' H0 E. destruct (Su_inv s n a s' H0 Hn E) as (A & B & _). subst s'. split; [cbn; lia|exact A].
Qed.
Lemma y_Ns n : 0 < n < 2 ^ 62 -> yields (Ns n) (fun v => 0 <= v < n).
Proof.
  intros Hn s a s' H0 E. destruct (Ns_inv s n a s' H0 Hn E) as (A & k & -> & Hk & _).
  pose proof (Z.log2_nonneg n). split; [cbn; lia|exact A].
Qed.
Lemma y_lift {A} (r : res A) (P : A -> Prop) : (forall a, r = Ok a -> P a) -> yields (lift r) P.
Proof. intros H s a s' H0 E. destruct r; try discriminate. injection E as <- <-. auto. Qed.
Lemma y_get (P : bs -> Prop) : (forall s, 0 <= Position s -> P s) -> yields get P.
Proof. intros H s a s' H0 [= <- <-]. auto. Qed.
Lemma y_if {A} (b : bool) (m k : BS A) (P : A -> Prop) : (b = true -> yields m P) -> (b = false -> yields k P) -> yields (if b then m else k) P.
Proof. destruct b; auto. Qed.
Lemma y_for {A} (P : Z -> A -> Prop) n : forall i (body : Z -> A -> BS A) acc,
  P i acc -> (forall j a, i <= j < i + Z.of_nat n -> P j a -> yields (body j a) (P (j + 1))) ->
  yields (for_from n i body acc) (P (i + Z.of_nat n)).
Proof.
  induction n as [|n IH]; intros i body acc H0 Hb.
  - apply y_ret. replace (i + Z.of_nat 0) with i by lia. exact H0.
  - rewrite for_from_S. eapply y_bind; [apply Hb; [lia|exact H0]|].
    intros a Ha. replace (i + Z.of_nat (S n)) with (i + 1 + Z.of_nat n) by lia. apply IH; [exact Ha|].
    intros j x Hj. apply Hb. lia.
Qed.
Lemma y_for_to {A} (P : Z -> A -> Prop) lo hi (body : Z -> A -> BS A) acc :
  P lo acc -> (forall j a, lo <= j -> j < hi -> P j a -> yields (body j a) (P (j + 1))) ->
  yields (for_to lo hi body acc) (P (Z.max lo hi)).
Proof.
  intros H0 Hb. unfold for_to. replace (Z.max lo hi) with (lo + Z.of_nat (Z.to_nat (hi - lo))) by lia.
  apply y_for; [exact H0|]. intros j a Hj. apply Hb; lia.
Qed.

Ltac yb := eapply y_bind; [first [apply y_F; lia | apply y_Fbool | apply y_Uvlc | apply y_Su; lia]|intros ? ?]; cbv beta in *.
