(** [parses m l a]: wherever the unread bits begin with l, m returns a and consumes exactly l. *)
From Verif Require Import GoBase Bitstream SpecBits SpecStream BitstreamProofs.

Definition parses {A} (m : BS A) (l : list bool) (a : A) : Prop :=
  forall s, starts s l -> m s = Ok (a, adv s (Z.of_nat (length l))).

Lemma parses_ret {A} (a : A) : parses (ret a) [] a.
Proof. intros s _. cbn. unfold ret. rewrite adv_0. reflexivity. Qed.

Lemma parses_bind {A B} (m : BS A) (k : A -> BS B) l1 l2 a b :
  parses m l1 a -> parses (k a) l2 b -> parses (bind m k) (l1 ++ l2) b.
Proof.
  intros Hm Hk s H. destruct (starts_app _ _ _ H) as [H1 H2].
  rewrite (bind_ok _ _ _ _ _ (Hm s H1)). rewrite (Hk _ H2). rewrite adv_adv, app_length.
  okeq.
Qed.

Lemma parses_bind0 {A B} (m : BS A) (k : A -> BS B) l a b :
  parses m [] a -> parses (k a) l b -> parses (bind m k) l b.
Proof. intros Hm Hk. apply (parses_bind m k [] l a b Hm Hk). Qed.

Lemma parses_bind_end {A B} (m : BS A) (k : A -> BS B) l a b :
  parses m l a -> parses (k a) [] b -> parses (bind m k) l b.
Proof. intros Hm Hk. rewrite <- (app_nil_r l). eapply parses_bind; eauto. Qed.

Lemma parses_F n m v : Z.of_nat n = m -> 0 <= v < 2 ^ m -> m <= 63 -> parses (F m) (enc_f n v) v.
Proof.
  intros <- Hv Hn s H. rewrite (F_enc n s v H Hv) by lia. rewrite length_enc_f. reflexivity.
Qed.

Lemma parses_Fbool b : parses Fbool [b] b.
Proof. intros s H. apply Fbool_bit. exact H. Qed.

Lemma parses_F1 b : parses (F 1) [b] (b2z b).
Proof. intros s H. apply F1_bit. exact H. Qed.

Lemma parses_Uvlc v : 0 <= v < 2 ^ 32 - 1 -> parses Uvlc (enc_uvlc v) v.
Proof. intros Hv s H. apply Uvlc_enc; assumption. Qed.

Lemma parses_Su n v : (1 <= n <= 62)%nat -> - 2 ^ (Z.of_nat n - 1) <= v < 2 ^ (Z.of_nat n - 1) ->
  parses (Su (Z.of_nat n)) (enc_su n v) v.
Proof.
  intros Hn Hv s H. rewrite (Su_enc s n v Hn Hv H). unfold enc_su. rewrite length_enc_f. reflexivity.
Qed.

Lemma parses_Ns n v : 0 < n < 2 ^ 62 -> 0 <= v < n -> parses (Ns n) (enc_ns n v) v.
Proof. intros Hn Hv s H. apply Ns_enc; assumption. Qed.

Lemma parses_lift {A} (r : res A) a : r = Ok a -> parses (lift r) [] a.
Proof. intros -> s _. unfold lift. cbn. rewrite adv_0. reflexivity. Qed.

Lemma parses_eq {A} (m : BS A) l l' a : l = l' -> parses m l a -> parses m l' a.
Proof. intros ->; auto. Qed.

(** Step tactics: read one flag, one f(n) field, finish. *)
Ltac pbit := refine (parses_bind _ _ [_] _ _ _ (parses_Fbool _) _); cbv beta.
Ltac pf := eapply parses_bind; [apply parses_F; [reflexivity|first [assumption|lia]|lia]|]; cbv beta.
