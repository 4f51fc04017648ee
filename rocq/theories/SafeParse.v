(** [safe m]: whatever the bits are, m returns or panics but never loops; when it returns it has only
    moved forward inside the data and has not written to the data. *)
From Verif Require Import GoBase Bitstream SpecBits SpecStream BitstreamProofs ReaderOps.

Definition safe {A} (m : BS A) : Prop :=
  forall s, 0 <= Position s ->
    match m s with
    | Ok (_, s') => Data s' = Data s /\ Position s <= Position s' /\
                    (Position s <= 8 * zlen (Data s) -> Position s' <= 8 * zlen (Data s))
    | Panic => True
    | Hang => False
    end.

Lemma safe_ret {A} (a : A) : safe (ret a).
Proof. intros s H. cbn. repeat split; auto; lia. Qed.
Lemma safe_panic {A} : safe (@panic bs A).
Proof. intros s H. exact I. Qed.
Lemma safe_lift {A} (r : res A) : r <> Hang -> safe (lift r).
Proof. intros Hr s H. unfold lift. destruct r; [repeat split; auto; lia|exact I|congruence]. Qed.
Lemma safe_get : safe get.
Proof. intros s H. cbn. repeat split; auto; lia. Qed.
Lemma safe_bind {A B} (m : BS A) (k : A -> BS B) : safe m -> (forall a, safe (k a)) -> safe (bind m k).
Proof.
  intros Hm Hk s H. unfold bind. specialize (Hm s H). destruct (m s) as [[a s1]| |]; auto.
  destruct Hm as (D & P & Q). specialize (Hk a s1 ltac:(lia)). destruct (k a s1) as [[b s2]| |]; auto.
  destruct Hk as (D2 & P2 & Q2). rewrite D in *. repeat split; auto; try lia.
Qed.
(** bind where the continuation may use what m can return *)
Lemma safe_bind_post {A B} (P : A -> Prop) (m : BS A) (k : A -> BS B) : safe m ->
  (forall s a s', 0 <= Position s -> m s = Ok (a, s') -> P a) -> (forall a, P a -> safe (k a)) -> safe (bind m k).
Proof.
  intros Hm HP Hk s H. unfold bind. specialize (Hm s H). destruct (m s) as [[a s1]| |] eqn:E; auto.
  destruct Hm as (D & P1 & Q). specialize (Hk a (HP _ _ _ H E) s1 ltac:(lia)). destruct (k a s1) as [[b s2]| |]; auto.
  destruct Hk as (D2 & P2 & Q2). rewrite D in *. repeat split; auto; try lia.
Qed.
Lemma safe_if {A} (b : bool) (m k : BS A) : safe m -> safe k -> safe (if b then m else k).
Proof. destruct b; auto. Qed.

Lemma F_loop_no_hang n : forall x s, 0 <= Position s -> F_loop n x s <> Hang.
Proof.
  induction n as [|n IH]; intros x s H; [discriminate|]. cbn [F_loop].
  destruct (rest s) as [|b l] eqn:Er.
  - unfold bind. rewrite readBit_panic by assumption. discriminate.
  - rewrite (bind_ok _ _ _ _ _ (readBit_ok s b l H Er)). unfold bind, modify. apply IH. cbn. lia.
Qed.
Lemma safe_of {A} (m : BS A) : forward m -> (forall s, 0 <= Position s -> m s <> Hang) -> safe m.
Proof.
  intros Hf Hh s H. specialize (Hh s H). specialize (Hf s).
  destruct (m s) as [[a s']| |]; [|exact I|congruence]. apply (Hf a s' H eq_refl).
Qed.
Lemma safe_F n : safe (F n).
Proof. apply safe_of; [apply fw_F|]. intros. apply F_loop_no_hang. assumption. Qed.
Lemma safe_Fbool : safe Fbool.
Proof. apply safe_bind; [apply safe_F|intros; apply safe_ret]. Qed.
Lemma safe_Uvlc : safe Uvlc.
Proof. apply safe_of; [apply (fw_call RUvlc)|]. apply Uvlc_never_hangs. Qed.
Lemma safe_Leb128 : safe Leb128.
Proof.
  apply safe_of; [apply (fw_call RLeb128)|]. intros s H. unfold Leb128, bind, modify.
  assert (G : forall n i v s, 0 <= Position s -> Leb128_loop n i v s <> Hang).
  { induction n as [|n IH]; intros i v t Ht; [discriminate|]. cbn [Leb128_loop].
    unfold bind. pose proof (safe_F 8 t Ht) as HF. destruct (F 8 t) as [[x t']| |]; try discriminate; [|contradiction].
    unfold modify. destruct (negb _); [discriminate|]. apply IH. cbn. lia. }
  apply G. cbn. exact H.
Qed.
Lemma safe_Su n : safe (Su n).
Proof. apply safe_bind; [apply safe_F|intros; apply safe_ret]. Qed.
Lemma safe_Ns n : 0 <= n < 2 ^ 63 -> safe (Ns n).
Proof.
  intros Hn. apply safe_bind.
  - apply safe_lift. destruct (Z.eq_dec n 0) as [->|]; [rewrite FloorLog2_0; discriminate|].
    rewrite FloorLog2_pos by lia. discriminate.
  - intros l. apply safe_bind; [apply safe_F|]. intros v. apply safe_if; [apply safe_ret|].
    apply safe_bind; [apply safe_F|intros; apply safe_ret].
Qed.
Lemma safe_Le n : safe (Le n).
Proof.
  unfold Le. generalize 0 at 1 2. generalize (Z.to_nat n). intros k. 
  assert (G : forall k i t, safe (Le_loop k i t)); [|intros; apply G].
  induction k0 as [|k0 IH]; intros i t; [apply safe_ret|]. cbn [Le_loop].
  apply safe_bind; [apply safe_F|intros; apply IH].
Qed.
Lemma safe_TrailingBits n : safe (TrailingBits n).
Proof.
  unfold TrailingBits. apply safe_bind; [apply safe_F|]. intros _. generalize (Z.to_nat (n - 1)).
  induction n0 as [|k IH]; [apply safe_ret|]. cbn [TrailingBits_loop]. apply safe_bind; [apply safe_F|intros; exact IH].
Qed.
Lemma safe_for {A} (I : Z -> Prop) n : forall i (body : Z -> A -> BS A) acc,
  (forall j a, i <= j < i + Z.of_nat n -> safe (body j a)) -> safe (for_from n i body acc).
Proof.
  induction n as [|n IH]; intros i body acc H; [apply safe_ret|]. rewrite for_from_S.
  apply safe_bind; [apply H; lia|]. intros a. apply IH. intros j x Hj. apply H. lia.
Qed.
Lemma safe_for_to {A} lo hi (body : Z -> A -> BS A) acc :
  (forall j a, lo <= j -> j < hi -> safe (body j a)) -> safe (for_to lo hi body acc).
Proof. intros H. apply (safe_for (fun _ => True)). intros j a Hj. apply H; lia. Qed.
Lemma upd_no_hang {A} (l : list A) i v : upd l i v <> Hang.
Proof. unfold upd. destruct (_ || _); discriminate. Qed.
Lemma idx_no_hang {A} (l : list A) i : idx l i <> Hang.
Proof. unfold idx. destruct (i <? 0); [discriminate|]. destruct (nth_error _ _); discriminate. Qed.
Lemma idx2_no_hang {A} (l : list (list A)) i j : idx2 l i j <> Hang.
Proof. unfold idx2. pose proof (idx_no_hang l i). destruct (idx l i); cbn; try congruence. apply idx_no_hang. Qed.
Lemma upd2_no_hang {A} (l : list (list A)) i j v : upd2 l i j v <> Hang.
Proof.
  unfold upd2. pose proof (idx_no_hang l i). destruct (idx l i) as [r| |]; cbn; try congruence.
  pose proof (upd_no_hang r j v). destruct (upd r j v); cbn; try congruence. apply upd_no_hang.
Qed.

(** Structural tactic. *)
Ltac safe1 :=
  first [ apply safe_ret | apply safe_panic | apply safe_F | apply safe_Fbool | apply safe_Uvlc | apply safe_Leb128
        | apply safe_Su | apply safe_Le | apply safe_TrailingBits | apply safe_get
        | apply safe_lift; first [apply upd_no_hang | apply idx_no_hang | apply idx2_no_hang | apply upd2_no_hang | discriminate]
        | apply safe_bind; [|intros ?]
        | apply safe_if
        | apply safe_for_to; intros
        | match goal with |- safe (match ?x with _ => _ end) => destruct x end
        | match goal with |- safe (let '(_) := ?x in _) => destruct x end ].
Ltac safet := repeat safe1.
