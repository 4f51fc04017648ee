(** Histories of calls to the exported readers of internal/bitstream/bitstream.go. *)
From Verif Require Import GoBase Bitstream SpecBits SpecStream BitstreamProofs.

(** One call, with its argument (bitstream.go:23-131). *)
Inductive reader : Type :=
| RF (n : Z) | RUvlc | RLeb128 | RTrailing (n : Z) | RAlign | RSu (n : Z) | RNs (n : Z) | RLe (n : Z).

Definition call (r : reader) : BS Z :=
  match r with
  | RF n => F n
  | RUvlc => Uvlc
  | RLeb128 => Leb128
  | RTrailing n => TrailingBits n ;; ret 0
  | RAlign => ByteAlignment ;; ret 0
  | RSu n => Su n
  | RNs n => Ns n
  | RLe n => Le n
  end.

Fixpoint calls (l : list reader) : BS (list Z) :=
  match l with
  | [] => ret []
  | r :: t => let* v := call r in let* vs := calls t in ret (v :: vs)
  end.

(** A computation that, whenever it returns, has only moved forward inside the data. *)
Definition forward {A} (m : BS A) : Prop :=
  forall s a s', 0 <= Position s -> m s = Ok (a, s') ->
    Data s' = Data s /\ Position s <= Position s' /\
    (Position s <= 8 * zlen (Data s) -> Position s' <= 8 * zlen (Data s)).

Lemma fw_ret {A} (a : A) : forward (ret a).
Proof. intros s x s' H0 [= <- <-]. repeat split; auto; lia. Qed.

Lemma fw_bind {A B} (m : BS A) (k : A -> BS B) : forward m -> (forall a, forward (k a)) -> forward (bind m k).
Proof.
  intros Hm Hk s b s' H0 E. apply bind_inv in E. destruct E as (a & s1 & E1 & E2).
  destruct (Hm _ _ _ H0 E1) as (D1 & P1 & Q1).
  destruct (Hk a s1 b s' ltac:(lia) E2) as (D2 & P2 & Q2).
  rewrite D1 in D2, Q2. repeat split; auto; try lia.
Qed.

Lemma fw_lift {A} (r : res A) : forward (lift r).
Proof. intros s a s' H0 E. destruct r; try discriminate. injection E as <- <-. repeat split; auto; lia. Qed.

Lemma fw_leb (f : bs -> bs) : (forall s, Data (f s) = Data s /\ Position (f s) = Position s) -> forward (modify f).
Proof. intros Hf s a s' H0 [= <- <-]. destruct (Hf s) as [-> ->]. repeat split; auto; lia. Qed.

Lemma fw_get : forward get.
Proof. intros s a s' H0 [= <- <-]. repeat split; auto; lia. Qed.

Lemma fw_hang {A} : forward (@hang bs A).
Proof. intros s a s' H0 E. discriminate. Qed.

Lemma fw_if {A} (b : bool) (m k : BS A) : forward m -> forward k -> forward (if b then m else k).
Proof. destruct b; auto. Qed.

Lemma fw_F_loop n : forall x, forward (F_loop n x).
Proof.
  induction n as [|n IH]; intros x; [apply fw_ret|].
  intros s a s' H0 E. cbn [F_loop] in E. apply bind_inv in E. destruct E as (b & s1 & E1 & E2).
  destruct (rest s) as [|b0 l] eqn:Er.
  - rewrite readBit_panic in E1 by assumption. discriminate.
  - rewrite (readBit_ok s b0 l H0 Er) in E1. injection E1 as <- <-.
    unfold bind at 1 in E2. unfold modify in E2. fold (adv s 1) in E2.
    assert (Hlt : Position s < 8 * zlen (Data s)).
    { pose proof (length_rest s H0) as HL. rewrite Er in HL. cbn [length] in HL. lia. }
    destruct (IH _ (adv s 1) a s' ltac:(cbn; lia) E2) as (D & P & Q).
    cbn in D, P, Q. repeat split; [exact D|lia|]. intros _. apply Q. lia.
Qed.

Lemma fw_F n : forward (F n). Proof. apply fw_F_loop. Qed.
Lemma fw_Fbool : forward Fbool. Proof. apply fw_bind; [apply fw_F|intros; apply fw_ret]. Qed.

Lemma fw_call r : forward (call r).
Proof.
  destruct r as [n| | |n| |n|n|n]; cbn [call].
  - apply fw_F.
  - unfold Uvlc. apply fw_bind; [apply fw_get|]. intros s0. apply fw_bind.
    + generalize 0, (S (bits_left s0)). intros z fuel. revert z. induction fuel as [|f IH]; intros z; [apply fw_hang|].
      cbn [Uvlc_zeros]. apply fw_bind; [apply fw_Fbool|]. intros b. apply fw_if; [apply fw_ret|apply IH].
    + intros lz. apply fw_if; [apply fw_ret|]. apply fw_bind; [apply fw_F|intros; apply fw_ret].
  - unfold Leb128. apply fw_bind; [apply fw_leb; intros; split; reflexivity|]. intros _.
    assert (G : forall fuel i value, forward (Leb128_loop fuel i value)); [|apply G].
    induction fuel as [|f IH]; intros i value; [apply fw_ret|].
    cbn [Leb128_loop]. apply fw_bind; [apply fw_F|]. intros x. apply fw_bind; [apply fw_leb; intros; split; reflexivity|].
    intros _. apply fw_if; [apply fw_ret|apply IH].
  - apply fw_bind; [|intros; apply fw_ret]. unfold TrailingBits. apply fw_bind; [apply fw_F|]. intros _.
    induction (Z.to_nat (n - 1)) as [|k IH]; [apply fw_ret|]. cbn [TrailingBits_loop].
    apply fw_bind; [apply fw_F|intros _; exact IH].
  - apply fw_bind; [|intros; apply fw_ret]. unfold ByteAlignment. generalize 9%nat. intros fuel.
    induction fuel as [|f IH]; [apply fw_hang|]. cbn [ByteAlignment_loop]. apply fw_bind; [apply fw_get|].
    intros s. apply fw_if; [apply fw_bind; [apply fw_F|intros _; exact IH]|apply fw_ret].
  - unfold Su. apply fw_bind; [apply fw_F|intros; apply fw_ret].
  - unfold Ns. apply fw_bind; [apply fw_lift|]. intros l. apply fw_bind; [apply fw_F|]. intros v.
    apply fw_if; [apply fw_ret|]. apply fw_bind; [apply fw_F|intros; apply fw_ret].
  - unfold Le. assert (G : forall k i t, forward (Le_loop k i t)); [|apply G].
    induction k as [|k IH]; intros i t; [apply fw_ret|].
    cbn [Le_loop]. apply fw_bind; [apply fw_F|]. intros b. apply IH.
Qed.

Lemma fw_calls l : forward (calls l).
Proof.
  induction l as [|r t IH]; [apply fw_ret|]. cbn [calls].
  apply fw_bind; [apply fw_call|]. intros v. apply fw_bind; [exact IH|]. intros; apply fw_ret.
Qed.
