(** Shared base of the model: Go results, panics, loops, slices, 64-bit integers.
    Nothing here is specific to gov1; the semantics modelled is that of the Go
    language as used by /repo (int is 64 bits wide on the platforms gov1 targets). *)
From Coq Require Export ZArith List Bool Lia.
Export ListNotations.
Open Scope Z_scope.
#[global] Arguments Z.add : simpl never.
#[global] Arguments Z.sub : simpl never.
#[global] Arguments Z.mul : simpl never.
#[global] Arguments Z.opp : simpl never.
#[global] Arguments Z.pow : simpl never.
#[global] Arguments Z.div : simpl never.
#[global] Arguments Z.modulo : simpl never.
#[global] Arguments Z.quot : simpl never.
#[global] Arguments Z.of_nat : simpl never.
#[global] Arguments Z.to_nat : simpl never.
#[global] Arguments Z.max : simpl never.
#[global] Arguments Z.min : simpl never.
#[global] Arguments Z.shiftl : simpl never.
#[global] Arguments Z.shiftr : simpl never.
#[global] Arguments Z.land : simpl never.
#[global] Arguments Z.lor : simpl never.

(** Outcome of running Go code: it returns, it panics, or it does not return
    (an unbounded loop was cut by its fuel; theorems always say that this
    does or does not happen).  No code in /repo calls recover(), so the state
    left behind by a panic is never observed and is not represented. *)
Inductive res (A : Type) : Type :=
| Ok (a : A)
| Panic
| Hang.
Arguments Ok {A} a.
Arguments Panic {A}.
Arguments Hang {A}.

Definition rbind {A B} (m : res A) (k : A -> res B) : res B :=
  match m with Ok a => k a | Panic => Panic | Hang => Hang end.

(** Code that reads and writes a state [S] (a pointer receiver or pointer argument). *)
Definition M (S A : Type) : Type := S -> res (A * S).
Definition ret {S A} (a : A) : M S A := fun s => Ok (a, s).
Definition bind {S A B} (m : M S A) (k : A -> M S B) : M S B :=
  fun s => match m s with Ok (a, s') => k a s' | Panic => Panic | Hang => Hang end.
Definition panic {S A} : M S A := fun _ => Panic.
Definition hang {S A} : M S A := fun _ => Hang.
Definition lift {S A} (r : res A) : M S A :=
  fun s => match r with Ok a => Ok (a, s) | Panic => Panic | Hang => Hang end.
Definition get {S} : M S S := fun s => Ok (s, s).
Definition put {S} (s : S) : M S unit := fun _ => Ok (tt, s).
Definition modify {S} (f : S -> S) : M S unit := fun s => Ok (tt, f s).

Notation "'let*' x ':=' m 'in' k" := (bind m (fun x => k))
  (at level 200, x name, m at level 100, k at level 200, right associativity).
Notation "'let*' ' x ':=' m 'in' k" := (bind m (fun x => k))
  (at level 200, x pattern, m at level 100, k at level 200, right associativity).
Notation "m ';;' k" := (bind m (fun _ => k)) (at level 199, right associativity).
Notation "'let!' x ':=' m 'in' k" := (rbind m (fun x => k))
  (at level 200, x name, m at level 100, k at level 200, right associativity).

(** [for i := lo; i < lo+n; i++ { acc = body(i, acc) }] *)
Fixpoint for_from {S A} (n : nat) (i : Z) (body : Z -> A -> M S A) (acc : A) : M S A :=
  match n with
  | O => ret acc
  | Datatypes.S n' => let* acc' := body i acc in for_from n' (i + 1) body acc'
  end.
Definition for_to {S A} (lo hi : Z) (body : Z -> A -> M S A) (acc : A) : M S A :=
  for_from (Z.to_nat (hi - lo)) lo body acc.

(** The same loop in code without state, only panics. *)
Fixpoint rfor_from {A} (n : nat) (i : Z) (body : Z -> A -> res A) (acc : A) : res A :=
  match n with
  | O => Ok acc
  | Datatypes.S n' => let! acc' := body i acc in rfor_from n' (i + 1) body acc'
  end.
Definition rfor_to {A} (lo hi : Z) (body : Z -> A -> res A) (acc : A) : res A :=
  rfor_from (Z.to_nat (hi - lo)) lo body acc.

(** The same loop in code that cannot panic. *)
Fixpoint pfor_from {A} (n : nat) (i : Z) (body : Z -> A -> A) (acc : A) : A :=
  match n with
  | O => acc
  | Datatypes.S n' => pfor_from n' (i + 1) body (body i acc)
  end.
Definition pfor_to {A} (lo hi : Z) (body : Z -> A -> A) (acc : A) : A :=
  pfor_from (Z.to_nat (hi - lo)) lo body acc.

(** Slices and arrays: lists; an index outside 0..len-1 panics. *)
Definition zlen {A} (l : list A) : Z := Z.of_nat (length l).
Definition idx {A} (l : list A) (i : Z) : res A :=
  if i <? 0 then Panic
  else match nth_error l (Z.to_nat i) with Some a => Ok a | None => Panic end.
Fixpoint upd_nat {A} (l : list A) (i : nat) (v : A) : list A :=
  match l, i with
  | [], _ => []
  | _ :: t, O => v :: t
  | h :: t, Datatypes.S i' => h :: upd_nat t i' v
  end.
Definition upd {A} (l : list A) (i : Z) (v : A) : res (list A) :=
  if (i <? 0) || (zlen l <=? i) then Panic else Ok (upd_nat l (Z.to_nat i) v).

(** Two-dimensional indexing a[i][j]. *)
Definition idx2 {A} (l : list (list A)) (i j : Z) : res A :=
  let! r := idx l i in idx r j.
Definition idx3 {A} (l : list (list (list A))) (i j k : Z) : res A :=
  let! r := idx l i in idx2 r j k.
Definition upd2 {A} (l : list (list A)) (i j : Z) (v : A) : res (list (list A)) :=
  let! r := idx l i in let! r' := upd r j v in upd l i r'.

(** Go's 64-bit int: wrap-around of an exact result. *)
Definition i64 (x : Z) : Z := (x + 2 ^ 63) mod 2 ^ 64 - 2 ^ 63.

(** Go's x << n on int for a non-negative count (a negative count panics, which the
    callers guard explicitly), and x >> n (arithmetic). *)
Definition shl (x n : Z) : Z := i64 (Z.shiftl x n).
Definition shr (x n : Z) : Z := Z.shiftr x n.

Definition bool_of (x : Z) : bool := negb (x =? 0).   (* util.go:160-162 Bool *)
Definition int_of (b : bool) : Z := if b then 1 else 0. (* util.go:164-169 Int *)

(* ------------------------------------------------------------------ *)
(** Facts about this vocabulary. *)

(** Close an equality of results/pairs/records whose leaves are integers. *)
Ltac okeq := first [reflexivity | lia | progress f_equal; okeq].

Lemma i64_id x : - 2 ^ 63 <= x < 2 ^ 63 -> i64 x = x.
Proof. unfold i64; intros H. rewrite Z.mod_small; lia. Qed.

Lemma i64_range x : - 2 ^ 63 <= i64 x < 2 ^ 63.
Proof. unfold i64. pose proof (Z.mod_pos_bound (x + 2 ^ 63) (2 ^ 64)). lia. Qed.

Lemma bind_ok {S A B} (m : M S A) (k : A -> M S B) s a s' :
  m s = Ok (a, s') -> bind m k s = k a s'.
Proof. unfold bind; intros ->; reflexivity. Qed.

Lemma bind_panic {S A B} (m : M S A) (k : A -> M S B) s :
  m s = Panic -> bind m k s = Panic.
Proof. unfold bind; intros ->; reflexivity. Qed.

Lemma bind_inv {S A B} (m : M S A) (k : A -> M S B) s b s'' :
  bind m k s = Ok (b, s'') -> exists a s', m s = Ok (a, s') /\ k a s' = Ok (b, s'').
Proof.
  unfold bind. destruct (m s) as [[a s']| |] eqn:E; intros H; try discriminate.
  exists a, s'; auto.
Qed.

Lemma bind_assoc {S A B C} (m : M S A) (k : A -> M S B) (h : B -> M S C) s :
  bind (bind m k) h s = bind m (fun a => bind (k a) h) s.
Proof. unfold bind. destruct (m s) as [[a s']| |]; reflexivity. Qed.

Lemma zlen_nonneg {A} (l : list A) : 0 <= zlen l.
Proof. unfold zlen; lia. Qed.

Lemma zlen_app {A} (l r : list A) : zlen (l ++ r) = zlen l + zlen r.
Proof. unfold zlen; rewrite app_length; lia. Qed.

Lemma zlen_cons {A} (a : A) l : zlen (a :: l) = zlen l + 1.
Proof. unfold zlen; cbn [length]; lia. Qed.

Lemma idx_ok {A} (l : list A) i d : 0 <= i < zlen l -> idx l i = Ok (nth (Z.to_nat i) l d).
Proof.
  unfold idx, zlen; intros H. destruct (Z.ltb_spec i 0); [lia|].
  rewrite (nth_error_nth' l d) by lia. reflexivity.
Qed.

Lemma idx_panic {A} (l : list A) i : i < 0 \/ zlen l <= i -> idx l i = Panic.
Proof.
  unfold idx, zlen; intros H. destruct (Z.ltb_spec i 0) as [H0|H0]; [reflexivity|].
  assert (E : nth_error l (Z.to_nat i) = None) by (apply nth_error_None; lia).
  rewrite E; reflexivity.
Qed.

Lemma idx_inv {A} (l : list A) i a : idx l i = Ok a -> 0 <= i < zlen l /\ nth_error l (Z.to_nat i) = Some a.
Proof.
  unfold idx, zlen. destruct (Z.ltb_spec i 0) as [H0|H0]; [discriminate|].
  destruct (nth_error l (Z.to_nat i)) eqn:E; [|discriminate]. intros [= ->].
  assert (nth_error l (Z.to_nat i) <> None) as Hn by congruence.
  apply nth_error_Some in Hn. split; [lia|reflexivity].
Qed.

Lemma upd_ok {A} (l : list A) i v : 0 <= i < zlen l -> upd l i v = Ok (upd_nat l (Z.to_nat i) v).
Proof.
  unfold upd; intros H. destruct (Z.ltb_spec i 0); [lia|].
  destruct (Z.leb_spec (zlen l) i); [lia|]. reflexivity.
Qed.

Lemma upd_panic {A} (l : list A) i v : i < 0 \/ zlen l <= i -> upd l i v = Panic.
Proof.
  unfold upd; intros H. destruct (Z.ltb_spec i 0); [reflexivity|].
  destruct (Z.leb_spec (zlen l) i); [reflexivity|lia].
Qed.

Lemma upd_inv {A} (l : list A) i v l' : upd l i v = Ok l' -> 0 <= i < zlen l /\ l' = upd_nat l (Z.to_nat i) v.
Proof.
  unfold upd. destruct (Z.ltb_spec i 0); [discriminate|].
  destruct (Z.leb_spec (zlen l) i); [discriminate|]. cbn. intros [= <-]. split; [lia|reflexivity].
Qed.

Lemma upd_nat_length {A} (l : list A) i v : length (upd_nat l i v) = length l.
Proof. revert i; induction l as [|h t IH]; intros [|i]; cbn; auto. Qed.

Lemma zlen_upd_nat {A} (l : list A) i v : zlen (upd_nat l i v) = zlen l.
Proof. unfold zlen; rewrite upd_nat_length; reflexivity. Qed.

Lemma nth_upd_nat_same {A} (l : list A) i v d : (i < length l)%nat -> nth i (upd_nat l i v) d = v.
Proof. revert i; induction l as [|h t IH]; intros [|i]; cbn; intros; try lia; auto. apply IH; lia. Qed.

Lemma nth_upd_nat_other {A} (l : list A) i j v d : i <> j -> nth j (upd_nat l i v) d = nth j l d.
Proof.
  revert i j; induction l as [|h t IH]; intros [|i] [|j]; cbn; intros; auto; try lia.
Qed.

(** Step lemmas: unfold one iteration of a loop. *)
Lemma for_from_0 {S A} i (body : Z -> A -> M S A) acc s : for_from 0 i body acc s = Ok (acc, s).
Proof. reflexivity. Qed.
Lemma for_from_S {S A} n i (body : Z -> A -> M S A) acc :
  for_from (Datatypes.S n) i body acc = bind (body i acc) (fun a => for_from n (i + 1) body a).
Proof. reflexivity. Qed.

(** Loop rule: an invariant indexed by the loop counter. *)
Lemma for_from_inv {S A} (P : Z -> A -> S -> Prop) n : forall i body (acc : A) (s : S),
  P i acc s ->
  (forall j a t, i <= j < i + Z.of_nat n -> P j a t ->
     exists a' t', body j a t = Ok (a', t') /\ P (j + 1) a' t') ->
  exists a' s', for_from n i body acc s = Ok (a', s') /\ P (i + Z.of_nat n) a' s'.
Proof.
  induction n as [|n IH]; intros i body acc s H0 Hb.
  - exists acc, s. split; [reflexivity|]. replace (i + Z.of_nat 0) with i by lia. exact H0.
  - destruct (Hb i acc s ltac:(lia) H0) as (a1 & s1 & E1 & P1).
    destruct (IH (i + 1) body a1 s1 P1) as (a2 & s2 & E2 & P2).
    { intros j a t Hj. apply Hb. lia. }
    exists a2, s2. split.
    + rewrite for_from_S. rewrite (bind_ok _ _ _ _ _ E1). exact E2.
    + replace (i + Z.of_nat (Datatypes.S n)) with (i + 1 + Z.of_nat n) by lia. exact P2.
Qed.

(** Partial-correctness variant: if the loop returns, the invariant holds. *)
Lemma for_from_post {S A} (P : Z -> A -> S -> Prop) n : forall i body (acc : A) (s : S) a' s',
  P i acc s ->
  (forall j a t a1 t1, i <= j < i + Z.of_nat n -> P j a t ->
     body j a t = Ok (a1, t1) -> P (j + 1) a1 t1) ->
  for_from n i body acc s = Ok (a', s') ->
  P (i + Z.of_nat n) a' s'.
Proof.
  induction n as [|n IH]; intros i body acc s a' s' H0 Hb E.
  - cbn in E. injection E as <- <-. replace (i + Z.of_nat 0) with i by lia. exact H0.
  - rewrite for_from_S in E. apply bind_inv in E. destruct E as (a1 & s1 & E1 & E2).
    replace (i + Z.of_nat (Datatypes.S n)) with (i + 1 + Z.of_nat n) by lia.
    eapply IH; [| |exact E2].
    + eapply Hb; [|exact H0|exact E1]; lia.
    + intros j a t a2 t2 Hj. apply Hb. lia.
Qed.

Lemma rfor_from_inv {A} (P : Z -> A -> Prop) n : forall i body (acc : A),
  P i acc ->
  (forall j a, i <= j < i + Z.of_nat n -> P j a -> exists a', body j a = Ok a' /\ P (j + 1) a') ->
  exists a', rfor_from n i body acc = Ok a' /\ P (i + Z.of_nat n) a'.
Proof.
  induction n as [|n IH]; intros i body acc H0 Hb.
  - exists acc. split; [reflexivity|]. replace (i + Z.of_nat 0) with i by lia. exact H0.
  - destruct (Hb i acc ltac:(lia) H0) as (a1 & E1 & P1).
    destruct (IH (i + 1) body a1 P1) as (a2 & E2 & P2).
    { intros j a Hj. apply Hb. lia. }
    exists a2. split.
    + cbn [rfor_from]. rewrite E1. exact E2.
    + replace (i + Z.of_nat (Datatypes.S n)) with (i + 1 + Z.of_nat n) by lia. exact P2.
Qed.

Lemma rfor_from_post {A} (P : Z -> A -> Prop) n : forall i body (acc : A) a',
  P i acc ->
  (forall j a a1, i <= j < i + Z.of_nat n -> P j a -> body j a = Ok a1 -> P (j + 1) a1) ->
  rfor_from n i body acc = Ok a' -> P (i + Z.of_nat n) a'.
Proof.
  induction n as [|n IH]; intros i body acc a' H0 Hb E.
  - cbn in E. injection E as <-. replace (i + Z.of_nat 0) with i by lia. exact H0.
  - cbn [rfor_from] in E. destruct (body i acc) as [a1| |] eqn:E1; cbn in E; try discriminate.
    replace (i + Z.of_nat (Datatypes.S n)) with (i + 1 + Z.of_nat n) by lia.
    eapply IH; [| |exact E].
    + eapply Hb; [|exact H0|exact E1]; lia.
    + intros j a a2 Hj. apply Hb. lia.
Qed.

Lemma pfor_from_inv {A} (P : Z -> A -> Prop) n : forall i body (acc : A),
  P i acc ->
  (forall j a, i <= j < i + Z.of_nat n -> P j a -> P (j + 1) (body j a)) ->
  P (i + Z.of_nat n) (pfor_from n i body acc).
Proof.
  induction n as [|n IH]; intros i body acc H0 Hb.
  - replace (i + Z.of_nat 0) with i by lia. exact H0.
  - cbn [pfor_from]. replace (i + Z.of_nat (Datatypes.S n)) with (i + 1 + Z.of_nat n) by lia.
    apply IH; [apply Hb; [lia|exact H0]|]. intros j a Hj. apply Hb. lia.
Qed.

Lemma skipn_skipn_add {A} n : forall m (l : list A), skipn m (skipn n l) = skipn (m + n) l.
Proof.
  induction n as [|n IH]; intros m l; [rewrite Nat.add_0_r; reflexivity|].
  rewrite Nat.add_succ_r. destruct l as [|a t]; [rewrite !skipn_nil; reflexivity|]. cbn [skipn]. apply IH.
Qed.

Lemma bind_eq {S A B} (m : M S A) (k : A -> M S B) s :
  bind m k s = match m s with Ok (a, s') => k a s' | Panic => Panic | Hang => Hang end.
Proof. reflexivity. Qed.
