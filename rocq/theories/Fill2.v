(** Double loops that write each cell of a rectangle of a two-dimensional table once. *)
From Verif Require Import GoBase Frame.
Section Fill2.
  Context {A : Type}.
  Variables (V : Z -> Z -> res A) (oy ox : Z) (py px : Z -> Z).
  Hypothesis (Hpy : forall i, py i = oy + i) (Hpx : forall j, px j = ox + j).
  Definition fill2_row (lo hi i : Z) (g : list (list A)) : res (list (list A)) := rfor_to lo hi (fun j g => let! v := V i j in upd2 g (py i) (px j) v) g.
  Definition fill2 (lo hi lo' hi' : Z) (g : list (list A)) : res (list (list A)) := rfor_to lo hi (fun i g => fill2_row lo' hi' i g) g.

  Lemma fill2_row_post lo hi i g g' : lo <= hi -> fill2_row lo hi i g = Ok g' ->
    (forall j, lo <= j < hi -> exists v, V i j = Ok v /\ idx2 g' (oy + i) (ox + j) = Ok v) /\
    (forall y x, ~ (y = oy + i /\ ox + lo <= x < ox + hi) -> idx2 g' y x = idx2 g y x).
  Proof.
    intros Hh. unfold fill2_row, rfor_to.
    assert (K : forall g', rfor_from (Z.to_nat (hi - lo)) lo (fun j g => let! v := V i j in upd2 g (py i) (px j) v) g = Ok g' ->
      (fun m g' => (forall j, lo <= j < m -> exists v, V i j = Ok v /\ idx2 g' (oy + i) (ox + j) = Ok v) /\
      (forall y x, ~ (y = oy + i /\ ox + lo <= x < ox + m) -> idx2 g' y x = idx2 g y x)) (lo + Z.of_nat (Z.to_nat (hi - lo))) g').
    { intros g1. apply (rfor_from_post (fun m g' => (forall j, lo <= j < m -> exists v, V i j = Ok v /\ idx2 g' (oy + i) (ox + j) = Ok v) /\
      (forall y x, ~ (y = oy + i /\ ox + lo <= x < ox + m) -> idx2 g' y x = idx2 g y x))).
      - split; [lia|reflexivity].
      - intros m a a1 Hm [P Q] H. apply rbind_inv in H as (v & Ev & H). rewrite Hpy, Hpx in H. split.
        + intros j Hj. destruct (Z.eq_dec j m) as [->|N]; [exists v; split; [exact Ev|exact (idx2_upd2_same _ _ _ _ _ H)]|].
          destruct (P j ltac:(lia)) as (u & Eu & Iu). exists u. split; [exact Eu|]. rewrite (idx2_upd2_other _ _ _ _ _ _ _ H); [exact Iu|]. intros [= ]; lia.
        + intros y x N. rewrite (idx2_upd2_other _ _ _ _ _ _ _ H); [apply Q; lia|]. intros [= ]; apply N; lia. }
    intros H. apply K in H. cbv beta in H. rewrite Z2Nat.id in H by lia. replace (lo + (hi - lo)) with hi in H by lia. exact H.
  Qed.
  Lemma fill2_post lo hi lo' hi' g g' : lo <= hi -> lo' <= hi' -> fill2 lo hi lo' hi' g = Ok g' ->
    (forall i j, lo <= i < hi -> lo' <= j < hi' -> exists v, V i j = Ok v /\ idx2 g' (oy + i) (ox + j) = Ok v) /\
    (forall y x, ~ (oy + lo <= y < oy + hi /\ ox + lo' <= x < ox + hi') -> idx2 g' y x = idx2 g y x).
  Proof.
    intros Hh Hh'. unfold fill2, rfor_to.
    assert (K : forall g', rfor_from (Z.to_nat (hi - lo)) lo (fun i g => fill2_row lo' hi' i g) g = Ok g' ->
      (fun m g' => (forall i j, lo <= i < m -> lo' <= j < hi' -> exists v, V i j = Ok v /\ idx2 g' (oy + i) (ox + j) = Ok v) /\
      (forall y x, ~ (oy + lo <= y < oy + m /\ ox + lo' <= x < ox + hi') -> idx2 g' y x = idx2 g y x)) (lo + Z.of_nat (Z.to_nat (hi - lo))) g').
    { intros g1. apply (rfor_from_post (fun m g' => (forall i j, lo <= i < m -> lo' <= j < hi' -> exists v, V i j = Ok v /\ idx2 g' (oy + i) (ox + j) = Ok v) /\
      (forall y x, ~ (oy + lo <= y < oy + m /\ ox + lo' <= x < ox + hi') -> idx2 g' y x = idx2 g y x))).
      - split; [lia|reflexivity].
      - intros m a a1 Hm [P Q] H. apply fill2_row_post in H as [C D]; [|lia]. split.
        + intros i j Hi Hj. destruct (Z.eq_dec i m) as [->|N]; [exact (C j Hj)|].
          destruct (P i j ltac:(lia) Hj) as (u & Eu & Iu). exists u. split; [exact Eu|]. rewrite D; [exact Iu|]. lia.
        + intros y x N. rewrite D by (intros (? & ?); apply N; lia). apply Q. intros (? & ?); apply N; lia. }
    intros H. apply K in H. cbv beta in H. rewrite Z2Nat.id in H by lia. replace (lo + (hi - lo)) with hi in H by lia. exact H.
  Qed.
  Lemma fill2_row_ok lo hi i g : lo <= hi -> (forall j, lo <= j < hi -> exists v, V i j = Ok v) -> (forall j, lo <= j < hi -> exists v, idx2 g (oy + i) (ox + j) = Ok v) ->
    exists g', fill2_row lo hi i g = Ok g' /\ forall y x, (exists v, idx2 g y x = Ok v) -> exists v, idx2 g' y x = Ok v.
  Proof.
    intros Hh HV HG. unfold fill2_row, rfor_to.
    destruct (rfor_from_inv (fun _ g' => forall y x, (exists v, idx2 g y x = Ok v) -> exists v, idx2 g' y x = Ok v) (Z.to_nat (hi - lo)) lo
      (fun j g => let! v := V i j in upd2 g (py i) (px j) v) g) as (g' & E & P); [auto| |exists g'; split; [exact E|exact P]].
    intros j a Hj Ha. destruct (HV j ltac:(lia)) as [v ->]. cbn [rbind]. destruct (Ha _ _ (HG j ltac:(lia))) as [u Eu]. rewrite Hpy, Hpx.
    destruct (upd2_succeeds _ _ _ _ v Eu) as [a' E']. exists a'. split; [exact E'|]. intros y x Hx.
    destruct (Ha _ _ Hx) as [w Hw].
    destruct (Z.eq_dec y (oy + i)) as [->|]; [destruct (Z.eq_dec x (ox + j)) as [->|]|];
      try (rewrite (idx2_upd2_other _ _ _ _ _ _ _ E'); [eauto|intros [= ]; congruence]). exists v. apply (idx2_upd2_same _ _ _ _ _ E').
  Qed.
  Lemma fill2_ok lo hi lo' hi' g : lo <= hi -> lo' <= hi' -> (forall i j, lo <= i < hi -> lo' <= j < hi' -> exists v, V i j = Ok v) ->
    (forall i j, lo <= i < hi -> lo' <= j < hi' -> exists v, idx2 g (oy + i) (ox + j) = Ok v) ->
    exists g', fill2 lo hi lo' hi' g = Ok g' /\ forall y x, (exists v, idx2 g y x = Ok v) -> exists v, idx2 g' y x = Ok v.
  Proof.
    intros Hh Hh' HV HG. unfold fill2, rfor_to.
    destruct (rfor_from_inv (fun _ g' => forall y x, (exists v, idx2 g y x = Ok v) -> exists v, idx2 g' y x = Ok v) (Z.to_nat (hi - lo)) lo
      (fun i g => fill2_row lo' hi' i g) g) as (g' & E & P); [auto| |exists g'; split; [exact E|exact P]].
    intros i a Hi Ha. destruct (fill2_row_ok lo' hi' i a Hh') as (a' & E' & P'); [intros; apply HV; lia|intros; apply Ha, HG; lia|].
    exists a'. split; [exact E'|]. intros. apply P', Ha. assumption.
  Qed.
  Lemma fill2_nh lo hi lo' hi' g : (forall i j, V i j <> Hang) -> fill2 lo hi lo' hi' g <> Hang.
  Proof. intros H. apply rfor_from_nh. intros. apply rfor_from_nh. intros. apply rbind_nh; [apply H|intro; apply upd2_nh]. Qed.
End Fill2.

(** A loop that writes each cell of a range of a one-dimensional table once. *)
Section Fill1.
  Context {A : Type}.
  Variables (V : Z -> res A) (ox : Z) (px : Z -> Z).
  Hypothesis (Hpx : forall j, px j = ox + j).
  Definition fill1 (lo hi : Z) (g : list A) : res (list A) := rfor_to lo hi (fun j g => let! v := V j in upd g (px j) v) g.
  Lemma fill1_post lo hi g g' : lo <= hi -> fill1 lo hi g = Ok g' ->
    (forall j, lo <= j < hi -> exists v, V j = Ok v /\ idx g' (ox + j) = Ok v) /\ (forall x, ~ (ox + lo <= x < ox + hi) -> idx g' x = idx g x).
  Proof.
    intros Hh. unfold fill1, rfor_to.
    assert (K : forall g', rfor_from (Z.to_nat (hi - lo)) lo (fun j g => let! v := V j in upd g (px j) v) g = Ok g' ->
      (fun m g' => (forall j, lo <= j < m -> exists v, V j = Ok v /\ idx g' (ox + j) = Ok v) /\ (forall x, ~ (ox + lo <= x < ox + m) -> idx g' x = idx g x)) (lo + Z.of_nat (Z.to_nat (hi - lo))) g').
    { intros g1. apply (rfor_from_post (fun m g' => (forall j, lo <= j < m -> exists v, V j = Ok v /\ idx g' (ox + j) = Ok v) /\ (forall x, ~ (ox + lo <= x < ox + m) -> idx g' x = idx g x))).
      - split; [lia|reflexivity].
      - intros m a a1 Hm [P Q] H. apply rbind_inv in H as (v & Ev & H). rewrite Hpx in H. split.
        + intros j Hj. destruct (Z.eq_dec j m) as [->|N]; [exists v; split; [exact Ev|exact (idx_upd_same _ _ _ _ H)]|].
          destruct (P j ltac:(lia)) as (u & Eu & Iu). exists u. split; [exact Eu|]. rewrite (idx_upd_other _ _ _ _ _ H); [exact Iu|]. lia.
        + intros x N. rewrite (idx_upd_other _ _ _ _ _ H); [apply Q; lia|]. lia. }
    intros H. apply K in H. cbv beta in H. rewrite Z2Nat.id in H by lia. replace (lo + (hi - lo)) with hi in H by lia. exact H.
  Qed.
  Lemma fill1_ok lo hi g : lo <= hi -> (forall j, lo <= j < hi -> exists v, V j = Ok v) -> (forall j, lo <= j < hi -> exists v, idx g (ox + j) = Ok v) ->
    exists g', fill1 lo hi g = Ok g' /\ forall x, (exists v, idx g x = Ok v) -> exists v, idx g' x = Ok v.
  Proof.
    intros Hh HV HG. unfold fill1, rfor_to.
    destruct (rfor_from_inv (fun _ g' => forall x, (exists v, idx g x = Ok v) -> exists v, idx g' x = Ok v) (Z.to_nat (hi - lo)) lo
      (fun j g => let! v := V j in upd g (px j) v) g) as (g' & E & P); [auto| |exists g'; split; [exact E|exact P]].
    intros j a Hj Ha. destruct (HV j ltac:(lia)) as [v ->]. cbn [rbind]. destruct (Ha _ (HG j ltac:(lia))) as [u Eu]. rewrite Hpx.
    destruct (upd_succeeds _ _ _ v Eu) as [a' E']. exists a'. split; [exact E'|]. intros x Hx. apply (idx_exists_upd _ _ _ _ _ E'). apply Ha, Hx.
  Qed.
End Fill1.
