(** Sample planes and frames as nested lists ([3][16][16]int arrays and the like): reading and writing one sample. *)
From Verif Require Import GoBase.

Definition frame := list (list (list Z)).

(** a[p][y][x] = v *)
Definition upd3 {A} (l : list (list (list A))) (p y x : Z) (v : A) : res (list (list (list A))) :=
  let! r := idx l p in let! r' := upd2 r y x v in upd l p r'.

(** All samples of a frame satisfy [P]. *)
Definition all_samples (P : Z -> Prop) (f : frame) : Prop := Forall (Forall (Forall P)) f.

Lemma idx_upd_same {A} (l l' : list A) i v : upd l i v = Ok l' -> idx l' i = Ok v.
Proof.
  intros H. apply upd_inv in H as [Hi ->]. rewrite (idx_ok _ i v) by (rewrite zlen_upd_nat; exact Hi).
  f_equal. apply nth_upd_nat_same. unfold zlen in Hi. lia.
Qed.
Lemma idx_upd_other {A} (l l' : list A) i j v : upd l i v = Ok l' -> i <> j -> idx l' j = idx l j.
Proof.
  intros H N. apply upd_inv in H as [Hi ->].
  destruct (Z.ltb_spec j 0); [rewrite !idx_panic; auto|]. destruct (Z.leb_spec (zlen l) j).
  - rewrite !idx_panic; auto. right. rewrite zlen_upd_nat; lia.
  - destruct l as [|a l0]; [unfold zlen in *; cbn in *; lia|]. rewrite (idx_ok _ j a) by (rewrite zlen_upd_nat; lia). rewrite (idx_ok _ j a) by lia.
    f_equal. apply nth_upd_nat_other. lia.
Qed.
Lemma idx2_upd2_same {A} (l l' : list (list A)) i j v : upd2 l i j v = Ok l' -> idx2 l' i j = Ok v.
Proof.
  unfold upd2, idx2. destruct (idx l i) as [r| |] eqn:E; cbn [rbind]; try discriminate.
  destruct (upd r j v) as [r'| |] eqn:E'; cbn [rbind]; try discriminate. intros H. rewrite (idx_upd_same _ _ _ _ H). cbn [rbind].
  apply (idx_upd_same _ _ _ _ E').
Qed.
Lemma idx2_upd2_other {A} (l l' : list (list A)) i j i' j' v : upd2 l i j v = Ok l' -> (i, j) <> (i', j') -> idx2 l' i' j' = idx2 l i' j'.
Proof.
  unfold upd2, idx2. destruct (idx l i) as [r| |] eqn:E; cbn [rbind]; try discriminate.
  destruct (upd r j v) as [r'| |] eqn:E'; cbn [rbind]; try discriminate. intros H N. destruct (Z.eq_dec i i') as [<-|Ni].
  - rewrite (idx_upd_same _ _ _ _ H), E. cbn [rbind]. apply (idx_upd_other _ _ _ _ _ E'). congruence.
  - rewrite (idx_upd_other _ _ _ _ _ H Ni). reflexivity.
Qed.
Lemma idx3_upd3_same {A} (l l' : list (list (list A))) p i j v : upd3 l p i j v = Ok l' -> idx3 l' p i j = Ok v.
Proof.
  unfold upd3, idx3. destruct (idx l p) as [r| |] eqn:E; cbn [rbind]; try discriminate.
  destruct (upd2 r i j v) as [r'| |] eqn:E'; cbn [rbind]; try discriminate. intros H. rewrite (idx_upd_same _ _ _ _ H). cbn [rbind].
  apply (idx2_upd2_same _ _ _ _ _ E').
Qed.
Lemma idx3_upd3_other {A} (l l' : list (list (list A))) p i j p' i' j' v : upd3 l p i j v = Ok l' -> (p, i, j) <> (p', i', j') -> idx3 l' p' i' j' = idx3 l p' i' j'.
Proof.
  unfold upd3, idx3. destruct (idx l p) as [r| |] eqn:E; cbn [rbind]; try discriminate.
  destruct (upd2 r i j v) as [r'| |] eqn:E'; cbn [rbind]; try discriminate. intros H N. destruct (Z.eq_dec p p') as [<-|Ni].
  - rewrite (idx_upd_same _ _ _ _ H), E. cbn [rbind]. apply (idx2_upd2_other _ _ _ _ _ _ _ E'). congruence.
  - rewrite (idx_upd_other _ _ _ _ _ H Ni). reflexivity.
Qed.
Lemma upd_succeeds {A} (l : list A) i a v : idx l i = Ok a -> exists l', upd l i v = Ok l'.
Proof. intros H. apply idx_inv in H as [H _]. rewrite upd_ok by exact H. eauto. Qed.
Lemma upd2_succeeds {A} (l : list (list A)) i j a v : idx2 l i j = Ok a -> exists l', upd2 l i j v = Ok l'.
Proof.
  unfold idx2, upd2. destruct (idx l i) as [r| |] eqn:E; cbn [rbind]; try discriminate. intros H.
  destruct (upd_succeeds _ _ _ v H) as [r' ->]. cbn [rbind]. apply (upd_succeeds _ _ _ r' E).
Qed.
Lemma upd3_succeeds {A} (l : list (list (list A))) p i j a v : idx3 l p i j = Ok a -> exists l', upd3 l p i j v = Ok l'.
Proof.
  unfold idx3, upd3. destruct (idx l p) as [r| |] eqn:E; cbn [rbind]; try discriminate. intros H.
  destruct (upd2_succeeds _ _ _ _ v H) as [r' ->]. cbn [rbind]. apply (upd_succeeds _ _ _ r' E).
Qed.
Lemma idx_exists_upd {A} (l l' : list A) i v j : upd l i v = Ok l' -> (exists a, idx l j = Ok a) -> exists a, idx l' j = Ok a.
Proof. intros H [a Ha]. destruct (Z.eq_dec i j) as [->|N]; [rewrite (idx_upd_same _ _ _ _ H); eauto|rewrite (idx_upd_other _ _ _ _ _ H N); eauto]. Qed.
Lemma idx_Forall {A} (P : A -> Prop) l i a : Forall P l -> idx l i = Ok a -> P a.
Proof. intros F H. apply idx_inv in H as [_ H]. rewrite Forall_forall in F. apply F. eapply nth_error_In; eauto. Qed.
Lemma upd_Forall {A} (P : A -> Prop) l i a l' : Forall P l -> P a -> upd l i a = Ok l' -> Forall P l'.
Proof.
  intros F Pa H. apply upd_inv in H as [_ ->]. generalize (Z.to_nat i). clear i. induction F as [|h t Ph Pt IH]; intros [|i]; cbn; constructor; auto.
Qed.
Lemma idx2_Forall {A} (P : A -> Prop) l i j a : Forall (Forall P) l -> idx2 l i j = Ok a -> P a.
Proof. unfold idx2. intros F. destruct (idx l i) eqn:E; cbn [rbind]; try discriminate. apply idx_Forall. apply (idx_Forall _ _ _ _ F E). Qed.
Lemma idx3_Forall {A} (P : A -> Prop) l p i j a : Forall (Forall (Forall P)) l -> idx3 l p i j = Ok a -> P a.
Proof. unfold idx3. intros F. destruct (idx l p) eqn:E; cbn [rbind]; try discriminate. apply idx2_Forall. apply (idx_Forall _ _ _ _ F E). Qed.
Lemma upd2_Forall {A} (P : A -> Prop) l i j a l' : Forall (Forall P) l -> P a -> upd2 l i j a = Ok l' -> Forall (Forall P) l'.
Proof.
  unfold upd2. intros F Pa. destruct (idx l i) as [r| |] eqn:E; cbn [rbind]; try discriminate.
  destruct (upd r j a) as [r'| |] eqn:E'; cbn [rbind]; try discriminate. intros H.
  eapply upd_Forall; [exact F| |exact H]. eapply upd_Forall; [exact (idx_Forall _ _ _ _ F E)|exact Pa|exact E'].
Qed.
Lemma upd3_Forall {A} (P : A -> Prop) l p i j a l' : Forall (Forall (Forall P)) l -> P a -> upd3 l p i j a = Ok l' -> Forall (Forall (Forall P)) l'.
Proof.
  unfold upd3. intros F Pa. destruct (idx l p) as [r| |] eqn:E; cbn [rbind]; try discriminate.
  destruct (upd2 r i j a) as [r'| |] eqn:E'; cbn [rbind]; try discriminate. intros H.
  eapply upd_Forall; [exact F| |exact H]. eapply upd2_Forall; [exact (idx_Forall _ _ _ _ F E)|exact Pa|exact E'].
Qed.
Lemma idx_nh {A} (l : list A) i : idx l i <> Hang.
Proof. unfold idx. destruct (i <? 0); [discriminate|]. destruct (nth_error l (Z.to_nat i)); discriminate. Qed.
Lemma upd_nh {A} (l : list A) i v : upd l i v <> Hang.
Proof. unfold upd. destruct ((i <? 0) || (zlen l <=? i)); discriminate. Qed.
Lemma rbind_nh {A B} (m : res A) (k : A -> res B) : m <> Hang -> (forall a, k a <> Hang) -> rbind m k <> Hang.
Proof. intros H K. destruct m; cbn; auto; try discriminate; congruence. Qed.
Lemma idx2_nh {A} (l : list (list A)) i j : idx2 l i j <> Hang.
Proof. unfold idx2. apply rbind_nh; [apply idx_nh|intros; apply idx_nh]. Qed.
Lemma idx3_nh {A} (l : list (list (list A))) p i j : idx3 l p i j <> Hang.
Proof. unfold idx3. apply rbind_nh; [apply idx_nh|intros; apply idx2_nh]. Qed.
Lemma upd2_nh {A} (l : list (list A)) i j v : upd2 l i j v <> Hang.
Proof. unfold upd2. apply rbind_nh; [apply idx_nh|]. intros. apply rbind_nh; [apply upd_nh|]. intros. apply upd_nh. Qed.
Lemma upd3_nh {A} (l : list (list (list A))) p i j v : upd3 l p i j v <> Hang.
Proof. unfold upd3. apply rbind_nh; [apply idx_nh|]. intros. apply rbind_nh; [apply upd2_nh|]. intros. apply upd_nh. Qed.
Lemma rfor_from_nh {A} n : forall i (body : Z -> A -> res A) acc, (forall j a, body j a <> Hang) -> rfor_from n i body acc <> Hang.
Proof. induction n as [|n IH]; intros i body acc H; cbn [rfor_from]; [discriminate|]. apply rbind_nh; auto. Qed.
Lemma rbind_inv {A B} (m : res A) (k : A -> res B) b : rbind m k = Ok b -> exists a, m = Ok a /\ k a = Ok b.
Proof. destruct m; cbn; intros; try discriminate; eauto. Qed.

(** Invariant of [for i := lo; i < hi; i += step]: *)
Fixpoint rfor_step {A} (n : nat) (i hi step : Z) (body : Z -> A -> res A) (acc : A) : res A :=
  if i <? hi then
    match n with O => Hang | S n' => let! acc' := body i acc in rfor_step n' (i + step) hi step body acc' end
  else Ok acc.
(** the loop with the number of rounds it needs when step >= 1 *)
Definition rfor_by {A} (lo hi step : Z) (body : Z -> A -> res A) (acc : A) : res A := rfor_step (Z.to_nat (hi - lo)) lo hi step body acc.

Lemma rfor_step_post {A} (P : A -> Prop) n : forall i hi step (body : Z -> A -> res A) acc a',
  P acc -> (forall j a a1, P a -> body j a = Ok a1 -> P a1) -> rfor_step n i hi step body acc = Ok a' -> P a'.
Proof.
  induction n as [|n IH]; intros i hi step body acc a' H0 Hb; cbn [rfor_step]; destruct (i <? hi); try discriminate; try (intros [= <-]; exact H0).
  intros H. apply rbind_inv in H as (a1 & E1 & E2). eapply IH; [|exact Hb|exact E2]. eapply Hb; eauto.
Qed.
Lemma rfor_step_nh {A} n : forall i hi step (body : Z -> A -> res A) acc, 1 <= step -> hi - i <= Z.of_nat n ->
  (forall j a, body j a <> Hang) -> rfor_step n i hi step body acc <> Hang.
Proof.
  induction n as [|n IH]; intros i hi step body acc Hs Hn Hb; cbn [rfor_step]; destruct (Z.ltb_spec i hi); try discriminate; [lia|].
  apply rbind_nh; [auto|]. intros a. apply IH; auto. lia.
Qed.
Lemma rfor_by_post {A} (P : A -> Prop) lo hi step (body : Z -> A -> res A) acc a' :
  P acc -> (forall j a a1, P a -> body j a = Ok a1 -> P a1) -> rfor_by lo hi step body acc = Ok a' -> P a'.
Proof. apply rfor_step_post. Qed.
Lemma rfor_by_nh {A} lo hi step (body : Z -> A -> res A) acc : 1 <= step -> (forall j a, body j a <> Hang) -> rfor_by lo hi step body acc <> Hang.
Proof. intros. apply rfor_step_nh; auto. lia. Qed.

(** A double loop that writes V i j at (py i, px j) of a plane, for i in lo..hi-1 and j in lo'..hi'-1. *)
Section Fill.
  Variables (V : Z -> Z -> res Z) (plane oy ox : Z) (py px : Z -> Z).
  Hypothesis (Hpy : forall i, py i = oy + i) (Hpx : forall j, px j = ox + j).
  Definition fill_row (lo hi i : Z) (g : frame) : res frame := rfor_to lo hi (fun j g => let! v := V i j in upd3 g plane (py i) (px j) v) g.
  Definition fill (lo hi lo' hi' : Z) (g : frame) : res frame := rfor_to lo hi (fun i g => fill_row lo' hi' i g) g.

  Lemma fill_row_post lo hi i g g' : lo <= hi -> fill_row lo hi i g = Ok g' ->
    (forall j, lo <= j < hi -> exists v, V i j = Ok v /\ idx3 g' plane (oy + i) (ox + j) = Ok v) /\
    (forall p y x, ~ (p = plane /\ y = oy + i /\ ox + lo <= x < ox + hi) -> idx3 g' p y x = idx3 g p y x).
  Proof.
    intros Hh. unfold fill_row, rfor_to.
    assert (K : forall g', rfor_from (Z.to_nat (hi - lo)) lo (fun j g => let! v := V i j in upd3 g plane (py i) (px j) v) g = Ok g' ->
      (fun m g' => (forall j, lo <= j < m -> exists v, V i j = Ok v /\ idx3 g' plane (oy + i) (ox + j) = Ok v) /\
      (forall p y x, ~ (p = plane /\ y = oy + i /\ ox + lo <= x < ox + m) -> idx3 g' p y x = idx3 g p y x)) (lo + Z.of_nat (Z.to_nat (hi - lo))) g').
    { intros g1. apply (rfor_from_post (fun m g' => (forall j, lo <= j < m -> exists v, V i j = Ok v /\ idx3 g' plane (oy + i) (ox + j) = Ok v) /\
      (forall p y x, ~ (p = plane /\ y = oy + i /\ ox + lo <= x < ox + m) -> idx3 g' p y x = idx3 g p y x))).
      - split; [lia|reflexivity].
      - intros m a a1 Hm [A B] H. apply rbind_inv in H as (v & Ev & H). rewrite Hpy, Hpx in H. split.
        + intros j Hj. destruct (Z.eq_dec j m) as [->|N]; [exists v; split; [exact Ev|exact (idx3_upd3_same _ _ _ _ _ _ H)]|].
          destruct (A j ltac:(lia)) as (u & Eu & Iu). exists u. split; [exact Eu|]. rewrite (idx3_upd3_other _ _ _ _ _ _ _ _ _ H); [exact Iu|]. intros [= ]; lia.
        + intros p y x N. rewrite (idx3_upd3_other _ _ _ _ _ _ _ _ _ H); [apply B; lia|]. intros [= ]; apply N; lia. }
    intros H. apply K in H. cbv beta in H. rewrite Z2Nat.id in H by lia. replace (lo + (hi - lo)) with hi in H by lia. exact H.
  Qed.
  Lemma fill_post lo hi lo' hi' g g' : lo <= hi -> lo' <= hi' -> fill lo hi lo' hi' g = Ok g' ->
    (forall i j, lo <= i < hi -> lo' <= j < hi' -> exists v, V i j = Ok v /\ idx3 g' plane (oy + i) (ox + j) = Ok v) /\
    (forall p y x, ~ (p = plane /\ oy + lo <= y < oy + hi /\ ox + lo' <= x < ox + hi') -> idx3 g' p y x = idx3 g p y x).
  Proof.
    intros Hh Hh'. unfold fill, rfor_to.
    assert (K : forall g', rfor_from (Z.to_nat (hi - lo)) lo (fun i g => fill_row lo' hi' i g) g = Ok g' ->
      (fun m g' => (forall i j, lo <= i < m -> lo' <= j < hi' -> exists v, V i j = Ok v /\ idx3 g' plane (oy + i) (ox + j) = Ok v) /\
      (forall p y x, ~ (p = plane /\ oy + lo <= y < oy + m /\ ox + lo' <= x < ox + hi') -> idx3 g' p y x = idx3 g p y x)) (lo + Z.of_nat (Z.to_nat (hi - lo))) g').
    { intros g1. apply (rfor_from_post (fun m g' => (forall i j, lo <= i < m -> lo' <= j < hi' -> exists v, V i j = Ok v /\ idx3 g' plane (oy + i) (ox + j) = Ok v) /\
      (forall p y x, ~ (p = plane /\ oy + lo <= y < oy + m /\ ox + lo' <= x < ox + hi') -> idx3 g' p y x = idx3 g p y x))).
      - split; [lia|reflexivity].
      - intros m a a1 Hm [A B] H. apply fill_row_post in H as [C D]; [|lia]. split.
        + intros i j Hi Hj. destruct (Z.eq_dec i m) as [->|N]; [exact (C j Hj)|].
          destruct (A i j ltac:(lia) Hj) as (u & Eu & Iu). exists u. split; [exact Eu|]. rewrite D; [exact Iu|]. lia.
        + intros p y x N. rewrite D by (intros (? & ? & ?); apply N; lia). apply B. intros (? & ? & ?); apply N; lia. }
    intros H. apply K in H. cbv beta in H. rewrite Z2Nat.id in H by lia. replace (lo + (hi - lo)) with hi in H by lia. exact H.
  Qed.
  Lemma fill_row_ok lo hi i g : lo <= hi -> (forall j, lo <= j < hi -> exists v, V i j = Ok v) -> (forall j, lo <= j < hi -> exists v, idx3 g plane (oy + i) (ox + j) = Ok v) ->
    exists g', fill_row lo hi i g = Ok g' /\ forall p y x, (exists v, idx3 g p y x = Ok v) -> exists v, idx3 g' p y x = Ok v.
  Proof.
    intros Hh HV HG. unfold fill_row, rfor_to.
    destruct (rfor_from_inv (fun _ g' => forall p y x, (exists v, idx3 g p y x = Ok v) -> exists v, idx3 g' p y x = Ok v) (Z.to_nat (hi - lo)) lo
      (fun j g => let! v := V i j in upd3 g plane (py i) (px j) v) g) as (g' & E & P); [auto| |exists g'; split; [exact E|exact P]].
    intros j a Hj Ha. destruct (HV j ltac:(lia)) as [v ->]. cbn [rbind]. destruct (Ha _ _ _ (HG j ltac:(lia))) as [u Eu]. rewrite Hpy, Hpx.
    destruct (upd3_succeeds _ _ _ _ _ v Eu) as [a' E']. exists a'. split; [exact E'|]. intros p y x Hx.
    destruct (Ha _ _ _ Hx) as [w Hw].
    destruct (Z.eq_dec p plane) as [->|]; [destruct (Z.eq_dec y (oy + i)) as [->|]; [destruct (Z.eq_dec x (ox + j)) as [->|]|]|];
      try (rewrite (idx3_upd3_other _ _ _ _ _ _ _ _ _ E'); [eauto|intros [= ]; congruence]). exists v. apply (idx3_upd3_same _ _ _ _ _ _ E').
  Qed.
  Lemma fill_ok lo hi lo' hi' g : lo <= hi -> lo' <= hi' -> (forall i j, lo <= i < hi -> lo' <= j < hi' -> exists v, V i j = Ok v) ->
    (forall i j, lo <= i < hi -> lo' <= j < hi' -> exists v, idx3 g plane (oy + i) (ox + j) = Ok v) ->
    exists g', fill lo hi lo' hi' g = Ok g' /\ forall p y x, (exists v, idx3 g p y x = Ok v) -> exists v, idx3 g' p y x = Ok v.
  Proof.
    intros Hh Hh' HV HG. unfold fill, rfor_to.
    destruct (rfor_from_inv (fun _ g' => forall p y x, (exists v, idx3 g p y x = Ok v) -> exists v, idx3 g' p y x = Ok v) (Z.to_nat (hi - lo)) lo
      (fun i g => fill_row lo' hi' i g) g) as (g' & E & P); [auto| |exists g'; split; [exact E|exact P]].
    intros i a Hi Ha. destruct (fill_row_ok lo' hi' i a Hh') as (a' & E' & P'); [intros; apply HV; lia|intros; apply Ha, HG; lia|].
    exists a'. split; [exact E'|]. intros. apply P', Ha. assumption.
  Qed.
  Lemma fill_Forall (P : Z -> Prop) lo hi lo' hi' g g' : (forall i j v, lo <= i < hi -> lo' <= j < hi' -> V i j = Ok v -> P v) -> all_samples P g -> fill lo hi lo' hi' g = Ok g' -> all_samples P g'.
  Proof.
    intros HP HA. unfold fill, rfor_to. apply (rfor_from_post (fun _ g => all_samples P g)); [exact HA|].
    intros i a a' Hi Ha. unfold fill_row, rfor_to. apply (rfor_from_post (fun _ g => all_samples P g)); [exact Ha|].
    intros j b b' Hj Hb H. apply rbind_inv in H as (v & Ev & H). eapply upd3_Forall; [exact Hb| |exact H]. eapply HP; [| |exact Ev]; lia.
  Qed.
  Lemma fill_nh lo hi lo' hi' g : (forall i j, V i j <> Hang) -> fill lo hi lo' hi' g <> Hang.
  Proof. intros H. apply rfor_from_nh. intros. apply rfor_from_nh. intros. apply rbind_nh; [apply H|intro; apply upd3_nh]. Qed.
End Fill.
