(** Loops that write a set of cells of a table: which cells get which values, whatever the order of the loops. *)
From Verif Require Import GoBase Frame.

Section Writes.
  Context {A P B : Type} (get : A -> P -> res B) (V : P -> res B).
  (** every cell of R has its value V, every other cell is unchanged *)
  Definition writes (R : P -> Prop) (g g' : A) : Prop :=
    (forall p, R p -> exists v, V p = Ok v /\ get g' p = Ok v) /\ (forall p, ~ R p -> get g' p = get g p).
  Definition defined (g : A) (p : P) : Prop := exists v, get g p = Ok v.
  Definition decided (R : P -> Prop) : Prop := forall p, R p \/ ~ R p.
  Lemma writes_none g : writes (fun _ => False) g g. Proof. split; [intros ? []|reflexivity]. Qed.
  Lemma writes_ext R R' g g' : (forall p, R p <-> R' p) -> writes R g g' -> writes R' g g'.
  Proof. intros E [H1 H2]. split; [intros p Hp; apply H1, E, Hp|intros p Hp; apply H2; intro; apply Hp, E; assumption]. Qed.
  Lemma writes_union R1 R2 g g1 g2 : decided R2 -> writes R1 g g1 -> writes R2 g1 g2 -> writes (fun p => R1 p \/ R2 p) g g2.
  Proof.
    intros D [A1 B1] [A2 B2]. split.
    - intros p Hp. destruct (D p) as [H2|N2]; [apply A2, H2|]. destruct Hp as [Hp|Hp]; [|contradiction]. rewrite (B2 p N2). apply A1, Hp.
    - intros p Hp. rewrite B2, B1 by tauto. reflexivity.
  Qed.
  Lemma writes_defined R g g' p : decided R -> writes R g g' -> defined g p -> defined g' p.
  Proof. intros D [A1 B1] H. destruct (D p) as [Hp|Hp]; [destruct (A1 p Hp) as (v & _ & E); exists v; exact E|]. unfold defined. rewrite B1 by exact Hp. exact H. Qed.
  Lemma decided_range lo hi (R : Z -> P -> Prop) : (forall j, lo <= j < hi -> decided (R j)) -> decided (fun p => exists j, lo <= j < hi /\ R j p).
  Proof.
    intros D p. destruct (Z.le_gt_cases lo hi) as [Hle|Hgt]; [|right; intros (j & Hj & _); lia].
    assert (K : forall n, forall hi', hi' <= hi -> hi' - lo = Z.of_nat n -> (exists j, lo <= j < hi' /\ R j p) \/ ~ (exists j, lo <= j < hi' /\ R j p)).
    { induction n as [|n IH]; intros hi' Hh Hn; [right; intros (j & Hj & _); lia|]. destruct (IH (hi' - 1) ltac:(lia) ltac:(lia)) as [(j & Hj & Hr)|N].
      - left. exists j. split; [lia|exact Hr].
      - destruct (D (hi' - 1) ltac:(lia) p) as [Y|Y]; [left; exists (hi' - 1); split; [lia|exact Y]|]. right. intros (j & Hj & Hr). destruct (Z.eq_dec j (hi' - 1)) as [->|]; [contradiction|]. apply N. exists j. split; [lia|exact Hr]. }
    apply (K (Z.to_nat (hi - lo)) hi); lia.
  Qed.
  Lemma writes_loop lo hi (body : Z -> A -> res A) (R : Z -> P -> Prop) g g' : (forall j, lo <= j < hi -> decided (R j)) ->
    (forall j a a', lo <= j < hi -> body j a = Ok a' -> writes (R j) a a') -> rfor_to lo hi body g = Ok g' -> writes (fun p => exists j, lo <= j < hi /\ R j p) g g'.
  Proof.
    intros D HB. unfold rfor_to. destruct (Z.le_gt_cases lo hi) as [Hle|Hgt].
    - assert (K : forall g', rfor_from (Z.to_nat (hi - lo)) lo body g = Ok g' -> (fun m g' => writes (fun p => exists j, lo <= j < m /\ R j p) g g') (lo + Z.of_nat (Z.to_nat (hi - lo))) g').
      { intros g1. apply (rfor_from_post (fun m g' => writes (fun p => exists j, lo <= j < m /\ R j p) g g')).
        - eapply writes_ext; [|apply writes_none]. intros p. split; [tauto|intros (j & Hj & _); lia].
        - intros m a a1 Hm Ha H. apply HB in H; [|lia]. eapply writes_ext; [|eapply writes_union; [apply (D m); lia|exact Ha|exact H]]. intros p. cbv beta. split.
          + intros [(j & Hj & Hr)|Hr]; [exists j; split; [lia|exact Hr]|exists m; split; [lia|exact Hr]].
          + intros (j & Hj & Hr). destruct (Z.eq_dec j m) as [->|]; [right; exact Hr|left; exists j; split; [lia|exact Hr]]. }
      intros H. apply K in H. cbv beta in H. rewrite Z2Nat.id in H by lia. replace (lo + (hi - lo)) with hi in H by lia. exact H.
    - replace (Z.to_nat (hi - lo)) with 0%nat by lia. cbn [rfor_from]. intros [= <-]. eapply writes_ext; [|apply writes_none]. intros p. split; [tauto|intros (j & Hj & _); lia].
  Qed.
  (** such a loop succeeds when every step does, on tables with the cells of the first one *)
  Lemma ok_loop lo hi (body : Z -> A -> res A) (R : Z -> P -> Prop) g : (forall j, lo <= j < hi -> decided (R j)) ->
    (forall j a a', lo <= j < hi -> body j a = Ok a' -> writes (R j) a a') ->
    (forall j a, lo <= j < hi -> (forall p, defined g p -> defined a p) -> exists a', body j a = Ok a') -> exists g', rfor_to lo hi body g = Ok g'.
  Proof.
    intros D HB HS. destruct (Z.le_gt_cases lo hi) as [Hle|Hgt].
    - destruct (rfor_from_inv (fun _ a => forall p, defined g p -> defined a p) (Z.to_nat (hi - lo)) lo body g) as (g' & E & _); [auto| |exists g'; exact E].
      intros j a Hj Ha. destruct (HS j a ltac:(lia) Ha) as [a' E]. exists a'. split; [exact E|]. intros p Hp. eapply writes_defined; [apply (D j); lia|eapply HB; [|exact E]; lia|apply Ha, Hp].
    - unfold rfor_to. replace (Z.to_nat (hi - lo)) with 0%nat by lia. eexists. reflexivity.
  Qed.
End Writes.

(** tables of one, two and three dimensions *)
Definition get1 {B} (g : list B) (i : Z) : res B := idx g i.
Definition get2 {B} (g : list (list B)) (p : Z * Z) : res B := idx2 g (fst p) (snd p).
Definition get3 {B} (g : list (list (list B))) (p : Z * Z * Z) : res B := idx3 g (fst (fst p)) (snd (fst p)) (snd p).
Lemma writes_upd {B} (V : Z -> res B) i v (g g' : list B) : V i = Ok v -> upd g i v = Ok g' -> writes get1 V (fun p => p = i) g g'.
Proof. intros E H. split; [intros ? ->; exists v; split; [exact E|exact (idx_upd_same _ _ _ _ H)]|]. intros p N. apply (idx_upd_other _ _ _ _ _ H). intro X; apply N; symmetry; exact X. Qed.
Lemma writes_upd2 {B} (V : Z * Z -> res B) i j v (g g' : list (list B)) : V (i, j) = Ok v -> upd2 g i j v = Ok g' -> writes get2 V (fun p => p = (i, j)) g g'.
Proof. intros E H. split; [intros ? ->; exists v; split; [exact E|exact (idx2_upd2_same _ _ _ _ _ H)]|]. intros [a b] N. apply (idx2_upd2_other _ _ _ _ _ _ _ H). intro X; apply N; symmetry; exact X. Qed.
Lemma writes_upd3 {B} (V : Z * Z * Z -> res B) p i j v (g g' : list (list (list B))) : V (p, i, j) = Ok v -> upd3 g p i j v = Ok g' -> writes get3 V (fun q => q = (p, i, j)) g g'.
Proof. intros E H. split; [intros ? ->; exists v; split; [exact E|exact (idx3_upd3_same _ _ _ _ _ _ H)]|]. intros [[a b] c] N. apply (idx3_upd3_other _ _ _ _ _ _ _ _ _ H). intro X; apply N; symmetry; exact X. Qed.
Lemma decided_eq1 (i : Z) : decided (fun p => p = i). Proof. intro p. destruct (Z.eq_dec p i); auto. Qed.
Lemma decided_eq2 (i : Z * Z) : decided (fun p => p = i). Proof. intros [a b]. destruct i as [c d]. destruct (Z.eq_dec a c), (Z.eq_dec b d); subst; auto; right; intros [= ]; auto. Qed.
Lemma decided_eq3 (i : Z * Z * Z) : decided (fun p => p = i).
Proof. intros [[a b] x]. destruct i as [[c d] y]. destruct (Z.eq_dec a c), (Z.eq_dec b d), (Z.eq_dec x y); subst; auto; right; intros [= ]; auto. Qed.

(** a table with the given sizes, as Go's array types *)
Definition array1 {B} (n : Z) (g : list B) : Prop := zlen g = n.
Definition array2 {B} (n m : Z) (g : list (list B)) : Prop := zlen g = n /\ Forall (array1 m) g.
Definition array3 {B} (n m k : Z) (g : list (list (list B))) : Prop := zlen g = n /\ Forall (array2 m k) g.
Lemma array1_get {B} n (g : list B) i : array1 n g -> (exists v, idx g i = Ok v) <-> 0 <= i < n.
Proof.
  unfold array1. intros H. subst n. split; [intros [v E]; apply idx_inv in E; tauto|]. intros Hi. destruct g as [|b g]; [change (zlen (@nil B)) with 0 in Hi; lia|]. eexists. apply (idx_ok _ _ b). exact Hi.
Qed.
Lemma array2_get {B} n m (g : list (list B)) i j : array2 n m g -> (exists v, idx2 g i j = Ok v) <-> 0 <= i < n /\ 0 <= j < m.
Proof.
  intros [H F]. unfold idx2. split.
  - intros [v E]. apply rbind_inv in E as (r & Er & E). pose proof (idx_Forall _ _ _ _ F Er) as Hr. split; [apply (array1_get n g i H); eauto|apply (array1_get m r j Hr); eauto].
  - intros [Hi Hj]. destruct (proj2 (array1_get n g i H) Hi) as [r Er]. rewrite Er. cbn [rbind]. apply (array1_get m r j (idx_Forall _ _ _ _ F Er)). exact Hj.
Qed.
Lemma array3_get {B} n m k (g : list (list (list B))) p i j : array3 n m k g -> (exists v, idx3 g p i j = Ok v) <-> 0 <= p < n /\ 0 <= i < m /\ 0 <= j < k.
Proof.
  intros [H F]. unfold idx3. split.
  - intros [v E]. apply rbind_inv in E as (r & Er & E). pose proof (idx_Forall _ _ _ _ F Er) as Hr. split; [apply (array1_get n g p H); eauto|apply (array2_get m k r i j Hr); eauto].
  - intros [Hi Hj]. destruct (proj2 (array1_get n g p H) Hi) as [r Er]. rewrite Er. cbn [rbind]. apply (array2_get m k r i j (idx_Forall _ _ _ _ F Er)). exact Hj.
Qed.
Lemma array1_upd {B} n (g g' : list B) i v : array1 n g -> upd g i v = Ok g' -> array1 n g'.
Proof. unfold array1. intros H E. apply upd_inv in E as [_ ->]. rewrite zlen_upd_nat. exact H. Qed.
Lemma array2_upd {B} n m (g g' : list (list B)) i j v : array2 n m g -> upd2 g i j v = Ok g' -> array2 n m g'.
Proof.
  intros [H F] E. unfold upd2 in E. apply rbind_inv in E as (r & Er & E). apply rbind_inv in E as (r' & Er' & E). split; [eapply (array1_upd n); [exact H|exact E]|].
  eapply upd_Forall; [exact F| |exact E]. eapply array1_upd; [exact (idx_Forall _ _ _ _ F Er)|exact Er'].
Qed.
Lemma array3_upd {B} n m k (g g' : list (list (list B))) p i j v : array3 n m k g -> upd3 g p i j v = Ok g' -> array3 n m k g'.
Proof.
  intros [H F] E. unfold upd3 in E. apply rbind_inv in E as (r & Er & E). apply rbind_inv in E as (r' & Er' & E). split; [eapply (array1_upd n); [exact H|exact E]|].
  eapply upd_Forall; [exact F| |exact E]. eapply array2_upd; [exact (idx_Forall _ _ _ _ F Er)|exact Er'].
Qed.
Lemma rfor_to_keep {A} (Q : A -> Prop) lo hi (body : Z -> A -> res A) a a' : Q a -> (forall j b b', lo <= j < hi -> Q b -> body j b = Ok b' -> Q b') -> rfor_to lo hi body a = Ok a' -> Q a'.
Proof. intros Ha HB. unfold rfor_to. apply (rfor_from_post (fun _ => Q)); [exact Ha|]. intros j b b' Hj. apply HB. lia. Qed.
Lemma rfor_to_nh {A} lo hi (body : Z -> A -> res A) a : (forall j b, body j b <> Hang) -> rfor_to lo hi body a <> Hang.
Proof. intros H. apply rfor_from_nh. exact H. Qed.
(** a loop all of whose steps succeed and keep an invariant *)
Lemma rfor_to_ok {A} (Q : A -> Prop) lo hi (body : Z -> A -> res A) a : Q a -> (forall j b, lo <= j < hi -> Q b -> exists b', body j b = Ok b' /\ Q b') -> exists a', rfor_to lo hi body a = Ok a' /\ Q a'.
Proof. intros Ha HB. destruct (rfor_from_inv (fun _ => Q) (Z.to_nat (hi - lo)) lo body a) as (a' & E & HQ); [exact Ha| |exists a'; auto]. intros j b Hj Hb. apply HB; [lia|exact Hb]. Qed.
