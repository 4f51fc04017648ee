(** Properties C157-C160: the start of a tile, and which frames can be decoded at all. *)
From Verif Require Import GoBase Constants Tables Bitstream Header SequenceHeader Util Symbol TileInfo UncompressedHeader Obu Partition Residual TileGroup Decoder PropTileGroup
  SpecBits SpecStream SpecTileGroup BitstreamProofs PropPartition PropObu.

(** ** C157: the CDEF index of a superblock is reset before its blocks are read *)
(** What has happened to the CDEF indices so far: superblocks of 64x64 have been started at some of the positions [ok], and blocks have stored indices. *)
Inductive cdef_history (ok : Z -> Prop) : gslice (gslice Z) -> Prop :=
| nothing_yet : cdef_history ok nilslice
| superblock g r c g' : cdef_history ok g -> ok r -> ok c -> ClearCdef r c false CdefSize4 g = Ok g' -> cdef_history ok g'
| index_stored g r c v row l rows : cdef_history ok g -> idx (elems g) r = Ok row -> upd (elems row) c v = Ok l -> upd (elems g) r (mkSlice l (capa row)) = Ok rows ->
    cdef_history ok (mkSlice rows (capa g)).
(** the index stored for the area at row r, column c (in units of 4 samples) *)
Definition cdef_at (g : gslice (gslice Z)) (r c : Z) : res Z := let! row := idx (elems g) r in idx (elems row) c.
Definition first_three (v : Z) : Prop := v = 0 \/ v = 16 \/ v = 32.

Definition shape {A} (s : gslice A) : Prop := (zlen (elems s), capa s) = (0, 0) \/ (zlen (elems s), capa s) = (1, 1) \/ (zlen (elems s), capa s) = (17, 32) \/ (zlen (elems s), capa s) = (33, 64).
Definition shape2 (g : gslice (gslice Z)) : Prop := shape g /\ Forall shape (elems g).
Lemma list_len {A} (l : list A) n : zlen l = n -> l = firstn (Z.to_nat n) l.
Proof. intros <-. unfold zlen. rewrite Nat2Z.id, firstn_all. reflexivity. Qed.
Lemma grow_keep {A} n fuel (x : A) s : n <= capa s -> growTo fuel n x s = Ok s.
Proof. intros H. destruct fuel; cbn [growTo]; destruct (Z.ltb_spec (capa s) n); (lia || reflexivity). Qed.
Fixpoint appn {A} (k : nat) (x : A) (s : gslice A) : gslice A := match k with O => s | S k => goappend (appn k x s) x end.
(** Growing by k elements, when the doubling of the capacity first reaches n with the k-th. *)
Lemma grow_some {A} (x : A) n : forall k fuel l c, (k <= fuel)%nat ->
  (forall i, (i < k)%nat -> capa (appn i x (mkSlice l c)) < n) -> n <= capa (appn k x (mkSlice l c)) ->
  growTo fuel n x (mkSlice l c) = Ok (appn k x (mkSlice l c)).
Proof.
  assert (C : forall j (s : gslice A), appn j x (goappend s x) = goappend (appn j x s) x).
  { induction j as [|j IH]; intros s; [reflexivity|]. cbn [appn]. rewrite IH. reflexivity. }
  assert (G : forall k fuel (s : gslice A), (k <= fuel)%nat -> (forall i, (i < k)%nat -> capa (appn i x s) < n) -> n <= capa (appn k x s) ->
    growTo fuel n x s = Ok (appn k x s)).
  { induction k as [|k IH]; intros fuel s HF HL HG.
    - apply grow_keep. exact HG.
    - destruct fuel as [|fuel]; [lia|]. cbn [growTo]. pose proof (HL 0%nat ltac:(lia)) as H0. cbn [appn] in H0. destruct (Z.ltb_spec (capa s) n); [|lia].
      rewrite IH; [f_equal; cbn [appn]; apply C|lia| |cbn [appn] in HG; rewrite C; exact HG].
      intros i Hi. rewrite C. apply (HL (S i)). lia. }
  intros k fuel l c. apply G.
Qed.
Lemma iter_app {A} (x : A) l c : forall k, elems (appn k x (mkSlice l c)) = l ++ repeat x k.
Proof. induction k as [|k IH]; cbn [appn repeat]; [rewrite app_nil_r; reflexivity|]. unfold goappend at 1. cbn [elems]. rewrite IH. rewrite <- app_assoc. f_equal. change [x] with (repeat x 1). rewrite <- repeat_app. rewrite Nat.add_comm. reflexivity. Qed.
(** The capacity depends only on the length and capacity before. *)
Fixpoint cap_after (k : nat) (len c : Z) : Z := match k with O => c | S k => let c := cap_after k len c in if len + Z.of_nat k <? c then c else if c =? 0 then 1 else 2 * c end.
Lemma iter_cap {A} (x : A) l c : forall k, capa (appn k x (mkSlice l c)) = cap_after k (zlen l) c.
Proof.
  induction k as [|k IH]; [reflexivity|]. cbn [appn cap_after]. unfold goappend at 1. cbn [capa]. rewrite IH, iter_app. cbv zeta. unfold zlen at 1. rewrite app_length, repeat_length.
  replace (Z.of_nat (length l + k)) with (zlen l + Z.of_nat k) by (unfold zlen; lia). reflexivity.
Qed.
Fixpoint all_below (k : nat) (len c n : Z) : bool := match k with O => true | S k => (cap_after k len c <? n) && all_below k len c n end.
Lemma all_below_ok k len c n : all_below k len c n = true -> forall i, (i < k)%nat -> cap_after i len c < n.
Proof.
  induction k as [|k IH]; intros H i Hi; [lia|]. cbn [all_below] in H. apply andb_true_iff in H. destruct H as [H1 H2]. apply Z.ltb_lt in H1.
  destruct (Nat.eq_dec i k) as [->|]; [exact H1|apply IH; [exact H2|lia]].
Qed.
Lemma grow_by {A} (x : A) k fuel n s c' : (k <= fuel)%nat -> all_below k (zlen (elems s)) (capa s) n = true -> cap_after k (zlen (elems s)) (capa s) = c' -> n <= c' ->
  growTo fuel n x s = Ok (mkSlice (elems s ++ repeat x k) c').
Proof.
  intros HF HB HC HN. destruct s as [l c]. cbn [elems capa] in *. rewrite (grow_some x n k fuel l c HF).
  - f_equal. destruct (appn k x _) as [l2 c2] eqn:E. pose proof (iter_app x l c k) as E1. pose proof (iter_cap x l c k) as E2. rewrite E in E1, E2. cbn [elems capa] in *. congruence.
  - intros i Hi. rewrite iter_cap. apply (all_below_ok _ _ _ _ HB i Hi).
  - rewrite iter_cap. lia.
Qed.
Ltac which4 := first [left; reflexivity|right; left; reflexivity|right; right; left; reflexivity|right; right; right; reflexivity].
(** After growing to one of the first three positions the shape is kept, the element is there, and the old elements are where they were. *)
Lemma grow_shape {A} (x : A) r s : first_three r -> shape s -> exists k c', growTo (Z.to_nat (r + 1)) (r + 1) x s = Ok (mkSlice (elems s ++ repeat x k) c') /\
  shape (mkSlice (elems s ++ repeat x k) c') /\ r < zlen (elems s ++ repeat x k).
Proof.
  assert (LEN : forall k, zlen (elems s ++ repeat x k) = zlen (elems s) + Z.of_nat k) by (intros k; unfold zlen; rewrite app_length, repeat_length; lia).
  assert (KEEP : r + 1 <= capa s -> r < zlen (elems s) -> shape s -> exists k c', growTo (Z.to_nat (r + 1)) (r + 1) x s = Ok (mkSlice (elems s ++ repeat x k) c') /\
    shape (mkSlice (elems s ++ repeat x k) c') /\ r < zlen (elems s ++ repeat x k)).
  { intros K1 K2 K3. exists 0%nat, (capa s). cbn [repeat]. rewrite app_nil_r. rewrite grow_keep by exact K1. destruct s; auto. }
  intros HR HS. unfold shape in HS. 
  assert (STEP : forall k c' n0 c0, zlen (elems s) = n0 -> capa s = c0 -> (k <= Z.to_nat (r + 1))%nat -> all_below k n0 c0 (r + 1) = true -> cap_after k n0 c0 = c' -> r + 1 <= c' ->
     shape (mkSlice (elems s ++ repeat x k) c') -> r < n0 + Z.of_nat k -> exists k c', growTo (Z.to_nat (r + 1)) (r + 1) x s = Ok (mkSlice (elems s ++ repeat x k) c') /\
    shape (mkSlice (elems s ++ repeat x k) c') /\ r < zlen (elems s ++ repeat x k)).
  { intros k c' n0 c0 <- <- HF HB HC HN HSh Hr. exists k, c'. rewrite (grow_by x k _ _ s c' HF HB HC HN), LEN. auto. }
  destruct HS as [E|[E|[E|E]]]; injection E as E1 E2; destruct HR as [->|[->| ->]];
  first [ apply KEEP; [rewrite E2; lia|rewrite E1; lia|unfold shape; rewrite E1, E2; which4]
        | eapply (STEP 1%nat 1 _ _ E1 E2); [vm_compute; lia|reflexivity|reflexivity|lia| |lia]; unfold shape; cbn [elems capa]; rewrite LEN, E1; which4
        | eapply (STEP 17%nat 32 _ _ E1 E2); [vm_compute; lia|reflexivity|reflexivity|lia| |lia]; unfold shape; cbn [elems capa]; rewrite LEN, E1; which4
        | eapply (STEP 33%nat 64 _ _ E1 E2); [vm_compute; lia|reflexivity|reflexivity|lia| |lia]; unfold shape; cbn [elems capa]; rewrite LEN, E1; which4
        | eapply (STEP 16%nat 32 _ _ E1 E2); [vm_compute; lia|reflexivity|reflexivity|lia| |lia]; unfold shape; cbn [elems capa]; rewrite LEN, E1; which4
        | eapply (STEP 16%nat 64 _ _ E1 E2); [vm_compute; lia|reflexivity|reflexivity|lia| |lia]; unfold shape; cbn [elems capa]; rewrite LEN, E1; which4
        | eapply (STEP 32%nat 64 _ _ E1 E2); [vm_compute; lia|reflexivity|reflexivity|lia| |lia]; unfold shape; cbn [elems capa]; rewrite LEN, E1; which4 ].
Qed.
Lemma idx_in_app {A} (a b : list A) i v : idx a i = Ok v -> idx (a ++ b) i = Ok v.
Proof. intros H. apply idx_inv in H. destruct H as [H1 H2]. rewrite (idx_ok _ _ v) by (unfold zlen in *; rewrite app_length; lia). f_equal. rewrite app_nth1 by (unfold zlen in H1; lia). apply nth_error_nth. exact H2. Qed.
Lemma shape_nil {A} : shape (@nilslice A). Proof. left. reflexivity. Qed.
Lemma shape2_grow g k c' : shape2 g -> shape (mkSlice (elems g ++ repeat nilslice k) c') -> shape2 (mkSlice (elems g ++ repeat (@nilslice Z) k) c').
Proof. intros [_ H] HS. split; [exact HS|]. cbn [elems]. apply Forall_app. split; [exact H|]. apply Forall_forall. intros x Hx. apply repeat_spec in Hx. subst. apply shape_nil. Qed.
Lemma shape_upd {A} (s : gslice A) i v l : shape s -> upd (elems s) i v = Ok l -> shape (mkSlice l (capa s)).
Proof. intros HS E. unfold shape in *. cbn [elems capa]. apply upd_inv in E. destruct E as [_ ->]. unfold zlen in *. rewrite upd_nat_length. exact HS. Qed.
Lemma shape2_upd (g : gslice (gslice Z)) i row l : shape2 g -> shape row -> upd (elems g) i row = Ok l -> shape2 (mkSlice l (capa g)).
Proof. intros [H1 H2] HR E. split; [apply (shape_upd _ _ _ _ H1 E)|]. cbn [elems]. apply (Frame.upd_Forall _ _ _ _ _ H2 HR E). Qed.
Lemma upd_exists {A} (l : list A) i v : 0 <= i < zlen l -> exists l', upd l i v = Ok l'.
Proof. intros H. eexists. apply upd_ok. exact H. Qed.

Lemma clear_step g r c z : shape2 g -> first_three r -> first_three c -> exists g', ClearCdef r c false z g = Ok g' /\ shape2 g' /\ cdef_at g' r c = Ok (-1) /\
  forall i j v, (i <> r \/ j <> c) -> cdef_at g i j = Ok v -> cdef_at g' i j = Ok v.
Proof.
  intros SH HR HC. unfold ClearCdef.
  destruct (grow_shape nilslice r g HR (proj1 SH)) as (k & c1 & E1 & S1 & L1). rewrite E1. cbn [rbind elems].
  pose proof (shape2_grow g k c1 SH S1) as S2. set (g1 := mkSlice (elems g ++ repeat nilslice k) c1) in *.
  assert (R0 : 0 <= r) by (destruct HR as [->|[->| ->]]; lia). assert (C0 : 0 <= c) by (destruct HC as [->|[->| ->]]; lia).
  pose proof (idx_ok (elems g1) r nilslice (conj R0 L1)) as IR. set (row := nth (Z.to_nat r) (elems g1) nilslice) in *. change (elems g ++ repeat nilslice k) with (elems g1). rewrite IR. cbn [rbind].
  assert (SR : shape row) by (apply (Frame.idx_Forall _ _ _ _ (proj2 S2) IR)).
  destruct (grow_shape 0 c row HC SR) as (k2 & c2 & E2 & SR2 & L2). rewrite E2. cbn [rbind]. set (row1 := mkSlice (elems row ++ repeat 0 k2) c2) in *.
  destruct (upd_exists (elems g1) r row1 (conj R0 L1)) as (rows & E3). rewrite E3. cbn [rbind].
  assert (S3 : shape2 (mkSlice rows (capa g1))) by (apply (shape2_upd _ _ _ _ S2 SR2 E3)).
  unfold resetAt. cbn [elems capa]. pose proof (Frame.idx_upd_same _ _ _ _ E3) as I3. rewrite I3. cbn [rbind].
  destruct (upd_exists (elems row1) c (-1) (conj C0 L2)) as (l & E4). rewrite E4. cbn [rbind].
  destruct (upd_exists rows r (mkSlice l (capa row1))) as (rows2 & E5). { apply idx_inv in I3. apply I3. } rewrite E5. cbn [rbind].
  eexists. split; [reflexivity|]. split; [apply (shape2_upd _ _ _ _ S3 (shape_upd _ _ _ _ SR2 E4) E5)|]. split.
  - unfold cdef_at. cbn [elems]. rewrite (Frame.idx_upd_same _ _ _ _ E5). cbn [rbind elems]. apply (Frame.idx_upd_same _ _ _ _ E4).
  - intros i j v NE E. unfold cdef_at in *. cbn [elems]. destruct (idx (elems g) i) as [ri| |] eqn:EI; try discriminate. cbn [rbind] in E.
    assert (EI1 : idx (elems g1) i = Ok ri) by (apply idx_in_app, EI).
    destruct (Z.eq_dec i r) as [->|N].
    + rewrite (Frame.idx_upd_same _ _ _ _ E5). cbn [rbind elems]. rewrite IR in EI1. injection EI1 as <-.
      rewrite (Frame.idx_upd_other _ _ _ j _ E4) by (destruct NE; congruence). apply idx_in_app, E.
    + rewrite (Frame.idx_upd_other _ _ _ i _ E5), (Frame.idx_upd_other _ _ _ i _ E3), EI1 by congruence. exact E.
Qed.
Lemma history_shape (ok : Z -> Prop) g : (forall v, ok v -> first_three v) -> cdef_history ok g -> shape2 g.
Proof.
  intros HO H. induction H as [|g r c g' H IH H1 H2 E|g r c v row l rows H IH E1 E2 E3].
  - split; [apply shape_nil|constructor].
  - destruct (clear_step g r c CdefSize4 IH (HO _ H1) (HO _ H2)) as (g2 & E2 & S2 & _). congruence.
  - apply (shape2_upd _ _ _ _ IH) with (2 := E3). apply (shape_upd row c v l) with (2 := E2). apply (Frame.idx_Forall _ _ _ _ (proj2 IH) E1).
Qed.

(** In the first three columns and rows of 64x64 superblocks, whatever happened before there: the index is reset, and no other is changed. *)
Theorem C157_first_three_partial : forall g r c, cdef_history first_three g -> first_three r -> first_three c ->
  exists g', ClearCdef r c false CdefSize4 g = Ok g' /\ cdef_at g' r c = Ok (-1) /\
    forall i j v, (i <> r \/ j <> c) -> cdef_at g i j = Ok v -> cdef_at g' i j = Ok v.
Proof. intros g r c H HR HC. destruct (clear_step g r c CdefSize4 (history_shape _ _ (fun _ x => x) H) HR HC) as (g' & E & _ & P). exists g'. split; [exact E|exact P]. Qed.
Print Assumptions C157_first_three_partial.

Lemma grow_49 {A} (x : A) s : shape s -> exists k, growTo (Z.to_nat (48 + 1)) (48 + 1) x s = Ok (mkSlice (elems s ++ repeat x k) 64) /\ zlen (elems s ++ repeat x k) = 33.
Proof.
  intros HS. assert (LEN : forall k, zlen (elems s ++ repeat x k) = zlen (elems s) + Z.of_nat k) by (intros k; unfold zlen; rewrite app_length, repeat_length; lia).
  destruct HS as [E|[E|[E|E]]]; injection E as E1 E2.
  - exists 33%nat. rewrite LEN, E1. split; [|reflexivity]. apply grow_by; rewrite ?E1, ?E2; (reflexivity || lia || (vm_compute; lia)).
  - exists 32%nat. rewrite LEN, E1. split; [|reflexivity]. apply grow_by; rewrite ?E1, ?E2; (reflexivity || lia || (vm_compute; lia)).
  - exists 16%nat. rewrite LEN, E1. split; [|reflexivity]. apply grow_by; rewrite ?E1, ?E2; (reflexivity || lia || (vm_compute; lia)).
  - exists 0%nat. rewrite LEN, E1. split; [|reflexivity]. apply grow_by; rewrite ?E1, ?E2; (reflexivity || lia || (vm_compute; lia)).
Qed.
(** Refuted: the fourth superblock of a row, and the first of the fourth row, panic (the loops test the capacity, but the index is checked against the length). *)
Theorem C157_fourth_refuted : forall g r c use128, cdef_history first_three g -> (first_three r /\ c = 48) \/ (r = 48 /\ 0 <= c) -> ClearCdef r c use128 CdefSize4 g = Panic.
Proof.
  intros g r c use128 H HH. pose proof (history_shape _ _ (fun _ x => x) H) as SH. unfold ClearCdef. destruct HH as [[HR ->]|[-> HC]].
  - destruct (grow_shape nilslice r g HR (proj1 SH)) as (k & c1 & E1 & S1 & L1). rewrite E1. cbn [rbind elems].
    pose proof (shape2_grow g k c1 SH S1) as S2. assert (R0 : 0 <= r) by (destruct HR as [->|[->| ->]]; lia).
    pose proof (idx_ok (elems g ++ repeat nilslice k) r nilslice (conj R0 L1)) as IR. rewrite IR. cbn [rbind].
    destruct (grow_49 0 _ (Frame.idx_Forall _ _ _ _ (proj2 S2) IR)) as (k2 & E2 & L2). rewrite E2. cbn [rbind].
    rewrite upd_ok by (split; [exact R0|exact L1]). cbn [rbind]. unfold resetAt at 1. cbn [elems capa].
    rewrite (Frame.idx_upd_same _ _ _ _ (upd_ok (elems g ++ repeat nilslice k) r (mkSlice (elems (nth (Z.to_nat r) (elems g ++ repeat nilslice k) nilslice) ++ repeat 0 k2) 64) (conj R0 L1))). cbn [rbind elems].
    rewrite upd_panic by (rewrite L2; lia). reflexivity.
  - destruct (grow_49 nilslice g (proj1 SH)) as (k & E1 & L1). rewrite E1. cbn [rbind elems]. rewrite idx_panic by (rewrite L1; lia). reflexivity.
Qed.
Print Assumptions C157_fourth_refuted.

Lemma upd_same {A} (l : list A) i v : idx l i = Ok v -> upd l i v = Ok l.
Proof.
  intros H. apply idx_inv in H. destruct H as [H1 H2]. rewrite upd_ok by exact H1. f_equal. clear H1. revert H2. generalize (Z.to_nat i). intros n. revert l.
  induction n as [|n IH]; intros [|a l] H; cbn in *; try discriminate; [injection H as ->; reflexivity|f_equal; apply IH, H].
Qed.
Lemma reset_again r c g g' : resetAt r c g = Ok g' -> resetAt r c g' = Ok g'.
Proof.
  unfold resetAt. destruct (idx (elems g) r) as [row| |]; try discriminate. cbn [rbind]. destruct (upd (elems row) c (-1)) as [l| |] eqn:E1; try discriminate. cbn [rbind].
  destruct (upd (elems g) r _) as [rows| |] eqn:E2; try discriminate. cbn [rbind]. intros E. injection E as <-. cbn [elems capa].
  rewrite (Frame.idx_upd_same _ _ _ _ E2). cbn [rbind elems capa]. rewrite (upd_same _ _ _ (Frame.idx_upd_same _ _ _ _ E1)). cbn [rbind].
  rewrite (upd_same _ _ _ (Frame.idx_upd_same _ _ _ _ E2)). reflexivity.
Qed.
(** Refuted for superblocks of 128x128: the distance of the four areas is a state field that is never assigned (0); only the first area is reset. *)
Theorem C157_large_refuted : forall g r c g', ClearCdef r c true CdefSize4 g = Ok g' -> ClearCdef r c false CdefSize4 g = Ok g'.
Proof.
  intros g r c g'. unfold ClearCdef. destruct (growTo _ _ nilslice g) as [g1| |]; try discriminate. cbn [rbind]. destruct (idx (elems g1) r) as [row| |]; try discriminate. cbn [rbind].
  destruct (growTo _ _ 0 row) as [row1| |]; try discriminate. cbn [rbind]. destruct (upd (elems g1) r row1) as [rows| |]; try discriminate. cbn [rbind].
  destruct (resetAt r c (mkSlice rows (capa g1))) as [g2| |] eqn:E; try discriminate. cbn [rbind]. change CdefSize4 with 0. rewrite !Z.add_0_r.
  rewrite (reset_again _ _ _ _ E). cbn [rbind]. rewrite (reset_again _ _ _ _ E). cbn [rbind]. rewrite (reset_again _ _ _ _ E). auto.
Qed.
Print Assumptions C157_large_refuted.
Example C157_case : exists g1 g2 g3, ClearCdef 0 0 false CdefSize4 nilslice = Ok g1 /\ ClearCdef 0 16 false CdefSize4 g1 = Ok g2 /\ ClearCdef 0 32 false CdefSize4 g2 = Ok g3 /\
  ClearCdef 0 48 false CdefSize4 g3 = Panic /\ cdef_history first_three g3 /\ cdef_at g3 0 16 = Ok (-1) /\ cdef_at g1 0 16 = Panic /\
  exists g4, ClearCdef 0 0 true CdefSize4 nilslice = Ok g4 /\ cdef_at g4 0 16 = Panic.
Proof.
  do 3 eexists. split; [vm_compute; reflexivity|]. split; [vm_compute; reflexivity|]. split; [vm_compute; reflexivity|]. split; [vm_compute; reflexivity|].
  split; [|split; [vm_compute; reflexivity|split; [vm_compute; reflexivity|eexists; split; vm_compute; reflexivity]]].
  eapply (superblock _ _ 0 32); [eapply (superblock _ _ 0 16); [eapply (superblock _ _ 0 0); [apply nothing_yet|left; reflexivity|left; reflexivity|vm_compute; reflexivity]|left; reflexivity|right; left; reflexivity|vm_compute; reflexivity]|left; reflexivity|right; right; reflexivity|vm_compute; reflexivity].
Qed.

(** ** C158: frames that cannot be decoded *)
Lemma startTile_wide X e g (x : TileCtx X) : 3 < Partition.MiCols g -> startTile e g x = Panic.
Proof. intros H. unfold startTile. rewrite C63_clear_context_refuted by exact H. reflexivity. Qed.
Lemma startRow_high X g (x : TileCtx X) : 3 < Partition.MiRows g -> startRow g x = Panic.
Proof. intros H. unfold startRow. rewrite C63_clear_context_refuted by exact H. reflexivity. Qed.
(** A tile cannot be decoded if the frame has more than 3 columns of 4x4 samples, and, if the tile has a row, if it has more than 3 rows. *)
Definition undecodable (g : Grid) : Prop := 3 < Partition.MiCols g \/ (3 < Partition.MiRows g /\ MiRowStart g < MiRowEnd g).
Lemma decodeTile_never X e lr pe he ve bl g (s : @TS X) r : undecodable g -> decodeTile e lr pe he ve bl g s <> Ok r.
Proof.
  intros H E. destruct r as [[] s']. unfold decodeTile in E. apply bind_inv in E. destruct E as ([] & s1 & E1 & E2). destruct H as [H|[H HR]].
  - unfold ctxop in E1. rewrite startTile_wide in E1 by exact H. discriminate.
  - destruct (decodeSuperblocks _ _ _ _ _ _ _ _ _) as [[u [s2 l2]]| |] eqn:ED in E2; [|discriminate|discriminate]. unfold decodeSuperblocks in ED. apply bind_inv in ED. destruct ED as (sb4 & s3 & _ & ED).
    destruct (Z.to_nat (MiRowEnd g - MiRowStart g)) as [|n] eqn:EN; [lia|]. cbn [sbRows] in ED. destruct (Z.ltb_spec (MiRowStart g) (MiRowEnd g)); [|lia].
    apply bind_inv in ED. destruct ED as (u4 & s4 & ED & _). unfold Partition.on in ED. destruct s3 as [s3 l3]. unfold ctxop in ED. rewrite startRow_high in ED by exact H. discriminate.
Qed.
(** If no tile can be decoded, a tile group is only accepted if it has none. *)
Lemma group_never T t baseQ (load : T -> T) tile save endFrame sz g r :
  (forall k last g2, onDec (onbits (groupHeader t)) g = Ok ((k, last), g2) -> k <= last -> forall g1 r0 r1, MiCols (gGrid g1) = MiCols (gGrid g) -> MiRows (gGrid g1) = MiRows (gGrid g) -> MiRowStart (gGrid g1) = r0 -> MiRowEnd (gGrid g1) = r1 ->
     idx (MiRowStarts t) (Z.quot k (TileCols t)) = Ok r0 -> idx (MiRowStarts t) (Z.quot k (TileCols t) + 1) = Ok r1 -> forall x, tile g1 <> Ok x) ->
  buildTileGroup t baseQ load tile save endFrame sz g = Ok r -> exists first last g1, onDec (onbits (groupHeader t)) g = Ok ((first, last), g1) /\ last < first.
Proof.
  intros NT E. unfold buildTileGroup in E. unfold bind at 1, get in E. destruct r as [fin g']. apply bind_inv in E. destruct E as ([tgs tge] & g1 & E1 & E). exists tgs, tge, g1. split; [exact E1|].
  apply bind_inv in E. destruct E as (? & ? & EG & E). injection EG as <- <-. apply bind_inv in E. destruct E as ([] & g2 & EL & _).
  destruct (Z.lt_ge_cases tge tgs) as [H|H]; [exact H|exfalso]. destruct (Z.to_nat (tge - tgs + 1)) as [|n] eqn:EN; [lia|]. cbn [tileLoop] in EL. apply bind_inv in EL. destruct EL as (sz1 & g3 & EO & _).
  assert (HG : gGrid g1 = gGrid g) by (unfold onDec in E1; destruct (onbits _ _) as [[? ?]| |]; try discriminate; injection E1 as _ <-; reflexivity).
  unfold oneTile in EO. destruct (TileCols t =? 0); [discriminate|]. cbv zeta in EO. apply bind_inv in EO. destruct EO as ([ts sz2] & g4 & EA & EO).
  assert (HG4 : gGrid g4 = gGrid g1).
  { destruct (tgs =? tge); [injection EA as _ _ <-; reflexivity|]. apply bind_inv in EA. destruct EA as (m & g5 & EM & EA). injection EA as _ _ <-. unfold onDec in EM. destruct (onbits _ _) as [[? ?]| |]; try discriminate. injection EM as _ <-. reflexivity. }
  apply bind_inv in EO. destruct EO as (r0 & g5 & L1 & EO). apply bind_inv in EO. destruct EO as (r1 & g6 & L2 & EO). apply bind_inv in EO. destruct EO as (c0 & g7 & L3 & EO). apply bind_inv in EO. destruct EO as (c1 & g8 & L4 & EO).
  unfold lift in L1, L2, L3, L4. destruct (idx (MiRowStarts t) (Z.quot tgs (TileCols t))) as [v1| |] eqn:I1; try discriminate. destruct (idx (MiRowStarts t) (Z.quot tgs (TileCols t) + 1)) as [v2| |] eqn:I2; try discriminate.
  destruct (idx (MiColStarts t) (Z.rem tgs (TileCols t))) as [v3| |]; try discriminate. destruct (idx (MiColStarts t) (Z.rem tgs (TileCols t) + 1)) as [v4| |]; try discriminate.
  injection L1 as -> ->. injection L2 as -> ->. injection L3 as -> ->. injection L4 as -> ->.
  apply bind_inv in EO. destruct EO as ([] & g9 & M9 & EO). injection M9 as <-.
  apply bind_inv in EO. destruct EO as ([] & g10 & EI & EO). apply bind_inv in EO. destruct EO as ([] & g11 & ER & EO). injection ER as <-. apply bind_inv in EO. destruct EO as (u & g12 & ET & _).
  unfold onDec in EI. cbn [gDec gGrid gNum gQIndex gRest] in EI. destruct (initSymbol _ _) as [[? d1]| |]; try discriminate. injection EI as _ <-. cbn [gDec gGrid gNum gQIndex gRest] in ET.
  eapply (NT tgs tge g1 E1 ltac:(lia)); [| | | |exact I1|exact I2|exact ET]; cbn [gGrid Partition.MiCols Partition.MiRows MiRowStart MiRowEnd]; congruence.
Qed.
(** Any frame too large for the context arrays: more than 3 columns, or more than 3 rows, of 4x4 samples. *)
Definition large (h : HState) : Prop := 3 < St_MiCols h \/ 3 < St_MiRows h.
(** Refuted: whatever the bytes, and whatever the block decoding does, a tile group of a large frame cut into one tile with at least one row is never decoded. *)
Theorem C158_single_tile_refuted : forall P sz uh sh d s r, let h := sHeader (other d) in
  large h -> TileCols (St_Tiles h) = 1 -> TileRows (St_Tiles h) = 1 -> nth 0 (MiRowStarts (St_Tiles h)) 0 < nth 1 (MiRowStarts (St_Tiles h)) 0 ->
  NewTileGroupOf P sz uh sh d s <> Ok r.
Proof.
  intros P sz uh sh d s r h HL TC TR HR E. unfold NewTileGroupOf in E. fold h in E.
  assert (H0 : forall (g : TGState (TileCtx (X P))) a b g1, onDec (onbits (groupHeader (St_Tiles h))) g = Ok ((a, b), g1) -> a = 0 /\ b = 0).
  { intros g a b g1 EH. unfold onDec, onbits in EH. destruct (groupHeader _ _) as [[[x y] s1]| |] eqn:EG; try discriminate. injection EH as -> -> _.
    unfold groupHeader in EG. rewrite TC, TR in EG. cbv zeta in EG. change (1 <? 1 * 1) with false in EG. cbv iota in EG. apply bind_inv in EG. destruct EG as (? & ? & E1 & EG). injection E1 as <- <-.
    change ((1 * 1 =? 1) || negb false) with true in EG. cbv iota in EG. apply bind_inv in EG. destruct EG as (? & ? & E1 & EG). injection E1 as <- <-. apply bind_inv in EG. destruct EG as ([] & ? & E1 & EG). injection EG as <- <- _. auto. }
  destruct (buildTileGroup _ _ _ _ _ _ _ _) as [[fin g]| |] eqn:EB; [|discriminate|discriminate]. apply group_never in EB.
  - destruct EB as (a & b & g1 & EH & LT). apply H0 in EH. lia.
  - intros k last g2 EH _ g1 r0 r1 H1 H2 H3 H4 I1 I2 x ET. apply H0 in EH. destruct EH as [-> _]. unfold tileOf in ET. destruct (decodeTile _ _ _ _ _ _ _ _) as [q| |] eqn:ED; [|discriminate|discriminate].
    revert ED. apply decodeTile_never. cbn [gGrid Partition.MiCols Partition.MiRows] in H1, H2. destruct HL as [HL|HL]; [left|right]; [lia|split; [lia|]].
    rewrite H3, H4. rewrite TC in I1, I2. change (Z.quot 0 1) with 0 in I1, I2. change (0 + 1) with 1 in I2. apply idx_inv in I1. apply idx_inv in I2. destruct I1 as [_ I1], I2 as [_ I2].
    rewrite <- (nth_error_nth _ _ 0 I1), <- (nth_error_nth _ _ 0 I2). exact HR.
Qed.
Print Assumptions C158_single_tile_refuted.
(** Nor is any well-formed group of tiles of a frame with more than 3 columns. *)
Theorem C158_group_refuted : forall P l g sz uh sh d s r, let h := sHeader (other d) in
  3 < St_MiCols h -> valid_layout l -> same_layout (St_Tiles h) l -> valid_group l g -> Position s mod 8 = 0 -> starts s (enc_group l g) ->
  NewTileGroupOf P sz uh sh d s <> Ok r.
Proof.
  intros P l g sz uh sh d s r h HL VL SL VG AL ST E. unfold NewTileGroupOf in E. fold h in E.
  destruct (buildTileGroup _ _ _ _ _ _ _ _) as [[fin g']| |] eqn:EB; [|discriminate|discriminate]. apply group_never in EB.
  - destruct EB as (a & b & g1 & EH & LT). unfold onDec, onbits in EH. cbn [gDec Bits] in EH. rewrite (header_ok l (St_Tiles h) g s VL SL VG AL ST) in EH. injection EH as <- <- _.
    destruct VG as (NE & _). unfold g_last in LT. destruct (g_data g); [congruence|cbn [length] in LT; lia].
  - intros k last g2 _ _ g1 r0 r1 H1 H2 H3 H4 I1 I2 x ET. unfold tileOf in ET. destruct (decodeTile _ _ _ _ _ _ _ _) as [q| |] eqn:ED; [|discriminate|discriminate].
    revert ED. apply decodeTile_never. left. cbn [gGrid Partition.MiCols Partition.MiRows] in H1. rewrite H1. exact HL.
Qed.
Print Assumptions C158_group_refuted.

Lemma frameSize_cols ov sh s fs s' : frameSize ov sh s = Ok (fs, s') -> UncompressedHeader.MiCols fs = 2 * Z.shiftr (FrameWidth fs + 7) 3 /\ UncompressedHeader.MiRows fs = 2 * Z.shiftr (FrameHeight fs + 7) 3.
Proof.
  unfold frameSize. intros E. apply bind_inv in E. destruct E as (wh & s1 & _ & E). apply bind_inv in E. destruct E as ([[[use denom] up] fw] & s2 & _ & E). injection E as <- _. split; reflexivity.
Qed.
Lemma header_size sh st s fh fr fb h s' : UncompressedHeader.NewUncompressedHeader sh st s = Ok ((UFrame fh fr fb, h), s') ->
  St_MiCols h = 2 * Z.shiftr (FrameWidth (Size_ fr) + 7) 3 /\ St_MiRows h = 2 * Z.shiftr (FrameHeight (Size_ fr) + 7) 3 /\ St_Tiles h = TileInfo_ fb.
Proof.
  unfold UncompressedHeader.NewUncompressedHeader. intros E.
  set (frame := fun ft => let* fh := frameHead sh ft in let* fr := if FrameIsIntra fh then intraRefs sh fh else interRefs sh fh st in let* fb := frameBody sh st fh fr in ret (UFrame fh fr fb, afterHeader st fr fb)).
  change ((if ReducedStillPictureHeader sh then frame (0, true, true, false, false, 0) else let* existing := Fbool in if existing then let* e := showExisting sh st in ret (UExisting e, st) else let* ft := frameType sh in frame ft) s = Ok ((UFrame fh fr fb, h), s')) in E.
  assert (HF : forall ft s, frame ft s = Ok ((UFrame fh fr fb, h), s') -> St_MiCols h = 2 * Z.shiftr (FrameWidth (Size_ fr) + 7) 3 /\ St_MiRows h = 2 * Z.shiftr (FrameHeight (Size_ fr) + 7) 3 /\ St_Tiles h = TileInfo_ fb).
  { clear. intros ft s E. unfold frame in E. apply bind_inv in E. destruct E as (fh0 & s1 & _ & E). apply bind_inv in E. destruct E as (fr0 & s2 & ER & E). apply bind_inv in E. destruct E as (fb0 & s3 & _ & E). injection E as -> -> -> <- _.
    unfold afterHeader. cbn [St_MiCols St_MiRows St_Tiles].
    assert (HS : UncompressedHeader.MiCols (Size_ fr) = 2 * Z.shiftr (FrameWidth (Size_ fr) + 7) 3 /\ UncompressedHeader.MiRows (Size_ fr) = 2 * Z.shiftr (FrameHeight (Size_ fr) + 7) 3).
    { destruct (FrameIsIntra fh).
      - unfold intraRefs in ER. apply bind_inv in ER. destruct ER as (fs & s4 & E1 & ER). apply bind_inv in ER. destruct ER as (r & s5 & _ & ER). apply bind_inv in ER. destruct ER as (ibc & s6 & _ & ER).
        injection ER as <- _. apply (frameSize_cols _ _ _ _ _ E1).
      - unfold interRefs in ER.
        apply bind_inv in ER. destruct ER as (sig & t1 & _ & ER). destruct sig.
        { apply bind_inv in ER. destruct ER as (? & ? & _ & ER). apply bind_inv in ER. destruct ER as (? & ? & _ & ER). discriminate. }
        apply bind_inv in ER. destruct ER as (refs & t2 & _ & ER). destruct (FrameSizeOverrideFlag fh && negb (ErrorResilientMode fh)); [discriminate|].
        apply bind_inv in ER. destruct ER as (fs & s4 & E1 & ER).
        repeat match type of ER with bind _ _ _ = _ => let x := fresh "x" in let t := fresh "t" in apply bind_inv in ER; destruct ER as (x & t & _ & ER) end.
        injection ER as <- _. apply (frameSize_cols _ _ _ _ _ E1). }
    destruct HS as [-> ->]. auto. }
  clearbody frame. destruct (ReducedStillPictureHeader sh); [apply (HF _ _ E)|].
  apply bind_inv in E. destruct E as (ex & s1 & _ & E). destruct ex.
  - apply bind_inv in E. destruct E as (e & s2 & _ & E). discriminate.
  - apply bind_inv in E. destruct E as (ft & s2 & _ & E). apply (HF _ _ E).
Qed.
(** Refuted for the whole decoder: when an OBU of type OBU_FRAME is accepted, and its tile information says one tile with at least one row, the frame is at most 8x8 samples. *)
Theorem C158_frame_refuted : forall P sz d sh uh s o d' s' fh fr fb, OperatingPointIdc d = 0 ->
  NewObu (decoder P) sz d sh uh s = Ok ((o, d'), s') -> Type_ (Hdr o) = OBU_FRAME -> ObuUH o = UFrame fh fr fb ->
  TileCols (TileInfo_ fb) = 1 -> TileRows (TileInfo_ fb) = 1 -> nth 0 (MiRowStarts (TileInfo_ fb)) 0 < nth 1 (MiRowStarts (TileInfo_ fb)) 0 ->
  FrameWidth (Size_ fr) <= 8 /\ FrameHeight (Size_ fr) <= 8.
Proof.
  intros P sz d sh uh s o d' s' fh fr fb OP E HT HU TC TR HR. unfold NewObu in E. apply bind_inv in E. destruct E as (h & s1 & E1 & E). apply bind_inv in E. destruct E as (size & s2 & E2 & E).
  apply bind_inv in E. destruct E as (s3 & ? & E3 & E). injection E3 as <- <-. unfold dropped in E. rewrite OP in E. cbn [Z.eqb negb] in E. rewrite andb_false_r in E. cbn [andb] in E.
  apply bind_inv in E. destruct E as ([o1 d1] & s4 & EP & E). apply bind_inv in E. destruct E as (s5 & ? & E5 & E). apply bind_inv in E. destruct E as ([] & s6 & _ & E). injection E as -> -> _.
  assert (HH : Hdr o = h).
  { unfold payload in EP. repeat match type of EP with (if ?b then _ else _) _ = _ => destruct b end; try discriminate;
    (repeat match type of EP with bind _ _ _ = _ => apply bind_inv in EP; destruct EP as (? & ? & ? & EP) | (let '(_, _) := ?p in _) _ = _ => destruct p end); injection EP as <- _; reflexivity. }
  rewrite HH in HT. unfold payload in EP. rewrite HT in EP. cbn [Z.eqb OBU_FRAME OBU_SEQUENCE_HEADER OBU_TEMPORAL_DELIMITER OBU_FRAME_HEADER OBU_REDUNDANT_FRAME_HEADER Pos.eqb] in EP.
  apply bind_inv in EP. destruct EP as ([[uh' tg] d2] & s7 & EN & EP). injection EP as <- <- _. cbn [ObuUH] in HU. subst uh'.
  unfold newFrame in EN. apply bind_inv in EN. destruct EN as (s8 & ? & E8 & EN). apply bind_inv in EN. destruct EN as ([uh2 d3] & s9 & EF & EN). apply bind_inv in EN. destruct EN as ([] & s10 & _ & EN).
  apply bind_inv in EN. destruct EN as (s11 & ? & _ & EN). apply bind_inv in EN. destruct EN as ([tg3 d4] & s12 & ETG & EN). injection EN as -> -> -> _.
  unfold ParseFrameHeader in EF. destruct (SeenFrameHeader d); [discriminate|]. apply bind_inv in EF. destruct EF as ([uh4 d5] & s13 & EH & EF).
  cbn [decoder ShowExistingFrame] in EF. destruct (uhExisting uh4); [discriminate|]. injection EF as -> <- _.
  cbn [decoder NewUncompressedHeader] in EH. unfold NewHeaderOf in EH. apply bind_inv in EH. destruct EH as ([uh5 hs] & s14 & EH & EI). injection EI as -> <- _.
  destruct (header_size _ _ _ _ _ _ _ _ EH) as (HC & HRW & HTL).
  destruct (Z.le_gt_cases (FrameWidth (Size_ fr)) 8) as [A|A]; [destruct (Z.le_gt_cases (FrameHeight (Size_ fr)) 8) as [B|B]; [auto|]|];
    exfalso; (eapply C158_single_tile_refuted; [| | | |exact ETG]; cbn [other decoder setTileNum sHeader]; rewrite ?HTL; [|exact TC|exact TR|exact HR]);
    unfold large; rewrite HC, HRW, !Z.shiftr_div_pow2 by lia; change (2 ^ 3) with 8; solve [left; pose proof (Z.div_le_lower_bound (FrameWidth (Size_ fr) + 7) 8 2); lia | right; pose proof (Z.div_le_lower_bound (FrameHeight (Size_ fr) + 7) 8 2); lia].
Qed.
Print Assumptions C158_frame_refuted.

(** A still picture of w x w samples; every block is decoded as "nothing read", and the tile group leaves the number of its last tile. *)
Definition case_seq (w : Z) : SequenceHeader :=
  mkSequenceHeader 0 true true zeroTiming false zeroModel false 0 [0] [0] [false] [false] [] 4 4 (w - 1) (w - 1) false 0 0
    false false false false false false false false false false false 0 0 0 false false false zeroColor false.
Definition case_ctx : TileCtx unit :=
  mkTileCtx ([], [], []) ([], [], []) [0; 0; 0; 0] (repeat [0; 0] 3) (repeat [[0; 0; 0]; [0; 0; 0]] 3) false nilslice (repeat (repeat (repeat false 35) 35) 3) tt.
Definition case_parts : parts := mkParts unit unit Z tt (-1) (fun _ y => y) (fun _ _ _ => case_ctx) (fun _ sh => mkTileEnv false 1 false false false) (fun x => x) (fun _ _ x => x)
  (fun _ _ _ _ _ _ => ret tt) (fun _ _ _ _ _ _ _ _ => ret 0) (fun _ _ _ _ _ _ _ _ => ret 0) (fun _ _ _ _ _ _ _ _ => ret 0) (fun _ _ _ _ _ _ _ => ret tt) (fun _ _ => ret tt)
  (fun _ d g => (gNum g, (sHeader d, sRest d))).
Definition case_run (w : Z) : res (Z * Z * bool * (Z * Z * Z * Z)) :=
  let P := decoder case_parts in
  match NewObu P 12 (mkDState 0 false (is0 P)) (case_seq w) (uh0 P) (NewBitStream (50 :: 10 :: repeat 0 30)) with
  | Ok (o, d, s) => Ok (Type_ (Hdr o), Position s, SeenFrameHeader d, match ObuUH o with UFrame _ fr fb => (FrameWidth (Size_ fr), TileCols (TileInfo_ fb), TileRows (TileInfo_ fb), nth 1 (MiRowStarts (TileInfo_ fb)) 0) | UExisting _ => (0, 0, 0, 0) end)
  | Panic => Panic | Hang => Hang end.
Example C158_case : case_run 8 = Ok (OBU_FRAME, 96, false, (8, 1, 1, 2)) /\ case_run 9 = Panic.
Proof. vm_compute. auto. Qed.

(** ** C159: what a tile starts with *)
(** The arrays of a tile, with the lengths they have in Go: 4 loop filter deltas; 3 planes of 2 passes. *)
Definition tile_arrays {X} (x : TileCtx X) : Prop :=
  length (xDeltaLF x) = 4%nat /\ length (xSgr x) = 3%nat /\ Forall (fun p => length p = 2%nat) (xSgr x) /\
  length (xWiener x) = 3%nat /\ Forall (fun p => length p = 2%nat /\ Forall (fun w => length w = 3%nat) p) (xWiener x).
(** Everything of a tile that is not set at its start. *)
Definition rest_of {X} (x : TileCtx X) := (xCdef x, xDecoded x, xOther x).
(** clear_above_context, clear_left_context, and the predictions of the loop filter deltas and of the restoration coefficients (AV1 spec 5.11.2), of a frame of rows x cols 4x4 samples. *)
Definition zero_ctx (n : Z) : ctxs := (repeat (repeat 0 (Z.to_nat n)) 3, repeat (repeat 0 (Z.to_nat n)) 3, [0; 0; 0]).
Definition fresh_tile {X} (g : Grid) (deltas : bool) (x : TileCtx X) : Prop :=
  xAbove x = zero_ctx (Partition.MiCols g) /\ xLeft x = zero_ctx (Partition.MiRows g) /\ xDeltaLF x = [0; 0; 0; 0] /\ xReadDeltas x = deltas.
Definition fresh_refs {X} (planes : nat) (x : TileCtx X) : Prop :=
  firstn planes (xSgr x) = repeat [-32; 31] planes /\ firstn planes (xWiener x) = repeat [[3; -7; 15]; [3; -7; 15]] planes.
Ltac explode := repeat match goal with
  | H : length ?l = _ |- _ => is_var l; destruct l; try discriminate H; cbn [length] in H; try (apply eq_add_S in H)
  | H : Forall _ (_ :: _) |- _ => inversion H; clear H; subst
  | H : Forall _ [] |- _ => clear H
  | H : _ /\ _ |- _ => destruct H
  end.
Lemma zero_ok l : length l = 4%nat -> zeroDeltaLF l = Ok [0; 0; 0; 0].
Proof. intros H. explode. reflexivity. Qed.
Lemma refs_ok X planes (x : TileCtx X) : planes = 1 \/ planes = 3 -> tile_arrays x ->
  initRefs planes (xSgr x, xWiener x) = Ok (repeat [-32; 31] (Z.to_nat planes) ++ skipn (Z.to_nat planes) (xSgr x), repeat [[3; -7; 15]; [3; -7; 15]] (Z.to_nat planes) ++ skipn (Z.to_nat planes) (xWiener x)).
Proof.
  intros HP (_ & H1 & H2 & H3 & H4). destruct (xSgr x) as [|s1 [|s2 [|s3 [|]]]]; try discriminate H1. destruct (xWiener x) as [|w1 [|w2 [|w3 [|]]]]; try discriminate H3. explode.
  destruct HP as [-> | ->]; vm_compute; reflexivity.
Qed.
Lemma startTile_eq X e g (x : TileCtx X) : yPlanes e = 1 \/ yPlanes e = 3 -> tile_arrays x -> startTile e g x =
  let! above := clearContext (Partition.MiCols g) in
  Ok (mkTileCtx above (xLeft x) [0; 0; 0; 0] (repeat [-32; 31] (Z.to_nat (yPlanes e)) ++ skipn (Z.to_nat (yPlanes e)) (xSgr x))
    (repeat [[3; -7; 15]; [3; -7; 15]] (Z.to_nat (yPlanes e)) ++ skipn (Z.to_nat (yPlanes e)) (xWiener x)) (xReadDeltas x) (xCdef x) (xDecoded x) (xOther x)).
Proof.
  intros HP HA. unfold startTile. destruct (clearContext _) as [a| |]; [|reflexivity|reflexivity]. cbn [rbind]. rewrite (zero_ok _ (proj1 HA)). cbn [rbind]. rewrite (refs_ok X _ x HP HA). reflexivity.
Qed.
(** Tiles are independent: apart from the decoder registers, the CDEF indices, the decoded flags and the fields of the block level, nothing of what a tile with a superblock starts from
    - contexts, loop filter deltas, restoration references, the "read deltas" flag left by earlier tiles - reaches it. *)
Theorem C159_independent : forall X e lr pe he ve bl g d (x y : TileCtx X), yPlanes e = 1 \/ yPlanes e = 3 -> tile_arrays x -> tile_arrays y ->
  rest_of x = rest_of y -> skipn (Z.to_nat (yPlanes e)) (xSgr x) = skipn (Z.to_nat (yPlanes e)) (xSgr y) -> skipn (Z.to_nat (yPlanes e)) (xWiener x) = skipn (Z.to_nat (yPlanes e)) (xWiener y) ->
  MiRowStart g < MiRowEnd g -> MiColStart g < MiColEnd g ->
  decodeTile e lr pe he ve bl g (d, x) = decodeTile e lr pe he ve bl g (d, y).
Proof.
  intros X e lr pe he ve bl g d x y HP HX HY HR HS HW R C. unfold decodeTile, bind, ctxop. cbn [fst snd]. rewrite !startTile_eq by assumption.
  destruct (clearContext (Partition.MiCols g)) as [above| |]; [|reflexivity|reflexivity]. cbn [rbind]. rewrite <- HS, <- HW. unfold rest_of in HR. injection HR as E1 E2 E3. rewrite <- E1, <- E2, <- E3.
  unfold decodeSuperblocks, bind, lift. destruct (idx NUM_4X4_BLOCKS_WIDE _) as [sb4| |]; [|reflexivity|reflexivity].
  destruct (Z.to_nat (MiRowEnd g - MiRowStart g)) as [|n] eqn:EN; [lia|]. destruct (Z.to_nat (MiColEnd g - MiColStart g)) as [|m] eqn:EM; [lia|].
  cbn [sbRows sbCols]. destruct (Z.ltb_spec (MiRowStart g) (MiRowEnd g)); [|lia]. unfold bind at 1 2. unfold Partition.on at 1 3. cbn [fst snd].
  unfold startRow at 1 3. destruct (clearContext (Partition.MiRows g)) as [left| |]; [|reflexivity|reflexivity]. cbn [rbind xAbove xDeltaLF xSgr xWiener xReadDeltas xCdef xDecoded xOther fst snd].
  destruct (Z.ltb_spec (MiColStart g) (MiColEnd g)); [|lia]. unfold bind, Partition.on. cbn [fst snd].
  unfold startSuperblock. cbn [xAbove xLeft xDeltaLF xSgr xWiener xReadDeltas xCdef xDecoded xOther]. reflexivity.
Qed.
Print Assumptions C159_independent.
(** In a frame of at most 3 rows and columns, the first superblock of every tile is decoded from zero contexts and deltas, the middle restoration coefficients and the delta flag of the frame header:
    the call of read_lr that begins it gets a state of that kind, for what [read_lr] returns on it decides the result. *)
Theorem C159_first_superblock_partial : forall X e lr pe he ve bl g d (x : TileCtx X) cdef decoded, yPlanes e = 1 \/ yPlanes e = 3 -> tile_arrays x ->
  0 <= Partition.MiCols g <= 3 -> 0 <= Partition.MiRows g <= 3 -> MiRowStart g < MiRowEnd g -> MiColStart g < MiColEnd g ->
  ClearCdef (MiRowStart g) (MiColStart g) (yUse128 e) CdefSize4 (xCdef x) = Ok cdef ->
  clearForSuperblock (yUse128 e) (yPlanes e) (ySubX e) (ySubY e) (MiRowEnd g) (MiColEnd g) (MiRowStart g) (MiColStart g) (xDecoded x) = Ok decoded ->
  exists x0, fresh_tile g (yDeltaQ e) x0 /\ fresh_refs (Z.to_nat (yPlanes e)) x0 /\ rest_of x0 = (cdef, decoded, xOther x) /\
    (lr g (MiRowStart g) (MiColStart g) (d, x0) = Panic -> decodeTile e lr pe he ve bl g (d, x) = Panic) /\
    (lr g (MiRowStart g) (MiColStart g) (d, x0) = Hang -> decodeTile e lr pe he ve bl g (d, x) = Hang).
Proof.
  intros X e lr pe he ve bl g d x cdef decoded HP HX HC HR R C E1 E2.
  exists (mkTileCtx (zero_ctx (Partition.MiCols g)) (zero_ctx (Partition.MiRows g)) [0; 0; 0; 0] (repeat [-32; 31] (Z.to_nat (yPlanes e)) ++ skipn (Z.to_nat (yPlanes e)) (xSgr x))
    (repeat [[3; -7; 15]; [3; -7; 15]] (Z.to_nat (yPlanes e)) ++ skipn (Z.to_nat (yPlanes e)) (xWiener x)) (yDeltaQ e) cdef decoded (xOther x)).
  split; [repeat split|]. split; [unfold fresh_refs; cbn [xSgr xWiener]; destruct HP as [-> | ->]; split; reflexivity|]. split; [reflexivity|].
  assert (N4 : exists sb4, idx NUM_4X4_BLOCKS_WIDE (if yUse128 e then BLOCK_128X128 else BLOCK_64X64) = Ok sb4) by (destruct (yUse128 e); eexists; vm_compute; reflexivity).
  destruct N4 as [sb4 N4].
  assert (STEP : forall r, (forall a, r <> Ok a) -> lr g (MiRowStart g) (MiColStart g) (d, mkTileCtx (zero_ctx (Partition.MiCols g)) (zero_ctx (Partition.MiRows g)) [0; 0; 0; 0] (repeat [-32; 31] (Z.to_nat (yPlanes e)) ++ skipn (Z.to_nat (yPlanes e)) (xSgr x))
    (repeat [[3; -7; 15]; [3; -7; 15]] (Z.to_nat (yPlanes e)) ++ skipn (Z.to_nat (yPlanes e)) (xWiener x)) (yDeltaQ e) cdef decoded (xOther x)) = r -> decodeTile e lr pe he ve bl g (d, x) = r).
  { intros r NR EL. unfold decodeTile, bind, ctxop. cbn [fst snd]. rewrite startTile_eq by assumption. rewrite C63_small_frames_partial by exact HC. cbn [rbind].
    unfold decodeSuperblocks, bind, lift. rewrite N4.
    destruct (Z.to_nat (MiRowEnd g - MiRowStart g)) as [|n] eqn:EN; [lia|]. destruct (Z.to_nat (MiColEnd g - MiColStart g)) as [|m] eqn:EM; [lia|].
    cbn [sbRows sbCols]. destruct (Z.ltb_spec (MiRowStart g) (MiRowEnd g)); [|lia]. unfold bind at 1. unfold Partition.on at 1. cbn [fst snd].
    unfold startRow at 1. rewrite C63_small_frames_partial by exact HR. cbn [rbind xAbove xDeltaLF xSgr xWiener xReadDeltas xCdef xDecoded xOther fst snd].
    destruct (Z.ltb_spec (MiColStart g) (MiColEnd g)); [|lia]. unfold bind, Partition.on. cbn [fst snd].
    unfold startSuperblock at 1. cbn [xAbove xLeft xDeltaLF xSgr xWiener xReadDeltas xCdef xDecoded xOther]. rewrite E1. cbn [rbind]. rewrite E2. cbn [rbind fst snd].
    unfold zero_ctx in EL. rewrite EL. destruct r as [a| |]; [destruct (NR a eq_refl)|reflexivity|reflexivity]. }
  split; apply STEP; discriminate.
Qed.
Print Assumptions C159_first_superblock_partial.
(** A tile group of an 8x8 frame of three planes, from the arrays an earlier tile may have left; its first read_lr panics. *)
Definition left_over : TileCtx Z := mkTileCtx ([[5]], [[6]], [7; 7; 7]) ([], [], []) [1; -2; 3; 4] [[9; 9]; [8; 8]; [7; 7]]
  [[[1; 2; 3]; [4; 5; 6]]; [[1; 2; 3]; [4; 5; 6]]; [[1; 2; 3]; [4; 5; 6]]] true nilslice (repeat (repeat (repeat false 35) 35) 3) 77.
Definition probe (g : Grid) (r c : Z) : M (@TS Z) unit := fun s =>
  if (nth 2 (xDeltaLF (snd s)) 99 =? 0) && (nth 1 (nth 2 (xSgr (snd s)) []) 99 =? 31) && negb (xReadDeltas (snd s)) then Panic else Ok (tt, s).
Example C159_case : let e := mkTileEnv false 3 true true false in let g := mkGrid 2 2 0 2 0 2 in
  tile_arrays left_over /\ yPlanes e = 3 /\ (exists cdef, ClearCdef 0 0 false CdefSize4 (xCdef left_over) = Ok cdef) /\
  (exists decoded, clearForSuperblock false 3 true true 2 2 0 0 (xDecoded left_over) = Ok decoded) /\
  decodeTile e probe (fun _ _ _ _ _ => ret 0) (fun _ _ _ _ _ => ret 0) (fun _ _ _ _ _ => ret 0) (fun _ _ _ => ret tt) g (mkDec 0 0 0 (mkBS [] 0 0), left_over) = Panic.
Proof.
  cbv zeta. split; [unfold tile_arrays; cbn; repeat constructor|]. split; [reflexivity|]. split; [eexists; vm_compute; reflexivity|]. split; [eexists; vm_compute; reflexivity|]. vm_compute. reflexivity.
Qed.
