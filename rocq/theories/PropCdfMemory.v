(** C44, C80-C84: which memory the CDFs live in, over all histories of frames, tiles, reads, saves and loads. *)
From Coq Require Import String.
From Verif Require Import GoBase Bitstream Util Symbol SpecSymbol SymbolProofs PropSymbol Frame CdfTables CdfMoves CdfMemory SpecCdfMemory CdfMemoryProofs.
Local Open Scope string_scope.

Lemma In_pair m l : existsb (pair_eqb m) l = true -> In m l.
Proof. intros H. apply existsb_exists in H as (x & Hx & E). apply pair_eqb_eq in E. subst. exact Hx. Qed.
Ltac in_table := apply In_pair; vm_compute; reflexivity.
Lemma tile_start m m' k t : step TileStart m = Ok m' -> In (k, t) (noncoeff_variables ++ coeff_variables) -> mTile m' k = mCur m k /\ mHeap m' = mHeap m.
Proof.
  cbn [step]. intros E Hk. assert (A : mTile m' = initSymbolP m /\ mHeap m' = mHeap m) by (injection E as <-; split; reflexivity). destruct A as [A B]. split; [|exact B].
  rewrite A. apply initSymbol_at, (vars_in_initSymbol k t Hk).
Qed.
(** Short names for histories. *)
Definition newFrame (q : Z) : list event := [FrameHeader true 0 q; TileStart].
Definition never (p : event -> bool) (h : list event) : Prop := forall ev, In ev h -> p ev = false.
Lemma never_forallb p h : never p h -> forallb (fun ev => negb (p ev)) h = true.
Proof. intros H. apply forallb_forall. intros ev Hev. rewrite (H _ Hev). reflexivity. Qed.

(** * C44 *)
(** True part: as long as nothing was adapted, a frame without primary reference starts every variable from its default table (the coefficient tables from the
    one chosen by base_q_idx). *)
Theorem C44_no_adaptation_partial : forall h s q m, run (h ++ [FrameHeader true s q; TileStart]) start = Ok m -> never adapting h ->
  (forall k t path, In (k, t) noncoeff_variables -> lookup m k path = tget (defaultHeap t) path) /\
  (forall k t i path, In (k, t) coeff_variables -> q_class q i -> lookup m k path = tget (defaultHeap t) (i :: path)) /\
  (forall path, lookup m ("IntraFrameYModeCdf", []) path = tget (defaultHeap "DEFAULT_INTRA_FRAME_Y_MODE_CDF") path).
Proof.
  intros h s q m E Ha. rewrite run_app in E. apply rbind_inv in E as (m0 & E0 & E). destruct (frame_start_lookup _ _ _ _ E) as (A & B & C).
  pose proof (run_heq _ _ _ (never_forallb _ _ Ha) E0) as Hh. cbn [start mHeap] in Hh. repeat split; intros.
  - rewrite (A _ _ _ H). symmetry. apply Hh.
  - rewrite (B _ _ _ H). apply coeffIdx_class in H0. rewrite H0. symmetry. apply Hh.
  - change (lookup m ifym path = tget (defaultHeap "DEFAULT_INTRA_FRAME_Y_MODE_CDF") path). rewrite (C path). symmetry. apply Hh.
Qed.
Print Assumptions C44_no_adaptation_partial.
Example C44_first_frame : match run (newFrame 100) start with Ok m => lookup m ("SkipCdf", []) [1] = Ok [16515; 32768; 0] /\ lookup m ("TxbSkipCdf", []) [1; 3] = Ok [18123; 32768; 0]
  | _ => False end.
Proof. vm_compute. split; reflexivity. Qed.

(** Refuted: the variables point into the package's default tables, and adaptation writes there.  After one adapting read of a variable, no later frame without
    primary reference, whatever happens in between, finds the default CDF. *)
Theorem C44_adapted_forever_refuted : forall h1 k t path d h2 s q m, In (k, t) noncoeff_variables ->
  run (h1 ++ ReadSym k path false d :: h2 ++ [FrameHeader true s q; TileStart]) start = Ok m ->
  exists c c0, lookup m k path = Ok c /\ tget (defaultHeap t) path = Ok c0 /\ c <> c0.
Proof.
  intros h1 k t path d h2 s q m Hk E. rewrite app_comm_cons, app_assoc, run_app in E. apply rbind_inv in E as (m0 & E0 & E).
  destruct (frame_start_lookup _ _ _ _ E) as (A & _ & _). rewrite (A _ _ _ Hk).
  assert (exists c0, tget (defaultHeap t) path = Ok c0) as (c0 & G0).
  { pose proof E0 as E1. rewrite run_app in E1. apply rbind_inv in E1 as (ma & Ea & E1). cbn [run] in E1. apply rbind_inv in E1 as (mb & Eb & _).
    destruct (read_inv _ _ _ _ _ _ Eb) as (n & p & c & Ad & Gc). pose proof (run_homes _ _ _ start_homes Ea) as Ha.
    destruct (address_noncoeff _ _ _ _ _ (fun k => proj1 (proj2 (Ha k))) Hk Ad) as [_ [= -> ->]]. exact (run_dom _ _ _ _ _ _ Ea Gc). }
  pose proof (default_counter _ _ _ G0) as D0. destruct (adapted_between h1 h2 start m0 k t path d c0 start_homes Hk E0 G0 ltac:(lia)) as (c1 & G1 & L).
  exists c1, c0. repeat split; [exact G1|exact G0|]. intros ->. lia.
Qed.
Print Assumptions C44_adapted_forever_refuted.
Example C44_second_frame : match run (newFrame 100 ++ ReadSym ("SkipCdf", []) [1] false demo_dec :: [TileEnd true; FrameEnd true; RefUpdate 0] ++ newFrame 100) start with
  | Ok m => lookup m ("SkipCdf", []) [1] = Ok [17530; 32768; 1] | _ => False end.
Proof. vm_compute. reflexivity. Qed.

(** * C80: the CDFs saved for a reference slot are those of the frame that was saved *)
(** The CDF of the current frame. *)
Definition frame_cdf (m : mem) (k : key) (path : list Z) : res (list Z) := let! a := address (mCur m) k path in tget (mHeap m (fst a)) (snd a).
(** True part: if nothing is adapted between saving and loading, a frame that takes the slot as primary reference starts from the saved CDFs. *)
Theorem C80_no_adaptation_partial : forall slot q m0 m1 h m2 m3, step (RefUpdate slot) m0 = Ok m1 -> run h m1 = Ok m2 -> never adapting h -> never (overwrites slot) h ->
  run [FrameHeader false slot q; TileStart] m2 = Ok m3 ->
  forall k t path, In (k, t) (noncoeff_variables ++ coeff_variables) -> lookup m3 k path = frame_cdf m0 k path.
Proof.
  intros slot q m0 m1 h m2 m3 E1 E2 Ha Ho E3 k t path Hk. destruct (load_start _ _ _ _ E3) as [T Hp]. unfold lookup, frame_cdf, address. rewrite (T _ _ Hk), Hp.
  rewrite (run_slot _ _ _ _ k (never_forallb _ _ Ho) E2). pose proof (run_heq _ _ _ (never_forallb _ _ Ha) E2) as Q.
  cbn [step] in E1. destruct (_ && _) eqn:B; [|discriminate].
  assert (m1 = mkMem (mCur m0) (mTile m0) (mSaved m0) (fun s' => if slot =? s' then saveP m0 else mSlot m0 s') (mHeap m0))%Z as -> by congruence.
  cbn [mSlot mHeap] in *. rewrite Z.eqb_refl, (save_at m0 k (vars_in_save k t Hk)). destruct (mCur m0 k); [reflexivity|]. cbn [rbind fst snd]. symmetry. apply Q.
Qed.
Print Assumptions C80_no_adaptation_partial.
Example C80_saved_and_loaded : match run (newFrame 30 ++ [RefUpdate 5] ++ newFrame 100 ++ [FrameHeader false 5 200; TileStart]) start with
  | Ok m => lookup m ("TxbSkipCdf", []) [0; 12] = tget (defaultHeap "DEFAULT_TXB_SKIP_CDF") [1; 0; 12] | _ => False end.
Proof. vm_compute. reflexivity. Qed.

(** Refuted: an adapting read after the save changes what is loaded (the counter, below its limit, differs). *)
Theorem C80_not_a_snapshot_refuted : forall slot q h0 m0 m1 h1 k t path d h2 m2 m3 c0, run h0 start = Ok m0 -> step (RefUpdate slot) m0 = Ok m1 ->
  run (h1 ++ ReadSym k path false d :: h2) m1 = Ok m2 -> never (overwrites slot) (h1 ++ h2) -> run [FrameHeader false slot q; TileStart] m2 = Ok m3 ->
  In (k, t) noncoeff_variables -> frame_cdf m0 k path = Ok c0 -> (counter c0 < 32)%Z ->
  exists c, lookup m3 k path = Ok c /\ c <> c0.
Proof.
  intros slot q h0 m0 m1 h1 k t path d h2 m2 m3 c0 E0 E1 E2 Ho E3 Hk Hc Hlt. pose proof (run_homes _ _ _ start_homes E0) as H0. pose proof (step_homes _ _ _ H0 E1) as H1.
  destruct (load_start _ _ _ _ E3) as [T Hp]. assert (Hv : In (k, t) (noncoeff_variables ++ coeff_variables)) by (apply in_or_app; left; exact Hk).
  unfold frame_cdf in Hc. apply rbind_inv in Hc as (a & Ad & Hc). destruct (address_noncoeff _ _ _ _ _ (fun k => proj1 (H0 k)) Hk Ad) as [Hcur ->]. cbn [fst snd] in Hc.
  assert (Hs : mSlot m1 slot k = At t [] /\ mHeap m1 = mHeap m0).
  { cbn [step] in E1. destruct (_ && _) eqn:B; [|discriminate].
    assert (m1 = mkMem (mCur m0) (mTile m0) (mSaved m0) (fun s' => if slot =? s' then saveP m0 else mSlot m0 s') (mHeap m0))%Z as -> by congruence.
    cbn [mSlot mHeap]. rewrite Z.eqb_refl, (save_at m0 k (vars_in_save k t Hv)). split; [exact Hcur|reflexivity]. }
  destruct Hs as [Hs Hh]. rewrite <- Hh in Hc. destruct (adapted_between _ _ _ _ _ _ _ _ _ H1 Hk E2 Hc Hlt) as (c & G & L).
  exists c. unfold lookup, address. rewrite (T _ _ Hv), Hp.
  assert (Ho' : never (overwrites slot) (h1 ++ ReadSym k path false d :: h2)).
  { intros ev Hev. apply in_app_or in Hev as [Hev|[<-|Hev]]; [apply Ho, in_or_app; left; exact Hev|reflexivity|apply Ho, in_or_app; right; exact Hev]. }
  rewrite (run_slot _ _ _ _ k (never_forallb _ _ Ho') E2), Hs. cbn [rbind fst snd app]. split; [exact G|]. intros ->. lia.
Qed.
Print Assumptions C80_not_a_snapshot_refuted.
(** Refuted, more: for every variable with a fixed table it makes no difference which saved slot is the primary reference, or whether there is one. *)
Theorem C80_primary_reference_ignored_refuted : forall h m slot s q q' m1 m2 k t path, run h start = Ok m -> In (k, t) noncoeff_variables -> mSlot m slot k <> Nil ->
  run [FrameHeader false slot q; TileStart] m = Ok m1 -> run [FrameHeader true s q'; TileStart] m = Ok m2 -> lookup m1 k path = lookup m2 k path.
Proof.
  intros h m slot s q q' m1 m2 k t path E Hk Hn E1 E2. destruct (load_start _ _ _ _ E1) as [T Hp]. destruct (frame_start_lookup _ _ _ _ E2) as (A & _). rewrite (A _ _ _ Hk).
  unfold lookup, address. rewrite (T _ t) by (apply in_or_app; left; exact Hk). rewrite Hp. pose proof (run_homes _ _ _ start_homes E) as H0.
  destruct (home_noncoeff _ _ _ Hk (proj2 (proj2 (proj2 (H0 k))) slot)) as [Z0|Z0]; rewrite Z0 in *; [congruence|reflexivity].
Qed.
Print Assumptions C80_primary_reference_ignored_refuted.
Example C80_case : let h := (newFrame 100 ++ [RefUpdate 2; ReadSym ("SkipCdf", []) [1] false demo_dec])%list in
  match run h start with Ok m => mSlot m 2 ("SkipCdf", []) = At "DEFAULT_SKIP_CDF" [] | _ => False end /\
  match run (h ++ [FrameHeader false 2 100; TileStart]) start with Ok m => lookup m ("SkipCdf", []) [1] = Ok [17530; 32768; 1] | _ => False end.
Proof. vm_compute. split; reflexivity. Qed.

(** * C81: reading one syntax element adapts only its own CDF *)
(** True part: between the variables without array index (and the coefficient variables). *)
Definition single_variables : list (key * string) := plain_variables ++ coeff_variables.
Lemma single_tables_differ k1 k2 t1 t2 : In (k1, t1) single_variables -> In (k2, t2) single_variables -> k1 <> k2 -> t1 <> t2.
Proof.
  intros H1 H2 Hne ->. assert (A : forallb (fun m => forallb (fun m' => key_eqb (fst m) (fst m') || negb (snd m =? snd m')) single_variables) single_variables = true) by (vm_compute; reflexivity).
  rewrite forallb_forall in A. specialize (A _ H1). cbn beta in A. rewrite forallb_forall in A. specialize (A _ H2). cbn [fst snd] in A. rewrite String.eqb_refl in A.
  destruct (key_eqb k1 k2) eqn:E; [apply key_eqb_eq in E; contradiction|discriminate].
Qed.
Lemma single_address e k t path n p : (forall k, home k (e k)) -> In (k, t) single_variables -> address e k path = Ok (n, p) -> n = t /\ exists q, e k = At t q /\ p = (q ++ path)%list.
Proof.
  intros H Hk Ha. unfold address in Ha. apply in_app_or in Hk as [Hk|Hk].
  - assert (Hn : In (k, t) noncoeff_variables) by (apply in_or_app; left; exact Hk). destruct (home_noncoeff _ _ _ Hn (H k)) as [E|E]; rewrite E in Ha |- *; [discriminate|]. injection Ha as <- <-.
    split; [reflexivity|]. exists []. split; reflexivity.
  - destruct (home_coeff _ _ _ Hk (H k)) as [E|(i & _ & E)]; rewrite E in Ha |- *; [discriminate|]. injection Ha as <- <-. split; [reflexivity|]. exists [i]. split; reflexivity.
Qed.
Theorem C81_single_variables_partial : forall h m k1 t1 path1 dis d m' k2 t2 path2, run h start = Ok m -> step (ReadSym k1 path1 dis d) m = Ok m' ->
  In (k1, t1) single_variables -> In (k2, t2) single_variables -> (k1, path1) <> (k2, path2) -> lookup m' k2 path2 = lookup m k2 path2.
Proof.
  intros h m k1 t1 path1 dis d m' k2 t2 path2 E Es H1 H2 Hne. pose proof (run_homes _ _ _ start_homes E) as H0.
  destruct (read_inv _ _ _ _ _ _ Es) as (n & p & c & Ad & Gc). destruct (single_address _ _ _ _ _ _ (fun k => proj1 (proj2 (H0 k))) H1 Ad) as (-> & q1 & Q1 & ->).
  assert (Ht : mTile m' = mTile m).
  { cbn [step] in Es. apply rbind_inv in Es as (a & _ & Es). apply rbind_inv in Es as (c' & _ & Es). apply rbind_inv in Es as (r & _ & Es). apply rbind_inv in Es as (tr & _ & [= <-]). reflexivity. }
  unfold lookup. rewrite Ht. destruct (address (mTile m) k2 path2) as [[n2 p2]| |] eqn:Ad2; [|reflexivity|reflexivity]. cbn [rbind fst snd].
  destruct (single_address _ _ _ _ _ _ (fun k => proj1 (proj2 (H0 k))) H2 Ad2) as (-> & q2 & Q2 & ->).
  apply (read_other _ _ _ _ _ _ _ _ _ _ Es Ad). intros [= Et Ep]. destruct (key_eqb k1 k2) eqn:Ek.
  - apply key_eqb_eq in Ek. subst k2. rewrite Q1 in Q2. injection Q2 as _ <-. apply app_inv_head in Ep. subst. congruence.
  - apply (single_tables_differ _ _ _ _ H1 H2); [|congruence]. intros ->. rewrite key_eqb_refl in Ek. discriminate.
Qed.
Print Assumptions C81_single_variables_partial.
(** Refuted: variables with the same default table, such as the motion vector CDFs of the two contexts and both loop filter delta CDFs, are one table. *)
Theorem C81_shared_refuted : forall h m k1 k2 t path d m' c, run h start = Ok m -> In (k1, t) noncoeff_variables -> In (k2, t) noncoeff_variables ->
  step (ReadSym k1 path false d) m = Ok m' -> lookup m k2 path = Ok c -> (counter c < 32)%Z ->
  exists c', lookup m' k2 path = Ok c' /\ lookup m' k1 path = Ok c' /\ c' <> c.
Proof.
  intros h m k1 k2 t path d m' c E H1 H2 Es Hc Hlt. pose proof (run_homes _ _ _ start_homes E) as H0.
  destruct (read_inv _ _ _ _ _ _ Es) as (n & p & c1 & Ad & Gc). destruct (address_noncoeff _ _ _ _ _ (fun k => proj1 (proj2 (H0 k))) H1 Ad) as [A1 [= -> ->]].
  unfold lookup in Hc. apply rbind_inv in Hc as (a & Ad2 & Hc). destruct (address_noncoeff _ _ _ _ _ (fun k => proj1 (proj2 (H0 k))) H2 Ad2) as [A2 ->]. cbn [fst snd] in Hc.
  assert (Ht : mTile m' = mTile m).
  { cbn [step] in Es. apply rbind_inv in Es as (a & _ & Es). apply rbind_inv in Es as (c' & _ & Es). apply rbind_inv in Es as (r & _ & Es). apply rbind_inv in Es as (tr & _ & [= <-]). reflexivity. }
  destruct (read_adapts _ _ _ _ _ _ _ _ Es Ad Hc) as (c' & G & _ & L). exists c'. unfold lookup. rewrite Ht, Ad, Ad2. cbn [rbind fst snd]. repeat split; [exact G|exact G|].
  intros ->. unfold int_of in L. destruct (Z.ltb_spec (counter c) 32); lia.
Qed.
Print Assumptions C81_shared_refuted.
Example C81_case : In (("MvJointCdf", [0%Z]), "DEFAULT_MV_JOINT_CDF") noncoeff_variables /\ In (("MvJointCdf", [1%Z]), "DEFAULT_MV_JOINT_CDF") noncoeff_variables /\
  In (("DeltaLFCdf", []), "DEFAULT_DELTA_LF_CDF") noncoeff_variables /\ In (("DeltaLFMultiCdf", [3%Z]), "DEFAULT_DELTA_LF_CDF") noncoeff_variables /\
  match run (newFrame 100 ++ [ReadSym ("MvJointCdf", [0%Z]) [] false demo_dec]) start with
  | Ok m => lookup m ("MvJointCdf", [1%Z]) [] = Ok [3968; 10912; 19748; 32768; 1] | _ => False end.
Proof. do 4 (split; [in_table|]). vm_compute. reflexivity. Qed.

(** * C82: a header without primary reference initialises every CDF variable *)
Theorem C82_initialised_partial : forall h s q m k t, run (h ++ [FrameHeader true s q; TileStart]) start = Ok m ->
  In (k, t) (noncoeff_variables ++ coeff_variables) \/ (k, t) = (("IntraFrameYModeCdf", []), "DEFAULT_INTRA_FRAME_Y_MODE_CDF") -> exists p, mTile m k = At t p.
Proof.
  intros h s q m k t E Hk. rewrite run_app in E. apply rbind_inv in E as (m0 & E0 & E). cbn [run step rbind] in E.
  set (mm := mkMem (initCoeff q (initNonCoeff (mCur m0))) (mTile m0) (mSaved m0) (mSlot m0) (mHeap m0)) in E.
  assert (m = mkMem (mCur mm) (initSymbolP mm) (mSaved mm) (mSlot mm) (mHeap mm)) as -> by congruence. cbn [mTile]. destruct Hk as [Hk|[= -> ->]]; [|exists []; apply initSymbol_ifym].
  rewrite (initSymbol_at mm k (vars_in_initSymbol k t Hk)). unfold mm. cbn [mCur]. apply in_app_or in Hk as [Hk|Hk].
  - exists []. rewrite initCoeff_other by (intros t' Ht'; exact (vars_disjoint _ _ _ Hk Ht')). apply initNonCoeff_at, Hk.
  - exists [coeffIdx q]. apply initCoeff_at, Hk.
Qed.
Print Assumptions C82_initialised_partial.
(** Refuted: ref_mv's variable never gets a table: no header, load or save ever sets it, so a read through it panics. *)
Theorem C82_ref_mv_refuted : forall h m, run h start = Ok m -> mTile m ("RefMvCdf", []) = Nil /\ forall path dis d, step (ReadSym ("RefMvCdf", []) path dis d) m = Panic.
Proof.
  intros h m E. pose proof (proj1 (proj2 (run_homes _ _ _ start_homes E ("RefMvCdf", [])))) as H. assert (N : mTile m ("RefMvCdf", []) = Nil).
  { assert (A : forallb (fun m => negb (key_eqb (fst m) ("RefMvCdf", []))) (noncoeff_variables ++ coeff_variables) = true) by (vm_compute; reflexivity). rewrite forallb_forall in A.
    destruct H as [H|[(t & Ht & _)|[(t & i & Ht & _)|[H _]]]]; [exact H| | |discriminate].
    - specialize (A (("RefMvCdf", []), t) ltac:(apply in_or_app; left; exact Ht)). cbn [fst] in A. rewrite key_eqb_refl in A. discriminate.
    - specialize (A (("RefMvCdf", []), t) ltac:(apply in_or_app; right; exact Ht)). cbn [fst] in A. rewrite key_eqb_refl in A. discriminate. }
  split; [exact N|]. intros. cbn [step]. unfold address. rewrite N. reflexivity.
Qed.
Print Assumptions C82_ref_mv_refuted.
Example C82_case : match run (newFrame 0) start with Ok m => mTile m ("NewMvCdf", []) = At "DEFAULT_NEW_MV_CDF" [] /\ mTile m ("RefMvCdf", []) = Nil | _ => False end.
Proof. vm_compute. split; reflexivity. Qed.

(** * C83: the tables have the dimensions of the standard, so every context index has a CDF with the right number of symbols *)
Inductive has_dims : tree -> list Z -> Prop :=
| leaf_dims c : has_dims (Leaf c) [Z.of_nat (length c)]
| node_dims l ds : Forall (fun t => has_dims t ds) l -> has_dims (Node l) (Z.of_nat (length l) :: ds).
Fixpoint dims_ok (t : tree) (ds : list Z) : bool :=
  match t, ds with
  | Leaf c, [d] => (zlen c =? d)%Z
  | Node l, d :: ds => (zlen l =? d)%Z && (fix go l := match l with [] => true | t :: l => dims_ok t ds && go l end) l
  | _, _ => false
  end.
Lemma dims_ok_spec ds : forall t, dims_ok t ds = true -> has_dims t ds.
Proof.
  induction ds as [|d ds IH]; intros t H; [destruct t; discriminate|]. destruct t as [c|l].
  - destruct ds; [|discriminate]. apply Z.eqb_eq in H. subst. constructor.
  - cbn [dims_ok] in H. apply andb_true_iff in H as [H1 H2]. apply Z.eqb_eq in H1. subst. constructor. revert H2. clear -IH. induction l as [|t l IHl]; intros H; constructor.
    + apply IH. apply andb_true_iff in H as [H _]. exact H.
    + apply IHl. apply andb_true_iff in H as [_ H]. exact H.
Qed.
Theorem C83_dimensions_partial : forall t ds, In (t, ds) dimensions -> t <> "DEFAULT_COEFF_BASE_CDF" -> has_dims (defaultHeap t) ds.
Proof.
  intros t ds H Hn. assert (A : forallb (fun p => (fst p =? "DEFAULT_COEFF_BASE_CDF") || dims_ok (defaultHeap (fst p)) (snd p)) dimensions = true) by (vm_compute; reflexivity).
  rewrite forallb_forall in A. specialize (A _ H). cbn [fst snd] in A. apply String.eqb_neq in Hn. rewrite Hn in A. apply dims_ok_spec, A.
Qed.
Print Assumptions C83_dimensions_partial.
(** So at the start of any frame without primary reference, whatever was decoded before, every context inside the dimensions leads to a CDF of the right length. *)
Lemma dims_tget ds : forall t path d, (0 < d)%Z -> has_dims t (ds ++ [d]) -> Forall2 (fun i n => 0 <= i < n)%Z path ds -> exists c, tget t path = Ok c /\ Z.of_nat (length c) = d.
Proof.
  induction ds as [|n ds IH]; intros t path d Hd H HF; inversion HF as [|i n' path' ds' Hi HF']; subst.
  - cbn in H. inversion H as [c E|l ds' HA E]; subst; [exists c; split; reflexivity|]. exfalso.
    destruct l as [|t l]; [cbn in Hd; lia|]. inversion HA as [|? ? HH]; subst. inversion HH.
  - cbn in H. inversion H as [c E|l ds' HA E]; subst; [destruct ds; discriminate|]. cbn [tget].
    assert (0 <= i < zlen l)%Z as Hz by (unfold zlen; lia). rewrite (idx_ok l i (Leaf [])) by exact Hz. cbn [rbind]. apply IH; [exact Hd| |exact HF'].
    rewrite Forall_forall in HA. apply HA, nth_In. unfold zlen in Hz. lia.
Qed.
Theorem C83_contexts_partial : forall h s q m k t ds d path, run (h ++ [FrameHeader true s q; TileStart]) start = Ok m -> t <> "DEFAULT_COEFF_BASE_CDF" -> (0 < d)%Z ->
  (In (k, t) noncoeff_variables /\ In (t, ds ++ [d])%list dimensions \/ In (k, t) coeff_variables /\ In (t, (4 :: ds) ++ [d])%list dimensions) ->
  Forall2 (fun i n => 0 <= i < n)%Z path ds -> exists c, lookup m k path = Ok c /\ Z.of_nat (length c) = d.
Proof.
  intros h s q m k t ds d path E Hn Hd Hk HF. rewrite run_app in E. apply rbind_inv in E as (m0 & E0 & E). destruct (frame_start_lookup _ _ _ _ E) as (A & B & _).
  pose proof (run_hle _ _ _ E0) as HL. cbn [start mHeap] in HL. destruct Hk as [[Hk Hdim]|[Hk Hdim]].
  - rewrite (A _ _ _ Hk). destruct (dims_tget ds _ path d Hd (C83_dimensions_partial _ _ Hdim Hn) HF) as (c & G & L). destruct (HL _ _ _ G) as (c' & G' & L' & _). exists c'. split; [exact G'|lia].
  - rewrite (B _ _ _ Hk). destruct (dims_tget (4%Z :: ds) _ (coeffIdx q :: path) d Hd (C83_dimensions_partial _ _ Hdim Hn)) as (c & G & L); [constructor; [apply coeffIdx_range|exact HF]|].
    destruct (HL _ _ _ G) as (c' & G' & L' & _). exists c'. split; [exact G'|lia].
Qed.
Print Assumptions C83_contexts_partial.
Lemma in_dims t ds : existsb (fun p => (fst p =? t) && zs_eqb (snd p) ds) dimensions = true -> In (t, ds) dimensions.
Proof. intros H. apply existsb_exists in H as ([t' ds'] & Hx & E). apply andb_true_iff in E as [E1 E2]. apply String.eqb_eq in E1. apply zs_eqb_eq in E2. cbn in *. subst. exact Hx. Qed.
Example C83_case : In (("SingleRefCdf", []), "DEFAULT_SINGLE_REF_CDF") noncoeff_variables /\ In ("DEFAULT_SINGLE_REF_CDF", [3%Z; 6%Z] ++ [3%Z])%list dimensions /\ Forall2 (fun i n => 0 <= i < n)%Z [2%Z; 5%Z] [3%Z; 6%Z] /\
  In (("EobExtraCdf", []), "DEFAULT_EOB_EXTRA_CDF") coeff_variables /\ In ("DEFAULT_EOB_EXTRA_CDF", (4 :: [5; 2; 9]) ++ [3])%Z%list dimensions.
Proof.
  split; [in_table|]. split; [apply in_dims; vm_compute; reflexivity|]. split; [repeat constructor; vm_compute; congruence|]. split; [in_table|apply in_dims; vm_compute; reflexivity].
Qed.
(** Refuted: with base_q_idx above 120 (the fourth set) the coefficient base CDFs of 4x4 chroma blocks have 4 contexts instead of 42, so larger contexts panic. *)
Theorem C83_coeff_base_refuted : forall h s q m ctx dis d, run (h ++ [FrameHeader true s q; TileStart]) start = Ok m -> (120 < q)%Z -> (4 <= ctx)%Z ->
  lookup m ("CoeffBaseCdf", []) [0%Z; 1%Z; ctx] = Panic /\ step (ReadSym ("CoeffBaseCdf", []) [0%Z; 1%Z; ctx] dis d) m = Panic.
Proof.
  intros h s q m ctx dis d E Hq Hc. rewrite run_app in E. apply rbind_inv in E as (m0 & E0 & E). destruct (frame_start_lookup _ _ _ _ E) as (_ & B & _).
  assert (Hk : In (("CoeffBaseCdf", []), "DEFAULT_COEFF_BASE_CDF") coeff_variables) by in_table.
  assert (Lk : lookup m ("CoeffBaseCdf", []) [0%Z; 1%Z; ctx] = Panic).
  { rewrite (B _ _ _ Hk). assert (coeffIdx q = 3%Z) as -> by (apply coeffIdx_class; unfold q_class; lia).
    destruct (tget (mHeap m0 "DEFAULT_COEFF_BASE_CDF") [3%Z; 0%Z; 1%Z; ctx]) as [c| |] eqn:G; [exfalso|reflexivity|exfalso].
    - destruct (run_dom _ _ _ _ _ _ E0 G) as (c0 & G0). cbn [start mHeap] in G0. revert G0.
      set (tr := defaultHeap "DEFAULT_COEFF_BASE_CDF"). change [3%Z; 0%Z; 1%Z; ctx] with ([3%Z; 0%Z; 1%Z] ++ [ctx])%list.
      assert (K : exists l, (let! a := match tr with Node l => idx l 3 | _ => Panic end in let! b := match a with Node l => idx l 0 | _ => Panic end in match b with Node l => idx l 1 | _ => Panic end) = Ok (Node l) /\ zlen l = 4%Z)
        by (vm_compute; eexists; split; reflexivity).
      destruct K as (l & K & L). clearbody tr. destruct tr as [|l1]; [discriminate|]. cbn [app tget]. destruct (idx l1 3) as [a| |]; try discriminate. cbn [rbind] in *.
      destruct a as [|l2]; [discriminate|]. destruct (idx l2 0) as [b| |]; try discriminate. cbn [rbind] in *. destruct b as [|l3]; [discriminate|]. rewrite K. cbn [rbind].
      rewrite (idx_panic l ctx) by lia. discriminate.
    - revert G. generalize (mHeap m0 "DEFAULT_COEFF_BASE_CDF") [3%Z; 0%Z; 1%Z; ctx]. intros t p. revert t. induction p as [|i p IH]; intros [c|l]; cbn [tget]; try discriminate.
      destruct (idx l i) as [t| |] eqn:Ei; cbn [rbind]; [apply IH|discriminate|]. intros _. exact (idx_nh _ _ Ei). }
  split; [exact Lk|]. unfold lookup in Lk. cbn [step]. destruct (address (mTile m) ("CoeffBaseCdf", []) [0%Z; 1%Z; ctx]) as [a| |] eqn:Ad; cbn [rbind] in *; [rewrite Lk; reflexivity|reflexivity|discriminate].
Qed.
Print Assumptions C83_coeff_base_refuted.
Example C83_coeff_base_case : match run (newFrame 121) start with Ok m => lookup m ("CoeffBaseCdf", []) [0%Z; 1%Z; 3%Z] <> Panic | _ => False end.
Proof. vm_compute. discriminate. Qed.

(** * C84: the tiles of a frame are decoded independently: each starts from the CDFs of the frame *)
Theorem C84_no_adaptation_partial : forall m0 m1 h m2 m3 k t path, step TileStart m0 = Ok m1 -> run h m1 = Ok m2 -> never adapting h -> mCur m2 k = mCur m0 k -> step TileStart m2 = Ok m3 ->
  In (k, t) (noncoeff_variables ++ coeff_variables) -> lookup m3 k path = lookup m1 k path.
Proof.
  intros m0 m1 h m2 m3 k t path E1 E2 Ha Hc E3 Hk. pose proof (run_heq _ _ _ (never_forallb _ _ Ha) E2) as Q.
  destruct (tile_start _ _ _ _ E1 Hk) as [A1 B1]. destruct (tile_start _ _ _ _ E3 Hk) as [A3 B3].
  unfold lookup, address. rewrite A1, A3, B3, Hc. destruct (mCur m0 k); [reflexivity|]. symmetry. apply Q.
Qed.
Print Assumptions C84_no_adaptation_partial.
(** Refuted: after an adapting read in one tile the next tile starts from the adapted CDF. *)
Theorem C84_tiles_not_independent_refuted : forall h0 m0 m1 h1 k t path d h2 m2 m3 c0, run h0 start = Ok m0 -> step TileStart m0 = Ok m1 ->
  run (h1 ++ ReadSym k path false d :: h2) m1 = Ok m2 -> mCur m2 k = mCur m0 k -> step TileStart m2 = Ok m3 ->
  In (k, t) noncoeff_variables -> lookup m1 k path = Ok c0 -> (counter c0 < 32)%Z -> exists c, lookup m3 k path = Ok c /\ c <> c0.
Proof.
  intros h0 m0 m1 h1 k t path d h2 m2 m3 c0 E0 E1 E2 Hc E3 Hk Hl Hlt. pose proof (run_homes _ _ _ start_homes E0) as H0. pose proof (step_homes _ _ _ H0 E1) as H1.
  assert (Hv : In (k, t) (noncoeff_variables ++ coeff_variables)) by (apply in_or_app; left; exact Hk).
  unfold lookup in Hl. apply rbind_inv in Hl as (a & Ad & Hl). destruct (address_noncoeff _ _ _ _ _ (fun k => proj1 (proj2 (H1 k))) Hk Ad) as [Ht ->]. cbn [fst snd] in Hl.
  destruct (adapted_between _ _ _ _ _ _ _ _ _ H1 Hk E2 Hl Hlt) as (c & G & L). exists c.
  destruct (tile_start _ _ _ _ E1 Hv) as [A1 B1]. destruct (tile_start _ _ _ _ E3 Hv) as [A3 B3].
  unfold lookup, address. rewrite A3, Hc, <- A1, Ht, B3. cbn [rbind fst snd app]. split; [exact G|]. intros ->. lia.
Qed.
Print Assumptions C84_tiles_not_independent_refuted.
Example C84_case : match run (newFrame 100 ++ [ReadSym ("SkipCdf", []) [1%Z] false demo_dec; TileEnd false; TileStart]) start with
  | Ok m => lookup m ("SkipCdf", []) [1%Z] = Ok [17530; 32768; 1]%Z /\ mCur m ("SkipCdf", []) = At "DEFAULT_SKIP_CDF" [] | _ => False end.
Proof. vm_compute. split; reflexivity. Qed.
