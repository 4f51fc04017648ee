(** Properties C147 to C155: the block level syntax of inter frames. *)
From Coq Require Import String.
From Verif Require Import GoBase Bitstream Util UtilProofs Constants Tables Frame Writes Symbol SpecMath SpecSymbol SymbolProofs CdfMoves CdfMemory SpecPartition LoopFilter Intra SpecCoeffs CoeffRun Elements ElementsSim ElementsDemo SpecBlock ModeInfo ModeInfoProofs PropModeInfo InterMode SpecInterMode.
Local Open Scope string_scope.
Local Open Scope Z_scope.

(** ** What the standard sees *)
Definition refs_at (e : IEnv) (r c : Z) : Z * Z := (cell3 (nRefs e) r c 0, cell3 (nRefs e) r c 1).
Definition above_of (e : IEnv) : refs := if bAvailU (nB e) then Some (refs_at e (bMiRow (nB e) - 1) (bMiCol (nB e))) else None.
Definition left_of (e : IEnv) : refs := if bAvailL (nB e) then Some (refs_at e (bMiRow (nB e)) (bMiCol (nB e) - 1)) else None.
Definition refs_known (e : IEnv) (r c : Z) : Prop := (exists a, idx3 (nRefs e) r c 0 = Ok a) /\ (exists b, idx3 (nRefs e) r c 1 = Ok b).
(** the block with other luma modes of its neighbours: these (inter modes among them) do not matter in inter frames, so they are described as DC *)
Definition set_modes (b : BEnv) (modes : list (list Z)) : BEnv :=
  mkBEnv (bDisable b) (bSegPreSkip b) (bSegEnabled b) (bLastActive b) (bFeature b) (bLosslessArray b) (bCodedLossless b) (bEnableCdef b) (bAllowIntraBc b) (bCdefBits b) (bUse128 b) (bQRes b) (bLfPresent b) (bLfMulti b) (bLfRes b) (bNumPlanes b)
    (bSubX b) (bSubY b) (bScreen b) (bFilterIntra b) (bMiRow b) (bMiCol b) (bMiSize b) (bAvailU b) (bAvailL b) (bHasChroma b) modes (bSegIds b) (bSkipModes b) (bPaletteSizes b).
Definition view (e : IEnv) : BEnv := set_modes (nB e) (repeat (repeat 0 (Z.to_nat (bMiCol (nB e) + 1))) (Z.to_nat (bMiRow (nB e) + 1))).
Definition ienv_ok (e : IEnv) : Prop :=
  env_ok (view e) /\ (bAvailU (nB e) = true -> refs_known e (bMiRow (nB e) - 1) (bMiCol (nB e))) /\ (bAvailL (nB e) = true -> refs_known e (bMiRow (nB e)) (bMiCol (nB e) - 1)).
Definition code_ref : ref_variant := mkRefVariant (fun A L => cmp_refs A L [5] [6]) (fun A L => cmp_refs A L [1; 2; 3; 4] [5; 6; 7]) false.

Definition nbrs_of (e : IEnv) : Nbrs :=
  let p n := match n with Some x => x | None => (0, -1) end in mkNbrs (fst (p (left_of e))) (snd (p (left_of e))) (fst (p (above_of e))) (snd (p (above_of e))).
Lemma neighbours_ok e : ienv_ok e -> neighbours e = Ok (nbrs_of e).
Proof.
  intros (_ & HU & HL). unfold neighbours, nbrs_of, above_of, left_of, refs_at, cell3. destruct (bAvailL (nB e)).
  - destruct (HL eq_refl) as [[a Ea] [b Eb]]. rewrite Ea, Eb. cbn [rbind fst snd]. destruct (bAvailU (nB e)); [|reflexivity]. destruct (HU eq_refl) as [[c Ec] [d Ed]]. rewrite Ec, Ed. reflexivity.
  - cbn [rbind fst snd]. destruct (bAvailU (nB e)); [|reflexivity]. destruct (HU eq_refl) as [[c Ec] [d Ed]]. rewrite Ec, Ed. reflexivity.
Qed.

(** ** Counting references *)
Definition ind (r : Z) (set : list Z) : Z := if existsb (Z.eqb r) set then 1 else 0.
Lemma uses_sum A L set : uses A L set = fold_right (fun r n => ind r set + n) 0 (listed A ++ listed L).
Proof.
  unfold uses. induction (listed A ++ listed L)%list as [|r l IH]; cbn [filter fold_right]; [reflexivity|]. unfold ind at 1. destruct (existsb (Z.eqb r) set); cbn [List.length]; rewrite <- IH; lia.
Qed.
Lemma count_uses e x : countRefs e (nbrs_of e) x = uses (above_of e) (left_of e) [x].
Proof.
  rewrite uses_sum. unfold countRefs, nbrs_of, above_of, left_of, refs_at. destruct (bAvailU (nB e)), (bAvailL (nB e)); cbn [fst snd listed app fold_right]; unfold ind; cbn [existsb nbA0 nbA1 nbL0 nbL1];
    repeat match goal with |- context [Z.eqb ?a x] => destruct (Z.eqb a x) end; reflexivity.
Qed.
Lemma uses_add A L s t u : (forall r, ind r u = ind r s + ind r t) -> uses A L u = uses A L s + uses A L t.
Proof. intros H. rewrite !uses_sum. induction (listed A ++ listed L)%list as [|r l IH]; cbn [fold_right]; [reflexivity|]. rewrite H, IH. lia. Qed.
Ltac indc := intros r; unfold ind; cbn [existsb]; repeat match goal with |- context [Z.eqb r ?a] => destruct (Z.eqb_spec r a); subst; cbn [orb] end; try reflexivity; lia.
Lemma refs_fwd e : fwdCount e (nbrs_of e) = uses (above_of e) (left_of e) [1; 2; 3; 4].
Proof.
  unfold fwdCount. rewrite !count_uses. rewrite (uses_add _ _ [1; 2; 3] [4] [1; 2; 3; 4]) by indc. rewrite (uses_add _ _ [1; 2] [3] [1; 2; 3]) by indc. rewrite (uses_add _ _ [1] [2] [1; 2]) by indc. reflexivity.
Qed.
Lemma refs_bwd e : bwdCount e (nbrs_of e) = uses (above_of e) (left_of e) [5; 6; 7].
Proof. unfold bwdCount. rewrite !count_uses. rewrite (uses_add _ _ [5; 6] [7] [5; 6; 7]) by indc. rewrite (uses_add _ _ [5] [6] [5; 6]) by indc. reflexivity. Qed.
Lemma ctx_versus a b : refCountCtx a b = versus a b.
Proof. unfold refCountCtx, versus. destruct (Z.compare_spec a b), (Z.ltb_spec a b), (Z.eqb_spec a b); try lia; reflexivity. Qed.
Lemma versus_range a b : 0 <= versus a b < 3. Proof. unfold versus. destruct (a ?= b); lia. Qed.

Lemma agrees_bad {A B} T dis endp (bad : Prop) (p : prog A) (m : M ES B) Q : agrees T dis endp bad p m Q -> agrees T dis endp True p m Q.
Proof. intros H s F. specialize (H s F). destruct (run dis p (fst s) (snd s)) as [[[a d] h]| |]; auto. destruct H. auto. Qed.
Lemma single_agrees e endp : agrees block_cdfs (bDisable (nB e)) endp True (std_single_ref code_ref (above_of e) (left_of e)) (readSingleRef e (nbrs_of e)) (fun a b => a = b /\ 1 <= b <= 7).
Proof.
  unfold std_single_ref, readSingleRef, singleRefP1Symbol, singleRefP2Symbol, singleRefP3Symbol, singleRefP4Symbol, singleRefP6Symbol. rewrite !refs_fwd, !refs_bwd, !count_uses, !ctx_versus.
  change LAST_FRAME with 1. change LAST2_FRAME with 2. change LAST3_FRAME with 3. change GOLDEN_FRAME with 4. change BWDREF_FRAME with 5. change ALTREF2_FRAME with 6. change ALTREF_FRAME with 7.
  rewrite <- (uses_add _ _ [1] [2] [1; 2]) by indc. rewrite <- (uses_add _ _ [3] [4] [3; 4]) by indc. cbn [rvP2 rvP4 rvRest code_ref]. unfold cmp_refs.
  assert (B01 : forall v, 0 <= v < 2 -> bool_of v = (v =? 1)) by (intros; apply bool_01; lia).
  eapply (agrees_symk _ _ _ _ "SingleRefCdf" [3; 6] 2); [tab|repeat constructor; first [apply versus_range|lia]|]. intros p1 H1. rewrite B01 by lia. destruct (p1 =? 1).
  - eapply (agrees_symk _ _ _ _ "SingleRefCdf" [3; 6] 2); [tab|repeat constructor; first [apply versus_range|lia]|]. intros p2 H2. destruct (Z.eqb_spec p2 0), (Z.eqb_spec p2 1); try lia.
    + eapply (agrees_symk _ _ _ _ "SingleRefCdf" [3; 6] 2); [tab|repeat constructor; first [apply versus_range|lia]|]. intros p6 H6. rewrite B01 by lia. apply agrees_done. destruct (p6 =? 1); lia.
    + apply agrees_done. lia.
  - eapply (agrees_symk _ _ _ _ "SingleRefCdf" [3; 6] 2); [tab|repeat constructor; first [apply versus_range|lia]|]. intros p3 H3. rewrite B01 by lia. destruct (p3 =? 1); [apply agrees_panic; exact I|].
    eapply (agrees_symk _ _ _ _ "SingleRefCdf" [3; 6] 2); [tab|repeat constructor; first [apply versus_range|lia]|]. intros p4 H4. rewrite B01 by lia. apply agrees_done. destruct (p4 =? 1); lia.
Qed.

(** ** C147 Reference frames *)
Lemma readRefs_single e n seg : 0 <= bMiSize (nB e) < 22 -> bSegEnabled (nB e) = false -> (nRefSelect e = false \/ Z.min (bsize_w (bMiSize (nB e))) (bsize_h (bMiSize (nB e))) < 8) ->
  forall s, readRefFrames e n 0 seg s = (let* r := readSingleRef e n in ret (r, NONE)) s.
Proof.
  intros Hb HS HR s. destruct (block_facts _ Hb) as (_ & _ & EW & EH & _). unfold readRefFrames, segFeatureActive. change (bool_of 0) with false. cbv iota. rewrite HS. rewrite bind_eq. cbn [lift]. cbv iota beta.
  rewrite EW. rewrite bind_eq. cbn [lift]. rewrite EH. rewrite bind_eq. cbn [lift].
  assert (EC : nRefSelect e && (2 <=? Min (bsize_w (bMiSize (nB e)) / 4) (bsize_h (bMiSize (nB e)) / 4)) = false).
  { destruct HR as [-> | HR]; [reflexivity|]. apply andb_false_iff. right. apply Z.leb_gt. unfold Min. destruct (Z.leb_spec (bsize_w (bMiSize (nB e)) / 4) (bsize_h (bMiSize (nB e)) / 4)); clear - HR H; [|].
    - destruct (Z.le_gt_cases (bsize_w (bMiSize (nB e))) (bsize_h (bMiSize (nB e)))); [apply Z.div_lt_upper_bound; lia|]. pose proof (Z.div_le_mono (bsize_h (bMiSize (nB e))) (bsize_w (bMiSize (nB e))) 4 ltac:(lia) ltac:(lia)). assert (bsize_h (bMiSize (nB e)) / 4 < 2) by (apply Z.div_lt_upper_bound; lia). lia.
    - destruct (Z.le_gt_cases (bsize_h (bMiSize (nB e))) (bsize_w (bMiSize (nB e)))); [apply Z.div_lt_upper_bound; lia|]. pose proof (Z.div_le_mono (bsize_w (bMiSize (nB e))) (bsize_h (bMiSize (nB e))) 4 ltac:(lia) ltac:(lia)). assert (bsize_w (bMiSize (nB e)) / 4 < 2) by (apply Z.div_lt_upper_bound; lia). lia. }
  rewrite EC. rewrite bind_eq. cbn [ret]. reflexivity.
Qed.
(** The reference is read as the code's variant of the standard says. *)
Theorem C147_single_partial : forall e endp seg s, ienv_ok e -> bSegEnabled (nB e) = false -> (nRefSelect e = false \/ Z.min (bsize_w (bMiSize (nB e))) (bsize_h (bMiSize (nB e))) < 8) -> ready endp s ->
  exists n, neighbours e = Ok n /\ follows_program True (bDisable (nB e)) endp (std_single_ref code_ref (above_of e) (left_of e)) (readRefFrames e n 0 seg) (fun a b => b = (a, -1) /\ 1 <= a <= 7) s.
Proof.
  intros e endp seg s HE HS HR R. exists (nbrs_of e). split; [apply neighbours_ok, HE|]. apply agrees_follows; [|exact R]. eapply agrees_eq; [reflexivity|apply readRefs_single; [apply HE|exact HS|exact HR]|].
  eapply agrees_run; [|eapply (agrees_bind _ _ _ _ _ (fun a => Done a)); [apply single_agrees|]; intros a b [-> H]; apply agrees_done; split; [reflexivity|exact H]].
  intros d h. rewrite run_andthen. destruct (run _ _ d h) as [[[a d'] h']| |]; reflexivity.
Qed.
Print Assumptions C147_single_partial.


(** a symbol of a known table can always be read *)
Lemma sym_total endp dis name dims n path s : In (name, dims, n) block_cdfs -> path_in path dims -> fit block_cdfs endp s ->
  exists v d h, 0 <= v < n /\ fit block_cdfs endp (d, h) /\ esym dis name path s = Ok (v, (d, h)) /\ forall A (f : Z -> prog A), run dis (Sym name path f) (fst s) (snd s) = run dis (f v) d h.
Proof.
  intros HI HP F. assert (G := agrees_sym block_cdfs dis endp False name dims n path HI HP s F).
  destruct (run dis (Sym name path Done) (fst s) (snd s)) as [[[v d] h]| |] eqn:E; [|contradiction|destruct G as [[] _]].
  destruct G as (F1 & b & E1 & -> & Hb). exists b, d, h. repeat (split; [assumption|]). intros A f. change (Sym name path f) with (andthen (Sym name path Done) f). rewrite run_andthen, E. reflexivity.
Qed.
(** the standard's program and the code's differ in the contexts and in the references LAST3 and GOLDEN only *)
Definition same_contexts (A L : refs) : Prop := cmp_refs A L [5] [6] = cmp_refs A L [5; 6] [7] /\ cmp_refs A L [1; 2; 3; 4] [5; 6; 7] = cmp_refs A L [1] [2].
Lemma std_vs_code endp dis s A L : same_contexts A L -> fit block_cdfs endp s -> exists a d h, run dis (std_single_ref ref_standard A L) (fst s) (snd s) = Ok (a, d, h) /\ 1 <= a <= 7 /\
  run dis (std_single_ref code_ref A L) (fst s) (snd s) = if (a =? 3) || (a =? 4) then Hang else Ok (a, d, h).
Proof.
  intros [C2 C4] F. destruct s as [d h]. cbn [fst snd]. unfold std_single_ref. cbn [rvP2 rvP4 rvRest code_ref ref_standard]. rewrite C2, C4. unfold cmp_refs.
  assert (SY : forall s path, path_in path [3; 6] -> fit block_cdfs endp s -> exists v d h, 0 <= v < 2 /\ fit block_cdfs endp (d, h) /\ forall (f : Z -> prog Z), run dis (Sym "SingleRefCdf" path f) (fst s) (snd s) = run dis (f v) d h).
  { intros s0 path HP F0. destruct (sym_total endp dis "SingleRefCdf" [3; 6] 2 path s0 ltac:(tab) HP F0) as (v & d1 & h1 & Hv & F1 & _ & E). exists v, d1, h1. auto. }
  assert (PI : forall a b i, 0 <= i < 6 -> path_in [versus a b; i] [3; 6]) by (intros a b i Hi; repeat constructor; first [apply versus_range|lia]).
  destruct (SY (d, h) _ (PI (uses A L [1]) (uses A L [2]) 0 ltac:(lia)) F) as (v1 & d1 & h1 & H1 & F1 & E1). cbn [fst snd] in E1. rewrite !E1. destruct (v1 =? 1).
  - destruct (SY (d1, h1) _ (PI (uses A L [5; 6]) (uses A L [7]) 1 ltac:(lia)) F1) as (v2 & d2 & h2 & H2 & F2 & E2). cbn [fst snd] in E2. rewrite !E2. destruct (v2 =? 1).
    + exists 7, d2, h2. cbn [run]. split; [reflexivity|]. split; [lia|reflexivity].
    + destruct (SY (d2, h2) _ (PI (uses A L [5; 6]) (uses A L [7]) 5 ltac:(lia)) F2) as (v3 & d3 & h3 & H3 & F3 & E3). cbn [fst snd] in E3. rewrite !E3. cbn [run]. destruct (v3 =? 1); [exists 6, d3, h3|exists 5, d3, h3]; (split; [reflexivity|]; split; [lia|reflexivity]).
  - destruct (SY (d1, h1) _ (PI (uses A L [1; 2]) (uses A L [3; 4]) 2 ltac:(lia)) F1) as (v2 & d2 & h2 & H2 & F2 & E2). cbn [fst snd] in E2. rewrite !E2. destruct (v2 =? 1).
    + destruct (SY (d2, h2) _ (PI (uses A L [3]) (uses A L [4]) 4 ltac:(lia)) F2) as (v3 & d3 & h3 & H3 & F3 & E3). cbn [fst snd] in E3. rewrite !E3. cbn [run]. destruct (v3 =? 1); [exists 4, d3, h3|exists 3, d3, h3]; (split; [reflexivity|]; split; [lia|reflexivity]).
    + destruct (SY (d2, h2) _ (PI (uses A L [1]) (uses A L [2]) 3 ltac:(lia)) F2) as (v3 & d3 & h3 & H3 & F3 & E3). cbn [fst snd] in E3. rewrite !E3. cbn [run]. destruct (v3 =? 1); [exists 2, d3, h3|exists 1, d3, h3]; (split; [reflexivity|]; split; [lia|reflexivity]).
Qed.

Lemma far_fails endp dis s A L a d h : fit block_cdfs endp s -> run dis (std_single_ref ref_standard A L) (fst s) (snd s) = Ok (a, d, h) -> a = 3 \/ a = 4 -> run dis (std_single_ref code_ref A L) (fst s) (snd s) = Hang.
Proof.
  intros F E Ha. destruct s as [d0 h0]. cbn [fst snd] in *. unfold std_single_ref in *. cbn [rvP2 rvP4 rvRest code_ref ref_standard] in *. unfold cmp_refs in *.
  assert (SY : forall s path, path_in path [3; 6] -> fit block_cdfs endp s -> exists v d h, 0 <= v < 2 /\ fit block_cdfs endp (d, h) /\ forall (f : Z -> prog Z), run dis (Sym "SingleRefCdf" path f) (fst s) (snd s) = run dis (f v) d h).
  { intros s0 path HP F0. destruct (sym_total endp dis "SingleRefCdf" [3; 6] 2 path s0 ltac:(tab) HP F0) as (v & d1 & h1 & Hv & F1 & _ & E1). exists v, d1, h1. auto. }
  assert (PI : forall a b i, 0 <= i < 6 -> path_in [versus a b; i] [3; 6]) by (intros x b i Hi; repeat constructor; first [apply versus_range|lia]).
  destruct (SY (d0, h0) _ (PI (uses A L [1; 2; 3; 4]) (uses A L [5; 6; 7]) 0 ltac:(lia)) F) as (v1 & d1 & h1 & H1 & F1 & E1). cbn [fst snd] in E1. rewrite E1 in *. destruct (v1 =? 1).
  - destruct (SY (d1, h1) _ (PI (uses A L [5; 6]) (uses A L [7]) 1 ltac:(lia)) F1) as (v2 & d2 & h2 & H2 & F2 & E2). cbn [fst snd] in E2. rewrite E2 in E. destruct (v2 =? 1); [cbn [run] in E; injection E; intros; lia|].
    destruct (SY (d2, h2) _ (PI (uses A L [5]) (uses A L [6]) 5 ltac:(lia)) F2) as (v3 & d3 & h3 & H3 & F3 & E3). cbn [fst snd] in E3. rewrite E3 in E. cbn [run] in E. destruct (v3 =? 1); injection E; intros; lia.
  - destruct (SY (d1, h1) _ (PI (uses A L [1; 2]) (uses A L [3; 4]) 2 ltac:(lia)) F1) as (v2 & d2 & h2 & H2 & F2 & E2). cbn [fst snd] in E2. rewrite E2 in *. destruct (v2 =? 1); [reflexivity|].
    destruct (SY (d2, h2) _ (PI (uses A L [1]) (uses A L [2]) 3 ltac:(lia)) F2) as (v3 & d3 & h3 & H3 & F3 & E3). cbn [fst snd] in E3. rewrite E3 in E. cbn [run] in E. destruct (v3 =? 1); injection E; intros; lia.
Qed.
(** Where the contexts agree: the standard's reference, unless it is LAST3 or GOLDEN. *)
Theorem C147_standard_partial : forall e endp seg s, ienv_ok e -> bSegEnabled (nB e) = false -> (nRefSelect e = false \/ Z.min (bsize_w (bMiSize (nB e))) (bsize_h (bMiSize (nB e))) < 8) -> ready endp s ->
  same_contexts (above_of e) (left_of e) -> exists n a d h, neighbours e = Ok n /\ run (bDisable (nB e)) (std_single_ref ref_standard (above_of e) (left_of e)) (fst s) (snd s) = Ok (a, d, h) /\ 1 <= a <= 7 /\
    (a <> 3 -> a <> 4 -> readRefFrames e n 0 seg s = Ok ((a, -1), (d, h))).
Proof.
  intros e endp seg s HE HS HR R C. destruct (C147_single_partial e endp seg s HE HS HR R) as (n & En & P). unfold follows_program in P.
  destruct (std_vs_code endp (bDisable (nB e)) s _ _ C (proj1 (ready_fit _ _) R)) as (a & d & h & E1 & Ha & E2). exists n, a, d, h. split; [exact En|]. split; [exact E1|]. split; [exact Ha|]. intros N3 N4.
  destruct (Z.eqb_spec a 3); [lia|]. destruct (Z.eqb_spec a 4); [lia|]. cbn [orb] in E2. rewrite E2 in P. destruct P as (_ & b & Eb & -> & _). exact Eb.
Qed.
Print Assumptions C147_standard_partial.
(** Refuted: a block predicted from LAST3 or GOLDEN ends the decoder. *)
Theorem C147_far_refuted : forall e endp seg s a d h, ienv_ok e -> bSegEnabled (nB e) = false -> (nRefSelect e = false \/ Z.min (bsize_w (bMiSize (nB e))) (bsize_h (bMiSize (nB e))) < 8) -> ready endp s ->
  run (bDisable (nB e)) (std_single_ref ref_standard (above_of e) (left_of e)) (fst s) (snd s) = Ok (a, d, h) -> a = 3 \/ a = 4 -> exists n, neighbours e = Ok n /\ readRefFrames e n 0 seg s = Panic.
Proof.
  intros e endp seg s a d h HE HS HR R E Ha. destruct (C147_single_partial e endp seg s HE HS HR R) as (n & En & P). unfold follows_program in P. exists n. split; [exact En|].
  rewrite (far_fails endp _ s _ _ a d h (proj1 (ready_fit _ _) R) E Ha) in P. apply P.
Qed.
Print Assumptions C147_far_refuted.
(** Refuted: wrong contexts.  If the neighbours use ALTREF but neither BWDREF nor ALTREF2 the flag for ALTREF has context 0; the code reads it with context 1.
    If they use LAST2 only the flag for LAST2 has context 0; the code reads it with context 2. *)
Theorem C147_context_refuted : forall e n, neighbours e = Ok n -> ienv_ok e ->
  (0 < uses (above_of e) (left_of e) [7] -> uses (above_of e) (left_of e) [5; 6] = 0 -> rvP2 ref_standard (above_of e) (left_of e) = 0 /\ singleRefP2Symbol e n = esym (bDisable (nB e)) "SingleRefCdf" [1; 1]) /\
  (0 < uses (above_of e) (left_of e) [2] -> uses (above_of e) (left_of e) [1; 3; 4; 5; 6; 7] = 0 -> rvP4 ref_standard (above_of e) (left_of e) = 0 /\ singleRefP4Symbol e n = esym (bDisable (nB e)) "SingleRefCdf" [2; 3]).
Proof.
  intros e n En HE. rewrite (neighbours_ok e HE) in En. injection En as <-.
  assert (NN : forall A L s, 0 <= uses A L s) by (intros; unfold uses; lia). set (A := above_of e). set (L := left_of e).
  split; intros H1 H2; cbn [rvP2 rvP4 ref_standard]; unfold cmp_refs.
  - rewrite H2. split; [unfold versus; destruct (Z.compare_spec 0 (uses A L [7])); try lia; reflexivity|]. unfold singleRefP2Symbol. rewrite !count_uses, ctx_versus. fold A L. change BWDREF_FRAME with 5. change ALTREF2_FRAME with 6.
    rewrite (uses_add A L [5] [6] [5; 6]) in H2 by indc. pose proof (NN A L [5]). pose proof (NN A L [6]). replace (uses A L [5]) with 0 by lia. replace (uses A L [6]) with 0 by lia. reflexivity.
  - rewrite (uses_add A L [1; 3; 4] [5; 6; 7] [1; 3; 4; 5; 6; 7]) in H2 by indc. rewrite (uses_add A L [1] [3; 4] [1; 3; 4]) in H2 by indc.
    pose proof (NN A L [1]). pose proof (NN A L [3; 4]). pose proof (NN A L [5; 6; 7]). assert (E1 : uses A L [1] = 0) by lia. assert (E34 : uses A L [3; 4] = 0) by lia. assert (E567 : uses A L [5; 6; 7] = 0) by lia.
    split; [rewrite E1; unfold versus; destruct (Z.compare_spec 0 (uses A L [2])); try lia; reflexivity|]. unfold singleRefP4Symbol. rewrite refs_fwd, refs_bwd, ctx_versus. fold A L. rewrite E567.
    rewrite (uses_add A L [1; 2] [3; 4] [1; 2; 3; 4]) by indc. rewrite (uses_add A L [1] [2] [1; 2]) by indc. rewrite E1, E34. unfold versus. destruct (Z.compare_spec (0 + uses A L [2] + 0) 0); try lia. reflexivity.
Qed.
Print Assumptions C147_context_refuted.
(** Refuted: with reference_select every block of at least 8x8 (outside of skip mode and segments with a fixed reference) ends the decoder. *)
Theorem C147_compound_refuted : forall e n seg s, 0 <= bMiSize (nB e) < 22 -> segFeatureActive (nB e) seg 5 = Ok false -> nRefSelect e = true -> 8 <= bsize_w (bMiSize (nB e)) -> 8 <= bsize_h (bMiSize (nB e)) ->
  readRefFrames e n 0 seg s = Panic.
Proof.
  intros e n seg s Hb HF HR HW HH. destruct (block_facts _ Hb) as (_ & _ & EW & EH & _). unfold readRefFrames. change (bool_of 0) with false. cbv iota. change SEG_LVL_REF_FRAME with 5. rewrite HF, bind_eq. cbn [lift]. cbv iota beta.
  rewrite EW. rewrite bind_eq. cbn [lift]. rewrite EH. rewrite bind_eq. cbn [lift]. rewrite HR. cbn [andb].
  assert (2 <= bsize_w (bMiSize (nB e)) / 4) by (apply Z.div_le_lower_bound; lia). assert (2 <= bsize_h (bMiSize (nB e)) / 4) by (apply Z.div_le_lower_bound; lia).
  destruct (Z.leb_spec 2 (Min (bsize_w (bMiSize (nB e)) / 4) (bsize_h (bMiSize (nB e)) / 4))) as [_|HM]; [reflexivity|]. unfold Min in HM. destruct (_ <=? _) in HM; lia.
Qed.
Print Assumptions C147_compound_refuted.
(** In skip mode and in segments with a fixed reference nothing is read. *)
Theorem C147_fixed_partial : forall e n seg s, (zlen (nSkipFrame e) = 2 -> exists a b, nSkipFrame e = [a; b] /\ readRefFrames e n 1 seg s = Ok ((a, b), s)) /\
  (segFeatureActive (nB e) seg 5 = Ok true -> forall v, idx2 (nFeatureData e) seg 5 = Ok v -> readRefFrames e n 0 seg s = Ok ((v, -1), s)).
Proof.
  intros e n seg s. split.
  - intros HL. destruct (nSkipFrame e) as [|a [|b [|c l]]] eqn:E; unfold zlen in HL; cbn [List.length] in HL; try lia. exists a, b. split; [reflexivity|]. unfold readRefFrames. rewrite E. reflexivity.
  - intros HF v Hv. unfold readRefFrames. change (bool_of 0) with false. cbv iota. change SEG_LVL_REF_FRAME with 5. rewrite HF, bind_eq. cbn [lift]. cbv iota beta. rewrite Hv, bind_eq. reflexivity.
Qed.
Print Assumptions C147_fixed_partial.
(** ** A concrete inter frame: a 16x16 block at row 1, column 1 with neighbours of references [a]; no segmentation *)
(** (the neighbours have mode 13: inter) *)
Definition demo_nb : BEnv :=
  mkBEnv false 0 false 0 (repeat (repeat 0 8) 8) (repeat false 8) false true false 2 false 1 true 1 1 3 true true 0 false 1 1 6 true true true
    (repeat (repeat 13 64) 64) (repeat (repeat 1 64) 64) (repeat (repeat 0 2) 2) (repeat (repeat (repeat 0 2) 2) 2).
Definition demo_in (b : BEnv) (a : Z) (refSelect switchable : bool) (interp : Z) : IEnv :=
  mkIEnv b 1 0 0 [1; 7] refSelect switchable false true interp true true true false (repeat (repeat [a; -1] 64) 64) (repeat (repeat 5 64) 64) 64 64 (repeat (repeat 3 8) 8) (repeat 0 8) (repeat (repeat 6 64) 64) 0 64 0 64.
Ltac demo_ok := unfold env_ok, nb_ok, array2, array1, zlen;
  cbn [view set_modes nB demo_in demo_nb demo_b bMiSize bSegPreSkip bLastActive bFeature bLosslessArray bCdefBits bQRes bLfRes bLfMulti bScreen bAvailU bAvailL bYModes bSegIds bSkipModes bPaletteSizes bMiRow bMiCol];
  repeat (split; [first [lia|reflexivity|(split; [reflexivity|repeat constructor])]|]);
  split; [|split]; intros; repeat split; eexists; (split; [vm_compute; reflexivity|lia]) || (vm_compute; reflexivity).
Lemma demo_in_ok a rs sw ip : ienv_ok (demo_in demo_nb a rs sw ip).
Proof. split; [demo_ok|]. split; intros _; split; eexists; reflexivity. Qed.
Definition ref_run (a v : Z) : res (Z * Z * ES) := let e := demo_in demo_nb a false false 0 in let! n := neighbours e in readRefFrames e n 0 0 (seg_es v).
Definition ref_std (a v : Z) : res (Z * dec * (string -> tree)) := let e := demo_in demo_nb a false false 0 in run false (std_single_ref ref_standard (above_of e) (left_of e)) (fst (seg_es v)) (snd (seg_es v)).
Example C147_case : ienv_ok (demo_in demo_nb 1 false false 0) /\ same_contexts (Some (1, -1)) (Some (1, -1)) /\
  match ref_run 1 30000, ref_std 1 30000, ref_run 1 10, ref_std 1 10 with Ok (r, _), Ok (a, _, _), Ok (r', _), Ok (a', _, _) => (r, a, r', a') = ((1, -1), 1, (7, -1), 7) | _, _, _, _ => False end /\
  match ref_run 1 5000, ref_std 1 5000 with Panic, Ok (a, _, _) => a = 3 | _, _ => False end /\
  (0 < uses (Some (7, -1)) (Some (7, -1)) [7] /\ uses (Some (7, -1)) (Some (7, -1)) [5; 6] = 0) /\ (0 < uses (Some (2, -1)) (Some (2, -1)) [2] /\ uses (Some (2, -1)) (Some (2, -1)) [1; 3; 4; 5; 6; 7] = 0) /\
  match readRefFrames (demo_in demo_nb 1 true false 0) (mkNbrs 1 (-1) 1 (-1)) 0 0 demo_es with Panic => True | _ => False end.
Proof. split; [apply demo_in_ok|]. split; [split; reflexivity|]. split; [vm_compute; reflexivity|]. split; [vm_compute; reflexivity|]. split; [split; vm_compute; reflexivity|]. split; [split; vm_compute; reflexivity|]. vm_compute. exact I. Qed.
