(** Properties C150 to C155: intra and inter blocks of inter frames. *)
From Coq Require Import String.
From Verif Require Import GoBase Bitstream Util UtilProofs Constants Tables Frame Writes Symbol SpecMath SpecSymbol SymbolProofs PropUtil CdfMoves CdfMemory SpecPartition LoopFilter Intra SpecCoeffs CoeffRun Elements ElementsSim ElementsDemo SpecBlock ModeInfo ModeInfoProofs PropModeInfo InterMode SpecInterMode PropInterMode PropInterSeg.
Local Open Scope string_scope.
Local Open Scope Z_scope.

(** ** C150 Intra blocks *)
Definition ib_of (i : iblock) : Z * Z * option (Z * option (Z * Z) * Z) := (ibMode i, ibAngle i, option_map uv_of (ibChroma i)).
Definition ib_flip (i : iblock) : iblock := mkIblock (ibMode i) (ibAngle i) (option_map flip_chroma (ibChroma i)).
Lemma size_group b : 0 <= b < 22 -> idx SIZE_GROUP b = Ok (size_class b) /\ 0 <= size_class b < 4.
Proof. intros H. apply in_blocks in H. unfold blocks in H. cbn in H. repeat (destruct H as [<-|H]; [split; vm_compute; [reflexivity|split; congruence]|]). contradiction. Qed.
Section Intra.
Context (e : BEnv) (endp : Z) (OK : env_ok e).
Notation dis := (bDisable e).
Notation ag := (agrees block_cdfs dis endp (can_fail e)).
Notation f := (frm_of e).
Notation k := (blk_of (bSkipModes e) e).
Lemma uv_inter_ok ll ymode : 0 <= ymode < 13 -> ag (Sym (if cfl_allowed 32 f k ll then "UVModeCflAllowedCdf" else "UVModeCflNotAllowedCdf") [ymode] Done) (uvModeInter e ll ymode) (fun a b => a = b /\ 0 <= b <= 13).
Proof.
  intros Hy. destruct OK as (HS & _). destruct (block_facts _ HS) as (EW & EH & _). destruct (residual_4x4 (bSubX e) (bSubY e) _ HS) as (r & Er & E4). unfold uvModeInter.
  assert (A1 : ag (Sym "UVModeCflAllowedCdf" [ymode] Done) (esym dis "UVModeCflAllowedCdf" [ymode]) (fun a b => a = b /\ 0 <= b <= 13)).
  { eapply agrees_weaken; [apply (agrees_sym _ _ _ _ "UVModeCflAllowedCdf" [13] 14); [tab|inr]|]. cbv beta. intros x y [H1 H2]. split; [exact H1|lia]. }
  assert (A2 : ag (Sym "UVModeCflNotAllowedCdf" [ymode] Done) (esym dis "UVModeCflNotAllowedCdf" [ymode]) (fun a b => a = b /\ 0 <= b <= 13)).
  { eapply agrees_weaken; [apply (agrees_sym _ _ _ _ "UVModeCflNotAllowedCdf" [13] 13); [tab|inr]|]. cbv beta. intros x y [H1 H2]. split; [exact H1|lia]. }
  destruct ll; cbn [negb].
  - eapply (agrees_lift _ _ _ _ _ _ _ (cfl_allowed 32 f k true)). { rewrite Er. cbn [rbind]. rewrite E4. reflexivity. } cbv beta. destruct (cfl_allowed 32 f k true); [exact A1|]. eapply agrees_lift; [reflexivity|]. cbv beta iota. exact A2.
  - eapply agrees_lift; [reflexivity|]. cbv beta iota. eapply (agrees_lift _ _ _ _ _ _ _ (cfl_allowed 32 f k false)).
    { rewrite EW, EH. cbn [rbind]. rewrite Max_max. reflexivity. }
    cbv beta. destruct (cfl_allowed 32 f k false); [exact A1|exact A2].
Qed.
Lemma inter_chroma_ok ll ymode : 0 <= ymode < 13 -> ag (std_chroma 32 2 f k ll ymode) (interChroma e ll ymode) (fun c x => x = uv_of c).
Proof.
  intros Hy. unfold std_chroma, interChroma.
  match goal with |- agrees _ _ _ _ (Sym ?n ?p ?g) _ _ => change (Sym n p g) with (andthen (Sym n p Done) g) end.
  eapply agrees_bind; [apply uv_inter_ok, Hy|]. cbv beta. intros m m' (-> & Hm). unfold UV_CFL_PRED.
  eapply (agrees_bind _ _ _ _ _ _ _ _ eq).
  - destruct (m' =? 13); [|apply agrees_done; reflexivity]. eapply agrees_bind; [apply cfl_ok|]. intros a b ->. apply agrees_done. reflexivity.
  - intros a b ->. eapply agrees_bind; [apply angle_ok, Hm|]. intros x y ->. apply agrees_done. reflexivity.
Qed.
Lemma inter_chroma_std ll ymode : 0 <= ymode < 13 -> ag (std_chroma 32 1 f k ll ymode) (interChroma e ll ymode) (fun c x => x = uv_of (flip_chroma c)).
Proof.
  intros Hy. unfold std_chroma, interChroma.
  match goal with |- agrees _ _ _ _ (Sym ?n ?p ?g) _ _ => change (Sym n p g) with (andthen (Sym n p Done) g) end.
  eapply agrees_bind; [apply uv_inter_ok, Hy|]. cbv beta. intros m m' (-> & Hm). unfold UV_CFL_PRED.
  eapply (agrees_bind _ _ _ _ _ _ _ _ (fun a b => b = option_map negs a)).
  - destruct (m' =? 13); [|apply agrees_done; reflexivity]. eapply agrees_bind; [apply cfl_std|]. cbv beta. intros a b [-> _]. apply agrees_done. reflexivity.
  - intros a b ->. eapply agrees_bind; [apply angle_ok, Hm|]. intros x y ->. apply agrees_done. reflexivity.
Qed.
Lemma intra_block_gen neg rest ll (g : chroma -> chroma) : (forall c, cMode (g c) = cMode c) -> (forall ymode, 0 <= ymode < 13 -> ag (std_chroma 32 neg f k ll ymode) (interChroma e ll ymode) (fun c x => x = uv_of (g c))) ->
  (rest = true -> bScreen e = 0 /\ bFilterIntra e = false) ->
  ag (std_intra_block neg rest f k ll) (intraBlockModeInfo e ll) (fun i x => x = (ibMode i, ibAngle i, option_map uv_of (option_map g (ibChroma i)))).
Proof.
  intros HM HC HR. pose proof OK as (HS & _). destruct (block_facts _ HS) as (EW & EH & _). destruct (size_group _ HS) as [EG HG]. unfold std_intra_block, intraBlockModeInfo. eapply agrees_lift; [exact EG|].
  change (kSize k) with (bMiSize e). eapply (agrees_symk _ _ _ _ "YModeCdf" [4] 13); [tab|inr|]. intros y Hy.
  eapply agrees_bind; [apply angle_ok; lia|]. intros ya0 ya ->.
  eapply (agrees_bind _ _ _ _ _ _ _ _ (fun c x => x = option_map uv_of (option_map g c))).
  { change (kChroma k) with (bHasChroma e). destruct (bHasChroma e); [|apply agrees_done; reflexivity]. eapply agrees_bind; [apply (HC y Hy)|]. cbv beta. intros c x ->. apply agrees_done. reflexivity. }
  intros c x ->.
  assert (EU : match option_map uv_of (option_map g c) with Some c0 => Some (fst (fst c0)) | None => None end = option_map cMode c) by (destruct c as [c|]; [cbn; rewrite HM|]; reflexivity). rewrite EU.
  match goal with |- agrees _ _ _ _ _ (bind (lift (idx BLOCK_WIDTH (bMiSize e))) (fun w => bind (lift (idx BLOCK_HEIGHT (bMiSize e))) (fun h => bind (@?m w h) ?kk))) _ =>
    eapply (agrees_eq _ _ _ _ _ _ _ (bind (bind (lift (idx BLOCK_WIDTH (bMiSize e))) (fun w => bind (lift (idx BLOCK_HEIGHT (bMiSize e))) (fun h => m w h))) kk)) end;
    [reflexivity|intros s; rewrite EW, EH; rewrite !bind_eq; cbn [lift]; rewrite !bind_eq; cbn [lift]; reflexivity|].
  destruct rest.
  - destruct (HR eq_refl) as [H1 H2]. eapply agrees_bind; [apply (palette_std e endp OK _ _ H1)|]. intros _ _ _. eapply agrees_bind; [apply (filter_std e endp OK _ H2)|]. cbv beta. intros fl _ ->. apply agrees_done. reflexivity.
  - eapply agrees_bind; [apply (palette_ok e endp OK)|]. intros _ _ _. eapply agrees_bind; [apply (filter_ok e endp OK)|]. cbv beta. intros fl _ ->. apply agrees_done. reflexivity.
Qed.
Lemma intra_block_ok ll : ag (std_intra_block 2 false f k ll) (intraBlockModeInfo e ll) (fun i x => x = ib_of i).
Proof.
  eapply agrees_weaken; [apply (intra_block_gen 2 false ll (fun c => c)); [reflexivity|intros y Hy; apply (inter_chroma_ok ll y Hy)|discriminate]|]. cbv beta. intros i x ->. unfold ib_of. destruct (ibChroma i); reflexivity.
Qed.
Lemma intra_block_std ll : bScreen e = 0 -> bFilterIntra e = false -> ag (std_intra_block 1 true f k ll) (intraBlockModeInfo e ll) (fun i x => x = ib_of (ib_flip i)).
Proof.
  intros H1 H2. eapply agrees_weaken; [apply (intra_block_gen 1 true ll flip_chroma); [reflexivity|intros y Hy; apply (inter_chroma_std ll y Hy)|intros _; split; assumption]|]. cbv beta. intros i x ->. reflexivity.
Qed.
End Intra.
(** Without palettes and recursive filters: the standard's intra block, but for the sign of the chroma from luma parameters (C108). *)
Theorem C150_intra_block_partial : forall e endp ll s, ienv_ok e -> bScreen (nB e) = 0 -> bFilterIntra (nB e) = false -> ready endp s ->
  follows_program (can_fail (nB e)) (bDisable (nB e)) endp (std_intra_block 1 true (frm_of (nB e)) (blk_of (bSkipModes (nB e)) (view e)) ll) (intraBlockModeInfo (nB e) ll) (fun i x => x = ib_of (ib_flip i)) s.
Proof. intros e endp ll s (OK & _) H1 H2 HR. apply agrees_follows; [|exact HR]. exact (intra_block_std (view e) endp OK ll H1 H2). Qed.
Print Assumptions C150_intra_block_partial.
(** In general: with that sign exchanged, and without palettes in chroma and recursive filters (where the decoder ends). *)
Theorem C150_intra_block_code_partial : forall e endp ll s, ienv_ok e -> ready endp s ->
  follows_program (can_fail (nB e)) (bDisable (nB e)) endp (std_intra_block 2 false (frm_of (nB e)) (blk_of (bSkipModes (nB e)) (view e)) ll) (intraBlockModeInfo (nB e) ll) (fun i x => x = ib_of i) s.
Proof. intros e endp ll s (OK & _) HR. apply agrees_follows; [|exact HR]. exact (intra_block_ok (view e) endp OK ll). Qed.
Print Assumptions C150_intra_block_code_partial.
(** Refuted: the sign, whenever chroma is predicted from luma: the parameters are never those of the standard. *)
Theorem C150_sign_refuted : forall e endp ll s i d h c a, ienv_ok e -> bScreen (nB e) = 0 -> bFilterIntra (nB e) = false -> ready endp s ->
  run (bDisable (nB e)) (std_intra_block 1 true (frm_of (nB e)) (blk_of (bSkipModes (nB e)) (view e)) ll) (fst s) (snd s) = Ok (i, d, h) -> ibChroma i = Some c -> cCfl c = Some a ->
  exists m an uv, intraBlockModeInfo (nB e) ll s = Ok ((m, an, Some uv), (d, h)) /\ snd (fst uv) = Some (- fst a, - snd a).
Proof.
  intros e endp ll s i d h c a HE H1 H2 HR E Ec Ea. assert (F := C150_intra_block_partial e endp ll s HE H1 H2 HR). unfold follows_program in F. rewrite E in F. destruct F as (_ & b & Eb & ->). unfold ib_of, ib_flip in Eb. cbn [ibMode ibAngle ibChroma] in Eb. rewrite Ec in Eb. cbn [option_map] in Eb.
  do 3 eexists. split; [exact Eb|]. unfold uv_of, flip_chroma. cbn [fst snd cCfl]. rewrite Ea. reflexivity.
Qed.
Print Assumptions C150_sign_refuted.
Example C150_case : match intraBlockModeInfo demo_nb false demo_es, run false (std_intra_block 1 true (frm_of demo_nb) (blk_of (bSkipModes demo_nb) (view (demo_in demo_nb 1 false false 0))) false) (fst demo_es) (snd demo_es) with
  Ok (x, _), Ok (i, _, _) => (x, x) = (ib_of (ib_flip i), (0, 0, Some (13, Some (3, 0), 0))) | _, _ => False end.
Proof. vm_compute. reflexivity. Qed.

(** ** C151 The mode of inter blocks and the index of the candidate *)
(** the code's numbers of the modes *)
Definition mode_num (m : imode) : Z := match m with Nearest => NEARESTMV | Near => NEARMV | Global => GLOBALMV | New => NEWMV end.
Lemma mode_agrees e endp seg newCtx zeroCtx refCtx : segFeatureActive (nB e) seg 6 = Ok false -> segFeatureActive (nB e) seg 7 = Ok false -> 0 <= newCtx < 6 -> 0 <= zeroCtx < 2 ->
  agrees block_cdfs (bDisable (nB e)) endp True (std_inter_mode false newCtx zeroCtx refCtx) (readInterMode e 0 seg false newCtx zeroCtx) (fun m y => y = mode_num m /\ (m = New \/ m = Global)).
Proof.
  intros H6 H7 Hn Hz. unfold readInterMode, std_inter_mode. change (bool_of 0) with false. cbv iota. change SEG_LVL_SKIP with 6. change SEG_LVL_GLOBALMV with 7. eapply agrees_lift; [exact H6|]. cbv beta iota. eapply agrees_lift; [exact H7|]. cbv beta iota.
  eapply (agrees_symk _ _ _ _ "NewMvCdf" [6] 2); [tab|inr|]. intros v Hv. destruct (v =? 0); [apply agrees_done; auto|].
  eapply (agrees_symk _ _ _ _ "ZeroMvCdf" [2] 2); [tab|inr|]. intros w Hw. destruct (w =? 0); [apply agrees_done; auto|]. apply agrees_panic. exact I.
Qed.
(** New and global motion are read as in the standard. *)
Theorem C151_mode_partial : forall e endp seg newCtx zeroCtx refCtx s, segFeatureActive (nB e) seg 6 = Ok false -> segFeatureActive (nB e) seg 7 = Ok false -> 0 <= newCtx < 6 -> 0 <= zeroCtx < 2 -> ready endp s ->
  follows_program True (bDisable (nB e)) endp (std_inter_mode false newCtx zeroCtx refCtx) (readInterMode e 0 seg false newCtx zeroCtx) (fun m y => y = mode_num m /\ (m = New \/ m = Global)) s.
Proof. intros. apply agrees_follows; [|assumption]. apply mode_agrees; assumption. Qed.
Print Assumptions C151_mode_partial.
(** Refuted: a block of mode NEARESTMV or NEARMV ends the decoder. *)
Theorem C151_near_refuted : forall e endp seg newCtx zeroCtx refCtx s m d h, segFeatureActive (nB e) seg 6 = Ok false -> segFeatureActive (nB e) seg 7 = Ok false -> 0 <= newCtx < 6 -> 0 <= zeroCtx < 2 -> ready endp s ->
  run (bDisable (nB e)) (std_inter_mode true newCtx zeroCtx refCtx) (fst s) (snd s) = Ok (m, d, h) -> m = Nearest \/ m = Near -> readInterMode e 0 seg false newCtx zeroCtx s = Panic.
Proof.
  intros e endp seg newCtx zeroCtx refCtx s m d h H6 H7 Hn Hz HR E Hm. assert (F := C151_mode_partial e endp seg newCtx zeroCtx refCtx s H6 H7 Hn Hz HR). unfold follows_program in F.
  unfold std_inter_mode in E, F. destruct (sym_total endp (bDisable (nB e)) "NewMvCdf" [6] 2 [newCtx] s ltac:(tab) ltac:(inr) (proj1 (ready_fit _ _) HR)) as (v & d1 & h1 & _ & F1 & _ & E1). rewrite E1 in E. rewrite E1 in F.
  destruct (v =? 0); [cbn [run] in E; injection E as <- _ _; destruct Hm; discriminate|].
  destruct (sym_total endp (bDisable (nB e)) "ZeroMvCdf" [2] 2 [zeroCtx] (d1, h1) ltac:(tab) ltac:(inr) F1) as (w & d2 & h2 & _ & F2 & _ & E2). cbn [fst snd] in E2. rewrite E2 in E. rewrite E2 in F.
  destruct (w =? 0); [cbn [run] in E; injection E as <- _ _; destruct Hm; discriminate|]. cbn [run] in F. apply F.
Qed.
Print Assumptions C151_near_refuted.
(** Segments with a feature skip or global motion: GLOBALMV, nothing is read. *)
Theorem C151_segment_partial : forall e seg c newCtx zeroCtx s, segFeatureActive (nB e) seg 6 = Ok true \/ (segFeatureActive (nB e) seg 6 = Ok false /\ segFeatureActive (nB e) seg 7 = Ok true) -> readInterMode e 0 seg c newCtx zeroCtx s = Ok (mode_num Global, s).
Proof. intros e seg c newCtx zeroCtx s [H|[H H']]; unfold readInterMode; change (bool_of 0) with false; cbv iota; change SEG_LVL_SKIP with 6; change SEG_LVL_GLOBALMV with 7; rewrite H, ?H'; reflexivity. Qed.
Print Assumptions C151_segment_partial.
Lemma drl_agrees e endp m found ctx : agrees block_cdfs (bDisable (nB e)) endp True (std_drl false m found ctx) (readDrl (mode_num m) found) eq.
Proof.
  destruct m; unfold std_drl, std_flag, readDrl, mode_num; cbn [Z.eqb orb]; try (apply agrees_done; reflexivity); change ((NEARMV =? NEWMV) || (NEARMV =? NEW_NEWMV)) with false; change ((NEWMV =? NEWMV) || (NEWMV =? NEW_NEWMV)) with true; change (hasNearmv NEARMV) with true; cbv iota; unfold drlLoop.
  - destruct (1 + 1 <? found); [apply agrees_fail; exact I|]. change (1 + 1 + 1) with (2 + 1). destruct (2 + 1 <? found); [apply agrees_fail; exact I|apply agrees_done; reflexivity].
  - destruct (0 + 1 <? found); [apply agrees_fail; exact I|]. change (0 + 1 + 1) with (1 + 1). destruct (1 + 1 <? found); [apply agrees_fail; exact I|apply agrees_done; reflexivity].
Qed.
(** The index of the candidate: read as in the standard if there is no choice. *)
Theorem C151_candidate_partial : forall e endp m found ctx s, ready endp s -> follows_program True (bDisable (nB e)) endp (std_drl false m found ctx) (readDrl (mode_num m) found) eq s.
Proof. intros. apply agrees_follows; [|assumption]. apply drl_agrees. Qed.
Print Assumptions C151_candidate_partial.
(** Refuted: a new vector with two or more candidates ends the decoder (the standard reads a flag). *)
Theorem C151_choice_refuted : forall found ctx s, 2 <= found -> readDrl (mode_num New) found s = Panic /\ exists k, std_drl true New found ctx = Sym "DrlModeCdf" [ctx 0] k.
Proof.
  intros found ctx s H. split; [|unfold std_drl, std_flag; destruct (Z.ltb_spec (0 + 1) found); [eexists; reflexivity|lia]]. unfold readDrl, drlLoop. change ((mode_num New =? NEWMV) || (mode_num New =? NEW_NEWMV)) with true. cbv iota. destruct (Z.ltb_spec (0 + 1) found); [reflexivity|lia].
Qed.
Print Assumptions C151_choice_refuted.
Definition mode_run (v : Z) : res (Z * ES) := readInterMode (demo_in demo_nb 1 false false 0) 0 0 false 2 1 (seg_es v).
Example C151_case : match mode_run 30000, mode_run 21000, mode_run 50 with Ok (a, _), Ok (b, _), Panic => (a, b) = (NEWMV, GLOBALMV) | _, _, _ => False end /\
  match readDrl NEWMV 1 demo_es, readDrl NEWMV 2 demo_es with Ok (a, _), Panic => a = 0 | _, _ => False end.
Proof. split; vm_compute; reflexivity. Qed.

(** ** C152 Motion mode *)
(** Where the standard fixes the motion mode by skip mode, the frame, the size or a global warp: SIMPLE (0), nothing is read. *)
Theorem C152_simple_partial : forall e scaled skipMode ymode ref0 t s, 0 <= bMiSize (nB e) < 22 -> idx (nGm e) ref0 = Ok t ->
  simple_only (bool_of skipMode) (nSwitchable e) false true (nForceInt e) (bsize_w (bMiSize (nB e))) (bsize_h (bMiSize (nB e))) ((ymode =? GLOBALMV) || (ymode =? GLOBAL_GLOBALMV)) t = true ->
  readMotionMode e scaled skipMode ymode ref0 s = Ok (0, s).
Proof.
  intros e scaled skipMode ymode ref0 t s Hb Ht H. destruct (block_facts _ Hb) as (EW & EH & _). unfold simple_only in H. unfold readMotionMode. destruct (bool_of skipMode); [reflexivity|]. destruct (nSwitchable e); cbn [negb orb] in *; [|reflexivity].
  rewrite EW, EH, Ht. rewrite bind_eq. cbn [lift]. rewrite bind_eq. cbn [lift]. rewrite Min_min. destruct (Z.min _ _ <? 8); [reflexivity|]. cbn [orb] in H. rewrite !orb_false_r in H. unfold TRANSLATION.
  destruct (negb (nForceInt e) && ((ymode =? GLOBALMV) || (ymode =? GLOBAL_GLOBALMV))); [|discriminate]. cbn [andb] in H. cbn [rbind]. rewrite bind_eq. cbn [lift]. rewrite H. reflexivity.
Qed.
Print Assumptions C152_simple_partial.
(** Refuted: in all other cases the decoder ends (or does not come back), also for compound blocks and blocks without an inter coded neighbour, where the standard has SIMPLE. *)
Theorem C152_other_refuted : forall e scaled ymode ref0 t s x, 0 <= bMiSize (nB e) < 22 -> idx (nGm e) ref0 = Ok t ->
  simple_only false (nSwitchable e) false true (nForceInt e) (bsize_w (bMiSize (nB e))) (bsize_h (bMiSize (nB e))) ((ymode =? GLOBALMV) || (ymode =? GLOBAL_GLOBALMV)) t = false ->
  (forall sw c, simple_only false sw c false (nForceInt e) (bsize_w (bMiSize (nB e))) (bsize_h (bMiSize (nB e))) ((ymode =? GLOBALMV) || (ymode =? GLOBAL_GLOBALMV)) t = true) /\ readMotionMode e scaled 0 ymode ref0 s <> Ok x.
Proof.
  intros e scaled ymode ref0 t s x Hb Ht H. split; [intros sw c; unfold simple_only; rewrite orb_true_r; reflexivity|]. destruct (block_facts _ Hb) as (EW & EH & _). unfold simple_only in H. unfold readMotionMode. change (bool_of 0) with false. destruct (nSwitchable e); cbn [negb orb] in *; [|discriminate].
  cbv iota. rewrite EW, EH, Ht. rewrite bind_eq. cbn [lift]. rewrite bind_eq. cbn [lift]. rewrite Min_min. destruct (Z.min _ _ <? 8); [discriminate|]. cbn [orb] in H. rewrite !orb_false_r in H. unfold TRANSLATION.
  assert (EV : (if negb (nForceInt e) && ((ymode =? GLOBALMV) || (ymode =? GLOBAL_GLOBALMV)) then let! t := Ok t in Ok (1 <? t) else Ok false) = Ok false) by (destruct (negb (nForceInt e) && ((ymode =? GLOBALMV) || (ymode =? GLOBAL_GLOBALMV))); [cbn [andb rbind] in *; rewrite H|]; reflexivity).
  rewrite EV, bind_eq. cbn [lift]. cbv iota beta. rewrite bind_eq. unfold lift at 1. destruct (findWarpSamples e ref0) as [w| |]; [|discriminate|discriminate]. rewrite bind_eq. unfold lift. destruct (nForceInt e || (fst w =? 0) || negb (nAllowWarp e)); [discriminate|]. destruct (scaled ref0); discriminate.
Qed.
Print Assumptions C152_other_refuted.
(** Samples for warping: if the search returns it has found none. *)
Lemma add_none e ref0 dr dc s : addSample e ref0 dr dc (0, 0) = Ok s -> s = (0, 0).
Proof.
  unfold addSample. change (LEAST_SQUARES_SAMPLES_MAX <=? snd (0, 0)) with false. cbv iota zeta. destruct (negb _); [intros [= <-]; reflexivity|]. intros E. apply rbind_inv in E as (r0 & _ & E). destruct (r0 =? 0); [injection E as <-; reflexivity|]. destruct (negb (r0 =? ref0)); [injection E as <-; reflexivity|].
  apply rbind_inv in E as (r1 & _ & E). destruct (negb (r1 =? NONE)); [injection E as <-; reflexivity|discriminate].
Qed.
Lemma loop_none fuel : forall i n w size add s, (forall j t, add j (0, 0) = Ok t -> t = (0, 0)) -> sampleLoop fuel i n w size add (0, 0) = Ok s -> s = (0, 0).
Proof.
  induction fuel as [|fuel IH]; intros i n w size add s HA E; [discriminate|]. cbn [sampleLoop] in E. destruct (i <? n); [|injection E as <-; reflexivity]. apply rbind_inv in E as (z & _ & E). apply rbind_inv in E as (t & Et & E). rewrite (HA _ _ Et) in E. eapply IH; [exact HA|exact E].
Qed.
Theorem C152_no_samples_refuted : forall e ref0 r, findWarpSamples e ref0 = Ok r -> r = (0, 0).
Proof.
  intros e ref0 r E. unfold findWarpSamples in E. apply rbind_inv in E as (w4 & _ & E). apply rbind_inv in E as (h4 & _ & E). apply rbind_inv in E as ([[s tl] tr] & Ea & E). apply rbind_inv in E as ([s1 tl1] & El & E).
  assert (Z0 : s = (0, 0)).
  { unfold samplesAbove in Ea. destruct (bAvailU (nB e)); [|injection Ea as <- _ _; reflexivity]. apply rbind_inv in Ea as (z & _ & Ea). apply rbind_inv in Ea as (w & _ & Ea). destruct (w4 <=? w).
    - apply rbind_inv in Ea as (t & Et & Ea). injection Ea as <- _ _. apply (add_none _ _ _ _ _ Et).
    - apply rbind_inv in Ea as (t & Et & Ea). injection Ea as <- _ _. apply (loop_none _ _ _ _ _ _ _ (fun j t => add_none e ref0 (-1) j t) Et). }
  subst s. assert (Z1 : s1 = (0, 0)).
  { unfold samplesLeft in El. destruct (bAvailL (nB e)); [|injection El as <- _; reflexivity]. apply rbind_inv in El as (z & _ & El). apply rbind_inv in El as (h & _ & El). destruct (h4 <=? h).
    - apply rbind_inv in El as (t & Et & El). injection El as <- _. apply (add_none _ _ _ _ _ Et).
    - apply rbind_inv in El as (t & Et & El). injection El as <- _. apply (loop_none _ _ _ _ _ _ _ (fun j t => add_none e ref0 j (-1) t) Et). }
  subst s1. apply rbind_inv in E as (s2 & E2 & E). assert (Z2 : s2 = (0, 0)) by (destruct tl1; [apply (add_none _ _ _ _ _ E2)|injection E2 as <-; reflexivity]). subst s2.
  apply rbind_inv in E as (s3 & E3 & E). assert (Z3 : s3 = (0, 0)) by (destruct (tr && (Max w4 h4 <=? 16)); [apply (add_none _ _ _ _ _ E3)|injection E3 as <-; reflexivity]). subst s3. injection E as <-. reflexivity.
Qed.
Print Assumptions C152_no_samples_refuted.
(** Refuted: a neighbour above, at least as wide, predicted from the block's reference only gives a sample; the code ends. *)
Theorem C152_sample_refuted : forall e ref0 sz, 0 <= bMiSize (nB e) < 22 -> bAvailU (nB e) = true -> refs_known e (bMiRow (nB e) - 1) (bMiCol (nB e)) -> idx2 (nSizes e) (bMiRow (nB e) - 1) (bMiCol (nB e)) = Ok sz -> 0 <= sz < 22 ->
  bsize_w (bMiSize (nB e)) <= bsize_w sz -> nColStart e <= bMiCol (nB e) < nColEnd e -> nRowStart e <= bMiRow (nB e) - 1 < nRowEnd e ->
  warp_neighbour (above_of e) ref0 = true -> snd (refs_at e (bMiRow (nB e) - 1) (bMiCol (nB e))) = -1 -> findWarpSamples e ref0 = Panic.
Proof.
  intros e ref0 sz Hb HU [[a Ea] [b Eb]] Hz Hsz HW HC HR HN HB. destruct (block_facts _ Hb) as (_ & _ & EW & EH & _). destruct (block_facts _ Hsz) as (_ & _ & EWs & _). unfold findWarpSamples. rewrite EW, EH. cbn [rbind]. unfold samplesAbove. rewrite HU, Hz. cbn [rbind]. rewrite EWs. cbn [rbind].
  assert (HD : bsize_w (bMiSize (nB e)) / 4 <= bsize_w sz / 4) by (apply Z.div_le_mono; lia). destruct (Z.leb_spec (bsize_w (bMiSize (nB e)) / 4) (bsize_w sz / 4)); [|lia].
  assert (ES : addSample e ref0 (-1) 0 (0, 0) = Panic); [|rewrite ES; reflexivity].
  unfold addSample. change (LEAST_SQUARES_SAMPLES_MAX <=? snd (0, 0)) with false. cbv iota zeta. replace (bMiRow (nB e) + -1) with (bMiRow (nB e) - 1) by lia. replace (bMiCol (nB e) + 0) with (bMiCol (nB e)) by lia.
  unfold above_of in HN. rewrite HU in HN. unfold warp_neighbour, refs_at in *. cbn [fst snd] in *. unfold cell3 in *. rewrite Ea, Eb in *. subst b.
  destruct (Z.leb_spec (nColStart e) (bMiCol (nB e))); [|lia]. destruct (Z.ltb_spec (bMiCol (nB e)) (nColEnd e)); [|lia]. destruct (Z.leb_spec (nRowStart e) (bMiRow (nB e) - 1)); [|lia]. destruct (Z.ltb_spec (bMiRow (nB e) - 1) (nRowEnd e)); [|lia]. cbn [andb negb rbind].
  destruct (Z.ltb_spec 0 ref0), (Z.eqb_spec a ref0); try discriminate. subst a. destruct (Z.eqb_spec ref0 0); [lia|]. reflexivity.
Qed.
Print Assumptions C152_sample_refuted.
Example C152_case : match readMotionMode (demo_in demo_nb 1 false false 0) (fun _ => Ok false) 0 NEWMV 1 demo_es, readMotionMode (demo_in demo_nb 5 false true 0) (fun _ => Ok false) 0 NEWMV 1 demo_es with Ok (m, _), Panic => m = 0 | _, _ => False end /\
  findWarpSamples (demo_in demo_nb 5 false true 0) 1 = Ok (0, 0) /\ warp_neighbour (above_of (demo_in demo_nb 1 false true 0)) 1 = true /\ findWarpSamples (demo_in demo_nb 1 false true 0) 1 = Panic.
Proof. split; [vm_compute; reflexivity|]. split; [vm_compute; reflexivity|]. split; vm_compute; reflexivity. Qed.

(** ** C153 Interpolation filter *)
(** Whether the filter is coded: as in the standard but for GLOBAL_GLOBALMV. *)
Theorem C153_needed_partial : forall e skipMode motion ymode ref0 t u, 0 <= bMiSize (nB e) < 22 -> idx (nGm e) ref0 = Ok t -> ymode <> GLOBAL_GLOBALMV ->
  needsInterpFilter e skipMode motion ymode ref0 = Ok (filter_coded (bool_of skipMode) (motion =? 2) (bsize_w (bMiSize (nB e))) (bsize_h (bMiSize (nB e))) (ymode =? GLOBALMV) true t u).
Proof.
  intros e skipMode motion ymode ref0 t u Hb Ht HN. destruct (block_facts _ Hb) as (EW & EH & _). unfold needsInterpFilter, filter_coded. rewrite EW, EH. cbn [rbind]. rewrite Min_min. change LOCALWARP with 2. destruct (bool_of skipMode || (motion =? 2)); [reflexivity|].
  destruct (8 <=? Z.min _ _); cbn [andb]; [|reflexivity]. destruct (Z.eqb_spec ymode GLOBALMV); [rewrite Ht; reflexivity|]. destruct (Z.eqb_spec ymode GLOBAL_GLOBALMV); [contradiction|reflexivity].
Qed.
Print Assumptions C153_needed_partial.
(** Refuted: for GLOBAL_GLOBALMV the standard asks for the type of the motion of the second reference; the code for those of the first reference and of LAST. *)
Theorem C153_global_refuted : forall e ref0 t u v, 0 <= bMiSize (nB e) < 22 -> 8 <= bsize_w (bMiSize (nB e)) -> 8 <= bsize_h (bMiSize (nB e)) -> idx (nGm e) ref0 = Ok t -> idx (nGm e) 1 = Ok v ->
  needsInterpFilter e 0 0 GLOBAL_GLOBALMV ref0 = Ok ((t =? 1) || (v =? 1)) /\ filter_coded false false (bsize_w (bMiSize (nB e))) (bsize_h (bMiSize (nB e))) true false t u = (u =? 1).
Proof.
  intros e ref0 t u v Hb HW HH Ht Hv. destruct (block_facts _ Hb) as (EW & EH & _). unfold needsInterpFilter, filter_coded. rewrite EW, EH. cbn [rbind]. rewrite Min_min. destruct (Z.leb_spec 8 (Z.min (bsize_w (bMiSize (nB e))) (bsize_h (bMiSize (nB e))))); [|lia]. split; [|reflexivity].
  change (bool_of 0 || (0 =? LOCALWARP)) with false. change (GLOBAL_GLOBALMV =? GLOBALMV) with false. change (GLOBAL_GLOBALMV =? GLOBAL_GLOBALMV) with true. cbn [andb]. rewrite Ht, Hv. cbn [rbind]. change TRANSLATION with 1. destruct (t =? 1); reflexivity.
Qed.
Print Assumptions C153_global_refuted.
Lemma filter_fixed e skipMode motion ymode ref0 a b s : nInterp e <> 4 -> readInterpFilter e skipMode motion ymode ref0 [a; b] s = Ok ([nInterp e; nInterp e], s).
Proof. intros H. unfold readInterpFilter. change SWITCHABLE with 4. destruct (Z.eqb_spec (nInterp e) 4); [contradiction|]. reflexivity. Qed.
(** The filter of the frame, in both directions, unless it is switchable. *)
Theorem C153_frame_filter : forall e skipMode motion ymode ref0 f s, zlen f = 2 -> nInterp e <> 4 -> readInterpFilter e skipMode motion ymode ref0 f s = Ok ([nInterp e; nInterp e], s).
Proof. intros e skipMode motion ymode ref0 f s HL H. destruct f as [|a [|b [|c f]]]; unfold zlen in HL; cbn [List.length] in HL; try lia. apply filter_fixed, H. Qed.
Print Assumptions C153_frame_filter.
(** Switchable: the regular filter (0) if none is coded; *)
Theorem C153_regular_partial : forall e skipMode motion ymode ref0 f s, zlen f = 2 -> nInterp e = 4 -> needsInterpFilter e skipMode motion ymode ref0 = Ok false -> readInterpFilter e skipMode motion ymode ref0 f s = Ok ([0; 0], s).
Proof.
  intros e skipMode motion ymode ref0 f s HL HI HN. destruct f as [|a [|b [|c f]]]; unfold zlen in HL; cbn [List.length] in HL; try lia. unfold readInterpFilter. rewrite HI, HN. change (4 =? SWITCHABLE) with true. cbv iota. destruct (nDual e); reflexivity.
Qed.
Print Assumptions C153_regular_partial.
(** refuted: a coded filter ends the decoder. *)
Theorem C153_coded_refuted : forall e skipMode motion ymode ref0 f s, nInterp e = 4 -> needsInterpFilter e skipMode motion ymode ref0 = Ok true -> readInterpFilter e skipMode motion ymode ref0 f s = Panic.
Proof. intros e skipMode motion ymode ref0 f s HI HN. unfold readInterpFilter. rewrite HI, HN. change (4 =? SWITCHABLE) with true. cbv iota. destruct (nDual e); reflexivity. Qed.
Print Assumptions C153_coded_refuted.
Example C153_case : match readInterpFilter (demo_in demo_nb 1 false false 2) 0 0 NEWMV 1 [7; 7] demo_es, readInterpFilter (demo_in demo_nb 1 false false 4) 0 0 GLOBALMV 1 [7; 7] demo_es, readInterpFilter (demo_in demo_nb 1 false false 4) 0 0 NEWMV 1 [7; 7] demo_es with
  Ok (a, _), Ok (b, _), Panic => (a, b) = ([2; 2], [0; 0]) | _, _, _ => False end.
Proof. vm_compute. reflexivity. Qed.

(** ** C154 Inter-intra and compound types *)
(** Not coded: not used; nothing is read. *)
Theorem C154_interintra_partial : forall e c s, ii_coded false (nIiEnabled e) c (bMiSize (nB e)) = false -> readInterIntraMode e 0 c s = Ok (0, s).
Proof. reflexivity. Qed.
Print Assumptions C154_interintra_partial.
(** Refuted: where the flag is coded it is not read either. *)
Theorem C154_unread_refuted : forall e c s, ii_coded false (nIiEnabled e) c (bMiSize (nB e)) = true -> readInterIntraMode e 0 c s = Ok (0, s).
Proof. reflexivity. Qed.
Print Assumptions C154_unread_refuted.
(** Refuted: in skip mode, where it is not coded, it is read (with b.S(), which ends the decoder) for the blocks above 8x8. *)
Theorem C154_skip_mode_refuted : forall e s, nIiEnabled e = true -> 3 < bMiSize (nB e) <= 9 -> ii_coded true (nIiEnabled e) false (bMiSize (nB e)) = false /\ readInterIntraMode e 1 false s = Panic.
Proof.
  intros e s HI Hb. split; [reflexivity|]. unfold readInterIntraMode. rewrite HI. change BLOCK_8X8 with 3. change BLOCK_32X32 with 9. destruct (Z.ltb_spec 3 (bMiSize (nB e))); [|lia]. destruct (Z.leb_spec (bMiSize (nB e)) 9); [|lia]. reflexivity.
Qed.
Print Assumptions C154_skip_mode_refuted.
(** Compound type (2: average, 0: wedge, 3: smooth inter-intra): nothing is read for one reference, in skip mode, and for two without masks and distance weights. *)
Theorem C154_compound_partial : forall e skipMode c ii wedge s, bool_of skipMode = true \/ c = false \/ (nMasked e = false /\ nJnt e = false) ->
  readCompoundType e skipMode c ii wedge s = Ok ((0, 1, if bool_of skipMode || c || negb (bool_of ii) then 2 else if bool_of wedge then 0 else 3), s).
Proof.
  intros e skipMode c ii wedge s H. unfold readCompoundType. destruct (bool_of skipMode); [reflexivity|]. destruct H as [H|H]; [discriminate|]. destruct c; [|destruct (bool_of ii), (bool_of wedge); reflexivity]. destruct H as [H|[-> ->]]; [discriminate|reflexivity].
Qed.
Print Assumptions C154_compound_partial.
(** Refuted: with masks or distance weights enabled a block of two references ends the decoder. *)
Theorem C154_compound_refuted : forall e ii wedge s, nMasked e = true \/ nJnt e = true -> readCompoundType e 0 true ii wedge s = Panic.
Proof. intros e ii wedge s [H|H]; unfold readCompoundType; rewrite H; [reflexivity|]. change (bool_of 0) with false. cbv iota. destruct (nMasked e); reflexivity. Qed.
Print Assumptions C154_compound_refuted.
Example C154_case : ii_coded false true false (bMiSize demo_nb) = true /\ match readInterIntraMode (demo_in demo_nb 1 false false 0) 0 false demo_es, readInterIntraMode (demo_in demo_nb 1 false false 0) 1 false demo_es, readCompoundType (demo_in demo_nb 1 false false 0) 0 true 0 0 demo_es, readCompoundType (demo_in demo_nb 1 false false 0) 0 false 1 0 demo_es with
  Ok (a, _), Panic, Panic, Ok (b, _) => (a, b) = (0, (0, 1, 3)) | _, _, _, _ => False end.
Proof. split; vm_compute; reflexivity. Qed.

(** ** C155 Blocks of inter frames *)
Lemma agrees_of_follows {A B} (bad : Prop) dis endp (p : prog A) (m : M ES B) (Q : A -> B -> Prop) : (forall s, ready endp s -> follows_program bad dis endp p m Q s) -> agrees block_cdfs dis endp bad p m Q.
Proof.
  intros H s F. specialize (H s (proj2 (ready_fit endp s) F)). unfold follows_program in H. destruct (run dis p (fst s) (snd s)) as [[[a d] h]| |]; auto. destruct H as (R & b & E & HQ). split; [apply ready_fit, R|eauto].
Qed.
Lemma agrees_pure {A B C} dis endp bad (p : prog A) (m : M ES B) (k : B -> M ES C) b Q : (forall s, m s = Ok (b, s)) -> agrees block_cdfs dis endp bad p (k b) Q -> agrees block_cdfs dis endp bad p (bind m k) Q.
Proof. intros E H. eapply agrees_eq; [reflexivity| |exact H]. intros s. rewrite bind_eq, E. reflexivity. Qed.
Section Whole.
Context {V W : Type}.
(** what the block leaves: of an inter block with one reference *)
Definition same_inter (QV : V -> W -> Prop) (ip : Z) (b : nblock * V) (i : @InterInfo W) : Prop :=
  yRef i = (nbRef (fst b), -1) /\ yMode i = mode_num (nbMode (fst b)) /\ yIdx i = nbIdx (fst b) /\ QV (snd b) (yMv i) /\ yIi i = 0 /\ yMotion i = 0 /\ yCompound i = (0, 1, 2) /\ yFilter i = [ip; ip].
Definition same_block (QV : V -> W -> Prop) (e : IEnv) (ctx : list Z) (g : list (list Z)) (b : fblock V) (i : @FrameInfo W) : Prop :=
  zSkip i = fbSkip b /\ zSkipMode i = 0 /\ zSeg i = 0 /\ zCtx i = ctx /\ zLossless i = fLossless (frm_of (nB e)) 0 /\ cdef_new (nB e) g (zCdef i) (fbCdef b) /\ zQ i = fbQ b /\ zLf i = fbLf b /\
  match fbBlock b, zBlock i with inl b, inl i => same_inter QV (nInterp e) b i | inr b, inr i => i = ib_of b | _, _ => False end.
(** [stack] (findMvStack) gives the number of candidates and the contexts; [assign] (assignMv) follows the program [vector] of the standard *)
Theorem C155_block_partial : forall (QV : V -> W -> Prop) (stack : bool -> Z * Z -> res (Z * Z * Z)) (assign : bool -> Z * Z -> Z -> Z -> M ES W) scaled (cands : Z -> Z * Z * Z * Z) drlCtx (vector : Z -> imode -> Z -> prog V) e endp read wedge ctx g q lf f s,
  ienv_ok e -> bSegEnabled (nB e) = false -> nSkipPresent e = 0 -> nRefSelect e = false -> nSwitchable e = false -> nInterp e <> 4 -> zlen lf = 4 -> zlen f = 2 -> cdef_in (nB e) g ->
  (forall r, 1 <= r <= 7 -> let '(found, newCtx, zeroCtx, _) := cands r in stack false (r, -1) = Ok (found, newCtx, zeroCtx) /\ 0 <= newCtx < 6 /\ 0 <= zeroCtx < 2) ->
  (forall r m i s, 1 <= r <= 7 -> ready endp s -> follows_program True (bDisable (nB e)) endp (vector r m i) (assign false (r, -1) (mode_num m) i) QV s) -> ready endp s ->
  follows_program True (bDisable (nB e)) endp (std_inter_frame_block code_ref 2 (frm_of (nB e)) (blk_of (bSkipModes (nB e)) (view e)) (above_of e) (left_of e) cands drlCtx vector read (cdef_old (nB e) g) q lf)
    (interFrameModeInfo stack assign scaled e read wedge ctx g q lf f) (same_block QV e ctx g) s.
Proof.
  intros QV stack assign scaled cands drlCtx vector e endp read wedge ctx g q lf f s HE HS HSP HRS HSW HIP HLF HF HCD HST HAS HR. apply agrees_follows; [|exact HR]. clear s HR. pose proof HE as (OK & _).
  assert (Hb : 0 <= bMiSize (nB e) < 22) by apply OK. unfold std_inter_frame_block, interFrameModeInfo.
  eapply agrees_lift; [apply neighbours_ok, HE|].
  eapply (agrees_pure _ _ _ _ _ _ (0, ctx)); [intros s; apply (proj1 (C148_kept e 1 0 ctx s 0) HS)|]. cbn [fst snd].
  eapply (agrees_pure _ _ _ _ _ _ 0); [intros s; apply (C149_skip_mode_partial e 0 s HE ltac:(lia)); unfold skip_mode_coded; rewrite HSP; reflexivity|]. change (bool_of 0) with false. cbv iota.
  eapply agrees_bind; [eapply agrees_bad; exact (skip_ok (view e) endp OK 0 ltac:(lia))|]. cbv beta. intros skip0 skip (-> & Hskip).
  eapply (agrees_pure _ _ _ _ _ _ (0, ctx)); [intros s; destruct (negb (bool_of (bSegPreSkip (nB e)))); [apply (proj1 (C148_kept e 0 skip ctx s 0) HS)|reflexivity]|]. cbn [fst snd].
  eapply agrees_lift; [exact (lossless_ok (view e) OK 0 ltac:(lia))|]. change (fLossless (frm_of (view e)) 0) with (fLossless (frm_of (nB e)) 0).
  eapply agrees_bind; [eapply agrees_bad; exact (cdef_ok (view e) endp OK skip g Hskip HCD)|]. cbv beta. intros cd g' Hg.
  eapply agrees_bind; [eapply agrees_bad; exact (q_ok (view e) endp OK skip read q Hskip)|]. intros q0 q' ->.
  eapply agrees_bind; [eapply agrees_bad; exact (lf_ok (view e) endp OK skip read lf Hskip HLF)|]. intros lf0 lf' ->.
  eapply (agrees_bind _ _ _ _ _ _ _ _ (fun a b => b = a /\ 0 <= a <= 1)).
  { unfold readIsInter. change (bool_of 0) with false. cbv iota. unfold segFeatureActive. rewrite HS. eapply agrees_lift; [reflexivity|]. cbv iota beta. eapply agrees_lift; [reflexivity|]. cbv iota beta. cbn [std_is_inter]. destruct (ctx_inter e) as [EC HC]. rewrite <- EC.
    eapply agrees_weaken; [apply (agrees_sym _ _ _ _ "IsInterCdf" [4] 2); [tab|inr]|]. cbv beta. intros a b [-> H]. lia. }
  intros inter i' [-> Hi]. rewrite bool_01 by lia.
  eapply (agrees_bind _ _ _ _ _ _ _ _ (fun b i => match b, i with inl b, inl i => same_inter QV (nInterp e) b i | inr b, inr i => i = ib_of b | _, _ => False end)).
  - destruct (inter =? 1).
    + eapply (agrees_bind _ _ _ _ _ _ _ _ (same_inter QV (nInterp e))); [|intros a b HQ; apply agrees_done; exact HQ]. unfold std_inter_block, interBlockModeInfo.
      eapply (agrees_bind _ _ _ _ _ _ _ _ (fun a b => b = (a, -1) /\ 1 <= a <= 7)).
      { eapply agrees_eq; [reflexivity|apply readRefs_single; [exact Hb|exact HS|left; exact HRS]|]. eapply agrees_run; [|eapply (agrees_bind _ _ _ _ _ (fun a => Done a)); [apply single_agrees|]; intros a b [-> H]; apply agrees_done; split; [reflexivity|exact H]].
        intros d h. rewrite run_andthen. destruct (run _ _ d h) as [[[a d'] h']| |]; reflexivity. }
      intros r rr (-> & Hr). cbv zeta. cbn [fst snd]. change (INTRA_FRAME <? -1) with false. specialize (HST r Hr). destruct (cands r) as [[[found newCtx] zeroCtx] refCtx]. destruct HST as (ES & Hn & Hz). eapply agrees_lift; [exact ES|]. cbv iota beta.
      change (rvRest code_ref) with false.
      eapply agrees_bind; [apply mode_agrees; [unfold segFeatureActive; rewrite HS; reflexivity|unfold segFeatureActive; rewrite HS; reflexivity|exact Hn|exact Hz]|]. cbv beta. intros m y [-> Hm].
      eapply agrees_bind; [apply drl_agrees|]. intros i0 i ->.
      eapply agrees_bind; [apply agrees_of_follows; intros s Hs; apply (HAS r m i s Hr Hs)|]. cbv beta. intros v w Hv.
      eapply (agrees_pure _ _ _ _ _ _ 0); [intros s; reflexivity|]. eapply (agrees_pure _ _ _ _ _ _ 0); [intros s; unfold readMotionMode; rewrite HSW; reflexivity|].
      eapply (agrees_pure _ _ _ _ _ _ (0, 1, 2)); [intros s; reflexivity|]. eapply (agrees_pure _ _ _ _ _ _ [nInterp e; nInterp e]); [intros s; apply C153_frame_filter; assumption|].
      apply agrees_done. unfold same_inter. cbn. repeat (split; [first [reflexivity|exact Hv]|]). reflexivity.
    + eapply agrees_bind; [eapply agrees_bad; exact (intra_block_ok (view e) endp OK (fLossless (frm_of (nB e)) 0))|]. cbv beta. intros a b ->. apply agrees_done. reflexivity.
  - intros b i Hbi. apply agrees_done. unfold same_block. cbn. repeat (split; [first [reflexivity|exact Hg]|]). exact Hbi.
Qed.
End Whole.
Print Assumptions C155_block_partial.
(** a skipped or coded inter block: vectors are given without reading *)
Definition demo_block (v a : Z) : res (@FrameInfo Z * ES) :=
  interFrameModeInfo (fun _ _ => Ok (1, 2, 1)) (fun _ _ _ _ => ret 77) (fun _ => Ok false) (demo_in demo_nb a false false 2) true 0 [9] demo_g 100 [0; 0; 0; 0] [8; 8] (seg_es v).
Example C155_case : ienv_ok (demo_in demo_nb 1 false false 2) /\ cdef_in demo_nb demo_g /\
  match demo_block 30000 1, demo_block 1000 0 with
  | Ok (x, _), Ok (y, _) => match zBlock x, zBlock y with inl i, inr j => (zSkip x, zQ x, yRef i, yMode i, yIdx i, yMv i, yFilter i) = (0, 100, (1, -1), NEWMV, 0, 77, [2; 2]) /\ (zSkip y, j) = (1, (2, -2, Some (9, None, 0))) | _, _ => False end | _, _ => False end.
Proof. split; [apply demo_in_ok|]. split; [intros _; split; [exists (-1); vm_compute; reflexivity|vm_compute; repeat split; congruence]|]. vm_compute. split; reflexivity. Qed.
