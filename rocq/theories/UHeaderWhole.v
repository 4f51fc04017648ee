(** Frame header proofs, continued: quantizer index, lossless block, the whole header, subexp codes. *)
From Verif Require Import GoBase Bitstream SpecBits SpecStream BitstreamProofs ReaderOps Parses SafeParse Yields Util UtilProofs
  Constants Tables Header SequenceHeader SymbolProofs TileInfo SpecTiles TileInfoProofs SpecHeader UncompressedHeader UHeaderProofs UHeaderGood.

(* ------------------------------------------------------------ segments *)
Lemma nth_map_nth {A B} (f : A -> B) l n d : nth n (map f l) (f d) = f (nth n l d).
Proof. apply map_nth. Qed.
Lemma features_nth l : forall j n, features_ok j l -> (n < length l)%nat -> feature_ok (j + n) (nth n l (0, 0)).
Proof.
  induction l as [|x l IH]; intros j n; cbn [features_ok length]; [lia|]. intros [A B] Hn. destruct n as [|n].
  - rewrite Nat.add_0_r. exact A.
  - replace (j + S n)%nat with (S j + n)%nat by lia. apply IH; [exact B|lia].
Qed.
(** entry (i, j) of FeatureEnabled / FeatureData *)
Definition seg_entry (sg : Seg) (i j : nat) : Z * Z := (nth j (nth i (FeatureEnabled sg) []) 0, nth j (nth i (FeatureData sg) []) 0).
Lemma seg_entry_ok sg i j : seg_ok sg -> (i < 8)%nat -> (j < 8)%nat ->
  feature_ok j (seg_entry sg i j) /\ idx2 (FeatureEnabled sg) (Z.of_nat i) (Z.of_nat j) = Ok (fst (seg_entry sg i j)) /\
  idx2 (FeatureData sg) (Z.of_nat i) (Z.of_nat j) = Ok (snd (seg_entry sg i j)).
Proof.
  intros ((fs & L & HF & E1 & E2) & _) Hi Hj. unfold seg_entry. rewrite E1, E2.
  replace (nth i (map (map fst) fs) []) with (map (@fst Z Z) (nth i fs [])) by (symmetry; exact (map_nth (map fst) fs [] i)).
  replace (nth i (map (map snd) fs) []) with (map (@snd Z Z) (nth i fs [])) by (symmetry; exact (map_nth (map snd) fs [] i)).
  assert (HL : length (nth i fs []) = 8%nat /\ features_ok 0 (nth i fs [])).
  { rewrite Forall_forall in HF. apply HF. apply nth_In. lia. }
  destruct HL as [HL HO].
  replace (nth j (map fst (nth i fs [])) 0) with (fst (nth j (nth i fs []) (0, 0))) by (symmetry; exact (map_nth fst (nth i fs []) (0, 0) j)).
  replace (nth j (map snd (nth i fs [])) 0) with (snd (nth j (nth i fs []) (0, 0))) by (symmetry; exact (map_nth snd (nth i fs []) (0, 0) j)).
  split; [|split].
  - rewrite <- surjective_pairing. apply (features_nth _ 0); [exact HO|lia].
  - unfold idx2. rewrite (idx_nth _ i (map (@fst Z Z) [])) by (rewrite map_length; lia). cbn [rbind]. rewrite (map_nth (map (@fst Z Z))).
    rewrite (idx_nth _ j (fst (0, 0))) by (rewrite map_length; lia). rewrite (map_nth (@fst Z Z)). reflexivity.
  - unfold idx2. rewrite (idx_nth _ i (map (@snd Z Z) [])) by (rewrite map_length; lia). cbn [rbind]. rewrite (map_nth (map (@snd Z Z))).
    rewrite (idx_nth _ j (snd (0, 0))) by (rewrite map_length; lia). rewrite (map_nth (@snd Z Z)). reflexivity.
Qed.

(** AV1 7.12.2 with ignoreDeltaQ = 1 *)
Definition seg_active (sg : Seg) (i j : nat) : bool := SegmentationEnabled sg && (fst (seg_entry sg i j) =? 1).
Definition clamp255 (x : Z) : Z := Z.max 0 (Z.min 255 x).
Definition spec_qindex (base : Z) (sg : Seg) (i : nat) : Z :=
  if seg_active sg i 0 then clamp255 (base + snd (seg_entry sg i 0)) else base.
Lemma Clip3_clamp x : Clip3 0 255 x = clamp255 x.
Proof. unfold Clip3, clamp255. destruct (Z.ltb_spec x 0); [lia|]. destruct (Z.ltb_spec 255 x); lia. Qed.
Lemma bool_of_flag v : v = 0 \/ v = 1 -> bool_of v = (v =? 1).
Proof. intros [-> | ->]; reflexivity. Qed.
Lemma feature_flag j f : feature_ok j f -> fst f = 0 \/ fst f = 1.
Proof. intros [[A _]|[A _]]; auto. Qed.
Lemma active_ok sg i : seg_ok sg -> (i < 8)%nat -> segFeatureActiveIdx sg (Z.of_nat i) SEG_LVL_ALT_Q = Ok (seg_active sg i 0).
Proof.
  intros Hs Hi. unfold segFeatureActiveIdx, seg_active. destruct (SegmentationEnabled sg); [|reflexivity].
  destruct (seg_entry_ok sg i 0 Hs Hi ltac:(lia)) as (A & B & _). change SEG_LVL_ALT_Q with (Z.of_nat 0). rewrite B. cbn [rbind andb].
  rewrite (bool_of_flag _ (feature_flag _ _ A)). reflexivity.
Qed.
Lemma GetQIndex_ignore q sg dq cur i : seg_ok sg -> (i < 8)%nat -> GetQIndex q sg dq cur 1 (Z.of_nat i) = Ok (spec_qindex (BaseQIdx q) sg i).
Proof.
  intros Hs Hi. unfold GetQIndex. rewrite (active_ok sg i Hs Hi). cbn [rbind]. unfold spec_qindex. destruct (seg_active sg i 0); [|reflexivity].
  destruct (seg_entry_ok sg i 0 Hs Hi ltac:(lia)) as (_ & _ & B). change SEG_LVL_ALT_Q with (Z.of_nat 0). rewrite B. cbn [rbind].
  change (1 =? 0) with false. cbn [andb]. rewrite Clip3_clamp. reflexivity.
Qed.
Lemma GetQIndex_delta q sg dq cur i : seg_ok sg -> (i < 8)%nat ->
  GetQIndex q sg dq cur 0 (Z.of_nat i) = Ok (if dq then (if seg_active sg i 0 then clamp255 cur else cur) else spec_qindex (BaseQIdx q) sg i).
Proof.
  intros Hs Hi. unfold GetQIndex. rewrite (active_ok sg i Hs Hi). cbn [rbind]. unfold spec_qindex. change (0 =? 0) with true. cbn [andb].
  destruct (seg_active sg i 0); [|destruct dq; reflexivity].
  destruct (seg_entry_ok sg i 0 Hs Hi ltac:(lia)) as (_ & _ & B). change SEG_LVL_ALT_Q with (Z.of_nat 0). rewrite B. cbn [rbind].
  destruct dq; rewrite Clip3_clamp; reflexivity.
Qed.
Definition no_deltas (q : Quant) : bool :=
  (DeltaQYDc q =? 0) && (DeltaQUAc q =? 0) && (DeltaQUDc q =? 0) && (DeltaQVAc q =? 0) && (DeltaQVDc q =? 0).
Definition lossless_seg (q : Quant) (sg : Seg) (i : nat) : bool := (spec_qindex (BaseQIdx q) sg i =? 0) && no_deltas q.
Definition lossless_spec (q : Quant) (sg : Seg) : Lossless :=
  mkLossless (map (lossless_seg q sg) (seq 0 8)) (forallb (lossless_seg q sg) (seq 0 8))
    (if UsingQMatrix q then repeat (map (fun i => if lossless_seg q sg i then 15 else Qmy q) (seq 0 8)) 3 else repeat (repeat 0 8) 3).
Lemma lossless_ok q sg dq cur : seg_ok sg -> losslessBlock q sg dq cur = Ok (lossless_spec q sg).
Proof.
  intros Hs. unfold losslessBlock, rfor_to. change (Z.to_nat (MAX_SEGMENTS - 0)) with 8%nat. cbn [rfor_from].
  change (0 + 1) with (Z.of_nat 1). change (Z.of_nat 1 + 1) with (Z.of_nat 2). change (Z.of_nat 2 + 1) with (Z.of_nat 3).
  change (Z.of_nat 3 + 1) with (Z.of_nat 4). change (Z.of_nat 4 + 1) with (Z.of_nat 5). change (Z.of_nat 5 + 1) with (Z.of_nat 6).
  change (Z.of_nat 6 + 1) with (Z.of_nat 7).
  rewrite (GetQIndex_ignore q sg dq cur 0 Hs ltac:(lia) : GetQIndex q sg dq cur 1 0 = _).
  rewrite (GetQIndex_ignore q sg dq cur 1 Hs ltac:(lia)), (GetQIndex_ignore q sg dq cur 2 Hs ltac:(lia)), (GetQIndex_ignore q sg dq cur 3 Hs ltac:(lia)),
    (GetQIndex_ignore q sg dq cur 4 Hs ltac:(lia)), (GetQIndex_ignore q sg dq cur 5 Hs ltac:(lia)), (GetQIndex_ignore q sg dq cur 6 Hs ltac:(lia)),
    (GetQIndex_ignore q sg dq cur 7 Hs ltac:(lia)).
  unfold lossless_spec. cbn [seq map forallb].
  assert (E : forall i, (spec_qindex (BaseQIdx q) sg i =? 0) && (DeltaQYDc q =? 0) && (DeltaQUAc q =? 0) && (DeltaQUDc q =? 0) && (DeltaQVAc q =? 0) && (DeltaQVDc q =? 0) = lossless_seg q sg i).
  { intros i. unfold lossless_seg, no_deltas. rewrite !andb_assoc. reflexivity. }
  cbn [rbind]. rewrite !E.
  generalize (lossless_seg q sg 0), (lossless_seg q sg 1), (lossless_seg q sg 2), (lossless_seg q sg 3), (lossless_seg q sg 4), (lossless_seg q sg 5), (lossless_seg q sg 6), (lossless_seg q sg 7).
  intros b0 b1 b2 b3 b4 b5 b6 b7.
  destruct (UsingQMatrix q).
  - cbn -[andb]. f_equal. f_equal. destruct b0, b1, b2, b3, b4, b5, b6, b7; reflexivity.
  - cbn -[andb]. f_equal. f_equal. destruct b0, b1, b2, b3, b4, b5, b6, b7; reflexivity.
Qed.

(* ------------------------------------------------------------ the whole header *)
Definition head_ok (fh : FrameHead) : Prop :=
  0 <= FrameType fh < 4 /\ (FrameIsIntra fh = true <-> FrameType fh = 0 \/ FrameType fh = 2) /\
  0 <= PrimaryRefFrame fh < 8 /\ 0 <= RefreshFrameFlags fh < 256 /\
  (FrameIsIntra fh = true \/ ErrorResilientMode fh = true -> PrimaryRefFrame fh = 7) /\
  (ShowFrame fh = true \/ FrameType fh = 3 -> RefreshFrameFlags fh = 255) /\ (FrameType fh = 0 -> RefreshFrameFlags fh = 255) /\
  (FrameIsIntra fh = true -> ForceIntegerMv fh = true).
Definition type_ok (ft : Z * bool * bool * bool * bool * Z) : Prop :=
  let '(ty, intra, show, showable, er, t) := ft in 0 <= ty < 4 /\ intra = ((ty =? 2) || (ty =? 0)).
Lemma frameType_good sh : good (frameType sh) type_ok.
Proof.
  unfold frameType. gb ty Hty. gb show Hshow.
  eapply g_bind with (Q := fun _ => True).
  { apply g_if; intros _; [|apply g_ret; exact I]. unfold TemporalPointInfo. split; [apply safe_F|apply yields_any_safe, safe_F]. }
  intros t _. eapply g_bind with (Q := fun _ => True); [apply g_if; intros _; [apply g_ret; exact I|gF]|]. intros sb _.
  eapply g_bind with (Q := fun _ => True); [apply g_if; intros _; [apply g_ret; exact I|gF]|]. intros er _. apply g_ret. cbn. auto.
Qed.
Lemma g_safe {A} (m : BS A) : safe m -> good m (fun _ => True).
Proof. intros H. split; [exact H|apply yields_any_safe; exact H]. Qed.
Lemma safe_bufferRemoval sh : safe (bufferRemoval sh).
Proof. unfold bufferRemoval. safet. Qed.
Lemma frameHead_good sh ft : type_ok ft -> good (frameHead sh ft) head_ok.
Proof.
  destruct ft as [[[[[ty intra] show] showable] er] t]. intros [Hty Hin]. unfold frameHead.
  gb dis Hdis.
  eapply g_bind with (Q := fun _ => True); [apply g_safe; safet|]. intros sct _.
  eapply g_bind with (Q := fun _ => True); [apply g_safe; safet|]. intros imv _.
  eapply g_bind with (Q := fun _ => True); [apply g_safe; safet|]. intros _ _.
  eapply g_bind with (Q := fun _ => True); [apply g_safe; safet|]. intros ov _.
  eapply g_bind with (Q := fun _ => True); [apply g_safe; safet|]. intros oh _.
  eapply g_bind with (Q := fun p => 0 <= p < 8 /\ (intra || er = true -> p = 7)).
  { apply g_if; intros K; [apply g_ret; split; [vm_compute; split; [discriminate|reflexivity]|reflexivity]|]. eapply g_weaken; [gF|]. cbv beta. intros p Hp. split; [lia|congruence]. }
  intros prim [Hp1 Hp2].
  eapply g_bind with (Q := fun _ => True); [apply g_safe, safe_bufferRemoval|]. intros _ _.
  eapply g_bind with (Q := fun r => 0 <= r < 256 /\ ((ty =? 3) || (ty =? 0) || show = true -> r = 255)).
  { apply g_if; intros K; [apply g_ret; split; [lia|reflexivity]|]. eapply g_weaken; [gF|]. cbv beta. intros p Hp. split; [lia|congruence]. }
  intros refresh [Hr1 Hr2].
  eapply g_bind with (Q := fun _ => True); [apply g_safe; safet|]. intros _ _.
  apply g_ret. unfold head_ok. cbn [FrameType FrameIsIntra PrimaryRefFrame RefreshFrameFlags ErrorResilientMode ShowFrame ForceIntegerMv].
  split; [lia|]. split.
  { subst intra. destruct (Z.eqb_spec ty 2), (Z.eqb_spec ty 0); cbn; intuition (try discriminate; try lia). }
  split; [lia|]. split; [lia|]. split; [intros [-> | ->]; apply Hp2; rewrite ?orb_true_r; reflexivity|].
  split; [intros [-> | ->]; apply Hr2; [rewrite orb_true_r; reflexivity|reflexivity]|].
  split; [intros ->; apply Hr2; reflexivity|]. intros ->. reflexivity.
Qed.
Definition refs_ok (sh : SequenceHeader) (fh : FrameHead) (fr : FrameRefs) : Prop :=
  frame_size_ok (Size_ fr) /\ (EnableSuperRes sh = false -> UseSuperRes (Size_ fr) = false) /\
  (FrameSizeOverrideFlag fh = false -> UpscaledWidth (Size_ fr) = MaxFrameWidthMinusOne sh + 1 /\ FrameHeight (Size_ fr) = MaxFrameHeightMinusOne sh + 1) /\
  (Render fr = (UpscaledWidth (Size_ fr), 0) \/ (1 <= fst (Render fr) <= 65536 /\ 1 <= snd (Render fr) <= 65536)) /\
  (AllowIntraBc fr = true -> FrameIsIntra fh = true /\ FrameWidth (Size_ fr) = UpscaledWidth (Size_ fr)) /\
  length (RefFrameIdx fr) = 7%nat /\ Forall (fun i => 0 <= i < 8) (RefFrameIdx fr) /\
  (AllowHighPrecisionMv fr = true -> ForceIntegerMv fh = false) /\ 0 <= InterpolationFilter fr <= 4 /\ length (OrderHints fr) = 8%nat.
Lemma intraRefs_good sh fh : size_bounds sh -> FrameIsIntra fh = true -> good (intraRefs sh fh) (refs_ok sh fh).
Proof.
  intros Hb Hi. unfold intraRefs. eapply g_bind; [apply frameSize_good; exact Hb|]. intros fs (A & B & C).
  eapply g_bind; [apply renderSize_good|]. intros r Hr.
  eapply g_bind with (Q := fun b => b = true -> UpscaledWidth fs = FrameWidth fs).
  { destruct (Z.eqb_spec (UpscaledWidth fs) (FrameWidth fs)); [apply g_if; intros _; [eapply g_weaken; [gF|auto]|apply g_ret; auto]|].
    rewrite andb_false_r. apply g_ret. discriminate. }
  intros ibc Hbc. apply g_ret. unfold refs_ok. cbn.
  split; [exact A|]. split; [exact B|]. split; [exact C|]. split; [exact Hr|].
  split; [intros K; specialize (Hbc K); split; [exact Hi|congruence]|].
  split; [reflexivity|]. split; [repeat constructor; lia|]. split; [discriminate|]. split; [lia|reflexivity].
Qed.
Lemma interpolation_good : good readInterpolationFilter (fun v => 0 <= v <= 4).
Proof. unfold readInterpolationFilter. gb b Hb. apply g_if; intros _; [apply g_ret; vm_compute; split; discriminate|]. eapply g_weaken; [gF|cbv beta; lia]. Qed.
Lemma orderHints_no_hang refs hints : orderHintsLoop refs hints <> Hang.
Proof.
  apply rfor_no_hang. intros j a. pose proof (idx_no_hang refs j). destruct (idx refs j) as [ri| |]; cbn [rbind]; try congruence.
  pose proof (idx_no_hang hints ri). destruct (idx hints ri) as [h| |]; cbn [rbind]; try congruence. apply upd_no_hang.
Qed.
Lemma orderHints_len refs hints l : orderHintsLoop refs hints = Ok l -> length l = 8%nat.
Proof.
  unfold orderHintsLoop, rfor_to. intros E. refine (rfor_from_post (fun _ l => length l = 8%nat) _ _ _ _ _ _ _ E); [reflexivity|].
  intros j a a1 _ Ha. destruct (idx refs j) as [ri| |]; cbn [rbind]; try discriminate.
  destruct (idx hints ri) as [h| |]; cbn [rbind]; try discriminate. intros K. apply upd_inv in K. destruct K as [_ ->]. rewrite upd_nat_length. exact Ha.
Qed.
Lemma interRefs_good sh fh st : size_bounds sh -> good (interRefs sh fh st) (refs_ok sh fh).
Proof.
  intros Hb. unfold interRefs. eapply g_bind with (Q := fun _ => True); [apply g_safe; safet|]. intros short _.
  apply g_if; intros _; [gb a Ha; gb b Hb'; apply g_panic|].
  eapply g_bind; [apply (g_times _ (fun i => 0 <= i < 8)); gb a Ha; gF|]. intros refs [RL RF].
  apply g_if; intros _; [apply g_panic|].
  eapply g_bind; [apply frameSize_good; exact Hb|]. intros fs (A & B & C).
  eapply g_bind; [apply renderSize_good|]. intros r Hr.
  eapply g_bind with (Q := fun hp => hp = true -> ForceIntegerMv fh = false).
  { destruct (ForceIntegerMv fh); [apply g_ret; discriminate|eapply g_weaken; [gF|auto]]. }
  intros hp Hhp. eapply g_bind; [apply interpolation_good|]. intros flt Hflt. gb sw Hsw.
  eapply g_bind with (Q := fun _ => True); [apply g_safe; safet|]. intros mvs _.
  eapply g_bind with (Q := fun l => length l = 8%nat); [apply g_lift; [apply orderHints_no_hang|intros l; apply orderHints_len]|]. intros ohs Hohs.
  apply g_ret. unfold refs_ok. cbn.
  repeat match goal with |- _ /\ _ => split end; try assumption; try reflexivity; try lia; try discriminate.
Qed.
Definition body_ok (sh : SequenceHeader) (st : HState) (fh : FrameHead) (fr : FrameRefs) (fb : FrameBody) : Prop :=
  tiles_ok (Use128x128SuperBlock sh) (MiCols (Size_ fr)) (MiRows (Size_ fr)) (TileSizeBytes (St_Tiles st)) (TileInfo_ fb) /\
  quant_ok (Quant_ fb) /\ seg_ok (Seg_ fb) /\
  0 <= DeltaQRes fb < 4 /\ (DeltaQPresent fb = true -> 0 < BaseQIdx (Quant_ fb)) /\
  (let '(p, v, m) := DeltaLf fb in 0 <= v < 4 /\ 0 <= m < 2 /\ (p = true -> DeltaQPresent fb = true /\ AllowIntraBc fr = false)) /\
  Lossless_ fb = lossless_spec (Quant_ fb) (Seg_ fb) /\
  (AllLossless fb = true <-> CodedLossless (Lossless_ fb) = true /\ FrameWidth (Size_ fr) = UpscaledWidth (Size_ fr)) /\
  lf_ok (LoopFilter_ fb) /\ cdef_ok (Cdef_ fb) /\ lr_ok (NumPlanes (Color sh)) (St_LoopRestorationSize st) (Lr_ fb) /\
  ((CodedLossless (Lossless_ fb) = true -> TxMode fb = 0) /\ (TxMode fb = 0 \/ TxMode fb = 1 \/ TxMode fb = 2)) /\
  SkipModePresent fb = 0 /\ length (GmType fb) = 8%nat /\ Forall (fun t => 0 <= t <= 3) (tl (GmType fb)) /\
  GmParams fb = [0;0;0;0;0;0] :: repeat gmIdentity 7 /\ (FrameIsIntra fh = true -> tl (GmType fb) = repeat 0 7) /\ grain_ok (Grain_ fb) /\
  PrimaryRefFrame fh = PRIMARY_REF_NONE.
Lemma frameBody_good sh st fh fr : 0 <= NumPlanes (Color sh) <= 3 -> refs_ok sh fh fr -> good (frameBody sh st fh fr) (body_ok sh st fh fr).
Proof.
  intros Hnp (Hs & Hrest). destruct (mi_bounds _ Hs) as [Hmc Hmr]. unfold frameBody. cbv zeta.
  eapply g_bind with (Q := fun _ => True); [apply g_safe; safet|]. intros noEnd _.
  apply g_if; intros Hprim; [apply g_panic|]. apply negb_false_iff, Z.eqb_eq in Hprim. rewrite Hprim.
  apply g_if; intros _; [apply g_panic|].
  eapply g_bind; [apply NewTileInfo_good; assumption|]. intros tiles Ht.
  eapply g_bind; [apply quant_good|]. intros q Hq.
  eapply g_bind; [apply seg_good|]. intros sg Hsg.
  eapply g_bind; [apply deltaQ_good|]. intros dq Hdq.
  eapply g_bind; [apply deltaLf_good|]. intros dlf Hdlf.
  rewrite (lossless_ok q sg (fst dq) (St_CurrentQIndex st) Hsg).
  eapply g_bind with (Q := fun ll => ll = lossless_spec q sg); [apply g_lift_ok; reflexivity|]. intros ll Hll.
  eapply g_bind; [apply lf_good|]. intros lf Hlf.
  eapply g_bind; [apply cdef_good|]. intros cd Hcd.
  eapply g_bind; [apply lr_good; exact Hnp|]. intros lr Hlr.
  eapply g_bind; [apply txMode_good|]. intros tx Htx.
  eapply g_bind with (Q := fun _ => True); [apply g_safe; unfold frameReferenceMode; safet|]. intros rsel _.
  eapply g_bind; [apply skip_good|]. intros skip Hskip.
  eapply g_bind with (Q := fun _ => True); [apply g_safe; safet|]. intros warp _.
  gb rts Hrts.
  eapply g_bind with (Q := fun _ => True); [apply g_safe; safet|]. intros gt _.
  eapply g_bind; [apply gm_good|]. intros gm Hgm.
  eapply g_bind; [apply grain_good|]. intros gr Hgr.
  apply g_ret. unfold body_ok. cbn -[lossless_spec tiles_ok quant_ok seg_ok lf_ok cdef_ok lr_ok grain_ok repeat].
  destruct Hdq as (D1 & D2 & D3). destruct Hgm as (G1 & G2 & G3 & G4).
  repeat match goal with |- _ /\ _ => split end; try assumption; try lia; try (apply Htx).
  rewrite andb_true_iff, Z.eqb_eq. tauto.
Qed.
Definition header_ok (sh : SequenceHeader) (st : HState) (h : UncompressedHeader) : Prop :=
  match h with
  | UExisting e => 0 <= FrameToShowMapIdx e < 8
  | UFrame fh fr fb => head_ok fh /\ refs_ok sh fh fr /\ body_ok sh st fh fr fb
  end.
Lemma header_good sh st : size_bounds sh -> 0 <= NumPlanes (Color sh) <= 3 ->
  good (NewUncompressedHeader sh st) (fun r => header_ok sh st (fst r) /\
    match fst r with UExisting _ => snd r = st | UFrame _ fr fb => snd r = afterHeader st fr fb end).
Proof.
  intros Hb Hnp. unfold NewUncompressedHeader. cbv zeta.
  assert (K : forall ft, type_ok ft -> good (let* fh := frameHead sh ft in
    let* fr := if FrameIsIntra fh then intraRefs sh fh else interRefs sh fh st in
    let* fb := frameBody sh st fh fr in
    ret (UFrame fh fr fb, afterHeader st fr fb)) (fun r => header_ok sh st (fst r) /\
    match fst r with UExisting _ => snd r = st | UFrame _ fr fb => snd r = afterHeader st fr fb end)).
  { intros ft Hft. eapply g_bind; [apply frameHead_good; exact Hft|]. intros fh Hfh.
    eapply g_bind with (Q := refs_ok sh fh). { destruct (FrameIsIntra fh) eqn:Ei; [apply intraRefs_good; assumption|apply interRefs_good; assumption]. }
    intros fr Hfr. eapply g_bind; [apply frameBody_good; assumption|]. intros fb Hfb. apply g_ret. cbn [fst snd header_ok]. auto. }
  apply g_if; intros _; [apply K; cbn; split; [lia|reflexivity]|].
  gb exi Hexi. apply g_if; intros _.
  - unfold showExisting. eapply g_bind with (Q := fun e => 0 <= FrameToShowMapIdx e < 8).
    + gb i Hi. eapply g_bind with (Q := fun _ => True); [apply g_safe; unfold TemporalPointInfo; safet|]. intros t _.
      eapply g_bind with (Q := fun _ => True); [apply g_safe; safet|]. intros d _.
      eapply g_bind with (Q := fun _ => True); [apply g_safe; safet|]. intros ty _.
      apply g_if; intros _; [apply g_panic|]. apply g_ret. exact Hi.
    + intros e He. apply g_ret. cbn [fst snd header_ok]. auto.
  - eapply g_bind; [apply frameType_good|]. intros ft Hft. apply K. exact Hft.
Qed.
