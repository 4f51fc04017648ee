(** Properties C33-C36 and C48-C62: the frame header. *)
From Verif Require Import GoBase Bitstream SpecBits SpecStream BitstreamProofs ReaderOps Parses SafeParse Yields Util UtilProofs
  Constants Tables Header SequenceHeader PropSequence SymbolProofs TileInfo SpecTiles TileInfoProofs SpecHeader UncompressedHeader
  UHeaderProofs UHeaderGood UHeaderWhole.

(** What every accepted sequence header provides. *)
Lemma planes s sh idc s' : 0 <= Position s -> NewSequenceHeader s = Ok (sh, idc, s') -> NumPlanes (Color sh) = 1 \/ NumPlanes (Color sh) = 3.
Proof.
  intros H0 E. refine (proj2 ((_ : yields NewSequenceHeader (fun r => NumPlanes (Color (fst r)) = 1 \/ NumPlanes (Color (fst r)) = 3)) s (sh, idc) s' H0 E)).
  clear. unfold NewSequenceHeader. do 4 yb.
  eapply y_bind; [apply yields_any_safe; unfold timingPart, NewTimingInfo, operatingPoint, operatingParametersInfo; safet|]. intros tp _.
  eapply y_bind; [apply yields_any_safe; safet|]. intros idc _.
  eapply y_bind; [apply yields_any_safe; unfold sizeToolPart; safet|]. intros st _.
  do 3 yb.
  eapply y_bind with (Q := fun cc => NumPlanes cc = 1 \/ NumPlanes cc = 3).
  { unfold NewColorConfig. eapply y_bind; [apply yields_any_safe; unfold readBitDepth; safet|]. intros [[hb tb] bd] _.
    eapply y_bind; [apply yields_any_safe; safet|]. intros mono _. yb.
    eapply y_bind; [apply yields_any_safe; safet|]. intros cp _. eapply y_bind; [apply yields_any_safe; safet|]. intros tc _.
    eapply y_bind; [apply yields_any_safe; safet|]. intros mc _.
    destruct mono. { yb. apply y_ret. cbn. auto. }
    apply y_if; intros _. { yb. apply y_ret. cbn. auto. }
    yb. eapply y_bind; [apply yields_any_safe; safet|]. intros sx _. eapply y_bind; [apply yields_any_safe; safet|]. intros sy _.
    eapply y_bind; [apply yields_any_safe; safet|]. intros csp _. yb. apply y_ret. cbn. auto. }
  intros cc Hcc. yb. apply y_ret. exact Hcc.
Qed.
Lemma accepted_bounds s sh idc s' : 0 <= Position s -> NewSequenceHeader s = Ok (sh, idc, s') ->
  size_bounds sh /\ 0 <= NumPlanes (Color sh) <= 3.
Proof.
  intros H0 E. pose proof (C45_returned_header_consistent s sh idc s' H0 E) as (_ & A & B & C & D & _). pose proof (planes s sh idc s' H0 E).
  assert (2 ^ (FrameWidthBitsMinusOne sh + 1) <= 2 ^ 16) by (apply Z.pow_le_mono_r; lia).
  assert (2 ^ (FrameHeightBitsMinusOne sh + 1) <= 2 ^ 16) by (apply Z.pow_le_mono_r; lia). change (2 ^ 16) with 65536 in *.
  split; [unfold size_bounds; lia|lia].
Qed.
(** [parsed sh st fh fr fb]: a frame header (head, references, body) the decoder returned, from some stream and position,
    with a sequence header it accepted before, in decoder state st. *)
Definition parsed (sh : SequenceHeader) (st : HState) (fh : FrameHead) (fr : FrameRefs) (fb : FrameBody) : Prop :=
  exists s0 idc s1 s st' s', 0 <= Position s0 /\ 0 <= Position s /\ NewSequenceHeader s0 = Ok (sh, idc, s1) /\
    NewUncompressedHeader sh st s = Ok (UFrame fh fr fb, st', s').
Lemma parsed_ok sh st fh fr fb : parsed sh st fh fr fb -> head_ok fh /\ refs_ok sh fh fr /\ body_ok sh st fh fr fb.
Proof.
  intros (s0 & idc & s1 & s & st' & s' & H0 & H1 & E0 & E1). destruct (accepted_bounds _ _ _ _ H0 E0) as [B N].
  destruct (header_good sh st B N) as [_ Y]. destruct (Y s _ s' H1 E1) as [_ [K _]]. exact K.
Qed.

(** A 352x288 sequence, and a key frame with superres, segmentation, delta Q, loop filter deltas, CDEF, restoration and film grain. *)
Definition demo_sh_bytes : list Z := [0; 17; 21; 248; 248; 0; 224; 32].
Definition demo_frame_bytes : list Z := [17; 240; 39; 240; 29; 244; 201; 254; 85; 160; 0; 28; 224; 0; 0; 0; 80; 0; 1; 173; 69; 86; 92; 94; 12; 0;
  167; 146; 121; 41; 94; 96; 114; 33; 66; 149; 1; 1; 1; 1; 2; 2; 2; 2; 2; 3; 3; 3; 3; 3; 152].
Definition demo_sh : SequenceHeader := Eval vm_compute in
  match NewSequenceHeader (NewBitStream demo_sh_bytes) with Ok (sh, _, _) => sh | _ => mkSequenceHeader 0 false false
  zeroTiming false zeroModel false 0 [] [] [] [] [] 0 0 0 0 false 0 0 false false false false false false false false false false false 0 0 0 false false false
  (mkColorConfig false false false false 0 0 0 false false false 0 false 0 0) false end.
Definition demo_header := NewUncompressedHeader demo_sh zeroHState (NewBitStream demo_frame_bytes).
Definition demo_parts : FrameHead * FrameRefs * option FrameBody := Eval vm_compute in
  match NewUncompressedHeader demo_sh zeroHState (NewBitStream demo_frame_bytes) with Ok (UFrame fh fr fb, _, _) => (fh, fr, Some fb)
  | _ => (noHead, mkFrameRefs (mkFrameSize 0 0 0 false 0 0 0) (0, 0) false [] false 0 false false [] [], None) end.
Example demo_parsed : match snd demo_parts with
  | Some fb => parsed demo_sh zeroHState (fst (fst demo_parts)) (snd (fst demo_parts)) fb | None => False end.
Proof.
  cbv beta iota delta [demo_parts fst snd].
  exists (NewBitStream demo_sh_bytes). eexists. eexists. exists (NewBitStream demo_frame_bytes). eexists. eexists.
  split; [cbn; lia|]. split; [cbn; lia|]. split; [vm_compute; reflexivity|]. vm_compute. reflexivity.
Qed.

(** C33: superres width *)
Theorem C33_superres_width : forall sh st fh fr fb, parsed sh st fh fr fb ->
  let fs := Size_ fr in
  0 < FrameWidth fs /\ FrameWidth fs <= UpscaledWidth fs /\ UpscaledWidth fs <= 65536 /\ UpscaledWidth fs <= 2 * FrameWidth fs /\
  (UseSuperRes fs = false -> FrameWidth fs = UpscaledWidth fs) /\
  (UseSuperRes fs = true -> 9 <= SuperResDenom fs <= 16 /\ FrameWidth fs = (8 * UpscaledWidth fs + SuperResDenom fs / 2) / SuperResDenom fs) /\
  (EnableSuperRes sh = false -> UseSuperRes fs = false) /\
  0 < FrameHeight fs <= 65536 /\
  (FrameSizeOverrideFlag fh = false -> UpscaledWidth fs = MaxFrameWidthMinusOne sh + 1 /\ FrameHeight fs = MaxFrameHeightMinusOne sh + 1).
Proof.
  intros sh st fh fr fb H. apply parsed_ok in H. destruct H as (_ & ((A & B & C & D & E & G & _) & H2 & H3 & _) & _). cbv zeta.
  split; [lia|]. split; [lia|]. split; [lia|]. split; [lia|].
  split. { intros K. rewrite K in G. rewrite E, G. apply coded_width_8. lia. }
  split. { intros K. rewrite K in G. split; [exact G|]. rewrite E at 1. unfold coded_width. f_equal. lia. }
  split; [exact H2|]. split; [lia|exact H3].
Qed.
Print Assumptions C33_superres_width.
Example C33_example : let fs := Size_ (snd (fst demo_parts)) in UseSuperRes fs = true /\ SuperResDenom fs = 16 /\ FrameWidth fs = 176 /\ UpscaledWidth fs = 352.
Proof. vm_compute. auto. Qed.

(** C34: the grid of 4x4 units *)
Theorem C34_mode_info_grid : forall sh st fh fr fb, parsed sh st fh fr fb ->
  let fs := Size_ fr in
  FrameWidth fs <= 4 * MiCols fs < FrameWidth fs + 8 /\ MiCols fs mod 2 = 0 /\
  FrameHeight fs <= 4 * MiRows fs < FrameHeight fs + 8 /\ MiRows fs mod 2 = 0.
Proof.
  intros sh st fh fr fb H. apply parsed_ok in H. cbv zeta. destruct H as (_ & ((_ & _ & _ & _ & _ & _ & -> & ->) & _) & _).
  pose proof (Z.div_mod (FrameWidth (Size_ fr) + 7) 8 ltac:(lia)). pose proof (Z.mod_pos_bound (FrameWidth (Size_ fr) + 7) 8 ltac:(lia)).
  pose proof (Z.div_mod (FrameHeight (Size_ fr) + 7) 8 ltac:(lia)). pose proof (Z.mod_pos_bound (FrameHeight (Size_ fr) + 7) 8 ltac:(lia)).
  rewrite !(Z.mul_comm 2), !Z.mod_mul by lia. lia.
Qed.
Print Assumptions C34_mode_info_grid.

(** C35.  The segment feature: entry 0 of the segment's feature tables, when segmentation and the entry are enabled. *)
Definition alt_q_enabled (sg : Seg) (i : nat) : bool := SegmentationEnabled sg && (nth 0 (nth i (FeatureEnabled sg) []) 0 =? 1).
Definition alt_q (sg : Seg) (i : nat) : Z := nth 0 (nth i (FeatureData sg) []) 0.
Theorem C35_qindex_ignoring_deltas : forall sh st fh fr fb cur i, parsed sh st fh fr fb -> (i < 8)%nat ->
  exists v, GetQIndex (Quant_ fb) (Seg_ fb) (DeltaQPresent fb) cur 1 (Z.of_nat i) = Ok v /\ 0 <= v <= 255 /\
    v = (if alt_q_enabled (Seg_ fb) i then Z.max 0 (Z.min 255 (BaseQIdx (Quant_ fb) + alt_q (Seg_ fb) i)) else BaseQIdx (Quant_ fb)).
Proof.
  intros sh st fh fr fb cur i H Hi. apply parsed_ok in H. destruct H as (_ & _ & (_ & (Q & _) & S & _)).
  eexists. split; [apply GetQIndex_ignore; assumption|]. unfold spec_qindex, clamp255, seg_active, seg_entry, alt_q_enabled, alt_q. cbn [fst snd].
  split; [|reflexivity]. destruct (SegmentationEnabled (Seg_ fb) && _); lia.
Qed.
Print Assumptions C35_qindex_ignoring_deltas.
(** With delta Q the current quantizer index (0..255, as readDeltaQIndex keeps it) takes the place of base_q_idx; still in range.
    Missing from the full property (AV1 7.12.2): the segment's offset should be added to it; see the refuted part. *)
Theorem C35_qindex_range_partial : forall sh st fh fr fb cur i, parsed sh st fh fr fb -> (i < 8)%nat -> 0 <= cur <= 255 ->
  exists v, GetQIndex (Quant_ fb) (Seg_ fb) (DeltaQPresent fb) cur 0 (Z.of_nat i) = Ok v /\ 0 <= v <= 255 /\
    (DeltaQPresent fb = false -> GetQIndex (Quant_ fb) (Seg_ fb) (DeltaQPresent fb) cur 1 (Z.of_nat i) = Ok v) /\
    (DeltaQPresent fb = true -> alt_q_enabled (Seg_ fb) i = false -> v = cur).
Proof.
  intros sh st fh fr fb cur i H Hi Hc. apply parsed_ok in H. destruct H as (_ & _ & (_ & (Q & _) & S & _)).
  eexists. split; [apply GetQIndex_delta; assumption|]. rewrite GetQIndex_ignore by assumption.
  unfold spec_qindex, clamp255, seg_active, seg_entry, alt_q_enabled, alt_q. cbn [fst snd].
  destruct (DeltaQPresent fb), (SegmentationEnabled (Seg_ fb) && _); (split; [lia|]); (split; [try discriminate; reflexivity|]); intros; try discriminate; reflexivity.
Qed.
Print Assumptions C35_qindex_range_partial.
(** Refuted: with delta Q the segment's offset has no effect. *)
Theorem C35_segment_offset_ignored_refuted : forall sh st fh fr fb cur i, parsed sh st fh fr fb -> (i < 8)%nat -> 0 <= cur <= 255 ->
  DeltaQPresent fb = true ->
  GetQIndex (Quant_ fb) (Seg_ fb) (DeltaQPresent fb) cur 0 (Z.of_nat i) = Ok cur.
Proof.
  intros sh st fh fr fb cur i H Hi Hc K. apply parsed_ok in H. destruct H as (_ & _ & (_ & (Q & _) & S & _)).
  rewrite (GetQIndex_delta _ _ _ _ _ S Hi), K. f_equal. unfold clamp255. destruct (seg_active (Seg_ fb) i 0); lia.
Qed.
Print Assumptions C35_segment_offset_ignored_refuted.
Example C35_example : match snd demo_parts with
  | Some fb => DeltaQPresent fb = true /\ alt_q_enabled (Seg_ fb) 2 = true /\ alt_q (Seg_ fb) 2 = -100 /\
               GetQIndex (Quant_ fb) (Seg_ fb) true 77 0 2 = Ok 77 /\ GetQIndex (Quant_ fb) (Seg_ fb) true 77 1 2 = Ok 0
  | None => False end.
Proof. vm_compute. auto 8. Qed.

(** C36: lossless flags *)
Theorem C36_lossless_flags : forall sh st fh fr fb, parsed sh st fh fr fb ->
  let q := Quant_ fb in
  let qindex i := if alt_q_enabled (Seg_ fb) i then Z.max 0 (Z.min 255 (BaseQIdx q + alt_q (Seg_ fb) i)) else BaseQIdx q in
  let deltas0 := DeltaQYDc q = 0 /\ DeltaQUAc q = 0 /\ DeltaQUDc q = 0 /\ DeltaQVAc q = 0 /\ DeltaQVDc q = 0 in
  (forall i, (i < 8)%nat -> nth i (LosslessArray (Lossless_ fb)) false = true <-> qindex i = 0 /\ deltas0) /\
  (CodedLossless (Lossless_ fb) = true <-> forall i, (i < 8)%nat -> qindex i = 0 /\ deltas0) /\
  (AllLossless fb = true <-> CodedLossless (Lossless_ fb) = true /\ FrameWidth (Size_ fr) = UpscaledWidth (Size_ fr)).
Proof.
  intros sh st fh fr fb H. apply parsed_ok in H. destruct H as (_ & _ & (_ & _ & S & _ & _ & _ & L & A & _)). cbv zeta.
  assert (K : forall i, lossless_seg (Quant_ fb) (Seg_ fb) i = true <->
     (if alt_q_enabled (Seg_ fb) i then Z.max 0 (Z.min 255 (BaseQIdx (Quant_ fb) + alt_q (Seg_ fb) i)) else BaseQIdx (Quant_ fb)) = 0 /\
     DeltaQYDc (Quant_ fb) = 0 /\ DeltaQUAc (Quant_ fb) = 0 /\ DeltaQUDc (Quant_ fb) = 0 /\ DeltaQVAc (Quant_ fb) = 0 /\ DeltaQVDc (Quant_ fb) = 0).
  { intros i. unfold lossless_seg, no_deltas, spec_qindex, seg_active, seg_entry, clamp255, alt_q_enabled, alt_q. cbn [fst snd].
    rewrite !andb_true_iff, !Z.eqb_eq. tauto. }
  split; [|split; [|exact A]].
  - intros i Hi. rewrite L. unfold lossless_spec. cbn [LosslessArray].
    rewrite (nth_indep _ false (lossless_seg (Quant_ fb) (Seg_ fb) 0)) by (rewrite map_length, seq_length; exact Hi).
    rewrite (map_nth (lossless_seg (Quant_ fb) (Seg_ fb)) (seq 0 8) 0%nat i), seq_nth by exact Hi. apply K.
  - rewrite L. unfold lossless_spec. cbn [CodedLossless]. rewrite forallb_forall. split.
    + intros F i Hi. apply K. apply F. apply in_seq. lia.
    + intros F i Hi. apply in_seq in Hi. apply K. apply F. lia.
Qed.
Print Assumptions C36_lossless_flags.
(** A lossless 1x1 frame of a reduced still picture sequence *)
Definition demo_reduced_sh : list Z := [0x18; 0x00; 0x00; 0x00].
Example C36_example : match NewSequenceHeader (NewBitStream demo_reduced_sh) with
  | Ok (sh, _, _) => match NewUncompressedHeader sh zeroHState (NewBitStream [0;0;0;0;0;0;0;0]) with
     | Ok (UFrame fh fr fb, _, _) => CodedLossless (Lossless_ fb) = true /\ AllLossless fb = true /\ TxMode fb = 0
     | _ => False end
  | _ => False end.
Proof. vm_compute. auto. Qed.

(** C48: parsing is total. *)
Theorem C48_frame_header_total : forall s0 sh idc s1 st s, 0 <= Position s0 -> NewSequenceHeader s0 = Ok (sh, idc, s1) -> 0 <= Position s ->
  match NewUncompressedHeader sh st s with
  | Ok (_, s') => Data s' = Data s /\ Position s <= Position s' /\ (Position s <= 8 * zlen (Data s) -> Position s' <= 8 * zlen (Data s))
  | Panic => True
  | Hang => False
  end.
Proof.
  intros s0 sh idc s1 st s H0 E H. destruct (accepted_bounds _ _ _ _ H0 E) as [B N]. destruct (header_good sh st B N) as [S _].
  specialize (S s H). destruct (NewUncompressedHeader sh st s) as [[r s']| |]; auto.
Qed.
Print Assumptions C48_frame_header_total.
Example C48_example : match demo_header with Ok (_, s') => Position s' = 406 | _ => False end.
Proof. vm_compute. reflexivity. Qed.
(** Running out of data is a panic, not an endless loop. *)
Example C48_example_short : NewUncompressedHeader demo_sh zeroHState (NewBitStream (firstn 20 demo_frame_bytes)) = Panic.
Proof. vm_compute. reflexivity. Qed.

(** C49: quantizer parameters *)
Theorem C49_quantization_roundtrip : forall numPlanes separate q s, valid_quant separate q -> starts s (enc_quant numPlanes separate q) ->
  exists r, quantizationParams numPlanes separate s = Ok (r, adv s (Z.of_nat (length (enc_quant numPlanes separate q)))) /\
  BaseQIdx r = sq_base q /\ DeltaQYDc r = dq (sq_ydc q) /\
  (1 < numPlanes -> DeltaQUDc r = dq (sq_udc q) /\ DeltaQUAc r = dq (sq_uac q) /\
     DeltaQVDc r = (if sq_diff q then dq (sq_vdc q) else dq (sq_udc q)) /\ DeltaQVAc r = (if sq_diff q then dq (sq_vac q) else dq (sq_uac q))) /\
  (numPlanes <= 1 -> DeltaQUDc r = 0 /\ DeltaQUAc r = 0 /\ DeltaQVDc r = 0 /\ DeltaQVAc r = 0) /\
  match sq_qm q with
  | Some (y, u, v) => UsingQMatrix r = true /\ Qmy r = y /\ Qmu r = u /\ Qmv r = v
  | None => UsingQMatrix r = false end.
Proof.
  intros numPlanes separate q s Hv Hs. exists (decoded_quant numPlanes separate q). split; [apply parses_quant; assumption|].
  unfold decoded_quant. destruct (sq_qm q) as [[[y u] v]|]; cbn;
    destruct (Z.ltb_spec 1 numPlanes); repeat split; intros; try lia; auto.
Qed.
Print Assumptions C49_quantization_roundtrip.
Definition demo_quant := mkSpecQuant 77 (Some (-64)) true (Some 63) None (Some (-1)) None (Some (3, 4, 5)).
Example C49_case : valid_quant true demo_quant /\ enc_quant 3 true demo_quant <> [] /\
  match quantizationParams 3 true (mkBS (pack (enc_quant 3 true demo_quant) 8) 0 0) with
  | Ok (r, s') => BaseQIdx r = 77 /\ DeltaQYDc r = -64 /\ DeltaQVDc r = -1 /\ DeltaQVAc r = 0 /\ Qmv r = 5 /\ Position s' = 48 | _ => False end.
Proof. split; [unfold valid_quant, valid_delta_q; cbn; repeat split; try lia; discriminate|]. split; [discriminate|vm_compute; repeat split]. Qed.

(** C50: segmentation parameters.  The reference frame feature (index 5) with a value of 4 or more comes back as 0. *)
Definition feature_of (s : list (list (option Z))) (i j : nat) : option Z := nth j (nth i s []) None.
Lemma dec_features_nth l : forall j n, (n < length l)%nat -> nth n (dec_features j l) (0, 0) = dec_feature (j + n) (nth n l None).
Proof.
  induction l as [|f l IH]; intros j n; cbn [length dec_features]; [lia|]. intros H. destruct n as [|n]; [rewrite Nat.add_0_r; reflexivity|].
  cbn [nth]. rewrite IH by lia. replace (S j + n)%nat with (j + S n)%nat by lia. reflexivity.
Qed.
Lemma seg_tables s i j : valid_segmentation s -> (i < 8)%nat -> (j < 8)%nat ->
  nth j (nth i (map (map fst) (map (dec_features 0) s)) []) 0 = (match feature_of s i j with Some _ => 1 | None => 0 end) /\
  nth j (nth i (map (map snd) (map (dec_features 0) s)) []) 0 = (match feature_of s i j with Some v => code_feature j v | None => 0 end).
Proof.
  intros [L F] Hi Hj. rewrite !map_map.
  rewrite (nth_indep _ [] (map fst (dec_features 0 []))) by (rewrite map_length; lia). rewrite (map_nth (fun x => map fst (dec_features 0 x))).
  rewrite (nth_indep (map (fun x => map snd (dec_features 0 x)) s) [] (map snd (dec_features 0 []))) by (rewrite map_length; lia). rewrite (map_nth (fun x => map snd (dec_features 0 x))).
  assert (HL : length (nth i s []) = 8%nat) by (rewrite Forall_forall in F; apply F; apply nth_In; lia).
  assert (D : nth j (dec_features 0 (nth i s [])) (0, 0) = dec_feature j (feature_of s i j)) by (rewrite dec_features_nth by lia; reflexivity).
  rewrite (map_nth (@fst Z Z) _ (0, 0) j : nth j (map fst (dec_features 0 (nth i s []))) 0 = _).
  rewrite (map_nth (@snd Z Z) _ (0, 0) j : nth j (map snd (dec_features 0 (nth i s []))) 0 = _).
  rewrite D. destruct (feature_of s i j); split; reflexivity.
Qed.
Theorem C50_segmentation_roundtrip_partial : forall sg s en dat, valid_segmentation sg -> starts s (enc_segmentation (Some sg)) ->
  exists r, segmentationParams PRIMARY_REF_NONE en dat s = Ok (r, adv s (Z.of_nat (length (enc_segmentation (Some sg))))) /\
  SegmentationEnabled r = true /\
  (forall i j, (i < 8)%nat -> (j < 8)%nat -> nth j (nth i (FeatureEnabled r) []) 0 = match feature_of sg i j with Some _ => 1 | None => 0 end) /\
  (forall i j, (i < 8)%nat -> (j < 8)%nat -> (j <> 5%nat \/ match feature_of sg i j with Some v => v < 4 | None => True end) ->
     nth j (nth i (FeatureData r) []) 0 = match feature_of sg i j with Some v => v | None => 0 end) /\
  (SegIdPreSkip r = 0 \/ SegIdPreSkip r = 1) /\
  (SegIdPreSkip r = 1 <-> exists i j, (i < 8)%nat /\ (5 <= j < 8)%nat /\ feature_of sg i j <> None) /\
  0 <= LastActiveSegId r < 8 /\
  (forall i j, (i < 8)%nat -> (j < 8)%nat -> feature_of sg i j <> None -> Z.of_nat i <= LastActiveSegId r) /\
  (LastActiveSegId r = 0 \/ exists i j, Z.of_nat i = LastActiveSegId r /\ (j < 8)%nat /\ feature_of sg i j <> None).
Proof.
  intros sg s en dat Hv Hs. exists (decoded_segmentation (Some sg)). split; [apply (parses_segmentation (Some sg)); assumption|].
  cbn [decoded_segmentation SegmentationEnabled FeatureEnabled FeatureData SegIdPreSkip LastActiveSegId].
  set (E := map (map fst) (map (dec_features 0) sg)). pose proof (scanFeatures_inv E) as (I1 & I2 & I3 & I4 & I5).
  assert (T : forall i j, (i < 8)%nat -> (j < 8)%nat -> enabled_at E (Z.of_nat i) (Z.of_nat j) <-> feature_of sg i j <> None).
  { intros i j Hi Hj. unfold enabled_at. rewrite !Nat2Z.id. unfold E. rewrite (proj1 (seg_tables sg i j Hv Hi Hj)).
    destruct (feature_of sg i j); split; congruence. }
  assert (SN : forall a b, seen E 8 0 a b <-> exists i j, a = Z.of_nat i /\ b = Z.of_nat j /\ (i < 8)%nat /\ (j < 8)%nat /\ feature_of sg i j <> None).
  { intros a b. unfold seen. split.
    - intros (A & B & C & D). exists (Z.to_nat a), (Z.to_nat b). rewrite !Z2Nat.id by lia. split; [reflexivity|]. split; [reflexivity|].
      split; [lia|]. split; [lia|]. apply T; [lia|lia|]. rewrite !Z2Nat.id by lia. exact C.
    - intros (i & j & -> & -> & Hi & Hj & C). split; [lia|]. split; [lia|]. split; [apply T; assumption|]. left. lia. }
  split; [reflexivity|]. split; [intros i j Hi Hj; apply (seg_tables sg i j Hv Hi Hj)|].
  split. { intros i j Hi Hj K. rewrite (proj2 (seg_tables sg i j Hv Hi Hj)). destruct (feature_of sg i j) as [v|]; [|reflexivity].
    unfold code_feature. destruct (Nat.eqb_spec j 5); [|reflexivity]. destruct (Z.ltb_spec v 4); [reflexivity|]. destruct K; lia. }
  split; [exact I1|]. split.
  { rewrite I2. split.
    - intros (a & b & S & B5). apply SN in S. destruct S as (i & j & -> & -> & Hi & Hj & C). exists i, j. split; [exact Hi|]. split; [lia|exact C].
    - intros (i & j & Hi & Hj & C). exists (Z.of_nat i), (Z.of_nat j). split; [|lia]. apply SN. exists i, j. repeat split; auto; lia. }
  split; [exact I3|]. split.
  { intros i j Hi Hj C. apply (I4 (Z.of_nat i) (Z.of_nat j)). apply SN. exists i, j. auto 8. }
  destruct I5 as [I5|[b I5]]; [left; exact I5|]. right. apply SN in I5. destruct I5 as (i & j & A & _ & _ & Hj & C). exists i, j. auto.
Qed.
Print Assumptions C50_segmentation_roundtrip_partial.
(** Refuted part: a segment restricted to reference frame 4..7 (golden, bwdref, altref2, altref) is restricted to 0 (intra) instead. *)
Theorem C50_ref_frame_feature_refuted : forall sg s en dat i v r s', valid_segmentation sg -> starts s (enc_segmentation (Some sg)) ->
  (i < 8)%nat -> feature_of sg i 5 = Some v -> 4 <= v ->
  segmentationParams PRIMARY_REF_NONE en dat s = Ok (r, s') -> nth 5 (nth i (FeatureData r) []) 0 = 0.
Proof.
  intros sg s en dat i v r s' Hv Hs Hi Ef H4 E. rewrite (parses_segmentation (Some sg) en dat Hv s Hs) in E. injection E as <- <-.
  cbn [decoded_segmentation FeatureData]. rewrite (proj2 (seg_tables sg i 5 Hv Hi ltac:(lia))), Ef.
  unfold code_feature. cbn [Nat.eqb]. destruct (Z.ltb_spec v 4); [lia|reflexivity].
Qed.
Print Assumptions C50_ref_frame_feature_refuted.
Definition demo_segmentation : list (list (option Z)) :=
  [Some (-20); None; Some 63; None; None; Some 6; None; Some 0] :: repeat (repeat None 8) 3 ++
  [[None; None; None; None; Some (-63); Some 3; Some 0; None]] ++ repeat (repeat None 8) 3.
Example C50_case : valid_segmentation demo_segmentation /\
  match segmentationParams 7 [] [] (mkBS (pack (enc_segmentation (Some demo_segmentation)) 16) 0 0) with
  | Ok (r, _) => nth 0 (FeatureData r) [] = [-20; 0; 63; 0; 0; 0; 0; 0] /\ nth 4 (FeatureData r) [] = [0; 0; 0; 0; -63; 3; 0; 0] /\
                 SegIdPreSkip r = 1 /\ LastActiveSegId r = 4
  | _ => False end.
Proof.
  split; [|vm_compute; auto]. split; [reflexivity|]. unfold demo_segmentation. cbn [app repeat].
  repeat (apply Forall_cons; [split; [reflexivity|]; cbn; repeat split; try lia|]). apply Forall_nil.
Qed.

(** C51 *)
Theorem C51_cdef_roundtrip : forall numPlanes damping bits l s, 3 <= damping <= 6 -> 0 <= bits <= 3 -> Z.of_nat (length l) = 2 ^ bits ->
  Forall (valid_cdef_strength numPlanes) l -> starts s (enc_cdef numPlanes damping bits l) ->
  exists r, cdefParams false false true numPlanes s = Ok (r, adv s (Z.of_nat (length (enc_cdef numPlanes damping bits l)))) /\
  CdefDampening r = damping /\ CdefBits r = bits /\
  combine (combine (CdefYPri r) (CdefYSec r)) (combine (CdefUVPri r) (CdefUVSec r)) = l.
Proof.
  intros n d b l s Hd Hb Hl HF Hs. eexists. split; [apply (parses_cdef n d b l); assumption|]. cbn. split; [reflexivity|]. split; [reflexivity|].
  clear. induction l as [|[[a b] [c d]] l IH]; cbn; [reflexivity|]. rewrite IH. reflexivity.
Qed.
Print Assumptions C51_cdef_roundtrip.
(** When CDEF is off (lossless, intra block copy or disabled by the sequence) nothing is read and the strengths are 0. *)
Theorem C51_cdef_off : forall lossless ibc enable numPlanes s, lossless || ibc || negb enable = true ->
  cdefParams lossless ibc enable numPlanes s = Ok (mkCdefParams 3 0 [0] [0] [0] [0], s).
Proof. intros lossless ibc enable numPlanes s H. unfold cdefParams. rewrite H. reflexivity. Qed.
Print Assumptions C51_cdef_off.
Example C51_case : Forall (valid_cdef_strength 3) [(15, 4, (0, 1)); (3, 2, (7, 0))] /\
  match cdefParams false false true 3 (mkBS (pack (enc_cdef 3 5 1 [(15, 4, (0, 1)); (3, 2, (7, 0))]) 8) 0 0) with
  | Ok (r, _) => CdefYSec r = [4; 2] /\ CdefUVPri r = [0; 7] /\ CdefDampening r = 5 | _ => False end.
Proof. split; [|vm_compute; auto]. repeat (apply Forall_cons; [cbn; unfold valid_sec; lia|]). apply Forall_nil. Qed.

(** C52 *)
Theorem C52_restoration_roundtrip : forall use128 subX subY types size half size0 s, valid_lr use128 types size ->
  starts s (enc_lr use128 (subX && subY) types size half) ->
  exists r, lrParams false false true use128 subX subY (Z.of_nat (length types)) size0 s =
    Ok (r, adv s (Z.of_nat (length (enc_lr use128 (subX && subY) types size half)))) /\
  firstn (length types) (FrameRestorationType r) = types /\
  (UsesLr r = true <-> Exists (fun t => t <> 0) types) /\
  (UsesLr r = true -> let chroma := if subX && subY && half && existsb (fun t => negb (t =? 0)) (tl types) then size / 2 else size in
     LoopRestorationSize r = [size; chroma; chroma]).
Proof.
  intros use128 subX subY types size half size0 s Hv Hs. exists (lr_decoded types size half (subX && subY) size0).
  split; [apply parses_lr; assumption|]. unfold lr_decoded. cbn [FrameRestorationType UsesLr LoopRestorationSize].
  split; [rewrite firstn_app, Nat.sub_diag, firstn_all, app_nil_r; reflexivity|].
  split.
  - rewrite existsb_exists, Exists_exists. split; intros (x & A & B); exists x; (split; [exact A|]); destruct (Z.eqb_spec x 0); cbn in *; congruence.
  - cbv zeta. intros ->. destruct (subX && subY), half, (existsb (fun t => negb (t =? 0)) (tl types)); reflexivity.
Qed.
Print Assumptions C52_restoration_roundtrip.
Example C52_case : valid_lr false [3; 0; 1] 128 /\
  match lrParams false false true false true true 3 [] (mkBS (pack (enc_lr false true [3; 0; 1] 128 true) 4) 0 0) with
  | Ok (r, _) => FrameRestorationType r = [3; 0; 1] /\ LoopRestorationSize r = [128; 64; 64] | _ => False end.
Proof. split; [|vm_compute; auto]. unfold valid_lr. cbn. split; [auto|]. split; [repeat constructor; lia|auto]. Qed.

(** C53 *)
Theorem C53_film_grain_roundtrip : forall show showable ty mono subX subY g s, show || showable = true -> valid_grain mono subX subY g ->
  starts s (enc_grain (ty =? 1) mono subX subY g) ->
  exists r, filmGrainParams true show showable ty mono subX subY s = Ok (r, adv s (Z.of_nat (length (enc_grain (ty =? 1) mono subX subY g)))) /\
  ApplyGrain r = true /\ GrainSeed r = gr_seed g /\ PointY r = gr_y g /\ PointCb r = gr_cb g /\ PointCr r = gr_cr g /\
  ChromaScalingFromLuma r = gr_from_luma g /\ GrainScalingMinus8 r = gr_scaling g /\ ArCoeffLag r = gr_lag g /\
  ArCoeffsY r = gr_ay g /\ ArCoeffsCb r = gr_acb g /\ ArCoeffsCr r = gr_acr g /\ ArCoeffShiftMinus6 r = gr_shift g /\ GrainScaleShift r = gr_gshift g /\
  (CbMult r, CbLumaMult r, CbOffset r) = gr_cbp g /\ (CrMult r, CrLumaMult r, CrOffset r) = gr_crp g /\
  OverlapFlag r = gr_overlap g /\ ClipToRestrictedRange r = gr_clip g.
Proof.
  intros show showable ty mono subX subY g s Hsh Hv Hs. exists (decoded_grain g). split; [apply parses_grain; assumption|].
  unfold decoded_grain. cbn. destruct (gr_cbp g) as [[? ?] ?], (gr_crp g) as [[? ?] ?]. cbn. auto 20.
Qed.
Print Assumptions C53_film_grain_roundtrip.
(** A hidden frame that cannot be shown later, a sequence without film grain, and apply_grain = 0 all give no grain. *)
Theorem C53_no_grain : forall present show showable ty mono subX subY s, present && (show || showable) = false ->
  exists r, filmGrainParams present show showable ty mono subX subY s = Ok (r, s) /\ ApplyGrain r = false /\ PointY r = [] /\ PointCb r = [] /\ PointCr r = [].
Proof.
  intros present show showable ty mono subX subY s H. exists noGrain. split; [|auto]. unfold filmGrainParams.
  replace (negb present || negb show && negb showable) with true by (destruct present, show, showable; cbn in *; congruence). reflexivity.
Qed.
Print Assumptions C53_no_grain.
(** Reusing the parameters of a reference frame (update_grain = 0) is not supported: the decoder panics. *)
Theorem C53_grain_reuse_panics : forall s s1 s2 s3 seed show showable mono subX subY, show || showable = true ->
  Fbool s = Ok (true, s1) -> F 16 s1 = Ok (seed, s2) -> Fbool s2 = Ok (false, s3) ->
  forall r, filmGrainParams true show showable 1 mono subX subY s <> Ok r.
Proof.
  intros s s1 s2 s3 seed show showable mono subX subY Hsh E1 E2 E3 r E. unfold filmGrainParams in E.
  replace (negb true || negb show && negb showable) with false in E by (destruct show, showable; cbn in *; congruence).
  rewrite (bind_ok _ _ _ _ _ E1) in E. cbn [negb] in E. rewrite (bind_ok _ _ _ _ _ E2) in E. change (1 =? 1) with true in E. cbv iota in E.
  rewrite (bind_ok _ _ _ _ _ E3) in E. cbn [negb] in E. destruct r as [r sr]. apply bind_inv in E. destruct E as (a & s4 & _ & E). discriminate.
Qed.
Print Assumptions C53_grain_reuse_panics.
Definition demo_grain := mkSpecGrain 4242 [(0, 20); (128, 40)] false [(5, 6)] [] 2 1 [1;2;3;4] [9;8;7;6;5] [] 3 1 (128, 192, 256) (0, 0, 0) true false.
Example C53_case : valid_grain false true true demo_grain /\
  match filmGrainParams true true false 0 false true true (mkBS (pack (enc_grain false false true true demo_grain) 40) 0 0) with
  | Ok (r, _) => PointY r = [(0, 20); (128, 40)] /\ ArCoeffsCb r = [9;8;7;6;5] /\ CbOffset r = 256 | _ => False end.
Proof.
  split; [|vm_compute; auto]. unfold valid_grain, demo_grain, point_ok, byte. cbn.
  repeat match goal with |- _ /\ _ => split end; try lia; try reflexivity; try discriminate; try (intros; discriminate);
    repeat (apply Forall_cons; [cbn; lia|]); apply Forall_nil.
Qed.

(** C54: loop filter parameters.  The code reads loop_filter_sharpness with 6 bits, the syntax has 3. *)
Definition updated (ds : option (option (list (option Z) * list (option Z)))) (which : list (option Z) * list (option Z) -> list (option Z)) (old : list Z) (i : nat) : Z :=
  match ds with Some (Some x) => match nth i (which x) None with Some v => v | None => nth i old 0 end | _ => nth i old 0 end.
Lemma apply_deltas_nth ds : forall old i, length old = length ds -> (i < length ds)%nat ->
  nth i (apply_deltas ds old) 0 = match nth i ds None with Some v => v | None => nth i old 0 end.
Proof.
  induction ds as [|d ds IH]; intros [|x old] i HL Hi; cbn [length] in *; try lia. rewrite apply_deltas_cons. destruct i as [|i]; [reflexivity|].
  cbn [nth]. apply IH; lia.
Qed.
(** Full statement with the standard's syntax enc_lf: refuted below.  Proved: the same with a 6-bit sharpness field. *)
Theorem C54_loop_filter_roundtrip_partial : forall numPlanes f en0 ref0 mode0 s, valid_lf f -> length ref0 = 8%nat -> length mode0 = 2%nat ->
  starts s (enc_lf_levels numPlanes f ++ enc_f 6 (lf_sharp f) ++ enc_lf_deltas f) ->
  exists r s', loopFilterParams false false numPlanes en0 ref0 mode0 s = Ok (r, s') /\
  Position s' = Position s + Z.of_nat (length (enc_lf numPlanes f)) + 3 /\
  (let uv := (1 <? numPlanes) && negb ((lf_l0 f =? 0) && (lf_l1 f =? 0)) in
   LoopFilterLevel r = [lf_l0 f; lf_l1 f; if uv then lf_l2 f else 0; if uv then lf_l3 f else 0]) /\
  LoopFilterSharpness r = lf_sharp f /\
  (LoopFilterDeltaEnabled r = true <-> lf_deltas f <> None) /\
  (forall i, (i < 8)%nat -> nth i (LoopFilterRefDeltas r) 0 = updated (lf_deltas f) fst ref0 i) /\
  (forall i, (i < 2)%nat -> nth i (LoopFilterModeDeltas r) 0 = updated (lf_deltas f) snd mode0 i).
Proof.
  intros numPlanes f en0 ref0 mode0 s Hv HR HM Hs. exists (decoded_lf numPlanes f ref0 mode0), (adv s (Z.of_nat (length (enc_lf_n 6 numPlanes f)))).
  split; [apply parses_lf; assumption|]. split.
  { unfold enc_lf_n, enc_lf. rewrite !app_length, !length_enc_f. unfold adv, set_pos; cbn [Position]; lia. }
  unfold decoded_lf. cbn [LoopFilterLevel LoopFilterSharpness LoopFilterDeltaEnabled LoopFilterRefDeltas LoopFilterModeDeltas].
  split; [reflexivity|]. split; [reflexivity|]. destruct Hv as (_ & _ & _ & _ & _ & HD). unfold updated.
  destruct (lf_deltas f) as [[[r m]|]|].
  - destruct HD as (R1 & M1 & _). split; [split; congruence|]. cbn [fst snd]. split; intros i Hi; apply apply_deltas_nth; lia.
  - split; [split; congruence|]. auto.
  - split; [split; congruence|]. auto.
Qed.
Print Assumptions C54_loop_filter_roundtrip_partial.
(** Refuted: with the syntax of the standard, a frame with sharpness k and no deltas is read with sharpness 8 k + the next 3 bits. *)
Theorem C54_sharpness_misread_refuted : forall numPlanes f x en0 ref0 mode0 s r s', valid_lf f -> lf_deltas f = None -> 0 <= x < 4 ->
  starts s (enc_lf numPlanes f ++ enc_f 2 x) ->
  loopFilterParams false false numPlanes en0 ref0 mode0 s = Ok (r, s') -> LoopFilterSharpness r = 8 * lf_sharp f + x.
Proof.
  intros numPlanes f x en0 ref0 mode0 s r s' (H0 & H1 & H2 & H3 & Hs & _) HD Hx Hst E.
  assert (EQ : enc_lf numPlanes f ++ enc_f 2 x = enc_lf_levels numPlanes f ++ enc_f 6 (8 * lf_sharp f + x)).
  { unfold enc_lf, enc_lf_deltas. rewrite HD, <- !app_assoc. f_equal.
    assert (A : lf_sharp f = 0 \/ lf_sharp f = 1 \/ lf_sharp f = 2 \/ lf_sharp f = 3 \/ lf_sharp f = 4 \/ lf_sharp f = 5 \/ lf_sharp f = 6 \/ lf_sharp f = 7) by lia.
    assert (B : x = 0 \/ x = 1 \/ x = 2 \/ x = 3) by lia.
    destruct A as [->|[->|[->|[->|[->|[->|[->| ->]]]]]]]; destruct B as [->|[->|[->| ->]]]; reflexivity. }
  rewrite EQ in Hst. clear EQ. unfold loopFilterParams in E. cbn [orb] in E.
  unfold enc_lf_levels in Hst. rewrite <- !app_assoc in Hst.
  assert (PF : forall v, 0 <= v < 64 -> parses (F 6) (enc_f 6 v) v).
  { intros v Hv. apply parses_F; [reflexivity|powlia|lia]. }
  pose proof (starts_app _ _ _ Hst) as [S0 S1]. pose proof (starts_app _ _ _ S1) as [S1a S2].
  rewrite (bind_ok _ _ _ _ _ (PF (lf_l0 f) ltac:(lia) s S0)) in E. cbv beta in E.
  rewrite (bind_ok _ _ _ _ _ (PF (lf_l1 f) ltac:(lia) _ S1a)) in E. cbv beta in E.
  match type of S2 with starts ?s2 _ => set (t2 := s2) in * end.
  assert (K : exists l23 s3, (if 1 <? numPlanes then if bool_of (lf_l0 f) || bool_of (lf_l1 f) then let* l2 := F 6 in let* l3 := F 6 in ret (l2, l3) else ret (0, 0) else ret (0, 0)) t2
       = Ok (l23, s3) /\ starts s3 (enc_f 6 (8 * lf_sharp f + x))).
  { unfold bool_of. rewrite <- negb_andb. destruct (1 <? numPlanes); cbn [andb] in S2; [|eexists; eexists; split; [reflexivity|exact S2]].
    destruct (negb ((lf_l0 f =? 0) && (lf_l1 f =? 0))); [|eexists; eexists; split; [reflexivity|exact S2]].
    rewrite <- app_assoc in S2. pose proof (starts_app _ _ _ S2) as [T1 T2]. pose proof (starts_app _ _ _ T2) as [T3 T4].
    eexists. eexists. split; [|exact T4].
    rewrite (bind_ok _ _ _ _ _ (PF (lf_l2 f) ltac:(lia) _ T1)).
    rewrite (bind_ok _ _ _ _ _ (PF (lf_l3 f) ltac:(lia) _ T3)). reflexivity. }
  destruct K as (l23 & s3 & K1 & K2). rewrite (bind_ok _ _ _ _ _ K1) in E. cbv beta in E.
  rewrite (bind_ok _ _ _ _ _ (PF (8 * lf_sharp f + x) ltac:(lia) _ K2)) in E. cbv beta in E.
  apply bind_inv in E. destruct E as (en & s4 & _ & E). destruct en; [|injection E as <- _; reflexivity].
  apply bind_inv in E. destruct E as (up & s5 & _ & E). destruct (up =? 1); [|injection E as <- _; reflexivity].
  apply bind_inv in E. destruct E as (rd & s6 & _ & E). apply bind_inv in E. destruct E as (md & s7 & _ & E). injection E as <- _. reflexivity.
Qed.
Print Assumptions C54_sharpness_misread_refuted.
(** Lossless frames and frames with intra block copy: nothing is read, and the second luma level is 1 instead of 0 (line 836). *)
Theorem C54_lossless_level_refuted : forall lossless ibc numPlanes en0 ref0 mode0 s, lossless || ibc = true ->
  exists r, loopFilterParams lossless ibc numPlanes en0 ref0 mode0 s = Ok (r, s) /\ LoopFilterLevel r = [0; 1; 0; 0] /\
    LoopFilterRefDeltas r = [1; 0; 0; 0; -1; 0; -1; -1] /\ LoopFilterModeDeltas r = [0; 0].
Proof. intros lossless ibc numPlanes en0 ref0 mode0 s H. eexists. unfold loopFilterParams. rewrite H. repeat split. Qed.
Print Assumptions C54_lossless_level_refuted.
Definition demo_lf := mkSpecLf 10 20 30 40 5 (Some (Some ([Some 3; None; Some (-64); None; None; None; None; None], [None; Some 7]))).
Example C54_case : valid_lf demo_lf /\
  match loopFilterParams false false 3 true defaultRefDeltas [0; 0] (mkBS (pack (enc_lf_n 6 3 demo_lf) 16) 0 0) with
  | Ok (r, _) => LoopFilterLevel r = [10; 20; 30; 40] /\ LoopFilterSharpness r = 5 /\ LoopFilterRefDeltas r = [3; 0; -64; 0; -1; 0; -1; -1] /\ LoopFilterModeDeltas r = [0; 7]
  | _ => False end /\
  match loopFilterParams false false 3 true defaultRefDeltas [0; 0] (mkBS (pack (enc_lf 3 (mkSpecLf 10 20 30 40 5 None) ++ enc_f 2 3) 16) 0 0) with
  | Ok (r, _) => LoopFilterSharpness r = 43 | _ => False end.
Proof.
  split; [|vm_compute; auto]. unfold valid_lf, demo_lf, valid_delta_q. cbn.
  repeat match goal with |- _ /\ _ => split end; try lia; try reflexivity; repeat (apply Forall_cons; [cbn; lia|]); apply Forall_nil.
Qed.

(** C55: render size.  Explicit sizes are read back; otherwise the render height is 0 instead of the frame height. *)
Theorem C55_explicit_render_size_partial : forall up w h s, 1 <= w <= 65536 -> 1 <= h <= 65536 ->
  starts s ([true] ++ enc_f 16 (w - 1) ++ enc_f 16 (h - 1)) -> renderSize up s = Ok ((w, h), adv s 33).
Proof.
  intros up w h s Hw Hh Hs.
  assert (P : parses (renderSize up) ([true] ++ enc_f 16 (w - 1) ++ enc_f 16 (h - 1)) (w, h)).
  { unfold renderSize. eapply parses_bind; [apply parses_Fbool|]. cbv beta iota.
    eapply parses_bind; [apply parses_F; [reflexivity|powlia|lia]|]. cbv beta. eapply parses_bind_end; [apply parses_F; [reflexivity|powlia|lia]|]. cbv beta.
    replace (w - 1 + 1) with w by lia. replace (h - 1 + 1) with h by lia. apply parses_ret. }
  specialize (P s Hs). rewrite !app_length, !length_enc_f in P. exact P.
Qed.
Print Assumptions C55_explicit_render_size_partial.
Theorem C55_default_render_height_refuted : forall up s, starts s [false] -> renderSize up s = Ok ((up, 0), adv s 1).
Proof.
  intros up s Hs. assert (P : parses (renderSize up) [false] (up, 0)); [|exact (P s Hs)].
  unfold renderSize. eapply parses_bind_end; [apply parses_Fbool|]. apply parses_ret.
Qed.
Print Assumptions C55_default_render_height_refuted.
Example C55_case : Render (snd (fst demo_parts)) = (640, 480) /\ renderSize 352 (NewBitStream [0x40]) = Ok ((352, 0), mkBS [0x40] 1 0).
Proof. vm_compute. auto. Qed.

(** C56: refresh flags.  True part: switch frames and shown key frames refresh everything.  Refuted: so does every other shown frame,
    and every hidden key frame, whatever the stream says. *)
Theorem C56_refresh_all_partial : forall sh st fh fr fb, parsed sh st fh fr fb ->
  0 <= RefreshFrameFlags fh < 256 /\ (FrameType fh = 3 \/ (FrameType fh = 0 /\ ShowFrame fh = true) -> RefreshFrameFlags fh = 255).
Proof.
  intros sh st fh fr fb H. apply parsed_ok in H. destruct H as ((_ & _ & _ & A & _ & B & C & _) & _ & _). split; [exact A|].
  intros [K|[K1 K2]]; auto.
Qed.
Print Assumptions C56_refresh_all_partial.
Theorem C56_shown_frames_refresh_everything_refuted : forall sh st fh fr fb, parsed sh st fh fr fb ->
  ShowFrame fh = true \/ FrameType fh = 0 -> RefreshFrameFlags fh = 255.
Proof. intros sh st fh fr fb H. apply parsed_ok in H. destruct H as ((_ & _ & _ & _ & _ & B & C & _) & _ & _). intros [K|K]; auto. Qed.
Print Assumptions C56_shown_frames_refresh_everything_refuted.
(** An intra-only frame, shown, of the demo sequence: refresh_frame_flags of the stream is not read, all slots are refreshed.
    Hidden intra-only frames do carry their flags: *)
Definition head_of (bytes : list Z) : option FrameHead :=
  match bind (frameType demo_sh) (frameHead demo_sh) (NewBitStream bytes) with Ok (h, _) => Some h | _ => None end.
Example C56_case : (* frame_type 10, show_frame 1 ... *) option_map RefreshFrameFlags (head_of [0xa0; 0; 0; 0]) = Some 255 /\
  option_map FrameType (head_of [0xa0; 0; 0; 0]) = Some 2 /\
  (* frame_type 10, show_frame 0, refresh_frame_flags 10100101 *) option_map RefreshFrameFlags (head_of [0x80; 0xa5; 0; 0]) = Some 0xa5.
Proof. vm_compute. auto. Qed.

(** C57: skip mode is never available, whatever the stream; order hint distances are always 0 for the header. *)
Theorem C57_skip_mode_never_present_refuted : forall sh st fh fr fb, parsed sh st fh fr fb -> SkipModePresent fb = 0.
Proof.
  intros sh st fh fr fb H. apply parsed_ok in H. destruct H as (_ & _ & (_ & _ & _ & _ & _ & _ & _ & _ & _ & _ & _ & _ & S & _)). exact S.
Qed.
Print Assumptions C57_skip_mode_never_present_refuted.
(** The distance function itself, given enabled order hints, is the standard's: the difference modulo 2^bits, in -2^(bits-1)..2^(bits-1)-1. *)
Theorem C57_relative_distance_partial : forall bits a b, 1 <= bits <= 8 -> 0 <= a < 2 ^ bits -> 0 <= b < 2 ^ bits ->
  exists d, GetRelativeDist true bits a b = Ok d /\ - 2 ^ (bits - 1) <= d < 2 ^ (bits - 1) /\ (d - (a - b)) mod 2 ^ bits = 0.
Proof.
  intros bits a b Hb Ha Hb2. unfold GetRelativeDist. cbn [negb]. destruct (Z.ltb_spec (bits - 1) 0); [lia|].
  eexists. split; [reflexivity|]. rewrite shl_small by (try lia; change (2 ^ 62) with 4611686018427387904; assert (2 ^ (bits - 1) <= 2 ^ 7) by (apply Z.pow_le_mono_r; lia); change (2 ^ 7) with 128 in *; lia).
  rewrite Z.mul_1_l. set (m := 2 ^ (bits - 1)). assert (E : 2 ^ bits = 2 * m) by (unfold m; rewrite <- Z.pow_succ_r by lia; f_equal; lia).
  assert (Hm : 0 < m) by (unfold m; apply pow2_pos; lia).
  replace (m - 1) with (Z.ones (bits - 1)) by (rewrite Z.ones_equiv; unfold m; lia). rewrite Z.land_ones by lia. fold m.
  set (x := a - b). assert (EL : Z.land x m = m * ((x / m) mod 2)).
  { unfold m. rewrite <- Z.testbit_spec' by lia. apply Z.bits_inj'. intros n Hn. rewrite Z.land_spec, Z.pow2_bits_eqb by lia.
    destruct (Z.eqb_spec (bits - 1) n) as [L|L].
    - subst n. rewrite andb_true_r. destruct (Z.testbit x (bits - 1)); cbn [Z.b2z];
        [rewrite Z.mul_1_r, Z.pow2_bits_true by lia; reflexivity|rewrite Z.mul_0_r, Z.bits_0; reflexivity].
    - rewrite andb_false_r. destruct (Z.testbit x (bits - 1)); cbn [Z.b2z];
        [rewrite Z.mul_1_r, Z.pow2_bits_false by lia; reflexivity|rewrite Z.mul_0_r, Z.bits_0; reflexivity]. }
  rewrite EL. pose proof (Z.div_mod x m ltac:(lia)). pose proof (Z.mod_pos_bound x m ltac:(lia)). pose proof (Z.mod_pos_bound (x / m) 2 ltac:(lia)).
  pose proof (Z.div_mod (x / m) 2 ltac:(lia)). set (k := x / m) in *. set (r := x mod m) in *. set (k1 := k mod 2) in *. set (k2 := k / 2) in *.
  split; [assert (k1 = 0 \/ k1 = 1) as [-> | ->] by lia; lia|].
  replace (r - m * k1 - x) with ((- (k2 + k1)) * (2 ^ bits)) by (rewrite E; nia). apply Z.mod_mul. lia.
Qed.
Print Assumptions C57_relative_distance_partial.
Example C57_example : GetRelativeDist true 3 1 7 = Ok 2 /\ GetRelativeDist true 3 7 1 = Ok (-2) /\ GetRelativeDist false 3 7 1 = Ok 0.
Proof. vm_compute. auto. Qed.

(** C58: the coded type of global motion is stored, but the parameters are always the identity. *)
Theorem C58_global_motion_always_identity_refuted : forall sh st fh fr fb, parsed sh st fh fr fb ->
  forall ref, (1 <= ref <= 7)%nat -> nth ref (GmParams fb) [] = [0; 0; 65536; 0; 0; 65536].
Proof.
  intros sh st fh fr fb H ref Hr. apply parsed_ok in H. destruct H as (_ & _ & (_ & _ & _ & _ & _ & _ & _ & _ & _ & _ & _ & _ & _ & _ & _ & G & _)). rewrite G.
  do 8 (destruct ref as [|ref]; [reflexivity || lia|]). lia.
Qed.
Print Assumptions C58_global_motion_always_identity_refuted.
(** True part: types are in 0..3 and intra frames have identity everywhere. *)
Theorem C58_global_motion_types_partial : forall sh st fh fr fb, parsed sh st fh fr fb ->
  length (GmType fb) = 8%nat /\ Forall (fun t => 0 <= t <= 3) (tl (GmType fb)) /\ (FrameIsIntra fh = true -> tl (GmType fb) = [0; 0; 0; 0; 0; 0; 0]).
Proof.
  intros sh st fh fr fb H. apply parsed_ok in H. destruct H as (_ & _ & (_ & _ & _ & _ & _ & _ & _ & _ & _ & _ & _ & _ & _ & A & B & _ & C & _)). auto.
Qed.
Print Assumptions C58_global_motion_types_partial.
Example C58_example : match globalMotionParams false 0 (NewBitStream [0xc0; 0x00]) with
  | Ok (r, _) => fst r = [0; 2; 0; 0; 0; 0; 0; 0] /\ nth 1 (snd r) [] = [0; 0; 65536; 0; 0; 65536] | _ => False end.
Proof. vm_compute. auto. Qed.

(** C59: ranges and consistency of every returned frame header *)
Theorem C59_frame_header_in_range : forall sh st fh fr fb, parsed sh st fh fr fb ->
  0 <= FrameType fh <= 3 /\ (FrameIsIntra fh = true <-> FrameType fh = 0 \/ FrameType fh = 2) /\ PrimaryRefFrame fh = 7 /\
  length (RefFrameIdx fr) = 7%nat /\ Forall (fun i => 0 <= i <= 7) (RefFrameIdx fr) /\ 0 <= InterpolationFilter fr <= 4 /\
  (AllowIntraBc fr = true -> FrameIsIntra fh = true /\ FrameWidth (Size_ fr) = UpscaledWidth (Size_ fr)) /\
  (AllowHighPrecisionMv fr = true -> ForceIntegerMv fh = false) /\
  (let q := Quant_ fb in 0 <= BaseQIdx q <= 255 /\ 0 <= Qmy q <= 15 /\ 0 <= Qmu q <= 15 /\ 0 <= Qmv q <= 15 /\
     Forall (fun d => -64 <= d <= 63) [DeltaQYDc q; DeltaQUDc q; DeltaQUAc q; DeltaQVDc q; DeltaQVAc q]) /\
  (forall i j, (i < 8)%nat -> (j < 8)%nat ->
     let e := nth j (nth i (FeatureEnabled (Seg_ fb)) []) 0 in let d := nth j (nth i (FeatureData (Seg_ fb)) []) 0 in
     (e = 0 /\ d = 0) \/ (e = 1 /\ (if seg_signed j then - seg_max j <= d <= seg_max j else 0 <= d <= seg_max j))) /\
  0 <= DeltaQRes fb <= 3 /\ (DeltaQPresent fb = true -> 0 < BaseQIdx (Quant_ fb)) /\
  (fst (fst (DeltaLf fb)) = true -> DeltaQPresent fb = true /\ AllowIntraBc fr = false) /\
  (let f := LoopFilter_ fb in length (LoopFilterLevel f) = 4%nat /\ Forall (fun v => 0 <= v <= 63) (LoopFilterLevel f) /\
     length (LoopFilterRefDeltas f) = 8%nat /\ Forall (fun v => -64 <= v <= 63) (LoopFilterRefDeltas f) /\
     length (LoopFilterModeDeltas f) = 2%nat /\ Forall (fun v => -64 <= v <= 63) (LoopFilterModeDeltas f)) /\
  (let c := Cdef_ fb in 3 <= CdefDampening c <= 6 /\ 0 <= CdefBits c <= 3 /\ Z.of_nat (length (CdefYPri c)) = 2 ^ CdefBits c /\
     Z.of_nat (length (CdefUVSec c)) = 2 ^ CdefBits c /\ Forall (fun v => 0 <= v <= 15) (CdefYPri c) /\ Forall (fun v => 0 <= v <= 15) (CdefUVPri c) /\
     Forall (fun v => v = 0 \/ v = 1 \/ v = 2 \/ v = 4) (CdefYSec c) /\ Forall (fun v => v = 0 \/ v = 1 \/ v = 2 \/ v = 4) (CdefUVSec c)) /\
  (let l := Lr_ fb in length (FrameRestorationType l) = 3%nat /\ Forall (fun t => 0 <= t <= 3) (FrameRestorationType l) /\
     (UsesLr l = true -> exists s0 s1, LoopRestorationSize l = [s0; s1; s1] /\ (s0 = 64 \/ s0 = 128 \/ s0 = 256) /\ (s1 = s0 \/ 2 * s1 = s0))) /\
  (CodedLossless (Lossless_ fb) = true -> TxMode fb = 0) /\ 0 <= TxMode fb <= 2 /\
  (let g := Grain_ fb in (length (PointY g) <= 15)%nat /\ (length (PointCb g) <= 15)%nat /\ (length (PointCr g) <= 15)%nat /\ 0 <= GrainSeed g < 65536 /\
     (length (ArCoeffsY g) <= 24)%nat /\ (length (ArCoeffsCb g) <= 25)%nat /\ (length (ArCoeffsCr g) <= 25)%nat).
Proof.
  intros sh st fh fr fb H. apply parsed_ok in H.
  destruct H as ((A1 & A2 & _) & (_ & _ & _ & _ & B1 & B2 & B3 & B4 & B5 & _) & (_ & C1 & C2 & C3 & C4 & C5 & _ & _ & C6 & C7 & C8 & C9 & _ & _ & _ & _ & _ & C10 & C11)).
  assert (FI : forall (P Q : Z -> Prop) l, (forall x : Z, P x -> Q x) -> Forall P l -> Forall Q l) by (intros P Q l K F; eapply Forall_impl; [exact K|exact F]).
  split; [lia|]. split; [exact A2|]. split; [exact C11|]. split; [exact B2|].
  split; [eapply FI; [|exact B3]; cbv beta; lia|]. split; [lia|]. split; [exact B1|]. split; [exact B4|].
  split. { destruct C1 as (Q1 & Q2 & Q3 & Q4 & Q5 & Q6 & Q7 & Q8 & Q9). unfold delta7 in *. cbv zeta.
    split; [lia|]. split; [lia|]. split; [lia|]. split; [lia|]. repeat (apply Forall_cons; [lia|]). apply Forall_nil. }
  split. { intros i j Hi Hj. cbv zeta. destruct (seg_entry_ok _ i j C2 Hi Hj) as (K & _). exact K. }
  split; [lia|]. split; [exact C4|].
  split. { destruct (DeltaLf fb) as [[p v] m]. apply C5. }
  split. { destruct C6 as (L1 & L2 & L3 & L4 & L5 & L6 & L7). unfold delta7 in *. cbv zeta. split; [exact L1|]. split; [eapply FI; [|exact L2]; cbv beta; lia|].
    split; [exact L4|]. split; [eapply FI; [|exact L5]; cbv beta; lia|]. split; [exact L6|]. eapply FI; [|exact L7]; cbv beta; lia. }
  split. { destruct C7 as (L1 & L2 & L3 & L4 & L5 & L6 & L7 & L8 & L9 & L10). cbv zeta. split; [exact L1|]. split; [exact L2|]. split; [exact L3|]. split; [exact L6|].
    split; [eapply FI; [|exact L7]; cbv beta; lia|]. split; [eapply FI; [|exact L9]; cbv beta; lia|]. split; assumption. }
  split. { destruct C8 as (L1 & L2 & _ & L4). auto. }
  split; [apply C9|]. split; [destruct C9 as [_ C9]; lia|].
  destruct C10 as (G1 & G2 & G3 & G4 & _ & _ & _ & _ & _ & _ & _ & _ & G5 & G6 & G7). cbv zeta. repeat split; lia.
Qed.
Print Assumptions C59_frame_header_in_range.

(** C60: quantizer matrix levels.  Lossless segments use 15 and luma qm_y; U and V use qm_y as well (refuted part). *)
Theorem C60_qm_levels_partial : forall sh st fh fr fb i, parsed sh st fh fr fb -> (i < 8)%nat -> UsingQMatrix (Quant_ fb) = true ->
  let m := SegQMLevel (Lossless_ fb) in
  let ll := nth i (LosslessArray (Lossless_ fb)) false in
  nth i (nth 0 m []) 0 = (if ll then 15 else Qmy (Quant_ fb)) /\ (ll = true -> nth i (nth 1 m []) 0 = 15 /\ nth i (nth 2 m []) 0 = 15).
Proof.
  intros sh st fh fr fb i H Hi Hq. apply parsed_ok in H. destruct H as (_ & _ & (_ & _ & _ & _ & _ & _ & L & _)). cbv zeta. rewrite L.
  unfold lossless_spec. cbn [SegQMLevel LosslessArray]. rewrite Hq.
  do 8 (destruct i as [|i]; [cbn; split; [reflexivity|intros ->; auto]|]). lia.
Qed.
Print Assumptions C60_qm_levels_partial.
Theorem C60_chroma_uses_luma_level_refuted : forall sh st fh fr fb i, parsed sh st fh fr fb -> (i < 8)%nat -> UsingQMatrix (Quant_ fb) = true ->
  let m := SegQMLevel (Lossless_ fb) in
  nth i (LosslessArray (Lossless_ fb)) false = false -> nth i (nth 1 m []) 0 = Qmy (Quant_ fb) /\ nth i (nth 2 m []) 0 = Qmy (Quant_ fb).
Proof.
  intros sh st fh fr fb i H Hi Hq. apply parsed_ok in H. destruct H as (_ & _ & (_ & _ & _ & _ & _ & _ & L & _)). cbv zeta. rewrite L.
  unfold lossless_spec. cbn [SegQMLevel LosslessArray]. rewrite Hq.
  do 8 (destruct i as [|i]; [cbn; intros ->; auto|]). lia.
Qed.
Print Assumptions C60_chroma_uses_luma_level_refuted.
Example C60_example : match snd demo_parts with
  | Some fb => UsingQMatrix (Quant_ fb) = true /\ Qmy (Quant_ fb) = 5 /\ Qmu (Quant_ fb) = 6 /\ nth 1 (SegQMLevel (Lossless_ fb)) [] = repeat 5 8
  | None => False end.
Proof. vm_compute. auto. Qed.

(** C61: a sequence that forces screen content tools off (seq_force_screen_content_tools = 0) has them on in every frame, and a
    sequence that forces integer motion vectors off has them on in every frame. *)
Lemma head_sct sh ft s fh s' : frameHead sh ft s = Ok (fh, s') -> SeqForceScreenContentTools sh <> 2 ->
  AllowScreenContentTools fh = 1 /\ (SeqForceIntegerMv sh <> 2 -> ForceIntegerMv fh = true).
Proof.
  destruct ft as [[[[[ty intra] show] showable] er] t]. unfold frameHead. intros E H.
  destruct (Z.eqb_spec (SeqForceScreenContentTools sh) 2); [contradiction|].
  apply bind_inv in E. destruct E as (d & s1 & _ & E). rewrite (bind_ok (ret 1) _ _ _ _ eq_refl) in E. change (bool_of 1) with true in E. cbv iota in E.
  apply bind_inv in E. destruct E as (imv & s2 & E1 & E). cbv zeta in E.
  do 7 (apply bind_inv in E; destruct E as (? & ? & _ & E)). injection E as <- _. cbn [AllowScreenContentTools ForceIntegerMv].
  split; [reflexivity|]. intros H2. destruct (Z.eqb_spec (SeqForceIntegerMv sh) 2); [contradiction|]. injection E1 as <- _. destruct intra; reflexivity.
Qed.
Lemma parsed_sct sh st fh fr fb : parsed sh st fh fr fb -> SeqForceScreenContentTools sh <> 2 ->
  AllowScreenContentTools fh = 1 /\ (SeqForceIntegerMv sh <> 2 -> ForceIntegerMv fh = true).
Proof.
  intros (s0 & idc & s1 & s & st' & s' & _ & _ & _ & E) H.
  assert (K : forall ft s2 r, (let* fh := frameHead sh ft in
    let* fr := if FrameIsIntra fh then intraRefs sh fh else interRefs sh fh st in
    let* fb := frameBody sh st fh fr in ret (UFrame fh fr fb, afterHeader st fr fb)) s2 = Ok ((UFrame fh fr fb, st'), r) ->
    AllowScreenContentTools fh = 1 /\ (SeqForceIntegerMv sh <> 2 -> ForceIntegerMv fh = true)).
  { intros ft s2 r E2. apply bind_inv in E2. destruct E2 as (fh' & s3 & E3 & E2). apply head_sct in E3; [|assumption].
    apply bind_inv in E2. destruct E2 as (fr' & s4 & _ & E2). apply bind_inv in E2. destruct E2 as (fb' & s5 & _ & E2). injection E2 as <- <- <- _ _. apply E3. }
  unfold NewUncompressedHeader in E. cbv zeta in E. destruct (ReducedStillPictureHeader sh); [exact (K _ _ _ E)|].
  apply bind_inv in E. destruct E as (b & s2 & _ & E). destruct b.
  - apply bind_inv in E. destruct E as (e & s3 & _ & E). discriminate.
  - apply bind_inv in E. destruct E as (ft & s3 & _ & E). exact (K _ _ _ E).
Qed.
(** True part: forced on is on. *)
Theorem C61_forced_on_partial : forall sh st fh fr fb, parsed sh st fh fr fb -> SeqForceScreenContentTools sh = 1 ->
  AllowScreenContentTools fh = 1 /\ (SeqForceIntegerMv sh = 1 -> ForceIntegerMv fh = true).
Proof. intros sh st fh fr fb H E. destruct (parsed_sct _ _ _ _ _ H ltac:(lia)) as [A B]. split; [exact A|]. intros; apply B; lia. Qed.
Print Assumptions C61_forced_on_partial.
(** Refuted: forced off is on as well. *)
Theorem C61_forced_off_is_on_refuted : forall sh st fh fr fb, parsed sh st fh fr fb ->
  (SeqForceScreenContentTools sh = 0 -> AllowScreenContentTools fh = 1) /\
  (SeqForceScreenContentTools sh = 1 -> SeqForceIntegerMv sh = 0 -> ForceIntegerMv fh = true).
Proof. intros sh st fh fr fb H. split; intros E; [|intros E2]; destruct (parsed_sct _ _ _ _ _ H ltac:(lia)) as [A B]; [exact A|apply B; lia]. Qed.
Print Assumptions C61_forced_off_is_on_refuted.
Example C61_example : SeqForceScreenContentTools demo_sh = 0 /\ AllowScreenContentTools (fst (fst demo_parts)) = 1.
Proof. vm_compute. auto. Qed.

(** C62 *)
Theorem C62_delta_params_roundtrip : forall base r s, match r with Some v => 0 <= v < 4 | None => True end -> (base <= 0 -> r = None) ->
  starts s (enc_delta_q_params base r) ->
  deltaQParams base s = Ok (match r with Some v => (true, v) | None => (false, 0) end, adv s (Z.of_nat (length (enc_delta_q_params base r)))).
Proof. intros. apply parses_delta_q_params; assumption. Qed.
Print Assumptions C62_delta_params_roundtrip.
Theorem C62_delta_lf_roundtrip : forall dqp ibc r s, match r with Some (v, _) => 0 <= v < 4 | None => True end ->
  (dqp = false \/ ibc = true -> r = None) -> starts s (enc_delta_lf_params dqp ibc r) ->
  deltaLfParams dqp ibc s = Ok (match r with Some (v, m) => (true, v, if m : bool then 1 else 0) | None => (false, 0, 0) end,
    adv s (Z.of_nat (length (enc_delta_lf_params dqp ibc r)))).
Proof.
  intros dqp ibc r s H1 H2 H3. rewrite (parses_delta_lf_params dqp ibc r H1 H2 s H3). destruct r as [[v m]|]; [destruct m|]; reflexivity.
Qed.
Print Assumptions C62_delta_lf_roundtrip.
Example C62_case : deltaQParams 100 (NewBitStream [0xe0]) = Ok ((true, 3), mkBS [0xe0] 3 0) /\
  enc_delta_q_params 100 (Some 3) = [true; true; true] /\ enc_delta_q_params 0 None = [] /\
  deltaLfParams true false (NewBitStream [0xd0]) = Ok ((true, 2, 1), mkBS [0xd0] 4 0) /\ enc_delta_lf_params true false (Some (2, true)) = [true; true; false; true].
Proof. vm_compute. auto 8. Qed.
