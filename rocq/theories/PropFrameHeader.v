(** Property C94: the whole frame header of key and intra-only frames. *)
From Verif Require Import GoBase Bitstream SpecBits SpecStream BitstreamProofs ReaderOps Parses SafeParse Yields Util UtilProofs
  Constants Tables Header SequenceHeader PropSequence SymbolProofs TileInfo SpecTiles TileInfoProofs SpecHeader SpecFrameHeader UncompressedHeader
  UHeaderProofs UHeaderGood UHeaderWhole FrameHeaderProofs.
From Verif Require PropHeader.

(** Every sequence header the decoder accepts satisfies [seq_ok]. *)
Theorem C94_accepted_sequences : forall s sh idc s', 0 <= Position s -> NewSequenceHeader s = Ok (sh, idc, s') -> seq_ok sh.
Proof.
  intros s sh idc s' H0 E. pose proof (C45_returned_header_consistent s sh idc s' H0 E) as (_ & _ & _ & _ & _ & A & _ & B & _).
  destruct (PropHeader.accepted_bounds s sh idc s' H0 E) as [C _].
  assert (K : 0 <= FramePresentationTimeLengthMinusOne (DecoderModel sh) /\ NumPlanes (Color sh) = if MonoChrome (Color sh) then 1 else 3).
  { refine (proj2 ((_ : yields NewSequenceHeader (fun r => 0 <= FramePresentationTimeLengthMinusOne (DecoderModel (fst r)) /\
      NumPlanes (Color (fst r)) = if MonoChrome (Color (fst r)) then 1 else 3)) s (sh, idc) s' H0 E)).
    clear. unfold NewSequenceHeader. do 4 yb.
    eapply y_bind with (Q := fun tp => 0 <= FramePresentationTimeLengthMinusOne (tp_dm tp)).
    { apply y_if; intros _; [apply y_ret; cbn; lia|]. unfold timingPart. yb. apply y_if; intros _; [|apply y_ret; cbn; lia].
      eapply y_bind; [apply yields_any_safe; unfold NewTimingInfo; safet|]. intros ti _. yb.
      eapply y_bind with (Q := fun dm => 0 <= FramePresentationTimeLengthMinusOne dm).
      { apply y_if; intros _; [|apply y_ret; cbn; lia]. do 4 yb. apply y_ret. cbn [FramePresentationTimeLengthMinusOne]. lia. }
      intros dm Hdm. yb. yb. eapply y_bind; [apply yields_any_safe; unfold operatingPoint, operatingParametersInfo; safet|]. intros ops _.
      apply y_ret. exact Hdm. }
    intros tp Htp.
    eapply y_bind; [apply yields_any_safe; safet|]. intros idc _.
    eapply y_bind; [apply yields_any_safe; unfold sizeToolPart; safet|]. intros st _.
    do 3 yb.
    eapply y_bind with (Q := fun cc => NumPlanes cc = if MonoChrome cc then 1 else 3).
    { unfold NewColorConfig. eapply y_bind; [apply yields_any_safe; unfold readBitDepth; safet|]. intros [[hb tb] bd] _.
      eapply y_bind; [apply yields_any_safe; safet|]. intros mono _. yb.
      eapply y_bind; [apply yields_any_safe; safet|]. intros cp _. eapply y_bind; [apply yields_any_safe; safet|]. intros tc _.
      eapply y_bind; [apply yields_any_safe; safet|]. intros mc _.
      destruct mono. { yb. apply y_ret. reflexivity. }
      apply y_if; intros _. { yb. apply y_ret. reflexivity. }
      yb. eapply y_bind; [apply yields_any_safe; safet|]. intros sx _. eapply y_bind; [apply yields_any_safe; safet|]. intros sy _.
      eapply y_bind; [apply yields_any_safe; safet|]. intros csp _. yb. apply y_ret. reflexivity. }
    intros cc Hcc. yb. apply y_ret. split; [exact Htp|exact Hcc]. }
  destruct K as [K1 K2]. unfold seq_ok. split; [exact K1|]. split; [exact C|]. split; [lia|]. split; [lia|exact K2].
Qed.
Print Assumptions C94_accepted_sequences.

(** The whole header.  Any key frame or intra-only frame [f] that satisfies [supported] (no frame ids, screen content tools not
    forced off, key frames shown and intra-only frames hidden), coded as in AV1 5.9.2 except that loop_filter_sharpness has 6 bits,
    with any tile_info( ) bits that the tile decoder understands, decodes to the values that were coded, whatever the decoder state. *)
Theorem C94_intra_header_partial : forall sh st f s tb tiles, seq_ok sh -> valid_intra (info sh) f -> supported sh f -> St_GmType st <> [] ->
  let i := info sh in let cols := 2 * ((width i f + 7) / 8) in let rows := 2 * ((height i f + 7) / 8) in
  parses (NewTileInfo (Use128x128SuperBlock sh) cols rows (TileSizeBytes (St_Tiles st))) tb tiles ->
  starts s (enc_intra 6 i f tb) ->
  exists fh fr fb st', NewUncompressedHeader sh st s = Ok (UFrame fh fr fb, st', adv s (Z.of_nat (length (enc_intra 6 i f tb)))) /\
    (* frame type and flags *)
    FrameType fh = (if f_key f then 0 else 2) /\ FrameIsIntra fh = true /\ ShowFrame fh = f_show f /\ ShowableFrame fh = f_showable f /\
    (i_reduced i = false -> ErrorResilientMode fh = (f_key f && f_show f) || f_resilient f) /\
    (forall n, i_time_bits i = Some n -> i_reduced i = false -> f_show f = true -> FramePresentationTime fh = f_time f) /\
    DisableCdfUpdate fh = f_disable_cdf f /\ AllowScreenContentTools fh = b2z (sct i f) /\ OrderHint fh = f_hint f /\
    PrimaryRefFrame fh = 7 /\ RefreshFrameFlags fh = f_refresh f /\
    (* sizes *)
    UpscaledWidth (Size_ fr) = up_width i f /\ FrameWidth (Size_ fr) = width i f /\ FrameHeight (Size_ fr) = height i f /\
    MiCols (Size_ fr) = cols /\ MiRows (Size_ fr) = rows /\
    (forall wh, f_render f = Some wh -> Render fr = wh) /\ (f_render f = None -> fst (Render fr) = up_width i f) /\ AllowIntraBc fr = f_intrabc f /\
    (* tools *)
    DisableFrameEndUpdateCdf fb = f_no_end_update f /\ TileInfo_ fb = tiles /\
    BaseQIdx (Quant_ fb) = sq_base (f_quant f) /\ DeltaQYDc (Quant_ fb) = dq (sq_ydc (f_quant f)) /\
    (i_mono i = false -> DeltaQUDc (Quant_ fb) = dq (sq_udc (f_quant f)) /\ DeltaQUAc (Quant_ fb) = dq (sq_uac (f_quant f)) /\
       DeltaQVDc (Quant_ fb) = (if sq_diff (f_quant f) then dq (sq_vdc (f_quant f)) else dq (sq_udc (f_quant f))) /\
       DeltaQVAc (Quant_ fb) = (if sq_diff (f_quant f) then dq (sq_vac (f_quant f)) else dq (sq_uac (f_quant f)))) /\
    SegmentationEnabled (Seg_ fb) = (match f_seg f with Some _ => true | None => false end) /\
    (DeltaQPresent fb, DeltaQRes fb) = (match f_dq f with Some v => (true, v) | None => (false, 0) end) /\
    DeltaLf fb = (match f_dlf f with Some (v, m) => (true, v, b2z m) | None => (false, 0, 0) end) /\
    CodedLossless (Lossless_ fb) = coded_lossless i f /\ AllLossless fb = coded_lossless i f && (width i f =? up_width i f) /\
    (lf_coded i f = true -> LoopFilterLevel (LoopFilter_ fb) = [lf_l0 (f_lf f); lf_l1 (f_lf f);
         if negb (i_mono i) && negb ((lf_l0 (f_lf f) =? 0) && (lf_l1 (f_lf f) =? 0)) then lf_l2 (f_lf f) else 0;
         if negb (i_mono i) && negb ((lf_l0 (f_lf f) =? 0) && (lf_l1 (f_lf f) =? 0)) then lf_l3 (f_lf f) else 0] /\
       LoopFilterSharpness (LoopFilter_ fb) = lf_sharp (f_lf f)) /\
    (forall d b l, f_cdef f = (d, b, l) -> cdef_coded i f = true -> CdefDampening (Cdef_ fb) = d /\ CdefBits (Cdef_ fb) = b /\
       combine (combine (CdefYPri (Cdef_ fb)) (CdefYSec (Cdef_ fb))) (combine (CdefUVPri (Cdef_ fb)) (CdefUVSec (Cdef_ fb))) = l) /\
    (forall ty size half, f_lr f = (ty, size, half) -> lr_coded i f = true -> firstn (length ty) (FrameRestorationType (Lr_ fb)) = ty /\
       (UsesLr (Lr_ fb) = true -> nth 0 (LoopRestorationSize (Lr_ fb)) 0 = size)) /\
    TxMode fb = (if coded_lossless i f then 0 (* ONLY_4X4 *) else if f_tx_select f then 2 (* TX_MODE_SELECT *) else 1 (* TX_MODE_LARGEST *)) /\
    ReferenceSelect fb = false /\ SkipModePresent fb = 0 /\ AllowWarpedMotion fb = false /\ ReducedTxSet fb = f_reduced_tx f /\
    ApplyGrain (Grain_ fb) = (match f_grain f with Some _ => true | None => false end) /\
    (forall g, f_grain f = Some g -> GrainSeed (Grain_ fb) = gr_seed g) /\
    (* decoder state *)
    St_MiCols st' = cols /\ St_MiRows st' = rows /\ St_Tiles st' = tiles /\
    St_PrevSegmentIds st' = repeat (repeat 0 (Z.to_nat cols)) (Z.to_nat rows) /\
    St_RefFrameType st' = St_RefFrameType st /\ St_RefOrderHint st' = St_RefOrderHint st.
Proof.
  intros sh st f s tb tiles Hs HV HU HG i cols rows HT HB. destruct (St_GmType st) as [|gt gts] eqn:EG; [congruence|].
  pose proof (parses_header sh st f gt gts tb tiles Hs HV HU EG HT s HB) as P. fold i in P.
  exists (exp_head i f), (exp_refs i f), (exp_body i f st gt tiles), (exp_state i f st gt tiles). split; [exact P|]. clear P.
  pose proof HV as (_ & _ & _ & _ & _ & _ & _ & _ & _ & _ & _ & _ & V13 & V14 & _ & _ & _ & _ & V19 & _). fold i in V13, V19.
  cbn [FrameType FrameIsIntra ShowFrame ShowableFrame ErrorResilientMode FramePresentationTime DisableCdfUpdate AllowScreenContentTools OrderHint PrimaryRefFrame
    RefreshFrameFlags exp_head Size_ exp_refs exp_size UpscaledWidth FrameWidth FrameHeight MiCols MiRows Render AllowIntraBc
    DisableFrameEndUpdateCdf TileInfo_ exp_body Quant_ Seg_ DeltaQPresent DeltaQRes DeltaLf Lossless_ AllLossless LoopFilter_ Cdef_ Lr_ TxMode ReferenceSelect
    SkipModePresent AllowWarpedMotion ReducedTxSet Grain_ exp_state afterHeader St_MiCols St_MiRows St_Tiles St_PrevSegmentIds St_RefFrameType St_RefOrderHint].
  split; [reflexivity|]. split; [reflexivity|]. split; [reflexivity|]. split; [reflexivity|].
  split. { intros ->. destruct (f_key f), (f_show f); reflexivity. }
  split. { intros n -> -> ->. reflexivity. }
  split; [reflexivity|]. split; [reflexivity|]. split; [reflexivity|]. split; [reflexivity|]. split; [reflexivity|].
  split; [reflexivity|]. split; [reflexivity|]. split; [reflexivity|]. split; [reflexivity|]. split; [reflexivity|].
  split. { intros wh ->. reflexivity. }
  split. { intros ->. reflexivity. }
  split; [reflexivity|]. split; [reflexivity|]. split; [reflexivity|].
  assert (EQ : BaseQIdx (exp_quant i f) = sq_base (f_quant f) /\ DeltaQYDc (exp_quant i f) = dq (sq_ydc (f_quant f)) /\
    (i_mono i = false -> DeltaQUDc (exp_quant i f) = dq (sq_udc (f_quant f)) /\ DeltaQUAc (exp_quant i f) = dq (sq_uac (f_quant f)) /\
       DeltaQVDc (exp_quant i f) = (if sq_diff (f_quant f) then dq (sq_vdc (f_quant f)) else dq (sq_udc (f_quant f))) /\
       DeltaQVAc (exp_quant i f) = (if sq_diff (f_quant f) then dq (sq_vac (f_quant f)) else dq (sq_uac (f_quant f))))).
  { unfold exp_quant, decoded_quant, planes.
    destruct (sq_qm (f_quant f)) as [[[a b] c]|]; cbn [BaseQIdx DeltaQYDc DeltaQUAc DeltaQUDc DeltaQVAc DeltaQVDc];
      (split; [reflexivity|]; split; [reflexivity|]; intros ->; auto). }
  destruct EQ as (E1 & E2 & E3). split; [exact E1|]. split; [exact E2|]. split; [exact E3|].
  split. { unfold exp_seg. destruct (f_seg f); reflexivity. }
  split. { destruct (f_dq f); reflexivity. }
  split; [reflexivity|]. split; [apply (coded_lossless_ok i f V13 V14)|]. split; [reflexivity|].
  split. { intros L. unfold exp_lf. rewrite L. unfold decoded_lf. cbn [LoopFilterLevel LoopFilterSharpness]. unfold planes.
    destruct (i_mono i); split; reflexivity. }
  split. { intros d b l EC L. unfold exp_cdef. rewrite L, EC. cbn [CdefDampening CdefBits CdefYPri CdefYSec CdefUVPri CdefUVSec].
    split; [reflexivity|]. split; [reflexivity|]. clear. induction l as [|[[a b] [c d]] l IH]; cbn; [reflexivity|]. rewrite IH. reflexivity. }
  split. { intros ty size half EC L. unfold exp_lr. rewrite L, EC. rewrite EC in V19. unfold lr_decoded. cbn [FrameRestorationType UsesLr LoopRestorationSize].
    split. { rewrite firstn_app, firstn_all, Nat.sub_diag. cbn. apply app_nil_r. }
    intros ->. reflexivity. }
  split; [reflexivity|]. split; [reflexivity|]. split; [reflexivity|]. split; [reflexivity|]. split; [reflexivity|].
  split. { unfold exp_grain. destruct (f_grain f); reflexivity. }
  split. { intros g Eg. unfold exp_grain. rewrite Eg. reflexivity. }
  split; [reflexivity|]. split; [reflexivity|]. split; [reflexivity|]. split; [reflexivity|]. split; reflexivity.
Qed.
Print Assumptions C94_intra_header_partial.

(** Tiles: a frame at most 64 samples high and 4096 wide (64x64 superblocks) with uniformly spaced tile columns. *)
Theorem C94_tiles_one_row : forall miCols miRows old k ctx bytes, 1 <= miCols <= 1024 -> 1 <= miRows <= 16 ->
  let sbCols := (miCols + 15) / 16 in Z.of_nat k <= Z.log2_up sbCols ->
  (0 < Z.of_nat k -> 0 <= ctx < 2 ^ Z.of_nat k /\ 1 <= bytes <= 4) ->
  exists tiles, parses (NewTileInfo false miCols miRows old) (enc_tiles_one_row sbCols k ctx bytes) tiles /\
    TileColsLog2 tiles = Z.of_nat k /\ TileRowsLog2 tiles = 0 /\ 1 <= TileCols tiles <= 2 ^ Z.of_nat k /\ TileRows tiles = 1 /\
    partitions (MiColStarts tiles) (TileCols tiles) miCols 16 /\ partitions (MiRowStarts tiles) 1 miRows 16 /\
    ContextUpdateTileId tiles = (if 0 <? Z.of_nat k then ctx else 0) /\ TileSizeBytes tiles = (if 0 <? Z.of_nat k then bytes else old).
Proof. exact parses_tiles_one_row. Qed.
Print Assumptions C94_tiles_one_row.

(** A concrete case: a 352x288 sequence (screen content tools chosen per frame, order hints of 7 bits, super-resolution, CDEF, loop
    restoration, film grain), and in it a hidden intra-only frame of 256x64 with super-resolution, two tile columns, segmentation,
    delta Q, delta LF, loop filter, CDEF, restoration and film grain. *)
Definition case_sh_bytes : list Z := [0; 17; 21; 248; 248; 4; 247; 1; 128].
Definition case_sh : SequenceHeader := Eval vm_compute in
  match NewSequenceHeader (NewBitStream case_sh_bytes) with Ok (sh, _, _) => sh | _ => PropHeader.demo_sh end.
Definition case_frame : intra_frame :=
  mkIntraFrame false false true false 0 false true true (Some (256, 64)) 77 170 (Some 10) (Some (300, 70)) false false
    (mkSpecQuant 100 (Some (-3)) false None (Some 5) None None (Some (3, 4, 4)))
    (Some ([Some (-20); None; None; None; None; Some 2; None; None] :: repeat (repeat None 8) 7))
    (Some 1) (Some (2, true)) (mkSpecLf 10 11 5 6 3 None)
    (4, 1, [(3, 4, (2, 1)); (15, 0, (0, 2))]) ([1; 0; 3], 128, true) true false
    (Some (mkSpecGrain 4711 [(10, 20)] true [] [] 2 0 [] [7] [8] 1 0 (0, 0, 0) (0, 0, 0) true false)).
Example C94_case : (exists idc s', NewSequenceHeader (NewBitStream case_sh_bytes) = Ok (case_sh, idc, s')) /\
  valid_intra (info case_sh) case_frame /\ supported case_sh case_frame /\ St_GmType zeroHState <> [] /\
  width (info case_sh) case_frame = 205 /\ sct (info case_sh) case_frame = true /\ coded_lossless (info case_sh) case_frame = false /\
  length (enc_intra 6 (info case_sh) case_frame (enc_tiles_one_row 4 1 1 2)) = 339%nat.
Proof.
  split. { eexists. eexists. vm_compute. reflexivity. }
  split. { unfold valid_intra, fits. repeat match goal with |- _ /\ _ => split end; try (vm_compute; congruence); try (cbn; lia); try exact I; try (cbn; intuition lia).
    all: cbn; unfold valid_sec, valid_lr, valid_segmentation; repeat (apply Forall_cons || apply Forall_nil || match goal with |- _ /\ _ => split end); cbn; unfold valid_sec; try lia; try (intuition lia); try discriminate; auto.
    1, 2: vm_compute; reflexivity.
    all: unfold valid_quant, valid_lf, valid_grain, valid_delta_q, byte, point_ok; cbn; repeat (apply Forall_cons || apply Forall_nil || match goal with |- _ /\ _ => split end); cbn; unfold byte; try lia; try discriminate; auto. }
  split; [|split; [discriminate|]].
  { unfold supported. cbn. split; [reflexivity|]. split; [discriminate|]. split; [reflexivity|]. discriminate. }
  vm_compute. auto.
Qed.
