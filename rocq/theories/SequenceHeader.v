(** Model of internal/sequenceheader/sequence_header.go.
    The only effect on the decoder state is the assignment to state.OperatingPointIdc; it is
    returned as the second component (None = not assigned). *)
From Verif Require Import GoBase Bitstream.

(** sequence_header.go:60-65 *)
Record TimingInfo := mkTimingInfo {
  NumUnitsInDisplayTick : Z; TimeScale : Z; EqualPictureInterval : bool; NumTicksPerMinuteMinusOne : Z }.
(** sequence_header.go:67-72 *)
Record DecoderModelInfo := mkDecoderModelInfo {
  BufferDelayLengthMinusOne : Z; NumUnitsInDecodingTick : Z;
  BufferRemovalTimeLengthMinusOne : Z; FramePresentationTimeLengthMinusOne : Z }.
(** sequence_header.go:74-91 *)
Record ColorConfig := mkColorConfig {
  HighBitDepth : bool; TwelveBit : bool; MonoChrome : bool; ColorDescriptionPresent : bool;
  ColorPrimaries : Z; TransferCharacteristics : Z; MatrixCoefficients : Z;
  ColorRange : bool; SubsamplingX : bool; SubsamplingY : bool;
  ChromaSamplePosition : Z; SeparateUvDeltaQ : bool; NumPlanes : Z; BitDepth : Z }.

(** sequence_header.go:13-58.  DecoderBufferDelay, EncoderBufferDelay and LowDelayModeFlag are nil
    slices that are never allocated: the only code that indexes them panics. SeqChooseIntegerMv is
    never assigned and is left out, as is the per-sequence OperatingPointIdc slice (never assigned). *)
Record SequenceHeader := mkSequenceHeader {
  SeqProfile : Z; StillPicture : bool; ReducedStillPictureHeader : bool;
  Timing : TimingInfo; DecoderModelInfoPresent : bool; DecoderModel : DecoderModelInfo;
  InitialDisplayDelayPresent : bool; OperatingPointsCountMinusOne : Z;
  SeqLevelIdx : list Z; SeqTier : list Z; DecoderModelPresentForThisOp : list bool;
  InitialDisplayDelayPresentForThisOp : list bool; InitialDisplayDelayMinusOne : list Z;
  FrameWidthBitsMinusOne : Z; FrameHeightBitsMinusOne : Z;
  MaxFrameWidthMinusOne : Z; MaxFrameHeightMinusOne : Z;
  FrameIdNumbersPresent : bool; AdditionalFrameIdLengthMinusOne : Z; DeltaFrameIdLengthMinusTwo : Z;
  Use128x128SuperBlock : bool; EnableFilterIntra : bool; EnableIntraEdgeFilter : bool;
  EnableInterIntraCompound : bool; EnableMaskedCompound : bool; EnableWarpedMotion : bool;
  EnableOrderHint : bool; EnableDualFilter : bool; EnableJntComp : bool; EnableRefFrameMvs : bool;
  SeqChooseScreenContentTools : bool; SeqForceScreenContentTools : Z; SeqForceIntegerMv : Z;
  OrderHintBits : Z; EnableSuperRes : bool; EnableCdef : bool; EnableRestoration : bool;
  Color : ColorConfig; FilmGrainParamsPresent : bool }.

(** sequence_header.go:254-272 NewTimingInfo *)
Definition NewTimingInfo : BS TimingInfo :=
  let* numUnitsInDisplayTick := F 32 in
  let* timeScale := F 32 in
  let* equalPictureInterval := Fbool in
  let* ticks := if equalPictureInterval then Uvlc else ret 0 in
  ret (mkTimingInfo numUnitsInDisplayTick timeScale equalPictureInterval ticks).

(** sequence_header.go:276-290 (bit depth part of NewColorConfig); for profiles above 2 BitDepth stays 0 *)
Definition readBitDepth (seqProfile : Z) : BS (bool * bool * Z) :=
  let* highBitDepth := Fbool in
  if (seqProfile =? 2) && highBitDepth then
    let* twelveBit := Fbool in
    ret (highBitDepth, twelveBit, if twelveBit then 12 else 10)
  else if seqProfile <=? 2 then ret (highBitDepth, false, if highBitDepth then 10 else 8)
  else ret (highBitDepth, false, 0).

(** sequence_header.go:274-361 NewColorConfig *)
Definition NewColorConfig (seqProfile : Z) : BS ColorConfig :=
  let* bd := readBitDepth seqProfile in
  let '(highBitDepth, twelveBit, bitDepth) := bd in
  let* monoChrome := if negb (seqProfile =? 1) then Fbool else ret false in
  let numPlanes := if monoChrome then 1 else 3 in
  let* colorDescriptionPresent := Fbool in
  let* cp := if colorDescriptionPresent then F 8 else ret 2 in
  let* tc := if colorDescriptionPresent then F 8 else ret 2 in
  let* mc := if colorDescriptionPresent then F 8 else ret 2 in
  if monoChrome then
    let* colorRange := Fbool in
    ret (mkColorConfig highBitDepth twelveBit monoChrome colorDescriptionPresent cp tc mc
           colorRange true true 0 false numPlanes bitDepth)
  else if (cp =? 1) && (tc =? 13) && (mc =? 0) then
    let* separate := Fbool in
    ret (mkColorConfig highBitDepth twelveBit monoChrome colorDescriptionPresent cp tc mc
           true false false 0 separate numPlanes bitDepth)
  else
    let* colorRange := Fbool in
    let* sx := if seqProfile =? 0 then ret true else if seqProfile =? 1 then ret false
               else if bitDepth =? 12 then Fbool else ret true in
    let* sy := if seqProfile =? 0 then ret true else if seqProfile =? 1 then ret false
               else if bitDepth =? 12 then (if sx then Fbool else ret false) else ret false in
    let* csp := if sx && sy then F 2 else ret 0 in
    let* separate := Fbool in
    ret (mkColorConfig highBitDepth twelveBit monoChrome colorDescriptionPresent cp tc mc
           colorRange sx sy csp separate numPlanes bitDepth).

(** The slices filled by the operating point loop, sequence_header.go:110-118. *)
Record OpState := mkOpState {
  op_idc : list Z; op_level : list Z; op_tier : list Z; op_dmp : list bool;
  op_iddp : list bool; op_idd : list Z }.

(** sequence_header.go:364-370 operatingParametersInfo: the first assignment indexes a nil slice,
    after the right hand side has been read. *)
Definition operatingParametersInfo (bufferDelayLengthMinusOne : Z) : BS unit :=
  let* _ := F (bufferDelayLengthMinusOne + 1) in panic.

(** sequence_header.go:139-165, one iteration of the operating point loop *)
Definition operatingPoint (decoderModelInfoPresent initialDisplayDelayPresent : bool) (bdl : Z)
  (i : Z) (o : OpState) : BS OpState :=
  let* x := F 12 in
  let* idc := lift (upd (op_idc o) i x) in
  let* l := F 12 in
  let* level := lift (upd (op_level o) i l) in
  let* t := if 7 <? l then F 1 else ret 0 in
  let* tier := lift (upd (op_tier o) i t) in
  let* p := if decoderModelInfoPresent then Fbool else ret false in
  let* dmp := lift (upd (op_dmp o) i p) in
  (if p then operatingParametersInfo bdl else ret tt) ;;
  if initialDisplayDelayPresent then
    let* q := Fbool in
    let* iddp := lift (upd (op_iddp o) i q) in
    if q then
      let* d := F 4 in
      let* idd := lift (upd (op_idd o) i d) in
      ret (mkOpState idc level tier dmp iddp idd)
    else ret (mkOpState idc level tier dmp iddp (op_idd o))
  else ret (mkOpState idc level tier dmp (op_iddp o) (op_idd o)).

(** What sequence_header.go:122-166 leaves behind. *)
Record TimingPart := mkTimingPart {
  tp_timing : TimingInfo; tp_dmp : bool; tp_dm : DecoderModelInfo; tp_iddp : bool; tp_cnt : Z; tp_ops : OpState }.
Definition zeroTiming := mkTimingInfo 0 0 false 0.
Definition zeroModel := mkDecoderModelInfo 0 0 0 0.

(** sequence_header.go:121-166 (sic: the decoder model and operating point syntax is nested inside
    timing_info_present_flag) *)
Definition timingPart (level : Z) : BS TimingPart :=
  let ops0 := mkOpState [0] [level] [0] [false] [false] [] in
  let* timingInfoPresent := Fbool in
  if timingInfoPresent then
    let* ti := NewTimingInfo in
    let* dmp := Fbool in
    let* dm := if dmp then
                 let* a := F 5 in let* b := F 32 in let* c := F 5 in let* d := F 5 in
                 ret (mkDecoderModelInfo a b c d)
               else ret zeroModel in
    let* iddp := Fbool in
    let* cnt := F 5 in
    let* ops := for_to 0 (cnt + 1) (operatingPoint dmp iddp (BufferDelayLengthMinusOne dm)) ops0 in
    ret (mkTimingPart ti dmp dm iddp cnt ops)
  else ret (mkTimingPart zeroTiming false zeroModel false 0 ops0).

(** What sequence_header.go:168-244 reads. *)
Record SizeToolPart := mkSizeToolPart {
  st_wb : Z; st_hb : Z; st_w : Z; st_h : Z; st_idp : bool; st_delta : Z; st_add : Z;
  st_128 : bool; st_fi : bool; st_ief : bool; st_ii : bool; st_masked : bool; st_warped : bool;
  st_oh : bool; st_dual : bool; st_jnt : bool; st_rmv : bool;
  st_choose : bool; st_sct : Z; st_imv : Z; st_ohb : Z }.

(** sequence_header.go:171-244; ReducedStillPictureHeader is false in this branch *)
Definition sizeToolPart : BS SizeToolPart :=
  let* wb := F 4 in
  let* hb := F 4 in
  let* w := F (wb + 1) in
  let* h := F (hb + 1) in
  let* idp := Fbool in
  let* delta := if idp then F 4 else ret 0 in
  let* add := if idp then F 3 else ret 0 in
  let* b128 := Fbool in
  let* fi := Fbool in
  let* ief := Fbool in
  let* ii := Fbool in
  let* masked := Fbool in
  let* warped := Fbool in
  let* dual := Fbool in
  let* oh := Fbool in
  let* jnt := if oh then Fbool else ret false in
  let* rmv := if oh then Fbool else ret false in
  let* choose := Fbool in
  let* sct := if choose then ret 2 else F 1 in
  let* imv := if 0 <? sct then
                let* chooseImv := Fbool in
                if chooseImv then ret 2 else F 1
              else ret 2 in
  let* ohb := if oh then (let* x := F 3 in ret (x + 1)) else ret 0 in
  ret (mkSizeToolPart wb hb w h idp delta add b128 fi ief ii masked warped oh dual jnt rmv choose sct imv ohb).

(** sequence_header.go:101-252 NewSequenceHeader *)
Definition NewSequenceHeader : BS (SequenceHeader * option Z) :=
  let* profile := F 3 in
  let* still := Fbool in
  let* reduced := Fbool in
  let* level := F 5 in
  let* tp := if reduced then ret (mkTimingPart zeroTiming false zeroModel false 0
                                    (mkOpState [0] [level] [0] [false] [false] []))
             else timingPart level in
  let* idc := if reduced then ret None
              else let* x := lift (idx (op_idc (tp_ops tp)) 0) in ret (Some x) in
  let* st := if reduced then ret (mkSizeToolPart 0 0 0 0 false 0 0 false false false false false false
                                    false false false false false 0 0 0)
             else sizeToolPart in
  let* superres := Fbool in
  let* cdef := Fbool in
  let* restoration := Fbool in
  let* cc := NewColorConfig profile in
  let* grain := Fbool in
  ret (mkSequenceHeader profile still reduced
         (tp_timing tp) (tp_dmp tp) (tp_dm tp) (tp_iddp tp) (tp_cnt tp)
         (op_level (tp_ops tp)) (op_tier (tp_ops tp)) (op_dmp (tp_ops tp))
         (op_iddp (tp_ops tp)) (op_idd (tp_ops tp))
         (st_wb st) (st_hb st) (st_w st) (st_h st) (st_idp st) (st_add st) (st_delta st)
         (st_128 st) (st_fi st) (st_ief st) (st_ii st) (st_masked st) (st_warped st)
         (st_oh st) (st_dual st) (st_jnt st) (st_rmv st)
         (st_choose st) (st_sct st) (st_imv st) (st_ohb st)
         superres cdef restoration cc grain,
       idc).
