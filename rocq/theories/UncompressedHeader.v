(** Model of internal/uncompressedheader/uncompressed_header.go.

    The header struct is split into groups of fields, one group per syntax function, in the order of the
    syntax.  Fields that no code assigns (EnableOrderHint, OrderHintBits, UpscaledHeight, RefFrameId,
    SkipModeFrame, FrameIdNumbersPresent) keep their zero values and are written as those constants.
    The effects on the CDF tables (initNonCoeffCdfs, initCoeffCdfs, LoadCdfs) are modelled in CdfMemory.v. *)
From Verif Require Import GoBase Bitstream Header SequenceHeader Util Constants Tables TileInfo.

(** [a := make([]T, n); for i := 0; i < n; i++ { a[i] = m }]: n reads in order.  The index is always in
    range, so this is exactly the list of the values read. *)
Fixpoint times {A} (n : nat) (m : BS A) : BS (list A) :=
  match n with
  | O => ret []
  | S n' => let* x := m in let* l := times n' m in ret (x :: l)
  end.

(* ---------------------------------------------------------------- sizes *)

(** uncompressed_header.go:520-536 superResParams; the result is (UseSuperRes, SuperResDenom, UpscaledWidth, FrameWidth).
    Go's / truncates; all operands are non-negative. *)
Definition superResParams (enableSuperRes : bool) (frameWidth : Z) : BS (bool * Z * Z * Z) :=
  let* use := if enableSuperRes then Fbool else ret false in
  let* denom := if use then (let* c := F SUPERRES_DENOM_BITS in ret (c + SUPERRES_DENOM_MIN)) else ret SUPERRES_NUM in
  ret (use, denom, frameWidth, Z.quot (frameWidth * SUPERRES_NUM + Z.quot denom 2) denom).

(** uncompressed_header.go:539-542 computeImageSize: MiCols, MiRows *)
Definition computeImageSize (w h : Z) : Z * Z := (2 * shr (w + 7) 3, 2 * shr (h + 7) 3).

Record FrameSize := mkFrameSize {
  FrameWidth : Z; FrameHeight : Z; UpscaledWidth : Z; UseSuperRes : bool; SuperResDenom : Z; MiCols : Z; MiRows : Z }.
(** uncompressed_header.go:500-517 frameSize *)
Definition frameSize (override : bool) (sh : SequenceHeader) : BS FrameSize :=
  let* wh := if override then
               let* w := F (FrameWidthBitsMinusOne sh + 1) in
               let* h := F (FrameHeightBitsMinusOne sh + 1) in
               ret (w + 1, h + 1)
             else ret (MaxFrameWidthMinusOne sh + 1, MaxFrameHeightMinusOne sh + 1) in
  let* r := superResParams (EnableSuperRes sh) (fst wh) in
  let '(use, denom, up, fw) := r in
  ret (mkFrameSize fw (snd wh) up use denom (fst (computeImageSize fw (snd wh))) (snd (computeImageSize fw (snd wh)))).

(** uncompressed_header.go:545-558 renderSize; UpscaledHeight is never assigned and is 0 *)
Definition renderSize (upscaledWidth : Z) : BS (Z * Z) :=
  let* different := Fbool in
  if different then let* w := F 16 in let* h := F 16 in ret (w + 1, h + 1)
  else ret (upscaledWidth, 0).

(** uncompressed_header.go:560-568 readInterpolationFilter *)
Definition readInterpolationFilter : BS Z := let* b := Fbool in if b then ret SWITCHABLE else F 2.

(** uncompressed_header.go:571-581 GetRelativeDist; the receiver's EnableOrderHint is a parameter here, the header
    always has it false.  1 << (bits-1) panics for bits = 0. *)
Definition GetRelativeDist (enable : bool) (orderHintBits a b : Z) : res Z :=
  if negb enable then Ok 0
  else if orderHintBits - 1 <? 0 then Panic
  else let m := shl 1 (orderHintBits - 1) in
       Ok (Z.land (a - b) (m - 1) - Z.land (a - b) m).

(* ---------------------------------------------------------------- quantizer *)

Record Quant := mkQuant {
  BaseQIdx : Z; DeltaQYDc : Z; DeltaQUDc : Z; DeltaQUAc : Z; DeltaQVDc : Z; DeltaQVAc : Z;
  UsingQMatrix : bool; Qmy : Z; Qmu : Z; Qmv : Z }.
(** uncompressed_header.go:694-701 readDeltaQ *)
Definition readDeltaQ : BS Z := let* b := Fbool in if b then Su (1 + 6) else ret 0.
(** uncompressed_header.go:649-691 quantizationParams *)
Definition quantizationParams (numPlanes : Z) (separateUv : bool) : BS Quant :=
  let* base := F 8 in
  let* ydc := readDeltaQ in
  let* uv := if 1 <? numPlanes then
      let* diff := if separateUv then Fbool else ret false in
      let* udc := readDeltaQ in
      let* uac := readDeltaQ in
      if diff then let* vdc := readDeltaQ in let* vac := readDeltaQ in ret (udc, uac, vdc, vac)
      else ret (udc, uac, udc, uac)
    else ret (0, 0, 0, 0) in
  let '(udc, uac, vdc, vac) := uv in
  let* useQm := Fbool in
  if useQm then
    let* qy := F 4 in
    let* qu := F 4 in
    let* qv := if negb separateUv then ret qu else F 4 in
    ret (mkQuant base ydc udc uac vdc vac useQm qy qu qv)
  else ret (mkQuant base ydc udc uac vdc vac useQm 0 0 0).

(* ---------------------------------------------------------------- segmentation *)

Record Seg := mkSeg {
  SegmentationEnabled : bool; SegmentationUpdateMap : Z; SegmentationTemporalUpdate : Z; SegmentationUpdateData : Z;
  FeatureEnabled : list (list Z); FeatureData : list (list Z);
  SegIdPreSkip : Z; LastActiveSegId : Z }.
(** uncompressed_header.go:722-740, one feature: (FeatureEnabled[i][j], FeatureData[i][j]) *)
Definition readFeature (j : Z) : BS (Z * Z) :=
  let* featureEnabled := F 1 in
  if featureEnabled =? 1 then
    let* bitsToRead := lift (idx Segmentation_Feature_Bits j) in
    let* limit := lift (idx Segmentation_Feature_Max j) in
    let* signed := lift (idx Segmentation_Feature_Signed j) in
    if signed =? 1 then let* v := Su (1 + bitsToRead) in ret (featureEnabled, Clip3 (- limit) limit v)
    else let* v := Su bitsToRead in ret (featureEnabled, Clip3 0 limit v)
  else ret (featureEnabled, 0).
(** the two nested loops of lines 721-742 *)
Definition readSegFeatures : BS (list (list (Z * Z))) :=
  times 8 (let* r := for_to 0 SEG_LVL_MAX (fun j acc => let* f := readFeature j in ret (acc ++ [f])) [] in ret r).
(** uncompressed_header.go:755-766: scanning all segments and features in order *)
Definition scanFeatures (en : list (list Z)) : Z * Z :=
  pfor_to 0 MAX_SEGMENTS (fun i acc => pfor_to 0 SEG_LVL_MAX (fun j acc =>
     if nth (Z.to_nat j) (nth (Z.to_nat i) en []) 0 =? 1
     then (if SEG_LVL_REF_FRAME <=? j then 1 else fst acc, i) else acc) acc) (0, 0).
Definition zeros8x8 : list (list Z) := repeat (repeat 0 8) 8.
(** uncompressed_header.go:704-769 segmentationParams; [en]/[dat] are state.FeatureEnabled/FeatureData before *)
Definition segmentationParams (primaryRefFrame : Z) (en dat : list (list Z)) : BS Seg :=
  let* enabled := Fbool in
  let* r :=
    if enabled then
      let* u := if primaryRefFrame =? PRIMARY_REF_NONE then ret (1, 0, 1)
                else let* um := F 1 in
                     let* tu := if um =? 1 then F 1 else ret 0 in
                     let* ud := F 1 in ret (um, tu, ud) in
      let '(um, tu, ud) := u in
      if ud =? 1 then
        let* fs := readSegFeatures in
        ret (um, tu, ud, map (map fst) fs, map (map snd) fs)
      else ret (um, tu, ud, en, dat)
    else ret (0, 0, 0, zeros8x8, zeros8x8) in
  let '(um, tu, ud, en', dat') := r in
  ret (mkSeg enabled um tu ud en' dat' (fst (scanFeatures en')) (snd (scanFeatures en'))).

(** uncompressed_header.go:828-831 segFeatureActiveIdx *)
Definition segFeatureActiveIdx (sg : Seg) (i feature : Z) : res bool :=
  if SegmentationEnabled sg then let! x := idx2 (FeatureEnabled sg) i feature in Ok (bool_of x) else Ok false.
(** uncompressed_header.go:808-825 GetQIndex *)
Definition GetQIndex (q : Quant) (sg : Seg) (deltaQPresent : bool) (currentQIndex ignoreDeltaQ segmentId : Z) : res Z :=
  let! act := segFeatureActiveIdx sg segmentId SEG_LVL_ALT_Q in
  if act then
    let! data := idx2 (FeatureData sg) segmentId SEG_LVL_ALT_Q in
    let qindex := BaseQIdx q + data in
    let qindex := if (ignoreDeltaQ =? 0) && deltaQPresent then currentQIndex else qindex in
    Ok (Clip3 0 255 qindex)
  else if (ignoreDeltaQ =? 0) && deltaQPresent then Ok currentQIndex
  else Ok (BaseQIdx q).

(** uncompressed_header.go:772-783 deltaQParams: (DeltaQPresent, DeltaQRes) *)
Definition deltaQParams (baseQIdx : Z) : BS (bool * Z) :=
  let* present := if 0 <? baseQIdx then Fbool else ret false in
  let* r := if present then F 2 else ret 0 in
  ret (present, r).
(** uncompressed_header.go:786-801 deltaLfParams: (DeltaLfPresent, DeltaLfRes, DeltaLfMulti) *)
Definition deltaLfParams (deltaQPresent allowIntraBc : bool) : BS (bool * Z * Z) :=
  if deltaQPresent then
    let* present := if negb allowIntraBc then Fbool else ret false in
    if present then let* r := F 2 in let* m := F 1 in ret (present, r, m)
    else ret (present, 0, 0)
  else ret (false, 0, 0).

(** uncompressed_header.go:424-448: LosslessArray, CodedLossless, SegQMLevel (three rows of 8) *)
Record Lossless := mkLossless { LosslessArray : list bool; CodedLossless : bool; SegQMLevel : list (list Z) }.
Definition losslessBlock (q : Quant) (sg : Seg) (deltaQPresent : bool) (currentQIndex : Z) : res Lossless :=
  rfor_to 0 MAX_SEGMENTS (fun segmentId (acc : Lossless) =>
    let! qIndex := GetQIndex q sg deltaQPresent currentQIndex 1 segmentId in
    let ll := (qIndex =? 0) && (DeltaQYDc q =? 0) && (DeltaQUAc q =? 0) && (DeltaQUDc q =? 0) && (DeltaQVAc q =? 0) && (DeltaQVDc q =? 0) in
    let! arr := upd (LosslessArray acc) segmentId ll in
    let! qm := if UsingQMatrix q then
                 let v := if ll then 15 else Qmy q in
                 let! m0 := upd2 (SegQMLevel acc) 0 segmentId v in
                 let! m1 := upd2 m0 1 segmentId v in
                 upd2 m1 2 segmentId v
               else Ok (SegQMLevel acc) in
    Ok (mkLossless arr (if ll then CodedLossless acc else false) qm))
  (mkLossless (repeat false 8) true (repeat (repeat 0 8) 3)).

(* ---------------------------------------------------------------- filters *)

Record LoopFilter := mkLoopFilter {
  LoopFilterLevel : list Z; LoopFilterSharpness : Z; LoopFilterDeltaEnabled : bool; LoopFilterDeltaUpdate : Z;
  LoopFilterRefDeltas : list Z; LoopFilterModeDeltas : list Z }.
(** uncompressed_header.go:615-625, 838-845: indices INTRA, LAST, LAST2, LAST3, GOLDEN (4), BWDREF (5), ALTREF2 (6), ALTREF (7) *)
Definition defaultRefDeltas : list Z := [1; 0; 0; 0; -1; 0; -1; -1].
(** one optional delta, lines 865-868 and 871-874 *)
Definition readDelta (i : Z) (l : list Z) : BS (list Z) :=
  let* u := F 1 in
  if u =? 1 then let* v := Su (1 + 6) in lift (upd l i v) else ret l.
(** uncompressed_header.go:834-884 loopFilterParams; [ref0]/[mode0] are the deltas before, [en0] LoopFilterDeltaEnabled
    before.  LoopFilterLevel, Sharpness and DeltaUpdate start as zero. *)
Definition loopFilterParams (codedLossless allowIntraBc : bool) (numPlanes : Z) (en0 : bool) (ref0 mode0 : list Z) : BS LoopFilter :=
  if codedLossless || allowIntraBc then
    ret (mkLoopFilter [0; 1; 0; 0] 0 en0 0 defaultRefDeltas [0; 0])
  else
    let* l0 := F 6 in
    let* l1 := F 6 in
    let* l23 := if 1 <? numPlanes then
                  if bool_of l0 || bool_of l1 then let* l2 := F 6 in let* l3 := F 6 in ret (l2, l3) else ret (0, 0)
                else ret (0, 0) in
    let* sharp := F 6 in
    let* en := Fbool in
    if en then
      let* up := F 1 in
      if up =? 1 then
        let* rd := for_to 0 TOTAL_REFS_PER_FRAME readDelta ref0 in
        let* md := for_to 0 2 readDelta mode0 in
        ret (mkLoopFilter [l0; l1; fst l23; snd l23] sharp en up rd md)
      else ret (mkLoopFilter [l0; l1; fst l23; snd l23] sharp en up ref0 mode0)
    else ret (mkLoopFilter [l0; l1; fst l23; snd l23] sharp en 0 ref0 mode0).

Record CdefParams := mkCdefParams {
  CdefDampening : Z; CdefBits : Z; CdefYPri : list Z; CdefYSec : list Z; CdefUVPri : list Z; CdefUVSec : list Z }.
Definition bump3 (x : Z) : Z := if x =? 3 then x + 1 else x.
(** uncompressed_header.go:914-926, one round: (YPri, YSec, UVPri, UVSec) *)
Definition readCdefStrength (numPlanes : Z) : BS (Z * Z * (Z * Z)) :=
  let* yp := F 4 in
  let* ys := F 2 in
  let* uv := if 1 <? numPlanes then let* up := F 4 in let* us := F 2 in ret (up, bump3 us) else ret (0, 0) in
  ret (yp, bump3 ys, uv).
(** uncompressed_header.go:887-927 cdefParams *)
Definition cdefParams (codedLossless allowIntraBc enableCdef : bool) (numPlanes : Z) : BS CdefParams :=
  if codedLossless || allowIntraBc || negb enableCdef then ret (mkCdefParams 3 0 [0] [0] [0] [0])
  else
    let* d := F 2 in
    let* bits := F 2 in
    let* l := times (Z.to_nat (shl 1 bits)) (readCdefStrength numPlanes) in
    ret (mkCdefParams (d + 3) bits (map (fun x => fst (fst x)) l) (map (fun x => snd (fst x)) l)
           (map (fun x => fst (snd x)) l) (map (fun x => snd (snd x)) l)).

Record LrParams := mkLrParams { FrameRestorationType : list Z; UsesLr : bool; LoopRestorationSize : list Z }.
(** uncompressed_header.go:930-977 lrParams; [size0] is state.LoopRestorationSize before *)
Definition lrParams (allLossless allowIntraBc enableRestoration use128 subX subY : bool) (numPlanes : Z) (size0 : list Z) : BS LrParams :=
  if allLossless || allowIntraBc || negb enableRestoration then
    ret (mkLrParams [RESTORE_NONE; RESTORE_NONE; RESTORE_NONE] false size0)
  else
    let* t := for_to 0 numPlanes (fun i (acc : list Z * bool * bool) =>
        let '(types, uses, chroma) := acc in
        let* lrType := F 2 in
        let* ty := lift (idx REMAP_LR_TYPE lrType) in
        let* types' := lift (upd types i ty) in
        if negb (ty =? RESTORE_NONE) then ret (types', true, if 0 <? i then true else chroma)
        else ret (types', uses, chroma)) ([0; 0; 0], false, false) in
    let '(types, uses, chroma) := t in
    if uses then
      let* sft := if use128 then let* x := F 1 in ret (x + 1)
                  else let* x := F 1 in if bool_of x then let* e := F 1 in ret (x + e) else ret x in
      let s0 := shr RESTORATION_TILESIZE_MAX (2 - sft) in
      let* uv := if subX && subY && chroma then F 1 else ret 0 in
      ret (mkLrParams types uses [s0; shr s0 uv; shr s0 uv])
    else ret (mkLrParams types uses size0).

(** uncompressed_header.go:980-992 readTxMode (ONLY_4X4 = 0, line 14) *)
Definition readTxMode (codedLossless : bool) : BS Z :=
  if codedLossless then ret 0 else let* b := Fbool in ret (if b then TX_MODE_SELECT else TX_MODE_LARGEST).
(** uncompressed_header.go:995-1002 frameReferenceMode *)
Definition frameReferenceMode (frameIsIntra : bool) : BS bool := if frameIsIntra then ret false else Fbool.

(* ---------------------------------------------------------------- skip mode, global motion *)

(** uncompressed_header.go:1005-1065 skipModeParams: SkipModePresent.  The receiver's EnableOrderHint is a parameter
    [en] (the header always has it false); SkipModeFrame is a nil slice, so assigning to it panics.
    [hint i] is state.RefOrderHint[u.RefFrameIdx[i]]. *)
Definition skipForward (en : bool) (bits : Z) (refIdx refHints : list Z) (orderHint : Z) : res (Z * Z * Z * Z) :=
  rfor_to 0 REFS_PER_FRAME (fun i (acc : Z * Z * Z * Z) =>
    let '(fi, fh, bi, bh) := acc in
    let! ri := idx refIdx i in
    let! refHint := idx refHints ri in
    let! d := GetRelativeDist en bits refHint orderHint in
    if d <? 0 then
      if fi <? 0 then Ok (i, refHint, bi, bh)
      else let! d2 := GetRelativeDist en bits refHint fh in
           if 0 <? d2 then Ok (i, refHint, bi, bh) else Ok acc
    else if 0 <? d then
      if bi <? 0 then Ok (fi, fh, i, refHint)
      else let! d2 := GetRelativeDist en bits refHint bh in
           if 0 <? d2 then Ok (fi, fh, i, refHint) else Ok acc
    else Ok acc) (-1, 0, -1, 0).
Definition skipSecond (en : bool) (bits : Z) (refIdx refHints : list Z) (forwardHint : Z) : res (Z * Z) :=
  rfor_to 0 REFS_PER_FRAME (fun i (acc : Z * Z) =>
    let '(si, sh) := acc in
    let! ri := idx refIdx i in
    let! refHint := idx refHints ri in
    let! d := GetRelativeDist en bits refHint forwardHint in
    if d <? 0 then
      if si <? 0 then Ok (i, refHint)
      else let! d2 := GetRelativeDist en bits refHint sh in
           if 0 <? d2 then Ok (i, refHint) else Ok acc
    else Ok acc) (-1, 0).
Definition skipModeParams (frameIsIntra referenceSelect en : bool) (bits : Z) (refIdx refHints : list Z) (orderHint : Z) : BS Z :=
  if frameIsIntra || referenceSelect || en then ret 0
  else
    let* r := lift (skipForward en bits refIdx refHints orderHint) in
    let '(fi, fh, bi, bh) := r in
    if fi <? 0 then ret 0
    else if 0 <=? bi then panic
    else
      let* s := lift (skipSecond en bits refIdx refHints fh) in
      if fst s <? 0 then ret 0 else panic.

(** uncompressed_header.go:1067-1107 globalMotionParams: (state.GmType, GmParams); index 0 is not assigned.
    readGlobalParam is never called. *)
Definition gmIdentity : list Z := [0; 0; 65536; 0; 0; 65536].
Definition readGmType : BS Z :=
  let* isGlobal := F 1 in
  if bool_of isGlobal then
    let* isRotZoom := F 1 in
    if bool_of isRotZoom then ret ROTZOOM
    else let* isTranslation := F 1 in ret (if bool_of isTranslation then TRANSLATION else AFFINE)
  else ret IDENTITY.
Definition globalMotionParams (frameIsIntra : bool) (gmType0 : Z) : BS (list Z * list (list Z)) :=
  let params := [0;0;0;0;0;0] :: repeat gmIdentity 7 in
  if frameIsIntra then ret (gmType0 :: repeat IDENTITY 7, params)
  else let* t := times 7 readGmType in ret (gmType0 :: t, params).

(** uncompressed_header.go:1153-1180 decodeSubexp; fuel: every further round consumes a bit *)
Fixpoint decodeSubexp_loop (fuel : nat) (numSyms i mk : Z) : BS Z :=
  match fuel with
  | O => hang
  | S f =>
      let k := 3 in
      let b2 := if bool_of i then k + i - 1 else k in
      let a := shl 1 b2 in
      if numSyms <=? mk + 3 * a then
        let* fin := Ns (numSyms - mk) in ret (fin + mk)
      else
        let* more := F 1 in
        if bool_of more then decodeSubexp_loop f numSyms (i + 1) (mk + a)
        else let* bits := F b2 in ret (bits + mk)
  end.
Definition decodeSubexp (numSyms : Z) : BS Z :=
  let* s := get in decodeSubexp_loop (S (bits_left s)) numSyms 0 0.
(** uncompressed_header.go:1144-1151 decodeSignedSubexpWithRef (sic: unsigned) *)
Definition decodeSignedSubexpWithRef (mx r : Z) : BS Z :=
  let* v := decodeSubexp mx in
  ret (if shl r 1 <=? mx then InverseRecenter r v else mx - 1 - InverseRecenter (mx - 1 - r) v).
(** uncompressed_header.go:1109-1142 readGlobalParam (not called anywhere): the value stored in GmParams[ref][idx] *)
Definition readGlobalParam (allowHp : bool) (typ ref i : Z) (prevGm : list (list Z)) : BS Z :=
  let absBits := if i <? 2 then if typ =? TRANSLATION then GM_ABS_TRANS_ONLY_BITS - int_of (negb allowHp) else GM_ABS_TRANS_BITS
                 else GM_ABS_ALPHA_BITS in
  let precBits := if i <? 2 then if typ =? TRANSLATION then GM_TRANS_ONLY_PREC_BITS - int_of (negb allowHp) else GM_TRANS_PREC_BITS
                  else GM_ALPHA_PREC_BITS in
  let precDiff := WARPEDMODEL_PREC_BITS - precBits in
  let round := if Z.rem i 3 =? 2 then shl 1 WARPEDMODEL_PREC_BITS else 0 in
  let sub := if Z.rem i 3 =? 2 then shl 1 precBits else 0 in
  let mx := shl 1 absBits in
  let* p := lift (idx2 prevGm ref i) in
  let* v := decodeSignedSubexpWithRef mx (shr p precDiff - sub) in
  ret (shl v precDiff + round).

(* ---------------------------------------------------------------- film grain *)

Record Grain := mkGrain {
  ApplyGrain : bool; GrainSeed : Z; PointY : list (Z * Z); ChromaScalingFromLuma : bool;
  PointCb : list (Z * Z); PointCr : list (Z * Z); GrainScalingMinus8 : Z; ArCoeffLag : Z;
  ArCoeffsY : list Z; ArCoeffsCb : list Z; ArCoeffsCr : list Z; ArCoeffShiftMinus6 : Z; GrainScaleShift : Z;
  CbMult : Z; CbLumaMult : Z; CbOffset : Z; CrMult : Z; CrLumaMult : Z; CrOffset : Z;
  OverlapFlag : bool; ClipToRestrictedRange : bool }.
(** uncompressed_header.go:1302-1327 resetGrainParams *)
Definition noGrain : Grain := mkGrain false 0 [] false [] [] 0 0 [] [] [] 0 0 0 0 0 0 0 0 false false.
Definition readPoint : BS (Z * Z) := let* v := F 8 in let* s := F 8 in ret (v, s).
(** uncompressed_header.go:1183-1299 filmGrainParams.  The value and scaling slices are read pairwise and kept as one list
    of pairs.  LoadGrainParams (1341-1343) panics. *)
Definition filmGrainParams (present showFrame showableFrame : bool) (frameType : Z) (mono subX subY : bool) : BS Grain :=
  if negb present || (negb showFrame && negb showableFrame) then ret noGrain
  else
    let* apply := Fbool in
    if negb apply then ret noGrain
    else
      let* seed := F 16 in
      let* update := if frameType =? 1 then Fbool else ret true in
      if negb update then (let* _i := F 3 in panic)
      else
        let* ny := F 4 in
        let* py := times (Z.to_nat ny) readPoint in
        let* cfl := if mono then ret false else Fbool in
        let* cc := if mono || cfl || (subX && subY && (ny =? 0)) then ret (0, [], 0, [])
                   else let* ncb := F 4 in
                        let* pcb := times (Z.to_nat ncb) readPoint in
                        let* ncr := F 4 in
                        let* pcr := times (Z.to_nat ncr) readPoint in
                        ret (ncb, pcb, ncr, pcr) in
        let '(ncb, pcb, ncr, pcr) := cc in
        let* gs := F 2 in
        let* lag := F 2 in
        let numPosLuma := 2 * lag * (lag + 1) in
        let* ay := if bool_of ny then times (Z.to_nat numPosLuma) (F 8) else ret [] in
        let numPosChroma := if bool_of ny then numPosLuma + 1 else numPosLuma in
        let* acb := if cfl || bool_of ncb then times (Z.to_nat numPosChroma) (F 8) else ret [] in
        let* acr := if cfl || bool_of ncr then times (Z.to_nat numPosChroma) (F 8) else ret [] in
        let* shift := F 2 in
        let* gshift := F 2 in
        let* cb := if bool_of ncb then let* a := F 8 in let* b := F 8 in let* c := F 9 in ret (a, b, c) else ret (0, 0, 0) in
        let* cr := if bool_of ncr then let* a := F 8 in let* b := F 8 in let* c := F 9 in ret (a, b, c) else ret (0, 0, 0) in
        let* ov := Fbool in
        let* clip := Fbool in
        let '(cbm, cbl, cbo) := cb in let '(crm, crl, cro) := cr in
        ret (mkGrain apply seed py cfl pcb pcr gs lag ay acb acr shift gshift cbm cbl cbo crm crl cro ov clip).

(* ---------------------------------------------------------------- build *)

(** The fields of state.State that the header reads or writes (state/state.go), other than CDF tables. *)
Record HState := mkHState {
  St_MiCols : Z; St_MiRows : Z; St_Tiles : Tiles;
  St_FeatureEnabled : list (list Z); St_FeatureData : list (list Z);
  St_GmType : list Z; St_PrevGmParams : list (list Z); St_PrevSegmentIds : list (list Z);
  St_RefFrameType : list Z; St_RefOrderHint : list Z; St_RefValid : list Z;
  St_LoopRestorationSize : list Z; St_CurrentQIndex : Z }.
Definition noTiles : Tiles := mkTiles [] [] 0 0 0 0 0 0.
(** the zero value of those fields *)
Definition zeroHState : HState :=
  mkHState 0 0 noTiles zeros8x8 zeros8x8 (repeat 0 8) (repeat (repeat 0 6) 8) [] (repeat 0 8) (repeat 0 8) (repeat 0 8) [0;0;0] 0.

(** uncompressed_header.go:151-306: everything before the frame size *)
Record FrameHead := mkFrameHead {
  FrameType : Z; FrameIsIntra : bool; ShowFrame : bool; ShowableFrame : bool; ErrorResilientMode : bool;
  FramePresentationTime : Z; DisableCdfUpdate : bool; AllowScreenContentTools : Z; ForceIntegerMv : bool;
  CurrentFrameId : Z; FrameSizeOverrideFlag : bool; OrderHint : Z; PrimaryRefFrame : Z; RefreshFrameFlags : Z }.
Definition noHead : FrameHead := mkFrameHead 0 false false false false 0 false 0 false 0 false 0 0 0.

(** uncompressed_header.go:1335-1338 TemporalPointInfo *)
Definition TemporalPointInfo (sh : SequenceHeader) : BS Z :=
  F (FramePresentationTimeLengthMinusOne (DecoderModel sh) + 1).
(** lines 180, 204: a temporal point is coded *)
Definition hasTemporalPoint (sh : SequenceHeader) : bool :=
  DecoderModelInfoPresent sh && negb (EqualPictureInterval (Timing sh)).

(** uncompressed_header.go:180-200, show_existing_frame = 1: FrameToShowMapIdx, presentation time, DisplayFrameId,
    FrameType, RefreshImageFlags.  LoadGrainParams panics. *)
Record Existing := mkExisting {
  FrameToShowMapIdx : Z; ExPresentationTime : Z; DisplayFrameId : Z; ExFrameType : Z; RefreshImageFlags : Z }.
Definition idLen (sh : SequenceHeader) : Z :=
  if FrameIdNumbersPresent sh then AdditionalFrameIdLengthMinusOne sh + DeltaFrameIdLengthMinusTwo sh + 3 else 0.
Definition showExisting (sh : SequenceHeader) (st : HState) : BS Existing :=
  let* i := F 3 in
  let* t := if hasTemporalPoint sh then TemporalPointInfo sh else ret 0 in
  let* d := if FrameIdNumbersPresent sh then F (idLen sh) else ret 0 in
  let* ty := lift (idx (St_RefFrameType st) i) in
  if FilmGrainParamsPresent sh then panic
  else ret (mkExisting i t d ty (if ty =? 0 then 255 else 0)).

(** uncompressed_header.go:202-222 *)
Definition frameType (sh : SequenceHeader) : BS (Z * bool * bool * bool * bool * Z) :=
  let* ty := F 2 in
  let intra := (ty =? 2) || (ty =? 0) in
  let* show := Fbool in
  let* t := if show && hasTemporalPoint sh then TemporalPointInfo sh else ret 0 in
  let* showable := if show then ret (negb (ty =? 0)) else Fbool in
  let* er := if (ty =? 3) || ((ty =? 0) && show) then ret true else Fbool in
  ret (ty, intra, show, showable, er, t).

(** uncompressed_header.go:278-296: buffer removal times.  Every write into the empty slice panics; sh.OperatingPointIdc is
    nil, so reading it panics first. *)
Definition bufferRemoval (sh : SequenceHeader) : BS unit :=
  if DecoderModelInfoPresent sh then
    let* present := Fbool in
    if present then
      for_to 0 (OperatingPointsCountMinusOne sh + 1) (fun op _ =>
        let* p := lift (idx (DecoderModelPresentForThisOp sh) op) in
        if p then panic else ret tt) tt
    else ret tt
  else ret tt.

(** uncompressed_header.go:234-306 *)
Definition frameHead (sh : SequenceHeader) (ft : Z * bool * bool * bool * bool * Z) : BS FrameHead :=
  let '(ty, intra, show, showable, er, t) := ft in
  let* disable := Fbool in
  let* sct := if SeqForceScreenContentTools sh =? 2 then F 1 else ret 1 in
  let* imv := if bool_of sct then if SeqForceIntegerMv sh =? 2 then Fbool else ret true else ret false in
  let imv := if intra then true else imv in
  (* lines 256-262: markRefFrames indexes the nil slice RefFrameId *)
  (if FrameIdNumbersPresent sh then (let* _id := F (idLen sh) in panic) else ret tt) ;;
  let* override := if ty =? 3 then ret true else if ReducedStillPictureHeader sh then ret false else Fbool in
  let* oh := F (OrderHintBits sh) in
  let* prim := if intra || er then ret PRIMARY_REF_NONE else F 3 in
  bufferRemoval sh ;;
  let* refresh := if (ty =? 3) || (ty =? 0) || show then ret 255 else F 8 in
  (* lines 308-318: writing into the empty slice ref_order_hint panics *)
  (if (negb intra || negb (refresh =? 255)) && er && EnableOrderHint sh then panic else ret tt) ;;
  ret (mkFrameHead ty intra show showable er t disable sct imv 0 override oh prim refresh).

(** uncompressed_header.go:322-394: frame size, and for inter frames the references *)
Record FrameRefs := mkFrameRefs {
  Size_ : FrameSize; Render : Z * Z; AllowIntraBc : bool; RefFrameIdx : list Z; AllowHighPrecisionMv : bool;
  InterpolationFilter : Z; IsMotionModeSwitchable : bool; UseRefFrameMvs : bool;
  OrderHints : list Z; RefFrameSignBias : list bool }.
Definition intraRefs (sh : SequenceHeader) (fh : FrameHead) : BS FrameRefs :=
  let* fs := frameSize (FrameSizeOverrideFlag fh) sh in
  let* r := renderSize (UpscaledWidth fs) in
  let* ibc := if bool_of (AllowScreenContentTools fh) && (UpscaledWidth fs =? FrameWidth fs) then Fbool else ret false in
  ret (mkFrameRefs fs r ibc (repeat 0 7) false 0 false false (repeat 0 8) [false; false; false]).
(** lines 384-393: all rounds write index LAST_FRAME + 1 = 2; GetRelativeDist is 0, so the sign bias is false *)
Definition orderHintsLoop (refIdx refHints : list Z) : res (list Z) :=
  rfor_to 0 REFS_PER_FRAME (fun i oh =>
    let! ri := idx refIdx i in let! hint := idx refHints ri in upd oh 2 hint) (repeat 0 8).
Definition interRefs (sh : SequenceHeader) (fh : FrameHead) (st : HState) : BS FrameRefs :=
  let* short := if EnableOrderHint sh then Fbool else ret false in
  if short then (let* _a := F 3 in let* _b := F 3 in panic)      (* setFrameRefs panics *)
  else
    (* lines 347-359: every index is read twice; expectedFrameId is empty (FrameIdNumbersPresent panicked before) *)
    let* refs := times 7 (let* _first := F 3 in F 3) in
    if FrameSizeOverrideFlag fh && negb (ErrorResilientMode fh) then panic  (* frameSizeWithRefs *)
    else
      let* fs := frameSize (FrameSizeOverrideFlag fh) sh in
      let* r := renderSize (UpscaledWidth fs) in
      let* hp := if ForceIntegerMv fh then ret false else Fbool in
      let* flt := readInterpolationFilter in
      let* sw := Fbool in
      let* mvs := if ErrorResilientMode fh || negb (EnableRefFrameMvs sh) then ret false else Fbool in
      let* ohs := lift (orderHintsLoop refs (St_RefOrderHint st)) in
      ret (mkFrameRefs fs r false refs hp flt sw mvs ohs [false; false; false]).

(** Everything from line 396 on. *)
Record FrameBody := mkFrameBody {
  DisableFrameEndUpdateCdf : bool; TileInfo_ : Tiles; Quant_ : Quant; Seg_ : Seg;
  DeltaQPresent : bool; DeltaQRes : Z; DeltaLf : bool * Z * Z; Lossless_ : Lossless; AllLossless : bool;
  LoopFilter_ : LoopFilter; Cdef_ : CdefParams; Lr_ : LrParams; TxMode : Z; ReferenceSelect : bool;
  SkipModePresent : Z; AllowWarpedMotion : bool; ReducedTxSet : bool; GmType : list Z; GmParams : list (list Z); Grain_ : Grain }.

(** uncompressed_header.go:596-604: MiRows x MiCols zeros *)
Definition zeroSegmentIds (rows cols : Z) : list (list Z) := repeat (repeat 0 (Z.to_nat cols)) (Z.to_nat rows).
(** uncompressed_header.go:396-470.  With a primary reference frame loadPrevious (632-639) panics; so after line 411 the primary
    reference is PRIMARY_REF_NONE, setupPastIndependence (584-629) has cleared the features and set the default loop
    filter deltas, and loadPreviousSegementIds is not reached. *)
Definition frameBody (sh : SequenceHeader) (st : HState) (fh : FrameHead) (fr : FrameRefs) : BS FrameBody :=
  let fs := Size_ fr in
  let* noEnd := if ReducedStillPictureHeader sh || DisableCdfUpdate fh then ret true else Fbool in
  if negb (PrimaryRefFrame fh =? PRIMARY_REF_NONE) then panic
  else if UseRefFrameMvs fr then panic                       (* motionFieldEstimation *)
  else
    let* tiles := NewTileInfo (Use128x128SuperBlock sh) (MiCols fs) (MiRows fs) (TileSizeBytes (St_Tiles st)) in
    let cc := Color sh in
    let* q := quantizationParams (NumPlanes cc) (SeparateUvDeltaQ cc) in
    let* sg := segmentationParams (PrimaryRefFrame fh) zeros8x8 zeros8x8 in
    let* dq := deltaQParams (BaseQIdx q) in
    let* dlf := deltaLfParams (fst dq) (AllowIntraBc fr) in
    let* ll := lift (losslessBlock q sg (fst dq) (St_CurrentQIndex st)) in
    let all := CodedLossless ll && (FrameWidth fs =? UpscaledWidth fs) in
    let* lf := loopFilterParams (CodedLossless ll) (AllowIntraBc fr) (NumPlanes cc) true defaultRefDeltas [0; 0] in
    let* cd := cdefParams (CodedLossless ll) (AllowIntraBc fr) (EnableCdef sh) (NumPlanes cc) in
    let* lr := lrParams all (AllowIntraBc fr) (EnableRestoration sh) (Use128x128SuperBlock sh) (SubsamplingX cc) (SubsamplingY cc)
                 (NumPlanes cc) (St_LoopRestorationSize st) in
    let* tx := readTxMode (CodedLossless ll) in
    let* rsel := frameReferenceMode (FrameIsIntra fh) in
    let* skip := skipModeParams (FrameIsIntra fh) rsel false (OrderHintBits sh) (RefFrameIdx fr) (St_RefOrderHint st) (OrderHint fh) in
    let* warp := if FrameIsIntra fh || ErrorResilientMode fh || negb (EnableWarpedMotion sh) then ret false else Fbool in
    let* red := Fbool in
    let* gt := lift (idx (St_GmType st) 0) in
    let* gm := globalMotionParams (FrameIsIntra fh) gt in
    let* gr := filmGrainParams (FilmGrainParamsPresent sh) (ShowFrame fh) (ShowableFrame fh) (FrameType fh)
                 (MonoChrome cc) (SubsamplingX cc) (SubsamplingY cc) in
    ret (mkFrameBody noEnd tiles q sg (fst dq) (snd dq) dlf ll all lf cd lr tx rsel skip warp red (fst gm) (snd gm) gr).

Inductive UncompressedHeader : Type :=
| UExisting (e : Existing)                       (* show_existing_frame = 1, returned early *)
| UFrame (fh : FrameHead) (fr : FrameRefs) (fb : FrameBody).

(** The state after the header: the fields written by frameSize, NewTileInfo, setupPastIndependence, segmentationParams,
    lrParams and globalMotionParams. *)
Definition afterHeader (st : HState) (fr : FrameRefs) (fb : FrameBody) : HState :=
  let fs := Size_ fr in
  mkHState (MiCols fs) (MiRows fs) (TileInfo_ fb) (FeatureEnabled (Seg_ fb)) (FeatureData (Seg_ fb)) (GmType fb)
    (nth 0 (St_PrevGmParams st) [] :: repeat gmIdentity 7) (zeroSegmentIds (MiRows fs) (MiCols fs))
    (St_RefFrameType st) (St_RefOrderHint st) (St_RefValid st) (LoopRestorationSize (Lr_ fb)) (St_CurrentQIndex st).

(** uncompressed_header.go:143-471 NewUncompressedHeader and build *)
Definition NewUncompressedHeader (sh : SequenceHeader) (st : HState) : BS (UncompressedHeader * HState) :=
  let frame ft :=
    let* fh := frameHead sh ft in
    let* fr := if FrameIsIntra fh then intraRefs sh fh else interRefs sh fh st in
    let* fb := frameBody sh st fh fr in
    ret (UFrame fh fr fb, afterHeader st fr fb) in
  if ReducedStillPictureHeader sh then frame (0, true, true, false, false, 0)
  else
    let* existing := Fbool in
    if existing then let* e := showExisting sh st in ret (UExisting e, st)
    else let* ft := frameType sh in frame ft.
