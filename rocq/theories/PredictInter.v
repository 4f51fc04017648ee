(** Model of internal/tilegroup/predict_inter.go (inter prediction) and of compute_prediction.go; isScaled is in tilegroup/util.go.
    Simplification: products and sums of samples, positions and weights are exact integers.
    The arrays a function declares with "var a []int" or "var a [][]int" are nil, and t.Mask (tile_group.go) is never allocated: an assignment to an element of either panics.
    Code behind such an assignment is never reached and is left out; each place says so. *)
From Verif Require Import GoBase Bitstream Util Constants Tables Frame LoopFilter Fill2.
Local Open Scope Z_scope.

(** What is read: state.RefUpscaledWidth, RefFrameHeight [8]; uh.FrameWidth, FrameHeight, RefFrameIdx [7], ForceIntegerMv, GmParams [8][6]; state.GmType [8], RefFrames [64][64][2], RefFrame [2];
    t.Mvs [64][64][2] (row, column), InterpFilters [2][2][2], FrameStore [8][3][16][16]; sh.ColorConfig *)
Record PEnv := mkPEnv { pRefW : list Z; pRefH : list Z; pFW : Z; pFH : Z; pIdx : list Z; pForceInt : bool; pGm : list (list Z); pGmType : list Z;
  pRefFrames : list (list (list Z)); pRefFrame : list Z; pMvs : list (list (list (Z * Z))); pFilters : list (list (list Z)); pStore : list frame; pSubX : bool; pSubY : bool; pBd : Z }.
(** What is read of the block: t.MotionMode, LocalValid, LocalWarpParams [6], YMode, useIntrabc, CompoundType, IsInterIntra, InterIntraMode; state.MiSize, MiRow, MiCol, MiRows, MiCols, AvailU, AvailL, MiSizes [64][64] *)
Record KEnv := mkKEnv { kMotion : Z; kLocalValid : bool; kLocal : list Z; kYMode : Z; kIntrabc : Z; kCompound : Z; kInterIntra : bool; kIiMode : Z;
  kSize : Z; kRow : Z; kCol : Z; kRows : Z; kCols : Z; kAvailU : bool; kAvailL : bool; kSizes : list (list Z) }.
(** subX, subY in every function of the file *)
Definition subx (e : PEnv) (plane : Z) : Z := if plane =? 0 then 0 else int_of (pSubX e).
Definition suby (e : PEnv) (plane : Z) : Z := if plane =? 0 then 0 else int_of (pSubY e).

(** predict_inter.go:184-201 roundVariablesDerivationProcess *)
Definition roundVariables (isCompound : bool) (bitDepth : Z) : Z * Z :=
  let r0 := 3 in
  let r1 := if isCompound then 7 else 11 in
  let r0 := if bitDepth =? 12 then r0 + 2 else r0 in
  let r1 := if (bitDepth =? 12) && negb isCompound then r1 - 2 else r1 in
  (r0, r1).
(** predict_inter.go:224-225 and util.go:19-20: a division by zero panics *)
Definition scaleOf (ref cur : Z) : res Z := if cur =? 0 then Panic else Ok (Z.quot (shl ref REF_SCALE_SHIFT + Z.quot cur 2) cur).
(** predict_inter.go:205-219: the four checks *)
Definition checkScale (e : PEnv) (rw rh : Z) : res unit :=
  if negb (rw <=? 2 * pFW e) then Panic else if negb (rh <=? 2 * pFH e) then Panic
  else if negb (pFW e <=? 16 * rw) then Panic else if negb (pFH e <=? 16 * rh) then Panic else Ok tt.
(** predict_inter.go:204-250 motionVectorScalingProcess; mv is (row, column) *)
Definition motionVectorScaling (e : PEnv) (plane refIdx x y : Z) (mv : Z * Z) : res (Z * Z * Z * Z) :=
  let! rw := idx (pRefW e) refIdx in
  let! rh := idx (pRefH e) refIdx in
  let! _ := checkScale e rw rh in
  let! xScale := scaleOf rw (pFW e) in
  let! yScale := scaleOf rh (pFH e) in
  let halfSample := shl 1 (SUBPEL_BITS - 1) in
  let origX := x * 16 + shr (2 * snd mv) (subx e plane) + halfSample in
  let origY := y * 16 + shr (2 * fst mv) (suby e plane) + halfSample in
  let baseX := origX * xScale - shl halfSample REF_SCALE_SHIFT in
  let baseY := origY * yScale - shl halfSample REF_SCALE_SHIFT in
  let off := Z.quot (shl 1 (SCALE_SUBPEL_BITS - SUBPEL_BITS)) 2 in
  let! sx := Round2Signed baseX (REF_SCALE_SHIFT + SUBPEL_BITS - SCALE_SUBPEL_BITS) in
  let! sy := Round2Signed baseY (REF_SCALE_SHIFT + SUBPEL_BITS - SCALE_SUBPEL_BITS) in
  let! stepX := Round2Signed xScale (REF_SCALE_SHIFT - SCALE_SUBPEL_BITS) in
  let! stepY := Round2Signed yScale (REF_SCALE_SHIFT - SCALE_SUBPEL_BITS) in
  Ok (sx + off, sy + off, stepX, stepY).
(** util.go:17-24 isScaled *)
Definition isScaled (e : PEnv) (refFrame : Z) : res bool :=
  let! refIdx := idx (pIdx e) (refFrame - LAST_FRAME) in
  let! rw := idx (pRefW e) refIdx in
  let! xScale := scaleOf rw (pFW e) in
  let! rh := idx (pRefH e) refIdx in
  let! yScale := scaleOf rh (pFH e) in
  let noScale := shl 1 REF_SCALE_SHIFT in
  Ok (negb (xScale =? noScale) || negb (yScale =? noScale)).

(** predict_inter.go:274-280 and 295-301: short sides take the four-tap filters *)
Definition shortFilter (side filter : Z) : Z :=
  if side <=? 4 then if (filter =? EIGHTTAP) || (filter =? EIGHTTAP_SHARP) then 4 else if filter =? EIGHTTAP_SMOOTH then 5 else filter else filter.
(** predict_inter.go:287-289, 308-310: the sum over eight taps; [f t] is the sample under tap t *)
Definition taps (filter row : Z) (f : Z -> res Z) : res Z := rfor_to 0 8 (fun t s => let! k := idx3 Subpel_Filters filter row t in let! v := f t in Ok (s + k * v)) 0.
(** predict_inter.go:285-290: a value of the intermediate array (sic: the row of the filter is (p>>6)*SUBPEL_MASK) *)
Definition interH (ref : frame) (plane lastX lastY filter r0 x xStep y r c : Z) : res Z :=
  let p := x + xStep * c in
  let! s := taps filter (shr p 6 * SUBPEL_MASK) (fun t => idx3 ref plane (Clip3 0 lastY (shr y 10 + r - 3)) (Clip3 0 lastX (shr p 10 + t - 3))) in
  Round2 s r0.
(** predict_inter.go:306-311: a value of the prediction *)
Definition interV (inter : list (list Z)) (filter r1 y yStep r c : Z) : res Z :=
  let p := Z.land y 1023 + yStep * r in
  let! s := taps filter (shr p 6 * SUBPEL_MASK) (fun t => idx2 inter (shr p 10 + t) c) in
  Round2 s r1.
(** predict_inter.go:253-316 blockInterPredictionProcess: the intermediate array is 8x8, the prediction 16x16.
    The case refIdx = -1 (prediction from the current frame) panics at state.RefUpscaledWidth[-1] *)
Definition blockInter (e : PEnv) (r0 r1 : Z) (plane refIdx x y xStep yStep w h candRow candCol : Z) : res (list (list Z)) :=
  let! ref := idx (pStore e) refIdx in
  let! rw := idx (pRefW e) refIdx in
  let! rh := idx (pRefH e) refIdx in
  let lastX := shr (rw + subx e plane) (subx e plane) - 1 in
  let lastY := shr (rh + suby e plane) (suby e plane) - 1 in
  let intermediateHeight := shr ((h - 1) * yStep + shl 1 SCALE_SUBPEL_BITS - 1) SCALE_SUBPEL_BITS + 8 in
  let! f1 := idx3 (pFilters e) candRow candCol 1 in
  let! inter := fill2 (interH ref plane lastX lastY (shortFilter w f1) r0 x xStep y) (fun i => i) (fun j => j) 0 intermediateHeight 0 w (repeat (repeat 0 8) 8) in
  let! f0 := idx3 (pFilters e) candRow candCol 0 in
  fill2 (interV inter (shortFilter h f0) r1 y yStep) (fun i => i) (fun j => j) 0 h 0 w (repeat (repeat 0 16) 16).

(** predict_inter.go:418-438 resolveDivisorProcess: the shift and the factor; a shift by a negative count panics *)
Definition resolveDivisor (d : Z) : res (Z * Z) :=
  let! n := FloorLog2 (Abs d) in
  if n <? 0 then Panic
  else
    let e := Abs d - shl 1 n in
    let! f := if DIV_LUT_BITS <? n then Round2 e (n - DIV_LUT_BITS) else Ok (shl e (DIV_LUT_BITS - n)) in
    let! k := idx Div_Lut f in
    Ok (n + DIV_LUT_PREC_BITS, if d <? 0 then - k else k).
(** predict_inter.go:400-403: rounded to a multiple of 64 *)
Definition reduceParam (v : Z) : res Z := let! r := Round2Signed v WARP_PARAM_REDUCE_BITS in Ok (shl r WARP_PARAM_REDUCE_BITS).
(** predict_inter.go:389-415 setupShearProcess: warpValid, alpha, beta, gamma, delta *)
Definition setupShear (p : list Z) : res (bool * Z * Z * Z * Z) :=
  let! p2 := idx p 2 in let! p3 := idx p 3 in let! p4 := idx p 4 in let! p5 := idx p 5 in
  let alpha0 := Clip3 (-32768) 32767 (p2 - shl 1 WARPEDMODEL_PREC_BITS) in
  let beta0 := Clip3 (-32768) 32767 p3 in
  let! d := resolveDivisor p2 in
  let (divShift, divFactor) := d in
  let v := shl p4 WARPEDMODEL_PREC_BITS in
  let! g := Round2Signed (v * divFactor) divShift in
  let gamma0 := Clip3 (-32768) 32767 g in
  let w := p3 * p4 in
  let! q := Round2Signed (w * divFactor) divShift in
  let delta0 := Clip3 (-32768) 32767 (p5 - q - shl 1 WARPEDMODEL_PREC_BITS) in
  let! alpha := reduceParam alpha0 in
  let! beta := reduceParam beta0 in
  let! gamma := reduceParam gamma0 in
  let! delta := reduceParam delta0 in
  let valid := negb (shl 1 WARPEDMODEL_PREC_BITS <=? 4 * Abs alpha + 7 * Abs beta) && negb (shl 1 WARPEDMODEL_PREC_BITS <=? 4 * Abs gamma + 4 * Abs delta) in
  Ok (valid, alpha, beta, gamma, delta).
(** predict_inter.go:441-452 warpEstimationProcess: A, Bx, By are nil, so the first pass of the first loop panics; the rest of the function (454-511) is left out *)
Definition warpEstimation : res unit :=
  let! _ := rfor_to 0 2 (fun i s => let '(A, Bx, By) := s in
    let! A := rfor_to 0 2 (fun j A => upd2 A i j 0) A in
    let! Bx := upd Bx i 0 in
    let! By := upd By i 0 in
    Ok (A, Bx, By)) (@nil (list Z), @nil Z, @nil Z) in
  Ok tt.
(** predict_inter.go:319-386 blockWarpProcess: intermediate is nil, so the first value computed for it panics; the second stage (371-383) is left out *)
Definition blockWarp (e : PEnv) (k : KEnv) (r0 : Z) (useWarp plane refList x y i8 j8 : Z) : res unit :=
  let! rf := idx (pRefFrame e) refList in
  let! refIdx := idx (pIdx e) (rf - LAST_FRAME) in
  let! ref := idx (pStore e) refIdx in
  let! rw := idx (pRefW e) refIdx in
  let! rh := idx (pRefH e) refIdx in
  let lastX := shr (rw + subx e plane) (subx e plane) - 1 in
  let lastY := shr (rh + suby e plane) (suby e plane) - 1 in
  let srcX := shl (x + j8 * 8 + 4) (subx e plane) in
  let srcY := shl (y + i8 * 8 + 4) (suby e plane) in
  let! p := if useWarp =? 1 then Ok (kLocal k) else idx (pGm e) rf in
  let! p0 := idx p 0 in let! p1 := idx p 1 in let! p2 := idx p 2 in let! p3 := idx p 3 in let! p4 := idx p 4 in let! p5 := idx p 5 in
  let dstX := p2 * srcX + p3 * srcY + p0 in
  let dstY := p4 * srcX + p5 * srcY + p1 in
  let! s := setupShear p in
  let '(_, alpha, beta, gamma, delta) := s in
  let x4 := shr dstX (subx e plane) in
  let y4 := shr dstY (suby e plane) in
  let ix4 := shr x4 WARPEDMODEL_PREC_BITS in
  let sx4 := Z.land x4 (shl 1 WARPEDMODEL_PREC_BITS - 1) in
  let iy4 := shr y4 WARPEDMODEL_PREC_BITS in
  let! _ := rfor_to (-7) 8 (fun i1 m => rfor_to (-4) 4 (fun i2 m =>
    let sx := sx4 + alpha * i2 + beta * i1 in
    let! o := Round2 sx WARPEDDIFF_PREC_BITS in
    let offs := o + WARPEDPIXEL_PREC_SHIFTS in
    let! s := rfor_to 0 8 (fun i3 s => let! f := idx2 Warped_Filters offs i3 in
      let! v := idx3 ref plane (Clip3 0 lastY (iy4 + i1)) (Clip3 0 lastX (ix4 + i2 - 3 + i3)) in Ok (s + f * v)) 0 in
    let! v := Round2 s r0 in
    upd2 m (i1 + 7) (i2 + 4) v) m) (@nil (list Z)) in
  Ok tt.

(** predict_inter.go:604-617 overlapBlendingProcess: mask by row when pass is false, by column otherwise *)
Definition overlapBlending (plane predX predY predW predH : Z) (pass : bool) (obmcPred : list (list Z)) (mask : list Z) (f : frame) : res frame :=
  rfor_to 0 predH (fun i f => rfor_to 0 predW (fun j f =>
    let! m := if negb pass then idx mask i else idx mask j in
    let! c := idx3 f plane (predY + i) (predX + j) in
    let! o := idx2 obmcPred i j in
    let! v := Round2 (m * c + (64 - m) * o) 6 in
    upd3 f plane (predY + i) (predX + j) v) f) f.
(** predict_inter.go:542-557 and 582-597: one neighbour: predict from its vector, clip, blend *)
Definition overlapOne (e : PEnv) (r0 r1 : Z) (plane x4 y4 predW predH candRow candCol : Z) (pass : bool) (mask : list Z) (f : frame) : res frame :=
  let! mv := idx3 (pMvs e) candRow candCol 0 in
  let! rf := idx3 (pRefFrames e) candRow candCol 0 in
  let! refIdx := idx (pIdx e) (rf - LAST_FRAME) in
  let predX := shr (x4 * 4) (subx e plane) in
  let predY := shr (y4 * 4) (suby e plane) in
  let! sc := motionVectorScaling e plane refIdx predX predY mv in
  let '(startX, startY, stepX, stepY) := sc in
  let! obmcPred := blockInter e r0 r1 plane refIdx startX startY stepX stepY predW predH candRow candCol in
  let! obmcPred := rfor_to 0 predH (fun i o => rfor_to 0 predW (fun j o => let! v := idx2 o i j in upd2 o i j (Clip1 v (pBd e))) o) obmcPred in
  overlapBlending plane predX predY predW predH pass obmcPred mask f.
(** predict_inter.go:531-561: the loop over the row above; each pass moves on by at least two units *)
Fixpoint overlapAbove (fuel : nat) (e : PEnv) (k : KEnv) (r0 r1 plane w h x4 nCount nLimit w4 : Z) (f : frame) : res frame :=
  match fuel with
  | O => Hang
  | S fuel =>
      if (nCount <? nLimit) && (x4 <? Min (kCols k) (kCol k + w4)) then
        let candRow := kRow k - 1 in
        let candCol := Z.lor x4 1 in
        let! candSz := idx2 (kSizes k) candRow candCol in
        let! n4 := idx NUM_4X4_BLOCKS_WIDE candSz in
        let step4 := Clip3 2 16 n4 in
        let! rf := idx3 (pRefFrames e) candRow candCol 0 in
        if INTRA_FRAME <? rf then
          let predW := Min w (shr (step4 * MI_SIZE) (subx e plane)) in
          let predH := Min (shr h 1) (shr 32 (suby e plane)) in
          let! f := overlapOne e r0 r1 plane x4 (kRow k) predW predH candRow candCol false (GetObmcMask predW) f in
          overlapAbove fuel e k r0 r1 plane w h (x4 + step4) (nCount + 1) nLimit w4 f
        else overlapAbove fuel e k r0 r1 plane w h (x4 + step4) nCount nLimit w4 f
      else Ok f
  end.
(** predict_inter.go:571-600: the loop over the column to the left (sic: pass is 0 here too) *)
Fixpoint overlapLeft (fuel : nat) (e : PEnv) (k : KEnv) (r0 r1 plane w h y4 nCount nLimit h4 : Z) (f : frame) : res frame :=
  match fuel with
  | O => Hang
  | S fuel =>
      if (nCount <? nLimit) && (y4 <? Min (kRows k) (kRow k + h4)) then
        let candCol := kCol k - 1 in
        let candRow := Z.lor y4 1 in
        let! candSz := idx2 (kSizes k) candRow candCol in
        let! n4 := idx NUM_4X4_BLOCKS_HIGH candSz in
        let step4 := Clip3 2 16 n4 in
        let! rf := idx3 (pRefFrames e) candRow candCol 0 in
        if INTRA_FRAME <? rf then
          let predW := Min (shr w 1) (shr 32 (subx e plane)) in
          let predH := Min h (shr (step4 * MI_SIZE) (suby e plane)) in
          let! f := overlapOne e r0 r1 plane (kCol k) y4 predW predH candRow candCol false (GetObmcMask predW) f in
          overlapLeft fuel e k r0 r1 plane w h (y4 + step4) (nCount + 1) nLimit h4 f
        else overlapLeft fuel e k r0 r1 plane w h (y4 + step4) nCount nLimit h4 f
      else Ok f
  end.
(** predict_inter.go:514-602 overlappedMotionCompensationProcess; 33 passes are enough: a block is at most 32 units wide *)
Definition overlapped (e : PEnv) (k : KEnv) (r0 r1 plane w h : Z) (f : frame) : res frame :=
  let! f :=
    if kAvailU k then
      let! sz := getPlaneResidualSize (pSubX e) (pSubY e) (kSize k) plane in
      if BLOCK_8X8 <=? sz then
        let! w4 := idx NUM_4X4_BLOCKS_WIDE (kSize k) in
        let! l := idx MI_WIDTH_LOG2 (kSize k) in
        overlapAbove 33 e k r0 r1 plane w h (kCol k) 0 (Min 4 l) w4 f
      else Ok f
    else Ok f in
  if kAvailL k then
    let! h4 := idx NUM_4X4_BLOCKS_HIGH (kSize k) in
    let! l := idx MI_HEIGHT_LOG2 (kSize k) in
    overlapLeft 33 e k r0 r1 plane w h (kRow k) 0 (Min 4 l) h4 f
  else Ok f.

(** ** predictInter *)
(** predict_inter.go:39-42, 93-96: whether the global motion of refFrame is valid (sic: A || B && C) *)
Definition globalValidOf (e : PEnv) (k : KEnv) (refFrame : Z) : res bool :=
  let! c := if kYMode k =? GLOBALMV then Ok true else if kYMode k =? GLOBAL_GLOBALMV then let! t := idx (pGmType e) refFrame in Ok (TRANSLATION <? t) else Ok false in
  if c then let! p := idx (pGm e) refFrame in let! s := setupShear p in let '(v, _, _, _, _) := s in Ok v else Ok false.
(** predict_inter.go:44-53, 98-107 *)
Definition useWarpOf (e : PEnv) (k : KEnv) (localValid globalValid : bool) (refFrame w h : Z) : res Z :=
  if (w <? 8) || (h <? 8) then Ok 0
  else if pForceInt e then Ok 0
  else if (kMotion k =? LOCALWARP) && localValid then Ok 1
  else if (kYMode k =? GLOBALMV) || (kYMode k =? GLOBAL_GLOBALMV) then
    let! t := idx (pGmType e) refFrame in
    if TRANSLATION <? t then let! s := isScaled e refFrame in Ok (if negb s && globalValid then 2 else 0) else Ok 0
  else Ok 0.
(** predict_inter.go:36-86, 89-139: the prediction of one reference.
    With intra block copy refIdx is -1 and motionVectorScalingProcess panics at its first index; the sizes stored for it before and after (62-64, 68-72) are left out. *)
Definition predictOne (e : PEnv) (k : KEnv) (r0 r1 : Z) (localValid : bool) (refList plane x y w h candRow candCol : Z) : res (list (list Z)) :=
  let! refFrame := idx3 (pRefFrames e) candRow candCol refList in
  let! globalValid := globalValidOf e k refFrame in
  let! useWarp := useWarpOf e k localValid globalValid refFrame w h in
  let! mv := idx3 (pMvs e) candRow candCol refList in
  let! refIdx := if negb (bool_of (kIntrabc k)) then idx (pIdx e) (refFrame - LAST_FRAME) else Ok (-1) in
  let! sc := motionVectorScaling e plane refIdx x y mv in
  let '(startX, startY, stepX, stepY) := sc in
  if useWarp =? 0 then blockInter e r0 r1 plane refIdx startX startY stepX stepY w h candRow candCol
  else
    let! _ := rfor_to 0 (shr (h - 1) 3 + 1) (fun i8 u => rfor_to 0 (shr (w - 1) 3 + 1) (fun j8 u => blockWarp e k r0 useWarp plane refList x y i8 j8) u) tt in
    Ok (repeat (repeat 0 16) 16).
(** predict_inter.go:144-150, 629-661: the masks, written to the nil t.Mask (sic); wedgemask.InitialiseWedgeMaskTable panics before that.  Nothing is written when w or h is not positive. *)
Definition maskWrites (w h : Z) : res unit :=
  let! _ := rfor_to 0 h (fun i m => rfor_to 0 w (fun j m => upd2 m i j 0) m) (@nil (list Z)) in Ok tt.
(** predict_inter.go:620-627 wedgeMaskProcess and wedgemask/wedge_mask.go:77-85 InitialiseWedgeMaskTable: MasterMask is nil, so its first assignment panics; the rest is left out *)
Definition wedgeMask : res unit := let! _ := upd3 (@nil (list (list Z))) WEDGE_OBLIQUE63 0 0 0 in Ok tt.
(** predict_inter.go:698-703 distanceWeightsProcess: dist is nil; the rest (704-729) is left out *)
Definition distanceWeights (e : PEnv) (candRow candCol : Z) : res unit :=
  let! _ := rfor_to 0 2 (fun refList d => let! _ := idx3 (pRefFrames e) candRow candCol refList in upd d refList 0) (@nil Z) in Ok tt.
(** predict_inter.go:22-181 predictInter.
    The second reference is predicted into a nil slice (sic, line 129: "var preds" declares a new one), so its assignment panics.
    [wedge]: wedgeMaskProcess; [blend]: maskBlendProcess, which reads t.Mask: with it nil both panic unless there is nothing to do. *)
Definition predictInter (e : PEnv) (k : KEnv) (plane x y w h candRow candCol : Z) (f : frame) : res frame :=
  let! second := idx3 (pRefFrames e) candRow candCol 1 in
  let isCompound := INTRA_FRAME <? second in
  let (r0, r1) := roundVariables isCompound (pBd e) in
  let! _ := if (plane =? 0) && (kMotion k =? LOCALWARP) then warpEstimation else Ok tt in
  let! localValid := if (plane =? 0) && (kMotion k =? LOCALWARP) && kLocalValid k then let! s := setupShear (kLocal k) in let '(v, _, _, _, _) := s in Ok v else Ok (kLocalValid k) in
  let! preds := predictOne e k r0 r1 localValid 0 plane x y w h candRow candCol in
  let! _ := if isCompound then let! p := predictOne e k r0 r1 localValid 1 plane x y w h candRow candCol in upd (@nil (list (list Z))) 1 p else Ok [] in
  let! _ :=
    if (kCompound k =? COMPOUND_WEDGE) && (plane =? 0) then wedgeMask
    else if kCompound k =? COMPOUND_INTRA then (if Max h w =? 0 then Panic else maskWrites w h)
    else if kCompound k =? COMPOUND_DIFFWTD then maskWrites w h
    else Ok tt in
  let! _ := if kCompound k =? COMPOUND_DISTANCE then distanceWeights e candRow candCol else Ok tt in
  let! f :=
    if negb isCompound && negb (kInterIntra k) then
      rfor_to 0 h (fun i f => rfor_to 0 w (fun j f => let! v := idx2 preds i j in upd3 f plane (y + i) (x + i) (Clip1 v (pBd e))) f) f
    else if kCompound k =? COMPOUND_AVERAGE then
      rfor_to 0 h (fun i f => rfor_to 0 w (fun j f => let! v := idx2 preds i j in let! v := Round2 (v + 0) 1 in upd3 f plane (y + i) (x + i) (Clip1 v (pBd e))) f) f
    else
      let! _ := rfor_to 0 h (fun yy u => rfor_to 0 w (fun xx u => let! _ := idx2 (@nil (list Z)) yy xx in Ok u) u) tt in Ok f in
  if kMotion k =? OBMC then overlapped e k r0 r1 plane w h f else Ok f.

(** ** compute_prediction.go *)
(** What is read besides: sh.Use128x128SuperBlock, t.HasChroma, IsInter; state.RefFrame[1], AvailL, AvailU, AvailLChroma, AvailUChroma, BlockDecoded [3][13][13] *)
Record CEnv := mkCEnv { c128 : bool; cChroma : bool; cInter : bool; cRef1 : Z; cAvL : bool; cAvU : bool; cAvLC : bool; cAvUC : bool; cDec : list (list (list bool)); cIiMode : Z }.
(** A loop "for i := lo; i < n; i += st"; it does not end when st <= 0 < n - lo *)
Fixpoint stepLoop {A} (fuel : nat) (i n st : Z) (f : Z -> A -> res A) (a : A) : res A :=
  match fuel with O => Hang | S fuel => if i <? n then let! a := f i a in stepLoop fuel (i + st) n st f a else Ok a end.
Section Compute.
  Context {A : Type}.
  (** predictIntra: plane x y haveLeft haveAbove haveAboveRight haveBelowLeft mode log2W log2H; predictInter: plane x y w h candRow candCol *)
  Variable intra : Z -> Z -> Z -> bool -> bool -> bool -> bool -> Z -> Z -> Z -> A -> res A.
  Variable inter : Z -> Z -> Z -> Z -> Z -> Z -> Z -> A -> res A.
  (** compute_prediction.go:21-86: one plane *)
  Definition computePlane (e : PEnv) (k : KEnv) (q : CEnv) (plane : Z) (a : A) : res A :=
    let sbMask := if c128 q then 31 else 15 in
    let subBlockMiRow := Z.land (kRow k) sbMask in
    let subBlockMiCol := Z.land (kCol k) sbMask in
    let! planeSz := getPlaneResidualSize (pSubX e) (pSubY e) (kSize k) plane in
    let! num4x4W := idx NUM_4X4_BLOCKS_WIDE planeSz in
    let! num4x4H := idx NUM_4X4_BLOCKS_HIGH planeSz in
    let! lw := idx MI_WIDTH_LOG2 planeSz in
    let! lh := idx MI_HEIGHT_LOG2 planeSz in
    let log2W := MI_SIZE_LOG2 + lw in
    let log2H := MI_SIZE_LOG2 + lh in
    let subX := if 0 <? plane then int_of (pSubX e) else 0 in
    let subY := if 0 <? plane then int_of (pSubY e) else 0 in
    let baseX := shr (kCol k) subX * MI_SIZE in
    let baseY := shr (kRow k) subY * MI_SIZE in
    let candRow := shl (shr (kRow k) subY) subY in
    let candCol := shl (shr (kCol k) subX) subX in
    let! a :=
      if cInter q && (cRef1 q =? INTRA_FRAME) then
        let mode := if cIiMode q =? II_DC_PRED then DC_PRED else if cIiMode q =? II_V_PRED then V_PRED else if cIiMode q =? II_H_PRED then H_PRED else SMOOTH_PRED in
        let haveLeft := if plane =? 0 then cAvL q else cAvLC q in
        let haveAbove := if plane =? 0 then cAvU q else cAvUC q in
        let! ar := idx3 (cDec q) plane (shr subBlockMiRow subY - 1) (shr subBlockMiCol subX + num4x4W) in
        let! bl := idx3 (cDec q) plane (shr subBlockMiRow subY + num4x4H) (shr subBlockMiCol subX - 1) in
        intra plane baseX baseY haveLeft haveAbove ar bl mode log2W log2H a
      else Ok a in
    if cInter q then
      let! bw := idx BLOCK_WIDTH (kSize k) in
      let! bh := idx BLOCK_HEIGHT (kSize k) in
      let! some := rfor_to 0 (shl num4x4H subY) (fun r s => rfor_to 0 (shl num4x4W subX) (fun c s =>
        let! rf := idx3 (pRefFrames e) (candRow + r) (candCol + c) 0 in Ok (if rf =? INTRA_FRAME then true else s)) s) false in
      let predW := if some : bool then num4x4W * 4 else shr bw subX in
      let predH := if some then num4x4H * 4 else shr bh subY in
      let candRow := if some then kRow k else candRow in
      let candCol := if some then kCol k else candCol in
      stepLoop (Z.to_nat num4x4H + 1) 0 num4x4H predH (fun y a =>
        stepLoop (Z.to_nat num4x4W + 1) 0 num4x4W predW (fun x a =>
          inter plane (baseX + x) (baseY + y) predW predH (candRow + 0) (candCol + 0) a) a) a
    else Ok a.
  (** compute_prediction.go:12-88 computePrediction *)
  Definition computePrediction (e : PEnv) (k : KEnv) (q : CEnv) (a : A) : res A :=
    rfor_to 0 (1 + int_of (cChroma q) * 2) (fun plane a => computePlane e k q plane a) a.
End Compute.
