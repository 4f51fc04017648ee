(** Model of internal/tilegroup/inter_frame_mode_info.go, inter_block_mode_info.go and syntax_element.go (whole files).
    The fields of t and state that are written are results.  b.S() panics (bitstream.go), so code behind it is unreachable and left out; each place says so. *)
From Coq Require Import String.
From Verif Require Import GoBase Bitstream Util Constants Tables Symbol CdfMoves CdfMemory Elements LoopFilter Intra ModeInfo.
Local Open Scope string_scope.
Local Open Scope Z_scope.

(** What is read besides: uh (SegmentationUpdateMap, SegmentationTemporalUpdate, SkipModePresent, SkipModeFrame [2], ReferenceSelect, IsMotionModeSwitchable, ForceIntegerMv, AllowWarpedMotion, InterpolationFilter),
    sh (EnableInterIntraCompound, EnableMaskedCompound, EnableJntComp, EnableDualFilter), state (RefFrames [64][64][2], PrevSegmentIds, MiRows, MiCols, FeatureData [8][8], GmType [8], MiSizes [64][64], the bounds of the tile) *)
Record IEnv := mkIEnv { nB : BEnv; nUpdateMap : Z; nTemporal : Z; nSkipPresent : Z; nSkipFrame : list Z; nRefSelect : bool; nSwitchable : bool; nForceInt : bool; nAllowWarp : bool; nInterp : Z;
  nIiEnabled : bool; nMasked : bool; nJnt : bool; nDual : bool;
  nRefs : list (list (list Z)); nPrevSeg : list (list Z); nRows : Z; nCols : Z; nFeatureData : list (list Z); nGm : list Z; nSizes : list (list Z); nRowStart : Z; nRowEnd : Z; nColStart : Z; nColEnd : Z }.
(** t.LeftRefFrame, t.AboveRefFrame *)
Record Nbrs := mkNbrs { nbL0 : Z; nbL1 : Z; nbA0 : Z; nbA1 : Z }.

(** inter_frame_mode_info.go:17-31 *)
Definition neighbours (e : IEnv) : res Nbrs :=
  let b := nB e in
  let! l0 := if bAvailL b then idx3 (nRefs e) (bMiRow b) (bMiCol b - 1) 0 else Ok INTRA_FRAME in
  let! l1 := if bAvailL b then idx3 (nRefs e) (bMiRow b) (bMiCol b - 1) 1 else Ok NONE in
  let! a0 := if bAvailU b then idx3 (nRefs e) (bMiRow b - 1) (bMiCol b) 0 else Ok INTRA_FRAME in
  let! a1 := if bAvailU b then idx3 (nRefs e) (bMiRow b - 1) (bMiCol b) 1 else Ok NONE in
  Ok (mkNbrs l0 l1 a0 a1).
(** inter_frame_mode_info.go:33-34 *)
Definition leftIntra (n : Nbrs) : bool := nbL0 n <=? INTRA_FRAME.
Definition aboveIntra (n : Nbrs) : bool := nbA0 n <=? INTRA_FRAME.

(** syntax_element.go:11-32 countRefs *)
Definition countRefs (e : IEnv) (n : Nbrs) (frameType : Z) : Z :=
  let c := 0 in
  let c := if bAvailU (nB e) then let c := if nbA0 n =? frameType then c + 1 else c in if nbA1 n =? frameType then c + 1 else c else c in
  if bAvailL (nB e) then let c := if nbL0 n =? frameType then c + 1 else c in if nbL1 n =? frameType then c + 1 else c else c.
(** syntax_element.go:34-42 refCountCtx *)
Definition refCountCtx (counts0 counts1 : Z) : Z := if counts0 <? counts1 then 0 else if counts0 =? counts1 then 1 else 2.
(** syntax_element.go:45-51, 72-78 *)
Definition fwdCount (e : IEnv) (n : Nbrs) : Z := countRefs e n LAST_FRAME + countRefs e n LAST2_FRAME + countRefs e n LAST3_FRAME + countRefs e n GOLDEN_FRAME.
Definition bwdCount (e : IEnv) (n : Nbrs) : Z := countRefs e n BWDREF_FRAME + countRefs e n ALTREF2_FRAME + countRefs e n ALTREF_FRAME.
(** syntax_element.go:44-54 singleRefP1Symbol *)
Definition singleRefP1Symbol (e : IEnv) (n : Nbrs) : M ES Z := esym (bDisable (nB e)) "SingleRefCdf" [refCountCtx (fwdCount e n) (bwdCount e n); 0].
(** syntax_element.go:56-62 singleRefP2Symbol *)
Definition singleRefP2Symbol (e : IEnv) (n : Nbrs) : M ES Z := esym (bDisable (nB e)) "SingleRefCdf" [refCountCtx (countRefs e n BWDREF_FRAME) (countRefs e n ALTREF2_FRAME); 1].
(** syntax_element.go:64-69 singleRefP3Symbol *)
Definition singleRefP3Symbol (e : IEnv) (n : Nbrs) : M ES Z :=
  esym (bDisable (nB e)) "SingleRefCdf" [refCountCtx (countRefs e n LAST_FRAME + countRefs e n LAST2_FRAME) (countRefs e n LAST3_FRAME + countRefs e n GOLDEN_FRAME); 2].
(** syntax_element.go:71-81 singleRefP4Symbol *)
Definition singleRefP4Symbol (e : IEnv) (n : Nbrs) : M ES Z := esym (bDisable (nB e)) "SingleRefCdf" [refCountCtx (fwdCount e n) (bwdCount e n); 3].
(** syntax_element.go:83-89 singleRefP6Symbol *)
Definition singleRefP6Symbol (e : IEnv) (n : Nbrs) : M ES Z := esym (bDisable (nB e)) "SingleRefCdf" [refCountCtx (countRefs e n BWDREF_FRAME) (countRefs e n ALTREF2_FRAME); 5].
(** inter_block_mode_info.go:193-224: one reference; single_ref_p5 is read with b.S() (line 210) *)
Definition readSingleRef (e : IEnv) (n : Nbrs) : M ES Z :=
  let* p1 := singleRefP1Symbol e n in
  if bool_of p1 then
    let* p2 := singleRefP2Symbol e n in
    if p2 =? 0 then let* p6 := singleRefP6Symbol e n in ret (if bool_of p6 then ALTREF2_FRAME else BWDREF_FRAME)
    else ret ALTREF_FRAME
  else
    let* p3 := singleRefP3Symbol e n in
    if bool_of p3 then let* p5 := bS in ret (if bool_of p5 then GOLDEN_FRAME else LAST3_FRAME)
    else let* p4 := singleRefP4Symbol e n in ret (if bool_of p4 then LAST2_FRAME else LAST_FRAME).
(** inter_block_mode_info.go:112-228 readRefFrames: state.RefFrame; comp_mode is read with b.S() (line 125), so the compound references (130-191) are left out *)
Definition readRefFrames (e : IEnv) (n : Nbrs) (skipMode seg : Z) : M ES (Z * Z) :=
  if bool_of skipMode then let* a := lift (idx (nSkipFrame e) 0) in let* b := lift (idx (nSkipFrame e) 1) in ret (a, b)
  else
    let* active := lift (segFeatureActive (nB e) seg SEG_LVL_REF_FRAME) in
    if (active : bool) then let* a := lift (idx2 (nFeatureData e) seg SEG_LVL_REF_FRAME) in ret (a, NONE)
    else
      let* bw4 := lift (idx NUM_4X4_BLOCKS_WIDE (bMiSize (nB e))) in
      let* bh4 := lift (idx NUM_4X4_BLOCKS_HIGH (bMiSize (nB e))) in
      let* compMode := if nRefSelect e && (2 <=? Min bw4 bh4) then bS else ret SINGLE_REFERENCE in
      if compMode =? COMPOUND_REFERENCE then panic
      else let* r := readSingleRef e n in ret (r, NONE).

(** inter_frame_mode_info.go:157-171 getSegmentId *)
Definition getSegmentId (e : IEnv) : res Z :=
  let b := nB e in
  let! bw4 := idx NUM_4X4_BLOCKS_WIDE (bMiSize b) in
  let! bh4 := idx NUM_4X4_BLOCKS_HIGH (bMiSize b) in
  let xMis := Min (nCols e - bMiCol b) bw4 in
  let yMis := Min (nRows e - bMiRow b) bh4 in
  rfor_to 0 yMis (fun y seg => rfor_to 0 xMis (fun x seg => let! v := idx2 (nPrevSeg e) (bMiRow b + y) (bMiCol b + x) in Ok (Min seg v)) seg) 7.
(** inter_frame_mode_info.go:119-124: the flags, written twice to AboveSegPredContext (sic: the second time for the left side) *)
Definition segPredContext (e : IEnv) (v : Z) (ctx : list Z) : res (list Z) :=
  let b := nB e in
  let! bw4 := idx NUM_4X4_BLOCKS_WIDE (bMiSize b) in
  let! bh4 := idx NUM_4X4_BLOCKS_HIGH (bMiSize b) in
  let! ctx := rfor_to 0 bw4 (fun i c => upd c (bMiCol b + i) v) ctx in
  rfor_to 0 bh4 (fun i c => upd c (bMiRow b + i) v) ctx.
(** inter_frame_mode_info.go:106-154 interSegmentId: t.SegmentId and t.AboveSegPredContext; the flag of temporal prediction is read with b.S() (line 131), the rest of that branch is left out *)
Definition interSegmentId (e : IEnv) (preSkip skip : Z) (ctx : list Z) : M ES (Z * list Z) :=
  if bSegEnabled (nB e) then
    let* predicted := lift (getSegmentId e) in
    if bool_of (nUpdateMap e) then
      if bool_of preSkip && negb (bool_of (bSegPreSkip (nB e))) then ret (0, ctx)
      else if negb (bool_of preSkip) && bool_of skip then
        let* ctx := lift (segPredContext e 0 ctx) in
        let* s := readSegmentId (nB e) skip in ret (s, ctx)
      else if nTemporal e =? 1 then panic
      else let* s := readSegmentId (nB e) skip in ret (s, ctx)
    else ret (predicted, ctx)
  else ret (0, ctx).

(** inter_frame_mode_info.go:174-180 readSkipMode *)
Definition readSkipMode (e : IEnv) (seg : Z) : M ES Z :=
  let b := nB e in
  let* a := lift (segFeatureActive b seg SEG_LVL_SKIP) in
  let* r := lift (if (a : bool) then Ok true else segFeatureActive b seg SEG_LVL_REF_FRAME) in
  let* g := lift (if (r : bool) then Ok true else segFeatureActive b seg SEG_LVL_GLOBALMV) in
  let* w := lift (idx BLOCK_WIDTH (bMiSize b)) in
  let* h := lift (idx BLOCK_HEIGHT (bMiSize b)) in
  if (g : bool) || negb (bool_of (nSkipPresent e)) || (w <? 8) || (h <? 8) then ret 0 else bS.
(** inter_frame_mode_info.go:192-208: the context *)
Definition isInterCtx (e : IEnv) (n : Nbrs) : Z :=
  let b := nB e in
  if bAvailU b && bAvailL b then if leftIntra n && aboveIntra n then 3 else int_of (leftIntra n || aboveIntra n)
  else if bAvailU b || bAvailL b then if bAvailU b then 2 * int_of (aboveIntra n) else 2 * int_of (leftIntra n)
  else 0.
(** inter_frame_mode_info.go:183-212 readIsInter: t.IsInter *)
Definition readIsInter (e : IEnv) (n : Nbrs) (skipMode seg : Z) : M ES Z :=
  if bool_of skipMode then ret 1
  else
    let* r := lift (segFeatureActive (nB e) seg SEG_LVL_REF_FRAME) in
    if (r : bool) then let* v := lift (idx2 (nFeatureData e) seg SEG_LVL_REF_FRAME) in ret (int_of (negb (v =? INTRA_FRAME)))
    else
      let* g := lift (segFeatureActive (nB e) seg SEG_LVL_GLOBALMV) in
      if (g : bool) then ret 0 else esym (bDisable (nB e)) "IsInterCdf" [isInterCtx e n].

(** inter_frame_mode_info.go:214-217 SIZE_GROUP *)
Definition SIZE_GROUP : list Z := [0; 0; 0; 1; 1; 1; 2; 2; 2; 3; 3; 3; 3; 3; 3; 3; 0; 0; 1; 1; 2; 2].
(** inter_frame_mode_info.go:75-84: the chroma mode *)
Definition uvModeInter (e : BEnv) (lossless : bool) (ymode : Z) : M ES Z :=
  let* small := lift (if lossless then let! b := getPlaneResidualSize (bSubX e) (bSubY e) (bMiSize e) 1 in Ok (b =? BLOCK_4X4) else Ok false) in
  if (small : bool) then esym (bDisable e) "UVModeCflAllowedCdf" [ymode]
  else
    let* allowed := lift (if negb lossless then let! w := idx BLOCK_WIDTH (bMiSize e) in let! h := idx BLOCK_HEIGHT (bMiSize e) in Ok (Max w h <=? 32) else Ok false) in
    if (allowed : bool) then esym (bDisable e) "UVModeCflAllowedCdf" [ymode] else esym (bDisable e) "UVModeCflNotAllowedCdf" [ymode].
(** inter_frame_mode_info.go:74-91: the chroma part *)
Definition interChroma (e : BEnv) (lossless : bool) (ymode : Z) : M ES (Z * option (Z * Z) * Z) :=
  let* m := uvModeInter e lossless ymode in
  let* cfl := if m =? UV_CFL_PRED then let* a := readCflAlphas (bDisable e) in ret (Some a) else ret None in
  let* ang := intraAngleInfo e m in ret (m, cfl, ang).
(** inter_frame_mode_info.go:67-103 intraBlockModeInfo: YMode, AngleDeltaY, the chroma part; RefFrame becomes (INTRA_FRAME, NONE) *)
Definition intraBlockModeInfo (e : BEnv) (lossless : bool) : M ES (Z * Z * option (Z * option (Z * Z) * Z)) :=
  let* g := lift (idx SIZE_GROUP (bMiSize e)) in
  let* ymode := esym (bDisable e) "YModeCdf" [g] in
  let* yang := intraAngleInfo e ymode in
  let* uv := if bHasChroma e then let* c := interChroma e lossless ymode in ret (Some c) else ret None in
  let* w := lift (idx BLOCK_WIDTH (bMiSize e)) in
  let* h := lift (idx BLOCK_HEIGHT (bMiSize e)) in
  (if (BLOCK_8X8 <=? bMiSize e) && (w <=? 64) && (h <=? 64) && bool_of (bScreen e) then paletteModeInfo e ymode (match uv with Some c => Some (fst (fst c)) | None => None end) else ret tt) ;;
  filterIntraModeInfo e ymode ;;
  ret (ymode, yang, uv).

(** inter_block_mode_info.go:30-55: t.YMode; compound_mode and ref_mv are read with b.S() (lines 35, 47) *)
Definition readInterMode (e : IEnv) (skipMode seg : Z) (isCompound : bool) (newCtx zeroCtx : Z) : M ES Z :=
  let b := nB e in
  if bool_of skipMode then ret NEAREST_NEARESTMV
  else
    let* a := lift (segFeatureActive b seg SEG_LVL_SKIP) in
    let* g := lift (if (a : bool) then Ok true else segFeatureActive b seg SEG_LVL_GLOBALMV) in
    if (g : bool) then ret GLOBALMV
    else if isCompound then let* c := bS in ret (NEAREST_NEARESTMV + c)
    else
      let* newMv := esym (bDisable b) "NewMvCdf" [newCtx] in
      if newMv =? 0 then ret NEWMV
      else
        let* zeroMv := esym (bDisable b) "ZeroMvCdf" [zeroCtx] in
        if zeroMv =? 0 then ret GLOBALMV
        else let* refMv := bS in ret (if refMv =? 0 then NEARESTMV else NEARMV).
(** inter_block_mode_info.go:491-493 hasNearmv *)
Definition hasNearmv (m : Z) : bool := (m =? NEARMV) || (m =? NEAR_NEARMV) || (m =? NEAR_NEWMV) || (m =? NEW_NEARMV).
(** inter_block_mode_info.go:59-68, 71-80: the loop over two candidates, from [i]; drl_mode is read with b.S() *)
Definition drlLoop (found i start : Z) : M ES Z :=
  if i + 1 <? found then panic else if i + 1 + 1 <? found then panic else ret start.
(** inter_block_mode_info.go:57-81: t.RefMvIdx *)
Definition readDrl (ymode found : Z) : M ES Z :=
  if (ymode =? NEWMV) || (ymode =? NEW_NEWMV) then drlLoop found 0 0 else if hasNearmv ymode then drlLoop found 1 1 else ret 0.

(** inter_block_mode_info.go:341-396 addSample: (NumSamples, NumSamplesScanned); the candidate is stored in a nil slice (line 379): the rest (380-395) is left out *)
Definition addSample (e : IEnv) (ref0 deltaRow deltaCol : Z) (s : Z * Z) : res (Z * Z) :=
  if LEAST_SQUARES_SAMPLES_MAX <=? snd s then Ok s
  else
    let mvRow := bMiRow (nB e) + deltaRow in
    let mvCol := bMiCol (nB e) + deltaCol in
    if negb ((nColStart e <=? mvCol) && (mvCol <? nColEnd e) && (nRowStart e <=? mvRow) && (mvRow <? nRowEnd e)) then Ok s
    else
      let! r0 := idx3 (nRefs e) mvRow mvCol 0 in
      if r0 =? 0 then Ok s
      else if negb (r0 =? ref0) then Ok s
      else
        let! r1 := idx3 (nRefs e) mvRow mvCol 1 in
        if negb (r1 =? NONE) then Ok s else Panic.
(** inter_block_mode_info.go:294-300, 314-320: a loop along a side; [size i] is the length of the neighbour at i, at least 1 *)
Fixpoint sampleLoop (fuel : nat) (i n w : Z) (size : Z -> res Z) (add : Z -> Z * Z -> res (Z * Z)) (s : Z * Z) : res (Z * Z) :=
  match fuel with
  | O => Hang
  | S fuel => if i <? n then let! sz := size i in let! s := add i s in sampleLoop fuel (i + Min w sz) n w size add s else Ok s
  end.
(** inter_block_mode_info.go:280-302: the row above: (NumSamples, NumSamplesScanned), doTopLeft, doTopRight *)
Definition samplesAbove (e : IEnv) (ref0 w4 : Z) : res (Z * Z * bool * bool) :=
  let b := nB e in
  if bAvailU b then
    let! srcSize := idx2 (nSizes e) (bMiRow b - 1) (bMiCol b) in
    let! srcW := idx NUM_4X4_BLOCKS_WIDE srcSize in
    if w4 <=? srcW then
      let colOffset := - Z.land (bMiCol b) (srcW - 1) in
      let! s := addSample e ref0 (-1) 0 (0, 0) in
      Ok (s, negb (colOffset <? 0), negb (w4 <? colOffset + srcW))
    else
      let! s := sampleLoop 33 0 (Min w4 (nCols e - bMiCol b)) w4 (fun i => let! z := idx2 (nSizes e) (bMiRow b - 1) (bMiCol b + i) in idx NUM_4X4_BLOCKS_WIDE z) (fun i s => addSample e ref0 (-1) i s) (0, 0) in
      Ok (s, true, true)
  else Ok (0, 0, true, true).
(** inter_block_mode_info.go:303-322: the column to the left *)
Definition samplesLeft (e : IEnv) (ref0 h4 : Z) (s : Z * Z) (doTopLeft : bool) : res (Z * Z * bool) :=
  let b := nB e in
  if bAvailL b then
    let! srcSize := idx2 (nSizes e) (bMiRow b) (bMiCol b - 1) in
    let! srcH := idx NUM_4X4_BLOCKS_HIGH srcSize in
    if h4 <=? srcH then
      let rowOffset := - Z.land (bMiRow b) (srcH - 1) in
      let! s := addSample e ref0 0 (-1) s in
      Ok (s, if rowOffset <? 0 then false else doTopLeft)
    else
      let! s := sampleLoop 33 0 (Min h4 (nRows e - bMiRow b)) h4 (fun i => let! z := idx2 (nSizes e) (bMiRow b + i) (bMiCol b - 1) in idx NUM_4X4_BLOCKS_HIGH z) (fun i s => addSample e ref0 i (-1) s) s in
      Ok (s, doTopLeft)
  else Ok (s, doTopLeft).
(** inter_block_mode_info.go:270-338 findWarpSamples: t.NumSamples, t.NumSamplesScanned *)
Definition findWarpSamples (e : IEnv) (ref0 : Z) : res (Z * Z) :=
  let b := nB e in
  let! w4 := idx NUM_4X4_BLOCKS_WIDE (bMiSize b) in
  let! h4 := idx NUM_4X4_BLOCKS_HIGH (bMiSize b) in
  let! a := samplesAbove e ref0 w4 in
  let '(s, tl, tr) := a in
  let! l := samplesLeft e ref0 h4 s tl in
  let '(s, tl) := l in
  let! s := if (tl : bool) then addSample e ref0 (-1) (-1) s else Ok s in
  let! s := if (tr : bool) && (Max w4 h4 <=? 16) then addSample e ref0 (-1) w4 s else Ok s in
  Ok (if (fst s =? 0) && (0 <? snd s) then (1, snd s) else s).
(** inter_block_mode_info.go:231-266 readMotionMode: t.MotionMode; [scaled] is isScaled (util.go:17-24).  use_obmc and motion_mode are read with b.S() *)
Definition readMotionMode (e : IEnv) (scaled : Z -> res bool) (skipMode ymode ref0 : Z) : M ES Z :=
  let b := nB e in
  if bool_of skipMode then ret SIMPLE
  else if negb (nSwitchable e) then ret SIMPLE
  else
    let* w := lift (idx BLOCK_WIDTH (bMiSize b)) in
    let* h := lift (idx BLOCK_HEIGHT (bMiSize b)) in
    if Min w h <? 8 then ret SIMPLE
    else
      let* warped := lift (if negb (nForceInt e) && ((ymode =? GLOBALMV) || (ymode =? GLOBAL_GLOBALMV)) then let! t := idx (nGm e) ref0 in Ok (TRANSLATION <? t) else Ok false) in
      if (warped : bool) then ret SIMPLE
      else
        let* s := lift (findWarpSamples e ref0) in
        let* _ := lift (if nForceInt e || (fst s =? 0) || negb (nAllowWarp e) then Ok true else scaled ref0) in
        bS.

(** inter_block_mode_info.go:399-411 needsInterpFilter *)
Definition needsInterpFilter (e : IEnv) (skipMode motion ymode ref0 : Z) : res bool :=
  let! w := idx BLOCK_WIDTH (bMiSize (nB e)) in
  let! h := idx BLOCK_HEIGHT (bMiSize (nB e)) in
  let large := 8 <=? Min w h in
  if bool_of skipMode || (motion =? LOCALWARP) then Ok false
  else if large && (ymode =? GLOBALMV) then let! t := idx (nGm e) ref0 in Ok (t =? TRANSLATION)
  else if large && (ymode =? GLOBAL_GLOBALMV) then let! t := idx (nGm e) ref0 in if t =? TRANSLATION then Ok true else let! u := idx (nGm e) 1 in Ok (u =? TRANSLATION)
  else Ok true.
(** inter_block_mode_info.go:88-108: t.InterpFilter [2]; interp_filter is read with b.S() *)
Definition readInterpFilter (e : IEnv) (skipMode motion ymode ref0 : Z) (f : list Z) : M ES (list Z) :=
  if nInterp e =? SWITCHABLE then
    let* f := for_to 0 (if nDual e then 2 else 1) (fun dir f =>
      let* need := lift (needsInterpFilter e skipMode motion ymode ref0) in
      let* v := if (need : bool) then bS else ret EIGHTTAP in
      lift (upd f dir v)) f in
    if negb (nDual e) then let* v := lift (idx f 0) in lift (upd f 1 v) else ret f
  else for_to 0 2 (fun dir f => lift (upd f dir (nInterp e))) f.
(** inter_block_mode_info.go:414-466 readCompoundType: t.CompGroupIdx, t.CompoundIdx, t.CompoundType.  For two references every element is read with b.S():
    comp_group_idx (425), compound_idx (430); the branches behind them are left out.  n (line 423) is not used before them. *)
Definition readCompoundType (e : IEnv) (skipMode : Z) (isCompound : bool) (interIntra wedge : Z) : M ES (Z * Z * Z) :=
  if bool_of skipMode then ret (0, 1, COMPOUND_AVERAGE)
  else if isCompound then
    if nMasked e then panic else if nJnt e then panic else ret (0, 1, COMPOUND_AVERAGE)
  else ret (0, 1, if bool_of interIntra then if bool_of wedge then COMPOUND_WEDGE else COMPOUND_INTRA else COMPOUND_AVERAGE).
(** inter_block_mode_info.go:469-488 readInterIntraMode: t.InterIntra; interintra is read with b.S() (sic: only in skip mode, and above 8x8) *)
Definition readInterIntraMode (e : IEnv) (skipMode : Z) (isCompound : bool) : M ES Z :=
  if bool_of skipMode && nIiEnabled e && negb isCompound && (BLOCK_8X8 <? bMiSize (nB e)) && (bMiSize (nB e) <=? BLOCK_32X32) then panic else ret 0.

Section InterBlock.
  Context {V : Type}.
  (** findMvStack (MvStack.v): NumMvFound, NewMvContext, ZeroMvContext; assignMv (MvRead.v); isScaled (PredictInter.v) *)
  Variable stack : bool -> Z * Z -> res (Z * Z * Z).
  Variable assign : bool -> Z * Z -> Z -> Z -> M ES V.
  Variable scaled : Z -> res bool.
  (** what interBlockModeInfo leaves: RefFrame, YMode, RefMvIdx, the vectors, InterIntra, MotionMode, (CompGroupIdx, CompoundIdx, CompoundType), InterpFilter *)
  Record InterInfo := mkInterInfo { yRef : Z * Z; yMode : Z; yIdx : Z; yMv : V; yIi : Z; yMotion : Z; yCompound : Z * Z * Z; yFilter : list Z }.
  (** inter_block_mode_info.go:22-109 interBlockModeInfo; [wedge] is t.WedgeInterIntra, [f] t.InterpFilter *)
  Definition interBlockModeInfo (e : IEnv) (n : Nbrs) (skipMode seg wedge : Z) (f : list Z) : M ES InterInfo :=
    let* ref := readRefFrames e n skipMode seg in
    let isCompound := INTRA_FRAME <? snd ref in
    let* st := lift (stack isCompound ref) in
    let '(found, newCtx, zeroCtx) := st in
    let* ymode := readInterMode e skipMode seg isCompound newCtx zeroCtx in
    let* i := readDrl ymode found in
    let* mv := assign isCompound ref ymode i in
    let* ii := readInterIntraMode e skipMode isCompound in
    let* motion := readMotionMode e scaled skipMode ymode (fst ref) in
    let* ct := readCompoundType e skipMode isCompound ii wedge in
    let* f := readInterpFilter e skipMode motion ymode (fst ref) f in
    ret (mkInterInfo ref ymode i mv ii motion ct f).

  (** what interFrameModeInfo leaves: Skip, SegmentId, AboveSegPredContext, Lossless, CdefIdx, CurrentQIndex, DeltaLF, and the block: inter or intra *)
  Record FrameInfo := mkFrameInfo { zSkip : Z; zSkipMode : Z; zSeg : Z; zCtx : list Z; zLossless : bool; zCdef : list (list Z); zQ : Z; zLf : list Z; zBlock : InterInfo + (Z * Z * option (Z * option (Z * Z) * Z)) }.
  (** inter_frame_mode_info.go:14-64 interFrameModeInfo *)
  Definition interFrameModeInfo (e : IEnv) (readDeltas : bool) (wedge : Z) (ctx : list Z) (g : list (list Z)) (q : Z) (lf f : list Z) : M ES FrameInfo :=
    let* n := lift (neighbours e) in
    let* s := interSegmentId e 1 0 ctx in
    let* skipMode := readSkipMode e (fst s) in
    let* skip := if bool_of skipMode then ret 1 else readSkip (nB e) (fst s) in
    let* s := if negb (bool_of (bSegPreSkip (nB e))) then interSegmentId e 0 skip (snd s) else ret s in
    let* ll := lift (idx (bLosslessArray (nB e)) (fst s)) in
    let* g := readCdef (nB e) skip g in
    let* q := readDeltaQIndex (nB e) skip readDeltas q in
    let* lf := readDeltaLf (nB e) skip readDeltas lf in
    let* isInter := readIsInter e n skipMode (fst s) in
    let* blk := if bool_of isInter then let* i := interBlockModeInfo e n skipMode (fst s) wedge f in ret (inl i) else let* i := intraBlockModeInfo (nB e) ll in ret (inr i) in
    ret (mkFrameInfo skip skipMode (fst s) (snd s) ll g q lf blk).
End InterBlock.
Arguments mkInterInfo {V}. Arguments yRef {V}. Arguments yMode {V}. Arguments yIdx {V}. Arguments yMv {V}. Arguments yIi {V}. Arguments yMotion {V}. Arguments yCompound {V}. Arguments yFilter {V}.
Arguments mkFrameInfo {V}. Arguments zSkip {V}. Arguments zSkipMode {V}. Arguments zSeg {V}. Arguments zCtx {V}. Arguments zLossless {V}. Arguments zCdef {V}. Arguments zQ {V}. Arguments zLf {V}. Arguments zBlock {V}.
