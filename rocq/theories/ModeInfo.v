(** Model of internal/tilegroup/intra_frame_mode_info.go (whole file) and of palette.go:14-30, 67-69 (paletteModeInfo up to its first call of b.S()).
    The fields of t and state that are written are results.  Simplification: integers are exact except where noted (delta values are small). *)
From Coq Require Import String.
From Verif Require Import GoBase Bitstream Util Constants Tables Symbol CdfMoves CdfMemory Elements LoopFilter Intra.
Local Open Scope string_scope.
Local Open Scope Z_scope.

(** What is read: headers (uh, sh), the block (state, t) and the arrays of earlier blocks *)
Record BEnv := mkBEnv {
  bDisable : bool; bSegPreSkip : Z; bSegEnabled : bool; bLastActive : Z; bFeature : list (list Z); bLosslessArray : list bool;   (* uh; state.FeatureEnabled *)
  bCodedLossless : bool; bEnableCdef : bool; bAllowIntraBc : bool; bCdefBits : Z; bUse128 : bool; bQRes : Z; bLfPresent : bool; bLfMulti : Z; bLfRes : Z;
  bNumPlanes : Z; bSubX : bool; bSubY : bool; bScreen : Z; bFilterIntra : bool;
  bMiRow : Z; bMiCol : Z; bMiSize : Z; bAvailU : bool; bAvailL : bool; bHasChroma : bool;
  bYModes : list (list Z); bSegIds : list (list Z); bSkipModes : list (list Z); bPaletteSizes : list (list (list Z)) }.

(** intra_frame_mode_info.go:90-109 intraFrameYModeSymbol *)
Definition intraFrameYModeSymbol (e : BEnv) : M ES Z :=
  let* above := lift (if bAvailU e then let! m := idx2 (bYModes e) (bMiRow e - 1) (bMiCol e) in idx INTRA_MODE_CONTEXT m else Ok DC_PRED) in
  let* left := lift (if bAvailL e then let! m := idx2 (bYModes e) (bMiRow e) (bMiCol e - 1) in idx INTRA_MODE_CONTEXT m else Ok DC_PRED) in
  esym (bDisable e) "IntraFrameYModeCdf" [above; left].

(** intra_frame_mode_info.go:116-134: prevUL, prevU, prevL *)
Definition prevSegIds (e : BEnv) : res (Z * Z * Z) :=
  let! ul := if bAvailU e && bAvailL e then idx2 (bSegIds e) (bMiRow e - 1) (bMiCol e - 1) else Ok (-1) in
  let! u := if bAvailU e then idx2 (bSegIds e) (bMiRow e - 1) (bMiCol e) else Ok (-1) in
  let! l := if bAvailL e then idx2 (bSegIds e) (bMiRow e) (bMiCol e - 1) else Ok (-1) in
  Ok (ul, u, l).
(** intra_frame_mode_info.go:136-151 *)
Definition predSegId (ul u l : Z) : Z := if u =? -1 then if l =? -1 then 0 else l else if l =? -1 then u else if ul =? u then u else l.
(** intra_frame_mode_info.go:156-165 *)
Definition segIdCtx (ul u l : Z) : Z := if ul <? 0 then 0 else if (ul =? u) && (ul =? l) then 2 else if (ul =? u) || (ul =? l) || (u =? l) then 1 else 0.
(** intra_frame_mode_info.go:112-170 readSegmentId: t.SegmentId *)
Definition readSegmentId (e : BEnv) (skip : Z) : M ES Z :=
  let* p := lift (prevSegIds e) in
  let '(ul, u, l) := p in
  let pred := predSegId ul u l in
  if skip =? 1 then ret pred
  else let* v := esym (bDisable e) "SegmentIdCdf" [segIdCtx ul u l] in ret (NegDeinterleave v pred (bLastActive e + 1)).
(** intra_frame_mode_info.go:193-196 segFeatureActiveIdx *)
Definition segFeatureActive (e : BEnv) (segId feature : Z) : res bool :=
  if bSegEnabled e then let! v := idx2 (bFeature e) segId feature in Ok (v =? 1) else Ok false.
(** intra_frame_mode_info.go:171-186 readSkip: t.Skip (sic: the neighbours' SkipModes are counted, not their Skips) *)
Definition readSkip (e : BEnv) (segId : Z) : M ES Z :=
  let* active := lift (if bSegPreSkip e =? 1 then segFeatureActive e segId SEG_LVL_SKIP else Ok false) in
  if (active : bool) then ret 1
  else
    let* a := lift (if bAvailU e then idx2 (bSkipModes e) (bMiRow e - 1) (bMiCol e) else Ok 0) in
    let* l := lift (if bAvailL e then idx2 (bSkipModes e) (bMiRow e) (bMiCol e - 1) else Ok 0) in
    esym (bDisable e) "SkipCdf" [a + l].
(** intra_frame_mode_info.go:199-207 intraSegmentId: t.SegmentId and t.Lossless *)
Definition intraSegmentId (e : BEnv) (skip : Z) : M ES (Z * bool) :=
  let* s := if bSegEnabled e then readSegmentId e skip else ret 0 in
  let* ll := lift (idx (bLosslessArray e) s) in ret (s, ll).

(** intra_frame_mode_info.go:223-228: the copy loops; both loops use i, so the column stays c (sic).  The fuel covers every row up to the limit. *)
Fixpoint cdefInner (fuel : nat) (i c lim v : Z) (g : list (list Z)) : res (Z * list (list Z)) :=
  match fuel with
  | O => Hang
  | S f => if i <? lim then let! g := upd2 g i c v in cdefInner f (i + 16) c lim v g else Ok (i, g)
  end.
Fixpoint cdefOuter (fuel : nat) (i c rlim clim v : Z) (g : list (list Z)) : res (list (list Z)) :=
  match fuel with
  | O => Hang
  | S f => if i <? rlim then let! r := cdefInner (Z.to_nat (clim - i) + 1) i c clim v g in cdefOuter f (fst r + 16) c rlim clim v (snd r) else Ok g
  end.
(** intra_frame_mode_info.go:209-231 readCdef: state.Cdef.CdefIdx *)
Definition readCdef (e : BEnv) (skip : Z) (g : list (list Z)) : M ES (list (list Z)) :=
  if bool_of skip || bCodedLossless e || negb (bEnableCdef e) || bAllowIntraBc e then ret g
  else
    let* size4 := lift (idx NUM_4X4_BLOCKS_WIDE BLOCK_64X64) in
    let r := Z.land (bMiRow e) (Z.lnot (size4 - 1)) in
    let c := Z.land (bMiCol e) (Z.lnot (size4 - 1)) in
    let* old := lift (idx2 g r c) in
    if old =? -1 then
      let* v := elit (bDisable e) (bCdefBits e) in
      let* g := lift (upd2 g r c v) in
      let* w4 := lift (idx NUM_4X4_BLOCKS_WIDE (bMiSize e)) in
      let* h4 := lift (idx NUM_4X4_BLOCKS_HIGH (bMiSize e)) in
      lift (cdefOuter (Z.to_nat h4 + 1) r c (r + h4) (c + w4) v g)
    else ret g.

(** intra_frame_mode_info.go:234-244, 272-281 *)
Definition sbSkipped (e : BEnv) (skip : Z) : bool := (bMiSize e =? (if bUse128 e then BLOCK_128X128 else BLOCK_64X64)) && bool_of skip.
(** intra_frame_mode_info.go:247-263 and 297-317: magnitude (escape [small]) and sign *)
Definition readDelta (dis : bool) (small v : Z) : M ES Z :=
  let* a := if v =? small then
      let* n := elit dis 3 in let n := n + 1 in
      let* x := elit dis n in ret (x + shl 1 n + 1)
    else ret v in
  if bool_of a then let* s := elit dis 1 in ret (if bool_of s then - a else a) else ret 0.
(** intra_frame_mode_info.go:234-268 readDeltaQIndex: state.CurrentQIndex *)
Definition readDeltaQIndex (e : BEnv) (skip : Z) (readDeltas : bool) (q : Z) : M ES Z :=
  if sbSkipped e skip then ret q
  else if readDeltas then
    let* v := esym (bDisable e) "DeltaQCdf" [] in
    let* d := readDelta (bDisable e) DELTA_Q_SMALL v in
    ret (if bool_of d then Clip3 1 255 (q + shl d (bQRes e)) else q)
  else ret q.
(** intra_frame_mode_info.go:271-326 readDeltaLf: state.DeltaLF, an array of 4 *)
Definition readDeltaLf (e : BEnv) (skip : Z) (readDeltas : bool) (lf : list Z) : M ES (list Z) :=
  if sbSkipped e skip then ret lf
  else if readDeltas && bLfPresent e then
    let count := if bool_of (bLfMulti e) then if 1 <? bNumPlanes e then FRAME_LF_COUNT else FRAME_LF_COUNT - 2 else 1 in
    for_to 0 count (fun i lf =>
      let* v := if bLfMulti e =? 0 then esym (bDisable e) "DeltaLFCdf" [] else esym (bDisable e) "DeltaLFMultiCdf" [i] in
      let* d := readDelta (bDisable e) DELTA_LF_SMALL v in
      if bool_of d then let* old := lift (idx lf i) in lift (upd lf i (Clip3 (- MAX_LOOP_FILTER) MAX_LOOP_FILTER (old + shl d (bLfRes e)))) else ret lf) lf
  else ret lf.

(** intra_frame_mode_info.go:329-339 and 373-381 intraAngleInfoY, intraAngleInfoUv: t.AngleDeltaY, t.AngleDeltaUV *)
Definition intraAngleInfo (e : BEnv) (mode : Z) : M ES Z :=
  if (BLOCK_8X8 <=? bMiSize e) && isDirectionalMode mode then let* v := esym (bDisable e) "AngleDeltaCdf" [mode - V_PRED] in ret (v - MAX_ANGLE_DELTA) else ret 0.
(** intra_frame_mode_info.go:347-357 and 359-369: one alpha *)
Definition cflAlpha (dis : bool) (sign other : Z) : M ES Z :=
  if negb (sign =? CFL_SIGN_ZERO) then
    let* a := esym dis "CflAlphaCdf" [(sign - 1) * 3 + other] in
    ret (if sign =? CFL_SIGN_NEG then - (1 + a) else 1 + a)
  else ret 0.
(** intra_frame_mode_info.go:342-371 readCflAlphas: t.CflAlphaU, t.CflAlphaV *)
Definition readCflAlphas (dis : bool) : M ES (Z * Z) :=
  let* signs := esym dis "CflSignCdf" [] in
  let signU := Z.quot (signs + 1) 3 in
  let signV := Z.rem (signs + 1) 3 in
  let* u := cflAlpha dis signU signV in
  let* v := cflAlpha dis signV signU in
  ret (u, v).
(** intra_frame_mode_info.go:60-67: the chroma mode (sic: strictly below 32) *)
Definition uvModeSymbol (e : BEnv) (lossless : bool) (ymode : Z) : M ES Z :=
  let* small := lift (if lossless then let! b := getPlaneResidualSize (bSubX e) (bSubY e) (bMiSize e) 1 in Ok (b =? BLOCK_4X4) else Ok false) in
  if (small : bool) then esym (bDisable e) "UVModeCflAllowedCdf" [ymode]
  else
    let* allowed := lift (if negb lossless then let! w := idx BLOCK_WIDTH (bMiSize e) in let! h := idx BLOCK_HEIGHT (bMiSize e) in Ok (Max w h <? 32) else Ok false) in
    if (allowed : bool) then esym (bDisable e) "UVModeCflAllowedCdf" [ymode] else esym (bDisable e) "UVModeCflNotAllowedCdf" [ymode].
(** palette.go:15-30, 67-69 paletteModeInfo: a luma palette leads to b.S() (line 30), a chroma block with mode DC too (line 68) *)
Definition paletteModeInfo (e : BEnv) (ymode : Z) (uvmode : option Z) : M ES unit :=
  let* w := lift (idx MI_WIDTH_LOG2 (bMiSize e)) in
  let* h := lift (idx MI_HEIGHT_LOG2 (bMiSize e)) in
  (if ymode =? DC_PRED then
     let* a := lift (if bAvailU e then let! v := idx3 (bPaletteSizes e) 0 (bMiRow e - 1) (bMiCol e) in Ok (int_of (0 <? v)) else Ok 0) in
     let* l := lift (if bAvailL e then let! v := idx3 (bPaletteSizes e) 0 (bMiRow e) (bMiCol e - 1) in Ok (int_of (0 <? v)) else Ok 0) in
     let* has := esym (bDisable e) "PaletteYModeCdf" [w + h - 2; a + l] in
     if bool_of has then let* _ := bS in ret tt else ret tt
   else ret tt) ;;
  match uvmode with Some m => if m =? DC_PRED then let* _ := bS in ret tt else ret tt | None => ret tt end.
(** intra_frame_mode_info.go:384-394 filterIntraModeInfo; the palette size is 0 here *)
Definition filterIntraModeInfo (e : BEnv) (ymode : Z) : M ES unit :=
  if bFilterIntra e && (ymode =? DC_PRED) then
    let* w := lift (idx BLOCK_WIDTH (bMiSize e)) in
    let* h := lift (idx BLOCK_HEIGHT (bMiSize e)) in
    if Max w h <=? 32 then let* _ := bS in ret tt else ret tt
  else ret tt.

(** What intraFrameModeInfo leaves in t and state: Skip, SegmentId, Lossless, CdefIdx, CurrentQIndex, DeltaLF, RefFrame, YMode, AngleDeltaY; for a block with
    chroma UVMode, CflAlphaU and CflAlphaV (only for chroma from luma) and AngleDeltaUV.  IsInter, SkipMode, useIntrabc and the palette sizes become 0. *)
Record IntraInfo := mkIntraInfo {
  xSkip : Z; xSegId : Z; xLossless : bool; xCdef : list (list Z); xQ : Z; xLf : list Z; xRefFrame : list Z; xYMode : Z; xYAngle : Z; xUV : option (Z * option (Z * Z) * Z) }.
(** intra_frame_mode_info.go:58-76: the chroma part *)
Definition intraChroma (e : BEnv) (lossless : bool) (ymode : Z) : M ES (Z * option (Z * Z) * Z) :=
  let* m := uvModeSymbol e lossless ymode in
  let* cfl := if m =? UV_CFL_PRED then let* a := readCflAlphas (bDisable e) in ret (Some a) else ret None in
  let* ang := intraAngleInfo e m in ret (m, cfl, ang).
(** intra_frame_mode_info.go:15-84 intraFrameModeInfo (sic: RefFrame[0] is set twice, RefFrame[1] keeps its value); use_intrabc is read with b.S(), so
    with intra block copy allowed the function ends there *)
Definition intraFrameModeInfo (e : BEnv) (readDeltas : bool) (seg : Z) (ll : bool) (g : list (list Z)) (q : Z) (lf ref : list Z) : M ES IntraInfo :=
  let* s := if bSegPreSkip e =? 1 then intraSegmentId e 0 else ret (seg, ll) in
  let* skip := readSkip e (fst s) in
  let* s := if negb (bool_of (bSegPreSkip e)) then intraSegmentId e skip else ret s in
  let* g := readCdef e skip g in
  let* q := readDeltaQIndex e skip readDeltas q in
  let* lf := readDeltaLf e skip readDeltas lf in
  let* ref := lift (upd ref 0 INTRA_FRAME) in
  let* ref := lift (upd ref 0 NONE) in
  let* _ := if bAllowIntraBc e then bS else ret 0 in
  let* ymode := intraFrameYModeSymbol e in
  let* yang := intraAngleInfo e ymode in
  let* uv := if bHasChroma e then let* c := intraChroma e (snd s) ymode in ret (Some c) else ret None in
  let* w := lift (idx BLOCK_WIDTH (bMiSize e)) in
  let* h := lift (idx BLOCK_HEIGHT (bMiSize e)) in
  (if (BLOCK_8X8 <=? bMiSize e) && (w <=? 64) && (h <=? 64) && bool_of (bScreen e) then paletteModeInfo e ymode (match uv with Some c => Some (fst (fst c)) | None => None end) else ret tt) ;;
  filterIntraModeInfo e ymode ;;
  ret (mkIntraInfo skip (fst s) (snd s) g q lf ref ymode yang uv).
