(** Model of internal/tilegroup/loop_filter_process.go (whole file).
    Simplifications: integers are exact (samples are below 2^16 and all sums small, so Go's 64-bit ints do not wrap);
    BitDepth is at least 8 (8, 10 or 12: property C21), so the shift counts BitDepth-8 are not negative;
    the write to state.MiSize (line 82), which every block overwrites before use, is left out. *)
From Verif Require Import GoBase Util Constants Tables Frame.

(** What the filter reads besides the frame: loop filter header fields, block info of the tile group and the state. *)
Record LFEnv := mkLFEnv {
  lfBitDepth : Z; lfNumPlanes : Z; lfSubX : bool; lfSubY : bool;             (* sh.ColorConfig *)
  lfFrameWidth : Z; lfFrameHeight : Z; lfMiRows : Z; lfMiCols : Z;
  lfLevel : list Z; lfSharpness : Z; lfDeltaEnabled : bool; lfRefDeltas : list Z; lfModeDeltas : list Z;
  lfDeltaLfMulti : Z; lfSegEnabled : bool; lfFeatureEnabled : list (list Z); lfFeatureData : list (list Z);
  lfMiSizes : list (list Z); lfTxSizes : list (list (list Z)); lfSkips : list (list Z);
  lfRefFrames : list (list (list Z)); lfSegmentIds : list (list Z); lfYModes : list (list Z); lfDeltaLFs : list (list (list Z)) }.

(** loop_filter_process.go:352-354 filter4Clamp *)
Definition filter4Clamp (bd value : Z) : Z := Clip3 (- shl 1 (bd - 1)) (shl 1 (bd - 1) - 1) value.

(** loop_filter_process.go:321-350 narrowFilter; the result is the new CurrFrame *)
Definition narrowFilter (bd hevMask x y plane dx dy : Z) (f : frame) : res frame :=
  let! q0 := idx3 f plane y x in
  let! q1 := idx3 f plane (y + dy) (x + dx) in
  let! p0 := idx3 f plane (y - dy) (x - dx) in
  let! p1 := idx3 f plane (y - dy * 2) (x - dx * 2) in
  let off := shl 128 (bd - 8) in
  let ps1 := p1 - off in
  let ps0 := p0 - off in
  let qs0 := q0 - off in
  let qs1 := q1 - off in
  let filter := if bool_of hevMask then filter4Clamp bd (ps1 - qs1) else 0 in
  let filter := filter4Clamp bd (filter + 3 * (qs0 - ps0)) in
  let filter1 := shr (filter4Clamp bd (filter + 4)) 3 in
  let filter2 := shr (filter4Clamp bd (filter + 3)) 3 in
  let oq0 := filter4Clamp bd (qs0 - filter1) + off in
  let op0 := filter4Clamp bd (ps0 + filter2) + off in
  let! f := upd3 f plane y x oq0 in
  let! f := upd3 f plane (y - dy) (x - dx) op0 in
  if negb (bool_of hevMask) then
    let! filter := Round2 filter1 1 in
    let oq1 := filter4Clamp bd (qs1 - filter) + off in
    let op1 := filter4Clamp bd (ps1 + filter) + off in
    let! f := upd3 f plane (y + dy) (x + dx) oq1 in
    upd3 f plane (y - dy * 2) (x - dx * 2) op1
  else Ok f.

(** loop_filter_process.go:371-388 (wideFilter, inner loop): the weighted sum of the samples around tap i *)
Definition wideSum (plane x y dx dy n n2 i : Z) (f : frame) : res Z :=
  rfor_to (- n) (n + 1) (fun j t =>
    let p := Clip3 (- (n + 1)) n (i + j) in
    let tap := if Abs j <=? n2 then 2 else 1 in
    let! s := idx3 f plane (y + p * dy) (x + p * dx) in Ok (t + s * tap)) 0.
(** loop_filter_process.go:357-392 wideFilter; F is a nil slice (no make), so F[i] = ... is an index out of range *)
Definition wideFilter (x y plane dx dy log2Size : Z) (f : frame) : res frame :=
  let n := if log2Size =? 4 then 6 else if plane =? 0 then 3 else 2 in
  let n2 := if (log2Size =? 3) && (plane =? 0) then 0 else 1 in
  let! F := rfor_to (- n) n (fun i F =>
    let! t := wideSum plane x y dx dy n n2 i f in
    let! r := Round2 t log2Size in
    upd F i r) [] in
  rfor_to (- n) n (fun i f => let! v := idx F i in upd3 f plane (y + i * dy) (x + i * dx) v) f.

(** loop_filter_process.go:241-318 filterMask; the result is (hevMask, filterMask, flatMask, flatMask2) *)
Definition filterMask (bd x y plane limit blimit thresh dx dy filterSize : Z) (f : frame) : res (Z * Z * Z * Z) :=
  let! q0 := idx3 f plane y x in
  let! q1 := idx3 f plane (y + dy) (x + dx) in
  let! q2 := idx3 f plane (y + dy * 2) (x + dx * 2) in
  let! q3 := idx3 f plane (y + dy * 3) (x + dx * 3) in
  let! q4 := idx3 f plane (y + dy * 4) (x + dx * 4) in
  let! q5 := idx3 f plane (y + dy * 5) (x + dx * 5) in
  let! q6 := idx3 f plane (y + dy * 6) (x + dx * 6) in
  let! p0 := idx3 f plane (y - dy) (x - dx) in
  let! p1 := idx3 f plane (y - dy * 2) (x - dx * 2) in
  let! p2 := idx3 f plane (y - dy * 3) (x - dx * 3) in
  let! p3 := idx3 f plane (y - dy * 4) (x - dx * 4) in
  let! p4 := idx3 f plane (y - dy * 5) (x - dx * 5) in
  let! p5 := idx3 f plane (y - dy * 6) (x - dx * 6) in
  let! p6 := idx3 f plane (y - dy * 7) (x - dx * 7) in
  let threshBd := shl thresh (bd - 8) in
  let hevMask := Z.lor (int_of (threshBd <? Abs (p1 - p0))) (int_of (threshBd <? Abs (q1 - q0))) in
  let filterLen := if filterSize =? 4 then 4 else if negb (plane =? 0) then 6 else if filterSize =? 8 then 8 else 16 in
  let limitBd := shl limit (bd - 8) in
  let blimitBd := shl blimit (bd - 8) in
  let mask := Z.lor (int_of (limitBd <? Abs (p1 - p0))) (int_of (limitBd <? Abs (q1 - q0))) in
  let mask := Z.lor mask (int_of (blimitBd <? Abs (p0 - q0) * 2 + Z.quot (Abs (p1 - q1)) 2)) in
  let mask := if 6 <=? filterLen then Z.lor (Z.lor mask (int_of (limitBd <? Abs (p2 - p1)))) (int_of (limitBd <? Abs (q2 - q1))) else mask in
  let mask := if 8 <=? filterLen then Z.lor (Z.lor mask (int_of (limitBd <? Abs (p3 - p2)))) (int_of (limitBd <? Abs (q3 - q2))) else mask in
  let fMask := int_of (mask =? 0) in
  let thresholdBd := shl 1 (bd - 8) in
  let flatMask :=
    if 8 <=? filterSize then
      let m := Z.lor (int_of (thresholdBd <? Abs (p1 - p0))) (int_of (thresholdBd <? Abs (q1 - q0))) in
      let m := Z.lor m (int_of (thresholdBd <? Abs (p2 - p0))) in
      let m := Z.lor m (int_of (thresholdBd <? Abs (q2 - q0))) in
      let m := if 8 <=? filterLen then Z.lor (Z.lor m (int_of (thresholdBd <? Abs (p3 - p0)))) (int_of (thresholdBd <? Abs (q3 - q0))) else m in
      int_of (m =? 0)
    else 0 in
  let flatMask2 :=
    if 16 <=? filterSize then
      let m := Z.lor (int_of (thresholdBd <? Abs (p6 - p0))) (int_of (thresholdBd <? Abs (q6 - q0))) in
      let m := Z.lor (Z.lor m (int_of (thresholdBd <? Abs (p5 - p0)))) (int_of (thresholdBd <? Abs (q5 - q0))) in
      let m := Z.lor (Z.lor m (int_of (thresholdBd <? Abs (p4 - p0)))) (int_of (thresholdBd <? Abs (q4 - q0))) in
      int_of (m =? 0)
    else 0 in
  Ok (hevMask, fMask, flatMask, flatMask2).

(** loop_filter_process.go:226-238 sampleFiltering *)
Definition sampleFiltering (bd x y plane limit blimit thresh dx dy filterSize : Z) (f : frame) : res frame :=
  let! m := filterMask bd x y plane limit blimit thresh dx dy filterSize f in
  let '(hevMask, fMask, flatMask, flatMask2) := m in
  if fMask =? 0 then Ok f
  else if (filterSize =? 4) || (flatMask =? 0) then narrowFilter bd hevMask x y plane dx dy f
  else if (filterSize =? 8) || (flatMask2 =? 0) then wideFilter x y plane dx dy 3 f
  else wideFilter x y plane dx dy 4 f.

(** intra_frame_mode_info.go:193-195 segFeatureActiveIdx *)
Definition lfSegFeatureActiveIdx (e : LFEnv) (i feature : Z) : res bool :=
  if lfSegEnabled e then let! x := idx2 (lfFeatureEnabled e) i feature in Ok (x =? 1) else Ok false.

(** loop_filter_process.go:195-223 adaptiveFilterStrengthSelection *)
Definition adaptiveFilterStrengthSelection (e : LFEnv) (segment ref modeType deltaLF plane : Z) (pass : bool) : res Z :=
  let i := if plane =? 0 then int_of pass else plane + 1 in
  let! l := idx (lfLevel e) i in
  let baseFilterLevel := Clip3 0 MAX_LOOP_FILTER (deltaLF + l) in
  let lvlSeg := baseFilterLevel in
  let feature := SEG_LVL_ALT_LF_Y_V + i in
  let! act := lfSegFeatureActiveIdx e segment feature in
  let! lvlSeg :=
    if act then let! d := idx2 (lfFeatureData e) segment feature in Ok (Clip3 0 MAX_LOOP_FILTER (d + lvlSeg)) else Ok lvlSeg in
  if lfDeltaEnabled e then
    let nShift := shr lvlSeg 5 in
    let! lvlSeg :=
      if ref =? INTRA_FRAME then let! d := idx (lfRefDeltas e) INTRA_FRAME in Ok (lvlSeg + shl d nShift)
      else let! d := idx (lfRefDeltas e) ref in let! m := idx (lfModeDeltas e) modeType in Ok (lvlSeg + shl d nShift + shl m nShift) in
    Ok (Clip3 0 MAX_LOOP_FILTER lvlSeg)
  else Ok lvlSeg.

(** loop_filter_process.go:147-192 adaptiveFilterStrength; the result is (lvl, limit, blimit, thresh).
    (sic: the shift is 2 for every sharpness above 0) *)
Definition adaptiveFilterStrength (e : LFEnv) (row col plane : Z) (pass : bool) : res (Z * Z * Z * Z) :=
  let! segment := idx2 (lfSegmentIds e) row col in
  let! ref := idx3 (lfRefFrames e) row col 0 in
  let! mode := idx2 (lfYModes e) row col in
  let modeType := if (NEARESTMV <=? mode) && negb (mode =? GLOBALMV) then 1 else 0 in
  let! deltaLF :=
    if lfDeltaLfMulti e =? 0 then idx3 (lfDeltaLFs e) row col 0
    else if plane =? 0 then idx3 (lfDeltaLFs e) row col (int_of pass)
    else idx3 (lfDeltaLFs e) row col (plane + 1) in
  let! lvl := adaptiveFilterStrengthSelection e segment ref modeType deltaLF plane pass in
  let shift := if 4 <? lfSharpness e then 2 else if 0 <? lfSharpness e then 2 else 0 in
  let limit := if 0 <? lfSharpness e then Clip3 1 (9 - lfSharpness e) (shr lvl shift) else Max 1 (shr lvl shift) in
  let blimit := 2 * (lvl + 2) + limit in
  let thresh := shr lvl 4 in
  Ok (lvl, limit, blimit, thresh).

(** loop_filter_process.go:129-144 filterSize (sic: for horizontal edges only the previous transform size is used) *)
Definition lfFilterSize (txSz prevTxSz : Z) (pass : bool) (plane : Z) : res Z :=
  let! baseSize :=
    if negb pass then let! a := idx Tx_Width prevTxSz in let! b := idx Tx_Width txSz in Ok (Min a b)
    else let! a := idx Tx_Height prevTxSz in let! b := idx Tx_Height prevTxSz in Ok (Min a b) in
  if plane =? 0 then Ok (Min 16 baseSize) else Ok (Min 8 baseSize).

(** predict_inter.go:733-743 getPlaneResidualSize *)
Definition getPlaneResidualSize (subX subY : bool) (subsize plane : Z) : res Z :=
  let subx := if 0 <? plane then int_of subX else 0 in
  let suby := if 0 <? plane then int_of subY else 0 in
  idx3 Subsampled_Size subsize subx suby.

(** loop_filter_process.go:34-126 loopFilterEdge.  x%BLOCK_WIDTH[..]: all table entries are positive. *)
Definition loopFilterEdge (e : LFEnv) (plane : Z) (pass : bool) (row col : Z) (f : frame) : res frame :=
  let subX := if plane =? 0 then 0 else int_of (lfSubX e) in
  let subY := if plane =? 0 then 0 else int_of (lfSubY e) in
  let dx := if pass then 0 else 1 in
  let dy := if pass then 1 else 0 in
  let x := col * MI_SIZE in
  let y := row * MI_SIZE in
  let row := Z.lor row subY in
  let col := Z.lor col subX in
  let onScreen :=
    if lfFrameWidth e <=? x then false
    else if lfFrameHeight e <=? y then false
    else if negb pass && (x =? 0) then false
    else if pass && (y =? 0) then false
    else true in
  if negb onScreen then Ok f else
  let xP := shr x subX in
  let yP := shr y subY in
  let prevRow := row - shl dy subY in
  let prevCol := col - shl dx subX in
  let! miSize := idx2 (lfMiSizes e) row col in
  let! txSz := idx3 (lfTxSizes e) plane (shr row subY) (shr col subX) in
  let! planeSize := getPlaneResidualSize (lfSubX e) (lfSubY e) miSize plane in
  let! skip := idx2 (lfSkips e) row col in
  let! ref0 := idx3 (lfRefFrames e) row col 0 in
  let isIntra := ref0 <=? INTRA_FRAME in
  let! prevTxSz := idx3 (lfTxSizes e) plane (shr prevRow subY) (shr prevCol subX) in
  let! isBlockEdge :=
    if negb pass then let! bw := idx BLOCK_WIDTH planeSize in Ok (Z.rem xP bw =? 0)
    else let! bh := idx BLOCK_HEIGHT planeSize in Ok (Z.rem yP bh =? 0) in
  let! isTxEdge :=
    if negb pass then let! w := idx Tx_Width txSz in Ok (Z.rem xP w =? 0)
    else let! h := idx Tx_Height txSz in Ok (Z.rem yP h =? 0) in
  let applyFilter := if negb isTxEdge then false else if isBlockEdge || (skip =? 0) || isIntra then true else false in
  let! filterSize := lfFilterSize txSz prevTxSz pass plane in
  let! st := adaptiveFilterStrength e row col plane pass in
  let '(lvl, _, _, _) := st in
  let! st := if lvl =? 0 then adaptiveFilterStrength e row col plane pass else Ok st in
  let '(lvl, limit, blimit, thresh) := st in
  rfor_to 0 MI_SIZE (fun i f =>
    if applyFilter && (0 <? lvl) then sampleFiltering (lfBitDepth e) (xP + dy * i) (yP + dx * i) plane limit blimit thresh dx dy filterSize f
    else Ok f) f.

(** loop_filter_process.go:12-31 loopFilter (sic: the subsampling steps are used for plane 0) *)
Definition loopFilter (e : LFEnv) (f : frame) : res frame :=
  rfor_to 0 (lfNumPlanes e) (fun plane f =>
    let! go := if plane =? 0 then Ok true else let! l := idx (lfLevel e) (1 + plane) in Ok (bool_of l) in
    if go : bool then
      rfor_to 0 2 (fun pass f =>
        let rowStep := if plane =? 0 then shl 1 (int_of (lfSubX e)) else 1 in
        let colStep := if plane =? 0 then shl 1 (int_of (lfSubY e)) else 1 in
        rfor_by 0 (lfMiRows e) rowStep (fun row f =>
          rfor_by 0 (lfMiCols e) colStep (fun col f => loopFilterEdge e plane (bool_of pass) row col f) f) f) f
    else Ok f) f.
