(** Model of internal/tilegroup/predict_intra.go (whole file) and util.go:27-29 (isDirectionalMode).
    AboveRow and LeftCol are Go arrays [32768]int, here lists; pred is an array [15][15]int.
    Simplification: integers are exact except in shifts and Abs (samples are small, no 64-bit wrap-around). *)
From Verif Require Import GoBase Bitstream Util Constants Tables Frame Fill2.

(** What intra prediction reads besides the frame and the edge buffers. *)
Record IEnv := mkIEnv {
  iBitDepth : Z; iSubX : bool; iSubY : bool; iEdgeFilter : bool;              (* sh *)
  iMiRows : Z; iMiCols : Z; iMiRow : Z; iMiCol : Z;                           (* state *)
  iAvailU : bool; iAvailL : bool; iAvailUChroma : bool; iAvailLChroma : bool;
  iRefFrames : list (list (list Z)); iYModes : list (list Z); iUVModes : list (list Z);
  iUseFilterIntra : bool; iAngleDeltaY : Z; iAngleDeltaUV : Z }.              (* t *)

Definition edge := list Z.
Definition pred15 := list (list Z).
Definition noPred : pred15 := repeat (repeat 0 15) 15.
(** for i < h { for j < w { pred[i][j] = V(i, j) } } *)
Definition predTable (V : Z -> Z -> res Z) (w h : Z) : res pred15 := fill2 V (fun i => i) (fun j => j) 0 h 0 w noPred.
(** buf[len(buf)-1] *)
Definition last_ {A} (l : list A) : res A := idx l (zlen l - 1).

(** predict_intra.go:109-132 basicIntraPredictionProcess (Paeth): one sample *)
Definition paeth (A L : edge) (i j : Z) : res Z :=
  let! a := idx A j in let! l := idx L i in let! c := last_ A in
  let base := a + l - c in
  let pLeft := Abs (base - l) in
  let pTop := Abs (base - a) in
  let pTopLeft := Abs (base - c) in
  Ok (if (pLeft <=? pTop) && (pLeft <=? pTopLeft) then l else if pTop <=? pTopLeft then a else c).
Definition basicIntra (A L : edge) (w h : Z) : res pred15 := predTable (paeth A L) w h.

(** predict_intra.go:135-173 recursiveIntraPredictionProcess: p is a nil slice, so its first write p[0] = AboveRow[-1] panics
    (i2 = 0, j4 = 0, i = 0); with no 4x2 unit at all nothing happens *)
Definition recursiveIntra (A L : edge) (w h : Z) : res pred15 :=
  rfor_to 0 (shr h 1) (fun i2 p => rfor_to 0 (shr w 2) (fun j4 p =>
    let! v := if i2 =? 0 then idx A (shl j4 2 + 0 - 1) else if j4 =? 0 then idx L (shl i2 1 - 1) else idx2 p (shl i2 1 - 1) (shl j4 2 + 0 - 1) in
    let! _ := upd (@nil Z) 0 v in Ok p) p) noPred.

(** sum of the first n entries *)
Definition sumTo (n : Z) (l : edge) : res Z := rfor_to 0 n (fun k s => let! v := idx l k in Ok (s + v)) 0.
(** predict_intra.go:327-367 dcIntraPredictionProcess (sic: with only the row above available pred stays zero) *)
Definition dcIntra (bd : Z) (haveLeft haveAbove : bool) (log2W log2H w h : Z) (A L : edge) : res pred15 :=
  if haveLeft && haveAbove then
    predTable (fun _ _ => let! s := sumTo h L in let! s' := sumTo w A in Ok (Z.quot (s + s' + shr (w + h) 1) (w + h))) w h
  else if haveLeft && negb haveAbove then
    predTable (fun _ _ => let! s := sumTo h L in Ok (Clip1 (shr (s + shr h 1) log2H) bd)) w h
  else if negb haveLeft && negb haveAbove then predTable (fun _ _ => Ok (shl 1 (bd - 1))) w h
  else Ok noPred.

(** predict_intra.go:376-403, 411-423, 432-444: the weights of the block side; none for other sizes *)
Definition smWeights (log2 : Z) : list Z :=
  if log2 =? 2 then Sm_Weights_Tx_4x4 else if log2 =? 3 then Sm_Weights_Tx_8x8 else if log2 =? 4 then Sm_Weights_Tx_16x16
  else if log2 =? 5 then Sm_Weights_Tx_32x32 else if log2 =? 6 then Sm_Weights_Tx_64x64 else [].
(** predict_intra.go:370-452 smoothIntraPredictionProcess *)
Definition smoothIntra (mode log2W log2H w h : Z) (A L : edge) : res pred15 :=
  if mode =? SMOOTH_PRED then
    predTable (fun i j =>
      let! wy := idx (smWeights log2H) i in let! a := idx A j in let! l' := idx L (h - 1) in
      let! wx := idx (smWeights log2W) j in let! l := idx L i in let! a' := idx A (w - 1) in
      Round2 (wy * a + (256 - wy) * l' + wx * l + (256 - wx) * a') 9) w h
  else if mode =? SMOOTH_V_PRED then
    predTable (fun i j => let! wy := idx (smWeights log2H) i in let! a := idx A j in let! l' := idx L (h - 1) in
      Round2 (wy * a + (256 - wy) * l') 8) w h
  else if mode =? SMOOTH_H_PRED then
    predTable (fun i j => let! wx := idx (smWeights log2W) j in let! l := idx L i in let! a' := idx A (w - 1) in
      Round2 (wx * l + (256 - wx) * a') 8) w h
  else Ok noPred.

(** predict_intra.go:455-458 filterCornerProcess *)
Definition filterCorner (A L : edge) : res Z :=
  let! l := idx L 0 in let! c := last_ A in let! a := idx A 0 in Round2 (l * 5 + c * 6 + a * 5) 4.
(** predict_intra.go:641-654 isSmooth *)
Definition isSmooth (e : IEnv) (row col plane : Z) : res bool :=
  let smooth mode := (mode =? SMOOTH_PRED) || (mode =? SMOOTH_V_PRED) || (mode =? SMOOTH_H_PRED) in
  if plane =? 0 then let! m := idx2 (iYModes e) row col in Ok (smooth m)
  else let! r := idx3 (iRefFrames e) row col 0 in
       if INTRA_FRAME <? r then Ok false else let! m := idx2 (iUVModes e) row col in Ok (smooth m).
(** predict_intra.go:461-507 getFilterType (sic: the left neighbour's answer overwrites that of the one above) *)
Definition getFilterType (e : IEnv) (plane : Z) : res bool :=
  let oddC := iSubX e && bool_of (Z.land (iMiCol e) 1) in
  let oddR := iSubY e && bool_of (Z.land (iMiRow e) 1) in
  let! above := if (if plane =? 0 then iAvailU e else iAvailUChroma e) then
      isSmooth e (iMiRow e - 1 - (if (0 <? plane) && oddR then 1 else 0)) (iMiCol e + (if (0 <? plane) && oddC then 1 else 0)) plane
    else Ok false in
  if (if plane =? 0 then iAvailL e else iAvailLChroma e) then
    isSmooth e (iMiRow e + (if (0 <? plane) && oddR then 1 else 0)) (iMiCol e - 1 - (if (0 <? plane) && oddC then 1 else 0)) plane
  else Ok above.
(** predict_intra.go:510-567 intraEdgeFilterStrengthSelectionProcess *)
Definition edgeStrength (w h filterType delta : Z) : Z :=
  let d := Abs delta in
  let blkWh := w + h in
  if filterType =? 0 then
    if blkWh <=? 8 then if 56 <=? d then 1 else 0
    else if blkWh <=? 12 then if 40 <=? d then 1 else 0
    else if blkWh <=? 16 then if 32 <=? d then 3 else if 16 <=? d then 2 else if 8 <=? d then 1 else 0
    else if blkWh <=? 32 then if 4 <=? d then 3 else 1
    else 0
  else
    if blkWh <=? 8 then if 64 <=? d then 2 else if 40 <=? d then 1 else 0
    else if blkWh <=? 16 then if 48 <=? d then 2 else if 20 <=? d then 1 else 0
    else if blkWh <=? 24 then if 4 <=? d then 3 else 0
    else 3.
(** predict_intra.go:570-584 intraEdgeUpsampleSelectionProcess *)
Definition upsampleSel (w h filterType delta : Z) : bool :=
  let d := Abs delta in
  if (d <=? 0) || (40 <=? d) then false else if filterType =? 0 then w + h <=? 16 else w + h <=? 8.
(** predict_intra.go:587-610 intraEdgeUpsampleProcess: dup is a nil slice, dup[0] = ... panics *)
Definition edgeUpsample (buf : edge) : res edge := let! v := last_ buf in let! _ := upd (@nil Z) 0 v in Ok buf.
(** predict_intra.go:613-639 intraEdgeFilterProcess: edge is a nil slice and edge[0] = buf[-1] panics; nothing happens for strength 0
    or when there is no sample *)
Definition edgeFilter (sz strength : Z) (buf : edge) : res edge :=
  if strength =? 0 then Ok buf else rfor_to 0 sz (fun i buf => let! v := idx buf (i - 1) in let! _ := upd (@nil Z) i v in Ok buf) buf.

(** predict_intra.go:191-243: the edges of directional prediction *)
Definition directionalEdges (e : IEnv) (plane x y : Z) (haveLeft haveAbove : bool) (pAngle w h maxX maxY : Z) (A L : edge) : res (edge * edge) :=
  if negb (iEdgeFilter e) then Ok (A, L)
  else
    let! r := if negb (pAngle =? 90) && negb (pAngle =? 180) then
        let! AL := if (90 <? pAngle) && (pAngle <? 180) && (24 <=? w + h) then
            let! c := filterCorner A L in let! L := upd L (zlen L - 1) c in
            let! c := filterCorner A L in let! A := upd A (zlen A - 1) c in Ok (A, L)
          else Ok (A, L) in
        let '(A, L) := AL in
        let! ft := getFilterType e plane in
        let! A := if haveAbove then edgeFilter (Min w (maxX - x + 1) + (if pAngle <? 90 then h else 0)) (edgeStrength w h (int_of ft) (pAngle - 90)) A else Ok A in
        let! L := if haveLeft then edgeFilter (Min h (maxY - y + 1) + (if 180 <? pAngle then w else 0)) (edgeStrength w h (int_of ft) (pAngle - 180)) L else Ok L in
        Ok (A, L, int_of ft)
      else Ok (A, L, 0) in
    let '(A, L, ft) := r in
    let! A := if upsampleSel w h ft (pAngle - 90) then edgeUpsample A else Ok A in
    let! L := if upsampleSel w h ft (pAngle - 180) then edgeUpsample L else Ok L in
    Ok (A, L).
(** two neighbouring samples of an edge, weighted 32-shift and shift *)
Definition interp (buf : edge) (b0 b1 shift : Z) : res Z :=
  let! u := idx buf b0 in let! v := idx buf b1 in Round2 (u * (32 - shift) + v * shift) 5.
(** predict_intra.go:246-259: dx, dy *)
Definition dirDx (pAngle : Z) : res Z :=
  if pAngle <? 90 then idx Dr_Intra_Derivative pAngle else if (90 <? pAngle) && (pAngle <? 180) then idx Dr_Intra_Derivative (180 - pAngle) else Ok 0.
Definition dirDy (pAngle : Z) : res Z :=
  if (90 <? pAngle) && (pAngle <? 180) then idx Dr_Intra_Derivative (pAngle - 90) else if 180 <? pAngle then idx Dr_Intra_Derivative (270 - pAngle) else Ok 0.
(** predict_intra.go:261-322: one sample.  upsampleAbove and upsampleLeft are false here, since edgeUpsample panics
    (sic: row i is displaced by (i+i)*dx below 90 degrees; index base = -1 panics between 90 and 180; LeftCol[j] at 180) *)
Definition dirSample (A L : edge) (pAngle w h dx dy i j : Z) : res Z :=
  if pAngle <? 90 then
    let ix := (i + i) * dx in
    let base := shr ix 6 + j in
    let shift := Z.land (shr ix 1) 31 in
    let maxBaseX := w + h - 1 in
    if base <? maxBaseX then interp A base (base + 1) shift else idx A maxBaseX
  else if (90 <? pAngle) && (pAngle <? 180) then
    let ix := shl j 6 - (i + 1) * dx in
    let base := shr ix 6 in
    if -1 <=? base then interp A base (base + 1) (Z.land (shr ix 1) 31)
    else
      let ix := shl i 6 - (j + 1) * dy in
      let base := shr ix 6 in
      let shift := Z.land (shr ix 1) 31 in
      interp L (if base <? 0 then zlen L + base else base) (base + 1) shift
  else if 180 <? pAngle then
    let ix := (j + 1) * dy in
    let base := shr ix 6 + i in
    interp L base (base + 1) (Z.land (shr ix 1) 31)
  else if pAngle =? 90 then idx A j
  else idx L j.
(** predict_intra.go:176-325 directionalIntraPredictionProcess; the loops for 90 and 180 degrees run column by column in the code *)
Definition directionalIntra (e : IEnv) (plane x y : Z) (haveLeft haveAbove : bool) (mode w h maxX maxY : Z) (A L : edge) : res (pred15 * edge * edge) :=
  let! m := idx Mode_To_Angle mode in
  let pAngle := m + (if plane =? 0 then iAngleDeltaY e else iAngleDeltaUV e) * ANGLE_STEP in
  let! AL := directionalEdges e plane x y haveLeft haveAbove pAngle w h maxX maxY A L in
  let '(A, L) := AL in
  let! dx := dirDx pAngle in
  let! dy := dirDy pAngle in
  let! p := predTable (dirSample A L pAngle w h dx dy) w h in
  Ok (p, A, L).

(** row[x-1], where x-1 = -1 means the last entry of the row: predict_intra.go:31-34 and others *)
Definition beforeX (row : list Z) (x : Z) : res Z := if x - 1 =? -1 then last_ row else idx row (x - 1).
(** predict_intra.go:19-22: yMinusOne (sic: y, not y-1) *)
Definition yMinusOne (f : frame) (plane y : Z) : res Z := if y - 1 =? -1 then let! p := idx f plane in Ok (zlen p - 1) else Ok y.
(** predict_intra.go:29-46: AboveRow[i] *)
Definition aboveSample (bd : Z) (f : frame) (plane x y w maxX yM1 : Z) (haveLeft haveAbove haveAboveRight : bool) (i : Z) : res Z :=
  if negb haveAbove && haveLeft then let! row := idx2 f plane y in beforeX row x
  else if negb haveAbove && negb haveLeft then Ok (shl 1 (bd - 1) - 1)
  else idx3 f plane yM1 (Min (if haveAboveRight then Min maxX (x + 2 * w - 1) else Min maxX (x + w - 1)) (x + i)).
Definition fillAbove (bd : Z) (f : frame) (plane x y w h maxX yM1 : Z) (haveLeft haveAbove haveAboveRight : bool) (A : edge) : res edge :=
  rfor_to 0 (w + h - 1) (fun i A => let! v := aboveSample bd f plane x y w maxX yM1 haveLeft haveAbove haveAboveRight i in upd A i v) A.
(** predict_intra.go:48-66 (sic: in two of the three cases the value goes to AboveRow) *)
Definition fillLeft (bd : Z) (f : frame) (plane x y w h maxY yM1 : Z) (haveLeft haveAbove haveBelowLeft : bool) (A L : edge) : res (edge * edge) :=
  rfor_to 0 (w + h - 1) (fun i AL => let '(A, L) := AL in
    if negb haveLeft && haveAbove then let! v := idx3 f plane yM1 x in let! L := upd L i v in Ok (A, L)
    else if negb haveLeft && negb haveAbove then let! A := upd A i (shl 1 (bd - 1) + 1) in Ok (A, L)
    else
      let! row := idx2 f plane (Min (if haveBelowLeft then Min maxY (y + 2 * h - 1) else Min maxY (y + h - 1)) (y + i)) in
      let! v := beforeX row x in let! A := upd A i v in Ok (A, L)) (A, L).
(** predict_intra.go:68-86: the corner (sic: for x = 0 and y = 0 row y-1 = -1 is indexed) *)
Definition corner (bd : Z) (f : frame) (plane x y yM1 : Z) (haveLeft haveAbove : bool) : res Z :=
  if haveAbove && haveLeft then
    if x - 1 =? -1 then let! r := idx2 f plane (y - 1) in idx3 f plane yM1 (zlen r - 1) else idx3 f plane yM1 (x - 1)
  else if haveAbove then idx3 f plane yM1 x
  else if haveLeft then let! row := idx2 f plane y in beforeX row x
  else Ok (shl 1 (bd - 1)).
(** predict_intra.go:12-88: both edges *)
Definition prepareEdges (bd : Z) (f : frame) (plane x y w h maxX maxY : Z) (haveLeft haveAbove haveAboveRight haveBelowLeft : bool) (A L : edge) : res (edge * edge) :=
  let! yM1 := yMinusOne f plane y in
  let! A := fillAbove bd f plane x y w h maxX yM1 haveLeft haveAbove haveAboveRight A in
  let! AL := fillLeft bd f plane x y w h maxY yM1 haveLeft haveAbove haveBelowLeft A L in
  let '(A, L) := AL in
  let! c := corner bd f plane x y yM1 haveLeft haveAbove in
  let! A := upd A (zlen A - 1) c in
  let! L := upd L (zlen L - 1) c in
  Ok (A, L).
(** util.go:27-29 *)
Definition isDirectionalMode (mode : Z) : bool := (V_PRED <=? mode) && (mode <=? D67_PRED).
(** predict_intra.go:90-101: the predictor *)
Definition predictor (e : IEnv) (plane x y : Z) (haveLeft haveAbove : bool) (mode log2W log2H w h maxX maxY : Z) (A L : edge) : res (pred15 * edge * edge) :=
  if (plane =? 0) && iUseFilterIntra e then let! p := recursiveIntra A L w h in Ok (p, A, L)
  else if isDirectionalMode mode then directionalIntra e plane x y haveLeft haveAbove mode w h maxX maxY A L
  else if (mode =? SMOOTH_PRED) || (mode =? SMOOTH_V_PRED) || (mode =? SMOOTH_H_PRED) then let! p := smoothIntra mode log2W log2H w h A L in Ok (p, A, L)
  else if mode =? DC_PRED then let! p := dcIntra (iBitDepth e) haveLeft haveAbove log2W log2H w h A L in Ok (p, A, L)
  else let! p := basicIntra A L w h in Ok (p, A, L).
(** predict_intra.go:16-17, 24-27 *)
Definition maxXof (e : IEnv) (plane : Z) : Z := if 0 <? plane then shr (iMiCols e * MI_SIZE) (int_of (iSubX e)) - 1 else iMiCols e * MI_SIZE - 1.
Definition maxYof (e : IEnv) (plane : Z) : Z := if 0 <? plane then shr (iMiRows e * MI_SIZE) (int_of (iSubY e)) - 1 else iMiRows e * MI_SIZE - 1.
(** predict_intra.go:12-107 predictIntra: the frame and the two edge buffers afterwards *)
Definition predictIntra (e : IEnv) (plane x y : Z) (haveLeft haveAbove haveAboveRight haveBelowLeft : bool) (mode log2W log2H : Z) (A L : edge) (f : frame) : res (frame * edge * edge) :=
  let w := shl 1 log2W in
  let h := shl 1 log2H in
  let! AL := prepareEdges (iBitDepth e) f plane x y w h (maxXof e plane) (maxYof e plane) haveLeft haveAbove haveAboveRight haveBelowLeft A L in
  let '(A, L) := AL in
  let! r := predictor e plane x y haveLeft haveAbove mode log2W log2H w h (maxXof e plane) (maxYof e plane) A L in
  let '(p, A, L) := r in
  let! f := fill (fun i j => idx2 p i j) plane (fun i => y + i) (fun j => x + j) 0 h 0 w f in
  Ok (f, A, L).
