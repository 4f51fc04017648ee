(** Model of internal/tilegroup/loop_restoration.go (whole file).
    Simplification: sums and products are exact integers (samples below 2^16, the code's 64-bit arithmetic does not wrap). *)
From Verif Require Import GoBase Util Constants Frame.

(** What loop restoration reads: sequence header, frame header, state and tile group.  The two frames are state.UpscaledCdefFrame and state.UpscaledCurrFrame. *)
Record REnv := mkREnv {
  rNumPlanes : Z; rSubX : bool; rSubY : bool; rBitDepth : Z; rUpscaledWidth : Z; rFrameHeight : Z;
  rUsesLr : bool; rFrameType : list Z; rUnitSize : list Z;                     (* uh.UsesLr, uh.FrameRestorationType, state.LoopRestorationSize *)
  rType : list (list (list Z)); rSgrSet : list (list (list Z));                (* t.LrType, t.LrSgrSet: [3][1][1]int *)
  rSgrXqd : list (list (list (list Z)));                                       (* t.LrSgrXqd: [3][1][1][2]int *)
  rWiener : list (list (list (list (list Z))));                                (* t.LrWiener: a slice *)
  rCdef : frame; rCurr : frame }.
(** t.StripeStartY, t.StripeEndY, t.PlaneEndX, t.PlaneEndY *)
Record stripe := mkStripe { sStartY : Z; sEndY : Z; sEndX : Z; sPlaneEndY : Z }.

(** read_loop_restoration.go:178-183 SGR_PARAMS *)
Definition SGR_PARAMS : list (list Z) := [
  [2;12;1;4]; [2;15;1;6]; [2;18;1;8]; [2;21;1;9]; [2;24;1;10]; [2;29;1;11]; [2;36;1;12]; [2;45;1;13];
  [2;56;1;14]; [2;68;1;15]; [0;0;1;5]; [0;0;1;8]; [0;0;1;11]; [0;0;1;14]; [2;30;0;0]; [2;75;0;0]].

(** loop_restoration.go:279-293 getSourceSample *)
Definition getSourceSample (e : REnv) (s : stripe) (plane x y : Z) : res Z :=
  let x := Max 0 (Min (sEndX s) x) in
  let y := Max 0 (Min (sPlaneEndY s) y) in
  if y <? sStartY s then idx3 (rCurr e) plane (Max (sStartY s - 2) y) x
  else if sEndY s <? y then idx3 (rCurr e) plane (Min (sEndY s + 2) y) x
  else idx3 (rCdef e) plane y x.

(** loop_restoration.go:123-130: sum of squares and sum of the (2r+1)x(2r+1) samples around (x, y) *)
Definition boxSums (e : REnv) (s : stripe) (plane x y r : Z) : res (Z * Z) :=
  rfor_to (- r) (r + 1) (fun dy ab => rfor_to (- r) (r + 1) (fun dx ab =>
    let '(a, b) := ab in let! c := getSourceSample e s plane (x + dx) (y + dy) in Ok (a + c * c, b + c)) ab) (0, 0).
(** loop_restoration.go:131-146: a2 and b2 rounded (n2e is not 0: the radius is not 0) *)
Definition boxCoeffs (bd n s a b : Z) : res (Z * Z) :=
  let! a' := Round2 a (2 * (bd - 8)) in
  let! d := Round2 b (bd - 8) in
  let p := Max 0 (a' * n - d * d) in
  let! z := Round2 (p * s) SGRPROJ_MTABLE_BITS in
  let a2 := if 255 <=? z then 256 else if z =? 0 then 1 else Z.quot (shl z SGRPROJ_SGR_BITS + Z.quot z 2) (z + 1) in
  let oneOverN := Z.quot (shl 1 SGRPROJ_RECIP_BITS + Z.quot n 2) n in
  let! b2 := Round2 ((shl 1 SGRPROJ_SGR_BITS - a2) * b * oneOverN) SGRPROJ_RECIP_BITS in
  Ok (a2, b2).
(** loop_restoration.go:148-163, 205-218: row or column -1 is kept in the last row or column of the 3x3 array *)
Definition boxAt (i : Z) : Z := if i =? -1 then 2 else i.
(** loop_restoration.go:117-165: the arrays A and B ([3][3]int) *)
Definition boxTables (e : REnv) (s : stripe) (plane x y w h r n sc : Z) : res (list (list Z) * list (list Z)) :=
  rfor_to (-1) (h + 1) (fun i AB => rfor_to (-1) (w + 1) (fun j AB =>
    let '(A, B) := AB in
    let! ab := boxSums e s plane (x + j) (y + i) r in
    let '(a, b) := ab in
    let! ab := boxCoeffs (rBitDepth e) n sc a b in
    let '(a2, b2) := ab in
    let! A := upd2 A (boxAt i) (boxAt j) a2 in
    let! B := upd2 B (boxAt i) (boxAt j) b2 in
    Ok (A, B)) AB) (repeat (repeat 0 3) 3, repeat (repeat 0 3) 3).
(** loop_restoration.go:181-197 weight *)
Definition boxWeight (pass : bool) (i dy dx : Z) : Z :=
  if negb pass then if bool_of (Z.land (i + dy) 1) then if dx =? 0 then 6 else 5 else 0
  else if (dx =? 0) || (dy =? 0) then 4 else 3.
(** loop_restoration.go:176-221: the weighted sums of one sample *)
Definition boxWeighted (A B : list (list Z)) (pass : bool) (i j : Z) : res (Z * Z) :=
  rfor_to (-1) 2 (fun dy ab => rfor_to (-1) 2 (fun dx ab =>
    let '(a, b) := ab in
    let weight := boxWeight pass i dy dx in
    let! av := idx2 A (boxAt (i + dy)) (boxAt (j + dx)) in
    let! bv := idx2 B (boxAt (i + dy)) (boxAt (j + dx)) in
    Ok (a + weight * av, b + weight * bv)) ab) (0, 0).
(** loop_restoration.go:103-229 boxFilter; the result is a [1][1]int *)
Definition boxFilter (e : REnv) (s : stripe) (plane x y w h set : Z) (pass : bool) : res (list (list Z)) :=
  let! r := idx2 SGR_PARAMS set (int_of pass * 2) in
  if r =? 0 then Ok [[0]] else
  let! eps := idx2 SGR_PARAMS set (int_of pass * 2 + 1) in
  let n := (2 * r + 1) * (2 * r + 1) in
  let n2e := n * n * eps in
  if n2e =? 0 then Panic else
  let sc := Z.quot (shl 1 SGRPROJ_MTABLE_BITS + Z.quot n2e 2) n2e in
  let! AB := boxTables e s plane x y w h r n sc in
  let '(A, B) := AB in
  rfor_to 0 h (fun i F =>
    let shift := if negb pass && bool_of (Z.land i 1) then 4 else 5 in
    rfor_to 0 w (fun j F =>
      let! ab := boxWeighted A B pass i j in
      let '(a, b) := ab in
      let! c := idx3 (rCdef e) plane (y + i) (x + j) in
      let! v := Round2 (a * c + b) (SGRPROJ_SGR_BITS + shift - SGRPROJ_RST_BITS) in
      upd2 F i j v) F) [[0]].

(** loop_restoration.go:70-100 selfGuidedFilter; [g] is state.LrFrame *)
Definition selfGuidedFilter (e : REnv) (s : stripe) (plane unitRow unitCol x y w h : Z) (g : frame) : res frame :=
  let! set := idx3 (rSgrSet e) plane unitRow unitCol in
  let! flt0 := boxFilter e s plane x y w h set false in
  let! flt1 := boxFilter e s plane x y w h set true in
  let! xqd := idx3 (rSgrXqd e) plane unitRow unitCol in
  let! w0 := idx xqd 0 in
  let! w1 := idx xqd 1 in
  let w2 := shl 1 SGRPROJ_PRJ_BITS - w0 - w1 in
  let! r0 := idx2 SGR_PARAMS set 0 in
  let! r1 := idx2 SGR_PARAMS set 2 in
  rfor_to 0 h (fun i g => rfor_to 0 w (fun j g =>
    let! c := idx3 (rCdef e) plane (y + i) (x + j) in
    let u := shl c SGRPROJ_RST_BITS in
    let! a := if bool_of r0 then idx2 flt0 i j else Ok u in
    let! b := if bool_of r1 then idx2 flt1 i j else Ok u in
    let! t := Round2 (w1 * u + w0 * a + w2 * b) (SGRPROJ_RST_BITS + SGRPROJ_PRJ_BITS) in
    upd3 g plane (y + i) (x + j) (Clip1 t (rBitDepth e))) g) g.

(** predict_inter.go:184-201 roundVariablesDerivationProcess: InterRound0, InterRound1 *)
Definition roundVariables (isCompound : bool) (bd : Z) : Z * Z :=
  (if bd =? 12 then 5 else 3, (if isCompound then 7 else 11) - (if (bd =? 12) && negb isCompound then 2 else 0)).
(** loop_restoration.go:264-276 wienerCoefficient (sic: filter[6-1], not filter[6-i]) *)
Definition wienerCoefficient (coeff : list Z) : res (list Z) :=
  rfor_to 0 3 (fun i filter =>
    let! c := idx coeff i in
    let! filter := upd filter i c in
    let! filter := upd filter (6 - 1) c in
    let! m := idx filter 3 in
    upd filter 3 (m - 2 * c)) [0; 0; 0; 128; 0; 0; 0].
(** t.LrWiener[plane][unitRow][unitCol][pass] *)
Definition wienerAt (e : REnv) (plane unitRow unitCol pass : Z) : res (list Z) :=
  let! u := idx3 (rWiener e) plane unitRow unitCol in idx u pass.
(** loop_restoration.go:238-248: the horizontal pass; [mid] is the local slice [intermediate] *)
Definition wienerRows (e : REnv) (s : stripe) (plane x y w h round0 offset limit : Z) (hfilter : list Z) (mid : list (list Z)) : res (list (list Z)) :=
  rfor_to 0 (h + 6) (fun r mid => rfor_to 0 w (fun c mid =>
    let! sum := rfor_to 0 7 (fun t sum => let! k := idx hfilter t in let! v := getSourceSample e s plane (x + c + t - 3) (y + r - 3) in Ok (sum + k * v)) 0 in
    let! v := Round2 sum round0 in
    upd2 mid r c (Clip3 (- offset) (limit - offset) v)) mid) mid.
(** loop_restoration.go:227-262 wienerFilter; [intermediate] is a nil slice that is never allocated *)
Definition wienerFilter (e : REnv) (s : stripe) (plane unitRow unitCol x y w h : Z) (g : frame) : res frame :=
  let '(round0, round1) := roundVariables false (rBitDepth e) in
  let! cv := wienerAt e plane unitRow unitCol 0 in
  let! vfilter := wienerCoefficient cv in
  let! ch := wienerAt e plane unitRow unitCol 1 in
  let! hfilter := wienerCoefficient ch in
  let offset := shl 1 (rBitDepth e + FILTER_BITS - round0 - 1) in
  let limit := shl 1 (rBitDepth e + 1 + FILTER_BITS - round0) - 1 in
  let! mid := wienerRows e s plane x y w h round0 offset limit hfilter [] in
  rfor_to 0 h (fun r g => rfor_to 0 w (fun c g =>
    let! sum := rfor_to 0 7 (fun t sum => let! k := idx vfilter t in let! v := idx2 mid (r + t) c in Ok (sum + k * v)) 0 in
    let! v := Round2 sum round1 in
    upd3 g plane (y + r) (x + c) (Clip1 v (rBitDepth e))) g) g.

(** loop_restoration.go:33-58: stripe, unit and block of one 4x4 unit: (stripe, unitRow, unitCol, x, y, w, h) *)
Record lrblock := mkLrblock { bStripe : stripe; bUnitRow : Z; bUnitCol : Z; bX : Z; bY : Z; bW : Z; bH : Z }.
(** loop_restoration.go:33-58 (sic: 8 is added to the column too); integer division by 0 panics *)
Definition lrGeometry (e : REnv) (plane row col : Z) : res lrblock :=
  let lumaY := row * MI_SIZE in
  let stripeNum := Z.quot (lumaY + 8) 64 in
  let subX := if plane =? 0 then 0 else int_of (rSubX e) in
  let subY := if plane =? 0 then 0 else int_of (rSubY e) in
  let startY := shr (-8 + stripeNum * 64) subY in
  let endY := startY + shr 64 subY - 1 in
  let! unitSize := idx (rUnitSize e) plane in
  let! planeH := Round2 (rFrameHeight e) subY in
  let! unitRows := CountUnitsInFrame unitSize planeH in
  let! planeW := Round2 (rUpscaledWidth e) subX in
  let! unitCols := CountUnitsInFrame unitSize planeW in
  let unitRow := Min (unitRows - 1) (Z.quot (shr (row * MI_SIZE + 8) subY) unitSize) in
  let unitCol := Min (unitCols - 1) (Z.quot (shr (col * MI_SIZE + 8) subX) unitSize) in
  let x := shr (col * MI_SIZE) subX in
  let y := shr (row * MI_SIZE) subY in
  Ok (mkLrblock (mkStripe startY endY (planeW - 1) (planeH - 1)) unitRow unitCol x y (Min (shr MI_SIZE subX) (planeW - 1 - x + 1)) (Min (shr MI_SIZE subY) (planeH - 1 - y + 1))).
(** loop_restoration.go:33-67 loopRestoreBlock *)
Definition loopRestoreBlock (e : REnv) (plane row col : Z) (g : frame) : res frame :=
  let! b := lrGeometry e plane row col in
  let! ty := idx3 (rType e) plane (bUnitRow b) (bUnitCol b) in
  if ty =? RESTORE_WIENER then wienerFilter e (bStripe b) plane (bUnitRow b) (bUnitCol b) (bX b) (bY b) (bW b) (bH b) g
  else if ty =? RESTORE_SGRPROJ then selfGuidedFilter e (bStripe b) plane (bUnitRow b) (bUnitCol b) (bX b) (bY b) (bW b) (bH b) g
  else Ok g.
(** loop_restoration.go:12-30 loopRestoration: the new LrFrame *)
Definition loopRestoration (e : REnv) : res frame :=
  if negb (rUsesLr e) then Ok (rCdef e) else
  rfor_by 0 (rFrameHeight e) MI_SIZE (fun y g => rfor_by 0 (rUpscaledWidth e) MI_SIZE (fun x g =>
    rfor_to 0 (rNumPlanes e) (fun plane g =>
      let! ty := idx (rFrameType e) plane in
      if negb (ty =? RESTORE_NONE) then loopRestoreBlock e plane (shr y MI_SIZE_LOG2) (shr x MI_SIZE_LOG2) g else Ok g) g) g) (rCdef e).
