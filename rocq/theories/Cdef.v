(** Model of internal/tilegroup/cdef.go (whole file).
    Simplifications: integers are exact (samples below 2^16, sums small, no 64-bit wrap-around); BitDepth is at least 8. *)
From Verif Require Import GoBase Bitstream Util Constants Tables Frame.

(** What CDEF reads besides the frames. *)
Record CEnv := mkCEnv {
  cBitDepth : Z; cNumPlanes : Z; cSubX : bool; cSubY : bool; cMiRows : Z; cMiCols : Z;
  cIdx : list (list Z);                                                       (* state.Cdef.CdefIdx *)
  cSkips : list (list Z);                                                     (* t.Skips *)
  cDamping : Z; cYPri : list Z; cYSec : list Z; cUVPri : list Z; cUVSec : list Z }.

(** cdef.go:259-269 constrain; FloorLog2 of a negative threshold does not end *)
Definition constrain (diff threshold damping : Z) : res Z :=
  if negb (bool_of threshold) then Ok 0 else
  let! fl := FloorLog2 threshold in
  let dampingAdj := Max 0 (damping - fl) in
  let sign := if diff <? 0 then -1 else 1 in
  Ok (sign * Clip3 0 (Abs diff) (threshold - shr (Abs diff) dampingAdj)).

(** util.go (tilegroup):31-40 isInsideFilterRegion *)
Definition isInsideFilterRegion (e : CEnv) (candidateR candidateC : Z) : bool :=
  (0 <=? candidateC) && (candidateC <? cMiCols e) && (0 <=? candidateR) && (candidateR <? cMiRows e).

(** cdef.go:234-246 cdefGetAt; CdefAvailable and the sample: [None] when not available *)
Definition cdefGetAt (e : CEnv) (f : frame) (plane x0 y0 i j dir k sign subX subY : Z) : res (option Z) :=
  let! d0 := idx3 CDEF_DIRECTIONS dir k 0 in
  let! d1 := idx3 CDEF_DIRECTIONS dir k 1 in
  let y := y0 + i + sign * d0 in
  let x := x0 + j + sign * d1 in
  let candidateR := shr (shl y subY) MI_SIZE_LOG2 in
  let candidateC := shr (shl x subX) MI_SIZE_LOG2 in
  if isInsideFilterRegion e candidateR candidateC then let! v := idx3 f plane y x in Ok (Some v) else Ok None.

(** sum, max and min of the filter (cdef.go:204-222) *)
Definition cacc := (Z * Z * Z)%type.
(** one tap: cdef.go:209-215 and 217-224 *)
Definition cdefTap (x weight str damping : Z) (p : option Z) (a : cacc) : res cacc :=
  match p with
  | None => Ok a
  | Some p => let '(sum, mx, mn) := a in let! c := constrain (p - x) str damping in Ok (sum + weight * c, Max p mx, Min p mn)
  end.
(** cdef.go:206-228: both directions of tap distance k *)
Definition cdefTapsK (e : CEnv) (f : frame) (plane x0 y0 i j subX subY dir priStr secStr damping x k : Z) (a : cacc) : res cacc :=
  rfor_to 0 2 (fun s a =>
    let sign := 2 * s - 1 in
    let! p := cdefGetAt e f plane x0 y0 i j dir k sign subX subY in
    let! w := idx2 CDEF_PRI_TAPS (Z.land (shr priStr (cBitDepth e)) 1) k in
    let! a := cdefTap x w priStr damping p a in
    rfor_to 0 2 (fun o a =>
      let dirOff := 4 * o - 2 in
      let! s := cdefGetAt e f plane x0 y0 i j (Z.land (dir + dirOff) 7) k sign subX subY in
      let! w := idx2 CDEF_SEC_TAPS (Z.land (shr priStr (cBitDepth e)) 1) k in
      cdefTap x w secStr damping s a) a) a.
(** cdef.go:202-229: one sample (sic: coeffShift is BitDepth, not BitDepth-8) *)
Definition cdefSample (e : CEnv) (f : frame) (plane x0 y0 i j subX subY dir priStr secStr damping : Z) : res Z :=
  let! x := idx3 f plane (y0 + i) (x0 + j) in
  let! a := rfor_to 0 2 (fun k a => cdefTapsK e f plane x0 y0 i j subX subY dir priStr secStr damping x k a) (0, x, x) in
  let '(sum, mx, mn) := a in
  Ok (Clip3 mn mx (x + shr (8 + sum - int_of (sum <? 0)) 4)).
(** cdef.go:185-232 cdefFilter: [f] is CurrFrame, [g] CdefFrame *)
Definition cdefFilter (e : CEnv) (f : frame) (plane r c priStr secStr damping dir : Z) (g : frame) : res frame :=
  let subX := if 0 <? plane then int_of (cSubX e) else 0 in
  let subY := if 0 <? plane then int_of (cSubY e) else 0 in
  let x0 := shr (c * MI_SIZE) subX in
  let y0 := shr (r * MI_SIZE) subY in
  let w := shr 8 subX in
  let h := shr 8 subY in
  rfor_to 0 h (fun i g => rfor_to 0 w (fun j g =>
    let! v := cdefSample e f plane x0 y0 i j subX subY dir priStr secStr damping in
    upd3 g plane (y0 + i) (x0 + j) v) g) g.

(** partial[d][k] += x *)
Definition accum (p : list (list Z)) (d k x : Z) : res (list (list Z)) := let! v := idx2 p d k in upd2 p d k (v + x).
(** cdef.go:132-141: one sample added to its line of each of the eight directions *)
Definition cdefPixel (e : CEnv) (f : frame) (x0 y0 i j : Z) (p : list (list Z)) : res (list (list Z)) :=
  let! s := idx3 f 0 (y0 + i) (x0 + j) in
  let x := shr s (cBitDepth e - 8) - 128 in
  let! p := accum p 0 (i + j) x in
  let! p := accum p 1 (i + Z.quot j 2) x in
  let! p := accum p 2 i x in
  let! p := accum p 3 (3 + i - Z.quot j 2) x in
  let! p := accum p 4 (7 + i - j) x in
  let! p := accum p 5 (3 - Z.quot i 2 + j) x in
  let! p := accum p 6 j x in
  accum p 7 (Z.quot i 2 + j) x.
(** cdef.go:117-123, 130-143: the 8x8 samples summed along the lines of the eight directions *)
Definition cdefPartials (e : CEnv) (f : frame) (x0 y0 : Z) : res (list (list Z)) :=
  rfor_to 0 8 (fun i p => rfor_to 0 8 (fun j p => cdefPixel e f x0 y0 i j p) p) (repeat (repeat 0 15) 8).
(** partial[d][k] * partial[d][k] *)
Definition sq (p : list (list Z)) (d k : Z) : res Z := let! v := idx2 p d k in Ok (v * v).
(** cdef.go:144-171: the costs *)
Definition cdefCosts (p : list (list Z)) : res (list Z) :=
  let cost := repeat 0 8 in
  let add (cost : list Z) (i v : Z) : res (list Z) := let! c := idx cost i in upd cost i (c + v) in
  let mul (cost : list Z) (i v : Z) : res (list Z) := let! c := idx cost i in upd cost i (c * v) in
  let! cost := rfor_to 0 8 (fun i cost =>
    let! a := sq p 2 i in let! cost := add cost 2 a in
    let! b := sq p 6 i in add cost 6 b) cost in
  let! d8 := idx DIV_TABLE 8 in
  let! cost := mul cost 2 d8 in
  let! cost := mul cost 6 d8 in
  let! cost := rfor_to 0 7 (fun i cost =>
    let! t := idx DIV_TABLE (i + 1) in
    let! a := sq p 0 i in let! b := sq p 0 (14 - i) in let! cost := add cost 0 ((a + b) * t) in
    let! a := sq p 4 i in let! b := sq p 4 (14 - i) in add cost 4 ((a + b) * t)) cost in
  let! a := sq p 0 7 in let! cost := add cost 0 (a * d8) in
  let! a := sq p 4 7 in let! cost := add cost 4 (a * d8) in
  rfor_to 0 4 (fun h cost =>
    let i := 1 + 2 * h in
    let! cost := rfor_to 0 5 (fun j cost => let! a := sq p i (3 + j) in add cost i a) cost in
    let! cost := mul cost i d8 in
    rfor_to 0 3 (fun j cost =>
      let! a := sq p i j in let! b := sq p i (10 - j) in let! t := idx DIV_TABLE (2 * j + 2) in add cost i ((a + b) * t)) cost) cost.
(** cdef.go:172-179: the first direction of largest cost, and the variance *)
Definition cdefBest (cost : list Z) : res (Z * Z) :=
  let! b := rfor_to 0 8 (fun i b => let '(bestCost, yDir) := b in let! c := idx cost i in Ok (if bestCost <? c then (c, i) else (bestCost, yDir))) (0, 0) in
  let '(bestCost, yDir) := b in
  let! o := idx cost (Z.land (yDir + 4) 7) in
  Ok (yDir, shr (bestCost - o) 10).
(** cdef.go:116-179 cdefDirection *)
Definition cdefDirection (e : CEnv) (f : frame) (r c : Z) : res (Z * Z) :=
  let! p := cdefPartials e f (shl c MI_SIZE_LOG2) (shl r MI_SIZE_LOG2) in
  let! cost := cdefCosts p in
  cdefBest cost.

(** cdef.go:33-51: copy of the block into CdefFrame *)
Definition copyBlock (f : frame) (plane startY endY startX endX : Z) (g : frame) : res frame :=
  rfor_to startY endY (fun y g => rfor_to startX endX (fun x g => let! v := idx3 f plane y x in upd3 g plane y x v) g) g.
(** cdef.go:28-104 cdefBlock.  The two chroma planes are copied in one double loop in the code; here plane after plane. *)
Definition cdefBlock (e : CEnv) (f : frame) (r c ix : Z) (g : frame) : res frame :=
  let startY := r * MI_SIZE in
  let endY := startY + MI_SIZE * 2 in
  let startX := c * MI_SIZE in
  let endX := startX + MI_SIZE * 2 in
  let! g := copyBlock f 0 startY endY startX endX g in
  let! g :=
    if 1 <? cNumPlanes e then
      let sy v := shr v (int_of (cSubY e)) in let sx v := shr v (int_of (cSubX e)) in
      let! g := copyBlock f 1 (sy startY) (sy endY) (sx startX) (sx endX) g in
      copyBlock f 2 (sy startY) (sy endY) (sx startX) (sx endX) g
    else Ok g in
  if ix =? -1 then Ok g else
  let coeffShift := cBitDepth e - 8 in
  let sk r c := let! s := idx2 (cSkips e) r c in Ok (bool_of s) in
  (* && does not evaluate its right side when the left is false *)
  let! skip := let! a := sk r c in if a : bool then let! b := sk (r + 1) c in if b : bool then let! d := sk r (c + 1) in if d : bool then sk (r + 1) (c + 1) else Ok false else Ok false else Ok false in
  if skip then Ok g else
  let! dv := cdefDirection e f r c in
  let '(yDir, varr) := dv in
  let! p := idx (cYPri e) ix in let priStr := shl p coeffShift in
  let! s := idx (cYSec e) ix in let secStr := shl s coeffShift in
  let dir := if priStr =? 0 then 0 else yDir in
  let! varStr := if bool_of (shr varr 6) then let! l := FloorLog2 (shr varr 6) in Ok (Min l 12) else Ok 0 in
  let priStr := if bool_of varr then shr (priStr * (4 + varStr) + 8) 4 else 0 in
  let damping := cDamping e + coeffShift in
  let! g := cdefFilter e f 0 r c priStr secStr damping dir g in
  if cNumPlanes e =? 1 then Ok g else
  let! p := idx (cUVPri e) ix in let priStr := shl p coeffShift in
  let! s := idx (cUVSec e) ix in let secStr := shl s coeffShift in
  let! dir := if priStr =? 0 then Ok 0 else idx3 CDEF_UV_DIR (int_of (cSubX e)) (int_of (cSubY e)) yDir in
  let damping := if priStr =? 0 then damping else cDamping e + coeffShift - 1 in
  let! g := cdefFilter e f 1 r c priStr secStr damping dir g in
  cdefFilter e f 2 r c priStr secStr damping dir g.

(** cdef.go:12-25 cdefProcess: 8x8 blocks (2 units), the index of the 64x64 block (mask ~15) *)
Definition cdefProcess (e : CEnv) (f g : frame) : res frame :=
  rfor_by 0 (cMiRows e) 2 (fun r g => rfor_by 0 (cMiCols e) 2 (fun c g =>
    let! ix := idx2 (cIdx e) (Z.land r (Z.lnot 15)) (Z.land c (Z.lnot 15)) in
    cdefBlock e f r c ix g) g) g.
