(** Model of internal/tilegroup/transform.go (whole file) and reconstruct.go (functions; the lookup tables are in Tables.v).
    t.T and t.Residual are slices: here lists (a nil slice is []); writing beyond the end panics.
    Simplification: integers are exact (no 64-bit wrap-around). *)
From Verif Require Import GoBase Bitstream Util Constants Tables Frame.

(** t.T[a], t.T[b] = t.T[b], t.T[a] the long way: transform.go:110-112 *)
Definition swapT (a b : Z) (T : list Z) : res (list Z) :=
  let! tmp := idx T a in let! vb := idx T b in let! T := upd T a vb in upd T b tmp.
(** transform.go:115-118: butterfly rotation, flag 0 (sic: y subtracts) *)
Definition rot (a b angle : Z) (T : list Z) : res (list Z) :=
  let! ta := idx T a in let! c := Cos128 angle in let! tb := idx T b in let! s := Sin128 angle in
  let x := ta * c - tb * s in
  let y := ta * s - tb * c in
  let! x' := Round2 x 12 in let! T := upd T a x' in
  let! y' := Round2 y 12 in upd T b y'.
(** transform.go:107-119 b *)
Definition tb (a b angle flag r : Z) (T : list Z) : res (list Z) :=
  if flag =? 1 then let! T := rot a b angle T in swapT a b T else rot a b angle T.
(** transform.go:127-130: Hadamard rotation, flag 0 *)
Definition had (a b r : Z) (T : list Z) : res (list Z) :=
  let! x := idx T a in let! y := idx T b in
  let lo := - shl 1 (r - 1) in let hi := shl 1 (r - 1) - 1 in
  let! T := upd T a (Clip3 lo hi (x + y)) in
  upd T b (Clip3 lo hi (x - y)).
(** transform.go:121-130 h *)
Definition th (a b flag r : Z) (T : list Z) : res (list Z) := if flag =? 1 then had b a r T else had a b r T.

(** transform.go:133-138 inverseDCTArrayPermutation (sic: copyT is the same slice, so already overwritten entries are read) *)
Definition inverseDCTArrayPermutation (n : Z) (T : list Z) : res (list Z) :=
  rfor_to 0 (shl 1 n) (fun i T => let! v := idx T (Brev n i) in upd T i v) T.

(** [when c m]: the statement [if c { m }] *)
Definition when (c : bool) (m : list Z -> res (list Z)) (T : list Z) : res (list Z) := if c then m T else Ok T.
(** for i := 0; i <= k; i++ *)
Definition upto (k : Z) (body : Z -> list Z -> res (list Z)) (T : list Z) : res (list Z) := rfor_to 0 (k + 1) body T.

(** transform.go:141-208: inverse DCT up to the first rotation of the 4-point core *)
Definition inverseDCT_1 (n r : Z) (T : list Z) : res (list Z) :=
  let! T := inverseDCTArrayPermutation n T in
  let! T := when (n =? 6) (upto 15 (fun i => tb (32 + i) (63 - i) (63 - 4 * Brev 4 i) 0 r)) T in
  let! T := when (5 <=? n) (upto 7 (fun i => tb (16 + i) (31 - i) (6 + shl (Brev 3 (7 - i)) 3) 0 r)) T in
  let! T := when (n =? 6) (upto 15 (fun i => th (32 + i * 2) (33 + i * 2) (Z.land i 1) r)) T in
  let! T := when (4 <=? n) (upto 3 (fun i => tb (8 + i) (15 - i) (12 + shl (Brev 2 (3 - i)) 4) 0 r)) T in
  let! T := when (5 <=? n) (upto 7 (fun i => th (16 + 2 * i) (17 + 2 * i) (Z.land i 1) r)) T in
  let! T := when (n =? 6) (upto 3 (fun i => upto 1 (fun j => tb (62 - i * 4 - j) (33 + i * 4 + j) (60 - 16 * Brev 2 i + 64 * j) 1 r))) T in
  let! T := when (3 <=? n) (upto 1 (fun i => tb (4 + i) (7 - i) (56 - 32 * i) 0 r)) T in
  let! T := when (4 <=? n) (upto 3 (fun i => th (8 + 2 * i) (9 + 2 * i) (Z.land i 1) r)) T in
  let! T := when (5 <=? n) (upto 1 (fun i => upto 1 (fun j => tb (30 - 4 * i - j) (17 + 4 * i + j) (24 + shl j 6 + shl (1 - i) 5) 1 r))) T in
  when (n =? 6) (upto 7 (fun i => upto 1 (fun j => th (32 + i * 4 + j) (35 + i * 4 - j) (Z.land i 1) r))) T.
(** transform.go:210-212 *)
Definition inverseDCT_core (r : Z) (T : list Z) : res (list Z) := upto 1 (fun i => tb (2 * i) (2 * i + 1) (32 + 16 * i) (1 - i) r) T.
(** transform.go:214-339 *)
Definition inverseDCT_2 (n r : Z) (T : list Z) : res (list Z) :=
  let! T := when (3 <=? n) (upto 1 (fun i => th (4 + 2 * i) (5 + 2 * i) i r)) T in
  let! T := when (4 <=? n) (upto 1 (fun i => tb (14 - i) (9 + i) (48 + 64 * i) 1 r)) T in
  let! T := when (5 <=? n) (upto 3 (fun i => upto 1 (fun j => th (16 + 4 * i + j) (19 + 4 * i - j) (Z.land i 1) r))) T in
  let! T := when (n =? 6) (upto 1 (fun i => upto 3 (fun j => tb (61 - i * 8 - j) (34 + i * 8 + j) (56 - i * 32 + shr j 1 * 64) 1 r))) T in
  let! T := upto 1 (fun i => th i (3 - i) 0 r) T in
  let! T := when (3 <=? n) (tb 6 5 32 1 r) T in
  let! T := when (4 <=? n) (upto 1 (fun i => upto 1 (fun j => th (8 + 4 * i + j) (11 + 4 * i - j) i r))) T in
  let! T := when (5 <=? n) (upto 3 (fun i => tb (29 - i) (18 + i) (48 + shr i 1 * 64) 1 r)) T in
  let! T := when (n =? 6) (upto 3 (fun i => upto 3 (fun j => th (32 + 8 * i + j) (39 + 8 * i - j) (Z.land i 1) r))) T in
  let! T := when (3 <=? n) (upto 3 (fun i => th i (7 - i) 0 r)) T in
  let! T := when (4 <=? n) (upto 1 (fun i => tb (13 - i) (10 + i) 32 1 r)) T in
  let! T := when (5 <=? n) (upto 1 (fun i => upto 3 (fun j => th (16 + i * 8 + j) (23 + i * 8 - j) i r))) T in
  let! T := when (n =? 6) (upto 7 (fun i => if i <? 4 then tb (59 - i) (36 + i) 48 1 r else tb (59 - i) (36 + i) 112 1 r)) T in
  let! T := when (4 <=? n) (upto 7 (fun i => th i (15 - i) 0 r)) T in
  let! T := when (5 <=? n) (upto 3 (fun i => tb (27 - i) (20 + i) 32 1 r)) T in
  let! T := when (n =? 6) (upto 7 (fun i T => let! T := th (32 + i) (47 - i) 0 r T in th (48 + i) (63 - i) 1 r T)) T in
  let! T := when (5 <=? n) (upto 15 (fun i => th i (31 - i) 0 r)) T in
  let! T := when (n =? 6) (upto 7 (fun i => tb (55 - i) (40 + i) 32 1 r)) T in
  when (n =? 6) (upto 31 (fun i => th i (63 - i) 0 r)) T.
(** transform.go:141-339 inverseDCT *)
Definition inverseDCT (n r : Z) (T : list Z) : res (list Z) :=
  let! T := inverseDCT_1 n r T in let! T := inverseDCT_core r T in inverseDCT_2 n r T.

(** transform.go:342-354 inverseADSTInputArrayPermutation (sic: copyT is the same slice) *)
Definition inverseADSTInputArrayPermutation (n : Z) (T : list Z) : res (list Z) :=
  let n0 := shl 1 n in
  rfor_to 0 n0 (fun i T => let! v := idx T (if bool_of (Z.land i 1) then i - 1 else n0 - i - 1) in upd T i v) T.
(** transform.go:357-375 inverseADSTOutputArrayPermutation (sic: copyT is the same slice) *)
Definition inverseADSTOutputArrayPermutation (n : Z) (T : list Z) : res (list Z) :=
  rfor_to 0 (shl 1 n) (fun i T =>
    let a := Z.land (shr i 3) 1 in
    let b := Z.lxor (Z.land (shr i 2) 1) (Z.land (shr i 3) 1) in
    let c := Z.lxor (Z.land (shr i 1) 1) (Z.land (shr i 2) 1) in
    let d := Z.lxor (Z.land i 1) (Z.land (shr i 1) 1) in
    let ix := shr (Z.lor (Z.lor (Z.lor (shl d 3) (shl c 2)) (shl b 1)) a) (4 - n) in
    let! v := idx T ix in
    upd T i (if bool_of (Z.land i 1) then - v else v)) T.
(** transform.go:383-412 inverseADST4: [s] is an empty slice, its first write (s[0] = ...) panics after T[0] was read *)
Definition inverseADST4 (r : Z) (T : list Z) : res (list Z) :=
  let! t0 := idx T 0 in let! s := upd [] 0 (1321 * t0) in Ok T.
(** transform.go:415-440 inverseADST8 (sic: output permutation of 16) *)
Definition inverseADST8 (r : Z) (T : list Z) : res (list Z) :=
  let! T := inverseADSTInputArrayPermutation 3 T in
  let! T := upto 3 (fun i => tb (2 * i) (2 * i + 1) (60 - 16 * i) 1 r) T in
  let! T := upto 3 (fun i => th i (4 + i) 0 r) T in
  let! T := upto 1 (fun i => tb (4 + 3 * i) (5 + i) (48 - 32 * i) 1 r) T in
  let! T := upto 1 (fun i => upto 1 (fun j => th (4 * j + i) (2 + 4 * j + i) 0 r)) T in
  let! T := upto 1 (fun i => tb (2 + 4 * i) (3 + 4 * i) 32 1 r) T in
  inverseADSTOutputArrayPermutation 4 T.
(** transform.go:443-481 inverseADST16 *)
Definition inverseADST16 (r : Z) (T : list Z) : res (list Z) :=
  let! T := inverseADSTInputArrayPermutation 4 T in
  let! T := upto 7 (fun i => tb (2 * i) (2 * i + 1) (62 - 8 * i) 1 r) T in
  let! T := upto 7 (fun i => th i (8 + i) 0 r) T in
  let! T := upto 1 (fun i T => let! T := tb (8 + 2 * i) (9 + 2 * i) (56 - 32 * i) 1 r T in tb (13 + 2 * i) (12 + 2 * i) (8 + 32 * i) 1 r T) T in
  let! T := upto 3 (fun i => upto 1 (fun j => th (8 * j + i) (4 + 8 * j + i) 0 r)) T in
  let! T := upto 1 (fun i => upto 1 (fun j => tb (4 + 8 * j + 3 * i) (5 + 8 * j + i) (48 - 32 * i) 1 r)) T in
  let! T := upto 1 (fun i => upto 3 (fun j => th (4 * j + i) (2 + 4 * j + i) 0 r)) T in
  let! T := upto 3 (fun i => tb (2 + 4 * i) (3 + 4 * i) 32 1 r) T in
  inverseADSTOutputArrayPermutation 4 T.
(** transform.go:484-493 inverseADST *)
Definition inverseADST (n r : Z) (T : list Z) : res (list Z) :=
  if n =? 2 then inverseADST4 r T else if n =? 3 then inverseADST8 r T else inverseADST16 r T.

(** transform.go:496-512 inverseWalshHadamardTransform *)
Definition inverseWHT (shift : Z) (T : list Z) : res (list Z) :=
  let! t0 := idx T 0 in let a := shr t0 shift in
  let! t1 := idx T 1 in let c := shr t1 shift in
  let! t2 := idx T 2 in let d := shr t2 shift in
  let! t3 := idx T 3 in let b := shr t3 shift in
  let a := a + c in
  let d := d - b in
  let e := shr (a - d) 1 in
  let b := e - b in
  let c := e - c in
  let a := a - b in
  let d := d + c in
  let! T := upd T 0 a in let! T := upd T 1 b in let! T := upd T 2 c in upd T 3 d.

(** transform.go:515-540: the identity transforms of 4, 8, 16 and 32 points *)
Definition mapT (k : Z) (g : Z -> res Z) (T : list Z) : res (list Z) := upto k (fun i T => let! v := idx T i in let! v' := g v in upd T i v') T.
Definition inverseIdentity4 := mapT 3 (fun v => Round2 (v * 5793) 12).
Definition inverseIdentity8 := mapT 7 (fun v => Ok (v * 2)).
Definition inverseIdentity16 := mapT 15 (fun v => Round2 (v * 11586) 12).
Definition inverseIdentity32 := mapT 31 (fun v => Ok (v * 4)).
(** transform.go:543-553 inverseIdentityTransform *)
Definition inverseIdentity (n : Z) (T : list Z) : res (list Z) :=
  if n =? 2 then inverseIdentity4 T else if n =? 3 then inverseIdentity8 T else if n =? 4 then inverseIdentity16 T else inverseIdentity32 T.

Definition mem (l : list Z) (v : Z) : bool := existsb (Z.eqb v) l.
(** transform.go:48-67: the row transform *)
Definition rowTransform (lossless : bool) (txType log2W range : Z) (T : list Z) : res (list Z) :=
  if lossless then inverseWHT 2 T
  else if mem [DCT_DCT; ADST_DCT; FLIPADST_DCT; H_DCT] txType then inverseDCT log2W range T
  else if mem [DCT_ADST; ADST_ADST; DCT_FLIPADST; FLIPADST_FLIPADST; ADST_FLIPADST; FLIPADST_ADST; H_ADST; H_FLIPADST] txType then inverseADST log2W range T
  else inverseIdentity log2W T.
(** transform.go:80-98: the column transform *)
Definition colTransform (lossless : bool) (txType log2H range : Z) (T : list Z) : res (list Z) :=
  if lossless then inverseWHT 0 T
  else if mem [DCT_DCT; DCT_ADST; DCT_FLIPADST; V_DCT] txType then inverseDCT log2H range T
  else if mem [ADST_DCT; ADST_ADST; FLIPADST_DCT; FLIPADST_FLIPADST; ADST_FLIPADST; FLIPADST_ADST; V_ADST; V_FLIPADST] txType then inverseADST log2H range T
  else inverseIdentity log2H T.

(** t.T and t.Residual *)
Definition tst := (list Z * list (list Z))%type.
(** transform.go:35-71: one row *)
Definition rowPass (lossless : bool) (txType log2W log2H bd : Z) (deq : list (list Z)) (rowShift i : Z) (s : tst) : res tst :=
  let '(T, R) := s in
  let w := shl 1 log2W in
  let! T := rfor_to 0 w (fun j T => if (i <? 32) && (j <? 32) then let! v := idx2 deq i j in upd T j v else upd T j 0) T in
  let! T := if Abs (log2W - log2H) =? 1 then rfor_to 0 w (fun j T => let! v := idx T j in let! v' := Round2 (v * 2896) 12 in upd T j v') T else Ok T in
  let! T := rowTransform lossless txType log2W (bd + 8) T in
  let! R := rfor_to 0 w (fun j R => let! v := idx T j in let! v' := Round2 v rowShift in upd2 R i j v') R in
  Ok (T, R).
(** transform.go:79-102: one column (sic: T is not loaded from the column, and every row gets T[j]) *)
Definition colPass (lossless : bool) (txType log2H bd colShift range j : Z) (s : tst) : res tst :=
  let '(T, R) := s in
  let! T := colTransform lossless txType log2H range T in
  let! R := rfor_to 0 (shl 1 log2H) (fun i R => let! v := idx T j in let! v' := Round2 v colShift in upd2 R i j v') R in
  Ok (T, R).
(** transform.go:14-105 InverseTranform *)
Definition inverseTransform (lossless : bool) (txType txSz bd : Z) (deq : list (list Z)) (s : tst) : res tst :=
  let! log2W := idx TX_WIDTH_LOG2 txSz in
  let! log2H := idx TX_HEIGHT_LOG2 txSz in
  let w := shl 1 log2W in
  let h := shl 1 log2H in
  let! rowShift := if lossless then Ok 0 else idx Transform_Row_Shift txSz in
  let colShift := if lossless then 0 else 4 in
  let range := Max (bd + 6) 16 in
  let! s := rfor_to 0 h (fun i s => rowPass lossless txType log2W log2H bd deq rowShift i s) s in
  let '(T, R) := s in
  let! R := rfor_to 0 h (fun i R => rfor_to 0 w (fun j R => let! v := idx2 R i j in upd2 R i j (Clip3 (- shl 1 (range - 1)) (shl 1 (range - 1) - 1) v)) R) R in
  rfor_to 0 w (fun j s => colPass lossless txType log2H bd colShift range j s) (T, R).

(** reconstruct.go:114-116 dcQ *)
Definition dcQ (b bd : Z) : res Z := idx2 Dc_Qlookup (shr (bd - 8) 1) (Clip3 0 255 b).
(** reconstruct.go:129-131 acQ (sic: the table of DC steps) *)
Definition acQ (b bd : Z) : res Z := idx2 Dc_Qlookup (shr (bd - 8) 1) (Clip3 0 255 b).

(** What dequantisation reads: q index of the block and the frame's parameters. *)
Record QEnv := mkQEnv {
  qBitDepth : Z; qIndex : res Z;                                  (* uh.GetQIndex(0, t.SegmentId, state), modelled in FrameHeader.v *)
  qYDc : Z; qUDc : Z; qVDc : Z; qUAc : Z; qVAc : Z;               (* uh.DeltaQ*** *)
  qUsing : bool; qLevel : list Z;                                 (* uh.UsingQMatrix, uh.SegQMLevel[.][t.SegmentId] *)
  qMatrix : list (list (list Z)) }.                               (* Quantizer_Matrix of quantizer.go *)
(** reconstruct.go:104-112 getDcQuant *)
Definition getDcQuant (q : QEnv) (plane : Z) : res Z :=
  let! i := qIndex q in dcQ (i + if plane =? 0 then qYDc q else if plane =? 1 then qUDc q else qVDc q) (qBitDepth q).
(** reconstruct.go:119-127 getAcQuant *)
Definition getAcQuant (q : QEnv) (plane : Z) : res Z :=
  let! i := qIndex q in acQ (i + if plane =? 0 then 0 else if plane =? 1 then qUAc q else qVAc q) (qBitDepth q).
(** reconstruct.go:12-24: dqDenom *)
Definition dqDenom (txSz : Z) : Z :=
  if mem [TX_32X32; TX_16X32; TX_32X16; TX_16X64; TX_64X16] txSz then 2 else if mem [TX_64X64; TX_32X64; TX_64X32] txSz then 4 else 1.
(** reconstruct.go:52-73: one coefficient *)
Definition dequantOne (q : QEnv) (quant : list Z) (plane txSz txType tw i j : Z) : res Z :=
  let! s := if (i =? 0) && (j =? 0) then getDcQuant q plane else getAcQuant q plane in
  let! level := if qUsing q && (txType <? IDTX) then let! l := idx (qLevel q) plane in Ok (Some l) else Ok None in
  let! s2 := match level with
    | Some l => if l <? 15 then let! o := idx Qm_Offset txSz in let! m := idx3 (qMatrix q) l (int_of (0 <? plane)) (o + i * tw + j) in Round2 (s * m) 5 else Ok s
    | None => Ok s end in
  let! c := idx quant (i * tw + j) in
  let dq := c * s2 in
  let sign := if dq <? 0 then -1 else 1 in
  let dq2 := Z.quot (sign * Z.land (Abs dq) 16777215) (dqDenom txSz) in
  Ok (Clip3 (- shl 1 (7 + qBitDepth q)) (shl 1 (7 + qBitDepth q) - 1) dq2).
(** reconstruct.go:26-32, 50-75: all coefficients *)
Definition dequantize (q : QEnv) (quant : list Z) (plane txSz txType : Z) (deq : list (list Z)) : res (list (list Z)) :=
  let! log2W := idx TX_WIDTH_LOG2 txSz in
  let! log2H := idx TX_HEIGHT_LOG2 txSz in
  let tw := Min 32 (shl 1 log2W) in
  let th := Min 32 (shl 1 log2H) in
  rfor_to 0 th (fun i deq => rfor_to 0 tw (fun j deq => let! v := dequantOne q quant plane txSz txType tw i j in upd2 deq i j v) deq) deq.
(** reconstruct.go:34-48 *)
Definition flipUD (txType : Z) : bool := mem [FLIPADST_DCT; FLIPADST_ADST; V_FLIPADST; FLIPADST_FLIPADST] txType.
Definition flipLR (txType : Z) : bool := mem [DCT_FLIPADST; ADST_FLIPADST; H_FLIPADST; FLIPADST_FLIPADST] txType.
(** reconstruct.go:79-95: adding the residual *)
Definition addResidual (bd plane x y w h txType : Z) (R : list (list Z)) (f : frame) : res frame :=
  rfor_to 0 h (fun i f => rfor_to 0 w (fun j f =>
    let xx := if flipLR txType then w - j - 1 else j in
    let yy := if flipUD txType then h - i - 1 else i in
    let! v := idx3 f plane (y + yy) (x + xx) in
    let! r := idx2 R i j in
    upd3 f plane (y + yy) (x + xx) (Clip1 (v + r) bd)) f) f.
(** reconstruct.go:11-96 reconstruct: the frame, t.Dequant, t.T and t.Residual *)
Definition reconstruct (q : QEnv) (lossless : bool) (quant : list Z) (plane x y txSz txType : Z) (deq : list (list Z)) (s : tst) (f : frame) : res (frame * list (list Z) * tst) :=
  let! deq := dequantize q quant plane txSz txType deq in
  let! s := inverseTransform lossless txType txSz (qBitDepth q) deq s in
  let! log2W := idx TX_WIDTH_LOG2 txSz in
  let! log2H := idx TX_HEIGHT_LOG2 txSz in
  let! f := addResidual (qBitDepth q) plane x y (shl 1 log2W) (shl 1 log2H) txType (snd s) f in
  Ok (f, deq, s).
