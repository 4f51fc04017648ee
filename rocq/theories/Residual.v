(** Model of internal/tilegroup/residual.go (whole file) and of clearBlockDecodedFlags (tile_group.go:770-809).
    What transformBlock calls (prediction, coefficients, reconstruction: Intra.v, Coeffs.v, Transform.v) and transformBlock itself, as seen by residual, are parameters here.
    state.BlockWidth and state.BlockHeight are never written (state.go:30-31), so both are 0 for every block size.
    Simplification: coordinates are exact integers. *)
From Verif Require Import GoBase Util Constants Tables Frame LoopFilter.
Local Open Scope Z_scope.

(** A loop "for i := lo; i < n; i += st", with st > 0; without end otherwise *)
Fixpoint rstep {A} (fuel : nat) (i n st : Z) (f : Z -> A -> res A) (a : A) : res A :=
  match fuel with
  | O => Hang
  | S fuel => if i <? n then let! a := f i a in rstep fuel (i + st) n st f a else Ok a
  end.
(** What is read: state.MiSize, MiRow, MiCol, MiRows, MiCols; t.HasChroma, Lossless, TxSize, IsInter, InterTxSizes; sh.ColorConfig *)
Record REnv := mkREnv { rSize : Z; rRow : Z; rCol : Z; rRows : Z; rCols : Z; rChroma : bool; rLossless : bool; rTx : Z; rInter : bool; rInterTx : list (list Z); rSubX : bool; rSubY : bool }.

(** residual.go:297-307 findTxSize *)
Fixpoint findFrom (n : nat) (t w h : Z) : res Z :=
  match n with
  | O => Ok t
  | S n => let! tw := idx Tx_Width t in let! th := idx Tx_Height t in if (tw =? w) && (th =? h) then Ok t else findFrom n (t + 1) w h
  end.
Definition findTxSize (w h : Z) : res Z := findFrom (Z.to_nat TX_SIZES_ALL) 0 w h.
(** residual.go:310-328 getTxSize *)
Definition getTxSize (subX subY : bool) (miSize plane txSz : Z) : res Z :=
  if plane =? 0 then Ok txSz
  else
    let! b := getPlaneResidualSize subX subY miSize plane in
    let! uvTx := idx Max_Tx_Size_Rect b in
    let! w := idx Tx_Width uvTx in
    let! h := idx Tx_Height uvTx in
    if (w =? 64) || (h =? 64) then if w =? 16 then Ok TX_16X32 else if h =? 16 then Ok TX_32X16 else Ok TX_32X32 else Ok uvTx.

Section Calls.
  Context {A : Type}.
  (** transformBlock: plane, baseX, baseY, txSz, x, y *)
  Variable tb : Z -> Z -> Z -> Z -> Z -> Z -> A -> res A.
  (** residual.go:263-293 transformTree; the fuel is enough for the sizes of blocks (PropResidual.v) *)
  Fixpoint transformTree (fuel : nat) (e : REnv) (startX startY w h : Z) (a : A) : res A :=
    match fuel with
    | O => Hang
    | S fuel =>
        let maxX := rCols e * MI_SIZE in
        let maxY := rRows e * MI_SIZE in
        if (maxX <=? startX) || (maxY <=? startY) then Ok a
        else
          let! lumaTx := idx2 (rInterTx e) (shr startY MI_SIZE_LOG2) (shr startX MI_SIZE_LOG2) in
          let! lumaW := idx Tx_Width lumaTx in
          let! lumaH := idx Tx_Height lumaTx in
          if (w <=? lumaW) && (h <=? lumaH) then let! t := findTxSize w h in tb 0 startX startY t 0 0 a
          else if h <? w then
            let! a := transformTree fuel e startX startY (Z.quot w 2) h a in transformTree fuel e (startX + Z.quot w 2) startY (Z.quot w 2) h a
          else if w <? h then
            let! a := transformTree fuel e startX startY w (Z.quot h 2) a in transformTree fuel e startX (startY + Z.quot h 2) w (Z.quot h 2) a
          else
            let! a := transformTree fuel e startX startY (Z.quot w 2) (Z.quot h 2) a in
            let! a := transformTree fuel e (startX + Z.quot w 2) startY (Z.quot w 2) (Z.quot h 2) a in
            let! a := transformTree fuel e startX (startY + Z.quot h 2) (Z.quot w 2) (Z.quot h 2) a in
            transformTree fuel e (startX + Z.quot w 2) (startY + Z.quot h 2) (Z.quot w 2) (Z.quot h 2) a
    end.
  (** residual.go:26-66: one plane of one chunk *)
  Definition residualPlane (e : REnv) (miSizeChunk chunkX chunkY plane : Z) (a : A) : res A :=
    let! txSz := if rLossless e then Ok TX_4X4 else getTxSize (rSubX e) (rSubY e) (rSize e) plane (rTx e) in
    let! tw := idx Tx_Width txSz in
    let! th := idx Tx_Height txSz in
    let stepX := shr tw 2 in
    let stepY := shr th 2 in
    let! planeSz := getPlaneResidualSize (rSubX e) (rSubY e) miSizeChunk plane in
    let! num4x4W := idx NUM_4X4_BLOCKS_WIDE planeSz in
    let! num4x4H := idx NUM_4X4_BLOCKS_HIGH planeSz in
    let subX := if 0 <? plane then int_of (rSubX e) else 0 in
    let subY := if 0 <? plane then int_of (rSubY e) else 0 in
    let baseX := shr (rCol e + shl chunkX 4) subX * MI_SIZE in
    let baseY := shr (rRow e + shl chunkY 4) subY * MI_SIZE in
    if rInter e && negb (rLossless e) && (plane =? 0) then transformTree (Z.to_nat (num4x4W * 4 + num4x4H * 4)) e baseX baseY (num4x4W * 4) (num4x4H * 4) a
    else
      let baseXBlock := shr (rCol e) subX * MI_SIZE in
      let baseYBlock := shr (rRow e) subY * MI_SIZE in
      rstep (Z.to_nat num4x4H + 1) 0 num4x4H stepY (fun y a =>
        rstep (Z.to_nat num4x4W + 1) 0 num4x4W stepX (fun x a =>
          tb plane baseXBlock baseYBlock txSz (x + shr (shl chunkX 4) subX) (y + shr (shl chunkY 4) subY) a) a) a.
  (** residual.go:13-70 residual *)
  Definition residual (e : REnv) (a : A) : res A :=
    let! bw := idx (repeat 0 64) (rSize e) in
    let! bh := idx (repeat 0 64) (rSize e) in
    let widthChunks := Max 1 (shr bw 6) in
    let heightChunks := Max 1 (shr bh 6) in
    let miSizeChunk := if (1 <? widthChunks) || (1 <? heightChunks) then BLOCK_64X64 else rSize e in
    rfor_to 0 heightChunks (fun chunkY a => rfor_to 0 widthChunks (fun chunkX a =>
      rfor_to 0 (1 + int_of (rChroma e) * 2) (fun plane a => residualPlane e miSizeChunk chunkX chunkY plane a) a) a) a.
End Calls.

(** ** transformBlock *)
(** What transformBlock reads besides: sh.Use128x128SuperBlock, t.PaletteSizeY, PaletteSizeUV, UVMode, YMode, Skip, state.AvailL, AvailU, AvailLChroma, AvailUChroma *)
Record TEnv := mkTEnv { t128 : bool; tPalY : Z; tPalUV : Z; tUV : Z; tY : Z; tSkip : bool; tL : bool; tU : bool; tLC : bool; tUC : bool }.
(** What it writes: t.LoopFilterTxSizes [3][2][2], state.BlockDecoded [3][13][13], t.MaxLumaW, t.MaxLumaH, and the state of what it calls *)
Record TSt (A : Type) := mkTSt { tsA : A; tsLf : list (list (list Z)); tsDec : list (list (list bool)); tsW : Z; tsH : Z }.
Arguments mkTSt {A}. Arguments tsA {A}. Arguments tsLf {A}. Arguments tsDec {A}. Arguments tsW {A}. Arguments tsH {A}.
Definition updb3 (f : list (list (list bool))) (p r c : Z) (v : bool) : res (list (list (list bool))) := let! g := idx f p in let! g := upd2 g r c v in upd f p g.
Definition idxb3 (f : list (list (list bool))) (p r c : Z) : res bool := let! g := idx f p in idx2 g r c.
Section Block.
  Context {A : Type}.
  (** palettePrediction: plane startX startY x y txSz; predictIntra: plane startX startY haveLeft haveAbove haveAboveRight haveBelowLeft mode log2W log2H;
      predictChromaFromLuma: plane startX startY txSz MaxLumaW MaxLumaH; coeffs and reconstruct: plane startX startY txSz *)
  Variable pal : Z -> Z -> Z -> Z -> Z -> Z -> A -> res A.
  Variable intra : Z -> Z -> Z -> bool -> bool -> bool -> bool -> Z -> Z -> Z -> A -> res A.
  Variable cfl : Z -> Z -> Z -> Z -> Z -> Z -> A -> res A.
  Variable coefs : Z -> Z -> Z -> Z -> A -> res (Z * A).
  Variable recon : Z -> Z -> Z -> Z -> A -> res A.
  (** residual.go:110-171: the prediction of an intra block *)
  Definition predictBlock (e : REnv) (q : TEnv) (plane startX startY txSz x y subX subY sbRow sbCol stepX stepY : Z) (s : TSt A) : res (TSt A) :=
    let! a :=
      if (plane =? 0) && bool_of (tPalY q) || negb (plane =? 0) && bool_of (tPalUV q) then pal plane startX startY x y txSz (tsA s)
      else
        let isCfl := (0 <? plane) && (tUV q =? UV_CFL_PRED) in
        let mode := if plane =? 0 then tY q else if isCfl then DC_PRED else tUV q in
        let! log2W := idx TX_WIDTH_LOG2 txSz in
        let! log2H := idx TX_HEIGHT_LOG2 txSz in
        let condL := if plane =? 0 then tLC q else tL q in
        let condU := if plane =? 0 then tUC q else tU q in
        let x1 := shr sbCol subX + stepX in
        let x2 := shr sbCol subX - 1 in
        let y1 := shr sbRow subY + stepY in
        let y2 := shr sbRow subY - 1 in
        let! x2 := if x2 <? 0 then let! l := let! d := idx (tsDec s) plane in idx d y1 in Ok (zlen l + x2) else Ok x2 in
        let! y2 := if y2 <? 0 then let! d := idx (tsDec s) plane in Ok (zlen d + y2) else Ok y2 in
        let! ar := idxb3 (tsDec s) plane y2 x1 in
        let! bl := idxb3 (tsDec s) plane y1 x2 in
        let! a := intra plane startX startY (condL || (0 <? x)) (condU || (0 <? y)) ar bl mode log2W log2H (tsA s) in
        if isCfl then cfl plane startX startY txSz (tsW s) (tsH s) a else Ok a in
    if plane =? 0 then Ok (mkTSt a (tsLf s) (tsDec s) (startX + stepX * 4) (startY + stepY * 4)) else Ok (mkTSt a (tsLf s) (tsDec s) (tsW s) (tsH s)).
  (** residual.go:82-192 transformBlock (sic: col from startY; mask 21; the chroma neighbours for luma; both loops to stepY) *)
  Definition transformBlock (e : REnv) (q : TEnv) (plane baseX baseY txSz x y : Z) (s : TSt A) : res (TSt A) :=
    let startX := baseX + 4 * x in
    let startY := baseY + 4 * y in
    let subX := if 0 <? plane then int_of (rSubX e) else 0 in
    let subY := if 0 <? plane then int_of (rSubY e) else 0 in
    let row := shr (shl startY subY) MI_SIZE_LOG2 in
    let col := shr (shl startY subY) MI_SIZE_LOG2 in
    let sbMask := if t128 q then 21 else 15 in
    let sbRow := Z.land row sbMask in
    let sbCol := Z.land col sbMask in
    let! tw := idx Tx_Width txSz in
    let! th := idx Tx_Height txSz in
    let stepX := shr tw MI_SIZE_LOG2 in
    let stepY := shr th MI_SIZE_LOG2 in
    let maxX := shr (rCols e * MI_SIZE) subX in
    let maxY := shr (rRows e * MI_SIZE) subY in
    if (maxX <=? startX) || (maxY <=? startY) then Ok s
    else
      let! s := if rInter e then Ok s else predictBlock e q plane startX startY txSz x y subX subY sbRow sbCol stepX stepY s in
      let! a := if tSkip q then Ok (tsA s) else let! r := coefs plane startX startY txSz (tsA s) in if 0 <? fst r then recon plane startX startY txSz (snd r) else Ok (snd r) in
      rfor_to 0 stepY (fun i s => rfor_to 0 stepY (fun j s =>
        let! lf := upd3 (tsLf s) plane (shr row subY + i) (shr col subX + j) txSz in
        let! d := updb3 (tsDec s) plane (shr sbRow subY + i) (shr sbCol subX + j) true in
        Ok (mkTSt (tsA s) lf d (tsW s) (tsH s))) s) (mkTSt a (tsLf s) (tsDec s) (tsW s) (tsH s)).
End Block.

(** residual.go:195-219 palettePrediction: palettes and the luma map are t.PaletteColorsY/U/V and t.ColorMapY; the map is nil for chroma (sic) *)
Definition palettePrediction (palettes : list (list Z)) (colorMap : list (list Z)) (plane startX startY x y txSz : Z) (f : frame) : res frame :=
  let! w := idx Tx_Width txSz in
  let! h := idx Tx_Height txSz in
  let palette := nth (if plane =? 0 then 0%nat else if plane =? 1 then 1%nat else 2%nat) palettes [] in
  let map := if plane =? 0 then colorMap else [] in
  fill (fun i j => let! k := idx2 map (y * 4 + i) (x * 4 + j) in idx palette k) plane (fun i => startY + i) (fun j => startX + j) 0 h 0 w f.

(** residual.go:236-253: the luma samples below a chroma sample, and their sum *)
Definition lumaAt (f : frame) (subX subY startX startY maxW maxH i j : Z) : res Z :=
  let lumaY := Min (shl (startY + i) subY) (maxH - shl 1 subY) in
  let lumaX := Min (shl (startX + j) subX) (maxW - shl 1 subX) in
  let! t := rfor_to 0 (subY + 1) (fun dy t => rfor_to 0 (subX + 1) (fun dx t => let! v := idx3 f 0 (lumaY + dy) (lumaX + dx) in Ok (t + v)) t) 0 in
  if 3 - subX - subY <? 0 then Panic else Ok (shl t (3 - subX - subY)).
Definition lumaTable (f : frame) (subX subY startX startY maxW maxH w h : Z) : res (list (list Z) * Z) :=
  rfor_to 0 h (fun i acc => rfor_to 0 w (fun j acc =>
    let! v := lumaAt f subX subY startX startY maxW maxH i j in
    let! l := upd2 (fst acc) i j v in Ok (l, snd acc + v)) acc) (repeat (repeat 0 64) 64, 0).
(** residual.go:222-260 predictChromaFromLuma (sic: the alpha of V for both chroma planes; Clip1 and Round2Signed as in Util.v) *)
Definition predictChromaFromLuma (subX subY : bool) (bitDepth alphaU alphaV plane startX startY txSz maxW maxH : Z) (f : frame) : res frame :=
  let! w := idx Tx_Width txSz in
  let! h := idx Tx_Height txSz in
  let alpha := if plane =? 0 then alphaU else alphaV in
  let! la := lumaTable f (int_of subX) (int_of subY) startX startY maxW maxH w h in
  let! lw := idx TX_WIDTH_LOG2 txSz in
  let! lh := idx TX_HEIGHT_LOG2 txSz in
  let! avg := Round2 (snd la) (lw + lh) in
  rfor_to 0 h (fun i f => rfor_to 0 w (fun j f =>
    let! dc := idx3 f plane (startY + i) (startX + j) in
    let! l := idx2 (fst la) i j in
    let! scaled := Round2Signed (alpha * (l - avg)) 6 in
    upd3 f plane (startY + i) (startX + j) (Clip1 (dc + scaled) bitDepth)) f) f.

(** tile_group.go:783-803: the inner loop; the loop variables are assigned to in the body (sic); x runs to hx, y to hy *)
Fixpoint clearCols (fuel : nat) (x hx y w4 h4 plane : Z) (d : list (list (list bool))) : res (Z * list (list (list bool))) :=
  match fuel with
  | O => Hang
  | S fuel =>
      if x <=? hx then
        let! dp := idx d plane in
        let y := if y <? 0 then zlen dp + y else y in
        let! x := if x <? 0 then let! l := idx dp y in Ok (zlen l + x) else Ok x in
        let! d := updb3 d plane y x (if (y <? 0) && (x <? w4) then true else if (x <? 0) && (y <? h4) then true else false) in
        clearCols fuel (x + 1) hx y w4 h4 plane d
      else Ok (y, d)
  end.
Fixpoint clearRows (fuel : nat) (y hy hx w4 h4 plane : Z) (d : list (list (list bool))) : res (list (list (list bool))) :=
  match fuel with
  | O => Hang
  | S fuel =>
      if y <=? hy then let! r := clearCols (Z.to_nat (hx + 3)) (-1) hx y w4 h4 plane d in clearRows fuel (fst r + 1) hy hx w4 h4 plane (snd r)
      else Ok d
  end.
(** tile_group.go:770-809 clearBlockDecodedFlags; called (tile_group.go:762) with the block size of superblocks, not their width in units of 4 (sic) *)
Definition clearBlockDecodedFlags (planes : Z) (subsX subsY : bool) (rowEnd colEnd r c sbSize4 : Z) (d : list (list (list bool))) : res (list (list (list bool))) :=
  rfor_to 0 planes (fun plane d =>
    let subX := if (0 <? plane) && subsX then 1 else 0 in
    let subY := if (0 <? plane) && subsY then 1 else 0 in
    let w4 := shr (colEnd - c) subX in
    let h4 := shr (rowEnd - r) subY in
    let! d := clearRows (Z.to_nat (shr sbSize4 subY + 3)) (-1) (shr sbSize4 subY) (shr sbSize4 subX) w4 h4 plane d in
    let! dp := idx d plane in
    let! l := idx dp (shr sbSize4 subY) in
    updb3 d plane (shr sbSize4 subY) (zlen l - 1) false) d.
Definition clearForSuperblock (use128 : bool) (planes : Z) (subsX subsY : bool) (rowEnd colEnd r c : Z) := clearBlockDecodedFlags planes subsX subsY rowEnd colEnd r c (if use128 then BLOCK_128X128 else BLOCK_64X64).
