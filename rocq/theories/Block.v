(** Model of internal/tilegroup/decode_block.go. *)
From Verif Require Import GoBase Bitstream Util Constants Tables Frame Partition.
Local Open Scope Z_scope.

(** decode_block.go:14-44: whether the block has chroma and which neighbours are available *)
Record Place := mkPlace { plChroma : bool; plU : bool; plL : bool; plUC : bool; plLC : bool }.
Definition placeBlock (g : Grid) (subX subY : bool) (planes r c subSize : Z) : res Place :=
  let! bw4 := idx NUM_4X4_BLOCKS_WIDE subSize in
  let! bh4 := idx NUM_4X4_BLOCKS_HIGH subSize in
  let chroma := if (bh4 =? 1) && subY && (Z.land r 1 =? 0) then false
    else if (bw4 =? 1) && subX && (Z.land c 1 =? 0) then false
    else 1 <? planes in
  let u := isInside g (r - 1) c in
  let l := isInside g r (c - 1) in
  let uc := if chroma then if subY && (bh4 =? 1) then isInside g (r - 2) c else u else false in
  let lc := if chroma then if subX && (bw4 =? 1) then isInside g r (c - 2) else l else false in
  Ok (mkPlace chroma u l uc lc).

(** What the earlier steps decoded; stSkip and stIsInter are the fields Skip and IsInter of the state, which no statement of the program assigns (t.Skip and t.IsInter are other fields). *)
Record BVal := mkBVal {
  vYMode : Z; vUVMode : Z; vRefFrame : list Z; vUseIntrabc : Z; vCompGroupIdx : Z; vCompoundIdx : Z; vInterpFilter : list Z; vMv : list (list Z);
  vIsInter : Z; vSkipMode : Z; vSkip : Z; vTxSize : Z; vPaletteSizeY : Z; vPaletteSizeUV : Z; vPaletteColorsY : list Z; vPaletteColorsU : list Z; vDeltaLF : list Z }.
(** Arrays written before the prediction *)
Record Arr1 := mkArr1 {
  rYModes : list (list Z); rUVModes : list (list Z); rRefFrames : list (list (list Z)); rCompGroupIdxs : list (list Z); rCompoundIdxs : list (list Z);
  rInterpFilters : list (list (list Z)); rMvs : list (list (list (list Z))) }.
(** decode_block.go:57-82: one position *)
Definition storeBefore (v : BVal) (chroma : bool) (stIsInter y x : Z) (a : Arr1) : res Arr1 :=
  let! ym := upd2 (rYModes a) y x (vYMode v) in
  let! r0 := idx (vRefFrame v) 0 in
  let! uv := if (r0 =? INTRA_FRAME) && chroma then upd2 (rUVModes a) y x (vUVMode v) else Ok (rUVModes a) in
  let! rf := rfor_to 0 2 (fun k g => let! f := idx (vRefFrame v) k in upd3 g y x k f) (rRefFrames a) in
  if bool_of stIsInter then
    let! cg := if negb (bool_of (vUseIntrabc v)) then upd2 (rCompGroupIdxs a) y x (vCompGroupIdx v) else Ok (rCompGroupIdxs a) in
    let! ci := if negb (bool_of (vUseIntrabc v)) then upd2 (rCompoundIdxs a) y x (vCompoundIdx v) else Ok (rCompoundIdxs a) in
    let! fi := rfor_to 0 2 (fun k g => let! f := idx (vInterpFilter v) k in upd3 g y x k f) (rInterpFilters a) in
    let! r1 := idx (vRefFrame v) 1 in
    let! mv := rfor_to 0 (1 + int_of (INTRA_FRAME <? r1)) (fun k g => let! m := idx (vMv v) k in upd3 g y x k m) (rMvs a) in
    Ok (mkArr1 ym uv rf cg ci fi mv)
  else Ok (mkArr1 ym uv rf (rCompGroupIdxs a) (rCompoundIdxs a) (rInterpFilters a) (rMvs a)).
(** decode_block.go:55-84 *)
Definition storesBefore (v : BVal) (chroma : bool) (stIsInter r c bh4 bw4 : Z) (a : Arr1) : res Arr1 :=
  rfor_to 0 bh4 (fun y a => rfor_to 0 bw4 (fun x a => storeBefore v chroma stIsInter (r + y) (c + x) a) a) a.

(** Arrays written after the residual *)
Record Arr2 := mkArr2 {
  rIsInters : list (list Z); rSkipModes : list (list Z); rSkips : list (list Z); rTxSizes : list (list Z); rMiSizes : list (list Z);
  rPaletteSizes : list (list (list Z)); rPaletteColors : list (list (list (list Z))); rDeltaLFs : list (list (list Z)) }.
(** a[p][y][x][i] = v *)
Definition upd4 {A} (g : list (list (list (list A)))) (p y x i : Z) (v : A) : res (list (list (list (list A)))) :=
  let! s := idx g p in let! s' := upd3 s y x i v in upd g p s'.
(** decode_block.go:91-111: one position *)
Definition storeAfter (v : BVal) (miSize y x : Z) (a : Arr2) : res Arr2 :=
  let! ii := upd2 (rIsInters a) y x (vIsInter v) in
  let! sm := upd2 (rSkipModes a) y x (vSkipMode v) in
  let! sk := upd2 (rSkips a) y x (vSkip v) in
  let! tx := upd2 (rTxSizes a) y x (vTxSize v) in
  let! ms := upd2 (rMiSizes a) y x miSize in
  let! p0 := upd3 (rPaletteSizes a) 0 y x (vPaletteSizeY v) in
  let! p1 := upd3 p0 1 y x (vPaletteSizeUV v) in
  let! c0 := rfor_to 0 (vPaletteSizeY v) (fun i g => let! k := idx (vPaletteColorsY v) i in upd4 g 0 y x i k) (rPaletteColors a) in
  let! c1 := rfor_to 0 (vPaletteSizeUV v) (fun i g => let! k := idx (vPaletteColorsU v) i in upd4 g 1 y x i k) c0 in
  let! dl := rfor_to 0 FRAME_LF_COUNT (fun i g => let! k := idx (vDeltaLF v) i in upd3 g y x i k) (rDeltaLFs a) in
  Ok (mkArr2 ii sm sk tx ms p1 c1 dl).
(** decode_block.go:89-113 *)
Definition storesAfter (v : BVal) (miSize r c bh4 bw4 : Z) (a : Arr2) : res Arr2 :=
  rfor_to 0 bh4 (fun y a => rfor_to 0 bw4 (fun x a => storeAfter v miSize (r + y) (c + x) a) a) a.

(** The coefficient contexts: AboveLevelContext, AboveDcContext, LeftLevelContext, LeftDcContext *)
Record Ctxs := mkCtxs { xAL : list (list Z); xAD : list (list Z); xLL : list (list Z); xLD : list (list Z) }.
(** decode_block.go:119-138 resetBlockContext *)
Definition resetBlockContext (subX subY chroma : bool) (miRow miCol bw4 bh4 : Z) (t : Ctxs) : res Ctxs :=
  rfor_to 0 (1 + 2 * int_of chroma) (fun plane t =>
    let sx := if 0 <? plane then int_of subX else 0 in
    let sy := if 0 <? plane then int_of subY else 0 in
    let! t := rfor_to (shr miCol sx) (shr (miCol + bw4) sx) (fun i t =>
      let! a := upd2 (xAL t) plane i 0 in let! b := upd2 (xAD t) plane i 0 in Ok (mkCtxs a b (xLL t) (xLD t))) t in
    rfor_to (shr miRow sy) (shr (miRow + bh4) sy) (fun i t =>
      let! a := upd2 (xLL t) plane i 0 in let! b := upd2 (xLD t) plane i 0 in Ok (mkCtxs (xAL t) (xAD t) a b)) t) t.

(** decode_block.go:13-114 decodeBlock.  The steps modelled elsewhere are arguments: [info] (mode information, palette tokens, transform size: lines 46-48) and
    [recon] (prediction and residual: lines 86-87), which reads and writes the coefficient contexts. *)
Definition decodeBlock {S} (info : Place -> M S BVal) (recon : Place -> BVal -> Ctxs -> M S Ctxs) (stSkip stIsInter : Z) (g : Grid) (subX subY : bool) (planes r c subSize : Z)
    (t : Ctxs) (a1 : Arr1) (a2 : Arr2) : M S (Ctxs * Arr1 * Arr2) :=
  let* pl := lift (placeBlock g subX subY planes r c subSize) in
  let* bw4 := lift (idx NUM_4X4_BLOCKS_WIDE subSize) in
  let* bh4 := lift (idx NUM_4X4_BLOCKS_HIGH subSize) in
  let* v := info pl in
  let* t := lift (if bool_of stSkip then resetBlockContext subX subY (plChroma pl) r c bw4 bh4 t else Ok t) in
  let* a1 := lift (storesBefore v (plChroma pl) stIsInter r c bh4 bw4 a1) in
  let* t := recon pl v t in
  let* a2 := lift (storesAfter v subSize r c bh4 bw4 a2) in
  ret (t, a1, a2).
