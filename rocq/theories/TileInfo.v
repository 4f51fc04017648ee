(** Model of internal/tileinfo/tile_info.go. *)
From Verif Require Import GoBase Bitstream Util Constants.

(** The fields of state.State that NewTileInfo writes, and tileInfo.ContextUpdateTileId.
    TileSizeBytes is only written when there is more than one tile; the argument is its old value. *)
Record Tiles := mkTiles {
  MiColStarts : list Z; MiRowStarts : list Z; TileCols : Z; TileRows : Z;
  TileColsLog2 : Z; TileRowsLog2 : Z; TileSizeBytes : Z; ContextUpdateTileId : Z }.

(** tile_info.go:47-55 (columns): while below the maximum, a 1 bit increments, a 0 bit stops. *)
Fixpoint incr_cols (n : nat) (log2 : Z) : BS Z :=
  match n with
  | O => ret log2
  | S n' => let* b := Fbool in if b then incr_cols n' (log2 + 1) else ret log2
  end.
(** tile_info.go:69-76 (rows): the loop condition is log2 > max.  Every round consumes a bit. *)
Fixpoint incr_rows (fuel : nat) (max log2 : Z) : BS Z :=
  if max <? log2 then
    match fuel with
    | O => hang
    | S f => let* b := Fbool in if b then incr_rows f max (log2 + 1) else ret log2
    end
  else ret log2.

(** tile_info.go:57-65, 77-84: uniform starts.  [i] counts the tiles. *)
Fixpoint uniform_starts (fuel : nat) (sb size shift startSb i : Z) (arr : list Z) : res (list Z * Z) :=
  if startSb <? sb then
    match fuel with
    | O => Hang
    | S f => let! arr := upd arr i (shl startSb shift) in
             uniform_starts f sb size shift (startSb + size) (i + 1) arr
    end
  else Ok (arr, i).

(** tile_info.go:88-101, 111-122: explicit sizes; returns starts, count and the widest size *)
Fixpoint explicit_starts (fuel : nat) (sb maxSize shift startSb i widest : Z) (arr : list Z) : BS (list Z * Z * Z) :=
  if startSb <? sb then
    match fuel with
    | O => hang
    | S f => let* arr := lift (upd arr i (shl startSb shift)) in
             let* sizeMinusOne := Ns (Min (sb - startSb) maxSize) in
             let sizeSb := sizeMinusOne + 1 in
             explicit_starts f sb maxSize shift (startSb + sizeSb) (i + 1) (Max sizeSb widest) arr
    end
  else ret (arr, i, widest).

(** make([]int, n): panics for a negative length *)
Definition make_zeros (n : Z) : res (list Z) := if n <? 0 then Panic else Ok (repeat 0 (Z.to_nat n)).

(** tile_info.go:15-137 NewTileInfo.  Line 25 assigns sbCols (not sbRows) from MiRows for 128x128 superblocks. *)
Definition NewTileInfo (use128 : bool) (MiCols MiRows oldTileSizeBytes : Z) : BS Tiles :=
  let sbCols := if use128 then shr (MiRows + 31) 5 else shr (MiCols + 15) 4 in
  let sbRows := shr (MiRows + 15) 4 in
  let sbShift := if use128 then 5 else 4 in
  let* colStarts := lift (make_zeros (sbCols + 1)) in
  let* rowStarts := lift (make_zeros (sbRows + 1)) in
  let sbSize := sbShift + 2 in
  let maxTileWidthSb := shr MAX_TILE_WIDTH sbSize in
  let maxTileAreaSb := shr MAX_TILE_AREA (2 * sbSize) in
  let* minLog2TileCols := lift (TileLog2 maxTileWidthSb sbCols) in
  let* maxLog2TileCols := lift (TileLog2 1 (Min sbCols MAX_TILE_COLS)) in
  let* maxLog2TileRows := lift (TileLog2 1 (Min sbRows MAX_TILE_ROWS)) in
  let* areaLog2 := lift (TileLog2 maxTileAreaSb (sbRows * sbCols)) in
  let minLog2Tiles := Max minLog2TileCols areaLog2 in
  let* uniform := Fbool in
  let* t :=
    if uniform then
      let* colsLog2 := incr_cols (Z.to_nat (maxLog2TileCols - minLog2TileCols)) minLog2TileCols in
      let tileWidthSb := shr (sbCols + shl 1 colsLog2 - 1) colsLog2 in
      let* c := lift (uniform_starts (Z.to_nat sbCols + 2) sbCols tileWidthSb sbShift 0 0 colStarts) in
      let* cs := lift (upd (fst c) (snd c) MiCols) in
      let* s := get in
      let* rowsLog2 := incr_rows (S (bits_left s)) maxLog2TileRows (Max (minLog2Tiles - colsLog2) 0) in
      let tileHeightSb := shr (sbRows + shl 1 rowsLog2 - 1) rowsLog2 in
      let* r := lift (uniform_starts (Z.to_nat sbRows + 2) sbRows tileHeightSb sbShift 0 0 rowStarts) in
      let* rs := lift (upd (fst r) (snd r) MiRows) in
      ret (mkTiles cs rs (snd c) (snd r) colsLog2 rowsLog2 oldTileSizeBytes 0)
    else
      let* c := explicit_starts (Z.to_nat sbCols + 2) sbCols maxTileWidthSb sbShift 0 0 0 colStarts in
      let '(ca, ci, widest) := c in
      let* cs := lift (upd ca ci MiCols) in
      let* colsLog2 := lift (TileLog2 1 ci) in
      let area := if 0 <? minLog2Tiles then shr (sbRows * sbCols) (minLog2Tiles + 1) else sbRows * sbCols in
      if widest =? 0 then panic (* integer division by zero *)
      else
        let maxTileHeightSb := Max (Z.quot area widest) 1 in
        let* r := explicit_starts (Z.to_nat sbRows + 2) sbRows maxTileHeightSb sbShift 0 0 0 rowStarts in
        let '(ra, ri, _) := r in
        let* rs := lift (upd ra ri MiRows) in
        let* rowsLog2 := lift (TileLog2 1 ri) in
        ret (mkTiles cs rs ci ri colsLog2 rowsLog2 oldTileSizeBytes 0) in
  if (0 <? TileColsLog2 t) || (0 <? TileRowsLog2 t) then
    let* id := F (TileRowsLog2 t + TileColsLog2 t) in
    let* n := F 2 in
    ret (mkTiles (MiColStarts t) (MiRowStarts t) (TileCols t) (TileRows t) (TileColsLog2 t) (TileRowsLog2 t) (n + 1) id)
  else ret t.
