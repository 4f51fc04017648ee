(** Model of internal/tilegroup/tile_group.go:271-339 (NewTileGroup, build), 692-766 (clearAboveContext, clearLeftContext, decodeTile) and of internal/cdef/cdef.go. *)
From Verif Require Import GoBase Constants Tables Bitstream Util Symbol TileInfo Partition Residual.

(** ** cdef.go *)
(** A Go slice with its capacity.  append (builtin): when the slice is full the capacity doubles (runtime/slice.go growslice: below 256 elements, and
    the allocation sizes 24*2^k and 8*2^k are exact size classes); at 256 and more Go grows more slowly, which no theorem uses. *)
Record gslice (A : Type) := mkSlice { elems : list A; capa : Z }.
Arguments mkSlice {A}. Arguments elems {A}. Arguments capa {A}.
Definition nilslice {A} : gslice A := mkSlice [] 0.
Definition goappend {A} (s : gslice A) (x : A) : gslice A :=
  mkSlice (elems s ++ [x]) (if zlen (elems s) <? capa s then capa s else if capa s =? 0 then 1 else 2 * capa s).
(** cdef.go:9-11, 13-15: for cap(s) < n { s = append(s, x) } *)
Fixpoint growTo {A} (fuel : nat) (n : Z) (x : A) (s : gslice A) : res (gslice A) :=
  if capa s <? n then match fuel with O => Hang | S fuel => growTo fuel n x (goappend s x) end else Ok s.
(** cdef.go:17, 20-22: one assignment CdefIdx[r][c] = -1 *)
Definition resetAt (r c : Z) (g : gslice (gslice Z)) : res (gslice (gslice Z)) :=
  let! row := idx (elems g) r in
  let! l := upd (elems row) c (-1) in
  let! rows := upd (elems g) r (mkSlice l (capa row)) in
  Ok (mkSlice rows (capa g)).
(** cdef.go:8-24 ClearCdef *)
Definition ClearCdef (r c : Z) (use128 : bool) (cdefSize4 : Z) (g : gslice (gslice Z)) : res (gslice (gslice Z)) :=
  let! g := growTo (Z.to_nat (r + 1)) (r + 1) nilslice g in
  let! row := idx (elems g) r in
  let! row := growTo (Z.to_nat (c + 1)) (c + 1) 0 row in
  let! rows := upd (elems g) r row in
  let! g := resetAt r c (mkSlice rows (capa g)) in
  if use128 then
    let! g := resetAt r (c + cdefSize4) g in
    let! g := resetAt (r + cdefSize4) c g in
    resetAt (r + cdefSize4) (c + cdefSize4) g
  else Ok g.
(** state/state.go:74 CdefSize4: no code assigns it *)
Definition CdefSize4 : Z := 0.

(** ** decodeTile *)
(** level, dc and segmentation contexts, above or left *)
Definition ctxs : Type := list (list Z) * list (list Z) * list Z.
(** The fields of TileGroup and State that decodeTile itself writes; [xOther] is everything else. *)
Record TileCtx (X : Type) := mkTileCtx {
  xAbove : ctxs; xLeft : ctxs; xDeltaLF : list Z; xSgr : list (list Z); xWiener : list (list (list Z));
  xReadDeltas : bool; xCdef : gslice (gslice Z); xDecoded : list (list (list bool)); xOther : X }.
Arguments mkTileCtx {X}. Arguments xAbove {X}. Arguments xLeft {X}. Arguments xDeltaLF {X}. Arguments xSgr {X}. Arguments xWiener {X}.
Arguments xReadDeltas {X}. Arguments xCdef {X}. Arguments xDecoded {X}. Arguments xOther {X}.
(** What it reads of the sequence and frame headers *)
Record TileEnv := mkTileEnv { yUse128 : bool; yPlanes : Z; ySubX : bool; ySubY : bool; yDeltaQ : bool }.

(** tile_group.go:735-737 *)
Definition zeroDeltaLF (l : list Z) : res (list Z) := rfor_to 0 FRAME_LF_COUNT (fun i l => upd l i 0) l.
(** tile_group.go:739-749 *)
Definition initRefs (planes : Z) (a : list (list Z) * list (list (list Z))) : res (list (list Z) * list (list (list Z))) :=
  rfor_to 0 planes (fun plane a => rfor_to 0 2 (fun pass a =>
    let! m := idx Sgrproj_Xqd_Mid pass in
    let! sgr := upd2 (fst a) plane pass m in
    let! wiener := rfor_to 0 WIENER_COEFFS (fun i w => let! v := idx Wiener_Taps_Mid i in
       let! p := idx w plane in let! p := upd2 p pass i v in upd w plane p) (snd a) in
    Ok (sgr, wiener)) a) a.

Section Tile.
  Context {X : Type}.
  Definition TS : Type := dec * TileCtx X.
  Definition ctxop (f : TileCtx X -> res (TileCtx X)) : M TS unit := fun s => match f (snd s) with Ok x => Ok (tt, (fst s, x)) | Panic => Panic | Hang => Hang end.
  Variable e : TileEnv.
  (** readLr (LrRead.v), the partition syntax elements and decodeBlock, as arbitrary computations *)
  Variable lr : Grid -> Z -> Z -> M TS unit.
  Variables partEl horzEl vertEl : Z -> Z -> Z -> bool -> bool -> M TS Z.
  Variable block : Z -> Z -> Z -> M TS unit.

  (** tile_group.go:732-749: before the superblocks *)
  Definition startTile (g : Grid) (x : TileCtx X) : res (TileCtx X) :=
    let! above := clearContext (MiCols g) in
    let! dlf := zeroDeltaLF (xDeltaLF x) in
    let! refs := initRefs (yPlanes e) (xSgr x, xWiener x) in
    Ok (mkTileCtx above (xLeft x) dlf (fst refs) (snd refs) (xReadDeltas x) (xCdef x) (xDecoded x) (xOther x)).
  (** line 758: before a row of superblocks *)
  Definition startRow (g : Grid) (x : TileCtx X) : res (TileCtx X) :=
    let! left := clearContext (MiRows g) in
    Ok (mkTileCtx (xAbove x) left (xDeltaLF x) (xSgr x) (xWiener x) (xReadDeltas x) (xCdef x) (xDecoded x) (xOther x)).
  (** lines 760-762: before a superblock (readLr follows) *)
  Definition startSuperblock (g : Grid) (r c : Z) (x : TileCtx X) : res (TileCtx X) :=
    let! cdef := ClearCdef r c (yUse128 e) CdefSize4 (xCdef x) in
    let! decoded := clearForSuperblock (yUse128 e) (yPlanes e) (ySubX e) (ySubY e) (MiRowEnd g) (MiColEnd g) r c (xDecoded x) in
    Ok (mkTileCtx (xAbove x) (xLeft x) (xDeltaLF x) (xSgr x) (xWiener x) (yDeltaQ e) cdef decoded (xOther x)).
  (** tile_group.go:731-766 decodeTile *)
  Definition decodeTile (g : Grid) : M TS unit :=
    ctxop (startTile g) ;;
    (fun s => match decodeSuperblocks g partEl horzEl vertEl block (ctxop (startRow g)) (fun r c => ctxop (startSuperblock g r c) ;; lr g r c) (yUse128 e) (s, []) with
              | Ok (_, (s', _)) => Ok (tt, s') | Panic => Panic | Hang => Hang end).
End Tile.

(** ** build *)
(** The fields of State that build writes, the decoder, and the rest *)
Record TGState (T : Type) := mkTGState { gNum : Z; gGrid : Grid; gQIndex : Z; gDec : dec; gRest : T }.
Arguments mkTGState {T}. Arguments gNum {T}. Arguments gGrid {T}. Arguments gQIndex {T}. Arguments gDec {T}. Arguments gRest {T}.

Section Build.
  Context {T : Type}.
  Definition onDec {A} (m : D A) : M (TGState T) A := fun g =>
    match m (gDec g) with Ok (a, d) => Ok (a, mkTGState (gNum g) (gGrid g) (gQIndex g) d (gRest g)) | Panic => Panic | Hang => Hang end.
  Definition restop (f : T -> T) : M (TGState T) unit := modify (fun g => mkTGState (gNum g) (gGrid g) (gQIndex g) (gDec g) (f (gRest g))).
  Variable t : Tiles.
  Variable baseQ : Z.
  (** the copies of the CDF tables in initSymbol, decodeTile, the copies in exitSymbol, and lines 323-327 (CDF update at the end of the frame, decodeFrameWrapup) *)
  Variable loadCdfs : T -> T.
  Variable tile : M (TGState T) unit.
  Variable saveCdfs : Z -> T -> T.
  Variable endFrame : M (TGState T) unit.

  (** tile_group.go:278-298: the tiles of the group *)
  Definition groupHeader : BS (Z * Z) :=
    let NumTiles := TileCols t * TileRows t in
    let* present := if 1 <? NumTiles then (let* b := F 1 in ret (bool_of b)) else ret false in
    let* r := if (NumTiles =? 1) || negb present then ret (0, NumTiles - 1)
      else (let bits := TileColsLog2 t + TileRowsLog2 t in let* a := F bits in let* b := F bits in ret (a, b)) in
    ByteAlignment ;; ret r.
  (** lines 304-320: tile number k, with sz bytes left; the bytes left after it *)
  Definition oneTile (tgEnd k sz : Z) : M (TGState T) Z :=
    if TileCols t =? 0 then panic (* integer division by zero *)
    else
      let tileRow := Z.quot k (TileCols t) in
      let tileCol := Z.rem k (TileCols t) in
      let* r := if k =? tgEnd then ret (sz, sz)
        else (let* m := onDec (onbits (Le (TileSizeBytes t))) in let tileSize := m + 1 in ret (tileSize, sz - (tileSize + TileSizeBytes t))) in
      let '(tileSize, sz) := r in
      let* r0 := lift (idx (MiRowStarts t) tileRow) in
      let* r1 := lift (idx (MiRowStarts t) (tileRow + 1)) in
      let* c0 := lift (idx (MiColStarts t) tileCol) in
      let* c1 := lift (idx (MiColStarts t) (tileCol + 1)) in
      modify (fun g => mkTGState k (mkGrid (MiRows (gGrid g)) (MiCols (gGrid g)) r0 r1 c0 c1) baseQ (gDec g) (gRest g)) ;;
      onDec (initSymbol tileSize) ;;
      restop loadCdfs ;;
      tile ;;
      onDec exitSymbol ;;
      restop (saveCdfs k) ;;
      ret sz.
  (** line 303: for state.TileNum = tgStart; state.TileNum <= tgEnd; state.TileNum++.  Nothing in the body assigns TileNum, so the counter is a variable here;
      n is the number of rounds. *)
  Fixpoint tileLoop (n : nat) (tgEnd k sz : Z) : M (TGState T) unit :=
    match n with
    | O => ret tt
    | S n => let* sz := oneTile tgEnd k sz in tileLoop n tgEnd (k + 1) sz
    end.
  (** tile_group.go:277-331 build; the result says whether the frame was completed (state.SeenFrameHeader = false) *)
  Definition buildTileGroup (sz : Z) : M (TGState T) bool :=
    let* g0 := get in
    let* r := onDec (onbits groupHeader) in
    let '(tgStart, tgEnd) := r in
    let* g1 := get in
    let headerBytes := Z.quot (Position (Bits (gDec g1)) - Position (Bits (gDec g0))) 8 in
    tileLoop (Z.to_nat (tgEnd - tgStart + 1)) tgEnd tgStart (sz - headerBytes) ;;
    if tgEnd =? TileCols t * TileRows t - 1 then endFrame ;; ret true else ret false.
End Build.
