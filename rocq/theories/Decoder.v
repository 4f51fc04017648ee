(** The decoder with its frame headers and tile groups: the instance of [Obu.payloads] made of NewUncompressedHeader (UncompressedHeader.v)
    and NewTileGroup (TileGroup.v; internal/tilegroup/tile_group.go:271-331). *)
From Verif Require Import GoBase Bitstream Header SequenceHeader Symbol TileInfo UncompressedHeader Obu Partition Residual TileGroup.

(** state.State: the fields of the frame header, TileNum, and the rest (seen by this file only through the functions of [parts]) *)
Record decState (Y : Type) := mkDecState { sHeader : HState; sTileNum : Z; sRest : Y }.
Arguments mkDecState {Y}. Arguments sHeader {Y}. Arguments sTileNum {Y}. Arguments sRest {Y}.

(** What this file leaves open, as arbitrary functions: the CDF tables of a frame header (CdfMemory.v), the fields of State and of the zero TileGroup a tile group starts with,
    the CDF copies, readLr (LrRead.v), the partition elements (Partition.v), decodeBlock (Block.v), the end of the frame (Wrapup.v), and what a tile group leaves. *)
Record parts := mkParts {
  Y : Type; X : Type; TGr : Type; y0 : Y; tgr0 : TGr;
  pHeader : UncompressedHeader -> Y -> Y;
  pEnter : UncompressedHeader -> SequenceHeader -> decState Y -> TileCtx X;
  pEnv : UncompressedHeader -> SequenceHeader -> TileEnv;
  pLoad : TileCtx X -> TileCtx X; pSave : UncompressedHeader -> Z -> TileCtx X -> TileCtx X;
  pLr : UncompressedHeader -> SequenceHeader -> HState -> Grid -> Z -> Z -> M (@TS X) unit;
  pPart : UncompressedHeader -> SequenceHeader -> Grid -> Z -> Z -> Z -> bool -> bool -> M (@TS X) Z;
  pHorz : UncompressedHeader -> SequenceHeader -> Grid -> Z -> Z -> Z -> bool -> bool -> M (@TS X) Z;
  pVert : UncompressedHeader -> SequenceHeader -> Grid -> Z -> Z -> Z -> bool -> bool -> M (@TS X) Z;
  pBlock : UncompressedHeader -> SequenceHeader -> HState -> Grid -> Z -> Z -> Z -> M (@TS X) unit;
  pEnd : UncompressedHeader -> SequenceHeader -> M (TGState (TileCtx X)) unit;
  pLeave : UncompressedHeader -> decState Y -> TGState (TileCtx X) -> TGr * (HState * Y) }.

(** uh.BaseQIdx; the zero header after show_existing_frame *)
Definition uhBaseQ (uh : UncompressedHeader) : Z := match uh with UFrame _ _ fb => BaseQIdx (Quant_ fb) | UExisting _ => 0 end.
Definition uhExisting (uh : UncompressedHeader) : bool := match uh with UExisting _ => true | UFrame _ _ _ => false end.

(** decodeTile on the state of build *)
Definition tileOf (P : parts) (uh : UncompressedHeader) (sh : SequenceHeader) (h : HState) : M (TGState (TileCtx (X P))) unit := fun g =>
  match decodeTile (pEnv P uh sh) (pLr P uh sh h) (pPart P uh sh (gGrid g)) (pHorz P uh sh (gGrid g)) (pVert P uh sh (gGrid g)) (pBlock P uh sh h (gGrid g)) (gGrid g) (gDec g, gRest g) with
  | Ok (_, (d, x)) => Ok (tt, mkTGState (gNum g) (gGrid g) (gQIndex g) d x)
  | Panic => Panic | Hang => Hang
  end.
(** tile_group.go:271-275 NewTileGroup.  The decoder registers and the tile bounds are set for every tile, so that their old values do not matter; TileNum is left at the last tile instead of one more (every tile group and header sets it). *)
Definition NewTileGroupOf (P : parts) (sz : Z) (uh : UncompressedHeader) (sh : SequenceHeader) (d : dstate (decState (Y P))) : BS (TGr P * dstate (decState (Y P))) := fun s =>
  let h := sHeader (other d) in
  let g0 := mkTGState (sTileNum (other d)) (mkGrid (St_MiRows h) (St_MiCols h) 0 0 0 0) (St_CurrentQIndex h) (mkDec 0 0 0 s) (pEnter P uh sh (other d)) in
  match buildTileGroup (St_Tiles h) (uhBaseQ uh) (pLoad P) (tileOf P uh sh h) (pSave P uh) (pEnd P uh sh) sz g0 with
  | Ok (fin, g) =>
      let '(tg, (h', y)) := pLeave P uh (other d) g in
      Ok ((tg, mkDState (OperatingPointIdc d) (if fin then false else SeenFrameHeader d) (mkDecState h' (gNum g) y)), Bits (gDec g))
  | Panic => Panic | Hang => Hang
  end.
(** uncompressed_header.go:137-141 NewUncompressedHeader *)
Definition NewHeaderOf (P : parts) (sh : SequenceHeader) (d : dstate (decState (Y P))) : BS (UncompressedHeader * dstate (decState (Y P))) :=
  let* r := UncompressedHeader.NewUncompressedHeader sh (sHeader (other d)) in
  let '(uh, h) := r in
  ret (uh, mkDState (OperatingPointIdc d) (SeenFrameHeader d) (mkDecState h (sTileNum (other d)) (pHeader P uh (sRest (other d))))).

Definition decoder (P : parts) : payloads :=
  mkPayloads UncompressedHeader (TGr P) (decState (Y P)) (UExisting (mkExisting 0 0 0 0 0)) (tgr0 P) (mkDecState zeroHState 0 (y0 P))
    uhExisting (fun s => mkDecState (sHeader s) 0 (sRest s)) (fun _ sh d => NewHeaderOf P sh d) (NewTileGroupOf P).
