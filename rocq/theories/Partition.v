(** decode_partition.go: the recursive partition of a superblock into blocks. *)
From Verif Require Import GoBase Constants Tables Bitstream Util Symbol.

(** The fields of state.State decodePartition reads. *)
Record Grid := mkGrid { MiRows : Z; MiCols : Z; MiRowStart : Z; MiRowEnd : Z; MiColStart : Z; MiColEnd : Z }.

(** util.go:9-14 isInside *)
Definition isInside (g : Grid) (r c : Z) : bool :=
  (MiColStart g <=? c) && (c <? MiColEnd g) && (MiRowStart g <=? r) && (r <? MiRowEnd g).

(** The part of the state the partition syntax elements use: the five tile CDF tables (TilePartitionW8Cdf .. W128Cdf, in this order),
    MiSizes and the arithmetic decoder.  [Pother] is the rest of the decoder state. *)
Record PState (X : Type) := mkPState { PCdfs : list (list (list Z)); PMiSizes : list (list Z); PDec : dec; Pother : X }.
Arguments mkPState {X}. Arguments PCdfs {X}. Arguments PMiSizes {X}. Arguments PDec {X}. Arguments Pother {X}.

(** decode_partition.go:104-107, 141-144, 178-181: the context from the sizes of the blocks above and to the left *)
Definition partitionCtx {X} (bsl r c : Z) (availU availL : bool) : M (PState X) Z :=
  let* s := get in
  let* above := if availU then (let* m := lift (idx2 (PMiSizes s) (r - 1) c) in let* l := lift (idx MI_WIDTH_LOG2 m) in ret (l <? bsl)) else ret false in
  let* left := if availL then (let* m := lift (idx2 (PMiSizes s) r (c - 1)) in let* l := lift (idx MI_HEIGHT_LOG2 m) in ret (l <? bsl)) else ret false in
  ret (int_of left * 2 + int_of above).
(** lines 109-120, 146-157, 183-194: which of the five tables *)
Definition whichTable (bsl : Z) : Z := if bsl =? 1 then 0 else if bsl =? 2 then 1 else if bsl =? 3 then 2 else if bsl =? 4 then 3 else 4.

(** decode_partition.go:177-197.  ReadSymbol adapts the table entry in place. *)
Definition partitionElement {X} (disable : bool) (bSize r c : Z) (availU availL : bool) : M (PState X) Z :=
  let* bsl := lift (idx MI_WIDTH_LOG2 bSize) in
  let* ctx := partitionCtx bsl r c availU availL in
  let* s := get in
  let* table := lift (idx (PCdfs s) (whichTable bsl)) in
  let* cdf := lift (idx table ctx) in
  match ReadSymbol disable cdf (PDec s) with
  | Ok ((sym, cdf'), d') =>
      let* cs := lift (upd2 (PCdfs s) (whichTable bsl) ctx cdf') in
      put (mkPState cs (PMiSizes s) d' (Pother s)) ;; ret sym
  | Panic => panic
  | Hang => hang
  end.

(** decode_partition.go:103-138 and 140-175: psum from the partition table, then a fresh cdf of three entries whose entry 3 is written:
    an index panic for every input. *)
Definition splitOrElement {X} (plus : list Z) (plus4 : Z) (bSize r c : Z) (availU availL : bool) : M (PState X) Z :=
  let* bsl := lift (idx MI_WIDTH_LOG2 bSize) in
  let* ctx := partitionCtx bsl r c availU availL in
  let* s := get in
  let* table := lift (idx (PCdfs s) (whichTable bsl)) in
  let* p := lift (idx table ctx) in
  let diff := fun i => let! a := idx p i in let! b := idx p (i - 1) in Ok (a - b) in
  let* psum := lift (fold_left (fun acc i => let! x := acc in let! d := diff i in Ok (x + d)) plus (Ok 0)) in
  let* psum := if negb (bSize =? BLOCK_128X128) then (let* d := lift (diff plus4) in ret (psum + d)) else ret psum in
  let cdf := [0; 0; 0] in
  let* cdf := lift (upd cdf 0 (shl 1 15 - psum)) in
  let* cdf := lift (upd cdf 1 (shl 1 15)) in
  let* cdf := lift (upd cdf 3 0) in
  match ReadSymbol false cdf (PDec s) with
  | Ok ((sym, _), d') => put (mkPState (PCdfs s) (PMiSizes s) d' (Pother s)) ;; ret sym
  | Panic => panic
  | Hang => hang
  end.
Definition splitOrVertElement {X} := @splitOrElement X [PARTITION_HORZ; PARTITION_SPLIT; PARTITION_HORZ_A; PARTITION_HORZ_B; PARTITION_VERT_A] PARTITION_HORZ_4.
Definition splitOrHorzElement {X} := @splitOrElement X [PARTITION_VERT; PARTITION_SPLIT; PARTITION_HORZ_A; PARTITION_VERT_A; PARTITION_VERT_B] PARTITION_VERT_4.

(** What happens during partition decoding, in order: a partition decided for the block of size bSize at (r, c), or a call of decodeBlock. *)
Inductive event := EPart (r c bSize partition : Z) | EBlock (r c size : Z).

Section Decode.
  Context {S : Type}.
  (** The three syntax elements and decodeBlock, as arbitrary computations on the decoder state: they may return anything, change
      anything and panic.  None of the functions they stand for writes MiRows, MiCols or the tile bounds. *)
  Variable g : Grid.
  Variables partEl horzEl vertEl : Z -> Z -> Z -> bool -> bool -> M S Z.
  Variable block : Z -> Z -> Z -> M S unit.

  Definition St : Type := S * list event.
  Definition on {A} (m : M S A) : M St A := fun s =>
    match m (fst s) with Ok (a, s') => Ok (a, (s', snd s)) | Panic => Panic | Hang => Hang end.
  Definition emit (e : event) : M St unit := fun s => Ok (tt, (fst s, snd s ++ [e])).
  Definition decodeBlock (r c size : Z) : M St unit := emit (EBlock r c size) ;; on (block r c size).

  (** decode_partition.go:19-49: the partition of the block *)
  Definition choosePartition (r c bSize half : Z) : M St Z :=
    let availU := isInside g (r - 1) c in
    let availL := isInside g r (c - 1) in
    let hasRows := r + half <? MiRows g in
    let hasCols := c + half <? MiCols g in
    if bSize <? BLOCK_8X8 then ret PARTITION_NONE
    else if hasRows && hasCols then on (partEl bSize r c availU availL)
    else if hasCols then (let* b := on (horzEl bSize r c availU availL) in ret (if bool_of b then PARTITION_SPLIT else PARTITION_HORZ))
    else if hasRows then (let* b := on (vertEl bSize r c availU availL) in ret (if bool_of b then PARTITION_SPLIT else PARTITION_VERT))
    else ret PARTITION_SPLIT.

  (** decode_partition.go:14-101.  The recursion depth is bounded by fuel; PartitionProofs.v shows 6 is enough (never Hang). *)
  Fixpoint decodePartition (fuel : nat) (r c bSize : Z) : M St unit :=
    match fuel with
    | O => hang
    | Datatypes.S fuel =>
      if (MiRows g <=? r) || (MiCols g <=? c) then ret tt
      else
        let* num4x4 := lift (idx NUM_4X4_BLOCKS_WIDE bSize) in
        let half := shr num4x4 1 in
        let quarter := shr half 1 in
        let hasRows := r + half <? MiRows g in
        let hasCols := c + half <? MiCols g in
        let* p := choosePartition r c bSize half in
        emit (EPart r c bSize p) ;;
        let* subSize := lift (idx2 Partition_Subsize p bSize) in
        let* splitSize := lift (idx2 Partition_Subsize PARTITION_SPLIT bSize) in
        if p =? PARTITION_NONE then decodeBlock r c subSize
        else if p =? PARTITION_HORZ then
          decodeBlock (r + half) c subSize ;;
          (if hasRows then decodeBlock (r + half) c subSize else ret tt)
        else if p =? PARTITION_VERT then
          decodeBlock r c subSize ;;
          (if hasCols then decodeBlock r (c + half) subSize else ret tt)
        else if p =? PARTITION_SPLIT then
          decodePartition fuel r c subSize ;;
          decodePartition fuel r (c + half) subSize ;;
          decodePartition fuel (r + half) c subSize ;;
          decodePartition fuel (r + half) (c + half) subSize
        else if p =? PARTITION_HORZ_A then
          decodeBlock r c splitSize ;; decodeBlock r (c + half) splitSize ;; decodeBlock (r + half) c splitSize
        else if p =? PARTITION_HORZ_B then
          decodeBlock r c subSize ;; decodeBlock (r + half) c splitSize ;; decodeBlock (r + half) (c + half) splitSize
        else if p =? PARTITION_VERT_A then
          decodeBlock r c splitSize ;; decodeBlock (r + half) c splitSize ;; decodeBlock r (c + half) subSize
        else if p =? PARTITION_VERT_B then
          decodeBlock r c subSize ;; decodeBlock r (c + half) splitSize ;; decodeBlock (r + half) (c + half) subSize
        else if p =? PARTITION_HORZ_4 then
          decodeBlock (r + quarter * 0) c subSize ;; decodeBlock (r + quarter * 1) c subSize ;; decodeBlock (r + quarter * 2) c subSize ;;
          (if r + quarter * 3 <? MiRows g then decodeBlock (r + quarter * 3) c subSize else ret tt)
        else
          decodeBlock r (c + quarter * 0) subSize ;; decodeBlock r (c + quarter * 1) subSize ;; decodeBlock r (c + quarter * 2) subSize ;;
          (if c + quarter * 3 <? MiRows g then decodeBlock r (c + quarter * 3) subSize else ret tt)
    end.

  (** tile_group.go:755-766: the loops over the superblocks of a tile; [rowStart] and [sbStart] are what happens before
      (clearLeftContext; ReadDeltas, ClearCdef, clearBlockDecodedFlags, readLr). *)
  Variable rowStart : M S unit.
  Variable sbStart : Z -> Z -> M S unit.
  Fixpoint sbCols (n : nat) (r c sb4 sbSize : Z) : M St unit :=
    match n with
    | O => if c <? MiColEnd g then hang else ret tt
    | Datatypes.S n => if c <? MiColEnd g then on (sbStart r c) ;; decodePartition 6 r c sbSize ;; sbCols n r (c + sb4) sb4 sbSize else ret tt
    end.
  Fixpoint sbRows (n m : nat) (r sb4 sbSize : Z) : M St unit :=
    match n with
    | O => if r <? MiRowEnd g then hang else ret tt
    | Datatypes.S n => if r <? MiRowEnd g then on rowStart ;; sbCols m r (MiColStart g) sb4 sbSize ;; sbRows n m (r + sb4) sb4 sbSize else ret tt
    end.
  Definition decodeSuperblocks (use128 : bool) : M St unit :=
    let sbSize := if use128 then BLOCK_128X128 else BLOCK_64X64 in
    let* sb4 := lift (idx NUM_4X4_BLOCKS_WIDE sbSize) in
    sbRows (Z.to_nat (MiRowEnd g - MiRowStart g)) (Z.to_nat (MiColEnd g - MiColStart g)) (MiRowStart g) sb4 sbSize.
End Decode.

(** tile_group.go:692-729 clearAboveContext, clearLeftContext: the fresh contexts; the segmentation context has 3 entries
    but is indexed like the others.  [n] is MiCols, resp. MiRows. *)
Definition clearOne (i plane : Z) (acc : list (list Z) * list (list Z) * list Z) : res (list (list Z) * list (list Z) * list Z) :=
  let '(lv, dc, sp) := acc in
  let! lv := upd2 lv plane i 0 in let! dc := upd2 dc plane i 0 in let! sp := upd sp i 0 in Ok (lv, dc, sp).
Definition clearContext (n : Z) : res (list (list Z) * list (list Z) * list Z) :=
  if n <? 0 then Panic (* make with a negative length *)
  else
    let z := repeat (repeat 0 (Z.to_nat n)) 3 in
    rfor_to 0 n (fun i acc => rfor_to 0 3 (clearOne i) acc) (z, z, [0; 0; 0]).
