(** Model of internal/obu/obu.go.

    The payload parsers for frame headers (NewUncompressedHeader) and tile groups (NewTileGroup) are
    parameters of this model, collected in [payloads]: the theorems hold for every behaviour of them.
    (NewUncompressedHeader itself is modelled separately.)  The decoder state is represented by the two
    fields obu.go reads or writes, and an abstract remainder. *)
From Verif Require Import GoBase Bitstream Header SequenceHeader.

(** state/state.go:24,33 and everything else in state.State *)
Record dstate (I : Type) := mkDState { OperatingPointIdc : Z; SeenFrameHeader : bool; other : I }.
Arguments mkDState {I} _ _ _.
Arguments OperatingPointIdc {I} _.
Arguments SeenFrameHeader {I} _.
Arguments other {I} _.
Definition set_idc {I} (d : dstate I) x := mkDState x (SeenFrameHeader d) (other d).
Definition set_seen {I} (d : dstate I) b := mkDState (OperatingPointIdc d) b (other d).

Record payloads := mkPayloads {
  UH : Type;                    (* uncompressedheader.UncompressedHeader *)
  TG : Type;                    (* tilegroup.TileGroup *)
  IS : Type;                    (* the rest of state.State *)
  uh0 : UH; tg0 : TG; is0 : IS; (* Go zero values *)
  ShowExistingFrame : UH -> bool;
  setTileNum : IS -> IS;        (* state.TileNum = 0 *)
  NewUncompressedHeader : Header -> SequenceHeader -> dstate IS -> BS (UH * dstate IS);
  NewTileGroup : Z -> UH -> SequenceHeader -> dstate IS -> BS (TG * dstate IS) }.

(** The zero SequenceHeader, sequence_header.go:13-58 *)
Definition zeroColor := mkColorConfig false false false false 0 0 0 false false false 0 false 0 0.
Definition zeroSH : SequenceHeader :=
  mkSequenceHeader 0 false false zeroTiming false zeroModel false 0 [] [] [] [] [] 0 0 0 0 false 0 0
    false false false false false false false false false false false 0 0 0 false false false zeroColor false.

(** obu.go:17-23 *)
Record Obu (P : payloads) := mkObu {
  Size : Z; Hdr : Header; ObuSH : SequenceHeader; ObuUH : UH P; ObuTG : TG P }.
Arguments mkObu {P} _ _ _ _ _.
Arguments Size {P} _.
Arguments Hdr {P} _.
Arguments ObuSH {P} _.
Arguments ObuUH {P} _.
Arguments ObuTG {P} _.

(** obu.go:109-127 ParseFrameHeader; FrameHeaderCopy (130-133) panics.  DecodeFrameWrapup of the
    header (uncompressed_header.go:1330-1332) panics too. *)
Definition ParseFrameHeader (P : payloads) (d : dstate (IS P)) (h : Header) (sh : SequenceHeader)
  : BS (UH P * dstate (IS P)) :=
  if SeenFrameHeader d then panic
  else
    let* r := NewUncompressedHeader P h sh (set_seen d true) in
    let '(uh, d1) := r in
    if ShowExistingFrame P uh then panic
    else ret (uh, mkDState (OperatingPointIdc d1) true (setTileNum P (other d1))).

(** obu.go:93-106 newFrame; Go's / truncates *)
Definition newFrame (P : payloads) (sz : Z) (d : dstate (IS P)) (h : Header) (sh : SequenceHeader)
  : BS (UH P * TG P * dstate (IS P)) :=
  let* s0 := get in
  let* r := ParseFrameHeader P d h sh in
  let '(uh, d1) := r in
  ByteAlignment ;;
  let* s1 := get in
  let headerBytes := Z.quot (Position s1 - Position s0) 8 in
  let* r2 := NewTileGroup P (sz - headerBytes) uh sh d1 in
  let '(tg, d2) := r2 in
  ret (uh, tg, d2).

(** obu.go:136-143 paddingObu; fuel: one more than the number of whole bytes left *)
Fixpoint padding_loop (fuel : nat) : BS unit :=
  match fuel with
  | O => hang
  | S f => let* b := F 8 in if negb (b =? 0) then padding_loop f else ret tt
  end.
Definition paddingObu : BS unit :=
  let* s := get in
  padding_loop (S (bits_left s)) ;;
  modify (fun s => set_pos s (Position s - 8)).

(** obu.go:47-60, the test for drop_obu: bit t of the operating point for temporal layer t, bit s + 8
    for spatial layer s *)
Definition dropped (idc : Z) (h : Header) : bool :=
  negb (Type_ h =? OBU_SEQUENCE_HEADER) && negb (Type_ h =? OBU_TEMPORAL_DELIMITER) &&
  negb (idc =? 0) && ExtensionFlag h &&
  (let inTemporalLayer := bool_of (Z.land (shr idc (TemporalID (ExtHeader h))) 1) in
   let inSpatialLayer := bool_of (Z.land (shr idc (SpatialID (ExtHeader h) + 8)) 1) in
   negb inTemporalLayer || negb inSpatialLayer).

(** obu.go:64-79, the switch on the OBU type *)
Definition payload (P : payloads) (size : Z) (h : Header) (sh : SequenceHeader) (uh : UH P) (d : dstate (IS P))
  : BS (Obu P * dstate (IS P)) :=
  let t := Type_ h in
  if t =? OBU_SEQUENCE_HEADER then
    let* r := NewSequenceHeader in
    let '(sh', idc) := r in
    ret (mkObu size h sh' uh (tg0 P), match idc with Some x => set_idc d x | None => d end)
  else if t =? OBU_TEMPORAL_DELIMITER then
    ret (mkObu size h sh uh (tg0 P), set_seen d false)
  else if t =? OBU_FRAME_HEADER then
    let* r := ParseFrameHeader P d h sh in
    let '(uh', d1) := r in ret (mkObu size h sh uh' (tg0 P), d1)
  else if t =? OBU_REDUNDANT_FRAME_HEADER then
    let* r := ParseFrameHeader P d h sh in
    let '(_, d1) := r in ret (mkObu size h sh uh (tg0 P), d1)
  else if t =? OBU_FRAME then
    let* r := newFrame P size d h sh in
    let '(uh', tg, d1) := r in ret (mkObu size h sh uh' tg, d1)
  else if t =? OBU_PADDING then
    paddingObu ;; ret (mkObu size h sh uh (tg0 P), d)
  else if t =? OBU_TILE_GROUP then
    let* r := NewTileGroup P size uh sh d in
    let '(tg, d1) := r in ret (mkObu size h sh uh tg, d1)
  else panic.

(** obu.go:82-88 *)
Definition hasTrailingBits (size : Z) (h : Header) : bool :=
  (0 <? size) && negb (Type_ h =? OBU_TILE_GROUP) && negb (Type_ h =? OBU_TILE_LIST) && negb (Type_ h =? OBU_FRAME).

(** obu.go:25-89 NewObu and build *)
Definition NewObu (P : payloads) (sz : Z) (d : dstate (IS P)) (sh : SequenceHeader) (uh : UH P)
  : BS (Obu P * dstate (IS P)) :=
  let* h := NewHeader in
  let* size := if HasSizeField h then Leb128 else ret (sz - 1 - int_of (ExtensionFlag h)) in
  let* s0 := get in
  if dropped (OperatingPointIdc d) h then
    modify (fun s => set_pos s (Position s + size * 8)) ;;
    ret (mkObu size h sh uh (tg0 P), d)
  else
    let* r := payload P size h sh uh d in
    let* s1 := get in
    let payloadBits := Position s1 - Position s0 in
    (if hasTrailingBits size h then TrailingBits (size * 8 - payloadBits) else ret tt) ;;
    ret r.
