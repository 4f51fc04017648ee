(** Model of internal/parser/parser.go (Annex B framing). *)
From Verif Require Import GoBase Bitstream Header SequenceHeader Obu.

(** parser.go:14-19, except the bitstream, which is the state of the monad *)
Record Parser (P : payloads) := mkParser { PSH : SequenceHeader; PUH : UH P; obus : list (Obu P) }.
Arguments mkParser {P} _ _ _.
Arguments PSH {P} _.
Arguments PUH {P} _.
Arguments obus {P} _.

(** parser.go:21-27 NewParser (logger left out) *)
Definition NewParser (P : payloads) : Parser P := mkParser zeroSH (uh0 P) [].

(** parser.go:50-58: what the parser keeps of a parsed OBU *)
Definition keep {P} (p : Parser P) (o : Obu P) : Parser P :=
  mkParser (if Type_ (Hdr o) =? OBU_SEQUENCE_HEADER then ObuSH o else PSH p)
           (if Type_ (Hdr o) =? OBU_FRAME_HEADER then ObuUH o else PUH p)
           (obus p ++ [o]).

(** parser.go:40-61 frameUnit; every frame unit starts from a zero state.State.
    The loop has no bound in Go; fuel exhaustion is Hang. *)
Fixpoint frameUnit_loop (P : payloads) (fuel : nat) (sz : Z) (d : dstate (IS P)) (p : Parser P) : BS (Parser P) :=
  if 0 <? sz then
    match fuel with
    | O => hang
    | S f =>
        let* obuLength := Leb128 in
        let* s := get in
        let* r := NewObu P obuLength d (PSH p) (PUH p) in
        let '(o, d1) := r in
        frameUnit_loop P f (sz - Leb128Bytes s - obuLength) d1 (keep p o)
    end
  else ret p.
Definition zeroState (P : payloads) : dstate (IS P) := mkDState 0 false (is0 P).
Definition frameUnit (P : payloads) (fuel : nat) (sz : Z) (p : Parser P) : BS (Parser P) :=
  frameUnit_loop P fuel sz (zeroState P) p.

(** parser.go:30-37 temporalUnit *)
Fixpoint temporalUnit (P : payloads) (fuel : nat) (sz : Z) (p : Parser P) : BS (Parser P) :=
  if 0 <? sz then
    match fuel with
    | O => hang
    | S f =>
        let* frameUnitSize := Leb128 in
        let* s := get in
        let* p1 := frameUnit P f frameUnitSize p in
        temporalUnit P f (sz - Leb128Bytes s - frameUnitSize) p1
    end
  else ret p.

(** parser.go:64-72 bitstream *)
Fixpoint bitstream_loop (P : payloads) (fuel : nat) (p : Parser P) : BS (Parser P) :=
  let* s := get in
  if MoreDataInBitstream s then
    match fuel with
    | O => hang
    | S f =>
        let* temporalUnitSize := Leb128 in
        let* p1 := temporalUnit P f temporalUnitSize p in
        bitstream_loop P f p1
    end
  else ret p.
(** One iteration of any of the loops consumes at least one byte, so this much fuel is never exhausted
    (proved as C25_parser_terminates). *)
Definition parse (P : payloads) (data : list Z) : res (list (Obu P) * bs) :=
  match bitstream_loop P (length data + 3)%nat (NewParser P) (NewBitStream data) with
  | Ok (p, s) => Ok (obus p, s)
  | Panic => Panic
  | Hang => Hang
  end.
