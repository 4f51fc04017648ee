(** Model of internal/header/header.go. *)
From Verif Require Import GoBase Bitstream.

(** header.go:7-15 *)
Definition OBU_SEQUENCE_HEADER := 1.
Definition OBU_TEMPORAL_DELIMITER := 2.
Definition OBU_FRAME_HEADER := 3.
Definition OBU_TILE_GROUP := 4.
Definition OBU_METADATA := 5.
Definition OBU_FRAME := 6.
Definition OBU_REDUNDANT_FRAME_HEADER := 7.
Definition OBU_TILE_LIST := 8.
Definition OBU_PADDING := 15.

(** header.go:26-30 *)
Record ExtensionHeader := mkExt { TemporalID : Z; SpatialID : Z; Reserved3Bits : Z }.
(** header.go:17-24 *)
Record Header := mkHeader {
  ForbiddenBit : bool; Type_ : Z; ExtensionFlag : bool; HasSizeField : bool;
  ReservedBit : bool; ExtHeader : ExtensionHeader }.

(** header.go:62-68 NewExtensionHeader (struct literal fields are evaluated left to right) *)
Definition NewExtensionHeader : BS ExtensionHeader :=
  let* t := F 3 in let* s := F 2 in let* r := F 3 in ret (mkExt t s r).

(** header.go:33-59 NewHeader; without extension the ExtensionHeader field is the zero value. *)
Definition NewHeader : BS Header :=
  let* forbiddenBit := Fbool in
  let* obuType := F 4 in
  let* extensionFlag := Fbool in
  let* hasSizeField := Fbool in
  let* reservedBit := Fbool in
  if extensionFlag then
    let* e := NewExtensionHeader in
    ret (mkHeader forbiddenBit obuType extensionFlag hasSizeField reservedBit e)
  else ret (mkHeader forbiddenBit obuType extensionFlag hasSizeField reservedBit (mkExt 0 0 0)).
