(** Vocabulary for statements about bitstreams: which bits are still to be read.
    These are readings of the three fields of a BitStream (Data, Position, Leb128Bytes). *)
From Verif Require Import GoBase Bitstream SpecBits.

(** Data are bytes and the position is not negative (true of NewBitStream of any byte slice). *)
Definition wf (s : bs) : Prop := Forall is_byte (Data s) /\ 0 <= Position s.

(** The bits not yet consumed. *)
Definition rest (s : bs) : list bool := skipn (Z.to_nat (Position s)) (bits_of (Data s)).

(** The same stream, n bits further on. *)
Definition adv (s : bs) (n : Z) : bs := set_pos s (Position s + n).

(** The same stream, n bits further on and with Leb128Bytes = k. *)
Definition set_leb_adv (s : bs) (k n : Z) : bs := mkBS (Data s) (Position s + n) k.

(** The unread bits begin with l. *)
Definition starts (s : bs) (l : list bool) : Prop := 0 <= Position s /\ exists r, rest s = l ++ r.

(** Smallest multiple of 8 that is not below p. *)
Definition align_up (p : Z) : Z := (p + 7) / 8 * 8.
