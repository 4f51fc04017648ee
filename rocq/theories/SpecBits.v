(** Specification of bit strings and of the AV1 descriptors (AV1 spec section 4.10),
    written as encoders on lists of bits.  Independent of the model. *)
From Coq Require Import ZArith List Bool Lia.
Import ListNotations.
Open Scope Z_scope.

(** The bits of a byte, most significant first; the bits of a byte string. *)
Definition byte_bits (x : Z) : list bool :=
  [Z.testbit x 7; Z.testbit x 6; Z.testbit x 5; Z.testbit x 4;
   Z.testbit x 3; Z.testbit x 2; Z.testbit x 1; Z.testbit x 0].
Definition bits_of (data : list Z) : list bool := flat_map byte_bits data.
Definition is_byte (x : Z) : Prop := 0 <= x < 256.

Definition b2z (b : bool) : Z := if b then 1 else 0.

(** The unsigned number written big-endian by a bit string. *)
Fixpoint be (l : list bool) : Z :=
  match l with
  | [] => 0
  | b :: t => b2z b * 2 ^ Z.of_nat (length t) + be t
  end.

(** f(n): the n-bit big-endian representation of v. *)
Fixpoint enc_f (n : nat) (v : Z) : list bool :=
  match n with
  | O => []
  | S n' => Z.testbit v (Z.of_nat n') :: enc_f n' v
  end.

(** uvlc(): k zeros, a one, then k bits, for v + 1 = 2^k + rest. *)
Definition enc_uvlc (v : Z) : list bool :=
  let k := Z.to_nat (Z.log2 (v + 1)) in
  repeat false k ++ true :: enc_f k (v + 1).

(** leb128() in exactly k bytes (k = 1..8): 7 bits per byte, least significant
    group first, continuation bit on all but the last. *)
Fixpoint enc_leb128 (k : nat) (v : Z) : list bool :=
  match k with
  | O => []
  | S O => false :: enc_f 7 v
  | S k' => true :: enc_f 7 (v mod 128) ++ enc_leb128 k' (v / 128)
  end.

(** su(n): n-bit two's complement. *)
Definition enc_su (n : nat) (v : Z) : list bool := enc_f n (v mod 2 ^ Z.of_nat n).

(** ns(n): w = FloorLog2(n)+1, m = 2^w - n; values below m take w-1 bits, the others w. *)
Definition enc_ns (n v : Z) : list bool :=
  let w := Z.log2 n + 1 in
  let m := 2 ^ w - n in
  if v <? m then enc_f (Z.to_nat (w - 1)) v else enc_f (Z.to_nat w) (v + m).

(** le(n): n bytes, least significant first. *)
Fixpoint enc_le (n : nat) (v : Z) : list bool :=
  match n with
  | O => []
  | S n' => enc_f 8 (v mod 256) ++ enc_le n' (v / 256)
  end.
