(** Model of internal/bitstream/bitstream.go. *)
From Verif Require Import GoBase.

(** bitstream.go:9-13 type BitStream struct.  Data holds bytes, each 0..255. *)
Record bs := mkBS { Data : list Z; Position : Z; Leb128Bytes : Z }.

(** bitstream.go:15-20 NewBitStream *)
Definition NewBitStream (data : list Z) : bs := mkBS data 0 0.

Definition BS := M bs.

Definition set_pos (s : bs) (p : Z) : bs := mkBS (Data s) p (Leb128Bytes s).
Definition set_lebbytes (s : bs) (k : Z) : bs := mkBS (Data s) (Position s) k.

(** bitstream.go:34-36 readBit.  floor(Position/8) goes through float64, which is
    exact for |Position| < 2^53; a negative position makes the index negative: panic. *)
Definition readBit : BS Z := fun s =>
  match idx (Data s) (Position s / 8) with
  | Ok byte => Ok (Z.land (Z.shiftr byte (8 - Position s mod 8 - 1)) 1, s)
  | Panic => Panic
  | Hang => Hang
  end.

(** bitstream.go:23-31 F(n); 64-bit accumulation. *)
Fixpoint F_loop (n : nat) (x : Z) : BS Z :=
  match n with
  | O => ret x
  | S n' => let* b := readBit in
            modify (fun s => set_pos s (Position s + 1)) ;;
            F_loop n' (i64 (2 * x + b))
  end.
Definition F (n : Z) : BS Z := F_loop (Z.to_nat n) 0.

(** The pattern b.F(1) != 0 / util.Bool(b.F(1)). *)
Definition Fbool : BS bool := let* x := F 1 in ret (bool_of x).

(** bitstream.go:38-40 MoreDataInBistream; Go's / truncates. *)
Definition MoreDataInBitstream (s : bs) : bool :=
  negb (Z.quot (Position s) 8 =? zlen (Data s)).

(** bitstream.go:43-52, the loop counting zeros; returns leadingZeros.
    The loop has no bound in Go: fuel is the number of bits left + 1. *)
Fixpoint Uvlc_zeros (fuel : nat) (lz : Z) : BS Z :=
  match fuel with
  | O => hang
  | S f => let* done := Fbool in
           if done then ret lz else Uvlc_zeros f (lz + 1)
  end.
Definition bits_left (s : bs) : nat := Z.to_nat (8 * zlen (Data s) - Position s).

(** bitstream.go:43-59 Uvlc *)
Definition Uvlc : BS Z :=
  let* s := get in
  let* lz := Uvlc_zeros (S (bits_left s)) 0 in
  if 32 <=? lz then ret (2 ^ 32 - 1)
  else let* v := F lz in ret (v + Z.shiftl 1 lz - 1).

(** bitstream.go:62-77 Leb128.  [n] is the number of iterations left, [i] the index. *)
Fixpoint Leb128_loop (n : nat) (i value : Z) : BS Z :=
  match n with
  | O => ret value
  | S n' =>
      let* leb128_byte := F 8 in
      let value' := Z.lor value (Z.shiftl (Z.land leb128_byte 0x7f) (i * 7)) in
      modify (fun s => set_lebbytes s (Leb128Bytes s + 1)) ;;
      if negb (bool_of (Z.land leb128_byte 0x80)) then ret value'
      else Leb128_loop n' (i + 1) value'
  end.
Definition Leb128 : BS Z :=
  modify (fun s => set_lebbytes s 0) ;; Leb128_loop 8 0 0.

(** bitstream.go:80-90 TrailingBits *)
Fixpoint TrailingBits_loop (n : nat) : BS unit :=
  match n with
  | O => ret tt
  | S n' => F 1 ;; TrailingBits_loop n'
  end.
Definition TrailingBits (nbBits : Z) : BS unit :=
  F 1 ;; TrailingBits_loop (Z.to_nat (nbBits - 1)).

(** bitstream.go:93-97 ByteAlignment; at most 7 iterations are ever needed, fuel 8. *)
Fixpoint ByteAlignment_loop (fuel : nat) : BS unit :=
  match fuel with
  | O => hang
  | S f => let* s := get in
           if bool_of (Z.land (Position s) 7) then F 1 ;; ByteAlignment_loop f else ret tt
  end.
Definition ByteAlignment : BS unit := ByteAlignment_loop 9.

(** bitstream.go:100-109 Su.  signMask = 1 << uint(n-1): for n <= 0 the unsigned
    count is huge and the shift gives 0. *)
Definition Su (n : Z) : BS Z :=
  let* value := F n in
  let signMask := if n <=? 0 then 0 else shl 1 (n - 1) in
  ret (if bool_of (Z.land value signMask) then value - 2 * signMask else value).

(** util.go:70-77 FloorLog2 (used by Ns).  Go loops while x != 0; x >>= 1 reaches 0 after
    at most 63 steps for x >= 0 and never for x < 0 (Hang). *)
Fixpoint FloorLog2_loop (fuel : nat) (x s : Z) : res Z :=
  if x =? 0 then Ok (s - 1)
  else match fuel with
       | O => Hang
       | S f => FloorLog2_loop f (shr x 1) (s + 1)
       end.
Definition FloorLog2 (x : Z) : res Z := FloorLog2_loop 64 x 0.

(** bitstream.go:112-121 Ns.  w >= 0 always (FloorLog2 >= -1). *)
Definition Ns (n : Z) : BS Z :=
  let* l := lift (FloorLog2 n) in
  let w := l + 1 in
  let m := shl 1 w - n in
  let* v := F (w - 1) in
  if v <? m then ret v
  else let* extraBit := F 1 in
       ret (shl v 1 - m + extraBit).

(** bitstream.go:124-131 Le *)
Fixpoint Le_loop (n : nat) (i t : Z) : BS Z :=
  match n with
  | O => ret t
  | S n' => let* byte := F 8 in Le_loop n' (i + 1) (i64 (t + shl byte (i * 8)))
  end.
Definition Le (n : Z) : BS Z := Le_loop (Z.to_nat n) 0 0.

(** bitstream.go:133-136 S() is a stub that always panics. *)
Definition S_stub : BS Z := panic.
