(** Model of internal/util/util.go.  Go ints are 64-bit: sums and left shifts that can leave
    the 64-bit range are wrapped with [i64]. FloorLog2 is in Bitstream.v, Bool/Int in GoBase.v. *)
From Verif Require Import GoBase Bitstream Constants.

(** util.go:10-21 Equals on [2]T for T = int. *)
Definition Equals (a b : Z * Z) : bool := (fst a =? fst b) && (snd a =? snd b).

(** sort.Ints on a slice: the ascending rearrangement (unique for ints), by insertion. *)
Fixpoint insert_z (x : Z) (l : list Z) : list Z :=
  match l with [] => [x] | y :: t => if x <=? y then x :: l else y :: insert_z x t end.
Fixpoint sort_ints (l : list Z) : list Z :=
  match l with [] => [] | x :: t => insert_z x (sort_ints t) end.

(** util.go:23-28 Sort.  arrTmp aliases arr[i1..i2], so sorting it sorts arr in place and the
    copy writes the same values back; arr[i1:i2] also needs i1 <= i2.
    Simplification: capacity = length (Go would allow slicing up to the capacity). *)
Definition Sort (arr : list Z) (i1 i2 : Z) : res (list Z) :=
  if (i1 <? 0) || (i2 + 1 <? i1) || (zlen arr <? i2 + 1) then Panic
  else if i2 <? i1 then Panic
  else Ok (firstn (Z.to_nat i1) arr
           ++ sort_ints (firstn (Z.to_nat (i2 + 1 - i1)) (skipn (Z.to_nat i1) arr))
           ++ skipn (Z.to_nat (i2 + 1)) arr).

(** util.go:31-37 TileLog2: k grows until blkSize << k >= target. *)
Fixpoint TileLog2_loop (fuel : nat) (blkSize target k : Z) : res Z :=
  if shl blkSize k <? target then
    match fuel with O => Hang | S f => TileLog2_loop f blkSize target (k + 1) end
  else Ok k.
(** 65 iterations are enough: from k = 64 on, blkSize << k is 0 for ever. *)
Definition TileLog2 (blkSize target : Z) : res Z := TileLog2_loop 65 blkSize target 0.

(** util.go:39-52 CeilLog2 *)
Fixpoint CeilLog2_loop (fuel : nat) (x i p : Z) : res Z :=
  if p <? x then
    match fuel with O => Hang | S f => CeilLog2_loop f x (i + 1) (shl p 1) end
  else Ok i.
Definition CeilLog2 (x : Z) : res Z := if x <? 2 then Ok 0 else CeilLog2_loop 65 x 1 2.

(** util.go:54-60 Min, 62-68 Max, 79-85 Abs (Abs of the least int wraps) *)
Definition Min (x y : Z) : Z := if x <=? y then x else y.
Definition Max (x y : Z) : Z := if y <=? x then x else y.
Definition Abs (x : Z) : Z := if 0 <=? x then x else i64 (- x).

(** util.go:87-93 Round2; a negative shift count panics *)
Definition Round2 (x n : Z) : res Z :=
  if n =? 0 then Ok x
  else if n <? 0 then Panic
  else Ok (shr (i64 (x + shl 1 (n - 1))) n).

(** util.go:95-101 Round2Signed (sic: the non-negative branch rounds the constant 2) *)
Definition Round2Signed (x n : Z) : res Z :=
  if 0 <=? x then Round2 2 n
  else let! r := Round2 (i64 (- x)) n in Ok (i64 (- r)).

(** util.go:103-111 InverseRecenter *)
Definition InverseRecenter (r v : Z) : Z :=
  if i64 (2 * r) <? v then v
  else if negb (Z.land v 1 =? 0) then i64 (r - shr (i64 (v + 1)) 1)
  else i64 (r + shr v 1).

(** util.go:113-123 Clip3 *)
Definition Clip3 (x y z : Z) : Z := if z <? x then x else if y <? z then y else z.

(** util.go:125-127 Clip1 (sic: it clips the constant 2 and ignores x).
    int(math.Pow(2, bitDepth-1)) is 2^(bitDepth-1), and 0 when bitDepth < 1. *)
Definition Clip1 (x bitDepth : Z) : Z :=
  Clip3 0 (if bitDepth <? 1 then 0 else 2 ^ (bitDepth - 1)) 2.

(** util.go:129-158 NegDeinterleave *)
Definition NegDeinterleave (diff ref max : Z) : Z :=
  if negb (ref =? 1) then diff
  else if max - 1 <=? ref then max - diff - 1
  else if 2 * ref <? max then
    if diff <=? 2 * ref then
      if Z.land diff 1 =? 1 then ref + shr (diff + 1) 1 else ref - shr diff 1
    else diff
  else
    if diff <=? 2 * (max - ref - 1) then
      if Z.land diff 1 =? 1 then ref + shr (diff + 1) 1 else ref - shr diff 1
    else max - diff + 1.

(** util.go:180-182 LsProduct *)
Definition LsProduct (a b : Z) : Z := shr (a * b) 2 + (a + b).

(** util.go:199-208 Obmc_Mask_* *)
Definition Obmc_Mask_2 := [45; 64].
Definition Obmc_Mask_4 := [39; 50; 59; 64].
Definition Obmc_Mask_8 := [36; 42; 48; 53; 57; 61; 64; 64].
Definition Obmc_Mask_16 := [34; 37; 40; 43; 46; 49; 52; 54; 56; 58; 60; 61; 64; 64; 64; 64].
Definition Obmc_Mask_32 := [
  3; 35; 36; 38; 40; 41; 43; 44;
  45; 47; 48; 50; 51; 52; 53; 55;
  56; 57; 58; 59; 60; 60; 61; 62;
  64; 64; 64; 64; 64; 64; 64; 64].
(** util.go:184-197 GetObmcMask *)
Definition GetObmcMask (length : Z) : list Z :=
  if length =? 2 then Obmc_Mask_2
  else if length =? 4 then Obmc_Mask_4
  else if length =? 8 then Obmc_Mask_8
  else if length =? 16 then Obmc_Mask_16
  else Obmc_Mask_32.

(** util.go:210-212 CountUnitsInFrame; division by zero panics, Go's / truncates *)
Definition CountUnitsInFrame (unitSize frameSize : Z) : res Z :=
  if unitSize =? 0 then Panic
  else Ok (Max (Z.quot (frameSize + shr unitSize 1) unitSize) 1).

(** util.go:214-223 Cos128_Lookup *)
Definition Cos128_Lookup := [
  4096; 4095; 4091; 4085; 4076; 4065; 4052; 4036;
  4017; 3996; 3973; 3948; 3920; 3889; 3857; 3822;
  3784; 3745; 3703; 3659; 3612; 3564; 3513; 3461;
  3406; 3349; 3290; 3229; 3166; 3102; 3035; 2967;
  2896; 2824; 2751; 2675; 2598; 2520; 2440; 2359;
  2276; 2191; 2106; 2019; 1931; 1842; 1751; 1660;
  1567; 1474; 1380; 1285; 1189; 1092; 995; 897;
  799; 700; 601; 501; 401; 301; 201; 101; 0].
(** util.go:225-238 Cos128 (sic: || in every test) *)
Definition Cos128 (angle : Z) : res Z :=
  let angle2 := Z.land angle 255 in
  if (0 <=? angle2) || (angle2 <=? 64) then idx Cos128_Lookup angle2
  else if (64 <=? angle2) || (angle2 <=? 128) then
    let! c := idx Cos128_Lookup (128 - angle2) in Ok (c * -1)
  else if (128 <=? angle2) || (angle2 <=? 192) then
    let! c := idx Cos128_Lookup (angle2 - 128) in Ok (c * -1)
  else let! c := idx Cos128_Lookup (256 - angle2) in Ok (c * -1).
(** util.go:240-242 Sin128 *)
Definition Sin128 (angle : Z) : res Z := Cos128 (angle - 64).

(** util.go:244-252 Brev (sic: x >> 1, not x >> i) *)
Definition Brev (numBits x : Z) : Z :=
  pfor_to 0 numBits (fun i t => t + Z.shiftl (Z.land (shr x 1) 1) (numBits - 1 - i)) 0.

(** util.go:171-178 HasNewmv; mode numbers from shared/constants.go *)
Definition HasNewmv (mode : Z) : bool :=
  (mode =? NEWMV) || (mode =? NEW_NEWMV) || (mode =? NEAR_NEWMV) || (mode =? NEW_NEARMV)
  || (mode =? NEAREST_NEWMV) || (mode =? NEW_NEARESTMV).
