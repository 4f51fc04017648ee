(** Transforms and dequantisation (sections 7.12, 7.13 of the AV1 specification), used in the statements of C41, C68..C71. *)
From Coq Require Import ZArith List Bool. Import ListNotations. Open Scope Z_scope.

(** The forward Walsh-Hadamard transform of four values, as encoders compute it (lifting steps; order of the outputs as coded). *)
Definition forward_wht (x0 x1 x2 x3 : Z) : Z * Z * Z * Z :=
  let a := x0 + x1 in let d := x3 - x2 in let e := (a - d) / 2 in
  let b := e - x1 in let c := e - x2 in
  (a - c, c, d + b, b).
(** Its defining property: up to rounding, the outputs are half the four sums with Hadamard signs. *)
Definition halves (v twice : Z) : Prop := 2 * v <= twice + 1 /\ twice - 1 <= 2 * v.

(** Rounding x / 2^n to the nearest integer, halves up *)
Definition round_div (x n : Z) : Z := (x + 2 ^ (n - 1)) / 2 ^ n.
(** Scale factors of the identity transforms of 2^n points: sqrt 2, 2, 2 sqrt 2, 4 *)
Definition identity_scale (n x : Z) : Z :=
  match n with 2 => round_div (x * 5793) 12 | 3 => x * 2 | 4 => round_div (x * 11586) 12 | _ => x * 4 end.
Definition saturate (bits v : Z) : Z := Z.max (- 2 ^ (bits - 1)) (Z.min (2 ^ (bits - 1) - 1) v).

(** 7.12.3: divisor by area and longest side of the transform (log2 of its sides) *)
Definition tx_log2 (txSz : Z) : Z * Z :=
  nth (Z.to_nat txSz) [(2,2); (3,3); (4,4); (5,5); (6,6); (2,3); (3,2); (3,4); (4,3); (4,5); (5,4); (5,6); (6,5); (2,4); (4,2); (3,5); (5,3); (4,6); (6,4)] (0, 0).
Definition dq_divisor (txSz : Z) : Z := let '(w, h) := tx_log2 txSz in if w + h <=? 8 then 1 else if w + h <=? 10 then 2 else 4.
(** the dequantised value of coefficient [c] with step [step]: the product's magnitude, low 24 bits, divided, with the sign, saturated to bitdepth + 8 bits *)
Definition dequantised (bd step divisor c : Z) : Z :=
  saturate (bd + 8) (Z.sgn (c * step) * ((Z.abs (c * step) mod 2 ^ 24) / divisor)).
