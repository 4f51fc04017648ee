(** Specification of inter prediction, written from the AV1 standard (sections 5.11.33, 7.11.3), without reference to the model. *)
From Verif Require Import GoBase.
Local Open Scope Z_scope.

(** Rounded division by 2^n, halves upwards; for signed values halves away from zero *)
Definition round_up (x n : Z) : Z := if n =? 0 then x else (x + 2 ^ (n - 1)) / 2 ^ n.
Definition round_away (x n : Z) : Z := if 0 <=? x then round_up x n else - round_up (- x) n.
Definition clamp_to (last v : Z) : Z := Z.max 0 (Z.min last v).
Definition sum8 (g : Z -> Z) : Z := g 0 + g 1 + g 2 + g 3 + g 4 + g 5 + g 6 + g 7.

(** A reference picture may be at most twice as large and at most sixteen times smaller than the current one in each direction. *)
Definition scale_allowed (refW refH w h : Z) : Prop := refW <= 2 * w /\ refH <= 2 * h /\ w <= 16 * refW /\ h <= 16 * refH.
(** The ratio of two sides in units of 2^-14 *)
Definition ratio (ref cur : Z) : Z := (ref * 2 ^ 14 + cur / 2) / cur.
(** Position, in 1/1024 of a sample of the reference, of sample x displaced by vec (1/16 of a sample); and the distance of neighbouring samples *)
Definition std_start (x vec r : Z) : Z := round_away ((x * 16 + vec + 8) * r - 8 * 2 ^ 14) 8 + 32.
Definition std_step (r : Z) : Z := round_away r 4.
(** A motion vector component (1/8 of a sample) in 1/16 of a sample of a plane *)
Definition in_sixteenths (v : Z) (sub : bool) : Z := if sub then v else 2 * v.

(** Interpolation: a horizontal filter, then a vertical one, each of eight taps chosen by the position in 1/16 of a sample, at the clamped position in the reference.
    K filter fraction tap: the filters; S row column: the reference *)
Definition std_row (K : Z -> Z -> Z -> Z) (S : Z -> Z -> Z) (lastX lastY f r0 x xStep y r c : Z) : Z :=
  let p := x + xStep * c in
  round_up (sum8 (fun t => K f (p / 64 mod 16) t * S (clamp_to lastY (y / 1024 + r - 3)) (clamp_to lastX (p / 1024 + t - 3)))) r0.
Definition std_sample (K : Z -> Z -> Z -> Z) (S : Z -> Z -> Z) (lastX lastY fh fv r0 r1 x xStep y yStep r c : Z) : Z :=
  let p := y mod 1024 + yStep * r in
  round_up (sum8 (fun t => K fv (p / 64 mod 16) t * std_row K S lastX lastY fh r0 x xStep y (p / 1024 + t) c)) r1.
(** Sides of at most four samples take the short filters 4 (for 0 and 2) and 5 (for 1) *)
Definition std_filter (side f : Z) : Z := if side <=? 4 then (if (f =? 0) || (f =? 2) then 4 else if f =? 1 then 5 else f) else f.
(** Bits removed by the two filters together: the filters have gain 128 = 2^7 each; a compound prediction keeps four bits (two in 12 bit pictures) more than the sample *)
Definition std_gain (compound : bool) (bd : Z) : Z := if compound then (if bd =? 12 then 4 else 16) else 1.

(** factor / 2^shift is the reciprocal of d, to 1 part in 256 *)
Definition near_reciprocal (d shift factor : Z) : Prop := 256 * Z.abs (d * factor - 2 ^ shift) <= 2 ^ shift.

(** A shear is valid if both steps stay within a sample over a block of 8x8 *)
Definition shear_valid (alpha beta gamma delta : Z) : Prop := 4 * Z.abs alpha + 7 * Z.abs beta < 2 ^ 16 /\ 4 * Z.abs gamma + 4 * Z.abs delta < 2 ^ 16.
(** The shear of a warp: clamped to 16 bits, rounded to multiples of 64 *)
Definition to16 (v : Z) : Z := Z.max (-32768) (Z.min 32767 v).
Definition to64 (v : Z) : Z := round_away v 6 * 64.

(** The weights of the block's own prediction: at least one half, growing away from the edge, one at the end *)
Definition good_mask (m : list Z) : Prop :=
  Forall (fun v => 32 <= v <= 64) m /\ (forall i j a b, (i <= j)%nat -> nth_error m i = Some a -> nth_error m j = Some b -> a <= b) /\ last m 0 = 64.

(** The predictions of a block in one plane: position, size, and the unit whose vectors are used.
    w, h: size of the plane's block; bw, bh: size of a prediction; row, col: the unit of the first *)
Record pcall := PCall { pcPlane : Z; pcX : Z; pcY : Z; pcW : Z; pcH : Z; pcRow : Z; pcCol : Z }.
Definition upto (n : Z) : list Z := map Z.of_nat (seq 0 (Z.to_nat n)).
Definition std_predictions (plane X Y w h bw bh row col : Z) : list pcall :=
  flat_map (fun r => map (fun c => PCall plane (X + c * bw) (Y + r * bh) bw bh (row + r) (col + c)) (upto (w / bw))) (upto (h / bh)).
(** The leading nine bits of |d|, rounded: from 256 to 512 *)
Definition leading9 (d : Z) : Z := let n := Z.log2 (Z.abs d) in if 8 <? n then round_up (Z.abs d) (n - 8) else Z.abs d * 2 ^ (8 - n).
