(** CDEF (section 7.15 of the AV1 specification), used in the statements of C39, C67. *)
From Coq Require Import ZArith List Bool. Import ListNotations. Open Scope Z_scope.

(** The two taps (row, column offset) along each of the eight directions, from 45 degrees up-right clockwise. *)
Definition direction (d : Z) : (Z * Z) * (Z * Z) :=
  nth (Z.to_nat d) [((-1, 1), (-2, 2)); ((0, 1), (-1, 2)); ((0, 1), (0, 2)); ((0, 1), (1, 2)); ((1, 1), (2, 2)); ((1, 0), (2, 1)); ((1, 0), (2, 0)); ((1, 0), (2, -1))] ((0, 0), (0, 0)).
Definition neg (p : Z * Z) : Z * Z := (- fst p, - snd p).
(** both taps of a direction, both ways *)
Definition line_offsets (d : Z) : list (Z * Z) := let '(a, b) := direction d in [a; neg a; b; neg b].
(** All positions a sample is filtered from: itself, along the direction, and 45 degrees to either side of it. *)
Definition tap_offsets (d : Z) : list (Z * Z) := (0, 0) :: line_offsets d ++ line_offsets ((d + 2) mod 8) ++ line_offsets ((d - 2) mod 8).

(** The line of the 8x8 block that position (row i, column j) is on, for each direction. *)
Definition line (d i j : Z) : Z :=
  nth (Z.to_nat d) [i + j; i + j / 2; i; 3 + i - j / 2; 7 + i - j; 3 - i / 2 + j; j; i / 2 + j] 0.
(** The 64 positions of the block *)
Definition positions : list (Z * Z) := flat_map (fun i => map (fun j => (i, j)) [0;1;2;3;4;5;6;7]) [0;1;2;3;4;5;6;7].
Definition zsum (l : list Z) : Z := fold_right Z.add 0 l.
(** sum of the samples of line k, and how many there are *)
Definition line_sum (x : Z -> Z -> Z) (d k : Z) : Z := zsum (map (fun p => x (fst p) (snd p)) (filter (fun p => line d (fst p) (snd p) =? k) positions)).
Definition line_len (d k : Z) : Z := Z.of_nat (length (filter (fun p => line d (fst p) (snd p) =? k) positions)).
(** How well the lines of direction d explain the block: the sum over the lines of (sum of the line)^2 / length, times 840. *)
Definition direction_cost (x : Z -> Z -> Z) (d : Z) : Z :=
  zsum (map (fun k => line_sum x d k * line_sum x d k * (840 / line_len d k)) [0;1;2;3;4;5;6;7;8;9;10;11;12;13;14]).

(** 7.15.3: how far a tap may pull the sample: not at all for strength 0; with the difference up to the strength, fading out beyond. *)
Definition constrain_spec (diff strength damping : Z) : Z :=
  if strength =? 0 then 0
  else Z.sgn diff * Z.max 0 (Z.min (Z.abs diff) (strength - Z.abs diff / 2 ^ Z.max 0 (damping - Z.log2 strength))).

(** offset, weight (in sixteenths), strength of each of the 12 taps; the primary weights are 4,2 or, for odd strengths, 3,3 *)
Definition weighted_taps (odd : bool) (d pri sec : Z) : list ((Z * Z) * Z * Z) :=
  flat_map (fun k : bool =>
    let off (d : Z) := if k then snd (direction d) else fst (direction d) in
    let wp := if odd then 3 else if k then 2 else 4 in
    let ws := if k then 1 else 2 in
    flat_map (fun o : Z * Z -> Z * Z => [(o (off d), wp, pri); (o (off ((d - 2) mod 8)), ws, sec); (o (off ((d + 2) mod 8)), ws, sec)]) [neg; fun p => p])
  [false; true].

(** The filtered sample: [x] plus the rounded weighted sum over the taps that are available ([s off] is the sample at an offset,
    None outside the frame), kept between the smallest and the largest of the samples involved. *)
Definition cdef_value (odd : bool) (d pri sec damping x : Z) (s : Z * Z -> option Z) : Z :=
  let taps := weighted_taps odd d pri sec in
  let sum := zsum (map (fun t => let '(off, w, str) := t in match s off with Some p => w * constrain_spec (p - x) str damping | None => 0 end) taps) in
  let near := flat_map (fun t => let '(off, _, _) := t in match s off with Some p => [p] | None => [] end) taps in
  let hi := fold_right Z.max x near in
  let lo := fold_right Z.min x near in
  Z.max lo (Z.min hi (x + (8 + sum - if sum <? 0 then 1 else 0) / 16)).

(** The strength as coded in the header (before scaling to the bit depth) is odd. *)
Definition odd_strength (bd pri : Z) : bool := Z.odd (pri / 2 ^ (bd - 8)).

(** 7.15.1: strength of luma filtering adjusted to how strongly the block follows its direction ([var] from the direction search) *)
Definition luma_strength (pri var : Z) : Z :=
  if var =? 0 then 0 else (pri * (4 + if var / 64 =? 0 then 0 else Z.min (Z.log2 (var / 64)) 12) + 8) / 16.
(** direction of the chroma planes: adapted when only one of the axes is subsampled *)
Definition chroma_dir (subX subY : bool) (d : Z) : Z :=
  match subX, subY with
  | false, true => nth (Z.to_nat d) [1; 2; 2; 2; 3; 4; 6; 0] 0
  | true, false => nth (Z.to_nat d) [7; 0; 2; 4; 5; 6; 6; 6] 0
  | _, _ => d
  end.
