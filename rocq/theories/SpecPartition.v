(** What it means for blocks to tile a region, and the pixel sizes of AV1's block sizes. *)
From Coq Require Import ZArith List Bool. Import ListNotations. Open Scope Z_scope.
(** The 22 block sizes of AV1 in the order of the enumeration, width x height in pixels. *)
Definition block_dims : list (Z * Z) :=
  [(4,4); (4,8); (8,4); (8,8); (8,16); (16,8); (16,16); (16,32); (32,16); (32,32); (32,64); (64,32); (64,64); (64,128); (128,64); (128,128);
   (4,16); (16,4); (8,32); (32,8); (16,64); (64,16)].
(** width and height of a block size in units of 4 pixels *)
Definition w4 (size : Z) : Z := fst (nth (Z.to_nat size) block_dims (0, 0)) / 4.
Definition h4 (size : Z) : Z := snd (nth (Z.to_nat size) block_dims (0, 0)) / 4.
(** The position (y, x) belongs to the rectangle with corner (r, c), height h, width w: 1, else 0. *)
Definition inside (r c h w y x : Z) : Z := if (r <=? y) && (y <? r + h) && (c <=? x) && (x <? c + w) then 1 else 0.
(** How many of the blocks (row, column, size) contain the position (y, x) *)
Fixpoint count (l : list (Z * Z * Z)) (y x : Z) : Z :=
  match l with [] => 0 | (r, c, size) :: l => inside r c (h4 size) (w4 size) y x + count l y x end.
