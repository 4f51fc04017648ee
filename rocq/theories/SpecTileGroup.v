(** Specification of tile groups (AV1 spec 5.11.1), independent of the model. *)
From Coq Require Import ZArith List Bool.
From Verif Require Import SpecBits.
Import ListNotations.
Open Scope Z_scope.

(** The layout of the tiles of a frame: columns and rows of tiles, the bits of a tile number, the bytes of a tile size, and where the columns and rows
    of tiles begin (one more entry than there are tiles). *)
Record layout := mkLayout { l_cols : nat; l_rows : nat; l_bits : nat; l_bytes : nat; l_col_starts : list Z; l_row_starts : list Z }.
Definition l_tiles (l : layout) : Z := Z.of_nat (l_cols l * l_rows l).
(** A group: whether the numbers of its first and last tile are coded, the number of its first tile, and the bytes of its tiles. *)
Record group := mkGroup { g_coded : bool; g_first : Z; g_data : list (list Z) }.
Definition g_last (g : group) : Z := g_first g + Z.of_nat (length (g_data g)) - 1.

(** Every tile but the last is preceded by its size. *)
Fixpoint enc_tiles (bytes : nat) (tiles : list (list Z)) : list bool :=
  match tiles with
  | [] => []
  | [b] => bits_of b
  | b :: more => enc_le bytes (Z.of_nat (length b) - 1) ++ bits_of b ++ enc_tiles bytes more
  end.
Definition enc_group_head (l : layout) (g : group) : list bool :=
  (if 1 <? l_tiles l then g_coded g :: (if g_coded g then enc_f (l_bits l) (g_first g) ++ enc_f (l_bits l) (g_last g) else []) else []).
(** zero bits up to the next byte *)
Definition to_byte (h : list bool) : list bool := h ++ repeat false ((8 - length h mod 8) mod 8).
Definition enc_group (l : layout) (g : group) : list bool := to_byte (enc_group_head l g) ++ enc_tiles (l_bytes l) (g_data g).

Definition valid_layout (l : layout) : Prop :=
  (0 < l_cols l)%nat /\ (0 < l_rows l)%nat /\ (l_bits l <= 63)%nat /\ l_tiles l <= 2 ^ Z.of_nat (l_bits l) /\ (l_bytes l <= 7)%nat /\
  length (l_col_starts l) = S (l_cols l) /\ length (l_row_starts l) = S (l_rows l).
Definition valid_group (l : layout) (g : group) : Prop :=
  g_data g <> [] /\ 0 <= g_first g /\ g_last g < l_tiles l /\
  (g_coded g = false -> g_first g = 0 /\ g_last g = l_tiles l - 1) /\
  Forall (fun b => b <> []) (g_data g) /\
  (forall b, In b (removelast (g_data g)) -> Z.of_nat (length b) <= 2 ^ (8 * Z.of_nat (l_bytes l))) /\
  Forall (Forall is_byte) (g_data g).

(** Tiles are numbered row by row: first and last (exclusive) row and column of tile k. *)
Definition tile_rect (l : layout) (k : Z) : Z * Z * Z * Z :=
  let r := Z.to_nat (k / Z.of_nat (l_cols l)) in
  let c := Z.to_nat (k mod Z.of_nat (l_cols l)) in
  (nth r (l_row_starts l) 0, nth (S r) (l_row_starts l) 0, nth c (l_col_starts l) 0, nth (S c) (l_col_starts l) 0).
(** init_symbol (8.2.2): the 15 bits the decoder starts with, zero bits after the end of the tile *)
Definition first15 (b : list Z) : Z := be (firstn 15 (bits_of b ++ repeat false 15)).
