(** Specification of the residual syntax of a block, written from the AV1 standard (sections 5.11.34 to 5.11.38, 7.11.4, 7.11.5), without reference to the model. *)
From Coq Require Import Sorting.Sorted.
From Verif Require Import GoBase SpecCoeffs SpecPartition SpecBlock.
Local Open Scope Z_scope.

(** A transform block: plane, the corner its offset is relative to (in samples), transform size, offset in units of 4 samples *)
Record call := Call { cPlane : Z; cX : Z; cY : Z; cTx : Z; cOffX : Z; cOffY : Z }.
Definition left_of (c : call) : Z := cX c + 4 * cOffX c.
Definition top_of (c : call) : Z := cY c + 4 * cOffY c.
Definition covers (p X Y : Z) (c : call) : bool := (cPlane c =? p) && (left_of c <=? X) && (X <? left_of c + tx_w (cTx c)) && (top_of c <=? Y) && (Y <? top_of c + tx_h (cTx c)).
(** how often a list satisfies p *)
Definition times {A} (p : A -> bool) (l : list A) : Z := Z.of_nat (length (filter p l)).
(** a computation that handles the members of a list one after the other *)
Fixpoint each {A B} (f : A -> B -> res B) (l : list A) (b : B) : res B := match l with [] => Ok b | x :: l => let! b := f x b in each f l b end.
(** The area of a block at (row, col), in units of 4 samples, in plane p with subsampling: corner and size in samples *)
Definition corner (p : Z) (sub : bool) (mi : Z) : Z := if (0 <? p) && sub then mi / 2 * 4 else mi * 4.
Definition extent (p : Z) (sub : bool) (n : Z) : Z := if 0 <? p then chroma_side n sub else n.
(** Blocks larger than 64x64 are coded in chunks of 64x64 luma samples.  The chunk a transform block belongs to: its distance from the corner of the block, in luma samples, in units of 64. *)
Definition chunk (p : Z) (sub : bool) (c0 v : Z) : Z := (v - c0) * (if (0 <? p) && sub then 2 else 1) / 64.
(** Chunks row by row; in a chunk planes one after the other; in a plane the transform blocks row by row *)
Definition chunkX (subX : bool) (miCol : Z) (c : call) : Z := chunk (cPlane c) subX (corner (cPlane c) subX miCol) (left_of c).
Definition chunkY (subY : bool) (miRow : Z) (c : call) : Z := chunk (cPlane c) subY (corner (cPlane c) subY miRow) (top_of c).
Fixpoint lex (l m : list Z) : Prop := match l, m with x :: l, y :: m => x < y \/ x = y /\ lex l m | _, _ => False end.
Definition before (subX subY : bool) (miCol miRow : Z) (c d : call) : Prop :=
  lex [chunkY subY miRow c; chunkX subX miCol c; cPlane c; top_of c; left_of c] [chunkY subY miRow d; chunkX subX miCol d; cPlane d; top_of d; left_of d].

(** Transform size of a chroma plane: the whole block, at most 32x32 *)
Definition uv_tx (sub : bool) (b : Z) : Z * Z := (Z.min 32 (chroma_side (bsize_w b) sub), Z.min 32 (chroma_side (bsize_h b) sub)).

(** The tree of luma transforms of an inter block.  A part that fits the size recorded for its corner is a transform; others are halved along the longer side, squares are quartered, in raster order.  Parts that begin outside the frame are left out. *)
Record rect := Rect { rX : Z; rY : Z; rW : Z; rH : Z }.
Definition parts (r : rect) : list rect :=
  let (x, y, w, h) := r in
  if h <? w then [Rect x y (w / 2) h; Rect (x + w / 2) y (w / 2) h]
  else if w <? h then [Rect x y w (h / 2); Rect x (y + h / 2) w (h / 2)]
  else [Rect x y (w / 2) (h / 2); Rect (x + w / 2) y (w / 2) (h / 2); Rect x (y + h / 2) (w / 2) (h / 2); Rect (x + w / 2) (y + h / 2) (w / 2) (h / 2)].
Inductive tx_tree (fits : rect -> Prop) (width height : Z) : rect -> list rect -> Prop :=
  | T_outside r : width <= rX r \/ height <= rY r -> tx_tree fits width height r []
  | T_leaf r : rX r < width -> rY r < height -> fits r -> tx_tree fits width height r [r]
  | T_node r ls : rX r < width -> rY r < height -> ~ fits r -> Forall2 (tx_tree fits width height) (parts r) ls -> tx_tree fits width height r (concat ls).
Definition in_rect (r : rect) (X Y : Z) : bool := (rX r <=? X) && (X <? rX r + rW r) && (rY r <=? Y) && (Y <? rY r + rH r).

(** What a transform block does, in order: predict (from the palette or the neighbours, then add luma), read the coefficients, add the residual. *)
Inductive event :=
  | Palette (plane x y offX offY tx : Z)
  | Intra (plane x y : Z) (left above aboveRight belowLeft : bool) (mode log2w log2h : Z)
  | FromLuma (plane x y tx : Z)
  | Coeffs (plane x y tx : Z)
  | Residue (plane x y tx : Z).
(** The block: inter, skipped, luma and chroma palette used, luma and chroma mode; neighbours left and above in luma and in chroma.  [eob] is the number of coefficients read. *)
Record blockinfo := mkBlockinfo { bInter : bool; bSkip : bool; bPalY : bool; bPalUV : bool; bY : Z; bUV : Z; bL : bool; bU : bool; bLC : bool; bUC : bool }.
Definition std_events (b : blockinfo) (c : call) (aboveRight belowLeft : bool) (eob : Z) : list event :=
  let p := cPlane c in let x := left_of c in let y := top_of c in
  let cfl := (0 <? p) && (bUV b =? 13) in
  (if bInter b then []
   else if (if p =? 0 then bPalY b else bPalUV b) then [Palette p x y (cOffX c) (cOffY c) (cTx c)]
   else [Intra p x y ((if p =? 0 then bL b else bLC b) || (0 <? cOffX c)) ((if p =? 0 then bU b else bUC b) || (0 <? cOffY c)) aboveRight belowLeft
          (if p =? 0 then bY b else if cfl then 0 else bUV b) (Z.log2 (tx_w (cTx c))) (Z.log2 (tx_h (cTx c)))] ++ (if cfl then [FromLuma p x y (cTx c)] else [])) ++
  (if bSkip b then [] else Coeffs p x y (cTx c) :: if 0 <? eob then [Residue p x y (cTx c)] else []).
(** Which parts of the superblock are decoded: row and column -1 are the superblocks above and to the left; they are stored last. *)
Definition flag (d : list (list (list bool))) (p r c : Z) (v : bool) : Prop :=
  exists rows row, idx d p = Ok rows /\ idx rows (if r <? 0 then zlen rows - 1 else r) = Ok row /\ idx row (if c <? 0 then zlen row - 1 else c) = Ok v.
(** Position of a transform block in units of 4 samples of its plane: in the frame and in the 64x64 superblock *)
Definition unit4 (v : Z) : Z := v / 4.
Definition unit_in_sb (p : Z) (sub : bool) (v : Z) : Z := (v / 4) mod (if (0 <? p) && sub then 8 else 16).

(** Palette prediction: the colour of a sample is the palette entry that the colour map names *)
Definition painted (palette : list Z) (colors : list (list Z)) (x y v : Z) : Prop := exists k, idx2 colors y x = Ok k /\ idx palette k = Ok v.

(** Chroma from luma (7.11.5): the luma samples of a chroma sample, summed and scaled to 8 times their average; luma beyond the coded part is taken from its edge *)
Definition cfl_luma (luma : Z -> Z -> Z) (subX subY : bool) (maxW maxH x y : Z) : Z :=
  let ly := Z.min (if subY then 2 * y else y) (maxH - if subY then 2 else 1) in
  let lx := Z.min (if subX then 2 * x else x) (maxW - if subX then 2 else 1) in
  match subY, subX with
  | false, false => 8 * luma ly lx
  | false, true => 4 * (luma ly lx + luma ly (lx + 1))
  | true, false => 4 * (luma ly lx + luma (ly + 1) lx)
  | true, true => 2 * (luma ly lx + luma ly (lx + 1) + luma (ly + 1) lx + luma (ly + 1) (lx + 1))
  end.
Definition sum_rect (w h : Z) (f : Z -> Z -> Z) : Z := fold_right Z.add 0 (flat_map (fun i => map (fun j => f (Z.of_nat i) (Z.of_nat j)) (seq 0 (Z.to_nat w))) (seq 0 (Z.to_nat h))).
Definition round2s (x n : Z) : Z := if 0 <=? x then (x + 2 ^ (n - 1)) / 2 ^ n else - ((- x + 2 ^ (n - 1)) / 2 ^ n).
Definition cfl_sample (bitDepth alpha dc l avg : Z) : Z := Z.max 0 (Z.min (2 ^ bitDepth - 1) (dc + round2s (alpha * (l - avg)) 6)).

(** The flags at the start of a superblock of n units of 4 samples, w4 and h4 of which are in the tile: the row above and the column to the left are decoded *)
Definition start_flag (n w4 h4 r c : Z) : bool := if (r <? 0) && (c <? w4) then true else if (c <? 0) && (r <? h4) && negb (r =? n) then true else false.
