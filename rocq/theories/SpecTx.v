(** Specification of the transform size of a block, written from the AV1 standard (sections 5.11.15, 5.11.16 and 8.3.2), without reference to the model.
    Transform sizes are pairs (width, height). *)
From Coq Require Import String.
From Verif Require Import GoBase SpecCoeffs SpecPartition SpecBlock.
Local Open Scope string_scope.
Local Open Scope Z_scope.

(** The largest transform of a block, and how a transform is split: the longer side is halved, both sides of a square; 4x4 stays. *)
Definition max_tx (b : Z) : Z * Z := (Z.min 64 (bsize_w b), Z.min 64 (bsize_h b)).
Definition split_tx (d : Z * Z) : Z * Z :=
  let (w, h) := d in if w =? h then (Z.max 4 (w / 2), Z.max 4 (h / 2)) else if h <? w then (w / 2, h) else (w, h / 2).
Definition split_times (n : Z) (d : Z * Z) : Z * Z := Nat.iter (Z.to_nat n) split_tx d.
(** The number of splits that lead to 4x4 *)
Fixpoint splits_to_4x4 (fuel : nat) (d : Z * Z) : Z :=
  match fuel with O => 0 | S f => if (fst d =? 4) && (snd d =? 4) then 0 else 1 + splits_to_4x4 f (split_tx d) end.
Definition depth_table (b : Z) : string :=
  let n := splits_to_4x4 8 (max_tx b) in if n =? 4 then "Tx64x64Cdf" else if n =? 3 then "Tx32x32Cdf" else if n =? 2 then "Tx16x16Cdf" else "Tx8x8Cdf".
(** A neighbouring block: inter or not, its size, the size of the transform that touches this block *)
Record tnb := mkTnb { tInter : bool; tSize : Z; tTx : Z * Z }.
(** The width (height) a neighbour above (to the left) counts with *)
Definition width_above (n : option tnb) : Z := match n with Some n => if tInter n then bsize_w (tSize n) else fst (tTx n) | None => 0 end.
Definition height_left (n : option tnb) : Z := match n with Some n => if tInter n then bsize_h (tSize n) else snd (tTx n) | None => 0 end.
Definition at_least (a b : Z) : Z := if b <=? a then 1 else 0.
(** The transform size of a block: [allow] says whether a depth may be coded, [select] whether the frame codes depths; [aw] and [lh] are the extents of the neighbours *)
Definition tx_size_with (allow lossless select : bool) (b aw lh : Z) : prog (Z * Z) :=
  if lossless then Done (4, 4)
  else if (0 <? b) && allow && select then
    Sym (depth_table b) [at_least aw (fst (max_tx b)) + at_least lh (snd (max_tx b))] (fun n => Done (split_times n (max_tx b)))
  else Done (max_tx b).
(** The standard, for all blocks but those inter blocks that carry a tree of transform sizes *)
Definition has_tree (lossless select inter skip : bool) (b : Z) : bool := select && (0 <? b) && inter && negb skip && negb lossless.
Definition std_tx_size (lossless select inter skip : bool) (b : Z) (above left : option tnb) : prog (Z * Z) :=
  tx_size_with (negb skip || negb inter) lossless select b (width_above above) (height_left left).
