(** Model of internal/wedgemask/wedge_mask.go.
    In the code MasterMask (line 81) and WedgeMasks (line 75) are empty slices, so that InitialiseWedgeMaskTable panics at its first assignment
    (PredictInter.v: wedgeMask).  Here both are parameters, as are state.BlockWidth and state.BlockHeight, so that the rest of the function can be
    checked too.  Slices that share memory are not modelled: each row is its own list. *)
From Verif Require Import GoBase Constants Tables Util Frame.

(** wedge_mask.go:21-26 *)
Definition Wedge_Master_Oblique_Odd : list Z := [0; 0; 0; 0; 0; 0; 0; 0; 0; 0; 0; 0; 0; 0; 0; 0; 0; 0; 0; 0; 0; 0; 0; 0; 0; 0; 0; 0; 1; 2; 6; 18; 37; 53; 60; 63; 64; 64; 64; 64; 64; 64; 64; 64; 64; 64; 64; 64; 64; 64; 64; 64; 64; 64; 64; 64; 64; 64; 64; 64; 64; 64; 64; 64].
(** wedge_mask.go:28-33 *)
Definition Wedge_Master_Oblique_Even : list Z := [0; 0; 0; 0; 0; 0; 0; 0; 0; 0; 0; 0; 0; 0; 0; 0; 0; 0; 0; 0; 0; 0; 0; 0; 0; 0; 0; 0; 1; 4; 11; 27; 46; 58; 62; 63; 64; 64; 64; 64; 64; 64; 64; 64; 64; 64; 64; 64; 64; 64; 64; 64; 64; 64; 64; 64; 64; 64; 64; 64; 64; 64; 64; 64].
(** wedge_mask.go:35-40 *)
Definition Wedge_Master_Vertical : list Z := [0; 0; 0; 0; 0; 0; 0; 0; 0; 0; 0; 0; 0; 0; 0; 0; 0; 0; 0; 0; 0; 0; 0; 0; 0; 0; 0; 0; 0; 2; 7; 21; 43; 57; 62; 64; 64; 64; 64; 64; 64; 64; 64; 64; 64; 64; 64; 64; 64; 64; 64; 64; 64; 64; 64; 64; 64; 64; 64; 64; 64; 64; 64; 64].
(** wedge_mask.go:42-73 *)
Definition Wedge_Codebook : list (list (list Z)) :=
  [[[WEDGE_OBLIQUE27; 4; 4]; [WEDGE_OBLIQUE63; 4; 4]; [WEDGE_OBLIQUE117; 4; 4]; [WEDGE_OBLIQUE153; 4; 4]; [WEDGE_HORIZONTAL; 4; 2]; [WEDGE_HORIZONTAL; 4; 4]; [WEDGE_HORIZONTAL; 4; 6]; [WEDGE_VERTICAL; 4; 4]; [WEDGE_OBLIQUE27; 4; 2]; [WEDGE_OBLIQUE27; 4; 6]; [WEDGE_OBLIQUE153; 4; 2]; [WEDGE_OBLIQUE153; 4; 6]; [WEDGE_OBLIQUE63; 2; 4]; [WEDGE_OBLIQUE63; 6; 4]; [WEDGE_OBLIQUE117; 2; 4]; [WEDGE_OBLIQUE117; 6; 4]];
   [[WEDGE_OBLIQUE27; 4; 4]; [WEDGE_OBLIQUE63; 4; 4]; [WEDGE_OBLIQUE117; 4; 4]; [WEDGE_OBLIQUE153; 4; 4]; [WEDGE_VERTICAL; 2; 4]; [WEDGE_VERTICAL; 4; 4]; [WEDGE_VERTICAL; 6; 4]; [WEDGE_HORIZONTAL; 4; 4]; [WEDGE_OBLIQUE27; 4; 2]; [WEDGE_OBLIQUE27; 4; 6]; [WEDGE_OBLIQUE153; 4; 2]; [WEDGE_OBLIQUE153; 4; 6]; [WEDGE_OBLIQUE63; 2; 4]; [WEDGE_OBLIQUE63; 6; 4]; [WEDGE_OBLIQUE117; 2; 4]; [WEDGE_OBLIQUE117; 6; 4]];
   [[WEDGE_OBLIQUE27; 4; 4]; [WEDGE_OBLIQUE63; 4; 4]; [WEDGE_OBLIQUE117; 4; 4]; [WEDGE_OBLIQUE153; 4; 4]; [WEDGE_HORIZONTAL; 4; 2]; [WEDGE_HORIZONTAL; 4; 6]; [WEDGE_VERTICAL; 2; 4]; [WEDGE_VERTICAL; 6; 4]; [WEDGE_OBLIQUE27; 4; 2]; [WEDGE_OBLIQUE27; 4; 6]; [WEDGE_OBLIQUE153; 4; 2]; [WEDGE_OBLIQUE153; 4; 6]; [WEDGE_OBLIQUE63; 2; 4]; [WEDGE_OBLIQUE63; 6; 4]; [WEDGE_OBLIQUE117; 2; 4]; [WEDGE_OBLIQUE117; 6; 4]]].

Definition cube := list (list (list Z)).
Definition wedges := list (list cube).
(** Go's l[a][b][c][d][e] = v *)
Definition upd5 (l : wedges) (a b c d e v : Z) : res wedges :=
  let! x := idx l a in let! y := idx x b in let! z := upd3 y c d e v in let! x' := upd x b z in upd l a x'.
Definition idx5 (l : wedges) (a b c d e : Z) : res Z := let! x := idx l a in let! y := idx x b in idx3 y c d e.

(** wedge_mask.go:82-92 InitialiseWedgeMaskTable, first loop: the masks of WEDGE_OBLIQUE63 and WEDGE_VERTICAL *)
Definition masterSteep (M : cube) : res cube :=
  rfor_to 0 MASK_MASTER_SIZE (fun j M =>
    let! r := rfor_by 0 MASK_MASTER_SIZE 2 (fun i a =>
      let '(shift, M) := a in
      let! v := idx Wedge_Master_Oblique_Even (Clip3 0 (MASK_MASTER_SIZE - 1) (j - shift)) in
      let! M := upd3 M WEDGE_OBLIQUE63 i j v in
      let shift := shift - 1 in
      let! v := idx Wedge_Master_Oblique_Odd (Clip3 0 (MASK_MASTER_SIZE - 1) (j - shift)) in
      let! M := upd3 M WEDGE_OBLIQUE63 (i + 1) j v in
      let! v := idx Wedge_Master_Vertical j in
      let! M := upd3 M WEDGE_VERTICAL i j v in
      let! M := upd3 M WEDGE_VERTICAL (i + 1) j v in
      Ok (shift, M)) (Z.quot MASK_MASTER_SIZE 4, M) in
    Ok (snd r)) M.
(** wedge_mask.go:94-102, second loop: the masks of the other directions from those two *)
Definition masterTurned (M : cube) : res cube :=
  rfor_to 0 MASK_MASTER_SIZE (fun i M => rfor_to 0 MASK_MASTER_SIZE (fun j M =>
    let! msk := idx3 M WEDGE_OBLIQUE63 i j in
    let! M := upd3 M WEDGE_OBLIQUE27 j i msk in
    let! M := upd3 M WEDGE_OBLIQUE117 i (MASK_MASTER_SIZE - 1 - j) (64 - msk) in
    let! M := upd3 M WEDGE_OBLIQUE153 (MASK_MASTER_SIZE - 1 - j) i (64 - msk) in
    let! v := idx3 M WEDGE_VERTICAL i j in
    upd3 M WEDGE_HORIZONTAL j i v) M) M.
(** wedge_mask.go:144-152 blockShape *)
Definition blockShape (bsize : Z) : res Z :=
  let! w4 := idx NUM_4X4_BLOCKS_WIDE bsize in
  let! h4 := idx NUM_4X4_BLOCKS_HIGH bsize in
  Ok (if w4 <? h4 then 0 else if h4 <? w4 then 1 else 2).
(** wedge_mask.go:132-142 getWedgeDirection (field 0), getWedgeXoff (1), getWedgeYoff (2) *)
Definition codebook (bsize index field : Z) : res Z := let! s := blockShape bsize in idx3 Wedge_Codebook s index field.
(** wedge_mask.go:109-126: one wedge of one block size *)
Definition wedgeOne (M : cube) (bsize w h wedge : Z) (W : wedges) : res wedges :=
  let! dir := codebook bsize wedge 0 in
  let! xo := codebook bsize wedge 1 in
  let! yo := codebook bsize wedge 2 in
  let xoff := Z.quot MASK_MASTER_SIZE 2 - shr (xo * w) 3 in
  let yoff := Z.quot MASK_MASTER_SIZE 2 - shr (yo * h) 3 in
  let! sum := rfor_to 0 w (fun i s => let! v := idx3 M dir yoff (xoff + i) in Ok (s + v)) 0 in
  let! sum := rfor_to 0 h (fun i s => let! v := idx3 M dir (yoff + i) xoff in Ok (s + v)) sum in
  if w + h - 1 =? 0 then Panic else
  let avg := Z.quot (sum + Z.quot (w + h - 1) 2) (w + h - 1) in
  let flipSign := avg <? 32 in
  rfor_to 0 h (fun i W => rfor_to 0 w (fun j W =>
    let! v := idx3 M dir (yoff + i) (xoff + j) in
    let! W := upd5 W bsize (int_of flipSign) wedge i j v in
    let! v := idx3 M dir (yoff + i) (xoff + j) in
    upd5 W bsize (int_of (negb flipSign)) wedge i j (64 - v)) W) W.
(** wedge_mask.go:77-130 InitialiseWedgeMaskTable; bw and bh are state.BlockWidth and state.BlockHeight *)
Definition wedgeTable (bw bh : list Z) (M : cube) (W : wedges) : res wedges :=
  let! M := masterSteep M in
  let! M := masterTurned M in
  rfor_to BLOCK_8X8 BLOCK_SIZES (fun bsize W =>
    let! bits := idx Wedge_Bits bsize in
    if 0 <? bits then
      let! w := idx bw bsize in
      let! h := idx bh bsize in
      rfor_to 0 WEDGE_TYPES (fun wedge W => wedgeOne M bsize w h wedge W) W
    else Ok W) W.
