(** Model of internal/tilegroup/tx_size.go:13-156 (all functions).
    InterTxSizes ([64][64]int) and TxSize are arguments and results. *)
From Coq Require Import String.
From Verif Require Import GoBase Bitstream Util Constants Tables Symbol CdfMoves CdfMemory Elements Rect.
Local Open Scope string_scope.
Local Open Scope Z_scope.

(** What is read: headers, the block, and the arrays of earlier blocks *)
Record TEnv := mkTEnv {
  wDisable : bool; wTxMode : Z; wMiRow : Z; wMiCol : Z; wMiSize : Z; wMiRows : Z; wMiCols : Z; wAvailU : bool; wAvailL : bool; wIsInter : Z; wSkip : Z; wLossless : bool;
  wIsInters : list (list Z); wSkips : list (list Z); wMiSizes : list (list Z) }.
(** tx_size.go:97-106 getAboveTxWidth *)
Definition getAboveTxWidth (e : TEnv) (its : list (list Z)) (row col : Z) : res Z :=
  let! early := if row =? wMiRow e then
      if negb (wAvailU e) then Ok (Some 64)
      else
        let! s := idx2 (wSkips e) (row - 1) col in
        let! both := if bool_of s then let! i := idx2 (wIsInters e) (row - 1) col in Ok (bool_of i) else Ok false in
        if (both : bool) then let! b := idx2 (wMiSizes e) (row - 1) col in let! w := idx BLOCK_WIDTH b in Ok (Some w) else Ok None
    else Ok None in
  match early with
  | Some w => Ok w
  | None => let! t := idx2 its (row - 1) col in idx Tx_Width t
  end.
(** tx_size.go:108-117 getLeftTxHeight (sic: row is compared with MiCol) *)
Definition getLeftTxHeight (e : TEnv) (its : list (list Z)) (row col : Z) : res Z :=
  let! early := if row =? wMiCol e then
      if negb (wAvailL e) then Ok (Some 64)
      else
        let! s := idx2 (wSkips e) row (col - 1) in
        let! both := if bool_of s then let! i := idx2 (wIsInters e) row (col - 1) in Ok (bool_of i) else Ok false in
        if (both : bool) then let! b := idx2 (wMiSizes e) row (col - 1) in let! h := idx BLOCK_HEIGHT b in Ok (Some h) else Ok None
    else Ok None in
  match early with
  | Some h => Ok h
  | None => let! t := idx2 its row (col - 1) in idx Tx_Height t
  end.
(** tx_size.go:66-71 *)
Definition aboveWidth (e : TEnv) (its : list (list Z)) : res Z :=
  let! inter := if wAvailU e then let! i := idx2 (wIsInters e) (wMiRow e - 1) (wMiCol e) in Ok (bool_of i) else Ok false in
  if (inter : bool) then let! b := idx2 (wMiSizes e) (wMiRow e - 1) (wMiCol e) in idx BLOCK_WIDTH b
  else if wAvailU e then getAboveTxWidth e its (wMiRow e) (wMiCol e) else Ok 0.
(** tx_size.go:74-81 (sic: the second test is of AvailU) *)
Definition leftHeight (e : TEnv) (its : list (list Z)) : res Z :=
  let! inter := if wAvailL e then let! i := idx2 (wIsInters e) (wMiRow e) (wMiCol e - 1) in Ok (bool_of i) else Ok false in
  if (inter : bool) then let! b := idx2 (wMiSizes e) (wMiRow e) (wMiCol e - 1) in idx BLOCK_HEIGHT b
  else if wAvailU e then getLeftTxHeight e its (wMiRow e) (wMiCol e) else Ok 0.
(** tx_size.go:61-95 txDepthSymbol *)
Definition txDepthSymbol (e : TEnv) (its : list (list Z)) (maxRect maxDepth : Z) : M ES Z :=
  let* mw := lift (idx Tx_Width maxRect) in
  let* mh := lift (idx Tx_Height maxRect) in
  let* aw := lift (aboveWidth e its) in
  let* lh := lift (leftHeight e its) in
  let ctx := int_of (mw <=? aw) + int_of (mh <=? lh) in
  if maxDepth =? 4 then esym (wDisable e) "Tx64x64Cdf" [ctx]
  else if maxDepth =? 3 then esym (wDisable e) "Tx32x32Cdf" [ctx]
  else if maxDepth =? 2 then esym (wDisable e) "Tx16x16Cdf" [ctx]
  else esym (wDisable e) "Tx8x8Cdf" [ctx].
(** tx_size.go:43-59 readTxSize: t.TxSize *)
Definition readTxSize (e : TEnv) (its : list (list Z)) (allowSelect : bool) : M ES Z :=
  if wLossless e then ret TX_4X4
  else
    let* maxRect := lift (idx Max_Tx_Size_Rect (wMiSize e)) in
    let* maxDepth := lift (idx Max_Tx_Depth (wMiSize e)) in
    if (BLOCK_4X4 <? wMiSize e) && allowSelect && (wTxMode e =? TX_MODE_SELECT) then
      let* d := txDepthSymbol e its maxRect maxDepth in
      lift (rfor_to 0 d (fun _ t => idx Split_Tx_Size t) maxRect)
    else ret maxRect.
(** tx_size.go:120-156 readVarTxSize (sic: column col+i); InterTxSizes and TxSize.  Each level reads the split flag with b.S(); the fuel covers depths 0, 1 and 2. *)
Fixpoint readVarTxSize (fuel : nat) (e : TEnv) (row col txSz depth : Z) (st : list (list Z) * Z) : M ES (list (list Z) * Z) :=
  match fuel with
  | O => hang
  | S fuel =>
    if (wMiRows e <=? row) || (wMiCols e <=? col) then ret st
    else
      let* split := if (txSz =? TX_4X4) || (depth =? 2) then ret 0 else bS in
      let* w := lift (idx Tx_Width txSz) in
      let* h := lift (idx Tx_Height txSz) in
      let w4 := Z.quot w 4 in let h4 := Z.quot h 4 in
      if bool_of split then
        let* sub := lift (idx Split_Tx_Size txSz) in
        let* sw := lift (idx Tx_Width sub) in
        let* sh := lift (idx Tx_Height sub) in
        for_to 0 (h4 / (sh / 4)) (fun i st => for_to 0 (w4 / (sw / 4)) (fun j st => readVarTxSize fuel e (row + i * (sh / 4)) (col + j * (sw / 4)) sub (depth + 1) st) st) st
      else
        let* its := lift (rfor_to 0 h4 (fun i g => rfor_to 0 w4 (fun _ g => upd2 g (row + i) (col + i) txSz) g) (fst st)) in
        ret (its, txSz)
  end.
(** tx_size.go:13-40 readBlockTxSize (sic: allowSelect) *)
Definition readBlockTxSize (e : TEnv) (its : list (list Z)) (tx : Z) : M ES (list (list Z) * Z) :=
  let* bw4 := lift (idx NUM_4X4_BLOCKS_WIDE (wMiSize e)) in
  let* bh4 := lift (idx NUM_4X4_BLOCKS_HIGH (wMiSize e)) in
  if (wTxMode e =? TX_MODE_SELECT) && (BLOCK_4X4 <? wMiSize e) && bool_of (wIsInter e) && negb (bool_of (wSkip e)) && negb (wLossless e) then
    let* m := lift (idx Max_Tx_Size_Rect (wMiSize e)) in
    let* w := lift (idx Tx_Width m) in
    let* h := lift (idx Tx_Height m) in
    for_to 0 (bh4 / (h / 4)) (fun i st => for_to 0 (bw4 / (w / 4)) (fun j st => readVarTxSize 3 e (wMiRow e + i * (h / 4)) (wMiCol e + j * (w / 4)) m 0 st) st) (its, tx)
  else
    let* tx := readTxSize e its (negb (bool_of (wSkip e)) || bool_of (wIsInter e)) in
    let* its := lift (rectFill (wMiRow e) (wMiRow e + bh4) (wMiCol e) (wMiCol e + bw4) tx its) in
    ret (its, tx).
