(** Model of internal/tilegroup/coeffs.go:15-786: the coefficients of one transform block.
    The CDF tables of the tile are named trees (the tables have distinct homes, see CdfMemory.v); symbols are read from the arithmetic decoder of Symbol.v.
    Simplification: integers are exact except in shifts and in the Golomb value, which wrap at 64 bits. *)
From Coq Require Import String.
From Verif Require Import GoBase Bitstream Util Constants Tables Frame Symbol CdfMoves CdfMemory LoopFilter.

(** What the functions read. cSegQ: uh.GetQIndex(1, SegmentId, state) (modelled in UncompressedHeader.v). *)
Record CEnv := mkCEnv {
  cMiRow : Z; cMiCol : Z; cMiRows : Z; cMiCols : Z; cMiSize : Z; cSubX : bool; cSubY : bool; cDisable : bool;
  cBaseQIdx : Z; cSegEnabled : bool; cSegQ : Z; cReduced : bool; cLossless : bool; cIsInter : Z;
  cYMode : Z; cUVMode : Z; cUseFilterIntra : bool; cFilterIntraMode : Z }.
(** What they read and write. *)
Record CS := mkCS {
  cDec : dec; cCdf : string -> tree; cQuant : list Z; cDequant : list (list Z); cTxTypes : list (list Z); cTxType : Z; cPlaneTxType : Z;
  cAboveL : list (list Z); cAboveD : list (list Z); cLeftL : list (list Z); cLeftD : list (list Z) }.
Definition set_dec (s : CS) (d : dec) (h : string -> tree) : CS :=
  mkCS d h (cQuant s) (cDequant s) (cTxTypes s) (cTxType s) (cPlaneTxType s) (cAboveL s) (cAboveD s) (cLeftL s) (cLeftD s).
Definition set_quant (s : CS) (q : list Z) : CS :=
  mkCS (cDec s) (cCdf s) q (cDequant s) (cTxTypes s) (cTxType s) (cPlaneTxType s) (cAboveL s) (cAboveD s) (cLeftL s) (cLeftD s).
Definition set_types (s : CS) (t : list (list Z)) (ty : Z) : CS :=
  mkCS (cDec s) (cCdf s) (cQuant s) (cDequant s) t ty (cPlaneTxType s) (cAboveL s) (cAboveD s) (cLeftL s) (cLeftD s).
Definition set_planeType (s : CS) (ty : Z) : CS :=
  mkCS (cDec s) (cCdf s) (cQuant s) (cDequant s) (cTxTypes s) (cTxType s) ty (cAboveL s) (cAboveD s) (cLeftL s) (cLeftD s).
Definition set_clear (s : CS) (q : list Z) (d : list (list Z)) : CS :=
  mkCS (cDec s) (cCdf s) q d (cTxTypes s) (cTxType s) (cPlaneTxType s) (cAboveL s) (cAboveD s) (cLeftL s) (cLeftD s).
Definition set_ctx (s : CS) (al ad ll ld : list (list Z)) : CS :=
  mkCS (cDec s) (cCdf s) (cQuant s) (cDequant s) (cTxTypes s) (cTxType s) (cPlaneTxType s) al ad ll ld.

(** symbol.ReadSymbol(state.<name>[path[0]][path[1]].., state, b, uh): the CDF is changed in place *)
Definition sym (dis : bool) (name : string) (path : list Z) : M CS Z := fun s =>
  let! c := tget (cCdf s name) path in
  let! r := ReadSymbol dis c (cDec s) in
  let! t := tput (cCdf s name) path (snd (fst r)) in
  Ok (fst (fst r), set_dec s (snd r) (hset (cCdf s) name t)).
(** literal.L(n, state, b, uh) *)
Definition lit (dis : bool) (n : Z) : M CS Z := fun s => let! r := L dis n (cDec s) in Ok (fst r, set_dec s (snd r) (cCdf s)).

(** coeffs.go:762-786 getTxSet *)
Definition getTxSet (e : CEnv) (txSz : Z) : res Z :=
  let! sqr := idx TX_SIZE_SQR txSz in
  let! up := idx TX_SIZE_SQR_UP txSz in
  Ok (if TX_32X32 <? up then TX_SET_DCTONLY
      else if bool_of (cIsInter e) then if cReduced e || (up =? TX_32X32) then TX_SET_INTER_3 else if sqr =? TX_16X16 then TX_SET_INTER_2 else TX_SET_INTER_1
      else if up =? TX_32X32 then TX_SET_DCTONLY else if cReduced e then TX_SET_INTRA_2 else if sqr =? TX_16X16 then TX_SET_INTRA_2 else TX_SET_INTRA_1).
(** coeffs.go:685-691 isTxTypeInSet *)
Definition isTxTypeInSet (e : CEnv) (txSet txType : Z) : res bool :=
  let! v := idx2 (if bool_of (cIsInter e) then Tx_Type_In_Set_Inter else Tx_Type_In_Set_Intra) txSet txType in Ok (bool_of v).
(** coeffs.go:626-655 computeTxType *)
Definition computeTxType (e : CEnv) (plane txSz blockX blockY : Z) (types : list (list Z)) : res Z :=
  let! up := idx TX_SIZE_SQR_UP txSz in
  if cLossless e || (TX_32X32 <? up) then Ok DCT_DCT
  else
    let! txSet := getTxSet e txSz in
    if plane =? 0 then idx2 types blockY blockX
    else
      let! txType := if bool_of (cIsInter e) then idx2 types (Max (cMiRow e) (shl blockY (int_of (cSubY e)))) (Max (cMiCol e) (shl blockX (int_of (cSubX e)))) else idx Mode_To_Txfm (cUVMode e) in
      let! b := isTxTypeInSet e txSet txType in Ok (if (b : bool) then txType else DCT_DCT).
(** coeffs.go:410-424 getTxClass *)
Definition getTxClass (txType : Z) : Z :=
  if (txType =? V_DCT) || (txType =? V_ADST) || (txType =? V_FLIPADST) then TX_CLASS_VERT
  else if (txType =? H_DCT) || (txType =? H_ADST) || (txType =? H_FLIPADST) then TX_CLASS_HORIZ else TX_CLASS_2D.

(** coeffs.go:533-605: the scan tables *)
Definition getMColScan (t : Z) : list Z :=
  if t =? TX_4X4 then Mcol_Scan_4x4 else if t =? TX_4X8 then Mcol_Scan_4x8 else if t =? TX_8X4 then Mcol_Scan_8x4 else if t =? TX_8X8 then Mcol_Scan_8x8
  else if t =? TX_8X16 then Mcol_Scan_8x16 else if t =? TX_16X8 then Mcol_Scan_16x8 else if t =? TX_16X16 then Mcol_Scan_16x16 else if t =? TX_4X16 then Mcol_Scan_4x16 else Mcol_Scan_16x4.
Definition getMrowScan (t : Z) : list Z :=
  if t =? TX_4X4 then Mrow_Scan_4x4 else if t =? TX_4X8 then Mrow_Scan_4x8 else if t =? TX_8X4 then Mrow_Scan_8x4 else if t =? TX_8X8 then Mrow_Scan_8x8
  else if t =? TX_8X16 then Mrow_Scan_8x16 else if t =? TX_16X8 then Mrow_Scan_16x8 else if t =? TX_16X16 then Mrow_Scan_16x16 else if t =? TX_4X16 then Mrow_Scan_4x16 else Mrow_Scan_16x4.
Definition getDefaultScan (t : Z) : list Z :=
  if t =? TX_4X4 then Default_Scan_4x4 else if t =? TX_4X8 then Default_Scan_4x8 else if t =? TX_8X4 then Default_Scan_8x4 else if t =? TX_8X8 then Default_Scan_8x8
  else if t =? TX_8X16 then Default_Scan_8x16 else if t =? TX_16X8 then Default_Scan_16x8 else if t =? TX_16X16 then Default_Scan_16x16 else if t =? TX_16X32 then Default_Scan_16x32
  else if t =? TX_32X16 then Default_Scan_32x16 else if t =? TX_4X16 then Default_Scan_4x16 else if t =? TX_16X4 then Default_Scan_16x4 else if t =? TX_8X32 then Default_Scan_8x32
  else if t =? TX_32X8 then Default_Scan_32x8 else Default_Scan_32x32.
(** coeffs.go:498-530 getScan (sic: 64x16 blocks get the scan of 16x32 blocks) *)
Definition getScan (txSz planeTxType : Z) : res (list Z) :=
  if txSz =? TX_16X64 then Ok Default_Scan_16x32 else if txSz =? TX_64X16 then Ok Default_Scan_16x32
  else
    let! up := idx TX_SIZE_SQR_UP txSz in
    Ok (if up =? TX_64X64 then Default_Scan_32x32 else if planeTxType =? IDTX then getDefaultScan txSz
        else if (planeTxType =? V_DCT) || (planeTxType =? V_ADST) || (planeTxType =? V_FLIPADST) then getMrowScan txSz
        else if (planeTxType =? H_DCT) || (planeTxType =? H_ADST) || (planeTxType =? H_FLIPADST) then getMColScan txSz else getDefaultScan txSz).

(** coeffs.go:427-433 and 201-206: the limits of the plane in units of 4 samples *)
Definition maxX4 (e : CEnv) (plane : Z) : Z := if 0 <? plane then shr (cMiCols e) (int_of (cSubX e)) else cMiCols e.
Definition maxY4 (e : CEnv) (plane : Z) : Z := if 0 <? plane then shr (cMiRows e) (int_of (cSubY e)) else cMiRows e.
(** coeffs.go:426-492 allZeroSymbol: the context *)
Definition allZeroCtx (e : CEnv) (plane txSz w4 h4 x4 y4 : Z) (s : CS) : res Z :=
  let mx := maxX4 e plane in let my := maxY4 e plane in
  let! w := idx Tx_Width txSz in
  let! h := idx Tx_Height txSz in
  let! bsize := getPlaneResidualSize (cSubX e) (cSubY e) (cMiSize e) plane in
  let! bw := idx BLOCK_WIDTH bsize in
  let! bh := idx BLOCK_HEIGHT bsize in
  if plane =? 0 then
    let! top := rfor_to 0 w4 (fun k top => if x4 + k <? mx then let! v := idx2 (cAboveL s) plane (x4 + k) in Ok (Max top v) else Ok top) 0 in
    let! left := rfor_to 0 h4 (fun k left => if y4 + k <? my then let! v := idx2 (cLeftL s) plane (y4 + k) in Ok (Max left v) else Ok left) 0 in
    let top := Min top 255 in let left := Min left 255 in
    Ok (if (bw =? w) && (bh =? h) then 0 else if (top =? 0) && (left =? 0) then 1 else if (top =? 0) || (left =? 0) then 2 + int_of (3 <? Max top left)
        else if Max top left <=? 3 then 4 else if Min top left <=? 3 then 5 else 6)
  else
    let! above := rfor_to 0 w4 (fun i a => if x4 + i <? mx then let! v := idx2 (cAboveL s) plane (x4 + i) in let! d := idx2 (cAboveD s) plane (x4 + i) in Ok (Z.lor (Z.lor a v) d) else Ok a) 0 in
    let! left := rfor_to 0 h4 (fun i a => if y4 + i <? my then let! v := idx2 (cLeftL s) plane (y4 + i) in let! d := idx2 (cLeftD s) plane (y4 + i) in Ok (Z.lor (Z.lor a v) d) else Ok a) 0 in
    let ctx := int_of (negb (above =? 0)) + int_of (negb (left =? 0)) + 7 in
    Ok (if w * h <? bw * bh then ctx + 3 else ctx).
(** coeffs.go:208-228: one neighbour's DC sign *)
Definition addSign (v sign : Z) : Z := if v =? 1 then sign - 1 else if v =? 2 then sign + 1 else sign.
(** coeffs.go:200-241 readDcSignSymbol: the context *)
Definition dcSignCtx (e : CEnv) (plane w4 h4 x4 y4 : Z) (s : CS) : res Z :=
  let! a := rfor_to 0 w4 (fun k d => if x4 + k <? maxX4 e plane then let! v := idx2 (cAboveD s) plane (x4 + k) in Ok (addSign v d) else Ok d) 0 in
  let! a := rfor_to 0 h4 (fun k d => if y4 + k <? maxY4 e plane then let! v := idx2 (cLeftD s) plane (y4 + k) in Ok (addSign v d) else Ok d) a in
  Ok (if a <? 0 then 1 else if 0 <? a then 2 else 0).
(** coeffs.go:243-296 readCoeffBrSymbol: the context *)
Definition coeffBrCtx (e : CEnv) (txSz pos plane x4 y4 : Z) (s : CS) : res Z :=
  let! adj := idx ADJUSTED_TX_SIZE txSz in
  let! bwl := idx TX_WIDTH_LOG2 adj in
  let! txw := idx Tx_Width adj in
  let! txh := idx Tx_Height adj in
  let row := shr pos bwl in let col := pos - shl row bwl in
  let! txType := computeTxType e plane txSz x4 y4 (cTxTypes s) in
  let txClass := getTxClass txType in
  let! mag := rfor_to 0 3 (fun i mag =>
    let! dr := idx3 MAG_REF_OFFSET_WITH_TX_CLASS txClass i 0 in
    let! dc := idx3 MAG_REF_OFFSET_WITH_TX_CLASS txClass i 1 in
    let r := row + dr in let c := col + dc in
    if (0 <=? r) && (0 <=? c) && (r <? txh) && (c <? shl 1 bwl) then let! q := idx (cQuant s) (r * txw + c) in Ok (mag + Min q (COEFF_BASE_RANGE + NUM_BASE_LEVELS + 1)) else Ok mag) 0 in
  let mag := Min (shr (mag + 1) 1) 6 in
  Ok (if pos =? 0 then mag else if txClass =? 0 then if (row <? 2) && (col <? 2) then mag + 7 else mag + 14
      else if txClass =? 1 then if col =? 0 then mag + 7 else mag + 14 else if row =? 0 then mag + 7 else mag + 14).
(** coeffs.go:337-394 getCoeffBaseCtx *)
Definition coeffBaseCtx (e : CEnv) (txSz plane blockX blockY pos c : Z) (isEob : bool) (s : CS) : res Z :=
  let! adj := idx ADJUSTED_TX_SIZE txSz in
  let! bwl := idx TX_WIDTH_LOG2 adj in
  let width := shl 1 bwl in
  let! height := idx Tx_Height adj in
  let! txType := computeTxType e plane txSz blockX blockY (cTxTypes s) in
  if isEob then
    Ok (if c =? 0 then SIG_COEF_CONTEXTS - 4 else if c <=? Z.quot (shl height bwl) 8 then SIG_COEF_CONTEXTS - 3 else if c <=? Z.quot (shl height bwl) 4 then SIG_COEF_CONTEXTS - 2 else SIG_COEF_CONTEXTS - 1)
  else
    let txClass := getTxClass txType in
    let row := shr pos bwl in let col := pos - shl row bwl in
    let! mag := rfor_to 0 SIG_REF_DIFF_OFFSET_NUM (fun i mag =>
      let! dr := idx3 SIG_REF_DIFF_OFFSET txClass i 0 in
      let! dc := idx3 SIG_REF_DIFF_OFFSET txClass i 1 in
      let r := row + dr in let k := col + dc in
      if (0 <=? r) && (0 <=? k) && (r <? height) && (k <? width) then let! q := idx (cQuant s) (shl r bwl + k) in Ok (mag + Min (Abs q) 3) else Ok mag) 0 in
    let ctx := Min (shr (mag + 1) 1) 4 in
    if txClass =? TX_CLASS_2D then
      if (row =? 0) && (col =? 0) then Ok 0 else let! o := idx3 COEFF_BASE_CTX_OFFSET txSz (Min row 4) (Min col 4) in Ok (ctx + o)
    else let! o := idx COEFF_BASE_POS_CTX_OFFSET (Min (if txClass =? TX_CLASS_VERT then row else col) 2) in Ok (ctx + o).
(** coeffs.go:396-403 getEobPtCtx *)
Definition eobPtCtx (e : CEnv) (plane txSz x4 y4 : Z) (s : CS) : res Z :=
  let! t := computeTxType e plane txSz x4 y4 (cTxTypes s) in Ok (if getTxClass t =? TX_CLASS_2D then 0 else 1).

(** TxTypes[y4+j][x4+i] = v for the whole block: coeffs.go:44-48, 733-737 *)
Definition fillTypes (w4 h4 x4 y4 v : Z) (t : list (list Z)) : res (list (list Z)) :=
  rfor_to 0 w4 (fun i t => rfor_to 0 h4 (fun j t => upd2 t (y4 + j) (x4 + i) v) t) t.
(** coeffs.go:740-755 intraTxTypeSymbol *)
Definition intraTxTypeSymbol (e : CEnv) (set txSz : Z) : M CS Z :=
  let* dir := if cUseFilterIntra e then lift (idx FILTER_INTRA_MODE_TO_INTRA_DIR (cFilterIntraMode e)) else ret (cYMode e) in
  if set =? TX_SET_INTRA_1 then let* k := lift (idx TX_SIZE_SQR txSz) in sym (cDisable e) "IntraTxTypeSet1Cdf" [k; dir]
  else if set =? TX_SET_INTRA_2 then let* k := lift (idx TX_SIZE_SQR txSz) in sym (cDisable e) "IntraTxTypeSet2Cdf" [k; dir]
  else panic.
(** coeffs.go:701-731: the transform type that is read *)
Definition readTxType (e : CEnv) (set txSz : Z) : M CS Z :=
  if bool_of (cIsInter e) then
    let* v := if set =? TX_SET_INTER_1 then let* k := lift (idx TX_SIZE_SQR txSz) in sym (cDisable e) "InterTxTypeSet1Cdf" [k]
      else if set =? TX_SET_INTER_2 then sym (cDisable e) "InterTxTypeSet2Cdf" []
      else if set =? TX_SET_INTER_3 then let* k := lift (idx TX_SIZE_SQR txSz) in sym (cDisable e) "InterTxTypeSet3Cdf" [k] else ret 0 in
    lift (idx (if set =? TX_SET_INTER_1 then Tx_Type_Inter_Inv_Set1 else if set =? TX_SET_INTER_2 then Tx_Type_Inter_Inv_Set2 else Tx_Type_Inter_Inv_Set3) v)
  else
    let* v := intraTxTypeSymbol e set txSz in
    lift (idx (if set =? TX_SET_INTRA_1 then Tx_Type_Intra_Inv_Set1 else Tx_Type_Intra_Inv_Set2) v).
(** coeffs.go:694-738 transformType *)
Definition transformType (e : CEnv) (x4 y4 txSz : Z) : M CS unit :=
  let* set := lift (getTxSet e txSz) in
  let qIndex := if cSegEnabled e then cSegQ e else cBaseQIdx e in
  let* ty := if (0 <? set) && (0 <? qIndex) then readTxType e set txSz else ret DCT_DCT in
  let* w := lift (idx Tx_Width txSz) in
  let* h := lift (idx Tx_Height txSz) in
  let* s := get in
  let* t := lift (fillTypes (shr w 2) (shr h 2) x4 y4 ty (cTxTypes s)) in
  put (set_types s t ty).

(** coeffs.go:60-91: eobPt *)
Definition readEobPt (e : CEnv) (plane txSz x4 y4 ptype eobMultisize : Z) : M CS Z :=
  let* s := get in
  let* v :=
    if eobMultisize =? 0 then let* ctx := lift (eobPtCtx e plane txSz x4 y4 s) in sym (cDisable e) "EobPt16Cdf" [ptype; ctx]
    else if eobMultisize =? 1 then let* ctx := lift (eobPtCtx e plane txSz x4 y4 s) in sym (cDisable e) "EobPt32Cdf" [ptype; ctx]
    else if eobMultisize =? 2 then let* ctx := lift (eobPtCtx e plane txSz x4 y4 s) in sym (cDisable e) "EobPt64Cdf" [ptype; ctx]
    else if eobMultisize =? 3 then let* ctx := lift (eobPtCtx e plane txSz x4 y4 s) in sym (cDisable e) "EobPt128Cdf" [ptype; ctx]
    else if eobMultisize =? 4 then let* ctx := lift (eobPtCtx e plane txSz x4 y4 s) in sym (cDisable e) "EobPt256Cdf" [ptype; ctx]
    else if eobMultisize =? 5 then sym (cDisable e) "EobPt512Cdf" [ptype]
    else sym (cDisable e) "EobPt1024Cdf" [ptype] in
  ret (v + 1).
(** coeffs.go:93-114: the inner eob *)
Definition readEob (e : CEnv) (txSzCtx ptype eobPt : Z) : M CS Z :=
  let eob := if eobPt <? 2 then eobPt else shl 1 (eobPt - 2) + 1 in
  let eobShift := Max (-1) (eobPt - 3) in
  if 0 <=? eobShift then
    let* x := sym (cDisable e) "EobExtraCdf" [txSzCtx; ptype; eobPt - 3] in
    let eob := if bool_of x then eob + shl 1 eobShift else eob in
    for_to 1 (Max 0 (eobPt - 2)) (fun i eob =>
      let eobShift := Max 0 (eobPt - 2) - 1 - i in
      let* b := lit (cDisable e) 1 in ret (if bool_of b then eob + shl 1 eobShift else eob)) eob
  else ret eob.
(** coeffs.go:133-139: at most four increments of the level; the loop ends early when one is below 3 *)
Fixpoint readBr (n : nat) (e : CEnv) (txSz pos plane x4 y4 txSzCtx ptype level : Z) : M CS Z :=
  match n with
  | O => ret level
  | S n' =>
      let* s := get in
      let* ctx := lift (coeffBrCtx e txSz pos plane x4 y4 s) in
      let* v := sym (cDisable e) "CoeffBrCdf" [Min txSzCtx TX_32X32; ptype; ctx] in
      if v <? BR_CDF_SIZE - 1 then ret (level + v) else readBr n' e txSz pos plane x4 y4 txSzCtx ptype (level + v)
  end.
(** t.Quant[pos] = v *)
Definition setQuant (pos v : Z) : M CS unit := let* s := get in let* q := lift (upd (cQuant s) pos v) in put (set_quant s q).
(** coeffs.go:116-142: the level of coefficient c *)
Definition readLevel (e : CEnv) (plane txSz x4 y4 txSzCtx ptype eob : Z) (scan : list Z) (c : Z) : M CS unit :=
  let* pos := lift (idx scan c) in
  let* s := get in
  let* level :=
    if c =? eob - 1 then
      let* ctx := lift (coeffBaseCtx e txSz plane x4 y4 pos c true s) in
      let* v := sym (cDisable e) "CoeffBaseEobCdf" [txSzCtx; ptype; ctx - SIG_COEF_CONTEXTS + SIG_COEF_CONTEXTS_EOB] in ret (v + 1)
    else
      let* ctx := lift (coeffBaseCtx e txSz plane x4 y4 pos c false s) in
      sym (cDisable e) "CoeffBaseCdf" [txSzCtx; ptype; ctx] in
  let* level := if NUM_BASE_LEVELS <? level then readBr (Z.to_nat (Z.quot COEFF_BASE_RANGE (BR_CDF_SIZE - 1))) e txSz pos plane x4 y4 txSzCtx ptype level else ret level in
  setQuant pos level.
(** coeffs.go:159-167: number of bits up to the first 1 (unbounded loop: fuel) *)
Fixpoint golombLength (fuel : nat) (dis : bool) (length : Z) : M CS Z :=
  match fuel with
  | O => hang
  | S f => let* b := lit dis 1 in if bool_of b then ret (length + 1) else golombLength f dis (length + 1)
  end.
(** coeffs.go:168-173 *)
Definition golombData (dis : bool) (length : Z) : M CS Z :=
  for_to 0 (length - 1) (fun _ x => let* b := lit dis 1 in ret (Z.lor (shl x 1) b)) 1.
(** coeffs.go:143-191: sign and remainder of coefficient c; (culLevel, dcCategory) (sic: signs other than that of the first are L(0), which reads nothing) *)
Definition readSign (fuel : nat) (e : CEnv) (plane w4 h4 x4 y4 ptype : Z) (scan : list Z) (c : Z) (acc : Z * Z) : M CS (Z * Z) :=
  let* pos := lift (idx scan c) in
  let* s := get in
  let* q := lift (idx (cQuant s) pos) in
  let* sign := if negb (q =? 0) then
      if c =? 0 then let* ctx := lift (dcSignCtx e plane w4 h4 x4 y4 s) in sym (cDisable e) "DcSignCdf" [ptype; ctx] else lit (cDisable e) 0
    else ret 0 in
  let* q := if NUM_BASE_LEVELS + COEFF_BASE_RANGE <? q then
      let* length := golombLength fuel (cDisable e) 0 in
      let* x := golombData (cDisable e) length in ret (i64 (x + COEFF_BASE_RANGE + NUM_BASE_LEVELS))
    else ret q in
  let dcCategory := if (pos =? 0) && (0 <? q) then if bool_of sign then 1 else 2 else snd acc in
  let q := Z.land q 65535 in
  setQuant pos (if bool_of sign then - q else q) ;;
  ret (fst acc + q, dcCategory).

(** coeffs.go:23-37: the clearing of Quant and Dequant *)
Definition clearQuant (segEob : Z) (s : CS) : res CS :=
  let! q := rfor_to 0 segEob (fun c q => upd q c 0) (cQuant s) in
  let! d := rfor_to 0 64 (fun i d => rfor_to 0 64 (fun j d => upd2 d i j 0) d) (cDequant s) in
  Ok (set_clear s q d).
(** coeffs.go:40-193: from all_zero to the levels; (culLevel, dcCategory) *)
Definition readBlock (fuel : nat) (e : CEnv) (plane x4 y4 txSz w4 h4 txSzCtx ptype : Z) : M CS (Z * Z) :=
  let* s := get in
  let* ctx := lift (allZeroCtx e plane txSz w4 h4 x4 y4 s) in
  let* allZero := sym (cDisable e) "TxbSkipCdf" [txSzCtx; ctx] in
  if bool_of allZero then
    (if plane =? 0 then let* s := get in let* t := lift (fillTypes w4 h4 x4 y4 DCT_DCT (cTxTypes s)) in put (set_types s t (cTxType s)) else ret tt) ;;
    ret (0, 0)
  else
    (if plane =? 0 then transformType e x4 y4 txSz else ret tt) ;;
    let* s := get in
    let* ty := lift (computeTxType e plane txSz x4 y4 (cTxTypes s)) in
    put (set_planeType s ty) ;;
    let* scan := lift (getScan txSz ty) in
    let* wl := lift (idx TX_WIDTH_LOG2 txSz) in
    let* hl := lift (idx TX_HEIGHT_LOG2 txSz) in
    let* eobPt := readEobPt e plane txSz x4 y4 ptype (Min wl 5 + Min hl 5 - 4) in
    let* eob := readEob e txSzCtx ptype eobPt in
    for_to 0 eob (fun k _ => readLevel e plane txSz x4 y4 txSzCtx ptype eob scan (eob - 1 - k)) tt ;;
    let* r := for_to 0 eob (fun c acc => readSign fuel e plane w4 h4 x4 y4 ptype scan c acc) (0, 0) in
    ret (Min 63 (fst r), snd r).
(** coeffs.go:195-202: the contexts left for the neighbours *)
Definition leaveCtx (plane x4 y4 w4 h4 culLevel dcCategory : Z) (s : CS) : res CS :=
  let! a := rfor_to 0 w4 (fun i a => let! l := upd2 (fst a) plane (x4 + i) culLevel in let! d := upd2 (snd a) plane (x4 + i) dcCategory in Ok (l, d)) (cAboveL s, cAboveD s) in
  let! b := rfor_to 0 h4 (fun i a => let! l := upd2 (fst a) plane (y4 + i) culLevel in let! d := upd2 (snd a) plane (y4 + i) dcCategory in Ok (l, d)) (cLeftL s, cLeftD s) in
  Ok (set_ctx s (fst a) (snd a) (fst b) (snd b)).
(** coeffs.go:15-197 coeffs (sic: returns the outer eob, which is never assigned) *)
Definition coeffs (fuel : nat) (e : CEnv) (plane startX startY txSz : Z) : M CS Z :=
  let x4 := shr startX 2 in let y4 := shr startY 2 in
  let* w := lift (idx Tx_Width txSz) in
  let* h := lift (idx Tx_Height txSz) in
  let w4 := shr w 2 in let h4 := shr h 2 in
  let* sqr := lift (idx TX_SIZE_SQR txSz) in
  let* up := lift (idx TX_SIZE_SQR_UP txSz) in
  let txSzCtx := shr (sqr + up + 1) 1 in
  let ptype := int_of (0 <? plane) in
  let segEob := if (txSz =? TX_16X64) || (txSz =? TX_64X16) then 512 else Min 1024 (w * h) in
  let* s := get in
  let* s := lift (clearQuant segEob s) in
  put s ;;
  let* r := readBlock fuel e plane x4 y4 txSz w4 h4 txSzCtx ptype in
  let* s := get in
  let* s := lift (leaveCtx plane x4 y4 w4 h4 (fst r) (snd r) s) in
  put s ;;
  ret 0.
