(** Model of internal/tilegroup/find_mv_stack.go (whole file) and util.go:9-14 (isInside).
    A motion vector [2]int is a pair (row, column); the pairs of the two lists are again a pair.
    Simplification: integers are exact except in shifts and Abs (no 64-bit wrap-around of sums). *)
From Verif Require Import GoBase Bitstream Util Constants Tables Frame.

Definition mv := (Z * Z)%type.
Definition mvs := (mv * mv)%type.
Definition mv_eqb (a b : mv) : bool := (fst a =? fst b) && (snd a =? snd b).
(** x[list] for list = 0, 1 *)
Definition sel {A} (list : Z) (p : A * A) : A := if list =? 0 then fst p else snd p.

(** What the search reads: position and size of the block, tile and frame limits, the neighbours' modes, the header. *)
Record MvEnv := mkMvEnv {
  vMiRow : Z; vMiCol : Z; vMiSize : Z; vMiRows : Z; vMiCols : Z;
  vRowStart : Z; vRowEnd : Z; vColStart : Z; vColEnd : Z;
  vMiSizes : list (list Z); vRefFrames : list (list (Z * Z)); vRefFrame : Z * Z;
  vIsInters : list (list Z); vYModes : list (list Z); vMvs : list (list mvs);
  vGmType : list Z; vGmParams : list (list Z); vHigh : bool; vInt : bool; vUseRefMvs : bool; vSignBias : list bool;
  vMotionField : list (list (list mv)) }.
(** What it writes. *)
Record Mst := mkMst {
  sNum : Z; sNew : Z; sFound : Z; sTotal : Z; sClose : Z; sZero : Z; sNewCtx : Z; sRefCtx : Z;
  sGlobal : mvs; sStack : list mvs; sWeight : list Z; sDrl : list Z }.

(** util.go:9-14 isInside *)
Definition isInside (e : MvEnv) (r c : Z) : bool := (vColStart e <=? c) && (c <? vColEnd e) && (vRowStart e <=? r) && (r <? vRowEnd e).

(** find_mv_stack.go:488-513: one component of lowerPrecisionProcess without high precision *)
Definition lowerComp (int : bool) (v : Z) : Z :=
  if int then let aInt := shr (Abs v + 3) 3 in if 0 <? v then shl aInt 3 else - shl aInt 3
  else if bool_of (Z.land v 1) then if 0 <? v then v - 1 else v + 1 else v.
(** find_mv_stack.go:488-515 lowerPrecisionProcess *)
Definition lowerPrecision (e : MvEnv) (m : mv) : mv := if vHigh e then m else (lowerComp (vInt e) (fst m), lowerComp (vInt e) (snd m)).

(** find_mv_stack.go:153-197 setupGlobalMvProcess *)
Definition setupGlobalMv (e : MvEnv) (refList : Z) : res mv :=
  let ref := sel refList (vRefFrame e) in
  let! typ := if ref =? INTRA_FRAME then Ok 0 else idx (vGmType e) ref in
  let! bw := idx BLOCK_WIDTH (vMiSize e) in
  let! bh := idx BLOCK_HEIGHT (vMiSize e) in
  let! m := if (ref =? INTRA_FRAME) || (typ =? IDENTITY) then Ok (0, 0)
    else
      let! p := idx (vGmParams e) ref in
      let! p0 := idx p 0 in let! p1 := idx p 1 in
      if typ =? TRANSLATION then Ok (shr p0 (WARPEDMODEL_PREC_BITS - 3), shr p1 (WARPEDMODEL_PREC_BITS - 3))
      else
        let! p2 := idx p 2 in let! p3 := idx p 3 in let! p4 := idx p 4 in let! p5 := idx p 5 in
        let x := vMiCol e * MI_SIZE + Z.quot bw 2 - 1 in
        let y := vMiRow e * MI_SIZE + Z.quot bh 2 - 1 in
        let xc := (p2 - shl 1 WARPEDMODEL_PREC_BITS) * x + p3 * y + p0 in
        let yc := p4 * x + (p5 - shl 1 WARPEDMODEL_PREC_BITS) * y + p1 in
        if vHigh e then let! a := Round2Signed yc (WARPEDMODEL_PREC_BITS - 3) in let! b := Round2Signed xc (WARPEDMODEL_PREC_BITS - 3) in Ok (a, b)
        else let! a := Round2Signed yc (WARPEDMODEL_PREC_BITS - 2) in let! b := Round2Signed xc (WARPEDMODEL_PREC_BITS - 2) in Ok (a * 2, b * 2) in
  Ok (lowerPrecision e m).

Definition set_stack (s : Mst) (n : Z) (st : list mvs) (w : list Z) : Mst :=
  mkMst n (sNew s) (sFound s) (sTotal s) (sClose s) (sZero s) (sNewCtx s) (sRefCtx s) (sGlobal s) st w (sDrl s).
Definition set_found (s : Mst) (f : Z) : Mst :=
  mkMst (sNum s) (sNew s) f (sTotal s) (sClose s) (sZero s) (sNewCtx s) (sRefCtx s) (sGlobal s) (sStack s) (sWeight s) (sDrl s).
Definition set_new (s : Mst) (n : Z) : Mst :=
  mkMst (sNum s) n (sFound s) (sTotal s) (sClose s) (sZero s) (sNewCtx s) (sRefCtx s) (sGlobal s) (sStack s) (sWeight s) (sDrl s).
Definition set_zero (s : Mst) (z : Z) : Mst :=
  mkMst (sNum s) (sNew s) (sFound s) (sTotal s) (sClose s) z (sNewCtx s) (sRefCtx s) (sGlobal s) (sStack s) (sWeight s) (sDrl s).

(** t.WeightStack[idx] += weight *)
Definition addWeight (i weight : Z) (s : Mst) : res Mst := let! w := idx (sWeight s) i in let! W := upd (sWeight s) i (w + weight) in Ok (set_stack s (sNum s) (sStack s) W).
(** RefStackMv[NumMvFound][0] = m; WeightStack[NumMvFound] = weight; NumMvFound++ *)
Definition push1 (m : mv) (weight : Z) (s : Mst) : res Mst :=
  let! old := idx (sStack s) (sNum s) in let! st := upd (sStack s) (sNum s) (m, snd old) in let! W := upd (sWeight s) (sNum s) weight in Ok (set_stack s (sNum s + 1) st W).
(** the same for both lists *)
Definition push2 (m : mvs) (weight : Z) (s : Mst) : res Mst :=
  let! st := upd (sStack s) (sNum s) m in let! W := upd (sWeight s) (sNum s) weight in Ok (set_stack s (sNum s + 1) st W).

(** find_mv_stack.go:435-440: first index below NumMvFound whose first vector is [m] *)
Fixpoint findMv (n : nat) (i : Z) (m : mv) (st : list mvs) : res (option Z) :=
  match n with O => Ok None | S n' => let! x := idx st i in if mv_eqb m (fst x) then Ok (Some i) else findMv n' (i + 1) m st end.
(** find_mv_stack.go:371-378: the same comparing both vectors *)
Fixpoint findMv2 (n : nat) (i : Z) (m : mvs) (st : list mvs) : res (option Z) :=
  match n with O => Ok None | S n' => let! x := idx st i in if mv_eqb (fst m) (fst x) && mv_eqb (snd m) (snd x) then Ok (Some i) else findMv2 n' (i + 1) m st end.
(** find_mv_stack.go:415-447 searchStackProcess *)
Definition searchStack (e : MvEnv) (mvRow mvCol candList weight : Z) (s : Mst) : res Mst :=
  let! candMode := idx2 (vYModes e) mvRow mvCol in
  let! candSize := idx2 (vMiSizes e) mvRow mvCol in
  let! w := idx BLOCK_WIDTH candSize in let! h := idx BLOCK_HEIGHT candSize in
  let large := 8 <=? Min w h in
  let! glob := if (candMode =? GLOBALMV) || (candMode =? GLOBAL_GLOBALMV) then let! t := idx (vGmType e) (fst (vRefFrame e)) in Ok ((TRANSLATION <? t) && large) else Ok false in
  let! m := if (glob : bool) then Ok (fst (sGlobal s)) else let! c := idx2 (vMvs e) mvRow mvCol in Ok (sel candList c) in
  let m := lowerPrecision e m in
  let s := if HasNewmv candMode then set_new s (sNew s + 1) else s in
  let s := set_found s 1 in
  let! at_ := findMv (Z.to_nat (sNum s)) 0 m (sStack s) in
  match at_ with
  | Some i => addWeight i weight s
  | None => if sNum s <? MAX_REF_MV_STACK_SIZE then push1 m weight s else Ok s
  end.
(** find_mv_stack.go:450-485 compoundSearchStackProcess (sic: the lowered vectors are dropped, and a vector that is found is pushed again) *)
Definition compoundSearch (e : MvEnv) (mvRow mvCol weight : Z) (s : Mst) : res Mst :=
  let! c := idx2 (vMvs e) mvRow mvCol in
  let! candMode := idx2 (vYModes e) mvRow mvCol in
  let! c := if candMode =? GLOBAL_GLOBALMV then
      let! t0 := idx (vGmType e) (fst (vRefFrame e)) in
      let! t1 := idx (vGmType e) (snd (vRefFrame e)) in
      Ok (if TRANSLATION <? t0 then fst (sGlobal s) else fst c, if TRANSLATION <? t1 then snd (sGlobal s) else snd c)
    else Ok c in
  let s := set_found s 1 in
  let! s := rfor_to 0 (sNum s) (fun i s => let! x := idx (sStack s) i in if mv_eqb (fst c) (fst x) && mv_eqb (snd c) (snd x) then addWeight i weight s else Ok s) s in
  let! s := if sNum s <? MAX_REF_MV_STACK_SIZE then push2 c weight s else Ok s in
  Ok (if HasNewmv candMode then set_new s (sNew s + 1) else s).
(** find_mv_stack.go:395-412 addRefMvCandidate *)
Definition addRefMv (e : MvEnv) (isCompound : bool) (mvRow mvCol weight : Z) (s : Mst) : res Mst :=
  let! i := idx2 (vIsInters e) mvRow mvCol in
  if i =? 0 then Ok s
  else if negb isCompound then
    rfor_to 0 2 (fun candList s => let! r := idx2 (vRefFrames e) mvRow mvCol in
      if sel candList r =? fst (vRefFrame e) then searchStack e mvRow mvCol candList weight s else Ok s) s
  else let! r := idx2 (vRefFrames e) mvRow mvCol in
    if (fst r =? fst (vRefFrame e)) && (snd r =? snd (vRefFrame e)) then compoundSearch e mvRow mvCol weight s else Ok s.

(** find_mv_stack.go:214-234 / 252-271: the loops of the row and column scan. [along] = true: row scan. *)
Fixpoint scanLoop (n : nat) (e : MvEnv) (isCompound along : bool) (row col b4 end4 : Z) (far step16 : bool) (i : Z) (s : Mst) : res Mst :=
  if i <? end4 then
    match n with O => Hang | S n' =>
      let mvRow := if along then row else row + i in
      let mvCol := if along then col + i else col in
      if negb (isInside e mvRow mvCol) then Ok s
      else
        let! size := idx2 (vMiSizes e) mvRow mvCol in
        let! l := idx (if along then NUM_4X4_BLOCKS_WIDE else NUM_4X4_BLOCKS_HIGH) size in
        let len := Min b4 l in
        let len := if far then Max 2 len else len in
        let len := if step16 then Max 4 len else len in
        let! s := addRefMv e isCompound mvRow mvCol (len * 2) s in
        scanLoop n' e isCompound along row col b4 end4 far step16 (i + len) s
    end
  else Ok s.
(** find_mv_stack.go:200-235 scanRowProcess *)
Definition scanRow (e : MvEnv) (isCompound : bool) (deltaRow : Z) (s : Mst) : res Mst :=
  let! bw4 := idx NUM_4X4_BLOCKS_WIDE (vMiSize e) in
  let end4 := Min (Min bw4 (vMiCols e - vMiCol e)) 16 in
  let deltaCol := if 1 <? Abs deltaRow then 1 - Z.land (vMiCol e) 1 else 0 in
  let deltaRow := if 1 <? Abs deltaRow then deltaRow + Z.land (vMiRow e) 1 else deltaRow in
  scanLoop (Z.to_nat end4) e isCompound true (vMiRow e + deltaRow) (vMiCol e + deltaCol) bw4 end4 (1 <? Abs deltaRow) (16 <=? bw4) 0 s.
(** find_mv_stack.go:238-273 scanColProcess *)
Definition scanCol (e : MvEnv) (isCompound : bool) (deltaCol : Z) (s : Mst) : res Mst :=
  let! bh4 := idx NUM_4X4_BLOCKS_HIGH (vMiSize e) in
  let end4 := Min (Min bh4 (vMiRows e - vMiRow e)) 16 in
  let deltaRow := if 1 <? Abs deltaCol then 1 - Z.land (vMiRow e) 1 else 0 in
  let deltaCol := if 1 <? Abs deltaCol then deltaCol + Z.land (vMiCol e) 1 else deltaCol in
  scanLoop (Z.to_nat end4) e isCompound false (vMiRow e + deltaRow) (vMiCol e + deltaCol) bh4 end4 (1 <? Abs deltaCol) (16 <=? bh4) 0 s.
(** find_mv_stack.go:276-285 scanPointProcess *)
Definition scanPoint (e : MvEnv) (isCompound : bool) (deltaRow deltaCol : Z) (s : Mst) : res Mst :=
  let mvRow := vMiRow e + deltaRow in let mvCol := vMiCol e + deltaCol in
  if isInside e mvRow mvCol then let! r := idx2 (vRefFrames e) mvRow mvCol in if fst r =? 0 then Ok s else addRefMv e isCompound mvRow mvCol 4 s else Ok s.

(** |a - b| >= 16 in a component: find_mv_stack.go:328-329 *)
Definition mvFar (a b : mv) : bool := (16 <=? Abs (fst a - fst b)) || (16 <=? Abs (snd a - snd b)).
(** find_mv_stack.go:310-392 temporalSampleProcess (sic: the lowered vectors are dropped; the outer idx stays 0, so every candidate after the first counts for entry 0) *)
Definition temporalSample (e : MvEnv) (isCompound : bool) (deltaRow deltaCol : Z) (s : Mst) : res Mst :=
  let mvRow := Z.lor (vMiRow e + deltaRow) 1 in let mvCol := Z.lor (vMiCol e + deltaCol) 1 in
  if negb (isInside e mvRow mvCol) then Ok s
  else
    let x8 := shr mvCol 1 in let y8 := shr mvRow 1 in
    let origin := (deltaRow =? 0) && (deltaCol =? 0) in
    let s := if origin then set_zero s 1 else s in
    let! c0 := idx3 (vMotionField e) (fst (vRefFrame e)) y8 x8 in
    if fst c0 =? -32768 then Ok s
    else if negb isCompound then
      let s := if origin then set_zero s (if mvFar c0 (fst (sGlobal s)) then 1 else 0) else s in
      let! _ := findMv (Z.to_nat (sNum s)) 0 c0 (sStack s) in
      if 0 <? sNum s then addWeight 0 2 s else if sNum s <? MAX_REF_MV_STACK_SIZE then push1 c0 2 s else Ok s
    else
      let! c1 := idx3 (vMotionField e) (snd (vRefFrame e)) y8 x8 in
      if fst c1 =? -32768 then Ok s
      else
        let s := if origin then set_zero s (if mvFar c0 (fst (sGlobal s)) || mvFar c1 (snd (sGlobal s)) then 1 else 0) else s in
        let! _ := findMv2 (Z.to_nat (sNum s)) 0 (c0, c1) (sStack s) in
        if 0 <? sNum s then addWeight 0 2 s else if sNum s <? MAX_REF_MV_STACK_SIZE then push2 (c0, c1) 2 s else Ok s.
(** find_mv_stack.go:288-307 temporalScanProcess *)
Definition temporalScan (e : MvEnv) (isCompound : bool) (s : Mst) : res Mst :=
  let! bw4 := idx NUM_4X4_BLOCKS_WIDE (vMiSize e) in
  let! bh4 := idx NUM_4X4_BLOCKS_HIGH (vMiSize e) in
  let stepW4 := if 16 <=? bw4 then 4 else 2 in let stepH4 := if 16 <=? bh4 then 4 else 2 in
  rfor_by 0 (Min bh4 16) stepH4 (fun dr s => rfor_by 0 (Min bw4 16) stepW4 (fun dc s => temporalSample e isCompound dr dc s) s) s.

(** find_mv_stack.go:531-543 swapStack (sic: the vectors of entry j are overwritten by the weight of entry i) *)
Definition swapStack (i j : Z) (isCompound : bool) (st : list mvs) (W : list Z) : res (list mvs * list Z) :=
  let! temp := idx W i in let! wj := idx W j in let! W := upd W i wj in let! W := upd W j temp in
  let! a := idx st i in let! b := idx st j in
  let! st := upd st i (fst b, if isCompound then snd b else snd a) in
  let! b := idx st j in
  let! st := upd st j ((temp, temp), if isCompound then (temp, temp) else snd b) in
  Ok (st, W).
(** find_mv_stack.go:520-526: one pass *)
Definition sortPass (start fin : Z) (isCompound : bool) (st : list mvs) (W : list Z) : res (Z * list mvs * list Z) :=
  rfor_to (start + 1) fin (fun i '(ne, st, W) =>
    let! a := idx W (i - 1) in let! b := idx W i in
    if a <? b then let! p := swapStack (i - 1) i isCompound st W in Ok (i, fst p, snd p) else Ok (ne, st, W)) (start, st, W).
(** find_mv_stack.go:518-529 sortingProcess *)
Fixpoint sortLoop (n : nat) (start fin : Z) (isCompound : bool) (st : list mvs) (W : list Z) : res (list mvs * list Z) :=
  if start <? fin then
    match n with O => Hang | S n' => let! p := sortPass start fin isCompound st W in let '(ne, st, W) := p in sortLoop n' start ne isCompound st W end
  else Ok (st, W).
Definition sorting (start fin : Z) (isCompound : bool) (s : Mst) : res Mst :=
  let! p := sortLoop (Z.to_nat (fin - start)) start fin isCompound (sStack s) (sWeight s) in Ok (set_stack s (sNum s) (fst p) (snd p)).

(** find_mv_stack.go:650-659: negative positions count from the end of the 64x64 table *)
Definition wrap64 (v : Z) : Z := if v <? 0 then 64 + v else v.
(** find_mv_stack.go:647-704 addExtraMvCandidateProcess. For compound blocks every candidate is written to RefIdMvs or RefDiffMvs, slices that are never allocated: panic.
    (sic: the outer idx stays 0, so a candidate is pushed only onto an empty stack) *)
Definition addExtra (e : MvEnv) (isCompound : bool) (mvRow mvCol : Z) (s : Mst) : res Mst :=
  let mvRow := wrap64 mvRow in let mvCol := wrap64 mvCol in
  rfor_to 0 2 (fun candList s =>
    let! r := idx2 (vRefFrames e) mvRow mvCol in
    let candRef := sel candList r in
    if INTRA_FRAME <? candRef then
      if isCompound then Panic
      else
        let! c := idx2 (vMvs e) mvRow mvCol in
        let m := sel candList c in
        let! b := idx (vSignBias e) candRef in let! b0 := idx (vSignBias e) (fst (vRefFrame e)) in
        let m := if xorb b b0 then (fst m * -1, snd m * -1) else m in
        let! _ := findMv (Z.to_nat (sNum s)) 0 m (sStack s) in
        if sNum s =? 0 then push1 m 2 s else Ok s
    else Ok s) s.
(** find_mv_stack.go:559-590: the loop of one pass (sic: it stops at a position inside the tile) *)
Fixpoint extraLoop (n : nat) (e : MvEnv) (isCompound : bool) (pass num4x4 i : Z) (s : Mst) : res Mst :=
  if (i <? num4x4) && (sNum s <? 2) then
    match n with O => Hang | S n' =>
      let mvRow := if pass =? 0 then vMiRow e - 1 else vMiRow e + i in
      let mvCol := if pass =? 0 then vMiCol e + i else vMiCol e - 1 in
      if isInside e mvRow mvCol then Ok s
      else
        let! s := addExtra e isCompound mvRow mvCol s in
        let! size := idx2 (vMiSizes e) (wrap64 mvRow) (wrap64 mvCol) in
        let! l := idx (if pass =? 0 then NUM_4X4_BLOCKS_WIDE else NUM_4X4_BLOCKS_HIGH) size in
        extraLoop n' e isCompound pass num4x4 (i + l) s
    end
  else Ok s.
(** find_mv_stack.go:546-644 extraSearchProcess. For compound blocks combinedMvs is a nil slice: its first write panics. *)
Definition extraSearch (e : MvEnv) (isCompound : bool) (s : Mst) : res Mst :=
  let! w4 := idx NUM_4X4_BLOCKS_WIDE (vMiSize e) in
  let! h4 := idx NUM_4X4_BLOCKS_HIGH (vMiSize e) in
  let w4 := Min (Min 16 w4) (vMiCols e - vMiCol e) in
  let h4 := Min (Min 16 h4) (vMiRows e - vMiRow e) in
  let num4x4 := Min w4 h4 in
  let! s := rfor_to 0 2 (fun pass s => extraLoop (Z.to_nat num4x4) e isCompound pass num4x4 0 s) s in
  if isCompound then Panic
  else rfor_to (sNum s) 2 (fun i s => let! old := idx (sStack s) i in let! st := upd (sStack s) i (fst (sGlobal s), snd old) in Ok (set_stack s (sNum s) st (sWeight s))) s.

(** find_mv_stack.go:744-749 clampMvRow *)
Definition clampMvRow (e : MvEnv) (v border : Z) : res Z :=
  let! bh4 := idx NUM_4X4_BLOCKS_HIGH (vMiSize e) in
  Ok (Clip3 (- (vMiRow e * MI_SIZE * 8) - border) ((vMiRows e - bh4 - vMiRow e) * MI_SIZE * 8 + border) v).
(** find_mv_stack.go:752-757 clampMvCol *)
Definition clampMvCol (e : MvEnv) (v border : Z) : res Z :=
  let! bw4 := idx NUM_4X4_BLOCKS_WIDE (vMiSize e) in
  Ok (Clip3 (- (vMiCol e * MI_SIZE * 8) - border) ((vMiCols e - bw4 - vMiCol e) * MI_SIZE * 8 + border) v).
(** find_mv_stack.go:723-727 *)
Definition clampMv (e : MvEnv) (bw bh : Z) (m : mv) : res mv :=
  let! r := clampMvRow e (fst m) (MV_BORDER + bh * 8) in let! c := clampMvCol e (snd m) (MV_BORDER + bw * 8) in Ok (r, c).
Definition set_sel {A} (list : Z) (p : A * A) (v : A) : A * A := if list =? 0 then (v, snd p) else (fst p, v).
(** find_mv_stack.go:707-741 contextAndClampingProcess *)
Definition contextAndClamping (e : MvEnv) (isCompound : bool) (numNew : Z) (s : Mst) : res Mst :=
  let! bw := idx BLOCK_WIDTH (vMiSize e) in
  let! bh := idx BLOCK_HEIGHT (vMiSize e) in
  let! drl := rfor_to 0 (sNum s) (fun i drl =>
    let! z := if i + 1 <? sNum s then
        let! w0 := idx (sWeight s) i in let! w1 := idx (sWeight s) (i + 1) in
        Ok (if REF_CAT_LEVEL <=? w0 then if w1 <? REF_CAT_LEVEL then 1 else 0 else 2)
      else Ok 0 in
    upd drl i z) (sDrl s) in
  let! st := rfor_to 0 (if isCompound then 2 else 1) (fun list st => rfor_to 0 (sNum s) (fun i st =>
    let! x := idx st i in let! m := clampMv e bw bh (sel list x) in upd st i (set_sel list x m)) st) (sStack s) in
  let '(nc, rc) := if sClose s =? 0 then (Min (sTotal s) 1, sTotal s)
    else if sClose s =? 1 then (3 - Min numNew 1, 2 + sTotal s) else (5 - Min numNew 1, 5) in
  Ok (mkMst (sNum s) (sNew s) (sFound s) (sTotal s) (sClose s) (sZero s) nc rc (sGlobal s) st (sWeight s) drl).

(** find_mv_stack.go:64-72 step 15 (sic: the last of the nearest candidates gets no bonus) *)
Definition bonus (numNearest : Z) (s : Mst) : res Mst :=
  if 0 <? numNearest then rfor_to 0 (numNearest - 1) (fun i s => addWeight i REF_CAT_LEVEL s) s else Ok s.
(** if t.FoundMatch == 1 { x = 1 } *)
Definition matched (s : Mst) (x : Z) : Z := if sFound s =? 1 then 1 else x.
Definition set_close (s : Mst) (c : Z) : Mst :=
  mkMst (sNum s) (sNew s) (sFound s) (sTotal s) c (sZero s) (sNewCtx s) (sRefCtx s) (sGlobal s) (sStack s) (sWeight s) (sDrl s).
Definition set_total (s : Mst) (c : Z) : Mst :=
  mkMst (sNum s) (sNew s) (sFound s) c (sClose s) (sZero s) (sNewCtx s) (sRefCtx s) (sGlobal s) (sStack s) (sWeight s) (sDrl s).
(** find_mv_stack.go:18-31, steps 1-5 *)
Definition mvInit (e : MvEnv) (isCompound : bool) (s : Mst) : res Mst :=
  let! g0 := setupGlobalMv e 0 in
  let! g1 := if isCompound then setupGlobalMv e 1 else Ok (snd (sGlobal s)) in
  Ok (mkMst 0 0 0 (sTotal s) (sClose s) (sZero s) (sNewCtx s) (sRefCtx s) (g0, g1) (sStack s) (sWeight s) (sDrl s)).
(** find_mv_stack.go:15-151 findMvStack (sic: FoundMatch is not reset between steps 11 and 18; step 31 sets the above instead of the left match) *)
Definition findMvStack (e : MvEnv) (isCompound : bool) (s : Mst) : res Mst :=
  let! bw4 := idx NUM_4X4_BLOCKS_WIDE (vMiSize e) in
  let! bh4 := idx NUM_4X4_BLOCKS_HIGH (vMiSize e) in
  let! s := mvInit e isCompound s in
  let! s := scanRow e isCompound (-1) s in
  let above := sFound s in
  let! s := scanCol e isCompound (-1) (set_found s 0) in
  let left := sFound s in
  let s := set_found s 0 in
  let! s := if Max bw4 bh4 <=? 16 then scanPoint e isCompound (-1) bw4 s else Ok s in
  let above := matched s above in
  let s := set_close s (above + left) in
  let numNearest := sNum s in
  let numNew := sNew s in
  let! s := bonus numNearest s in
  let s := set_zero s 0 in
  let! s := if vUseRefMvs e then temporalScan e isCompound s else Ok s in
  let! s := scanPoint e isCompound (-1) (-1) s in
  let above := matched s above in
  let! s := scanRow e isCompound (-3) (set_found s 0) in
  let above := matched s above in
  let! s := scanCol e isCompound (-3) (set_found s 0) in
  let left := matched s left in
  let s := set_found s 0 in
  let! s := if 1 <? bh4 then scanRow e isCompound (-5) s else Ok s in
  let above := matched s above in
  let s := set_found s 0 in
  let! s := if 1 <? bw4 then scanCol e isCompound (-5) s else Ok s in
  let above := matched s above in
  let s := set_total s (above + left) in
  let! s := sorting 0 numNearest isCompound s in
  let! s := sorting numNearest (sNum s) isCompound s in
  let! s := if sNum s <? 2 then extraSearch e isCompound s else Ok s in
  contextAndClamping e isCompound numNew s.
