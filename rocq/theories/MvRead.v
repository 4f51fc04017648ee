(** Model of internal/tilegroup/assign_mv.go (whole file).
    The tables of motion vector symbols are modelled with the sharing the code gives them (C81): uncompressedheader/cdf.go:43-62 assigns the same slices for both
    contexts, and for MvSignCdf, MvClass0BitCdf, MvClass0HpCdf, MvBitCdf and MvHpCdf also for both components; every copy (saveCdfs, loadCdfs, initSymbol, exitSymbol)
    copies slice headers.  So there is one table for each name, without the shared dimensions.
    Simplification: integers are exact (a component is below 2^15 in size). *)
From Coq Require Import String.
From Verif Require Import GoBase Bitstream Util Constants Tables Symbol CdfMoves CdfMemory Elements MvStack.
Local Open Scope string_scope.
Local Open Scope Z_scope.


(** assign_mv.go:122-126: the bits of the integer part, from i *)
Fixpoint readMvBits (dis : bool) (n : nat) (i d : Z) : M ES Z :=
  match n with
  | O => ret d
  | S n => let* mvBit := esym dis "MvBitCdf" [i] in readMvBits dis n (i + 1) (Z.lor d (shl mvBit 1))
  end.
(** assign_mv.go:105-119 *)
Definition readMvClass0 (dis int high : bool) (comp : Z) : M ES Z :=
  let* mvClass0Bit := esym dis "MvClass0BitCdf" [] in
  let* mvClass0Fr := if int then ret 3 else esym dis "MvClass0FrCdf" [comp; mvClass0Bit] in
  let* mvClass0Hp := if high then esym dis "MvClass0HpCdf" [] else ret 1 in
  ret (Z.lor (Z.lor (shl mvClass0Bit 3) (shl mvClass0Fr 1)) mvClass0Hp + 1).
(** assign_mv.go:121-143 *)
Definition readMvLong (dis int high : bool) (comp mvClass : Z) : M ES Z :=
  let* d := readMvBits dis (Z.to_nat mvClass) 0 0 in
  let mag := shl CLASS0_SIZE (mvClass + 2) in
  let* mvFr := if int then ret 3 else esym dis "MvFrCdf" [comp] in
  let* mvHp := if high then esym dis "MvHpCdf" [] else ret 1 in
  ret (mag + (Z.lor (Z.lor (shl d 3) (shl mvFr 1)) mvHp + 1)).
(** assign_mv.go:97-150 *)
Definition readMvComponent (dis int high : bool) (comp : Z) : M ES Z :=
  let* mvSign := esym dis "MvSignCdf" [] in
  let* mvClass := esym dis "MvClassCdf" [comp] in
  let* mag := if mvClass =? MV_CLASS_0 then readMvClass0 dis int high comp else readMvLong dis int high comp mvClass in
  ret (if bool_of mvSign then - mag else mag).

(** assign_mv.go:71-94 readMv: the new Mv[ref].  The context t.MvCtx (76-81) selects one of two copies of the same slice. *)
Definition readMv (dis int high : bool) (pred : mv) : M ES mv :=
  let* mvJoint := esym dis "MvJointCdf" [] in
  let* d0 := if (mvJoint =? MV_JOINT_HZVNZ) || (mvJoint =? MV_JOINT_HNZVNZ) then readMvComponent dis int high 0 else ret 0 in
  let* d1 := if (mvJoint =? MV_JOINT_HNZVZ) || (mvJoint =? MV_JOINT_HNZVNZ) then readMvComponent dis int high 1 else ret 0 in
  ret (fst pred + d0, snd pred + d1).

(** assign_mv.go:154-182 getMode *)
Definition getMode (ymode refList : Z) : Z :=
  if refList =? 0 then
    if ymode <? NEAREST_NEARESTMV then ymode
    else if (ymode =? NEW_NEWMV) || (ymode =? NEW_NEARESTMV) || (ymode =? NEW_NEARMV) then NEWMV
    else if (ymode =? NEAREST_NEARESTMV) || (ymode =? NEAREST_NEWMV) then NEARESTMV
    else if (ymode =? NEAR_NEARMV) || (ymode =? NEAR_NEWMV) then NEARMV
    else GLOBALMV
  else
    if (ymode =? NEW_NEWMV) || (ymode =? NEAREST_NEWMV) || (ymode =? NEAR_NEWMV) then NEWMV
    else if (ymode =? NEAREST_NEARESTMV) || (ymode =? NEW_NEARESTMV) then NEARMV
    else if (ymode =? NEAR_NEARMV) || (ymode =? NEW_NEARMV) then NEARMV
    else GLOBALMV.

(** What assignMv reads: uh.DisableCdfUpdate, ForceIntegerMv, AllowHighPrecisionMv, t.useIntrabc, YMode, RefMvIdx, NumMvFound, RefStackMv, GlobalMvs,
    sh.Use128x128SuperBlock, state.MiRow, MiRowStart *)
Record AEnv := mkAEnv { aDis : bool; aInt : bool; aHigh : bool; aIntrabc : bool; aYMode : Z; aRefMvIdx : Z; aNum : Z; aStack : list mvs; aGlobal : mvs; aUse128 : bool; aMiRow : Z; aRowStart : Z }.
(** x[i] = v for i = 0, 1 *)
Definition put2 {A} (i : Z) (v : A) (p : A * A) : A * A := if i =? 0 then (v, snd p) else (fst p, v).
(** assign_mv.go:24-46 *)
Definition intrabcPred (e : AEnv) : res mv :=
  let! s0 := idx (aStack e) 0 in
  let p := fst s0 in
  let! p := if (fst p =? 0) && (snd p =? 0) then let! s1 := idx (aStack e) 1 in Ok (fst s1) else Ok p in
  if (fst p =? 0) && (snd p =? 0) then
    let sbSize := if aUse128 e then BLOCK_128X128 else BLOCK_64X64 in
    let! sbSize4 := idx NUM_4X4_BLOCKS_HIGH sbSize in
    if aMiRow e - sbSize4 <? aRowStart e then Ok (0, - (sbSize4 * MI_SIZE + INTRABC_DELAY_PIXELS) * 8)
    else (* :42-43 both write PredMv[0][0] *) Ok (1, snd p)
  else Ok p.
(** assign_mv.go:15-67, one turn of the loop; PredMv and Mv *)
Definition assignOne (e : AEnv) (i : Z) (g : mvs * mvs) : M ES (mvs * mvs) :=
  let compMode := if aIntrabc e then NEWMV else getMode (aYMode e) i in
  let* pm := lift (
    if aIntrabc e then let! p := intrabcPred e in Ok (put2 0 p (fst g))
    else if compMode =? GLOBALMV then Ok (put2 i (sel i (aGlobal e)) (fst g))
    else
      let pos := if compMode =? NEARESTMV then 0 else aRefMvIdx e in
      let pos := if (compMode =? NEWMV) && (aNum e <=? 1) then 0 else pos in
      let! s := idx (aStack e) pos in Ok (put2 i (sel i s) (fst g))) in
  if compMode =? NEWMV then let* m := readMv (aDis e) (aInt e) (aHigh e) (sel i pm) in ret (pm, put2 i m (snd g))
  else ret (pm, put2 i (sel i pm) (snd g)).
(** assign_mv.go:14-68 assignMv *)
Definition assignMv (e : AEnv) (isCompound : Z) (g : mvs * mvs) : M ES (mvs * mvs) := for_to 0 (1 + isCompound) (fun i g => assignOne e i g) g.
