(** Model of internal/tilegroup/read_loop_restoration.go (whole file).
    t.LrWiener is a nil slice (tile_group.go:128, never allocated), so every access to it panics.
    Simplification: integers are exact except in shifts and InverseRecenter. *)
From Coq Require Import String.
From Verif Require Import GoBase Bitstream Util Constants Tables Frame Symbol CdfMoves CdfMemory Elements Restoration.
Local Open Scope string_scope.
Local Open Scope Z_scope.

(** What is read: uh.DisableCdfUpdate, AllowIntraBc, FrameRestorationType, FrameHeight, UpscaledWidth, UseSuperRes, SuperResDenom; sh.ColorConfig; state.LoopRestorationSize *)
Record LEnv := mkLEnv { lDis : bool; lIntraBc : bool; lPlanes : Z; lFrameType : list Z; lSubX : bool; lSubY : bool; lUnit : list Z; lHeight : Z; lWidth : Z; lSuper : bool; lDenom : Z }.
(** What is written: t.LrType [3][1][1], LrSgrSet [3][1][1], LrSgrXqd [3][1][1][2], RefLrWiener [3][2][3], RefSgrXqd [3][2] *)
Record LSt := mkLSt { lType : list (list (list Z)); lSet : list (list (list Z)); lXqd : list (list (list (list Z))); lRefW : list (list (list Z)); lRefX : list (list Z) }.

(** read_loop_restoration.go:148-175 decodeSubexpBool: the loop; the fuel is enough for the rest of the data (PropLrRead.v shows that it never runs out) *)
Fixpoint subexpLoop (dis : bool) (fuel : nat) (numSyms k i mk : Z) : M ES Z :=
  match fuel with
  | O => hang
  | S fuel =>
      let b2 := if i =? 1 then k + i - 1 else k in
      let a := shl 1 b2 in
      if numSyms <=? - mk + 3 * a then let* v := elit dis 1 in ret (v + mk)
      else
        let* more := elit dis 1 in
        if bool_of more then subexpLoop dis fuel numSyms k (i + 1) (mk + a)
        else let* v := elit dis b2 in ret (v + mk)
  end.
Definition decodeSubexpBool (dis : bool) (numSyms k : Z) : M ES Z := fun s => subexpLoop dis (Z.to_nat (Z.max 0 (SymbolMaxBits (fst s))) + 20) numSyms k 0 0 s.
(** read_loop_restoration.go:139-146 *)
Definition decodeUnsignedSubexpWithRefBool (dis : bool) (mx k r : Z) : M ES Z :=
  let* v := decodeSubexpBool dis mx k in
  ret (if shl r 1 <=? mx then InverseRecenter r v else mx - 1 - InverseRecenter (mx - 1 - r) v).
(** read_loop_restoration.go:133-137 *)
Definition decodeSignedSubexpWithRefBool (dis : bool) (low high k r : Z) : M ES Z :=
  let* x := decodeUnsignedSubexpWithRefBool dis (high - low) k (r - low) in ret (x + low).

(** read_loop_restoration.go:64-82: the type of the unit *)
Definition readLrType (e : LEnv) (plane : Z) : M ES Z :=
  let* ft := lift (idx (lFrameType e) plane) in
  if ft =? RESTORE_WIENER then let* u := bS in ret (if u =? 1 then RESTORE_WIENER else RESTORE_NONE)
  else if ft =? RESTORE_SGRPROJ then let* u := bS in ret (if u =? 1 then RESTORE_SGRPROJ else RESTORE_NONE)
  else esym (lDis e) "RestorationTypeCdf" [].
Definition upd4 (f : list (list (list (list Z)))) (p r c i v : Z) : res (list (list (list (list Z)))) := let! g := idx f p in let! h := idx2 g r c in let! h := upd h i v in let! g := upd2 g r c h in upd f p g.
(** read_loop_restoration.go:108-124: one of the two weights of the self-guided filter *)
Definition readXqd (e : LEnv) (plane row col set i : Z) (g : LSt) : M ES LSt :=
  let* radius := lift (let! p := idx SGR_PARAMS set in idx p (i * 2)) in
  let* min := lift (idx Sgrproj_Xqd_Min i) in
  let* max := lift (idx Sgrproj_Xqd_Max i) in
  let* v := if negb (radius =? 0) then
      let* r := lift (idx2 (lRefX g) plane i) in decodeSignedSubexpWithRefBool (lDis e) min (max + 1) SGRPROJ_PRJ_SUBEXP_K r
    else if i =? 1 then let* r := lift (idx2 (lRefX g) plane 0) in ret (Clip3 min max (shl 1 SGRPROJ_BITS - r)) else ret 0 in
  let* x := lift (upd4 (lXqd g) plane row col i v) in
  let* rx := lift (upd2 (lRefX g) plane i v) in
  ret (mkLSt (lType g) (lSet g) x (lRefW g) rx).
(** read_loop_restoration.go:64-127 readLrUnit; 87-98: the first write to t.LrWiener panics *)
Definition readLrUnit (e : LEnv) (plane row col : Z) (g : LSt) : M ES LSt :=
  let* ty := readLrType e plane in
  let* lt := lift (upd3 (lType g) plane row col ty) in
  let g := mkLSt lt (lSet g) (lXqd g) (lRefW g) (lRefX g) in
  if ty =? RESTORE_WIENER then
    if plane =? 1 then panic
    else
      let* r := lift (idx3 (lRefW g) plane 0 0) in
      let* min := lift (idx Wiener_Taps_Min 0) in let* max := lift (idx Wiener_Taps_Max 0) in let* k := lift (idx Wiener_Taps_K 0) in
      let* v := decodeSignedSubexpWithRefBool (lDis e) min (max + 1) k r in panic
  else if ty =? RESTORE_SGRPROJ then
    let* set := elit (lDis e) SGRPROJ_PARAMS_BITS in
    let* st := lift (upd3 (lSet g) plane row col set) in
    for_to 0 2 (fun i g => readXqd e plane row col set i g) (mkLSt (lType g) st (lXqd g) (lRefW g) (lRefX g))
  else ret g.

(** read_loop_restoration.go:23-51: the units of a plane read with the superblock at (r, c): rows from, to, columns from, to *)
Definition lrUnits (e : LEnv) (plane r c bSize : Z) : res (Z * Z * Z * Z) :=
  let! w := idx NUM_4X4_BLOCKS_WIDE bSize in
  let! h := idx NUM_4X4_BLOCKS_HIGH bSize in
  let subX := if lSubX e then 1 else 0 in
  let subY := if lSubY e then 1 else 0 in
  let! unitSize := idx (lUnit e) plane in
  let! ph := Round2 (lHeight e) subY in
  let! unitRows := CountUnitsInFrame unitSize ph in
  let! pw := Round2 (lWidth e) subX in
  let! unitCols := CountUnitsInFrame unitSize pw in
  let numerator := if lSuper e then shr MI_SIZE subX * lDenom e else shr MI_SIZE subX in
  let denominator := if lSuper e then unitSize * SUPERRES_NUM else unitSize in
  if unitSize =? 0 then Panic
  else Ok (Z.quot (r * shr MI_SIZE subY + unitSize - 1) unitSize, Min unitRows (Z.quot ((r + h) * shr MI_SIZE subY + unitSize - 1) unitSize),
           Z.quot (c * numerator + denominator - 1) denominator, Min unitCols (Z.quot ((c + w) * numerator + denominator - 1) denominator)).
(** read_loop_restoration.go:15-61 readLr *)
Definition readLr (e : LEnv) (r c bSize : Z) (g : LSt) : M ES LSt :=
  if lIntraBc e then ret g
  else
    for_to 0 (lPlanes e) (fun plane g =>
      let* ft := lift (idx (lFrameType e) plane) in
      if ft =? RESTORE_NONE then ret g
      else
        let* u := lift (lrUnits e plane r c bSize) in
        let '(r0, r1, c0, c1) := u in
        for_to r0 r1 (fun row g => for_to c0 c1 (fun col g => readLrUnit e plane row col g) g) g) g.
