(** Specification of coefficient coding, written from the AV1 standard (sections 5.11.39, 8.3.2 and 9.3), without reference to the model. *)
From Coq Require Import String Permutation.
From Verif Require Import GoBase CdfMoves CdfMemory SpecSymbol.
Local Open Scope string_scope.
Local Open Scope Z_scope.

(** The nineteen transform sizes (width, height), in coding order. *)
Definition tx_dims : list (Z * Z) :=
  [(4, 4); (8, 8); (16, 16); (32, 32); (64, 64); (4, 8); (8, 4); (8, 16); (16, 8); (16, 32); (32, 16); (32, 64); (64, 32); (4, 16); (16, 4); (8, 32); (32, 8); (16, 64); (64, 16)].
Definition tx_w (t : Z) : Z := fst (nth (Z.to_nat t) tx_dims (0, 0)).
Definition tx_h (t : Z) : Z := snd (nth (Z.to_nat t) tx_dims (0, 0)).
(** Only the 32x32 coefficients of lowest frequency are coded. *)
Definition coded_w (t : Z) : Z := Z.min 32 (tx_w t).
Definition coded_h (t : Z) : Z := Z.min 32 (tx_h t).
Definition coded (t : Z) : Z := coded_w t * coded_h t.
Definition row_of (t p : Z) : Z := p / coded_w t.
Definition col_of (t p : Z) : Z := p mod coded_w t.

(** Transform types: 10, 12, 14 transform columns only; 11, 13, 15 rows only. *)
Inductive cls := TwoD | Rows | Columns.
Definition class_of (ty : Z) : cls := if (ty =? 10) || (ty =? 12) || (ty =? 14) then Columns else if (ty =? 11) || (ty =? 13) || (ty =? 15) then Rows else TwoD.

(** The order in which coefficients are coded: row by row, column by column, or along the diagonals: zig-zag in square blocks, from the top right
    in tall ones, from the bottom left in wide ones. *)
Definition scan_key (t : Z) (c : cls) (p : Z) : Z :=
  let r := row_of t p in let k := col_of t p in
  match c with
  | Columns => 64 * r + k
  | Rows => 64 * k + r
  | TwoD => 64 * (r + k) + (if coded_w t =? coded_h t then if Z.odd (r + k) then r else k else if coded_w t <? coded_h t then r else k)
  end.
Fixpoint increasing_key (key : Z -> Z) (l : list Z) : Prop :=
  match l with a :: ((b :: _) as l') => key a < key b /\ increasing_key key l' | _ => True end.
Definition is_scan (t : Z) (c : cls) (l : list Z) : Prop := Permutation l (map Z.of_nat (seq 0 (Z.to_nat (coded t)))) /\ increasing_key (scan_key t c) l.

(** The CDF tables used: dimensions and number of symbols. *)
Definition coeff_cdfs : list (string * list Z * Z) :=
  [("TxbSkipCdf", [5; 13], 2); ("EobPt16Cdf", [2; 2], 5); ("EobPt32Cdf", [2; 2], 6); ("EobPt64Cdf", [2; 2], 7); ("EobPt128Cdf", [2; 2], 8); ("EobPt256Cdf", [2; 2], 9);
   ("EobPt512Cdf", [2], 10); ("EobPt1024Cdf", [2], 11); ("EobExtraCdf", [5; 2; 9], 2); ("DcSignCdf", [2; 3], 2); ("CoeffBaseEobCdf", [5; 2; 4], 3); ("CoeffBaseCdf", [5; 2; 42], 4);
   ("CoeffBrCdf", [4; 2; 21], 4); ("InterTxTypeSet1Cdf", [2], 16); ("InterTxTypeSet2Cdf", [], 12); ("InterTxTypeSet3Cdf", [4], 2); ("IntraTxTypeSet1Cdf", [2; 13], 7); ("IntraTxTypeSet2Cdf", [3; 13], 5)].
Definition has_cdf (t : tree) (path : list Z) (n : Z) : Prop := exists c, tget t path = Ok c /\ valid_cdf c /\ nsyms c = n.
Definition path_in (path dims : list Z) : Prop := Forall2 (fun i d => 0 <= i < d) path dims.
Definition cdfs_ok (h : string -> tree) : Prop := forall name dims n path, In (name, dims, n) coeff_cdfs -> path_in path dims -> has_cdf (h name) path n.

(** Contexts. *)
(** all_zero, luma: 0 if the transform is as large as the block; else by the largest level above and to the left (none, 1 to 3, more) *)
Definition level_class (v : Z) : Z := if v <=? 0 then 0 else if v <=? 3 then 1 else 2.
Definition all_zero_luma (whole : bool) (top left : Z) : Z :=
  if whole then 0 else
  match level_class top, level_class left with
  | 0, 0 => 1 | 0, 1 => 2 | 1, 0 => 2 | 0, 2 => 3 | 2, 0 => 3 | 1, 1 => 4 | 1, 2 => 5 | 2, 1 => 5 | _, _ => 6 end.
(** offsets of the neighbours that have been coded before (row, column) *)
Definition base_neighbours (c : cls) : list (Z * Z) :=
  match c with TwoD => [(0, 1); (1, 0); (1, 1); (0, 2); (2, 0)] | Rows => [(0, 1); (1, 0); (0, 2); (0, 3); (0, 4)] | Columns => [(0, 1); (1, 0); (2, 0); (3, 0); (4, 0)] end.
Definition range_neighbours (c : cls) : list (Z * Z) :=
  match c with TwoD => [(0, 1); (1, 0); (1, 1)] | Rows => [(0, 1); (1, 0); (0, 2)] | Columns => [(0, 1); (1, 0); (2, 0)] end.
(** sum over the neighbours inside the coded area of the levels, each cut at [cut] *)
Definition near_sum (t : Z) (q : Z -> Z) (offs : list (Z * Z)) (cut r k : Z) : Z :=
  fold_right (fun o s => (if (r + fst o <? coded_h t) && (k + snd o <? coded_w t) then Z.min (q ((r + fst o) * coded_w t + (k + snd o))) cut else 0) + s) 0 offs.
Definition base_offset (t : Z) (c : cls) (r k : Z) : Z :=
  match c with
  | TwoD => if (tx_w t <? tx_h t) && (r <? 2) then 11 else if (tx_h t <? tx_w t) && (k <? 2) then 16 else if r + k <? 2 then 1 else if r + k <? 4 then 6 else 21
  | Rows => 26 + 5 * Z.min k 2
  | Columns => 26 + 5 * Z.min r 2
  end.
Definition base_context (t : Z) (c : cls) (q : Z -> Z) (p : Z) : Z :=
  let r := row_of t p in let k := col_of t p in
  match c, p with TwoD, 0 => 0 | _, _ => Z.min ((near_sum t q (base_neighbours c) 3 r k + 1) / 2) 4 + base_offset t c r k end.
(** the last coefficient: by its place in the scan *)
Definition last_context (t c : Z) : Z := if c =? 0 then 0 else if 8 * c <=? coded t then 1 else if 4 * c <=? coded t then 2 else 3.
Definition range_context (t : Z) (c : cls) (q : Z -> Z) (p : Z) : Z :=
  let r := row_of t p in let k := col_of t p in
  Z.min ((near_sum t q (range_neighbours c) 15 r k + 1) / 2) 6 +
  (if p =? 0 then 0 else if match c with TwoD => (r <? 2) && (k <? 2) | Rows => k =? 0 | Columns => r =? 0 end then 7 else 14).

(** The set of transform types a block may use, by class of set; the types of each set. *)
Definition tx_set (inter reduced : bool) (t : Z) : Z :=
  let m := Z.max (tx_w t) (tx_h t) in let n := Z.min (tx_w t) (tx_h t) in
  if 32 <? m then 0 else
  if inter then if reduced || (m =? 32) then 3 else if n =? 16 then 2 else 1
  else if m =? 32 then 0 else if reduced || (n =? 16) then 2 else 1.
Definition set_types_of (inter : bool) (set : Z) : list Z :=
  match inter, set with
  | _, 0 => [0]
  | false, 1 => [9; 0; 10; 11; 3; 1; 2]
  | false, _ => [9; 0; 3; 1; 2]
  | true, 1 => [9; 10; 11; 12; 13; 14; 15; 0; 1; 2; 4; 5; 3; 6; 7; 8]
  | true, 2 => [9; 10; 11; 0; 1; 2; 4; 5; 3; 6; 7; 8]
  | true, _ => [9; 0]
  end.

(** ** The syntax of a transform block (5.11.39) as a program that asks for symbols and bits *)
Inductive prog (A : Type) : Type :=
| Done (a : A)
| Sym (table : string) (path : list Z) (k : Z -> prog A)
| Bit (k : Z -> prog A)
| Fail.
Arguments Done {A} _. Arguments Sym {A} _ _ _. Arguments Bit {A} _. Arguments Fail {A}.
Fixpoint andthen {A B} (p : prog A) (f : A -> prog B) : prog B :=
  match p with Done a => f a | Sym t path k => Sym t path (fun v => andthen (k v) f) | Bit k => Bit (fun v => andthen (k v) f) | Fail => Fail end.

(** What a transform block depends on: the plane, the size of the transform, the size of the block in that plane, the levels and DC categories left by
    the neighbours above and to the left inside the frame (one pair per four samples), and what determines the transform type. *)
Record block := mkBlock {
  bPlane : Z; bTx : Z; bW : Z; bH : Z; bAbove : list (Z * Z); bLeft : list (Z * Z);
  bInter : bool; bReduced : bool; bLossless : bool; bQ : Z; bDir : Z; bChroma : Z }.
Definition maxl (l : list Z) : Z := fold_right Z.max 0 l.
Definition some_nonzero (l : list (Z * Z)) : Z := if existsb (fun p => negb ((fst p =? 0) && (snd p =? 0))) l then 1 else 0.
Definition all_zero_context (b : block) : Z :=
  if bPlane b =? 0 then all_zero_luma ((bW b =? tx_w (bTx b)) && (bH b =? tx_h (bTx b))) (maxl (map fst (bAbove b))) (maxl (map fst (bLeft b)))
  else 7 + some_nonzero (bAbove b) + some_nonzero (bLeft b) + (if tx_w (bTx b) * tx_h (bTx b) <? bW b * bH b then 3 else 0).
(** DC category 1: negative, 2: positive *)
Definition dc_context (b : block) : Z :=
  let balance := fold_right (fun p s => (if snd p =? 1 then -1 else if snd p =? 2 then 1 else 0) + s) 0 (bAbove b ++ bLeft b) in
  if balance <? 0 then 1 else if 0 <? balance then 2 else 0.
Definition log_min (t : Z) : Z := Z.log2 (Z.min (tx_w t) (tx_h t)) - 2.
Definition log_max (t : Z) : Z := Z.log2 (Z.max (tx_w t) (tx_h t)) - 2.
Definition size_context (t : Z) : Z := (log_min t + log_max t + 1) / 2.
Definition ptype (b : block) : Z := if bPlane b =? 0 then 0 else 1.

(** the transform type of a luma block: the v-th of its set *)
Definition std_type (b : block) : prog Z :=
  let set := tx_set (bInter b) (bReduced b) (bTx b) in
  if (0 <? set) && (0 <? bQ b) then
    let pick v := Done (nth (Z.to_nat v) (set_types_of (bInter b) set) 0) in
    if bInter b then if set =? 1 then Sym "InterTxTypeSet1Cdf" [log_min (bTx b)] pick else if set =? 2 then Sym "InterTxTypeSet2Cdf" [] pick else Sym "InterTxTypeSet3Cdf" [log_min (bTx b)] pick
    else if set =? 1 then Sym "IntraTxTypeSet1Cdf" [log_min (bTx b); bDir b] pick else Sym "IntraTxTypeSet2Cdf" [log_min (bTx b); bDir b] pick
  else Done 0.
(** the type in use: DCT in both directions when lossless or when a side exceeds 32; a chroma block takes over the type bChroma if its set has it *)
Definition used_type (b : block) (luma : Z) : Z :=
  if bLossless b || (32 <? Z.max (tx_w (bTx b)) (tx_h (bTx b))) then 0
  else if bPlane b =? 0 then luma
  else if existsb (Z.eqb (bChroma b)) (set_types_of (bInter b) (tx_set (bInter b) (bReduced b) (bTx b))) then bChroma b else 0.

(** n bits, most significant first *)
Fixpoint bits (n : nat) (acc : Z) : prog Z := match n with O => Done acc | S n' => Bit (fun v => bits n' (2 * acc + v)) end.
(** number of coefficients *)
Definition eob_table (n : Z) : string :=
  if n =? 16 then "EobPt16Cdf" else if n =? 32 then "EobPt32Cdf" else if n =? 64 then "EobPt64Cdf" else if n =? 128 then "EobPt128Cdf" else if n =? 256 then "EobPt256Cdf" else if n =? 512 then "EobPt512Cdf" else "EobPt1024Cdf".
Definition std_eob (b : block) (c : cls) : prog Z :=
  Sym (eob_table (coded (bTx b))) (if coded (bTx b) <=? 256 then [ptype b; match c with TwoD => 0 | _ => 1 end] else [ptype b]) (fun v =>
  if v <? 2 then Done (v + 1)
  else Sym "EobExtraCdf" [size_context (bTx b); ptype b; v - 2] (fun x =>
       andthen (bits (Z.to_nat (v - 2)) x) (fun extra => Done (2 ^ (v - 1) + 1 + extra)))).
(** the level of the coefficient at p: at most four increments of at most 3 *)
Definition set_at (q : Z -> Z) (p v : Z) : Z -> Z := fun i => if i =? p then v else q i.
Fixpoint std_more (n : nat) (b : block) (c : cls) (q : Z -> Z) (p level : Z) : prog Z :=
  match n with
  | O => Done level
  | S n' => Sym "CoeffBrCdf" [Z.min (size_context (bTx b)) 3; ptype b; range_context (bTx b) c q p] (fun v => if v <? 3 then Done (level + v) else std_more n' b c q p (level + v))
  end.
Definition std_level (b : block) (c : cls) (last : bool) (place p : Z) (q : Z -> Z) : prog Z :=
  andthen (if last then Sym "CoeffBaseEobCdf" [size_context (bTx b); ptype b; last_context (bTx b) place] (fun v => Done (v + 1))
           else Sym "CoeffBaseCdf" [size_context (bTx b); ptype b; base_context (bTx b) c q p] Done)
    (fun v => if 2 <? v then std_more 4 b c q p v else Done v).
(** the levels, from the last coefficient to the first *)
Fixpoint std_levels (b : block) (c : cls) (last : bool) (backwards : list Z) (q : Z -> Z) : prog (Z -> Z) :=
  match backwards with
  | [] => Done q
  | p :: rest => andthen (std_level b c last (Z.of_nat (length rest)) p q) (fun v => std_levels b c false rest (set_at q p v))
  end.
(** Exp-Golomb: k zeros, a one, k bits; at most [lim] bits before the data *)
Fixpoint zeros (lim : nat) (k : nat) : prog nat := match lim with O => Fail | S l => Bit (fun v => if v =? 0 then zeros l (S k) else Done k) end.
Definition golomb (lim : nat) : prog Z := andthen (zeros lim 0) (fun k => bits k 1).
(** signs and large levels, from the first coefficient to the last: coefficients, sum of the magnitudes, DC category.
    Standard: [ac_sign] is one bit and [modulus] is 2^20. *)
Definition std_sign (ac_sign : prog Z) (modulus : Z) (lim : nat) (b : block) (first : bool) (p : Z) (acc : (Z -> Z) * Z * Z) : prog ((Z -> Z) * Z * Z) :=
  let '(q, total, dc) := acc in
  andthen (if q p =? 0 then Done 0 else if first then Sym "DcSignCdf" [ptype b; dc_context b] Done else ac_sign) (fun sign =>
  andthen (if 14 <? q p then andthen (golomb lim) (fun x => Done (x + 14)) else Done (q p)) (fun level =>
  let v := level mod modulus in
  Done (set_at q p (if sign =? 0 then v else - v), total + v, if (p =? 0) && (0 <? level) then if sign =? 0 then 2 else 1 else dc))).
Fixpoint std_signs (ac_sign : prog Z) (modulus : Z) (lim : nat) (b : block) (first : bool) (l : list Z) (acc : (Z -> Z) * Z * Z) : prog ((Z -> Z) * Z * Z) :=
  match l with [] => Done acc | p :: rest => andthen (std_sign ac_sign modulus lim b first p acc) (std_signs ac_sign modulus lim b false rest) end.

(** The result: luma type, type in use, number of coefficients, coefficients by position, and what is left for the neighbours *)
Record parsed := mkParsed { rLuma : Z; rUsed : Z; rEob : Z; rCoef : Z -> Z; rLevel : Z; rDc : Z }.
Definition std_coded (ac_sign : prog Z) (modulus : Z) (lim : nat) (b : block) (scan : cls -> list Z) : prog parsed :=
  andthen (if bPlane b =? 0 then std_type b else Done 0) (fun luma =>
  let ty := used_type b luma in let l := scan (class_of ty) in
  andthen (std_eob b (class_of ty)) (fun eob =>
  let order := firstn (Z.to_nat eob) l in
  andthen (std_levels b (class_of ty) true (rev order) (fun _ => 0)) (fun q =>
  andthen (std_signs ac_sign modulus lim b true order (q, 0, 0)) (fun r =>
  Done (mkParsed luma ty eob (fst (fst r)) (Z.min 63 (snd (fst r))) (snd r)))))).
Definition std_block (ac_sign : prog Z) (modulus : Z) (lim : nat) (b : block) (scan : cls -> list Z) : prog parsed :=
  Sym "TxbSkipCdf" [size_context (bTx b); all_zero_context b] (fun z =>
  if z =? 0 then std_coded ac_sign modulus lim b scan else Done (mkParsed 0 (used_type b 0) 0 (fun _ => 0) 0 0)).
