(** Specification of motion vector reading, written from the AV1 standard (sections 5.11.26, 5.11.31, 5.11.32 and 6.10.x), without reference to the model. *)
From Coq Require Import String.
From Verif Require Import GoBase SpecCoeffs.
Local Open Scope string_scope.
Local Open Scope Z_scope.

(** The symbols of one component of a motion vector difference. *)
Record mv_syms := mkMvSyms { ySign : Z; yClass : Z; yBits : list Z (** lowest first; one bit in class 0 *); yFr : Z; yHp : Z }.
(** Binary number, lowest bit first *)
Fixpoint binary (l : list Z) : Z := match l with [] => 0 | b :: l => b + 2 * binary l end.
(** The component, in eighths of a sample: class c > 0 starts at 2^(c+3) and has c bits of integer part, two of fraction (quarters) and one more (eighths). *)
Definition mv_magnitude (y : mv_syms) : Z := (if yClass y =? 0 then 0 else 2 ^ (yClass y + 3)) + 8 * binary (yBits y) + 2 * yFr y + yHp y + 1.
Definition mv_value (y : mv_syms) : Z := if ySign y =? 0 then mv_magnitude y else - mv_magnitude y.
(** n bits, each with its own table *)
Fixpoint std_mv_bits (ctx comp : Z) (n : nat) (i : Z) : prog (list Z) :=
  match n with O => Done [] | S n => Sym "MvBitCdf" [ctx; comp; i] (fun b => andthen (std_mv_bits ctx comp n (i + 1)) (fun l => Done (b :: l))) end.
(** read_mv_component; ctx = 1 for intra block copy; comp 0: rows, 1: columns *)
Definition std_mv_component (int high : bool) (ctx comp : Z) : prog mv_syms :=
  Sym "MvSignCdf" [ctx; comp] (fun sign =>
  Sym "MvClassCdf" [ctx; comp] (fun c =>
  if c =? 0 then
    Sym "MvClass0BitCdf" [ctx; comp] (fun b =>
    andthen (if int then Done 3 else Sym "MvClass0FrCdf" [ctx; comp; b] Done) (fun fr =>
    andthen (if high then Sym "MvClass0HpCdf" [ctx; comp] Done else Done 1) (fun hp => Done (mkMvSyms sign c [b] fr hp))))
  else
    andthen (std_mv_bits ctx comp (Z.to_nat c) 0) (fun bits =>
    andthen (if int then Done 3 else Sym "MvFrCdf" [ctx; comp] Done) (fun fr =>
    andthen (if high then Sym "MvHpCdf" [ctx; comp] Done else Done 1) (fun hp => Done (mkMvSyms sign c bits fr hp)))))).
(** read_mv: which components are coded, and their symbols *)
Definition std_mv (int high : bool) (ctx : Z) : prog (option mv_syms * option mv_syms) :=
  Sym "MvJointCdf" [ctx] (fun j =>
  andthen (if (j =? 2) || (j =? 3) then andthen (std_mv_component int high ctx 0) (fun y => Done (Some y)) else Done None) (fun r =>
  andthen (if (j =? 1) || (j =? 3) then andthen (std_mv_component int high ctx 1) (fun y => Done (Some y)) else Done None) (fun c => Done (r, c)))).
Definition mv_part (value : mv_syms -> Z) (o : option mv_syms) : Z := match o with Some y => value y | None => 0 end.
(** The motion vector: the prediction plus the difference *)
Definition mv_sum (value : mv_syms -> Z) (pred : Z * Z) (y : option mv_syms * option mv_syms) : Z * Z := (fst pred + mv_part value (fst y), snd pred + mv_part value (snd y)).

(** The tables, their dimensions and numbers of symbols *)
Definition std_mv_cdfs : list (string * list Z * Z) :=
  [("MvJointCdf", [2], 4); ("MvSignCdf", [2; 2], 2); ("MvClassCdf", [2; 2], 11); ("MvClass0BitCdf", [2; 2], 2); ("MvClass0FrCdf", [2; 2; 2], 4); ("MvClass0HpCdf", [2; 2], 2);
   ("MvBitCdf", [2; 2; 10], 2); ("MvFrCdf", [2; 2], 4); ("MvHpCdf", [2; 2], 2)].

(** ** Modes *)
(** The motion vector of one reference: nearest or near candidate, the frame's global motion, or newly coded *)
Inductive how := Nearest | Near | Global | New.
(** The inter modes by their numbers in the code: single reference 14 to 17, compound 18 to 25 *)
Definition std_how (mode : Z) : option (how * option how) :=
  match mode with
  | 14 => Some (Nearest, None) | 15 => Some (Near, None) | 16 => Some (Global, None) | 17 => Some (New, None)
  | 18 => Some (Nearest, Some Nearest) | 19 => Some (Near, Some Near) | 20 => Some (Nearest, Some New) | 21 => Some (New, Some Nearest)
  | 22 => Some (Near, Some New) | 23 => Some (New, Some Near) | 24 => Some (Global, Some Global) | 25 => Some (New, Some New)
  | _ => None
  end.
Definition how_single (h : how) : Z := match h with Nearest => 14 | Near => 15 | Global => 16 | New => 17 end.
(** The candidate that predicts the vector *)
Definition std_candidate (h : how) (ref_mv_idx found : Z) : Z := match h with Nearest => 0 | New => if found <=? 1 then 0 else ref_mv_idx | _ => ref_mv_idx end.
(** Prediction of a block copied from the same frame: the first candidate that is not zero, else one superblock up, or one superblock and 256 samples to the left in the
    first row of superblocks of the tile (eighths of samples) *)
Definition std_intrabc_pred (s0 s1 : Z * Z) (sb : Z) (first_row : bool) : Z * Z :=
  if negb ((fst s0 =? 0) && (snd s0 =? 0)) then s0 else if negb ((fst s1 =? 0) && (snd s1 =? 0)) then s1
  else if first_row then (0, - 8 * (sb + 256)) else (- 8 * sb, 0).
(** The vector of one list (0 or 1): global motion, a candidate, or a candidate plus a coded difference *)
Definition std_pred (h : how) (l : Z) (stack : list ((Z * Z) * (Z * Z))) (global : (Z * Z) * (Z * Z)) (ref_mv_idx found : Z) : Z * Z :=
  let v := match h with Global => global | _ => nth (Z.to_nat (std_candidate h ref_mv_idx found)) stack ((0, 0), (0, 0)) end in if l =? 0 then fst v else snd v.
Definition std_vector (value : mv_syms -> Z) (int high : bool) (h : how) (pred : Z * Z) : prog (Z * Z) :=
  match h with New => andthen (std_mv int high 0) (fun y => Done (mv_sum value pred y)) | _ => Done pred end.
(** assign_mv without intra block copy: the vectors of the two lists *)
Definition std_assign (value : mv_syms -> Z) (int high : bool) (hs : how * option how) (stack : list ((Z * Z) * (Z * Z))) (global : (Z * Z) * (Z * Z)) (ref_mv_idx found : Z) : prog ((Z * Z) * option (Z * Z)) :=
  andthen (std_vector value int high (fst hs) (std_pred (fst hs) 0 stack global ref_mv_idx found)) (fun m0 =>
  match snd hs with
  | None => Done (m0, None)
  | Some h => andthen (std_vector value int high h (std_pred h 1 stack global ref_mv_idx found)) (fun m1 => Done (m0, Some m1))
  end).
