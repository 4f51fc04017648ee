(** Specification of loop restoration units, written from the AV1 standard (sections 5.11.57, 5.11.58 and 5.9.26 ff.), without reference to the model. *)
From Coq Require Import String.
From Verif Require Import GoBase SpecCoeffs.
Local Open Scope string_scope.
Local Open Scope Z_scope.

(** Restoration units in one direction: a plane of n samples has max 1 (n rounded to units) of them. *)
Definition unit_count (unit n : Z) : Z := Z.max 1 ((n + unit / 2) / unit).
(** With the superblock that covers samples [a, b) of the plane, the units that begin in it (at a multiple of the unit size in [a, b)) are read. *)
Definition begins_in (unit u a b : Z) : Prop := a <= u * unit < b.
(** Size of a plane *)
Definition plane_size (sub : bool) (n : Z) : Z := if sub then (n + 1) / 2 else n.

(** NS(n) with equiprobable bits: values below 2^w - n take one bit less *)
Definition std_ns (n : Z) : prog Z :=
  let w := Z.log2 n + 1 in let m := 2 ^ w - n in
  andthen (bits (Z.to_nat (w - 1)) 0) (fun v => if v <? m then Done v else Bit (fun e => Done (2 * v - m + e))).
(** decode_subexp_bool: round i covers 2^k values, then 2^k, 2^(k+1), ...; the last round what is left.  More than [rounds] rounds give Fail; the standard has no limit, and
    eight rounds are always enough for the parameters used (numSyms at most 128). *)
Fixpoint std_subexp (rounds : nat) (numSyms k i mk : Z) : prog Z :=
  match rounds with
  | O => Fail
  | S rounds =>
      let b2 := if i =? 0 then k else k + i - 1 in
      if numSyms <=? mk + 3 * 2 ^ b2 then andthen (std_ns (numSyms - mk)) (fun v => Done (v + mk))
      else Bit (fun more => if more =? 0 then andthen (bits (Z.to_nat b2) 0) (fun v => Done (v + mk)) else std_subexp rounds numSyms k (i + 1) (mk + 2 ^ b2))
  end.
(** The v-th number in order of distance from the reference r, in 0 .. mx-1 *)
Definition std_recenter (r v : Z) : Z := if 2 * r <? v then v else if Z.odd v then r - (v + 1) / 2 else r + v / 2.
Definition std_near (mx r v : Z) : Z := if 2 * r <=? mx then std_recenter r v else mx - 1 - std_recenter (mx - 1 - r) v.
(** decode_signed_subexp_with_ref_bool: a number in low .. high-1 near r *)
Definition std_signed (rounds : nat) (low high k r : Z) : prog Z := andthen (std_subexp rounds (high - low) k 0 0) (fun v => Done (std_near (high - low) (r - low) v + low)).

(** The self-guided filter of a unit: set and weights, predicted from the last unit's weights (x0, x1).  The filters with radius 0 have no weight of their own. *)
Definition sgr_radius (set i : Z) : Z := if i =? 0 then if (10 <=? set) && (set <=? 13) then 0 else 2 else if 14 <=? set then 0 else 1.
Definition std_sgr (rounds : nat) (x0 x1 : Z) : prog (Z * Z * Z) :=
  andthen (bits 4 0) (fun set =>
  andthen (if sgr_radius set 0 =? 0 then Done 0 else std_signed rounds (-96) 32 4 x0) (fun v0 =>
  andthen (if sgr_radius set 1 =? 0 then Done (Z.max (-32) (Z.min 95 (128 - v0))) else std_signed rounds (-32) 96 4 x1) (fun v1 =>
  Done (set, v0, v1)))).
(** Size of the frame in units of 4 samples, as coded (a multiple of 8 samples) *)
Definition mi_size (n : Z) : Z := 2 * ((n + 7) / 8).
(** Width before superresolution with denominator d (eighths) *)
Definition coded_width (d up : Z) : Z := (8 * up + d / 2) / d.

(** A unit of a plane with switchable restoration: its type, then the coefficients of the filter.  The Wiener filter has 3 coefficients vertically and 3 horizontally, the first of which is 0 for chroma;
    each is coded near the one of the last unit (w), in its own range and with its own parameter. *)
Inductive lr_unit := NoFilter | Wiener (coefficients : list (list Z)) | SelfGuided (set v0 v1 : Z).
Definition std_taps (rounds : nat) (luma : bool) (w : list Z) : prog (list Z) :=
  andthen (if luma then std_signed rounds (-5) 11 1 (nth 0 w 0) else Done 0) (fun a =>
  andthen (std_signed rounds (-23) 9 2 (nth 1 w 0)) (fun b =>
  andthen (std_signed rounds (-17) 47 3 (nth 2 w 0)) (fun c => Done [a; b; c]))).
Definition std_unit (rounds : nat) (luma : bool) (wv wh : list Z) (x0 x1 : Z) : prog lr_unit :=
  Sym "RestorationTypeCdf" [] (fun ty =>
    if ty =? 0 then Done NoFilter
    else if ty =? 1 then andthen (std_taps rounds luma wv) (fun v => andthen (std_taps rounds luma wh) (fun h => Done (Wiener [v; h])))
    else andthen (std_sgr rounds x0 x1) (fun r => let '(set, v0, v1) := r in Done (SelfGuided set v0 v1))).
