(** AV1 spec section 5.9: parts of uncompressed_header( ) as encoders, independent of the model. *)
From Coq Require Import ZArith List Bool.
From Verif Require Import SpecBits.
Import ListNotations.
Open Scope Z_scope.

(** 5.9.8 superres_params( ), 5.9.5 frame_size( ): the coded width of a frame *)
Definition enc_superres (enable : bool) (denom : option Z) : list bool :=
  if enable then match denom with Some d => [true] ++ enc_f 3 (d - 9) | None => [false] end else [].

(** 5.9.13 read_delta_q( ): None = not coded *)
Definition enc_delta_q (d : option Z) : list bool :=
  match d with Some v => [true] ++ enc_su 7 v | None => [false] end.
Definition valid_delta_q (d : option Z) : Prop := match d with Some v => -64 <= v < 64 | None => True end.
Definition dq (d : option Z) : Z := match d with Some v => v | None => 0 end.
(** 5.9.12 quantization_params( ) *)
Record spec_quant := mkSpecQuant {
  sq_base : Z; sq_ydc : option Z; sq_diff : bool; sq_udc : option Z; sq_uac : option Z; sq_vdc : option Z; sq_vac : option Z;
  sq_qm : option (Z * Z * Z) }.
Definition valid_quant (separate : bool) (q : spec_quant) : Prop :=
  0 <= sq_base q < 256 /\ valid_delta_q (sq_ydc q) /\ valid_delta_q (sq_udc q) /\ valid_delta_q (sq_uac q) /\
  valid_delta_q (sq_vdc q) /\ valid_delta_q (sq_vac q) /\ (sq_diff q = true -> separate = true) /\
  match sq_qm q with Some (y, u, v) => 0 <= y < 16 /\ 0 <= u < 16 /\ 0 <= v < 16 /\ (separate = false -> v = u) | None => True end.
Definition enc_quant (numPlanes : Z) (separate : bool) (q : spec_quant) : list bool :=
  enc_f 8 (sq_base q) ++ enc_delta_q (sq_ydc q) ++
  (if 1 <? numPlanes then
     (if separate then [sq_diff q] else []) ++ enc_delta_q (sq_udc q) ++ enc_delta_q (sq_uac q) ++
     (if sq_diff q then enc_delta_q (sq_vdc q) ++ enc_delta_q (sq_vac q) else [])
   else []) ++
  match sq_qm q with
  | Some (y, u, v) => [true] ++ enc_f 4 y ++ enc_f 4 u ++ (if separate then enc_f 4 v else [])
  | None => [false] end.

(** 5.9.14 segmentation_params( ), features of a frame without primary reference: 8 segments of 8 optional feature values.
    Feature j has seg_bits j bits (plus a sign bit if signed) and is limited to seg_max j. *)
Definition seg_bits (j : nat) : nat := nth j [8; 6; 6; 6; 6; 3; 0; 0]%nat 0%nat.
Definition seg_max (j : nat) : Z := nth j [255; 63; 63; 63; 63; 7; 0; 0] 0.
Definition seg_signed (j : nat) : bool := (j <? 5)%nat.
Definition enc_feature (j : nat) (f : option Z) : list bool :=
  match f with
  | Some v => [true] ++ (if seg_signed j then enc_su (S (seg_bits j)) v else enc_f (seg_bits j) v)
  | None => [false] end.
Definition valid_feature (j : nat) (f : option Z) : Prop :=
  match f with
  | Some v => if seg_signed j then - seg_max j <= v <= seg_max j else 0 <= v <= seg_max j
  | None => True end.
Fixpoint enc_features (j : nat) (l : list (option Z)) : list bool :=
  match l with [] => [] | f :: t => enc_feature j f ++ enc_features (S j) t end.
Fixpoint valid_features (j : nat) (l : list (option Z)) : Prop :=
  match l with [] => True | f :: t => valid_feature j f /\ valid_features (S j) t end.
Definition valid_segmentation (s : list (list (option Z))) : Prop :=
  length s = 8%nat /\ Forall (fun l => length l = 8%nat /\ valid_features 0 l) s.
(** None: segmentation_enabled = 0 *)
Definition enc_segmentation (s : option (list (list (option Z)))) : list bool :=
  match s with None => [false] | Some s => [true] ++ flat_map (enc_features 0) s end.

(** 5.9.17 delta_q_params( ), 5.9.18 delta_lf_params( ): None = not present *)
Definition enc_delta_q_params (base : Z) (r : option Z) : list bool :=
  if 0 <? base then match r with Some v => [true] ++ enc_f 2 v | None => [false] end else [].
Definition enc_delta_lf_params (deltaQ : bool) (intrabc : bool) (r : option (Z * bool)) : list bool :=
  if deltaQ then if intrabc then [] else match r with Some (v, m) => [true] ++ enc_f 2 v ++ [m] | None => [false] end else [].

(** 5.9.11 loop_filter_params( ) when it is coded: levels, sharpness (f(3)) and optional delta updates *)
Record spec_lf := mkSpecLf {
  lf_l0 : Z; lf_l1 : Z; lf_l2 : Z; lf_l3 : Z; lf_sharp : Z;
  lf_deltas : option (option (list (option Z) * list (option Z))) }.
Definition valid_lf (f : spec_lf) : Prop :=
  0 <= lf_l0 f < 64 /\ 0 <= lf_l1 f < 64 /\ 0 <= lf_l2 f < 64 /\ 0 <= lf_l3 f < 64 /\ 0 <= lf_sharp f < 8 /\
  match lf_deltas f with
  | Some (Some (r, m)) => length r = 8%nat /\ length m = 2%nat /\ Forall valid_delta_q r /\ Forall valid_delta_q m
  | _ => True end.
Definition enc_lf_levels (numPlanes : Z) (f : spec_lf) : list bool :=
  enc_f 6 (lf_l0 f) ++ enc_f 6 (lf_l1 f) ++
  (if (1 <? numPlanes) && negb ((lf_l0 f =? 0) && (lf_l1 f =? 0)) then enc_f 6 (lf_l2 f) ++ enc_f 6 (lf_l3 f) else []).
Definition enc_lf_deltas (f : spec_lf) : list bool :=
  match lf_deltas f with
  | None => [false]
  | Some None => [true; false]
  | Some (Some (r, m)) => [true; true] ++ flat_map enc_delta_q r ++ flat_map enc_delta_q m
  end.
Definition enc_lf (numPlanes : Z) (f : spec_lf) : list bool :=
  enc_lf_levels numPlanes f ++ enc_f 3 (lf_sharp f) ++ enc_lf_deltas f.

(** 5.9.19 cdef_params( ) when it is coded: damping 3..6 and 2^bits strengths (y primary, y secondary, uv primary, uv secondary);
    a secondary strength is 0, 1, 2 or 4 and is coded in two bits, 4 as 3 *)
Definition enc_sec (s : Z) : list bool := enc_f 2 (if s =? 4 then 3 else s).
Definition valid_sec (s : Z) : Prop := s = 0 \/ s = 1 \/ s = 2 \/ s = 4.
Definition enc_cdef_strength (numPlanes : Z) (x : Z * Z * (Z * Z)) : list bool :=
  let '(yp, ys, (up, us)) := x in
  enc_f 4 yp ++ enc_sec ys ++ (if 1 <? numPlanes then enc_f 4 up ++ enc_sec us else []).
Definition valid_cdef_strength (numPlanes : Z) (x : Z * Z * (Z * Z)) : Prop :=
  let '(yp, ys, (up, us)) := x in
  0 <= yp < 16 /\ valid_sec ys /\ (if 1 <? numPlanes then 0 <= up < 16 /\ valid_sec us else up = 0 /\ us = 0).
Definition enc_cdef (numPlanes : Z) (damping bits : Z) (l : list (Z * Z * (Z * Z))) : list bool :=
  enc_f 2 (damping - 3) ++ enc_f 2 bits ++ flat_map (enc_cdef_strength numPlanes) l.

(** 5.9.20 lr_params( ) when it is coded.  Restoration types: 0 none, 1 Wiener, 2 self-guided, 3 switchable; lr_type codes
    0 none, 1 switchable, 2 Wiener, 3 self-guided.  Luma unit size 64, 128 or 256; chroma units may be half. *)
Definition lr_code (t : Z) : Z := if t =? 1 then 2 else if t =? 2 then 3 else if t =? 3 then 1 else 0.
Definition enc_unit (use128 : bool) (size : Z) : list bool :=
  if use128 then [size =? 256]
  else if size =? 64 then [false] else [true; size =? 256].
Definition enc_lr (use128 subsampled : bool) (types : list Z) (size : Z) (half : bool) : list bool :=
  flat_map (fun t => enc_f 2 (lr_code t)) types ++
  (if existsb (fun t => negb (t =? 0)) types then
     enc_unit use128 size ++ (if subsampled && existsb (fun t => negb (t =? 0)) (tl types) then [half] else [])
   else []).
Definition valid_lr (use128 : bool) (types : list Z) (size : Z) : Prop :=
  (length types = 1%nat \/ length types = 3%nat) /\ Forall (fun t => 0 <= t <= 3) types /\
  (if use128 then size = 128 \/ size = 256 else size = 64 \/ size = 128 \/ size = 256).

(** 5.9.30 film_grain_params( ) with apply_grain = 1 and update_grain = 1 *)
Record spec_grain := mkSpecGrain {
  gr_seed : Z; gr_y : list (Z * Z); gr_from_luma : bool; gr_cb : list (Z * Z); gr_cr : list (Z * Z);
  gr_scaling : Z; gr_lag : Z; gr_ay : list Z; gr_acb : list Z; gr_acr : list Z; gr_shift : Z; gr_gshift : Z;
  gr_cbp : Z * Z * Z; gr_crp : Z * Z * Z; gr_overlap : bool; gr_clip : bool }.
Definition byte (x : Z) : Prop := 0 <= x < 256.
Definition point_ok (p : Z * Z) : Prop := byte (fst p) /\ byte (snd p).
Definition chroma_points_coded (mono subX subY : bool) (g : spec_grain) : bool :=
  negb (mono || gr_from_luma g || (subX && subY && (length (gr_y g) =? 0)%nat)).
Definition luma_taps (lag : Z) : Z := 2 * lag * (lag + 1).
Definition nonempty {A} (l : list A) : bool := negb (length l =? 0)%nat.
Definition valid_grain (mono subX subY : bool) (g : spec_grain) : Prop :=
  0 <= gr_seed g < 65536 /\ (length (gr_y g) < 16)%nat /\ (length (gr_cb g) < 16)%nat /\ (length (gr_cr g) < 16)%nat /\
  Forall point_ok (gr_y g) /\ Forall point_ok (gr_cb g) /\ Forall point_ok (gr_cr g) /\
  (mono = true -> gr_from_luma g = false) /\
  (chroma_points_coded mono subX subY g = false -> gr_cb g = [] /\ gr_cr g = []) /\
  0 <= gr_scaling g < 4 /\ 0 <= gr_lag g < 4 /\ 0 <= gr_shift g < 4 /\ 0 <= gr_gshift g < 4 /\
  Forall byte (gr_ay g) /\ Forall byte (gr_acb g) /\ Forall byte (gr_acr g) /\
  (let chroma := luma_taps (gr_lag g) + (if nonempty (gr_y g) then 1 else 0) in
   Z.of_nat (length (gr_ay g)) = (if nonempty (gr_y g) then luma_taps (gr_lag g) else 0) /\
   Z.of_nat (length (gr_acb g)) = (if gr_from_luma g || nonempty (gr_cb g) then chroma else 0) /\
   Z.of_nat (length (gr_acr g)) = (if gr_from_luma g || nonempty (gr_cr g) then chroma else 0)) /\
  (let '(a, b, c) := gr_cbp g in if nonempty (gr_cb g) then byte a /\ byte b /\ 0 <= c < 512 else a = 0 /\ b = 0 /\ c = 0) /\
  (let '(a, b, c) := gr_crp g in if nonempty (gr_cr g) then byte a /\ byte b /\ 0 <= c < 512 else a = 0 /\ b = 0 /\ c = 0).
Definition enc_point (p : Z * Z) : list bool := enc_f 8 (fst p) ++ enc_f 8 (snd p).
Definition enc_points (l : list (Z * Z)) : list bool := enc_f 4 (Z.of_nat (length l)) ++ flat_map enc_point l.
Definition enc_mult (coded : bool) (p : Z * Z * Z) : list bool :=
  let '(a, b, c) := p in if coded then enc_f 8 a ++ enc_f 8 b ++ enc_f 9 c else [].
Definition enc_grain (inter mono subX subY : bool) (g : spec_grain) : list bool :=
  [true] ++ enc_f 16 (gr_seed g) ++ (if inter then [true] else []) ++ enc_points (gr_y g) ++
  (if mono then [] else [gr_from_luma g]) ++
  (if chroma_points_coded mono subX subY g then enc_points (gr_cb g) ++ enc_points (gr_cr g) else []) ++
  enc_f 2 (gr_scaling g) ++ enc_f 2 (gr_lag g) ++
  flat_map (enc_f 8) (gr_ay g) ++ flat_map (enc_f 8) (gr_acb g) ++ flat_map (enc_f 8) (gr_acr g) ++
  enc_f 2 (gr_shift g) ++ enc_f 2 (gr_gshift g) ++
  enc_mult (nonempty (gr_cb g)) (gr_cbp g) ++ enc_mult (nonempty (gr_cr g)) (gr_crp g) ++
  [gr_overlap g; gr_clip g].

(** 5.9.26-28 decode_subexp( numSyms ) with k = 3: the value interval [mk, mk + a) at round i, a final interval of the rest *)
Fixpoint enc_subexp (fuel : nat) (numSyms i mk v : Z) : list bool :=
  match fuel with
  | O => []
  | S f =>
      let b2 := if i =? 0 then 3 else 3 + i - 1 in
      let a := 2 ^ b2 in
      if numSyms <=? mk + 3 * a then enc_ns (numSyms - mk) (v - mk)
      else if v <? mk + a then [false] ++ enc_f (Z.to_nat b2) (v - mk)
      else [true] ++ enc_subexp f numSyms (i + 1) (mk + a) v
  end.
