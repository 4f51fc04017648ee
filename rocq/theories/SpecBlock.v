(** Specification of the block level syntax of intra frames, written from the AV1 standard (sections 5.11.7 to 5.11.46 and 8.3.2), without reference to the
    model.  A program asks for symbols (Sym table path) and equiprobable bits (Bit); see SpecCoeffs.v. *)
From Coq Require Import String.
From Verif Require Import GoBase SpecMath SpecSymbol SpecCoeffs SpecPartition.
Local Open Scope string_scope.
Local Open Scope Z_scope.

(** The CDF tables of the block level: dimensions and number of symbols. *)
Definition block_cdfs : list (string * list Z * Z) :=
  [("IntraFrameYModeCdf", [5; 5], 13); ("SegmentIdCdf", [3], 8); ("SkipCdf", [3], 2); ("DeltaQCdf", [], 4); ("DeltaLFCdf", [], 4); ("DeltaLFMultiCdf", [4], 4);
   ("AngleDeltaCdf", [8], 7); ("CflSignCdf", [], 8); ("CflAlphaCdf", [6], 16); ("UVModeCflAllowedCdf", [13], 14); ("UVModeCflNotAllowedCdf", [13], 13);
   ("PaletteYModeCdf", [7; 3], 2); ("PaletteUVModeCdf", [2], 2); ("FilterIntraCdf", [22], 2); ("FilterIntraModeCdf", [], 5);
   ("Tx8x8Cdf", [3], 2); ("Tx16x16Cdf", [3], 3); ("Tx32x32Cdf", [3], 3); ("Tx64x64Cdf", [3], 3);
   ("YModeCdf", [4], 13); ("IsInterCdf", [4], 2); ("SingleRefCdf", [3; 6], 2); ("NewMvCdf", [6], 2); ("ZeroMvCdf", [2], 2)].

(** Sizes of blocks. *)
Definition bsize_w (b : Z) : Z := fst (nth (Z.to_nat b) block_dims (0, 0)).
Definition bsize_h (b : Z) : Z := snd (nth (Z.to_nat b) block_dims (0, 0)).

(** What is known about a neighbouring block, and about the block to be decoded: its size, the neighbours above and to the left (if any), the segment of the
    neighbour above and to the left, and whether it carries chroma. *)
Record nb := mkNb { nMode : Z; nSkip : Z; nSeg : Z; nPalette : Z }.
Record blk := mkBlk { kSize : Z; kAbove : option nb; kLeft : option nb; kCorner : option Z; kChroma : bool }.
(** What the headers say. *)
Record frm := mkFrm {
  fDisable : bool; fSegEnabled : bool; fPreSkip : bool; fLastSeg : Z; fSegSkip : Z -> bool; fLossless : Z -> bool;
  fCdef : bool; fCdefBits : Z; f128 : bool; fQRes : Z; fLf : bool; fLfMulti : bool; fLfRes : Z; fPlanes : Z; fSubX : bool; fSubY : bool; fScreen : bool; fFilter : bool }.

(** Luma modes fall into five classes. *)
Definition mode_class (m : Z) : Z :=
  if existsb (Z.eqb m) [1; 10] then 1 else if existsb (Z.eqb m) [2; 11] then 2 else if existsb (Z.eqb m) [3; 8] then 3 else if existsb (Z.eqb m) [4; 5; 6; 7] then 4 else 0.
Definition class_at (n : option nb) : Z := match n with Some n => mode_class (nMode n) | None => 0 end.
Definition std_y_mode (k : blk) : prog Z := Sym "IntraFrameYModeCdf" [class_at (kAbove k); class_at (kLeft k)] Done.
(** n bits *)
Definition literal_bits (n : Z) : prog Z := bits (Z.to_nat n) 0.

(** Segment: predicted from the neighbours; coded unless skipped. *)
Definition seg_pred (k : blk) : Z :=
  match kAbove k, kLeft k with
  | None, None => 0
  | None, Some l => nSeg l
  | Some a, None => nSeg a
  | Some a, Some l => match kCorner k with Some c => if c =? nSeg a then nSeg a else nSeg l | None => nSeg l end
  end.
Definition seg_context (k : blk) : Z :=
  match kAbove k, kLeft k, kCorner k with
  | Some a, Some l, Some c => if (c =? nSeg a) && (c =? nSeg l) then 2 else if (c =? nSeg a) || (c =? nSeg l) || (nSeg a =? nSeg l) then 1 else 0
  | _, _, _ => 0
  end.
(** [decode] decodes the coded value given the prediction and the number of segments *)
Definition std_segment (decode : Z -> Z -> Z -> prog Z) (f : frm) (k : blk) (skip : Z) : prog Z :=
  if fSegEnabled f then
    if skip =? 1 then Done (seg_pred k) else Sym "SegmentIdCdf" [seg_context k] (fun v => decode v (seg_pred k) (fLastSeg f + 1))
  else Done 0.
(** Skip: [ctx] counts the neighbours that are skipped *)
Definition std_skip (ctx : Z) (f : frm) (seg : Z) : prog Z :=
  if fPreSkip f && fSegEnabled f && fSegSkip f seg then Done 1 else Sym "SkipCdf" [ctx] Done.
Definition skip_count (k : blk) : Z := match kAbove k with Some a => nSkip a | None => 0 end + match kLeft k with Some l => nSkip l | None => 0 end.
(** CDEF strength index of the 64x64 area; [old] is None if it has not been read *)
Definition std_cdef (f : frm) (skip : Z) (old : option Z) : prog (option Z) :=
  if (skip =? 1) || negb (fCdef f) then Done old
  else match old with Some v => Done (Some v) | None => andthen (literal_bits (fCdefBits f)) (fun v => Done (Some v)) end.
(** A delta: magnitude with escape at 3, then sign if not zero. *)
Definition std_delta (table : string) (path : list Z) : prog Z :=
  Sym table path (fun v =>
  andthen (if v =? 3 then andthen (literal_bits 3) (fun n => andthen (literal_bits (n + 1)) (fun x => Done (x + 2 ^ (n + 1) + 1))) else Done v) (fun a =>
  if a =? 0 then Done 0 else Bit (fun s => Done (if s =? 0 then a else - a)))).
Definition clamp (lo hi v : Z) : Z := Z.max lo (Z.min hi v).
Definition whole_sb_skipped (f : frm) (k : blk) (skip : Z) : bool := (kSize k =? (if f128 f then 15 else 12)) && (skip =? 1).
Definition std_q (f : frm) (k : blk) (skip : Z) (read : bool) (q : Z) : prog Z :=
  if whole_sb_skipped f k skip || negb read then Done q
  else andthen (std_delta "DeltaQCdf" []) (fun d => Done (if d =? 0 then q else clamp 1 255 (q + d * 2 ^ fQRes f))).
Fixpoint std_lfs (f : frm) (i : Z) (l : list Z) : prog (list Z) :=
  match l with
  | [] => Done []
  | v :: l => andthen (if fLfMulti f then std_delta "DeltaLFMultiCdf" [i] else std_delta "DeltaLFCdf" []) (fun d =>
              andthen (std_lfs f (i + 1) l) (fun l => Done ((if d =? 0 then v else clamp (-63) 63 (v + d * 2 ^ fLfRes f)) :: l)))
  end.
(** the loop filter deltas: one, or one per filter level (four, two without chroma) *)
Definition lf_count (f : frm) : nat := if fLfMulti f then if 1 <? fPlanes f then 4 else 2 else 1.
Definition std_lf (f : frm) (k : blk) (skip : Z) (read : bool) (l : list Z) : prog (list Z) :=
  if whole_sb_skipped f k skip || negb read || negb (fLf f) then Done l
  else andthen (std_lfs f 0 (firstn (lf_count f) l)) (fun l' => Done (l' ++ skipn (lf_count f) l)%list).
(** Angle of directional modes (1 to 8): -3 to 3, for blocks of at least 8x8 *)
Definition std_angle (k : blk) (mode : Z) : prog Z :=
  if (3 <=? kSize k) && (1 <=? mode) && (mode <=? 8) then Sym "AngleDeltaCdf" [mode - 1] (fun v => Done (v - 3)) else Done 0.
(** Chroma from luma: signs (0: zero, 1: negative, 2: positive) of both planes, not both zero; magnitudes 1 to 16.  [neg] is the code of the negative sign: 1. *)
Definition std_alpha (neg s s' : Z) : prog Z :=
  if s =? 0 then Done 0 else Sym "CflAlphaCdf" [3 * (s - 1) + s'] (fun v => Done (if s =? neg then - (v + 1) else v + 1)).
Definition std_cfl (neg : Z) : prog (Z * Z) :=
  Sym "CflSignCdf" [] (fun j =>
  let su := (j + 1) / 3 in let sv := (j + 1) mod 3 in
  andthen (std_alpha neg su sv) (fun u => andthen (std_alpha neg sv su) (fun v => Done (u, v)))).
(** Chroma mode (13: chroma from luma): allowed for lossless blocks whose chroma block is 4x4 and for others of at most [lim] = 32 luma samples a side *)
Definition chroma_side (v : Z) (sub : bool) : Z := if sub then Z.max 4 (v / 2) else v.
Definition cfl_allowed (lim : Z) (f : frm) (k : blk) (lossless : bool) : bool :=
  if lossless then (chroma_side (bsize_w (kSize k)) (fSubX f) =? 4) && (chroma_side (bsize_h (kSize k)) (fSubY f) =? 4)
  else Z.max (bsize_w (kSize k)) (bsize_h (kSize k)) <=? lim.
Record chroma := mkChroma { cMode : Z; cCfl : option (Z * Z); cAngle : Z }.
Definition std_chroma (lim neg : Z) (f : frm) (k : blk) (lossless : bool) (ymode : Z) : prog chroma :=
  Sym (if cfl_allowed lim f k lossless then "UVModeCflAllowedCdf" else "UVModeCflNotAllowedCdf") [ymode] (fun m =>
  andthen (if m =? 13 then andthen (std_cfl neg) (fun a => Done (Some a)) else Done None) (fun a =>
  andthen (std_angle k m) (fun ang => Done (mkChroma m a ang)))).
(** Palettes: whether one is used.  Its colours are not specified here: Fail. *)
Definition palette_possible (f : frm) (k : blk) : bool := fScreen f && (3 <=? kSize k) && (bsize_w (kSize k) <=? 64) && (bsize_h (kSize k) <=? 64).
Definition pal_count (k : blk) : Z :=
  match kAbove k with Some a => if 0 <? nPalette a then 1 else 0 | None => 0 end + match kLeft k with Some l => if 0 <? nPalette l then 1 else 0 | None => 0 end.
Definition std_palette (rest : bool) (f : frm) (k : blk) (ymode : Z) (c : option chroma) : prog unit :=
  if palette_possible f k then
    andthen (if ymode =? 0 then Sym "PaletteYModeCdf" [Z.log2 (bsize_w (kSize k)) + Z.log2 (bsize_h (kSize k)) - 6; pal_count k] (fun v => if v =? 0 then Done tt else Fail) else Done tt) (fun _ =>
    match c with
    | Some c => if cMode c =? 0 then if rest then Sym "PaletteUVModeCdf" [0] (fun v => if v =? 0 then Done tt else Fail) else Fail else Done tt
    | None => Done tt
    end)
  else Done tt.
(** Recursive filter prediction: its mode, if used *)
Definition std_filter (rest : bool) (f : frm) (k : blk) (ymode : Z) : prog (option Z) :=
  if fFilter f && (ymode =? 0) && (Z.max (bsize_w (kSize k)) (bsize_h (kSize k)) <=? 32) then
    if rest then Sym "FilterIntraCdf" [kSize k] (fun v => if v =? 0 then Done None else Sym "FilterIntraModeCdf" [] (fun m => Done (Some m))) else Fail
  else Done None.

(** ** intra_frame_mode_info without intra block copy *)
Record info := mkInfo { iSkip : Z; iSeg : Z; iCdef : option Z; iQ : Z; iLf : list Z; iYMode : Z; iYAngle : Z; iChroma : option chroma; iFilter : option Z }.
(** The points where the decoder departs from the standard; [standard] is the standard. *)
Record variant := mkVariant { vSegment : Z -> Z -> Z -> prog Z; vCflLimit : Z; vNegative : Z; vRest : bool }.
Definition std_intra (v : variant) (f : frm) (k : blk) (read : bool) (cdef : option Z) (q : Z) (lf : list Z) : prog info :=
  andthen (if fPreSkip f then std_segment (vSegment v) f k 0 else Done 0) (fun seg0 =>
  andthen (std_skip (skip_count k) f seg0) (fun skip =>
  andthen (if fPreSkip f then Done seg0 else std_segment (vSegment v) f k skip) (fun seg =>
  andthen (std_cdef f skip cdef) (fun cdef =>
  andthen (std_q f k skip read q) (fun q =>
  andthen (std_lf f k skip read lf) (fun lf =>
  andthen (std_y_mode k) (fun ymode =>
  andthen (std_angle k ymode) (fun yangle =>
  andthen (if kChroma k then andthen (std_chroma (vCflLimit v) (vNegative v) f k (fLossless f seg) ymode) (fun c => Done (Some c)) else Done None) (fun c =>
  andthen (std_palette (vRest v) f k ymode c) (fun _ =>
  andthen (std_filter (vRest v) f k ymode) (fun flt =>
  Done (mkInfo skip seg cdef q lf ymode yangle c flt)))))))))))).
(** neg_deinterleave of the standard (SpecMath.v), then clipped *)
Definition std_decode_segment (diff ref max : Z) : prog Z := Done (clamp 0 (max - 1) (spec_neg_deinterleave diff ref max)).
Definition standard : variant := mkVariant std_decode_segment 32 1 true.
