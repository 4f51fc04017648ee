(** Specification of the block level syntax of inter frames, written from the AV1 standard (sections 5.11.7, 5.11.18 to 5.11.27, 7.10.4 and 8.3.2), without reference to the model. *)
From Coq Require Import String.
From Verif Require Import GoBase SpecCoeffs SpecBlock.
Local Open Scope string_scope.
Local Open Scope Z_scope.

(** The references of a neighbour: 0 for intra, 1 to 7; the second is at most 0 if there is one *)
Definition refs := option (Z * Z).
Definition listed (n : refs) : list Z := match n with Some (a, b) => [a; b] | None => [] end.
(** how often the neighbours use frames of a set *)
Definition uses (A L : refs) (set : list Z) : Z := Z.of_nat (List.length (filter (fun r => existsb (Z.eqb r) set) (listed A ++ listed L))).
(** 0: less than, 1: as often, 2: more than *)
Definition versus (a b : Z) : Z := match a ?= b with Lt => 0 | Eq => 1 | Gt => 2 end.
Definition cmp_refs (A L : refs) (s t : list Z) : Z := versus (uses A L s) (uses A L t).

(** LAST 1, LAST2 2, LAST3 3, GOLDEN 4, BWDREF 5, ALTREF2 6, ALTREF 7.
    The points where the decoder departs: contexts of the second and fourth decision, and whether LAST3 and GOLDEN can be read *)
Record ref_variant := mkRefVariant { rvP2 : refs -> refs -> Z; rvP4 : refs -> refs -> Z; rvRest : bool }.
Definition std_single_ref (v : ref_variant) (A L : refs) : prog Z :=
  Sym "SingleRefCdf" [cmp_refs A L [1; 2; 3; 4] [5; 6; 7]; 0] (fun back =>
  if back =? 1 then
    Sym "SingleRefCdf" [rvP2 v A L; 1] (fun alt =>
    if alt =? 1 then Done 7 else Sym "SingleRefCdf" [cmp_refs A L [5] [6]; 5] (fun alt2 => Done (if alt2 =? 1 then 6 else 5)))
  else
    Sym "SingleRefCdf" [cmp_refs A L [1; 2] [3; 4]; 2] (fun far =>
    if far =? 1 then if rvRest v then Sym "SingleRefCdf" [cmp_refs A L [3] [4]; 4] (fun gold => Done (if gold =? 1 then 4 else 3)) else Fail
    else Sym "SingleRefCdf" [rvP4 v A L; 3] (fun last2 => Done (if last2 =? 1 then 2 else 1)))).
Definition ref_standard : ref_variant := mkRefVariant (fun A L => cmp_refs A L [5; 6] [7]) (fun A L => cmp_refs A L [1] [2]) true.

(** Whether a block is inter coded: context from the neighbours that are intra coded *)
Definition intra_nb (n : refs) : bool := match n with Some (a, _) => a <=? 0 | None => false end.
Definition inter_ctx (A L : refs) : Z :=
  match A, L with
  | Some _, Some _ => if intra_nb A && intra_nb L then 3 else if intra_nb A || intra_nb L then 1 else 0
  | _, _ => if intra_nb A || intra_nb L then 2 else 0
  end.
(** feature of the segment: the reference frame, or global motion *)
Definition std_is_inter (segRef : option Z) (segGlobal : bool) (A L : refs) : prog Z :=
  match segRef with
  | Some r => Done (if r =? 0 then 0 else 1)
  | None => if segGlobal then Done 1 else Sym "IsInterCdf" [inter_ctx A L] Done
  end.

(** The segment predicted from the previous map: the smallest in the part of the block inside the frame *)
Definition is_least (map : Z -> Z -> option Z) (row col h w : Z) (v : Z) : Prop :=
  (forall r c s, row <= r < row + h -> col <= c < col + w -> map r c = Some s -> v <= s) /\
  (v = 7 \/ exists r c, row <= r < row + h /\ col <= c < col + w /\ map r c = Some v).

(** Intra blocks of inter frames: classes of sizes by the smaller side: 4, 8, 16, more *)
Definition size_class (b : Z) : Z := Z.min 3 (Z.log2 (Z.min (bsize_w b) (bsize_h b)) - 2).
Record iblock := mkIblock { ibMode : Z; ibAngle : Z; ibChroma : option chroma }.
Definition std_intra_block (neg : Z) (rest : bool) (f : frm) (k : blk) (lossless : bool) : prog iblock :=
  Sym "YModeCdf" [size_class (kSize k)] (fun m =>
  andthen (std_angle k m) (fun a =>
  andthen (if kChroma k then andthen (std_chroma 32 neg f k lossless m) (fun c => Done (Some c)) else Done None) (fun c =>
  andthen (std_palette rest f k m c) (fun _ =>
  andthen (std_filter rest f k m) (fun x => match x with Some _ => Fail | None => Done (mkIblock m a c) end))))).

(** Modes of inter blocks with one reference *)
Inductive imode := Nearest | Near | Global | New.
Definition std_inter_mode (rest : bool) (newCtx zeroCtx refCtx : Z) : prog imode :=
  Sym "NewMvCdf" [newCtx] (fun v => if v =? 0 then Done New else
  Sym "ZeroMvCdf" [zeroCtx] (fun v => if v =? 0 then Done Global else
  if rest then Sym "RefMvCdf" [refCtx] (fun v => Done (if v =? 0 then Nearest else Near)) else Fail)).
(** The index of the candidate: from [first] on, at most two flags, one for each further candidate *)
Definition std_flag (rest : bool) (found i : Z) (ctx : Z -> Z) (no : Z -> prog Z) (old : Z) : prog Z :=
  if i + 1 <? found then if rest then Sym "DrlModeCdf" [ctx i] (fun v => if v =? 0 then Done i else no (i + 1)) else Fail else no old.
Definition std_drl (rest : bool) (m : imode) (found : Z) (ctx : Z -> Z) : prog Z :=
  match m with
  | New => std_flag rest found 0 ctx (fun o => std_flag rest found 1 ctx Done o) 0
  | Near => std_flag rest found 1 ctx (fun o => std_flag rest found 2 ctx Done o) 1
  | _ => Done 0
  end.
(** An inter block that is not compound, warped, overlapped or inter-intra and has the filter of the frame *)
Record nblock := mkNblock { nbRef : Z; nbMode : imode; nbIdx : Z }.
Definition std_inter_block {V} (v : ref_variant) (A L : refs) (stack : Z -> Z * Z * Z * Z) (drlCtx : Z -> Z) (vector : Z -> imode -> Z -> prog V) : prog (nblock * V) :=
  andthen (std_single_ref v A L) (fun r => let '(found, newCtx, zeroCtx, refCtx) := stack r in
  andthen (std_inter_mode (rvRest v) newCtx zeroCtx refCtx) (fun m =>
  andthen (std_drl (rvRest v) m found drlCtx) (fun i =>
  andthen (vector r m i) (fun mv => Done (mkNblock r m i, mv))))).
(** A block of an inter frame without segmentation and skip mode *)
Record fblock V := mkFblock { fbSkip : Z; fbCdef : option Z; fbQ : Z; fbLf : list Z; fbBlock : (nblock * V) + iblock }.
Arguments mkFblock {V}. Arguments fbSkip {V}. Arguments fbCdef {V}. Arguments fbQ {V}. Arguments fbLf {V}. Arguments fbBlock {V}.
Definition std_inter_frame_block {V} (v : ref_variant) (neg : Z) (f : frm) (k : blk) (A L : refs) (stack : Z -> Z * Z * Z * Z) (drlCtx : Z -> Z) (vector : Z -> imode -> Z -> prog V)
  (read : bool) (cdef : option Z) (q : Z) (lf : list Z) : prog (fblock V) :=
  andthen (std_skip (skip_count k) f 0) (fun skip =>
  andthen (std_cdef f skip cdef) (fun cdef =>
  andthen (std_q f k skip read q) (fun q =>
  andthen (std_lf f k skip read lf) (fun lf =>
  andthen (std_is_inter None false A L) (fun inter =>
  andthen (if inter =? 1 then andthen (std_inter_block v A L stack drlCtx vector) (fun b => Done (inl b)) else andthen (std_intra_block neg (rvRest v) f k (fLossless f 0)) (fun b => Done (inr b))) (fun b =>
  Done (mkFblock skip cdef q lf b))))))).

(** Motion mode: the blocks for which it is not coded (simple) *)
Definition simple_only (skip_mode switchable compound overlappable force_int : bool) (w h : Z) (global : bool) (gm_type : Z) : bool :=
  skip_mode || negb switchable || (Z.min w h <? 8) || (negb force_int && global && (1 <? gm_type)) || compound || negb overlappable.
(** Interpolation filter: whether it is coded *)
Definition filter_coded (skip_mode warped : bool) (w h : Z) (global single : bool) (gm0 gm1 : Z) : bool :=
  if skip_mode || warped then false else if (8 <=? Z.min w h) && global then (if single then gm0 else gm1) =? 1 else true.
(** A neighbour from which a warp is estimated: inter coded from the same reference only *)
Definition warp_neighbour (n : refs) (ref : Z) : bool := match n with Some (a, b) => (0 <? ref) && (a =? ref) && (b <=? 0) | None => false end.
(** Inter-intra: whether the flag is coded: blocks of 8x8 (3) to 32x32 (9) with one reference *)
Definition ii_coded (skip_mode enabled compound : bool) (size : Z) : bool := negb skip_mode && enabled && negb compound && (3 <=? size) && (size <=? 9).
