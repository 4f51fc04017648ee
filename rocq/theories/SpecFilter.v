(** The AV1 loop filter (section 7.14 of the AV1 specification), written on the samples across an edge:
    p3 p2 p1 p0 | q0 q1 q2 q3.  Used in the statements of C38, C65, C66. *)
From Coq Require Import ZArith List Bool. Import ListNotations. Open Scope Z_scope.

Definition sample (bd v : Z) : Prop := 0 <= v < 2 ^ bd.
Definition clamp (lo hi v : Z) : Z := Z.max lo (Z.min hi v).
(** signed clamp to bd bits *)
Definition sclamp (bd v : Z) : Z := clamp (- 2 ^ (bd - 1)) (2 ^ (bd - 1) - 1) v.

(** 7.14.6.3: new values of p1, p0, q0, q1 (samples taken relative to mid-grey) *)
Definition narrow (bd : Z) (hev : bool) (p1 p0 q0 q1 : Z) : Z * Z * Z * Z :=
  let mid := 2 ^ (bd - 1) in
  let base := if hev then sclamp bd (p1 - q1) else 0 in
  let flt := sclamp bd (base + 3 * (q0 - p0)) in
  let f1 := sclamp bd (flt + 4) / 8 in
  let f2 := sclamp bd (flt + 3) / 8 in
  let q0' := mid + sclamp bd (q0 - mid - f1) in
  let p0' := mid + sclamp bd (p0 - mid + f2) in
  if hev then (p1, p0', q0', q1)
  else let f := (f1 + 1) / 2 in (mid + sclamp bd (p1 - mid + f), p0', q0', mid + sclamp bd (q1 - mid - f)).

Definition far (t a b : Z) : bool := t <? Z.abs (a - b).
(** 7.14.6.2: high edge variance *)
Definition hev_spec (bd thresh p1 p0 q0 q1 : Z) : bool := far (thresh * 2 ^ (bd - 8)) p1 p0 || far (thresh * 2 ^ (bd - 8)) q1 q0.
(** the differences along both sides that must stay below the limit, by filter length, and the step across the edge *)
Definition mask_spec (bd len limit blimit p3 p2 p1 p0 q0 q1 q2 q3 : Z) : bool :=
  let l := limit * 2 ^ (bd - 8) in
  negb (far l p1 p0) && negb (far l q1 q0) && (2 * Z.abs (p0 - q0) + Z.abs (p1 - q1) / 2 <=? blimit * 2 ^ (bd - 8)) &&
  (if 6 <=? len then negb (far l p2 p1) && negb (far l q2 q1) else true) &&
  (if 8 <=? len then negb (far l p3 p2) && negb (far l q3 q2) else true).
(** all given samples within one step (at 8 bits) of the reference *)
Definition flat (bd ref : Z) (l : list Z) : bool := forallb (fun v => negb (far (2 ^ (bd - 8)) v ref)) l.

(** 7.14.3/7.14.6.2: how many samples a filter size looks at *)
Definition filter_len (plane size : Z) : Z := if size =? 4 then 4 else if negb (plane =? 0) then 6 else if size =? 8 then 8 else 16.

(** 7.14.4: limits from level and sharpness *)
Definition limits (lvl sharpness : Z) : Z * Z * Z :=
  let shift := if 4 <? sharpness then 2 else if 0 <? sharpness then 1 else 0 in
  let limit := if 0 <? sharpness then clamp 1 (9 - sharpness) (lvl / 2 ^ shift) else Z.max 1 (lvl / 2 ^ shift) in
  (limit, 2 * (lvl + 2) + limit, lvl / 16).

(** 7.14.5: level from the frame level, block delta, segment feature (if active) and reference/mode deltas (if enabled) *)
Definition level (frameLevel deltaLF : Z) (seg : option Z) (deltas : option (Z * option Z)) : Z :=
  let l := clamp 0 63 (frameLevel + deltaLF) in
  let l := match seg with Some d => clamp 0 63 (l + d) | None => l end in
  match deltas with
  | None => l
  | Some (refDelta, modeDelta) =>
      let s := 2 ^ (l / 32) in
      clamp 0 63 (l + refDelta * s + match modeDelta with Some m => m * s | None => 0 end)
  end.

(** * 7.14.1, 7.14.2: which edges are filtered, and in which order *)
(** The 19 transform sizes of AV1 in the order of the enumeration, width x height *)
Definition tx_dims : list (Z * Z) :=
  [(4,4); (8,8); (16,16); (32,32); (64,64); (4,8); (8,4); (8,16); (16,8); (16,32); (32,16); (32,64); (64,32); (4,16); (16,4); (8,32); (32,8); (16,64); (64,16)].
(** length of a transform (block) across a vertical edge (pass 0) or a horizontal edge (pass 1) *)
Definition across (horizontal : bool) (wh : Z * Z) : Z := if horizontal then snd wh else fst wh.
(** A vertical edge at x (a horizontal edge at y) of a frame w x h luma samples: inside the frame and not its border *)
Definition edge_on_screen (horizontal : bool) (x y w h : Z) : bool :=
  (x <? w) && (y <? h) && negb (if horizontal then y =? 0 else x =? 0).
(** Filtered: it is the edge of a transform, and not inside an inter block without residual *)
Definition edge_applies (pos tx_len block_len : Z) (skip intra : bool) : bool :=
  (pos mod tx_len =? 0) && ((pos mod block_len =? 0) || negb skip || intra).
(** 7.14.3 *)
Definition filter_size (plane len1 len2 : Z) : Z := Z.min (if plane =? 0 then 16 else 8) (Z.min len1 len2).
(** 0, step, 2 * step, ... below hi *)
Definition multiples (hi step : Z) : list Z := map (fun k => Z.of_nat k * step) (seq 0 (Z.to_nat ((hi + step - 1) / step))).
(** 7.14.1: the edges in the order they are filtered: plane by plane, all vertical edges (pass 0) before all horizontal ones,
    in raster order in luma 4x4 units; chroma planes only if their level is not 0. *)
Definition lf_order (planes : list Z) (miRows miCols rowStepY colStepY rowStepUV colStepUV : Z) : list (Z * bool * Z * Z) :=
  flat_map (fun plane => flat_map (fun pass : bool => flat_map (fun row => map (fun col => (plane, pass, row, col))
    (multiples miCols (if plane =? 0 then colStepY else colStepUV))) (multiples miRows (if plane =? 0 then rowStepY else rowStepUV))) [false; true]) planes.
