(** C119: which predictor a mode uses, where the prediction is stored, and the selection of the edge filters. *)
From Verif Require Import GoBase Bitstream Util UtilProofs Constants Tables Frame Fill2 SpecFilter LoopFilterProofs Intra IntraProofs PropIntra.
Require Import Lia Psatz.

(** The thirteen intra modes by number: 0 the mean, 1 to 8 a direction, 9 to 11 smooth, 12 Paeth. *)
Inductive kind := KMean | KDirection | KSmooth | KPaeth.
Definition kind_of (mode : Z) : kind := if mode =? 0 then KMean else if mode <=? 8 then KDirection else if mode <=? 11 then KSmooth else KPaeth.
(** The prediction [p] of a w x h block from the edges A and L (their values afterwards are A' and L'). *)
Definition predicted_by (e : IEnv) (plane x y : Z) (hl ha : bool) (mode lw lh : Z) (A L : edge) (p : list (list Z)) (A' L' : edge) : Prop :=
  match kind_of mode with
  | KMean => dcIntra (iBitDepth e) hl ha lw lh (2 ^ lw) (2 ^ lh) A L = Ok p /\ A' = A /\ L' = L
  | KDirection => directionalIntra e plane x y hl ha mode (2 ^ lw) (2 ^ lh) (maxXof e plane) (maxYof e plane) A L = Ok (p, A', L')
  | KSmooth => smoothIntra mode lw lh (2 ^ lw) (2 ^ lh) A L = Ok p /\ A' = A /\ L' = L
  | KPaeth => basicIntra A L (2 ^ lw) (2 ^ lh) = Ok p /\ A' = A /\ L' = L
  end.

Theorem C119_modes : forall e plane x y hl ha har hbl mode lw lh A L f f' A' L', 0 <= lw <= 6 -> 0 <= lh <= 6 -> 0 <= mode <= 12 -> ~ (plane = 0 /\ iUseFilterIntra e = true) ->
  predictIntra e plane x y hl ha har hbl mode lw lh A L f = Ok (f', A', L') ->
  exists A0 L0 p, prepareEdges (iBitDepth e) f plane x y (2 ^ lw) (2 ^ lh) (maxXof e plane) (maxYof e plane) hl ha har hbl A L = Ok (A0, L0) /\
    predicted_by e plane x y hl ha mode lw lh A0 L0 p A' L' /\
    forall i j, 0 <= i < 2 ^ lh -> 0 <= j < 2 ^ lw -> exists v, idx2 p i j = Ok v /\ idx3 f' plane (y + i) (x + j) = Ok v.
Proof.
  intros e plane x y hl ha har hbl mode lw lh A L f f' A' L' Hw Hh Hm Hf E. unfold predictIntra in E. cbv zeta in E. rewrite !shl1 in E by lia.
  assert (P1 : forall n, 0 <= n -> 0 < 2 ^ n) by (intros; apply Z.pow_pos_nonneg; lia). pose proof (P1 lw ltac:(lia)). pose proof (P1 lh ltac:(lia)).
  apply rbind_inv in E as ([A0 L0] & EA & E). apply rbind_inv in E as ([[p A2] L2] & EP & E). apply rbind_inv in E as (f2 & EF & E). injection E as <- <- <-.
  exists A0, L0, p. split; [exact EA|]. split.
  - unfold predictor in EP. assert (NF : (plane =? 0) && iUseFilterIntra e = false).
    { destruct (Z.eqb_spec plane 0) as [E0|]; [|reflexivity]. destruct (iUseFilterIntra e); [|reflexivity]. exfalso. apply Hf. split; [exact E0|reflexivity]. }
    rewrite NF in EP. unfold predicted_by, kind_of, isDirectionalMode in *. change V_PRED with 1 in EP. change D67_PRED with 8 in EP. change SMOOTH_PRED with 9 in EP. change SMOOTH_V_PRED with 10 in EP. change SMOOTH_H_PRED with 11 in EP. change DC_PRED with 0 in EP.
    destruct (Z.eqb_spec mode 0) as [->|N0].
    + cbn in EP. apply rbind_inv in EP as (q & Eq & EP). injection EP as -> -> ->. auto.
    + destruct (Z.leb_spec 1 mode); [|lia]. destruct (Z.leb_spec mode 8); cbn [andb] in EP; [exact EP|].
      destruct (Z.leb_spec mode 11).
      * assert (S : (mode =? 9) || (mode =? 10) || (mode =? 11) = true).
        { destruct (Z.eqb_spec mode 9); [reflexivity|]. destruct (Z.eqb_spec mode 10); [reflexivity|]. destruct (Z.eqb_spec mode 11); [reflexivity|lia]. }
        rewrite S in EP. apply rbind_inv in EP as (q & Eq & EP). injection EP as -> -> ->. auto.
      * assert (S : (mode =? 9) || (mode =? 10) || (mode =? 11) = false).
        { destruct (Z.eqb_spec mode 9); [lia|]. destruct (Z.eqb_spec mode 10); [lia|]. destruct (Z.eqb_spec mode 11); [lia|reflexivity]. }
        rewrite S in EP. cbn [orb] in EP. apply rbind_inv in EP as (q & Eq & EP). injection EP as -> -> ->. auto.
  - intros i j Hi Hj. apply (fill_post _ _ y x) in EF; try lia; try reflexivity. destruct EF as [EF _]. destruct (EF i j Hi Hj) as (v & Ev & Hv). exists v. split; [exact Ev|exact Hv].
Qed.
Print Assumptions C119_modes.

(** The constant-128 block: no neighbours, the mean. *)
Theorem C119_first_block : forall e plane x y har hbl lw lh A L f f' A' L', 1 <= iBitDepth e <= 16 -> 0 <= lw <= 3 -> 0 <= lh <= 3 -> ~ (plane = 0 /\ iUseFilterIntra e = true) ->
  predictIntra e plane x y false false har hbl 0 lw lh A L f = Ok (f', A', L') ->
  forall i j, 0 <= i < 2 ^ lh -> 0 <= j < 2 ^ lw -> idx3 f' plane (y + i) (x + j) = Ok (2 ^ (iBitDepth e - 1)).
Proof.
  intros e plane x y har hbl lw lh A L f f' A' L' Hb Hw Hh Hf E i j Hi Hj. destruct (C119_modes e plane x y false false har hbl 0 lw lh A L f f' A' L' ltac:(lia) ltac:(lia) ltac:(lia) Hf E) as (A0 & L0 & p & _ & (Ep & _) & V).
  assert (P1 : forall n, 0 <= n <= 3 -> 1 <= 2 ^ n <= 15). { intros n Hn. assert (2 ^ n <= 2 ^ 3) by (apply Z.pow_le_mono_r; lia). change (2 ^ 3) with 8 in *. assert (0 < 2 ^ n) by (apply Z.pow_pos_nonneg; lia). lia. }
  destruct (C40_dc_none_partial (iBitDepth e) lw lh (2 ^ lw) (2 ^ lh) A0 L0 Hb (P1 _ Hw) (P1 _ Hh)) as (q & Eq & Vq). assert (p = q) as -> by congruence.
  destruct (V i j Hi Hj) as (v & E1 & E2). rewrite (Vq i j Hi Hj) in E1. injection E1 as <-. exact E2.
Qed.
Print Assumptions C119_first_block.
Example C119_modes_case :
  match predictIntra (ienv false false 0) 0 4 4 true true false false 8 2 2 noEdge noEdge ramp with Ok (f, _, _) => map (fun i => idx3 f 0 4 (4 + i)) [0; 1; 2; 3] | _ => [] end = [Ok 43; Ok 53; Ok 63; Ok 73] /\
  match predictIntra (ienv false false 0) 0 4 4 true true false false 12 2 2 noEdge noEdge ramp with Ok (f, _, _) => map (fun i => idx3 f 0 5 (4 + i)) [0; 1; 2; 3] | _ => [] end = [Ok 7; Ok 7; Ok 43; Ok 43] /\
  match predictIntra (ienv false false 0) 0 4 4 true true false false 9 2 2 noEdge noEdge ramp with Ok (f, _, _) => map (fun i => idx3 f 0 5 (4 + i)) [0; 1; 2; 3] | _ => [] end = [Ok 18; Ok 34; Ok 45; Ok 51] /\
  match predictIntra (ienv false false 0) 0 4 4 false false false false 0 2 2 noEdge noEdge ramp with Ok (f, _, _) => map (fun i => idx3 f 0 5 (4 + i)) [0; 1; 2; 3] | _ => [] end = [Ok 128; Ok 128; Ok 128; Ok 128].
Proof. split; [|split; [|split]]; vm_compute; reflexivity. Qed.

(** * The edge filters of section 7.11.2.9 and 7.11.2.10 of the standard *)
(** For a block with w + h = size whose neighbour is (is not) smooth: the least angle differences, with the strength used from there on. *)
Definition strength_steps (smooth : bool) (size : Z) : list (Z * Z) :=
  if smooth then
    if size <=? 8 then [(40, 1); (64, 2)] else if size <=? 16 then [(20, 1); (48, 2)] else if size <=? 24 then [(4, 3)] else [(1, 3)]
  else
    if size <=? 8 then [(56, 1)] else if size <=? 16 then [(40, 1)] else if size <=? 24 then [(8, 1); (16, 2); (32, 3)] else if size <=? 32 then [(1, 1); (4, 2); (32, 3)] else [(1, 3)].
Definition std_strength (smooth : bool) (size d : Z) : Z := fold_left (fun s '(least, k) => if least <=? d then k else s) (strength_steps smooth size) 0.

Lemma Abs_small x : - 2 ^ 40 <= x <= 2 ^ 40 -> Abs x = Z.abs x.
Proof. intros Hx. unfold Abs. destruct (Z.leb_spec 0 x); [lia|]. change (2 ^ 40) with 1099511627776 in Hx. rewrite i64_id by (change (2 ^ 63) with 9223372036854775808; lia). lia. Qed.
(** The strength is the standard's when the neighbour is smooth, and for sizes up to 12 (4x4, 4x8, 8x4). *)
Theorem C119_strength_partial : forall w h smooth delta, - 2 ^ 40 <= delta <= 2 ^ 40 -> delta <> 0 -> (smooth = true \/ w + h <= 12) ->
  edgeStrength w h (int_of smooth) delta = std_strength smooth (w + h) (Z.abs delta).
Proof.
  intros w h smooth delta Hd Hn HC. unfold edgeStrength, std_strength, strength_steps. rewrite Abs_small by exact Hd. cbv zeta. set (d := Z.abs delta) in *. assert (1 <= d) by (unfold d; lia).
  destruct smooth; cbn [int_of].
  - change (1 =? 0) with false. cbv iota. destruct (w + h <=? 8); [|destruct (w + h <=? 16); [|destruct (w + h <=? 24)]]; cbn [fold_left]; try reflexivity. destruct (Z.leb_spec 1 d); [reflexivity|lia].
  - destruct HC as [HC|HC]; [discriminate|]. change (0 =? 0) with true. cbv iota. destruct (w + h <=? 8); cbn [fold_left]; [reflexivity|]. destruct (Z.leb_spec (w + h) 12); [|lia]. destruct (Z.leb_spec (w + h) 16); [|lia]. reflexivity.
Qed.
Print Assumptions C119_strength_partial.
(** Refuted for 8x8 blocks (and for larger ones): a filter is chosen where the standard has none, and none where the standard has the strongest. *)
Theorem C119_strength_refuted :
  (forall w h delta, 12 < w + h <= 16 -> 8 <= Z.abs delta < 40 -> edgeStrength w h 0 delta >= 1 /\ std_strength false (w + h) (Z.abs delta) = 0) /\
  (forall w h delta, 32 < w + h -> 1 <= Z.abs delta <= 2 ^ 40 -> edgeStrength w h 0 delta = 0 /\ std_strength false (w + h) (Z.abs delta) = 3).
Proof.
  split; intros w h delta Hs Hd; unfold edgeStrength, std_strength, strength_steps; rewrite Abs_small by (change (2 ^ 40) with 1099511627776 in *; lia); cbv zeta; change (0 =? 0) with true; cbv iota.
  - destruct (Z.leb_spec (w + h) 8); [lia|]. destruct (Z.leb_spec (w + h) 12); [lia|]. destruct (Z.leb_spec (w + h) 16); [|lia]. cbn [fold_left]. split.
    + destruct (32 <=? Z.abs delta); [lia|]. destruct (16 <=? Z.abs delta); [lia|]. destruct (Z.leb_spec 8 (Z.abs delta)); lia.
    + destruct (Z.leb_spec 40 (Z.abs delta)); [lia|reflexivity].
  - destruct (Z.leb_spec (w + h) 8); [lia|]. destruct (Z.leb_spec (w + h) 12); [lia|]. destruct (Z.leb_spec (w + h) 16); [lia|]. destruct (Z.leb_spec (w + h) 24); [lia|]. destruct (Z.leb_spec (w + h) 32); [lia|]. cbn [fold_left].
    split; [reflexivity|]. destruct (Z.leb_spec 1 (Z.abs delta)); [reflexivity|lia].
Qed.
Print Assumptions C119_strength_refuted.
Example C119_strength_case : edgeStrength 4 4 0 (-56) = 1 /\ edgeStrength 4 4 0 55 = 0 /\ edgeStrength 8 8 1 48 = 2 /\ edgeStrength 8 8 0 23 = 2 /\ edgeStrength 32 32 0 23 = 0.
Proof. repeat split. Qed.

(** Upsampling: an angle strictly between 0 and 40 degrees off, and at most 16 (8 when smooth) samples around. *)
Theorem C119_upsampling : forall w h smooth delta, - 2 ^ 40 <= delta <= 2 ^ 40 ->
  upsampleSel w h (int_of smooth) delta = true <-> 0 < Z.abs delta < 40 /\ w + h <= (if smooth then 8 else 16).
Proof.
  intros w h smooth delta Hd. unfold upsampleSel. rewrite Abs_small by exact Hd. cbv zeta.
  destruct (Z.leb_spec (Z.abs delta) 0); cbn [orb]; [split; [discriminate|lia]|]. destruct (Z.leb_spec 40 (Z.abs delta)); [split; [discriminate|lia]|].
  destruct smooth; cbn [int_of]; [change (1 =? 0) with false|change (0 =? 0) with true]; cbv iota; rewrite Z.leb_le; lia.
Qed.
Print Assumptions C119_upsampling.
(** The corner filter: 5, 6, 5 sixteenths of left, corner and above, rounded. *)
Theorem C119_corner : forall A L l c a, idx L 0 = Ok l -> last_ A = Ok c -> idx A 0 = Ok a -> 0 <= l < 2 ^ 32 -> 0 <= c < 2 ^ 32 -> 0 <= a < 2 ^ 32 ->
  filterCorner A L = Ok ((5 * l + 6 * c + 5 * a + 8) / 16).
Proof.
  intros A L l c a El Ec Ea Hl Hc Ha. unfold filterCorner. rewrite El, Ec, Ea. cbn [rbind]. change (2 ^ 32) with 4294967296 in *. rewrite Round2_spec by (change (2 ^ 62) with 4611686018427387904; lia).
  change (4 =? 0) with false. cbv iota. change (2 ^ (4 - 1)) with 8. change (2 ^ 4) with 16. f_equal. f_equal. lia.
Qed.
Print Assumptions C119_corner.
Example C119_corner_case : filterCorner [16; 1; 2; 100] [200; 3] = Ok 105.
Proof. reflexivity. Qed.
