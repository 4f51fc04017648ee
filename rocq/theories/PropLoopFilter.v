(** C38, C65, C66: the loop filter. *)
From Verif Require Import GoBase Util UtilProofs Constants Tables Frame LoopFilter SpecFilter LoopFilterProofs.

(** C38, narrow filter: for every frame, edge position and bit depth 8..16, filtering across an edge whose four samples exist
    gives those samples the values of the AV1 narrow filter, leaves every other sample of every plane alone
    (with high edge variance also p1 and q1), and keeps samples in range. *)
Theorem C38_narrow_filter_partial : forall bd hev x y plane dx dy f p1 p0 q0 q1, 8 <= bd <= 16 -> axis dx dy ->
  idx3 f plane y x = Ok q0 -> idx3 f plane (y + dy) (x + dx) = Ok q1 -> idx3 f plane (y - dy) (x - dx) = Ok p0 -> idx3 f plane (y - dy * 2) (x - dx * 2) = Ok p1 ->
  exists f', narrowFilter bd hev x y plane dx dy f = Ok f' /\
    (let '(p1', p0', q0', q1') := narrow bd (bool_of hev) p1 p0 q0 q1 in
     idx3 f' plane (y - dy * 2) (x - dx * 2) = Ok p1' /\ idx3 f' plane (y - dy) (x - dx) = Ok p0' /\
     idx3 f' plane y x = Ok q0' /\ idx3 f' plane (y + dy) (x + dx) = Ok q1') /\
    (forall p i j, (p, i, j) <> (plane, y, x) -> (p, i, j) <> (plane, y - dy, x - dx) ->
       ((p, i, j) <> (plane, y + dy, x + dx) -> (p, i, j) <> (plane, y - dy * 2, x - dx * 2) -> idx3 f' p i j = idx3 f p i j) /\
       (bool_of hev = true -> idx3 f' p i j = idx3 f p i j)) /\
    (all_samples (sample bd) f -> all_samples (sample bd) f').
Proof. exact narrowFilter_spec. Qed.
Print Assumptions C38_narrow_filter_partial.

(** Without high edge variance the narrow filter never enlarges the step across the edge, never turns it round,
    and a flat edge is left as it is. *)
Theorem C38_narrow_smooths_partial : forall bd p1 p0 q0 q1, 8 <= bd <= 16 -> sample bd p1 -> sample bd p0 -> sample bd q0 -> sample bd q1 ->
  let '(p1', p0', q0', q1') := narrow bd false p1 p0 q0 q1 in
  sample bd p1' /\ sample bd p0' /\ sample bd q0' /\ sample bd q1' /\
  (p0 <= q0 -> p0 <= p0' <= q0' /\ q0' <= q0) /\ (q0 <= p0 -> q0 <= q0' <= p0' /\ p0' <= p0) /\ (p0 = q0 -> p1' = p1 /\ q1' = q1).
Proof.
  intros bd p1 p0 q0 q1 Hbd H1 H2 H3 H4. unfold narrow. cbv zeta.
  pose proof (pow_bounds bd Hbd) as (B1 & B2 & _). set (mid := 2 ^ (bd - 1)) in *.
  split; [apply sclamp_sample; exact Hbd|]. split; [apply sclamp_sample; exact Hbd|]. split; [apply sclamp_sample; exact Hbd|]. split; [apply sclamp_sample; exact Hbd|].
  unfold sample in *. rewrite B2 in *. unfold sclamp, clamp. fold mid.
  set (flt := Z.max (- mid) (Z.min (mid - 1) (0 + 3 * (q0 - p0)))).
  set (a := Z.max (- mid) (Z.min (mid - 1) (flt + 4))). set (b := Z.max (- mid) (Z.min (mid - 1) (flt + 3))).
  pose proof (Z.div_mod a 8 ltac:(lia)). pose proof (Z.mod_pos_bound a 8 ltac:(lia)). pose proof (Z.div_mod b 8 ltac:(lia)). pose proof (Z.mod_pos_bound b 8 ltac:(lia)).
  set (qa := a / 8) in *. set (qb := b / 8) in *. set (g := (qa + 1) / 2).
  pose proof (Z.div_mod (qa + 1) 2 ltac:(lia)). pose proof (Z.mod_pos_bound (qa + 1) 2 ltac:(lia)). fold g in H6. fold g in H7.
  assert (a = Z.max (- mid) (Z.min (mid - 1) (flt + 4))) by reflexivity. assert (b = Z.max (- mid) (Z.min (mid - 1) (flt + 3))) by reflexivity. assert (flt = Z.max (- mid) (Z.min (mid - 1) (0 + 3 * (q0 - p0)))) by reflexivity.
  clearbody mid flt a b qa qb g. repeat split; intros; lia.
Qed.
Print Assumptions C38_narrow_smooths_partial.

(** The decisions the filter takes at an edge are those of the specification, for every frame of in-range samples in which the
    14 samples read exist. *)
Theorem C38_filter_mask_partial : forall bd x y plane limit blimit thresh dx dy size f q0 q1 q2 q3 q4 q5 q6 p0 p1 p2 p3 p4 p5 p6,
  8 <= bd <= 16 -> 0 <= limit < 2 ^ 32 -> 0 <= blimit < 2 ^ 32 -> 0 <= thresh < 2 ^ 32 -> all_samples (sample bd) f ->
  idx3 f plane y x = Ok q0 -> idx3 f plane (y + dy) (x + dx) = Ok q1 -> idx3 f plane (y + dy * 2) (x + dx * 2) = Ok q2 ->
  idx3 f plane (y + dy * 3) (x + dx * 3) = Ok q3 -> idx3 f plane (y + dy * 4) (x + dx * 4) = Ok q4 -> idx3 f plane (y + dy * 5) (x + dx * 5) = Ok q5 ->
  idx3 f plane (y + dy * 6) (x + dx * 6) = Ok q6 -> idx3 f plane (y - dy) (x - dx) = Ok p0 -> idx3 f plane (y - dy * 2) (x - dx * 2) = Ok p1 ->
  idx3 f plane (y - dy * 3) (x - dx * 3) = Ok p2 -> idx3 f plane (y - dy * 4) (x - dx * 4) = Ok p3 -> idx3 f plane (y - dy * 5) (x - dx * 5) = Ok p4 ->
  idx3 f plane (y - dy * 6) (x - dx * 6) = Ok p5 -> idx3 f plane (y - dy * 7) (x - dx * 7) = Ok p6 ->
  filterMask bd x y plane limit blimit thresh dx dy size f =
    Ok (int_of (hev_spec bd thresh p1 p0 q0 q1),
        int_of (mask_spec bd (filter_len plane size) limit blimit p3 p2 p1 p0 q0 q1 q2 q3),
        int_of ((8 <=? size) && flat bd p0 ([p1; p2] ++ if 8 <=? filter_len plane size then [p3] else []) && flat bd q0 ([q1; q2] ++ if 8 <=? filter_len plane size then [q3] else [])),
        int_of ((16 <=? size) && flat bd p0 [p4; p5; p6] && flat bd q0 [q4; q5; q6])).
Proof. exact filterMask_spec. Qed.
Print Assumptions C38_filter_mask_partial.

(** The whole loop filter, on every frame and whatever block information, levels and subsampling: it never loops, and a frame it
    returns has all samples in range. *)
Theorem C38_whole_frame_in_range : forall e f, 8 <= lfBitDepth e <= 16 -> all_samples (sample (lfBitDepth e)) f ->
  match loopFilter e f with Ok f' => all_samples (sample (lfBitDepth e)) f' | Panic => True | Hang => False end.
Proof.
  intros e f Hbd HA. pose proof (loopFilter_nh e f). destruct (loopFilter e f) eqn:E; try congruence; auto. eapply loopFilter_range; eauto.
Qed.
Print Assumptions C38_whole_frame_in_range.

(** An edge whose level is 0 is not touched. *)
Theorem C38_level_zero_untouched : forall e plane pass row col f f' limit blimit thresh,
  adaptiveFilterStrength e (Z.lor row (if plane =? 0 then 0 else int_of (lfSubY e))) (Z.lor col (if plane =? 0 then 0 else int_of (lfSubX e))) plane pass = Ok (0, limit, blimit, thresh) ->
  loopFilterEdge e plane pass row col f = Ok f' -> f' = f.
Proof.
  intros e plane pass row col f f' limit blimit thresh E. unfold loopFilterEdge. cbv zeta. match goal with |- (if ?b then _ else _) = _ -> _ => destruct b end; [congruence|]. intros H.
  do 9 (apply rbind_inv in H as (? & _ & H)). rewrite E in H. cbn [rbind] in H. change (0 =? 0) with true in H. cbv iota in H. cbn [rbind] in H.
  revert H. unfold rfor_to. apply (rfor_from_post (fun _ g => g = f)); [reflexivity|]. intros j g g' _ ->. change (0 <? 0) with false. rewrite andb_false_r. congruence.
Qed.
Print Assumptions C38_level_zero_untouched.

(** Refuted: the wide filter (flat edges of transforms above 4) panics on every frame. *)
Theorem C38_wide_filter_refuted : forall x y plane dx dy log2Size f, log2Size = 3 \/ log2Size = 4 -> wideFilter x y plane dx dy log2Size f = Panic.
Proof. intros. apply wideFilter_panics. lia. Qed.
Print Assumptions C38_wide_filter_refuted.

(** Refuted: within 7 samples of the left (top) border every edge panics, also where only 4 samples matter. *)
Theorem C38_border_refuted : forall bd x y plane limit blimit thresh size f,
  (x < 7 -> sampleFiltering bd x y plane limit blimit thresh 1 0 size f = Panic) /\
  (y < 7 -> sampleFiltering bd x y plane limit blimit thresh 0 1 size f = Panic).
Proof.
  assert (K : forall (m : res (Z * Z * Z * Z)) (k : Z * Z * Z * Z -> res frame), m = Panic -> rbind m k = Panic) by (intros m k ->; reflexivity).
  assert (B : forall {A B} (m : res A) (k : A -> res B), m <> Hang -> (forall a, k a = Panic) -> rbind m k = Panic) by (intros A B m k Hm Hk; destruct m; cbn; auto; congruence).
  intros. split; intros H; apply K; unfold filterMask; do 13 (apply B; [apply idx3_nh|intro]).
  - replace (idx3 f plane (y - 0 * 7) (x - 1 * 7)) with (@Panic Z); [reflexivity|]. symmetry. unfold idx3, idx2. apply B; [apply idx_nh|intro]. apply B; [apply idx_nh|intro]. apply idx_panic. lia.
  - replace (idx3 f plane (y - 1 * 7) (x - 0 * 7)) with (@Panic Z); [reflexivity|]. symmetry. unfold idx3, idx2. apply B; [apply idx_nh|intro]. rewrite idx_panic by lia. reflexivity.
Qed.
Print Assumptions C38_border_refuted.

Lemma shr4_1 s : 0 <= s <= 1 -> shr 4 s <= 4.
Proof. intros. assert (s = 0 \/ s = 1) as [->| ->] by lia; vm_compute; congruence. Qed.

(** Refuted, with the array sizes of the code (Skips is [2][2]int): the loop filter panics or leaves the frame exactly as it was, for
    every frame, every level and all block information. *)
Theorem C38_nothing_filtered_refuted : forall e f f', zlen (lfSkips e) = 2 -> Forall (fun r => zlen r = 2) (lfSkips e) -> loopFilter e f = Ok f' -> f' = f.
Proof.
  intros e f f' Hs Hr. assert (ED : forall plane pass row col g g', 0 <= row -> 0 <= col -> loopFilterEdge e plane pass row col g = Ok g' -> g' = g).
  { intros plane pass row col g g' Hrow Hcol. unfold loopFilterEdge. cbv zeta.
    set (subX := if plane =? 0 then 0 else int_of (lfSubX e)). set (subY := if plane =? 0 then 0 else int_of (lfSubY e)).
    assert (SX : 0 <= subX <= 1) by (unfold subX; destruct (plane =? 0), (lfSubX e); cbn; lia).
    assert (SY : 0 <= subY <= 1) by (unfold subY; destruct (plane =? 0), (lfSubY e); cbn; lia).
    destruct (lfFrameWidth e <=? col * MI_SIZE); [intros [= <-]; reflexivity|]. destruct (lfFrameHeight e <=? row * MI_SIZE); [intros [= <-]; reflexivity|].
    destruct (negb pass && (col * MI_SIZE =? 0)) eqn:E1; [intros [= <-]; reflexivity|]. destruct (pass && (row * MI_SIZE =? 0)) eqn:E2; [intros [= <-]; reflexivity|]. cbn [negb].
    intros H. do 3 (apply rbind_inv in H as (? & _ & H)). apply rbind_inv in H as (sk & Esk & H). do 5 (apply rbind_inv in H as (? & _ & H)).
    apply rbind_inv in H as ([[[lvl ?] ?] ?] & _ & H). apply rbind_inv in H as ([[[lvl' ?] ?] ?] & _ & H).
    unfold idx2 in Esk. apply rbind_inv in Esk as (rw & Ea & Eb). pose proof (idx_Forall _ _ _ _ Hr Ea) as Hrw. cbv beta in Hrw. apply idx_inv in Ea as [Ea _]. apply idx_inv in Eb as [Eb _].
    assert (L : forall a b, 0 <= a -> 0 <= b -> a <= Z.lor a b).
    { intros a b Ha Hb. apply Z.ldiff_le; [apply Z.lor_nonneg; lia|]. apply Z.bits_inj'. intros n Hn. rewrite Z.ldiff_spec, Z.lor_spec, Z.bits_0. destruct (Z.testbit a n), (Z.testbit b n); reflexivity. }
    pose proof (L row subY ltac:(lia) ltac:(lia)). pose proof (L col subX ltac:(lia) ltac:(lia)).
    revert H. unfold rfor_to. apply (rfor_from_post (fun _ h => h = g)); [reflexivity|]. intros j h h' Hj ->. match goal with |- (if ?b then _ else _) = _ -> _ => destruct b end; [|intros [= <-]; reflexivity].
    change MI_SIZE with 4 in *. destruct pass; cbn [negb andb] in *.
    - apply Z.eqb_neq in E2. assert (row = 1) as -> by lia. pose proof (shr4_1 subY SY). change (1 * 4) with 4. rewrite (proj2 (C38_border_refuted _ _ _ _ _ _ _ _ _)) by lia. discriminate.
    - apply Z.eqb_neq in E1. assert (col = 1) as -> by lia. pose proof (shr4_1 subX SX). change (1 * 4) with 4. rewrite (proj1 (C38_border_refuted _ _ _ _ _ _ _ _ _)) by lia. discriminate. }
  assert (RS : forall n i hi step (body : Z -> frame -> res frame) a a', 0 <= i -> 0 <= step -> a = f -> (forall j b b1, 0 <= j -> b = f -> body j b = Ok b1 -> b1 = f) -> rfor_step n i hi step body a = Ok a' -> a' = f).
  { induction n as [|n IH]; intros i hi step body a a' Hi Hst Ha Hb; cbn [rfor_step]; destruct (i <? hi); try discriminate; try (intros [= <-]; exact Ha).
    intros H. apply rbind_inv in H as (a1 & X1 & X2). apply (IH (i + step) hi step body a1); [lia|lia| |exact Hb|exact X2]. eapply (Hb i a a1); eauto. }
  unfold loopFilter, rfor_to at 1. apply (rfor_from_post (fun _ g => g = f)); [reflexivity|].
  intros plane g g' _ -> H. apply rbind_inv in H as (go & _ & H). destruct go; [|injection H as <-; reflexivity].
  revert H. unfold rfor_to. apply (rfor_from_post (fun _ g => g = f)); [reflexivity|].
  intros pass h h' _ ->. cbv zeta. apply RS; [lia|destruct (plane =? 0), (lfSubX e); vm_compute; congruence|reflexivity|].
  intros row k k' Hrow ->. apply RS; [lia|destruct (plane =? 0), (lfSubY e); vm_compute; congruence|reflexivity|].
  intros col m m' Hcol ->. apply ED; assumption.
Qed.
Print Assumptions C38_nothing_filtered_refuted.

(** Cases: an edge at (8, 8) of a 16x16 plane; with the default sizes; the whole filter on a frame. *)
Definition lf_plane : list (list Z) := repeat [100;100;100;100;100;100;100;101;110;108;108;108;108;108;108;108] 16.
Definition lf_frame : frame := [lf_plane; lf_plane; lf_plane].
Example C38_case : all_samples (sample 8) lf_frame /\ idx3 lf_frame 0 8 8 = Ok 110 /\
  (exists f', sampleFiltering 8 8 8 0 10 40 2 1 0 4 lf_frame = Ok f' /\ idx3 f' 0 8 7 = Ok 104 /\ idx3 f' 0 8 8 = Ok 107 /\ idx3 f' 0 8 6 = Ok 102 /\ idx3 f' 0 8 9 = Ok 106) /\
  narrow 8 false 100 101 110 108 = (102, 104, 107, 106).
Proof.
  split; [|split; [|split]]; try (vm_compute; reflexivity).
  - unfold all_samples, lf_frame, lf_plane. repeat constructor; vm_compute; congruence.
  - eexists. split; [vm_compute; reflexivity|]. vm_compute. auto.
Qed.
Definition lf_env (w : Z) : LFEnv := mkLFEnv 8 1 false false w w (w / 4) (w / 4) [20; 20; 10; 10] 0 true [1; 0; 0; 0; -1; 0; -1; -1] [0; 0] 0 false
  (repeat [] 8) (repeat [] 8) (repeat (repeat 0 4) 4) [repeat (repeat 0 4) 4] (repeat (repeat 0 4) 4) (repeat (repeat [0; -1] 4) 4) (repeat (repeat 0 4) 4) (repeat (repeat 0 4) 4) (repeat (repeat [0; 0; 0; 0] 4) 4).
Example C38_case_whole : loopFilter (lf_env 4) lf_frame = Ok lf_frame /\ loopFilter (lf_env 16) lf_frame = Panic.
Proof. split; vm_compute; reflexivity. Qed.

(** C65: the level of an edge is the one of the specification, 0..63, for all levels, deltas, segment features. *)
Theorem C65_level : forall e segment ref modeType deltaLF plane pass l rd md en fd,
  let i := if plane =? 0 then int_of pass else plane + 1 in
  idx (lfLevel e) i = Ok l ->
  idx2 (lfFeatureEnabled e) segment (1 + i) = Ok en -> idx2 (lfFeatureData e) segment (1 + i) = Ok fd ->
  idx (lfRefDeltas e) ref = Ok rd -> idx (lfModeDeltas e) modeType = Ok md -> - 2 ^ 32 <= rd <= 2 ^ 32 -> - 2 ^ 32 <= md <= 2 ^ 32 ->
  exists lvl, adaptiveFilterStrengthSelection e segment ref modeType deltaLF plane pass = Ok lvl /\ 0 <= lvl <= 63 /\
    lvl = level l deltaLF (if lfSegEnabled e && (en =? 1) then Some fd else None)
            (if lfDeltaEnabled e then Some (rd, if ref =? 0 then None else Some md) else None).
Proof. intros. eexists. split; [eapply selection_spec; eassumption|]. split; [apply level_range|reflexivity]. Qed.
Print Assumptions C65_level.
(** Whatever the tables contain, a level that is returned is in 0..63. *)
Theorem C65_level_in_range : forall e segment ref modeType deltaLF plane pass lvl,
  adaptiveFilterStrengthSelection e segment ref modeType deltaLF plane pass = Ok lvl -> 0 <= lvl <= 63.
Proof. exact selection_range. Qed.
Print Assumptions C65_level_in_range.
Example C65_case : adaptiveFilterStrengthSelection (mkLFEnv 8 3 true true 64 64 16 16 [40; 20; 10; 10] 0 true [1; 0; 0; 0; -1; 0; -1; -1] [0; -3] 0 true
  (repeat [0; 1; 0; 0; 0; 0; 0; 0] 8) (repeat [0; 12; 0; 0; 0; 0; 0; 0] 8) [] [] [] [] [] [] []) 3 4 1 (-5) 0 false = Ok 39 /\ level 40 (-5) (Some 12) (Some (-1, Some (-3))) = 39.
Proof. split; vm_compute; reflexivity. Qed.

(** C66: level, limit, threshold of an edge: always in range; those of the specification for sharpness 0 and above 4. *)
Theorem C66_limits_partial : forall e row col plane pass lvl limit blimit thresh, 0 <= lfSharpness e <= 7 ->
  adaptiveFilterStrength e row col plane pass = Ok (lvl, limit, blimit, thresh) ->
  0 <= lvl <= 63 /\ 1 <= limit <= 63 /\ 2 * (lvl + 2) + 1 <= blimit <= 2 * (lvl + 2) + 63 /\ 0 <= thresh <= 3 /\ (0 < lfSharpness e -> limit <= 9 - lfSharpness e) /\
  (lfSharpness e = 0 \/ 5 <= lfSharpness e -> (limit, blimit, thresh) = limits lvl (lfSharpness e)).
Proof. intros. edestruct strength_spec as (A & B & C & D & E & F & _); eauto 10. Qed.
Print Assumptions C66_limits_partial.
(** Refuted for sharpness 1..4: every level from 4 to 19 gets a smaller limit than specified. *)
Theorem C66_sharpness_refuted : forall e row col plane pass lvl limit blimit thresh, 1 <= lfSharpness e <= 4 ->
  adaptiveFilterStrength e row col plane pass = Ok (lvl, limit, blimit, thresh) -> 4 <= lvl <= 19 -> limit < fst (fst (limits lvl (lfSharpness e))).
Proof.
  intros e row col plane pass lvl limit blimit thresh Hs H Hl. apply strength_spec in H as (_ & _ & _ & _ & _ & _ & H); [|lia]. rewrite (H Hs). clear H.
  unfold limits. cbv zeta. destruct (Z.ltb_spec 4 (lfSharpness e)); [lia|]. destruct (Z.ltb_spec 0 (lfSharpness e)); [|lia]. cbn [fst]. change (2 ^ 1) with 2.
  pose proof (Z.div_mod lvl 4 ltac:(lia)). pose proof (Z.mod_pos_bound lvl 4 ltac:(lia)). pose proof (Z.div_mod lvl 2 ltac:(lia)). pose proof (Z.mod_pos_bound lvl 2 ltac:(lia)). unfold clamp. lia.
Qed.
Print Assumptions C66_sharpness_refuted.
Definition lf_sharp (s : Z) : LFEnv := mkLFEnv 8 1 false false 8 8 2 2 [20; 20; 10; 10] s false [] [] 0 false [] []
  (repeat (repeat 0 2) 2) [repeat (repeat 0 2) 2] (repeat (repeat 0 2) 2) (repeat (repeat [0; -1] 2) 2) (repeat (repeat 0 2) 2) (repeat (repeat 0 2) 2) (repeat (repeat [-4; 0; 0; 0] 2) 2).
Example C66_case : adaptiveFilterStrength (lf_sharp 0) 1 1 0 true = Ok (16, 16, 52, 1) /\ adaptiveFilterStrength (lf_sharp 6) 1 1 0 true = Ok (16, 3, 39, 1) /\
  adaptiveFilterStrength (lf_sharp 2) 1 1 0 true = Ok (16, 4, 40, 1) /\ limits 16 2 = (7, 43, 1).
Proof. repeat split; vm_compute; reflexivity. Qed.
