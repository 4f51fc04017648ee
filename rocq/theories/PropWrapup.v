(** Properties C43, C85 to C91: the end of a frame (reference update, super-resolution, loop restoration, output). *)
From Verif Require Import GoBase Util UtilProofs Constants Frame Writes LoopFilter Cdef Upscale UpscaleProofs Restoration RestorationProofs Wrapup SpecReference WrapupProofs WrapupFrameProofs.

(** * C43: after a frame, exactly the reference slots named by refresh_frame_flags hold that frame *)
(** When the update ends, the slots of the set bits hold the frame and all others are untouched. *)
Theorem C43_slots_partial : forall e l l', zlen l = 8 -> refUpdate e l = Ok l' -> forall i, 0 <= i < 8 ->
  exists s s', idx l i = Ok s /\ idx l' i = Ok s' /\ if Z.testbit (iRefresh e) i then saved e s s' else s' = s.
Proof. exact refUpdate_post. Qed.
Print Assumptions C43_slots_partial.
(** With the array sizes of the code it ends for every frame of at most 9x9 samples. *)
Theorem C43_succeeds_partial : forall e l, info_shape e -> zlen l = 8 -> Forall slot_shape l -> iUpscaledWidth e <= 9 -> iFrameHeight e <= 9 -> iMiRows e <= 64 -> iMiCols e <= 64 ->
  exists l', refUpdate e l = Ok l' /\ zlen l' = 8 /\ Forall slot_shape l'.
Proof. exact refUpdate_ok. Qed.
Print Assumptions C43_succeeds_partial.
(** Refuted: a larger frame that refreshes any slot makes the decoder panic. *)
Theorem C43_large_frames_refuted : forall e l, info_shape e -> zlen l = 8 -> (exists i, 0 <= i < 8 /\ Z.testbit (iRefresh e) i = true) -> 0 < iUpscaledWidth e -> 0 < iFrameHeight e ->
  (9 < iUpscaledWidth e \/ 9 < iFrameHeight e) -> refUpdate e l = Panic.
Proof. exact refUpdate_large. Qed.
Print Assumptions C43_large_frames_refuted.
(** a concrete frame and slot *)
Definition demo_lr : frame := map (fun p => map (fun y => map (fun x => 100 * p + 10 * y + x) [0; 1; 2; 3; 4; 5; 6; 7; 8]) [0; 1; 2; 3; 4; 5; 6; 7; 8]) [0; 1; 2].
Definition demo_info (w h refresh : Z) : FrameInfo :=
  mkFrameInfo w w h w h 2 2 0 true true 8 5 [0; 1; 2; 3; 4; 5; 6; 7] refresh demo_lr (repeat (repeat 1 64) 64) (repeat (repeat [3; 4] 64) 64) (repeat (repeat 9 6) 8) (repeat (repeat 2 64) 64).
Definition demo_slot : slot := mkSlot 0 0 0 0 0 0 0 0 0 0 0 0 0 (repeat 0 8) zero16 (repeat (repeat 0 64) 64) (repeat (repeat [0; 0] 64) 64) (repeat (repeat 0 6) 8) (repeat (repeat 0 64) 64).
Lemma all_repeat {A} (P : A -> Prop) a n : P a -> Forall P (repeat a n).
Proof. intros H. induction n; constructor; assumption. Qed.
Lemma zlen_repeat {A} (a : A) n : zlen (repeat a n) = Z.of_nat n.
Proof. unfold zlen. rewrite repeat_length. reflexivity. Qed.
Lemma idx_map {A B} (f : A -> B) l i a : idx l i = Ok a -> idx (map f l) i = Ok (f a).
Proof. intros H. apply idx_inv in H as [Hi H]. unfold idx. destruct (Z.ltb_spec i 0); [lia|]. rewrite (map_nth_error f _ _ H). reflexivity. Qed.
Lemma demo_shapes w h r : info_shape (demo_info w h r) /\ slot_shape demo_slot.
Proof.
  assert (A2 : forall n m (a : Z), array2 (Z.of_nat n) (Z.of_nat m) (repeat (repeat a m) n)) by (intros n m a; split; [apply zlen_repeat|apply all_repeat, zlen_repeat]).
  assert (A3 : forall n m (a : Z * Z), array3 (Z.of_nat n) (Z.of_nat m) 2 (repeat (repeat [fst a; snd a] m) n)) by (intros n m a; split; [apply zlen_repeat|apply all_repeat; split; [apply zlen_repeat|apply all_repeat; reflexivity]]).
  split; (split; [reflexivity|split; [split; [reflexivity|repeat constructor]|split; [apply (A2 64%nat 64%nat)|split; [first [apply (A3 64%nat 64%nat (3, 4))|apply (A3 64%nat 64%nat (0, 0))]|split; [apply (A2 8%nat 6%nat)|apply (A2 64%nat 64%nat)]]]]]).
Qed.
Example C43_case : info_shape (demo_info 9 7 129) /\ zlen (repeat demo_slot 8) = 8 /\ Forall slot_shape (repeat demo_slot 8) /\
  match refUpdate (demo_info 9 7 129) (repeat demo_slot 8) with
  | Ok [a; b; _; _; _; _; _; c] => idx3 (sStore a) 1 6 8 = Ok 168 /\ sValid a = 1 /\ sValid b = 0 /\ idx3 (sStore b) 1 6 8 = Ok 0 /\ sOrderHint c = 5 /\ idx3 (sStore c) 1 7 8 = Ok 0
  | _ => False end.
Proof. split; [apply demo_shapes|]. split; [reflexivity|]. split; [apply all_repeat, (demo_shapes 0 0 0)|]. vm_compute. repeat split. Qed.
Example C43_large_case : info_shape (demo_info 10 7 4) /\ Z.testbit 4 2 = true /\ refUpdate (demo_info 10 7 4) (repeat demo_slot 8) = Panic.
Proof. split; [apply demo_shapes|]. split; [reflexivity|]. apply C43_large_frames_refuted; [apply demo_shapes|reflexivity|exists 2; split; [lia|reflexivity]|cbn; lia|cbn; lia|left; cbn; lia]. Qed.

(** * C85: a reference slot still holds its frame when the next frame is decoded *)
(** Everything but the samples survives the start of the next tile group. *)
Theorem C85_headers_partial : forall l i s, idx l i = Ok s -> exists s', idx (newTileGroup l) i = Ok s' /\
  sValid s' = sValid s /\ sUpscaledWidth s' = sUpscaledWidth s /\ sFrameWidth s' = sFrameWidth s /\ sFrameHeight s' = sFrameHeight s /\ sRenderWidth s' = sRenderWidth s /\ sRenderHeight s' = sRenderHeight s /\
  sMiCols s' = sMiCols s /\ sMiRows s' = sMiRows s /\ sFrameType s' = sFrameType s /\ sSubX s' = sSubX s /\ sSubY s' = sSubY s /\ sBitDepth s' = sBitDepth s /\ sOrderHint s' = sOrderHint s /\ sOrderHints s' = sOrderHints s /\
  sRefFrames s' = sRefFrames s /\ sMvs s' = sMvs s /\ sGm s' = sGm s /\ sSegIds s' = sSegIds s.
Proof.
  intros l i s H. exists (setStore s zero16). split; [exact (idx_map _ _ _ _ H)|cbn; repeat split].
Qed.
Print Assumptions C85_headers_partial.
(** Refuted: the samples are lost: every sample of every slot is 0 for the next tile group. *)
Theorem C85_samples_refuted : forall l i s plane y x, idx l i = Ok s -> 0 <= plane < 3 -> 0 <= y < 16 -> 0 <= x < 16 -> exists s', idx (newTileGroup l) i = Ok s' /\ idx3 (sStore s') plane y x = Ok 0.
Proof.
  intros l i s plane y x H Hp Hy Hx. exists (setStore s zero16). split.
  - exact (idx_map _ _ _ _ H).
  - cbn [setStore sStore]. assert (S : array3 3 16 16 zero16) by (split; [reflexivity|repeat constructor]). destruct (proj2 (array3_get 3 16 16 zero16 plane y x S) (conj Hp (conj Hy Hx))) as [v E]. rewrite E. f_equal.
    assert (F : all_samples (fun v => v = 0) zero16) by (unfold all_samples, zero16; repeat (apply all_repeat); reflexivity).
    unfold idx3, idx2 in E. apply rbind_inv in E as (r & Er & E). apply rbind_inv in E as (q & Eq & E). exact (idx_Forall _ _ _ _ (idx_Forall _ _ _ _ (idx_Forall _ _ _ _ F Er) Eq) E).
Qed.
Print Assumptions C85_samples_refuted.
Example C85_case : match refUpdate (demo_info 9 7 1) (repeat demo_slot 8) with
  | Ok l => match idx l 0, idx (newTileGroup l) 0 with Ok a, Ok b => idx3 (sStore a) 2 6 8 = Ok 268 /\ idx3 (sStore b) 2 6 8 = Ok 0 /\ sOrderHint b = 5 | _, _ => False end | _ => False end.
Proof. vm_compute. repeat split. Qed.

(** * C86: super-resolution reproduces flat areas, and is the identity when the frame is not scaled *)
(** Before the final clip, a flat row gives exactly that value, whatever the position (the filter sum is 128 times the sample). *)
Theorem C86_flat_partial : forall f plane y minX maxX srcX v, minX <= maxX -> (forall x, minX <= x <= maxX -> idx3 f plane y x = Ok v) -> Z.abs v < 2 ^ 32 ->
  exists s, upSum f plane y minX maxX srcX = Ok s /\ Round2 s FILTER_BITS = Ok v.
Proof.
  intros f plane y minX maxX srcX v Hm Hc Hv. exists (128 * v). split; [exact (upSum_flat _ _ _ _ _ _ _ Hm Hc)|]. change (2 ^ 32) with 4294967296 in Hv. rewrite Round2_spec by (change (2 ^ 62) with 4611686018427387904; change FILTER_BITS with 7; lia).
  change FILTER_BITS with 7. change (7 =? 0) with false. cbv iota. f_equal. change (2 ^ (7 - 1)) with 64. change (2 ^ 7) with 128. symmetry. apply (Z.div_unique_pos _ _ _ 64); lia.
Qed.
Print Assumptions C86_flat_partial.
Example C86_flat_case : match upSum (repeat (repeat (repeat 77 9) 9) 3) 1 2 0 8 40000 with Ok s => Round2 s FILTER_BITS = Ok 77 | _ => False end.
Proof. vm_compute. reflexivity. Qed.
(** With the array sizes of the code it succeeds for frames of at most 9x9 samples. *)
Theorem C86_succeeds_partial : forall e f B, array3 3 16 16 f -> (forall p y x v, idx3 f p y x = Ok v -> Z.abs v <= B) -> 0 <= B < 2 ^ 32 -> 0 <= uNumPlanes e <= 3 -> 0 <= uFrameWidth e < 2 ^ 32 ->
  0 < uUpscaledWidth e -> 0 <= uFrameHeight e -> uUpscaledWidth e <= 9 -> uFrameHeight e <= 9 -> 2 <= uMiCols e <= 4 -> exists g, upscalingProcess e f = Ok g /\ array3 3 9 9 g.
Proof. intros e f B H1 H2 H3 H4 H5 H6 H7 H8 H9 H10. destruct (upscaling_ok e f B H1 H2 H3 H4 H5 H6 H7 H8 H9 H10) as [g E]. exists g. split; [exact E|exact (upscaling_shape _ _ _ E)]. Qed.
Print Assumptions C86_succeeds_partial.
(** Refuted: an unscaled row is shifted by one column: sample x of the result is taken from column x-1 (before the clip). *)
Theorem C86_shift_refuted : forall f plane y maxX w x (col : Z -> Z), 0 <= maxX -> 0 < w < 2 ^ 32 -> (forall x, 0 <= x <= maxX -> idx3 f plane y x = Ok (col x)) -> 1 <= x <= maxX -> Z.abs (col (x - 1)) < 2 ^ 32 ->
  exists st ini s, upStep w w = Ok st /\ upInitial w w st = Ok ini /\ upSum f plane y 0 maxX (upSrcX ini st x) = Ok s /\ Round2 s FILTER_BITS = Ok (col (x - 1)).
Proof.
  intros f plane y maxX w x col Hm Hw Hc Hx Hv. destruct (up_same w Hw) as [E1 E2]. exists (2 ^ 14), 128, (128 * col (x - 1)). split; [exact E1|]. split; [exact E2|]. split.
  - rewrite (upSum_same f plane y maxX x col Hm Hc). do 2 f_equal. unfold Clip3. destruct (Z.ltb_spec (x - 1) 0); [lia|]. destruct (Z.ltb_spec maxX (x - 1)); [lia|]. reflexivity.
  - change (2 ^ 32) with 4294967296 in Hv. rewrite Round2_spec by (change (2 ^ 62) with 4611686018427387904; change FILTER_BITS with 7; lia). change FILTER_BITS with 7. change (7 =? 0) with false. cbv iota. f_equal. change (2 ^ (7 - 1)) with 64. change (2 ^ 7) with 128. symmetry. apply (Z.div_unique_pos _ _ _ 64); lia.
Qed.
Print Assumptions C86_shift_refuted.
(** Refuted: after the clip every sample of every plane is 2, whatever the input. *)
Theorem C86_constant_refuted : forall e f g, 2 <= uBitDepth e -> 0 <= uUpscaledWidth e < 2 ^ 32 -> 0 <= uFrameHeight e < 2 ^ 32 -> upscalingProcess e f = Ok g ->
  forall plane y x, 0 <= plane < uNumPlanes e -> 0 <= y < half_up (sub_shift plane (uSubY e)) (uFrameHeight e) -> 0 <= x < half_up (sub_shift plane (uSubX e)) (uUpscaledWidth e) -> idx3 g plane y x = Ok 2.
Proof.
  intros e f g Hb Hw Hh E plane y x Hp Hy Hx. destruct (upscaling_writes e f g Hb Hw Hh E) as [W _]. destruct (W (plane, y, x)) as (v & [= <-] & G); [|exact G].
  exists plane. split; [exact Hp|]. exists y. split; [exact Hy|]. exists x. split; [exact Hx|reflexivity].
Qed.
Print Assumptions C86_constant_refuted.
Definition demo_up : UEnv := mkUEnv 3 true true 8 9 9 7 4.
Definition demo_in : frame := map (fun p => map (fun y => map (fun x => 100 * p + 10 * y + x) [0; 1; 2; 3; 4; 5; 6; 7; 8; 9; 10; 11; 12; 13; 14; 15]) [0; 1; 2; 3; 4; 5; 6; 7; 8; 9; 10; 11; 12; 13; 14; 15]) [0; 1; 2].
Example C86_case : array3 3 16 16 demo_in /\ match upscalingProcess demo_up demo_in with Ok g => idx3 g 1 3 4 = Ok 2 /\ idx3 g 0 6 8 = Ok 2 /\ idx3 g 0 7 8 = Ok 0 | _ => False end /\
  match upSum demo_in 0 3 0 15 (upSrcX 128 (2 ^ 14) 7) with Ok s => Round2 s FILTER_BITS = Ok 36 | _ => False end.
Proof. split; [split; [reflexivity|repeat constructor]|]. split; vm_compute; repeat split. Qed.

(** * C87: the sample positions of super-resolution are evenly spaced and keep the picture aligned *)
(** In units of 2^-14 of an input column, output column x of uw is taken at its centre (x+1/2)*dw/uw - 1/2, plus the rounding constant 128, with an error of at most (uw+10)/4 units
    (below 1/63 of a column for uw up to 1024). *)
Theorem C87_positions : forall dw uw x, 0 < dw < uw -> uw <= 1024 -> uw <= 16 * (uw - dw) -> 0 <= x < uw ->
  exists st ini, upStep dw uw = Ok st /\ upInitial dw uw st = Ok ini /\ 0 < st <= 2 ^ 14 /\ 4 * Z.abs (uw * (upSrcX ini st x - 128) - ((2 * x + 1) * dw - uw) * 2 ^ 13) <= uw * (uw + 10).
Proof. exact up_position. Qed.
Print Assumptions C87_positions.
(** consecutive columns are one step apart *)
Theorem C87_even : forall ini st x, upSrcX ini st (x + 1) - upSrcX ini st x = st.
Proof. intros. unfold upSrcX. lia. Qed.
Print Assumptions C87_even.
Example C87_case : 0 < 512 < 1024 /\ 1024 <= 1024 /\ 1024 <= 16 * (1024 - 512) /\ upStep 512 1024 = Ok 8192 /\ upInitial 512 1024 8192 = Ok 12417 /\ upSrcX 12417 8192 2 = 12417.
Proof. repeat split; try lia. Qed.

(** * C88: loop restoration only touches planes that use it, and reads only samples of the plane near the stripe *)
Theorem C88_off : forall e, rUsesLr e = false -> loopRestoration e = Ok (rCdef e).
Proof. exact restoration_off. Qed.
Print Assumptions C88_off.
(** A plane whose restoration type is NONE keeps its samples. *)
Theorem C88_other_planes : forall e g plane, rUsesLr e = true -> loopRestoration e = Ok g -> idx (rFrameType e) plane = Ok RESTORE_NONE -> 2 <= rBitDepth e ->
  forall y x, idx3 g plane y x = idx3 (rCdef e) plane y x.
Proof. intros e g plane HU H ET Hb. exact (restoration_none e g plane HU H ET Hb). Qed.
Print Assumptions C88_other_planes.
(** Where a filter reads for position (x, y): inside the plane, at most two rows outside the stripe; inside the stripe the CDEF output, outside the frame before CDEF. *)
Theorem C88_source : forall e s plane x y, 0 <= sEndX s -> 0 <= sPlaneEndY s -> sStartY s <= sPlaneEndY s -> 0 <= sEndY s -> sStartY s <= sEndY s ->
  exists row col, getSourceSample e s plane x y = idx3 (if (sStartY s <=? row) && (row <=? sEndY s) then rCdef e else rCurr e) plane row col /\
    0 <= row <= sPlaneEndY s /\ 0 <= col <= sEndX s /\ sStartY s - 2 <= row <= sEndY s + 2 /\
    (0 <= x <= sEndX s -> col = x) /\ (0 <= y <= sPlaneEndY s -> sStartY s - 2 <= y <= sEndY s + 2 -> row = y).
Proof.
  intros e s plane x y H1 H2 H3 H4 H5. exists (source_row s y), (source_col s x). split; [apply source_ok; lia|]. unfold source_row, source_col. lia.
Qed.
Print Assumptions C88_source.
(** The block of a 4x4 unit lies inside its plane and its stripe, and stripes are 64 luma rows (32 when subsampled), offset by 8. *)
Theorem C88_blocks : forall e plane row col unit, idx (rUnitSize e) plane = Ok unit -> 0 < unit < 2 ^ 31 -> 0 <= row -> 0 <= col -> 4 * row < rFrameHeight e < 2 ^ 31 -> 4 * col < rUpscaledWidth e < 2 ^ 31 ->
  let sx := lr_sub plane (rSubX e) in let sy := lr_sub plane (rSubY e) in
  exists b, lrGeometry e plane row col = Ok b /\
    bX b = 4 * col / 2 ^ sx /\ bY b = 4 * row / 2 ^ sy /\ 1 <= bW b <= 4 / 2 ^ sx /\ 1 <= bH b <= 4 / 2 ^ sy /\
    bX b + bW b <= half_up sx (rUpscaledWidth e) /\ bY b + bH b <= half_up sy (rFrameHeight e) /\
    (bW b = 4 / 2 ^ sx \/ bX b + bW b = half_up sx (rUpscaledWidth e)) /\ (bH b = 4 / 2 ^ sy \/ bY b + bH b = half_up sy (rFrameHeight e)) /\
    sStartY (bStripe b) <= bY b /\ bY b + bH b - 1 <= sEndY (bStripe b) /\ sEndY (bStripe b) - sStartY (bStripe b) = 64 / 2 ^ sy - 1 /\ (exists k, sStartY (bStripe b) = (64 * k - 8) / 2 ^ sy).
Proof.
  intros e plane row col unit H1 H2 H3 H4 H5 H6. cbv zeta. destruct (geometry e plane row col unit H1 H2 H3 H4 H5 H6) as (b & E & K). exists b. split; [exact E|]. clear E.
  destruct K as (K1 & K2 & K3 & K4 & K5 & K6 & _ & _ & K7 & K8 & K9 & K10 & _ & _ & K11 & K12). repeat (split; [assumption|]). exact K10.
Qed.
Print Assumptions C88_blocks.
(** Refuted: the restoration unit of a block is found with 8 added to the column too (the specification adds it to the row only), so a block just left of a unit border uses the next unit. *)
Theorem C88_unit_column_refuted : exists e row col b, lrGeometry e 0 row col = Ok b /\ idx (rUnitSize e) 0 = Ok 64 /\ bX b + bW b <= 64 /\ bUnitCol b = 1.
Proof.
  exists (mkREnv 1 false false 8 256 256 true [1] [64] [] [] [] [] [] []), 0, 15. eexists. split; [reflexivity|]. split; [reflexivity|]. split; [vm_compute; discriminate|reflexivity].
Qed.
Print Assumptions C88_unit_column_refuted.
Definition demo_r : REnv := mkREnv 3 true true 8 9 7 true [0; 0; 0] [64; 32; 32] [[[0]]; [[0]]; [[0]]] [[[0]]; [[0]]; [[0]]] [[[[0; 0]]]; [[[0; 0]]]; [[[0; 0]]]] [] demo_lr demo_lr.
Example C88_case : loopRestoration demo_r = Ok demo_lr /\ idx (rFrameType demo_r) 1 = Ok RESTORE_NONE /\ match lrGeometry demo_r 1 1 2 with Ok b => (bX b, bY b, bW b, bH b, sStartY (bStripe b), sEndY (bStripe b)) = (4, 2, 1, 2, -4, 27) | _ => False end.
Proof. vm_compute. repeat split. Qed.

(** * C89: loop restoration filters every block whose unit uses the Wiener or the self guided filter *)
(** Refuted: a frame with a Wiener block is never finished, and a self guided block only when it is a single sample. *)
Theorem C89_filters_refuted : forall e g plane unit ty, rUsesLr e = true -> loopRestoration e = Ok g -> 0 <= plane < rNumPlanes e -> 1 <= rFrameHeight e < 2 ^ 31 -> 1 <= rUpscaledWidth e < 2 ^ 31 ->
  idx (rUnitSize e) plane = Ok unit -> 0 < unit < 2 ^ 31 -> idx (rFrameType e) plane = Ok ty -> ty <> RESTORE_NONE ->
  forall row col, 0 <= row -> 0 <= col -> 4 * row < rFrameHeight e -> 4 * col < rUpscaledWidth e ->
  forall b u, lrGeometry e plane row col = Ok b -> idx3 (rType e) plane (bUnitRow b) (bUnitCol b) = Ok u -> u <> RESTORE_WIENER /\ (u = RESTORE_SGRPROJ -> bW b = 1 /\ bH b = 1).
Proof. intros e g plane unit ty H1 H2 H3 H4 H5 H6 H7 H8 H9 row col H10 H11 H12 H13 b u H14 H15. exact (restoration_done e g plane unit ty u H1 H2 H3 H4 H5 H6 H7 H8 H9 row col H10 H11 H12 H13 b H14 H15). Qed.
Print Assumptions C89_filters_refuted.
(** What a finished frame looks like: every sample is that of the CDEF output or the constant 2 (Clip1). *)
Theorem C89_values_refuted : forall e g plane y x v, 2 <= rBitDepth e -> loopRestoration e = Ok g -> idx3 g plane y x = Ok v -> v = 2 \/ idx3 (rCdef e) plane y x = Ok v.
Proof. intros e g plane y x v Hb H E. exact (restoration_values e g Hb H (plane, y, x) v E). Qed.
Print Assumptions C89_values_refuted.
Definition demo_sgr (w h ty : Z) : REnv := mkREnv 1 true true 8 w h true [3; 0; 0] [64; 32; 32] [[[ty]]; [[0]]; [[0]]] [[[12]]; [[0]]; [[0]]] [[[[0; 0]]]; [[[0; 0]]]; [[[0; 0]]]] [] demo_lr demo_lr.
Example C89_case : match loopRestoration (demo_sgr 1 1 RESTORE_SGRPROJ) with Ok g => idx3 g 0 0 0 = Ok 2 | _ => False end /\ loopRestoration (demo_sgr 2 1 RESTORE_SGRPROJ) = Panic /\ loopRestoration (demo_sgr 1 1 RESTORE_WIENER) = Panic.
Proof. vm_compute. repeat split. Qed.

(** * C90: the decoder outputs the frame it decoded *)
(** Refuted: whenever the end of a new frame is reached, the frame is at most 9x9, and every luma sample after the filters is 2, so is what the refreshed slots keep;
    if the frame is shown it has a single sample. *)
Theorem C90_output_refuted : forall w lr x x', wShowExisting w = false -> 2 <= lfBitDepth (wLf w) -> 1 <= lfNumPlanes (wLf w) -> 0 < wUpscaledWidth w < 2 ^ 31 -> 0 < lfFrameHeight (wLf w) < 2 ^ 31 ->
  zlen (xSlots x) = 8 -> array2 1 1 (oY (xOut x)) -> decodeFrameWrapup w lr x = Ok x' ->
  wUpscaledWidth w <= 9 /\ lfFrameHeight (wLf w) <= 9 /\
  (forall i s, 0 <= i < 8 -> Z.testbit (wRefresh w) i = true -> idx (xSlots x') i = Ok s -> forall y c, 0 <= y < lfFrameHeight (wLf w) -> 0 <= c < wUpscaledWidth w -> idx3 (sStore s) 0 y c = Ok 2) /\
  (wShowFrame w = true -> wUpscaledWidth w = 1 /\ lfFrameHeight (wLf w) = 1 /\ oY (xOut x') = [[2]]).
Proof. exact wrapup_output. Qed.
Print Assumptions C90_output_refuted.
(** When it is reached, the slots are those of the reference update, and a frame that is not shown leaves the output alone. *)
Theorem C90_slots_partial : forall w lr x x', wShowExisting w = false -> zlen (xSlots x) = 8 -> decodeFrameWrapup w lr x = Ok x' ->
  exists lr', (forall i, 0 <= i < 8 -> exists s s', idx (xSlots x) i = Ok s /\ idx (xSlots x') i = Ok s' /\ if Z.testbit (wRefresh w) i then saved (infoOf w lr' (xSegIds x')) s s' else s' = s) /\
  (wShowFrame w = false -> xOut x' = xOut x).
Proof. exact wrapup_slots. Qed.
Print Assumptions C90_slots_partial.

(** * C91: operating points, film grain and repeated frames are handled *)
(** Refuted: with an operating point that drops layers no frame is ever output, with film grain applied neither, and repeating a key frame never ends normally. *)
Theorem C91_operating_point_refuted : forall w lr x, wShowFrame w = true -> wOperatingPointIdc w <> 0 -> forall x', decodeFrameWrapup w lr x <> Ok x'.
Proof. exact wrapup_operating_point. Qed.
Print Assumptions C91_operating_point_refuted.
Theorem C91_film_grain_refuted : forall w lr x, wShowFrame w = true -> wFilmGrainPresent w = true -> wApplyGrain w = true -> forall x', decodeFrameWrapup w lr x <> Ok x'.
Proof. exact wrapup_film_grain. Qed.
Print Assumptions C91_film_grain_refuted.
Theorem C91_repeat_key_frame_refuted : forall w lr x, wShowExisting w = true -> wFrameType w = KEY_FRAME -> forall x', decodeFrameWrapup w lr x <> Ok x'.
Proof. exact wrapup_repeat_key. Qed.
Print Assumptions C91_repeat_key_frame_refuted.
(** Refuted: a repeated frame is output with its chroma planes transposed (u(y, x) is the stored sample of row x, column y). *)
Theorem C91_repeat_chroma_refuted : forall s o o' y x, outExisting s o = Ok o' -> sSubX s = 0 -> sSubY s = 0 -> 0 <= y < sFrameHeight s -> 0 <= x < sUpscaledWidth s ->
  copied (idx3 (sStore s) 0 y x) (idx2 (oY o') y x) /\ copied (idx3 (sStore s) 1 x y) (idx2 (oU o') y x) /\ copied (idx3 (sStore s) 2 x y) (idx2 (oV o') y x).
Proof. exact existing_transposed. Qed.
Print Assumptions C91_repeat_chroma_refuted.
(** concrete frames: 1x1 luma sample of a 4:2:0 picture that reaches the end, with and without being shown *)
Definition demo_lf (w h : Z) : LFEnv := mkLFEnv 8 3 true true w h 2 2 [0; 0; 0; 0] 0 false [] [] 0 false [] [] (repeat (repeat 0 64) 64) [] [[0; 0]; [0; 0]] [] [] [] [].
Definition demo_w (w h : Z) (show existing : bool) (op : Z) (grain : bool) : WEnv :=
  mkWEnv (demo_lf w h) [[-1]] 3 [0] [0] [0] [0] w w h 1 5 [0; 1; 2; 3; 4; 5; 6; 7] 3 false [0; 0; 0] [64; 64; 64] [] [] [] [] 1 [] (repeat (repeat 1 64) 64) (repeat (repeat [3; 4] 64) 64) (repeat (repeat 9 6) 8) existing show 0 op grain grain.
Definition demo_x : WState := mkWState demo_in demo_in (repeat demo_slot 8) (repeat (repeat 2 64) 64) (mkOutp [[0]] [[0]] [[0]]).
Example C90_case : zlen (xSlots demo_x) = 8 /\ array2 1 1 (oY (xOut demo_x)) /\
  match decodeFrameWrapup (demo_w 1 1 true false 0 false) zero9 demo_x with Ok x' => oY (xOut x') = [[2]] | _ => False end /\
  match decodeFrameWrapup (demo_w 9 7 false false 0 false) zero9 demo_x with Ok x' => match idx (xSlots x') 1 with Ok s => idx3 (sStore s) 0 6 8 = Ok 2 | _ => False end | _ => False end /\
  decodeFrameWrapup (demo_w 2 1 true false 0 false) zero9 demo_x = Panic.
Proof. split; [reflexivity|]. split; [split; [reflexivity|repeat constructor]|]. split; [vm_compute; reflexivity|]. split; vm_compute; reflexivity. Qed.
Example C91_case : decodeFrameWrapup (demo_w 1 1 true false 256 false) zero9 demo_x = Panic /\ decodeFrameWrapup (demo_w 1 1 true false 0 true) zero9 demo_x = Panic.
Proof. split; vm_compute; reflexivity. Qed.
Definition demo_stored : slot := mkSlot 1 2 2 2 2 2 2 2 1 0 0 8 0 (repeat 0 8) demo_in [] [] [] [].
Example C91_repeat_case : match outExisting demo_stored (mkOutp [[0; 0]; [0; 0]] [[0; 0]; [0; 0]] [[0; 0]; [0; 0]]) with Ok o => oY o = [[0; 1]; [10; 11]] /\ oU o = [[100; 110]; [101; 111]] | _ => False end.
Proof. vm_compute. split; reflexivity. Qed.
