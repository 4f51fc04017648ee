(** Proofs about loop restoration. *)
From Verif Require Import GoBase Util UtilProofs Constants Frame Writes Upscale UpscaleProofs Restoration.

Lemma Min_min a b : Min a b = Z.min a b. Proof. unfold Min. destruct (Z.leb_spec a b); lia. Qed.
Lemma Max_max a b : Max a b = Z.max a b. Proof. unfold Max. destruct (Z.leb_spec b a); lia. Qed.

(** ** Source samples *)
(** the row read for row y of a block: inside the plane, and at most two rows outside the stripe *)
Definition source_row (s : stripe) (y : Z) : Z := Z.max (sStartY s - 2) (Z.min (sEndY s + 2) (Z.max 0 (Z.min (sPlaneEndY s) y))).
Definition source_col (s : stripe) (x : Z) : Z := Z.max 0 (Z.min (sEndX s) x).
Lemma source_ok e s plane x y : sStartY s <= sEndY s -> let row := source_row s y in
  getSourceSample e s plane x y = idx3 (if (sStartY s <=? row) && (row <=? sEndY s) then rCdef e else rCurr e) plane row (source_col s x).
Proof.
  intros Hs. unfold getSourceSample, source_row, source_col. rewrite !Max_max, !Min_min. cbv zeta. rewrite ?Max_max, ?Min_min. set (y0 := Z.max 0 (Z.min (sPlaneEndY s) y)). clearbody y0.
  destruct (Z.ltb_spec y0 (sStartY s)); [|destruct (Z.ltb_spec (sEndY s) y0)].
  - replace (Z.max (sStartY s - 2) (Z.min (sEndY s + 2) y0)) with (Z.max (sStartY s - 2) y0) by lia. try rewrite Max_max. destruct (Z.leb_spec (sStartY s) (Z.max (sStartY s - 2) y0)); [lia|]. reflexivity.
  - replace (Z.max (sStartY s - 2) (Z.min (sEndY s + 2) y0)) with (Z.min (sEndY s + 2) y0) by lia. try rewrite Min_min. destruct (Z.leb_spec (sStartY s) (Z.min (sEndY s + 2) y0)); [|lia]. destruct (Z.leb_spec (Z.min (sEndY s + 2) y0) (sEndY s)); [lia|]. reflexivity.
  - replace (Z.max (sStartY s - 2) (Z.min (sEndY s + 2) y0)) with y0 by lia. destruct (Z.leb_spec (sStartY s) y0); [|lia]. destruct (Z.leb_spec y0 (sEndY s)); [|lia]. reflexivity.
Qed.

(** ** Geometry *)
Lemma shr_sub n sub : 0 <= sub <= 1 -> shr n sub = n / 2 ^ sub. Proof. intros. unfold shr. apply Z.shiftr_div_pow2. lia. Qed.
Definition lr_sub (plane : Z) (b : bool) : Z := if plane =? 0 then 0 else int_of b.
Lemma lr_sub_range plane b : 0 <= lr_sub plane b <= 1. Proof. unfold lr_sub. destruct (plane =? 0), b; cbn; lia. Qed.
Lemma geometry e plane row col unit : idx (rUnitSize e) plane = Ok unit -> 0 < unit < 2 ^ 31 -> 0 <= row -> 0 <= col -> 4 * row < rFrameHeight e < 2 ^ 31 -> 4 * col < rUpscaledWidth e < 2 ^ 31 ->
  let sx := lr_sub plane (rSubX e) in let sy := lr_sub plane (rSubY e) in
  exists b, lrGeometry e plane row col = Ok b /\
    bX b = 4 * col / 2 ^ sx /\ bY b = 4 * row / 2 ^ sy /\
    1 <= bW b <= 4 / 2 ^ sx /\ 1 <= bH b <= 4 / 2 ^ sy /\
    bX b + bW b <= half_up sx (rUpscaledWidth e) /\ bY b + bH b <= half_up sy (rFrameHeight e) /\
    sEndX (bStripe b) = half_up sx (rUpscaledWidth e) - 1 /\ sPlaneEndY (bStripe b) = half_up sy (rFrameHeight e) - 1 /\
    sStartY (bStripe b) <= bY b /\ bY b + bH b - 1 <= sEndY (bStripe b) /\
    sEndY (bStripe b) - sStartY (bStripe b) = 64 / 2 ^ sy - 1 /\ (exists k, sStartY (bStripe b) = (64 * k - 8) / 2 ^ sy) /\
    bUnitRow b = Z.min (Z.max ((half_up sy (rFrameHeight e) + unit / 2) / unit) 1 - 1) (((4 * row + 8) / 2 ^ sy) / unit) /\
    bUnitCol b = Z.min (Z.max ((half_up sx (rUpscaledWidth e) + unit / 2) / unit) 1 - 1) (((4 * col + 8) / 2 ^ sx) / unit) /\
    (bW b = 4 / 2 ^ sx \/ bX b + bW b = half_up sx (rUpscaledWidth e)) /\ (bH b = 4 / 2 ^ sy \/ bY b + bH b = half_up sy (rFrameHeight e)).
Proof.
  intros EU HU Hr Hc Hh Hw sx sy. change (2 ^ 31) with 2147483648 in *. unfold lrGeometry. cbv zeta. fold (lr_sub plane (rSubX e)). fold (lr_sub plane (rSubY e)). fold sx. fold sy. pose proof (lr_sub_range plane (rSubX e)) as SX. pose proof (lr_sub_range plane (rSubY e)) as SY. fold sx in SX. fold sy in SY. clearbody sx sy.
  rewrite EU. cbn [rbind]. rewrite (Round2_half (rFrameHeight e)), (Round2_half (rUpscaledWidth e)) by (change (2 ^ 32) with 4294967296; lia). cbn [rbind]. unfold CountUnitsInFrame. destruct (Z.eqb_spec unit 0); [lia|]. cbn [rbind].
  eexists. split; [reflexivity|]. cbn [bStripe bUnitRow bUnitCol bX bY bW bH sStartY sEndY sEndX sPlaneEndY]. rewrite !Min_min, !Max_max. change MI_SIZE with 4. rewrite !shr_sub by lia. rewrite (Z.mul_comm row 4), (Z.mul_comm col 4).
  rewrite (Z.quot_div_nonneg (4 * row + 8) 64) by lia. set (k := (4 * row + 8) / 64). assert (Hk : 64 * k <= 4 * row + 8 < 64 * k + 64) by (unfold k; pose proof (Z.div_mod (4 * row + 8) 64 ltac:(lia)); pose proof (Z.mod_pos_bound (4 * row + 8) 64 ltac:(lia)); lia). clearbody k.
  pose proof (half_up_range sx (rUpscaledWidth e) SX ltac:(lia)) as [UWr UWp]. pose proof (half_up_range sy (rFrameHeight e) SY ltac:(lia)) as [FHr FHp].
  assert (PX : 0 <= 4 * col / 2 ^ sx < half_up sx (rUpscaledWidth e)). { unfold half_up. assert (sx = 0 \/ sx = 1) as [-> | ->] by lia; [change (2 ^ 0) with 1; rewrite !Z.div_1_r; lia|]. change (2 ^ 1) with 2.
    pose proof (Z.div_mod (4 * col) 2 ltac:(lia)). pose proof (Z.mod_pos_bound (4 * col) 2 ltac:(lia)). pose proof (Z.div_mod (rUpscaledWidth e + 1) 2 ltac:(lia)). pose proof (Z.mod_pos_bound (rUpscaledWidth e + 1) 2 ltac:(lia)). lia. }
  assert (PY : 0 <= 4 * row / 2 ^ sy < half_up sy (rFrameHeight e)). { unfold half_up. assert (sy = 0 \/ sy = 1) as [-> | ->] by lia; [change (2 ^ 0) with 1; rewrite !Z.div_1_r; lia|]. change (2 ^ 1) with 2.
    pose proof (Z.div_mod (4 * row) 2 ltac:(lia)). pose proof (Z.mod_pos_bound (4 * row) 2 ltac:(lia)). pose proof (Z.div_mod (rFrameHeight e + 1) 2 ltac:(lia)). pose proof (Z.mod_pos_bound (rFrameHeight e + 1) 2 ltac:(lia)). lia. }
  assert (W4 : 2 <= 4 / 2 ^ sx <= 4) by (assert (sx = 0 \/ sx = 1) as [-> | ->] by lia; split; vm_compute; discriminate). assert (H4 : 2 <= 4 / 2 ^ sy <= 4) by (assert (sy = 0 \/ sy = 1) as [-> | ->] by lia; split; vm_compute; discriminate).
  change (2 ^ 1) with 2.
  assert (QU : 0 <= unit / 2) by (apply Z.div_pos; lia). rewrite !(Z.quot_div_nonneg _ unit) by (first [lia|apply Z.div_pos; lia]).
  split; [reflexivity|]. split; [reflexivity|]. split; [lia|]. split; [lia|]. split; [lia|]. split; [lia|]. split; [reflexivity|]. split; [reflexivity|].
  split; [|split; [|split; [lia|split; [exists k; f_equal; lia|split; [reflexivity|split; [reflexivity|split; lia]]]]]].
  - apply Z.div_le_mono; lia.
  - assert (sy = 0 \/ sy = 1) as [-> | ->] by lia; [change (2 ^ 0) with 1 in *; rewrite !Z.div_1_r in *; lia|]. change (2 ^ 1) with 2 in *. change (64 / 2) with 32. change (4 / 2) with 2.
    replace (-8 + k * 64) with ((32 * k - 4) * 2) by lia. replace (4 * row) with (2 * row * 2) in * by lia. rewrite !Z.div_mul in * by lia. lia.
Qed.

(** ** The filters *)
(** after a loop that completes, every one of its steps did *)
Lemma rfor_to_each {A} (Q : A -> Prop) lo hi (body : Z -> A -> res A) a a' j : Q a -> (forall i b b', lo <= i < hi -> Q b -> body i b = Ok b' -> Q b') -> rfor_to lo hi body a = Ok a' -> lo <= j < hi -> exists b b', Q b /\ body j b = Ok b'.
Proof.
  intros Ha HB E Hj. unfold rfor_to in E. remember (Z.to_nat (hi - lo)) as n eqn:En. assert (Hn : hi = lo + Z.of_nat n) by lia. clear En. revert lo a Ha HB E Hj Hn. induction n as [|n IH]; intros lo a Ha HB E Hj Hn; [lia|]. cbn [rfor_from] in E.
  destruct (body lo a) as [b| |] eqn:Eb; cbn [rbind] in E; try discriminate. destruct (Z.eq_dec j lo) as [->|N]; [exists a, b; auto|]. apply (IH (lo + 1) b); try lia; [eapply HB; [|exact Ha|exact Eb]; lia| |exact E]. intros i c c' Hi. apply HB. lia.
Qed.
Lemma rfor_by_first {A} lo hi step (body : Z -> A -> res A) a a' : lo < hi -> rfor_by lo hi step body a = Ok a' -> exists b, body lo a = Ok b.
Proof.
  intros Hl. unfold rfor_by. destruct (Z.to_nat (hi - lo)) eqn:E; [lia|]. cbn [rfor_step]. destruct (Z.ltb_spec lo hi); [|lia]. intros H1. apply rbind_inv in H1 as (b & Eb & _). exists b. exact Eb.
Qed.
Lemma upd2_nil {B} r c (v : B) l : upd2 [] r c v <> Ok l.
Proof. unfold upd2. intros H. apply rbind_inv in H as (x & E & _). apply idx_inv in E as [E _]. change (zlen (@nil (list B))) with 0 in E. lia. Qed.
Lemma wienerRow_never e s plane x y w r r0 offset limit hf l : 1 <= w -> rfor_to 0 w (fun c mid =>
    let! sum := rfor_to 0 7 (fun t sum => let! k := idx hf t in let! v := getSourceSample e s plane (x + c + t - 3) (y + r - 3) in Ok (sum + k * v)) 0 in
    let! v := Round2 sum r0 in
    upd2 mid r c (Clip3 (- offset) (limit - offset) v)) [] <> Ok l.
Proof.
  intros Hw H. unfold rfor_to in H at 1. destruct (Z.to_nat (w - 0)) eqn:E; [lia|]. cbn [rfor_from] in H. apply rbind_inv in H as (b & H & _). apply rbind_inv in H as (sum & _ & H). apply rbind_inv in H as (v & _ & H). exact (upd2_nil _ _ _ _ H).
Qed.
Lemma wiener_never e s plane ur uc x y w h g g' : 1 <= w -> 1 <= h -> wienerFilter e s plane ur uc x y w h g <> Ok g'.
Proof.
  intros Hw Hh. unfold wienerFilter. destruct (roundVariables false (rBitDepth e)) as [r0 r1]. intros H. do 4 (apply rbind_inv in H as (? & _ & H)). cbv zeta in H. apply rbind_inv in H as (mid & Em & _). unfold wienerRows in Em.
  unfold rfor_to in Em at 1. destruct (Z.to_nat (h + 6 - 0)) eqn:E; [lia|]. cbn [rfor_from] in Em. apply rbind_inv in Em as (b & Em & _). exact (wienerRow_never _ _ _ _ _ _ _ _ _ _ _ _ Hw Em).
Qed.

Lemma sgr_radius set row : idx SGR_PARAMS set = Ok row -> exists r0 e0 r1 e1, row = [r0; e0; r1; e1] /\ (r0 <> 0 \/ r1 <> 0).
Proof.
  assert (F : Forall (fun row => exists r0 e0 r1 e1, row = [r0; e0; r1; e1] /\ (r0 <> 0 \/ r1 <> 0)) SGR_PARAMS) by (unfold SGR_PARAMS; repeat (constructor; [do 4 eexists; split; [reflexivity|lia]|]); constructor).
  intros H. exact (idx_Forall _ _ _ _ F H).
Qed.
Lemma box_small e s plane x y w h set pass F row : idx SGR_PARAMS set = Ok row -> 1 <= w -> 1 <= h -> boxFilter e s plane x y w h set pass = Ok F -> idx row (int_of pass * 2) = Ok 0 \/ (w = 1 /\ h = 1).
Proof.
  intros ER Hw Hh. unfold boxFilter. unfold idx2. rewrite ER. cbn [rbind]. intros H. apply rbind_inv in H as (r & Er & H). destruct (Z.eqb_spec r 0) as [->|N]; [left; exact Er|]. right.
  apply rbind_inv in H as (eps & _ & H). cbv zeta in H. match type of H with (if ?c then _ else _) = _ => destruct c end; [discriminate|]. apply rbind_inv in H as ([A B] & _ & H).
  assert (S11 : array2 1 1 [[0]]) by (split; [reflexivity|repeat constructor]).
  assert (K : forall i j, 0 <= i < h -> 0 <= j < w -> i < 1 /\ j < 1); [|pose proof (K (h - 1) (w - 1) ltac:(lia) ltac:(lia)); lia].
  intros i j Hi Hj. match type of H with rfor_to _ _ ?bd _ = _ => destruct (rfor_to_each (array2 1 1) 0 h bd [[0]] F i S11) as (b & b' & Hb & E); [|exact H|exact Hi|] end.
  - intros i0 b b' _ Hb. apply rfor_to_keep; [exact Hb|]. intros j0 c c' _ Hc E. apply rbind_inv in E as ([a1 b1] & _ & E). apply rbind_inv in E as (c0 & _ & E). apply rbind_inv in E as (v & _ & E). exact (array2_upd _ _ _ _ _ _ _ Hc E).
  - cbv zeta in E. match type of E with rfor_to _ _ ?bd _ = _ => destruct (rfor_to_each (array2 1 1) 0 w bd b b' j Hb) as (c & c' & Hc & E1); [|exact E|exact Hj|] end.
    + intros j0 c c' _ Hc E1. apply rbind_inv in E1 as ([a1 b1] & _ & E1). apply rbind_inv in E1 as (c0 & _ & E1). apply rbind_inv in E1 as (v & _ & E1). exact (array2_upd _ _ _ _ _ _ _ Hc E1).
    + apply rbind_inv in E1 as ([a1 b1] & _ & E1). apply rbind_inv in E1 as (c0 & _ & E1). apply rbind_inv in E1 as (v & _ & E1). pose proof (idx2_upd2_same _ _ _ _ _ E1) as G. pose proof (array2_upd _ _ _ _ _ _ _ Hc E1) as Hc'.
      pose proof (proj1 (array2_get 1 1 c' i j Hc') (ex_intro _ _ G)). lia.
Qed.
Lemma self_guided_small e s plane ur uc x y w h g g' : 1 <= w -> 1 <= h -> selfGuidedFilter e s plane ur uc x y w h g = Ok g' -> w = 1 /\ h = 1.
Proof.
  intros Hw Hh. unfold selfGuidedFilter. intros H. apply rbind_inv in H as (set & _ & H). apply rbind_inv in H as (f0 & E0 & H). apply rbind_inv in H as (f1 & E1 & H).
  assert (exists row, idx SGR_PARAMS set = Ok row) as [row ER]. { unfold boxFilter, idx2 in E0. apply rbind_inv in E0 as (r & Er & _). apply rbind_inv in Er as (row & Er & _). exists row. exact Er. }
  destruct (sgr_radius _ _ ER) as (r0 & e0 & r1 & e1 & -> & HR). destruct (box_small _ _ _ _ _ _ _ _ _ _ _ ER Hw Hh E0) as [Z0|K]; [|exact K]. destruct (box_small _ _ _ _ _ _ _ _ _ _ _ ER Hw Hh E1) as [Z1|K]; [|exact K].
  exfalso. change (Ok r0 = Ok 0) in Z0. change (Ok r1 = Ok 0) in Z1. injection Z0 as ->. injection Z1 as ->. lia.
Qed.
(** the self guided filter of a 1x1 block writes that sample *)
Lemma self_guided_writes e s plane ur uc x y w h g g' : 2 <= rBitDepth e -> selfGuidedFilter e s plane ur uc x y w h g = Ok g' ->
  writes get3 (fun _ => Ok 2) (fun q => exists i, 0 <= i < h /\ exists j, 0 <= j < w /\ q = (plane, y + i, x + j)) g g'.
Proof.
  intros Hb. unfold selfGuidedFilter. intros H. do 4 (apply rbind_inv in H as (? & _ & H)). cbv zeta in H. do 4 (apply rbind_inv in H as (? & _ & H)). revert H. apply writes_loop.
  - intros. apply decided_range. intros. apply decided_eq3.
  - intros i b b' Hi. apply writes_loop; [intros; apply decided_eq3|]. intros j d d' Hj H. do 4 (apply rbind_inv in H as (? & _ & H)). rewrite Clip1_two in H by exact Hb. eapply writes_upd3; [|exact H]. reflexivity.
Qed.

(** ** The whole process *)
Lemma restoration_off e : rUsesLr e = false -> loopRestoration e = Ok (rCdef e).
Proof. intros H. unfold loopRestoration. rewrite H. reflexivity. Qed.
Lemma restore_block_inv e plane row col g g' : loopRestoreBlock e plane row col g = Ok g' -> exists b ty, lrGeometry e plane row col = Ok b /\ idx3 (rType e) plane (bUnitRow b) (bUnitCol b) = Ok ty /\
  (ty = RESTORE_WIENER -> wienerFilter e (bStripe b) plane (bUnitRow b) (bUnitCol b) (bX b) (bY b) (bW b) (bH b) g = Ok g') /\
  (ty = RESTORE_SGRPROJ -> selfGuidedFilter e (bStripe b) plane (bUnitRow b) (bUnitCol b) (bX b) (bY b) (bW b) (bH b) g = Ok g') /\
  (ty <> RESTORE_WIENER -> ty <> RESTORE_SGRPROJ -> g' = g).
Proof.
  unfold loopRestoreBlock. intros H. apply rbind_inv in H as (b & Eb & H). apply rbind_inv in H as (ty & Et & H). exists b, ty. split; [exact Eb|]. split; [exact Et|].
  destruct (Z.eqb_spec ty RESTORE_WIENER) as [->|N1]; [split; [intros _; exact H|split; [discriminate|contradiction]]|]. destruct (Z.eqb_spec ty RESTORE_SGRPROJ) as [->|N2]; [split; [contradiction|split; [intros _; exact H|contradiction]]|].
  split; [contradiction|]. split; [contradiction|]. intros _ _. congruence.
Qed.
(** every block of the frame *)
Lemma rfor_step_each {A} (Q : A -> Prop) step n : forall lo hi (body : Z -> A -> res A) a a' k, 0 < step -> hi - lo <= Z.of_nat n -> Q a -> (forall i b b', lo <= i < hi -> Q b -> body i b = Ok b' -> Q b') -> rfor_step n lo hi step body a = Ok a' ->
  0 <= k -> lo + k * step < hi -> exists b b', Q b /\ body (lo + k * step) b = Ok b'.
Proof.
  induction n as [|n IH]; intros lo hi body a a' k Hs Hn Ha HB E Hk HH; [nia|]. cbn [rfor_step] in E. destruct (Z.ltb_spec lo hi) as [L|L]; [|nia]. apply rbind_inv in E as (b & Eb & E).
  destruct (Z.eq_dec k 0) as [->|N]; [exists a, b; rewrite Z.mul_0_l, Z.add_0_r; auto|]. destruct (IH (lo + step) hi body b a' (k - 1) Hs) as (c & c' & Hc & Ec); try assumption; try lia; try nia.
  - eapply HB; [|exact Ha|exact Eb]. lia.
  - intros i d d' Hi. apply HB. lia.
  - exists c, c'. split; [exact Hc|]. replace (lo + k * step) with (lo + step + (k - 1) * step) by lia. exact Ec.
Qed.
Lemma restoration_block e g plane row col : rUsesLr e = true -> loopRestoration e = Ok g -> 0 <= row -> 0 <= col -> 4 * row < rFrameHeight e -> 4 * col < rUpscaledWidth e -> 0 <= plane < rNumPlanes e ->
  (exists ty, idx (rFrameType e) plane = Ok ty /\ (ty <> RESTORE_NONE -> exists g0 g1, loopRestoreBlock e plane row col g0 = Ok g1)).
Proof.
  intros HU H Hr Hc Hh Hw Hp. unfold loopRestoration in H. rewrite HU in H. cbn [negb] in H. unfold rfor_by in H. change MI_SIZE with 4 in H.
  apply (rfor_step_each (fun _ => True) 4 _ _ _ _ _ _ row) in H as (b & b' & _ & H); try (lia || trivial).
  apply (rfor_step_each (fun _ => True) 4 _ _ _ _ _ _ col) in H as (c & c' & _ & H); try (lia || trivial).
  apply (rfor_to_each (fun _ => True) 0 _ _ _ _ plane I (fun _ _ _ _ _ _ => I)) in H as (d & d' & _ & H); [|exact Hp].
  apply rbind_inv in H as (ty & Et & H). exists ty. split; [exact Et|]. intros NT. destruct (Z.eqb_spec ty RESTORE_NONE) as [|NE]; [contradiction|]. cbn [negb] in H. change MI_SIZE_LOG2 with 2 in H.
  assert (S4 : forall n, shr (0 + n * 4) 2 = n) by (intro n; unfold shr; rewrite Z.shiftr_div_pow2 by lia; change (2 ^ 2) with 4; rewrite Z.add_0_l; apply Z.div_mul; lia).
  rewrite !S4 in H. exists d, d'. exact H.
Qed.
(** What a completed run means for a plane with restoration *)
Lemma restoration_done e g plane unit ty u : rUsesLr e = true -> loopRestoration e = Ok g -> 0 <= plane < rNumPlanes e -> 1 <= rFrameHeight e < 2 ^ 31 -> 1 <= rUpscaledWidth e < 2 ^ 31 ->
  idx (rUnitSize e) plane = Ok unit -> 0 < unit < 2 ^ 31 -> idx (rFrameType e) plane = Ok ty -> ty <> RESTORE_NONE ->
  forall row col, 0 <= row -> 0 <= col -> 4 * row < rFrameHeight e -> 4 * col < rUpscaledWidth e -> 
  forall b, lrGeometry e plane row col = Ok b -> idx3 (rType e) plane (bUnitRow b) (bUnitCol b) = Ok u -> u <> RESTORE_WIENER /\ (u = RESTORE_SGRPROJ -> bW b = 1 /\ bH b = 1).
Proof.
  intros HU H Hp Hh Hw EU HUn ET NT row col Hr Hc Hhr Hwc b Eb Eu. destruct (restoration_block e g plane row col HU H Hr Hc Hhr Hwc Hp) as (ty' & ET' & K). rewrite ET in ET'. injection ET' as <-. destruct (K NT) as (g0 & g1 & E).
  apply restore_block_inv in E as (b' & ty' & Eb' & Et' & KW & KS & _). rewrite Eb in Eb'. injection Eb' as <-. rewrite Eu in Et'. injection Et' as <-.
  destruct (geometry e plane row col unit EU HUn Hr Hc ltac:(lia) ltac:(lia)) as (b2 & Eb2 & _ & _ & W & HH & _). rewrite Eb in Eb2. injection Eb2 as <-. split.
  - intros ->. exact (wiener_never _ _ _ _ _ _ _ _ _ _ _ (proj1 W) (proj1 HH) (KW eq_refl)).
  - intros ->. exact (self_guided_small _ _ _ _ _ _ _ _ _ _ _ (proj1 W) (proj1 HH) (KS eq_refl)).
Qed.
(** the Wiener filter too writes the constant of Clip1 *)
Lemma wiener_writes e s plane ur uc x y w h g g' : 2 <= rBitDepth e -> wienerFilter e s plane ur uc x y w h g = Ok g' ->
  writes get3 (fun _ => Ok 2) (fun q => exists i, 0 <= i < h /\ exists j, 0 <= j < w /\ q = (plane, y + i, x + j)) g g'.
Proof.
  intros Hb. unfold wienerFilter. destruct (roundVariables false (rBitDepth e)) as [r0 r1]. intros H. do 4 (apply rbind_inv in H as (? & _ & H)). cbv zeta in H. apply rbind_inv in H as (mid & _ & H). revert H. apply writes_loop.
  - intros. apply decided_range. intros. apply decided_eq3.
  - intros i b b' Hi. apply writes_loop; [intros; apply decided_eq3|]. intros j d d' Hj H. do 2 (apply rbind_inv in H as (? & _ & H)). rewrite Clip1_two in H by exact Hb. eapply writes_upd3; [|exact H]. reflexivity.
Qed.
Lemma restore_block_values e plane row col g g' : 2 <= rBitDepth e -> loopRestoreBlock e plane row col g = Ok g' -> forall q v, get3 g' q = Ok v -> v = 2 \/ get3 g q = Ok v.
Proof.
  intros Hb H. apply restore_block_inv in H as (b & ty & _ & _ & KW & KS & KN).
  assert (K : forall R, decided R -> writes get3 (fun _ => Ok 2) R g g' -> forall q v, get3 g' q = Ok v -> v = 2 \/ get3 g q = Ok v).
  { intros R D [W1 W2] q v E. destruct (D q) as [Y|N]; [destruct (W1 q Y) as (v' & [= <-] & E'); rewrite E in E'; injection E' as <-; left; reflexivity|right; rewrite <- W2; assumption]. }
  assert (D : forall plane y x w h, decided (fun q : Z * Z * Z => exists i, 0 <= i < h /\ exists j, 0 <= j < w /\ q = (plane, y + i, x + j))) by (intros; apply decided_range; intros; apply decided_range; intros; apply decided_eq3).
  destruct (Z.eq_dec ty RESTORE_WIENER) as [->|N1]; [eapply K; [apply D|exact (wiener_writes _ _ _ _ _ _ _ _ _ _ _ Hb (KW eq_refl))]|]. destruct (Z.eq_dec ty RESTORE_SGRPROJ) as [->|N2]; [eapply K; [apply D|exact (self_guided_writes _ _ _ _ _ _ _ _ _ _ _ Hb (KS eq_refl))]|].
  rewrite (KN N1 N2). auto.
Qed.
(** Every sample of the result is one of the CDEF output or the constant of Clip1. *)
Lemma restoration_values e g : 2 <= rBitDepth e -> loopRestoration e = Ok g -> forall q v, get3 g q = Ok v -> v = 2 \/ get3 (rCdef e) q = Ok v.
Proof.
  intros Hb. unfold loopRestoration. destruct (rUsesLr e); cbn [negb]; [|intros [= <-]; auto].
  set (Q := fun g : frame => forall q v, get3 g q = Ok v -> v = 2 \/ get3 (rCdef e) q = Ok v). intros H. change (Q g). revert H. apply (rfor_by_post Q); [intros q v E; right; exact E|].
  intros y a a1 HQ. apply (rfor_by_post Q); [exact HQ|]. clear a a1 HQ. intros x a a1 HQ H. eapply (rfor_to_keep (A := frame) Q); [exact HQ| |exact H]. clear a a1 HQ H. intros plane a a1 _ HQ H. apply rbind_inv in H as (ty & _ & H).
  destruct (negb (ty =? RESTORE_NONE)); [|injection H as <-; exact HQ]. intros q v E. destruct (restore_block_values _ _ _ _ _ _ Hb H q v E) as [->|E1]; [left; reflexivity|apply HQ, E1].
Qed.
(** nor are samples lost *)
Lemma restoration_defined e g : 2 <= rBitDepth e -> loopRestoration e = Ok g -> forall q, defined get3 (rCdef e) q -> defined get3 g q.
Proof.
  intros Hb. unfold loopRestoration. destruct (rUsesLr e); cbn [negb]; [|intros [= <-]; auto].
  set (Q := fun g : frame => forall q, defined get3 (rCdef e) q -> defined get3 g q). intros H. change (Q g). revert H. apply (rfor_by_post Q); [intros q E; exact E|].
  intros y a a1 HQ. apply (rfor_by_post Q); [exact HQ|]. clear a a1 HQ. intros x a a1 HQ H. eapply (rfor_to_keep (A := frame) Q); [exact HQ| |exact H]. clear a a1 HQ H. intros plane a a1 _ HQ H. apply rbind_inv in H as (ty & _ & H).
  destruct (negb (ty =? RESTORE_NONE)); [|injection H as <-; exact HQ]. intros q E. specialize (HQ q E). apply restore_block_inv in H as (b & ty' & _ & _ & KW & KS & KN).
  assert (D : forall plane y x w h, decided (fun q : Z * Z * Z => exists i, 0 <= i < h /\ exists j, 0 <= j < w /\ q = (plane, y + i, x + j))) by (intros; apply decided_range; intros; apply decided_range; intros; apply decided_eq3).
  destruct (Z.eq_dec ty' RESTORE_WIENER) as [->|N1]; [eapply writes_defined; [apply D|exact (wiener_writes _ _ _ _ _ _ _ _ _ _ _ Hb (KW eq_refl))|exact HQ]|]. destruct (Z.eq_dec ty' RESTORE_SGRPROJ) as [->|N2]; [eapply writes_defined; [apply D|exact (self_guided_writes _ _ _ _ _ _ _ _ _ _ _ Hb (KS eq_refl))|exact HQ]|].
  rewrite (KN N1 N2). exact HQ.
Qed.
(** a plane without restoration is copied *)
Lemma restoration_none e g plane : rUsesLr e = true -> loopRestoration e = Ok g -> idx (rFrameType e) plane = Ok RESTORE_NONE -> 2 <= rBitDepth e -> forall y x, idx3 g plane y x = idx3 (rCdef e) plane y x.
Proof.
  intros HU H ET Hb. unfold loopRestoration in H. rewrite HU in H. cbn [negb] in H.
  set (Q := fun g : frame => forall y x, idx3 g plane y x = idx3 (rCdef e) plane y x). change (Q g). revert H. apply (rfor_by_post Q); [intros y x; reflexivity|].
  intros y a a1 HQ. apply (rfor_by_post Q); [exact HQ|]. clear a a1 HQ. intros x a a1 HQ H. eapply (rfor_to_keep (A := frame) Q); [exact HQ| |exact H]. clear a a1 HQ H. intros p a a1 _ HQ H. apply rbind_inv in H as (ty & Et & H).
  destruct (Z.eqb_spec ty RESTORE_NONE) as [->|NT]; cbn [negb] in H; [injection H as <-; exact HQ|]. assert (NP : p <> plane) by (intros ->; congruence).
  apply restore_block_inv in H as (b & ty' & _ & _ & KW & KS & KN).
  assert (K : writes get3 (fun _ => Ok 2) (fun q => exists i, 0 <= i < bH b /\ exists j, 0 <= j < bW b /\ q = (p, bY b + i, bX b + j)) a a1 -> Q a1).
  { intros [_ W] y' x'. rewrite <- HQ. apply (W (plane, y', x')). intros (i & _ & j & _ & [= E _ _]). congruence. }
  destruct (Z.eq_dec ty' RESTORE_WIENER) as [->|N1]; [exact (K (wiener_writes _ _ _ _ _ _ _ _ _ _ _ Hb (KW eq_refl)))|]. destruct (Z.eq_dec ty' RESTORE_SGRPROJ) as [->|N2]; [exact (K (self_guided_writes _ _ _ _ _ _ _ _ _ _ _ Hb (KS eq_refl)))|].
  rewrite (KN N1 N2). exact HQ.
Qed.
