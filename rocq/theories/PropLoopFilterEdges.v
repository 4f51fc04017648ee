(** C92: which edges the loop filter touches, with which filter size, and in which order. *)
From Verif Require Import GoBase Util Constants Tables Frame SpecPartition SpecFilter UtilProofs LoopFilter LoopFilterProofs PropLoopFilter.

Definition block_wh (size : Z) : Z * Z := nth (Z.to_nat size) block_dims (0, 0).
Definition tx_wh (tx : Z) : Z * Z := nth (Z.to_nat tx) tx_dims (0, 0).

Lemma tx_wh_pos tx : 0 <= tx < 19 -> idx Tx_Width tx = Ok (fst (tx_wh tx)) /\ idx Tx_Height tx = Ok (snd (tx_wh tx)) /\ 4 <= fst (tx_wh tx) <= 64 /\ 4 <= snd (tx_wh tx) <= 64.
Proof.
  intros H. assert (K : In tx (map Z.of_nat (seq 0 19))) by (apply in_map_iff; exists (Z.to_nat tx); split; [lia|apply in_seq; lia]).
  cbn [seq map In] in K. repeat (destruct K as [<-|K]; [vm_compute; repeat split; congruence|]). contradiction.
Qed.
Lemma block_wh_pos b : 0 <= b < 22 -> idx BLOCK_WIDTH b = Ok (fst (block_wh b)) /\ idx BLOCK_HEIGHT b = Ok (snd (block_wh b)) /\ 4 <= fst (block_wh b) <= 128 /\ 4 <= snd (block_wh b) <= 128.
Proof.
  intros H. assert (K : In b (map Z.of_nat (seq 0 22))) by (apply in_map_iff; exists (Z.to_nat b); split; [lia|apply in_seq; lia]).
  cbn [seq map In] in K. repeat (destruct K as [<-|K]; [vm_compute; repeat split; congruence|]). contradiction.
Qed.
Lemma Min_min a b : Min a b = Z.min a b. Proof. unfold Min. destruct (Z.leb_spec a b); lia. Qed.

(** The code takes the height of the previous transform twice for horizontal edges. *)
Lemma lfFilterSize_spec tx ptx (pass : bool) plane : 0 <= tx < 19 -> 0 <= ptx < 19 ->
  lfFilterSize tx ptx pass plane = Ok (filter_size plane (across pass (tx_wh ptx)) (across pass (tx_wh (if pass then ptx else tx)))).
Proof.
  intros H1 H2. destruct (tx_wh_pos tx H1) as (A & B & _), (tx_wh_pos ptx H2) as (C & D & _). unfold lfFilterSize, filter_size, across.
  destruct pass; cbn [negb]; rewrite ?A, ?B, ?C, ?D; cbn [rbind]; destruct (plane =? 0); rewrite !Min_min; reflexivity.
Qed.

(** C92, one edge.  At the 4x4 unit (row, col), in units of luma, of any frame with any block information: the four lines of the edge are
    filtered with the edge's level, limits and size exactly when the edge is on screen, not the frame border, a transform edge, not
    inside a skipped inter block, and has a level above 0; otherwise nothing changes.  The position of the chroma block that decides
    is the last luma unit the chroma unit covers.  Missing for the full property: the size of horizontal edges
    (C92_filter_size_refuted) and the steps (C92_luma_rows_refuted). *)
Theorem C92_edge_partial : forall e plane (pass : bool) row col f ms ps tx ptx sk rf lvl limit blimit thresh,
  let sx := if plane =? 0 then 0 else int_of (lfSubX e) in let sy := if plane =? 0 then 0 else int_of (lfSubY e) in
  let r := Z.lor row sy in let c := Z.lor col sx in
  let x := shr (col * 4) sx in let y := shr (row * 4) sy in
  0 <= row -> 0 <= col ->
  idx2 (lfMiSizes e) r c = Ok ms -> getPlaneResidualSize (lfSubX e) (lfSubY e) ms plane = Ok ps -> 0 <= ps < 22 ->
  idx3 (lfTxSizes e) plane (shr r sy) (shr c sx) = Ok tx -> 0 <= tx < 19 ->
  idx3 (lfTxSizes e) plane (shr (if pass then r - shl 1 sy else r) sy) (shr (if pass then c else c - shl 1 sx) sx) = Ok ptx -> 0 <= ptx < 19 ->
  idx2 (lfSkips e) r c = Ok sk -> idx3 (lfRefFrames e) r c 0 = Ok rf ->
  adaptiveFilterStrength e r c plane pass = Ok (lvl, limit, blimit, thresh) ->
  let size := filter_size plane (across pass (tx_wh ptx)) (across pass (tx_wh (if pass then ptx else tx))) in
  let line i := if pass then sampleFiltering (lfBitDepth e) (x + i) y plane limit blimit thresh 0 1 size
                else sampleFiltering (lfBitDepth e) x (y + i) plane limit blimit thresh 1 0 size in
  loopFilterEdge e plane pass row col f =
    if edge_on_screen pass (col * 4) (row * 4) (lfFrameWidth e) (lfFrameHeight e) &&
       edge_applies (if pass then y else x) (across pass (tx_wh tx)) (across pass (block_wh ps)) (negb (sk =? 0)) (rf <=? 0) && (0 <? lvl)
    then let! f := line 0 f in let! f := line 1 f in let! f := line 2 f in line 3 f
    else Ok f.
Proof.
  intros e plane pass row col f ms ps tx ptx sk rf lvl limit blimit thresh sx sy r c x y Hr Hc Ems Eps Hps Etx Htx Eptx Hptx Esk Erf Est size line.
  unfold loopFilterEdge. change MI_SIZE with 4. fold sx sy. cbv zeta. fold r c.
  assert (ON : (if lfFrameWidth e <=? col * 4 then false else if lfFrameHeight e <=? row * 4 then false
      else if negb pass && (col * 4 =? 0) then false else if pass && (row * 4 =? 0) then false else true)
    = edge_on_screen pass (col * 4) (row * 4) (lfFrameWidth e) (lfFrameHeight e)).
  { unfold edge_on_screen. rewrite !Z.leb_antisym. destruct (_ <? _), (_ <? _), pass, (col * 4 =? 0), (row * 4 =? 0); reflexivity. }
  rewrite ON. destruct (edge_on_screen _ _ _ _ _); [|reflexivity]. cbn [negb andb]. fold x y.
  rewrite Ems. cbn [rbind]. rewrite Etx. cbn [rbind]. rewrite Eps. cbn [rbind]. rewrite Esk. cbn [rbind]. rewrite Erf. cbn [rbind].
  assert (S0 : shl 0 sx = 0 /\ shl 0 sy = 0) by (unfold sx, sy; destruct (plane =? 0), (lfSubX e), (lfSubY e); split; reflexivity). destruct S0 as [S0 S1].
  replace (shr (r - shl (if pass then 1 else 0) sy) sy) with (shr (if pass then r - shl 1 sy else r) sy) by (destruct pass; rewrite ?S0, ?S1; f_equal; lia).
  replace (shr (c - shl (if pass then 0 else 1) sx) sx) with (shr (if pass then c else c - shl 1 sx) sx) by (destruct pass; rewrite ?S0, ?S1; f_equal; lia).
  rewrite Eptx. cbn [rbind].
  destruct (tx_wh_pos tx Htx) as (A1 & A2 & A3 & A4), (block_wh_pos ps Hps) as (B1 & B2 & B3 & B4).
  assert (Sx : 0 <= sx <= 1) by (unfold sx; destruct (plane =? 0), (lfSubX e); cbn; lia).
  assert (Sy : 0 <= sy <= 1) by (unfold sy; destruct (plane =? 0), (lfSubY e); cbn; lia).
  assert (Px : 0 <= x) by (unfold x; rewrite shr_div by lia; apply Z.div_pos; [lia|apply Z.pow_pos_nonneg; lia]).
  assert (Py : 0 <= y) by (unfold y; rewrite shr_div by lia; apply Z.div_pos; [lia|apply Z.pow_pos_nonneg; lia]).
  rewrite A1, A2, B1, B2. cbn [rbind]. rewrite (lfFilterSize_spec tx ptx pass plane Htx Hptx). fold size.
  change INTRA_FRAME with 0.
  destruct pass; cbn [negb rbind across] in *; rewrite Est; cbn [rbind]; rewrite !Z.rem_mod_nonneg by lia; unfold edge_applies; rewrite negb_involutive.
  - replace (if lvl =? 0 then Ok (lvl, limit, blimit, thresh) else Ok (lvl, limit, blimit, thresh)) with (@Ok _ (lvl, limit, blimit, thresh)) by (destruct (lvl =? 0); reflexivity). cbn [rbind].
    replace (if negb (y mod snd (tx_wh tx) =? 0) then false else if (y mod snd (block_wh ps) =? 0) || (sk =? 0) || (rf <=? 0) then true else false)
      with ((y mod snd (tx_wh tx) =? 0) && ((y mod snd (block_wh ps) =? 0) || (sk =? 0) || (rf <=? 0))) by (destruct (y mod snd (tx_wh tx) =? 0), (y mod snd (block_wh ps) =? 0), (sk =? 0), (rf <=? 0); reflexivity).
    destruct (_ && (0 <? lvl)); [|reflexivity].
    unfold rfor_to. change (Z.to_nat (4 - 0)) with 4%nat. cbn [rfor_from]. unfold line. change (0 + 1) with 1. change (1 + 1) with 2. change (2 + 1) with 3.
    rewrite !Z.mul_0_l, !Z.mul_1_l, !Z.add_0_r. destruct (sampleFiltering _ x y _ _ _ _ _ _ _ f) as [f1| |]; [|reflexivity|reflexivity]. cbn [rbind].
    destruct (sampleFiltering _ (x + 1) y _ _ _ _ _ _ _ f1) as [f2| |]; [|reflexivity|reflexivity]. cbn [rbind].
    destruct (sampleFiltering _ (x + 2) y _ _ _ _ _ _ _ f2) as [f3| |]; [|reflexivity|reflexivity]. cbn [rbind].
    destruct (sampleFiltering _ (x + 3) y _ _ _ _ _ _ _ f3) as [f4| |]; reflexivity.
  - replace (if lvl =? 0 then Ok (lvl, limit, blimit, thresh) else Ok (lvl, limit, blimit, thresh)) with (@Ok _ (lvl, limit, blimit, thresh)) by (destruct (lvl =? 0); reflexivity). cbn [rbind].
    replace (if negb (x mod fst (tx_wh tx) =? 0) then false else if (x mod fst (block_wh ps) =? 0) || (sk =? 0) || (rf <=? 0) then true else false)
      with ((x mod fst (tx_wh tx) =? 0) && ((x mod fst (block_wh ps) =? 0) || (sk =? 0) || (rf <=? 0))) by (destruct (x mod fst (tx_wh tx) =? 0), (x mod fst (block_wh ps) =? 0), (sk =? 0), (rf <=? 0); reflexivity).
    destruct (_ && (0 <? lvl)); [|reflexivity].
    unfold rfor_to. change (Z.to_nat (4 - 0)) with 4%nat. cbn [rfor_from]. unfold line. change (0 + 1) with 1. change (1 + 1) with 2. change (2 + 1) with 3.
    rewrite !Z.mul_0_l, !Z.mul_1_l, !Z.add_0_r. destruct (sampleFiltering _ x y _ _ _ _ _ _ _ f) as [f1| |]; [|reflexivity|reflexivity]. cbn [rbind].
    destruct (sampleFiltering _ x (y + 1) _ _ _ _ _ _ _ f1) as [f2| |]; [|reflexivity|reflexivity]. cbn [rbind].
    destruct (sampleFiltering _ x (y + 2) _ _ _ _ _ _ _ f2) as [f3| |]; [|reflexivity|reflexivity]. cbn [rbind].
    destruct (sampleFiltering _ x (y + 3) _ _ _ _ _ _ _ f3) as [f4| |]; reflexivity.
Qed.
Print Assumptions C92_edge_partial.

(** The chroma block size used for block edges: each entry of the table is the block halved in the subsampled directions (but at
    least 4), for 4:2:0, and for 4:4:4. *)
Theorem C92_chroma_block_size : forall b plane, 0 <= b < 22 -> 1 <= plane ->
  (exists ps, getPlaneResidualSize true true b plane = Ok ps /\ 0 <= ps < 22 /\ block_wh ps = (Z.max 4 (fst (block_wh b) / 2), Z.max 4 (snd (block_wh b) / 2))) /\
  (exists ps, getPlaneResidualSize false false b plane = Ok ps /\ ps = b).
Proof.
  intros b plane H Hp. unfold getPlaneResidualSize. cbv zeta. destruct (Z.ltb_spec 0 plane); [|lia].
  assert (K : In b (map Z.of_nat (seq 0 22))) by (apply in_map_iff; exists (Z.to_nat b); split; [lia|apply in_seq; lia]).
  cbn [seq map In] in K. repeat (destruct K as [<-|K]; [split; eexists; (split; [vm_compute; reflexivity|]); vm_compute; repeat split; congruence|]). contradiction.
Qed.
Print Assumptions C92_chroma_block_size.

(** Vertical edges: the filter size is that of the specification.  Horizontal edges: refuted, the size ignores the transform below the
    edge, so for a 4-high transform under a 16-high one the filter for 16 is selected. *)
Theorem C92_filter_size_vertical : forall tx ptx plane, 0 <= tx < 19 -> 0 <= ptx < 19 ->
  lfFilterSize tx ptx false plane = Ok (filter_size plane (fst (tx_wh ptx)) (fst (tx_wh tx))).
Proof. intros. rewrite lfFilterSize_spec by assumption. reflexivity. Qed.
Print Assumptions C92_filter_size_vertical.
Theorem C92_filter_size_refuted : forall tx ptx plane, 0 <= tx < 19 -> 0 <= ptx < 19 ->
  snd (tx_wh tx) < Z.min (if plane =? 0 then 16 else 8) (snd (tx_wh ptx)) ->
  exists n, lfFilterSize tx ptx true plane = Ok n /\ filter_size plane (snd (tx_wh ptx)) (snd (tx_wh tx)) < n.
Proof. intros. rewrite lfFilterSize_spec by assumption. eexists. split; [reflexivity|]. unfold filter_size, across. lia. Qed.
Print Assumptions C92_filter_size_refuted.

(** * Order *)
(** Run a list of steps one after the other. *)
Fixpoint run_all {A B} (step : B -> A -> res A) (l : list B) (a : A) : res A :=
  match l with [] => Ok a | b :: l => let! a := step b a in run_all step l a end.
Lemma run_all_app {A B} (step : B -> A -> res A) l l' a : run_all step (l ++ l') a = let! a := run_all step l a in run_all step l' a.
Proof. revert a. induction l as [|b l IH]; intros a; cbn; [reflexivity|]. destruct (step b a); cbn; auto. Qed.
Lemma run_all_flat {A B C} (step : C -> A -> res A) (g : B -> list C) l a : run_all step (flat_map g l) a = run_all (fun b => run_all step (g b)) l a.
Proof. revert a. induction l as [|b l IH]; intros a; cbn; [reflexivity|]. rewrite run_all_app. destruct (run_all step (g b) a); cbn; auto. Qed.
Lemma run_all_map {A B C} (step : C -> A -> res A) (g : B -> C) l a : run_all step (map g l) a = run_all (fun b => step (g b)) l a.
Proof. revert a. induction l as [|b l IH]; intros a; cbn; [reflexivity|]. destruct (step (g b) a); cbn; auto. Qed.
Lemma run_all_ext {A B} (s1 s2 : B -> A -> res A) l : (forall b a, In b l -> s1 b a = s2 b a) -> forall a, run_all s1 l a = run_all s2 l a.
Proof.
  induction l as [|b l IH]; intros H a; cbn; [reflexivity|]. rewrite (H b a) by (left; reflexivity). destruct (s2 b a); cbn; [|reflexivity|reflexivity].
  apply IH. intros. apply H. right. assumption.
Qed.
Lemma rfor_from_run {A} n : forall i (body : Z -> A -> res A) a, rfor_from n i body a = run_all body (map (fun k => i + Z.of_nat k) (seq 0 n)) a.
Proof.
  induction n as [|n IH]; intros i body a; cbn [rfor_from seq map run_all]; [reflexivity|]. rewrite Z.add_0_r. destruct (body i a); cbn; [|reflexivity|reflexivity].
  rewrite IH, <- seq_shift, map_map. f_equal. apply map_ext. intros k. lia.
Qed.
Lemma multiples_step lo hi step : 1 <= step -> lo < hi -> Z.to_nat ((hi - lo + step - 1) / step) = Datatypes.S (Z.to_nat ((hi - (lo + step) + step - 1) / step)).
Proof.
  intros Hs H. replace (hi - lo + step - 1) with (1 * step + (hi - (lo + step) + step - 1)) by lia. rewrite Z.div_add_l by lia.
  assert (0 <= (hi - (lo + step) + step - 1) / step) by (apply Z.div_pos; lia). lia.
Qed.
Lemma rfor_step_run {A} n : forall i hi step (body : Z -> A -> res A) a, 1 <= step -> hi - i <= Z.of_nat n ->
  rfor_step n i hi step body a = run_all body (map (fun k => i + Z.of_nat k * step) (seq 0 (Z.to_nat ((hi - i + step - 1) / step)))) a.
Proof.
  induction n as [|n IH]; intros i hi step body a Hs Hn; cbn [rfor_step]; destruct (Z.ltb_spec i hi) as [L|L]; try lia.
  - assert (K : (hi - i + step - 1) / step <= 0) by (apply Z.lt_succ_r, Z.div_lt_upper_bound; lia).
    replace (Z.to_nat _) with 0%nat by lia. reflexivity.
  - rewrite multiples_step by assumption. cbn [seq map run_all]. rewrite Z.mul_0_l, Z.add_0_r. destruct (body i a); cbn [rbind]; [|reflexivity|reflexivity].
    rewrite IH by lia. rewrite <- seq_shift, map_map. f_equal. apply map_ext. intros k. lia.
  - assert (K : (hi - i + step - 1) / step <= 0) by (apply Z.lt_succ_r, Z.div_lt_upper_bound; lia).
    replace (Z.to_nat _) with 0%nat by lia. reflexivity.
Qed.
Lemma rfor_by_run {A} hi step (body : Z -> A -> res A) a : 1 <= step -> rfor_by 0 hi step body a = run_all body (multiples hi step) a.
Proof.
  intros Hs. unfold rfor_by. rewrite rfor_step_run by lia. unfold multiples. rewrite Z.sub_0_r. reflexivity.
Qed.

(** The planes that are filtered: luma, and the chroma planes with a level. *)
Definition active_planes (numPlanes levelU levelV : Z) : list Z :=
  if numPlanes =? 1 then [0] else [0] ++ (if levelU =? 0 then [] else [1]) ++ (if levelV =? 0 then [] else [2]).

(** C92, order: the loop filter is exactly this sequence of edges, for every frame, size and level; vertical edges of a plane all come
    before its horizontal edges.  (sic) the subsampling steps belong to the chroma planes but are used for luma. *)
Theorem C92_order_partial : forall e f ly lx lu lv, lfLevel e = [ly; lx; lu; lv] -> lfNumPlanes e = 1 \/ lfNumPlanes e = 3 ->
  loopFilter e f = run_all (fun ed => let '(plane, pass, row, col) := ed in loopFilterEdge e plane pass row col)
    (lf_order (active_planes (lfNumPlanes e) lu lv) (lfMiRows e) (lfMiCols e) (if lfSubX e then 2 else 1) (if lfSubY e then 2 else 1) 1 1) f.
Proof.
  intros e f ly lx lu lv HL HP. unfold loopFilter, lf_order.
  assert (PL : forall plane a, rfor_to 0 2 (fun pass f0 => let rowStep := if plane =? 0 then shl 1 (int_of (lfSubX e)) else 1 in
        let colStep := if plane =? 0 then shl 1 (int_of (lfSubY e)) else 1 in
        rfor_by 0 (lfMiRows e) rowStep (fun row f1 => rfor_by 0 (lfMiCols e) colStep (fun col f2 => loopFilterEdge e plane (bool_of pass) row col f2) f1) f0) a
    = run_all (fun ed => let '(plane, pass, row, col) := ed in loopFilterEdge e plane pass row col)
        (flat_map (fun pass : bool => flat_map (fun row => map (fun col => (plane, pass, row, col)) (multiples (lfMiCols e) (if plane =? 0 then if lfSubY e then 2 else 1 else 1)))
           (multiples (lfMiRows e) (if plane =? 0 then if lfSubX e then 2 else 1 else 1))) [false; true]) a).
  { intros plane a. rewrite run_all_flat. unfold rfor_to. change (Z.to_nat (2 - 0)) with 2%nat. cbn [rfor_from run_all]. change (bool_of 0) with false. change (bool_of (0 + 1)) with true. cbv zeta.
    assert (ST : forall b : bool, shl 1 (int_of b) = if b then 2 else 1) by (intros []; reflexivity). rewrite !ST.
    assert (ONE : forall pass b, rfor_by 0 (lfMiRows e) (if plane =? 0 then if lfSubX e then 2 else 1 else 1)
        (fun row f1 => rfor_by 0 (lfMiCols e) (if plane =? 0 then if lfSubY e then 2 else 1 else 1) (fun col f2 => loopFilterEdge e plane pass row col f2) f1) b
      = run_all (fun ed => let '(plane, pass, row, col) := ed in loopFilterEdge e plane pass row col)
         (flat_map (fun row => map (fun col => (plane, pass, row, col)) (multiples (lfMiCols e) (if plane =? 0 then if lfSubY e then 2 else 1 else 1)))
           (multiples (lfMiRows e) (if plane =? 0 then if lfSubX e then 2 else 1 else 1))) b).
    { intros pass b. rewrite run_all_flat, rfor_by_run by (destruct (plane =? 0), (lfSubX e); lia). apply run_all_ext. intros row c _.
      rewrite run_all_map, rfor_by_run by (destruct (plane =? 0), (lfSubY e); lia). reflexivity. }
    rewrite ONE. destruct (run_all _ _ a); cbn [rbind]; [|reflexivity|reflexivity]. rewrite ONE. reflexivity. }
  rewrite run_all_flat. unfold active_planes, rfor_to at 1. rewrite HL.
  destruct HP as [-> | ->].
  - change (Z.to_nat (1 - 0)) with 1%nat. cbn [rfor_from run_all]. change (0 =? 0) with true. change (1 =? 1) with true. cbv iota. cbn [rbind run_all]. rewrite <- PL. reflexivity.
  - change (Z.to_nat (3 - 0)) with 3%nat. cbn [rfor_from]. change (0 =? 0) with true. change (0 + 1) with 1. change (1 + 1) with 2. change (1 =? 0) with false. change (2 =? 0) with false. change (3 =? 1) with false. cbv iota. cbn [rbind app run_all].
    change (idx [ly; lx; lu; lv] 2) with (@Ok Z lu). change (idx [ly; lx; lu; lv] (1 + 2)) with (@Ok Z lv).
    cbn [rbind]. rewrite <- PL. destruct (rfor_to 0 2 _ f) as [f1| |]; [|reflexivity|reflexivity]. cbn [rbind]. unfold bool_of. 
    destruct (lu =? 0); cbn [negb app run_all]; [cbn [rbind]|rewrite <- PL; destruct (rfor_to 0 2 _ f1) as [f2| |]; [|reflexivity|reflexivity]; cbn [rbind]];
    (destruct (lv =? 0); cbn [negb run_all]; [reflexivity|rewrite <- PL; reflexivity]).
Qed.
Print Assumptions C92_order_partial.

(** Without subsampling this is the order of the specification (all steps 1). *)
Theorem C92_order_444_partial : forall e f ly lx lu lv, lfLevel e = [ly; lx; lu; lv] -> lfNumPlanes e = 1 \/ lfNumPlanes e = 3 -> lfSubX e = false -> lfSubY e = false ->
  loopFilter e f = run_all (fun ed => let '(plane, pass, row, col) := ed in loopFilterEdge e plane pass row col)
    (lf_order (active_planes (lfNumPlanes e) lu lv) (lfMiRows e) (lfMiCols e) 1 1 1 1) f.
Proof. intros e f ly lx lu lv HL HP HX HY. rewrite (C92_order_partial e f ly lx lu lv HL HP), HX, HY. reflexivity. Qed.
Print Assumptions C92_order_444_partial.

(** Refuted with horizontal subsampling (4:2:0, 4:2:2): the specification visits every luma row; the code never visits an odd one. *)
Theorem C92_luma_rows_refuted : forall planes miRows miCols colStepY pass row col, In (0, pass, row, col) (lf_order planes miRows miCols 2 colStepY 1 1) -> row mod 2 = 0.
Proof.
  intros planes miRows miCols colStepY pass row col H. unfold lf_order in H. apply in_flat_map in H as (p & _ & H). apply in_flat_map in H as (b & _ & H).
  apply in_flat_map in H as (r & Hr & H). apply in_map_iff in H as (c & E & _). injection E as -> -> -> ->. change (0 =? 0) with true in Hr. cbv iota in Hr.
  unfold multiples in Hr. apply in_map_iff in Hr as (k & <- & _). apply Z.mod_mul. lia.
Qed.
Print Assumptions C92_luma_rows_refuted.

(** A case: one vertical edge at column 2 (x = 8) of a luma plane, block info of 4x4 blocks: four lines filtered. *)
Example C92_case :
  edge_on_screen false 8 8 16 16 = true /\ edge_applies 8 4 4 false true = true /\ edge_on_screen false 0 8 16 16 = false /\ edge_applies 4 8 16 true false = false /\
  (match loopFilterEdge (lf_env 16) 0 false 2 2 lf_frame with Ok g => [idx3 g 0 7 7; idx3 g 0 8 7; idx3 g 0 11 7; idx3 g 0 12 7; idx3 g 0 8 8] | _ => [] end)
    = [Ok 101; Ok 103; Ok 103; Ok 101; Ok 108] /\
  lf_order (active_planes 3 0 5) 2 2 1 1 1 1 =
    [(0,false,0,0); (0,false,0,1); (0,false,1,0); (0,false,1,1); (0,true,0,0); (0,true,0,1); (0,true,1,0); (0,true,1,1);
     (2,false,0,0); (2,false,0,1); (2,false,1,0); (2,false,1,1); (2,true,0,0); (2,true,0,1); (2,true,1,0); (2,true,1,1)].
Proof. repeat split; vm_compute; reflexivity. Qed.
