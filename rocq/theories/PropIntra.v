(** C40, C76-C79: intra prediction. *)
From Verif Require Import GoBase Bitstream Util UtilProofs Constants Tables Frame Fill2 SpecFilter LoopFilterProofs Intra IntraProofs.
Require Import Lia Psatz.

Lemma not_ok_panic {A} (m : res A) : m <> Hang -> (forall a, m <> Ok a) -> m = Panic.
Proof. destruct m; intros H K; [exfalso; eapply K; reflexivity|reflexivity|congruence]. Qed.
Ltac panics := match goal with |- ?m = Panic => apply not_ok_panic end.

(** an 8 bit, 4:2:0 frame of 16x16 samples whose sample at (y, x) is 10 y + x *)
Definition ienv (edgeFilter filterIntra : bool) (delta : Z) : IEnv :=
  mkIEnv 8 true true edgeFilter 4 4 0 0 false false false false (repeat (repeat [0; -1] 4) 4) (repeat (repeat 0 4) 4) (repeat (repeat 0 4) 4) filterIntra delta delta.
Definition ramp : frame := repeat (map (fun y => map (fun x => 10 * y + x) [0;1;2;3;4;5;6;7;8;9;10;11;12;13;14;15]) [0;1;2;3;4;5;6;7;8;9;10;11;12;13;14;15]) 3.
Definition noEdge : edge := repeat 7 40.

(** * C40.  DC with both neighbours: every sample is the mean of the h samples to the left and the w samples above, rounded to nearest (half up). *)
Theorem C40_dc_both_partial : forall bd lw lh w h A L, 1 <= w <= 15 -> 1 <= h <= 15 -> w <= zlen A -> h <= zlen L ->
  (forall a, In a (firstn (Z.to_nat w) A ++ firstn (Z.to_nat h) L) -> 0 <= a) ->
  exists p, dcIntra bd true true lw lh w h A L = Ok p /\
  forall i j, 0 <= i < h -> 0 <= j < w -> exists v, idx2 p i j = Ok v /\
    let s := fold_right Z.add 0 (firstn (Z.to_nat w) A) + fold_right Z.add 0 (firstn (Z.to_nat h) L) in
    2 * (w + h) * v <= 2 * s + (w + h) < 2 * (w + h) * (v + 1) + (w + h) mod 2.
Proof.
  intros bd lw lh w h A L Hw Hh HA HL HP. unfold dcIntra. cbn [andb].
  assert (SF : forall n l, sum_first n l = fold_right Z.add 0 (firstn n l)) by (induction n as [|n IH]; intros [|x l]; cbn; try reflexivity; rewrite IH; reflexivity).
  assert (NN : forall l, (forall a, In a l -> 0 <= a) -> 0 <= fold_right Z.add 0 l) by (induction l as [|x l IH]; intros Hl; cbn; [lia|]; pose proof (Hl x (or_introl eq_refl)); assert (0 <= fold_right Z.add 0 l) by (apply IH; intros; apply Hl; right; assumption); lia).
  set (V := fun _ _ : Z => _). assert (EV : forall i j, V i j = Ok (Z.quot (sum_first (Z.to_nat h) L + sum_first (Z.to_nat w) A + shr (w + h) 1) (w + h))).
  { intros. unfold V. rewrite (sumTo_ok h L) by lia. cbn [rbind]. rewrite (sumTo_ok w A) by lia. reflexivity. }
  destruct (predTable_ok V w h ltac:(lia) ltac:(lia)) as (p & E); [intros; rewrite EV; eauto|]. exists p. split; [exact E|]. intros i j Hi Hj.
  destruct (predTable_val V w h p i j Hi Hj E) as (v & Hv & Hp). exists v. split; [exact Hp|]. rewrite EV in Hv. injection Hv as <-. rewrite !SF. cbv zeta.
  set (a := fold_right Z.add 0 (firstn (Z.to_nat w) A)). set (b := fold_right Z.add 0 (firstn (Z.to_nat h) L)).
  assert (0 <= a) by (apply NN; intros; apply HP, in_or_app; auto). assert (0 <= b) by (apply NN; intros; apply HP, in_or_app; auto).
  rewrite shr1. pose proof (Z.div_mod (w + h) 2 ltac:(lia)). pose proof (Z.mod_pos_bound (w + h) 2 ltac:(lia)). pose proof (Z.div_pos (w + h) 2 ltac:(lia) ltac:(lia)).
  rewrite Z.quot_div_nonneg by lia. pose proof (Z.div_mod (b + a + (w + h) / 2) (w + h) ltac:(lia)). pose proof (Z.mod_pos_bound (b + a + (w + h) / 2) (w + h) ltac:(lia)). nia.
Qed.
Print Assumptions C40_dc_both_partial.
Example C40_dc_case : dcIntra 8 true true 2 2 4 4 [10;20;30;40;99] [1;2;3;4;99] = Ok (let r := [14;14;14;14;0;0;0;0;0;0;0;0;0;0;0] in [r;r;r;r] ++ repeat (repeat 0 15) 11).
Proof. vm_compute. reflexivity. Qed.
(** DC without neighbours: mid-grey *)
Theorem C40_dc_none_partial : forall bd lw lh w h A L, 1 <= bd <= 16 -> 1 <= w <= 15 -> 1 <= h <= 15 -> exists p, dcIntra bd false false lw lh w h A L = Ok p /\
  forall i j, 0 <= i < h -> 0 <= j < w -> idx2 p i j = Ok (2 ^ (bd - 1)).
Proof.
  intros bd lw lh w h A L Hb Hw Hh. unfold dcIntra. cbn [andb negb]. destruct (predTable_ok (fun _ _ => Ok (shl 1 (bd - 1))) w h ltac:(lia) ltac:(lia)) as (p & E); [eauto|].
  exists p. split; [exact E|]. intros i j Hi Hj. destruct (predTable_val _ w h p i j Hi Hj E) as (v & Hv & Hp). injection Hv as <-. rewrite Hp. f_equal. apply shl1. lia.
Qed.
Print Assumptions C40_dc_none_partial.
(** False with one neighbour only.  Only the row above: everything is 0, whatever the row. *)
Theorem C40_dc_above_only_refuted : forall bd lw lh w h A L i j, 0 <= i < 15 -> 0 <= j < 15 -> exists p, dcIntra bd false true lw lh w h A L = Ok p /\ idx2 p i j = Ok 0.
Proof. intros. exists noPred. split; [reflexivity|]. apply noPred_idx; assumption. Qed.
Print Assumptions C40_dc_above_only_refuted.
(** Only the left column: everything is 2, whatever the column (Clip1 ignores its argument). *)
Theorem C40_dc_left_only_refuted : forall bd lw lh w h A L, 2 <= bd -> 1 <= w <= 15 -> 1 <= h <= 15 -> h <= zlen L -> exists p, dcIntra bd true false lw lh w h A L = Ok p /\
  forall i j, 0 <= i < h -> 0 <= j < w -> idx2 p i j = Ok 2.
Proof.
  intros bd lw lh w h A L Hb Hw Hh HL. unfold dcIntra. cbn [andb negb]. set (V := fun _ _ : Z => _).
  assert (EV : forall i j, V i j = Ok 2).
  { intros. unfold V. rewrite (sumTo_ok h L) by lia. cbn [rbind]. f_equal. unfold Clip1, Clip3. destruct (Z.ltb_spec bd 1); [lia|]. change (2 <? 0) with false. cbv iota.
    assert (2 ^ 1 <= 2 ^ (bd - 1)) by (apply Z.pow_le_mono_r; lia). destruct (Z.ltb_spec (2 ^ (bd - 1)) 2) as [Hc|Hc]; [change (2 ^ 1) with 2 in *; lia|reflexivity]. }
  destruct (predTable_ok V w h ltac:(lia) ltac:(lia)) as (p & E); [intros; rewrite EV; eauto|]. exists p. split; [exact E|]. intros i j Hi Hj.
  destruct (predTable_val V w h p i j Hi Hj E) as (v & Hv & Hp). rewrite EV in Hv. congruence.
Qed.
Print Assumptions C40_dc_left_only_refuted.
Example C40_dc_one_case : dcIntra 8 true false 2 2 4 4 [] [100;100;100;100] = Ok (let r := [2;2;2;2;0;0;0;0;0;0;0;0;0;0;0] in [r;r;r;r] ++ repeat (repeat 0 15) 11) /\
  dcIntra 8 false true 2 2 4 4 [100;100;100;100] [] = Ok (repeat (repeat 0 15) 15).
Proof. split; vm_compute; reflexivity. Qed.

(** Paeth: each sample is the neighbour (left, above, corner, preferred in this order) nearest to left + above - corner. *)
Definition paeth_choice (l a c v : Z) : Prop :=
  let d x := Z.abs (a + l - c - x) in
  (v = l /\ d l <= d a /\ d l <= d c) \/ (v = a /\ d a < d l /\ d a <= d c) \/ (v = a /\ d c < d l /\ d a <= d c) \/ (v = c /\ d c < d l /\ d c < d a).
Theorem C40_paeth_partial : forall A L c w h, 1 <= w <= 15 -> 1 <= h <= 15 -> w <= zlen A - 1 -> h <= zlen L -> Forall (fun v => 0 <= v < 2 ^ 32) (A ++ L) -> last_ A = Ok c ->
  exists p, basicIntra A L w h = Ok p /\
  forall i j, 0 <= i < h -> 0 <= j < w -> exists l a v, idx L i = Ok l /\ idx A j = Ok a /\ idx2 p i j = Ok v /\ paeth_choice l a c v.
Proof.
  intros A L c w h Hw Hh HA HL HF HC. apply Forall_app in HF as [FA FL].
  assert (EV : forall i j, 0 <= i < h -> 0 <= j < w -> exists l a v, idx L i = Ok l /\ idx A j = Ok a /\ paeth A L i j = Ok v /\ paeth_choice l a c v).
  { intros i j Hi Hj. unfold paeth. rewrite (idx_ok A j 0) by lia. rewrite (idx_ok L i 0) by lia. cbn [rbind]. rewrite HC. cbn [rbind]. eexists _, _, _. split; [reflexivity|]. split; [reflexivity|]. split; [reflexivity|].
    assert (Ba := idx_Forall _ _ j _ FA (idx_ok A j 0 ltac:(lia))). assert (Bl := idx_Forall _ _ i _ FL (idx_ok L i 0 ltac:(lia))). assert (Bc := idx_Forall _ _ _ _ FA HC).
    set (a := nth (Z.to_nat j) A 0) in *. set (l := nth (Z.to_nat i) L 0) in *. clearbody a l. cbv beta in *. unfold paeth_choice.
    assert (AB : forall x, - 2 ^ 40 <= x <= 2 ^ 40 -> Abs x = Z.abs x).
    { intros x Hx. unfold Abs. destruct (Z.leb_spec 0 x); [lia|]. rewrite i64_id by (big; lia). lia. }
    rewrite !AB by (big; lia). cbv zeta.
    destruct (Z.leb_spec (Z.abs (a + l - c - l)) (Z.abs (a + l - c - a))); cbn [andb]; [destruct (Z.leb_spec (Z.abs (a + l - c - l)) (Z.abs (a + l - c - c)))|];
      [left; lia| |]; destruct (Z.leb_spec (Z.abs (a + l - c - a)) (Z.abs (a + l - c - c))); lia. }
  destruct (predTable_ok (paeth A L) w h ltac:(lia) ltac:(lia)) as (p & E); [intros i j Hi Hj; destruct (EV i j Hi Hj) as (? & ? & v & _ & _ & Ev & _); eauto|].
  exists p. split; [exact E|]. intros i j Hi Hj. destruct (predTable_val _ w h p i j Hi Hj E) as (v & Hv & Hp). destruct (EV i j Hi Hj) as (l & a & v' & El & Ea & Ev & HC').
  rewrite Ev in Hv. injection Hv as ->. exists l, a, v. auto.
Qed.
Print Assumptions C40_paeth_partial.
Example C40_paeth_case : match basicIntra [10;20;30;40;12] [12;30;5;4] 4 4 with Ok p => firstn 4 p | _ => [] end =
  [[10;20;30;40;0;0;0;0;0;0;0;0;0;0;0];[30;30;30;40;0;0;0;0;0;0;0;0;0;0;0];[5;12;30;40;0;0;0;0;0;0;0;0;0;0;0];[4;12;30;40;0;0;0;0;0;0;0;0;0;0;0]].
Proof. vm_compute. reflexivity. Qed.

(** Smooth prediction of a block of side 4, 8, 16, 32 or 64 mixes the neighbours with the standard's weights: rows by distance from above, columns by distance from the left. *)
Definition side_weights (n : Z) : list Z := if n =? 4 then [255; 149; 85; 64] else [255; 197; 146; 105; 73; 50; 37; 32].
Theorem C40_smooth_partial : forall mode lw lh A L, 2 <= lw <= 3 -> 2 <= lh <= 3 -> 2 ^ lw <= zlen A -> 2 ^ lh <= zlen L -> Forall (fun v => 0 <= v < 2 ^ 32) (A ++ L) ->
  mode = SMOOTH_PRED \/ mode = SMOOTH_V_PRED \/ mode = SMOOTH_H_PRED ->
  let w := 2 ^ lw in let h := 2 ^ lh in
  exists p, smoothIntra mode lw lh w h A L = Ok p /\
  forall i j, 0 <= i < h -> 0 <= j < w -> exists a l right bottom wy wx v, idx A j = Ok a /\ idx L i = Ok l /\ idx A (w - 1) = Ok right /\ idx L (h - 1) = Ok bottom /\
    idx (side_weights h) i = Ok wy /\ idx (side_weights w) j = Ok wx /\ idx2 p i j = Ok v /\
    v = if mode =? SMOOTH_PRED then (wy * a + (256 - wy) * bottom + wx * l + (256 - wx) * right + 256) / 512
        else if mode =? SMOOTH_V_PRED then (wy * a + (256 - wy) * bottom + 128) / 256 else (wx * l + (256 - wx) * right + 128) / 256.
Proof.
  intros mode lw lh A L Hlw Hlh HA HL HF HM. cbv zeta. apply Forall_app in HF as [FA FL].
  assert (Bw : 4 <= 2 ^ lw <= 8) by (assert (2 ^ 2 <= 2 ^ lw <= 2 ^ 3) by (split; apply Z.pow_le_mono_r; lia); change (2 ^ 2) with 4 in *; change (2 ^ 3) with 8 in *; lia).
  assert (Bh : 4 <= 2 ^ lh <= 8) by (assert (2 ^ 2 <= 2 ^ lh <= 2 ^ 3) by (split; apply Z.pow_le_mono_r; lia); change (2 ^ 2) with 4 in *; change (2 ^ 3) with 8 in *; lia).
  assert (SW : forall g, 2 <= g <= 3 -> smWeights g = side_weights (2 ^ g) /\ zlen (side_weights (2 ^ g)) = 2 ^ g) by (intros g Hg; assert (g = 2 \/ g = 3) as [->| ->] by lia; split; reflexivity).
  destruct (SW lw Hlw) as [W1 W2]. destruct (SW lh Hlh) as [W3 W4].
  set (w := 2 ^ lw) in *. set (h := 2 ^ lh) in *. clearbody w h.
  unfold smoothIntra. rewrite W1, W3.
  set (val := fun a l right bottom wy wx => if mode =? SMOOTH_PRED then (wy * a + (256 - wy) * bottom + wx * l + (256 - wx) * right + 256) / 512
        else if mode =? SMOOTH_V_PRED then (wy * a + (256 - wy) * bottom + 128) / 256 else (wx * l + (256 - wx) * right + 128) / 256).
  assert (WB : forall g k wt, idx (side_weights g) k = Ok wt -> 0 <= wt <= 256).
  { intros g k wt E. refine (idx_Forall (fun z => 0 <= z <= 256) _ _ _ _ E). unfold side_weights. destruct (g =? 4); repeat constructor; lia. }
  set (n := fun l k => nth (Z.to_nat k) l 0).
  assert (IA : forall k, 0 <= k < w -> idx A k = Ok (n A k) /\ 0 <= n A k < 2 ^ 32) by (intros k Hk; split; [apply idx_ok; lia|]; exact (idx_Forall _ _ k _ FA (idx_ok A k 0 ltac:(lia)))).
  assert (IL : forall k, 0 <= k < h -> idx L k = Ok (n L k) /\ 0 <= n L k < 2 ^ 32) by (intros k Hk; split; [apply idx_ok; lia|]; exact (idx_Forall _ _ k _ FL (idx_ok L k 0 ltac:(lia)))).
  assert (IY : forall k, 0 <= k < h -> idx (side_weights h) k = Ok (n (side_weights h) k) /\ 0 <= n (side_weights h) k <= 256) by (intros k Hk; assert (E : idx (side_weights h) k = Ok (n (side_weights h) k)) by (apply idx_ok; lia); split; [exact E|exact (WB _ _ _ E)]).
  assert (IX : forall k, 0 <= k < w -> idx (side_weights w) k = Ok (n (side_weights w) k) /\ 0 <= n (side_weights w) k <= 256) by (intros k Hk; assert (E : idx (side_weights w) k = Ok (n (side_weights w) k)) by (apply idx_ok; lia); split; [exact E|exact (WB _ _ _ E)]).
  clearbody n. clear HA HL FA FL W1 W2 W3 W4 SW WB.
  assert (G : forall V, (forall i j, 0 <= i < h -> 0 <= j < w -> V i j = Ok (val (n A j) (n L i) (n A (w - 1)) (n L (h - 1)) (n (side_weights h) i) (n (side_weights w) j))) ->
    exists p, predTable V w h = Ok p /\ forall i j, 0 <= i < h -> 0 <= j < w -> exists a l right bottom wy wx v, idx A j = Ok a /\ idx L i = Ok l /\ idx A (w - 1) = Ok right /\ idx L (h - 1) = Ok bottom /\
    idx (side_weights h) i = Ok wy /\ idx (side_weights w) j = Ok wx /\ idx2 p i j = Ok v /\ v = val a l right bottom wy wx).
  { intros V EV. destruct (predTable_ok V w h ltac:(lia) ltac:(lia)) as (p & E); [intros i j Hi Hj; rewrite EV by assumption; eauto|].
    exists p. split; [exact E|]. intros i j Hi Hj. destruct (predTable_val _ w h p i j Hi Hj E) as (v & Hv & Hp). rewrite EV in Hv by assumption. injection Hv as <-.
    exists (n A j), (n L i), (n A (w - 1)), (n L (h - 1)), (n (side_weights h) i), (n (side_weights w) j). eexists. repeat split; try apply IA; try apply IL; try apply IY; try apply IX; try lia. exact Hp. }
  unfold val in G. change (2 ^ 32) with 4294967296 in *.
  destruct HM as [-> | [-> | ->]]; [change (SMOOTH_PRED =? SMOOTH_PRED) with true in *
    |change (SMOOTH_V_PRED =? SMOOTH_PRED) with false in *; change (SMOOTH_V_PRED =? SMOOTH_V_PRED) with true in *
    |change (SMOOTH_H_PRED =? SMOOTH_PRED) with false in *; change (SMOOTH_H_PRED =? SMOOTH_V_PRED) with false in *; change (SMOOTH_H_PRED =? SMOOTH_H_PRED) with true in *]; cbv iota in *;
    apply G; intros i j Hi Hj.
  - destruct (IY i Hi) as [-> B1], (IA j Hj) as [-> B2], (IL (h - 1) ltac:(lia)) as [-> B3], (IX j Hj) as [-> B4], (IL i Hi) as [-> B5], (IA (w - 1) ltac:(lia)) as [-> B6]. cbn [rbind].
    rewrite Round2_spec by (big; nia). reflexivity.
  - destruct (IY i Hi) as [-> B1], (IA j Hj) as [-> B2], (IL (h - 1) ltac:(lia)) as [-> B3]. cbn [rbind]. rewrite Round2_spec by (big; nia). reflexivity.
  - destruct (IX j Hj) as [-> B4], (IL i Hi) as [-> B5], (IA (w - 1) ltac:(lia)) as [-> B6]. cbn [rbind]. rewrite Round2_spec by (big; nia). reflexivity.
Qed.
Print Assumptions C40_smooth_partial.
Example C40_smooth_case : match smoothIntra SMOOTH_PRED 2 2 4 4 [10;20;30;40] [50;60;70;80] with Ok p => map (firstn 4) (firstn 4 p) | _ => [] end =
  [[30;33;37;41];[50;48;49;51];[63;59;57;57];[71;64;60;60]].
Proof. vm_compute. reflexivity. Qed.

(** None of the three leaves the range of the neighbours it uses: the w samples above, the h samples to the left and (Paeth) the corner. *)
Theorem C40_between_partial : forall lo hi bd lw lh w h A L, 0 <= lo -> hi <= 2 ^ 40 -> 0 < w -> 0 < h -> edge_in lo hi w A -> edge_in lo hi h L ->
  (forall p i j v, dcIntra bd true true lw lh w h A L = Ok p -> 0 <= i < h -> 0 <= j < w -> idx2 p i j = Ok v -> lo <= v <= hi) /\
  (forall mode p i j v, mode = SMOOTH_PRED \/ mode = SMOOTH_V_PRED \/ mode = SMOOTH_H_PRED -> smoothIntra mode lw lh w h A L = Ok p -> 0 <= i < h -> 0 <= j < w -> idx2 p i j = Ok v -> lo <= v <= hi) /\
  (forall c p i j v, last_ A = Ok c -> lo <= c <= hi -> basicIntra A L w h = Ok p -> 0 <= i < h -> 0 <= j < w -> idx2 p i j = Ok v -> lo <= v <= hi).
Proof.
  intros lo hi bd lw lh w h A L Hl Hh Hw Hhh HA HL. split; [|split].
  - intros p i j v E Hi Hj Ev. unfold dcIntra in E. cbn [andb] in E. destruct (predTable_val _ _ _ _ i j Hi Hj E) as (v' & Hv & Hp). rewrite Hp in Ev. injection Ev as ->.
    apply rbind_inv in Hv as (s & Es & Hv). apply rbind_inv in Hv as (s' & Es' & Hv). injection Hv as <-. apply (sumTo_between lo hi) in Es; [|lia|assumption]. apply (sumTo_between lo hi) in Es'; [|lia|assumption].
    apply dc_between; [lia|lia|nia].
  - intros mode p i j v HM E Hi Hj Ev. destruct (Z.le_gt_cases lo hi) as [C|C]; [eapply smooth_between; [| | | | |exact HM| | |exact E|exact Ev]; eauto|].
    exfalso. unfold smoothIntra in E. destruct HM as [-> | [-> | ->]]; destruct (predTable_val _ _ _ _ i j Hi Hj E) as (v' & Hv & _);
      repeat (apply rbind_inv in Hv as (? & ? & Hv)); match goal with H : idx A _ = Ok _ |- _ => apply HA in H; lia end.
  - intros c p i j v Ec Bc E Hi Hj Ev. unfold basicIntra in E. destruct (predTable_val _ _ _ _ i j Hi Hj E) as (v' & Hv & Hp). rewrite Hp in Ev. injection Ev as ->.
    eapply (paeth_between lo hi w h); [exact Hi|exact Hj|exact HA|exact HL| |exact Hv]. intros c' Ec'. rewrite Ec in Ec'. injection Ec' as <-. exact Bc.
Qed.
Print Assumptions C40_between_partial.
Example C40_between_case : edge_in 10 40 4 [10;20;30;40;12] /\ edge_in 10 40 4 [12;30;15;14] /\ exists p, dcIntra 8 true true 2 2 4 4 [10;20;30;40;12] [12;30;15;14] = Ok p.
Proof.
  assert (B : forall l, Forall (fun v => 10 <= v <= 40) l -> edge_in 10 40 4 l) by (intros l H k v _ E; exact (idx_Forall _ _ _ _ H E)).
  split; [apply B; repeat constructor; lia|]. split; [apply B; repeat constructor; lia|]. eexists. vm_compute. reflexivity.
Qed.

(** Blocks of 16 samples or more in either direction are never predicted: the prediction array has 15 rows and columns. *)
Theorem C40_large_blocks_panic_refuted : forall e plane x y hl ha har hbl mode lw lh A L f, 0 <= lw <= 6 -> 0 <= lh <= 6 -> 4 <= lw \/ 4 <= lh ->
  predictIntra e plane x y hl ha har hbl mode lw lh A L f = Panic.
Proof.
  intros e plane x y hl ha har hbl mode lw lh A L f Hlw Hlh Hbig. panics; [apply predictIntra_nh|]. intros [[f' A'] L'] E. unfold predictIntra in E. cbv zeta in E.
  apply rbind_inv in E as ([A1 L1] & _ & E). apply rbind_inv in E as ([[p A2] L2] & E2 & E). apply rbind_inv in E as (f2 & E3 & _). apply predictor_shape in E2.
  rewrite !shl1 in E3 by lia. assert (P1 : forall n, 0 <= n -> 0 < 2 ^ n) by (intros; apply Z.pow_pos_nonneg; lia). pose proof (P1 lw ltac:(lia)). pose proof (P1 lh ltac:(lia)).
  apply (fill_post _ _ y x) in E3; try lia; try reflexivity. destruct E3 as [E3 _].
  destruct Hbig as [Hb|Hb]; (assert (2 ^ 4 <= 2 ^ lw \/ 2 ^ 4 <= 2 ^ lh) by (first [left; apply Z.pow_le_mono_r; lia|right; apply Z.pow_le_mono_r; lia])); change (2 ^ 4) with 16 in *.
  - assert (2 ^ 4 <= 2 ^ lw) by (apply Z.pow_le_mono_r; lia). change (2 ^ 4) with 16 in *. destruct (E3 0 15 ltac:(lia) ltac:(lia)) as (v & Ev & _). apply (shape15_idx _ _ _ _ E2) in Ev. lia.
  - assert (2 ^ 4 <= 2 ^ lh) by (apply Z.pow_le_mono_r; lia). change (2 ^ 4) with 16 in *. destruct (E3 15 0 ltac:(lia) ltac:(lia)) as (v & Ev & _). apply (shape15_idx _ _ _ _ E2) in Ev. lia.
Qed.
Print Assumptions C40_large_blocks_panic_refuted.

(** * C76.  A prediction call writes its own block only, always ends, and keeps every sample of the frame and of the edge buffers a legal sample. *)
Theorem C76_writes_only_its_block : forall e plane x y hl ha har hbl mode lw lh A L f f' A' L', 0 <= lw <= 6 -> 0 <= lh <= 6 ->
  predictIntra e plane x y hl ha har hbl mode lw lh A L f = Ok (f', A', L') ->
  forall p r c, ~ (p = plane /\ y <= r < y + 2 ^ lh /\ x <= c < x + 2 ^ lw) -> idx3 f' p r c = idx3 f p r c.
Proof.
  intros e plane x y hl ha har hbl mode lw lh A L f f' A' L' Hlw Hlh E p r c N. unfold predictIntra in E. cbv zeta in E.
  apply rbind_inv in E as ([A1 L1] & _ & E). apply rbind_inv in E as ([[p' A2] L2] & E2 & E). apply rbind_inv in E as (f2 & E3 & E). injection E as <- <- <-.
  rewrite !shl1 in E3 by lia. assert (P1 : forall n, 0 <= n -> 0 < 2 ^ n) by (intros; apply Z.pow_pos_nonneg; lia). pose proof (P1 lw ltac:(lia)). pose proof (P1 lh ltac:(lia)).
  apply (fill_post _ _ y x) in E3; try lia; try reflexivity. destruct E3 as [_ E3]. apply E3. rewrite !Z.add_0_r. exact N.
Qed.
Print Assumptions C76_writes_only_its_block.
Theorem C76_terminates : forall e plane x y hl ha har hbl mode lw lh A L f, predictIntra e plane x y hl ha har hbl mode lw lh A L f <> Hang.
Proof. intros. apply predictIntra_nh. Qed.
Print Assumptions C76_terminates.
(** any sequence of prediction calls with any parameters *)
Record ICall := mkICall { cEnv : IEnv; cPlane : Z; cX : Z; cY : Z; cHL : bool; cHA : bool; cHAR : bool; cHBL : bool; cMode : Z; cLw : Z; cLh : Z }.
Definition call (k : ICall) (st : frame * edge * edge) : res (frame * edge * edge) :=
  let '(f, A, L) := st in predictIntra (cEnv k) (cPlane k) (cX k) (cY k) (cHL k) (cHA k) (cHAR k) (cHBL k) (cMode k) (cLw k) (cLh k) A L f.
Fixpoint calls (ks : list ICall) (st : frame * edge * edge) : res (frame * edge * edge) := match ks with [] => Ok st | k :: ks => let! st := call k st in calls ks st end.
Theorem C76_samples_in_range : forall bd ks f A L f' A' L', 2 <= bd <= 16 -> Forall (fun k => iBitDepth (cEnv k) = bd /\ 0 <= cLw k <= 6 /\ 0 <= cLh k <= 6) ks ->
  all_samples (sample bd) f -> Forall (sample bd) A -> Forall (sample bd) L -> calls ks (f, A, L) = Ok (f', A', L') ->
  all_samples (sample bd) f' /\ Forall (sample bd) A' /\ Forall (sample bd) L'.
Proof.
  intros bd ks. induction ks as [|k ks IH]; intros f A L f' A' L' Hb HK Hf HA HL E; cbn [calls] in E; [injection E as <- <- <-; auto|].
  inversion HK as [|? ? (K1 & K2 & K3) HK']; subst. apply rbind_inv in E as ([[f1 A1] L1] & E1 & E).
  assert (Q : forall v, sample (iBitDepth (cEnv k)) v <-> samp 0 (2 ^ iBitDepth (cEnv k) - 1) v) by (intros; unfold sample, samp; lia).
  assert (Q1 : forall l, Forall (sample (iBitDepth (cEnv k))) l <-> Forall (samp 0 (2 ^ iBitDepth (cEnv k) - 1)) l) by (intros l; split; apply Forall_impl; intros; apply Q; assumption).
  assert (Q3 : forall l, all_samples (sample (iBitDepth (cEnv k))) l <-> all_samples (samp 0 (2 ^ iBitDepth (cEnv k) - 1)) l).
  { intros l; split; apply Forall_impl; intros a; apply Forall_impl; intros b; apply Q1. }
  apply predictIntra_P with (bd := iBitDepth (cEnv k)) (hi := 2 ^ iBitDepth (cEnv k) - 1) in E1 as (F1 & F2 & F3); try lia; try (apply Q1; assumption); try (apply Q3; assumption).
  apply (IH f1 A1 L1); try assumption; first [apply Q3; exact F1|apply Q1; assumption].
Qed.
Print Assumptions C76_samples_in_range.
Example C76_case : match calls [mkICall (ienv false false 0) 0 4 4 true true false false DC_PRED 2 2; mkICall (ienv false false 0) 0 8 4 true true false false 12 2 2] (ramp, noEdge, noEdge) with
  | Ok (f', _, _) => map (fun r => firstn 12 r) (firstn 9 (nth 0 f' [])) | _ => [] end =
  [[0;1;2;3;4;5;6;7;8;9;10;11];[10;11;12;13;14;15;16;17;18;19;20;21];[20;21;22;23;24;25;26;27;28;29;30;31];[30;31;32;33;34;35;36;37;38;39;40;41];
   [40;41;42;43;33;33;33;33;7;7;7;7];[50;51;52;53;33;33;33;33;7;7;7;7];[60;61;62;63;33;33;33;33;7;7;7;7];[70;71;72;73;33;33;33;33;7;7;7;7];[80;81;82;83;84;85;86;87;88;89;90;91]].
Proof. vm_compute. reflexivity. Qed.

(** * C77.  The neighbours.  True parts: without a left neighbour the left column is the sample above the block, and the corner follows the standard's rules.
    With the row above available (and no left neighbour) the row is read from the last row of the plane for y = 0 and, for y >= 1, from row y itself. *)
Lemma fillAbove_post bd f plane x y w h mx yM1 hl ha har A A' : 1 <= w + h -> fillAbove bd f plane x y w h mx yM1 hl ha har A = Ok A' ->
  (forall i, 0 <= i < w + h - 1 -> exists v, aboveSample bd f plane x y w mx yM1 hl ha har i = Ok v /\ idx A' i = Ok v) /\
  (forall k, ~ (0 <= k < w + h - 1) -> idx A' k = idx A k) /\ zlen A' = zlen A.
Proof.
  intros Hn E. assert (LEN : zlen A' = zlen A).
  { revert E. unfold fillAbove, rfor_to. apply (rfor_from_post (fun _ a => zlen a = zlen A)); [reflexivity|]. intros j a a' _ Ha H. apply rbind_inv in H as (v & _ & H). rewrite (upd_zlen _ _ _ _ H). exact Ha. }
  change (fill1 (aboveSample bd f plane x y w mx yM1 hl ha har) (fun j => j) 0 (w + h - 1) A = Ok A') in E. apply (fill1_post _ 0) in E; try reflexivity; [|lia]. destruct E as [P Q]. split; [exact P|]. split; [|exact LEN].
  intros k Hk. apply Q. lia.
Qed.
(** with a left neighbour, fillLeft writes the row buffer and leaves the column alone *)
Definition leftRow (y h my : Z) (hbl : bool) (i : Z) : Z := Min (if hbl then Min my (y + 2 * h - 1) else Min my (y + h - 1)) (y + i).
Lemma fillLeft_have bd f plane x y w h my yM1 ha hbl A L A' L' : 1 <= w + h -> fillLeft bd f plane x y w h my yM1 true ha hbl A L = Ok (A', L') ->
  L' = L /\ zlen A' = zlen A /\
  (forall i, 0 <= i < w + h - 1 -> exists row v, idx2 f plane (leftRow y h my hbl i) = Ok row /\ beforeX row x = Ok v /\ idx A' i = Ok v) /\ (forall k, ~ (0 <= k < w + h - 1) -> idx A' k = idx A k).
Proof.
  intros Hn. unfold fillLeft, rfor_to. rewrite Z.sub_0_r. match goal with |- context [rfor_from _ 0 ?b (A, L)] => set (body := b) end.
  set (I := fun m (AL : edge * edge) => snd AL = L /\ zlen (fst AL) = zlen A /\ (forall i, 0 <= i < m -> exists row v, idx2 f plane (leftRow y h my hbl i) = Ok row /\ beforeX row x = Ok v /\ idx (fst AL) i = Ok v) /\ (forall k, ~ (0 <= k < m) -> idx (fst AL) k = idx A k)).
  assert (K : forall AL, rfor_from (Z.to_nat (w + h - 1)) 0 body (A, L) = Ok AL -> I (0 + Z.of_nat (Z.to_nat (w + h - 1))) AL).
  { intros AL. apply rfor_from_post; [split; [reflexivity|]; split; [reflexivity|]; split; [lia|reflexivity]|].
    intros m [a l] [a' l'] Hm (I1 & I2 & I3 & I4) H. cbn [fst snd] in *. unfold body in H. cbn [negb andb] in H. cbv iota in H. apply rbind_inv in H as (row & Er & H). apply rbind_inv in H as (v & Ev & H). apply rbind_inv in H as (a1 & Ea & H). injection H as <- <-.
    split; [exact I1|]. split; [cbn [fst]; rewrite (upd_zlen _ _ _ _ Ea); exact I2|]. cbn [fst]. split.
    - intros i Hi. destruct (Z.eq_dec i m) as [->|N]; [exists row, v; split; [exact Er|]; split; [exact Ev|exact (idx_upd_same _ _ _ _ Ea)]|].
      destruct (I3 i ltac:(lia)) as (r' & v' & E1 & E2 & E3). exists r', v'. split; [exact E1|]. split; [exact E2|]. rewrite (idx_upd_other _ _ _ _ _ Ea) by lia. exact E3.
    - intros k Hk. rewrite (idx_upd_other _ _ _ _ _ Ea) by lia. apply I4. lia. }
  intros E. apply K in E. unfold I in E. cbn [fst snd] in E. rewrite Z2Nat.id in E by lia. exact E.
Qed.
(** False with a left neighbour: the left samples replace the row above, and the left column keeps what earlier blocks left there (all but its corner entry). *)
Theorem C77_left_column_never_set_refuted : forall bd f plane x y w h mx my ha har hbl A L A' L', 1 <= w -> 1 <= h -> w + h <= zlen A -> 1 <= x ->
  prepareEdges bd f plane x y w h mx my true ha har hbl A L = Ok (A', L') ->
  (forall k, 0 <= k < zlen L - 1 -> idx L' k = idx L k) /\
  (forall i, 0 <= i < w + h - 1 -> exists v, idx3 f plane (leftRow y h my hbl i) (x - 1) = Ok v /\ idx A' i = Ok v).
Proof.
  intros bd f plane x y w h mx my ha har hbl A L A' L' Hw Hh HA Hx E. unfold prepareEdges in E. apply rbind_inv in E as (yM1 & Ey & E). apply rbind_inv in E as (A1 & E1 & E). apply rbind_inv in E as ([A2 L2] & E2 & E).
  apply rbind_inv in E as (c & Ec & E). apply rbind_inv in E as (A3 & E3 & E). apply rbind_inv in E as (L3 & E4 & E). injection E as <- <-.
  apply fillAbove_post in E1 as (_ & _ & Z1); [|lia]. apply fillLeft_have in E2 as (-> & Z2 & P & _); [|lia]. split.
  - intros k Hk. apply (idx_upd_other _ _ _ _ _ E4). lia.
  - intros i Hi. destruct (P i Hi) as (row & v & Er & Ev & Ei). exists v. split.
    + unfold beforeX in Ev. destruct (Z.eqb_spec (x - 1) (-1)); [lia|]. change (idx3 f plane (leftRow y h my hbl i) (x - 1)) with (let! p := idx f plane in let! r := idx p (leftRow y h my hbl i) in idx r (x - 1)).
      unfold idx2 in Er. apply rbind_inv in Er as (p & Ep & Er). rewrite Ep. cbn [rbind]. rewrite Er. exact Ev.
    + rewrite (idx_upd_other _ _ _ _ _ E3) by lia. exact Ei.
Qed.
Print Assumptions C77_left_column_never_set_refuted.
Example C77_left_case : match prepareEdges 8 ramp 0 4 4 4 4 15 15 true true false false noEdge noEdge with Ok (A', L') => (firstn 9 A', firstn 9 L', last A' 0, last L' 0) | _ => ([], [], 0, 0) end =
  ([43;53;63;73;73;73;73;7;7], [7;7;7;7;7;7;7;7;7], 43, 43).
Proof. vm_compute. reflexivity. Qed.
(** False below the first row: the "row above" is the block's own first row. *)
Theorem C77_above_row_is_own_row_refuted : forall bd f plane x y w h mx my har hbl A L A' L', 1 <= w -> 1 <= h -> w + h <= zlen A -> 1 <= y ->
  prepareEdges bd f plane x y w h mx my false true har hbl A L = Ok (A', L') ->
  forall i, 0 <= i < w + h - 1 -> exists v, idx3 f plane y (Min (if har then Min mx (x + 2 * w - 1) else Min mx (x + w - 1)) (x + i)) = Ok v /\ idx A' i = Ok v.
Proof.
  intros bd f plane x y w h mx my har hbl A L A' L' Hw Hh HA Hy E i Hi. unfold prepareEdges in E. apply rbind_inv in E as (yM1 & Ey & E). apply rbind_inv in E as (A1 & E1 & E). apply rbind_inv in E as ([A2 L2] & E2 & E).
  apply rbind_inv in E as (c & Ec & E). apply rbind_inv in E as (A3 & E3 & E). apply rbind_inv in E as (L3 & E4 & E). injection E as <- <-.
  unfold yMinusOne in Ey. destruct (Z.eqb_spec (y - 1) (-1)); [lia|]. injection Ey as <-.
  apply fillAbove_post in E1 as (P & _ & Z1); [|lia]. destruct (P i Hi) as (v & Ev & Iv). exists v. split; [exact Ev|].
  assert (A2 = A1) as ->.
  { revert E2. unfold fillLeft, rfor_to. intros E2. change A2 with (fst (A2, L2)). revert E2. generalize (A2, L2). intros AL. apply (rfor_from_post (fun _ AL => fst AL = A1)); [reflexivity|]. intros j [a l] [a' l'] _ Ha H. cbn [fst negb andb] in *. cbv iota in H.
    apply rbind_inv in H as (u & _ & H). apply rbind_inv in H as (l1 & _ & H). injection H as <- <-. exact Ha. }
  rewrite (idx_upd_other _ _ _ _ _ E3) by lia. exact Iv.
Qed.
Print Assumptions C77_above_row_is_own_row_refuted.
Example C77_above_case : match prepareEdges 8 ramp 0 0 4 4 4 15 15 false true false false noEdge noEdge with Ok (A', L') => (firstn 9 A', firstn 9 L') | _ => ([], []) end =
  ([40;41;42;43;43;43;43;7;7], [40;40;40;40;40;40;40;7;7]).
Proof. vm_compute. reflexivity. Qed.
(** True without a left neighbour: the left column is the (wrong) sample above the block's first column, everywhere. *)
Theorem C77_left_column_from_above_partial : forall bd f plane x y w h mx my har hbl A L A' L', 1 <= w -> 1 <= h -> w + h <= zlen L ->
  prepareEdges bd f plane x y w h mx my false true har hbl A L = Ok (A', L') -> exists v, (if y =? 0 then exists pl, idx f plane = Ok pl /\ idx2 pl (zlen pl - 1) x = Ok v else idx3 f plane y x = Ok v) /\
  (forall i, 0 <= i < w + h - 1 -> idx L' i = Ok v) /\ idx A' (zlen A - 1) = Ok v /\ idx L' (zlen L - 1) = Ok v.
Proof.
  intros bd f plane x y w h mx my har hbl A L A' L' Hw Hh HL E. unfold prepareEdges in E. apply rbind_inv in E as (yM1 & Ey & E). apply rbind_inv in E as (A1 & E1 & E). apply rbind_inv in E as ([A2 L2] & E2 & E).
  apply rbind_inv in E as (c & Ec & E). apply rbind_inv in E as (A3 & E3 & E). apply rbind_inv in E as (L3 & E4 & E). injection E as <- <-.
  apply fillAbove_post in E1 as (_ & _ & Z1); [|lia]. unfold corner in Ec. cbn [andb] in Ec. exists c.
  assert (K : zlen A2 = zlen A1 /\ zlen L2 = zlen L /\ forall i, 0 <= i < w + h - 1 -> idx L2 i = Ok c).
  { revert E2. unfold fillLeft, rfor_to. rewrite Z.sub_0_r. match goal with |- context [rfor_from _ 0 ?b (A1, L)] => set (body := b) end.
    assert (K : forall AL, rfor_from (Z.to_nat (w + h - 1)) 0 body (A1, L) = Ok AL -> (fun m AL => zlen (fst AL) = zlen A1 /\ zlen (snd AL) = zlen L /\ forall i, 0 <= i < m -> idx (snd AL) i = Ok c) (0 + Z.of_nat (Z.to_nat (w + h - 1))) AL).
    { intros AL. apply (rfor_from_post (fun m AL => zlen (fst AL) = zlen A1 /\ zlen (snd AL) = zlen L /\ forall i, 0 <= i < m -> idx (snd AL) i = Ok c)); [split; [reflexivity|]; split; [reflexivity|lia]|].
      intros m [a l] [a' l'] Hm (I1 & I2 & I3) H. cbn [fst snd] in *. unfold body in H. cbn [negb andb] in H. cbv iota in H.
      apply rbind_inv in H as (u & Eu & H). rewrite Ec in Eu. injection Eu as <-. apply rbind_inv in H as (l1 & El & H). injection H as <- <-. split; [exact I1|]. split; [rewrite (upd_zlen _ _ _ _ El); exact I2|].
      intros i Hi. destruct (Z.eq_dec i m) as [->|N]; [exact (idx_upd_same _ _ _ _ El)|]. rewrite (idx_upd_other _ _ _ _ _ El) by lia. apply I3. lia. }
    intros E2. apply K in E2. cbn [fst snd] in E2. rewrite Z2Nat.id in E2 by lia. exact E2. }
  destruct K as (K1 & K2 & K3). split; [|split; [|split]].
  - unfold yMinusOne in Ey. destruct (Z.eqb_spec y 0) as [->|].
    + change (0 - 1 =? -1) with true in Ey. cbv iota in Ey. apply rbind_inv in Ey as (pl & Ep & Ey). injection Ey as <-. exists pl. split; [exact Ep|]. unfold idx3 in Ec. rewrite Ep in Ec. exact Ec.
    + destruct (Z.eqb_spec (y - 1) (-1)); [lia|]. injection Ey as <-. exact Ec.
  - intros i Hi. rewrite (idx_upd_other _ _ _ _ _ E4) by lia. apply K3, Hi.
  - rewrite <- Z1, <- K1. exact (idx_upd_same _ _ _ _ E3).
  - rewrite <- K2. exact (idx_upd_same _ _ _ _ E4).
Qed.
Print Assumptions C77_left_column_from_above_partial.

(** * C78.  Directional prediction.  True for the vertical direction: every row is a copy of the row above. *)
Lemma directional_straight e plane x y hl ha mode w h mx my A L pAngle : idx Mode_To_Angle mode = Ok pAngle -> (if plane =? 0 then iAngleDeltaY e else iAngleDeltaUV e) = 0 -> pAngle = 90 \/ pAngle = 180 ->
  directionalIntra e plane x y hl ha mode w h mx my A L = let! p := predTable (fun i j => if pAngle =? 90 then idx A j else idx L j) w h in Ok (p, A, L).
Proof.
  intros Hm Hd Hp. unfold directionalIntra. rewrite Hm, Hd. cbn [rbind]. replace (pAngle + 0 * ANGLE_STEP) with pAngle by lia. cbv zeta.
  assert (ED : directionalEdges e plane x y hl ha pAngle w h mx my A L = Ok (A, L)).
  { unfold directionalEdges. destruct (negb (iEdgeFilter e)); [reflexivity|]. destruct Hp as [-> | ->]; reflexivity. }
  rewrite ED. cbn [rbind]. destruct Hp as [-> | ->]; reflexivity.
Qed.
Theorem C78_vertical_partial : forall e plane x y hl ha w h mx my A L, (if plane =? 0 then iAngleDeltaY e else iAngleDeltaUV e) = 0 -> 1 <= w <= 15 -> 1 <= h <= 15 -> w <= zlen A ->
  exists p, directionalIntra e plane x y hl ha V_PRED w h mx my A L = Ok (p, A, L) /\ forall i j, 0 <= i < h -> 0 <= j < w -> idx2 p i j = idx A j.
Proof.
  intros e plane x y hl ha w h mx my A L Hd Hw Hh HA. rewrite (directional_straight e plane x y hl ha V_PRED w h mx my A L 90 eq_refl Hd) by lia. change (90 =? 90) with true. cbv iota.
  destruct (predTable_ok (fun i j => idx A j) w h ltac:(lia) ltac:(lia)) as (p & E). { intros i j Hi Hj. rewrite (idx_ok A j 0) by lia. eauto. }
  rewrite E. exists p. split; [reflexivity|]. intros i j Hi Hj. destruct (predTable_val _ w h p i j Hi Hj E) as (v & Ev & Hp). cbv beta in Ev. congruence.
Qed.
Print Assumptions C78_vertical_partial.
(** False for the horizontal direction: every row is a copy of the left column (transposed) instead of row i being the i-th left sample. *)
Theorem C78_horizontal_transposed_refuted : forall e plane x y hl ha w h mx my A L, (if plane =? 0 then iAngleDeltaY e else iAngleDeltaUV e) = 0 -> 1 <= w <= 15 -> 1 <= h <= 15 -> w <= zlen L ->
  exists p, directionalIntra e plane x y hl ha 2 w h mx my A L = Ok (p, A, L) /\ forall i j, 0 <= i < h -> 0 <= j < w -> idx2 p i j = idx L j.
Proof.
  intros e plane x y hl ha w h mx my A L Hd Hw Hh HA. rewrite (directional_straight e plane x y hl ha 2 w h mx my A L 180 eq_refl Hd) by lia. change (180 =? 90) with false. cbv iota.
  destruct (predTable_ok (fun i j => idx L j) w h ltac:(lia) ltac:(lia)) as (p & E). { intros i j Hi Hj. rewrite (idx_ok L j 0) by lia. eauto. }
  rewrite E. exists p. split; [reflexivity|]. intros i j Hi Hj. destruct (predTable_val _ w h p i j Hi Hj E) as (v & Ev & Hp). cbv beta in Ev. congruence.
Qed.
Print Assumptions C78_horizontal_transposed_refuted.
Example C78_straight_case : match directionalIntra (ienv true false 0) 0 4 4 true true 2 4 4 15 15 [1;2;3;4] [10;20;30;40] with Ok (p, _, _) => map (firstn 4) (firstn 2 p) | _ => [] end = [[10;20;30;40];[10;20;30;40]].
Proof. vm_compute. reflexivity. Qed.

(** Without edge filter, angles above 180 are the standard's: sample (i, j) is interpolated at i + (j+1) dy/64 of the left column (dy the slope of the angle). *)
Definition slope_for (angle d : Z) : Prop := idx Dr_Intra_Derivative angle = Ok d.
(** the value at position pos (in 64ths) of an edge, to the next 32nd below, rounded *)
Definition at_position (E : edge) (pos v : Z) : Prop := exists u u', idx E (pos / 64) = Ok u /\ idx E (pos / 64 + 1) = Ok u' /\ let s := (pos / 2) mod 32 in v = (u * (32 - s) + u' * s + 16) / 32.
Lemma interp_at E pos v : Forall (fun z => 0 <= z < 2 ^ 32) E -> interp E (shr pos 6) (shr pos 6 + 1) (Z.land (shr pos 1) 31) = Ok v -> at_position E pos v.
Proof.
  intros HF H. unfold interp in H. apply rbind_inv in H as (u & Eu & H). apply rbind_inv in H as (u' & Eu' & H). exists u, u'.
  pose proof (idx_Forall _ _ _ _ HF Eu) as B. pose proof (idx_Forall _ _ _ _ HF Eu') as B'. cbv beta in B, B'.
  change 31 with (Z.ones 5) in H. rewrite Z.land_ones in H by lia. rewrite shr1 in H. unfold shr in *. rewrite Z.shiftr_div_pow2 in * by lia. change (2 ^ 6) with 64 in *. change (2 ^ 5) with 32 in *. change (2 ^ 32) with 4294967296 in *.
  split; [exact Eu|]. split; [exact Eu'|]. cbv zeta. pose proof (Z.mod_pos_bound (pos / 2) 32 ltac:(lia)).
  rewrite Round2_spec in H by (big; nia). injection H as <-. reflexivity.
Qed.
Theorem C78_above_180_partial : forall e plane x y hl ha mode w h mx my A L A' L' p angle dy i j v, iEdgeFilter e = false -> Forall (fun z => 0 <= z < 2 ^ 32) L ->
  idx Mode_To_Angle mode = Ok angle -> let pAngle := angle + 3 * (if plane =? 0 then iAngleDeltaY e else iAngleDeltaUV e) in 180 < pAngle -> slope_for (270 - pAngle) dy ->
  directionalIntra e plane x y hl ha mode w h mx my A L = Ok (p, A', L') -> 0 <= i < h -> 0 <= j < w -> idx2 p i j = Ok v -> at_position L (64 * i + (j + 1) * dy) v.
Proof.
  intros e plane x y hl ha mode w h mx my A L A' L' p angle dy i j v He HF Hm pAngle Hp Hdy E Hi Hj Ev. unfold directionalIntra in E. rewrite Hm in E. cbn [rbind] in E. cbv zeta in E.
  replace (angle + _ * ANGLE_STEP) with pAngle in E by (unfold pAngle, ANGLE_STEP; lia). unfold directionalEdges in E. rewrite He in E. cbn [negb rbind] in E. cbv iota in E.
  unfold dirDx, dirDy in E. destruct (Z.ltb_spec pAngle 90); [lia|]. destruct (Z.ltb_spec 90 pAngle); [|lia]. destruct (Z.ltb_spec pAngle 180); [lia|]. destruct (Z.ltb_spec 180 pAngle); [|lia]. cbn [andb rbind] in E. cbv iota in E.
  rewrite Hdy in E. cbn [rbind] in E. apply rbind_inv in E as (p1 & Ep & E). injection E as <- _ _. destruct (predTable_val _ w h p1 i j Hi Hj Ep) as (v' & Hv & Hp'). rewrite Hp' in Ev. injection Ev as ->.
  unfold dirSample in Hv. destruct (Z.ltb_spec pAngle 90); [lia|]. destruct (Z.ltb_spec 90 pAngle); [|lia]. destruct (Z.ltb_spec pAngle 180); [lia|]. destruct (Z.ltb_spec 180 pAngle); [|lia]. cbn [andb] in Hv. cbv zeta iota in Hv.
  apply interp_at; [exact HF|]. replace (shr (64 * i + (j + 1) * dy) 6) with (shr ((j + 1) * dy) 6 + i). replace (Z.land (shr (64 * i + (j + 1) * dy) 1) 31) with (Z.land (shr ((j + 1) * dy) 1) 31). exact Hv.
  - change 31 with (Z.ones 5). rewrite !Z.land_ones by lia. rewrite !shr1. replace (64 * i + (j + 1) * dy) with ((j + 1) * dy + (32 * i) * 2) by lia. rewrite Z.div_add by lia. change (2 ^ 5) with 32. rewrite (Z.mul_comm 32 i). symmetry. apply Z.mod_add. lia.
  - unfold shr. rewrite !Z.shiftr_div_pow2 by lia. change (2 ^ 6) with 64. replace (64 * i + (j + 1) * dy) with ((j + 1) * dy + i * 64) by lia. rewrite Z.div_add by lia. lia.
Qed.
Print Assumptions C78_above_180_partial.
Example C78_above_180_case : match directionalIntra (ienv false false 0) 0 4 4 true true 7 4 4 15 15 [] [10;20;30;40;50;60;70;80] with Ok (p, _, _) => map (firstn 4) (firstn 2 p) | _ => [] end = [[14;18;23;27];[24;28;33;37]].
Proof. vm_compute. reflexivity. Qed.
(** Below 90 degrees row i should be displaced by (i+1) dx/64 but is displaced by 2 i dx/64; so the first row is an undisplaced copy of the row above whatever the angle. *)
Theorem C78_below_90_partial : forall e plane x y hl ha mode w h mx my A L A' L' p angle dx i j v, iEdgeFilter e = false -> Forall (fun z => 0 <= z < 2 ^ 32) A ->
  idx Mode_To_Angle mode = Ok angle -> let pAngle := angle + 3 * (if plane =? 0 then iAngleDeltaY e else iAngleDeltaUV e) in pAngle < 90 -> slope_for pAngle dx ->
  directionalIntra e plane x y hl ha mode w h mx my A L = Ok (p, A', L') -> 0 <= i < h -> 0 <= j < w -> idx2 p i j = Ok v ->
  let pos := 64 * j + 2 * i * dx in if pos / 64 <? w + h - 1 then at_position A pos v else idx A (w + h - 1) = Ok v.
Proof.
  intros e plane x y hl ha mode w h mx my A L A' L' p angle dx i j v He HF Hm pAngle Hp Hdx E Hi Hj Ev. cbv zeta. unfold directionalIntra in E. rewrite Hm in E. cbn [rbind] in E. cbv zeta in E.
  replace (angle + _ * ANGLE_STEP) with pAngle in E by (unfold pAngle, ANGLE_STEP; lia). unfold directionalEdges in E. rewrite He in E. cbn [negb rbind] in E. cbv iota in E.
  unfold dirDx, dirDy in E. destruct (Z.ltb_spec pAngle 90); [|lia]. destruct (Z.ltb_spec 90 pAngle); [lia|]. destruct (Z.ltb_spec 180 pAngle); [lia|]. cbn [andb] in E. cbv iota in E.
  rewrite Hdx in E. cbn [rbind] in E. apply rbind_inv in E as (p1 & Ep & E). injection E as <- _ _. destruct (predTable_val _ w h p1 i j Hi Hj Ep) as (v' & Hv & Hp'). rewrite Hp' in Ev. injection Ev as ->.
  unfold dirSample in Hv. destruct (Z.ltb_spec pAngle 90); [|lia]. cbv zeta iota in Hv.
  assert (E1 : shr ((i + i) * dx) 6 + j = (64 * j + 2 * i * dx) / 64).
  { unfold shr. rewrite Z.shiftr_div_pow2 by lia. change (2 ^ 6) with 64. replace (64 * j + 2 * i * dx) with ((i + i) * dx + j * 64) by lia. rewrite Z.div_add by lia. reflexivity. }
  rewrite E1 in Hv. destruct (_ <? _); [|exact Hv]. apply interp_at; [exact HF|]. unfold shr at 1 2. rewrite Z.shiftr_div_pow2 by lia. change (2 ^ 6) with 64.
  replace (Z.land (shr (64 * j + 2 * i * dx) 1) 31) with (Z.land (shr ((i + i) * dx) 1) 31). exact Hv.
  change 31 with (Z.ones 5). rewrite !Z.land_ones by lia. rewrite !shr1. replace (64 * j + 2 * i * dx) with ((i + i) * dx + (32 * j) * 2) by lia. rewrite Z.div_add by lia. change (2 ^ 5) with 32. rewrite (Z.mul_comm 32 j). symmetry. apply Z.mod_add. lia.
Qed.
Print Assumptions C78_below_90_partial.
Theorem C78_first_row_not_displaced_refuted : forall e plane x y hl ha mode w h mx my A L A' L' p angle dx j v, iEdgeFilter e = false -> Forall (fun z => 0 <= z < 2 ^ 32) A ->
  idx Mode_To_Angle mode = Ok angle -> angle + 3 * (if plane =? 0 then iAngleDeltaY e else iAngleDeltaUV e) < 90 -> slope_for (angle + 3 * (if plane =? 0 then iAngleDeltaY e else iAngleDeltaUV e)) dx ->
  directionalIntra e plane x y hl ha mode w h mx my A L = Ok (p, A', L') -> 1 <= h -> 0 <= j < w -> idx2 p 0 j = Ok v -> idx A j = Ok v.
Proof.
  intros e plane x y hl ha mode w h mx my A L A' L' p angle dx j v He HF Hm Hp Hdx E Hh Hj Ev.
  pose proof (C78_below_90_partial _ _ _ _ _ _ _ _ _ _ _ _ _ _ _ _ _ _ 0 j v He HF Hm Hp Hdx E ltac:(lia) Hj Ev) as K. cbv zeta in K. replace (64 * j + 2 * 0 * dx) with (j * 64) in K by lia. rewrite Z.div_mul in K by lia.
  destruct (Z.ltb_spec j (w + h - 1)).
  - destruct K as (u & u' & Eu & _ & K). rewrite Z.div_mul in Eu by lia. rewrite Eu. f_equal. cbv zeta in K. replace (j * 64 / 2 mod 32) with 0 in K. rewrite K. replace (u * (32 - 0) + u' * 0 + 16) with (16 + u * 32) by lia. rewrite Z.div_add by lia. reflexivity.
    replace (j * 64) with ((j * 32) * 2) by lia. rewrite Z.div_mul by lia. symmetry. apply Z.mod_mul. lia.
  - replace j with (w + h - 1) by lia. exact K.
Qed.
Print Assumptions C78_first_row_not_displaced_refuted.
Example C78_below_90_case : match directionalIntra (ienv false false 0) 0 4 4 true true 3 4 4 15 15 [10;20;30;40;50;60;70;80] [] with Ok (p, _, _) => map (firstn 4) (firstn 3 p) | _ => [] end = [[10;20;30;40];[30;40;50;60];[50;60;70;80]].
Proof. vm_compute. reflexivity. Qed.
(** Between 90 and 180 degrees prediction panics whenever the angle's slope is at most the block width (always, for the three nominal directions). *)
Theorem C78_between_90_and_180_panics_refuted : forall e plane x y hl ha mode w h mx my A L angle dx, idx Mode_To_Angle mode = Ok angle ->
  let pAngle := angle + 3 * (if plane =? 0 then iAngleDeltaY e else iAngleDeltaUV e) in 90 < pAngle < 180 -> slope_for (180 - pAngle) dx -> 1 <= dx <= 64 * w -> w <= 2 ^ 32 -> 1 <= h ->
  directionalIntra e plane x y hl ha mode w h mx my A L = Panic.
Proof.
  intros e plane x y hl ha mode w h mx my A L angle dx Hm pAngle Hp Hdx Hw Hw2 Hh. panics; [apply directionalIntra_nh|]. intros [[p A'] L'] E. unfold directionalIntra in E. rewrite Hm in E. cbn [rbind] in E. cbv zeta in E.
  replace (angle + _ * ANGLE_STEP) with pAngle in E by (unfold pAngle, ANGLE_STEP; lia). apply rbind_inv in E as ([A1 L1] & _ & E). unfold dirDx in E.
  destruct (Z.ltb_spec pAngle 90); [lia|]. destruct (Z.ltb_spec 90 pAngle); [|lia]. destruct (Z.ltb_spec pAngle 180); [|lia]. cbn [andb] in E. cbv iota in E. rewrite Hdx in E. cbn [rbind] in E.
  apply rbind_inv in E as (dy & _ & E). apply rbind_inv in E as (p1 & Ep & _). set (j := (dx - 1) / 64).
  pose proof (Z.div_mod (dx - 1) 64 ltac:(lia)) as D1. pose proof (Z.mod_pos_bound (dx - 1) 64 ltac:(lia)) as D2. fold j in D1.
  destruct (predTable_val _ w h p1 0 j ltac:(lia) ltac:(lia) Ep) as (v & Hv & _).
  unfold dirSample in Hv. destruct (Z.ltb_spec pAngle 90); [lia|]. destruct (Z.ltb_spec 90 pAngle); [|lia]. destruct (Z.ltb_spec pAngle 180); [|lia]. cbn [andb] in Hv. cbv zeta iota in Hv.
  assert (B : shr (shl j 6 - (0 + 1) * dx) 6 = -1).
  { unfold shl. rewrite Z.shiftl_mul_pow2 by lia. change (2 ^ 6) with 64. rewrite i64_id by (big; lia). unfold shr. rewrite Z.shiftr_div_pow2 by lia. change (2 ^ 6) with 64. symmetry. apply (Z.div_unique _ _ _ (j * 64 - dx + 64)); lia. }
  rewrite B in Hv. change (-1 <=? -1) with true in Hv. cbv iota in Hv. unfold interp in Hv. rewrite idx_panic in Hv by lia. discriminate.
Qed.
Print Assumptions C78_between_90_and_180_panics_refuted.
Example C78_nominal_slopes : slope_for (180 - 113) 27 /\ slope_for (180 - 135) 64 /\ slope_for (180 - 157) 151 /\ idx Mode_To_Angle 4 = Ok 135 /\ idx Mode_To_Angle 5 = Ok 113 /\ idx Mode_To_Angle 6 = Ok 157.
Proof. repeat split. Qed.
(** With the sequence's edge filter on, slanted prediction of 4x4 blocks (less than 40 degrees from vertical) and of 8x8 blocks (20 degrees or more from vertical, row above available) panics. *)
Theorem C78_edge_filter_panics_refuted : forall e plane x y hl ha mode w h mx my A L angle, iEdgeFilter e = true -> idx Mode_To_Angle mode = Ok angle ->
  let pAngle := angle + 3 * (if plane =? 0 then iAngleDeltaY e else iAngleDeltaUV e) in
  (w = 4 /\ h = 4 /\ 0 < Z.abs (pAngle - 90) < 40) \/ (w = 8 /\ h = 8 /\ 20 <= Z.abs (pAngle - 90) < 2 ^ 32 /\ pAngle <> 180 /\ ha = true /\ x <= mx) ->
  directionalIntra e plane x y hl ha mode w h mx my A L = Panic.
Proof.
  intros e plane x y hl ha mode w h mx my A L angle He Hm pAngle HC. panics; [apply directionalIntra_nh|]. intros [[p A'] L'] E. unfold directionalIntra in E. rewrite Hm in E. cbn [rbind] in E. cbv zeta in E.
  replace (angle + _ * ANGLE_STEP) with pAngle in E by (unfold pAngle, ANGLE_STEP; lia). apply rbind_inv in E as ([A1 L1] & E1 & _). unfold directionalEdges in E1. rewrite He in E1. cbn [negb] in E1. cbv iota in E1.
  assert (AB : forall z, Z.abs z < 2 ^ 32 -> Abs z = Z.abs z) by (intros z Hz; unfold Abs; destruct (Z.leb_spec 0 z); [lia|]; rewrite i64_id by (big; lia); lia).
  apply rbind_inv in E1 as ([[A2 L2] ft] & E2 & E1). destruct HC as [(-> & -> & Hd)|(-> & -> & Hd & Hn & -> & Hx)].
  - apply rbind_inv in E1 as (A3 & E3 & _). unfold upsampleSel in E3. rewrite AB in E3 by (big; lia). destruct (Z.leb_spec (Z.abs (pAngle - 90)) 0); [lia|]. destruct (Z.leb_spec 40 (Z.abs (pAngle - 90))); [lia|]. cbn [orb] in E3. cbv iota in E3.
    replace (if ft =? 0 then 4 + 4 <=? 16 else 4 + 4 <=? 8) with true in E3 by (destruct (ft =? 0); reflexivity). exact (edgeUpsample_not _ _ E3).
  - destruct (Z.eqb_spec pAngle 90); [lia|]. destruct (Z.eqb_spec pAngle 180); [lia|]. cbn [negb andb] in E2. cbv iota in E2. apply rbind_inv in E2 as ([A3 L3] & _ & E2). apply rbind_inv in E2 as (t & _ & E2). apply rbind_inv in E2 as (A4 & E4 & _).
    unfold edgeFilter in E4. assert (ST : edgeStrength 8 8 (int_of t) (pAngle - 90) =? 0 = false).
    { unfold edgeStrength. rewrite AB by (big; lia). change (8 + 8) with 16. set (d := Z.abs _) in *. destruct t; cbn [int_of].
      - change (1 =? 0) with false. change (16 <=? 8) with false. change (16 <=? 16) with true. cbv iota. destruct (48 <=? d); [reflexivity|]. destruct (Z.leb_spec 20 d); [reflexivity|lia].
      - change (0 =? 0) with true. change (16 <=? 8) with false. change (16 <=? 12) with false. change (16 <=? 16) with true. cbv iota. destruct (32 <=? d); [reflexivity|]. destruct (16 <=? d); [reflexivity|]. destruct (Z.leb_spec 8 d); [reflexivity|lia]. }
    rewrite ST in E4. unfold rfor_to in E4. rewrite Z.sub_0_r in E4. set (sz := Min 8 _ + _) in E4.
    assert (1 <= sz). { unfold sz, Min. destruct (Z.leb_spec 8 (mx - x + 1)); destruct (pAngle <? 90); lia. }
    replace (Z.to_nat sz) with (S (Z.to_nat (sz - 1))) in E4 by lia. cbn [rfor_from] in E4. rewrite idx_panic in E4 by lia. discriminate.
Qed.
Print Assumptions C78_edge_filter_panics_refuted.
Example C78_edge_filter_case : directionalIntra (ienv true false 0) 0 4 4 true true 8 4 4 15 15 noEdge noEdge = Panic /\ directionalIntra (ienv true false 0) 0 4 4 true true 3 8 8 15 15 noEdge noEdge = Panic.
Proof. split; vm_compute; reflexivity. Qed.

(** * C79.  Filter-intra prediction never succeeds: any luma block of at least 4x2 samples that uses it panics. *)
Theorem C79_filter_intra_panics_refuted : forall e x y hl ha har hbl mode lw lh A L f, iUseFilterIntra e = true -> 2 <= lw <= 6 -> 1 <= lh <= 6 ->
  predictIntra e 0 x y hl ha har hbl mode lw lh A L f = Panic.
Proof.
  intros e x y hl ha har hbl mode lw lh A L f He Hlw Hlh. panics; [apply predictIntra_nh|]. intros [[f' A'] L'] E. unfold predictIntra in E. cbv zeta in E. apply rbind_inv in E as ([A1 L1] & _ & E).
  apply rbind_inv in E as ([[p A2] L2] & E2 & _). unfold predictor in E2. rewrite He in E2. change (0 =? 0) with true in E2. cbn [andb] in E2. cbv iota in E2. apply rbind_inv in E2 as (p1 & Ep & _).
  rewrite !shl1 in Ep by lia. assert (2 ^ 2 <= 2 ^ lw) by (apply Z.pow_le_mono_r; lia). assert (2 ^ 1 <= 2 ^ lh) by (apply Z.pow_le_mono_r; lia). change (2 ^ 2) with 4 in *. change (2 ^ 1) with 2 in *.
  unfold recursiveIntra, rfor_to in Ep. rewrite !Z.sub_0_r in Ep. unfold shr in Ep at 1 2. rewrite !Z.shiftr_div_pow2 in Ep by lia. change (2 ^ 1) with 2 in Ep. change (2 ^ 2) with 4 in Ep.
  assert (1 <= 2 ^ lh / 2) by (apply Z.div_le_lower_bound; lia). assert (1 <= 2 ^ lw / 4) by (apply Z.div_le_lower_bound; lia).
  replace (Z.to_nat (2 ^ lh / 2)) with (S (Z.to_nat (2 ^ lh / 2 - 1))) in Ep by lia. replace (Z.to_nat (2 ^ lw / 4)) with (S (Z.to_nat (2 ^ lw / 4 - 1))) in Ep by lia.
  cbn [rfor_from] in Ep. change (0 =? 0) with true in Ep. cbv iota in Ep. change (shl 0 2 + 0 - 1) with (-1) in Ep. rewrite idx_panic in Ep by lia. discriminate.
Qed.
Print Assumptions C79_filter_intra_panics_refuted.
Example C79_case : predictIntra (ienv false true 0) 0 4 4 true true false false DC_PRED 2 2 noEdge noEdge ramp = Panic /\ exists r, predictIntra (ienv false false 0) 0 4 4 true true false false DC_PRED 2 2 noEdge noEdge ramp = Ok r.
Proof. split; [vm_compute; reflexivity|]. eexists. vm_compute. reflexivity. Qed.
