(** Properties C137 to C146: inter prediction. *)
From Verif Require Import GoBase Bitstream BitstreamProofs Util UtilProofs Constants Tables Frame LoopFilter Fill2 Writes PredictInter SpecInter LoopFilterProofs.
From Verif Require UpscaleProofs.
Local Open Scope Z_scope.

Lemma round_up_eq x n : 0 <= n <= 62 -> - 2 ^ 62 <= x < 2 ^ 62 -> Round2 x n = Ok (round_up x n).
Proof. intros. apply Round2_spec; assumption. Qed.
Lemma idx3_inv {A} (l : list (list (list A))) p i j v : idx3 l p i j = Ok v -> exists g, idx l p = Ok g /\ idx2 g i j = Ok v.
Proof. unfold idx3. intros H. apply rbind_inv in H as (g & E & H). exists g. auto. Qed.
Lemma idx2_inv {A} (l : list (list A)) i j v : idx2 l i j = Ok v -> exists g, idx l i = Ok g /\ idx g j = Ok v.
Proof. unfold idx2. intros H. apply rbind_inv in H as (g & E & H). exists g. auto. Qed.

(** ** Filters *)
Definition K (f fr t : Z) : Z := match idx3 Subpel_Filters f fr t with Ok v => v | _ => 0 end.
Lemma filters_all : forallb (fun g => (zlen g =? 16) && forallb (fun r => (zlen r =? 8) && (fold_right Z.add 0 r =? 128) && forallb (fun k => Z.abs k <=? 128) r) g) Subpel_Filters = true /\ zlen Subpel_Filters = 6.
Proof. split; vm_compute; reflexivity. Qed.
Lemma filter_row f fr t v : idx3 Subpel_Filters f fr t = Ok v -> 0 <= f < 6 /\ 0 <= fr < 16 /\ 0 <= t < 8 /\ K f fr t = v /\ Z.abs v <= 128 /\ sum8 (K f fr) = 128 /\ (forall t', 0 <= t' < 8 -> idx3 Subpel_Filters f fr t' = Ok (K f fr t')).
Proof.
  intros H. destruct filters_all as [HA HL]. apply idx3_inv in H as (g & Eg & H2). pose proof H2 as H3. apply idx2_inv in H2 as (r & Er & Ev).
  pose proof (idx_inv _ _ _ Eg) as [B1 N1]. pose proof (idx_inv _ _ _ Er) as [B2 N2]. pose proof (idx_inv _ _ _ Ev) as [B3 N3].
  rewrite forallb_forall in HA. specialize (HA g (nth_error_In _ _ N1)). apply andb_prop in HA as [L2 HA]. apply Z.eqb_eq in L2.
  rewrite forallb_forall in HA. specialize (HA r (nth_error_In _ _ N2)). apply andb_prop in HA as [HA HK]. apply andb_prop in HA as [L3 HS]. apply Z.eqb_eq in L3, HS.
  rewrite forallb_forall in HK. specialize (HK v (nth_error_In _ _ N3)). apply Z.leb_le in HK.
  assert (KK : forall t', K f fr t' = match idx r t' with Ok v => v | _ => 0 end).
  { intros t'. unfold K, idx3, idx2. rewrite Eg. cbn [rbind]. rewrite Er. reflexivity. }
  split; [lia|]. split; [lia|]. split; [lia|]. split; [rewrite KK, Ev; reflexivity|]. split; [exact HK|].
  assert (L8 : length r = 8%nat) by (unfold zlen in L3; lia). split.
  - unfold sum8. rewrite !KK. destruct r as [|a0 [|a1 [|a2 [|a3 [|a4 [|a5 [|a6 [|a7 [|]]]]]]]]]; try discriminate L8. cbn [fold_right] in HS.
    rewrite !(idx_ok _ _ 0) by (unfold zlen; cbn [length]; lia). change (Z.to_nat 0) with 0%nat. change (Z.to_nat 1) with 1%nat. change (Z.to_nat 2) with 2%nat. change (Z.to_nat 3) with 3%nat.
    change (Z.to_nat 4) with 4%nat. change (Z.to_nat 5) with 5%nat. change (Z.to_nat 6) with 6%nat. change (Z.to_nat 7) with 7%nat. cbn [nth]. lia.
  - intros t' Ht. rewrite KK. unfold idx3, idx2. rewrite Eg. cbn [rbind]. rewrite Er. cbn [rbind]. rewrite (idx_ok r t' 0) by lia. reflexivity.
Qed.
Lemma filter_ok f fr : 0 <= f < 6 -> 0 <= fr < 16 -> forall t, 0 <= t < 8 -> idx3 Subpel_Filters f fr t = Ok (K f fr t).
Proof.
  intros Hf Hr t Ht. destruct filters_all as [HA HL]. destruct (idx Subpel_Filters f) as [g| |] eqn:Eg; [|rewrite (idx_ok _ _ []) in Eg by lia; discriminate..].
  pose proof (idx_inv _ _ _ Eg) as [B1 N1]. rewrite forallb_forall in HA. specialize (HA g (nth_error_In _ _ N1)). apply andb_prop in HA as [L2 HA]. apply Z.eqb_eq in L2.
  destruct (idx g fr) as [r| |] eqn:Er; [|rewrite (idx_ok _ _ []) in Er by lia; discriminate..]. pose proof (idx_inv _ _ _ Er) as [B2 N2]. rewrite forallb_forall in HA. specialize (HA r (nth_error_In _ _ N2)).
  apply andb_prop in HA as [HA _]. apply andb_prop in HA as [L3 _]. apply Z.eqb_eq in L3.
  unfold K, idx3, idx2. rewrite Eg. cbn [rbind]. rewrite Er. cbn [rbind]. rewrite (idx_ok r t 0) by lia. reflexivity.
Qed.
Ltac eight := change (Z.to_nat (8 - 0)) with 8%nat; cbn [rfor_from]; change (0 + 1) with 1; change (1 + 1) with 2; change (2 + 1) with 3; change (3 + 1) with 4; change (4 + 1) with 5; change (5 + 1) with 6; change (6 + 1) with 7.
Lemma taps_val f fr g s : taps f fr g = Ok s -> 0 <= f < 6 /\ 0 <= fr < 16 /\ exists v, (forall t, 0 <= t < 8 -> g t = Ok (v t)) /\ s = sum8 (fun t => K f fr t * v t).
Proof.
  unfold taps, rfor_to. eight. intros H.
  repeat match goal with H : rbind _ _ = Ok _ |- _ => apply rbind_inv in H as (?s & H & ?H) | H : Ok _ = Ok _ |- _ => injection H as <- end.
  match goal with H : idx3 Subpel_Filters f fr 0 = Ok _ |- _ => pose proof (filter_row _ _ _ _ H) as (A1 & A2 & _) end. split; [exact A1|]. split; [exact A2|].
  exists (fun t => match g t with Ok v => v | _ => 0 end). split.
  - intros t Ht. assert (T : t = 0 \/ t = 1 \/ t = 2 \/ t = 3 \/ t = 4 \/ t = 5 \/ t = 6 \/ t = 7) by lia.
    destruct T as [->|[->|[->|[->|[->|[->|[->| ->]]]]]]]; match goal with H : g ?t = Ok _ |- context [g ?t] => rewrite H end; reflexivity.
  - unfold sum8. repeat match goal with H : g _ = Ok _ |- _ => rewrite H; clear H | H : idx3 Subpel_Filters _ _ _ = Ok _ |- _ => apply filter_row in H as (_ & _ & _ & -> & _) end. lia.
Qed.
Lemma taps_ok f fr g v : 0 <= f < 6 -> 0 <= fr < 16 -> (forall t, 0 <= t < 8 -> g t = Ok (v t)) -> taps f fr g = Ok (sum8 (fun t => K f fr t * v t)).
Proof.
  intros Hf Hr Hg. unfold taps, rfor_to. eight. rewrite !(filter_ok f fr Hf Hr) by lia. cbn [rbind]. rewrite !Hg by lia. cbn [rbind]. reflexivity.
Qed.
Lemma taps_const f fr g s v : taps f fr g = Ok s -> (forall t u, 0 <= t < 8 -> g t = Ok u -> u = v) -> s = 128 * v.
Proof.
  intros H Hg. apply taps_val in H as (Hf & Hr & w & Hw & ->). assert (E : forall t, 0 <= t < 8 -> w t = v) by (intros t Ht; exact (Hg t _ Ht (Hw t Ht))).
  pose proof (filter_ok f fr Hf Hr 0 ltac:(lia)) as F. apply filter_row in F as (_ & _ & _ & _ & _ & S & _). unfold sum8 in *. rewrite !E by lia. nia.
Qed.

(** ** C137: the gain of interpolation *)
Lemma table_val V h w g g' : fill2 V (fun i => i) (fun j => j) 0 h 0 w g = Ok g' -> forall i j : Z, 0 <= i < h -> 0 <= j < w -> exists v : Z, V i j = Ok v /\ idx2 g' i j = Ok v.
Proof.
  intros H i j Hi Hj. destruct (fill2_post V 0 0 (fun i => i) (fun j => j) ltac:(reflexivity) ltac:(reflexivity) 0 h 0 w g g' ltac:(lia) ltac:(lia) H) as [P _].
  exact (P i j Hi Hj).
Qed.
Lemma table_ok V h w g : 0 <= h -> 0 <= w -> (forall i j : Z, 0 <= i < h -> 0 <= j < w -> exists v : Z, V i j = Ok v) -> (forall i j, 0 <= i < h -> 0 <= j < w -> exists v, idx2 g i j = Ok v) ->
  exists g', fill2 V (fun i => i) (fun j => j) 0 h 0 w g = Ok g'.
Proof. intros Hh Hw HV Hg. destruct (fill2_ok V 0 0 (fun i => i) (fun j => j) ltac:(reflexivity) ltac:(reflexivity) 0 h 0 w g Hh Hw HV Hg) as (g' & E & _). exists g'. exact E. Qed.
Lemma heightOf h yStep : 1 <= h -> 0 <= yStep -> shr ((h - 1) * yStep + shl 1 SCALE_SUBPEL_BITS - 1) SCALE_SUBPEL_BITS + 8 = ((h - 1) * yStep + 1023) / 1024 + 8.
Proof. intros. change (shl 1 SCALE_SUBPEL_BITS) with 1024. rewrite shr_div by (vm_compute; discriminate). change (2 ^ SCALE_SUBPEL_BITS) with 1024. f_equal. f_equal. lia. Qed.
Lemma row_in_height h yStep y r t : 0 <= r < h -> 0 <= yStep -> 0 <= t < 8 -> 0 <= shr (Z.land y 1023 + yStep * r) 10 + t < shr ((h - 1) * yStep + shl 1 SCALE_SUBPEL_BITS - 1) SCALE_SUBPEL_BITS + 8.
Proof.
  intros Hr Hs Ht. rewrite heightOf by lia. rewrite shr_div by lia. change (2 ^ 10) with 1024.
  assert (B : 0 <= Z.land y 1023 < 1024) by (change 1023 with (Z.ones 10); rewrite Z.land_ones by lia; apply Z.mod_pos_bound; lia).
  assert (0 <= yStep * r) by nia. assert (yStep * r <= (h - 1) * yStep) by nia.
  pose proof (Z.div_pos (Z.land y 1023 + yStep * r) 1024 ltac:(lia) ltac:(lia)). pose proof (Z.div_le_mono (Z.land y 1023 + yStep * r) ((h - 1) * yStep + 1023) 1024 ltac:(lia) ltac:(lia)). lia.
Qed.
(** A reference of one value v is predicted as v, wherever the block lies, whatever the vector, the scale and the filters; a compound prediction as v with its additional bits. *)
Theorem C137_constant_picture : forall e compound r0 r1 plane refIdx x y xStep yStep w h candRow candCol ref v p,
  roundVariables compound (pBd e) = (r0, r1) -> idx (pStore e) refIdx = Ok ref -> (forall i j u, idx3 ref plane i j = Ok u -> u = v) -> 0 <= v < 2 ^ 16 -> 0 <= yStep ->
  blockInter e r0 r1 plane refIdx x y xStep yStep w h candRow candCol = Ok p ->
  forall i j, 0 <= i < h -> 0 <= j < w -> idx2 p i j = Ok (std_gain compound (pBd e) * v).
Proof.
  intros e compound r0 r1 plane refIdx x y xStep yStep w h candRow candCol ref v p HR Href Hv Bv Hs HB i j Hi Hj.
  assert (G : (r0 = 3 \/ r0 = 5) /\ (r1 = 7 \/ r1 = 11 \/ r1 = 9) /\ 2 ^ (14 - r0 - r1) = std_gain compound (pBd e) /\ r0 + r1 <= 14).
  { unfold roundVariables in HR. unfold std_gain. destruct compound, (pBd e =? 12); cbn in HR; injection HR as <- <-; cbn; lia. }
  destruct G as (G0 & G1 & GG & GL).
  unfold blockInter in HB. rewrite Href in HB. cbn [rbind] in HB. apply rbind_inv in HB as (rw & Erw & HB). apply rbind_inv in HB as (rh & Erh & HB). apply rbind_inv in HB as (f1 & Ef1 & HB).
  apply rbind_inv in HB as (inter & EI & HB). apply rbind_inv in HB as (f0 & Ef0 & HB).
  assert (HI : forall r c u, 0 <= r < shr ((h - 1) * yStep + shl 1 SCALE_SUBPEL_BITS - 1) SCALE_SUBPEL_BITS + 8 -> 0 <= c < w -> idx2 inter r c = Ok u -> u = 2 ^ (7 - r0) * v).
  { intros r c u Hr Hc Hu. destruct (table_val _ _ _ _ _ EI r c Hr Hc) as (u' & Eu & Eu'). rewrite Hu in Eu'. injection Eu' as <-. unfold interH in Eu. apply rbind_inv in Eu as (s & Es & Eu).
    apply (taps_const _ _ _ _ v) in Es; [|intros t u0 _ E0; exact (Hv _ _ _ E0)]. subst s. rewrite round_up_eq in Eu by lia. injection Eu as <-. unfold round_up.
    destruct G0 as [-> | ->]; cbn [Z.eqb]; [change (2 ^ (3 - 1)) with 4; change (2 ^ 3) with 8; change (2 ^ (7 - 3)) with 16|change (2 ^ (5 - 1)) with 16; change (2 ^ 5) with 32; change (2 ^ (7 - 5)) with 4];
      symmetry; [apply Z.div_unique_pos with (r := 4)|apply Z.div_unique_pos with (r := 16)]; lia. }
  destruct (table_val _ _ _ _ _ HB i j Hi Hj) as (u & Eu & Eu'). rewrite Eu'. f_equal. unfold interV in Eu. apply rbind_inv in Eu as (s & Es & Eu).
  apply (taps_const _ _ _ _ (2 ^ (7 - r0) * v)) in Es; [|intros t u0 Ht E0; exact (HI _ _ _ (row_in_height h yStep y i t Hi Hs Ht) Hj E0)]. subst s.
  assert (P7 : 0 < 2 ^ (7 - r0) <= 16) by (destruct G0 as [-> | ->]; cbn; lia). rewrite round_up_eq in Eu by nia. injection Eu as <-. unfold round_up.
  destruct (Z.eqb_spec r1 0); [lia|]. rewrite <- GG.
  assert (E1 : 128 * (2 ^ (7 - r0) * v) = 2 ^ (14 - r0 - r1) * v * 2 ^ r1).
  { replace 128 with (2 ^ 7) by reflexivity. rewrite Z.mul_assoc, <- Z.pow_add_r by lia. replace (7 + (7 - r0)) with ((14 - r0 - r1) + r1) by lia. rewrite Z.pow_add_r by lia. lia. }
  rewrite E1. assert (0 < 2 ^ (r1 - 1)) by (apply Z.pow_pos_nonneg; lia). assert (2 ^ r1 = 2 * 2 ^ (r1 - 1)) by (rewrite <- Z.pow_succ_r by lia; f_equal; lia).
  symmetry. apply Z.div_unique_pos with (r := 2 ^ (r1 - 1)); lia.
Qed.
Print Assumptions C137_constant_picture.
Definition demoRef : frame := repeat (repeat (repeat 77 16) 16) 3.
Definition demoPEnv (filters : list (list (list Z))) (bd : Z) : PEnv :=
  mkPEnv (repeat 16 8) (repeat 16 8) 16 16 [0; 1; 2; 3; 4; 5; 6] false (repeat [0; 0; 2 ^ 16; 0; 0; 2 ^ 16] 8) (repeat 0 8) (repeat (repeat [1; -1] 64) 64) [1; -1] (repeat (repeat [(5, 9); (0, 0)] 64) 64) filters (repeat demoRef 8) true true bd.
(** a sharp and a smooth filter, steps of 5 and 0 (a vertical step needs more rows than the code has) *)
Example C137_example : exists p,
  blockInter (demoPEnv (repeat (repeat [1; 2] 2) 2) 10) 3 11 0 2 37 20 5 0 8 8 1 0 = Ok p /\ idx2 p 7 5 = Ok 77 /\
  blockInter (demoPEnv (repeat (repeat [1; 2] 2) 2) 12) 5 7 1 2 37 1029 5 0 4 8 1 0 = Ok (map (fun r => if r <? 8 then repeat (4 * 77) 4 ++ repeat 0 12 else repeat 0 16) (upto 16)).
Proof. eexists. split; [vm_compute; reflexivity|]. split; vm_compute; reflexivity. Qed.

(** ** C138: which references may be used, and which are scaled *)
Lemma shr1 v (b : bool) : shr (2 * v) (int_of b) = in_sixteenths v b.
Proof. destruct b; cbn [int_of in_sixteenths]; rewrite shr_div by lia; [change (2 ^ 1) with 2; rewrite Z.mul_comm; apply Z.div_mul; lia|change (2 ^ 0) with 1; apply Z.div_1_r]. Qed.
Lemma scaleOf_ratio ref cur : 0 <= ref < 2 ^ 17 -> 1 <= cur -> scaleOf ref cur = Ok (ratio ref cur).
Proof.
  intros Hr Hc. unfold scaleOf. destruct (Z.eqb_spec cur 0); [lia|]. rewrite shl_small; change REF_SCALE_SHIFT with 14; [|lia|change (2 ^ 14) with 16384; lia].
  rewrite (Z.quot_div_nonneg cur 2) by lia. pose proof (Z.div_pos cur 2 ltac:(lia) ltac:(lia)). rewrite Z.quot_div_nonneg by (change (2 ^ 14) with 16384; lia). reflexivity.
Qed.
Lemma round2s_ok x n : 1 <= n -> exists r, Round2Signed x n = Ok r.
Proof. intros Hn. unfold Round2Signed, Round2. destruct (Z.eqb_spec n 0); [lia|]. destruct (Z.ltb_spec n 0); [lia|]. destruct (0 <=? x); cbn [rbind]; eexists; reflexivity. Qed.
Lemma checkScale_iff e rw rh : (checkScale e rw rh = Ok tt /\ scale_allowed rw rh (pFW e) (pFH e)) \/ (checkScale e rw rh = Panic /\ ~ scale_allowed rw rh (pFW e) (pFH e)).
Proof.
  unfold checkScale, scale_allowed. destruct (Z.leb_spec rw (2 * pFW e)); cbn [negb]; [|right; split; [reflexivity|lia]]. destruct (Z.leb_spec rh (2 * pFH e)); cbn [negb]; [|right; split; [reflexivity|lia]].
  destruct (Z.leb_spec (pFW e) (16 * rw)); cbn [negb]; [|right; split; [reflexivity|lia]]. destruct (Z.leb_spec (pFH e) (16 * rh)); cbn [negb]; [left|right]; (split; [reflexivity|lia]).
Qed.
(** Prediction from a reference panics exactly when its size is out of the limits of the standard. *)
Theorem C138_scale_limits : forall e plane refIdx x y mv rw rh, idx (pRefW e) refIdx = Ok rw -> idx (pRefH e) refIdx = Ok rh -> 1 <= rw < 2 ^ 17 -> 1 <= rh < 2 ^ 17 -> 1 <= pFW e -> 1 <= pFH e ->
  ((exists sc, motionVectorScaling e plane refIdx x y mv = Ok sc) <-> scale_allowed rw rh (pFW e) (pFH e)) /\
  (motionVectorScaling e plane refIdx x y mv = Panic <-> ~ scale_allowed rw rh (pFW e) (pFH e)).
Proof.
  intros e plane refIdx x y mv rw rh E1 E2 B1 B2 F1 F2. unfold motionVectorScaling. rewrite E1, E2. cbn [rbind].
  destruct (checkScale_iff e rw rh) as [[-> A] | [-> A]]; cbn [rbind].
  - rewrite !scaleOf_ratio by lia. cbn [rbind]. change (REF_SCALE_SHIFT + SUBPEL_BITS - SCALE_SUBPEL_BITS) with 8. change (REF_SCALE_SHIFT - SCALE_SUBPEL_BITS) with 4.
    edestruct round2s_ok as [a ->]; [|cbn [rbind]; edestruct round2s_ok as [b ->]; [|cbn [rbind]; edestruct round2s_ok as [c ->]; [|cbn [rbind]; edestruct round2s_ok as [d ->]; [|cbn [rbind]]]]]; try lia.
    split; (split; [|]); [intros _; exact A|intros _; eexists; reflexivity|discriminate|tauto].
  - split; (split; [|]); [intros [sc H]; discriminate H|tauto|intros _; exact A|reflexivity].
Qed.
Print Assumptions C138_scale_limits.
Example C138_case : scale_allowed 31 16 16 255 /\ ~ scale_allowed 33 16 16 16 /\ ~ scale_allowed 16 15 16 256. Proof. unfold scale_allowed. lia. Qed.
Lemma ratio_one ref cur : 0 <= ref < 2 ^ 17 -> 1 <= cur < 2 ^ 15 -> (ratio ref cur = 2 ^ 14 <-> ref = cur).
Proof.
  intros Hr Hc. unfold ratio. change (2 ^ 14) with 16384. change (2 ^ 15) with 32768 in Hc. change (2 ^ 17) with 131072 in Hr. assert (D : cur / 2 * 2 <= cur < cur / 2 * 2 + 2) by (pose proof (Z.div_mod cur 2 ltac:(lia)); pose proof (Z.mod_pos_bound cur 2 ltac:(lia)); lia).
  split.
  - intros H. assert (Q : 16384 * cur <= ref * 16384 + cur / 2 < 16384 * cur + cur) by (pose proof (Z.div_mod (ref * 16384 + cur / 2) cur ltac:(lia)); pose proof (Z.mod_pos_bound (ref * 16384 + cur / 2) cur ltac:(lia)); rewrite H in *; lia). lia.
  - intros ->. symmetry. apply Z.div_unique_pos with (r := cur / 2); lia.
Qed.
(** A reference counts as scaled exactly when its size is not that of the current picture. *)
Theorem C138_is_scaled : forall e refFrame i rw rh, idx (pIdx e) (refFrame - 1) = Ok i -> idx (pRefW e) i = Ok rw -> idx (pRefH e) i = Ok rh -> 0 <= rw < 2 ^ 17 -> 0 <= rh < 2 ^ 17 -> 1 <= pFW e < 2 ^ 15 -> 1 <= pFH e < 2 ^ 15 ->
  exists b, isScaled e refFrame = Ok b /\ (b = true <-> (rw, rh) <> (pFW e, pFH e)).
Proof.
  intros e refFrame i rw rh E0 E1 E2 B1 B2 F1 F2. unfold isScaled. change LAST_FRAME with 1. rewrite E0. cbn [rbind]. rewrite E1. cbn [rbind]. rewrite scaleOf_ratio by lia. cbn [rbind]. rewrite E2. cbn [rbind]. rewrite scaleOf_ratio by lia. cbn [rbind].
  eexists. split; [reflexivity|]. change (shl 1 REF_SCALE_SHIFT) with (2 ^ 14). pose proof (ratio_one rw (pFW e) B1 F1) as R1. pose proof (ratio_one rh (pFH e) B2 F2) as R2.
  destruct (Z.eqb_spec (ratio rw (pFW e)) (2 ^ 14)) as [Q1|Q1], (Z.eqb_spec (ratio rh (pFH e)) (2 ^ 14)) as [Q2|Q2]; cbn [negb orb]; (split; [intros H; try discriminate H|intros H; try reflexivity]).
  - exfalso. apply H. f_equal; tauto.
  - intros [= A B]. tauto.
  - intros [= A B]. tauto.
  - intros [= A B]. tauto.
Qed.
Print Assumptions C138_is_scaled.
Example C138_is_scaled_case : isScaled (demoPEnv [] 8) 3 = Ok false. Proof. reflexivity. Qed.

(** ** C139: the position in the reference *)
Lemma round_away_min x n : 3 <= n <= 20 -> - 2 ^ 61 <= x <= 2 ^ 61 -> Round2Signed x n = Ok (Z.min 0 (round_away x n)).
Proof.
  intros Hn Hx. unfold Round2Signed, round_away. assert (P8 : 8 <= 2 ^ n) by (change 8 with (2 ^ 3); apply Z.pow_le_mono_r; lia). assert (PH : 2 ^ n = 2 * 2 ^ (n - 1)) by (rewrite <- Z.pow_succ_r by lia; f_equal; lia).
  assert (PB : 2 ^ n <= 2 ^ 20) by (apply Z.pow_le_mono_r; lia).
  destruct (Z.leb_spec 0 x).
  - rewrite round_up_eq by lia. unfold round_up. destruct (Z.eqb_spec n 0); [lia|]. rewrite Z.div_small by lia. pose proof (Z.div_pos (x + 2 ^ (n - 1)) (2 ^ n) ltac:(lia) ltac:(lia)). f_equal. lia.
  - rewrite i64_id by lia. rewrite round_up_eq by lia. cbn [rbind]. unfold round_up. destruct (Z.eqb_spec n 0); [lia|]. pose proof (Z.div_pos (- x + 2 ^ (n - 1)) (2 ^ n) ltac:(lia) ltac:(lia)) as D0.
    assert (D1 : (- x + 2 ^ (n - 1)) / 2 ^ n <= - x + 2 ^ (n - 1)) by (apply Z.div_le_upper_bound; nia). rewrite i64_id by lia. f_equal. lia.
Qed.
Lemma ratio_bounds ref cur : 1 <= cur -> 0 <= ref -> ref <= 2 * cur -> 0 <= ratio ref cur <= 32768.
Proof.
  intros Hc H0 H2. unfold ratio. change (2 ^ 14) with 16384. pose proof (Z.div_pos cur 2 ltac:(lia) ltac:(lia)). split; [apply Z.div_pos; lia|]. assert (cur / 2 < cur) by (apply Z.div_lt; lia).
  assert ((ref * 16384 + cur / 2) / cur < 32769) by (apply Z.div_lt_upper_bound; lia). lia.
Qed.
Lemma sub_eq plane b : 0 <= plane -> (if plane =? 0 then 0 else int_of b) = int_of ((0 <? plane) && b).
Proof. intros H. destruct (Z.eqb_spec plane 0), (Z.ltb_spec 0 plane); try lia; reflexivity. Qed.
Definition within (b v : Z) : Prop := - b <= v <= b.
(** What is computed: never a position beyond 1/32 of the first sample, and a distance of 0 between samples; the standard's position only where that is at or before it. *)
Theorem C139_scaled_position_refuted : forall e plane refIdx x y mv rw rh a b c d, idx (pRefW e) refIdx = Ok rw -> idx (pRefH e) refIdx = Ok rh -> 1 <= rw < 2 ^ 17 -> 1 <= rh < 2 ^ 17 -> 1 <= pFW e -> 1 <= pFH e ->
  within (2 ^ 24) x -> within (2 ^ 24) y -> within (2 ^ 24) (fst mv) -> within (2 ^ 24) (snd mv) -> 0 <= plane ->
  motionVectorScaling e plane refIdx x y mv = Ok (a, b, c, d) ->
  a = Z.min 32 (std_start x (in_sixteenths (snd mv) ((0 <? plane) && pSubX e)) (ratio rw (pFW e))) /\
  b = Z.min 32 (std_start y (in_sixteenths (fst mv) ((0 <? plane) && pSubY e)) (ratio rh (pFH e))) /\ c = 0 /\ d = 0.
Proof.
  intros e plane refIdx x y mv rw rh a b c d E1 E2 B1 B2 F1 F2 X Y M0 M1 HP H. unfold within in *.
  unfold motionVectorScaling in H. rewrite E1, E2 in H. cbn [rbind] in H. destruct (checkScale_iff e rw rh) as [[CE A] | [CE A]]; rewrite CE in H; [|discriminate H]. clear CE. cbn [rbind] in H.
  rewrite !scaleOf_ratio in H by lia. cbn [rbind] in H. unfold scale_allowed in A. pose proof (ratio_bounds rw (pFW e) ltac:(lia) ltac:(lia) ltac:(lia)) as R1. pose proof (ratio_bounds rh (pFH e) ltac:(lia) ltac:(lia) ltac:(lia)) as R2.
  assert (S1 : subx e plane = int_of ((0 <? plane) && pSubX e)) by (apply sub_eq; exact HP).
  assert (S2 : suby e plane = int_of ((0 <? plane) && pSubY e)) by (apply sub_eq; exact HP).
  rewrite S1, S2, !shr1 in H. set (vx := in_sixteenths (snd mv) ((0 <? plane) && pSubX e)) in *. set (vy := in_sixteenths (fst mv) ((0 <? plane) && pSubY e)) in *.
  assert (VX : - 2 ^ 25 <= vx <= 2 ^ 25) by (clear - M1; unfold vx, in_sixteenths; destruct (_ && _); cbn [Z.pow Z.pow_pos Pos.iter Z.mul Pos.mul] in *; lia). assert (VY : - 2 ^ 25 <= vy <= 2 ^ 25) by (clear - M0; unfold vy, in_sixteenths; destruct (_ && _); cbn [Z.pow Z.pow_pos Pos.iter Z.mul Pos.mul] in *; lia).
  change (REF_SCALE_SHIFT + SUBPEL_BITS - SCALE_SUBPEL_BITS) with 8 in H. change (REF_SCALE_SHIFT - SCALE_SUBPEL_BITS) with 4 in H. change (shl 1 (SUBPEL_BITS - 1)) with 8 in H. change (shl 8 REF_SCALE_SHIFT) with (8 * 2 ^ 14) in H.
  change (Z.quot (shl 1 (SCALE_SUBPEL_BITS - SUBPEL_BITS)) 2) with 32 in H.
  clearbody vx vy. clear - H R1 R2 X Y VX VY. rewrite !round_away_min in H by (change (2 ^ 61) with 2305843009213693952; nia). cbn [rbind] in H. injection H as <- <- <- <-. unfold std_start. split; [lia|]. split; [lia|].
  assert (N : forall r, 0 <= r -> 0 <= round_away r 4) by (intros r Hr; unfold round_away; destruct (Z.leb_spec 0 r); [|lia]; unfold round_up; apply Z.div_pos; cbn; lia).
  pose proof (N _ (proj1 R1)). pose proof (N _ (proj1 R2)). lia.
Qed.
Print Assumptions C139_scaled_position_refuted.
(** At and before the first sample of the reference the start of the block is right. *)
Theorem C139_scaled_position_partial : forall e plane refIdx x y mv rw rh a b c d, idx (pRefW e) refIdx = Ok rw -> idx (pRefH e) refIdx = Ok rh -> 1 <= rw < 2 ^ 17 -> 1 <= rh < 2 ^ 17 -> 1 <= pFW e -> 1 <= pFH e ->
  within (2 ^ 24) x -> within (2 ^ 24) y -> within (2 ^ 24) (fst mv) -> within (2 ^ 24) (snd mv) -> 0 <= plane ->
  motionVectorScaling e plane refIdx x y mv = Ok (a, b, c, d) ->
  let sx := std_start x (in_sixteenths (snd mv) ((0 <? plane) && pSubX e)) (ratio rw (pFW e)) in
  let sy := std_start y (in_sixteenths (fst mv) ((0 <? plane) && pSubY e)) (ratio rh (pFH e)) in
  (sx <= 32 -> a = sx) /\ (sy <= 32 -> b = sy).
Proof. intros e plane refIdx x y mv rw rh a b c d E1 E2 B1 B2 F1 F2 X Y M0 M1 HP H sx sy. destruct (C139_scaled_position_refuted _ _ _ _ _ _ _ _ _ _ _ _ E1 E2 B1 B2 F1 F2 X Y M0 M1 HP H) as (-> & -> & _). unfold sx, sy. lia. Qed.
Print Assumptions C139_scaled_position_partial.
(** the vector (-40, 24) at (8, 0): the standard starts at 11.03 samples to the right, 5 samples above *)
Example C139_example : motionVectorScaling (demoPEnv [] 8) 0 1 8 0 (-40, 24) = Ok (32, - (5 * 1024) + 32, 0, 0) /\ std_start 8 (in_sixteenths 24 false) (ratio 16 16) = 11 * 1024 + 32 /\ std_step (ratio 16 16) = 1024. Proof. vm_compute. repeat split. Qed.

(** ** C140: the interpolated samples *)
Definition sample (f : frame) (plane r c : Z) : Z := match idx3 f plane r c with Ok v => v | _ => 0 end.
Lemma clip_clamp last v : 0 <= last -> Clip3 0 last v = clamp_to last v.
Proof. intros H. unfold Clip3, clamp_to. destruct (Z.ltb_spec v 0); [lia|]. destruct (Z.ltb_spec last v); lia. Qed.
Lemma shortFilter_eq side f : shortFilter side f = std_filter side f. Proof. reflexivity. Qed.
Lemma std_filter_range side f : 0 <= f < 4 -> 0 <= std_filter side f < 6.
Proof. intros H. unfold std_filter. destruct (side <=? 4); [|lia]. destruct ((f =? 0) || (f =? 2)); [lia|]. destruct (f =? 1); lia. Qed.
Lemma K_bound f fr t : Z.abs (K f fr t) <= 128.
Proof. unfold K. destruct (idx3 Subpel_Filters f fr t) as [v| |] eqn:E; [|cbn; lia..]. apply filter_row in E as (_ & _ & _ & _ & B & _). exact B. Qed.
Lemma sum8_bound g b : 0 <= b -> (forall t, 0 <= t < 8 -> Z.abs (g t) <= b) -> Z.abs (sum8 g) <= 8 * b.
Proof. intros Hb H. unfold sum8. pose proof (H 0 ltac:(lia)). pose proof (H 1 ltac:(lia)). pose proof (H 2 ltac:(lia)). pose proof (H 3 ltac:(lia)). pose proof (H 4 ltac:(lia)). pose proof (H 5 ltac:(lia)). pose proof (H 6 ltac:(lia)). pose proof (H 7 ltac:(lia)). lia. Qed.
Lemma sum8_K f fr g b : 0 <= b -> (forall t, 0 <= t < 8 -> Z.abs (g t) <= b) -> Z.abs (sum8 (fun t => K f fr t * g t)) <= 1024 * b.
Proof. intros Hb H. replace (1024 * b) with (8 * (128 * b)) by lia. apply sum8_bound; [lia|]. intros t Ht. rewrite Z.abs_mul. pose proof (K_bound f fr t). pose proof (H t Ht). nia. Qed.
Lemma round_up_bound x n b : 0 <= n <= 20 -> 0 <= b -> Z.abs x <= b -> Z.abs (round_up x n) <= b + 1.
Proof.
  intros Hn Hb Hx. unfold round_up. destruct (Z.eqb_spec n 0); [lia|]. assert (P1 : 1 <= 2 ^ (n - 1)) by (pose proof (Z.pow_pos_nonneg 2 (n - 1)); lia). assert (PH : 2 ^ n = 2 * 2 ^ (n - 1)) by (rewrite <- Z.pow_succ_r by lia; f_equal; lia).
  assert ((x + 2 ^ (n - 1)) / 2 ^ n <= b + 1) by (apply Z.div_le_upper_bound; nia). assert (- (b + 1) <= (x + 2 ^ (n - 1)) / 2 ^ n) by (apply Z.div_le_lower_bound; nia). lia.
Qed.
Lemma array3_sample ref plane r c : array3 3 16 16 ref -> 0 <= plane < 3 -> 0 <= r < 16 -> 0 <= c < 16 -> idx3 ref plane r c = Ok (sample ref plane r c).
Proof. intros A Hp Hr Hc. destruct (proj2 (array3_get 3 16 16 ref plane r c A) ltac:(lia)) as [v E]. unfold sample. rewrite E. reflexivity. Qed.
Lemma sample_bound ref plane r c : all_samples (fun v => 0 <= v < 2 ^ 16) ref -> Z.abs (sample ref plane r c) <= 2 ^ 16.
Proof. intros A. unfold sample. destruct (idx3 ref plane r c) as [v| |] eqn:E; [|cbn; lia..]. pose proof (idx3_Forall _ _ _ _ _ _ A E) as B. cbv beta in B. lia. Qed.
Lemma clamp_range last v : 0 <= last < 16 -> 0 <= clamp_to last v < 16. Proof. unfold clamp_to. lia. Qed.
Lemma frac0 p : 0 <= p < 64 -> shr p 6 * SUBPEL_MASK = p / 64 mod 16 /\ 0 <= p / 64 mod 16 < 16 /\ shr p 10 = p / 1024.
Proof. intros H. rewrite !shr_div by lia. change (2 ^ 6) with 64. change (2 ^ 10) with 1024. rewrite (Z.div_small p 64) by lia. change (0 mod 16) with 0. split; [reflexivity|]. split; [lia|reflexivity]. Qed.
Section Right.
  Variables (ref : frame) (plane lastX lastY : Z).
  Hypothesis (A : array3 3 16 16 ref) (B : all_samples (fun v => 0 <= v < 2 ^ 16) ref) (Hp : 0 <= plane < 3) (HX : 0 <= lastX < 16) (HY : 0 <= lastY < 16).
  Lemma row_bound f r0 x xStep y r c : 0 <= r0 <= 20 -> Z.abs (std_row K (sample ref plane) lastX lastY f r0 x xStep y r c) <= 2 ^ 26 + 1.
  Proof. intros H. unfold std_row. apply round_up_bound; [lia|lia|]. replace (2 ^ 26) with (1024 * 2 ^ 16) by reflexivity. apply sum8_K; [lia|]. intros. apply sample_bound, B. Qed.
  Lemma interH_ok f r0 x xStep y r c : 0 <= r0 <= 20 -> 0 <= f < 6 -> 0 <= x + xStep * c < 64 -> interH ref plane lastX lastY f r0 x xStep y r c = Ok (std_row K (sample ref plane) lastX lastY f r0 x xStep y r c).
  Proof.
    intros Hr Hf Hx. unfold interH. destruct (frac0 _ Hx) as (F1 & F2 & F3). rewrite F1, F3.
    rewrite (taps_ok f _ _ (fun t => sample ref plane (clamp_to lastY (y / 1024 + r - 3)) (clamp_to lastX ((x + xStep * c) / 1024 + t - 3)))).
    - cbn [rbind]. apply round_up_eq; [lia|]. pose proof (sum8_K f ((x + xStep * c) / 64 mod 16) (fun t => sample ref plane (clamp_to lastY (y / 1024 + r - 3)) (clamp_to lastX ((x + xStep * c) / 1024 + t - 3))) (2 ^ 16) ltac:(lia) (fun t _ => sample_bound _ _ _ _ B)) as S. cbv beta in S. lia.
    - exact Hf.
    - exact F2.
    - intros t Ht. rewrite !clip_clamp by lia. rewrite (shr_div y 10) by lia. change (2 ^ 10) with 1024. apply array3_sample; auto using clamp_range.
  Qed.
End Right.
(** A block whose samples all lie within 1/16 of the reference's first column of samples in x, and which takes every row at a whole position, is interpolated as the standard says. *)
Theorem C140_interpolation_partial : forall e compound r0 r1 plane refIdx x y xStep w h candRow candCol ref rw rh f0 f1,
  let lastX := (rw + subx e plane) / 2 ^ subx e plane - 1 in let lastY := (rh + suby e plane) / 2 ^ suby e plane - 1 in
  roundVariables compound (pBd e) = (r0, r1) -> idx (pStore e) refIdx = Ok ref -> array3 3 16 16 ref -> all_samples (fun v => 0 <= v < 2 ^ 16) ref ->
  idx (pRefW e) refIdx = Ok rw -> idx (pRefH e) refIdx = Ok rh -> 0 <= lastX < 16 -> 0 <= lastY < 16 -> 0 <= plane < 3 ->
  idx3 (pFilters e) candRow candCol 0 = Ok f0 -> idx3 (pFilters e) candRow candCol 1 = Ok f1 -> 0 <= f0 < 4 -> 0 <= f1 < 4 -> 1 <= w <= 8 -> 1 <= h <= 16 ->
  0 <= x -> 0 <= xStep -> x + xStep * (w - 1) < 64 -> y mod 1024 < 64 ->
  exists p, blockInter e r0 r1 plane refIdx x y xStep 0 w h candRow candCol = Ok p /\
    forall r c, 0 <= r < h -> 0 <= c < w -> idx2 p r c = Ok (std_sample K (sample ref plane) lastX lastY (std_filter w f1) (std_filter h f0) r0 r1 x xStep y 0 r c).
Proof.
  intros e compound r0 r1 plane refIdx x y xStep w h candRow candCol ref rw rh f0 f1 lastX lastY HR Href A B Erw Erh HX HY Hp Ef0 Ef1 F0 F1 Hw Hh Hx Hs Hxx Hy.
  assert (G : 0 <= r0 <= 5 /\ 0 <= r1 <= 11) by (unfold roundVariables in HR; destruct compound, (pBd e =? 12); cbn in HR; injection HR as <- <-; lia). destruct G as [G0 G1].
  assert (S0 : 0 <= subx e plane /\ 0 <= suby e plane) by (unfold subx, suby; destruct (plane =? 0), (pSubX e), (pSubY e); cbn; lia).
  unfold blockInter. rewrite Href, Erw, Erh. cbn [rbind]. rewrite (shr_div (rw + subx e plane)), (shr_div (rh + suby e plane)) by lia. fold lastX lastY. rewrite Ef1. cbn [rbind]. rewrite !shortFilter_eq.
  rewrite heightOf by lia. replace ((h - 1) * 0 + 1023) with 1023 by lia. change (1023 / 1024 + 8) with 8.
  assert (XC : forall c, 0 <= c < w -> 0 <= x + xStep * c < 64) by (intros c Hc; assert (0 <= xStep * c <= xStep * (w - 1)) by nia; lia).
  pose proof (std_filter_range w f1 F1) as FR1. pose proof (std_filter_range h f0 F0) as FR0.
  destruct (table_ok (interH ref plane lastX lastY (std_filter w f1) r0 x xStep y) 8 w (repeat (repeat 0 8) 8)) as [inter EI]; [lia|lia| | |].
  { intros i j Hi Hj. eexists. apply interH_ok; auto. lia. }
  { intros i j Hi Hj. apply (array2_get 8 8); [split; [reflexivity|repeat constructor]|lia]. }
  rewrite EI. cbn [rbind]. rewrite Ef0. cbn [rbind]. rewrite shortFilter_eq.
  assert (IV : forall r c, 0 <= r < 8 -> 0 <= c < w -> idx2 inter r c = Ok (std_row K (sample ref plane) lastX lastY (std_filter w f1) r0 x xStep y r c)).
  { intros r c Hr Hc. destruct (table_val _ _ _ _ _ EI r c Hr Hc) as (v & Ev & Ev'). rewrite Ev', <- Ev. apply interH_ok; auto. lia. }
  assert (L : Z.land y 1023 = y mod 1024) by (change 1023 with (Z.ones 10); rewrite Z.land_ones by lia; reflexivity). pose proof (Z.mod_pos_bound y 1024 ltac:(lia)) as MB.
  assert (VV : forall r c, 0 <= r < h -> 0 <= c < w -> interV inter (std_filter h f0) r1 y 0 r c = Ok (std_sample K (sample ref plane) lastX lastY (std_filter w f1) (std_filter h f0) r0 r1 x xStep y 0 r c)).
  { intros r c Hr Hc. unfold interV, std_sample. rewrite L. replace (0 * r) with 0 by lia. destruct (frac0 (y mod 1024 + 0) ltac:(lia)) as (Q1 & Q2 & Q3). rewrite Q1, Q3.
    rewrite (taps_ok (std_filter h f0) _ _ (fun t => std_row K (sample ref plane) lastX lastY (std_filter w f1) r0 x xStep y ((y mod 1024 + 0) / 1024 + t) c)).
    - cbn [rbind]. apply round_up_eq; [lia|]. match goal with |- - 2 ^ 62 <= ?s < 2 ^ 62 => assert (S : Z.abs s <= 1024 * (2 ^ 26 + 1)) end.
      { apply sum8_K; [lia|]. intros t Ht. apply row_bound; [exact B|lia]. } lia.
    - exact FR0.
    - exact Q2.
    - intros t Ht. apply IV; [|exact Hc]. rewrite Z.add_0_r, Z.div_small by lia. lia. }
  destruct (table_ok (interV inter (std_filter h f0) r1 y 0) h w (repeat (repeat 0 16) 16)) as [p EP]; [lia|lia| | |].
  { intros i j Hi Hj. eexists. apply VV; assumption. }
  { intros i j Hi Hj. apply (array2_get 16 16); [split; [reflexivity|repeat constructor]|lia]. }
  exists p. split; [exact EP|]. intros r c Hr Hc. destruct (table_val _ _ _ _ _ EP r c Hr Hc) as (v & Ev & Ev'). rewrite Ev', <- Ev. apply VV; assumption.
Qed.
Print Assumptions C140_interpolation_partial.
(** A picture with a slope; the block reads its first column *)
Definition slope : frame := repeat (map (fun r => map (fun c => 3 * r + 5 * c) (upto 16)) (upto 16)) 3.
Definition slopeEnv : PEnv :=
  mkPEnv (repeat 16 8) (repeat 16 8) 16 16 [0; 1; 2; 3; 4; 5; 6] false (repeat [0; 0; 2 ^ 16; 0; 0; 2 ^ 16] 8) (repeat 0 8) (repeat (repeat [1; -1] 64) 64) [1; -1] (repeat (repeat [(0, 0); (0, 0)] 64) 64) (repeat (repeat [1; 2] 2) 2) (repeat slope 8) true true 8.
Example C140_example : exists p, blockInter slopeEnv 3 11 0 2 0 5120 0 0 8 8 0 0 = Ok p /\ idx2 p 4 4 = Ok 15 /\ sample slope 0 5 0 = 15.
Proof. eexists. split; [vm_compute; reflexivity|]. split; vm_compute; reflexivity. Qed.

Lemma gain_val compound bd r0 r1 v : roundVariables compound bd = (r0, r1) -> 0 <= v < 2 ^ 16 ->
  round_up (128 * v) r0 = 2 ^ (7 - r0) * v /\ round_up (128 * (2 ^ (7 - r0) * v)) r1 = std_gain compound bd * v /\ 0 <= r0 <= 5 /\ 0 <= r1 <= 11.
Proof.
  intros HR Hv. unfold roundVariables in HR. unfold round_up, std_gain. destruct compound, (bd =? 12); cbn in HR; injection HR as <- <-; cbn [Z.eqb].
  - change (2 ^ (7 - 5)) with 4. change (2 ^ (5 - 1)) with 16. change (2 ^ 5) with 32. change (2 ^ (7 - 1)) with 64. change (2 ^ 7) with 128.
    split; [symmetry; apply Z.div_unique_pos with (r := 16); lia|]. split; [symmetry; apply Z.div_unique_pos with (r := 64); lia|lia].
  - change (2 ^ (7 - 3)) with 16. change (2 ^ (3 - 1)) with 4. change (2 ^ 3) with 8. change (2 ^ (7 - 1)) with 64. change (2 ^ 7) with 128.
    split; [symmetry; apply Z.div_unique_pos with (r := 4); lia|]. split; [symmetry; apply Z.div_unique_pos with (r := 64); lia|lia].
  - change (2 ^ (7 - 5)) with 4. change (2 ^ (5 - 1)) with 16. change (2 ^ 5) with 32. change (2 ^ (9 - 1)) with 256. change (2 ^ 9) with 512.
    split; [symmetry; apply Z.div_unique_pos with (r := 16); lia|]. split; [symmetry; apply Z.div_unique_pos with (r := 256); lia|lia].
  - change (2 ^ (7 - 3)) with 16. change (2 ^ (3 - 1)) with 4. change (2 ^ 3) with 8. change (2 ^ (11 - 1)) with 1024. change (2 ^ 11) with 2048.
    split; [symmetry; apply Z.div_unique_pos with (r := 4); lia|]. split; [symmetry; apply Z.div_unique_pos with (r := 1024); lia|lia].
Qed.
Lemma K0 f g : 0 <= f < 6 -> sum8 (fun t => K f 0 t * g t) = 128 * g 3.
Proof.
  intros H. assert (T : forallb (fun f => (K f 0 3 =? 128) && forallb (fun t => K f 0 t =? 0) [0; 1; 2; 4; 5; 6; 7]) [0; 1; 2; 3; 4; 5] = true) by (vm_compute; reflexivity).
  rewrite forallb_forall in T. assert (F : In f [0; 1; 2; 3; 4; 5]) by (cbn; lia). specialize (T f F). apply andb_prop in T as [T3 T]. apply Z.eqb_eq in T3. rewrite forallb_forall in T.
  assert (Z0 : forall t, In t [0; 1; 2; 4; 5; 6; 7] -> K f 0 t = 0) by (intros t Ht; apply Z.eqb_eq, T, Ht). unfold sum8. rewrite T3, !Z0 by (cbn; tauto). lia.
Qed.
Lemma taps0 f p g s : -512 <= p <= 32 -> taps f (shr p 6 * SUBPEL_MASK) g = Ok s -> 0 <= p /\ exists v, g 3 = Ok v /\ s = 128 * v.
Proof.
  intros Hp H. apply taps_val in H as (Hf & Hr & v & Hv & ->). rewrite shr_div in Hr by lia. change (2 ^ 6) with 64 in Hr. change SUBPEL_MASK with 15 in Hr.
  assert (P : 0 <= p) by (destruct (Z.ltb_spec p 0); [|lia]; assert (p / 64 < 0) by (apply Z.div_lt_upper_bound; lia); lia). split; [exact P|].
  exists (v 3). split; [apply Hv; lia|]. rewrite shr_div by lia. change (2 ^ 6) with 64. rewrite Z.div_small by lia. change (0 * SUBPEL_MASK) with 0. apply K0. exact Hf.
Qed.
Lemma shr10 p : 0 <= p <= 1023 -> shr p 10 = 0. Proof. intros H. rewrite shr_div by lia. apply Z.div_small. change (2 ^ 10) with 1024. lia. Qed.
Lemma last_nonneg n s : 1 <= n -> 0 <= s <= 1 -> 0 <= shr (n + s) s - 1.
Proof. intros Hn Hs. rewrite shr_div by lia. assert (1 <= (n + s) / 2 ^ s); [|lia]. assert (E : s = 0 \/ s = 1) by lia. destruct E as [-> | ->]; cbn [Z.pow Z.pow_pos Pos.iter Z.mul]; [rewrite Z.div_1_r; lia|apply Z.div_le_lower_bound; lia]. Qed.
(** Whatever the motion vector and the place of the block (unless the vector points above the reference), every sample of a prediction that is made at all is the top left sample of the reference. *)
Theorem C140_vector_ignored_refuted : forall e compound r0 r1 plane refIdx x y mv rw rh w h candRow candCol ref a b c d p,
  roundVariables compound (pBd e) = (r0, r1) -> idx (pStore e) refIdx = Ok ref -> all_samples (fun v => 0 <= v < 2 ^ 16) ref ->
  idx (pRefW e) refIdx = Ok rw -> idx (pRefH e) refIdx = Ok rh -> 1 <= rw < 2 ^ 17 -> 1 <= rh < 2 ^ 17 -> 1 <= pFW e -> 1 <= pFH e ->
  within (2 ^ 24) x -> within (2 ^ 24) y -> within (2 ^ 24) (fst mv) -> within (2 ^ 24) (snd mv) -> 0 <= plane -> 0 <= y * 16 + in_sixteenths (fst mv) ((0 <? plane) && pSubY e) ->
  motionVectorScaling e plane refIdx x y mv = Ok (a, b, c, d) -> blockInter e r0 r1 plane refIdx a b c d w h candRow candCol = Ok p ->
  forall i j, 0 <= i < h -> 0 <= j < w -> idx2 p i j = Ok (std_gain compound (pBd e) * sample ref plane 0 0).
Proof.
  intros e compound r0 r1 plane refIdx x y mv rw rh w h candRow candCol ref a b c d p HR Href B Erw Erh B1 B2 F1 F2 X Y M0 M1 HP HY HM HB i j Hi Hj.
  assert (AL : scale_allowed rw rh (pFW e) (pFH e)) by (apply (C138_scale_limits e plane refIdx x y mv rw rh Erw Erh B1 B2 F1 F2); eexists; exact HM). unfold scale_allowed in AL.
  destruct (C139_scaled_position_refuted _ _ _ _ _ _ _ _ _ _ _ _ Erw Erh B1 B2 F1 F2 X Y M0 M1 HP HM) as (Ea & Eb & -> & ->). clear HM.
  pose proof (ratio_bounds rh (pFH e) ltac:(lia) ltac:(lia) ltac:(lia)) as R2.
  assert (BL : -480 <= b <= 32).
  { clear - Eb HY R2. unfold std_start in Eb. assert (-512 <= round_away ((y * 16 + in_sixteenths (fst mv) ((0 <? plane) && pSubY e) + 8) * ratio rh (pFH e) - 8 * 2 ^ 14) 8); [|lia].
    set (q := (y * 16 + in_sixteenths (fst mv) ((0 <? plane) && pSubY e) + 8) * ratio rh (pFH e) - 8 * 2 ^ 14). assert (Q : - 131072 <= q) by (unfold q; change (8 * 2 ^ 14) with 131072; nia).
    unfold round_away. destruct (Z.leb_spec 0 q); unfold round_up; cbn [Z.eqb]; change (2 ^ (8 - 1)) with 128; change (2 ^ 8) with 256; [pose proof (Z.div_pos (q + 128) 256); lia|].
    assert ((- q + 128) / 256 < 513) by (apply Z.div_lt_upper_bound; lia). lia. }
  assert (AU : a <= 32) by lia. clear Ea Eb.
  assert (SX : 0 <= subx e plane <= 1 /\ 0 <= suby e plane <= 1) by (unfold subx, suby; destruct (plane =? 0), (pSubX e), (pSubY e); cbn; lia).
  unfold blockInter in HB. rewrite Href, Erw, Erh in HB. cbn [rbind] in HB. apply rbind_inv in HB as (f1 & Ef1 & HB). apply rbind_inv in HB as (inter & EI & HB). apply rbind_inv in HB as (f0 & Ef0 & HB).
  pose proof (last_nonneg rw (subx e plane) ltac:(lia) ltac:(lia)) as LX. pose proof (last_nonneg rh (suby e plane) ltac:(lia) ltac:(lia)) as LY.
  set (lastX := shr (rw + subx e plane) (subx e plane) - 1) in *. set (lastY := shr (rh + suby e plane) (suby e plane) - 1) in *. clearbody lastX lastY.
  replace (shr ((h - 1) * 0 + shl 1 SCALE_SUBPEL_BITS - 1) SCALE_SUBPEL_BITS + 8) with 8 in EI by (rewrite Z.mul_0_r; reflexivity).
  destruct (table_val _ _ _ _ _ HB i j Hi Hj) as (u & Eu & Eu'). rewrite Eu'. f_equal. clear HB Eu'.
  unfold interV in Eu. replace (0 * i) with 0 in Eu by lia. rewrite Z.add_0_r in Eu.
  assert (L : Z.land b 1023 = b mod 1024) by (change 1023 with (Z.ones 10); rewrite Z.land_ones by lia; reflexivity). rewrite L in Eu. apply rbind_inv in Eu as (s & Es & Eu).
  assert (BP : 0 <= b).
  { destruct (Z.ltb_spec b 0); [|lia]. exfalso. assert (EB : b mod 1024 = b + 1024) by (symmetry; apply Z.mod_unique with (q := -1); lia). apply taps_val in Es as (_ & Hr & _). rewrite EB in Hr. rewrite shr_div in Hr by lia. change (2 ^ 6) with 64 in Hr. change SUBPEL_MASK with 15 in Hr.
    assert (8 <= (b + 1024) / 64) by (apply Z.div_le_lower_bound; lia). lia. }
  rewrite Z.mod_small in Es by lia. apply taps0 in Es as (_ & v & Ev & ->); [|lia]. rewrite shr10 in Ev by lia. change (0 + 3) with 3 in Ev.
  destruct (table_val _ _ _ _ _ EI 3 j ltac:(lia) Hj) as (v' & Ev' & Ei). rewrite Ev in Ei. injection Ei as <-. unfold interH in Ev'. replace (0 * j) with 0 in Ev' by lia. rewrite Z.add_0_r in Ev'.
  apply rbind_inv in Ev' as (s & Es & Ev'). destruct (Z.leb_spec (-512) a) as [AL2|AL2].
  2:{ exfalso. apply taps_val in Es as (_ & Hr & _). rewrite shr_div in Hr by lia. change (2 ^ 6) with 64 in Hr. change SUBPEL_MASK with 15 in Hr. assert (a / 64 < 0) by (apply Z.div_lt_upper_bound; lia). lia. }
  apply taps0 in Es as (A0 & v0 & Ev0 & ->); [|lia]. rewrite !shr10 in Ev0 by lia. change (0 + 3 - 3) with 0 in Ev0.
  assert (C0 : forall l, 0 <= l -> Clip3 0 l 0 = 0) by (intros l Hl; unfold Clip3; cbn; destruct (Z.ltb_spec l 0); [lia|reflexivity]). rewrite !C0 in Ev0 by assumption.
  assert (S0 : sample ref plane 0 0 = v0) by (unfold sample; rewrite Ev0; reflexivity). rewrite S0. pose proof (idx3_Forall _ _ _ _ _ _ B Ev0) as BV. cbv beta in BV.
  destruct (gain_val compound (pBd e) r0 r1 v0 HR BV) as (G1 & G2 & G3 & G4). rewrite round_up_eq in Ev' by lia. injection Ev' as <-. rewrite G1 in Eu.
  assert (PB : 2 ^ (7 - r0) <= 2 ^ 7) by (apply Z.pow_le_mono_r; lia). assert (0 <= 2 ^ (7 - r0)) by (apply Z.pow_nonneg; lia). rewrite round_up_eq in Eu by first [lia|clear - PB H BV; change (2 ^ 7) with 128 in PB; nia]. injection Eu as <-. exact G2.
Qed.
Print Assumptions C140_vector_ignored_refuted.
(** the vector (24, 48): three samples down and six to the right of (2, 4); the standard predicts sample (5, 10) *)
Example C140_vector_example : exists p, motionVectorScaling slopeEnv 0 2 4 2 (24, 48) = Ok (32, 32, 0, 0) /\ blockInter slopeEnv 3 11 0 2 32 32 0 0 8 8 0 0 = Ok p /\ idx2 p 0 0 = Ok 0 /\ idx2 p 5 5 = Ok 0 /\
  std_sample K (sample slope 0) 15 15 2 1 3 11 (std_start 4 96 (ratio 16 16)) (std_step (ratio 16 16)) (std_start 2 48 (ratio 16 16)) (std_step (ratio 16 16)) 0 0 = 3 * 5 + 5 * 10.
Proof. eexists. split; [vm_compute; reflexivity|]. split; [vm_compute; reflexivity|]. repeat split; vm_compute; reflexivity. Qed.

(** ** C141: reciprocals *)
Lemma lut_all : forallb (fun f => match idx Div_Lut f with Ok k => ((f =? 164) && (k =? 99869)) || ((2 * Z.abs (k * (256 + f) - 2 ^ 22) <=? 256 + f) && (8192 <=? k) && (k <=? 16384)) | _ => false end) (upto 257) = true.
Proof. vm_compute. reflexivity. Qed.
Lemma lut_entry f : 0 <= f <= 256 -> exists k, idx Div_Lut f = Ok k /\ (f = 164 /\ k = 99869 \/ f <> 164 /\ 2 * Z.abs (k * (256 + f) - 2 ^ 22) <= 256 + f /\ 8192 <= k <= 16384).
Proof.
  intros H. pose proof lut_all as T. rewrite forallb_forall in T. assert (I : In f (upto 257)) by (unfold upto; apply in_map_iff; exists (Z.to_nat f); split; [lia|apply in_seq; lia]).
  specialize (T f I). destruct (idx Div_Lut f) as [k| |] eqn:E; [|discriminate..]. exists k. split; [reflexivity|]. destruct (Z.eqb_spec f 164).
  - left. subst f. vm_compute in E. injection E as <-. auto.
  - right. cbn [andb orb] in T. apply andb_prop in T as [T T3]. apply andb_prop in T as [T1 T2]. apply Z.leb_le in T1, T2, T3. lia.
Qed.
Lemma resolve_steps d : 1 <= Z.abs d < 2 ^ 62 -> exists k, resolveDivisor d = Ok (Z.log2 (Z.abs d) + 13, if d <? 0 then - k else k) /\ idx Div_Lut (leading9 d - 256) = Ok k /\ 256 <= leading9 d <= 512 /\
  (if 8 <? Z.log2 (Z.abs d) then 2 * Z.abs (Z.abs d - leading9 d * 2 ^ (Z.log2 (Z.abs d) - 8)) <= 2 ^ (Z.log2 (Z.abs d) - 8) else leading9 d * 2 ^ Z.log2 (Z.abs d) = Z.abs d * 256).
Proof.
  intros Hd. pose proof (Z.log2_spec (Z.abs d) ltac:(lia)) as [L1 L2]. pose proof (Z.log2_nonneg (Z.abs d)) as LN. assert (LU : Z.log2 (Z.abs d) < 62) by (apply Z.log2_lt_pow2; lia).
  unfold resolveDivisor. rewrite Abs_abs by lia. rewrite FloorLog2_pos by (split; [lia|]; apply Z.lt_trans with (2 ^ 62); [lia|reflexivity]). cbn [rbind].
  set (n := Z.log2 (Z.abs d)) in *. unfold leading9. fold n. set (a := Z.abs d) in *. clearbody n a. destruct (Z.ltb_spec n 0); [lia|].
  rewrite Z.pow_succ_r in L2 by lia. assert (PU : 2 ^ n < 2 ^ 62) by (apply Z.pow_lt_mono_r; lia). assert (S1 : shl 1 n = 2 ^ n) by (rewrite shl_small by lia; lia). rewrite S1. change DIV_LUT_BITS with 8. change DIV_LUT_PREC_BITS with 13.
  destruct (Z.ltb_spec 8 n).
  - rewrite round_up_eq by lia. cbn [rbind]. assert (P8 : 2 ^ n = 256 * 2 ^ (n - 8)) by (change 256 with (2 ^ 8); rewrite <- Z.pow_add_r by lia; f_equal; lia).
    assert (PP : 0 < 2 ^ (n - 8)) by (apply Z.pow_pos_nonneg; lia). assert (P9 : 2 ^ (n - 8) = 2 * 2 ^ (n - 9)) by (rewrite <- Z.pow_succ_r by lia; f_equal; lia).
    assert (E : round_up (a - 2 ^ n) (n - 8) = round_up a (n - 8) - 256).
    { unfold round_up. destruct (Z.eqb_spec (n - 8) 0); [lia|]. rewrite P8. replace (a - 256 * 2 ^ (n - 8) + 2 ^ (n - 8 - 1)) with (a + 2 ^ (n - 8 - 1) + (- 256) * 2 ^ (n - 8)) by lia. rewrite Z.div_add by lia. lia. }
    rewrite E. assert (RB : 2 * Z.abs (a - round_up a (n - 8) * 2 ^ (n - 8)) <= 2 ^ (n - 8)).
    { unfold round_up. destruct (Z.eqb_spec (n - 8) 0); [lia|]. replace (n - 8 - 1) with (n - 9) by lia. pose proof (Z.div_mod (a + 2 ^ (n - 9)) (2 ^ (n - 8)) ltac:(lia)) as DM. pose proof (Z.mod_pos_bound (a + 2 ^ (n - 9)) (2 ^ (n - 8)) ltac:(lia)) as MB.
      set (q := (a + 2 ^ (n - 9)) / 2 ^ (n - 8)) in *. lia. }
    assert (LB : 256 <= round_up a (n - 8) <= 512) by (clear - RB L1 L2 P8 PP; rewrite P8 in L1, L2; nia).
    destruct (lut_entry (round_up a (n - 8) - 256) ltac:(lia)) as (k & Ek & _). exists k. rewrite Ek. cbn [rbind]. split; [reflexivity|]. split; [reflexivity|]. split; [exact LB|exact RB].
  - assert (P8 : 256 = 2 ^ n * 2 ^ (8 - n)) by (change 256 with (2 ^ 8); rewrite <- Z.pow_add_r by lia; f_equal; lia). assert (PP : 0 < 2 ^ (8 - n)) by (apply Z.pow_pos_nonneg; lia). assert (PN : 0 < 2 ^ n) by (apply Z.pow_pos_nonneg; lia).
    assert (LB : 256 <= a * 2 ^ (8 - n) <= 512) by (clear - P8 PP PN L1 L2; nia).
    assert (SE : shl (a - 2 ^ n) (8 - n) = a * 2 ^ (8 - n) - 256) by (rewrite shl_small by first [lia|clear - P8 PP PN L1 L2 LB; nia]; clear - P8; nia).
    rewrite SE. cbn [rbind]. destruct (lut_entry (a * 2 ^ (8 - n) - 256) ltac:(lia)) as (k & Ek & _). exists k. rewrite Ek. cbn [rbind]. split; [reflexivity|]. split; [reflexivity|]. split; [exact LB|]. rewrite P8. ring.
Qed.
Lemma reciprocal_core d k : 1 <= Z.abs d < 2 ^ 62 -> idx Div_Lut (leading9 d - 256) = Ok k -> 256 <= leading9 d <= 512 ->
  (if 8 <? Z.log2 (Z.abs d) then 2 * Z.abs (Z.abs d - leading9 d * 2 ^ (Z.log2 (Z.abs d) - 8)) <= 2 ^ (Z.log2 (Z.abs d) - 8) else leading9 d * 2 ^ Z.log2 (Z.abs d) = Z.abs d * 256) ->
  leading9 d <> 420 -> 256 * Z.abs (Z.abs d * k - 2 ^ (Z.log2 (Z.abs d) + 14)) <= 2 ^ (Z.log2 (Z.abs d) + 14).
Proof.
  intros Hd Ek LB HE H4. destruct (lut_entry (leading9 d - 256) ltac:(lia)) as (k' & Ek' & HK). rewrite Ek in Ek'. injection Ek' as <-. destruct HK as [HK|HK]; [lia|]. destruct HK as (_ & HK & KB). replace (256 + (leading9 d - 256)) with (leading9 d) in HK by lia.
  pose proof (Z.log2_nonneg (Z.abs d)) as LN. set (n := Z.log2 (Z.abs d)) in *. set (m := leading9 d) in *. set (a := Z.abs d) in *. clearbody n m a. rewrite Z.pow_add_r by lia. change (2 ^ 14) with 16384. change (2 ^ 22) with 4194304 in HK.
  destruct (Z.ltb_spec 8 n).
  - assert (P8 : 2 ^ n = 256 * 2 ^ (n - 8)) by (change 256 with (2 ^ 8); rewrite <- Z.pow_add_r by lia; f_equal; lia). rewrite P8. assert (PP : 0 < 2 ^ (n - 8)) by (apply Z.pow_pos_nonneg; lia). set (q := 2 ^ (n - 8)) in *. clearbody q.
    assert (D1 : Z.abs ((a - m * q) * k) <= q * 8192) by (rewrite Z.abs_mul; clear - HE KB PP; nia). assert (D2 : 2 * Z.abs ((k * m - 4194304) * q) <= m * q) by (rewrite Z.abs_mul; clear - HK PP; nia).
    replace (a * k - 256 * q * 16384) with ((a - m * q) * k + (k * m - 4194304) * q) by ring. clear - D1 D2 LB PP. assert (m * q <= 512 * q) by nia. lia.
  - assert (PN : 0 < 2 ^ n) by (apply Z.pow_pos_nonneg; lia). set (q := 2 ^ n) in *. clearbody q. assert (D2 : 2 * Z.abs ((k * m - 4194304) * q) <= m * q) by (rewrite Z.abs_mul; clear - HK PN; nia).
    assert (E : 256 * (a * k - q * 16384) = (k * m - 4194304) * q) by (clear - HE; nia). clear - D2 E LB PN. assert (m * q <= 512 * q) by nia. lia.
Qed.
(** Up to a factor of two the pair returned is the reciprocal, except for the divisors whose leading bits are 420. *)
Theorem C141_reciprocal_partial : forall d, 1 <= Z.abs d < 2 ^ 62 -> leading9 d <> 420 -> exists shift factor, resolveDivisor d = Ok (shift, factor) /\ near_reciprocal d (shift + 1) factor.
Proof.
  intros d Hd H4. destruct (resolve_steps d Hd) as (k & -> & Ek & LB & HE). do 2 eexists. split; [reflexivity|]. unfold near_reciprocal. pose proof (reciprocal_core d k Hd Ek LB HE H4) as C.
  replace (Z.log2 (Z.abs d) + 13 + 1) with (Z.log2 (Z.abs d) + 14) by lia. replace (d * (if d <? 0 then - k else k)) with (Z.abs d * k) by (destruct (Z.ltb_spec d 0); lia). exact C.
Qed.
Print Assumptions C141_reciprocal_partial.
(** The pair is never the reciprocal: it is at least nearly twice too large. *)
Theorem C141_reciprocal_refuted : forall d, 1 <= Z.abs d < 2 ^ 62 -> exists shift factor, resolveDivisor d = Ok (shift, factor) /\ ~ near_reciprocal d shift factor /\ 10 * (d * factor) >= 19 * 2 ^ shift /\
  (leading9 d = 420 -> 1000 * (d * factor) >= 19900 * 2 ^ shift).
Proof.
  intros d Hd. destruct (resolve_steps d Hd) as (k & -> & Ek & LB & HE). do 2 eexists. split; [reflexivity|]. replace (d * (if d <? 0 then - k else k)) with (Z.abs d * k) by (destruct (Z.ltb_spec d 0); lia).
  assert (S : 2 ^ (Z.log2 (Z.abs d) + 14) = 2 * 2 ^ (Z.log2 (Z.abs d) + 13)) by (pose proof (Z.log2_nonneg (Z.abs d)); rewrite <- Z.pow_succ_r by lia; f_equal; lia).
  assert (P : 0 < 2 ^ (Z.log2 (Z.abs d) + 13)) by (pose proof (Z.log2_nonneg (Z.abs d)); apply Z.pow_pos_nonneg; lia).
  unfold near_reciprocal. replace (d * (if d <? 0 then - k else k)) with (Z.abs d * k) by (destruct (Z.ltb_spec d 0); lia).
  destruct (Z.eq_dec (leading9 d) 420) as [E4|H4].
  - rewrite E4 in Ek. vm_compute in Ek. injection Ek as <-.
    assert (BIG : 1000 * (Z.abs d * 99869) >= 19900 * 2 ^ (Z.log2 (Z.abs d) + 13)).
    { pose proof (Z.log2_nonneg (Z.abs d)) as LN. rewrite E4 in HE. rewrite Z.pow_add_r by lia. change (2 ^ 13) with 8192. destruct (Z.ltb_spec 8 (Z.log2 (Z.abs d))).
      - assert (P8 : 2 ^ Z.log2 (Z.abs d) = 256 * 2 ^ (Z.log2 (Z.abs d) - 8)) by (change 256 with (2 ^ 8); rewrite <- Z.pow_add_r by lia; f_equal; lia). rewrite P8. assert (PP : 0 < 2 ^ (Z.log2 (Z.abs d) - 8)) by (apply Z.pow_pos_nonneg; lia). lia.
      - lia. }
    split; [lia|]. split; [lia|]. intros _. exact BIG.
  - pose proof (reciprocal_core d k Hd Ek LB HE H4) as C. rewrite S in C. split; [lia|]. split; [lia|]. intros E. contradiction.
Qed.
Print Assumptions C141_reciprocal_refuted.
(** 1 / 2^16 and 1 / 420 *)
Example C141_example : resolveDivisor (2 ^ 16) = Ok (29, 2 ^ 14) /\ resolveDivisor (-300) = Ok (21, -13981) /\ leading9 420 = 420 /\ resolveDivisor 420 = Ok (21, 99869). Proof. vm_compute. auto. Qed.

(** ** C142: the shear of a warp *)
Definition warp_in_range (p : list Z) : Prop := zlen p = 6 /\ Forall (within (2 ^ 23)) p.
Lemma to16_clip v : Clip3 (-32768) 32767 v = to16 v.
Proof. unfold Clip3, to16. destruct (Z.ltb_spec v (-32768)); [lia|]. destruct (Z.ltb_spec 32767 v); lia. Qed.
Lemma to16_range v : - 32768 <= to16 v <= 32767. Proof. unfold to16. lia. Qed.
Lemma reduce_val v : - 32768 <= v <= 32767 -> reduceParam v = Ok (Z.min 0 (to64 v)) /\ - 32768 <= Z.min 0 (to64 v) <= 0.
Proof.
  intros Hv. unfold reduceParam. change WARP_PARAM_REDUCE_BITS with 6. rewrite round_away_min by lia. cbn [rbind].
  assert (B : -512 <= Z.min 0 (round_away v 6) <= 0).
  { split; [|lia]. unfold round_away. destruct (Z.leb_spec 0 v); unfold round_up; cbn [Z.eqb]; change (2 ^ (6 - 1)) with 32; change (2 ^ 6) with 64; [pose proof (Z.div_pos (v + 32) 64); lia|]. assert ((- v + 32) / 64 < 513) by (apply Z.div_lt_upper_bound; lia). lia. }
  rewrite shl_small by (change (2 ^ 6) with 64; lia). change (2 ^ 6) with 64. unfold to64. split; [f_equal; lia|lia].
Qed.
(** The four parameters as computed: never positive.  gamma and delta from the quotients g and q *)
Theorem C142_shear_partial : forall p valid alpha beta gamma delta, setupShear p = Ok (valid, alpha, beta, gamma, delta) -> warp_in_range p ->
  (valid = true <-> shear_valid alpha beta gamma delta) /\
  (exists p2 p3, idx p 2 = Ok p2 /\ idx p 3 = Ok p3 /\ alpha = Z.min 0 (to64 (to16 (p2 - 2 ^ 16))) /\ beta = Z.min 0 (to64 (to16 p3))) /\
  (forall v, In v [alpha; beta; gamma; delta] -> - 32768 <= v <= 0 /\ v mod 64 = 0).
Proof.
  intros p valid alpha beta gamma delta H [HL HF]. unfold setupShear in H. apply rbind_inv in H as (p2 & E2 & H). apply rbind_inv in H as (p3 & E3 & H). apply rbind_inv in H as (p4 & E4 & H). apply rbind_inv in H as (p5 & E5 & H).
  apply rbind_inv in H as ([sh fa] & Ed & H). apply rbind_inv in H as (g & Eg & H). apply rbind_inv in H as (q & Eq & H). rewrite !to16_clip in H.
  rewrite (proj1 (reduce_val _ (to16_range _))) in H. cbn [rbind] in H. rewrite (proj1 (reduce_val _ (to16_range _))) in H. cbn [rbind] in H. rewrite (proj1 (reduce_val _ (to16_range _))) in H. cbn [rbind] in H. rewrite (proj1 (reduce_val _ (to16_range _))) in H. cbn [rbind] in H.
  change (shl 1 WARPEDMODEL_PREC_BITS) with (2 ^ 16) in H. injection H as <- <- <- <- <-.
  assert (R : forall w, - 32768 <= Z.min 0 (to64 (to16 w)) <= 0 /\ Z.min 0 (to64 (to16 w)) mod 64 = 0).
  { intros w. split; [exact (proj2 (reduce_val _ (to16_range w)))|]. unfold to64. destruct (Z.min_spec 0 (round_away (to16 w) 6 * 64)) as [[_ ->]|[_ ->]]; [reflexivity|apply Z.mod_mul; lia]. }
  split; [|split].
  - rewrite !Abs_abs by (match goal with |- context [Z.min 0 (to64 (to16 ?w))] => pose proof (proj1 (R w)) end; lia). unfold shear_valid. rewrite andb_true_iff, !negb_true_iff, !Z.leb_gt. tauto.
  - exists p2, p3. auto.
  - intros v [<-|[<-|[<-|[<-|[]]]]]; apply R.
Qed.
Print Assumptions C142_shear_partial.
(** A warp that only enlarges (no parameter below that of the identity) counts as valid however strong it is. *)
Theorem C142_strong_warp_valid_refuted : forall p2 p3 p5, 2 ^ 16 <= p2 <= 2 ^ 23 -> 0 <= p3 <= 2 ^ 23 -> 2 ^ 16 <= p5 <= 2 ^ 23 -> setupShear [0; 0; p2; p3; 0; p5] = Ok (true, 0, 0, 0, 0).
Proof.
  intros p2 p3 p5 H2 H3 H5. unfold setupShear. change (idx [0; 0; p2; p3; 0; p5] 2) with (Ok p2). change (idx [0; 0; p2; p3; 0; p5] 3) with (Ok p3). change (idx [0; 0; p2; p3; 0; p5] 4) with (Ok 0). change (idx [0; 0; p2; p3; 0; p5] 5) with (Ok p5). cbn [rbind].
  destruct (resolve_steps p2 ltac:(lia)) as (k & -> & _). cbn [rbind]. change (shl 0 WARPEDMODEL_PREC_BITS) with 0. rewrite Z.mul_0_r, !Z.mul_0_l.
  assert (LN : 0 <= Z.log2 (Z.abs p2) <= 30) by (split; [apply Z.log2_nonneg|]; assert (Z.log2 (Z.abs p2) < 30) by (apply Z.log2_lt_pow2; lia); lia).
  assert (R0 : Round2Signed 0 (Z.log2 (Z.abs p2) + 13) = Ok 0).
  { unfold Round2Signed. cbn [Z.leb Z.compare]. rewrite round_up_eq by lia. unfold round_up. destruct (Z.eqb_spec (Z.log2 (Z.abs p2) + 13) 0); [lia|]. f_equal. apply Z.div_small.
    assert (2 ^ 12 <= 2 ^ (Z.log2 (Z.abs p2) + 13 - 1)) by (apply Z.pow_le_mono_r; lia). assert (2 ^ (Z.log2 (Z.abs p2) + 13) = 2 * 2 ^ (Z.log2 (Z.abs p2) + 13 - 1)) by (rewrite <- Z.pow_succ_r by lia; f_equal; lia). lia. }
  rewrite R0. cbn [rbind]. rewrite !to16_clip. change (shl 1 WARPEDMODEL_PREC_BITS) with (2 ^ 16).
  assert (Z64 : forall v, 0 <= v -> reduceParam (to16 v) = Ok 0).
  { intros v Hv. rewrite (proj1 (reduce_val _ (to16_range v))). f_equal. assert (0 <= to16 v) by (unfold to16; lia). unfold to64, round_away. destruct (Z.leb_spec 0 (to16 v)); [|lia]. unfold round_up. cbn [Z.eqb]. change (2 ^ (6 - 1)) with 32. change (2 ^ 6) with 64. pose proof (Z.div_pos (to16 v + 32) 64). lia. }
  rewrite !Z64 by lia. cbn [rbind]. reflexivity.
Qed.
Print Assumptions C142_strong_warp_valid_refuted.
(** enlarged by half and sheared: by the standard 4 * 32768 + 7 * 8192 is far beyond 65536 *)
Example C142_example : setupShear [0; 0; 98304; 8192; 0; 65536] = Ok (true, 0, 0, 0, 0) /\ ~ shear_valid (to64 (to16 (98304 - 2 ^ 16))) (to64 (to16 8192)) 0 0 /\
  setupShear [0; 0; 45536; -8192; 0; 65536] = Ok (false, -20032, -8192, 0, 0) /\ setupShear [0; 0; 65536; 0; 0; 65536] = Ok (true, 0, 0, 0, 0).
Proof. split; [vm_compute; reflexivity|]. split; [intros [H _]; vm_compute in H; discriminate H|]. split; vm_compute; reflexivity. Qed.

(** ** C143: which predictions are made at all *)
Definition never {A} (m : res A) : Prop := forall a, m <> Ok a.
Lemma never_bind {A B} (m : res A) (k : A -> res B) : (forall a, m = Ok a -> never (k a)) -> never (rbind m k).
Proof. intros H b E. apply rbind_inv in E as (a & Ea & E). exact (H a Ea b E). Qed.
Lemma never_bind1 {A B} (m : res A) (k : A -> res B) : never m -> never (rbind m k).
Proof. intros H. apply never_bind. intros a E. destruct (H a E). Qed.
Lemma never_loop {A} lo hi (body : Z -> A -> res A) a : lo < hi -> never (body lo a) -> never (rfor_to lo hi body a).
Proof.
  intros H HB. unfold rfor_to. destruct (Z.to_nat (hi - lo)) as [|n] eqn:E; [lia|]. cbn [rfor_from]. apply never_bind1, HB.
Qed.
Lemma upd_nil {A} i (v : A) : never (upd (@nil A) i v).
Proof. intros b H. apply upd_inv in H as [B _]. unfold zlen in B. cbn in B. lia. Qed.
Lemma upd2_nil {A} i j (v : A) : never (upd2 (@nil (list A)) i j v).
Proof. unfold upd2. apply never_bind1. intros g H. apply idx_inv in H as [B _]. unfold zlen in B. cbn in B. lia. Qed.
Lemma idx2_nil {A} i j : never (idx2 (@nil (list A)) i j).
Proof. unfold idx2. apply never_bind1. intros g H. apply idx_inv in H as [B _]. unfold zlen in B. cbn in B. lia. Qed.
Lemma warpEstimation_never : never warpEstimation. Proof. intros a H. vm_compute in H. discriminate H. Qed.
Lemma wedgeMask_never : never wedgeMask. Proof. intros a H. vm_compute in H. discriminate H. Qed.
Lemma maskWrites_never w h : 1 <= w -> 1 <= h -> never (maskWrites w h).
Proof. intros Hw Hh. unfold maskWrites. apply never_bind1, never_loop; [lia|]. apply never_loop; [lia|]. apply upd2_nil. Qed.
Lemma distanceWeights_never e r c : never (distanceWeights e r c).
Proof. unfold distanceWeights. apply never_bind1, never_loop; [lia|]. apply never_bind. intros. apply upd_nil. Qed.
Lemma blockWarp_never e k r0 u plane rl x y i8 j8 : never (blockWarp e k r0 u plane rl x y i8 j8).
Proof.
  unfold blockWarp. do 5 (apply never_bind; intros ? _). apply never_bind. intros p _. do 6 (apply never_bind; intros ? _). apply never_bind. intros [[[[v al] be] ga] de] _.
  apply never_bind1, never_loop; [lia|]. apply never_loop; [lia|]. do 3 (apply never_bind; intros ? _). apply upd2_nil.
Qed.
Lemma scaling_never e plane x y mv : never (motionVectorScaling e plane (-1) x y mv).
Proof. unfold motionVectorScaling. apply never_bind1. intros a H. apply idx_inv in H as [B _]. lia. Qed.
Lemma predictOne_inv e k r0 r1 lv rl plane x y w h cr cc p : 1 <= w -> 1 <= h -> predictOne e k r0 r1 lv rl plane x y w h cr cc = Ok p ->
  kIntrabc k = 0 /\ exists rf gv, idx3 (pRefFrames e) cr cc rl = Ok rf /\ globalValidOf e k rf = Ok gv /\ useWarpOf e k lv gv rf w h = Ok 0.
Proof.
  intros Hw Hh H. unfold predictOne in H. apply rbind_inv in H as (rf & Er & H). apply rbind_inv in H as (gv & Eg & H). apply rbind_inv in H as (uw & Eu & H). apply rbind_inv in H as (mv & Em & H). apply rbind_inv in H as (ri & Ei & H). apply rbind_inv in H as ([[[a b] c] d] & Es & H).
  unfold bool_of in Ei. destruct (Z.eqb_spec (kIntrabc k) 0) as [K0'|K0']; cbn [negb] in Ei; [|injection Ei as <-; destruct (scaling_never _ _ _ _ _ _ Es)]. split; [exact K0'|]. exists rf, gv. split; [exact Er|]. split; [exact Eg|].
  destruct (Z.eqb_spec uw 0) as [->|U]; [exact Eu|]. exfalso. apply rbind_inv in H as (u & EU & _). revert EU. apply never_loop; [rewrite shr_div by lia; pose proof (Z.div_pos (h - 1) (2 ^ 3) ltac:(lia) ltac:(lia)); lia|].
  apply never_loop; [rewrite shr_div by lia; pose proof (Z.div_pos (w - 1) (2 ^ 3) ltac:(lia) ltac:(lia)); lia|]. apply blockWarp_never.
Qed.
(** Only plain predictions from one reference are ever made: not compound, not copied within the frame, not warped locally, not masked; mixed with an intra prediction only under the type of the average. *)
Theorem C143_only_single_refuted : forall e k plane x y w h candRow candCol f f', 1 <= w -> 1 <= h -> predictInter e k plane x y w h candRow candCol f = Ok f' ->
  (exists second, idx3 (pRefFrames e) candRow candCol 1 = Ok second /\ second <= INTRA_FRAME) /\ kIntrabc k = 0 /\
  (plane = 0 -> kMotion k <> LOCALWARP /\ kCompound k <> COMPOUND_WEDGE) /\ ~ In (kCompound k) [COMPOUND_INTRA; COMPOUND_DIFFWTD; COMPOUND_DISTANCE] /\ (kInterIntra k = true -> kCompound k = COMPOUND_AVERAGE).
Proof.
  intros e k plane x y w h cr cc f f' Hw Hh H. unfold predictInter in H. apply rbind_inv in H as (second & E2 & H).
  destruct (roundVariables (INTRA_FRAME <? second) (pBd e)) as [r0 r1]. apply rbind_inv in H as (u1 & W1 & H). apply rbind_inv in H as (lv & W2 & H). apply rbind_inv in H as (preds & P0 & H).
  apply rbind_inv in H as (u2 & P1 & H). apply rbind_inv in H as (u3 & M1 & H). apply rbind_inv in H as (u4 & M2 & H). apply rbind_inv in H as (f1 & B1 & H).
  destruct (predictOne_inv _ _ _ _ _ _ _ _ _ _ _ _ _ _ Hw Hh P0) as (IB & _).
  assert (SC : second <= INTRA_FRAME).
  { destruct (Z.ltb_spec INTRA_FRAME second); [|assumption]. exfalso. apply rbind_inv in P1 as (p & _ & P1). exact (upd_nil _ _ _ P1). }
  split; [exists second; auto|]. split; [exact IB|]. assert (DI : kCompound k <> COMPOUND_DISTANCE) by (intros E; rewrite E in M2; exact (distanceWeights_never _ _ _ _ M2)).
  assert (MM : (plane = 0 -> kCompound k <> COMPOUND_WEDGE) /\ kCompound k <> COMPOUND_INTRA /\ kCompound k <> COMPOUND_DIFFWTD).
  { destruct ((kCompound k =? COMPOUND_WEDGE) && (plane =? 0)) eqn:EW; [destruct (wedgeMask_never _ M1)|]. split; [intros -> E; rewrite E in EW; discriminate EW|].
    destruct (Z.eqb_spec (kCompound k) COMPOUND_INTRA) as [EI|NI]; [destruct (Max h w =? 0); [discriminate M1|destruct (maskWrites_never w h Hw Hh _ M1)]|]. split; [exact NI|]. intros ED. rewrite ED in M1. exact (maskWrites_never w h Hw Hh _ M1). }
  split; [|split].
  - intros ->. split; [|apply MM; reflexivity]. intros E. rewrite E in W1. exact (warpEstimation_never _ W1).
  - intros [E|[E|[E|[]]]]; symmetry in E; tauto.
  - intros II. rewrite II, andb_false_r in B1. destruct (Z.eqb_spec (kCompound k) COMPOUND_AVERAGE) as [EA|NA]; [exact EA|]. exfalso. apply rbind_inv in B1 as (u & B1 & _). revert B1. apply never_loop; [lia|]. apply never_loop; [lia|]. apply never_bind1, idx2_nil.
Qed.
Print Assumptions C143_only_single_refuted.
(** Nor is a block of at least 8x8 predicted with a valid global warp, or, in chroma, with a valid local one. *)
Theorem C143_warp_refuted : forall e k plane x y w h candRow candCol f refFrame t params alpha beta gamma delta, 8 <= w -> 8 <= h -> pForceInt e = false ->
  idx3 (pRefFrames e) candRow candCol 0 = Ok refFrame -> idx (pGmType e) refFrame = Ok t -> idx (pGm e) refFrame = Ok params -> setupShear params = Ok (true, alpha, beta, gamma, delta) ->
  (In (kYMode k) [GLOBALMV; GLOBAL_GLOBALMV] /\ TRANSLATION < t /\ isScaled e refFrame = Ok false) \/ (kMotion k = LOCALWARP /\ kLocalValid k = true) ->
  forall f', predictInter e k plane x y w h candRow candCol f <> Ok f'.
Proof.
  intros e k plane x y w h cr cc f rf t ps al be ga de Hw Hh HF Er Et Ep Es HC f' H. unfold predictInter in H. apply rbind_inv in H as (second & E2 & H).
  destruct (roundVariables (INTRA_FRAME <? second) (pBd e)) as [r0 r1]. apply rbind_inv in H as (u1 & W1 & H). apply rbind_inv in H as (lv & W2 & H). apply rbind_inv in H as (preds & P0 & _).
  assert (W0 : 1 <= w) by lia. assert (H0 : 1 <= h) by lia. destruct (predictOne_inv _ _ _ _ _ _ _ _ _ _ _ _ _ _ W0 H0 P0) as (_ & rf' & gv & Er' & Eg & Eu). rewrite Er in Er'. injection Er' as <-.
  unfold useWarpOf in Eu. rewrite HF in Eu. destruct (Z.ltb_spec w 8); [lia|]. destruct (Z.ltb_spec h 8); [lia|]. cbn [orb] in Eu.
  destruct ((kMotion k =? LOCALWARP) && lv) eqn:EL; [discriminate Eu|]. destruct HC as [(HY & HT & HS)|(HM & HV)].
  - assert (GV : gv = true).
    { unfold globalValidOf in Eg. destruct (Z.eqb_spec (kYMode k) GLOBALMV).
      - cbn [rbind] in Eg. rewrite Ep in Eg. cbn [rbind] in Eg. rewrite Es in Eg. cbn [rbind] in Eg. congruence.
      - destruct (Z.eqb_spec (kYMode k) GLOBAL_GLOBALMV); [|destruct HY as [?|[?|[]]]; congruence]. rewrite Et in Eg. cbn [rbind] in Eg. destruct (Z.ltb_spec TRANSLATION t); [|lia]. rewrite Ep in Eg. cbn [rbind] in Eg. rewrite Es in Eg. cbn [rbind] in Eg. congruence. }
    assert (YY : (kYMode k =? GLOBALMV) || (kYMode k =? GLOBAL_GLOBALMV) = true) by (destruct HY as [<-|[<-|[]]]; reflexivity). rewrite YY in Eu. rewrite Et in Eu. cbn [rbind] in Eu. destruct (Z.ltb_spec TRANSLATION t); [|lia]. rewrite HS, GV in Eu. discriminate Eu.
  - rewrite HM in *. rewrite Z.eqb_refl in *. cbn [andb] in *. rewrite andb_true_r in W1, W2. destruct (plane =? 0); cbn [andb] in *; [exact (warpEstimation_never _ W1)|]. injection W2 as <-. congruence.
Qed.
Print Assumptions C143_warp_refuted.
Definition demoKEnv (motion ymode : Z) : KEnv := mkKEnv motion false [0; 0; 2 ^ 16; 0; 0; 2 ^ 16] ymode 0 COMPOUND_AVERAGE false 0 BLOCK_8X8 2 2 16 16 true true (repeat (repeat BLOCK_8X8 64) 64).
(** The plain case is met, and so are the hypotheses about warps *)
Definition warpEnv : PEnv :=
  mkPEnv (repeat 16 8) (repeat 16 8) 16 16 [0; 1; 2; 3; 4; 5; 6] false (repeat [0; 0; 2 ^ 16; 0; 0; 2 ^ 16] 8) (repeat 2 8) (repeat (repeat [1; -1] 64) 64) [1; -1] (repeat (repeat [(0, 0); (0, 0)] 64) 64) (repeat (repeat [1; 2] 2) 2) (repeat slope 8) true true 8.
Example C143_example : (exists f', predictInter slopeEnv (demoKEnv 0 13) 0 8 8 8 8 1 1 slope = Ok f') /\ isScaled warpEnv 1 = Ok false /\ setupShear [0; 0; 2 ^ 16; 0; 0; 2 ^ 16] = Ok (true, 0, 0, 0, 0) /\ predictInter warpEnv (demoKEnv 0 GLOBALMV) 0 8 8 8 8 1 1 slope = Panic.
Proof. split; [eexists; vm_compute; reflexivity|]. vm_compute. auto. Qed.

(** ** C145: what a prediction writes *)
Theorem C145_diagonal_refuted : forall e k plane x y w h candRow candCol f f', 1 <= w -> 2 <= pBd e -> kInterIntra k = false -> kMotion k <> OBMC -> (1 <= h) ->
  predictInter e k plane x y w h candRow candCol f = Ok f' ->
  forall p r c, idx3 f' p r c = if (p =? plane) && (y <=? r) && (r <? y + h) && (c =? x + (r - y)) then Ok 2 else idx3 f p r c.
Proof.
  intros e k plane x y w h cr cc f f' Hw Hbd II HO Hh H p r c. pose proof (C143_only_single_refuted _ _ _ _ _ _ _ _ _ _ _ Hw Hh H) as ((second & E2 & SC) & _).
  unfold predictInter in H. rewrite E2 in H. cbn [rbind] in H. destruct (Z.ltb_spec INTRA_FRAME second); [lia|]. destruct (roundVariables false (pBd e)) as [r0 r1].
  apply rbind_inv in H as (u1 & _ & H). apply rbind_inv in H as (lv & _ & H). apply rbind_inv in H as (preds & _ & H). apply rbind_inv in H as (u2 & _ & H). apply rbind_inv in H as (u3 & _ & H). apply rbind_inv in H as (u4 & _ & H). apply rbind_inv in H as (f1 & B1 & H).
  rewrite II in B1. cbn [negb andb] in B1. destruct (Z.eqb_spec (kMotion k) OBMC); [contradiction|]. injection H as <-.
  assert (W : writes get3 (fun _ : Z * Z * Z => Ok 2) (fun q => exists i, 0 <= i < h /\ q = (plane, y + i, x + i)) f f1).
  { refine (writes_loop get3 (fun _ : Z * Z * Z => Ok 2) 0 h _ (fun i q => q = (plane, y + i, x + i)) f f1 _ _ B1).
    - intros. apply decided_eq3.
    - intros i g g1 Hi Hg. 
      assert (W1 : writes get3 (fun _ : Z * Z * Z => Ok 2) (fun q => exists j, 0 <= j < w /\ q = (plane, y + i, x + i)) g g1).
      { refine (writes_loop get3 (fun _ : Z * Z * Z => Ok 2) 0 w _ (fun j q => q = (plane, y + i, x + i)) g g1 _ _ Hg).
        - intros. apply decided_eq3.
        - intros j g2 g3 Hj Hg2. apply rbind_inv in Hg2 as (v & _ & Hg2). rewrite UpscaleProofs.Clip1_two in Hg2 by lia. exact (writes_upd3 (fun _ => Ok 2) plane (y + i) (x + i) 2 g2 g3 eq_refl Hg2). }
      eapply writes_ext; [|exact W1]. intros q. split; [intros (j & _ & E); exact E|intros E; exists 0; split; [lia|exact E]]. }
  destruct W as [W1 W2]. destruct ((p =? plane) && (y <=? r) && (r <? y + h) && (c =? x + (r - y))) eqn:EB.
  - rewrite !andb_true_iff in EB. destruct EB as (((E1 & E3) & E4) & E5). apply Z.eqb_eq in E1, E5. apply Z.leb_le in E3. apply Z.ltb_lt in E4. destruct (W1 (p, r, c)) as (v & [= <-] & E); [|exact E]. exists (r - y). split; [lia|]. subst. repeat f_equal; lia.
  - apply (W2 (p, r, c)). intros (i & Hi & [= -> -> ->]). revert EB. rewrite Z.eqb_refl. replace (y <=? y + i) with true by (symmetry; apply Z.leb_le; lia). replace (y + i <? y + h) with true by (symmetry; apply Z.ltb_lt; lia). replace (x + i =? x + (y + i - y)) with true by (symmetry; apply Z.eqb_eq; lia). discriminate.
Qed.
Print Assumptions C145_diagonal_refuted.
(** A prediction does not touch samples outside of its block, if that is not higher than wide; nor other planes. *)
Theorem C145_within_block_partial : forall e k plane x y w h candRow candCol f f', 1 <= w -> 1 <= h <= w -> 2 <= pBd e -> kInterIntra k = false -> kMotion k <> OBMC ->
  predictInter e k plane x y w h candRow candCol f = Ok f' -> forall p r c, ~ (p = plane /\ y <= r < y + h /\ x <= c < x + w) -> idx3 f' p r c = idx3 f p r c.
Proof.
  intros e k plane x y w h cr cc f f' Hw Hh Hbd II HO H p r c N. rewrite (C145_diagonal_refuted _ _ _ _ _ _ _ _ _ _ _ Hw Hbd II HO (proj1 Hh) H).
  destruct ((p =? plane) && (y <=? r) && (r <? y + h) && (c =? x + (r - y))) eqn:EB; [|reflexivity]. exfalso. rewrite !andb_true_iff in EB. destruct EB as (((E1 & E3) & E4) & E5). apply Z.eqb_eq in E1, E5. apply Z.leb_le in E3. apply Z.ltb_lt in E4. apply N. lia.
Qed.
Print Assumptions C145_within_block_partial.
Example C145_example : exists f', predictInter slopeEnv (demoKEnv 0 13) 0 8 8 8 8 1 1 slope = Ok f' /\ idx3 f' 0 11 11 = Ok 2 /\ idx3 f' 0 11 12 = idx3 slope 0 11 12.
Proof. eexists. split; [vm_compute; reflexivity|]. vm_compute. auto. Qed.

(** ** C144: overlapped prediction *)
Section Update.
  Variables (p Y X : Z) (F : Z -> Z -> Z -> res Z).
  Lemma update_row i w g g' : 0 <= w -> rfor_to 0 w (fun j g => let! c := idx3 g p (Y + i) (X + j) in let! v := F i j c in upd3 g p (Y + i) (X + j) v) g = Ok g' ->
    (forall j, 0 <= j < w -> exists c v, idx3 g p (Y + i) (X + j) = Ok c /\ F i j c = Ok v /\ idx3 g' p (Y + i) (X + j) = Ok v) /\
    (forall q r c, ~ (q = p /\ r = Y + i /\ X <= c < X + w) -> idx3 g' q r c = idx3 g q r c).
  Proof.
    intros Hw. unfold rfor_to.
    assert (I : forall g', rfor_from (Z.to_nat (w - 0)) 0 (fun j g => let! c := idx3 g p (Y + i) (X + j) in let! v := F i j c in upd3 g p (Y + i) (X + j) v) g = Ok g' ->
      (fun m g' => (forall j, 0 <= j < m -> exists c v, idx3 g p (Y + i) (X + j) = Ok c /\ F i j c = Ok v /\ idx3 g' p (Y + i) (X + j) = Ok v) /\
      (forall q r c, ~ (q = p /\ r = Y + i /\ X <= c < X + m) -> idx3 g' q r c = idx3 g q r c)) (0 + Z.of_nat (Z.to_nat (w - 0))) g').
    { intros g1. apply (rfor_from_post (fun m g' => (forall j, 0 <= j < m -> exists c v, idx3 g p (Y + i) (X + j) = Ok c /\ F i j c = Ok v /\ idx3 g' p (Y + i) (X + j) = Ok v) /\
      (forall q r c, ~ (q = p /\ r = Y + i /\ X <= c < X + m) -> idx3 g' q r c = idx3 g q r c))).
      - split; [lia|reflexivity].
      - intros m a a1 Hm [P Q] H. apply rbind_inv in H as (c & Ec & H). apply rbind_inv in H as (v & Ev & H). split.
        + intros j Hj. destruct (Z.eq_dec j m) as [->|N].
          * exists c, v. split; [rewrite <- Q; [exact Ec|lia]|]. split; [exact Ev|exact (idx3_upd3_same _ _ _ _ _ _ H)].
          * destruct (P j ltac:(lia)) as (c' & u & Eg & Eu & Iu). exists c', u. split; [exact Eg|]. split; [exact Eu|]. rewrite (idx3_upd3_other _ _ _ _ _ _ _ _ _ H); [exact Iu|]. intros [= ]; lia.
        + intros q r c' N. rewrite (idx3_upd3_other _ _ _ _ _ _ _ _ _ H); [apply Q; lia|]. intros [= ]; apply N; lia. }
    intros H. apply I in H. cbv beta in H. replace (0 + Z.of_nat (Z.to_nat (w - 0))) with w in H by lia. exact H.
  Qed.
  Lemma update_rect h w g g' : 0 <= h -> 0 <= w -> rfor_to 0 h (fun i g => rfor_to 0 w (fun j g => let! c := idx3 g p (Y + i) (X + j) in let! v := F i j c in upd3 g p (Y + i) (X + j) v) g) g = Ok g' ->
    (forall i j, 0 <= i < h -> 0 <= j < w -> exists c v, idx3 g p (Y + i) (X + j) = Ok c /\ F i j c = Ok v /\ idx3 g' p (Y + i) (X + j) = Ok v) /\
    (forall q r c, ~ (q = p /\ Y <= r < Y + h /\ X <= c < X + w) -> idx3 g' q r c = idx3 g q r c).
  Proof.
    intros Hh Hw. unfold rfor_to at 1.
    assert (I : forall g', rfor_from (Z.to_nat (h - 0)) 0 (fun i g => rfor_to 0 w (fun j g => let! c := idx3 g p (Y + i) (X + j) in let! v := F i j c in upd3 g p (Y + i) (X + j) v) g) g = Ok g' ->
      (fun m g' => (forall i j, 0 <= i < m -> 0 <= j < w -> exists c v, idx3 g p (Y + i) (X + j) = Ok c /\ F i j c = Ok v /\ idx3 g' p (Y + i) (X + j) = Ok v) /\
      (forall q r c, ~ (q = p /\ Y <= r < Y + m /\ X <= c < X + w) -> idx3 g' q r c = idx3 g q r c)) (0 + Z.of_nat (Z.to_nat (h - 0))) g').
    { intros g1. apply (rfor_from_post (fun m g' => (forall i j, 0 <= i < m -> 0 <= j < w -> exists c v, idx3 g p (Y + i) (X + j) = Ok c /\ F i j c = Ok v /\ idx3 g' p (Y + i) (X + j) = Ok v) /\
      (forall q r c, ~ (q = p /\ Y <= r < Y + m /\ X <= c < X + w) -> idx3 g' q r c = idx3 g q r c))).
      - split; [lia|reflexivity].
      - intros m a a1 Hm [P Q] H. destruct (update_row m w a a1 Hw H) as [P1 Q1]. split.
        + intros i j Hi Hj. destruct (Z.eq_dec i m) as [->|N].
          * destruct (P1 j Hj) as (c & v & E1 & E2 & E3). exists c, v. split; [rewrite <- Q; [exact E1|lia]|auto].
          * destruct (P i j ltac:(lia) Hj) as (c & v & E1 & E2 & E3). exists c, v. split; [exact E1|]. split; [exact E2|]. rewrite Q1 by lia. exact E3.
        + intros q r c N. rewrite Q1 by lia. apply Q. lia. }
    intros H. apply I in H. cbv beta in H. replace (0 + Z.of_nat (Z.to_nat (h - 0))) with h in H by lia. exact H.
  Qed.
End Update.
Lemma loop_ext {A} n (f g : Z -> A -> res A) : (forall j a, f j a = g j a) -> forall i a, rfor_from n i f a = rfor_from n i g a.
Proof. intros H. induction n as [|n IH]; intros i a; cbn [rfor_from]; [reflexivity|]. rewrite H. destruct (g i a); cbn [rbind]; auto. Qed.
(** The blend: the weight of the block's own sample comes from the row (pass 0) or the column (pass 1) *)
Definition weight_at (pass : bool) (mask : list Z) (i j : Z) : res Z := if pass then idx mask j else idx mask i.
Theorem C144_blend : forall plane X Y w h pass pred mask f f', 0 <= w -> 0 <= h -> all_samples (fun v => 0 <= v < 2 ^ 16) f -> Forall (fun m => 0 <= m <= 64) mask -> Forall (Forall (fun v => 0 <= v < 2 ^ 16)) pred ->
  overlapBlending plane X Y w h pass pred mask f = Ok f' ->
  (forall i j, 0 <= i < h -> 0 <= j < w -> exists m c o v, weight_at pass mask i j = Ok m /\ idx3 f plane (Y + i) (X + j) = Ok c /\ idx2 pred i j = Ok o /\ idx3 f' plane (Y + i) (X + j) = Ok v /\
     v = round_up (m * c + (64 - m) * o) 6 /\ Z.min c o <= v <= Z.max c o) /\
  (forall p r c, ~ (p = plane /\ Y <= r < Y + h /\ X <= c < X + w) -> idx3 f' p r c = idx3 f p r c).
Proof.
  intros plane X Y w h pass pred mask f f' Hw Hh BF BM BP H.
  assert (E : rfor_to 0 h (fun i g => rfor_to 0 w (fun j g => let! c := idx3 g plane (Y + i) (X + j) in
    let! v := (fun i j c => let! m := weight_at pass mask i j in let! o := idx2 pred i j in Round2 (m * c + (64 - m) * o) 6) i j c in upd3 g plane (Y + i) (X + j) v) g) f = Ok f').
  { rewrite <- H. unfold overlapBlending, rfor_to. apply loop_ext. intros i a. apply loop_ext. intros j b. unfold weight_at. destruct pass; cbn [negb].
    - pose proof (idx_nh mask j) as N1. pose proof (idx3_nh b plane (Y + i) (X + j)) as N2. destruct (idx mask j) as [m| |], (idx3 b plane (Y + i) (X + j)) as [c| |]; cbn [rbind]; try congruence. destruct (idx2 pred i j); reflexivity.
    - pose proof (idx_nh mask i) as N1. pose proof (idx3_nh b plane (Y + i) (X + j)) as N2. destruct (idx mask i) as [m| |], (idx3 b plane (Y + i) (X + j)) as [c| |]; cbn [rbind]; try congruence. destruct (idx2 pred i j); reflexivity. }
  apply update_rect in E as [P Q]; [|exact Hh|exact Hw]. split; [|exact Q].
  intros i j Hi Hj. destruct (P i j Hi Hj) as (c & v & Ec & Ev & Ei). apply rbind_inv in Ev as (m & Em & Ev). apply rbind_inv in Ev as (o & Eo & Ev).
  assert (MB : 0 <= m <= 64) by (unfold weight_at in Em; destruct pass; exact (idx_Forall _ _ _ _ BM Em)). pose proof (idx3_Forall _ _ _ _ _ _ BF Ec) as CB. pose proof (idx2_Forall _ _ _ _ _ BP Eo) as OB. cbv beta in CB, OB.
  rewrite round_up_eq in Ev by (clear - MB CB OB; nia). injection Ev as <-. exists m, c, o, (round_up (m * c + (64 - m) * o) 6). repeat split; auto.
  - unfold round_up. cbn [Z.eqb]. change (2 ^ (6 - 1)) with 32. change (2 ^ 6) with 64. apply Z.div_le_lower_bound; [lia|]. clear - MB. nia.
  - unfold round_up. cbn [Z.eqb]. change (2 ^ (6 - 1)) with 32. change (2 ^ 6) with 64. assert ((m * c + (64 - m) * o + 32) / 64 < Z.max c o + 1); [|lia]. apply Z.div_lt_upper_bound; [lia|]. clear - MB. nia.
Qed.
Print Assumptions C144_blend.
Example C144_example : exists f', overlapBlending 0 4 4 4 4 true (repeat (repeat 100 16) 16) (GetObmcMask 4) slope = Ok f' /\ idx3 slope 0 5 4 = Ok 35 /\ idx3 f' 0 5 4 = Ok 60 /\ idx3 f' 0 5 7 = idx3 slope 0 5 7.
Proof. eexists. split; [vm_compute; reflexivity|]. vm_compute. auto. Qed.
Definition good_maskb (m : list Z) : bool := forallb (fun v => (32 <=? v) && (v <=? 64)) m && forallb (fun i => forallb (fun j => negb (Nat.leb i j) || (nth i m 0 <=? nth j m 0)) (seq 0 (length m))) (seq 0 (length m)) && (last m 0 =? 64).
Lemma good_maskb_ok m : good_maskb m = true -> good_mask m.
Proof.
  unfold good_maskb, good_mask. rewrite !andb_true_iff. intros [[H1 H2] H3]. split; [|split; [|apply Z.eqb_eq, H3]].
  - apply Forall_forall. intros v Hv. rewrite forallb_forall in H1. specialize (H1 v Hv). apply andb_prop in H1 as [A B]. apply Z.leb_le in A, B. lia.
  - intros i j a b Hij Ea Eb. assert (Li : (i < length m)%nat) by (apply nth_error_Some; congruence). assert (Lj : (j < length m)%nat) by (apply nth_error_Some; congruence).
    rewrite forallb_forall in H2. specialize (H2 i ltac:(apply in_seq; lia)). rewrite forallb_forall in H2. specialize (H2 j ltac:(apply in_seq; lia)).
    apply Nat.leb_le in Hij. rewrite Hij in H2. cbn [negb orb] in H2. apply Z.leb_le in H2. rewrite (nth_error_nth _ _ 0 Ea), (nth_error_nth _ _ 0 Eb) in H2. exact H2.
Qed.
(** The weights for sides of 2 to 16 are sound; those for 32 begin with 3 of 64. *)
Theorem C144_masks_partial : forall n, In n [2; 4; 8; 16] -> zlen (GetObmcMask n) = n /\ good_mask (GetObmcMask n).
Proof. intros n H. cbn in H. destruct H as [<-|[<-|[<-|[<-|[]]]]]; (split; [reflexivity|apply good_maskb_ok; vm_compute; reflexivity]). Qed.
Print Assumptions C144_masks_partial.
Theorem C144_mask32_refuted : zlen (GetObmcMask 32) = 32 /\ ~ good_mask (GetObmcMask 32) /\ idx (GetObmcMask 32) 0 = Ok 3.
Proof. split; [reflexivity|]. split; [|reflexivity]. intros (H & _). inversion H. lia. Qed.
Print Assumptions C144_mask32_refuted.
(** Blending with the block to the left weighs rows: columns that agree before still agree after it, however far from the edge they are. *)
Definition rows_even (plane X n : Z) (f : frame) : Prop := forall r c c' v v', X <= c < X + n -> X <= c' < X + n -> idx3 f plane r c = Ok v -> idx3 f plane r c' = Ok v' -> v = v'.
Lemma overlapOne_even e r0 r1 plane x4 y4 w h cr cc mask f f' : 2 <= pBd e -> 0 <= w -> 0 <= h -> rows_even plane (shr (x4 * 4) (subx e plane)) w f ->
  overlapOne e r0 r1 plane x4 y4 w h cr cc false mask f = Ok f' -> rows_even plane (shr (x4 * 4) (subx e plane)) w f'.
Proof.
  intros Hbd Hw Hh HE H. unfold overlapOne in H. apply rbind_inv in H as (mv & _ & H). apply rbind_inv in H as (rf & _ & H). apply rbind_inv in H as (ri & _ & H). apply rbind_inv in H as ([[[a b] c0] d] & _ & H). apply rbind_inv in H as (o & _ & H). apply rbind_inv in H as (o' & HO & H).
  set (X := shr (x4 * 4) (subx e plane)) in *. set (Y := shr (y4 * 4) (suby e plane)) in *. clearbody X Y.
  assert (O2 : forall i j u, 0 <= i < h -> 0 <= j < w -> idx2 o' i j = Ok u -> u = 2).
  { assert (W : writes get2 (fun _ : Z * Z => Ok 2) (fun q => exists i, 0 <= i < h /\ exists j, 0 <= j < w /\ q = (i, j)) o o').
    { refine (writes_loop get2 (fun _ : Z * Z => Ok 2) 0 h _ (fun i q => exists j, 0 <= j < w /\ q = (i, j)) o o' _ _ HO).
      - intros i Hi. apply (decided_range 0 w (fun j q => q = (i, j))). intros. apply decided_eq2.
      - intros i g g1 Hi Hg. refine (writes_loop get2 (fun _ : Z * Z => Ok 2) 0 w _ (fun j q => q = (i, j)) g g1 _ _ Hg).
        + intros. apply decided_eq2.
        + intros j g2 g3 Hj Hg2. apply rbind_inv in Hg2 as (v & _ & Hg2). rewrite UpscaleProofs.Clip1_two in Hg2 by lia. exact (writes_upd2 (fun _ => Ok 2) i j 2 g2 g3 eq_refl Hg2). }
    intros i j u Hi Hj Hu. destruct W as [W _]. destruct (W (i, j)) as (v & [= <-] & E); [exists i; split; [exact Hi|]; exists j; auto|]. cbn in E. unfold get2 in E. cbn [fst snd] in E. congruence. }
  assert (E : rfor_to 0 h (fun i g => rfor_to 0 w (fun j g => let! c := idx3 g plane (Y + i) (X + j) in
    let! v := (fun i j c => let! m := idx mask i in let! o := idx2 o' i j in Round2 (m * c + (64 - m) * o) 6) i j c in upd3 g plane (Y + i) (X + j) v) g) f = Ok f').
  { rewrite <- H. unfold overlapBlending, rfor_to. apply loop_ext. intros i g. apply loop_ext. intros j g'. cbn [negb].
    pose proof (idx_nh mask i) as N1. pose proof (idx3_nh g' plane (Y + i) (X + j)) as N2. destruct (idx mask i) as [m| |], (idx3 g' plane (Y + i) (X + j)) as [c| |]; cbn [rbind]; try congruence. destruct (idx2 o' i j); reflexivity. }
  apply update_rect in E as [P Q]; [|exact Hh|exact Hw]. intros r c c' v v' Hc Hc' Ev Ev'.
  destruct (Z_le_dec Y r) as [L1|L1]; [destruct (Z_lt_dec r (Y + h)) as [L2|L2]|].
  - destruct (P (r - Y) (c - X) ltac:(lia) ltac:(lia)) as (k & u & Ek & Eu & Ei). destruct (P (r - Y) (c' - X) ltac:(lia) ltac:(lia)) as (k' & u' & Ek' & Eu' & Ei').
    replace (Y + (r - Y)) with r in * by lia. replace (X + (c - X)) with c in * by lia. replace (X + (c' - X)) with c' in * by lia. rewrite Ev in Ei. rewrite Ev' in Ei'. injection Ei as <-. injection Ei' as <-.
    assert (KK : k = k') by exact (HE r c c' k k' Hc Hc' Ek Ek'). subst k'. apply rbind_inv in Eu as (m & Em & Eu). apply rbind_inv in Eu as (o1 & Eo1 & Eu). apply rbind_inv in Eu' as (m' & Em' & Eu'). apply rbind_inv in Eu' as (o2 & Eo2 & Eu').
    rewrite Em in Em'. injection Em' as <-. rewrite (O2 (r - Y) (c - X) o1 ltac:(lia) ltac:(lia) Eo1) in Eu. rewrite (O2 (r - Y) (c' - X) o2 ltac:(lia) ltac:(lia) Eo2) in Eu'. congruence.
  - rewrite Q in Ev, Ev' by lia. exact (HE r c c' v v' Hc Hc' Ev Ev').
  - rewrite Q in Ev, Ev' by lia. exact (HE r c c' v v' Hc Hc' Ev Ev').
Qed.
Lemma clip_step n : 2 <= Clip3 2 16 n <= 16. Proof. unfold Clip3. destruct (Z.ltb_spec n 2); [lia|]. destruct (Z.ltb_spec 16 n); lia. Qed.
Theorem C144_left_by_row_refuted : forall e k r0 r1 plane w h f f', 2 <= pBd e -> 0 <= w -> 0 <= h -> kAvailU k = false -> kAvailL k = true ->
  let X := shr (kCol k * 4) (subx e plane) in let n := Z.min (w / 2) (32 / 2 ^ subx e plane) in
  rows_even plane X n f -> overlapped e k r0 r1 plane w h f = Ok f' -> rows_even plane X n f'.
Proof.
  intros e k r0 r1 plane w h f f' Hbd Hw Hh HU HL X n HE H. unfold overlapped in H. rewrite HU, HL in H. cbn [rbind] in H. apply rbind_inv in H as (h4 & _ & H). apply rbind_inv in H as (l & _ & H).
  revert H. generalize 33%nat as fuel. generalize (kRow k) at 1 as y4. generalize 0 as nc. intros nc y4 fuel. revert nc y4 f HE. 
  assert (S0 : 0 <= subx e plane /\ 0 <= suby e plane) by (unfold subx, suby; destruct (plane =? 0), (pSubX e), (pSubY e); cbn; lia).
  assert (EN : Min (shr w 1) (shr 32 (subx e plane)) = n) by (unfold n, Min; rewrite !shr_div by lia; change (2 ^ 1) with 2; destruct (Z.leb_spec (w / 2) (32 / 2 ^ subx e plane)); lia).
  assert (N0 : 0 <= n) by (unfold n; pose proof (Z.div_pos w 2 ltac:(lia) ltac:(lia)); pose proof (Z.div_pos 32 (2 ^ subx e plane) ltac:(lia) (Z.pow_pos_nonneg 2 (subx e plane) ltac:(lia) ltac:(lia))); lia).
  induction fuel as [|fuel IH]; intros nc y4 f HE H; cbn [overlapLeft] in H; [discriminate H|].
  destruct ((nc <? Min 4 l) && (y4 <? Min (kRows k) (kRow k + h4))); [|injection H as <-; exact HE].
  apply rbind_inv in H as (sz & _ & H). apply rbind_inv in H as (n4 & _ & H). apply rbind_inv in H as (rf & _ & H). destruct (INTRA_FRAME <? rf); [|exact (IH _ _ _ HE H)].
  rewrite EN in H. apply rbind_inv in H as (f1 & E1 & H). refine (IH _ _ _ _ H). 
  apply (overlapOne_even e r0 r1 plane (kCol k) y4 n (Min h (shr (Clip3 2 16 n4 * MI_SIZE) (suby e plane))) _ _ _ f f1 Hbd N0) in E1; [exact E1| |exact HE].
  unfold Min. rewrite shr_div by lia. pose proof (clip_step n4). change MI_SIZE with 4. pose proof (Z.div_pos (Clip3 2 16 n4 * 4) (2 ^ suby e plane) ltac:(lia) (Z.pow_pos_nonneg 2 (suby e plane) ltac:(lia) ltac:(lia))). destruct (h <=? _); lia.
Qed.
Print Assumptions C144_left_by_row_refuted.
(** Eight columns and four rows at column 4, row 8 of a picture of 200s; the neighbour to the left is predicted as 2s.  By the standard the weight depends on the column: column 4 is weighed 39/64 and column 7 keeps 62/64. *)
Example C144_left_example : exists f',
  overlapped (mkPEnv (repeat 16 8) (repeat 16 8) 16 16 [0; 1; 2; 3; 4; 5; 6] false [] [] (repeat (repeat [1; -1] 64) 64) [1; -1] (repeat (repeat [(0, 0); (0, 0)] 64) 64) (repeat (repeat [1; 2] 2) 4) (repeat slope 8) true true 8)
    (mkKEnv OBMC false [] 13 0 COMPOUND_AVERAGE false 0 BLOCK_8X8 2 1 16 16 false true (repeat (repeat BLOCK_8X8 64) 64)) 3 11 0 8 4 (repeat (repeat (repeat 200 16) 16) 3) = Ok f' /\ idx3 f' 0 8 4 = Ok 123 /\ idx3 f' 0 8 7 = Ok 123 /\ idx3 f' 0 11 4 = Ok 200.
Proof. eexists. split; [vm_compute; reflexivity|]. vm_compute. auto. Qed.
