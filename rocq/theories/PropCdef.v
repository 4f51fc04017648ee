(** C39 (CDEF) and C67 (CDEF direction search). *)
From Verif Require Import GoBase Bitstream Util UtilProofs Constants Tables Frame Cdef SpecFilter LoopFilterProofs SpecCdef CdefProofs CdefDirProofs CdefFrameProofs.

(** C67: for every 8x8 block of readable luma samples the search returns the first direction whose lines explain the block best,
    and the lead over the perpendicular direction. *)
Theorem C67_direction : forall e f r c X, 8 <= cBitDepth e -> 0 <= r < 2 ^ 32 -> 0 <= c < 2 ^ 32 ->
  (forall i j, 0 <= i < 8 -> 0 <= j < 8 -> exists s, idx3 f 0 (4 * r + i) (4 * c + j) = Ok s /\ X i j = s / 2 ^ (cBitDepth e - 8) - 128) ->
  exists d, cdefDirection e f r c = Ok (d, (direction_cost X d - direction_cost X ((d + 4) mod 8)) / 1024) /\
    0 <= d < 8 /\ (forall i, 0 <= i < 8 -> direction_cost X i <= direction_cost X d) /\ (forall i, 0 <= i < d -> direction_cost X i < direction_cost X d).
Proof. intros. apply direction_ok; assumption. Qed.
Print Assumptions C67_direction.
(** The lead is never negative, and small enough for the strength adjustment, for samples in the range of the bit depth. *)
Theorem C67_variance_range : forall e f r c d var, 8 <= cBitDepth e <= 16 -> 0 <= r < 2 ^ 32 -> 0 <= c < 2 ^ 32 -> all_samples (sample (cBitDepth e)) f ->
  cdefDirection e f r c = Ok (d, var) -> 0 <= d < 8 /\ 0 <= var < 2 ^ 30.
Proof. intros e f r c d var Hb Hr Hc HA H. apply direction_var in H as [F V]; try assumption. split; [|exact V]. destruct F as (X & _ & Hd & _). exact Hd. Qed.
Print Assumptions C67_variance_range.
(** a block with vertical stripes: direction 6 (down); one with diagonal ones: direction 0 (up-right) *)
Definition stripes (g : Z -> Z -> Z) : frame := [map (fun i => map (g i) [0;1;2;3;4;5;6;7]) [0;1;2;3;4;5;6;7]].
Definition cenv (planes : Z) (yp ys up us : Z) : CEnv := mkCEnv 8 planes false false 2 2 (repeat (repeat 0 16) 16) (repeat (repeat 0 2) 2) 3 [yp] [ys] [up] [us].
Example C67_case : cdefDirection (cenv 1 0 0 0 0) (stripes (fun _ j => 40 * (j mod 3))) 0 0 = Ok (6, 51187) /\ cdefDirection (cenv 1 0 0 0 0) (stripes (fun i j => 40 * ((i + j) mod 3))) 0 0 = Ok (0, 55125).
Proof. split; vm_compute; reflexivity. Qed.

(** C39.  Every sample of the result was in the frame before or lies between two input samples at most two rows and columns away. *)
Theorem C39_between_taps : forall e f g g', cdefProcess e f g = Ok g' -> forall plane y x v, idx3 g' plane y x = Ok v ->
  idx3 g plane y x = Ok v \/
  exists y1 x1 lo y2 x2 hi, Z.abs (y1 - y) <= 2 /\ Z.abs (x1 - x) <= 2 /\ Z.abs (y2 - y) <= 2 /\ Z.abs (x2 - x) <= 2 /\
    idx3 f plane y1 x1 = Ok lo /\ idx3 f plane y2 x2 = Ok hi /\ lo <= v <= hi.
Proof. intros e f g g' H plane y x v Hv. exact (process_Qb e f g g' H plane y x v Hv). Qed.
Print Assumptions C39_between_taps.

(** It always ends, for strengths a header can code and samples in the range of the bit depth. *)
Theorem C39_terminates : forall e f g, strengths_ok e -> cMiRows e < 2 ^ 32 -> cMiCols e < 2 ^ 32 -> all_samples (sample (cBitDepth e)) f -> cdefProcess e f g <> Hang.
Proof. exact process_nh. Qed.
Print Assumptions C39_terminates.

(** How far one tap can pull: at most its difference, in its direction, and at most the strength. *)
Theorem C39_constrain : forall diff str damping, 0 <= str < 2 ^ 62 -> - 2 ^ 62 <= diff <= 2 ^ 62 -> exists v, constrain diff str damping = Ok v /\ v = constrain_spec diff str damping /\
  Z.abs v <= Z.abs diff /\ 0 <= v * diff /\ Z.abs v <= str.
Proof.
  intros diff str damping Hs Hd. eexists. split; [apply constrain_ok; assumption|]. split; [reflexivity|]. pose proof (constrain_spec_range diff str damping) as (A & B & C). repeat split; auto. apply C. lia.
Qed.
Print Assumptions C39_constrain.
Example C39_constrain_case : constrain 3 4 3 = Ok 3 /\ constrain (-6) 4 3 = Ok (-1) /\ constrain 9 4 3 = Ok 0.
Proof. repeat split; vm_compute; reflexivity. Qed.

(** The whole process computes, for every sample of every block of the frame, the specified result, except that it takes every primary strength for even and
    keeps the luma damping for chroma when the chroma primary strength is 0; everything outside the frame stays. *)
Theorem C39_process_partial : forall e f g, cdef_ready e f -> frame_covers e g -> exists g', cdefProcess e f g = Ok g' /\
  (forall r c ix plane y x, is_block e r c -> block_index e r c ix -> 0 <= plane < cNumPlanes e -> in_block e plane r c y x ->
     exists u v, idx3 f plane y x = Ok u /\ idx3 g' plane y x = Ok v /\ cdef_result (fun _ => false) (fun pri => if pri =? 0 then 0 else 1) e f plane r c y x u ix v) /\
  (forall plane y x, ~ (0 <= plane < cNumPlanes e /\ exists r c, is_block e r c /\ in_block e plane r c y x) -> idx3 g' plane y x = idx3 g plane y x).
Proof.
  intros e f g HR HG. destruct (process_ok e f g HR HG) as (g' & E & A & B & _). exists g'. split; [exact E|]. split; [|exact B].
  intros r c ix plane y x IB IX HP HB. exact (A r c IB ix plane y x IX HP HB).
Qed.
Print Assumptions C39_process_partial.

(** The specified result *)
Definition standard_result (e : CEnv) := cdef_result (odd_strength (cBitDepth e)) (fun _ => 1) e.
(** It is computed exactly when no luma primary strength is used and the chroma primary strengths are even and not 0 (or the frame is monochrome). *)
Theorem C39_standard_partial : forall e f g, cdef_ready e f -> frame_covers e g -> Forall (fun p => p = 0) (cYPri e) -> (cNumPlanes e = 1 \/ Forall (fun p => Z.Even p /\ p <> 0) (cUVPri e)) ->
  exists g', cdefProcess e f g = Ok g' /\
  (forall r c ix plane y x, is_block e r c -> block_index e r c ix -> 0 <= plane < cNumPlanes e -> in_block e plane r c y x ->
     exists u v, idx3 f plane y x = Ok u /\ idx3 g' plane y x = Ok v /\ standard_result e f plane r c y x u ix v).
Proof.
  intros e f g HR HG HY HU. destruct (C39_process_partial e f g HR HG) as (g' & E & A & _). exists g'. split; [exact E|].
  intros r c ix plane y x IB IX HP HB. destruct (A r c ix plane y x IB IX HP HB) as (u & v & Eu & Ev & R). exists u, v. split; [exact Eu|]. split; [exact Ev|].
  destruct R as [R|(NI & NS & d & var & pri & sec & F & EP & ES & R)]; [left; exact R|right]. split; [exact NI|]. split; [exact NS|]. exists d, var, pri, sec. split; [exact F|]. split; [exact EP|]. split; [exact ES|].
  cbv zeta in *. destruct HR as ((Hb & _) & _). pose proof (pow_bounds _ Hb) as PB. rewrite R. clear R Ev. destruct (Z.eqb_spec plane 0) as [->|NP].
  - pose proof (idx_Forall _ _ _ _ HY EP) as HP0. cbv beta in HP0. subst pri. rewrite Z.mul_0_l. assert (L : luma_strength 0 var = 0) by (unfold luma_strength; destruct (var =? 0); [reflexivity|]; rewrite Z.mul_0_l; reflexivity).
    rewrite L. unfold odd_strength. rewrite Z.div_0_l by lia. reflexivity.
  - destruct HU as [HU|HU]; [lia|]. pose proof (idx_Forall _ _ _ _ HU EP) as [HE HN]. cbv beta in HE, HN. destruct (Z.eqb_spec pri 0); [contradiction|].
    unfold odd_strength. rewrite Z.div_mul by lia. replace (Z.odd pri) with false; [reflexivity|]. symmetry. rewrite <- Z.negb_even. apply Z.even_spec in HE. rewrite HE. reflexivity.
Qed.
Print Assumptions C39_standard_partial.

Lemma zero_strength_value odd d damping u near : cdef_value odd d 0 0 damping u near = u.
Proof.
  unfold cdef_value. cbv zeta. set (taps := weighted_taps odd d 0 0).
  assert (Z0 : zsum (map (fun t => let '(off, w, str) := t in match near off with Some p => w * constrain_spec (p - u) str damping | None => 0 end) taps) = 0).
  { assert (F : Forall (fun t => snd t = 0) taps) by (unfold taps, weighted_taps; cbn [flat_map app]; repeat constructor).
    clearbody taps. unfold zsum. induction F as [|[[off w] s] l Hs F IH]; cbn [map fold_right]; [reflexivity|]. cbn in Hs. subst s. rewrite IH.
    destruct (near off); [|reflexivity]. unfold constrain_spec. change (0 =? 0) with true. cbv iota. rewrite Z.mul_0_r. reflexivity. }
  rewrite Z0. cbn [Z.ltb Z.compare]. change ((8 + 0 - 0) / 16) with 0. rewrite Z.add_0_r.
  set (l := flat_map _ taps). clearbody l. assert (A : u <= fold_right Z.max u l) by (clear; induction l as [|a l IH]; cbn [fold_right]; lia). assert (B : fold_right Z.min u l <= u) by (clear; induction l as [|a l IH]; cbn [fold_right]; lia). clear - A B. set (m := fold_right Z.min u l) in *. set (M := fold_right Z.max u l) in *. clearbody m M. lia.
Qed.
(** Strengths 0 leave every sample unchanged. *)
Theorem C39_zero_strength : forall e f g, cdef_ready e f -> frame_covers e g -> Forall (fun p => p = 0) (cYPri e ++ cYSec e ++ cUVPri e ++ cUVSec e) ->
  exists g', cdefProcess e f g = Ok g' /\ forall r c plane y x, is_block e r c -> 0 <= plane < cNumPlanes e -> in_block e plane r c y x -> idx3 g' plane y x = idx3 f plane y x.
Proof.
  intros e f g HR HG HZ. destruct (C39_process_partial e f g HR HG) as (g' & E & A & _). exists g'. split; [exact E|]. intros r c plane y x IB HP HB.
  destruct HR as (_ & _ & _ & _ & _ & _ & _ & _ & HT). destruct (HT r c IB) as (ix & IX & _). destruct (A r c ix plane y x IB IX HP HB) as (u & v & Eu & Ev & R). rewrite Eu, Ev. f_equal.
  destruct R as [[_ R]|(_ & _ & d & var & pri & sec & _ & EP & ES & R)]; [exact R|]. rewrite !Forall_app in HZ. destruct HZ as (Z1 & Z2 & Z3 & Z4). cbv zeta in R.
  destruct (plane =? 0); [pose proof (idx_Forall _ _ _ _ Z1 EP) as P0; pose proof (idx_Forall _ _ _ _ Z2 ES) as S0|pose proof (idx_Forall _ _ _ _ Z3 EP) as P0; pose proof (idx_Forall _ _ _ _ Z4 ES) as S0]; cbv beta in P0, S0; subst pri sec; rewrite !Z.mul_0_l in R.
  - assert (L : luma_strength 0 var = 0) by (unfold luma_strength; destruct (var =? 0); [reflexivity|]; rewrite Z.mul_0_l; reflexivity). rewrite L in R. rewrite zero_strength_value in R. exact R.
  - rewrite zero_strength_value in R. exact R.
Qed.
Print Assumptions C39_zero_strength.

(** A concrete frame: 8x8 samples, three planes without subsampling, one block. *)
Definition pat (a b : Z) : list (list Z) := map (fun i => map (fun j => (i * a + j * b + i * j) mod 23 + 100) [0;1;2;3;4;5;6;7]) [0;1;2;3;4;5;6;7].
Definition f0 : frame := [pat 3 5; pat 1 4; pat 2 2].
Definition fz : frame := repeat (repeat (repeat 0 8) 8) 3.
Lemma small_cases (P : Z -> Prop) n : Forall P (map Z.of_nat (seq 0 n)) -> forall i, 0 <= i < Z.of_nat n -> P i.
Proof. intros F i Hi. rewrite Forall_forall in F. apply F. apply in_map_iff. exists (Z.to_nat i). split; [lia|]. apply in_seq. lia. Qed.
Lemma cover8 (f : frame) e plane : cMiRows e = 2 -> cMiCols e = 2 -> cSubX e = false -> cSubY e = false ->
  Forall (fun y => Forall (fun x => exists v, idx3 f plane y x = Ok v) (map Z.of_nat (seq 0 8))) (map Z.of_nat (seq 0 8)) -> covers e f plane (sub_of plane (cSubX e)) (sub_of plane (cSubY e)).
Proof.
  intros HR HC HX HY F y x H. rewrite HX, HY in H. assert (S0 : sub_of plane false = 0) by (unfold sub_of; destruct (0 <? plane); reflexivity). rewrite S0 in H.
  unfold inside_frame in H. rewrite HR, HC in H. change (2 ^ 0) with 1 in H. rewrite !Z.mul_1_r in H.
  apply andb_prop in H as [H H4]. apply andb_prop in H as [H H3]. apply andb_prop in H as [H1 H2]. apply Z.leb_le in H1, H3. apply Z.ltb_lt in H2, H4.
  pose proof (Z.div_mod x 4 ltac:(lia)). pose proof (Z.mod_pos_bound x 4 ltac:(lia)). pose proof (Z.div_mod y 4 ltac:(lia)). pose proof (Z.mod_pos_bound y 4 ltac:(lia)).
  pose proof (small_cases _ 8 F y ltac:(lia)) as F2. exact (small_cases _ 8 F2 x ltac:(lia)).
Qed.
Lemma covers_case e (f : frame) : cNumPlanes e = 3 -> cMiRows e = 2 -> cMiCols e = 2 -> cSubX e = false -> cSubY e = false ->
  Forall (fun p => Forall (fun y => Forall (fun x => exists v, idx3 f p y x = Ok v) (map Z.of_nat (seq 0 8))) (map Z.of_nat (seq 0 8))) (map Z.of_nat (seq 0 3)) -> frame_covers e f.
Proof. intros HN HR HC HX HY F plane [P1 P2]. apply cover8; auto. exact (small_cases _ 3 F plane ltac:(lia)). Qed.
Ltac exists_all := cbn [map seq Z.of_nat]; repeat (constructor; [repeat (constructor; [repeat (constructor; [eexists; vm_compute; reflexivity|]); constructor|]); constructor|]); constructor.
Lemma f0_covers yp ys up us : frame_covers (cenv 3 yp ys up us) f0. Proof. apply covers_case; try reflexivity. exists_all. Qed.
Lemma fz_covers yp ys up us : frame_covers (cenv 3 yp ys up us) fz. Proof. apply covers_case; try reflexivity. exists_all. Qed.
Lemma f0_samples : all_samples (sample 8) f0.
Proof. unfold all_samples, sample. change (2 ^ 8) with 256. let t := eval vm_compute in f0 in change f0 with t. repeat (first [apply Forall_nil | apply Forall_cons]); lia. Qed.
Lemma case_ready yp ys up us : 0 <= yp <= 15 -> 0 <= ys <= 4 -> 0 <= up <= 15 -> 0 <= us <= 4 -> cdef_ready (cenv 3 yp ys up us) f0.
Proof.
  intros A B C D. unfold cdef_ready, strengths_ok. cbn [cBitDepth cYPri cYSec cUVPri cUVSec cenv cMiRows cMiCols cNumPlanes].
  repeat split; try lia; try (repeat constructor; lia); try (exists 1; lia); try apply f0_samples; try apply f0_covers.
  intros r c ([a ->] & [b ->] & Hr & Hc). cbn [cMiRows cMiCols cenv] in *. assert (a = 0) by lia. assert (b = 0) by lia. subst. exists 0. split; [reflexivity|]. split.
  - right. unfold zlen. cbn. lia.
  - right. intros r' c' [<-|[<-|[]]] [<-|[<-|[]]]; eexists; vm_compute; reflexivity.
Qed.
(** strengths 0,4 for luma and 6,2 for chroma meet all hypotheses (of the process and of the standard result), and the frame changes *)
Example C39_case : cdef_ready (cenv 3 0 4 6 2) f0 /\ frame_covers (cenv 3 0 4 6 2) fz /\ Forall (fun p => p = 0) (cYPri (cenv 3 0 4 6 2)) /\ Forall (fun p => Z.Even p /\ p <> 0) (cUVPri (cenv 3 0 4 6 2)) /\
  exists g', cdefProcess (cenv 3 0 4 6 2) f0 fz = Ok g' /\ idx3 f0 1 2 1 = Ok 108 /\ idx3 g' 1 2 1 = Ok 109.
Proof.
  split; [apply case_ready; lia|]. split; [apply fz_covers|]. split; [repeat constructor|]. split; [repeat constructor; [exists 3; reflexivity|cbn; lia]|].
  eexists. split; [vm_compute; reflexivity|]. split; vm_compute; reflexivity.
Qed.

(** Refuted: odd primary strengths get the weights of even ones. *)
Theorem C39_odd_refuted : ~ forall e f plane x0 y0 i j d pri sec damping u, 0 <= d < 8 -> 0 <= pri < 16 -> 0 <= sec < 16 -> cBitDepth e = 8 -> all_samples (sample 8) f -> covers e f plane 0 0 ->
  idx3 f plane (y0 + i) (x0 + j) = Ok u -> 0 <= y0 + i < 8 -> 0 <= x0 + j < 8 ->
  cdefSample e f plane x0 y0 i j 0 0 d pri sec damping = Ok (cdef_value (odd_strength 8 pri) d pri sec damping u (samp e f plane 0 0 (y0 + i) (x0 + j))).
Proof.
  intros H. specialize (H (cenv 3 0 4 1 0) f0 1 0 0 0 4 2 5 0 6 116 ltac:(lia) ltac:(lia) ltac:(lia) eq_refl f0_samples (f0_covers 0 4 1 0 1 ltac:(unfold planes; cbn; lia)) eq_refl ltac:(lia) ltac:(lia)).
  vm_compute in H. discriminate.
Qed.
Print Assumptions C39_odd_refuted.
(** Refuted: chroma with primary strength 0 is filtered with the damping of luma. *)
Theorem C39_chroma_damping_refuted : exists e f g g', cdef_ready e f /\ frame_covers e g /\ cdefProcess e f g = Ok g' /\ is_block e 0 0 /\ block_index e 0 0 0 /\ in_block e 1 0 0 0 0 /\
  exists u v, idx3 f 1 0 0 = Ok u /\ idx3 g' 1 0 0 = Ok v /\ ~ standard_result e f 1 0 0 0 0 u 0 v.
Proof.
  exists (cenv 3 0 4 0 4), f0, fz. eexists. split; [apply case_ready; lia|]. split; [apply fz_covers|]. split; [vm_compute; reflexivity|].
  split; [split; [exists 0; lia|split; [exists 0; lia|cbn; lia]]|]. split; [reflexivity|]. split; [split; vm_compute; split; congruence|].
  exists 100, 101. split; [reflexivity|]. split; [reflexivity|]. intros [[_ H]|(_ & _ & d & var & pri & sec & _ & EP & ES & R)]; [discriminate|].
  cbn in EP. injection EP as <-. cbn in ES. injection ES as <-. cbv zeta in R. vm_compute in R. discriminate.
Qed.
Print Assumptions C39_chroma_damping_refuted.

Lemma rfor_step_each {A} (body : Z -> A -> res A) hi step : 1 <= step -> forall n i acc a', rfor_step n i hi step body acc = Ok a' -> forall j, i <= j < hi -> (step | j - i) -> exists b b', body j b = Ok b'.
Proof.
  intros Hs. induction n as [|n IH]; intros i acc a' H j Hj Hd; cbn [rfor_step] in H; destruct (Z.ltb_spec i hi); try discriminate; try lia.
  apply rbind_inv in H as (a1 & E1 & E2). destruct (Z.eq_dec j i) as [->|N]; [eauto|].
  assert (j - i >= step) by (pose proof (Z.divide_pos_le step (j - i) ltac:(lia) Hd); lia).
  eapply IH; [exact E2|lia|]. replace (j - (i + step)) with ((j - i) - step) by lia. apply Z.divide_sub_r; [exact Hd|apply Z.divide_refl].
Qed.
(** Refuted: the table of skip flags is a 2x2 array: whenever CDEF returns, every block but the first is one with CDEF switched off. *)
Theorem C39_skip_table_refuted : forall e f g g', length (cSkips e) = 2%nat -> Forall (fun row => length row = 2%nat) (cSkips e) -> cdefProcess e f g = Ok g' ->
  forall r c, is_block e r c -> 0 < r \/ 0 < c -> block_index e r c (-1).
Proof.
  intros e f g g' HL HF H r c ([a ->] & [b ->] & Hr & Hc) Hpos. unfold cdefProcess, rfor_by in H.
  destruct (rfor_step_each _ _ 2 ltac:(lia) _ _ _ _ H (2 * a)) as (g1 & g2 & H1); [lia|exists a; lia|]. cbv beta in H1.
  destruct (rfor_step_each _ _ 2 ltac:(lia) _ _ _ _ H1 (2 * b)) as (g3 & g4 & H2); [lia|exists b; lia|]. cbv beta in H2. apply rbind_inv in H2 as (ix & Ei & H2). rewrite !land_not15 in Ei.
  unfold block_index. rewrite Ei. f_equal. unfold cdefBlock in H2. cbv zeta in H2. apply rbind_inv in H2 as (g5 & _ & H2). apply rbind_inv in H2 as (g6 & _ & H2).
  destruct (Z.eqb_spec ix (-1)) as [->|N]; [reflexivity|exfalso]. apply rbind_inv in H2 as (sk & E & _). apply rbind_inv in E as (b0 & E & _). apply rbind_inv in E as (s & E & _).
  unfold idx2 in E. apply rbind_inv in E as (row & E1 & E2). pose proof (idx_Forall _ _ _ _ HF E1) as HLr. apply idx_inv in E1 as [E1 _]. apply idx_inv in E2 as [E2 _]. unfold zlen in *. cbv beta in HLr. lia.
Qed.
Print Assumptions C39_skip_table_refuted.
Example C39_skip_table_case : exists g', cdefProcess (mkCEnv 8 1 false false 2 4 (repeat (repeat (-1) 16) 16) (repeat (repeat 0 2) 2) 3 [0] [0] [0] [0])
    [map (fun i => map (fun j => i * j) (map Z.of_nat (seq 0 16))) (map Z.of_nat (seq 0 8))] [repeat (repeat 0 16) 8] = Ok g' /\
  cdefProcess (mkCEnv 8 1 false false 2 4 (repeat (repeat 0 16) 16) (repeat (repeat 0 2) 2) 3 [0] [0] [0] [0])
    [map (fun i => map (fun j => i * j) (map Z.of_nat (seq 0 16))) (map Z.of_nat (seq 0 8))] [repeat (repeat 0 16) 8] = Panic.
Proof. eexists. split; vm_compute; reflexivity. Qed.
