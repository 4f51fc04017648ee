(** Properties C126-C129: reading loop restoration units. *)
From Coq Require Import String.
From Verif Require Import GoBase Bitstream Util UtilProofs Constants Tables Frame Symbol SpecStream SpecSymbol SymbolProofs PropSymbol CdfMoves CdfMemory CdfMemoryProofs SpecCoeffs CoeffRun Elements ElementsSim ElementsDemo PropModeInfo Restoration LrRead SpecLr.
Local Open Scope string_scope.
Local Open Scope Z_scope.

(** ** C126: which units are read with a superblock *)
Definition sub_of (sub : bool) : Z := if sub then 1 else 0.
Definition samples (sub : bool) : Z := if sub then 2 else 4.
(** eighths of samples of the upscaled frame per sample of the coded frame *)
Definition denom_of (e : LEnv) : Z := if lSuper e then lDenom e else 8.
Definition lr_env_ok (e : LEnv) : Prop := 0 < lHeight e < 2 ^ 32 /\ 0 < lWidth e < 2 ^ 32 /\ 8 <= denom_of e <= 16.
Lemma half n : 0 <= n < 2 ^ 32 -> forall sub, Round2 n (sub_of sub) = Ok (plane_size sub n).
Proof. intros H [|]; unfold sub_of, plane_size; rewrite Round2_spec by (change (2 ^ 32) with 4294967296 in *; change (2 ^ 62) with 4611686018427387904; lia); reflexivity. Qed.
Lemma ceil_le a n u : 0 < n -> ((a + n - 1) / n <= u <-> a <= u * n).
Proof.
  intros Hn. split; intros H.
  - assert (a + n - 1 < (u + 1) * n); [|lia]. assert (X := Z.mul_succ_div_gt (a + n - 1) n Hn). nia.
  - apply Z.lt_succ_r, Z.div_lt_upper_bound; lia.
Qed.
Lemma ceil_gt a n u : 0 < n -> (u < (a + n - 1) / n <-> u * n < a).
Proof. intros Hn. pose proof (ceil_le a n u Hn). lia. Qed.
Lemma count_eq unit n : 0 < unit -> 0 <= n -> CountUnitsInFrame unit n = Ok (unit_count unit n).
Proof.
  intros Hu Hn. unfold CountUnitsInFrame, unit_count. destruct (Z.eqb_spec unit 0); [lia|]. rewrite shr_div by lia. change (2 ^ 1) with 2. assert (0 <= unit / 2) by (apply Z.div_pos; lia).
  rewrite Z.quot_div_nonneg, Max_max, Z.max_comm by lia. reflexivity.
Qed.
Section Units.
Context (e : LEnv) (plane r c bSize w h unit : Z).
Hypothesis He : lr_env_ok e.
Hypothesis Hw : idx NUM_4X4_BLOCKS_WIDE bSize = Ok w.
Hypothesis Hh : idx NUM_4X4_BLOCKS_HIGH bSize = Ok h.
Hypothesis Hu : idx (lUnit e) plane = Ok unit.
Hypothesis Hr : 0 <= r. Hypothesis Hc : 0 <= c. Hypothesis Hunit : 0 < unit. Hypothesis Hpw : 0 <= w. Hypothesis Hph : 0 <= h.
Lemma units_eq : lrUnits e plane r c bSize = Ok ((r * samples (lSubY e) + unit - 1) / unit, Z.min (unit_count unit (plane_size (lSubY e) (lHeight e))) (((r + h) * samples (lSubY e) + unit - 1) / unit),
  (c * (samples (lSubX e) * denom_of e) + unit * 8 - 1) / (unit * 8), Z.min (unit_count unit (plane_size (lSubX e) (lWidth e))) (((c + w) * (samples (lSubX e) * denom_of e) + unit * 8 - 1) / (unit * 8))).
Proof.
  destruct He as (H1 & H2 & H3). unfold lrUnits. rewrite Hw, Hh, Hu. cbn [rbind]. cbv zeta. fold (sub_of (lSubX e)). fold (sub_of (lSubY e)). rewrite !half by lia. cbn [rbind].
  assert (PS : forall s n, 0 <= n -> 0 <= plane_size s n) by (intros [|] n Hn; unfold plane_size; [apply Z.div_pos; lia|exact Hn]).
  rewrite !count_eq by (try apply PS; lia). cbn [rbind]. destruct (Z.eqb_spec unit 0); [lia|].
  assert (SS : forall s, shr MI_SIZE (sub_of s) = samples s) by (intros [|]; reflexivity). rewrite !SS. assert (SP : forall s, 2 <= samples s <= 4) by (intros [|]; cbn; lia). pose proof (SP (lSubX e)). pose proof (SP (lSubY e)).
  rewrite !Min_min. change SUPERRES_NUM with 8. unfold denom_of in *. rewrite !(Z.quot_div_nonneg _ unit) by nia. destruct (lSuper e).
  - rewrite !Z.quot_div_nonneg by nia. reflexivity.
  - assert (Q : forall x, 0 <= x -> (x * samples (lSubX e) + unit - 1) ÷ unit = (x * (samples (lSubX e) * 8) + unit * 8 - 1) / (unit * 8)).
    { intros x Hx. rewrite Z.quot_div_nonneg by nia. assert (F : forall u, (x * samples (lSubX e) + unit - 1) / unit <= u <-> (x * (samples (lSubX e) * 8) + unit * 8 - 1) / (unit * 8) <= u).
      { intros u. rewrite (ceil_le _ unit) by lia. rewrite ceil_le by lia. lia. }
      pose proof (proj1 (F _) (Z.le_refl _)). pose proof (proj2 (F _) (Z.le_refl _)). lia. }
    rewrite !Q by lia. reflexivity.
Qed.
Lemma units_iff r0 r1 c0 c1 u v : lrUnits e plane r c bSize = Ok (r0, r1, c0, c1) ->
  (r0 <= u < r1 <-> u < unit_count unit (plane_size (lSubY e) (lHeight e)) /\ begins_in unit u (r * samples (lSubY e)) ((r + h) * samples (lSubY e))) /\
  (c0 <= v < c1 <-> v < unit_count unit (plane_size (lSubX e) (lWidth e)) /\ begins_in (unit * 8) v (c * (samples (lSubX e) * denom_of e)) ((c + w) * (samples (lSubX e) * denom_of e))).
Proof.
  rewrite units_eq. intros [= <- <- <- <-]. unfold begins_in.
  pose proof (ceil_le (r * samples (lSubY e)) unit u Hunit). pose proof (ceil_gt ((r + h) * samples (lSubY e)) unit u Hunit).
  pose proof (ceil_le (c * (samples (lSubX e) * denom_of e)) (unit * 8) v ltac:(lia)). pose proof (ceil_gt ((c + w) * (samples (lSubX e) * denom_of e)) (unit * 8) v ltac:(lia)). lia.
Qed.
End Units.
(** With the superblock at (r, c), exactly the units of the plane that begin in it are read: for chroma planes, and for luma without subsampling. *)
Theorem C126_units_partial : forall e plane r c bSize w h unit, lr_env_ok e -> idx NUM_4X4_BLOCKS_WIDE bSize = Ok w -> idx NUM_4X4_BLOCKS_HIGH bSize = Ok h -> idx (lUnit e) plane = Ok unit -> 0 < unit -> 0 <= r -> 0 <= c ->
  plane <> 0 \/ lSubX e = false /\ lSubY e = false -> exists r0 r1 c0 c1, lrUnits e plane r c bSize = Ok (r0, r1, c0, c1) /\ forall u v,
    let subX := negb (plane =? 0) && lSubX e in let subY := negb (plane =? 0) && lSubY e in
    (r0 <= u < r1 <-> u < unit_count unit (plane_size subY (lHeight e)) /\ begins_in unit u (r * samples subY) ((r + h) * samples subY)) /\
    (c0 <= v < c1 <-> v < unit_count unit (plane_size subX (lWidth e)) /\ begins_in (unit * 8) v (c * samples subX * denom_of e) ((c + w) * samples subX * denom_of e)).
Proof.
  intros e plane r c bSize w h unit He Hw Hh Hu Hn Hr Hc HP.
  assert (PW : 0 <= w) by (eapply (idx_Forall (fun x => 0 <= x)); [|exact Hw]; unfold NUM_4X4_BLOCKS_WIDE; repeat constructor; lia).
  assert (PH : 0 <= h) by (eapply (idx_Forall (fun x => 0 <= x)); [|exact Hh]; unfold NUM_4X4_BLOCKS_HIGH; repeat constructor; lia).
  do 4 eexists. split; [apply (units_eq e plane r c bSize w h unit); assumption|]. intros u v. cbv zeta.
  assert (EX : negb (plane =? 0) && lSubX e = lSubX e /\ negb (plane =? 0) && lSubY e = lSubY e) by (destruct (Z.eqb_spec plane 0); cbn [negb andb]; [destruct HP as [HP|[-> ->]]; [contradiction|auto]|auto]). destruct EX as [-> ->].
  rewrite <- !Z.mul_assoc. eapply (units_iff e plane r c bSize w h unit); try assumption. apply units_eq; assumption.
Qed.
Print Assumptions C126_units_partial.
(** So every unit is read with exactly one superblock of the frame (sb: 16 or 32 units of 4 samples). *)
Definition reads_unit (e : LEnv) (plane bSize sb u v kr kc : Z) : Prop :=
  0 <= kr /\ kr * sb < mi_size (lHeight e) /\ 0 <= kc /\ kc * sb < mi_size (coded_width (denom_of e) (lWidth e)) /\
  exists r0 r1 c0 c1, lrUnits e plane (kr * sb) (kc * sb) bSize = Ok (r0, r1, c0, c1) /\ r0 <= u < r1 /\ c0 <= v < c1.
Lemma interval_unique n a k k' : 0 < n -> k * n <= a < (k + 1) * n -> k' * n <= a < (k' + 1) * n -> k' = k.
Proof. intros. nia. Qed.
Lemma interval_exists n a : 0 < n -> 0 <= a -> exists k, 0 <= k /\ k * n <= a < (k + 1) * n.
Proof. intros Hn Ha. exists (a / n). pose proof (Z.mul_div_le a n Hn). pose proof (Z.mul_succ_div_gt a n Hn). pose proof (Z.div_pos a n Ha Hn). nia. Qed.
Lemma count_lt unit n u : 2 <= unit -> 0 < n -> 0 <= u < unit_count unit n -> u = 0 \/ u * unit + unit <= n + unit / 2.
Proof.
  intros Hu Hn H. unfold unit_count in H. destruct (Z.eq_dec u 0); [auto|right]. assert (U : u < (n + unit / 2) / unit) by lia. pose proof (Z.mul_div_le (n + unit / 2) unit ltac:(lia)). nia.
Qed.
Theorem C126_each_once_partial : forall e plane bSize unit sb, lr_env_ok e -> (bSize = BLOCK_64X64 /\ sb = 16 \/ bSize = BLOCK_128X128 /\ sb = 32) -> idx (lUnit e) plane = Ok unit -> 32 <= unit ->
  plane <> 0 \/ lSubX e = false /\ lSubY e = false ->
  let subX := negb (plane =? 0) && lSubX e in let subY := negb (plane =? 0) && lSubY e in
  forall u v, 0 <= u < unit_count unit (plane_size subY (lHeight e)) -> 0 <= v < unit_count unit (plane_size subX (lWidth e)) ->
  exists kr kc, reads_unit e plane bSize sb u v kr kc /\ forall kr' kc', reads_unit e plane bSize sb u v kr' kc' -> kr' = kr /\ kc' = kc.
Proof.
  intros e plane bSize unit sb He HB Hu Hn HP subX subY u v Ru Rv.
  assert (W : idx NUM_4X4_BLOCKS_WIDE bSize = Ok sb) by (destruct HB as [[-> ->]|[-> ->]]; reflexivity). assert (H : idx NUM_4X4_BLOCKS_HIGH bSize = Ok sb) by (destruct HB as [[-> ->]|[-> ->]]; reflexivity).
  assert (S16 : sb = 16 \/ sb = 32) by (destruct HB as [[_ ->]|[_ ->]]; auto).
  assert (SP : forall s, samples s = 2 \/ samples s = 4) by (intros [|]; auto). destruct He as (H1 & H2 & H3). assert (He : lr_env_ok e) by (split; [|split]; assumption).
  assert (U : forall kr kc, 0 <= kr -> 0 <= kc -> exists r0 r1 c0 c1, lrUnits e plane (kr * sb) (kc * sb) bSize = Ok (r0, r1, c0, c1) /\
    (r0 <= u < r1 <-> kr * (sb * samples subY) <= u * unit < (kr + 1) * (sb * samples subY)) /\ (c0 <= v < c1 <-> kc * (sb * samples subX * denom_of e) <= v * (unit * 8) < (kc + 1) * (sb * samples subX * denom_of e))).
  { intros kr kc K1 K2. destruct (C126_units_partial e plane (kr * sb) (kc * sb) bSize sb sb unit He W H Hu ltac:(lia) ltac:(nia) ltac:(nia) HP) as (r0 & r1 & c0 & c1 & E & F). exists r0, r1, c0, c1. split; [exact E|].
    destruct (F u v) as [F1 F2]. fold subX in F1, F2. fold subY in F1, F2. unfold begins_in in *. rewrite F1, F2.
    replace (kr * sb * samples subY) with (kr * (sb * samples subY)) by ring. replace ((kr * sb + sb) * samples subY) with ((kr + 1) * (sb * samples subY)) by ring.
    replace (kc * sb * samples subX * denom_of e) with (kc * (sb * samples subX * denom_of e)) by ring. replace ((kc * sb + sb) * samples subX * denom_of e) with ((kc + 1) * (sb * samples subX * denom_of e)) by ring. lia. }
  assert (PX := SP subX). assert (PY := SP subY).
  assert (NR : 0 < sb * samples subY) by (clear - S16 PY; nia). assert (NC : 0 < sb * samples subX * denom_of e) by (clear - S16 PX H3; nia).
  destruct (interval_exists (sb * samples subY) (u * unit) NR ltac:(clear - Ru Hn; nia)) as (kr & K1 & I1). destruct (interval_exists (sb * samples subX * denom_of e) (v * (unit * 8)) NC ltac:(clear - Rv Hn; nia)) as (kc & K2 & I2).
  exists kr, kc. split.
  - destruct (U kr kc K1 K2) as (r0 & r1 & c0 & c1 & E & F1 & F2). split; [exact K1|]. split; [|split; [exact K2|split; [|exists r0, r1, c0, c1; tauto]]].
    + (* the row is inside the frame *)
      assert (kr * (sb * 4) < lHeight e).
      { destruct (count_lt unit (plane_size subY (lHeight e)) u ltac:(lia) ltac:(unfold plane_size; destruct subY; [pose proof (Z.div_str_pos (lHeight e + 1) 2)|]; lia) Ru) as [->|C].
        - assert (kr = 0) by (clear - I1 K1 NR; nia). subst kr. lia.
        - assert (unit / 2 < unit) by (apply Z.div_lt; lia). assert (L : kr * (sb * samples subY) < plane_size subY (lHeight e)) by lia. clear - L. unfold samples, plane_size in L. destruct subY; [|lia].
          pose proof (Z.mul_div_le (lHeight e + 1) 2 ltac:(lia)). lia. }
      unfold mi_size. pose proof (Z.mul_succ_div_gt (lHeight e + 7) 8 ltac:(lia)). clear - H0 H4. nia.
    + set (d := denom_of e) in *. assert (kc * (sb * 4) * d < 8 * lWidth e - 16 \/ kc = 0).
      { destruct (count_lt unit (plane_size subX (lWidth e)) v ltac:(lia) ltac:(unfold plane_size; destruct subX; [pose proof (Z.div_str_pos (lWidth e + 1) 2)|]; lia) Rv) as [->|C].
        - right. clear - I2 K2 NC. nia.
        - left. assert (2 * (unit / 2) <= unit) by (apply Z.mul_div_le; lia). assert (v * (unit * 8) <= 8 * plane_size subX (lWidth e) - 4 * unit) by (clear - C H0; nia).
          assert (L : kc * (sb * samples subX * d) <= 8 * plane_size subX (lWidth e) - 128) by (clear - I2 H4 Hn; lia). clear - L. unfold samples, plane_size in L. destruct subX; [|lia].
          pose proof (Z.mul_div_le (lWidth e + 1) 2 ltac:(lia)). lia. }
      unfold mi_size. assert (CW : 8 * lWidth e - d < coded_width d (lWidth e) * d).
      { unfold coded_width. pose proof (Z.mul_succ_div_gt (8 * lWidth e + d / 2) d ltac:(lia)). assert (0 <= d / 2) by (apply Z.div_pos; lia). lia. }
      set (cw := coded_width d (lWidth e)) in *. assert (0 < cw).
      { unfold cw, coded_width. apply Z.div_str_pos. pose proof (Z.mul_succ_div_gt d 2 ltac:(lia)). lia. } pose proof (Z.mul_succ_div_gt (cw + 7) 8 ltac:(lia)). destruct H0 as [H0| ->]; [|clear - H4 H5; lia].
      assert (kc * (sb * 4) < cw) by (clear - H0 CW H3; nia). clear - H5 H6. nia.
  - intros kr' kc' (K1' & _ & K2' & _ & r0 & r1 & c0 & c1 & E & R1 & R2). destruct (U kr' kc' K1' K2') as (r0' & r1' & c0' & c1' & E' & F1 & F2). rewrite E in E'. injection E' as <- <- <- <-.
    split; [apply (interval_unique (sb * samples subY) (u * unit)); [assumption|assumption|tauto]|apply (interval_unique (sb * samples subX * denom_of e) (v * (unit * 8))); [assumption|assumption|tauto]].
Qed.
Print Assumptions C126_each_once_partial.
(** Luma of subsampled streams: the units are counted in half the height, so that the units of the lower half of the frame are not read at all. *)
Theorem C126_luma_refuted : forall e bSize unit r c r0 r1 c0 c1, lr_env_ok e -> idx (lUnit e) 0 = Ok unit -> 0 < unit -> 0 <= r -> 0 <= c -> lSubY e = true -> lrUnits e 0 r c bSize = Ok (r0, r1, c0, c1) ->
  r1 <= unit_count unit ((lHeight e + 1) / 2).
Proof.
  intros e bSize unit r c r0 r1 c0 c1 He Hu Hn Hr Hc HS E. assert (exists w h, idx NUM_4X4_BLOCKS_WIDE bSize = Ok w /\ idx NUM_4X4_BLOCKS_HIGH bSize = Ok h) as (w & h & W & H).
  { unfold lrUnits in E. destruct (idx NUM_4X4_BLOCKS_WIDE bSize) as [w| |]; try discriminate E. destruct (idx NUM_4X4_BLOCKS_HIGH bSize) as [h| |]; try discriminate E. eauto. }
  assert (PW : 0 <= w) by (eapply (idx_Forall (fun x => 0 <= x)); [|exact W]; unfold NUM_4X4_BLOCKS_WIDE; repeat constructor; lia).
  assert (PH : 0 <= h) by (eapply (idx_Forall (fun x => 0 <= x)); [|exact H]; unfold NUM_4X4_BLOCKS_HIGH; repeat constructor; lia).
  rewrite (units_eq e 0 r c bSize w h unit He W H Hu Hr Hc Hn PW PH) in E. injection E as <- <- <- <-. rewrite HS. unfold plane_size. lia.
Qed.
Print Assumptions C126_luma_refuted.
(** 1920x1080, 4:2:0, units of 64 samples: luma has 17 rows of units, 8 are read; the chroma unit (3, 5) (units of 32) begins in the superblock (3, 5). *)
Definition demo_l : LEnv := mkLEnv false false 3 [3; 3; 3] true true [64; 32; 32] 1080 1920 false 0.
Example C126_case : lr_env_ok demo_l /\ unit_count 64 1080 = 17 /\ unit_count 64 540 = 8 /\ unit_count 32 540 = 17 /\ lrUnits demo_l 0 (15 * 16) 0 BLOCK_64X64 = Ok (8, 8, 0, 1) /\
  lrUnits demo_l 1 (3 * 16) (5 * 16) BLOCK_64X64 = Ok (3, 4, 5, 6).
Proof. split; [unfold lr_env_ok, demo_l, denom_of; cbn; lia|]. repeat split. Qed.

(** ** C127: subexponential codes terminate *)
(** A bit that is 1 consumes one bit of the tile; beyond the end of the data it doubles the value register plus one. *)
Lemma bool_one dis d e d' : tile_state d e -> readBool dis d = Ok (1, d') ->
  SymbolMaxBits d' = SymbolMaxBits d - 1 /\ (SymbolMaxBits d <= 0 -> SymbolValue d' + 1 = 2 * (SymbolValue d + 1)).
Proof.
  intros HT E. destruct (ReadSymbol_spec dis [16384; 32768; 0] d e valid_bool_cdf HT) as (t & bits & Ht & Hb & Hin & EB & ER & T'). cbv zeta in *.
  unfold readBool in E. rewrite bind_eq, ER in E.
  match type of T' with tile_state ?x _ => assert (Et : t = 1 /\ d' = x) end.
  { unfold bind, ret, lift in E. destruct dis; [cbn [fst] in E; injection E; auto|]. destruct (adapt_spec _ t valid_bool_cdf Ht) as (c' & Ea & _). rewrite Ea in E. cbn [fst] in E. injection E; auto. }
  clear E ER T'. destruct Et as [-> ED].
  set (R := SymbolRange d) in *. destruct HT as (HR & HV & _). fold R in HR, HV.
  assert (B0 : bound R [16384; 32768; 0] (1 - 1) = R / 256 * 128 + 4).
  { change (bound R [16384; 32768; 0] (1 - 1)) with (R / 256 * ((32768 - 16384) / 64) / 2 + 4 * 1). change ((32768 - 16384) / 64) with (128 * 2). rewrite Z.mul_assoc, Z.div_mul by lia. lia. }
  assert (B1 : bound R [16384; 32768; 0] 1 = 0).
  { change (bound R [16384; 32768; 0] 1) with (R / 256 * ((32768 - 32768) / 64) / 2 + 4 * 0). change ((32768 - 32768) / 64) with 0. rewrite Z.mul_0_r. reflexivity. }
  rewrite B0, B1 in *. rewrite !Z.sub_0_r in *.
  assert (Q : 128 <= R / 256 <= 255) by (split; [apply Z.div_le_lower_bound; lia|apply Z.lt_succ_r, Z.div_lt_upper_bound; lia]).
  assert (LG : Z.log2 (R / 256 * 128 + 4) = 14) by (apply Z.log2_unique; [lia|change (2 ^ 14) with 16384; change (2 ^ Z.succ 14) with 32768; lia]). rewrite LG in EB. change (15 - 14) with 1 in EB. subst bits.
  subst d'. cbn [SymbolMaxBits SymbolValue]. split; [reflexivity|]. intros Hm. unfold refill. rewrite Z.max_l by lia. change (Z.min 1 0) with 0. change (Z.to_nat 0) with 0%nat. cbn [firstn SpecBits.be]. change (2 ^ 1) with 2. change (2 ^ (1 - 0)) with 2. lia.
Qed.
Lemma elit_one dis s : elit dis 1 s = let! r := readBool dis (fst s) in Ok (i64 (2 * 0 + fst r), (snd r, snd s)).
Proof.
  unfold elit, L, for_to. change (Z.to_nat (1 - 0)) with 1%nat. cbn [for_from]. rewrite !bind_eq. destruct (readBool dis (fst s)) as [[b d]| |]; cbn [rbind fst snd ret]; reflexivity.
Qed.
(** enough fuel for the rest of the data and the padding *)
Definition enough (n : nat) (d : dec) : Prop := if 0 <? SymbolMaxBits d then Z.of_nat n > SymbolMaxBits d + 17 else Z.of_nat n > 17 - Z.log2 (SymbolValue d + 1).
Lemma enough_start d : 0 <= SymbolValue d -> enough (Z.to_nat (Z.max 0 (SymbolMaxBits d)) + 20) d.
Proof. intros H. unfold enough. pose proof (Z.log2_nonneg (SymbolValue d + 1)). destruct (Z.ltb_spec 0 (SymbolMaxBits d)); lia. Qed.
Lemma enough_next n d e dis d' : tile_state d e -> enough (S n) d -> readBool dis d = Ok (1, d') -> enough n d'.
Proof.
  intros HT HE E. destruct (bool_one dis d e d' HT E) as [A B]. unfold enough in *. rewrite A. pose proof (Z.log2_nonneg (SymbolValue d' + 1)).
  destruct (Z.ltb_spec 0 (SymbolMaxBits d)), (Z.ltb_spec 0 (SymbolMaxBits d - 1)); try lia.
  rewrite (B ltac:(lia)). destruct HT as (_ & HV & _). rewrite Z.log2_double by lia. lia.
Qed.
Lemma enough_pos n d e : tile_state d e -> enough n d -> (0 < n)%nat.
Proof.
  intros (HR & HV & _) HE. unfold enough in HE. destruct (Z.ltb_spec 0 (SymbolMaxBits d)); [lia|]. assert (Z.log2 (SymbolValue d + 1) <= Z.log2 65536) by (apply Z.log2_le_mono; lia). change (Z.log2 65536) with 16 in *. lia.
Qed.
Lemma loop_safe dis k numSyms e : 0 <= k <= 60 -> forall n s i mk, tile_state (fst s) e -> enough n (fst s) -> 0 <= mk -> 0 <= i ->
  exists v s', subexpLoop dis n numSyms k i mk s = Ok (v, s') /\ tile_state (fst s') e /\ snd s' = snd s /\ mk <= v.
Proof.
  intros Hk. induction n as [|n IH]; intros s i mk HT HE Hm Hi; [apply (enough_pos _ _ e HT) in HE; lia|]. cbn [subexpLoop].
  assert (Eb : (if i =? 1 then k + i - 1 else k) = k) by (destruct (Z.eqb_spec i 1); lia). cbv zeta. rewrite Eb.
  assert (Ha : 0 < shl 1 k).
  { pose proof (Z.pow_pos_nonneg 2 k ltac:(lia) ltac:(lia)). assert (2 ^ k < 2 ^ 61) by (apply Z.pow_lt_mono_r; lia). change (2 ^ 61) with 2305843009213693952 in *. rewrite shl_small; [lia|lia|change (2 ^ 63) with 9223372036854775808; lia]. }
  destruct (readBool_safe dis (fst s) e HT) as (b & d' & E1 & S1 & Hb). destruct (_ <=? _).
  - rewrite bind_eq, elit_one, E1. cbn [rbind fst snd ret]. eexists _, _. split; [reflexivity|]. cbn [fst snd]. split; [apply S1|]. split; [reflexivity|]. rewrite i64_id by lia. lia.
  - rewrite bind_eq, elit_one, E1. cbn [rbind fst snd]. rewrite i64_id by lia. replace (2 * 0 + b) with b by lia. unfold bool_of. destruct (Z.eqb_spec b 0) as [->|Hn]; cbn [negb].
    + destruct (L_safe dis k d' e ltac:(lia) ltac:(apply S1)) as (v & d2 & E2 & S2 & Hv). rewrite bind_eq. unfold elit. cbn [fst snd]. rewrite E2. cbn [rbind fst snd ret]. eexists _, _. split; [reflexivity|]. cbn [fst snd]. split; [apply S2|]. split; [reflexivity|lia].
    + assert (b = 1) by lia. subst b. destruct (IH (d', snd s) (i + 1) (mk + shl 1 k)) as (v & s' & E2 & A & B & C); [apply S1|apply (enough_next n (fst s) e dis); assumption|lia|lia|].
      exists v, s'. split; [exact E2|]. split; [exact A|]. split; [exact B|lia].
Qed.
(** Whatever the data, the loop ends: it reads at most the rest of the data and 17 bits of padding. *)
Theorem C127_terminates : forall dis numSyms k endp s, 0 <= k <= 60 -> in_tile (fst s) endp -> exists v s', decodeSubexpBool dis numSyms k s = Ok (v, s') /\ in_tile (fst s') endp /\ snd s' = snd s /\ 0 <= v.
Proof.
  intros dis numSyms k endp s Hk HT. apply in_tile_state in HT. destruct (loop_safe dis k numSyms endp Hk _ s 0 0 HT (enough_start (fst s) ltac:(apply HT)) ltac:(lia) ltac:(lia)) as (v & s' & E & A & B & C).
  exists v, s'. rewrite in_tile_state. auto.
Qed.
Print Assumptions C127_terminates.

(** ** C128: the value *)
(** the four parameters in use *)
Definition used (numSyms k : Z) : Prop := 1 <= k <= 4 /\ numSyms = 2 ^ (k + 3).
Lemma run_bit {A} dis (k : Z -> prog A) d h : run dis (Bit k) d h = let! r := readBool dis d in run dis (k (fst r)) (snd r) h.
Proof. reflexivity. Qed.
Lemma run_bits_elit dis n endp d h v d' h' : 0 <= n <= 62 -> tile_state d endp -> run dis (bits (Z.to_nat n) 0) d h = Ok (v, d', h') -> elit dis n (d, h) = Ok (v, (d', h')) /\ tile_state d' endp /\ 0 <= v < 2 ^ n.
Proof.
  intros Hn HT E. assert (G := agrees_bits [] dis endp False n Hn (d, h)). assert (F : fit [] endp (d, h)) by (split; [exact HT|intros ? ? ? ? []]). specialize (G F). cbn [fst snd] in G. rewrite E in G.
  destruct G as (F' & b & E2 & <- & Hb). split; [exact E2|]. split; [apply F'|exact Hb].
Qed.
(** Two rounds at most: the standard's value, from the standard's bits. *)
Lemma subexp_two dis numSyms k endp s v d h : used numSyms k -> tile_state (fst s) endp -> run dis (std_subexp 2 numSyms k 0 0) (fst s) (snd s) = Ok (v, d, h) ->
  decodeSubexpBool dis numSyms k s = Ok (v, (d, h)) /\ tile_state d endp /\ 0 <= v < 2 ^ (k + 1).
Proof.
  intros [Hk ->] HT E. destruct s as [d0 h0]. cbn [fst snd] in *. unfold decodeSubexpBool. cbn [fst].
  assert (N1 : 2 ^ (k + 3) <=? 0 + 3 * 2 ^ k = false) by (apply Z.leb_gt; assert (k = 1 \/ k = 2 \/ k = 3 \/ k = 4) as [-> | [-> | [-> | ->]]] by lia; cbn; lia).
  assert (N2 : 2 ^ (k + 3) <=? 0 + 2 ^ k + 3 * 2 ^ k = false) by (apply Z.leb_gt; assert (k = 1 \/ k = 2 \/ k = 3 \/ k = 4) as [-> | [-> | [-> | ->]]] by lia; cbn; lia).
  assert (SK : shl 1 k = 2 ^ k) by (assert (k = 1 \/ k = 2 \/ k = 3 \/ k = 4) as [-> | [-> | [-> | ->]]] by lia; reflexivity).
  assert (PK : 2 ^ (k + 1) = 2 * 2 ^ k) by (assert (k = 1 \/ k = 2 \/ k = 3 \/ k = 4) as [-> | [-> | [-> | ->]]] by lia; reflexivity).
  assert (N3 : 2 ^ (k + 3) <=? - 0 + 3 * 2 ^ k = false) by (apply Z.leb_gt; apply Z.leb_gt in N1; lia).
  assert (N4 : 2 ^ (k + 3) <=? - (0 + 2 ^ k) + 3 * 2 ^ k = false) by (apply Z.leb_gt; apply Z.leb_gt in N1; assert (0 < 2 ^ k) by (apply Z.pow_pos_nonneg; lia); lia).
  assert (P0 : 0 < 2 ^ k) by (apply Z.pow_pos_nonneg; lia).
  cbn [std_subexp] in E. change (0 =? 0) with true in E. cbv iota zeta in E. rewrite N1 in E. rewrite run_bit in E.
  destruct (readBool_safe dis d0 endp HT) as (b & d1 & E1 & S1 & Hb). rewrite E1 in E. cbn [rbind fst snd] in E.
  rewrite (ltac:(lia) : (Z.to_nat (Z.max 0 (SymbolMaxBits d0)) + 20 = S (S (Z.to_nat (Z.max 0 (SymbolMaxBits d0)) + 18)))%nat). cbn [subexpLoop]. cbv zeta. change (0 =? 1) with false. cbv iota. rewrite SK, N3.
  rewrite bind_eq, elit_one. cbn [fst snd]. rewrite E1. cbn [rbind fst snd]. rewrite i64_id by lia. replace (2 * 0 + b) with b by lia. unfold bool_of. destruct (Z.eqb_spec b 0) as [Hb0|Hb1]; cbn [negb].
  - rewrite run_andthen in E. apply rbind_inv in E as ([[w d2] h2] & E2 & E). cbn [run fst snd] in E. injection E as <- <- <-.
    destruct (run_bits_elit dis k endp _ _ _ _ _ ltac:(lia) (proj1 S1) E2) as (E3 & T3 & H3). rewrite bind_eq, E3. cbn [ret]. split; [reflexivity|]. split; [exact T3|lia].
  - change (0 + 1 =? 0) with false in E. cbv iota in E. replace (k + (0 + 1) - 1) with k in E by lia. rewrite N2 in E. rewrite run_bit in E.
    destruct (readBool_safe dis d1 endp (proj1 S1)) as (b' & d2 & E2 & S2 & Hb'). rewrite E2 in E. cbn [rbind fst snd] in E.
    cbn [subexpLoop]. cbv zeta. change (0 + 1 =? 1) with true. cbv iota. replace (k + (0 + 1) - 1) with k by lia. rewrite SK, N4.
    rewrite bind_eq, elit_one. cbn [fst snd]. rewrite E2. cbn [rbind fst snd]. rewrite i64_id by lia. replace (2 * 0 + b') with b' by lia. unfold bool_of. destruct (Z.eqb_spec b' 0) as [Hb'0|Hb'1]; cbn [negb]; [|discriminate E].
    rewrite run_andthen in E. apply rbind_inv in E as ([[w d3] h3] & E3 & E). cbn [run fst snd] in E. injection E as <- <- <-.
    destruct (run_bits_elit dis k endp _ _ _ _ _ ltac:(lia) (proj1 S2) E3) as (E4 & T4 & H4). rewrite bind_eq, E4. cbn [ret]. split; [reflexivity|]. split; [exact T4|lia].
Qed.
(** More rounds give the same where two are enough. *)
Lemma subexp_more dis numSyms k : forall n m i mk d h r, (n <= m)%nat -> run dis (std_subexp n numSyms k i mk) d h = Ok r -> run dis (std_subexp m numSyms k i mk) d h = Ok r.
Proof.
  induction n as [|n IH]; intros m i mk d h r Hm E; [discriminate|]. destruct m as [|m]; [lia|]. cbn [std_subexp] in *. cbv zeta in *. destruct (_ <=? _); [exact E|]. rewrite run_bit in *.
  destruct (readBool dis d) as [[b d']| |]; cbn [rbind fst snd] in *; try discriminate. destruct (b =? 0); [exact E|]. apply IH; [lia|exact E].
Qed.
Lemma near_ok mx r v : 0 < mx <= 128 -> 0 <= r < mx -> 0 <= v < mx -> (if shl r 1 <=? mx then InverseRecenter r v else mx - 1 - InverseRecenter (mx - 1 - r) v) = std_near mx r v.
Proof.
  intros Hm Hr Hv. unfold std_near. rewrite shl_small by (change (2 ^ 1) with 2; change (2 ^ 63) with 9223372036854775808; lia). change (2 ^ 1) with 2. rewrite (Z.mul_comm r 2).
  assert (P : forall a, 0 <= a < mx -> InverseRecenter a v = std_recenter a v).
  { intros a Ha. rewrite InverseRecenter_val by (change (2 ^ 61) with 2305843009213693952; lia). unfold std_recenter. destruct (2 * a <? v); [reflexivity|]. rewrite Zmod_odd. destruct (Z.odd v); reflexivity. }
  destruct (2 * r <=? mx); rewrite P by lia; reflexivity.
Qed.
Lemma near_range mx r v : 0 <= r < mx -> 0 <= v < mx -> 0 <= std_near mx r v < mx.
Proof.
  intros Hr Hv. unfold std_near, std_recenter. assert (Hd : 2 * (v / 2) <= v) by (apply Z.mul_div_le; lia). assert (Hd2 : 2 * ((v + 1) / 2) <= v + 1) by (apply Z.mul_div_le; lia).
  assert (0 <= v / 2) by (apply Z.div_pos; lia). assert (0 <= (v + 1) / 2) by (apply Z.div_pos; lia). assert (O : Z.odd v = true -> 2 * ((v + 1) / 2) = v + 1).
  { intros O. apply Z.odd_spec in O as [q ->]. replace (2 * q + 1 + 1) with ((q + 1) * 2) by lia. rewrite Z.div_mul by lia. lia. }
  destruct (Z.leb_spec (2 * r) mx); [destruct (Z.ltb_spec (2 * r) v)|destruct (Z.ltb_spec (2 * (mx - 1 - r)) v)]; try lia; destruct (Z.odd v); lia.
Qed.
(** If the standard's value takes at most two rounds (the 2^(k+1) values nearest to the reference), the decoder gives it, from the same bits, and it is in range. *)
Theorem C128_near_values_partial : forall dis numSyms k low r endp s v d h, used numSyms k -> low <= r < low + numSyms -> in_tile (fst s) endp ->
  run dis (std_signed 2 low (low + numSyms) k r) (fst s) (snd s) = Ok (v, d, h) ->
  run dis (std_signed 8 low (low + numSyms) k r) (fst s) (snd s) = Ok (v, d, h) /\ decodeSignedSubexpWithRefBool dis low (low + numSyms) k r s = Ok (v, (d, h)) /\ in_tile d endp /\ low <= v < low + numSyms.
Proof.
  intros dis numSyms k low r endp s v d h HU Hr HT E. apply in_tile_state in HT. unfold std_signed in *. rewrite run_andthen in E. apply rbind_inv in E as ([[w d1] h1] & E1 & E). cbn [run fst snd] in E. injection E as <- <- <-.
  replace (low + numSyms - low) with numSyms in * by lia. rewrite run_andthen, (subexp_more dis numSyms k 2 8 _ _ _ _ _ ltac:(lia) E1). cbn [rbind run fst snd]. split; [reflexivity|].
  destruct (subexp_two dis numSyms k endp s w d1 h1 HU HT E1) as (E2 & T2 & Hw).
  assert (HN : 0 < numSyms <= 128 /\ w < numSyms) by (destruct HU as [Hk ->]; assert (k = 1 \/ k = 2 \/ k = 3 \/ k = 4) as [-> | [-> | [-> | ->]]] by lia; cbn in *; lia).
  unfold decodeSignedSubexpWithRefBool, decodeUnsignedSubexpWithRefBool. replace (low + numSyms - low) with numSyms by lia. rewrite !bind_eq, E2. cbn [ret]. rewrite near_ok by lia. split; [reflexivity|]. rewrite in_tile_state. split; [exact T2|].
  pose proof (near_range numSyms (r - low) w ltac:(lia) ltac:(lia)). lia.
Qed.
Print Assumptions C128_near_values_partial.

(** Further values are wrong, and may be out of range: after two 1 bits the decoder goes on with steps of 2^k rather than doubling them, without limit. *)
Definition low_value_es : ES := (mkDec 1 40000 9 (mkBS [0xA5; 0x5A; 0xF0] 15 0), demo_heap).
Definition value_of {A} (r : res (A * ES)) : option A := match r with Ok (a, _) => Some a | _ => None end.
Definition spec_value {A} (r : res (A * dec * (string -> tree))) : option A := match r with Ok (a, _, _) => Some a | _ => None end.
Theorem C128_far_values_refuted : exists dis numSyms k low r endp s v d h x s', used numSyms k /\ low <= r < low + numSyms /\ in_tile (fst s) endp /\
  run dis (std_signed 8 low (low + numSyms) k r) (fst s) (snd s) = Ok (v, d, h) /\ decodeSignedSubexpWithRefBool dis low (low + numSyms) k r s = Ok (x, s') /\ v = low /\ low + numSyms <= x.
Proof.
  assert (E1 : spec_value (run true (std_signed 8 (-96) (-96 + 128) 4 (-32)) (fst low_value_es) (snd low_value_es)) = Some (-96)) by (vm_compute; reflexivity).
  assert (E2 : value_of (decodeSignedSubexpWithRefBool true (-96) (-96 + 128) 4 (-32) low_value_es) = Some 139) by (vm_compute; reflexivity).
  destruct (run _ _ _ _) as [[[v d] h]| |] eqn:R1 in E1; cbn [spec_value] in E1; try discriminate E1. destruct (decodeSignedSubexpWithRefBool _ _ _ _ _ _) as [[x s']| |] eqn:R2 in E2; cbn [value_of] in E2; try discriminate E2.
  injection E1 as ->. injection E2 as ->. exists true, 128, 4, (-96), (-32), 24, low_value_es, (-96), d, h, 139, s'. split; [unfold used; cbn; lia|]. split; [lia|]. split; [unfold in_tile, low_value_es, demo_es, demo_dec, zlen; cbn; lia|]. split; [exact R1|]. split; [exact R2|lia].
Qed.
Print Assumptions C128_far_values_refuted.
Example C128_case : used 128 4 /\ used 16 1 /\ in_tile (fst demo_es) 24 /\ spec_value (run true (std_signed 2 (-96) 32 4 (-32)) (fst demo_es) (snd demo_es)) = Some (-40) /\
  value_of (decodeSignedSubexpWithRefBool true (-96) 32 4 (-32) demo_es) = Some (-40) /\
  spec_value (run true (std_signed 8 (-96) 32 4 (-32)) (fst low_value_es) (snd low_value_es)) = Some (-96) /\ value_of (decodeSignedSubexpWithRefBool true (-96) 32 4 (-32) low_value_es) = Some 139.
Proof. split; [unfold used; cbn; lia|]. split; [unfold used; cbn; lia|]. split; [unfold in_tile, low_value_es, demo_es, demo_dec, zlen; cbn; lia|]. split; [vm_compute; reflexivity|]. split; [vm_compute; reflexivity|]. split; vm_compute; reflexivity. Qed.
Example C127_case : value_of (decodeSubexpBool true 128 4 low_value_es) = Some 235 /\ in_tile (fst low_value_es) 24.
Proof. split; [vm_compute; reflexivity|unfold in_tile, low_value_es, demo_es, demo_dec, zlen; cbn; lia]. Qed.

(** ** C129: a restoration unit *)
Definition lr_cdfs : list (string * list Z * Z) := [("RestorationTypeCdf", [], 3)].
Definition lr_ready (endp : Z) (s : ES) : Prop := in_tile (fst s) endp /\ table_ok lr_cdfs (snd s).
(** What is stored for a unit, and the weights the next unit is predicted from: three planes, one unit each *)
Definition lr_shape (g : LSt) : Prop :=
  (exists a b c, lType g = [[[a]]; [[b]]; [[c]]]) /\ (exists a b c, lSet g = [[[a]]; [[b]]; [[c]]]) /\
  (exists a b c d e f, lXqd g = [[[[a; b]]]; [[[c; d]]]; [[[e; f]]]]) /\ (exists a b c d e f, lRefX g = [[a; b]; [c; d]; [e; f]]).
Definition type_of (u : lr_unit) : Z := match u with NoFilter => 0 | Wiener _ => 1 | SelfGuided _ _ _ => 2 end.
(** the unit (0, 0) of the plane is u; other planes are as they were; filters that the unit does not use as well *)
Definition stored (g g' : LSt) (plane : Z) (u : lr_unit) : Prop :=
  idx3 (lType g') plane 0 0 = Ok (type_of u) /\ lRefW g' = lRefW g /\
  (forall p, p <> plane -> idx (lType g') p = idx (lType g) p /\ idx (lSet g') p = idx (lSet g) p /\ idx (lXqd g') p = idx (lXqd g) p /\ idx (lRefX g') p = idx (lRefX g) p) /\
  match u with
  | SelfGuided set v0 v1 => idx3 (lSet g') plane 0 0 = Ok set /\ idx3 (lXqd g') plane 0 0 = Ok [v0; v1] /\ idx (lRefX g') plane = Ok [v0; v1]
  | _ => lSet g' = lSet g /\ lXqd g' = lXqd g /\ lRefX g' = lRefX g
  end.
Lemma run_sym_esym {A} dis name path (k : Z -> prog A) d h : run dis (Sym name path k) d h = let! r := esym dis name path (d, h) in run dis (k (fst r)) (fst (snd r)) (snd (snd r)).
Proof. unfold esym. cbn [run fst snd]. destruct (tget (h name) path) as [c| |]; cbn [rbind]; try reflexivity. destruct (ReadSymbol dis c d) as [[[v c'] d']| |]; cbn [rbind fst snd]; try reflexivity. destruct (tput (h name) path c'); reflexivity. Qed.
Lemma idx_other {A} (l : list A) i v l' j : upd l i v = Ok l' -> j <> i -> idx l' j = idx l j.
Proof. intros E N. eapply idx_upd_other; eauto. Qed.
Lemma elit4_set dis endp d h v d' h' : tile_state d endp -> run dis (bits 4 0) d h = Ok (v, d', h') -> elit dis 4 (d, h) = Ok (v, (d', h')) /\ tile_state d' endp /\ 0 <= v < 16.
Proof. intros HT E. exact (run_bits_elit dis 4 endp d h v d' h' ltac:(lia) HT E). Qed.
Lemma radius_ok set i : 0 <= set < 16 -> i = 0 \/ i = 1 -> exists x, (let! p := idx SGR_PARAMS set in idx p (i * 2)) = Ok x /\ (x =? 0) = (sgr_radius set i =? 0).
Proof.
  intros H [-> | ->]; assert (I : In set (map Z.of_nat (seq 0 16))) by (apply in_map_iff; exists (Z.to_nat set); split; [lia|apply in_seq; lia]); cbn [map seq] in I;
  repeat (destruct I as [<- | I]; [eexists; split; reflexivity|]); destruct I.
Qed.
Lemma signed_two dis low hi k r endp d h v d' h' : used (hi - low) k -> low <= r < hi -> tile_state d endp -> run dis (std_signed 2 low hi k r) d h = Ok (v, d', h') ->
  run dis (std_signed 8 low hi k r) d h = Ok (v, d', h') /\ decodeSignedSubexpWithRefBool dis low hi k r (d, h) = Ok (v, (d', h')) /\ tile_state d' endp /\ low <= v < hi.
Proof.
  intros HU Hr HT E. destruct (C128_near_values_partial dis (hi - low) k low r endp (d, h) v d' h') as (A & B & C & D); cbn [fst snd]; replace (low + (hi - low)) with hi in * by lia; try assumption; [now apply in_tile_state|].
  apply in_tile_state in C. auto.
Qed.
(** one weight *)
Definition weight_prog (rounds : nat) (set i x0 x : Z) : prog Z :=
  if sgr_radius set i =? 0 then Done (if i =? 0 then 0 else Z.max (-32) (Z.min 95 (128 - x0))) else if i =? 0 then std_signed rounds (-96) 32 4 x else std_signed rounds (-32) 96 4 x.
Lemma xqd_ok e plane set i g endp d h v d' h' x0 x : 0 <= set < 16 -> i = 0 \/ i = 1 -> tile_state d endp -> idx2 (lRefX g) plane i = Ok x -> idx2 (lRefX g) plane 0 = Ok x0 ->
  (if i =? 0 then -96 <= x < 32 else -32 <= x < 96) -> -96 <= x0 < 32 -> run (lDis e) (weight_prog 2 set i x0 x) d h = Ok (v, d', h') ->
  run (lDis e) (weight_prog 8 set i x0 x) d h = Ok (v, d', h') /\ tile_state d' endp /\ (if i =? 0 then -96 <= v < 32 else -32 <= v < 96) /\
  readXqd e plane 0 0 set i g (d, h) = let! xq := upd4 (lXqd g) plane 0 0 i v in let! rx := upd2 (lRefX g) plane i v in Ok (mkLSt (lType g) (lSet g) xq (lRefW g) rx, (d', h')).
Proof.
  intros HS Hi HT HX HX0 RX RX0 E. destruct (radius_ok set i HS Hi) as (rad & Er & Ez). unfold readXqd. rewrite bind_eq. unfold lift at 1. rewrite Er. unfold weight_prog in *. rewrite Ez.
  assert (EM : exists mn mx, idx Sgrproj_Xqd_Min i = Ok mn /\ idx Sgrproj_Xqd_Max i = Ok mx /\ (i = 0 -> mn = -96 /\ mx = 31) /\ (i = 1 -> mn = -32 /\ mx = 95)) by (destruct Hi as [-> | ->]; do 2 eexists; repeat split; try reflexivity; lia).
  destruct EM as (mn & mx & -> & -> & M0 & M1). rewrite bind_eq. unfold lift at 1. rewrite bind_eq. unfold lift at 1. rewrite bind_eq.
  destruct (sgr_radius set i =? 0); cbn [negb].
  - cbn [run] in *. injection E as <- <- <-. split; [reflexivity|]. split; [exact HT|]. destruct Hi as [-> | ->]; cbn [Z.eqb Pos.eqb].
    + split; [lia|]. unfold ret at 1. rewrite bind_eq. unfold lift at 1. destruct (upd4 _ _ _ _ _ _); cbn [rbind]; try reflexivity. rewrite bind_eq. unfold lift at 1. destruct (upd2 _ _ _ _); reflexivity.
    + split; [lia|]. destruct (M1 eq_refl) as [-> ->]. rewrite bind_eq. unfold lift at 1. rewrite HX0. unfold ret at 1.
      assert (EC : Clip3 (-32) 95 (shl 1 SGRPROJ_BITS - x0) = Z.max (-32) (Z.min 95 (128 - x0))). { change (shl 1 SGRPROJ_BITS) with 128. unfold Clip3. destruct (Z.ltb_spec (128 - x0) (-32)), (Z.ltb_spec 95 (128 - x0)); lia. }
      rewrite EC. rewrite bind_eq. unfold lift at 1. destruct (upd4 _ _ _ _ _ _); cbn [rbind]; try reflexivity. rewrite bind_eq. unfold lift at 1. destruct (upd2 _ _ _ _); reflexivity.
  - rewrite bind_eq. unfold lift at 1. rewrite HX.
    assert (G : run (lDis e) (if i =? 0 then std_signed 8 (-96) 32 4 x else std_signed 8 (-32) 96 4 x) d h = Ok (v, d', h') /\ decodeSignedSubexpWithRefBool (lDis e) mn (mx + 1) SGRPROJ_PRJ_SUBEXP_K x (d, h) = Ok (v, (d', h')) /\ tile_state d' endp /\ (if i =? 0 then -96 <= v < 32 else -32 <= v < 96)).
    { destruct Hi as [-> | ->]; cbn [Z.eqb Pos.eqb] in *; [destruct (M0 eq_refl) as [-> ->]; change (31 + 1) with 32; apply (signed_two (lDis e) (-96) 32 4 x endp d h v d' h')|destruct (M1 eq_refl) as [-> ->]; change (95 + 1) with 96; apply (signed_two (lDis e) (-32) 96 4 x endp d h v d' h')];
      try assumption; split; (reflexivity || lia). }
    destruct G as (G1 & G2 & G3 & G4). split; [exact G1|]. split; [exact G3|]. split; [exact G4|]. rewrite G2. rewrite bind_eq. unfold lift at 1. destruct (upd4 _ _ _ _ _ _); cbn [rbind]; try reflexivity. rewrite bind_eq. unfold lift at 1. destruct (upd2 _ _ _ _); reflexivity.
Qed.
Lemma idx3_other {A} (a b c a' b' c' : A) p : p <> 0 /\ [b; c] = [b'; c'] \/ p <> 1 /\ a = a' /\ c = c' \/ p <> 2 /\ a = a' /\ b = b' -> idx [a; b; c] p = idx [a'; b'; c'] p.
Proof.
  intros H. unfold idx. destruct (Z.ltb_spec p 0); [reflexivity|]. destruct (Z.to_nat p) as [|[|[|n]]] eqn:E; cbn [nth_error]; [| | |reflexivity];
  (destruct H as [[N Q]|[(N & Q & Q')|(N & Q & Q')]]; [injection Q as -> ->| |]; subst; try reflexivity; exfalso; lia).
Qed.
Lemma weights_split rounds x0 x1 dis d h r : run dis (std_sgr rounds x0 x1) d h = Ok r ->
  exists set d1 h1 v0 d2 h2 v1 d3 h3, run dis (bits 4 0) d h = Ok (set, d1, h1) /\ run dis (weight_prog rounds set 0 x0 x0) d1 h1 = Ok (v0, d2, h2) /\ run dis (weight_prog rounds set 1 v0 x1) d2 h2 = Ok (v1, d3, h3) /\ r = (set, v0, v1, d3, h3).
Proof.
  unfold std_sgr. rewrite run_andthen. intros E. apply rbind_inv in E as ([[set d1] h1] & E1 & E). cbn [fst snd] in E. rewrite run_andthen in E. apply rbind_inv in E as ([[v0 d2] h2] & E2 & E). cbn [fst snd] in E.
  rewrite run_andthen in E. apply rbind_inv in E as ([[v1 d3] h3] & E3 & E). cbn [fst snd run] in E. injection E as <-. exists set, d1, h1, v0, d2, h2, v1, d3, h3. split; [exact E1|]. unfold weight_prog. change (1 =? 0) with false. change (0 =? 0) with true. cbv iota.
  split; [destruct (sgr_radius set 0 =? 0); exact E2|]. split; [destruct (sgr_radius set 1 =? 0); exact E3|reflexivity].
Qed.
Lemma weights_join rounds x0 x1 dis d h set d1 h1 v0 d2 h2 v1 d3 h3 : run dis (bits 4 0) d h = Ok (set, d1, h1) -> run dis (weight_prog rounds set 0 x0 x0) d1 h1 = Ok (v0, d2, h2) -> run dis (weight_prog rounds set 1 v0 x1) d2 h2 = Ok (v1, d3, h3) ->
  run dis (std_sgr rounds x0 x1) d h = Ok (set, v0, v1, d3, h3).
Proof.
  intros E1 E2 E3. unfold std_sgr. unfold weight_prog in *. change (1 =? 0) with false in *. change (0 =? 0) with true in *. cbv iota in *. rewrite run_andthen, E1. cbn [rbind fst snd]. rewrite run_andthen.
  replace (run dis (if sgr_radius set 0 =? 0 then Done 0 else std_signed rounds (-96) 32 4 x0) d1 h1) with (Ok (v0, d2, h2)). cbn [rbind fst snd]. rewrite run_andthen.
  replace (run dis (if sgr_radius set 1 =? 0 then Done (Z.max (-32) (Z.min 95 (128 - v0))) else std_signed rounds (-32) 96 4 x1) d2 h2) with (Ok (v1, d3, h3)). reflexivity.
Qed.
(** In a plane with switchable restoration, for its first unit: if the standard reads no Wiener filter and its weights take at most two rounds, then the decoder reads the same and stores it, and the weights stay in range. *)
Theorem C129_unit_partial : forall e plane g endp s wv wh x0 x1 u d h, lr_shape g -> lr_ready endp s -> 0 <= plane < 3 -> idx (lFrameType e) plane = Ok 3 -> idx (lRefX g) plane = Ok [x0; x1] -> -96 <= x0 <= 31 -> -32 <= x1 <= 95 ->
  run (lDis e) (std_unit 2 (plane =? 0) wv wh x0 x1) (fst s) (snd s) = Ok (u, d, h) -> (forall w, u <> Wiener w) ->
  run (lDis e) (std_unit 8 (plane =? 0) wv wh x0 x1) (fst s) (snd s) = Ok (u, d, h) /\
  exists g', readLrUnit e plane 0 0 g s = Ok (g', (d, h)) /\ in_tile d endp /\ lr_shape g' /\ stored g g' plane u /\ exists y0 y1, idx (lRefX g') plane = Ok [y0; y1] /\ -96 <= y0 <= 31 /\ -32 <= y1 <= 95.
Proof.
  intros e plane g endp [d0 h0] wv wh x0 x1 u d h HS [HT HC] Hp HF HX R0 R1 E HW. cbn [fst snd] in *. unfold std_unit in *. rewrite run_sym_esym in *. apply rbind_inv in E as ([ty [d1 h1]] & E1 & E). rewrite E1. cbn [rbind fst snd] in *.
  assert (T1 : tile_state d1 endp /\ 0 <= ty < 3).
  { assert (G := agrees_sym lr_cdfs (lDis e) endp False "RestorationTypeCdf" [] 3 [] (or_introl eq_refl) ltac:(constructor) (d0, h0)). assert (F : fit lr_cdfs endp (d0, h0)) by (split; [now apply in_tile_state|exact HC]). specialize (G F). rewrite run_sym_esym in G. cbn [fst snd] in G. rewrite E1 in G. cbn [rbind fst snd run] in G.
    destruct G as (F' & b & E2 & -> & Hb). split; [apply F'|exact Hb]. }
  destruct T1 as [T1 Hty].
  assert (ER : readLrType e plane (d0, h0) = Ok (ty, (d1, h1))).
  { unfold readLrType. rewrite bind_eq. unfold lift at 1. rewrite HF. cbv beta iota. change (3 =? RESTORE_WIENER) with false. change (3 =? RESTORE_SGRPROJ) with false. cbv iota. exact E1. }
  unfold readLrUnit. rewrite bind_eq, ER. cbv beta iota. destruct HS as ((t0 & t1 & t2 & ET) & (s0 & s1 & s2 & ES) & (q0 & q1 & q2 & q3 & q4 & q5 & EQ) & (y0 & y1 & y2 & y3 & y4 & y5 & EX)).
  destruct (Z.eqb_spec ty 0) as [->|N0].
  { (* no filter *) cbn [run] in *. injection E as <- <- <-. split; [reflexivity|]. destruct g as [lt ls lx lw lr]. cbn [lType lSet lXqd lRefW lRefX] in *. subst lt ls lx lr.
    assert (P : plane = 0 \/ plane = 1 \/ plane = 2) by lia. destruct P as [-> | [-> | ->]]; (eexists; split; [cbn; reflexivity|]; split; [now apply in_tile_state|]; split; [unfold lr_shape; cbn; split; [|split; [|split]]; repeat eexists|]; split; [|exists x0, x1; split; [exact HX|lia]];
      split; [reflexivity|]; split; [reflexivity|]; split; [|cbn; auto]; intros p Np; cbn [lType lSet lXqd lRefX]; split; [|auto]; eapply idx_other; [|exact Np]; reflexivity). }
  destruct (Z.eqb_spec ty 1) as [->|N1].
  { exfalso. rewrite run_andthen in E. apply rbind_inv in E as ([[v d2] h2] & _ & E). cbn [fst snd] in E. rewrite run_andthen in E. apply rbind_inv in E as ([[v' d3] h3] & _ & E). cbn [fst snd run] in E. injection E as <- _ _. now apply (HW [v; v']). }
  assert (ty = 2) by lia. subst ty. rewrite run_andthen in E. apply rbind_inv in E as ([[[[set v0] v1] d4] h4] & E2 & E). cbn [fst snd run] in E. injection E as <- <- <-.
  apply weights_split in E2 as (set' & d2 & h2 & v0' & d3 & h3 & v1' & d4' & h4' & E2 & E3 & E4 & EE). injection EE as <- <- <- <- <-.
  destruct (elit4_set _ _ _ _ _ _ _ T1 E2) as (E5 & T2 & Hset).
  destruct g as [lt ls lx lw lr]. cbn [lType lSet lXqd lRefW lRefX] in *. subst lt ls lx lr.
  assert (GEN : exists lt' ls' lx1 lr1 lx2 lr2, upd3 [[[t0]]; [[t1]]; [[t2]]] plane 0 0 2 = Ok lt' /\ upd3 [[[s0]]; [[s1]]; [[s2]]] plane 0 0 set = Ok ls' /\ upd4 [[[[q0; q1]]]; [[[q2; q3]]]; [[[q4; q5]]]] plane 0 0 0 v0 = Ok lx1 /\
     upd2 [[y0; y1]; [y2; y3]; [y4; y5]] plane 0 v0 = Ok lr1 /\ idx2 lr1 plane 0 = Ok v0 /\ idx2 lr1 plane 1 = Ok x1 /\ upd4 lx1 plane 0 0 1 v1 = Ok lx2 /\ upd2 lr1 plane 1 v1 = Ok lr2 /\
     lr_shape (mkLSt lt' ls' lx2 lw lr2) /\ stored (mkLSt [[[t0]]; [[t1]]; [[t2]]] [[[s0]]; [[s1]]; [[s2]]] [[[[q0; q1]]]; [[[q2; q3]]]; [[[q4; q5]]]] lw [[y0; y1]; [y2; y3]; [y4; y5]]) (mkLSt lt' ls' lx2 lw lr2) plane (SelfGuided set v0 v1)).
  { assert (P : plane = 0 \/ plane = 1 \/ plane = 2) by lia. destruct P as [-> | [-> | ->]]; cbn in HX; injection HX as -> ->; (do 6 eexists; repeat (split; [cbn; reflexivity|]); split; [unfold lr_shape; cbn; split; [|split; [|split]]; repeat eexists|]; split; [reflexivity|]; split; [reflexivity|]; split; [|cbn; auto]; intros p Np; cbn [lType lSet lXqd lRefX];
      repeat split; apply idx3_other; first [left; split; [exact Np|reflexivity]|right; left; split; [exact Np|split; reflexivity]|right; right; split; [exact Np|split; reflexivity]]). }
  destruct GEN as (lt' & ls' & lx1 & lr1 & lx2 & lr2 & U1 & U2 & U3 & U4 & I0 & I1 & U5 & U6 & SH & ST).
  assert (J0 : idx2 [[y0; y1]; [y2; y3]; [y4; y5]] plane 0 = Ok x0) by (unfold idx2; rewrite HX; reflexivity).
  rewrite bind_eq. unfold lift at 1. cbn [lType]. rewrite U1. cbv beta iota zeta. cbn [lType lSet lXqd lRefW lRefX]. change (2 =? RESTORE_WIENER) with false. change (2 =? RESTORE_SGRPROJ) with true. cbv iota. rewrite bind_eq. change SGRPROJ_PARAMS_BITS with 4. rewrite E5. cbv beta iota.
  rewrite bind_eq. unfold lift at 1. rewrite U2. cbv beta iota.
  destruct (xqd_ok e plane set 0 (mkLSt lt' ls' [[[[q0; q1]]]; [[[q2; q3]]]; [[[q4; q5]]]] lw [[y0; y1]; [y2; y3]; [y4; y5]]) endp d2 h2 v0 d3 h3 x0 x0 Hset (or_introl eq_refl) T2 J0 J0 ltac:(cbn; lia) ltac:(lia) E3) as (A1 & A2 & A3 & A4).
  cbn [lType lSet lXqd lRefW lRefX] in A4. rewrite U3 in A4. cbn [rbind] in A4. rewrite U4 in A4. cbn [rbind] in A4.
  destruct (xqd_ok e plane set 1 (mkLSt lt' ls' lx1 lw lr1) endp d3 h3 v1 d4 h4 v0 x1 Hset (or_intror eq_refl) A2 I1 I0 ltac:(cbn; lia) ltac:(cbn in A3; lia) E4) as (B1 & B2 & B3 & B4).
  cbn [lType lSet lXqd lRefW lRefX] in B4. rewrite U5 in B4. cbn [rbind] in B4. rewrite U6 in B4. cbn [rbind] in B4.
  change (2 =? 0) with false. change (2 =? 1) with false. cbv iota. rewrite run_andthen, (weights_join 8 x0 x1 _ _ _ _ _ _ _ _ _ _ _ _ E2 A1 B1). cbn [rbind fst snd run]. split; [reflexivity|]. exists (mkLSt lt' ls' lx2 lw lr2).
  split; [|split; [now apply in_tile_state|split; [exact SH|split; [exact ST|exists v0, v1; split; [apply ST|cbn in A3, B3; lia]]]]].
  unfold for_to. change (Z.to_nat (2 - 0)) with 2%nat. cbn [for_from]. rewrite bind_eq, A4. cbv beta iota. rewrite bind_eq. change (0 + 1) with 1. rewrite B4. reflexivity.
Qed.
Print Assumptions C129_unit_partial.
(** A frame whose plane uses one filter throughout cannot be read: the bit that switches it on and off is not implemented. *)
Theorem C129_fixed_type_refuted : forall e plane row col g s, idx (lFrameType e) plane = Ok 1 \/ idx (lFrameType e) plane = Ok 2 -> readLrUnit e plane row col g s = Panic.
Proof. intros e plane row col g s H. unfold readLrUnit, readLrType. rewrite !bind_eq. unfold lift at 1. destruct H as [-> | ->]; reflexivity. Qed.
Print Assumptions C129_fixed_type_refuted.
(** A Wiener filter cannot be stored, nor any unit but the first of its plane. *)
Lemma taps_safe dis low hi k r endp s : 0 <= k <= 60 -> in_tile (fst s) endp -> exists x s', decodeSignedSubexpWithRefBool dis low hi k r s = Ok (x, s').
Proof.
  intros Hk HT. unfold decodeSignedSubexpWithRefBool, decodeUnsignedSubexpWithRefBool. destruct (C127_terminates dis (hi - low) k endp s Hk HT) as (v & s' & E & _). rewrite !bind_eq, E. do 2 eexists. reflexivity.
Qed.
Lemma idx_nh {A} (l : list A) i : idx l i <> Hang.
Proof. unfold idx. destruct (i <? 0); [discriminate|]. destruct (nth_error _ _); discriminate. Qed.
Lemma upd_nh {A} (l : list A) i v : upd l i v <> Hang.
Proof. intros E. destruct (Z.ltb_spec i 0); [|destruct (Z.ltb_spec i (zlen l))]; unfold upd in E; repeat (destruct (_ && _) in E || destruct (_ || _) in E || destruct (_ <? _) in E || destruct (_ <=? _) in E); discriminate E. Qed.
Lemma upd3_nh (l : list (list (list Z))) p r c v : upd3 l p r c v <> Hang.
Proof.
  unfold upd3, upd2. intros E. destruct (idx l p) as [g| |] eqn:E1; cbn [rbind] in E; [|discriminate|now apply idx_nh in E1]. destruct (idx g r) as [q| |] eqn:E2; cbn [rbind] in E; [|discriminate|now apply idx_nh in E2].
  destruct (upd q c v) as [q'| |] eqn:E3; cbn [rbind] in E; [|discriminate|now apply upd_nh in E3]. destruct (upd g r q') as [g'| |] eqn:E4; cbn [rbind] in E; [|discriminate|now apply upd_nh in E4]. now apply upd_nh in E.
Qed.
Theorem C129_wiener_refuted : forall e plane row col g endp s ty s1, lr_ready endp s -> idx (lFrameType e) plane = Ok 3 -> readLrType e plane s = Ok (ty, s1) -> zlen (lRefW g) = 3 -> (forall w p, idx (lRefW g) p = Ok w -> exists x, idx2 w 0 0 = Ok x) -> 0 <= plane < 3 ->
  in_tile (fst s1) endp -> (ty = 1 \/ (row <> 0 \/ col <> 0) /\ lr_shape g) -> readLrUnit e plane row col g s = Panic.
Proof.
  intros e plane row col g endp s ty s1 HR HF ER HL HW Hp HT [-> | [HN HS]]; unfold readLrUnit; rewrite bind_eq, ER; cbv beta iota; rewrite bind_eq; unfold lift at 1.
  - destruct (upd3 _ _ _ _ _) as [lt| |] eqn:EU; [|reflexivity|]. 2: now apply upd3_nh in EU.
    cbv beta iota zeta. change (1 =? RESTORE_WIENER) with true. cbv iota. destruct (plane =? 1); [reflexivity|]. cbn [lRefW]. rewrite bind_eq. unfold lift at 1. unfold idx3.
    destruct (idx (lRefW g) plane) as [w| |] eqn:EW; [|reflexivity|now apply idx_nh in EW]. cbn [rbind]. destruct (HW w plane EW) as (x & ->). cbv beta iota.
    rewrite bind_eq. unfold lift at 1. change (idx Wiener_Taps_Min 0) with (Ok (-5)). cbv beta iota. rewrite bind_eq. unfold lift at 1. change (idx Wiener_Taps_Max 0) with (Ok 10). cbv beta iota. rewrite bind_eq. unfold lift at 1. change (idx Wiener_Taps_K 0) with (Ok 1). cbv beta iota.
    rewrite bind_eq. destruct (taps_safe (lDis e) (-5) (10 + 1) 1 x endp s1 ltac:(lia) HT) as (v & s' & ->). reflexivity.
  - destruct HS as ((t0 & t1 & t2 & ET) & _). rewrite ET. assert (EU : upd3 [[[t0]]; [[t1]]; [[t2]]] plane row col ty = Panic).
    { assert (P : plane = 0 \/ plane = 1 \/ plane = 2) by lia. assert (O : forall x : Z, upd2 [[x]] row col ty = Panic).
      { intros x. unfold upd2. destruct (Z.eq_dec row 0) as [->|Nr]; [change (idx [[x]] 0) with (Ok [x]); cbn [rbind]|].
        - destruct HN as [HN|HN]; [lia|]. destruct (upd [x] col ty) as [l| |] eqn:EU; [|reflexivity|now apply upd_nh in EU]. apply upd_inv in EU as [Hc _]. unfold zlen in Hc. cbn in Hc. lia.
        - rewrite idx_panic; [reflexivity|]. unfold zlen; cbn; lia. }
      destruct P as [-> | [-> | ->]]; unfold upd3; [change (idx [[[t0]]; [[t1]]; [[t2]]] 0) with (Ok [[t0]])|change (idx [[[t0]]; [[t1]]; [[t2]]] 1) with (Ok [[t1]])|change (idx [[[t0]]; [[t1]]; [[t2]]] 2) with (Ok [[t2]])]; cbn [rbind]; rewrite O; reflexivity. }
    rewrite EU. reflexivity.
Qed.
Print Assumptions C129_wiener_refuted.
(** With intra block copy nothing is read or changed. *)
Theorem C129_intrabc_partial : forall e r c bSize g s, lIntraBc e = true -> readLr e r c bSize g s = Ok (g, s).
Proof. intros e r c bSize g s H. unfold readLr. rewrite H. reflexivity. Qed.
Print Assumptions C129_intrabc_partial.
Definition demo_lr : LEnv := mkLEnv true false 3 [3; 3; 3] true true [64; 32; 32] 64 64 false 0.
Definition demo_lst : LSt := mkLSt [[[0]]; [[0]]; [[0]]] [[[0]]; [[0]]; [[0]]] [[[[0; 0]]]; [[[0; 0]]]; [[[0; 0]]]] [] [[-32; 31]; [-32; 31]; [-32; 31]].
Definition demo_lr_es v : ES := (mkDec v 40000 9 (mkBS [0xA5; 0x5A; 0xF0] 15 0), demo_heap).
(** Three states that give a self-guided filter with two weights, one with one, and no filter; a Wiener filter panics. *)
Definition stored_value (r : res (LSt * ES)) : option (list (list (list Z)) * list (list (list (list Z)))) := match r with Ok (g, _) => Some (lSet g, lXqd g) | _ => None end.
Example C129_case : lr_shape demo_lst /\ lr_ready 24 (demo_lr_es 9000) /\ idx (lFrameType demo_lr) 0 = Ok 3 /\ idx (lRefX demo_lst) 0 = Ok [-32; 31] /\
  spec_value (run true (std_unit 2 true [] [] (-32) 31) (fst (demo_lr_es 9000)) (snd (demo_lr_es 9000))) = Some (SelfGuided 4 (-38) 20) /\ stored_value (readLrUnit demo_lr 0 0 0 demo_lst (demo_lr_es 9000)) = Some ([[[4]]; [[0]]; [[0]]], [[[[-38; 20]]]; [[[0; 0]]]; [[[0; 0]]]]) /\
  spec_value (run true (std_unit 2 true [] [] (-32) 31) (fst (demo_lr_es 1000)) (snd (demo_lr_es 1000))) = Some (SelfGuided 14 (-47) 95) /\
  spec_value (run true (std_unit 2 true [] [] (-32) 31) (fst (demo_lr_es 32000)) (snd (demo_lr_es 32000))) = Some NoFilter /\
  value_of (readLrType demo_lr 0 (demo_lr_es 15000)) = Some 1 /\ stored_value (readLrUnit demo_lr 0 0 0 demo_lst (demo_lr_es 15000)) = None.
Proof.
  split; [unfold lr_shape; cbn; split; [|split; [|split]]; repeat eexists|]. split; [split; [unfold in_tile, demo_lr_es, zlen; cbn; lia|apply table_okb_ok; vm_compute; reflexivity]|].
  split; [reflexivity|]. split; [reflexivity|]. split; [vm_compute; reflexivity|]. split; [vm_compute; reflexivity|]. split; [vm_compute; reflexivity|]. split; [vm_compute; reflexivity|]. split; vm_compute; reflexivity.
Qed.
