(** C41 (Walsh-Hadamard), C68 (dequantisation), C69 (quantizer steps), C70 (inverse transforms), C71 (reconstruction). *)
From Verif Require Import GoBase Bitstream BitstreamProofs Util UtilProofs PropUtil Constants Tables Frame Fill2 Transform SpecFilter LoopFilterProofs SpecTransform.

(** ** C41 *)
(** What the model of the forward transform means: sums with Hadamard signs, halved. *)
Lemma forward_wht_meaning x0 x1 x2 x3 : let '(y0, y1, y2, y3) := forward_wht x0 x1 x2 x3 in
  halves y0 (x0 + x1 + x2 + x3) /\ halves y1 (x0 + x1 - x2 - x3) /\ halves y2 (x0 - x1 - x2 + x3) /\ halves y3 (x0 - x1 + x2 - x3).
Proof. unfold forward_wht, halves. cbv zeta. pose proof (Z.div_mod (x0 + x1 - (x3 - x2)) 2 ltac:(lia)). pose proof (Z.mod_pos_bound (x0 + x1 - (x3 - x2)) 2 ltac:(lia)). lia. Qed.

Lemma wht_run shift t0 t1 t2 t3 rest : 0 <= shift -> inverseWHT shift (t0 :: t1 :: t2 :: t3 :: rest) =
  (let a := t0 / 2 ^ shift + t1 / 2 ^ shift in let d := t2 / 2 ^ shift - t3 / 2 ^ shift in let e := (a - d) / 2 in
   let b := e - t3 / 2 ^ shift in let c := e - t1 / 2 ^ shift in Ok (a - b :: b :: c :: d + c :: rest)).
Proof.
  intros Hs. unfold inverseWHT.
  assert (I : forall k, 0 <= k < 4 -> idx (t0 :: t1 :: t2 :: t3 :: rest) k = Ok (nth (Z.to_nat k) (t0 :: t1 :: t2 :: t3 :: rest) 0)) by (intros; apply idx_ok; unfold zlen; cbn [length]; lia).
  rewrite !I by lia. change (Z.to_nat 0) with 0%nat. change (Z.to_nat 1) with 1%nat. change (Z.to_nat 2) with 2%nat. change (Z.to_nat 3) with 3%nat. cbn [rbind nth]. cbv zeta.
  rewrite !shr_div by lia. change (2 ^ 1) with 2.
  unfold upd. cbn [Z.ltb Z.compare orb].
  repeat (match goal with |- context [zlen ?l <=? ?k] => replace (zlen l <=? k) with false by (symmetry; apply Z.leb_gt; unfold zlen; cbn [length]; lia) end; cbn [rbind upd_nat]; change (Z.to_nat 0) with 0%nat; change (Z.to_nat 1) with 1%nat; change (Z.to_nat 2) with 2%nat; change (Z.to_nat 3) with 3%nat; cbn [upd_nat]; cbn [orb]).
  reflexivity.
Qed.
(** The one-dimensional inverse inverts the forward transform, for all integers; with the scale 4 of coded coefficients removed by the shift. *)
Theorem C41_wht_row_partial : forall shift x0 x1 x2 x3 rest, 0 <= shift ->
  let '(y0, y1, y2, y3) := forward_wht x0 x1 x2 x3 in
  inverseWHT shift (y0 * 2 ^ shift :: y1 * 2 ^ shift :: y2 * 2 ^ shift :: y3 * 2 ^ shift :: rest) = Ok (x0 :: x1 :: x2 :: x3 :: rest).
Proof.
  intros shift x0 x1 x2 x3 rest Hs. unfold forward_wht. cbv zeta. rewrite wht_run by exact Hs. cbv zeta. assert (0 < 2 ^ shift) by (apply Z.pow_pos_nonneg; lia). rewrite !Z.div_mul by lia.
  pose proof (Z.div_mod (x0 + x1 - (x3 - x2)) 2 ltac:(lia)) as D1. pose proof (Z.mod_pos_bound (x0 + x1 - (x3 - x2)) 2 ltac:(lia)) as D2.
  set (e := (x0 + x1 - (x3 - x2)) / 2) in *.
  replace (x0 + x1 - (e - x2) + (e - x2) - (x3 - x2 + (e - x1) - (e - x1))) with (x0 + x1 - (x3 - x2)) by lia. fold e. repeat f_equal; lia.
Qed.
Print Assumptions C41_wht_row_partial.
(** It is a bijection: every four values come from exactly one residual. *)
Theorem C41_wht_bijective_partial : forall y0 y1 y2 y3 rest, exists x0 x1 x2 x3, inverseWHT 0 (y0 :: y1 :: y2 :: y3 :: rest) = Ok (x0 :: x1 :: x2 :: x3 :: rest) /\ forward_wht x0 x1 x2 x3 = (y0, y1, y2, y3).
Proof.
  intros. rewrite wht_run by lia. cbv zeta. rewrite !Z.div_1_r. do 4 eexists. split; [reflexivity|]. unfold forward_wht. cbv zeta.
  set (e := (y0 + y1 - (y2 - y3)) / 2).
  replace (y0 + y1 - (e - y3) + (e - y3) - (y2 - y3 + (e - y1) - (e - y1))) with (y0 + y1 - (y2 - y3)) by lia. fold e. repeat f_equal; lia.
Qed.
Print Assumptions C41_wht_bijective_partial.
Example C41_case : forward_wht 7 (-3) 12 5 = (11, -7, 1, 8) /\ inverseWHT 2 [44; -28; 4; 32] = Ok [7; -3; 12; 5].
Proof. split; vm_compute; reflexivity. Qed.

Lemma tx_log2_range txSz l : idx TX_WIDTH_LOG2 txSz = Ok l \/ idx TX_HEIGHT_LOG2 txSz = Ok l -> 2 <= l <= 6.
Proof.
  assert (F1 : Forall (fun v => 2 <= v <= 6) TX_WIDTH_LOG2) by (unfold TX_WIDTH_LOG2; repeat constructor; lia).
  assert (F2 : Forall (fun v => 2 <= v <= 6) TX_HEIGHT_LOG2) by (unfold TX_HEIGHT_LOG2; repeat constructor; lia).
  intros [H|H]; [exact (idx_Forall _ _ _ _ F1 H)|exact (idx_Forall _ _ _ _ F2 H)].
Qed.
Lemma pow_log l : 2 <= l <= 6 -> shl 1 l = 2 ^ l /\ 4 <= 2 ^ l <= 64.
Proof. intros H. assert (l = 2 \/ l = 3 \/ l = 4 \/ l = 5 \/ l = 6) as [->|[->|[->|[->| ->]]]] by lia; split; try reflexivity; vm_compute; split; congruence. Qed.

(** Refuted for blocks: the working row is a nil slice that is never allocated, so every inverse transform of a block panics. *)
Theorem C41_block_refuted : forall lossless txType txSz bd deq R, inverseTransform lossless txType txSz bd deq ([], R) = Panic.
Proof.
  intros. unfold inverseTransform. destruct (idx TX_WIDTH_LOG2 txSz) as [lw| |] eqn:EW; cbn [rbind]; [|reflexivity|exfalso; revert EW; apply idx_nh].
  destruct (idx TX_HEIGHT_LOG2 txSz) as [lh| |] eqn:EH; cbn [rbind]; [|reflexivity|exfalso; revert EH; apply idx_nh].
  pose proof (tx_log2_range txSz lw (or_introl EW)) as RW. pose proof (tx_log2_range txSz lh (or_intror EH)) as RH. destruct (pow_log lw RW) as [PW PW']. destruct (pow_log lh RH) as [PH PH'].
  assert (RS : exists m, (if lossless then Ok 0 else idx Transform_Row_Shift txSz) = m /\ m <> Hang) by (destruct lossless; eexists; (split; [reflexivity|]); [discriminate|apply idx_nh]).
  destruct RS as (m & -> & NH). destruct m as [rs| |]; cbn [rbind]; [|reflexivity|contradiction].
  rewrite PW, PH. unfold rfor_to at 1. replace (Z.to_nat (2 ^ lh - 0)) with (S (Z.to_nat (2 ^ lh - 1))) by lia. cbn [rfor_from].
  unfold rowPass at 1. rewrite PW. cbv zeta. unfold rfor_to at 1. replace (Z.to_nat (2 ^ lw - 0)) with (S (Z.to_nat (2 ^ lw - 1))) by lia. cbn [rfor_from].
  change ((0 <? 32) && (0 <? 32)) with true. cbv iota. destruct (idx2 deq 0 0) as [v| |] eqn:E; cbn [rbind]; [reflexivity|reflexivity|exfalso; revert E; apply idx2_nh].
Qed.
Print Assumptions C41_block_refuted.

(** Refuted even if the row were allocated: every block that is returned has identical rows, so a residual whose rows differ cannot be reconstructed. *)
Theorem C41_rows_refuted : forall lossless txType txSz bd deq s T R lw lh, inverseTransform lossless txType txSz bd deq s = Ok (T, R) -> idx TX_WIDTH_LOG2 txSz = Ok lw -> idx TX_HEIGHT_LOG2 txSz = Ok lh ->
  forall i i' j, 0 <= i < 2 ^ lh -> 0 <= i' < 2 ^ lh -> 0 <= j < 2 ^ lw -> exists v, idx2 R i j = Ok v /\ idx2 R i' j = Ok v.
Proof.
  intros lossless txType txSz bd deq s T R lw lh H EW EH. unfold inverseTransform in H. rewrite EW, EH in H. cbn [rbind] in H. cbv zeta in H.
  pose proof (tx_log2_range txSz lw (or_introl EW)) as RW. pose proof (tx_log2_range txSz lh (or_intror EH)) as RH. destruct (pow_log lw RW) as [PW PW']. destruct (pow_log lh RH) as [PH PH'].
  apply rbind_inv in H as (rs & _ & H). apply rbind_inv in H as ([T0 R0] & _ & H). apply rbind_inv in H as (R1 & _ & H). rewrite PW in H. unfold rfor_to in H.
  set (cs := if lossless then 0 else 4) in *. clearbody cs. set (rg := Max (bd + 6) 16) in *. clearbody rg.
  enough (K : (fun m (s : tst) => forall i i' j, 0 <= i < 2 ^ lh -> 0 <= i' < 2 ^ lh -> 0 <= j < m -> exists v, idx2 (snd s) i j = Ok v /\ idx2 (snd s) i' j = Ok v) (0 + Z.of_nat (Z.to_nat (2 ^ lw - 0))) (T, R)).
  { cbv beta in K. cbn [snd] in K. rewrite Z2Nat.id in K by lia. replace (0 + (2 ^ lw - 0)) with (2 ^ lw) in K by lia. exact K. }
  revert H. apply (rfor_from_post (fun m (s : tst) => forall i i' j, 0 <= i < 2 ^ lh -> 0 <= i' < 2 ^ lh -> 0 <= j < m -> exists v, idx2 (snd s) i j = Ok v /\ idx2 (snd s) i' j = Ok v)).
  - intros; lia.
  - intros j0 [Ta Ra] [Tb Rb] Hj0 IH E. unfold colPass in E. apply rbind_inv in E as (T1 & _ & E). rewrite PH in E. apply rbind_inv in E as (R2 & E & [= <- <-]). cbn [snd] in *.
    assert (PP : (forall i, 0 <= i < 2 ^ lh -> exists v, (let! u := idx T1 j0 in Round2 u cs) = Ok v /\ idx2 R2 i j0 = Ok v) /\ (forall y x, x <> j0 -> idx2 R2 y x = idx2 Ra y x)).
    { unfold rfor_to in E.
      enough (K : (fun m R2 => (forall i, 0 <= i < m -> exists v, (let! u := idx T1 j0 in Round2 u cs) = Ok v /\ idx2 R2 i j0 = Ok v) /\ (forall y x, x <> j0 -> idx2 R2 y x = idx2 Ra y x)) (0 + Z.of_nat (Z.to_nat (2 ^ lh - 0))) R2).
      { cbv beta in K. rewrite Z2Nat.id in K by lia. replace (0 + (2 ^ lh - 0)) with (2 ^ lh) in K by lia. exact K. }
      revert E. apply (rfor_from_post (fun m R2 => (forall i, 0 <= i < m -> exists v, (let! u := idx T1 j0 in Round2 u cs) = Ok v /\ idx2 R2 i j0 = Ok v) /\ (forall y x, x <> j0 -> idx2 R2 y x = idx2 Ra y x))).
      - split; [intros; lia|reflexivity].
      - intros i a b Hi [A B] E. apply rbind_inv in E as (u & Eu & E). apply rbind_inv in E as (u' & Eu' & E). split.
        + intros i0 Hi0. destruct (Z.eq_dec i0 i) as [->|N]; [exists u'; rewrite Eu; cbn [rbind]; split; [exact Eu'|exact (idx2_upd2_same _ _ _ _ _ E)]|].
          destruct (A i0 ltac:(lia)) as (v & Ev & Iv). exists v. split; [exact Ev|]. rewrite (idx2_upd2_other _ _ _ _ _ _ _ E); [exact Iv|]. intros [= ]; congruence.
        + intros y x N. rewrite (idx2_upd2_other _ _ _ _ _ _ _ E); [apply B; exact N|]. intros [= ]; congruence. }
    destruct PP as [P1 P2]. intros i i' j Hi Hi' Hj. destruct (Z.eq_dec j j0) as [->|N].
    + destruct (P1 i Hi) as (v & Ev & Iv). destruct (P1 i' Hi') as (v' & Ev' & Iv'). exists v. split; [exact Iv|]. congruence.
    + rewrite !P2 by exact N. apply IH; try assumption. lia.
Qed.
Print Assumptions C41_rows_refuted.
Example C41_rows_case : exists T R, inverseTransform true 0 0 8 [[44; -28; 12; 32]; [0; 0; 0; 0]; [0; 0; 0; 0]; [0; 0; 0; 0]] ([0; 0; 0; 0], repeat [0; 0; 0; 0] 4) = Ok (T, R).
Proof. eexists _, _. vm_compute. reflexivity. Qed.

(** ** C69 quantizer steps *)
(** table index of a bit depth, for bit depths 8, 10, 12 *)
Definition bd_ix (bd : Z) : Z := (bd - 8) / 2.
Lemma tables_256 : map (@zlen Z) Dc_Qlookup = [256; 256; 256] /\ map (@zlen Z) Ac_Qlookup = [256; 256; 256].
Proof. split; vm_compute; reflexivity. Qed.
Fixpoint increasing (l : list Z) : bool := match l with a :: ((b :: _) as r) => (a <=? b) && increasing r | _ => true end.
Lemma increasing_nth l : increasing l = true -> forall i j, (i <= j < length l)%nat -> nth i l 0 <= nth j l 0.
Proof.
  induction l as [|a l IH]; cbn [length]; [lia|]. intros H i j Hij. destruct l as [|b l]; [assert (i = 0 /\ j = 0)%nat as [-> ->] by (cbn [length] in Hij; lia); lia|].
  cbn [increasing] in H. apply andb_prop in H as [Hab H]. apply Z.leb_le in Hab. destruct j as [|j]; [assert (i = 0)%nat as -> by lia; lia|].
  destruct i as [|i]; [|cbn [nth]; apply (IH H); lia]. cbn [nth]. assert (K : nth 0 (b :: l) 0 <= nth j (b :: l) 0) by (apply (IH H); lia). cbn [nth] in K. lia.
Qed.
Lemma Dc_rows : forall k row, idx Dc_Qlookup k = Ok row -> zlen row = 256 /\ increasing row = true /\ nth 0 row 0 = 4 /\ nth 255 row 0 = nth (Z.to_nat k) [1336; 5347; 21387] 0.
Proof.
  intros k row H. pose proof (idx_inv _ _ _ H) as I. assert (k = 0 \/ k = 1 \/ k = 2) as [-> | [-> | ->]] by (change (zlen Dc_Qlookup) with 3 in I; lia);
    (unfold Dc_Qlookup, idx in H; cbn [nth_error Z.to_nat Pos.to_nat Pos.iter_op Nat.add] in H;
     revert H; match goal with |- ?l = Ok row -> _ => let t := eval vm_compute in l in change l with t end; intros [= <-]; repeat split; vm_compute; reflexivity).
Qed.
(** The DC step of a quantizer index [b] (any integer: out of range values are clamped) exists for bit depths 8, 10 and 12, grows with the index and runs from 4 to 1336, 5347 and 21387. *)
Theorem C69_dc_step_partial : forall bd, bd = 8 \/ bd = 10 \/ bd = 12 -> exists step : Z -> Z,
  (forall b, dcQ b bd = Ok (step b)) /\ (forall b, step b = step (clamp 0 255 b)) /\ (forall b c, b <= c -> step b <= step c) /\
  step 0 = 4 /\ step 255 = (if bd =? 8 then 1336 else if bd =? 10 then 5347 else 21387).
Proof.
  intros bd Hbd. assert (Hr : exists row, idx Dc_Qlookup (shr (bd - 8) 1) = Ok row) by (destruct Hbd as [->|[->| ->]]; eexists; vm_compute; reflexivity).
  destruct Hr as [row Hr]. destruct (Dc_rows _ _ Hr) as (L & I & F0 & F1). exists (fun b => nth (Z.to_nat (Clip3 0 255 b)) row 0).
  assert (C : forall b, 0 <= Clip3 0 255 b <= 255) by (intro; apply Clip3_range; lia).
  split; [|split; [|split; [|split]]].
  - intros b. unfold dcQ, idx2. rewrite Hr. cbn [rbind]. specialize (C b). apply idx_ok. lia.
  - intros b. rewrite !Clip3_clamp by lia. unfold clamp. do 2 f_equal. lia.
  - intros b c H. apply increasing_nth; [exact I|]. pose proof (C b). pose proof (C c). unfold zlen in L. rewrite !Clip3_clamp in * by lia. unfold clamp in *. lia.
  - exact F0.
  - change (Z.to_nat (Clip3 0 255 255)) with 255%nat. rewrite F1. destruct Hbd as [->|[->| ->]]; reflexivity.
Qed.
Print Assumptions C69_dc_step_partial.
(** Refuted: AC coefficients get the DC step, smaller than the AC step of the standard's table (which is in the code but unused) at every index from 4 on, for all bit depths. *)
Definition ac_steps_larger : bool :=
  forallb (fun k => forallb (fun b => match idx2 Dc_Qlookup k b, idx2 Ac_Qlookup k b with Ok d, Ok a => d <? a | _, _ => false end) (map Z.of_nat (seq 4 252))) [0; 1; 2].
Theorem C69_ac_step_refuted : forall bd b, bd = 8 \/ bd = 10 \/ bd = 12 -> 4 <= b -> exists s s', acQ b bd = Ok s /\ idx2 Ac_Qlookup (bd_ix bd) (Z.min 255 b) = Ok s' /\ s < s'.
Proof.
  intros bd b Hbd Hb. assert (A : ac_steps_larger = true) by (vm_compute; reflexivity). unfold ac_steps_larger in A. rewrite forallb_forall in A.
  assert (B : In (bd_ix bd) [0; 1; 2]) by (destruct Hbd as [->|[->| ->]]; vm_compute; auto). specialize (A _ B). rewrite forallb_forall in A.
  assert (C : In (Z.min 255 b) (map Z.of_nat (seq 4 252))) by (apply in_map_iff; exists (Z.to_nat (Z.min 255 b)); split; [lia|apply in_seq; lia]). specialize (A _ C).
  unfold acQ. rewrite Clip3_clamp by lia. replace (clamp 0 255 b) with (Z.min 255 b) by (unfold clamp; lia). rewrite shr_div by lia. change ((bd - 8) / 2 ^ 1) with (bd_ix bd).
  destruct (idx2 Dc_Qlookup (bd_ix bd) (Z.min 255 b)) as [d| |]; try discriminate. destruct (idx2 Ac_Qlookup (bd_ix bd) (Z.min 255 b)) as [a| |]; try discriminate.
  apply Z.ltb_lt in A. eauto.
Qed.
Print Assumptions C69_ac_step_refuted.
Example C69_case : dcQ 100 8 = Ok 93 /\ acQ 100 8 = Ok 93 /\ idx2 Ac_Qlookup 0 100 = Ok 112.
Proof. repeat split; vm_compute; reflexivity. Qed.

(** ** C68 dequantisation *)
Lemma dqDenom_divisor txSz : 0 <= txSz <= 18 -> dqDenom txSz = dq_divisor txSz.
Proof.
  intros H. assert (A : forallb (fun t => dqDenom t =? dq_divisor t) (map Z.of_nat (seq 0 19)) = true) by (vm_compute; reflexivity). rewrite forallb_forall in A.
  apply Z.eqb_eq, A, in_map_iff. exists (Z.to_nat txSz). split; [lia|apply in_seq; lia].
Qed.
Lemma divisor_pos txSz : 1 <= dq_divisor txSz <= 4.
Proof. unfold dq_divisor. destruct (tx_log2 txSz) as [w h]. destruct (w + h <=? 8); [lia|]. destruct (w + h <=? 10); lia. Qed.
Lemma saturate_clip bd v : 8 <= bd <= 12 -> Clip3 (- shl 1 (7 + bd)) (shl 1 (7 + bd) - 1) v = saturate (bd + 8) v.
Proof.
  intros H. replace (bd + 8) with (1 + (7 + bd)) by lia. unfold saturate. replace (1 + (7 + bd) - 1) with (7 + bd) by lia.
  assert (0 < 2 ^ (7 + bd) <= 2 ^ 19) by (split; [apply Z.pow_pos_nonneg; lia|apply Z.pow_le_mono_r; lia]). change (2 ^ 19) with 524288 in *.
  rewrite shl_small; [|lia|change (2 ^ 63) with 9223372036854775808; lia]. rewrite Clip3_clamp by lia. unfold clamp. rewrite Z.mul_1_l. lia.
Qed.
Lemma saturate_range bits v : 1 <= bits -> - 2 ^ (bits - 1) <= saturate bits v <= 2 ^ (bits - 1) - 1.
Proof. intros H. unfold saturate. assert (0 < 2 ^ (bits - 1)) by (apply Z.pow_pos_nonneg; lia). lia. Qed.
Lemma dequant_arith bd c s txSz : 8 <= bd <= 12 -> 0 <= txSz <= 18 -> - 2 ^ 62 <= c * s <= 2 ^ 62 ->
  Clip3 (- shl 1 (7 + bd)) (shl 1 (7 + bd) - 1) (Z.quot ((if c * s <? 0 then -1 else 1) * Z.land (Abs (c * s)) 16777215) (dqDenom txSz)) = dequantised bd s (dq_divisor txSz) c.
Proof.
  intros Hbd Ht Hc. rewrite saturate_clip by exact Hbd. unfold dequantised. f_equal. rewrite Abs_abs by exact Hc. rewrite dqDenom_divisor by exact Ht. pose proof (divisor_pos txSz) as D.
  change 16777215 with (Z.ones 24). rewrite Z.land_ones by lia. pose proof (Z.mod_pos_bound (Z.abs (c * s)) (2 ^ 24) ltac:(lia)) as M.
  destruct (Z.ltb_spec (c * s) 0).
  - rewrite Z.sgn_neg by lia. replace (-1 * (Z.abs (c * s) mod 2 ^ 24)) with (- (Z.abs (c * s) mod 2 ^ 24)) by lia. rewrite Z.quot_opp_l by lia. rewrite Z.quot_div_nonneg by lia. lia.
  - rewrite Z.mul_1_l. rewrite Z.quot_div_nonneg by lia. destruct (Z.eq_dec (c * s) 0) as [->|]; [reflexivity|]. rewrite Z.sgn_pos by lia. lia.
Qed.
(** the quantizer step a coefficient is multiplied with: the DC step for the first coefficient, the AC step for the others, scaled by the matrix entry (in 1/32) where a matrix applies *)
Definition plane_step (q : QEnv) (plane i j : Z) : res Z := if (i =? 0) && (j =? 0) then getDcQuant q plane else getAcQuant q plane.
Definition no_matrix (q : QEnv) (plane txType : Z) : Prop := qUsing q = false \/ IDTX <= txType \/ exists l, idx (qLevel q) plane = Ok l /\ 15 <= l.
Definition has_matrix (q : QEnv) (plane txType l : Z) : Prop := qUsing q = true /\ txType < IDTX /\ idx (qLevel q) plane = Ok l /\ l < 15.

(** Every coefficient is dequantised as the standard prescribes: without matrix ... *)
Theorem C68_coefficient : forall q quant plane txSz txType tw i j c s, 8 <= qBitDepth q <= 12 -> 0 <= txSz <= 18 -> no_matrix q plane txType ->
  plane_step q plane i j = Ok s -> idx quant (i * tw + j) = Ok c -> - 2 ^ 62 <= c * s <= 2 ^ 62 ->
  dequantOne q quant plane txSz txType tw i j = Ok (dequantised (qBitDepth q) s (dq_divisor txSz) c).
Proof.
  intros q quant plane txSz txType tw i j c s Hbd Ht HM HS HQ Hc. unfold dequantOne. fold (plane_step q plane i j). rewrite HS. cbn [rbind].
  rewrite <- (dequant_arith _ _ _ _ Hbd Ht Hc).
  destruct HM as [-> | [H | (l & -> & Hl)]].
  - cbn [andb rbind]. rewrite HQ. reflexivity.
  - replace (txType <? IDTX) with false by (symmetry; apply Z.ltb_ge; exact H). rewrite andb_false_r. cbn [rbind]. rewrite HQ. reflexivity.
  - destruct (qUsing q && (txType <? IDTX)); cbn [rbind]; [replace (l <? 15) with false by (symmetry; apply Z.ltb_ge; exact Hl); cbn [rbind]|]; rewrite HQ; reflexivity.
Qed.
Print Assumptions C68_coefficient.
(** ... and with it. *)
Theorem C68_coefficient_matrix : forall q quant plane txSz txType tw i j c s l o m, 8 <= qBitDepth q <= 12 -> 0 <= txSz <= 18 -> has_matrix q plane txType l ->
  plane_step q plane i j = Ok s -> idx Qm_Offset txSz = Ok o -> idx3 (qMatrix q) l (if 0 <? plane then 1 else 0) (o + i * tw + j) = Ok m -> idx quant (i * tw + j) = Ok c ->
  - 2 ^ 61 <= s * m <= 2 ^ 61 -> - 2 ^ 62 <= c * ((s * m + 16) / 32) <= 2 ^ 62 ->
  dequantOne q quant plane txSz txType tw i j = Ok (dequantised (qBitDepth q) ((s * m + 16) / 32) (dq_divisor txSz) c).
Proof.
  intros q quant plane txSz txType tw i j c s l o m Hbd Ht (H1 & H2 & H3 & H4) HS HO HX HQ Hsm Hc. unfold dequantOne. fold (plane_step q plane i j). rewrite HS. cbn [rbind].
  rewrite <- (dequant_arith _ _ _ _ Hbd Ht Hc). rewrite H1. replace (txType <? IDTX) with true by (symmetry; apply Z.ltb_lt; exact H2). cbn [andb]. rewrite H3. cbn [rbind].
  replace (l <? 15) with true by (symmetry; apply Z.ltb_lt; exact H4). rewrite HO. cbn [rbind]. replace (int_of (0 <? plane)) with (if 0 <? plane then 1 else 0) by reflexivity. rewrite HX. cbn [rbind].
  rewrite Round2_spec; [|lia|change (2 ^ 61) with 2305843009213693952 in Hsm; change (2 ^ 62) with 4611686018427387904; lia]. change (5 =? 0) with false. cbv iota. change (2 ^ (5 - 1)) with 16. change (2 ^ 5) with 32. cbn [rbind]. rewrite HQ. reflexivity.
Qed.
Print Assumptions C68_coefficient_matrix.
Definition q_case : QEnv := mkQEnv 8 (Ok 100) 0 0 0 0 0 true [3; 15; 15] [[]; []; []; [[32; 43; 73; 97]]].
Example C68_case : dequantOne q_case [7; -9; 0; 400] 0 0 0 4 0 1 = Ok (-1125) /\ has_matrix q_case 0 0 3 /\ dequantOne q_case [7; -9; 0; 40000] 2 3 0 4 0 3 = Ok 32767.
Proof. split; [vm_compute; reflexivity|]. split; [repeat split; vm_compute; reflexivity|vm_compute; reflexivity]. Qed.

(** Whole blocks: when dequantisation returns, each coefficient of the coded part of the block (at most 32 by 32) has its dequantised value, in the bitdepth + 8 bit range, and no other entry of the table changed. *)
Lemma min32 lw : 2 <= lw <= 6 -> 4 <= Min 32 (shl 1 lw) <= 32.
Proof. intros H. assert (lw = 2 \/ lw = 3 \/ lw = 4 \/ lw = 5 \/ lw = 6) as [->|[->|[->|[->| ->]]]] by lia; vm_compute; split; congruence. Qed.
Theorem C68_block : forall q quant plane txSz txType deq deq' lw lh, dequantize q quant plane txSz txType deq = Ok deq' -> idx TX_WIDTH_LOG2 txSz = Ok lw -> idx TX_HEIGHT_LOG2 txSz = Ok lh ->
  let tw := Z.min 32 (2 ^ lw) in let th := Z.min 32 (2 ^ lh) in
  (forall i j, 0 <= i < th -> 0 <= j < tw -> exists v, dequantOne q quant plane txSz txType tw i j = Ok v /\ idx2 deq' i j = Ok v /\ (8 <= qBitDepth q <= 12 -> - 2 ^ (qBitDepth q + 7) <= v <= 2 ^ (qBitDepth q + 7) - 1)) /\
  (forall i j, ~ (0 <= i < th /\ 0 <= j < tw) -> idx2 deq' i j = idx2 deq i j).
Proof.
  intros q quant plane txSz txType deq deq' lw lh H EW EH. unfold dequantize in H. rewrite EW, EH in H. cbn [rbind] in H. cbv zeta in H.
  pose proof (tx_log2_range txSz lw (or_introl EW)) as RW. pose proof (tx_log2_range txSz lh (or_intror EH)) as RH. pose proof (min32 lw RW) as MW. pose proof (min32 lh RH) as MH.
  destruct (pow_log lw RW) as [PW _]. destruct (pow_log lh RH) as [PH _]. cbv zeta.
  assert (EQ : forall a, Min 32 a = Z.min 32 a) by (intro a; unfold Min; repeat match goal with |- context [?x <? ?y] => destruct (Z.ltb_spec x y) | |- context [?x <=? ?y] => destruct (Z.leb_spec x y) end; lia).
  rewrite PW, PH, !EQ in *. set (tw := Z.min 32 (2 ^ lw)) in *. set (th := Z.min 32 (2 ^ lh)) in *.
  pose proof (fill2_post (fun i j => dequantOne q quant plane txSz txType tw i j) 0 0 (fun i => i) (fun j => j) ltac:(reflexivity) ltac:(reflexivity) 0 th 0 tw deq deq' ltac:(lia) ltac:(lia) H) as [A B].
  split.
  - intros i j Hi Hj. destruct (A i j Hi Hj) as (v & Ev & Iv). exists v. split; [exact Ev|]. split; [exact Iv|]. intros Hbd. unfold dequantOne in Ev.
    apply rbind_inv in Ev as (s & _ & Ev). apply rbind_inv in Ev as (level & _ & Ev). apply rbind_inv in Ev as (s2 & _ & Ev). apply rbind_inv in Ev as (c & _ & Ev). cbv zeta in Ev.
    rewrite saturate_clip in Ev by exact Hbd. injection Ev as <-. match goal with |- _ <= saturate ?b ?v <= _ => pose proof (saturate_range b v ltac:(lia)) as K end. replace (qBitDepth q + 8 - 1) with (qBitDepth q + 7) in K by lia. exact K.
  - intros i j N. apply B. lia.
Qed.
Print Assumptions C68_block.
(** And it returns for every block without matrix, whatever the quantizer index, with the 64x64 and 4096-entry buffers of the decoder. *)
Theorem C68_total : forall q quant plane txSz txType deq b, qBitDepth q = 8 \/ qBitDepth q = 10 \/ qBitDepth q = 12 -> 0 <= txSz <= 18 -> no_matrix q plane txType -> qIndex q = Ok b ->
  zlen quant = 4096 -> (forall y x, 0 <= y < 64 -> 0 <= x < 64 -> exists v, idx2 deq y x = Ok v) -> exists deq', dequantize q quant plane txSz txType deq = Ok deq'.
Proof.
  intros q quant plane txSz txType deq b Hbd Ht HM HI HQ HD. unfold dequantize.
  assert (IX : forall l, zlen l = 19 -> exists v, idx l txSz = Ok v) by (intros l Hl; eexists; apply (idx_ok l txSz 0); lia).
  destruct (IX TX_WIDTH_LOG2 eq_refl) as [lw EW]. destruct (IX TX_HEIGHT_LOG2 eq_refl) as [lh EH]. rewrite EW, EH. cbn [rbind]. cbv zeta.
  pose proof (min32 lw (tx_log2_range txSz lw (or_introl EW))) as MW. pose proof (min32 lh (tx_log2_range txSz lh (or_intror EH))) as MH. set (tw := Min 32 (shl 1 lw)) in *. set (th := Min 32 (shl 1 lh)) in *.
  destruct (fill2_ok (fun i j => dequantOne q quant plane txSz txType tw i j) 0 0 (fun i => i) (fun j => j) ltac:(reflexivity) ltac:(reflexivity) 0 th 0 tw deq ltac:(lia) ltac:(lia)) as (deq' & E & _); [| |exists deq'; exact E].
  - intros i j Hi Hj. destruct (C69_dc_step_partial (qBitDepth q) Hbd) as (step & Hstep & _).
    assert (HS : exists s, plane_step q plane i j = Ok s) by (unfold plane_step, getDcQuant, getAcQuant; rewrite HI; change acQ with dcQ; destruct ((i =? 0) && (j =? 0)); cbn [rbind]; eexists; apply Hstep).
    destruct HS as [s HS]. unfold dequantOne. fold (plane_step q plane i j). rewrite HS. cbn [rbind].
    assert (HC : exists c, idx quant (i * tw + j) = Ok c) by (eexists; apply (idx_ok quant _ 0); nia). destruct HC as [c HC].
    destruct HM as [-> | [H | (l & -> & Hl)]].
    + cbn [andb rbind]. rewrite HC. cbn [rbind]. eauto.
    + replace (txType <? IDTX) with false by (symmetry; apply Z.ltb_ge; exact H). rewrite andb_false_r. cbn [rbind]. rewrite HC. cbn [rbind]. eauto.
    + destruct (qUsing q && (txType <? IDTX)); cbn [rbind]; [replace (l <? 15) with false by (symmetry; apply Z.ltb_ge; exact Hl); cbn [rbind]|]; rewrite HC; cbn [rbind]; eauto.
  - intros i j Hi Hj. apply HD; lia.
Qed.
Print Assumptions C68_total.

(** ** C70 inverse transforms *)
Lemma upd_mid {A} (p s : list A) x v : upd (p ++ x :: s) (zlen p) v = Ok (p ++ v :: s).
Proof.
  rewrite upd_ok by (unfold zlen; rewrite app_length; cbn [length]; lia). f_equal. unfold zlen. rewrite Nat2Z.id. induction p as [|a p IH]; cbn [app length upd_nat]; [reflexivity|]. f_equal. exact IH.
Qed.
Lemma idx_mid {A} (p s : list A) x : idx (p ++ x :: s) (zlen p) = Ok x.
Proof. rewrite (idx_ok _ _ x) by (unfold zlen; rewrite app_length; cbn [length]; lia). f_equal. unfold zlen. rewrite Nat2Z.id, app_nth2, Nat.sub_diag by lia. reflexivity. Qed.
Lemma map_loop (g : Z -> res Z) (h : Z -> Z) m : forall p s, Forall (fun v => g v = Ok (h v)) m ->
  rfor_from (length m) (zlen p) (fun i T => let! v := idx T i in let! v' := g v in upd T i v') (p ++ m ++ s) = Ok (p ++ map h m ++ s).
Proof.
  induction m as [|x m IH]; intros p s Hg; [reflexivity|]. cbn [length rfor_from map]. inversion Hg as [|? ? H1 H2]; subst. cbn [app]. rewrite idx_mid. cbn [rbind]. rewrite H1. cbn [rbind].
  rewrite upd_mid. cbn [rbind]. replace (zlen p + 1) with (zlen (p ++ [h x])) by (unfold zlen; rewrite app_length; cbn [length]; lia).
  replace (p ++ h x :: m ++ s) with ((p ++ [h x]) ++ m ++ s) by (rewrite <- app_assoc; reflexivity). rewrite IH by exact H2. rewrite <- app_assoc. reflexivity.
Qed.
(** Identity transforms of 2^n points, n = 2..5, scale every point as the standard prescribes and leave the rest of the buffer alone. *)
Theorem C70_identity_partial : forall n xs rest, 2 <= n <= 5 -> zlen xs = 2 ^ n -> Forall (fun x => - 2 ^ 40 <= x <= 2 ^ 40) xs ->
  inverseIdentity n (xs ++ rest) = Ok (map (identity_scale n) xs ++ rest).
Proof.
  intros n xs rest Hn HL HX.
  assert (R2 : forall x k, - 2 ^ 40 <= x <= 2 ^ 40 -> 0 <= k <= 16384 -> Round2 (x * k) 12 = Ok (round_div (x * k) 12)).
  { intros x k Hx Hk. change (2 ^ 40) with 1099511627776 in Hx. rewrite Round2_spec; [reflexivity|lia|]. change (2 ^ 62) with 4611686018427387904. nia. }
  assert (M : forall g h k, k + 1 = zlen xs -> Forall (fun v => g v = Ok (h v)) xs -> mapT k g (xs ++ rest) = Ok (map h xs ++ rest)).
  { intros g h k Hk HF. unfold mapT, upto, rfor_to. replace (Z.to_nat (k + 1 - 0)) with (length xs) by (unfold zlen in Hk; lia). exact (map_loop g h xs [] rest HF). }
  unfold inverseIdentity.
  assert (n = 2 \/ n = 3 \/ n = 4 \/ n = 5) as [->|[->|[->| ->]]] by lia; cbn [Z.eqb Pos.eqb]; apply M; try (rewrite HL; reflexivity); (eapply Forall_impl; [|exact HX]); intros x Hx; cbn [identity_scale]; try reflexivity; apply R2; (exact Hx || lia).
Qed.
Print Assumptions C70_identity_partial.
Example C70_identity_case : inverseIdentity 2 [100; -7; 0; 3; 99] = Ok [141; -10; 0; 4; 99]. Proof. vm_compute. reflexivity. Qed.

(** The Hadamard step of the inverse transforms computes the saturated sum and difference. *)
Theorem C70_hadamard_partial : forall a b flag r T x y, 1 <= r <= 32 -> a <> b -> idx T a = Ok x -> idx T b = Ok y -> exists T', th a b flag r T = Ok T' /\
  (if flag =? 1 then idx T' b = Ok (saturate r (y + x)) /\ idx T' a = Ok (saturate r (y - x)) else idx T' a = Ok (saturate r (x + y)) /\ idx T' b = Ok (saturate r (x - y))) /\
  (forall k, k <> a -> k <> b -> idx T' k = idx T k).
Proof.
  assert (S : forall r v, 1 <= r <= 32 -> Clip3 (- shl 1 (r - 1)) (shl 1 (r - 1) - 1) v = saturate r v).
  { intros r v H. assert (0 < 2 ^ (r - 1) <= 2 ^ 31) by (split; [apply Z.pow_pos_nonneg; lia|apply Z.pow_le_mono_r; lia]). change (2 ^ 31) with 2147483648 in *.
    rewrite shl_small; [|lia|change (2 ^ 63) with 9223372036854775808; lia]. rewrite Clip3_clamp by lia. unfold clamp, saturate. rewrite Z.mul_1_l. reflexivity. }
  assert (K : forall a b r T x y, 1 <= r <= 32 -> a <> b -> idx T a = Ok x -> idx T b = Ok y -> exists T', had a b r T = Ok T' /\ (idx T' a = Ok (saturate r (x + y)) /\ idx T' b = Ok (saturate r (x - y))) /\
    (forall k, k <> a -> k <> b -> idx T' k = idx T k)).
  { intros a b r T x y Hr N Ha Hb. unfold had. rewrite Ha, Hb. cbn [rbind]. cbv zeta. rewrite !S by exact Hr.
    destruct (upd_succeeds T a x (saturate r (x + y)) Ha) as [T1 E1]. rewrite E1. cbn [rbind].
    assert (Hb1 : idx T1 b = Ok y) by (rewrite (idx_upd_other _ _ _ _ _ E1); [exact Hb|congruence]).
    destruct (upd_succeeds T1 b y (saturate r (x - y)) Hb1) as [T2 E2]. exists T2. split; [exact E2|]. split.
    - split; [|exact (idx_upd_same _ _ _ _ E2)]. rewrite (idx_upd_other _ _ _ _ _ E2); [|congruence]. exact (idx_upd_same _ _ _ _ E1).
    - intros k K1 K2. rewrite (idx_upd_other _ _ _ _ _ E2); [|congruence]. apply (idx_upd_other _ _ _ _ _ E1). congruence. }
  intros a b flag r T x y Hr N Ha Hb. unfold th. destruct (flag =? 1).
  - destruct (K b a r T y x Hr ltac:(congruence) Hb Ha) as (T' & E & A & B). exists T'. split; [exact E|]. split; [exact A|]. intros; apply B; assumption.
  - apply K; assumption.
Qed.
Print Assumptions C70_hadamard_partial.
Example C70_hadamard_case : th 0 2 0 8 [100; 5; 50] = Ok [127; 5; 50] /\ th 0 2 1 8 [100; 5; 50] = Ok [-50; 5; 127]. Proof. split; vm_compute; reflexivity. Qed.

(** Refuted: no rotation by an angle that occurs in a DCT or ADST returns (the sine of an angle below 90 degrees panics), so none of those transforms ever returns. *)
Ltac nh0 := repeat first [discriminate | apply idx_nh | apply upd_nh | (apply rbind_nh; [|intro; cbv zeta]) | (unfold upto, rfor_to; apply rfor_from_nh; intros)
  | match goal with |- (if ?b then _ else _) <> Hang => destruct b end].
Lemma Cos128_nh a : Cos128 a <> Hang. Proof. unfold Cos128. cbv zeta. nh0. Qed.
Lemma Round2_nh x n : Round2 x n <> Hang. Proof. unfold Round2. nh0. Qed.
Lemma rot_nh a b angle T : rot a b angle T <> Hang. Proof. unfold rot, Sin128. nh0; first [apply Cos128_nh | apply Round2_nh]. Qed.
Lemma tb_nh a b angle flag r T : tb a b angle flag r T <> Hang. Proof. unfold tb, swapT. destruct (flag =? 1); [apply rbind_nh; [apply rot_nh|intro; nh0]|apply rot_nh]. Qed.
Lemma th_nh a b flag r T : th a b flag r T <> Hang. Proof. unfold th, had. nh0. Qed.
Ltac nh1 := repeat first [apply tb_nh | apply th_nh | discriminate | apply idx_nh | apply upd_nh | (apply rbind_nh; [|intro; cbv zeta]) | (unfold upto, rfor_to; apply rfor_from_nh; intros; cbv zeta)
  | match goal with |- (if ?b then _ else _) <> Hang => destruct b end].
Lemma Cos128_range a v : Cos128 a = Ok v -> Z.land a 255 <= 64.
Proof.
  unfold Cos128. cbv zeta. assert (0 <= Z.land a 255) by (apply Z.land_nonneg; right; lia). replace (0 <=? Z.land a 255) with true by (symmetry; apply Z.leb_le; lia). cbn [orb].
  intros E. apply idx_inv in E. change (zlen Cos128_Lookup) with 65 in E. lia.
Qed.
Theorem C70_rotation_refuted : forall a b angle T T', rot a b angle T = Ok T' -> angle mod 256 = 64.
Proof.
  intros a b angle T T' H. unfold rot in H. apply rbind_inv in H as (ta & _ & H). apply rbind_inv in H as (c & Ec & H). apply rbind_inv in H as (tb0 & _ & H). apply rbind_inv in H as (s & Es & _).
  apply Cos128_range in Ec. unfold Sin128 in Es. apply Cos128_range in Es. change 255 with (Z.ones 8) in *. rewrite Z.land_ones in * by lia. change (2 ^ 8) with 256 in *.
  pose proof (Z.mod_pos_bound angle 256 ltac:(lia)). destruct (Z.eq_dec (angle mod 256) 64); [assumption|]. exfalso.
  replace (angle - 64) with (angle mod 256 - 64 + angle / 256 * 256) in Es by (pose proof (Z.div_mod angle 256 ltac:(lia)); lia). rewrite Z.mod_add in Es by lia.
  replace (angle mod 256 - 64) with (angle mod 256 + 192 + -1 * 256) in Es by lia. rewrite Z.mod_add in Es by lia. rewrite Z.mod_small in Es by lia. lia.
Qed.
Print Assumptions C70_rotation_refuted.
Lemma nh_nok {A} (m : res A) : m <> Hang -> (forall a, m <> Ok a) -> m = Panic.
Proof. destruct m; intros; [exfalso; eapply H0; reflexivity|reflexivity|contradiction]. Qed.
Lemma tb_not a b angle flag r T T' : angle mod 256 <> 64 -> tb a b angle flag r T <> Ok T'.
Proof.
  intros N H. apply N. unfold tb in H. destruct (flag =? 1); [apply rbind_inv in H as (T1 & E & _); exact (C70_rotation_refuted _ _ _ _ _ E)|exact (C70_rotation_refuted _ _ _ _ _ H)].
Qed.
(** A loop whose first iteration does not return does not return. *)
Lemma upto_not k body T T' : 0 <= k -> (forall T0, body 0 T <> Ok T0) -> upto k body T <> Ok T'.
Proof. intros Hk N H. unfold upto, rfor_to in H. replace (Z.to_nat (k + 1 - 0)) with (S (Z.to_nat k)) in H by lia. cbn [rfor_from] in H. apply rbind_inv in H as (T0 & E & _). exact (N _ E). Qed.
Theorem C70_dct_refuted : forall n r T, inverseDCT n r T = Panic.
Proof.
  intros n r T. apply nh_nok.
  - unfold inverseDCT, inverseDCT_1, inverseDCT_core, inverseDCT_2, inverseDCTArrayPermutation, when. nh1.
  - intros T'. unfold inverseDCT. intros H. apply rbind_inv in H as (T1 & _ & H). apply rbind_inv in H as (T2 & H & _). revert H. unfold inverseDCT_core. apply upto_not; [lia|]. intros T0. apply tb_not. vm_compute. discriminate.
Qed.
Print Assumptions C70_dct_refuted.
Theorem C70_adst_refuted : forall n r T, inverseADST n r T = Panic.
Proof.
  intros n r T. apply nh_nok.
  - unfold inverseADST, inverseADST4, inverseADST8, inverseADST16, inverseADSTInputArrayPermutation, inverseADSTOutputArrayPermutation. nh1.
  - intros T' H. unfold inverseADST in H. destruct (n =? 2); [|destruct (n =? 3)].
    + unfold inverseADST4 in H. apply rbind_inv in H as (t0 & _ & H). discriminate.
    + unfold inverseADST8 in H. apply rbind_inv in H as (T1 & _ & H). apply rbind_inv in H as (T2 & H & _). revert H. apply upto_not; [lia|]. intros. apply tb_not. vm_compute. discriminate.
    + unfold inverseADST16 in H. apply rbind_inv in H as (T1 & _ & H). apply rbind_inv in H as (T2 & H & _). revert H. apply upto_not; [lia|]. intros. apply tb_not. vm_compute. discriminate.
Qed.
Print Assumptions C70_adst_refuted.
(** So a block that is not lossless is only ever transformed by the identity transform. *)
Theorem C70_only_identity_refuted : forall txType txSz bd deq s s', 0 <= txType < 16 -> inverseTransform false txType txSz bd deq s = Ok s' -> txType = IDTX.
Proof.
  intros txType txSz bd deq s s' Ht H. unfold inverseTransform in H. apply rbind_inv in H as (lw & EW & H). apply rbind_inv in H as (lh & EH & H). cbv zeta in H. apply rbind_inv in H as (rs & _ & H). apply rbind_inv in H as ([T1 R1] & HR & H).
  destruct (pow_log lw (tx_log2_range txSz lw (or_introl EW))) as [PW PW']. destruct (pow_log lh (tx_log2_range txSz lh (or_intror EH))) as [PH PH']. rewrite PW, PH in *.
  apply rbind_inv in H as (R2 & _ & H). unfold rfor_to in H. replace (Z.to_nat (2 ^ lw - 0)) with (S (Z.to_nat (2 ^ lw - 1))) in H by lia. cbn [rfor_from] in H. apply rbind_inv in H as (s2 & HC & _).
  unfold rfor_to in HR. replace (Z.to_nat (2 ^ lh - 0)) with (S (Z.to_nat (2 ^ lh - 1))) in HR by lia. cbn [rfor_from] in HR. apply rbind_inv in HR as (s3 & HR & _).
  unfold rowPass in HR. destruct s as [T R]. cbv zeta in HR. apply rbind_inv in HR as (Ta & _ & HR). apply rbind_inv in HR as (Tb & _ & HR). apply rbind_inv in HR as (Tc & HR & _).
  unfold colPass in HC. apply rbind_inv in HC as (Td & HC & _).
  unfold rowTransform in HR. unfold colTransform in HC. cbv iota in HR, HC. rewrite C70_dct_refuted, C70_adst_refuted in HR, HC.
  assert (In txType (map Z.of_nat (seq 0 16))) as I by (apply in_map_iff; exists (Z.to_nat txType); split; [lia|apply in_seq; lia]).
  cbn [map seq In] in I. repeat destruct I as [I|I]; try (subst txType; first [reflexivity | (exfalso; clear HC; discriminate HR) | (exfalso; clear HR; discriminate HC)]). contradiction.
Qed.
Print Assumptions C70_only_identity_refuted.
Example C70_only_identity_case : exists s', inverseTransform false IDTX 0 8 [[44; -28; 12; 32]; [0; 0; 0; 0]; [0; 0; 0; 0]; [0; 0; 0; 0]] ([0; 0; 0; 0], repeat [0; 0; 0; 0] 4) = Ok s'.
Proof. eexists. vm_compute. reflexivity. Qed.

(** ** C71 reconstruction *)
(** Refuted: with the buffers the decoder has (a working row that is never allocated), reconstructing a block always panics (or its dequantisation already does). *)
Theorem C71_reconstruct_refuted : forall q lossless quant plane x y txSz txType deq R f, dequantize q quant plane txSz txType deq <> Hang -> reconstruct q lossless quant plane x y txSz txType deq ([], R) f = Panic.
Proof.
  intros q lossless quant plane x y txSz txType deq R f NH. unfold reconstruct. destruct (dequantize q quant plane txSz txType deq) as [d| |]; cbn [rbind]; [|reflexivity|contradiction]. rewrite C41_block_refuted. reflexivity.
Qed.
Print Assumptions C71_reconstruct_refuted.
(** What is left: adding a residual only touches the samples of the block ... *)
Lemma addResidual_inv (P : frame -> Prop) bd plane x y w h txType R f f' :
  (forall yy xx v a b, 0 <= yy < h -> 0 <= xx < w -> P a -> upd3 a plane (y + yy) (x + xx) v = Ok b -> P b) -> P f -> addResidual bd plane x y w h txType R f = Ok f' -> P f'.
Proof.
  intros HS HP H. unfold addResidual, rfor_to in H. refine ((fun A B => rfor_from_post (fun _ => P) _ _ _ _ _ A B H) HP _). clear H. cbv beta. intros i a b Hi Ha H.
  refine ((fun A B => rfor_from_post (fun _ => P) _ _ _ _ _ A B H) Ha _). cbv beta zeta. clear H. intros j a' b' Hj Ha' H. apply rbind_inv in H as (v & _ & H). apply rbind_inv in H as (r & _ & H).
  eapply HS; [| |exact Ha'|exact H]; [destruct (flipUD txType); lia|destruct (flipLR txType); lia].
Qed.
Theorem C71_only_the_block_partial : forall bd plane x y w h txType R f f', addResidual bd plane x y w h txType R f = Ok f' ->
  forall p i j, ~ (p = plane /\ y <= i < y + h /\ x <= j < x + w) -> idx3 f' p i j = idx3 f p i j.
Proof.
  intros bd plane x y w h txType R f f' H p i j N. revert H. apply (addResidual_inv (fun g => idx3 g p i j = idx3 f p i j)); [|reflexivity].
  intros yy xx v a b Hy Hx Ha E. rewrite <- Ha. apply (idx3_upd3_other _ _ _ _ _ _ _ _ _ E). intros [= ]. apply N. lia.
Qed.
Print Assumptions C71_only_the_block_partial.
(** ... but (refuted) makes each of them 2, whatever the prediction and the residual. *)
Theorem C71_samples_refuted : forall bd plane x y w h txType R f f', 2 <= bd -> addResidual bd plane x y w h txType R f = Ok f' ->
  forall i j, y <= i < y + h -> x <= j < x + w -> idx3 f' plane i j = Ok 2.
Proof.
  intros bd plane x y w h txType R f f' Hbd H.
  set (Y := fun i => y + if flipUD txType then h - i - 1 else i). set (X := fun j => x + if flipLR txType then w - j - 1 else j).
  assert (K : forall i j, 0 <= i < h -> 0 <= j < w -> idx3 f' plane (Y i) (X j) = Ok 2).
  { unfold addResidual, rfor_to in H.
    assert (R0 : forall n, 0 <= n -> 0 + Z.of_nat (Z.to_nat (n - 0)) = n) by (intros; lia).
    assert (Keep : forall (a b : frame) u v p i' j', upd3 a plane u v 2 = Ok b -> idx3 a p i' j' = Ok 2 -> idx3 b p i' j' = Ok 2).
    { intros a b u v p i' j' E E2. destruct (Z.eq_dec p plane) as [->|]; [destruct (Z.eq_dec i' u) as [->|]; [destruct (Z.eq_dec j' v) as [->|]|]|];
        try (rewrite (idx3_upd3_other _ _ _ _ _ _ _ _ _ E); [exact E2|intros [= ]; congruence]). exact (idx3_upd3_same _ _ _ _ _ _ E). }
    intros i j Hi Hj. enough (Q : (fun m (g : frame) => forall i j, 0 <= i < m -> 0 <= j < w -> idx3 g plane (Y i) (X j) = Ok 2) (0 + Z.of_nat (Z.to_nat (h - 0))) f') by (apply Q; lia).
    revert H. apply (rfor_from_post (fun m (g : frame) => forall i j, 0 <= i < m -> 0 <= j < w -> idx3 g plane (Y i) (X j) = Ok 2)); [intros; lia|]. clear i j Hi Hj.
    intros i a b Hi Ha H. intros i' j' Hi' Hj'.
    enough (Q : (fun m (g : frame) => (forall j, 0 <= j < m -> idx3 g plane (Y i) (X j) = Ok 2) /\ (forall p u v, idx3 a p u v = Ok 2 -> idx3 g p u v = Ok 2)) (0 + Z.of_nat (Z.to_nat (w - 0))) b).
    { destruct Q as [Q1 Q2]. destruct (Z.eq_dec i' i) as [->|]; [apply Q1; lia|apply Q2, Ha; lia]. }
    revert H. apply (rfor_from_post (fun m (g : frame) => (forall j, 0 <= j < m -> idx3 g plane (Y i) (X j) = Ok 2) /\ (forall p u v, idx3 a p u v = Ok 2 -> idx3 g p u v = Ok 2))); [split; [intros; lia|auto]|].
    intros j a1 b1 Hj [A1 A2] H. cbv zeta in H. apply rbind_inv in H as (v & _ & H). apply rbind_inv in H as (r & _ & H). rewrite C16_Clip1_constant_refuted in H by exact Hbd. fold (Y i) in H. fold (X j) in H. split.
    - intros j0 Hj0. destruct (Z.eq_dec j0 j) as [->|]; [exact (idx3_upd3_same _ _ _ _ _ _ H)|]. apply (Keep _ _ _ _ _ _ _ H). apply A1. lia.
    - intros p u v0 E. apply (Keep _ _ _ _ _ _ _ H). apply A2, E. }
  intros i j Hi Hj. specialize (K (if flipUD txType then h - 1 - (i - y) else i - y) (if flipLR txType then w - 1 - (j - x) else j - x)).
  unfold Y, X in K. replace (y + (if flipUD txType then h - (if flipUD txType then h - 1 - (i - y) else i - y) - 1 else if flipUD txType then h - 1 - (i - y) else i - y)) with i in K by (destruct (flipUD txType); lia).
  replace (x + (if flipLR txType then w - (if flipLR txType then w - 1 - (j - x) else j - x) - 1 else if flipLR txType then w - 1 - (j - x) else j - x)) with j in K by (destruct (flipLR txType); lia).
  apply K; [destruct (flipUD txType); lia|destruct (flipLR txType); lia].
Qed.
Print Assumptions C71_samples_refuted.
Example C71_case : addResidual 8 0 1 0 2 2 FLIPADST_DCT [[5; 6]; [7; 8]] [[[10; 20; 30]; [40; 50; 60]]] = Ok [[[10; 2; 2]; [40; 2; 2]]].
Proof. vm_compute. reflexivity. Qed.
