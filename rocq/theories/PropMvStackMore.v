(** C95: what the motion vector search looks at and how it counts: weights, bonus, scan windows, padding, DRL contexts. *)
From Verif Require Import GoBase Bitstream Util UtilProofs Constants Tables Frame Writes MvStack SpecFilter LoopFilterProofs MvStackProofs PropMvStack.

(** ** Weights *)
(** The candidate pair of a neighbour coded with two references (not with the global motion) adds the weight to every stored pair equal in BOTH vectors and to no other;
    it is then appended (even if it was there). *)
Theorem C95_pair_weights : forall e r c w s s' m md, idx2 (vMvs e) r c = Ok m -> idx2 (vYModes e) r c = Ok md -> md <> GLOBAL_GLOBALMV -> 0 <= sNum s ->
  compoundSearch e r c w s = Ok s' ->
  (forall i x v, 0 <= i < sNum s -> idx (sStack s) i = Ok x -> idx (sWeight s) i = Ok v -> idx (sStack s') i = Ok x /\ idx (sWeight s') i = Ok (if mv_eqb (fst m) (fst x) && mv_eqb (snd m) (snd x) then v + w else v)) /\
  (sNum s < 8 -> sNum s' = sNum s + 1 /\ idx (sStack s') (sNum s) = Ok m /\ idx (sWeight s') (sNum s) = Ok w) /\
  (8 <= sNum s -> sNum s' = sNum s) /\ sFound s' = 1 /\ sNew s' = sNew s + (if HasNewmv md then 1 else 0).
Proof.
  intros e r c w s s' m md EM EY NG Hn H. unfold compoundSearch in H. rewrite EM, EY in H. cbn [rbind] in H. replace (md =? GLOBAL_GLOBALMV) with false in H by (symmetry; apply Z.eqb_neq; exact NG). cbn [rbind] in H.
  apply rbind_inv in H as (s1 & E1 & H).
  set (P := fun k (t : Mst) => sNum t = sNum s /\ sStack t = sStack s /\ sFound t = 1 /\ sNew t = sNew s /\
    (forall i x v, 0 <= i < k -> idx (sStack s) i = Ok x -> idx (sWeight s) i = Ok v -> idx (sWeight t) i = Ok (if mv_eqb (fst m) (fst x) && mv_eqb (snd m) (snd x) then v + w else v)) /\ (forall i, k <= i -> idx (sWeight t) i = idx (sWeight s) i)).
  assert (K : P (sNum s) s1).
  { unfold rfor_to in E1. change (sNum (set_found s 1)) with (sNum s) in E1. replace (sNum s) with (0 + Z.of_nat (Z.to_nat (sNum s - 0))) at 1 by lia. revert E1. apply (rfor_from_post P).
    - unfold P. cbn. repeat split; try reflexivity. intros; lia.
    - intros j a b Hj (A1 & A2 & A3 & A4 & A5 & A6) E. rewrite A2 in E. apply rbind_inv in E as (x & Ex & E).
      destruct (mv_eqb (fst m) (fst x) && mv_eqb (snd m) (snd x)) eqn:EQ.
      + unfold addWeight in E. apply rbind_inv in E as (v & Ev & E). apply rbind_inv in E as (W & EW & E). injection E as <-. unfold P. cbn. repeat split; try assumption.
        * intros i x' v' Hi Ex' Ev'. destruct (Z.eq_dec i j) as [->|].
          -- rewrite Ex in Ex'. injection Ex' as <-. rewrite EQ. rewrite (idx_upd_same _ _ _ _ EW). rewrite A6 in Ev by lia. rewrite Ev in Ev'. injection Ev' as <-. reflexivity.
          -- rewrite (idx_upd_other _ _ _ _ _ EW) by lia. apply A5; [lia|assumption|assumption].
        * intros i Hi. rewrite (idx_upd_other _ _ _ _ _ EW) by lia. apply A6. lia.
      + injection E as <-. unfold P. repeat split; try assumption.
        * intros i x' v' Hi Ex' Ev'. destruct (Z.eq_dec i j) as [->|]; [|apply A5; [lia|assumption|assumption]]. rewrite Ex in Ex'. injection Ex' as <-. rewrite EQ, A6 by lia. exact Ev'.
        * intros i Hi. apply A6. lia. }
  destruct K as (K1 & K2 & K3 & K4 & K5 & K6). apply rbind_inv in H as (s2 & E2 & H). rewrite K1 in E2. change MAX_REF_MV_STACK_SIZE with 8 in E2.
  assert (Z : sNum s' = sNum s2 /\ sStack s' = sStack s2 /\ sWeight s' = sWeight s2 /\ sFound s' = sFound s2 /\ sNew s' = sNew s2 + (if HasNewmv md then 1 else 0)) by (injection H as <-; destruct (HasNewmv md); cbn; repeat split; lia).
  destruct Z as (Z1 & Z2 & Z3 & Z4 & Z5). rewrite Z1, Z2, Z3, Z4, Z5. clear H Z1 Z2 Z3 Z4 Z5 s'.
  destruct (Z.ltb_spec (sNum s) 8).
  - unfold push2 in E2. rewrite K1, K2 in E2. apply rbind_inv in E2 as (st & Es & E2). apply rbind_inv in E2 as (W & EW & E2). injection E2 as <-. cbn. split.
    + intros i x v Hi Ex Ev. rewrite (idx_upd_other _ _ _ _ _ Es), (idx_upd_other _ _ _ _ _ EW) by lia. split; [exact Ex|apply K5; assumption].
    + split; [intros _; split; [reflexivity|]; split; [exact (idx_upd_same _ _ _ _ Es)|exact (idx_upd_same _ _ _ _ EW)]|]. split; [lia|]. split; [exact K3|lia].
  - injection E2 as <-. split; [intros i x v Hi Ex Ev; rewrite K2; split; [exact Ex|apply K5; assumption]|]. split; [lia|]. split; [auto|]. split; [exact K3|lia].
Qed.
Print Assumptions C95_pair_weights.

(** The candidates found next to the block get 640 more weight; refuted for the last of them, which gets nothing. *)
Theorem C95_bonus_partial : forall n s s', bonus n s = Ok s' ->
  (forall i v, 0 <= i < n - 1 -> idx (sWeight s) i = Ok v -> idx (sWeight s') i = Ok (v + 640)) /\ (forall i, ~ 0 <= i < n - 1 -> idx (sWeight s') i = idx (sWeight s) i) /\ sStack s' = sStack s /\ sNum s' = sNum s.
Proof.
  intros n s s' H. unfold bonus in H. destruct (Z.ltb_spec 0 n).
  - set (P := fun k (t : Mst) => (forall i v, 0 <= i < k -> idx (sWeight s) i = Ok v -> idx (sWeight t) i = Ok (v + 640)) /\ (forall i, ~ 0 <= i < k -> idx (sWeight t) i = idx (sWeight s) i) /\ sStack t = sStack s /\ sNum t = sNum s).
    enough (K : P (0 + Z.of_nat (Z.to_nat (n - 1 - 0))) s') by (replace (0 + Z.of_nat (Z.to_nat (n - 1 - 0))) with (n - 1) in K by lia; exact K).
    revert H. unfold rfor_to. apply (rfor_from_post P); [unfold P; repeat split; intros; lia|].
    intros j a b Hj (A1 & A2 & A3 & A4) E. unfold addWeight in E. apply rbind_inv in E as (v & Ev & E). apply rbind_inv in E as (W & EW & E). injection E as <-. unfold P. cbn. repeat split; try assumption.
    + intros i v' Hi Ev'. destruct (Z.eq_dec i j) as [->|].
      * rewrite (idx_upd_same _ _ _ _ EW). rewrite A2 in Ev by lia. rewrite Ev in Ev'. injection Ev' as <-. reflexivity.
      * rewrite (idx_upd_other _ _ _ _ _ EW) by lia. apply A1; [lia|assumption].
    + intros i Hi. rewrite (idx_upd_other _ _ _ _ _ EW) by lia. apply A2. lia.
  - injection H as <-. repeat split; intros; lia.
Qed.
Print Assumptions C95_bonus_partial.
Theorem C95_bonus_refuted : forall n s s', 0 < n -> bonus n s = Ok s' -> idx (sWeight s') (n - 1) = idx (sWeight s) (n - 1).
Proof. intros n s s' Hn H. destruct (C95_bonus_partial _ _ _ H) as (_ & K & _). apply K. lia. Qed.
Print Assumptions C95_bonus_refuted.

(** ** Scan windows *)
(** the two neighbourhoods hold the same block in cell (r, c) *)
Definition same_cell (e e' : MvEnv) (r c : Z) : Prop :=
  idx2 (vMiSizes e) r c = idx2 (vMiSizes e') r c /\ idx2 (vRefFrames e) r c = idx2 (vRefFrames e') r c /\ idx2 (vIsInters e) r c = idx2 (vIsInters e') r c /\
  idx2 (vYModes e) r c = idx2 (vYModes e') r c /\ idx2 (vMvs e) r c = idx2 (vMvs e') r c.
(** same block, tile and header *)
Definition same_block (e e' : MvEnv) : Prop :=
  vMiRow e = vMiRow e' /\ vMiCol e = vMiCol e' /\ vMiSize e = vMiSize e' /\ vMiRows e = vMiRows e' /\ vMiCols e = vMiCols e' /\ vRowStart e = vRowStart e' /\ vRowEnd e = vRowEnd e' /\ vColStart e = vColStart e' /\ vColEnd e = vColEnd e' /\
  vRefFrame e = vRefFrame e' /\ vGmType e = vGmType e' /\ vHigh e = vHigh e' /\ vInt e = vInt e'.
Lemma lowerPrecision_same e e' m : same_block e e' -> lowerPrecision e m = lowerPrecision e' m.
Proof. intros (_ & _ & _ & _ & _ & _ & _ & _ & _ & _ & _ & H1 & H2). unfold lowerPrecision. rewrite H1, H2. reflexivity. Qed.
Lemma isInside_same e e' r c : same_block e e' -> isInside e r c = isInside e' r c.
Proof. intros (_ & _ & _ & _ & _ & H1 & H2 & H3 & H4 & _). unfold isInside. rewrite H1, H2, H3, H4. reflexivity. Qed.
Lemma rfor_from_ext {A} n : forall i (f g : Z -> A -> res A) a, (forall j b, f j b = g j b) -> rfor_from n i f a = rfor_from n i g a.
Proof. induction n as [|n IH]; intros i f g a H; [reflexivity|]. cbn [rfor_from]. rewrite H. destruct (g i a); cbn [rbind]; auto. Qed.
Lemma searchStack_same e e' r c l w s : same_block e e' -> same_cell e e' r c -> searchStack e r c l w s = searchStack e' r c l w s.
Proof.
  intros B (C1 & C2 & C3 & C4 & C5). pose proof (lowerPrecision_same e e') as LP. destruct B as (B1 & B2 & B3 & B4 & B5 & B6 & B7 & B8 & B9 & B10 & B11 & B12 & B13).
  unfold searchStack. rewrite C1, C4, C5, B10, B11.
  destruct (idx2 (vYModes e') r c) as [md| |]; [|reflexivity|reflexivity]. cbn [rbind]. destruct (idx2 (vMiSizes e') r c) as [sz| |]; [|reflexivity|reflexivity]. cbn [rbind].
  destruct (idx BLOCK_WIDTH sz) as [bw| |]; [|reflexivity|reflexivity]. cbn [rbind]. destruct (idx BLOCK_HEIGHT sz) as [bh| |]; [|reflexivity|reflexivity]. cbn [rbind]. cbv zeta.
  match goal with |- rbind ?x _ = rbind ?x _ => destruct x as [gl| |]; [|reflexivity|reflexivity] end. cbn [rbind].
  match goal with |- rbind ?x _ = rbind ?x _ => destruct x as [m| |]; [|reflexivity|reflexivity] end. cbn [rbind].
  rewrite (LP m) by (repeat split; assumption). reflexivity.
Qed.
Lemma compoundSearch_same e e' r c w s : same_block e e' -> same_cell e e' r c -> compoundSearch e r c w s = compoundSearch e' r c w s.
Proof.
  intros (B1 & B2 & B3 & B4 & B5 & B6 & B7 & B8 & B9 & B10 & B11 & B12 & B13) (C1 & C2 & C3 & C4 & C5). unfold compoundSearch. rewrite C4, C5, B10, B11. reflexivity.
Qed.
Lemma addRefMv_same e e' k r c w s : same_block e e' -> same_cell e e' r c -> addRefMv e k r c w s = addRefMv e' k r c w s.
Proof.
  intros B C. assert (B10 : vRefFrame e = vRefFrame e') by (destruct B as (_ & _ & _ & _ & _ & _ & _ & _ & _ & ? & _); assumption). unfold addRefMv. pose proof C as (C1 & C2 & C3 & C4 & C5). rewrite C3, C2, B10.
  destruct (idx2 (vIsInters e') r c) as [i| |]; [|reflexivity|reflexivity]. cbn [rbind]. destruct (i =? 0); [reflexivity|]. destruct k; cbn [negb].
  - destruct (idx2 (vRefFrames e') r c) as [x| |]; [|reflexivity|reflexivity]. cbn [rbind]. destruct ((fst x =? fst (vRefFrame e')) && (snd x =? snd (vRefFrame e'))); [|reflexivity]. apply compoundSearch_same; [exact B|exact C].
  - apply rfor_from_ext. intros l t. destruct (idx2 (vRefFrames e') r c) as [x| |]; [|reflexivity|reflexivity]. cbn [rbind]. destruct (sel l x =? fst (vRefFrame e')); [|reflexivity]. apply searchStack_same; [exact B|exact C].
Qed.
Lemma scanLoop_same n : forall e e' k (along : bool) row col b4 end4 far s16 i s, same_block e e' -> 0 <= i -> 1 <= b4 ->
  (forall j, 0 <= j < end4 -> same_cell e e' (if along then row else row + j) (if along then col + j else col)) -> scanLoop n e k along row col b4 end4 far s16 i s = scanLoop n e' k along row col b4 end4 far s16 i s.
Proof.
  induction n as [|n IH]; intros e e' k along row col b4 end4 far s16 i s B Hi Hb HC; [reflexivity|]. cbn [scanLoop]. destruct (Z.ltb_spec i end4); [|reflexivity]. rewrite (isInside_same e e') by exact B. cbv zeta.
  destruct (negb _); [reflexivity|]. pose proof (HC i ltac:(lia)) as C. assert (C1 := proj1 C). rewrite C1.
  destruct (idx2 (vMiSizes e') _ _) as [sz| |]; [|reflexivity|reflexivity]. cbn [rbind].
  destruct (idx (if along then NUM_4X4_BLOCKS_WIDE else NUM_4X4_BLOCKS_HIGH) sz) as [l| |] eqn:El; [|reflexivity|reflexivity]. cbn [rbind].
  assert (Hl : 1 <= l <= 32) by (eapply num4_pos; [|exact El]; destruct along; auto).
  rewrite (addRefMv_same e e') by (first [exact B|exact C]). destruct (addRefMv e' k _ _ _ s) as [s1| |]; [|reflexivity|reflexivity]. cbn [rbind]. apply IH; [exact B| |exact Hb|exact HC].
  rewrite !Min_min, !Max_max. destruct far, s16; lia.
Qed.
(** row [d] above (d < 0); rows further than one away start at an odd column and on an 8x8 boundary *)
Definition scan_row_of (mi d : Z) : Z := if 1 <? Z.abs d then mi + d + mi mod 2 else mi + d.
Definition scan_col_of (mi d : Z) : Z := if 1 <? Z.abs d then mi + 1 - mi mod 2 else mi.
(** The scan of a row depends only on the cells of that row that are above the block, within the frame and within 64 samples. *)
Theorem C95_row_window : forall e e' k d s w4, -8 <= d <= 8 -> same_block e e' -> idx NUM_4X4_BLOCKS_WIDE (vMiSize e) = Ok w4 ->
  (forall j, 0 <= j < Z.min (Z.min w4 (vMiCols e - vMiCol e)) 16 -> same_cell e e' (scan_row_of (vMiRow e) d) (scan_col_of (vMiCol e) d + j)) -> scanRow e k d s = scanRow e' k d s.
Proof.
  intros e e' k d s w4 Hd B EW HC. unfold scanRow. pose proof B as (B1 & B2 & B3 & B4 & B5 & _). rewrite <- B1, <- B2, <- B3, <- B5, EW. cbn [rbind]. cbv zeta.
  apply scanLoop_same; [exact B|lia|apply (num4_pos NUM_4X4_BLOCKS_WIDE (vMiSize e) w4); auto|]. intros j Hj. rewrite !Min_min in Hj. specialize (HC j Hj). unfold scan_row_of, scan_col_of in HC. rewrite Abs_abs by (change (2 ^ 62) with 4611686018427387904; lia). rewrite !land1_mod.
  destruct (1 <? Z.abs d) eqn:E1.
  - match goal with |- same_cell _ _ ?a ?b => replace a with (vMiRow e + d + vMiRow e mod 2) by lia; replace b with (vMiCol e + 1 - vMiCol e mod 2 + j) by lia end. exact HC.
  - match goal with |- same_cell _ _ ?a ?b => replace b with (vMiCol e + j) by lia end. exact HC.
Qed.
Print Assumptions C95_row_window.
Theorem C95_col_window : forall e e' k d s h4, -8 <= d <= 8 -> same_block e e' -> idx NUM_4X4_BLOCKS_HIGH (vMiSize e) = Ok h4 ->
  (forall j, 0 <= j < Z.min (Z.min h4 (vMiRows e - vMiRow e)) 16 -> same_cell e e' (scan_col_of (vMiRow e) d + j) (scan_row_of (vMiCol e) d)) -> scanCol e k d s = scanCol e' k d s.
Proof.
  intros e e' k d s w4 Hd B EW HC. unfold scanCol. pose proof B as (B1 & B2 & B3 & B4 & B5 & _). rewrite <- B1, <- B2, <- B3, <- B4, EW. cbn [rbind]. cbv zeta.
  apply scanLoop_same; [exact B|lia|apply (num4_pos NUM_4X4_BLOCKS_HIGH (vMiSize e) w4); auto|]. intros j Hj. rewrite !Min_min in Hj. specialize (HC j Hj). unfold scan_row_of, scan_col_of in HC. rewrite Abs_abs by (change (2 ^ 62) with 4611686018427387904; lia). rewrite !land1_mod.
  destruct (1 <? Z.abs d) eqn:E1.
  - match goal with |- same_cell _ _ ?a ?b => replace b with (vMiCol e + d + vMiCol e mod 2) by lia; replace a with (vMiRow e + 1 - vMiRow e mod 2 + j) by lia end. exact HC.
  - match goal with |- same_cell _ _ ?a ?b => replace a with (vMiRow e + j) by lia end. exact HC.
Qed.
Print Assumptions C95_col_window.

(** ** Padding and DRL contexts *)
(** When fewer than two candidates are found, the missing entries become the global motion vector. *)
Theorem C95_padding : forall e s s', zlen (sStack s) = 2 -> 0 <= sNum s -> extraSearch e false s = Ok s' ->
  forall i, sNum s' <= i < 2 -> exists x, idx (sStack s') i = Ok x /\ fst x = fst (sGlobal s').
Proof.
  intros e s s' HL Hn H. unfold extraSearch in H. apply rbind_inv in H as (w4 & _ & H). apply rbind_inv in H as (h4 & _ & H). cbv zeta in H. apply rbind_inv in H as (s1 & E1 & H).
  set (P := fun k (t : Mst) => sNum t = sNum s1 /\ sGlobal t = sGlobal s1 /\ forall i, sNum s1 <= i < k -> exists x, idx (sStack t) i = Ok x /\ fst x = fst (sGlobal s1)).
  destruct (Z.lt_ge_cases (sNum s1) 2) as [L|L].
  - assert (K : P 2 s').
    { replace 2 with (sNum s1 + Z.of_nat (Z.to_nat (2 - sNum s1))) by lia. revert H. unfold rfor_to. apply (rfor_from_post P); [unfold P; repeat split; intros; lia|].
      intros j a b Hj (A1 & A2 & A3) E. apply rbind_inv in E as (old & Eo & E). apply rbind_inv in E as (st & Es & E). injection E as <-. unfold P. cbn. split; [exact A1|]. split; [exact A2|]. intros i Hi. destruct (Z.eq_dec i j) as [->|].
      - eexists. split; [exact (idx_upd_same _ _ _ _ Es)|]. cbn. congruence.
      - rewrite (idx_upd_other _ _ _ _ _ Es) by lia. apply A3. lia. }
    destruct K as (K1 & K2 & K3). rewrite K1, K2. exact K3.
  - unfold rfor_to in H. replace (Z.to_nat (2 - sNum s1)) with 0%nat in H by lia. injection H as <-. intros; lia.
Qed.
Print Assumptions C95_padding.
(** what the context of choosing entry i rather than a later one says: the weights of it and of its successor against 640 *)
Definition drl_context (w0 w1 : Z) : Z := if 640 <=? w0 then if 640 <=? w1 then 0 else 1 else 2.
Theorem C95_drl : forall e k n s s', 0 <= sNum s -> contextAndClamping e k n s = Ok s' ->
  (forall i w0 w1, 0 <= i < sNum s - 1 -> idx (sWeight s) i = Ok w0 -> idx (sWeight s) (i + 1) = Ok w1 -> idx (sDrl s') i = Ok (drl_context w0 w1)) /\
  (1 <= sNum s -> idx (sDrl s') (sNum s - 1) = Ok 0).
Proof.
  intros e k n s s' Hn H. unfold contextAndClamping in H. apply rbind_inv in H as (bw & _ & H). apply rbind_inv in H as (bh & _ & H). apply rbind_inv in H as (drl & ED & H). apply rbind_inv in H as (st & _ & H).
  match type of H with (let '(_, _) := ?x in _) = _ => destruct x as [nc rc] end. injection H as <-. cbn [sDrl].
  set (P := fun m (d : list Z) => (forall i w0 w1, 0 <= i < m -> i < sNum s - 1 -> idx (sWeight s) i = Ok w0 -> idx (sWeight s) (i + 1) = Ok w1 -> idx d i = Ok (drl_context w0 w1)) /\ (sNum s <= m -> 1 <= sNum s -> idx d (sNum s - 1) = Ok 0)).
  assert (K : P (sNum s) drl).
  { replace (sNum s) with (0 + Z.of_nat (Z.to_nat (sNum s - 0))) at 1 by lia. revert ED. unfold rfor_to. apply (rfor_from_post P); [unfold P; split; intros; lia|].
    intros j a b Hj (A1 & A2) E. apply rbind_inv in E as (z & Ez & E). unfold P. split.
    - intros i w0 w1 Hi Hi' E0 E1. destruct (Z.eq_dec i j) as [->|]; [|rewrite (idx_upd_other _ _ _ _ _ E) by lia; apply A1; [lia|assumption|assumption|assumption]].
      rewrite (idx_upd_same _ _ _ _ E). replace (j + 1 <? sNum s) with true in Ez by (symmetry; apply Z.ltb_lt; lia). rewrite E0, E1 in Ez. cbn [rbind] in Ez. injection Ez as <-. change REF_CAT_LEVEL with 640. unfold drl_context. f_equal.
      destruct (640 <=? w0); [|reflexivity]. destruct (Z.leb_spec 640 w1), (Z.ltb_spec w1 640); try reflexivity; lia.
    - intros L1 L2. destruct (Z.eq_dec (sNum s - 1) j) as [EE|]; [|lia]. rewrite EE, (idx_upd_same _ _ _ _ E). replace (j + 1 <? sNum s) with false in Ez by (symmetry; apply Z.ltb_ge; lia). congruence. }
  destruct K as (K1 & K2). split; [intros; apply K1; auto; lia|intros; apply K2; lia].
Qed.
Print Assumptions C95_drl.

(** ** Concrete cases: e_case is the neighbourhood of PropMvStack. *)
Definition s2_case : Mst := mkMst 2 0 0 0 0 0 0 0 ((7, 9), (0, 0)) [((13, -700), (0, 1)); ((13, -700), (0, 0))] [4; 700; 0; 0; 0; 0; 0; 0] [0; 0].
Definition e_far : MvEnv := mkMvEnv 1 1 3 2 2 0 2 0 2 (repeat (repeat 3 64) 64) (repeat (repeat (1, -1) 2 ++ repeat (5, 6) 62) 64) (1, -1) [[1; 1]; [1; 1]] (repeat (repeat NEWMV 2 ++ repeat 0 62) 64)
  (repeat (repeat ((13, -700), (0, 0)) 2 ++ repeat ((1, 1), (2, 2)) 62) 64) (repeat 0 8) (repeat (repeat 0 6) 8) false false false [false; false; false] [].
Example C95_case :
  match bonus 2 s2_case with Ok t => sWeight t = [644; 700; 0; 0; 0; 0; 0; 0] | _ => False end /\
  match extraSearch e_case false (set_stack s2_case 0 (sStack s2_case) (sWeight s2_case)) with Ok t => sNum t = 0 /\ sStack t = [((7, 9), (0, 1)); ((7, 9), (0, 0))] | _ => False end /\
  match contextAndClamping e_case false 0 s2_case with Ok t => sDrl t = [2; 0] | _ => False end /\
  same_block e_case e_far /\ (forall j, 0 <= j < 1 -> same_cell e_case e_far 0 (1 + j)) /\ scanRow e_case false (-1) s0_case <> Ok s0_case.
Proof.
  split; [vm_compute; reflexivity|]. split; [vm_compute; auto|]. split; [vm_compute; reflexivity|]. split; [unfold same_block; cbn; tauto|]. split.
  - intros j Hj. assert (j = 0) as -> by lia. unfold same_cell. split; [vm_compute; reflexivity|]. split; [vm_compute; reflexivity|]. split; [vm_compute; reflexivity|]. split; vm_compute; reflexivity.
  - intro X. apply (f_equal (fun r => match r with Ok t => sFound t | _ => 0 end)) in X. vm_compute in X. discriminate.
Qed.
