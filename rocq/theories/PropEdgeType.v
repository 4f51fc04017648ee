(** Property C169: which neighbours make the edges of directional prediction smooth; edges that are not filtered; edges of the first block. *)
From Verif Require Import GoBase Bitstream Util UtilProofs Constants Tables Frame Fill2 SpecFilter LoopFilterProofs Intra IntraProofs PropIntra PropIntraMore.
Require Import Lia Psatz.

(** ** Specification (7.11.2.8) *)
(** The modes 9, 10, 11 are the smooth ones *)
Definition smooth_mode (m : Z) : bool := (9 <=? m) && (m <=? 11).
(** What is stored for a position: luma mode, chroma mode, inter coded *)
Record cell := mkCell { c_luma : Z; c_chroma : Z; c_inter : bool }.
Definition smooth_cell (chroma : bool) (c : cell) : bool := if chroma then negb (c_inter c) && smooth_mode (c_chroma c) else smooth_mode (c_luma c).
(** The neighbours of the block at (row, col); with subsampled chroma those of the whole chroma block *)
Definition above_pos (chroma subX subY : bool) (row col : Z) : Z * Z :=
  (row - 1 - (if chroma && subY then row mod 2 else 0), col + (if chroma && subX then 1 - col mod 2 else 0)).
Definition left_pos (chroma subX subY : bool) (row col : Z) : Z * Z :=
  (row + (if chroma && subY then 1 - row mod 2 else 0), col - 1 - (if chroma && subX then col mod 2 else 0)).
Definition std_smooth (chroma subX subY availU availL : bool) (row col : Z) (at_ : Z * Z -> cell) : bool :=
  availU && smooth_cell chroma (at_ (above_pos chroma subX subY row col)) || availL && smooth_cell chroma (at_ (left_pos chroma subX subY row col)).

(** The stored modes of the decoder *)
Definition stored (e : IEnv) (p : Z * Z) (c : cell) : Prop :=
  idx2 (iYModes e) (fst p) (snd p) = Ok (c_luma c) /\ idx2 (iUVModes e) (fst p) (snd p) = Ok (c_chroma c) /\
  exists r, idx3 (iRefFrames e) (fst p) (snd p) 0 = Ok r /\ c_inter c = (0 <? r).
Definition availU (e : IEnv) (plane : Z) : bool := if plane =? 0 then iAvailU e else iAvailUChroma e.
Definition availL (e : IEnv) (plane : Z) : bool := if plane =? 0 then iAvailL e else iAvailLChroma e.

(** ** Proof *)
Lemma smooth_three m : (m =? SMOOTH_PRED) || (m =? SMOOTH_V_PRED) || (m =? SMOOTH_H_PRED) = smooth_mode m.
Proof.
  change SMOOTH_PRED with 9. change SMOOTH_V_PRED with 10. change SMOOTH_H_PRED with 11. unfold smooth_mode.
  destruct (Z.eqb_spec m 9), (Z.eqb_spec m 10), (Z.eqb_spec m 11), (Z.leb_spec 9 m), (Z.leb_spec m 11); try reflexivity; lia.
Qed.
Lemma isSmooth_ok e row col plane c : 0 <= plane -> stored e (row, col) c -> isSmooth e row col plane = Ok (smooth_cell (0 <? plane) c).
Proof.
  intros Hp (A & B & r & C & D). cbn [fst snd] in *. unfold isSmooth, smooth_cell. cbv zeta. destruct (Z.eqb_spec plane 0) as [->|N].
  - rewrite A. cbn [rbind]. rewrite smooth_three. reflexivity.
  - destruct (Z.ltb_spec 0 plane); [|lia]. rewrite C. cbn [rbind]. change INTRA_FRAME with 0. rewrite D. destruct (0 <? r); [reflexivity|]. rewrite B. cbn [rbind negb andb]. rewrite smooth_three. reflexivity.
Qed.
Lemma odd_land n : bool_of (Z.land n 1) = (n mod 2 =? 1).
Proof.
  change 1 with (Z.ones 1) at 1. rewrite Z.land_ones by lia. change (2 ^ 1) with 2. pose proof (Z.mod_pos_bound n 2 ltac:(lia)).
  assert (n mod 2 = 0 \/ n mod 2 = 1) as [->| ->] by lia; reflexivity.
Qed.

(** Exactly what the decoder does, for every block: the neighbour to the left decides alone where there is one, and with subsampled chroma the column
    above is the next one for odd (not for even) columns, the row on the left the next one for odd (not for even) rows. *)
Lemma getFilterType_exact e plane (at_ : Z * Z -> cell) : 0 <= plane ->
  let ox := (0 <? plane) && iSubX e && (iMiCol e mod 2 =? 1) in let oy := (0 <? plane) && iSubY e && (iMiRow e mod 2 =? 1) in
  let up := (iMiRow e - 1 - (if oy then 1 else 0), iMiCol e + (if ox then 1 else 0)) in
  let lf := (iMiRow e + (if oy then 1 else 0), iMiCol e - 1 - (if ox then 1 else 0)) in
  (availU e plane = true -> stored e up (at_ up)) -> (availL e plane = true -> stored e lf (at_ lf)) ->
  getFilterType e plane = Ok (if availL e plane then smooth_cell (0 <? plane) (at_ lf) else availU e plane && smooth_cell (0 <? plane) (at_ up)).
Proof.
  intros Hp ox oy up lf HU HL. unfold getFilterType. cbv zeta. fold (availU e plane) (availL e plane). rewrite !odd_land.
  replace ((0 <? plane) && (iSubY e && (iMiRow e mod 2 =? 1))) with oy by (unfold oy; apply eq_sym, andb_assoc).
  replace ((0 <? plane) && (iSubX e && (iMiCol e mod 2 =? 1))) with ox by (unfold ox; apply eq_sym, andb_assoc).
  assert (E : (if availU e plane then isSmooth e (iMiRow e - 1 - (if oy then 1 else 0)) (iMiCol e + (if ox then 1 else 0)) plane else Ok false) =
    Ok (availU e plane && smooth_cell (0 <? plane) (at_ up))).
  { destruct (availU e plane); [|reflexivity]. rewrite (isSmooth_ok _ _ _ _ (at_ up) Hp (HU eq_refl)). reflexivity. }
  rewrite E. cbn [rbind]. destruct (availL e plane); [|reflexivity]. exact (isSmooth_ok _ _ _ _ (at_ lf) Hp (HL eq_refl)).
Qed.

(** The edges are smooth where the standard says so, in luma and in chroma that is not subsampled, unless both neighbours exist and only the one above
    is smooth. *)
Theorem C169_smooth_partial : forall e plane at_, 0 <= plane -> plane = 0 \/ iSubX e = false /\ iSubY e = false ->
  let chroma := 0 <? plane in let u := above_pos chroma (iSubX e) (iSubY e) (iMiRow e) (iMiCol e) in let l := left_pos chroma (iSubX e) (iSubY e) (iMiRow e) (iMiCol e) in
  (availU e plane = true -> stored e u (at_ u)) -> (availL e plane = true -> stored e l (at_ l)) ->
  ~ (availU e plane = true /\ availL e plane = true /\ smooth_cell chroma (at_ u) = true /\ smooth_cell chroma (at_ l) = false) ->
  getFilterType e plane = Ok (std_smooth chroma (iSubX e) (iSubY e) (availU e plane) (availL e plane) (iMiRow e) (iMiCol e) at_).
Proof.
  intros e plane at_ Hp HS chroma u l HU HL HN. unfold std_smooth. fold chroma u l.
  assert (U : u = (iMiRow e - 1 - 0, iMiCol e + 0)) by (unfold u, above_pos, chroma; destruct HS as [->|[SX SY]]; [reflexivity|rewrite SX, SY, !andb_false_r; reflexivity]).
  assert (L : l = (iMiRow e + 0, iMiCol e - 1 - 0)) by (unfold l, left_pos, chroma; destruct HS as [->|[SX SY]]; [reflexivity|rewrite SX, SY, !andb_false_r; reflexivity]).
  pose proof (getFilterType_exact e plane at_ Hp) as K. cbv zeta in K. fold chroma in K.
  assert (ZX : chroma && iSubX e && (iMiCol e mod 2 =? 1) = false) by (unfold chroma; destruct HS as [->|[SX SY]]; [reflexivity|rewrite ?SX, ?SY, andb_false_r; reflexivity]).
  assert (ZY : chroma && iSubY e && (iMiRow e mod 2 =? 1) = false) by (unfold chroma; destruct HS as [->|[SX SY]]; [reflexivity|rewrite ?SX, ?SY, andb_false_r; reflexivity]).
  rewrite ZX, ZY in K. cbv iota in K. rewrite <- U, <- L in K. rewrite (K HU HL). f_equal.
  destruct (availU e plane), (availL e plane), (smooth_cell chroma (at_ u)), (smooth_cell chroma (at_ l)); try reflexivity. exfalso. apply HN. auto.
Qed.
Print Assumptions C169_smooth_partial.

(** Refuted: with both neighbours the one above is ignored ... *)
Theorem C169_above_ignored_refuted : forall e at_, let u := (iMiRow e - 1, iMiCol e) in let l := (iMiRow e, iMiCol e - 1) in
  iAvailU e = true -> iAvailL e = true -> stored e u (at_ u) -> stored e l (at_ l) -> smooth_mode (c_luma (at_ u)) = true -> smooth_mode (c_luma (at_ l)) = false ->
  getFilterType e 0 = Ok false /\ std_smooth false (iSubX e) (iSubY e) true true (iMiRow e) (iMiCol e) at_ = true.
Proof.
  intros e at_ u l AU AL SU SL MU ML. pose proof (getFilterType_exact e 0 at_ ltac:(lia)) as K. cbv zeta in K. cbn [Z.ltb Z.compare andb] in K. cbv iota in K. change (0 <? 0) with false in K. cbn [andb] in K. cbv iota in K.
  rewrite !Z.sub_0_r, !Z.add_0_r in K. fold u l in K. unfold availU, availL in K. change (0 =? 0) with true in K. cbv iota in K. rewrite AU, AL in K. split.
  - rewrite K by auto. cbn [smooth_cell]. rewrite ML. reflexivity.
  - unfold std_smooth, above_pos, left_pos. cbn [andb]. rewrite Z.sub_0_r, Z.add_0_r. fold u. cbn [smooth_cell]. rewrite MU. reflexivity.
Qed.
Print Assumptions C169_above_ignored_refuted.
(** ... and in 4:2:0 the chroma of an 8x8 block (even row and column) takes the mode of the first, not of the second, 4x4 column above. *)
Theorem C169_chroma_column_refuted : forall e at_, let u := (iMiRow e - 1, iMiCol e) in let u' := (iMiRow e - 1, iMiCol e + 1) in
  iSubX e = true -> iSubY e = true -> iMiRow e mod 2 = 0 -> iMiCol e mod 2 = 0 -> iAvailUChroma e = true -> iAvailLChroma e = false -> stored e u (at_ u) ->
  smooth_cell true (at_ u) = false -> smooth_cell true (at_ u') = true ->
  getFilterType e 1 = Ok false /\ std_smooth true (iSubX e) (iSubY e) true false (iMiRow e) (iMiCol e) at_ = true.
Proof.
  intros e at_ u u' SX SY RE CE AU AL SU M M'. pose proof (getFilterType_exact e 1 at_ ltac:(lia)) as K. cbv zeta in K. rewrite SX, SY, RE, CE in K. change (0 <? 1) with true in K. cbn [Z.eqb andb] in K. cbv iota in K.
  rewrite !Z.sub_0_r, !Z.add_0_r in K. fold u in K. unfold availU, availL in K. change (1 =? 0) with false in K. cbv iota in K. rewrite AU, AL in K. split.
  - rewrite K by (auto; discriminate). cbn [andb]. rewrite M. reflexivity.
  - unfold std_smooth, above_pos. rewrite SX, SY, RE, CE. cbn [andb]. change (1 - 0) with 1. rewrite Z.sub_0_r. fold u'. rewrite M'. reflexivity.
Qed.
Print Assumptions C169_chroma_column_refuted.

(** A block at (1, 1) with a smooth block above (mode 10) and one with mode 2 to the left *)
Definition case_env (l : bool) (row col : Z) : IEnv := mkIEnv 8 true true true 4 4 row col true l true false
  (repeat (repeat [0; -1] 4) 4) [[0; 10; 0; 0]; [2; 0; 0; 0]; [0; 0; 0; 0]; [0; 0; 0; 0]] [[0; 0; 0; 0]; [0; 0; 0; 11]; [0; 0; 0; 0]; [0; 0; 0; 0]] false 0 0.
Definition case_at (p : Z * Z) : cell := mkCell (if (fst p =? 0) && (snd p =? 1) then 10 else if (fst p =? 1) && (snd p =? 0) then 2 else 0) (if (fst p =? 1) && (snd p =? 3) then 11 else 0) false.
Example C169_case :
  stored (case_env true 1 1) (0, 1) (case_at (0, 1)) /\ stored (case_env true 1 1) (1, 0) (case_at (1, 0)) /\
  getFilterType (case_env false 1 1) 0 = Ok true /\ std_smooth false true true true false 1 1 case_at = true /\
  getFilterType (case_env true 1 1) 0 = Ok false /\ std_smooth false true true true true 1 1 case_at = true /\
  stored (case_env true 2 2) (1, 2) (case_at (1, 2)) /\ smooth_cell true (case_at (1, 2)) = false /\ smooth_cell true (case_at (1, 3)) = true /\ getFilterType (case_env true 2 2) 1 = Ok false.
Proof. unfold stored. repeat match goal with |- _ /\ _ => split | |- exists _, _ => eexists end; vm_compute; reflexivity. Qed.

(** ** C119: edges that need no filter *)
(** With the edge filter of the sequence on, a slanted prediction for which the standard chooses strength 0 at both edges, no upsampling and no corner filter
    uses the edges as they are (smooth neighbours, or blocks up to 4x8). *)
Theorem C119_unfiltered_partial : forall e plane x y hl ha pAngle w h mx my A L smooth, iEdgeFilter e = true -> getFilterType e plane = Ok smooth ->
  0 <= pAngle <= 270 -> pAngle <> 90 -> pAngle <> 180 -> (smooth = true \/ w + h <= 12) ->
  (ha = true -> std_strength smooth (w + h) (Z.abs (pAngle - 90)) = 0) -> (hl = true -> std_strength smooth (w + h) (Z.abs (pAngle - 180)) = 0) ->
  ~ (90 < pAngle < 180 /\ 24 <= w + h) ->
  (forall d, d = pAngle - 90 \/ d = pAngle - 180 -> Z.abs d < 40 -> (if smooth then 8 else 16) < w + h) ->
  directionalEdges e plane x y hl ha pAngle w h mx my A L = Ok (A, L).
Proof.
  intros e plane x y hl ha pAngle w h mx my A L smooth He Hf Hp N90 N180 HS SA SL HC HU. unfold directionalEdges. rewrite He. cbn [negb].
  destruct (Z.eqb_spec pAngle 90); [lia|]. destruct (Z.eqb_spec pAngle 180); [lia|]. cbn [negb andb].
  replace ((90 <? pAngle) && (pAngle <? 180) && (24 <=? w + h)) with false
    by (destruct (Z.ltb_spec 90 pAngle), (Z.ltb_spec pAngle 180), (Z.leb_spec 24 (w + h)); cbn [andb]; try reflexivity; exfalso; apply HC; lia).
  cbn [rbind]. rewrite Hf. cbn [rbind]. change (2 ^ 40) with 1099511627776 in *.
  rewrite !C119_strength_partial by ((change (2 ^ 40) with 1099511627776; lia) || exact HS).
  assert (EA : forall sz, (if ha then edgeFilter sz (std_strength smooth (w + h) (Z.abs (pAngle - 90))) A else Ok A) = Ok A) by (intros sz; destruct ha; [rewrite SA by reflexivity|]; reflexivity).
  rewrite EA. cbn [rbind].
  assert (EL : forall sz, (if hl then edgeFilter sz (std_strength smooth (w + h) (Z.abs (pAngle - 180))) L else Ok L) = Ok L) by (intros sz; destruct hl; [rewrite SL by reflexivity|]; reflexivity).
  rewrite EL. cbn [rbind].
  assert (U : forall d, d = pAngle - 90 \/ d = pAngle - 180 -> upsampleSel w h (int_of smooth) d = false).
  { intros d Hd. destruct (upsampleSel w h (int_of smooth) d) eqn:EU; [|reflexivity]. exfalso. apply C119_upsampling in EU; [|change (2 ^ 40) with 1099511627776; lia]. specialize (HU d Hd ltac:(lia)). lia. }
  rewrite !U by auto. cbn [rbind]. reflexivity.
Qed.
Print Assumptions C119_unfiltered_partial.
(** An 8x8 block below a smooth one, predicted at 103 degrees *)
Example C119_unfiltered_case : getFilterType (case_env false 1 1) 0 = Ok true /\ std_strength true (8 + 8) (Z.abs (103 - 90)) = 0 /\
  directionalEdges (case_env false 1 1) 0 4 4 false true 103 8 8 15 15 [1; 2; 3] [4; 5; 6] = Ok ([1; 2; 3], [4; 5; 6]).
Proof. repeat split. Qed.

(** ** C77: the first block of a tile *)
(** Without neighbours AV1 sets the row above to 2^(bd-1) - 1 and the column on the left to 2^(bd-1) + 1.  Refuted: the value of the column goes to the row
    above, and the column keeps what earlier blocks left there. *)
Theorem C77_no_neighbours_refuted : forall bd f plane x y w h mx my har hbl A L A' L', 1 <= bd <= 16 -> 1 <= w -> 1 <= h -> w + h <= zlen A ->
  prepareEdges bd f plane x y w h mx my false false har hbl A L = Ok (A', L') ->
  (forall i, 0 <= i < w + h - 1 -> idx A' i = Ok (2 ^ (bd - 1) + 1)) /\ (forall k, 0 <= k < zlen L - 1 -> idx L' k = idx L k) /\
  idx A' (zlen A - 1) = Ok (2 ^ (bd - 1)) /\ idx L' (zlen L - 1) = Ok (2 ^ (bd - 1)).
Proof.
  intros bd f plane x y w h mx my har hbl A L A' L' Hbd Hw Hh HA E. unfold prepareEdges in E. apply rbind_inv in E as (yM1 & Ey & E). apply rbind_inv in E as (A1 & E1 & E). apply rbind_inv in E as ([A2 L2] & E2 & E).
  apply rbind_inv in E as (c & Ec & E). apply rbind_inv in E as (A3 & E3 & E). apply rbind_inv in E as (L3 & E4 & E). injection E as <- <-.
  assert (SH : shl 1 (bd - 1) = 2 ^ (bd - 1)).
  { assert (0 < 2 ^ (bd - 1) <= 2 ^ 15) by (split; [apply Z.pow_pos_nonneg; lia|apply Z.pow_le_mono_r; lia]). rewrite shl_small; [lia|lia|change (2 ^ 63) with 9223372036854775808; change (2 ^ 15) with 32768 in *; lia]. }
  apply fillAbove_post in E1 as (_ & _ & Z1); [|lia]. unfold corner in Ec. cbn [andb] in Ec. injection Ec as <-. rewrite SH in *.
  assert (K : zlen A2 = zlen A1 /\ L2 = L /\ forall i, 0 <= i < w + h - 1 -> idx A2 i = Ok (2 ^ (bd - 1) + 1)).
  { revert E2. unfold fillLeft, rfor_to. rewrite Z.sub_0_r. match goal with |- context [rfor_from _ 0 ?b (A1, L)] => set (body := b) end.
    assert (K : forall AL, rfor_from (Z.to_nat (w + h - 1)) 0 body (A1, L) = Ok AL -> (fun m AL => zlen (fst AL) = zlen A1 /\ snd AL = L /\ forall i, 0 <= i < m -> idx (fst AL) i = Ok (2 ^ (bd - 1) + 1)) (0 + Z.of_nat (Z.to_nat (w + h - 1))) AL).
    { intros AL. apply (rfor_from_post (fun m AL => zlen (fst AL) = zlen A1 /\ snd AL = L /\ forall i, 0 <= i < m -> idx (fst AL) i = Ok (2 ^ (bd - 1) + 1))); [split; [reflexivity|]; split; [reflexivity|cbn [fst]; lia]|].
      intros m [a l] [a' l'] Hm (I1 & I2 & I3) H. cbn [fst snd] in *. unfold body in H. cbn [negb andb] in H. cbv iota in H. rewrite SH in H.
      apply rbind_inv in H as (a1 & Ea & H). injection H as <- <-. split; [rewrite (upd_zlen _ _ _ _ Ea); exact I1|]. split; [exact I2|].
      intros i Hi. destruct (Z.eq_dec i m) as [->|N]; [exact (idx_upd_same _ _ _ _ Ea)|]. rewrite (idx_upd_other _ _ _ _ _ Ea) by lia. apply I3. lia. }
    intros E2. apply K in E2. cbn [fst snd] in E2. rewrite Z2Nat.id in E2 by lia. exact E2. }
  destruct K as (K1 & -> & K3). rewrite K1, Z1 in E3. split; [|split; [|split]].
  - intros i Hi. rewrite (idx_upd_other _ _ _ _ _ E3) by lia. apply K3, Hi.
  - intros k Hk. apply (idx_upd_other _ _ _ _ _ E4). lia.
  - exact (idx_upd_same _ _ _ _ E3).
  - exact (idx_upd_same _ _ _ _ E4).
Qed.
Print Assumptions C77_no_neighbours_refuted.
Example C77_first_case : match prepareEdges 8 ramp 0 0 0 4 4 15 15 false false false false noEdge noEdge with Ok (A', L') => (firstn 9 A', firstn 9 L', last A' 0, last L' 0) | _ => ([], [], 0, 0) end =
  ([129;129;129;129;129;129;129;7;7], [7;7;7;7;7;7;7;7;7], 128, 128).
Proof. vm_compute. reflexivity. Qed.

(** ** C77: nothing outside of the frame is used *)
(** The number of columns and rows of a plane (4x4 units of luma; a half in a subsampled direction) *)
Definition plane_cols (e : IEnv) (plane : Z) : Z := if plane =? 0 then 4 * iMiCols e else 4 * iMiCols e / (if iSubX e then 2 else 1).
Definition plane_rows (e : IEnv) (plane : Z) : Z := if plane =? 0 then 4 * iMiRows e else 4 * iMiRows e / (if iSubY e then 2 else 1).
Lemma maxX_ok e plane : 0 <= plane -> maxXof e plane = plane_cols e plane - 1.
Proof.
  intros H. unfold maxXof, plane_cols, shr. change MI_SIZE with 4. destruct (Z.eqb_spec plane 0) as [->|N]; [change (0 <? 0) with false; cbv iota; lia|].
  destruct (Z.ltb_spec 0 plane); [|lia]. rewrite (Z.mul_comm (iMiCols e)). destruct (iSubX e); cbn [int_of]; rewrite Z.shiftr_div_pow2 by lia; reflexivity.
Qed.
Lemma maxY_ok e plane : 0 <= plane -> maxYof e plane = plane_rows e plane - 1.
Proof.
  intros H. unfold maxYof, plane_rows, shr. change MI_SIZE with 4. destruct (Z.eqb_spec plane 0) as [->|N]; [change (0 <? 0) with false; cbv iota; lia|].
  destruct (Z.ltb_spec 0 plane); [|lia]. rewrite (Z.mul_comm (iMiRows e)). destruct (iSubY e); cbn [int_of]; rewrite Z.shiftr_div_pow2 by lia; reflexivity.
Qed.
Lemma all_ext {A} lo hi (f g : Z -> A -> res A) a : (forall i a, f i a = g i a) -> rfor_to lo hi f a = rfor_to lo hi g a.
Proof. intros H. unfold rfor_to. generalize (Z.to_nat (hi - lo)). intros n. revert lo a. induction n as [|n IH]; intros; cbn [rfor_from]; [reflexivity|]. rewrite H. destruct (g lo a); cbn [rbind]; auto. Qed.
Lemma two_steps {B} (f : frame) plane i j (k : Z -> res B) : (let! row := idx2 f plane i in let! v := idx row j in k v) = (let! v := idx3 f plane i j in k v).
Proof. unfold idx3, idx2. destruct (idx f plane) as [pl| |]; cbn [rbind]; [|reflexivity|reflexivity]. destruct (idx pl i); reflexivity. Qed.
(** Whatever is stored to the right of the frame, below it or in another plane, the edges of a block are the same: changing one such sample changes
    neither of them (nor whether they can be prepared). *)
Theorem C77_outside_unused : forall e plane x y w h hl ha har hbl A L f f' p i j v, 0 <= plane -> 1 <= w -> 1 <= h ->
  0 <= x < plane_cols e plane -> 0 <= y < plane_rows e plane -> (hl = true -> 1 <= x) -> (ha = true -> 1 <= y) ->
  upd3 f p i j v = Ok f' -> p <> plane \/ plane_rows e plane <= i \/ plane_cols e plane <= j ->
  prepareEdges (iBitDepth e) f' plane x y w h (maxXof e plane) (maxYof e plane) hl ha har hbl A L =
  prepareEdges (iBitDepth e) f plane x y w h (maxXof e plane) (maxYof e plane) hl ha har hbl A L.
Proof.
  intros e plane x y w h hl ha har hbl A L f f' p i j v Hp Hw Hh Hx Hy HL HA HU HO. rewrite maxX_ok, maxY_ok by exact Hp. set (cols := plane_cols e plane) in *. set (rows := plane_rows e plane) in *.
  assert (ML : forall a b, Min a b <= a) by (intros a b; unfold Min; destruct (Z.leb_spec a b); lia).
  assert (R : forall r c, r < rows -> c < cols -> idx3 f' plane r c = idx3 f plane r c) by (intros r c Hr Hc; apply (idx3_upd3_other _ _ _ _ _ _ _ _ _ HU); intros [= ]; lia).
  assert (BX : forall B r (k : Z -> res B), r < rows -> hl = true -> (let! row := idx2 f' plane r in let! v := beforeX row x in k v) = (let! row := idx2 f plane r in let! v := beforeX row x in k v)).
  { intros B r k Hr Hl. unfold beforeX. specialize (HL Hl). destruct (Z.eqb_spec (x - 1) (-1)); [lia|]. rewrite !two_steps, R by lia. reflexivity. }
  assert (BX0 : hl = true -> (let! row := idx2 f' plane y in beforeX row x) = (let! row := idx2 f plane y in beforeX row x)).
  { intros Hl. specialize (BX Z y (fun v => Ok v) ltac:(lia) Hl). assert (K : forall r : res Z, (let! v := r in Ok v) = r) by (intros []; reflexivity).
    destruct (idx2 f' plane y), (idx2 f plane y); cbn [rbind] in *; rewrite ?K in BX; exact BX. }
  assert (YM : exists q q', yMinusOne f' plane y = q' /\ yMinusOne f plane y = q /\ (q' = q)).
  { exists (yMinusOne f plane y), (yMinusOne f' plane y). split; [reflexivity|]. split; [reflexivity|]. unfold yMinusOne. destruct (Z.eqb_spec (y - 1) (-1)); [|reflexivity].
    unfold upd3 in HU. apply rbind_inv in HU as (P & EP & HU). apply rbind_inv in HU as (P' & EP' & HU). destruct (Z.eq_dec p plane) as [->|N].
    - rewrite (idx_upd_same _ _ _ _ HU), EP. cbn [rbind]. unfold upd2 in EP'. apply rbind_inv in EP' as (r & _ & EP'). apply rbind_inv in EP' as (r' & _ & EP'). rewrite (upd_zlen _ _ _ _ EP'). reflexivity.
    - rewrite (idx_upd_other _ _ _ _ _ HU) by lia. reflexivity. }
  destruct YM as (q & q' & E1 & E2 & E3). unfold prepareEdges. rewrite E1, E2, E3.
  destruct q as [yM1| |]; cbn [rbind]; try reflexivity. assert (HY : ha = true -> yM1 = y) by (intros Ha; specialize (HA Ha); unfold yMinusOne in E2; destruct (Z.eqb_spec (y - 1) (-1)); [lia|injection E2 as <-; reflexivity]).
  assert (FA : fillAbove (iBitDepth e) f' plane x y w h (cols - 1) yM1 hl ha har A = fillAbove (iBitDepth e) f plane x y w h (cols - 1) yM1 hl ha har A).
  { unfold fillAbove. apply all_ext. intros k B. f_equal. unfold aboveSample. destruct ha; cbn [negb andb]; [|destruct hl; cbn [negb andb]; [apply BX0|]; reflexivity].
    apply R; [rewrite HY by reflexivity; lia|]. eapply Z.le_lt_trans; [apply ML|]. destruct har; (eapply Z.le_lt_trans; [apply ML|lia]). }
  rewrite FA. destruct (fillAbove (iBitDepth e) f plane x y w h (cols - 1) yM1 hl ha har A) as [A1| |]; cbn [rbind]; try reflexivity.
  assert (FL : fillLeft (iBitDepth e) f' plane x y w h (rows - 1) yM1 hl ha hbl A1 L = fillLeft (iBitDepth e) f plane x y w h (rows - 1) yM1 hl ha hbl A1 L).
  { unfold fillLeft. apply all_ext. intros k [a l]. destruct hl; cbn [negb andb].
    - apply BX; [|reflexivity]. eapply Z.le_lt_trans; [apply ML|]. destruct hbl; (eapply Z.le_lt_trans; [apply ML|lia]).
    - destruct ha; cbn [negb andb]; [|reflexivity]. rewrite R; [reflexivity|rewrite HY by reflexivity; lia|lia]. }
  rewrite FL. destruct (fillLeft (iBitDepth e) f plane x y w h (rows - 1) yM1 hl ha hbl A1 L) as [[A2 L2]| |]; cbn [rbind]; try reflexivity.
  assert (FC : corner (iBitDepth e) f' plane x y yM1 hl ha = corner (iBitDepth e) f plane x y yM1 hl ha).
  { unfold corner. destruct ha, hl; cbn [andb]; [|rewrite R; [reflexivity|rewrite HY by reflexivity; lia|lia]|apply BX0; reflexivity|reflexivity].
    specialize (HL eq_refl). destruct (Z.eqb_spec (x - 1) (-1)); [lia|]. apply R; [rewrite HY by reflexivity; lia|lia]. }
  rewrite FC. reflexivity.
Qed.
Print Assumptions C77_outside_unused.
(** The 16x16 frame [ramp] as a 12x12 one: the sample at row 5, column 12 is outside, and the row above the block at (8, 5) stops at column 11. *)
Example C77_outside_case : let e := mkIEnv 8 true true true 3 3 0 0 true true true true [] [] [] false 0 0 in
  plane_cols e 0 = 12 /\ plane_rows e 1 = 6 /\ (exists f', upd3 ramp 0 5 12 99 = Ok f') /\
  match prepareEdges 8 ramp 0 8 5 4 4 (maxXof e 0) (maxYof e 0) false true true false noEdge noEdge with Ok (A', _) => firstn 7 A' | _ => [] end = [58; 59; 60; 61; 61; 61; 61].
Proof. cbv zeta. split; [reflexivity|]. split; [reflexivity|]. split; [eexists; vm_compute; reflexivity|]. vm_compute. reflexivity. Qed.
