(** Proofs about the loop filter model. *)
From Verif Require Import GoBase Util UtilProofs Constants Tables Frame LoopFilter SpecFilter.

Lemma Clip3_clamp lo hi v : lo <= hi -> Clip3 lo hi v = clamp lo hi v.
Proof. unfold Clip3, clamp. intros. destruct (Z.ltb_spec v lo); [lia|]. destruct (Z.ltb_spec hi v); lia. Qed.
Lemma pow_bounds bd : 8 <= bd <= 16 -> 128 <= 2 ^ (bd - 1) <= 32768 /\ 2 ^ bd = 2 * 2 ^ (bd - 1) /\ 2 ^ (bd - 1) = 128 * 2 ^ (bd - 8) /\ 1 <= 2 ^ (bd - 8) <= 256.
Proof.
  intros H. assert (A : 2 ^ (bd - 1) = 128 * 2 ^ (bd - 8)) by (change 128 with (2 ^ 7); rewrite <- Z.pow_add_r by lia; f_equal; lia).
  assert (B : 2 ^ bd = 2 * 2 ^ (bd - 1)) by (change 2 with (2 ^ 1) at 2; rewrite <- Z.pow_add_r by lia; f_equal; lia).
  pose proof (Z.pow_le_mono_r 2 7 (bd - 1)). pose proof (Z.pow_le_mono_r 2 (bd - 1) 15). pose proof (Z.pow_le_mono_r 2 0 (bd - 8)). pose proof (Z.pow_le_mono_r 2 (bd - 8) 8).
  change (2 ^ 7) with 128 in *. change (2 ^ 15) with 32768 in *. change (2 ^ 0) with 1 in *. change (2 ^ 8) with 256 in *. lia.
Qed.
Lemma filter4Clamp_s bd v : 8 <= bd <= 16 -> filter4Clamp bd v = sclamp bd v.
Proof.
  intros H. pose proof (pow_bounds bd H) as (A & _). unfold filter4Clamp, sclamp.
  rewrite shl_small by (try lia; rewrite Z.mul_1_l; change (2 ^ 63) with 9223372036854775808; lia).
  rewrite Z.mul_1_l. apply Clip3_clamp. lia.
Qed.
Lemma off_mid bd : 8 <= bd <= 16 -> shl 128 (bd - 8) = 2 ^ (bd - 1).
Proof. intros H. pose proof (pow_bounds bd H) as (A & _ & B & C). rewrite shl_small; change (2 ^ 63) with 9223372036854775808; lia. Qed.
Lemma sclamp_range bd v : 8 <= bd <= 16 -> - 2 ^ (bd - 1) <= sclamp bd v <= 2 ^ (bd - 1) - 1.
Proof. intros H. pose proof (pow_bounds bd H). unfold sclamp, clamp. lia. Qed.
Lemma sclamp_sample bd v : 8 <= bd <= 16 -> sample bd (2 ^ (bd - 1) + sclamp bd v).
Proof. intros H. pose proof (pow_bounds bd H). pose proof (sclamp_range bd v H). unfold sample. lia. Qed.
Lemma Round2_1 v : - 2 ^ 61 <= v <= 2 ^ 61 -> Round2 v 1 = Ok ((v + 1) / 2).
Proof.
  intros H. unfold Round2. change (1 =? 0) with false. change (1 <? 0) with false. cbv iota. change (1 - 1) with 0. change (shl 1 0) with 1.
  rewrite i64_id by (change (2 ^ 63) with 9223372036854775808; change (2 ^ 61) with 2305843009213693952 in *; lia). rewrite shr_div by lia. reflexivity.
Qed.

Definition axis (dx dy : Z) : Prop := (dx = 1 /\ dy = 0) \/ (dx = 0 /\ dy = 1).

Definition nhev (h : Z) : bool := bool_of h.

Lemma narrowFilter_spec bd hev x y plane dx dy f p1 p0 q0 q1 : 8 <= bd <= 16 -> axis dx dy ->
  idx3 f plane y x = Ok q0 -> idx3 f plane (y + dy) (x + dx) = Ok q1 -> idx3 f plane (y - dy) (x - dx) = Ok p0 -> idx3 f plane (y - dy * 2) (x - dx * 2) = Ok p1 ->
  exists f', narrowFilter bd hev x y plane dx dy f = Ok f' /\
    (let '(p1', p0', q0', q1') := narrow bd (bool_of hev) p1 p0 q0 q1 in
     idx3 f' plane (y - dy * 2) (x - dx * 2) = Ok p1' /\ idx3 f' plane (y - dy) (x - dx) = Ok p0' /\
     idx3 f' plane y x = Ok q0' /\ idx3 f' plane (y + dy) (x + dx) = Ok q1') /\
    (forall p i j, (p, i, j) <> (plane, y, x) -> (p, i, j) <> (plane, y - dy, x - dx) -> 
       ((p, i, j) <> (plane, y + dy, x + dx) -> (p, i, j) <> (plane, y - dy * 2, x - dx * 2) -> idx3 f' p i j = idx3 f p i j) /\
       (bool_of hev = true -> idx3 f' p i j = idx3 f p i j)) /\
    (all_samples (sample bd) f -> all_samples (sample bd) f').
Proof.
  intros Hbd Hax E0 E1 E2 E3. pose proof (pow_bounds bd Hbd) as HB.
  assert (N01 : (y, x) <> (y - dy, x - dx)) by (intros [= ]; destruct Hax as [[-> ->]|[-> ->]]; lia).
  assert (N02 : (y, x) <> (y + dy, x + dx)) by (intros [= ]; destruct Hax as [[-> ->]|[-> ->]]; lia).
  assert (N03 : (y, x) <> (y - dy * 2, x - dx * 2)) by (intros [= ]; destruct Hax as [[-> ->]|[-> ->]]; lia).
  assert (N12 : (y - dy, x - dx) <> (y + dy, x + dx)) by (intros [= ]; destruct Hax as [[-> ->]|[-> ->]]; lia).
  assert (N13 : (y - dy, x - dx) <> (y - dy * 2, x - dx * 2)) by (intros [= ]; destruct Hax as [[-> ->]|[-> ->]]; lia).
  assert (N23 : (y + dy, x + dx) <> (y - dy * 2, x - dx * 2)) by (intros [= ]; destruct Hax as [[-> ->]|[-> ->]]; lia).
  unfold narrowFilter. rewrite E0, E1, E2, E3. cbn [rbind]. cbv zeta. rewrite !off_mid, !filter4Clamp_s by exact Hbd. rewrite !shr_div by lia. change (2 ^ 3) with 8.
  set (mid := 2 ^ (bd - 1)) in *.
  unfold narrow. cbv zeta. fold mid.
  replace (p1 - mid - (q1 - mid)) with (p1 - q1) by lia. replace (q0 - mid - (p0 - mid)) with (q0 - p0) by lia.
  set (base := if bool_of hev then sclamp bd (p1 - q1) else 0). set (flt := sclamp bd (base + 3 * (q0 - p0))).
  set (f1 := sclamp bd (flt + 4) / 8). set (f2 := sclamp bd (flt + 3) / 8).
  destruct (upd3_succeeds f plane y x q0 (sclamp bd (q0 - mid - f1) + mid) E0) as [fa Ea]. rewrite Ea. cbn [rbind].
  assert (E2a : idx3 fa plane (y - dy) (x - dx) = Ok p0) by (rewrite (idx3_upd3_other _ _ _ _ _ _ _ _ _ Ea), E2; congruence).
  destruct (upd3_succeeds fa plane _ _ p0 (sclamp bd (p0 - mid + f2) + mid) E2a) as [fb Eb]. rewrite Eb. cbn [rbind].
  assert (R0 : sample bd (sclamp bd (q0 - mid - f1) + mid)) by (rewrite Z.add_comm; apply sclamp_sample; exact Hbd).
  assert (R1 : sample bd (sclamp bd (p0 - mid + f2) + mid)) by (rewrite Z.add_comm; apply sclamp_sample; exact Hbd).
  destruct (bool_of hev) eqn:Eh; cbn [negb].
  - exists fb. split; [reflexivity|]. split; [|split].
    + repeat split.
      * rewrite (idx3_upd3_other _ _ _ _ _ _ _ _ _ Eb), (idx3_upd3_other _ _ _ _ _ _ _ _ _ Ea), E3; congruence.
      * rewrite (idx3_upd3_same _ _ _ _ _ _ Eb). f_equal; lia.
      * rewrite (idx3_upd3_other _ _ _ _ _ _ _ _ _ Eb), (idx3_upd3_same _ _ _ _ _ _ Ea); [f_equal; lia|congruence].
      * rewrite (idx3_upd3_other _ _ _ _ _ _ _ _ _ Eb), (idx3_upd3_other _ _ _ _ _ _ _ _ _ Ea), E1; congruence.
    + intros p i j H1 H2. split; intros; rewrite (idx3_upd3_other _ _ _ _ _ _ _ _ _ Eb), (idx3_upd3_other _ _ _ _ _ _ _ _ _ Ea); congruence.
    + intros HA. eapply upd3_Forall; [|exact R1|exact Eb]. eapply upd3_Forall; [exact HA|exact R0|exact Ea].
  - assert (Hf1 : - 32768 <= f1 <= 32768).
    { unfold f1. pose proof (sclamp_range bd (flt + 4) Hbd). fold mid in H. split; [apply Z.div_le_lower_bound|apply Z.div_le_upper_bound]; lia. }
    rewrite Round2_1 by (change (2 ^ 61) with 2305843009213693952; lia). cbn [rbind]. rewrite !filter4Clamp_s by exact Hbd.
    set (g := (f1 + 1) / 2).
    assert (E1b : idx3 fb plane (y + dy) (x + dx) = Ok q1) by (rewrite (idx3_upd3_other _ _ _ _ _ _ _ _ _ Eb), (idx3_upd3_other _ _ _ _ _ _ _ _ _ Ea), E1; congruence).
    destruct (upd3_succeeds fb plane _ _ q1 (sclamp bd (q1 - mid - g) + mid) E1b) as [fc Ec]. rewrite Ec. cbn [rbind].
    assert (E3c : idx3 fc plane (y - dy * 2) (x - dx * 2) = Ok p1) by (rewrite (idx3_upd3_other _ _ _ _ _ _ _ _ _ Ec), (idx3_upd3_other _ _ _ _ _ _ _ _ _ Eb), (idx3_upd3_other _ _ _ _ _ _ _ _ _ Ea), E3; congruence).
    destruct (upd3_succeeds fc plane _ _ p1 (sclamp bd (p1 - mid + g) + mid) E3c) as [fd Ed]. rewrite Ed.
    exists fd. split; [reflexivity|]. split; [|split].
    + repeat split.
      * rewrite (idx3_upd3_same _ _ _ _ _ _ Ed). f_equal; lia.
      * rewrite (idx3_upd3_other _ _ _ _ _ _ _ _ _ Ed), (idx3_upd3_other _ _ _ _ _ _ _ _ _ Ec), (idx3_upd3_same _ _ _ _ _ _ Eb); try congruence. f_equal; lia.
      * rewrite (idx3_upd3_other _ _ _ _ _ _ _ _ _ Ed), (idx3_upd3_other _ _ _ _ _ _ _ _ _ Ec), (idx3_upd3_other _ _ _ _ _ _ _ _ _ Eb), (idx3_upd3_same _ _ _ _ _ _ Ea); try congruence. f_equal; lia.
      * rewrite (idx3_upd3_other _ _ _ _ _ _ _ _ _ Ed), (idx3_upd3_same _ _ _ _ _ _ Ec); try congruence. f_equal; lia.
    + intros p i j H1 H2. split; [|discriminate]. intros H3 H4.
      rewrite (idx3_upd3_other _ _ _ _ _ _ _ _ _ Ed), (idx3_upd3_other _ _ _ _ _ _ _ _ _ Ec), (idx3_upd3_other _ _ _ _ _ _ _ _ _ Eb), (idx3_upd3_other _ _ _ _ _ _ _ _ _ Ea); congruence.
    + assert (R2 : sample bd (sclamp bd (q1 - mid - g) + mid)) by (rewrite Z.add_comm; apply sclamp_sample; exact Hbd).
      assert (R3 : sample bd (sclamp bd (p1 - mid + g) + mid)) by (rewrite Z.add_comm; apply sclamp_sample; exact Hbd).
      intros HA. eapply upd3_Forall; [|exact R3|exact Ed]. eapply upd3_Forall; [|exact R2|exact Ec].
      eapply upd3_Forall; [|exact R1|exact Eb]. eapply upd3_Forall; [exact HA|exact R0|exact Ea].
Qed.

Lemma wideFilter_panics x y plane dx dy log2Size f : 0 <= log2Size -> wideFilter x y plane dx dy log2Size f = Panic.
Proof.
  intros Hl. unfold wideFilter. cbv zeta. set (n := if log2Size =? 4 then 6 else if plane =? 0 then 3 else 2). set (n2 := if _ : bool then 0 else 1).
  assert (Hn : 2 <= n <= 6) by (unfold n; destruct (log2Size =? 4); [lia|]; destruct (plane =? 0); lia).
  unfold rfor_to at 1. destruct (Z.to_nat (n - - n)) eqn:E; [lia|]. cbn [rfor_from].
  assert (W : wideSum plane x y dx dy n n2 (- n) f <> Hang).
  { apply rfor_from_nh. intros j a. apply rbind_nh; [apply idx3_nh|discriminate]. }
  destruct (wideSum plane x y dx dy n n2 (- n) f); cbn [rbind]; try reflexivity; try congruence.
  assert (R : exists r, Round2 a log2Size = Ok r).
  { unfold Round2. destruct (log2Size =? 0); [eauto|]. destruct (Z.ltb_spec log2Size 0); [lia|eauto]. }
  destruct R as [r ->]. cbn [rbind]. rewrite upd_panic by lia. reflexivity.
Qed.

Lemma lor_int a b : Z.lor (int_of a) (int_of b) = int_of (a || b).
Proof. destruct a, b; reflexivity. Qed.
Lemma int_of_0 b : (int_of b =? 0) = negb b.
Proof. destruct b; reflexivity. Qed.
Lemma Abs_abs x : - 2 ^ 62 <= x <= 2 ^ 62 -> Abs x = Z.abs x.
Proof.
  intros H. change (2 ^ 62) with 4611686018427387904 in H. unfold Abs. destruct (Z.leb_spec 0 x); [lia|].
  rewrite i64_id by (change (2 ^ 63) with 9223372036854775808; lia). lia.
Qed.

Lemma leb_ltb_neg a b : (a <=? b) = negb (b <? a).
Proof. destruct (Z.leb_spec a b), (Z.ltb_spec b a); try reflexivity; lia. Qed.

Lemma filterMask_spec bd x y plane limit blimit thresh dx dy size f q0 q1 q2 q3 q4 q5 q6 p0 p1 p2 p3 p4 p5 p6 :
  8 <= bd <= 16 -> 0 <= limit < 2 ^ 32 -> 0 <= blimit < 2 ^ 32 -> 0 <= thresh < 2 ^ 32 -> all_samples (sample bd) f ->
  idx3 f plane y x = Ok q0 -> idx3 f plane (y + dy) (x + dx) = Ok q1 -> idx3 f plane (y + dy * 2) (x + dx * 2) = Ok q2 ->
  idx3 f plane (y + dy * 3) (x + dx * 3) = Ok q3 -> idx3 f plane (y + dy * 4) (x + dx * 4) = Ok q4 -> idx3 f plane (y + dy * 5) (x + dx * 5) = Ok q5 ->
  idx3 f plane (y + dy * 6) (x + dx * 6) = Ok q6 -> idx3 f plane (y - dy) (x - dx) = Ok p0 -> idx3 f plane (y - dy * 2) (x - dx * 2) = Ok p1 ->
  idx3 f plane (y - dy * 3) (x - dx * 3) = Ok p2 -> idx3 f plane (y - dy * 4) (x - dx * 4) = Ok p3 -> idx3 f plane (y - dy * 5) (x - dx * 5) = Ok p4 ->
  idx3 f plane (y - dy * 6) (x - dx * 6) = Ok p5 -> idx3 f plane (y - dy * 7) (x - dx * 7) = Ok p6 ->
  filterMask bd x y plane limit blimit thresh dx dy size f =
    Ok (int_of (hev_spec bd thresh p1 p0 q0 q1),
        int_of (mask_spec bd (filter_len plane size) limit blimit p3 p2 p1 p0 q0 q1 q2 q3),
        int_of ((8 <=? size) && flat bd p0 ([p1; p2] ++ if 8 <=? filter_len plane size then [p3] else []) && flat bd q0 ([q1; q2] ++ if 8 <=? filter_len plane size then [q3] else [])),
        int_of ((16 <=? size) && flat bd p0 [p4; p5; p6] && flat bd q0 [q4; q5; q6])).
Proof.
  intros Hbd Hl Hb Ht HA. intros.
  repeat match goal with H : idx3 f _ _ _ = Ok ?v |- _ => lazymatch goal with K : sample bd v |- _ => fail | _ => assert (sample bd v) by exact (idx3_Forall _ _ _ _ _ _ HA H) end end.
  pose proof (pow_bounds bd Hbd) as (B1 & B2 & B3 & B4). unfold sample in *.
  unfold filterMask. repeat match goal with H : idx3 f _ _ _ = Ok _ |- _ => rewrite H; cbn [rbind]; clear H end. cbv zeta.
  change (2 ^ 32) with 4294967296 in *.
  rewrite !shl_small by (change (2 ^ 63) with 9223372036854775808; nia).
  rewrite !Abs_abs by (change (2 ^ 62) with 4611686018427387904; lia).
  rewrite (Z.quot_div_nonneg _ 2) by lia.
  unfold filter_len, hev_spec, mask_spec, flat, far. cbv zeta. rewrite Z.mul_1_l. rewrite (leb_ltb_neg (_ + _)), (Z.mul_comm 2).
  assert (I : forall a b c d a' b' c' d' : bool, a = a' -> b = b' -> c = c' -> d = d' -> Ok (int_of a, int_of b, int_of c, int_of d) = Ok (int_of a', int_of b', int_of c', int_of d')) by congruence.
  match goal with |- context[if size =? 4 then 4 else ?e] => set (len := if size =? 4 then 4 else e); clearbody len end.
  destruct (6 <=? len), (8 <=? len), (8 <=? size), (16 <=? size); cbv iota; cbn [app forallb]; rewrite ?lor_int, ?int_of_0; try change 0 with (int_of false); apply I;
    rewrite ?negb_orb, ?andb_true_r, ?andb_true_l, ?andb_false_l, ?andb_assoc; try reflexivity;
    repeat match goal with |- context[?a <? ?b] => generalize (a <? b); intro end; repeat match goal with b : bool |- _ => destruct b end; reflexivity.
Qed.

(** C65/C66 material: level and limits. *)
Lemma level_range fl d seg del : 0 <= level fl d seg del <= 63.
Proof. unfold level, clamp. destruct seg, del as [[? [?|]]|]; cbv zeta; lia. Qed.

Lemma shl_delta d n : - 2 ^ 32 <= d <= 2 ^ 32 -> 0 <= n <= 1 -> shl d n = d * 2 ^ n.
Proof. intros. change (2 ^ 32) with 4294967296 in *. apply shl_small; [lia|]. change (2 ^ 63) with 9223372036854775808. assert (n = 0 \/ n = 1) as [->| ->] by lia; [change (2 ^ 0) with 1|change (2 ^ 1) with 2]; lia. Qed.

Lemma shr5 l : 0 <= l <= 63 -> shr l 5 = l / 32 /\ 0 <= l / 32 <= 1.
Proof. intros H. rewrite shr_div by lia. change (2 ^ 5) with 32. split; [reflexivity|]. split; [apply Z.div_pos; lia|]. apply Z.lt_succ_r. apply Z.div_lt_upper_bound; lia. Qed.

Lemma selection_spec e segment ref modeType deltaLF plane pass l rd md en fd :
  let i := if plane =? 0 then int_of pass else plane + 1 in
  idx (lfLevel e) i = Ok l ->
  idx2 (lfFeatureEnabled e) segment (1 + i) = Ok en -> idx2 (lfFeatureData e) segment (1 + i) = Ok fd ->
  idx (lfRefDeltas e) ref = Ok rd -> idx (lfModeDeltas e) modeType = Ok md -> - 2 ^ 32 <= rd <= 2 ^ 32 -> - 2 ^ 32 <= md <= 2 ^ 32 ->
  adaptiveFilterStrengthSelection e segment ref modeType deltaLF plane pass =
    Ok (level l deltaLF (if lfSegEnabled e && (en =? 1) then Some fd else None)
          (if lfDeltaEnabled e then Some (rd, if ref =? 0 then None else Some md) else None)).
Proof.
  intros i El Een Efd Erd Emd Hrd Hmd. unfold adaptiveFilterStrengthSelection. fold i. cbv zeta. rewrite El. cbn [rbind].
  unfold lfSegFeatureActiveIdx. change (SEG_LVL_ALT_LF_Y_V + i) with (1 + i). rewrite Een, Efd. cbn [rbind].
  change MAX_LOOP_FILTER with 63. change INTRA_FRAME with 0. rewrite !Clip3_clamp by lia. rewrite (Z.add_comm deltaLF l).
  set (b := clamp 0 63 (l + deltaLF)).
  assert (Hb : 0 <= b <= 63) by (unfold b, clamp; lia).
  assert (S : (let! act := (if lfSegEnabled e then Ok (en =? 1) else Ok false) in
               let! lvlSeg := (if act : bool then Ok (clamp 0 63 (fd + b)) else Ok b) in
               if lfDeltaEnabled e then
                 let! lvlSeg0 := (if ref =? 0 then let! d := idx (lfRefDeltas e) 0 in Ok (lvlSeg + shl d (shr lvlSeg 5))
                                  else let! d := idx (lfRefDeltas e) ref in let! m := idx (lfModeDeltas e) modeType in Ok (lvlSeg + shl d (shr lvlSeg 5) + shl m (shr lvlSeg 5))) in
                 Ok (Clip3 0 63 lvlSeg0)
               else Ok lvlSeg) =
            (let lv := if lfSegEnabled e && (en =? 1) then clamp 0 63 (b + fd) else b in
             if lfDeltaEnabled e then
                 let! lvlSeg0 := (if ref =? 0 then let! d := idx (lfRefDeltas e) 0 in Ok (lv + shl d (shr lv 5))
                                  else let! d := idx (lfRefDeltas e) ref in let! m := idx (lfModeDeltas e) modeType in Ok (lv + shl d (shr lv 5) + shl m (shr lv 5))) in
                 Ok (Clip3 0 63 lvlSeg0)
               else Ok lv)).
  { rewrite (Z.add_comm fd b). destruct (lfSegEnabled e), (en =? 1); reflexivity. }
  destruct (lfSegEnabled e); cbn [rbind andb] in *; cbv zeta in *.
  all: etransitivity; [exact S|].
  all: unfold level; cbv zeta; fold b.
  - set (lv := if en =? 1 then clamp 0 63 (b + fd) else b).
    replace (match (if en =? 1 then Some fd else None) with Some d => clamp 0 63 (b + d) | None => b end) with lv by (unfold lv; destruct (en =? 1); reflexivity).
    assert (Hlv : 0 <= lv <= 63) by (unfold lv, clamp; destruct (en =? 1); lia).
    destruct (shr5 lv Hlv) as [-> Hs]. destruct (lfDeltaEnabled e); [|reflexivity].
    destruct (Z.eqb_spec ref 0) as [->|]; rewrite Erd; cbn [rbind]; [|rewrite Emd; cbn [rbind]]; rewrite Clip3_clamp, !shl_delta by lia; f_equal; f_equal; lia.
  - destruct (shr5 b Hb) as [-> Hs]. destruct (lfDeltaEnabled e); [|reflexivity].
    destruct (Z.eqb_spec ref 0) as [->|]; rewrite Erd; cbn [rbind]; [|rewrite Emd; cbn [rbind]]; rewrite Clip3_clamp, !shl_delta by lia; f_equal; f_equal; lia.
Qed.

Lemma Clip3_range lo hi v : lo <= hi -> lo <= Clip3 lo hi v <= hi.
Proof. unfold Clip3. intros. destruct (Z.ltb_spec v lo); [lia|]. destruct (Z.ltb_spec hi v); lia. Qed.

Lemma selection_range e segment ref modeType deltaLF plane pass lvl :
  adaptiveFilterStrengthSelection e segment ref modeType deltaLF plane pass = Ok lvl -> 0 <= lvl <= 63.
Proof.
  unfold adaptiveFilterStrengthSelection. cbv zeta. intros H. apply rbind_inv in H as (l & _ & H). apply rbind_inv in H as (act & _ & H). apply rbind_inv in H as (lv & E & H).
  change MAX_LOOP_FILTER with 63 in *.
  assert (0 <= lv <= 63).
  { destruct act; [apply rbind_inv in E as (d & _ & E)|]; injection E as <-; apply Clip3_range; lia. }
  destruct (lfDeltaEnabled e); [|injection H as <-; assumption].
  apply rbind_inv in H as (l2 & _ & H). injection H as <-. apply Clip3_range; lia.
Qed.

Lemma strength_spec e row col plane pass lvl limit blimit thresh : 0 <= lfSharpness e <= 7 ->
  adaptiveFilterStrength e row col plane pass = Ok (lvl, limit, blimit, thresh) ->
  0 <= lvl <= 63 /\ 1 <= limit <= 63 /\ 2 * (lvl + 2) + 1 <= blimit <= 2 * (lvl + 2) + 63 /\ 0 <= thresh <= 3 /\ (0 < lfSharpness e -> limit <= 9 - lfSharpness e) /\
  (lfSharpness e = 0 \/ 5 <= lfSharpness e -> (limit, blimit, thresh) = limits lvl (lfSharpness e)) /\
  (1 <= lfSharpness e <= 4 -> limit = clamp 1 (9 - lfSharpness e) (lvl / 4)).
Proof.
  intros Hs. unfold adaptiveFilterStrength. cbv zeta. intros H. apply rbind_inv in H as (sg & _ & H). apply rbind_inv in H as (rf & _ & H). apply rbind_inv in H as (mo & _ & H).
  apply rbind_inv in H as (dl & _ & H). apply rbind_inv in H as (lv & E & H). apply selection_range in E.
  injection H as -> <- <- <-. split; [exact E|]. unfold limits. cbv zeta.
  assert (Q : forall k, 1 <= k -> 0 <= lvl / k <= lvl) by (intros; split; [apply Z.div_pos; lia|apply Z.div_le_upper_bound; nia]).
  rewrite (shr_div lvl 4) by lia. change (2 ^ 4) with 16.
  assert (0 <= lvl / 16 <= 3) by (split; [apply Z.div_pos; lia|]; apply Z.lt_succ_r, Z.div_lt_upper_bound; lia).
  destruct (Z.ltb_spec 4 (lfSharpness e)); [|destruct (Z.ltb_spec 0 (lfSharpness e))].
  - destruct (Z.ltb_spec 0 (lfSharpness e)); [|lia]. rewrite shr_div, !Clip3_clamp by lia. change (2 ^ 2) with 4.
    pose proof (Q 4 ltac:(lia)). repeat split; intros; try reflexivity; unfold clamp; lia.
  - rewrite shr_div, !Clip3_clamp by lia. change (2 ^ 2) with 4. pose proof (Q 4 ltac:(lia)). repeat split; intros; try reflexivity; unfold clamp; lia.
  - assert (Max 1 (shr lvl 0) = Z.max 1 lvl) as ->.
    { unfold Max. change (shr lvl 0) with lvl. destruct (Z.leb_spec lvl 1); lia. }
    change (2 ^ 0) with 1. rewrite Z.div_1_r. repeat split; intros; try reflexivity; lia.
Qed.

(** The whole filter keeps samples in range, whatever the block information. *)
Lemma filterMask_nh bd x y plane limit blimit thresh dx dy size f : filterMask bd x y plane limit blimit thresh dx dy size f <> Hang.
Proof. unfold filterMask. repeat (apply rbind_nh; [apply idx3_nh|intro]). discriminate. Qed.
Lemma narrowFilter_nh bd hev x y plane dx dy f : narrowFilter bd hev x y plane dx dy f <> Hang.
Proof.
  unfold narrowFilter. repeat (apply rbind_nh; [apply idx3_nh|intro]). cbv zeta. repeat (apply rbind_nh; [apply upd3_nh|intro]).
  destruct (negb (bool_of hev)); [|discriminate]. apply rbind_nh; [unfold Round2; cbn; discriminate|intro]. apply rbind_nh; [apply upd3_nh|intro]. apply upd3_nh.
Qed.
Lemma sampleFiltering_nh bd x y plane limit blimit thresh dx dy size f : sampleFiltering bd x y plane limit blimit thresh dx dy size f <> Hang.
Proof.
  unfold sampleFiltering. apply rbind_nh; [apply filterMask_nh|]. intros [[[h m] f1] f2]. destruct (m =? 0); [discriminate|].
  destruct (_ || _); [apply narrowFilter_nh|]. rewrite !wideFilter_panics by lia. destruct (_ || _); discriminate.
Qed.
Lemma sampleFiltering_range bd x y plane limit blimit thresh dx dy size f f' : 8 <= bd <= 16 -> axis dx dy ->
  all_samples (sample bd) f -> sampleFiltering bd x y plane limit blimit thresh dx dy size f = Ok f' -> all_samples (sample bd) f'.
Proof.
  intros Hbd Hax HA. unfold sampleFiltering. intros H. apply rbind_inv in H as ([[[h m] f1] f2] & E & H).
  destruct (m =? 0); [injection H as <-; exact HA|].
  destruct (_ || _).
  - unfold filterMask in E. apply rbind_inv in E as (q0 & E0 & E). apply rbind_inv in E as (q1 & E1 & E).
    do 5 (apply rbind_inv in E as (? & _ & E)). apply rbind_inv in E as (p0 & E2 & E). apply rbind_inv in E as (p1 & E3 & E).
    destruct (narrowFilter_spec bd h x y plane dx dy f p1 p0 q0 q1 Hbd Hax E0 E1 E2 E3) as (f'' & Ef & _ & _ & K). rewrite Ef in H. injection H as <-. exact (K HA).
  - rewrite !wideFilter_panics in H by lia. destruct (_ || _); discriminate.
Qed.
Lemma strengthSel_nh e segment ref modeType deltaLF plane pass : adaptiveFilterStrengthSelection e segment ref modeType deltaLF plane pass <> Hang.
Proof.
  unfold adaptiveFilterStrengthSelection. cbv zeta. apply rbind_nh; [apply idx_nh|intro]. apply rbind_nh.
  { unfold lfSegFeatureActiveIdx. destruct (lfSegEnabled e); [|discriminate]. apply rbind_nh; [apply idx2_nh|discriminate]. }
  intros act. apply rbind_nh. { destruct act; [|discriminate]. apply rbind_nh; [apply idx2_nh|discriminate]. }
  intros lv. destruct (lfDeltaEnabled e); [|discriminate]. apply rbind_nh; [|discriminate].
  destruct (ref =? INTRA_FRAME); (apply rbind_nh; [apply idx_nh|intro]); [discriminate|]. apply rbind_nh; [apply idx_nh|discriminate].
Qed.
Lemma strength_nh e row col plane pass : adaptiveFilterStrength e row col plane pass <> Hang.
Proof.
  unfold adaptiveFilterStrength. apply rbind_nh; [apply idx2_nh|intro]. apply rbind_nh; [apply idx3_nh|intro]. apply rbind_nh; [apply idx2_nh|intro]. cbv zeta.
  apply rbind_nh. { destruct (lfDeltaLfMulti e =? 0); [apply idx3_nh|]. destruct (plane =? 0); apply idx3_nh. }
  intro. apply rbind_nh; [apply strengthSel_nh|]. discriminate.
Qed.
Lemma loopFilterEdge_nh e plane pass row col f : loopFilterEdge e plane pass row col f <> Hang.
Proof.
  unfold loopFilterEdge. cbv zeta. match goal with |- (if ?b then _ else _) <> _ => destruct b end; [discriminate|].
  apply rbind_nh; [apply idx2_nh|intro]. apply rbind_nh; [apply idx3_nh|intro]. apply rbind_nh; [apply idx3_nh|intro]. apply rbind_nh; [apply idx2_nh|intro].
  apply rbind_nh; [apply idx3_nh|intro]. apply rbind_nh; [apply idx3_nh|intro].
  apply rbind_nh. { destruct (negb pass); (apply rbind_nh; [apply idx_nh|discriminate]). } intro.
  apply rbind_nh. { destruct (negb pass); (apply rbind_nh; [apply idx_nh|discriminate]). } intro.
  apply rbind_nh. { unfold lfFilterSize. apply rbind_nh; [|intro; destruct (plane =? 0); discriminate]. destruct (negb pass); (apply rbind_nh; [apply idx_nh|intro]; apply rbind_nh; [apply idx_nh|discriminate]). } intro.
  apply rbind_nh; [apply strength_nh|]. intros [[[lvl ?] ?] ?]. apply rbind_nh. { destruct (lvl =? 0); [apply strength_nh|discriminate]. }
  intros [[[lvl' ?] ?] ?]. apply rfor_from_nh. intros j g. destruct (_ && _); [apply sampleFiltering_nh|discriminate].
Qed.
Lemma loopFilterEdge_range e plane pass row col f f' : 8 <= lfBitDepth e <= 16 -> all_samples (sample (lfBitDepth e)) f ->
  loopFilterEdge e plane pass row col f = Ok f' -> all_samples (sample (lfBitDepth e)) f'.
Proof.
  intros Hbd HA. unfold loopFilterEdge. cbv zeta. match goal with |- (if ?b then _ else _) = _ -> _ => destruct b end; [intros [= <-]; exact HA|]. intros H.
  do 9 (apply rbind_inv in H as (? & _ & H)). apply rbind_inv in H as ([[[lvl ?] ?] ?] & _ & H). apply rbind_inv in H as ([[[lvl' ?] ?] ?] & _ & H).
  revert H. unfold rfor_to. apply (rfor_from_post (fun _ g => all_samples (sample (lfBitDepth e)) g)); [exact HA|].
  intros j g g' _ Hg. destruct (_ && _); [|intros [= <-]; exact Hg]. apply sampleFiltering_range; auto. unfold axis. destruct pass; auto.
Qed.
Lemma loopFilter_nh e f : loopFilter e f <> Hang.
Proof.
  unfold loopFilter. apply rfor_from_nh. intros plane g. apply rbind_nh. { destruct (plane =? 0); [discriminate|]. apply rbind_nh; [apply idx_nh|discriminate]. }
  intros [|]; [|discriminate]. apply rfor_from_nh. intros pass g'. cbv zeta.
  apply rfor_by_nh. { destruct (plane =? 0), (lfSubX e); vm_compute; congruence. }
  intros row g''. apply rfor_by_nh. { destruct (plane =? 0), (lfSubY e); vm_compute; congruence. } intros. apply loopFilterEdge_nh.
Qed.
Lemma loopFilter_range e f f' : 8 <= lfBitDepth e <= 16 -> all_samples (sample (lfBitDepth e)) f -> loopFilter e f = Ok f' -> all_samples (sample (lfBitDepth e)) f'.
Proof.
  intros Hbd HA. unfold loopFilter, rfor_to at 1. apply (rfor_from_post (fun _ g => all_samples (sample (lfBitDepth e)) g)); [exact HA|].
  intros plane g g' _ Hg H. apply rbind_inv in H as (go & _ & H). destruct go; [|injection H as <-; exact Hg].
  revert H. unfold rfor_to. apply (rfor_from_post (fun _ g => all_samples (sample (lfBitDepth e)) g)); [exact Hg|].
  intros pass h h' _ Hh. cbv zeta. apply (rfor_by_post (all_samples (sample (lfBitDepth e)))); [exact Hh|].
  intros row k k' Hk. apply (rfor_by_post (all_samples (sample (lfBitDepth e)))); [exact Hk|].
  intros col m m' Hm. apply loopFilterEdge_range; assumption.
Qed.
