(** CDEF of blocks and of whole frames (C39). *)
From Verif Require Import GoBase Bitstream BitstreamProofs Util UtilProofs Constants Tables Frame Cdef SpecFilter LoopFilterProofs SpecCdef CdefProofs CdefDirProofs.

Lemma rfor_step_inv {A} (P : Z -> A -> Prop) step hi (body : Z -> A -> res A) : 1 <= step -> forall n i acc, hi - i <= Z.of_nat n -> (step | hi - i) -> i <= hi -> P i acc ->
  (forall j a, i <= j -> j + step <= hi -> (step | j - i) -> P j a -> exists a', body j a = Ok a' /\ P (j + step) a') ->
  exists a', rfor_step n i hi step body acc = Ok a' /\ P hi a'.
Proof.
  intros Hs. induction n as [|n IH]; intros i acc Hn Hd Hle H0 Hb; cbn [rfor_step]; destruct (Z.ltb_spec i hi) as [L|L]; try lia;
    try (exists acc; split; [reflexivity|replace hi with i by lia; exact H0]).
  assert (L2 : i + step <= hi) by (pose proof (Z.divide_pos_le step (hi - i) ltac:(lia) Hd); lia).
  destruct (Hb i acc ltac:(lia) L2 ltac:(rewrite Z.sub_diag; apply Z.divide_0_r) H0) as (a' & -> & P1). cbn [rbind]. apply IH; try lia; auto.
  - replace (hi - (i + step)) with ((hi - i) - step) by lia. apply Z.divide_sub_r; [exact Hd|apply Z.divide_refl].
  - intros j a A1 A2 A3 A4. apply Hb; try lia; [|exact A4]. replace (j - i) with ((j - (i + step)) + step) by lia. apply Z.divide_add_r; [exact A3|apply Z.divide_refl].
Qed.

(** ** Between the taps: whatever is returned lies between two samples at most two rows and columns away *)
Definition near_between (f : frame) (plane y x v : Z) : Prop :=
  exists y1 x1 lo y2 x2 hi, Z.abs (y1 - y) <= 2 /\ Z.abs (x1 - x) <= 2 /\ Z.abs (y2 - y) <= 2 /\ Z.abs (x2 - x) <= 2 /\
    idx3 f plane y1 x1 = Ok lo /\ idx3 f plane y2 x2 = Ok hi /\ lo <= v <= hi.
Definition near_is (f : frame) (plane y x v : Z) : Prop := exists y1 x1, Z.abs (y1 - y) <= 2 /\ Z.abs (x1 - x) <= 2 /\ idx3 f plane y1 x1 = Ok v.

Lemma directions_near : forall d k a b, idx3 CDEF_DIRECTIONS d k 0 = Ok a -> idx3 CDEF_DIRECTIONS d k 1 = Ok b -> Z.abs a <= 2 /\ Z.abs b <= 2.
Proof.
  assert (F : Forall (Forall (Forall (fun v => Z.abs v <= 2))) CDEF_DIRECTIONS) by (unfold CDEF_DIRECTIONS; repeat constructor; cbn; lia).
  intros d k a b A B. split; [exact (idx3_Forall _ _ _ _ _ _ F A)|exact (idx3_Forall _ _ _ _ _ _ F B)].
Qed.
Lemma getAt_near e f plane x0 y0 i j d k s subX subY v : 0 <= s < 2 -> cdefGetAt e f plane x0 y0 i j d k (2 * s - 1) subX subY = Ok (Some v) -> near_is f plane (y0 + i) (x0 + j) v.
Proof.
  intros Hs H. unfold cdefGetAt in H. apply rbind_inv in H as (a & Ea & H). apply rbind_inv in H as (b & Eb & H). destruct (directions_near _ _ _ _ Ea Eb).
  cbv zeta in H. destruct (isInsideFilterRegion _ _ _); [|discriminate]. apply rbind_inv in H as (u & Eu & [= <-]).
  eexists _, _. split; [|split; [|exact Eu]]; assert (s = 0 \/ s = 1) as [-> | ->] by lia; lia.
Qed.
Definition acc_ok (f : frame) (plane y x u : Z) (a : cacc) : Prop := let '(_, mx, mn) := a in near_is f plane y x mx /\ near_is f plane y x mn /\ mn <= u <= mx.
Lemma Max_max a b : Max a b = Z.max a b. Proof. unfold Max. repeat match goal with |- context [?x <? ?y] => destruct (Z.ltb_spec x y) | |- context [?x <=? ?y] => destruct (Z.leb_spec x y) end; lia. Qed.
Lemma Min_min a b : Min a b = Z.min a b. Proof. unfold Min. repeat match goal with |- context [?x <? ?y] => destruct (Z.ltb_spec x y) | |- context [?x <=? ?y] => destruct (Z.leb_spec x y) end; lia. Qed.
Lemma tap_acc f plane y x u w str damping p a a' : (forall v, p = Some v -> near_is f plane y x v) -> acc_ok f plane y x u a -> cdefTap u w str damping p a = Ok a' -> acc_ok f plane y x u a'.
Proof.
  intros Hp Ha. unfold cdefTap. destruct p as [v|]; [|intros [= <-]; exact Ha]. destruct a as [[sum mx] mn]. intros H. apply rbind_inv in H as (c & _ & [= <-]).
  destruct Ha as (A & B & C). specialize (Hp v eq_refl). cbn. rewrite Max_max, Min_min.
  repeat split; [destruct (Z.max_spec v mx) as [[_ ->]|[_ ->]]; assumption|destruct (Z.min_spec v mn) as [[_ ->]|[_ ->]]; assumption|lia|lia].
Qed.
Lemma sample_between e f plane x0 y0 i j subX subY d pri sec damping v : cdefSample e f plane x0 y0 i j subX subY d pri sec damping = Ok v -> near_between f plane (y0 + i) (x0 + j) v.
Proof.
  unfold cdefSample. intros H. apply rbind_inv in H as (u & Eu & H). apply rbind_inv in H as (a & Ea & H).
  assert (K : acc_ok f plane (y0 + i) (x0 + j) u a).
  { revert Ea. unfold rfor_to. apply (rfor_from_post (fun _ a => acc_ok f plane (y0 + i) (x0 + j) u a)).
    { cbn. assert (near_is f plane (y0 + i) (x0 + j) u) by (eexists _, _; split; [|split; [|exact Eu]]; lia). auto with zarith. }
    intros k a1 a2 _ Ha. unfold cdefTapsK, rfor_to. apply (rfor_from_post (fun _ a => acc_ok f plane (y0 + i) (x0 + j) u a)); [exact Ha|]. clear a1 a2 Ha.
    intros s a1 a2 Hs Ha H1. change (0 + Z.of_nat (Z.to_nat (2 - 0))) with 2 in Hs.
    apply rbind_inv in H1 as (p & Ep & H1). apply rbind_inv in H1 as (w & _ & H1). apply rbind_inv in H1 as (a3 & Et & H1).
    apply tap_acc with (f := f) (plane := plane) (y := y0 + i) (x := x0 + j) in Et; [|intros v0 ->; eapply getAt_near; [|exact Ep]; lia|exact Ha].
    revert H1. apply (rfor_from_post (fun _ a => acc_ok f plane (y0 + i) (x0 + j) u a)); [exact Et|]. clear - Hs. intros o a1 a2 _ Ha H1.
    apply rbind_inv in H1 as (p & Ep & H1). apply rbind_inv in H1 as (w & _ & H1). eapply tap_acc; [|exact Ha|exact H1]. intros v0 ->. eapply getAt_near; [|exact Ep]; lia. }
  destruct a as [[sum mx] mn]. destruct K as ((y2 & x2 & A1 & A2 & A3) & (y1 & x1 & B1 & B2 & B3) & C). injection H as <-.
  exists y1, x1, mn, y2, x2, mx. repeat (split; [assumption|]). rewrite Clip3_clamp by lia. unfold clamp. lia.
Qed.

(** every sample of the output was there before or lies between two nearby input samples *)
Definition Qb (f g g' : frame) : Prop := forall p y x v, idx3 g' p y x = Ok v -> idx3 g p y x = Ok v \/ near_between f p y x v.
Lemma Qb_upd f g a a' p y x v : Qb f g a -> near_between f p y x v -> upd3 a p y x v = Ok a' -> Qb f g a'.
Proof.
  intros HQ HN HU p' y' x' v' H. destruct (Z.eq_dec p p') as [<-|N1]; [destruct (Z.eq_dec y y') as [<-|N1]; [destruct (Z.eq_dec x x') as [<-|N1]|]|];
    try (rewrite (idx3_upd3_other _ _ _ _ _ _ _ _ _ HU) in H by (intros [= ]; congruence); apply HQ; exact H).
  rewrite (idx3_upd3_same _ _ _ _ _ _ HU) in H. injection H as <-. right. exact HN.
Qed.
Lemma fill_Qb f g plane oy ox V lo hi lo' hi' a a' : (forall i j v, V i j = Ok v -> near_between f plane (oy + i) (ox + j) v) -> Qb f g a ->
  rfor_to lo hi (fun i g => rfor_to lo' hi' (fun j g => let! v := V i j in upd3 g plane (oy + i) (ox + j) v) g) a = Ok a' -> Qb f g a'.
Proof.
  intros HV HQ. unfold rfor_to. apply (rfor_from_post (fun _ g1 => Qb f g g1)); [exact HQ|]. intros i b b' _ Hb.
  apply (rfor_from_post (fun _ g1 => Qb f g g1)); [exact Hb|]. clear b b' Hb. intros j b b' _ Hb H. apply rbind_inv in H as (v & Ev & H).
  eapply Qb_upd; [exact Hb| |exact H]. apply HV. exact Ev.
Qed.
Lemma copyBlock_Qb f g plane a1 b1 a2 b2 a a' : Qb f g a -> copyBlock f plane a1 b1 a2 b2 a = Ok a' -> Qb f g a'.
Proof.
  unfold copyBlock. intros HQ. apply (fill_Qb f g plane 0 0 (fun y x => idx3 f plane y x)); [|exact HQ].
  intros i j v E. exists i, j, v, i, j, v. repeat split; try lia; exact E.
Qed.
Lemma cdefFilter_Qb e f g plane r c pri sec damping d a a' : Qb f g a -> cdefFilter e f plane r c pri sec damping d a = Ok a' -> Qb f g a'.
Proof.
  unfold cdefFilter. cbv zeta. intros HQ. apply fill_Qb; [|exact HQ]. intros i j v E. exact (sample_between _ _ _ _ _ _ _ _ _ _ _ _ _ _ E).
Qed.
Lemma cdefBlock_Qb e f g r c ix a a' : Qb f g a -> cdefBlock e f r c ix a = Ok a' -> Qb f g a'.
Proof.
  unfold cdefBlock. cbv zeta. intros HQ H. apply rbind_inv in H as (b & E1 & H). apply copyBlock_Qb with (g := g) in E1; [|exact HQ].
  apply rbind_inv in H as (b2 & E2 & H).
  assert (Q2 : Qb f g b2).
  { destruct (1 <? cNumPlanes e); [|injection E2 as <-; exact E1]. apply rbind_inv in E2 as (b3 & E3 & E2). eapply copyBlock_Qb; [|exact E2]. eapply copyBlock_Qb; [|exact E3]. exact E1. }
  clear E1 E2. destruct (ix =? -1); [injection H as <-; exact Q2|]. apply rbind_inv in H as (sk & _ & H). destruct sk; [injection H as <-; exact Q2|].
  apply rbind_inv in H as ([yDir varr] & _ & H). apply rbind_inv in H as (p & _ & H). apply rbind_inv in H as (s & _ & H). apply rbind_inv in H as (vs & _ & H).
  apply rbind_inv in H as (b3 & E3 & H). apply cdefFilter_Qb with (g := g) in E3; [|exact Q2]. destruct (cNumPlanes e =? 1); [injection H as <-; exact E3|].
  apply rbind_inv in H as (p1 & _ & H). apply rbind_inv in H as (s1 & _ & H). apply rbind_inv in H as (dd & _ & H). apply rbind_inv in H as (b4 & E4 & H).
  eapply cdefFilter_Qb; [|exact H]. eapply cdefFilter_Qb; [|exact E4]. exact E3.
Qed.
Lemma process_Qb e f g g' : cdefProcess e f g = Ok g' -> Qb f g g'.
Proof.
  unfold cdefProcess. apply rfor_by_post; [intros p y x v H; left; exact H|]. intros r a a1 HQ. apply rfor_by_post; [exact HQ|]. clear a a1 HQ.
  intros c a a1 HQ H. apply rbind_inv in H as (ix & _ & H). eapply cdefBlock_Qb; eauto.
Qed.

(** ** It never loops *)
Lemma FloorLog2_nh x : 0 <= x < 2 ^ 63 -> FloorLog2 x <> Hang.
Proof. intros H. destruct (Z.eq_dec x 0) as [->|]; [rewrite FloorLog2_0; discriminate|rewrite FloorLog2_pos by lia; discriminate]. Qed.
Lemma constrain_nh diff t damping : 0 <= t < 2 ^ 63 -> constrain diff t damping <> Hang.
Proof. intros H. unfold constrain. destruct (negb _); [discriminate|]. apply rbind_nh; [apply FloorLog2_nh; exact H|discriminate]. Qed.
Lemma cdefTap_nh x w str damping p a : 0 <= str < 2 ^ 63 -> cdefTap x w str damping p a <> Hang.
Proof. intros H. unfold cdefTap. destruct p; [|discriminate]. destruct a as [[sum mx] mn]. apply rbind_nh; [apply constrain_nh; exact H|discriminate]. Qed.
Lemma getAt_nh e f plane x0 y0 i j d k s subX subY : cdefGetAt e f plane x0 y0 i j d k s subX subY <> Hang.
Proof.
  unfold cdefGetAt. apply rbind_nh; [apply idx3_nh|intro]. apply rbind_nh; [apply idx3_nh|intro]. cbv zeta. destruct (isInsideFilterRegion _ _ _); [|discriminate].
  apply rbind_nh; [apply idx3_nh|discriminate].
Qed.
Lemma cdefSample_nh e f plane x0 y0 i j subX subY d pri sec damping : 0 <= pri < 2 ^ 63 -> 0 <= sec < 2 ^ 63 -> cdefSample e f plane x0 y0 i j subX subY d pri sec damping <> Hang.
Proof.
  intros Hp Hs. unfold cdefSample. apply rbind_nh; [apply idx3_nh|intro]. apply rbind_nh; [|intros [[? ?] ?]; discriminate]. apply rfor_from_nh. intros.
  unfold cdefTapsK. apply rfor_from_nh. intros. apply rbind_nh; [apply getAt_nh|intro]. apply rbind_nh; [apply idx2_nh|intro]. apply rbind_nh; [apply cdefTap_nh; exact Hp|intro].
  apply rfor_from_nh. intros. apply rbind_nh; [apply getAt_nh|intro]. apply rbind_nh; [apply idx2_nh|intro]. apply cdefTap_nh; exact Hs.
Qed.
Lemma cdefFilter_nh e f plane r c pri sec damping d g : 0 <= pri < 2 ^ 63 -> 0 <= sec < 2 ^ 63 -> cdefFilter e f plane r c pri sec damping d g <> Hang.
Proof. intros Hp Hs. unfold cdefFilter. cbv zeta. apply rfor_from_nh. intros. apply rfor_from_nh. intros. apply rbind_nh; [apply cdefSample_nh; assumption|intro; apply upd3_nh]. Qed.
Lemma copyBlock_nh f plane a1 b1 a2 b2 a : copyBlock f plane a1 b1 a2 b2 a <> Hang.
Proof. unfold copyBlock. apply rfor_from_nh. intros. apply rfor_from_nh. intros. apply rbind_nh; [apply idx3_nh|intro; apply upd3_nh]. Qed.
Ltac nh := repeat first [ apply idx_nh | apply upd_nh | apply idx2_nh | apply upd2_nh | apply idx3_nh | (apply rfor_from_nh; intros) | (apply rbind_nh; [|intro]) | discriminate | progress cbv zeta ].
Lemma cdefDirection_nh e f r c : cdefDirection e f r c <> Hang.
Proof.
  unfold cdefDirection. apply rbind_nh; [|intro; apply rbind_nh; [|intro]].
  - unfold cdefPartials. apply rfor_from_nh. intros. apply rfor_from_nh. intros. unfold cdefPixel, accum. nh.
  - unfold cdefCosts, sq, rfor_to. cbv zeta. nh.
  - unfold cdefBest. apply rbind_nh; [|intros [? ?]; nh]. apply rfor_from_nh. intros ? [? ?]. nh.
Qed.
Lemma partials_reads e f x0 y0 p : cdefPartials e f x0 y0 = Ok p -> forall i j, 0 <= i < 8 -> 0 <= j < 8 -> exists s, idx3 f 0 (y0 + i) (x0 + j) = Ok s.
Proof.
  unfold cdefPartials, rfor_to. intros H.
  refine ((fun A B => rfor_from_post (fun m _ => forall i j, 0 <= i < m -> 0 <= j < 8 -> exists s, idx3 f 0 (y0 + i) (x0 + j) = Ok s) _ _ _ _ _ A B H) _ _); [lia|].
  intros m a a1 Hm IH E.
  assert (E' : forall j, 0 <= j < 8 -> exists s, idx3 f 0 (y0 + m) (x0 + j) = Ok s).
  { refine ((fun A B => rfor_from_post (fun n _ => forall j, 0 <= j < n -> exists s, idx3 f 0 (y0 + m) (x0 + j) = Ok s) _ _ _ _ _ A B E) _ _); [lia|].
    intros n b b1 Hn IH2 E2 j Hj. destruct (Z.eq_dec j n) as [->|]; [|apply IH2; lia]. unfold cdefPixel in E2. apply rbind_inv in E2 as (s & E2 & _). eauto. }
  intros i j Hi Hj. destruct (Z.eq_dec i m) as [->|]; [apply E'; exact Hj|apply IH; lia].
Qed.

Lemma filter_length_le {A} (f : A -> bool) l : (length (filter f l) <= length l)%nat.
Proof. induction l as [|a l IH]; cbn; [lia|]. destruct (f a); cbn; lia. Qed.
Lemma zsum_bound (l : list Z) b : (forall v, In v l -> Z.abs v <= b) -> Z.abs (zsum l) <= Z.of_nat (length l) * b.
Proof.
  induction l as [|a l IH]; intros H; unfold zsum in *; cbn [fold_right length]; [lia|]. pose proof (H a (or_introl eq_refl)). specialize (IH (fun v hv => H v (or_intror hv))). nia.
Qed.
Lemma direction_cost_bound X d : (forall i j, 0 <= i < 8 -> 0 <= j < 8 -> Z.abs (X i j) <= 128) -> 0 <= direction_cost X d < 2 ^ 40.
Proof.
  intros HX. split; [apply direction_cost_nonneg|]. unfold direction_cost. set (l := map _ _).
  assert (B : forall v, In v l -> Z.abs v <= 128 * 64 * (128 * 64) * 840).
  { intros v Hv. unfold l in Hv. apply in_map_iff in Hv as (k & <- & _). set (ps := filter (fun p => line d (fst p) (snd p) =? k) positions).
    assert (LP : Z.of_nat (length ps) <= 64) by (pose proof (filter_length_le (fun p => line d (fst p) (snd p) =? k) positions) as L; fold ps in L; change (length positions) with 64%nat in L; lia).
    assert (LS : Z.abs (line_sum X d k) <= Z.of_nat (length ps) * 128).
    { unfold line_sum. fold ps. rewrite <- (map_length (fun p => X (fst p) (snd p)) ps). apply zsum_bound. intros v Hv. apply in_map_iff in Hv as (p & <- & Hp).
      unfold ps in Hp. apply filter_In in Hp as [Hp _]. apply positions_range in Hp as [? ?]. apply HX; assumption. }
    unfold line_len. fold ps. set (len := Z.of_nat (length ps)) in *. assert (0 <= 840 / len <= 840).
    { destruct (Z.eq_dec len 0) as [->|]; [vm_compute; split; congruence|]. split; [apply Z.div_pos; lia|]. apply Z.div_le_upper_bound; [lia|]. nia. }
    rewrite !Z.abs_mul. rewrite (Z.abs_eq (840 / len)) by lia. assert (0 <= Z.abs (line_sum X d k) <= 8192) by lia.
    apply Z.mul_le_mono_nonneg; [apply Z.mul_nonneg_nonneg; lia|apply Z.mul_le_mono_nonneg; lia|lia|lia]. }
  apply zsum_bound in B. change (length l) with 15%nat in B. change (2 ^ 40) with 1099511627776. lia.
Qed.

Lemma sample_X bd s : 8 <= bd <= 16 -> sample bd s -> Z.abs (s / 2 ^ (bd - 8) - 128) <= 128.
Proof.
  intros Hb Hs. unfold sample in Hs. pose proof (pow_bounds bd Hb). assert (0 <= s / 2 ^ (bd - 8) < 256); [|lia].
  split; [apply Z.div_pos; lia|apply Z.div_lt_upper_bound; lia].
Qed.

(** what the search over the block at unit (r, c) of the luma plane finds *)
Definition finds (bd : Z) (f : frame) (r c d var : Z) : Prop :=
  exists X, (forall i j, 0 <= i < 8 -> 0 <= j < 8 -> exists s, idx3 f 0 (4 * r + i) (4 * c + j) = Ok s /\ X i j = s / 2 ^ (bd - 8) - 128) /\
    0 <= d < 8 /\ (forall i, 0 <= i < 8 -> direction_cost X i <= direction_cost X d) /\ (forall i, 0 <= i < d -> direction_cost X i < direction_cost X d) /\
    var = (direction_cost X d - direction_cost X ((d + 4) mod 8)) / 1024.

Definition rd (f : frame) (p y x : Z) : Z := match idx3 f p y x with Ok v => v | _ => 0 end.
Lemma direction_finds e f r c : 8 <= cBitDepth e -> 0 <= r < 2 ^ 32 -> 0 <= c < 2 ^ 32 ->
  (forall i j, 0 <= i < 8 -> 0 <= j < 8 -> exists s, idx3 f 0 (4 * r + i) (4 * c + j) = Ok s) ->
  exists d var, cdefDirection e f r c = Ok (d, var) /\ finds (cBitDepth e) f r c d var.
Proof.
  intros Hb Hr Hc HR. set (X := fun i j => rd f 0 (4 * r + i) (4 * c + j) / 2 ^ (cBitDepth e - 8) - 128).
  assert (HX : forall i j, 0 <= i < 8 -> 0 <= j < 8 -> exists s, idx3 f 0 (4 * r + i) (4 * c + j) = Ok s /\ X i j = s / 2 ^ (cBitDepth e - 8) - 128).
  { intros i j Hi Hj. destruct (HR i j Hi Hj) as [s Es]. exists s. split; [exact Es|]. unfold X, rd. rewrite Es. reflexivity. }
  destruct (direction_ok e f r c X Hr Hc HX Hb) as (d & E & Hd & A & B). eexists d, _. split; [exact E|]. exists X. auto.
Qed.
Lemma finds_var bd f r c d var : 8 <= bd <= 16 -> all_samples (sample bd) f -> finds bd f r c d var -> 0 <= var < 2 ^ 30.
Proof.
  intros Hb HA (X & HX & Hd & A & _ & ->). assert (XB : forall i j, 0 <= i < 8 -> 0 <= j < 8 -> Z.abs (X i j) <= 128).
  { intros i j Hi Hj. destruct (HX i j Hi Hj) as (s & Es & ->). apply sample_X; [exact Hb|]. exact (idx3_Forall _ _ _ _ _ _ HA Es). }
  pose proof (direction_cost_bound X d XB) as B1. pose proof (direction_cost_bound X ((d + 4) mod 8) XB) as B2.
  pose proof (A ((d + 4) mod 8) (Z.mod_pos_bound _ 8 ltac:(lia))) as B3. change (2 ^ 30) with 1073741824. change (2 ^ 40) with 1099511627776 in *.
  split; [apply Z.div_pos; lia|apply Z.div_lt_upper_bound; lia].
Qed.
Lemma direction_var e f r c d var : 8 <= cBitDepth e <= 16 -> 0 <= r < 2 ^ 32 -> 0 <= c < 2 ^ 32 -> all_samples (sample (cBitDepth e)) f ->
  cdefDirection e f r c = Ok (d, var) -> finds (cBitDepth e) f r c d var /\ 0 <= var < 2 ^ 30.
Proof.
  intros Hb Hr Hc HA E. destruct (direction_finds e f r c) as (d' & v' & E' & F); try lia; try assumption.
  - unfold cdefDirection in E. apply rbind_inv in E as (p & E & _). change (2 ^ 32) with 4294967296 in *. change MI_SIZE_LOG2 with 2 in E.
    rewrite !shl_small in E by (change (2 ^ 2) with 4; change (2 ^ 63) with 9223372036854775808; lia). change (2 ^ 2) with 4 in E. rewrite (Z.mul_comm c), (Z.mul_comm r) in E.
    exact (partials_reads _ _ _ _ _ E).
  - rewrite E in E'. injection E' as <- <-. split; [exact F|]. exact (finds_var _ _ _ _ _ _ Hb HA F).
Qed.

(** strengths as the header can code them *)
Definition strengths_ok (e : CEnv) : Prop := 8 <= cBitDepth e <= 16 /\ Forall (fun v => 0 <= v <= 15) (cYPri e) /\ Forall (fun v => 0 <= v <= 4) (cYSec e) /\
  Forall (fun v => 0 <= v <= 15) (cUVPri e) /\ Forall (fun v => 0 <= v <= 4) (cUVSec e).
Lemma strength_shl bd p n : 8 <= bd <= 16 -> 0 <= p <= n -> n <= 15 -> shl p (bd - 8) = p * 2 ^ (bd - 8) /\ 0 <= p * 2 ^ (bd - 8) <= n * 2 ^ (bd - 8) /\ n * 2 ^ (bd - 8) < 2 ^ bd.
Proof.
  intros Hb Hp Hn. pose proof (pow_bounds bd Hb). split; [apply shl_small; [lia|]; change (2 ^ 63) with 9223372036854775808; nia|]. nia.
Qed.
Definition varStrOf (varr : Z) : res Z := if bool_of (shr varr 6) then let! l := FloorLog2 (shr varr 6) in Ok (Min l 12) else Ok 0.
Lemma varStr_ok var : 0 <= var < 2 ^ 30 -> varStrOf var = Ok (if var / 64 =? 0 then 0 else Z.min (Z.log2 (var / 64)) 12).
Proof.
  intros H. unfold varStrOf, bool_of. change (2 ^ 30) with 1073741824 in H. rewrite shr_div by lia. change (2 ^ 6) with 64. destruct (Z.eqb_spec (var / 64) 0) as [E|N]; cbn [negb]; [reflexivity|].
  assert (0 <= var / 64 <= var) by (split; [apply Z.div_pos; lia|apply Z.div_le_upper_bound; lia]).
  rewrite FloorLog2_pos by (change (2 ^ 63) with 9223372036854775808; lia). cbn [rbind]. rewrite Min_min. reflexivity.
Qed.
Lemma luma_strength_range bd pri var : 8 <= bd <= 16 -> 0 <= pri <= 15 * 2 ^ (bd - 8) -> 0 <= luma_strength pri var <= 15 * 2 ^ (bd - 8).
Proof.
  intros Hb Hp. unfold luma_strength. destruct (var =? 0); [lia|]. set (k := if var / 64 =? 0 then 0 else Z.min (Z.log2 (var / 64)) 12).
  assert (0 <= k <= 12) by (unfold k; destruct (var / 64 =? 0); [lia|]; pose proof (Z.log2_nonneg (var / 64)); lia). clearbody k.
  assert (0 <= (pri * (4 + k) + 8) / 16 <= pri); [|lia]. split; [apply Z.div_pos; nia|]. assert ((pri * (4 + k) + 8) / 16 < pri + 1); [|lia]. apply Z.div_lt_upper_bound; nia.
Qed.
Lemma cdefBlock_nh e f r c ix g : strengths_ok e -> 0 <= r < 2 ^ 32 -> 0 <= c < 2 ^ 32 -> all_samples (sample (cBitDepth e)) f -> cdefBlock e f r c ix g <> Hang.
Proof.
  intros (Hb & S1 & S2 & S3 & S4) Hr Hc HA. unfold cdefBlock. cbv zeta. pose proof (pow_bounds _ Hb) as PB.
  apply rbind_nh; [apply copyBlock_nh|intro g1]. apply rbind_nh; [destruct (1 <? cNumPlanes e); [apply rbind_nh; [apply copyBlock_nh|intro; apply copyBlock_nh]|discriminate]|intro g2].
  destruct (ix =? -1); [discriminate|].
  apply rbind_nh. { apply rbind_nh; [nh|intros []; [|discriminate]]. apply rbind_nh; [nh|intros []; [|discriminate]]. apply rbind_nh; [nh|intros []; [|discriminate]]. nh. }
  intros []; [discriminate|]. destruct (cdefDirection e f r c) as [[yDir varr]| |] eqn:ED; cbn [rbind]; [|discriminate|exfalso; revert ED; apply cdefDirection_nh].
  apply direction_var in ED as [_ HV]; try assumption.
  destruct (idx (cYPri e) ix) as [p| |] eqn:EP; cbn [rbind]; [|discriminate|exfalso; revert EP; apply idx_nh]. pose proof (idx_Forall _ _ _ _ S1 EP) as HP. cbv beta in HP.
  destruct (idx (cYSec e) ix) as [s| |] eqn:ES; cbn [rbind]; [|discriminate|exfalso; revert ES; apply idx_nh]. pose proof (idx_Forall _ _ _ _ S2 ES) as HS. cbv beta in HS.
  fold (varStrOf varr). rewrite varStr_ok by exact HV. cbn [rbind].
  destruct (strength_shl (cBitDepth e) p 15 Hb HP ltac:(lia)) as (-> & P1 & P2). destruct (strength_shl (cBitDepth e) s 4 Hb HS ltac:(lia)) as (-> & Q1 & Q2).
  change (2 ^ 63) with 9223372036854775808.
  assert (LS : (if bool_of varr then shr (p * 2 ^ (cBitDepth e - 8) * (4 + (if varr / 64 =? 0 then 0 else Z.min (Z.log2 (varr / 64)) 12)) + 8) 4 else 0) = luma_strength (p * 2 ^ (cBitDepth e - 8)) varr).
  { unfold luma_strength, bool_of. destruct (varr =? 0); cbn [negb]; [reflexivity|]. rewrite shr_div by lia. reflexivity. }
  rewrite LS. pose proof (luma_strength_range (cBitDepth e) _ varr Hb P1) as LR.
  apply rbind_nh; [apply cdefFilter_nh; change (2 ^ 63) with 9223372036854775808; lia|intro g3].
  destruct (cNumPlanes e =? 1); [discriminate|].
  destruct (idx (cUVPri e) ix) as [p'| |] eqn:EP'; cbn [rbind]; [|discriminate|exfalso; revert EP'; apply idx_nh]. pose proof (idx_Forall _ _ _ _ S3 EP') as HP'. cbv beta in HP'.
  destruct (idx (cUVSec e) ix) as [s'| |] eqn:ES'; cbn [rbind]; [|discriminate|exfalso; revert ES'; apply idx_nh]. pose proof (idx_Forall _ _ _ _ S4 ES') as HS'. cbv beta in HS'.
  destruct (strength_shl (cBitDepth e) p' 15 Hb HP' ltac:(lia)) as (-> & P1' & P2'). destruct (strength_shl (cBitDepth e) s' 4 Hb HS' ltac:(lia)) as (-> & Q1' & Q2').
  apply rbind_nh; [match goal with |- (if ?b then _ else _) <> _ => destruct b; [discriminate|apply idx3_nh] end|intro dd].
  apply rbind_nh; [|intro]; apply cdefFilter_nh; change (2 ^ 63) with 9223372036854775808; lia.
Qed.
Lemma process_nh e f g : strengths_ok e -> cMiRows e < 2 ^ 32 -> cMiCols e < 2 ^ 32 -> all_samples (sample (cBitDepth e)) f -> cdefProcess e f g <> Hang.
Proof.
  intros HS HR HC HA. unfold cdefProcess, rfor_by.
  assert (K : forall {A} n i hi (body : Z -> A -> res A) acc, 0 <= i -> hi - i <= Z.of_nat n -> (forall j a, 0 <= j < hi -> body j a <> Hang) -> rfor_step n i hi 2 body acc <> Hang).
  { clear. intros A. induction n as [|n IH]; intros i hi body acc H0 Hn Hb; cbn [rfor_step]; destruct (Z.ltb_spec i hi); try discriminate; [lia|].
    apply rbind_nh; [apply Hb; lia|]. intros a. apply IH; auto; lia. }
  apply K; [lia|lia|]. intros r a Hr. apply K; [lia|lia|]. intros c b Hc. apply rbind_nh; [apply idx2_nh|intro ix]. apply cdefBlock_nh; auto; lia.
Qed.

(** ** What the whole process computes *)
(** The four 4x4 units of the block at (r, c) are all skipped. *)
Definition all_skipped (e : CEnv) (r c : Z) : Prop := forall r' c', In r' [r; r + 1] -> In c' [c; c + 1] -> exists s, idx2 (cSkips e) r' c' = Ok s /\ s <> 0.
(** The value of a sample [u] of the block at (r, c) after CDEF; [odd] tells for which primary strengths the weights 3,3 are used,
    [less] how much smaller the damping of the chroma planes is. *)
Definition cdef_result (odd : Z -> bool) (less : Z -> Z) (e : CEnv) (f : frame) (plane r c y x u ix v : Z) : Prop :=
  ((ix = -1 \/ all_skipped e r c) /\ v = u) \/
  (ix <> -1 /\ ~ all_skipped e r c /\ exists d var pri sec, finds (cBitDepth e) f r c d var /\
     idx (if plane =? 0 then cYPri e else cUVPri e) ix = Ok pri /\ idx (if plane =? 0 then cYSec e else cUVSec e) ix = Ok sec /\
     let S := 2 ^ (cBitDepth e - 8) in
     let near := samp e f plane (sub_of plane (cSubX e)) (sub_of plane (cSubY e)) y x in
     let str := if plane =? 0 then luma_strength (pri * S) var else pri * S in
     let dir := if pri =? 0 then 0 else if plane =? 0 then d else chroma_dir (cSubX e) (cSubY e) d in
     let damping := cDamping e + (cBitDepth e - 8) - if plane =? 0 then 0 else less pri in
     v = cdef_value (odd str) dir str (sec * S) damping u near).
(** The samples of a plane in the block at (r, c) *)
Definition in_block (e : CEnv) (plane r c y x : Z) : Prop :=
  let sY := 2 ^ sub_of plane (cSubY e) in let sX := 2 ^ sub_of plane (cSubX e) in
  4 * r / sY <= y < 4 * r / sY + 8 / sY /\ 4 * c / sX <= x < 4 * c / sX + 8 / sX.
(** as the code does it *)
Definition code_result := cdef_result (fun _ => false) (fun pri => if pri =? 0 then 0 else 1).

Lemma copyBlock_ok f plane y0 y1 x0 x1 g : y0 <= y1 -> x0 <= x1 -> (forall y x, y0 <= y < y1 -> x0 <= x < x1 -> exists v, idx3 f plane y x = Ok v) ->
  (forall y x, y0 <= y < y1 -> x0 <= x < x1 -> exists v, idx3 g plane y x = Ok v) ->
  exists g', copyBlock f plane y0 y1 x0 x1 g = Ok g' /\ (forall y x, y0 <= y < y1 -> x0 <= x < x1 -> idx3 g' plane y x = idx3 f plane y x) /\
    (forall p y x, ~ (p = plane /\ y0 <= y < y1 /\ x0 <= x < x1) -> idx3 g' p y x = idx3 g p y x) /\
    (forall p y x, (exists v, idx3 g p y x = Ok v) -> exists v, idx3 g' p y x = Ok v).
Proof.
  intros Hy Hx HF HG. destruct (fill_ok (fun y x => idx3 f plane y x) plane 0 0 (fun i => i) (fun j => j) (fun _ => eq_refl) (fun _ => eq_refl) y0 y1 x0 x1 g Hy Hx HF HG) as (g' & E & K).
  exists g'. split; [exact E|].
  destruct (fill_post (fun y x => idx3 f plane y x) plane 0 0 (fun i => i) (fun j => j) (fun _ => eq_refl) (fun _ => eq_refl) y0 y1 x0 x1 g g' Hy Hx E) as [A B].
  split; [|split; [|exact K]].
  - intros y x Hyy Hxx. destruct (A y x Hyy Hxx) as (v & Ev & Iv). rewrite Ev. exact Iv.
  - intros p y x N. apply B. exact N.
Qed.

Definition planes (e : CEnv) (plane : Z) : Prop := 0 <= plane < cNumPlanes e.
Definition frame_covers (e : CEnv) (f : frame) : Prop := forall plane, planes e plane -> covers e f plane (sub_of plane (cSubX e)) (sub_of plane (cSubY e)).
Definition keeps (g g' : frame) : Prop := forall p y x, (exists v, idx3 g p y x = Ok v) -> exists v, idx3 g' p y x = Ok v.
Lemma keeps_covers e g g' : keeps g g' -> frame_covers e g -> frame_covers e g'.
Proof. intros K C plane Hp y x H. apply K. eapply C; eauto. Qed.

Lemma block_bounds e plane r c : 0 <= r -> 0 <= c -> r + 2 <= cMiRows e -> c + 2 <= cMiCols e -> forall y x, in_block e plane r c y x ->
  inside_frame e (sub_of plane (cSubX e)) (sub_of plane (cSubY e)) y x = true.
Proof.
  intros Hr Hc HR HC y x [Hy Hx]. pose proof (sub_of_range plane (cSubX e)). pose proof (sub_of_range plane (cSubY e)).
  replace y with (4 * r / 2 ^ sub_of plane (cSubY e) + (y - 4 * r / 2 ^ sub_of plane (cSubY e))) by lia.
  replace x with (4 * c / 2 ^ sub_of plane (cSubX e) + (x - 4 * c / 2 ^ sub_of plane (cSubX e))) by lia. apply inside_block; auto; lia.
Qed.

(** the copy of a block *)
Lemma copies_ok e f r c g : 0 <= r -> 0 <= c -> r + 2 <= cMiRows e -> c + 2 <= cMiCols e -> cNumPlanes e = 1 \/ cNumPlanes e = 3 -> frame_covers e f -> frame_covers e g ->
  exists g', (let! g := copyBlock f 0 (r * MI_SIZE) (r * MI_SIZE + MI_SIZE * 2) (c * MI_SIZE) (c * MI_SIZE + MI_SIZE * 2) g in
    if 1 <? cNumPlanes e then
      let! g := copyBlock f 1 (shr (r * MI_SIZE) (int_of (cSubY e))) (shr (r * MI_SIZE + MI_SIZE * 2) (int_of (cSubY e))) (shr (c * MI_SIZE) (int_of (cSubX e))) (shr (c * MI_SIZE + MI_SIZE * 2) (int_of (cSubX e))) g in
      copyBlock f 2 (shr (r * MI_SIZE) (int_of (cSubY e))) (shr (r * MI_SIZE + MI_SIZE * 2) (int_of (cSubY e))) (shr (c * MI_SIZE) (int_of (cSubX e))) (shr (c * MI_SIZE + MI_SIZE * 2) (int_of (cSubX e))) g
    else Ok g) = Ok g' /\
   (forall plane y x, planes e plane -> in_block e plane r c y x -> idx3 g' plane y x = idx3 f plane y x) /\
   (forall plane y x, ~ (planes e plane /\ in_block e plane r c y x) -> idx3 g' plane y x = idx3 g plane y x) /\ keeps g g'.
Proof.
  intros Hr Hc HR HC HN HF HG. change MI_SIZE with 4. change (4 * 2) with 8.
  assert (SH : forall v s, 0 <= s <= 1 -> 0 <= v -> (4 * v + 8) / 2 ^ s = 4 * v / 2 ^ s + 8 / 2 ^ s).
  { intros v s Hs Hv. destruct (pow_sub s Hs) as [[_ ->]|[_ ->]]; [rewrite !Z.div_1_r; lia|]. replace (4 * v + 8) with (4 * v + 4 * 2) by lia. rewrite Z.div_add by lia. reflexivity. }
  assert (I01 : forall b : bool, 0 <= int_of b <= 1) by (intros []; cbn; lia).
  rewrite !(Z.mul_comm _ 4).
  assert (CB : forall h plane, planes e plane -> frame_covers e h -> forall y x, in_block e plane r c y x -> exists v, idx3 h plane y x = Ok v).
  { intros h plane Hp C y x HB. apply (C plane Hp). exact (block_bounds e plane r c Hr Hc HR HC y x HB). }
  assert (B0 : forall y x, in_block e 0 r c y x <-> 4 * r <= y < 4 * r + 8 /\ 4 * c <= x < 4 * c + 8) by (intros; unfold in_block, sub_of; cbn [Z.ltb Z.compare]; change (2 ^ 0) with 1; cbv zeta; rewrite !Z.div_1_r; lia).
  assert (P0 : planes e 0) by (unfold planes; lia).
  destruct (copyBlock_ok f 0 (4 * r) (4 * r + 8) (4 * c) (4 * c + 8) g) as (g0 & E0 & V0 & O0 & K0); try lia.
  { intros y x Hy Hx. apply (CB f 0 P0 HF). apply B0. auto. } { intros y x Hy Hx. apply (CB g 0 P0 HG). apply B0. auto. }
  rewrite E0. cbn [rbind]. destruct HN as [HN|HN]; rewrite HN.
  - exists g0. cbn [Z.ltb Z.compare]. split; [reflexivity|]. split; [|split; [|exact K0]].
    + intros plane y x Hp HB. assert (plane = 0) by (unfold planes in Hp; lia). subst plane. apply B0 in HB. apply V0; tauto.
    + intros plane y x N. apply O0. intros (-> & A & B). apply N. split; [exact P0|]. apply B0. auto.
  - change (1 <? 3) with true. cbv iota. rewrite !shr_div by (apply I01). set (sY := int_of (cSubY e)). set (sX := int_of (cSubX e)).
    pose proof (I01 (cSubY e)) as RY. pose proof (I01 (cSubX e)) as RX. fold sY in RY. fold sX in RX. rewrite !SH by assumption.
    assert (NN : forall s, 0 <= s <= 1 -> 0 <= 8 / 2 ^ s) by (intros; apply Z.div_pos; [lia|apply Z.pow_pos_nonneg; lia]). pose proof (NN sY RY). pose proof (NN sX RX).
    assert (BC : forall plane y x, plane = 1 \/ plane = 2 -> in_block e plane r c y x <-> 4 * r / 2 ^ sY <= y < 4 * r / 2 ^ sY + 8 / 2 ^ sY /\ 4 * c / 2 ^ sX <= x < 4 * c / 2 ^ sX + 8 / 2 ^ sX).
    { intros plane y x [->| ->]; unfold in_block, sub_of; cbn [Z.ltb Z.compare]; cbv zeta; reflexivity. }
    assert (P1 : planes e 1) by (unfold planes; lia). assert (P2 : planes e 2) by (unfold planes; lia).
    pose proof (keeps_covers _ _ _ K0 HG) as HG0.
    destruct (copyBlock_ok f 1 (4 * r / 2 ^ sY) (4 * r / 2 ^ sY + 8 / 2 ^ sY) (4 * c / 2 ^ sX) (4 * c / 2 ^ sX + 8 / 2 ^ sX) g0) as (g1 & E1 & V1 & O1 & K1); try lia.
    { intros y x Hy Hx. apply (CB f 1 P1 HF). apply BC; auto. } { intros y x Hy Hx. apply (CB g0 1 P1 HG0). apply BC; auto. }
    pose proof (keeps_covers _ _ _ K1 HG0) as HG1.
    destruct (copyBlock_ok f 2 (4 * r / 2 ^ sY) (4 * r / 2 ^ sY + 8 / 2 ^ sY) (4 * c / 2 ^ sX) (4 * c / 2 ^ sX + 8 / 2 ^ sX) g1) as (g2 & E2 & V2 & O2 & K2); try lia.
    { intros y x Hy Hx. apply (CB f 2 P2 HF). apply BC; auto. } { intros y x Hy Hx. apply (CB g1 2 P2 HG1). apply BC; auto. }
    rewrite E1. cbn [rbind]. rewrite E2. exists g2. split; [reflexivity|]. split; [|split].
    + intros plane y x Hp HB. unfold planes in Hp. assert (plane = 0 \/ plane = 1 \/ plane = 2) as [->|[->| ->]] by lia.
      * rewrite O2 by lia. rewrite O1 by lia. apply B0 in HB. apply V0; tauto.
      * rewrite O2 by lia. apply BC in HB; [|auto]. apply V1; tauto.
      * apply BC in HB; [|auto]. apply V2; tauto.
    + intros plane y x N. rewrite O2; [rewrite O1; [apply O0|]|]; intros (-> & A & B); apply N; (split; [assumption|]); [apply B0|apply BC|apply BC]; auto.
    + intros p y x HE. apply K2, K1, K0, HE.
Qed.

Definition skips_there (e : CEnv) (r c : Z) : Prop := forall r' c', In r' [r; r + 1] -> In c' [c; c + 1] -> exists s, idx2 (cSkips e) r' c' = Ok s.
Definition index_ok (e : CEnv) (ix : Z) : Prop := ix = -1 \/ (0 <= ix < zlen (cYPri e) /\ ix < zlen (cYSec e) /\ ix < zlen (cUVPri e) /\ ix < zlen (cUVSec e)).

Lemma skip_test e r c : skips_there e r c ->
  exists b, (let! a := (let! s := idx2 (cSkips e) r c in Ok (bool_of s)) in
    if a : bool then let! b := (let! s := idx2 (cSkips e) (r + 1) c in Ok (bool_of s)) in
      if b : bool then let! d := (let! s := idx2 (cSkips e) r (c + 1) in Ok (bool_of s)) in
        if d : bool then (let! s := idx2 (cSkips e) (r + 1) (c + 1) in Ok (bool_of s)) else Ok false else Ok false else Ok false) = Ok b /\ (b = true <-> all_skipped e r c).
Proof.
  intros H. destruct (H r c) as [s1 E1]; [left; auto|left; auto|]. destruct (H (r + 1) c) as [s2 E2]; [right; left; auto|left; auto|].
  destruct (H r (c + 1)) as [s3 E3]; [left; auto|right; left; auto|]. destruct (H (r + 1) (c + 1)) as [s4 E4]; [right; left; auto|right; left; auto|].
  rewrite E1, E2, E3, E4. cbn [rbind].
  assert (K : all_skipped e r c <-> s1 <> 0 /\ s2 <> 0 /\ s3 <> 0 /\ s4 <> 0).
  { split.
    - intros A. destruct (A r c) as (t1 & F1 & N1); [left; auto|left; auto|]. destruct (A (r + 1) c) as (t2 & F2 & N2); [right; left; auto|left; auto|].
      destruct (A r (c + 1)) as (t3 & F3 & N3); [left; auto|right; left; auto|]. destruct (A (r + 1) (c + 1)) as (t4 & F4 & N4); [right; left; auto|right; left; auto|]. rewrite E1 in F1. rewrite E2 in F2. rewrite E3 in F3. rewrite E4 in F4.
      injection F1 as <-. injection F2 as <-. injection F3 as <-. injection F4 as <-. auto.
    - intros (N1 & N2 & N3 & N4) r' c' [<-|[<-|[]]] [<-|[<-|[]]]; eauto. }
  clear - K. unfold bool_of. destruct (Z.eqb_spec s1 0), (Z.eqb_spec s2 0), (Z.eqb_spec s3 0), (Z.eqb_spec s4 0); cbn [negb rbind]; eexists; (split; [reflexivity|]); rewrite K; split; try discriminate; try tauto.
Qed.

Lemma uv_dir_table (a b : bool) d : 0 <= d < 8 -> idx3 CDEF_UV_DIR (int_of a) (int_of b) d = Ok (chroma_dir a b d) /\ 0 <= chroma_dir a b d < 8.
Proof. destruct a, b; revert d; apply eight_cases; (split; [reflexivity|vm_compute; split; [discriminate|reflexivity]]). Qed.

Lemma block_ok e f r c ix g : strengths_ok e -> 0 <= r < 2 ^ 24 -> 0 <= c < 2 ^ 24 -> r + 2 <= cMiRows e -> c + 2 <= cMiCols e -> cNumPlanes e = 1 \/ cNumPlanes e = 3 ->
  all_samples (sample (cBitDepth e)) f -> frame_covers e f -> frame_covers e g -> index_ok e ix -> (ix = -1 \/ skips_there e r c) ->
  exists g', cdefBlock e f r c ix g = Ok g' /\
   (forall plane y x, planes e plane -> in_block e plane r c y x -> exists u v, idx3 f plane y x = Ok u /\ idx3 g' plane y x = Ok v /\ code_result e f plane r c y x u ix v) /\
   (forall plane y x, ~ (planes e plane /\ in_block e plane r c y x) -> idx3 g' plane y x = idx3 g plane y x) /\ keeps g g'.
Proof.
  intros HST Hr Hc HR HC HN HA HF HG HI HK. pose proof HST as (Hb & S1 & S2 & S3 & S4).
  destruct (copies_ok e f r c g) as (g0 & E0 & V0 & O0 & K0); try lia; try assumption. apply rbind_inv in E0 as (g00 & E00 & E0).
  assert (BF : forall plane y x, planes e plane -> in_block e plane r c y x -> exists u, idx3 f plane y x = Ok u).
  { intros plane y x Hp HB. apply (HF plane Hp). apply (block_bounds e plane r c); auto; lia. }
  unfold cdefBlock. cbv zeta. rewrite E00. cbn [rbind]. rewrite E0. cbn [rbind].
  assert (CP : (ix = -1 \/ all_skipped e r c) -> forall plane y x, planes e plane -> in_block e plane r c y x -> exists u v, idx3 f plane y x = Ok u /\ idx3 g0 plane y x = Ok v /\ code_result e f plane r c y x u ix v).
  { intros HX plane y x Hp HB. destruct (BF plane y x Hp HB) as [u Eu]. exists u, u. split; [exact Eu|]. split; [rewrite V0 by assumption; exact Eu|]. left. auto. }
  destruct (Z.eqb_spec ix (-1)) as [->|NI]. { exists g0. repeat split; auto. }
  destruct HK as [HK|HK]; [contradiction|]. destruct HI as [HI|HI]; [contradiction|].
  destruct (skip_test e r c HK) as (b & Eb & Hbb). rewrite Eb. cbn [rbind]. destruct b.
  { exists g0. repeat split; auto. apply CP. right. apply Hbb. reflexivity. }
  assert (NS : ~ all_skipped e r c) by (intros A; apply Hbb in A; discriminate). clear Eb Hbb CP E00 E0 g00.
  change (2 ^ 24) with 16777216 in *.
  assert (P0 : planes e 0) by (unfold planes; lia).
  destruct (direction_finds e f r c) as (yDir & varr & ED & HD); try (change (2 ^ 32) with 4294967296; lia).
  { intros i j Hi Hj. apply (BF 0); [exact P0|]. unfold in_block, sub_of. cbn [Z.ltb Z.compare]. change (2 ^ 0) with 1. cbv zeta. rewrite !Z.div_1_r. lia. }
  rewrite ED. cbn [rbind]. pose proof (finds_var _ _ _ _ _ _ Hb HA HD) as HV. assert (Hd : 0 <= yDir < 8) by (destruct HD as (X & _ & H & _); exact H).
  rewrite (idx_ok (cYPri e) ix 0) by lia. rewrite (idx_ok (cYSec e) ix 0) by lia. cbn [rbind].
  set (p := nth (Z.to_nat ix) (cYPri e) 0). set (s := nth (Z.to_nat ix) (cYSec e) 0).
  assert (EP : idx (cYPri e) ix = Ok p) by (apply idx_ok; lia). assert (ES : idx (cYSec e) ix = Ok s) by (apply idx_ok; lia).
  pose proof (idx_Forall _ _ _ _ S1 EP) as HP. pose proof (idx_Forall _ _ _ _ S2 ES) as HS. cbv beta in HP, HS.
  fold (varStrOf varr). rewrite varStr_ok by exact HV. cbn [rbind].
  destruct (strength_shl (cBitDepth e) p 15 Hb HP ltac:(lia)) as (-> & P1 & P2). destruct (strength_shl (cBitDepth e) s 4 Hb HS ltac:(lia)) as (-> & Q1 & Q2).
  assert (LS : (if bool_of varr then shr (p * 2 ^ (cBitDepth e - 8) * (4 + (if varr / 64 =? 0 then 0 else Z.min (Z.log2 (varr / 64)) 12)) + 8) 4 else 0) = luma_strength (p * 2 ^ (cBitDepth e - 8)) varr).
  { unfold luma_strength, bool_of. destruct (varr =? 0); cbn [negb]; [reflexivity|]. rewrite shr_div by lia. reflexivity. }
  rewrite LS. clear LS. pose proof (luma_strength_range (cBitDepth e) _ varr Hb P1) as LR. pose proof (pow_bounds _ Hb) as PB.
  assert (PZ : forall q, (q * 2 ^ (cBitDepth e - 8) =? 0) = (q =? 0)).
  { intros q. destruct (Z.eqb_spec q 0) as [->|]; [reflexivity|]. apply Z.eqb_neq. nia. }
  rewrite PZ. pose proof (keeps_covers _ _ _ K0 HG) as HG0.
  destruct (cdefFilter_ok e f 0 r c (luma_strength (p * 2 ^ (cBitDepth e - 8)) varr) (s * 2 ^ (cBitDepth e - 8)) (cDamping e + (cBitDepth e - 8)) (if p =? 0 then 0 else yDir) g0) as (g1 & E1 & V1 & O1 & K1);
    try lia; try assumption; try (apply HF; exact P0); try (apply HG0; exact P0); try (change (2 ^ 62) with 4611686018427387904; lia).
  { destruct (p =? 0); lia. }
  rewrite E1. cbn [rbind].
  assert (L0 : forall y x, in_block e 0 r c y x -> exists u v, idx3 f 0 y x = Ok u /\ idx3 g1 0 y x = Ok v /\ code_result e f 0 r c y x u ix v).
  { intros y x [Hy Hx]. destruct (V1 y x Hy Hx) as (v & Ev & (u & Eu & Hv)). exists u, v. split; [exact Eu|]. split; [exact Ev|]. right. split; [exact NI|]. split; [exact NS|].
    exists yDir, varr, p, s. split; [exact HD|]. cbn [Z.eqb]. split; [exact EP|]. split; [exact ES|]. cbv zeta. rewrite Z.sub_0_r. exact Hv. }
  destruct HN as [HN|HN]; rewrite HN.
  { cbn [Z.eqb Pos.eqb]. exists g1. split; [reflexivity|]. split; [|split].
    - intros plane y x Hp HB. assert (plane = 0) by (unfold planes in Hp; lia). subst plane. apply L0. exact HB.
    - intros plane y x N. rewrite O1; [apply O0; exact N|]. intros (-> & A & B). apply N. split; [exact P0|]. split; assumption.
    - intros pp y x H. apply K1, K0, H. }
  change (3 =? 1) with false. cbv iota.
  rewrite (idx_ok (cUVPri e) ix 0) by lia. rewrite (idx_ok (cUVSec e) ix 0) by lia. cbn [rbind].
  set (p' := nth (Z.to_nat ix) (cUVPri e) 0). set (s' := nth (Z.to_nat ix) (cUVSec e) 0).
  assert (EP' : idx (cUVPri e) ix = Ok p') by (apply idx_ok; lia). assert (ES' : idx (cUVSec e) ix = Ok s') by (apply idx_ok; lia).
  pose proof (idx_Forall _ _ _ _ S3 EP') as HP'. pose proof (idx_Forall _ _ _ _ S4 ES') as HS'. cbv beta in HP', HS'.
  destruct (strength_shl (cBitDepth e) p' 15 Hb HP' ltac:(lia)) as (-> & P1' & P2'). destruct (strength_shl (cBitDepth e) s' 4 Hb HS' ltac:(lia)) as (-> & Q1' & Q2').
  rewrite PZ. destruct (uv_dir_table (cSubX e) (cSubY e) yDir Hd) as [ET TR]. rewrite ET.
  assert (ED' : (if p' =? 0 then Ok 0 else Ok (chroma_dir (cSubX e) (cSubY e) yDir)) = Ok (if p' =? 0 then 0 else chroma_dir (cSubX e) (cSubY e) yDir)) by (destruct (p' =? 0); reflexivity).
  rewrite ED'. cbn [rbind]. clear ED'. set (dd := if p' =? 0 then 0 else chroma_dir (cSubX e) (cSubY e) yDir). assert (Hdd : 0 <= dd < 8) by (unfold dd; destruct (p' =? 0); lia).
  assert (PD : planes e 1 /\ planes e 2) by (unfold planes; lia). destruct PD as [PL1 PL2].
  pose proof (keeps_covers _ _ _ K1 HG0) as HG1. set (damp := if p' =? 0 then _ else _).
  assert (DD : damp = cDamping e + (cBitDepth e - 8) - (if p' =? 0 then 0 else 1)) by (unfold damp; destruct (p' =? 0); lia). clearbody damp.
  destruct (cdefFilter_ok e f 1 r c (p' * 2 ^ (cBitDepth e - 8)) (s' * 2 ^ (cBitDepth e - 8)) damp dd g1) as (g2 & E2 & V2 & O2 & K2);
    try lia; try assumption; try (apply HF; exact PL1); try (apply HG1; exact PL1); try (change (2 ^ 62) with 4611686018427387904; lia).
  rewrite E2. cbn [rbind]. pose proof (keeps_covers _ _ _ K2 HG1) as HG2.
  destruct (cdefFilter_ok e f 2 r c (p' * 2 ^ (cBitDepth e - 8)) (s' * 2 ^ (cBitDepth e - 8)) damp dd g2) as (g3 & E3 & V3 & O3 & K3);
    try lia; try assumption; try (apply HF; exact PL2); try (apply HG2; exact PL2); try (change (2 ^ 62) with 4611686018427387904; lia).
  exists g3. split; [exact E3|]. split; [|split].
  - intros plane y x Hp HB. unfold planes in Hp. assert (plane = 0 \/ plane = 1 \/ plane = 2) as [->|[->| ->]] by lia.
    + rewrite O3 by lia. rewrite O2 by lia. apply L0. exact HB.
    + rewrite O3 by lia. destruct HB as [Hy Hx]. destruct (V2 y x Hy Hx) as (v & Ev & (u & Eu & Hv)). exists u, v. split; [exact Eu|]. split; [exact Ev|]. right. split; [exact NI|]. split; [exact NS|].
      exists yDir, varr, p', s'. split; [exact HD|]. cbn [Z.eqb]. split; [exact EP'|]. split; [exact ES'|]. cbv zeta. rewrite <- DD. exact Hv.
    + destruct HB as [Hy Hx]. destruct (V3 y x Hy Hx) as (v & Ev & (u & Eu & Hv)). exists u, v. split; [exact Eu|]. split; [exact Ev|]. right. split; [exact NI|]. split; [exact NS|].
      exists yDir, varr, p', s'. split; [exact HD|]. cbn [Z.eqb]. split; [exact EP'|]. split; [exact ES'|]. cbv zeta. rewrite <- DD. exact Hv.
  - intros plane y x N. rewrite O3; [rewrite O2; [rewrite O1; [apply O0; exact N|]|]|]; intros (-> & A & B); apply N; (split; [assumption|split; assumption]).
  - intros pp y x H. apply K3, K2, K1, K0, H.
Qed.

Lemma land_not15 r : Z.land r (Z.lnot 15) = 16 * (r / 16).
Proof.
  change 15 with (Z.ones 4). rewrite <- Z.ldiff_land, Z.ldiff_ones_r by lia. rewrite Z.shiftr_div_pow2, Z.shiftl_mul_pow2 by lia. change (2 ^ 4) with 16. lia.
Qed.
(** The CDEF index of the 64x64 area the block (r, c) is in *)
Definition block_index (e : CEnv) (r c ix : Z) : Prop := idx2 (cIdx e) (16 * (r / 16)) (16 * (c / 16)) = Ok ix.
(** the blocks of the frame: even units *)
Definition is_block (e : CEnv) (r c : Z) : Prop := Z.Even r /\ Z.Even c /\ 0 <= r < cMiRows e /\ 0 <= c < cMiCols e.
(** The frame's tables are large enough and the strengths are those a header can code. *)
Definition cdef_ready (e : CEnv) (f : frame) : Prop :=
  strengths_ok e /\ 0 <= cMiRows e < 2 ^ 24 /\ 0 <= cMiCols e < 2 ^ 24 /\ Z.Even (cMiRows e) /\ Z.Even (cMiCols e) /\ (cNumPlanes e = 1 \/ cNumPlanes e = 3) /\
  all_samples (sample (cBitDepth e)) f /\ frame_covers e f /\
  (forall r c, is_block e r c -> exists ix, block_index e r c ix /\ index_ok e ix /\ (ix = -1 \/ skips_there e r c)).
Definition block_done (e : CEnv) (f g' : frame) (r c : Z) : Prop :=
  forall ix plane y x, block_index e r c ix -> planes e plane -> in_block e plane r c y x -> exists u v, idx3 f plane y x = Ok u /\ idx3 g' plane y x = Ok v /\ code_result e f plane r c y x u ix v.

Lemma blocks_disjoint e plane r c r' c' y x : Z.Even r -> Z.Even c -> Z.Even r' -> Z.Even c' -> in_block e plane r c y x -> in_block e plane r' c' y x -> r = r' /\ c = c'.
Proof.
  intros [a ->] [b ->] [a' ->] [b' ->] [H1 H2] [H3 H4].
  assert (K : forall s a a' y, 0 <= s <= 1 -> 4 * (2 * a) / 2 ^ s <= y < 4 * (2 * a) / 2 ^ s + 8 / 2 ^ s -> 4 * (2 * a') / 2 ^ s <= y < 4 * (2 * a') / 2 ^ s + 8 / 2 ^ s -> 2 * a = 2 * a').
  { clear. intros s a a' y Hs. destruct (pow_sub s Hs) as [[_ ->]|[_ ->]]; [rewrite !Z.div_1_r; lia|]. change (8 / 2) with 4.
    replace (4 * (2 * a) / 2) with (4 * a) by (replace (4 * (2 * a)) with (4 * a * 2) by lia; symmetry; apply Z.div_mul; lia).
    replace (4 * (2 * a') / 2) with (4 * a') by (replace (4 * (2 * a')) with (4 * a' * 2) by lia; symmetry; apply Z.div_mul; lia). lia. }
  split; eapply K; try eassumption; apply sub_of_range.
Qed.
Lemma even_divide a b : Z.Even a -> Z.Even b -> (2 | a - b).
Proof. intros [x ->] [y ->]. exists (x - y). lia. Qed.

Lemma process_ok e f g : cdef_ready e f -> frame_covers e g -> exists g', cdefProcess e f g = Ok g' /\ (forall r c, is_block e r c -> block_done e f g' r c) /\
  (forall plane y x, ~ (planes e plane /\ exists r c, is_block e r c /\ in_block e plane r c y x) -> idx3 g' plane y x = idx3 g plane y x) /\ keeps g g'.
Proof.
  intros (HS & HR & HC & ER & EC & HN & HA & HF & HT) HG. unfold cdefProcess, rfor_by.
  set (I := fun r c g' => (forall r' c', is_block e r' c' -> r' < r \/ (r' = r /\ c' < c) -> block_done e f g' r' c') /\
    (forall plane y x, ~ (planes e plane /\ exists r c, is_block e r c /\ in_block e plane r c y x) -> idx3 g' plane y x = idx3 g plane y x) /\ keeps g g').
  destruct (rfor_step_inv (fun r g' => I r 0 g') 2 (cMiRows e)
    (fun r g => rfor_step (Z.to_nat (cMiCols e - 0)) 0 (cMiCols e) 2 (fun c g => let! ix := idx2 (cIdx e) (Z.land r (Z.lnot 15)) (Z.land c (Z.lnot 15)) in cdefBlock e f r c ix g) g)
    ltac:(lia) (Z.to_nat (cMiRows e - 0)) 0 g) as (g' & E & P); try lia.
  - apply even_divide; [exact ER|exists 0; lia].
  - split; [|split; [reflexivity|intros p y x H; exact H]]. intros r' c' (A & B & C & D) [K|K]; lia.
  - intros r a Hr1 Hr2 Hr3 IH.
    destruct (rfor_step_inv (fun c g' => I r c g') 2 (cMiCols e) (fun c g => let! ix := idx2 (cIdx e) (Z.land r (Z.lnot 15)) (Z.land c (Z.lnot 15)) in cdefBlock e f r c ix g)
      ltac:(lia) (Z.to_nat (cMiCols e - 0)) 0 a) as (a' & E & P); try lia.
    + apply even_divide; [exact EC|exists 0; lia].
    + exact IH.
    + intros c b Hc1 Hc2 Hc3 (I1 & I2 & I3).
      assert (EV : Z.Even r /\ Z.Even c) by (destruct Hr3 as [x Hx], Hc3 as [z Hz]; split; [exists x|exists z]; lia). destruct EV as [Er Ec].
      assert (IB : is_block e r c) by (split; [exact Er|split; [exact Ec|lia]]).
      destruct (HT r c IB) as (ix & HX & HIx & HK). rewrite !land_not15. unfold block_index in HX. rewrite HX. cbn [rbind].
      destruct (block_ok e f r c ix b) as (b' & E & V & O & K); try assumption; try lia. { exact (keeps_covers _ _ _ I3 HG). }
      exists b'. split; [exact E|]. split; [|split].
      * intros r' c' IB' Hlt. destruct (Z.eq_dec r' r) as [->|]; [destruct (Z.eq_dec c' c) as [->|]|].
        { intros ix' plane y x HX' Hp HB. unfold block_index in HX'. rewrite HX in HX'. injection HX' as <-. apply V; assumption. }
        all: intros ix' plane y x HX' Hp HB; rewrite O by (intros [_ HB2]; destruct IB' as (W1 & W2 & _ & _); destruct (blocks_disjoint e plane _ _ _ _ y x W1 W2 Er Ec HB HB2); congruence);
          refine (I1 _ _ IB' _ ix' plane y x HX' Hp HB).
        -- right. split; [reflexivity|]. destruct IB' as (_ & [z Hz] & _). destruct Ec as [w Hw]. lia.
        -- destruct IB' as ([z Hz] & _). destruct Er as [w Hw]. left. lia.
      * intros plane y x N. rewrite O; [apply I2; exact N|]. intros [Hp HB]. apply N. split; [exact Hp|]. exists r, c. split; assumption.
      * intros p y x H. apply K, I3, H.
    + exists a'. split; [exact E|]. destruct P as (I1 & I2 & I3). split; [|split; assumption].
      intros r' c' IB' [L|[-> L]]; [|destruct IB' as (_ & _ & _ & ?); lia]. apply I1; [exact IB'|]. destruct (Z.eq_dec r' r) as [->|]; [right; split; [reflexivity|]; destruct IB' as (_ & _ & _ & ?); lia|].
      left. destruct IB' as ([z Hz] & _). destruct Hr3 as [w Hw]. lia.
  - exists g'. split; [exact E|]. destruct P as (I1 & I2 & I3). split; [|split; assumption]. intros r c IB. apply I1; [exact IB|]. left. destruct IB as (_ & _ & ? & _). lia.
Qed.
