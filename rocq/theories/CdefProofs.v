(** Proofs about the CDEF model. *)
From Verif Require Import GoBase Bitstream BitstreamProofs Util UtilProofs Constants Tables Frame SpecFilter LoopFilterProofs Cdef SpecCdef.

Lemma constrain_ok diff t damping : 0 <= t < 2 ^ 62 -> - 2 ^ 62 <= diff <= 2 ^ 62 -> constrain diff t damping = Ok (constrain_spec diff t damping).
Proof.
  intros Ht Hd. unfold constrain, constrain_spec, bool_of. rewrite negb_involutive. destruct (Z.eqb_spec t 0) as [->|N]; [reflexivity|].
  change (2 ^ 62) with 4611686018427387904 in *.
  rewrite FloorLog2_pos by (change (2 ^ 63) with 9223372036854775808; lia). cbn [rbind]. rewrite Abs_abs by (change (2 ^ 62) with 4611686018427387904; lia).
  assert (M : Max 0 (damping - Z.log2 t) = Z.max 0 (damping - Z.log2 t)) by (unfold Max; destruct (Z.leb_spec (damping - Z.log2 t) 0); lia).
  rewrite M. rewrite shr_div by lia. set (q := Z.abs diff / _). rewrite Clip3_clamp by lia. unfold clamp. f_equal.
  destruct (Z.ltb_spec diff 0) as [L|L]; [rewrite (Z.sgn_neg diff) by lia; reflexivity|].
  destruct (Z.eq_dec diff 0) as [->|]; [cbn; lia|rewrite (Z.sgn_pos diff) by lia; reflexivity].
Qed.

(** The constrained difference never exceeds the difference and has its sign. *)
Lemma constrain_spec_range diff t damping : Z.abs (constrain_spec diff t damping) <= Z.abs diff /\ 0 <= constrain_spec diff t damping * diff /\ (0 <= t -> Z.abs (constrain_spec diff t damping) <= t).
Proof.
  unfold constrain_spec. destruct (Z.eqb_spec t 0) as [->|N]; [cbn; lia|]. set (m := Z.max 0 _).
  assert (0 <= m <= Z.abs diff) by (unfold m; lia).
  assert (0 <= Z.abs diff / 2 ^ Z.max 0 (damping - Z.log2 t)) by (apply Z.div_pos; [lia|apply Z.pow_pos_nonneg; lia]).
  assert (0 <= t -> m <= t) by (unfold m; lia). clearbody m. destruct (Z.sgn_spec diff) as [[? ->]|[[? ->]|[? ->]]]; nia.
Qed.

Definition inside_frame (e : CEnv) (subX subY y x : Z) : bool := (0 <=? x * 2 ^ subX / 4) && (x * 2 ^ subX / 4 <? cMiCols e) && (0 <=? y * 2 ^ subY / 4) && (y * 2 ^ subY / 4 <? cMiRows e).
(** [s] gives the samples of [f] around (y, x): None exactly outside the frame *)
Definition sees (e : CEnv) (f : frame) (plane subX subY y x : Z) (offs : list (Z * Z)) (s : Z * Z -> option Z) : Prop :=
  forall off, In off offs -> match s off with
    | Some v => inside_frame e subX subY (y + fst off) (x + snd off) = true /\ idx3 f plane (y + fst off) (x + snd off) = Ok v
    | None => inside_frame e subX subY (y + fst off) (x + snd off) = false end.

Definition koff (d k : Z) : Z * Z := if k =? 0 then fst (direction d) else snd (direction d).
Lemma directions_table d k : 0 <= d < 8 -> 0 <= k < 2 -> idx3 CDEF_DIRECTIONS d k 0 = Ok (fst (koff d k)) /\ idx3 CDEF_DIRECTIONS d k 1 = Ok (snd (koff d k)) /\
  Z.abs (fst (koff d k)) <= 2 /\ Z.abs (snd (koff d k)) <= 2.
Proof.
  intros Hd Hk. assert (K : k = 0 \/ k = 1) by lia. assert (D : d = 0 \/ d = 1 \/ d = 2 \/ d = 3 \/ d = 4 \/ d = 5 \/ d = 6 \/ d = 7) by lia.
  destruct K as [->| ->]; destruct D as [->|[->|[->|[->|[->|[->|[->| ->]]]]]]]; repeat split; try reflexivity; vm_compute; congruence.
Qed.

Lemma getAt_eq e f plane x0 y0 i j d k sign subX subY : 0 <= d < 8 -> 0 <= k < 2 -> 0 <= subX <= 1 -> 0 <= subY <= 1 -> sign = 1 \/ sign = -1 ->
  - 2 ^ 32 <= y0 + i <= 2 ^ 32 -> - 2 ^ 32 <= x0 + j <= 2 ^ 32 ->
  cdefGetAt e f plane x0 y0 i j d k sign subX subY =
    (let y := y0 + i + sign * fst (koff d k) in let x := x0 + j + sign * snd (koff d k) in
     if inside_frame e subX subY y x then let! v := idx3 f plane y x in Ok (Some v) else Ok None).
Proof.
  intros Hd Hk HX HY Hs Hy Hx. unfold cdefGetAt. destruct (directions_table d k Hd Hk) as (-> & -> & B0 & B1). cbn [rbind]. cbv zeta.
  set (y := y0 + i + sign * _). set (x := x0 + j + sign * _). change (2 ^ 32) with 4294967296 in *.
  assert (PX : 1 <= 2 ^ subX <= 2) by (assert (subX = 0 \/ subX = 1) as [->| ->] by lia; [change (2 ^ 0) with 1|change (2 ^ 1) with 2]; lia).
  assert (PY : 1 <= 2 ^ subY <= 2) by (assert (subY = 0 \/ subY = 1) as [->| ->] by lia; [change (2 ^ 0) with 1|change (2 ^ 1) with 2]; lia).
  assert (- 4294967298 <= y <= 4294967298) by (unfold y; destruct Hs as [->| ->]; lia). assert (- 4294967298 <= x <= 4294967298) by (unfold x; destruct Hs as [->| ->]; lia).
  rewrite !shl_small by (change (2 ^ 63) with 9223372036854775808; nia). rewrite !shr_div by (change MI_SIZE_LOG2 with 2; lia). change (2 ^ MI_SIZE_LOG2) with 4.
  unfold isInsideFilterRegion, inside_frame. reflexivity.
Qed.

Lemma getAt_sees e f plane x0 y0 i j d k sign subX subY s off : 0 <= d < 8 -> 0 <= k < 2 -> 0 <= subX <= 1 -> 0 <= subY <= 1 -> sign = 1 \/ sign = -1 ->
  - 2 ^ 32 <= y0 + i <= 2 ^ 32 -> - 2 ^ 32 <= x0 + j <= 2 ^ 32 -> off = (sign * fst (koff d k), sign * snd (koff d k)) ->
  sees e f plane subX subY (y0 + i) (x0 + j) [off] s -> cdefGetAt e f plane x0 y0 i j d k sign subX subY = Ok (s off).
Proof.
  intros Hd Hk HX HY Hs Hy Hx Ho HS. rewrite getAt_eq by assumption. cbv zeta. subst off. specialize (HS _ (or_introl eq_refl)).
  destruct (s (sign * fst (koff d k), sign * snd (koff d k))) as [v|] eqn:E; cbn [fst snd] in HS.
  - destruct HS as [-> ->]. reflexivity.
  - rewrite HS. reflexivity.
Qed.

(** The loop over the taps as a fold. *)
Fixpoint run_taps (x damping : Z) (s : Z * Z -> option Z) (l : list ((Z * Z) * Z * Z)) (a : cacc) : res cacc :=
  match l with [] => Ok a | (off, w, str) :: l => let! a := cdefTap x w str damping (s off) a in run_taps x damping s l a end.

Definition tap_sum (x damping : Z) (s : Z * Z -> option Z) (t : (Z * Z) * Z * Z) : Z := let '(off, w, str) := t in match s off with Some p => w * constrain_spec (p - x) str damping | None => 0 end.
Definition tap_near (s : Z * Z -> option Z) (t : (Z * Z) * Z * Z) : list Z := let '(off, _, _) := t in match s off with Some p => [p] | None => [] end.

Lemma fold_max_comm l : forall a b, fold_right Z.max (Z.max a b) l = Z.max a (fold_right Z.max b l).
Proof. induction l as [|c l IH]; intros; cbn; [reflexivity|]. rewrite IH. lia. Qed.
Lemma fold_min_comm l : forall a b, fold_right Z.min (Z.min a b) l = Z.min a (fold_right Z.min b l).
Proof. induction l as [|c l IH]; intros; cbn; [reflexivity|]. rewrite IH. lia. Qed.

Lemma run_taps_ok x damping s l : Forall (fun t => 0 <= snd t < 2 ^ 62) l -> (forall off v, s off = Some v -> - 2 ^ 61 <= v - x <= 2 ^ 61) -> forall sum mx mn,
  run_taps x damping s l (sum, mx, mn) = Ok (sum + zsum (map (tap_sum x damping s) l), fold_right Z.max mx (flat_map (tap_near s) l), fold_right Z.min mn (flat_map (tap_near s) l)).
Proof.
  intros HF HS. induction HF as [|[[off w] str] l Hstr HF IH]; intros sum mx mn.
  - cbn. rewrite Z.add_0_r. reflexivity.
  - cbn [run_taps map zsum fold_right flat_map]. unfold tap_sum at 1, tap_near at 1 3. destruct (s off) as [v|] eqn:E.
    + cbn [cdefTap]. cbn [snd] in Hstr. specialize (HS off v E). change (2 ^ 61) with 2305843009213693952 in HS.
      rewrite constrain_ok by (try exact Hstr; change (2 ^ 62) with 4611686018427387904; lia). cbn [rbind]. rewrite IH.
      assert (A : Max v mx = Z.max v mx) by (unfold Max; destruct (Z.leb_spec mx v); lia). assert (B : Min v mn = Z.min v mn) by (unfold Min; destruct (Z.leb_spec v mn); lia).
      rewrite A, B, fold_max_comm, fold_min_comm. cbn [app fold_right]. unfold zsum at 1. cbn [fold_right]. f_equal. f_equal. f_equal. unfold zsum. lia.
    + cbn [cdefTap rbind]. rewrite IH. cbn [app]. reflexivity.
Qed.

Lemma land7 v : Z.land v 7 = v mod 8.
Proof. change 7 with (Z.ones 3). rewrite Z.land_ones by lia. reflexivity. Qed.

Lemma tap_offset_in d k sign dd : 0 <= d < 8 -> 0 <= k < 2 -> sign = 1 \/ sign = -1 -> dd = d \/ dd = (d + 2) mod 8 \/ dd = (d - 2) mod 8 ->
  In (sign * fst (koff dd k), sign * snd (koff dd k)) (tap_offsets d).
Proof.
  intros Hd Hk Hs Hdd. assert (L : In (sign * fst (koff dd k), sign * snd (koff dd k)) (line_offsets dd)).
  { unfold line_offsets, koff, neg. destruct (direction dd) as [[a b] [a' b']]. cbn [fst snd]. assert (k = 0 \/ k = 1) as [->| ->] by lia; cbn [Z.eqb fst snd]; destruct Hs as [->| ->]; cbn [In];
      rewrite ?Z.mul_1_l, <- ?Z.opp_eq_mul_m1; rewrite <- ?Z.opp_eq_mul_m1; try replace (-1 * a) with (- a) by lia; try replace (-1 * b) with (- b) by lia; try replace (-1 * a') with (- a') by lia; try replace (-1 * b') with (- b') by lia; auto 6. }
  unfold tap_offsets. right. rewrite !in_app_iff. destruct Hdd as [->|[->| ->]]; auto.
Qed.

Lemma mod8_range v : 0 <= v mod 8 < 8. Proof. apply Z.mod_pos_bound. lia. Qed.

Lemma cdefTapsK_run e f plane x0 y0 i j subX subY d pri sec damping x k s a : 0 <= d < 8 -> 0 <= k < 2 -> 0 <= subX <= 1 -> 0 <= subY <= 1 ->
  - 2 ^ 32 <= y0 + i <= 2 ^ 32 -> - 2 ^ 32 <= x0 + j <= 2 ^ 32 -> sees e f plane subX subY (y0 + i) (x0 + j) (tap_offsets d) s ->
  let odd := Z.odd (shr pri (cBitDepth e)) in
  let wp := if odd then 3 else if k =? 0 then 4 else 2 in let ws := if k =? 0 then 2 else 1 in
  cdefTapsK e f plane x0 y0 i j subX subY d pri sec damping x k a =
  run_taps x damping s (flat_map (fun o : Z * Z -> Z * Z => [(o (koff d k), wp, pri); (o (koff ((d - 2) mod 8) k), ws, sec); (o (koff ((d + 2) mod 8) k), ws, sec)]) [neg; fun p => p]) a.
Proof.
  intros Hd Hk HX HY Hy Hx HS odd wp ws. unfold cdefTapsK. change (rfor_to 0 2) with (@rfor_from cacc 2 0). cbn [rfor_from].
  assert (W : idx2 CDEF_PRI_TAPS (Z.land (shr pri (cBitDepth e)) 1) k = Ok wp /\ idx2 CDEF_SEC_TAPS (Z.land (shr pri (cBitDepth e)) 1) k = Ok ws).
  { unfold wp, ws, odd. rewrite land1_mod, Zmod_odd. assert (k = 0 \/ k = 1) as [->| ->] by lia; destruct (Z.odd _); split; reflexivity. }
  destruct W as [-> ->].
  assert (G : forall dd sign, dd = d \/ dd = (d + 2) mod 8 \/ dd = (d - 2) mod 8 -> sign = 1 \/ sign = -1 -> cdefGetAt e f plane x0 y0 i j dd k sign subX subY = Ok (s (sign * fst (koff dd k), sign * snd (koff dd k)))).
  { intros dd sign Hdd Hs. apply getAt_sees with (s := s); auto.
    - destruct Hdd as [->|[->| ->]]; auto using mod8_range.
    - intros off [<-|[]]. apply HS. apply tap_offset_in; auto. }
  change (2 * 0 - 1) with (-1). change (2 * (0 + 1) - 1) with 1. change (4 * 0 - 2) with (-2). change (4 * (0 + 1) - 2) with 2. rewrite !land7. change (d + -2) with (d - 2).
  rewrite !G by auto. cbn [rbind flat_map app]. unfold neg at 1 2 3. rewrite !Z.mul_1_l. rewrite <- !surjective_pairing.
  assert (N : forall v, -1 * v = - v) by (intros; lia). rewrite !N. cbn [run_taps].
  destruct (cdefTap x wp pri damping _ a) as [a1| |]; cbn [rbind]; try reflexivity.
  destruct (cdefTap x ws sec damping _ a1) as [a2| |]; cbn [rbind]; try reflexivity.
  destruct (cdefTap x ws sec damping _ a2) as [a3| |]; cbn [rbind]; try reflexivity.
  destruct (cdefTap x wp pri damping _ a3) as [a4| |]; cbn [rbind]; try reflexivity.
  destruct (cdefTap x ws sec damping _ a4) as [a5| |]; cbn [rbind]; try reflexivity.
  destruct (cdefTap x ws sec damping _ a5) as [a6| |]; cbn [rbind]; reflexivity.
Qed.

Lemma run_taps_app x damping s l1 : forall l2 a, run_taps x damping s (l1 ++ l2) a = let! a := run_taps x damping s l1 a in run_taps x damping s l2 a.
Proof. induction l1 as [|[[off w] str] l1 IH]; intros; cbn [app run_taps rbind]; [reflexivity|]. destruct (cdefTap x w str damping (s off) a); cbn [rbind]; [apply IH|reflexivity|reflexivity]. Qed.

Lemma cdefSample_ok e f plane x0 y0 i j subX subY d pri sec damping x s : 0 <= d < 8 -> 0 <= subX <= 1 -> 0 <= subY <= 1 ->
  - 2 ^ 32 <= y0 + i <= 2 ^ 32 -> - 2 ^ 32 <= x0 + j <= 2 ^ 32 -> 0 <= pri < 2 ^ 62 -> 0 <= sec < 2 ^ 62 ->
  sees e f plane subX subY (y0 + i) (x0 + j) (tap_offsets d) s -> (forall off v, s off = Some v -> - 2 ^ 61 <= v - x <= 2 ^ 61) ->
  idx3 f plane (y0 + i) (x0 + j) = Ok x ->
  cdefSample e f plane x0 y0 i j subX subY d pri sec damping = Ok (cdef_value (Z.odd (shr pri (cBitDepth e))) d pri sec damping x s).
Proof.
  intros Hd HX HY Hy Hx Hp Hsec HS HB E. unfold cdefSample. rewrite E. cbn [rbind]. change (rfor_to 0 2) with (@rfor_from cacc 2 0). cbn [rfor_from].
  change (0 + 1) with 1. rewrite (cdefTapsK_run _ _ _ _ _ _ _ _ _ _ _ _ _ _ 0 s) by (auto; lia). cbv zeta.
  set (l0 := flat_map _ _).
  assert (T : forall a, cdefTapsK e f plane x0 y0 i j subX subY d pri sec damping x 1 a = run_taps x damping s (flat_map (fun o : Z * Z -> Z * Z => [(o (koff d 1), if Z.odd (shr pri (cBitDepth e)) then 3 else 2, pri); (o (koff ((d - 2) mod 8) 1), 1, sec); (o (koff ((d + 2) mod 8) 1), 1, sec)]) [neg; fun p => p]) a).
  { intros a. rewrite (cdefTapsK_run _ _ _ _ _ _ _ _ _ _ _ _ _ _ 1 s) by (auto; lia). reflexivity. }
  set (l1 := flat_map (fun o : Z * Z -> Z * Z => [(o (koff d 1), _, pri); _; _]) _) in T.
  assert (R : (let! acc' := run_taps x damping s l0 (0, x, x) in let! acc'0 := cdefTapsK e f plane x0 y0 i j subX subY d pri sec damping x 1 acc' in Ok acc'0) = run_taps x damping s (l0 ++ l1) (0, x, x)).
  { rewrite run_taps_app. destruct (run_taps x damping s l0 (0, x, x)) as [a| |]; cbn [rbind]; try reflexivity. rewrite T. destruct (run_taps x damping s l1 a); reflexivity. }
  rewrite R.
  assert (F : Forall (fun t => 0 <= snd t < 2 ^ 62) (l0 ++ l1)) by (unfold l0, l1; cbn [flat_map app]; repeat constructor; cbn [snd]; lia).
  rewrite (run_taps_ok _ _ _ _ F HB). cbn [rbind]. rewrite Z.add_0_l.
  assert (L : l0 ++ l1 = weighted_taps (Z.odd (shr pri (cBitDepth e))) d pri sec) by (unfold l0, l1, weighted_taps, koff; cbn [flat_map app Z.eqb]; reflexivity).
  rewrite L. unfold cdef_value. cbv zeta. fold (tap_sum x damping s). 
  change (fun t : Z * Z * Z * Z => let '(off, w, str) := t in match s off with Some p => w * constrain_spec (p - x) str damping | None => 0 end) with (tap_sum x damping s).
  change (fun t : Z * Z * Z * Z => let '(off, _, _) := t in match s off with Some p => [p] | None => [] end) with (tap_near s).
  set (sum := zsum _). set (near := flat_map _ _).
  assert (MX : forall l, x <= fold_right Z.max x l) by (induction l; cbn; lia). assert (MN : forall l, fold_right Z.min x l <= x) by (induction l; cbn; lia).
  rewrite Clip3_clamp by (etransitivity; [apply MN|apply MX]). unfold clamp. f_equal. f_equal. f_equal. rewrite shr_div by lia. change (2 ^ 4) with 16. unfold int_of. reflexivity.
Qed.

(** The samples around (y, x) as the filter sees them. *)
Definition samp (e : CEnv) (f : frame) (plane subX subY y x : Z) (off : Z * Z) : option Z :=
  if inside_frame e subX subY (y + fst off) (x + snd off) then match idx3 f plane (y + fst off) (x + snd off) with Ok v => Some v | _ => None end else None.
Definition covers (e : CEnv) (f : frame) (plane subX subY : Z) : Prop := forall y x, inside_frame e subX subY y x = true -> exists v, idx3 f plane y x = Ok v.
Lemma samp_sees e f plane subX subY y x offs : covers e f plane subX subY -> sees e f plane subX subY y x offs (samp e f plane subX subY y x).
Proof.
  intros C off _. unfold samp. destruct (inside_frame e subX subY (y + fst off) (x + snd off)) eqn:E; [|reflexivity]. destruct (C _ _ E) as [v Hv]. rewrite Hv. auto.
Qed.
Lemma samp_range e f plane subX subY y x (P : Z -> Prop) off v : all_samples P f -> samp e f plane subX subY y x off = Some v -> P v.
Proof.
  intros HA. unfold samp. destruct (inside_frame _ _ _ _ _); [|discriminate]. destruct (idx3 f plane (y + fst off) (x + snd off)) eqn:E; try discriminate. intros [= <-]. exact (idx3_Forall _ _ _ _ _ _ HA E).
Qed.

Definition sub_of (plane : Z) (b : bool) : Z := if 0 <? plane then int_of b else 0.
Lemma sub_of_range plane b : 0 <= sub_of plane b <= 1. Proof. unfold sub_of. destruct (0 <? plane), b; cbn; lia. Qed.
Lemma pow_sub s : 0 <= s <= 1 -> (s = 0 /\ 2 ^ s = 1) \/ (s = 1 /\ 2 ^ s = 2).
Proof. intros. assert (s = 0 \/ s = 1) as [->| ->] by lia; auto. Qed.

Lemma inside_block e r c s s' i j : 0 <= r -> 0 <= c -> r + 2 <= cMiRows e -> c + 2 <= cMiCols e -> 0 <= s <= 1 -> 0 <= s' <= 1 ->
  0 <= i < 8 / 2 ^ s -> 0 <= j < 8 / 2 ^ s' -> inside_frame e s' s (4 * r / 2 ^ s + i) (4 * c / 2 ^ s' + j) = true.
Proof.
  intros Hr Hc HR HC Hs Hs' Hi Hj. unfold inside_frame.
  assert (A : forall q t s i, 0 <= q -> q + 2 <= t -> 0 <= s <= 1 -> 0 <= i < 8 / 2 ^ s -> 0 <= (4 * q / 2 ^ s + i) * 2 ^ s / 4 < t).
  { clear. intros q t s i Hq Ht Hs Hi. destruct (pow_sub s Hs) as [[-> E]|[-> E]]; rewrite E in *.
    - rewrite Z.div_1_r in *. rewrite Z.mul_1_r. split; [apply Z.div_pos; lia|apply Z.div_lt_upper_bound; lia].
    - change (8 / 2) with 4 in Hi. replace (4 * q / 2) with (2 * q) by (replace (4 * q) with (2 * q * 2) by lia; symmetry; apply Z.div_mul; lia).
      split; [apply Z.div_pos; lia|apply Z.div_lt_upper_bound; lia]. }
  pose proof (A r (cMiRows e) s i Hr HR Hs Hi). pose proof (A c (cMiCols e) s' j Hc HC Hs' Hj).
  repeat (apply andb_true_intro; split); try (apply Z.leb_le; lia); apply Z.ltb_lt; lia.
Qed.

(** the value CDEF gives to sample (y, x) of a plane *)
Definition filtered (e : CEnv) (f : frame) (plane d pri sec damping y x v : Z) : Prop :=
  exists u, idx3 f plane y x = Ok u /\ v = cdef_value false d pri sec damping u (samp e f plane (sub_of plane (cSubX e)) (sub_of plane (cSubY e)) y x).

Lemma cdefFilter_ok e f plane r c pri sec damping d g : 0 <= r < 2 ^ 24 -> 0 <= c < 2 ^ 24 -> r + 2 <= cMiRows e -> c + 2 <= cMiCols e -> 0 <= d < 8 ->
  8 <= cBitDepth e <= 16 -> 0 <= pri < 2 ^ cBitDepth e -> 0 <= sec < 2 ^ 62 -> all_samples (sample (cBitDepth e)) f ->
  covers e f plane (sub_of plane (cSubX e)) (sub_of plane (cSubY e)) -> covers e g plane (sub_of plane (cSubX e)) (sub_of plane (cSubY e)) ->
  let y0 := 4 * r / 2 ^ sub_of plane (cSubY e) in let x0 := 4 * c / 2 ^ sub_of plane (cSubX e) in
  let h := 8 / 2 ^ sub_of plane (cSubY e) in let w := 8 / 2 ^ sub_of plane (cSubX e) in
  exists g', cdefFilter e f plane r c pri sec damping d g = Ok g' /\
   (forall y x, y0 <= y < y0 + h -> x0 <= x < x0 + w -> exists v, idx3 g' plane y x = Ok v /\ filtered e f plane d pri sec damping y x v) /\
   (forall p y x, ~ (p = plane /\ y0 <= y < y0 + h /\ x0 <= x < x0 + w) -> idx3 g' p y x = idx3 g p y x) /\
   (forall p y x, (exists v, idx3 g p y x = Ok v) -> exists v, idx3 g' p y x = Ok v).
Proof.
  intros Hr Hc HR HC Hd Hbd Hp Hs HA HCf HCg y0 x0 h w. unfold cdefFilter.
  set (sX := sub_of plane (cSubX e)) in *. set (sY := sub_of plane (cSubY e)) in *.
  change (if 0 <? plane then int_of (cSubX e) else 0) with sX. change (if 0 <? plane then int_of (cSubY e) else 0) with sY. cbv zeta.
  pose proof (sub_of_range plane (cSubX e)) as RX. pose proof (sub_of_range plane (cSubY e)) as RY. fold sX in RX. fold sY in RY.
  change MI_SIZE with 4. rewrite !shr_div by lia. rewrite !(Z.mul_comm _ 4). fold y0 x0 h w.
  assert (Hh : 0 <= h) by (unfold h; apply Z.div_pos; [lia|apply Z.pow_pos_nonneg; lia]). assert (Hw : 0 <= w) by (unfold w; apply Z.div_pos; [lia|apply Z.pow_pos_nonneg; lia]).
  change (2 ^ 24) with 16777216 in *.
  assert (Y0 : 0 <= y0 <= 67108864 /\ h <= 8) by (unfold y0, h; destruct (pow_sub sY RY) as [[_ ->]|[_ ->]]; [rewrite !Z.div_1_r; lia|]; split; [split; [apply Z.div_pos; lia|apply Z.div_le_upper_bound; lia]|vm_compute; congruence]).
  assert (X0 : 0 <= x0 <= 67108864 /\ w <= 8) by (unfold x0, w; destruct (pow_sub sX RX) as [[_ ->]|[_ ->]]; [rewrite !Z.div_1_r; lia|]; split; [split; [apply Z.div_pos; lia|apply Z.div_le_upper_bound; lia]|vm_compute; congruence]).
  set (V := fun i j => cdefSample e f plane x0 y0 i j sX sY d pri sec damping).
  assert (HV : forall i j, 0 <= i < h -> 0 <= j < w -> exists v, V i j = Ok v /\ filtered e f plane d pri sec damping (y0 + i) (x0 + j) v).
  { intros i j Hi Hj. pose proof (inside_block e r c sY sX i j ltac:(lia) ltac:(lia) HR HC RY RX Hi Hj) as IN. fold y0 x0 in IN. destruct (HCf _ _ IN) as [u Eu].
    pose proof (idx3_Forall _ _ _ _ _ _ HA Eu) as Hu. unfold sample in Hu.
    pose proof (pow_bounds _ Hbd) as PB.
    eexists. split; [|exists u; split; [exact Eu|reflexivity]]. unfold V. fold sX sY.
    rewrite (cdefSample_ok e f plane x0 y0 i j sX sY d pri sec damping u (samp e f plane sX sY (y0 + i) (x0 + j))); auto;
      try (change (2 ^ 32) with 4294967296; lia); try (change (2 ^ 62) with 4611686018427387904; lia).
    - f_equal. f_equal. rewrite shr_div by lia. rewrite Z.div_small by lia. reflexivity.
    - apply samp_sees; assumption.
    - intros off v Ev. pose proof (samp_range _ _ _ _ _ _ _ _ _ _ HA Ev) as Hv. unfold sample in Hv. change (2 ^ 61) with 2305843009213693952. lia. }
  destruct (fill_ok V plane y0 x0 (fun i => y0 + i) (fun j => x0 + j) (fun _ => eq_refl) (fun _ => eq_refl) 0 h 0 w g Hh Hw) as (g' & E & K).
  - intros i j Hi Hj. destruct (HV i j Hi Hj) as (v & Ev & _). eauto.
  - intros i j Hi Hj. apply HCg. unfold y0, x0. apply inside_block; auto; lia.
  - exists g'. split; [exact E|]. destruct (fill_post V plane y0 x0 (fun i => y0 + i) (fun j => x0 + j) (fun _ => eq_refl) (fun _ => eq_refl) 0 h 0 w g g' Hh Hw E) as [A B].
    split; [|split; [|exact K]].
    + intros y x Hy Hx. destruct (A (y - y0) (x - x0) ltac:(lia) ltac:(lia)) as (v & Ev & Iv). destruct (HV (y - y0) (x - x0) ltac:(lia) ltac:(lia)) as (v' & Ev' & Fv).
      replace (y0 + (y - y0)) with y in * by lia. replace (x0 + (x - x0)) with x in * by lia. exists v. split; [exact Iv|]. congruence.
    + intros p y x N. apply B. rewrite !Z.add_0_r. exact N.
Qed.
