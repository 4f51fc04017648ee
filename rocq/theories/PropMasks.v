(** Properties C164, C165, C166: masks, blending and distance weights of compound prediction. *)
From Verif Require Import GoBase Constants Tables Util Frame UncompressedHeader UtilProofs PredictInter Masks.

(** ** Specification *)
(** x divided by 2^n, to the nearest integer *)
Definition rounded (x n : Z) : Z := if n =? 0 then x else (x + 2 ^ (n - 1)) / 2 ^ n.
(** The weight from the difference d of two predictions: 38 for equal ones, up to 64; counted from the other side with mask_type. *)
Definition difference_weight (scale maskType d : Z) : Z :=
  let m := Z.min 64 (38 + rounded (Z.abs d) scale / 16) in if maskType =? 0 then m else 64 - m.
(** The weight of the intra prediction of sample (y, x) of a block whose longer side is n: it falls with the distance from the predicting edge. *)
Definition intra_weight (mode n y x : Z) : Z :=
  if mode =? 1 then nth (Z.to_nat (y * (128 / n))) Ii_Weights_1d 0
  else if mode =? 2 then nth (Z.to_nat (x * (128 / n))) Ii_Weights_1d 0
  else if mode =? 3 then nth (Z.to_nat (Z.min y x * (128 / n))) Ii_Weights_1d 0
  else 32.
(** The weight of sample (y, x) of a plane from the weights M of the luma samples: the mean of the luma samples it stands for *)
Definition plane_weight (halfX halfY : bool) (M : Z -> Z -> Z) (y x : Z) : Z :=
  match halfX, halfY with
  | false, false => M y x
  | true, false => (M y (2 * x) + M y (2 * x + 1) + 1) / 2
  | false, true => (M (2 * y) x + M (2 * y + 1) x + 1) / 2
  | true, true => (M (2 * y) (2 * x) + M (2 * y) (2 * x + 1) + M (2 * y + 1) (2 * x) + M (2 * y + 1) (2 * x + 1) + 2) / 4
  end.
(** (y, x) is in a block of h rows and w columns *)
Definition inside (h w y x : Z) : bool := (0 <=? y) && (y <? h) && (0 <=? x) && (x <? w).
(** The first h rows and w columns of l hold the samples P. *)
Definition samples (h w : Z) (l : list (list Z)) (P : Z -> Z -> Z) : Prop := forall y x, 0 <= y < h -> 0 <= x < w -> idx2 l y x = Ok (P y x).
(** l has at least h rows and w columns *)
Definition has_room (h w : Z) (l : list (list Z)) : Prop := forall y x, 0 <= y < h -> 0 <= x < w -> exists v, idx2 l y x = Ok v.

(** ** Loops over a block *)
Section Grid.
Context {S K : Type} (get : S -> K -> res Z) (key : Z -> Z -> K) (cell : Z -> Z -> S -> res S) (new : Z -> Z -> Z) (h w : Z) (s0 : S).
Hypothesis inj : forall y x y' x', key y x = key y' x' -> y = y' /\ x = x'.
Hypothesis step : forall y x s, 0 <= y < h -> 0 <= x < w -> get s (key y x) = get s0 (key y x) ->
  exists s', cell y x s = Ok s' /\ get s' (key y x) = Ok (new y x) /\ forall k, k <> key y x -> get s' k = get s k.
Definition done (D : Z -> Z -> Prop) (s : S) : Prop :=
  (forall y x, 0 <= y < h -> 0 <= x < w -> D y x -> get s (key y x) = Ok (new y x)) /\
  (forall k, (forall y x, 0 <= y < h -> 0 <= x < w -> D y x -> k <> key y x) -> get s k = get s0 k).
Lemma grid_ok : exists s', rfor_to 0 h (fun y s => rfor_to 0 w (fun x s => cell y x s) s) s0 = Ok s' /\ done (fun _ _ => True) s'.
Proof.
  unfold rfor_to. destruct (rfor_from_inv (fun i => done (fun y _ => y < i)) (Z.to_nat (h - 0)) 0 (fun y s => rfor_from (Z.to_nat (w - 0)) 0 (fun x s => cell y x s) s) s0) as (s' & E & D1 & D2).
  - split; [intros; lia|]. intros k _. reflexivity.
  - intros i s Hi Hs. destruct (rfor_from_inv (fun j => done (fun y x => y < i \/ (y = i /\ x < j))) (Z.to_nat (w - 0)) 0 (fun x s => cell i x s) s) as (s' & E & D1 & D2).
    + destruct Hs as [H1 H2]. split; [intros y x Hy Hx D; apply H1; auto; lia|]. intros k Hk. apply H2. intros y x Hy Hx D. apply Hk; auto.
    + intros j t Hj [H1 H2]. destruct (step i j t) as (t' & E & G & O); [lia|lia|apply H2; intros y x Hy Hx D F; apply inj in F; lia|].
      exists t'. split; [exact E|]. split.
      * intros y x Hy Hx D. destruct (Z.eq_dec y i) as [->|n]; [destruct (Z.eq_dec x j) as [->|n]; [exact G|]|]; (rewrite O; [apply H1; auto; lia|intros F; apply inj in F; lia]).
      * intros k Hk. rewrite O; [apply H2; intros y x Hy Hx D; apply Hk; auto; lia|]. apply Hk; lia.
    + exists s'. split; [exact E|]. split; [intros y x Hy Hx D; apply D1; auto; lia|]. intros k Hk. apply D2. intros y x Hy Hx D. apply Hk; auto; lia.
  - exists s'. split; [exact E|]. split; [intros y x Hy Hx _; apply D1; auto; lia|]. intros k Hk. apply D2. intros y x Hy Hx D. apply Hk; auto.
Qed.
End Grid.

Lemma inside_true h w y x : inside h w y x = true <-> 0 <= y < h /\ 0 <= x < w.
Proof. unfold inside. rewrite !andb_true_iff, !Z.leb_le, !Z.ltb_lt. lia. Qed.
(** The same for an array with two indices *)
Lemma fill_ok (val : Z -> Z -> res Z) (new : Z -> Z -> Z) h w (mask : list (list Z)) : has_room h w mask -> (forall y x, 0 <= y < h -> 0 <= x < w -> val y x = Ok (new y x)) ->
  exists mask', rfor_to 0 h (fun i m => rfor_to 0 w (fun j m => let! v := val i j in upd2 m i j v) m) mask = Ok mask' /\
    forall y x, idx2 mask' y x = if inside h w y x then Ok (new y x) else idx2 mask y x.
Proof.
  intros hr hv. destruct (grid_ok (fun m k => idx2 m (fst k) (snd k)) (fun y x => (y, x)) (fun i j m => let! v := val i j in upd2 m i j v) new h w mask) as (m' & E & D1 & D2).
  - intros y x y' x' F. injection F; auto.
  - intros y x s Hy Hx G. rewrite hv by assumption. cbn [rbind fst snd] in *. destruct (hr y x Hy Hx) as [v0 E0]. rewrite E0 in G.
    destruct (upd2_succeeds s y x v0 (new y x) G) as [s' E]. exists s'. split; [exact E|]. split; [exact (idx2_upd2_same _ _ _ _ _ E)|].
    intros [y' x'] N. cbn [fst snd]. apply (idx2_upd2_other _ _ _ _ _ _ _ E). congruence.
  - exists m'. split; [exact E|]. intros y x. destruct (inside h w y x) eqn:I.
    + apply inside_true in I. apply (D1 y x); tauto.
    + apply (D2 (y, x)). intros y' x' Hy Hx _ F. injection F as -> ->. assert (inside h w y' x' = true) by (apply inside_true; auto). congruence.
Qed.
Lemma rounded_ok x n : 0 <= n <= 62 -> - 2 ^ 62 <= x < 2 ^ 62 -> Round2 x n = Ok (rounded x n).
Proof. intros. rewrite Round2_spec by assumption. reflexivity. Qed.
Lemma rounded_nonneg x n : 0 <= x -> 0 <= n -> 0 <= rounded x n.
Proof. intros hx hn. unfold rounded. destruct (Z.eqb_spec n 0); [lia|]. apply Z.div_pos; [|apply Z.pow_pos_nonneg; lia]. pose proof (Z.pow_nonneg 2 (n - 1)). lia. Qed.

(** ** C164: the masks *)
Lemma rfor_to_ext {A} lo hi (f g : Z -> A -> res A) a : (forall i a, f i a = g i a) -> rfor_to lo hi f a = rfor_to lo hi g a.
Proof. intros H. unfold rfor_to. generalize (Z.to_nat (hi - lo)). intros n. revert lo a. induction n as [|n IH]; intros; cbn [rfor_from]; [reflexivity|]. rewrite H. destruct (g lo a); cbn [rbind]; auto. Qed.

Theorem C164_difference_partial : forall preds0 preds1 w h bitDepth post maskType mask P0 P1,
  8 <= bitDepth <= 12 -> 0 <= post <= 7 -> has_room h w mask -> samples h w preds0 P0 -> samples h w preds1 P1 ->
  (forall y x, Z.abs (P0 y x) < 2 ^ 40 /\ Z.abs (P1 y x) < 2 ^ 40) ->
  exists mask', differenceMask preds0 preds1 w h bitDepth post maskType mask = Ok mask' /\
    forall y x, idx2 mask' y x = if inside h w y x then Ok (difference_weight (bitDepth - 8 + post) maskType (P0 y x - P1 y x)) else idx2 mask y x.
Proof.
  intros preds0 preds1 w h bd post mt mask P0 P1 hb hp hr h0 h1 hs.
  destruct (fill_ok (fun y x => let! p0 := idx2 preds0 y x in let! p1 := idx2 preds1 y x in let! diff := Round2 (Abs (i64 (p0 - p1))) (bd - 8 + post) in
      let c := Clip3 0 64 (38 + Z.quot diff 16) in Ok (if bool_of mt then 64 - c else c)) (fun y x => difference_weight (bd - 8 + post) mt (P0 y x - P1 y x)) h w mask hr) as (m' & E & G).
  - intros y x Hy Hx. rewrite (h0 _ _ Hy Hx), (h1 _ _ Hy Hx). cbn [rbind]. destruct (hs y x) as [a0 a1]. set (d := P0 y x - P1 y x). change (2 ^ 40) with 1099511627776 in *.
    assert (hd : Z.abs d < 2199023255552) by lia. rewrite i64_id by (change (2 ^ 63) with 9223372036854775808; lia).
    replace (Abs d) with (Z.abs d) by (unfold Abs; destruct (Z.leb_spec 0 d); [lia|rewrite i64_id by (change (2 ^ 63) with 9223372036854775808; lia); lia]).
    rewrite rounded_ok by (change (2 ^ 62) with 4611686018427387904; lia). cbn [rbind]. f_equal. unfold difference_weight. set (r := rounded (Z.abs d) (bd - 8 + post)).
    assert (hr0 : 0 <= r) by (apply rounded_nonneg; lia). rewrite Z.quot_div_nonneg by lia. assert (0 <= r / 16) by (apply Z.div_pos; lia).
    replace (Clip3 0 64 (38 + r / 16)) with (Z.min 64 (38 + r / 16)) by (unfold Clip3; destruct (Z.ltb_spec (38 + r / 16) 0); [lia|]; destruct (Z.ltb_spec 64 (38 + r / 16)); lia).
    unfold bool_of. destruct (mt =? 0); reflexivity.
  - exists m'. split; [|exact G]. rewrite <- E. unfold differenceMask. apply rfor_to_ext. intros i a. apply rfor_to_ext. intros j b.
    destruct (idx2 preds0 i j); cbn [rbind]; auto. destruct (idx2 preds1 i j); cbn [rbind]; auto. destruct (Round2 _ _); cbn [rbind]; auto. destruct (bool_of mt); reflexivity.
Qed.
(** The first prediction has at least 38 of the 64 parts, with mask_type at most 26. *)
Theorem C164_difference_range : forall scale maskType d, 0 <= scale ->
  if maskType =? 0 then 38 <= difference_weight scale maskType d <= 64 else 0 <= difference_weight scale maskType d <= 26.
Proof.
  intros s mt d hs. unfold difference_weight. assert (0 <= rounded (Z.abs d) s / 16) by (apply Z.div_pos; [apply rounded_nonneg; lia|lia]). destruct (mt =? 0); lia.
Qed.

Lemma weight_at i : 0 <= i < 128 -> idx Ii_Weights_1d i = Ok (nth (Z.to_nat i) Ii_Weights_1d 0).
Proof. intros H. apply idx_ok. exact H. Qed.
Theorem C164_intra_partial : forall w h mode mask, 1 <= w <= 128 -> 1 <= h <= 128 -> has_room h w mask ->
  exists mask', intraMask w h mode mask = Ok mask' /\
    forall y x, idx2 mask' y x = if inside h w y x then Ok (intra_weight mode (Z.max h w) y x) else idx2 mask y x.
Proof.
  intros w h mode mask hw hh hr. unfold intraMask. replace (Max h w) with (Z.max h w) by (unfold Max; destruct (Z.leb_spec w h); lia).
  replace (Z.max h w =? 0) with false by (symmetry; apply Z.eqb_neq; lia). rewrite Z.quot_div_nonneg by (unfold MAX_SB_SIZE; lia). change MAX_SB_SIZE with 128.
  set (n := Z.max h w). assert (hq : n * (128 / n) <= 128) by (apply Z.mul_div_le; lia). assert (hq1 : 1 <= 128 / n) by (apply Z.div_le_lower_bound; lia).
  assert (bound : forall i, 0 <= i < n -> 0 <= i * (128 / n) < 128) by (intros i hi; split; [apply Z.mul_nonneg_nonneg; lia|]; assert ((i + 1) * (128 / n) <= n * (128 / n)) by (apply Z.mul_le_mono_nonneg_r; lia); lia).
  apply fill_ok; [exact hr|]. intros y x Hy Hx. unfold intra_weight, II_V_PRED, II_H_PRED, II_SMOOTH_PRED.
  destruct (mode =? 1); [apply weight_at, bound; lia|]. destruct (mode =? 2); [apply weight_at, bound; lia|]. destruct (mode =? 3); [|reflexivity].
  replace (Min y x) with (Z.min y x) by (unfold Min; destruct (Z.leb_spec y x); lia). apply weight_at, bound. lia.
Qed.
(** The weights fall with the distance, from 60 to 1. *)
Theorem C164_intra_falls : forall mode n y x y' x', 1 <= mode <= 3 -> 1 <= n <= 128 -> 0 <= y <= y' -> 0 <= x <= x' -> y' < n -> x' < n ->
  1 <= intra_weight mode n y' x' <= intra_weight mode n y x /\ intra_weight mode n y x <= 60.
Proof.
  intros mode n y x y' x' hm hn hy hx hy' hx'. assert (hq : n * (128 / n) <= 128) by (apply Z.mul_div_le; lia). assert (hq1 : 1 <= 128 / n) by (apply Z.div_le_lower_bound; lia).
  assert (F : forall i j, 0 <= i <= j -> j < n -> 1 <= nth (Z.to_nat (j * (128 / n))) Ii_Weights_1d 0 <= nth (Z.to_nat (i * (128 / n))) Ii_Weights_1d 0 /\ nth (Z.to_nat (i * (128 / n))) Ii_Weights_1d 0 <= 60).
  { intros i j hi hj. assert ((j + 1) * (128 / n) <= n * (128 / n)) by (apply Z.mul_le_mono_nonneg_r; lia). assert (i * (128 / n) <= j * (128 / n)) by (apply Z.mul_le_mono_nonneg_r; lia).
    assert (0 <= i * (128 / n)) by (apply Z.mul_nonneg_nonneg; lia).
    assert (T : forallb (fun b => (1 <=? nth b Ii_Weights_1d 0) && (nth b Ii_Weights_1d 0 <=? 60) && forallb (fun a => nth b Ii_Weights_1d 0 <=? nth a Ii_Weights_1d 0) (seq 0 (S b))) (seq 0 128) = true) by (vm_compute; reflexivity).
    rewrite forallb_forall in T. assert (T1 := T (Z.to_nat (j * (128 / n))) ltac:(apply in_seq; lia)). assert (T2 := T (Z.to_nat (i * (128 / n))) ltac:(apply in_seq; lia)).
    rewrite !andb_true_iff, !Z.leb_le in T1, T2. destruct T1 as [[T1 _] T3]. rewrite forallb_forall in T3. specialize (T3 (Z.to_nat (i * (128 / n))) ltac:(apply in_seq; lia)). apply Z.leb_le in T3. lia. }
  unfold intra_weight. assert (mode = 1 \/ mode = 2 \/ mode = 3) as [->|[->| ->]] by lia; cbn [Z.eqb Pos.eqb]; apply F; lia.
Qed.
(** In the code the mask is nil: nothing can be stored. *)
Theorem C164_nil_refuted : forall w h, 1 <= w -> 1 <= h ->
  (forall preds0 preds1 bitDepth post maskType m, differenceMask preds0 preds1 w h bitDepth post maskType [] <> Ok m) /\ (forall mode m, intraMask w h mode [] <> Ok m).
Proof.
  intros w h hw hh.
  assert (N : forall (cell : Z -> Z -> list (list Z) -> res (list (list Z))) m, (forall i j m, cell i j [] <> Ok m) -> rfor_to 0 h (fun i m => rfor_to 0 w (fun j m => cell i j m) m) [] <> Ok m).
  { intros cell m hc E. unfold rfor_to in E. replace (Z.to_nat (h - 0)) with (S (Z.to_nat (h - 1))) in E by lia. replace (Z.to_nat (w - 0)) with (S (Z.to_nat (w - 1))) in E by lia.
    cbn [rfor_from] in E. destruct (cell 0 0 []) eqn:F; [exact (hc _ _ _ F)|discriminate|discriminate]. }
  assert (U : forall i j v m, upd2 (@nil (list Z)) i j v <> Ok m) by (intros i j v m E; unfold upd2 in E; rewrite idx_panic in E by (change (zlen (@nil (list Z))) with 0; lia); discriminate).
  split; intros.
  - unfold differenceMask. apply N. intros i j m0. destruct (idx2 preds0 i j); cbn [rbind]; try discriminate. destruct (idx2 preds1 i j); cbn [rbind]; try discriminate. destruct (Round2 _ _); cbn [rbind]; try discriminate. destruct (bool_of maskType); apply U.
  - unfold intraMask. destruct (Max h w =? 0); [discriminate|]. apply N. intros i j m0. match goal with |- (let! v := ?e in _) <> _ => destruct e; cbn [rbind]; try discriminate end. apply U.
Qed.
Example C164_case : let z := repeat (repeat 0 4) 4 in
  differenceMask [[10; 200]; [10; 10]] [[10; 10]; [300; 900]] 2 2 8 0 0 z = Ok [[38; 49; 0; 0]; [56; 64; 0; 0]; [0; 0; 0; 0]; [0; 0; 0; 0]] /\
  intraMask 4 2 1 z = Ok [[60; 60; 60; 60]; [19; 19; 19; 19]; [0; 0; 0; 0]; [0; 0; 0; 0]].
Proof. vm_compute. split; reflexivity. Qed.
Print Assumptions C164_difference_partial.
Print Assumptions C164_difference_range.
Print Assumptions C164_intra_partial.
Print Assumptions C164_intra_falls.
Print Assumptions C164_nil_refuted.

(** ** C165: blending *)
(** The mask has a weight M between 0 and 64 for each luma sample of a block of h rows and w columns of a plane. *)
Definition weights (halfX halfY : bool) (h w : Z) (mask : list (list Z)) (M : Z -> Z -> Z) : Prop :=
  samples (if halfY then 2 * h else h) (if halfX then 2 * w else w) mask M /\ forall y x, 0 <= M y x <= 64.
(** The block at row r and column c of a plane is in the frame f and holds the samples C. *)
Definition in_frame (f : list (list (list Z))) (plane r c h w : Z) (C : Z -> Z -> Z) : Prop := forall y x, 0 <= y < h -> 0 <= x < w -> idx3 f plane (y + r) (x + c) = Ok (C y x).
(** f' is f with the samples V in the block *)
Definition with_block (f f' : list (list (list Z))) (plane r c h w : Z) (V : Z -> Z -> Z) : Prop :=
  in_frame f' plane r c h w V /\ forall p y x, (p <> plane \/ inside h w (y - r) (x - c) = false) -> idx3 f' p y x = idx3 f p y x.

Lemma plane_weight_range halfX halfY M y x : (forall y x, 0 <= M y x <= 64) -> 0 <= plane_weight halfX halfY M y x <= 64.
Proof.
  intros H. unfold plane_weight. assert (D : forall s k, 0 < k -> 0 <= s < 65 * k -> 0 <= s / k <= 64) by (intros s k hk hs; split; [apply Z.div_pos; lia|assert (s / k < 65) by (apply Z.div_lt_upper_bound; lia); lia]).
  destruct halfX, halfY; [| | |apply H]; apply D; try lia.
  - pose proof (H (2 * y) (2 * x)). pose proof (H (2 * y) (2 * x + 1)). pose proof (H (2 * y + 1) (2 * x)). pose proof (H (2 * y + 1) (2 * x + 1)). lia.
  - pose proof (H y (2 * x)). pose proof (H y (2 * x + 1)). lia.
  - pose proof (H (2 * y) x). pose proof (H (2 * y + 1) x). lia.
Qed.
Lemma mask_at (plane : Z) (subX subY : bool) ii wii h w mask M y x : let hx := negb (plane =? 0) && subX && negb (negb (ii =? 0) && (wii =? 0)) in let hy := negb (plane =? 0) && subY && negb (negb (ii =? 0) && (wii =? 0)) in
  weights hx hy h w mask M -> 0 <= y < h -> 0 <= x < w ->
  maskAt (if plane =? 0 then 0 else int_of subX) (if plane =? 0 then 0 else int_of subY) ii wii mask y x = Ok (plane_weight hx hy M y x).
Proof.
  intros hx hy [hs hM] Hy Hx. unfold maskAt.
  assert (R1 : forall a b, 0 <= a <= 64 -> 0 <= b <= 64 -> Round2 (a + b) 1 = Ok ((a + b + 1) / 2)) by (intros; rewrite rounded_ok by (change (2 ^ 62) with 4611686018427387904; lia); reflexivity).
  assert (R2 : forall a b c d, 0 <= a <= 64 -> 0 <= b <= 64 -> 0 <= c <= 64 -> 0 <= d <= 64 -> Round2 (a + b + c + d) 2 = Ok ((a + b + c + d + 2) / 4)) by (intros; rewrite rounded_ok by (change (2 ^ 62) with 4611686018427387904; lia); reflexivity).
  replace (bool_of ii && negb (bool_of wii)) with (negb (ii =? 0) && (wii =? 0)) by (unfold bool_of; rewrite negb_involutive; reflexivity).
  subst hx hy. destruct (negb (ii =? 0) && (wii =? 0)); [rewrite orb_true_r; cbn [negb]; rewrite !andb_false_r in *; apply hs; lia|].
  destruct (plane =? 0); cbn [negb andb] in *; [change (bool_of 0) with false; apply hs; lia|]. rewrite !andb_true_r, orb_false_r in *.
  destruct subX, subY; cbn [int_of andb negb orb plane_weight] in *; change (bool_of 0) with false; change (bool_of 1) with true; cbn [andb negb orb]; rewrite ?hs by lia; cbn [rbind]; auto.
Qed.
Lemma blend_bound m p q : 0 <= m <= 64 -> Z.abs p < 2 ^ 40 -> Z.abs q < 2 ^ 40 -> - 2 ^ 62 <= m * p + (64 - m) * q < 2 ^ 62.
Proof.
  intros hm hp hq. change (2 ^ 40) with 1099511627776 in *. change (2 ^ 62) with 4611686018427387904.
  assert (Z.abs (m * p) <= 64 * 1099511627776) by (rewrite Z.abs_mul; apply Z.mul_le_mono_nonneg; lia).
  assert (Z.abs ((64 - m) * q) <= 64 * 1099511627776) by (rewrite Z.abs_mul; apply Z.mul_le_mono_nonneg; lia). lia.
Qed.
Lemma block_ok (cell : Z -> Z -> list (list (list Z)) -> res (list (list (list Z)))) (V C : Z -> Z -> Z) plane r c h w f : in_frame f plane r c h w C ->
  (forall y x f1, 0 <= y < h -> 0 <= x < w -> idx3 f1 plane (y + r) (x + c) = Ok (C y x) -> cell y x f1 = upd3 f1 plane (y + r) (x + c) (V y x)) ->
  exists f', rfor_to 0 h (fun y f => rfor_to 0 w (fun x f => cell y x f) f) f = Ok f' /\ with_block f f' plane r c h w V.
Proof.
  intros hf hc. destruct (grid_ok (fun f k => idx3 f (fst (fst k)) (snd (fst k)) (snd k)) (fun y x => (plane, y + r, x + c)) cell V h w f) as (f' & E & D1 & D2).
  - intros y x y' x' F. injection F; intros; lia.
  - intros y x s Hy Hx G. cbn [fst snd] in *. rewrite (hf y x Hy Hx) in G. rewrite (hc y x s Hy Hx G). destruct (upd3_succeeds s plane (y + r) (x + c) _ (V y x) G) as [s' E].
    exists s'. split; [exact E|]. split; [exact (idx3_upd3_same _ _ _ _ _ _ E)|]. intros [[p' y'] x'] N. cbn [fst snd]. apply (idx3_upd3_other _ _ _ _ _ _ _ _ _ E). congruence.
  - exists f'. split; [exact E|]. split; [intros y x Hy Hx; exact (D1 y x Hy Hx I)|]. intros p y x H. apply (D2 (p, y, x)). intros y' x' Hy Hx _ F. injection F as -> -> ->.
    destruct H as [H|H]; [congruence|]. replace (y' + r - r) with y' in H by lia. replace (x' + c - c) with x' in H by lia. assert (inside h w y' x' = true) by (apply inside_true; auto). congruence.
Qed.

(** Two predictions P0 and P1 are mixed sample by sample in the proportion m : 64 - m; nothing else of the frame changes. *)
Theorem C165_blend_partial : forall preds0 preds1 plane r c w h (subX subY : bool) wedge mask post bitDepth f P0 P1 M C,
  let halfX := negb (plane =? 0) && subX in let halfY := negb (plane =? 0) && subY in
  0 <= post <= 7 -> samples h w preds0 P0 -> samples h w preds1 P1 -> (forall y x, Z.abs (P0 y x) < 2 ^ 40 /\ Z.abs (P1 y x) < 2 ^ 40) ->
  weights halfX halfY h w mask M -> in_frame f plane r c h w C ->
  exists f', maskBlend preds0 preds1 plane c r w h subX subY 0 wedge mask post bitDepth f = Ok f' /\
    with_block f f' plane r c h w (fun y x => let m := plane_weight halfX halfY M y x in rounded (m * P0 y x + (64 - m) * P1 y x) (6 + post)).
Proof.
  intros preds0 preds1 plane r c w h subX subY wedge mask post bd f P0 P1 M C hx hy hp h0 h1 hs hw hf. unfold maskBlend. apply (block_ok _ _ C); [exact hf|].
  intros y x f1 Hy Hx G. destruct (hs y x) as [a0 a1].
  rewrite (mask_at plane subX subY 0 wedge h w mask M y x) by (cbn; rewrite ?andb_true_r; assumption). cbn [rbind Z.eqb negb andb]. rewrite !andb_true_r. fold hx hy.
  rewrite (h0 _ _ Hy Hx). cbn [rbind]. change (bool_of 0) with false. cbv iota. rewrite (h1 _ _ Hy Hx). cbn [rbind].
  rewrite rounded_ok; [reflexivity|lia|]. apply blend_bound; [apply plane_weight_range; apply hw|assumption|assumption].
Qed.
(** A sample so mixed lies between the two predictions. *)
Theorem C165_between : forall m p q, 0 <= m <= 64 -> Z.min p q <= rounded (m * p + (64 - m) * q) 6 <= Z.max p q.
Proof.
  intros m p q hm. unfold rounded. change (6 =? 0) with false. cbv iota. change (2 ^ (6 - 1)) with 32. change (2 ^ 6) with 64.
  assert (B : 64 * Z.min p q <= m * p + (64 - m) * q <= 64 * Z.max p q) by nia.
  split; [apply Z.div_le_lower_bound; lia|]. apply Z.lt_succ_r. apply Z.div_lt_upper_bound; lia.
Qed.
(** The result is not clipped to the bit depth (in the standard it is): predictions beyond it are stored as they are. *)
Theorem C165_range_refuted : forall preds0 preds1 plane r c w h (subX subY : bool) wedge mask bitDepth f M C v,
  samples h w preds0 (fun _ _ => v) -> samples h w preds1 (fun _ _ => v) -> Z.abs v < 2 ^ 40 ->
  weights (negb (plane =? 0) && subX) (negb (plane =? 0) && subY) h w mask M -> in_frame f plane r c h w C ->
  exists f', maskBlend preds0 preds1 plane c r w h subX subY 0 wedge mask 0 bitDepth f = Ok f' /\ with_block f f' plane r c h w (fun _ _ => v).
Proof.
  intros preds0 preds1 plane r c w h subX subY wedge mask bd f M C v h0 h1 hv hw hf.
  destruct (C165_blend_partial preds0 preds1 plane r c w h subX subY wedge mask 0 bd f (fun _ _ => v) (fun _ _ => v) M C ltac:(lia) h0 h1 ltac:(auto) hw hf) as (f' & E & W1 & W2).
  exists f'. split; [exact E|]. split; [|exact W2]. intros y x Hy Hx. rewrite (W1 y x Hy Hx). f_equal. cbv beta zeta. change (6 + 0) with 6.
  pose proof (C165_between (plane_weight (negb (plane =? 0) && subX) (negb (plane =? 0) && subY) M y x) v v (plane_weight_range _ _ M y x (proj2 hw))). lia.
Qed.
(** An intra prediction C in the frame is mixed with the constant 2, not with the inter prediction P0. *)
Theorem C165_interintra_refuted : forall preds0 preds1 plane r c w h (subX subY : bool) interIntra wedge mask post bitDepth f P0 M C,
  let half := negb (plane =? 0) && negb (wedge =? 0) in
  interIntra <> 0 -> 2 <= bitDepth -> 0 <= post <= 7 -> samples h w preds0 P0 -> (forall y x, Z.abs (P0 y x) < 2 ^ 40) -> (forall y x, Z.abs (C y x) < 2 ^ 40) ->
  weights (half && subX) (half && subY) h w mask M -> in_frame f plane r c h w C ->
  exists f', maskBlend preds0 preds1 plane c r w h subX subY interIntra wedge mask post bitDepth f = Ok f' /\
    with_block f f' plane r c h w (fun y x => let m := plane_weight (half && subX) (half && subY) M y x in rounded (m * C y x + (64 - m) * 2) 6).
Proof.
  intros preds0 preds1 plane r c w h subX subY ii wedge mask post bd f P0 M C half hi hb hp h0 hs hC hw hf. unfold maskBlend. apply (block_ok _ _ C); [exact hf|].
  intros y x f1 Hy Hx G.
  assert (en : negb (ii =? 0) = true) by (apply negb_true_iff, Z.eqb_neq; exact hi).
  assert (ex : forall b, negb (plane =? 0) && b && negb (negb (ii =? 0) && (wedge =? 0)) = half && b) by (intros b; unfold half; rewrite en; destruct (plane =? 0), b, (wedge =? 0); reflexivity).
  assert (H := mask_at plane subX subY ii wedge h w mask M y x). cbv zeta in H. rewrite !ex in H. rewrite H by assumption. cbn [rbind]. rewrite (h0 _ _ Hy Hx). cbn [rbind]. unfold bool_of at 1. rewrite en.
  rewrite rounded_ok by (specialize (hs y x); change (2 ^ 40) with 1099511627776 in *; change (2 ^ 62) with 4611686018427387904; lia). cbn [rbind].
  replace (Clip1 (rounded (P0 y x) post) bd) with 2.
  - rewrite G. cbn [rbind]. rewrite rounded_ok; [reflexivity|lia|]. apply blend_bound; [apply plane_weight_range; apply hw|apply hC|reflexivity].
  - unfold Clip1, Clip3. replace (bd <? 1) with false by (symmetry; apply Z.ltb_ge; lia). change (2 <? 0) with false. cbv iota.
    replace (2 ^ (bd - 1) <? 2) with false; [reflexivity|]. symmetry. apply Z.ltb_ge. change 2 with (2 ^ 1) at 1. apply Z.pow_le_mono_r; lia.
Qed.
(** A 2x2 block of plane 1 (4:2:0), mixed in the proportion 64 : 0 and 24 : 40, and an intra prediction *)
Example C165_case : let mask := [[64; 64; 0; 32]; [64; 64; 32; 32]; [64; 64; 64; 64]; [64; 64; 64; 64]] in let f := [[]; [[9; 9; 9]; [9; 9; 9]; [9; 9; 9]]] in
  maskBlend [[100; 100]; [100; 300]] [[20; 20]; [20; 300]] 1 1 0 2 2 true true 0 0 mask 0 8 f = Ok [[]; [[9; 100; 50]; [9; 100; 300]; [9; 9; 9]]] /\
  maskBlend [[100; 100]; [100; 100]] [] 1 1 0 2 2 true true 1 0 mask 0 8 f = Ok [[]; [[9; 9; 9]; [9; 9; 9]; [9; 9; 9]]].
Proof. vm_compute. split; reflexivity. Qed.
Print Assumptions C165_blend_partial.
Print Assumptions C165_between.
Print Assumptions C165_range_refuted.
Print Assumptions C165_interintra_refuted.

(** ** C166: distance weights *)
(** The two weights for a near and a far reference: the classes of far / near are split at 3/2, 5/2 and 7/2. *)
Definition near_far (near far : Z) : Z * Z :=
  if near =? 0 then (13, 3) else if 2 * far <? 3 * near then (9, 7) else if 2 * far <? 5 * near then (11, 5) else if 2 * far <? 7 * near then (12, 4) else (13, 3).
(** The weights of the first and the second reference at distances a and b: the nearer one gets more; at equal distances, the second. *)
Definition distance_weights (a b : Z) : Z * Z := if a <? b then near_far a b else let '(n, f) := near_far b a in (f, n).
Theorem C166_weights_partial : forall a b more, 0 <= a -> 0 <= b -> quantWeights (a :: b :: more) = Ok (distance_weights a b).
Proof.
  intros a b more ha hb. unfold quantWeights. change (idx (a :: b :: more) 1) with (Ok b). change (idx (a :: b :: more) 0) with (Ok a). cbn [rbind].
  unfold distance_weights, near_far. destruct (Z.ltb_spec a b).
  - replace (b <=? a) with false by (symmetry; apply Z.leb_gt; lia). cbn [int_of]. replace (b =? 0) with false by (symmetry; apply Z.eqb_neq; lia). cbn [orb].
    destruct (a =? 0); [reflexivity|]. cbn [quantEntry]. change (bool_of 0) with false. cbv iota.
    change (idx2 Quant_Dist_Weight 0 0) with (Ok 2). change (idx2 Quant_Dist_Weight 0 (1 - 0)) with (Ok 3). change (0 + 1) with 1. cbn [rbind]. rewrite (Z.mul_comm b 2), (Z.mul_comm a 3). destruct (2 * b <? 3 * a); [reflexivity|].
    change (idx2 Quant_Dist_Weight 1 0) with (Ok 2). change (idx2 Quant_Dist_Weight 1 (1 - 0)) with (Ok 5). change (1 + 1) with 2. cbn [rbind]. rewrite (Z.mul_comm b 2), (Z.mul_comm a 5). destruct (2 * b <? 5 * a); [reflexivity|].
    change (idx2 Quant_Dist_Weight 2 0) with (Ok 2). change (idx2 Quant_Dist_Weight 2 (1 - 0)) with (Ok 7). change (2 + 1) with 3. cbn [rbind]. rewrite (Z.mul_comm b 2), (Z.mul_comm a 7). destruct (2 * b <? 7 * a); reflexivity.
  - replace (b <=? a) with true by (symmetry; apply Z.leb_le; lia). cbn [int_of]. destruct (b =? 0) eqn:e; cbn [orb]; [reflexivity|].
    replace (a =? 0) with false by (symmetry; apply Z.eqb_neq; apply Z.eqb_neq in e; lia). cbn [quantEntry]. change (bool_of 1) with true. cbv iota.
    change (idx2 Quant_Dist_Weight 0 1) with (Ok 3). change (idx2 Quant_Dist_Weight 0 (1 - 1)) with (Ok 2). change (0 + 1) with 1. cbn [rbind]. rewrite (Z.mul_comm a 2), (Z.mul_comm b 3). destruct (2 * a <? 3 * b); [reflexivity|].
    change (idx2 Quant_Dist_Weight 1 1) with (Ok 5). change (idx2 Quant_Dist_Weight 1 (1 - 1)) with (Ok 2). change (1 + 1) with 2. cbn [rbind]. rewrite (Z.mul_comm a 2), (Z.mul_comm b 5). destruct (2 * a <? 5 * b); [reflexivity|].
    change (idx2 Quant_Dist_Weight 2 1) with (Ok 7). change (idx2 Quant_Dist_Weight 2 (1 - 1)) with (Ok 2). change (2 + 1) with 3. cbn [rbind]. rewrite (Z.mul_comm a 2), (Z.mul_comm b 7). destruct (2 * a <? 7 * b); reflexivity.
Qed.
(** The weights are positive, their sum is 16, and the nearer reference has the larger one. *)
Theorem C166_sum : forall a b, let '(u, v) := distance_weights a b in u + v = 16 /\ 3 <= u /\ 3 <= v /\ (a < b -> v < u) /\ (b <= a -> u < v).
Proof.
  intros a b. unfold distance_weights, near_far. destruct (Z.ltb_spec a b).
  - destruct (a =? 0); [lia|]. destruct (_ <? _); [lia|]. destruct (_ <? _); [lia|]. destruct (_ <? _); lia.
  - destruct (b =? 0); [lia|]. destruct (_ <? _); [lia|]. destruct (_ <? _); [lia|]. destruct (_ <? _); lia.
Qed.
(** The distances are those of the two references of the neighbouring block, at most 31, given a slice for them. *)
Theorem C166_process_partial : forall hints refs enable bits hint row col x y r0 r1 h0 h1 v0 v1,
  idx3 refs row col 0 = Ok r0 -> idx3 refs row col 1 = Ok r1 -> idx hints r0 = Ok h0 -> idx hints r1 = Ok h1 ->
  GetRelativeDist enable bits h0 hint = Ok v0 -> GetRelativeDist enable bits h1 hint = Ok v1 -> Z.abs v0 < 2 ^ 62 -> Z.abs v1 < 2 ^ 62 ->
  distanceWeightsOf hints refs enable bits hint row col [x; y] = Ok (distance_weights (Z.min 31 (Z.abs v0)) (Z.min 31 (Z.abs v1))).
Proof.
  intros hints refs enable bits hint row col x y r0 r1 h0 h1 v0 v1 R0 R1 H0 H1 V0 V1 b0 b1. unfold distanceWeightsOf, rfor_to. change (Z.to_nat (2 - 0)) with 2%nat. cbn [rfor_from]. change (0 + 1) with 1.
  rewrite R0. cbn [rbind]. rewrite H0. cbn [rbind]. rewrite V0. cbn [rbind].
  assert (A : forall v, Z.abs v < 2 ^ 62 -> Clip3 0 MAX_FRAME_DISTANCE (Abs v) = Z.min 31 (Z.abs v)).
  { intros v hv. change (2 ^ 62) with 4611686018427387904 in hv. unfold MAX_FRAME_DISTANCE, Clip3, Abs. destruct (Z.leb_spec 0 v).
    - destruct (Z.ltb_spec v 0); [lia|]. destruct (Z.ltb_spec 31 v); lia.
    - rewrite i64_id by (change (2 ^ 63) with 9223372036854775808; lia). destruct (Z.ltb_spec (- v) 0); [lia|]. destruct (Z.ltb_spec 31 (- v)); lia. }
  rewrite A by exact b0. change (upd [x; y] 0 ?v) with (Ok [v; y]). cbn [rbind]. rewrite R1. cbn [rbind]. rewrite H1. cbn [rbind]. rewrite V1. cbn [rbind]. rewrite A by exact b1.
  set (a := Z.min 31 (Z.abs v0)). set (b := Z.min 31 (Z.abs v1)). change (upd [a; y] 1 b) with (Ok [a; b]). cbn [rbind]. apply C166_weights_partial; lia.
Qed.
(** In the code the slice is nil: no weights are ever found. *)
Theorem C166_nil_refuted : forall hints refs enable bits hint row col r, distanceWeightsOf hints refs enable bits hint row col [] <> Ok r.
Proof.
  intros hints refs enable bits hint row col r E. unfold distanceWeightsOf, rfor_to in E. change (Z.to_nat (2 - 0)) with 2%nat in E. cbn [rfor_from] in E.
  destruct (idx3 refs row col 0) as [x0| |]; cbn [rbind] in E; try discriminate. destruct (idx hints x0) as [y0| |]; cbn [rbind] in E; try discriminate.
  destruct (GetRelativeDist enable bits y0 hint) as [z0| |]; cbn [rbind] in E; discriminate.
Qed.
(** References 1 and 2 with order hints 6 and 12; the frame has 8 *)
Example C166_case : distanceWeightsOf [0; 6; 12] [[[1; 2]]] true 7 8 0 0 [0; 0] = Ok (11, 5) /\ quantWeights [4; 3] = Ok (7, 9) /\ quantWeights [31; 1] = Ok (3, 13).
Proof. vm_compute. repeat split; reflexivity. Qed.
Print Assumptions C166_weights_partial.
Print Assumptions C166_sum.
Print Assumptions C166_process_partial.
Print Assumptions C166_nil_refuted.
