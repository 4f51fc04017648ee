(** Lemmas about intra prediction (Intra.v). *)
From Verif Require Import GoBase Bitstream Util UtilProofs Constants Tables Frame Fill2 LoopFilterProofs Intra.
Require Import Lia Psatz.

Definition samp (lo hi v : Z) : Prop := lo <= v <= hi.
(** the entries 0..n-1 of an edge lie between lo and hi *)
Definition edge_in (lo hi n : Z) (A : edge) : Prop := forall k v, 0 <= k < n -> idx A k = Ok v -> lo <= v <= hi.
Lemma edge_in_Forall lo hi n A : Forall (samp lo hi) A -> edge_in lo hi n A.
Proof. intros H k v _ E. exact (idx_Forall _ _ _ _ H E). Qed.

Ltac big := repeat match goal with
  | |- context [2 ^ 62] => change (2 ^ 62) with 4611686018427387904 | H : context [2 ^ 62] |- _ => change (2 ^ 62) with 4611686018427387904 in H
  | |- context [2 ^ 40] => change (2 ^ 40) with 1099511627776 | H : context [2 ^ 40] |- _ => change (2 ^ 40) with 1099511627776 in H
  | |- context [2 ^ 63] => change (2 ^ 63) with 9223372036854775808 | H : context [2 ^ 63] |- _ => change (2 ^ 63) with 9223372036854775808 in H
  | |- context [2 ^ 32] => change (2 ^ 32) with 4294967296 | H : context [2 ^ 32] |- _ => change (2 ^ 32) with 4294967296 in H end.

(** a weighted mean with positive total weight 2^n, rounded, stays between the bounds *)
Lemma Round2_mean lo hi x n r : 1 <= n <= 20 -> 0 <= lo -> hi <= 2 ^ 40 -> lo * 2 ^ n <= x <= hi * 2 ^ n -> Round2 x n = Ok r -> lo <= r <= hi.
Proof.
  intros Hn Hl Hh Hx E. assert (2 ^ n <= 2 ^ 20) by (apply Z.pow_le_mono_r; lia). change (2 ^ 20) with 1048576 in *.
  assert (P : 2 ^ n = 2 * 2 ^ (n - 1)) by (rewrite <- Z.pow_succ_r by lia; f_equal; lia).
  assert (0 < 2 ^ (n - 1)) by (apply Z.pow_pos_nonneg; lia).
  rewrite Round2_spec in E by (big; nia). destruct (Z.eqb_spec n 0); [lia|]. injection E as <-.
  split; [apply Z.div_le_lower_bound; nia|]. apply Z.lt_succ_r, Z.div_lt_upper_bound; nia.
Qed.
Lemma Round2_total x n : 0 <= n <= 62 -> - 2 ^ 62 <= x < 2 ^ 62 -> exists r, Round2 x n = Ok r.
Proof. intros. rewrite Round2_spec by assumption. eauto. Qed.

Lemma interp_between lo hi buf b0 b1 s v : 0 <= lo -> hi <= 2 ^ 40 -> 0 <= s < 32 ->
  (forall u, idx buf b0 = Ok u -> lo <= u <= hi) -> (forall u, idx buf b1 = Ok u -> lo <= u <= hi) -> interp buf b0 b1 s = Ok v -> lo <= v <= hi.
Proof.
  intros Hl Hh Hs A B E. apply rbind_inv in E as (u & Eu & E). apply rbind_inv in E as (u' & Eu' & E). apply A in Eu. apply B in Eu'.
  apply (Round2_mean lo hi _ 5 v) in E; try assumption; [lia|]. change (2 ^ 5) with 32. nia.
Qed.

(** the tables *)
Lemma predTable_all (P : Z -> Prop) V w h p : P 0 -> (forall i j v, 0 <= i < h -> 0 <= j < w -> V i j = Ok v -> P v) -> predTable V w h = Ok p -> Forall (Forall P) p.
Proof.
  intros P0 HV. unfold predTable, fill2, rfor_to. apply (rfor_from_post (fun _ p => Forall (Forall P) p)).
  { unfold noPred. apply Forall_forall. intros r Hr. apply repeat_spec in Hr. subst. apply Forall_forall. intros z Hz. apply repeat_spec in Hz. subst. exact P0. }
  intros i a a' Hi Ha. unfold fill2_row, rfor_to. apply (rfor_from_post (fun _ p => Forall (Forall P) p)); [exact Ha|].
  intros j b b' Hj Hb H. apply rbind_inv in H as (v & Ev & H). eapply upd2_Forall; [exact Hb| |exact H]. eapply HV; [| |exact Ev]; lia.
Qed.
Definition shape15 (p : pred15) : Prop := zlen p = 15 /\ Forall (fun r => zlen r = 15) p.
Lemma noPred_shape : shape15 noPred.
Proof. split; [reflexivity|]. apply Forall_forall. intros r Hr. apply repeat_spec in Hr. subst. reflexivity. Qed.
Lemma upd_zlen {A} (l l' : list A) i v : upd l i v = Ok l' -> zlen l' = zlen l.
Proof. intros H. apply upd_inv in H as [_ ->]. apply zlen_upd_nat. Qed.
Lemma upd2_shape15 p i j v p' : shape15 p -> upd2 p i j v = Ok p' -> shape15 p'.
Proof.
  intros [A B] H. unfold upd2 in H. apply rbind_inv in H as (r & Er & H). apply rbind_inv in H as (r' & Er' & H). split; [rewrite (upd_zlen _ _ _ _ H); exact A|].
  refine (upd_Forall _ _ _ _ _ B _ H). rewrite (upd_zlen _ _ _ _ Er'). exact (idx_Forall _ _ _ _ B Er).
Qed.
Lemma predTable_shape V w h p : predTable V w h = Ok p -> shape15 p.
Proof.
  unfold predTable, fill2, rfor_to. apply (rfor_from_post (fun _ p => shape15 p)); [exact noPred_shape|].
  intros i a a' Hi Ha. unfold fill2_row, rfor_to. apply (rfor_from_post (fun _ p => shape15 p)); [exact Ha|].
  intros j b b' Hj Hb H. apply rbind_inv in H as (v & Ev & H). exact (upd2_shape15 _ _ _ _ _ Hb H).
Qed.
Lemma shape15_idx p i j v : shape15 p -> idx2 p i j = Ok v -> 0 <= i < 15 /\ 0 <= j < 15.
Proof.
  intros [A B] H. unfold idx2 in H. apply rbind_inv in H as (r & Er & H). pose proof (idx_Forall _ _ _ _ B Er) as L. cbv beta in L. apply idx_inv in H as [H _]. apply idx_inv in Er as [H' _]. lia.
Qed.
Lemma nth_repeat_lt {A} (a d : A) n : forall i, (i < n)%nat -> nth i (repeat a n) d = a.
Proof. induction n as [|n IH]; intros [|i] H; cbn; try lia; [reflexivity|]. apply IH. lia. Qed.
Lemma noPred_idx i j : 0 <= i < 15 -> 0 <= j < 15 -> idx2 noPred i j = Ok 0.
Proof.
  intros Hi Hj. unfold idx2, noPred. rewrite (idx_ok _ _ []) by (unfold zlen; rewrite repeat_length; lia). cbn [rbind]. rewrite nth_repeat_lt by lia.
  rewrite (idx_ok _ _ 0) by (unfold zlen; rewrite repeat_length; lia). f_equal. apply nth_repeat_lt. lia.
Qed.
Lemma predTable_ok V w h : 0 <= w <= 15 -> 0 <= h <= 15 -> (forall i j, 0 <= i < h -> 0 <= j < w -> exists v, V i j = Ok v) -> exists p, predTable V w h = Ok p.
Proof.
  intros Hw Hh HV. destruct (fill2_ok V 0 0 (fun i => i) (fun j => j) ltac:(reflexivity) ltac:(reflexivity) 0 h 0 w noPred) as (p & E & _); try lia; eauto.
  intros i j Hi Hj. exists 0. apply noPred_idx; lia.
Qed.
Lemma predTable_val V w h p i j : 0 <= i < h -> 0 <= j < w -> predTable V w h = Ok p -> exists v, V i j = Ok v /\ idx2 p i j = Ok v.
Proof.
  intros Hi Hj H. apply (fill2_post V 0 0) in H; try lia; try reflexivity. destruct H as [H _]. exact (H i j Hi Hj).
Qed.
Lemma predTable_nh V w h : (forall i j, V i j <> Hang) -> predTable V w h <> Hang.
Proof. intros. apply fill2_nh. assumption. Qed.

(** sums *)
Lemma sumTo_between lo hi n l s : 0 <= n -> edge_in lo hi n l -> sumTo n l = Ok s -> n * lo <= s <= n * hi.
Proof.
  intros Hn H. unfold sumTo, rfor_to. rewrite Z.sub_0_r.
  enough (K : rfor_from (Z.to_nat n) 0 (fun k s => let! v := idx l k in Ok (s + v)) 0 = Ok s -> (fun m s => m * lo <= s <= m * hi) (0 + Z.of_nat (Z.to_nat n)) s).
  { intros E. apply K in E. cbv beta in E. rewrite Z2Nat.id in E by lia. exact E. }
  apply (rfor_from_post (fun m s => m * lo <= s <= m * hi)); [lia|]. intros j a a' Hj Ha E. apply rbind_inv in E as (v & Ev & E). injection E as <-. apply H in Ev; [nia|lia].
Qed.
Fixpoint sum_first (n : nat) (l : list Z) : Z := match n, l with S n, x :: l => x + sum_first n l | _, _ => 0 end.
Lemma sum_first_S n : forall l d, (n < length l)%nat -> sum_first (S n) l = sum_first n l + nth n l d.
Proof. induction n as [|n IH]; intros [|x l] d Hl; cbn in Hl; try lia; [cbn; destruct l; lia|]. cbn [nth]. change (sum_first (S (S n)) (x :: l)) with (x + sum_first (S n) l). rewrite (IH l d) by lia. cbn. lia. Qed.
Lemma sumTo_ok n l : 0 <= n <= zlen l -> sumTo n l = Ok (sum_first (Z.to_nat n) l).
Proof.
  intros Hn. unfold sumTo, rfor_to. rewrite Z.sub_0_r.
  destruct (rfor_from_inv (fun m s => 0 <= m <= zlen l -> s = sum_first (Z.to_nat m) l) (Z.to_nat n) 0 (fun k s => let! v := idx l k in Ok (s + v)) 0) as (s & E & P).
  - intros _. destruct l; reflexivity.
  - intros j a Hj Ha. rewrite (idx_ok l j 0) by lia. cbn [rbind]. eexists. split; [reflexivity|]. intros Hj'. rewrite Ha by lia. replace (Z.to_nat (j + 1)) with (S (Z.to_nat j)) by lia.
    symmetry. apply sum_first_S. unfold zlen in *. lia.
  - rewrite E. cbv beta in P. rewrite Z2Nat.id in P by lia. rewrite P by lia. f_equal.
Qed.
Lemma sumTo_nh n l : sumTo n l <> Hang.
Proof. apply rfor_from_nh. intros. apply rbind_nh; [apply idx_nh|discriminate]. Qed.

Lemma shr1 x : shr x 1 = x / 2. Proof. unfold shr. rewrite Z.shiftr_div_pow2 by lia. reflexivity. Qed.
(** average of both edges *)
Lemma dc_between lo hi n s : 0 < n -> 0 <= lo -> n * lo <= s <= n * hi -> lo <= Z.quot (s + shr n 1) n <= hi.
Proof.
  intros Hn Hl Hs. rewrite shr1. pose proof (Z.div_mod n 2 ltac:(lia)). pose proof (Z.mod_pos_bound n 2 ltac:(lia)). rewrite Z.quot_div_nonneg by nia.
  split; [apply Z.div_le_lower_bound; nia|]. apply Z.lt_succ_r, Z.div_lt_upper_bound; nia.
Qed.
Lemma Round2_nh x n : Round2 x n <> Hang.
Proof. unfold Round2. destruct (n =? 0), (n <? 0); discriminate. Qed.
Ltac nhi := repeat first [discriminate | apply idx_nh | apply idx2_nh | apply idx3_nh | apply upd_nh | apply upd2_nh | apply Round2_nh | apply sumTo_nh
  | (apply predTable_nh; intros) | (apply rbind_nh; [|intro; cbv zeta])
  | match goal with |- (if ?b then _ else _) <> Hang => destruct b | |- (let '(_, _) := ?p in _) <> Hang => destruct p | |- context [let '(_, _) := ?p in _] => destruct p end].
Lemma paeth_nh A L i j : paeth A L i j <> Hang. Proof. unfold paeth, last_. nhi. Qed.
Lemma recursiveIntra_nh A L w h : recursiveIntra A L w h <> Hang.
Proof. unfold recursiveIntra. apply rfor_from_nh. intros. apply rfor_from_nh. intros. nhi. Qed.
Lemma dcIntra_nh bd hl ha lw lh w h A L : dcIntra bd hl ha lw lh w h A L <> Hang. Proof. unfold dcIntra. nhi. Qed.
Lemma smoothIntra_nh m lw lh w h A L : smoothIntra m lw lh w h A L <> Hang. Proof. unfold smoothIntra. nhi. Qed.
Lemma interp_nh b x y s : interp b x y s <> Hang. Proof. unfold interp. nhi. Qed.
Lemma isSmooth_nh e r c p : isSmooth e r c p <> Hang. Proof. unfold isSmooth. cbv zeta. nhi. Qed.
Lemma getFilterType_nh e p : getFilterType e p <> Hang.
Proof. unfold getFilterType. cbv zeta. apply rbind_nh; [|intro]; match goal with |- (if ?b then _ else _) <> Hang => destruct b end; try apply isSmooth_nh; discriminate. Qed.
Lemma edgeFilter_nh sz s b : edgeFilter sz s b <> Hang.
Proof. unfold edgeFilter. destruct (s =? 0); [discriminate|]. apply rfor_from_nh. intros. nhi. Qed.
Lemma edgeUpsample_nh b : edgeUpsample b <> Hang. Proof. unfold edgeUpsample, last_. nhi. Qed.
Lemma filterCorner_nh A L : filterCorner A L <> Hang. Proof. unfold filterCorner, last_. nhi. Qed.
Lemma directionalEdges_nh e plane x y hl ha a w h mx my A L : directionalEdges e plane x y hl ha a w h mx my A L <> Hang.
Proof.
  unfold directionalEdges. destruct (negb _); [discriminate|]. apply rbind_nh.
  - destruct (negb _ && _); [|discriminate]. apply rbind_nh.
    + destruct (_ && _); [|discriminate]. repeat (apply rbind_nh; [first [apply filterCorner_nh|apply upd_nh]|intro]). discriminate.
    + intros [A' L']. apply rbind_nh; [apply getFilterType_nh|intro ft]. apply rbind_nh; [destruct ha; [apply edgeFilter_nh|discriminate]|intro].
      apply rbind_nh; [destruct hl; [apply edgeFilter_nh|discriminate]|intro]. discriminate.
  - intros [[A' L'] ft]. apply rbind_nh; [destruct (upsampleSel _ _ _ _); [apply edgeUpsample_nh|discriminate]|intro].
    apply rbind_nh; [destruct (upsampleSel _ _ _ _); [apply edgeUpsample_nh|discriminate]|intro]. discriminate.
Qed.
Lemma dirSample_nh A L a w h dx dy i j : dirSample A L a w h dx dy i j <> Hang.
Proof. unfold dirSample. cbv zeta. repeat match goal with |- (if ?b then _ else _) <> Hang => destruct b end; try apply interp_nh; apply idx_nh. Qed.
Lemma directionalIntra_nh e plane x y hl ha m w h mx my A L : directionalIntra e plane x y hl ha m w h mx my A L <> Hang.
Proof.
  unfold directionalIntra. apply rbind_nh; [apply idx_nh|intro]. cbv zeta. apply rbind_nh; [apply directionalEdges_nh|intros [A' L']].
  apply rbind_nh; [unfold dirDx; nhi|intro]. apply rbind_nh; [unfold dirDy; nhi|intro]. apply rbind_nh; [apply predTable_nh; intros; apply dirSample_nh|discriminate].
Qed.
Lemma predictor_nh e plane x y hl ha m lw lh w h mx my A L : predictor e plane x y hl ha m lw lh w h mx my A L <> Hang.
Proof.
  unfold predictor. repeat match goal with |- (if ?b then _ else _) <> Hang => destruct b end; try apply directionalIntra_nh;
    (apply rbind_nh; [first [apply recursiveIntra_nh|apply smoothIntra_nh|apply dcIntra_nh|apply predTable_nh; intros; apply paeth_nh]|discriminate]).
Qed.
Lemma prepareEdges_nh bd f plane x y w h mx my hl ha har hbl A L : prepareEdges bd f plane x y w h mx my hl ha har hbl A L <> Hang.
Proof.
  unfold prepareEdges. apply rbind_nh; [unfold yMinusOne; nhi|intro]. apply rbind_nh; [|intro A'].
  { apply rfor_from_nh. intros. apply rbind_nh; [unfold aboveSample, beforeX, last_; nhi|intro; nhi]. }
  apply rbind_nh.
  { apply rfor_from_nh. intros k [A1 L1]. unfold beforeX, last_. nhi. }
  intros [A1 L1]. apply rbind_nh; [unfold corner, beforeX, last_; nhi|intro]. nhi.
Qed.
Lemma predictIntra_nh e plane x y hl ha har hbl m lw lh A L f : predictIntra e plane x y hl ha har hbl m lw lh A L f <> Hang.
Proof.
  unfold predictIntra. cbv zeta. apply rbind_nh; [apply prepareEdges_nh|intros [A1 L1]]. apply rbind_nh; [apply predictor_nh|intros [[p A2] L2]].
  apply rbind_nh; [apply fill_nh; intros; apply idx2_nh|discriminate].
Qed.

(** * Ranges *)
Lemma smWeights_in lg k wt : idx (smWeights lg) k = Ok wt -> 0 <= wt <= 256.
Proof.
  intros E. refine (idx_Forall (fun z => 0 <= z <= 256) _ _ _ _ E). unfold smWeights.
  repeat match goal with |- context [if ?b then _ else _] => destruct b end;
    unfold Sm_Weights_Tx_4x4, Sm_Weights_Tx_8x8, Sm_Weights_Tx_16x16, Sm_Weights_Tx_32x32, Sm_Weights_Tx_64x64; repeat constructor; lia.
Qed.
Lemma paeth_between lo hi w h A L i j v : 0 <= i < h -> 0 <= j < w -> edge_in lo hi w A -> edge_in lo hi h L -> (forall c, last_ A = Ok c -> lo <= c <= hi) ->
  paeth A L i j = Ok v -> lo <= v <= hi.
Proof.
  intros Hi Hj HA HL HC E. unfold paeth in E. apply rbind_inv in E as (a & Ea & E). apply rbind_inv in E as (l & El & E). apply rbind_inv in E as (c & Ec & E). injection E as <-.
  apply HA in Ea; [|lia]. apply HL in El; [|lia]. apply HC in Ec. repeat match goal with |- context [if ?b then _ else _] => destruct b end; assumption.
Qed.
Lemma smooth_between lo hi mode lw lh w h A L p i j v : 0 <= lo -> lo <= hi -> hi <= 2 ^ 40 -> edge_in lo hi w A -> edge_in lo hi h L ->
  (mode = SMOOTH_PRED \/ mode = SMOOTH_V_PRED \/ mode = SMOOTH_H_PRED) -> 0 <= i < h -> 0 <= j < w ->
  smoothIntra mode lw lh w h A L = Ok p -> idx2 p i j = Ok v -> lo <= v <= hi.
Proof.
  intros Hl Hlh Hh HA HL HM Hi Hj E Ev. unfold smoothIntra in E.
  destruct (mode =? SMOOTH_PRED) eqn:E1; [|destruct (mode =? SMOOTH_V_PRED) eqn:E2; [|destruct (mode =? SMOOTH_H_PRED) eqn:E3]].
  - destruct (predTable_val _ _ _ _ i j Hi Hj E) as (v' & Hv & Hp). rewrite Hp in Ev. injection Ev as ->.
    apply rbind_inv in Hv as (wy & Ewy & Hv). apply rbind_inv in Hv as (a & Ea & Hv). apply rbind_inv in Hv as (l' & El' & Hv). apply rbind_inv in Hv as (wx & Ewx & Hv).
    apply rbind_inv in Hv as (l & El & Hv). apply rbind_inv in Hv as (a' & Ea' & Hv). apply smWeights_in in Ewy. apply smWeights_in in Ewx.
    apply HA in Ea; [|lia]. apply HA in Ea'; [|lia]. apply HL in El; [|lia]. apply HL in El'; [|lia].
    apply (Round2_mean lo hi _ 9 v) in Hv; try assumption; [lia|]. change (2 ^ 9) with 512. nia.
  - destruct (predTable_val _ _ _ _ i j Hi Hj E) as (v' & Hv & Hp). rewrite Hp in Ev. injection Ev as ->.
    apply rbind_inv in Hv as (wy & Ewy & Hv). apply rbind_inv in Hv as (a & Ea & Hv). apply rbind_inv in Hv as (l' & El' & Hv). apply smWeights_in in Ewy.
    apply HA in Ea; [|lia]. apply HL in El'; [|lia].
    apply (Round2_mean lo hi _ 8 v) in Hv; try assumption; [lia|]. change (2 ^ 8) with 256. nia.
  - destruct (predTable_val _ _ _ _ i j Hi Hj E) as (v' & Hv & Hp). rewrite Hp in Ev. injection Ev as ->.
    apply rbind_inv in Hv as (wy & Ewy & Hv). apply rbind_inv in Hv as (a & Ea & Hv). apply rbind_inv in Hv as (l' & El' & Hv). apply smWeights_in in Ewy.
    apply HL in Ea; [|lia]. apply HA in El'; [|lia].
    apply (Round2_mean lo hi _ 8 v) in Hv; try assumption; [lia|]. change (2 ^ 8) with 256. nia.
  - apply Z.eqb_neq in E1, E2, E3. tauto.
Qed.
Definition all15 (P : Z -> Prop) (p : pred15) : Prop := Forall (Forall P) p.
Lemma noPred_all (P : Z -> Prop) : P 0 -> all15 P noPred.
Proof. intros P0. unfold noPred. apply Forall_forall. intros r Hr. apply repeat_spec in Hr. subst. apply Forall_forall. intros z Hz. apply repeat_spec in Hz. subst. exact P0. Qed.
Lemma land31 x : 0 <= Z.land x 31 < 32.
Proof. change 31 with (Z.ones 5). rewrite Z.land_ones by lia. apply Z.mod_pos_bound. reflexivity. Qed.

Section Range.
  Variables (bd hi : Z).
  Hypotheses (Hbd : 2 <= bd <= 16) (Hhi : hi = 2 ^ bd - 1).
  Let P := samp 0 hi.
  Lemma hi_b : 3 <= hi < 65536.
  Proof. assert (2 ^ 2 <= 2 ^ bd) by (apply Z.pow_le_mono_r; lia). assert (2 ^ bd <= 2 ^ 16) by (apply Z.pow_le_mono_r; lia). change (2 ^ 2) with 4 in *. change (2 ^ 16) with 65536 in *. lia. Qed.
  Lemma half_b : shl 1 (bd - 1) = 2 ^ (bd - 1) /\ 2 <= 2 ^ (bd - 1) /\ 2 * 2 ^ (bd - 1) = hi + 1.
  Proof.
    pose proof hi_b. assert (E : 2 ^ bd = 2 * 2 ^ (bd - 1)) by (rewrite <- Z.pow_succ_r by lia; f_equal; lia).
    unfold shl. rewrite Z.shiftl_mul_pow2 by lia. rewrite i64_id by (big; lia). lia.
  Qed.
  Lemma P_last A c : Forall P A -> last_ A = Ok c -> P c. Proof. intros H E. exact (idx_Forall _ _ _ _ H E). Qed.
  Lemma edge_P n A : Forall P A -> edge_in 0 hi n A. Proof. apply edge_in_Forall. Qed.
  Lemma recursive_P A L w h p : recursiveIntra A L w h = Ok p -> p = noPred.
  Proof.
    unfold recursiveIntra, rfor_to. apply (rfor_from_post (fun _ p => p = noPred)); [reflexivity|]. intros i a a' _ Ha. apply (rfor_from_post (fun _ p => p = noPred)); [exact Ha|].
    intros j b b' _ Hb H. apply rbind_inv in H as (v & Ev & H). apply rbind_inv in H as (q & Eq & H). injection H as <-. exact Hb.
  Qed.
  Lemma dc_P hl ha lw lh w h A L p : 0 <= w -> 0 <= h -> Forall P A -> Forall P L -> dcIntra bd hl ha lw lh w h A L = Ok p -> all15 P p.
  Proof.
    intros Hw Hh HA HL. pose proof hi_b. assert (P 0) by (unfold P, samp; lia). unfold dcIntra.
    repeat match goal with |- context [if ?b then _ else _] => destruct b end; [| | |intros [= <-]; apply noPred_all; assumption];
      apply predTable_all; try assumption; intros i j v Hi Hj E.
    - apply rbind_inv in E as (s & Es & E). apply rbind_inv in E as (s' & Es' & E). injection E as <-.
      apply (sumTo_between 0 hi) in Es; [|lia|apply edge_P; assumption]. apply (sumTo_between 0 hi) in Es'; [|lia|apply edge_P; assumption]. apply dc_between; [lia|lia|clear - Es Es'; nia].
    - apply rbind_inv in E as (s & Es & E). injection E as <-. unfold Clip1, Clip3. unfold P, samp. destruct (Z.ltb_spec bd 1); [lia|]. pose proof half_b.
      change (2 <? 0) with false. cbv iota. destruct (Z.ltb_spec (2 ^ (bd - 1)) 2); lia.
    - injection E as <-. pose proof half_b. unfold P, samp. lia.
  Qed.
  Lemma filterCorner_P A L c : Forall P A -> Forall P L -> filterCorner A L = Ok c -> P c.
  Proof.
    intros HA HL E. pose proof hi_b. unfold filterCorner in E. apply rbind_inv in E as (l & El & E). apply rbind_inv in E as (c' & Ec & E). apply rbind_inv in E as (a & Ea & E).
    apply (idx_Forall _ _ _ _ HL) in El. apply (P_last _ _ HA) in Ec. apply (idx_Forall _ _ _ _ HA) in Ea. unfold P, samp in *.
    apply (Round2_mean 0 hi _ 4 c) in E; try lia; big; change (2 ^ 4) with 16; lia.
  Qed.
  Lemma edgeFilter_id sz s b b' : edgeFilter sz s b = Ok b' -> b' = b.
  Proof.
    unfold edgeFilter. destruct (s =? 0); [congruence|]. unfold rfor_to. apply (rfor_from_post (fun _ b' => b' = b)); [reflexivity|].
    intros j a a' _ Ha H. apply rbind_inv in H as (v & Ev & H). apply rbind_inv in H as (q & Eq & H). injection H as <-. exact Ha.
  Qed.
  Lemma edgeUpsample_panics b : b <> [] -> edgeUpsample b = Panic.
  Proof. intros H. unfold edgeUpsample, last_. destruct b as [|x b]; [congruence|]. rewrite (idx_ok _ _ 0) by (rewrite zlen_cons; pose proof (zlen_nonneg b); lia). reflexivity. Qed.
  Lemma edgeUpsample_not b b' : edgeUpsample b <> Ok b'.
  Proof. intros H. unfold edgeUpsample in H. apply rbind_inv in H as (v & Ev & H). apply rbind_inv in H as (q & Eq & H). discriminate. Qed.
  Lemma upd_P A i v A' : Forall P A -> P v -> upd A i v = Ok A' -> Forall P A'. Proof. apply upd_Forall. Qed.
  Lemma directionalEdges_P e plane x y hl ha a w h mx my A L A' L' : Forall P A -> Forall P L -> directionalEdges e plane x y hl ha a w h mx my A L = Ok (A', L') -> Forall P A' /\ Forall P L'.
  Proof.
    intros HA HL E. unfold directionalEdges in E. destruct (negb (iEdgeFilter e)); [injection E as <- <-; auto|].
    apply rbind_inv in E as ([[A1 L1] ft] & E1 & E).
    assert (Forall P A1 /\ Forall P L1) as [HA1 HL1].
    { destruct (negb _ && _); [|injection E1 as <- <- _; auto]. apply rbind_inv in E1 as ([A2 L2] & E2 & E1).
      assert (Forall P A2 /\ Forall P L2) as [HA2 HL2].
      { destruct (_ && _); [|injection E2 as <- <-; auto]. apply rbind_inv in E2 as (c & Ec & E2). apply rbind_inv in E2 as (L3 & EL & E2). apply rbind_inv in E2 as (c2 & Ec2 & E2). apply rbind_inv in E2 as (A3 & EA & E2).
        injection E2 as <- <-. assert (Forall P L3) by (eapply upd_P; [exact HL| |exact EL]; eapply filterCorner_P; [| |exact Ec]; assumption).
        split; [|assumption]. eapply upd_P; [exact HA| |exact EA]. eapply filterCorner_P; [| |exact Ec2]; assumption. }
      apply rbind_inv in E1 as (ft' & _ & E1). apply rbind_inv in E1 as (A3 & EA & E1). apply rbind_inv in E1 as (L3 & EL & E1). injection E1 as <- <- _.
      split; [destruct ha|destruct hl]; try (apply edgeFilter_id in EA; subst A3); try (apply edgeFilter_id in EL; subst L3); try (injection EA as <-); try (injection EL as <-); assumption. }
    apply rbind_inv in E as (A3 & EA & E). apply rbind_inv in E as (L3 & EL & E). injection E as <- <-.
    destruct (upsampleSel _ _ _ _); [exfalso; exact (edgeUpsample_not _ _ EA)|]. destruct (upsampleSel _ _ _ _); [exfalso; exact (edgeUpsample_not _ _ EL)|].
    injection EA as <-. injection EL as <-. auto.
  Qed.
  Lemma dirSample_P A L a w h dx dy i j v : Forall P A -> Forall P L -> dirSample A L a w h dx dy i j = Ok v -> P v.
  Proof.
    intros HA HL E. pose proof hi_b. unfold dirSample in E. cbv zeta in E.
    assert (I : forall b x y s, Forall P b -> 0 <= s < 32 -> interp b x y s = Ok v -> P v).
    { intros b x y s Hb Hs Ei. unfold P, samp. apply (interp_between 0 hi b x y s v); [lia|big; lia|exact Hs| | |exact Ei]; intros u Eu; exact (idx_Forall _ _ _ _ Hb Eu). }
    repeat match type of E with (if ?b then _ else _) = _ => destruct b end; first [eapply I; [|apply land31|exact E]; assumption | exact (idx_Forall _ _ _ _ HA E) | exact (idx_Forall _ _ _ _ HL E)].
  Qed.
  Lemma predictor_P e plane x y hl ha m lw lh w h mx my A L p A' L' : 0 <= w -> 0 <= h -> iBitDepth e = bd -> Forall P A -> Forall P L ->
    predictor e plane x y hl ha m lw lh w h mx my A L = Ok (p, A', L') -> all15 P p /\ Forall P A' /\ Forall P L'.
  Proof.
    intros Hw Hh Hb HA HL E. pose proof hi_b. assert (P0 : P 0) by (unfold P, samp; lia). unfold predictor in E. rewrite Hb in E.
    destruct (_ && _); [apply rbind_inv in E as (p1 & E1 & E); injection E as <- <- <-; apply recursive_P in E1; subst; auto using noPred_all|].
    destruct (isDirectionalMode m).
    { unfold directionalIntra in E. apply rbind_inv in E as (a & Ea & E). cbv zeta in E. apply rbind_inv in E as ([A1 L1] & E1 & E). apply rbind_inv in E as (dx & Edx & E). apply rbind_inv in E as (dy & Edy & E).
      apply rbind_inv in E as (p1 & Ep & E). injection E as <- <- <-. apply directionalEdges_P in E1 as [HA1 HL1]; try assumption. split; [|auto].
      apply (predTable_all P) in Ep; [exact Ep|exact P0|]. intros i j v _ _ Ev. eapply dirSample_P; [| |exact Ev]; assumption. }
    destruct (_ || _) eqn:EM.
    { apply rbind_inv in E as (p1 & Ep & E). injection E as <- <- <-. split; [|auto].
      unfold smoothIntra in Ep.
      repeat match type of Ep with (if ?b then _ else _) = _ => destruct b end; [| | |injection Ep as <-; apply noPred_all; exact P0]; apply (predTable_all P) in Ep; try exact Ep; try exact P0; intros i j v Hi Hj Hv.
      - apply rbind_inv in Hv as (wy & Ewy & Hv). apply rbind_inv in Hv as (a & Ea & Hv). apply rbind_inv in Hv as (l' & El' & Hv). apply rbind_inv in Hv as (wx & Ewx & Hv).
        apply rbind_inv in Hv as (l & El & Hv). apply rbind_inv in Hv as (a' & Ea' & Hv). apply smWeights_in in Ewy. apply smWeights_in in Ewx.
        apply (idx_Forall _ _ _ _ HA) in Ea, Ea'. apply (idx_Forall _ _ _ _ HL) in El, El'. unfold P, samp in *.
        apply (Round2_mean 0 hi _ 9 v) in Hv; try lia; big; change (2 ^ 9) with 512; nia.
      - apply rbind_inv in Hv as (wy & Ewy & Hv). apply rbind_inv in Hv as (a & Ea & Hv). apply rbind_inv in Hv as (l' & El' & Hv). apply smWeights_in in Ewy.
        apply (idx_Forall _ _ _ _ HA) in Ea. apply (idx_Forall _ _ _ _ HL) in El'. unfold P, samp in *.
        apply (Round2_mean 0 hi _ 8 v) in Hv; try lia; big; change (2 ^ 8) with 256; nia.
      - apply rbind_inv in Hv as (wy & Ewy & Hv). apply rbind_inv in Hv as (a & Ea & Hv). apply rbind_inv in Hv as (l' & El' & Hv). apply smWeights_in in Ewy.
        apply (idx_Forall _ _ _ _ HL) in Ea. apply (idx_Forall _ _ _ _ HA) in El'. unfold P, samp in *.
        apply (Round2_mean 0 hi _ 8 v) in Hv; try lia; big; change (2 ^ 8) with 256; nia. }
    destruct (m =? DC_PRED).
    { apply rbind_inv in E as (p1 & Ep & E). injection E as <- <- <-. split; [|auto]. eapply dc_P; [| | | |exact Ep]; assumption. }
    apply rbind_inv in E as (p1 & Ep & E). injection E as <- <- <-. split; [|auto]. unfold basicIntra in Ep. apply (predTable_all P) in Ep; [exact Ep|exact P0|].
    intros i j v Hi Hj Ev. eapply (paeth_between 0 hi w h); [| | | | |exact Ev]; try lia; try (apply edge_P; assumption). intros c Ec. exact (P_last _ _ HA Ec).
  Qed.
  Lemma beforeX_P row x v : Forall P row -> beforeX row x = Ok v -> P v.
  Proof. intros H. unfold beforeX, last_. destruct (_ =? _); apply idx_Forall; exact H. Qed.
  Lemma row_P f p y r : all_samples P f -> idx2 f p y = Ok r -> Forall P r.
  Proof. intros H E. exact (idx2_Forall (Forall P) f p y r H E). Qed.
  Lemma prepareEdges_P f plane x y w h mx my hl ha har hbl A L A' L' : all_samples P f -> Forall P A -> Forall P L ->
    prepareEdges bd f plane x y w h mx my hl ha har hbl A L = Ok (A', L') -> Forall P A' /\ Forall P L'.
  Proof.
    intros Hf HA HL E. pose proof half_b as (Hs & H2 & H3). unfold prepareEdges in E. apply rbind_inv in E as (yM1 & Ey & E). apply rbind_inv in E as (A1 & E1 & E).
    assert (HA1 : Forall P A1).
    { revert E1. unfold fillAbove, rfor_to. apply (rfor_from_post (fun _ A => Forall P A)); [exact HA|]. intros i a a' _ Ha H. apply rbind_inv in H as (v & Ev & H).
      eapply upd_P; [exact Ha| |exact H]. unfold aboveSample in Ev. repeat match type of Ev with (if ?b then _ else _) = _ => destruct b end.
      - apply rbind_inv in Ev as (r & Er & Ev). exact (beforeX_P _ _ _ (row_P _ _ _ _ Hf Er) Ev).
      - injection Ev as <-. unfold P, samp. lia.
      - exact (idx3_Forall _ _ _ _ _ _ Hf Ev). }
    apply rbind_inv in E as ([A2 L2] & E2 & E).
    assert (HAL : Forall P (fst (A2, L2)) /\ Forall P (snd (A2, L2))).
    { revert E2. unfold fillLeft, rfor_to. apply (rfor_from_post (fun _ AL => Forall P (fst AL) /\ Forall P (snd AL))); [auto|]. intros i [a l] [a' l'] _ [Ha Hl] H. cbn [fst snd] in *.
      destruct (negb hl && ha); [|destruct (negb hl && negb ha)].
      - apply rbind_inv in H as (v & Ev & H). apply rbind_inv in H as (l1 & El & H). injection H as <- <-. split; [exact Ha|]. eapply upd_P; [exact Hl| |exact El]. exact (idx3_Forall _ _ _ _ _ _ Hf Ev).
      - apply rbind_inv in H as (l1 & El & H). injection H as <- <-. split; [|exact Hl]. eapply upd_P; [exact Ha| |exact El]. unfold P, samp. lia.
      - apply rbind_inv in H as (r & Er & H). apply rbind_inv in H as (v & Ev & H). apply rbind_inv in H as (l1 & El & H). injection H as <- <-. split; [|exact Hl].
        eapply upd_P; [exact Ha| |exact El]. exact (beforeX_P _ _ _ (row_P _ _ _ _ Hf Er) Ev). }
    cbn [fst snd] in HAL. destruct HAL as [HA2 HL2]. apply rbind_inv in E as (c & Ec & E). apply rbind_inv in E as (A3 & E3 & E). apply rbind_inv in E as (L3 & E4 & E). injection E as <- <-.
    assert (P c).
    { unfold corner in Ec. destruct (ha && hl).
      - destruct (_ =? _); [apply rbind_inv in Ec as (r & Er & Ec)|]; exact (idx3_Forall _ _ _ _ _ _ Hf Ec).
      - destruct ha; [exact (idx3_Forall _ _ _ _ _ _ Hf Ec)|]. destruct hl; [|injection Ec as <-; unfold P, samp; lia]. apply rbind_inv in Ec as (r & Er & Ec). exact (beforeX_P _ _ _ (row_P _ _ _ _ Hf Er) Ec). }
    split; eapply upd_P; [| |exact E3| | |exact E4]; assumption.
  Qed.
  Lemma predictIntra_P e plane x y hl ha har hbl m lw lh A L f f' A' L' : 0 <= lw <= 30 -> 0 <= lh <= 30 -> iBitDepth e = bd -> all_samples P f -> Forall P A -> Forall P L ->
    predictIntra e plane x y hl ha har hbl m lw lh A L f = Ok (f', A', L') -> all_samples P f' /\ Forall P A' /\ Forall P L'.
  Proof.
    intros Hlw Hlh Hb Hf HA HL E. unfold predictIntra in E. cbv zeta in E. rewrite Hb in E. apply rbind_inv in E as ([A1 L1] & E1 & E). apply prepareEdges_P in E1 as [HA1 HL1]; try assumption.
    apply rbind_inv in E as ([[p A2] L2] & E2 & E). apply rbind_inv in E as (f2 & E3 & E). injection E as <- <- <-.
    assert (N : forall n, 0 <= n <= 30 -> 0 <= shl 1 n).
    { intros n Hn. unfold shl. rewrite Z.shiftl_mul_pow2 by lia. assert (0 < 2 ^ n <= 2 ^ 30) by (split; [apply Z.pow_pos_nonneg|apply Z.pow_le_mono_r]; lia). change (2 ^ 30) with 1073741824 in *. rewrite i64_id; big; lia. }
    apply predictor_P in E2 as (Hp & HA2 & HL2); try assumption; try (apply N; assumption). split; [|auto].
    eapply fill_Forall; [|exact Hf|exact E3]. intros i j v _ _ Ev. exact (idx2_Forall _ _ _ _ _ Hp Ev).
  Qed.
End Range.
Lemma predictor_shape e plane x y hl ha m lw lh w h mx my A L p A' L' : predictor e plane x y hl ha m lw lh w h mx my A L = Ok (p, A', L') -> shape15 p.
Proof.
  intros E. unfold predictor in E.
  destruct (_ && _); [apply rbind_inv in E as (p1 & E1 & E); injection E as <- <- <-; apply recursive_P in E1; subst; apply noPred_shape|].
  destruct (isDirectionalMode m).
  { unfold directionalIntra in E. apply rbind_inv in E as (a & Ea & E). cbv zeta in E. apply rbind_inv in E as ([A1 L1] & E1 & E). apply rbind_inv in E as (dx & Edx & E). apply rbind_inv in E as (dy & Edy & E).
    apply rbind_inv in E as (p1 & Ep & E). injection E as <- <- <-. exact (predTable_shape _ _ _ _ Ep). }
  destruct (_ || _). { apply rbind_inv in E as (p1 & Ep & E). injection E as <- <- <-. unfold smoothIntra in Ep.
    repeat match type of Ep with (if ?b then _ else _) = _ => destruct b end; try exact (predTable_shape _ _ _ _ Ep). injection Ep as <-. apply noPred_shape. }
  destruct (m =? DC_PRED). { apply rbind_inv in E as (p1 & Ep & E). injection E as <- <- <-. unfold dcIntra in Ep.
    repeat match type of Ep with (if ?b then _ else _) = _ => destruct b end; try exact (predTable_shape _ _ _ _ Ep). injection Ep as <-. apply noPred_shape. }
  apply rbind_inv in E as (p1 & Ep & E). injection E as <- <- <-. exact (predTable_shape _ _ _ _ Ep).
Qed.
Lemma shl1 n : 0 <= n <= 30 -> shl 1 n = 2 ^ n.
Proof.
  intros Hn. unfold shl. rewrite Z.shiftl_mul_pow2 by lia. assert (0 < 2 ^ n <= 2 ^ 30) by (split; [apply Z.pow_pos_nonneg|apply Z.pow_le_mono_r]; lia). change (2 ^ 30) with 1073741824 in *. rewrite i64_id; big; lia.
Qed.
