(** Properties C96-C100: the coefficients of a transform block. *)
From Coq Require Import String Permutation.
From Verif Require Import GoBase Bitstream Util UtilProofs Constants Tables Frame Writes Symbol SpecSymbol SymbolProofs CdfMoves CdfMemory CdfDefaults PropSymbol SpecPartition LoopFilter Coeffs SpecCoeffs CoeffRun CoeffsProofs CoeffsCtx CoeffsSim CoeffsWhole.
Local Open Scope string_scope.
Local Open Scope Z_scope.

(** A strictly increasing order is unique. *)
Lemma increasing_tail key a l : increasing_key key (a :: l) -> increasing_key key l.
Proof. destruct l as [|b l]; [exact (fun _ => I)|]. intros [_ H]. exact H. Qed.
Lemma increasing_unique key : forall l1 l2, increasing_key key l1 -> increasing_key key l2 -> Permutation l1 l2 -> l1 = l2.
Proof.
  induction l1 as [|a l1 IH]; intros l2 I1 I2 P.
  - apply Permutation_nil in P. symmetry. exact P.
  - destruct l2 as [|b l2]; [apply Permutation_sym, Permutation_nil in P; discriminate|].
    assert (a = b) as <-.
    { destruct (Permutation_in a P (or_introl eq_refl)) as [E|Ha]; [symmetry; exact E|].
      destruct (Permutation_in b (Permutation_sym P) (or_introl eq_refl)) as [E|Hb]; [exact E|].
      pose proof (increasing_head key l2 b a I2 Ha). pose proof (increasing_head key l1 a b I1 Hb). lia. }
    f_equal. apply IH; [exact (increasing_tail _ _ _ I1)|exact (increasing_tail _ _ _ I2)|exact (Permutation_cons_inv P)].
Qed.
Lemma scan_unique t c l1 l2 : is_scan t c l1 -> is_scan t c l2 -> l1 = l2.
Proof. intros [P1 I1] [P2 I2]. apply (increasing_unique (scan_key t c)); [exact I1|exact I2|]. eapply Permutation_trans; [exact P1|apply Permutation_sym, P2]. Qed.

(** C97: the order of the coefficients is the standard's, for every transform size but 64x16 and every type allowed in it. *)
Theorem C97_scan_partial : forall t ty, 0 <= t < 19 -> t <> 18 -> 0 <= ty <= 15 -> (class_of ty <> TwoD -> Z.max (tx_w t) (tx_h t) <= 16) ->
  exists l, getScan t ty = Ok l /\ is_scan t (class_of ty) l /\ forall l', is_scan t (class_of ty) l' -> l' = l.
Proof.
  intros t ty Ht H18 H1 H2. destruct (getScan_ok t ty Ht H18 (conj H1 H2)) as (l & E & S). exists l. split; [exact E|]. split; [exact S|]. intros l' S'. exact (scan_unique _ _ _ _ S' S).
Qed.
Print Assumptions C97_scan_partial.
(** Refuted: a 64x16 block uses the order of 16x64, a tall block; its own differs. *)
Theorem C97_scan_64x16_refuted : forall ty, tx_w 18 = 64 /\ tx_h 18 = 16 /\ exists l, getScan 18 ty = Ok l /\ is_scan 17 TwoD l /\ ~ is_scan 18 TwoD l.
Proof.
  intros ty. split; [reflexivity|]. split; [reflexivity|]. destruct (getScan_64x16 ty) as [E S]. exists Default_Scan_16x32. split; [exact E|]. split; [exact S|].
  intros [_ I].
  assert (G : incb (scan_key 18 TwoD) Default_Scan_16x32 = true).
  { clear -I. revert I. generalize Default_Scan_16x32. intros l. induction l as [|a l IH]; [reflexivity|]. destruct l as [|b l]; [reflexivity|].
    intros [H1 H2]. cbn [incb]. apply Z.ltb_lt in H1. rewrite H1. apply IH, H2. }
  assert (F : incb (scan_key 18 TwoD) Default_Scan_16x32 = false) by (vm_compute; reflexivity). congruence.
Qed.
Print Assumptions C97_scan_64x16_refuted.
Example C97_case : exists l, getScan 13 0 = Ok l /\ l = [0; 1; 4; 2; 5; 8; 3; 6; 9; 12; 7; 10; 13; 16; 11; 14; 17; 20; 15; 18; 21; 24; 19; 22; 25; 28; 23; 26; 29; 32; 27; 30; 33; 36; 31; 34; 37; 40; 35; 38; 41; 44; 39; 42; 45; 48; 43; 46; 49; 52; 47; 50; 53; 56; 51; 54; 57; 60; 55; 58; 61; 59; 62; 63].
Proof. eexists. split; [reflexivity|vm_compute; reflexivity]. Qed.

(** ** A concrete state: the default tables, a 16x16 intra block in a 64x64 frame *)
Definition sub_at (i : nat) (t : tree) : tree := match t with Node l => nth i l (Leaf []) | l => l end.
Definition demo_table (name : string) : string :=
  match find (fun p => (fst p =? name)%string) [("TxbSkipCdf", "DEFAULT_TXB_SKIP_CDF"); ("EobPt16Cdf", "DEFAULT_EOB_PT_16_CDF"); ("EobPt32Cdf", "DEFAULT_EOB_PT_32_CDF"); ("EobPt64Cdf", "DEFAULT_EOB_PT_64_CDF");
    ("EobPt128Cdf", "DEFAULT_EOB_PT_128_CDF"); ("EobPt256Cdf", "DEFAULT_EOB_PT_256_CDF"); ("EobPt512Cdf", "DEFAULT_EOB_PT_512_CDF"); ("EobPt1024Cdf", "DEFAULT_EOB_PT_1024_CDF"); ("EobExtraCdf", "DEFAULT_EOB_EXTRA_CDF");
    ("DcSignCdf", "DEFAULT_DC_SIGN_CDF"); ("CoeffBaseEobCdf", "DEFAULT_COEFF_BASE_EOB_CDF"); ("CoeffBaseCdf", "DEFAULT_COEFF_BASE_CDF"); ("CoeffBrCdf", "DEFAULT_COEFF_BR_CDF")] with Some p => snd p | None => "" end.
Definition demo_txtable (name : string) : string :=
  match find (fun p => (fst p =? name)%string) [("InterTxTypeSet1Cdf", "DEFAULT_INTER_TX_TYPE_SET1_CDF"); ("InterTxTypeSet2Cdf", "DEFAULT_INTER_TX_TYPE_SET2_CDF"); ("InterTxTypeSet3Cdf", "DEFAULT_INTER_TX_TYPE_SET3_CDF");
    ("IntraTxTypeSet1Cdf", "DEFAULT_INTRA_TX_TYPE_SET1_CDF"); ("IntraTxTypeSet2Cdf", "DEFAULT_INTRA_TX_TYPE_SET2_CDF")] with Some p => snd p | None => "" end.
(** the default tables of quantizer class q *)
Definition demo_cdfs (q : nat) (name : string) : tree := if (demo_table name =? "")%string then defaultHeap (demo_txtable name) else sub_at q (defaultHeap (demo_table name)).
Fixpoint paths (dims : list Z) : list (list Z) := match dims with [] => [[]] | d :: ds => flat_map (fun i => map (fun p => Z.of_nat i :: p) (paths ds)) (seq 0 (Z.to_nat d)) end.
Lemma paths_in dims : forall path, path_in path dims -> In path (paths dims).
Proof.
  induction dims as [|d ds IH]; intros path H; inversion H; subst; [left; reflexivity|]. cbn [paths]. apply in_flat_map. exists (Z.to_nat x). split; [apply in_seq; lia|]. apply in_map_iff. exists l. split; [rewrite Z2Nat.id by lia; reflexivity|apply IH; assumption].
Qed.
Definition cdfs_okb (h : string -> tree) : bool :=
  forallb (fun x => let t := h (fst (fst x)) in forallb (fun p => match tget t p with Ok c => valid_cdfb c && (nsyms c =? snd x) | _ => false end) (paths (snd (fst x)))) coeff_cdfs.
Lemma cdfs_okb_ok h : cdfs_okb h = true -> cdfs_ok h.
Proof.
  unfold cdfs_okb. rewrite forallb_forall. intros H name dims n path Hin Hp. specialize (H _ Hin). cbn [fst snd] in H. cbv zeta in H. rewrite forallb_forall in H. specialize (H path (paths_in dims path Hp)).
  destruct (tget (h name) path) as [c| |] eqn:E; try discriminate. apply andb_true_iff in H as [H1 H2]. exists c. split; [exact E|]. split; [apply valid_cdfb_spec, H1|lia].
Qed.
Lemma demo_cdfs_ok q : (q <= 2)%nat -> cdfs_ok (demo_cdfs q).
Proof. intros H. apply cdfs_okb_ok. destruct q as [|[|[|q]]]; [vm_compute; reflexivity|vm_compute; reflexivity|vm_compute; reflexivity|lia]. Qed.
(** the tables of the highest quantizer class are not fit (C83) *)
Example demo_cdfs_3 : cdfs_okb (demo_cdfs 3) = false.
Proof. vm_compute. reflexivity. Qed.

Definition zeros2 (n m : nat) : list (list Z) := repeat (repeat 0 m) n.
Definition demo_cs (d : dec) : CS := mkCS d (demo_cdfs 1) (repeat 7 4096) (zeros2 64 64) (zeros2 2 2) 0 0 (zeros2 3 16) (zeros2 3 16) (zeros2 3 16) (zeros2 3 16).
(** block size 3 is 8x8 *)
Definition demo_env : CEnv := mkCEnv 0 0 16 16 3 true true false 100 false 0 false false 0 0 0 false 0.

(** ** C96: the syntax of a transform block *)
(** What the function does is what the standard's syntax does (SpecCoeffs.std_block, run on the same decoder and tables), with two differences: the signs of all
    coefficients but the first are taken as 0 without reading a bit, and levels are cut to 16 bits instead of 20.  Same symbols with the same tables and contexts, same
    coefficients, same contexts for the neighbours, same transform types.  In particular no panic.  (Hang: more than [lim] zeros in a Golomb prefix.) *)
Definition follows (ac_sign : prog Z) (modulus : Z) (lim : nat) (TH TW : Z) (e : CEnv) (plane startX startY t : Z) (scan : cls -> list Z) (s : CS) (endp : Z) : Prop :=
  let x4 := startX / 4 in let y4 := startY / 4 in
  match run (cDisable e) (std_block ac_sign modulus lim (block_of e plane t x4 y4 s) scan) (cDec s) (cCdf s) with
  | Ok (r, d, h) => exists z s', coeffs lim e plane startX startY t s = Ok (z, s') /\ cDec s' = d /\ cCdf s' = h /\ in_tile d endp /\ cdfs_ok h /\
      (forall i, 0 <= i < coded t -> idx (cQuant s') i = Ok (rCoef r i)) /\
      (forall i j, 0 <= i < 64 -> 0 <= j < 64 -> idx2 (cDequant s') i j = Ok 0) /\
      (forall p j, idx2 (cAboveL s') p j = if (p =? plane) && (x4 <=? j) && (j <? x4 + tx_w t / 4) then Ok (rLevel r) else idx2 (cAboveL s) p j) /\
      (forall p j, idx2 (cAboveD s') p j = if (p =? plane) && (x4 <=? j) && (j <? x4 + tx_w t / 4) then Ok (rDc r) else idx2 (cAboveD s) p j) /\
      (forall p j, idx2 (cLeftL s') p j = if (p =? plane) && (y4 <=? j) && (j <? y4 + tx_h t / 4) then Ok (rLevel r) else idx2 (cLeftL s) p j) /\
      (forall p j, idx2 (cLeftD s') p j = if (p =? plane) && (y4 <=? j) && (j <? y4 + tx_h t / 4) then Ok (rDc r) else idx2 (cLeftD s) p j) /\
      (forall j i, idx2 (cTxTypes s') j i = if (plane =? 0) && (y4 <=? j) && (j <? y4 + tx_h t / 4) && (x4 <=? i) && (i <? x4 + tx_w t / 4) then Ok (rLuma r) else idx2 (cTxTypes s) j i) /\
      block_in TH TW e plane t x4 y4 s'
  | Hang => coeffs lim e plane startX startY t s = Hang
  | Panic => False
  end.
(** the order used: that of the size, except that 64x16 has the order of 16x64 (C97) *)
Definition order_of (t : Z) : Z := if t =? 18 then 17 else t.
Lemma order_range t : 0 <= t < 19 -> 0 <= order_of t < 19.
Proof. unfold order_of. destruct (Z.eqb_spec t 18); lia. Qed.
Theorem C96_syntax_partial : forall lim TH TW e plane startX startY t scan s endp, (lim <= 60)%nat -> in_tile (cDec s) endp -> cdfs_ok (cCdf s) -> block_in TH TW e plane t (startX / 4) (startY / 4) s ->
  (forall c, is_scan (order_of t) c (scan c)) -> follows (Done 0) (2 ^ 16) lim TH TW e plane startX startY t scan s endp.
Proof.
  intros lim TH TW e plane startX startY t scan s endp HL HT HC HB HS. apply in_tile_state in HT. change (2 ^ 16) with 65536.
  pose proof HB as (Hp & Ht & B3 & B4 & B5 & B6 & B7 & B8 & B9 & A1 & A2 & A3 & A4 & A5 & A6 & A7 & B10 & B11).
  assert (X : forall ty, type_ok t ty -> getScan t ty = Ok (scan (class_of ty)) /\ covers t (scan (class_of ty))).
  { intros ty Hty. assert (E : getScan t ty = Ok (scan (class_of ty))).
    { specialize (HS (class_of ty)). unfold order_of in HS. destruct (Z.eqb_spec t 18) as [E18|H18].
      - rewrite E18 in *. destruct (getScan_64x16 ty) as [E S]. destruct Hty as [_ Hc]. destruct (class_of ty); [|exfalso; specialize (Hc ltac:(discriminate)); vm_compute in Hc; apply Hc; reflexivity..]. rewrite (scan_unique _ _ _ _ HS S). exact E.
      - destruct (getScan_ok t ty Ht H18 Hty) as (l & E & S). rewrite (scan_unique _ _ _ _ HS S). exact E. }
    split; [exact E|]. destruct (scan_covers t ty Ht Hty) as (l' & E' & C). rewrite E in E'. injection E' as <-. exact C. }
  pose proof (coeffs_follows lim TH TW e plane startX startY t s endp scan HL (conj HT HC) HB X) as F. unfold sim in F. unfold follows.
  destruct (run (cDisable e) (std_block (Done 0) 65536 lim (block_of e plane t (startX / 4) (startY / 4) s) scan) (cDec s) (cCdf s)) as [[[r d] h]| |]; cbv zeta; [|exact F|exact F].
  destruct F as (z & s' & E & Ed & Eh & _ & [GT GC] & Q & D & (C1 & C2 & C3 & C4) & T & (S1 & S2 & S3 & S4 & S5 & S6 & S7)).
  exists z, s'. split; [exact E|]. split; [exact Ed|]. split; [exact Eh|]. split; [apply in_tile_state; rewrite <- Ed; exact GT|]. split; [rewrite <- Eh; exact GC|].
  split; [exact Q|]. split; [exact D|]. split; [exact C1|]. split; [exact C2|]. split; [exact C3|]. split; [exact C4|]. split; [exact T|].
  unfold block_in. repeat (split; [assumption|]). intros Hpl. destruct (B11 Hpl) as [E1 E2]. split; [exact E1|]. destruct (cIsInter e =? 0); [exact E2|]. destruct E2 as (v & Ev & Hv). exists v. split; [|exact Hv].
  rewrite T. destruct (Z.eqb_spec plane 0); [lia|]. exact Ev.
Qed.
Print Assumptions C96_syntax_partial.

(** What holds for the result of a program however the reading goes *)
Definition holds {A} (dis : bool) (p : prog A) (P : A -> Prop) : Prop := forall d h r d' h', run dis p d h = Ok (r, d', h') -> P r.
Lemma holds_done {A} dis (a : A) (P : A -> Prop) : P a -> holds dis (Done a) P.
Proof. intros H d h r d' h' E. injection E as <- _ _. exact H. Qed.
Lemma holds_sym {A} dis t path (k : Z -> prog A) P : (forall v, holds dis (k v) P) -> holds dis (Sym t path k) P.
Proof.
  intros H d h r d' h' E. cbn [run] in E. apply rbind_inv in E as (c & _ & E). apply rbind_inv in E as (x & _ & E). apply rbind_inv in E as (t' & _ & E). exact (H _ _ _ _ _ _ E).
Qed.
Lemma holds_bit {A} dis (k : Z -> prog A) P : (forall v, holds dis (k v) P) -> holds dis (Bit k) P.
Proof. intros H d h r d' h' E. cbn [run] in E. apply rbind_inv in E as (x & _ & E). exact (H _ _ _ _ _ _ E). Qed.
Lemma holds_andthen {A B} dis (p : prog A) (f : A -> prog B) (P : A -> Prop) (Q : B -> Prop) : holds dis p P -> (forall a, P a -> holds dis (f a) Q) -> holds dis (andthen p f) Q.
Proof. intros HP HF d h r d' h' E. rewrite run_andthen in E. apply rbind_inv in E as ([[a d1] h1] & E1 & E). cbn [fst snd] in E. exact (HF a (HP _ _ _ _ _ E1) _ _ _ _ _ E). Qed.
Lemma holds_any {A} dis (p : prog A) : holds dis p (fun _ => True).
Proof. intros d h r d' h' _. exact I. Qed.
Lemma levels_outside dis b c : forall l last q, holds dis (std_levels b c last l q) (fun q' => forall i, ~ In i l -> q' i = q i).
Proof.
  induction l as [|p l IH]; intros last q; cbn [std_levels]; [apply holds_done; reflexivity|].
  eapply holds_andthen; [apply holds_any|]. intros v _ d h r d' h' E i Hi. rewrite (IH _ _ _ _ _ _ _ E i) by (intros X; apply Hi; right; exact X). unfold set_at. destruct (Z.eqb_spec i p) as [->|_]; [exfalso; apply Hi; left; reflexivity|reflexivity].
Qed.
(** without sign bits: nonnegative (except the first), and below the modulus *)
Lemma signs_range dis m lim b : 0 < m -> forall l first acc, NoDup l ->
  holds dis (std_signs (Done 0) m lim b first l acc) (fun r => forall i,
    (In i l -> - m < fst (fst r) i < m /\ (first = false \/ Some i <> hd_error l -> 0 <= fst (fst r) i)) /\ (~ In i l -> fst (fst r) i = fst (fst acc) i)).
Proof.
  intros Hm. induction l as [|p l IH]; intros first acc ND; cbn [std_signs]; [apply holds_done; intros i; split; [intros []|reflexivity]|]. inversion ND as [|? ? Np ND']; subst.
  eapply holds_andthen with (P := fun r => (- m < fst (fst r) p < m /\ (first = false -> 0 <= fst (fst r) p)) /\ forall i, i <> p -> fst (fst r) i = fst (fst acc) i).
  - destruct acc as [[q total] dc]. unfold std_sign. eapply holds_andthen with (P := fun v => first = false -> v = 0).
    + destruct (q p =? 0); [apply holds_done; reflexivity|]. destruct first; [intros d h r d' h' _ [=]|apply holds_done; reflexivity].
    + intros sign Hs. eapply holds_andthen; [apply holds_any|]. intros level _. apply holds_done. cbn [fst snd]. pose proof (Z.mod_pos_bound level m Hm). unfold set_at. rewrite Z.eqb_refl. split.
      * destruct (Z.eqb_spec sign 0); (split; [lia|intros F; specialize (Hs F); lia]).
      * intros i Ni. destruct (Z.eqb_spec i p); [contradiction|reflexivity].
  - intros a [[A1 A1'] A2] d h r d' h' E i. pose proof (IH false a ND' _ _ _ _ _ E i) as [B1 B2]. split.
    + intros [<-|Hi]; [|destruct (B1 Hi) as [B3 B4]; split; [exact B3|intros _; apply B4; left; reflexivity]].
      rewrite (B2 Np). split; [exact A1|]. intros [F|F]; [apply A1', F|exfalso; apply F; reflexivity].
    + intros Ni. rewrite B2 by (intros X; apply Ni; right; exact X). apply A2. intros ->. apply Ni. left. reflexivity.
Qed.
Lemma firstn_nodup {A} n : forall l : list A, NoDup l -> NoDup (firstn n l).
Proof. induction n as [|n IH]; intros [|a l] H; cbn [firstn]; try constructor; inversion H; subst; [|apply IH; assumption]. intros X. apply H2. rewrite <- (firstn_skipn n l). apply in_or_app. left. exact X. Qed.
Lemma scan_nodup t c l : is_scan t c l -> NoDup l.
Proof. intros [_ I]. exact (increasing_nodup _ _ I). Qed.
Lemma nth0 {A} (l : list A) a : idx l 0 = Ok a -> hd_error l = Some a.
Proof. destruct l; cbn; [discriminate|intros [= ->]; reflexivity]. Qed.
Lemma block_range dis m lim b scan : 0 < m -> (forall c, NoDup (scan c)) -> (forall c, hd_error (scan c) = Some 0) ->
  holds dis (std_block (Done 0) m lim b scan) (fun r => - m < rCoef r 0 < m /\ forall i, i <> 0 -> 0 <= rCoef r i < m).
Proof.
  intros Hm ND H0. unfold std_block. apply holds_sym. intros z. destruct (z =? 0); [|apply holds_done; cbn [rCoef]; split; [lia|intros; lia]].
  unfold std_coded. eapply holds_andthen; [apply holds_any|]. intros luma _. eapply holds_andthen; [apply holds_any|]. intros eob _. set (c := class_of (used_type b luma)). set (order := firstn (Z.to_nat eob) (scan c)).
  eapply holds_andthen; [apply levels_outside|]. intros q Hq. cbv beta in Hq. assert (NDo : NoDup order) by (apply firstn_nodup, ND).
  eapply holds_andthen; [apply (signs_range dis m lim b Hm order true (q, 0, 0) NDo)|]. intros [[q' total] dc] H. cbn [fst snd] in H. apply holds_done. cbn [rCoef fst snd].
  assert (O : forall i, ~ In i order -> q' i = 0). { intros i Hi. rewrite (proj2 (H i) Hi). apply Hq. rewrite <- in_rev. exact Hi. }
  assert (D : forall i, In i order \/ ~ In i order). { intros i. destruct (in_dec Z.eq_dec i order); [left|right]; assumption. }
  split.
  - destruct (D 0) as [Hi|Hi]; [exact (proj1 (proj1 (H 0) Hi))|rewrite (O 0 Hi); lia].
  - intros i Ni. destruct (D i) as [Hi|Hi]; [|rewrite (O i Hi); lia]. destruct (proj1 (H i) Hi) as [R1 R2]. split; [|lia]. apply R2. right. unfold order. specialize (H0 c). destruct (Z.to_nat eob); [cbn; discriminate|]. destruct (scan c) as [|a l]; [discriminate|]. cbn [firstn hd_error] in *. congruence.
Qed.
Lemma scan_head t c l : 0 <= t < 19 -> is_scan t c l -> hd_error l = Some 0.
Proof.
  intros Ht [P I]. assert (C : 0 < coded t). { assert (F : forallb (fun t => 0 <? coded t) (map Z.of_nat (seq 0 19)) = true) by reflexivity. rewrite forallb_forall in F. specialize (F t). rewrite in_map_iff in F. rewrite <- Z.ltb_lt. apply F. exists (Z.to_nat t). split; [lia|apply in_seq; lia]. }
  assert (Z0 : In 0 l). { apply (Permutation_in 0 (Permutation_sym P)). apply in_map_iff. exists 0%nat. split; [reflexivity|apply in_seq; lia]. }
  destruct l as [|a l]; [destruct Z0|]. destruct Z0 as [->|Z0]; [reflexivity|]. exfalso. pose proof (increasing_head _ l a 0 I Z0) as K.
  assert (A : 0 <= a). { pose proof (Permutation_in a P (or_introl eq_refl)) as A. apply in_map_iff in A as (n & <- & _). lia. }
  assert (W : 0 < coded_w t). { apply (tx_in t) in Ht. clear -Ht. cbn [seq map In] in Ht. repeat (destruct Ht as [<-|Ht]; [vm_compute; reflexivity|]). contradiction. }
  assert (K0 : scan_key t c 0 = 0). { unfold scan_key, row_of, col_of. rewrite Z.div_0_l, Z.mod_0_l by lia. destruct c; [|reflexivity|reflexivity]. destruct (coded_w t =? coded_h t); [reflexivity|]. destruct (coded_w t <? coded_h t); reflexivity. }
  rewrite K0 in K.
  pose proof (Z.div_pos a (coded_w t) A W). pose proof (Z.mod_pos_bound a (coded_w t) W). unfold scan_key, row_of, col_of in K. destruct c; [|lia|lia]. destruct (coded_w t =? coded_h t); [destruct (Z.odd _); lia|]. destruct (coded_w t <? coded_h t); lia.
Qed.
(** there is exactly one order for each size and class *)
Definition insert_by (kp : Z * Z) : list (Z * Z) -> list (Z * Z) := fix ins l := match l with [] => [kp] | x :: l' => if fst kp <? fst x then kp :: x :: l' else x :: ins l' end.
Definition sorted_scan (t : Z) (c : cls) : list Z := map snd (fold_right insert_by [] (map (fun n => (scan_key t c (Z.of_nat n), Z.of_nat n)) (seq 0 (Z.to_nat (coded t))))).
Lemma scans_exist t : 0 <= t < 19 -> exists scan, forall c, is_scan t c (scan c).
Proof.
  intros Ht. exists (sorted_scan t). intros c. apply (tx_in t) in Ht.
  apply scanb_ok; cbn [seq map In] in Ht; [repeat (destruct Ht as [<-|Ht]; [vm_compute; discriminate|]); contradiction|]. repeat (destruct Ht as [<-|Ht]; [destruct c; vm_compute; reflexivity|]). contradiction.
Qed.
(** Refuted: the sign of a coefficient other than the first is never read; such coefficients are never negative, and no magnitude reaches 2^16. *)
Theorem C96_signs_refuted : forall lim TH TW e plane startX startY t s endp z s', (lim <= 60)%nat -> in_tile (cDec s) endp -> cdfs_ok (cCdf s) -> block_in TH TW e plane t (startX / 4) (startY / 4) s ->
  coeffs lim e plane startX startY t s = Ok (z, s') ->
  (exists v, idx (cQuant s') 0 = Ok v /\ - 2 ^ 16 < v < 2 ^ 16) /\ forall i, 0 < i < coded t -> exists v, idx (cQuant s') i = Ok v /\ 0 <= v < 2 ^ 16.
Proof.
  intros lim TH TW e plane startX startY t s endp z s' HL HT HC HB E. pose proof HB as (_ & Ht & _).
  destruct (scans_exist (order_of t) (order_range t Ht)) as [scan HS]. pose proof (C96_syntax_partial lim TH TW e plane startX startY t scan s endp HL HT HC HB HS) as F. unfold follows in F. cbv zeta in F.
  destruct (run (cDisable e) (std_block (Done 0) (2 ^ 16) lim (block_of e plane t (startX / 4) (startY / 4) s) scan) (cDec s) (cCdf s)) as [[[r d] h]| |] eqn:R; [|contradiction|congruence].
  destruct F as (z' & s'' & E' & _ & _ & _ & _ & Q & _). rewrite E in E'. injection E' as <- <-.
  pose proof (block_range (cDisable e) (2 ^ 16) lim _ scan ltac:(lia) (fun c => scan_nodup (order_of t) c _ (HS c)) (fun c => scan_head (order_of t) c _ (order_range t Ht) (HS c)) _ _ _ _ _ R) as [B0 B1].
  assert (0 < coded t). { apply (tx_in t) in Ht. clear -Ht. cbn [seq map In] in Ht. repeat (destruct Ht as [<-|Ht]; [vm_compute; reflexivity|]). contradiction. }
  split; [exists (rCoef r 0); split; [apply Q; lia|exact B0]|]. intros i Hi. exists (rCoef r i). split; [apply Q; lia|apply B1; lia].
Qed.
Print Assumptions C96_signs_refuted.

(** The concrete case: an 8x8 intra luma block, 4x4 transform. *)
Definition demo_data (v : Z) : dec := mkDec v 65000 60 (mkBS [0x5A; 0xC3; 0x99; 0x17; 0xE0; 0x11; 0x12; 0x13] 0 0).
Definition demo_s : CS := demo_cs (demo_data 60000).
Lemma demo_array2 n m k l : Z.of_nat n = k -> Z.of_nat m = l -> array2 k l (zeros2 n m).
Proof. intros <- <-. unfold array2, array1, zeros2. split; [unfold zlen; rewrite repeat_length; reflexivity|]. apply Forall_forall. intros x Hx. apply repeat_spec in Hx. subst x. unfold zlen. rewrite repeat_length. reflexivity. Qed.
Lemma demo_in d : block_in 2 2 demo_env 0 0 0 0 (demo_cs d).
Proof.
  unfold block_in. cbn [cMiSize demo_env cMiRows cMiCols cAboveL cAboveD cLeftL cLeftD cQuant cDequant cTxTypes demo_cs cIsInter cUseFilterIntra cFilterIntraMode cYMode].
  change (tx_w 0 / 4) with 1. change (tx_h 0 / 4) with 1. change (2 ^ 20) with 1048576.
  repeat (split; [first [lia|apply demo_array2; reflexivity|unfold array1, zlen; rewrite repeat_length; reflexivity]|]). lia.
Qed.
Lemma demo_scan : exists scan : cls -> list Z, forall c, is_scan 0 c (scan c).
Proof. apply scans_exist. lia. Qed.
Definition coefs16 (r : parsed) : list Z := map (fun i => rCoef r (Z.of_nat i)) (seq 0 16).
Example C96_case : in_tile (cDec demo_s) 60 /\ cdfs_ok (cCdf demo_s) /\ block_in 2 2 demo_env 0 0 (0 / 4) (0 / 4) demo_s /\ (forall c, is_scan 0 c (sorted_scan 0 c)) /\
  match run false (std_block (Done 0) (2 ^ 16) 60 (block_of demo_env 0 0 0 0 demo_s) (sorted_scan 0)) (cDec demo_s) (cCdf demo_s) with
  | Ok (r, d, _) => rLuma r = 11 /\ rEob r = 11 /\ coefs16 r = [1; 2; 0; 0; 0; 1; 0; 0; 0; 2; 1; 0; 0; 0; 0; 0] /\ rLevel r = 7 /\ rDc r = 2 /\ Position (Bits d) = 25 | _ => False end /\
  match coeffs 60 demo_env 0 0 0 0 demo_s with
  | Ok (z, s) => z = 0 /\ firstn 16 (cQuant s) = [1; 2; 0; 0; 0; 1; 0; 0; 0; 2; 1; 0; 0; 0; 0; 0] /\ idx2 (cTxTypes s) 0 0 = Ok 11 /\ idx2 (cAboveL s) 0 0 = Ok 7 /\ Position (Bits (cDec s)) = 25 | _ => False end.
Proof.
  split; [unfold in_tile, zlen; cbn; lia|]. split; [apply demo_cdfs_ok; lia|]. split; [apply demo_in|]. split; [intros c; apply scanb_ok; [vm_compute; discriminate|destruct c; vm_compute; reflexivity]|].
  split; vm_compute; repeat split; reflexivity.
Qed.
(** Refuted: there the standard has other coefficients and reads four bits more, so that everything after differs. *)
Theorem C96_standard_refuted : exists e s endp, in_tile (cDec s) endp /\ cdfs_ok (cCdf s) /\ block_in 2 2 e 0 0 0 0 s /\
  match run (cDisable e) (std_block (Bit Done) (2 ^ 20) 60 (block_of e 0 0 0 0 s) (sorted_scan 0)) (cDec s) (cCdf s), coeffs 60 e 0 0 0 0 s with
  | Ok (r, d, _), Ok (_, s') => rCoef r 9 = -2 /\ idx (cQuant s') 9 = Ok 2 /\ Position (Bits d) = 29 /\ Position (Bits (cDec s')) = 25
  | _, _ => False end.
Proof.
  exists demo_env, demo_s, 60. split; [unfold in_tile, zlen; cbn; lia|]. split; [apply demo_cdfs_ok; lia|]. split; [apply demo_in|]. vm_compute. repeat split; reflexivity.
Qed.
Print Assumptions C96_standard_refuted.
(** Refuted: a level beyond 16 bits is cut (standard: 131086). *)
Definition fixed_env : CEnv := mkCEnv 0 0 16 16 3 true true true 100 false 0 false false 0 0 0 false 0.
Definition big_s : CS := demo_cs (mkDec 64030 65000 64 (mkBS [63; 100; 2; 20; 33; 10; 14; 0] 0 0)).
Theorem C96_large_level_refuted : exists e s endp, in_tile (cDec s) endp /\ cdfs_ok (cCdf s) /\ block_in 2 2 e 0 0 0 0 s /\
  match run (cDisable e) (std_block (Bit Done) (2 ^ 20) 60 (block_of e 0 0 0 0 s) (sorted_scan 0)) (cDec s) (cCdf s), coeffs 60 e 0 0 0 0 s with
  | Ok (r, _, _), Ok (_, s') => rEob r = 1 /\ rCoef r 0 = 131086 /\ idx (cQuant s') 0 = Ok 14
  | _, _ => False end.
Proof.
  exists fixed_env, big_s, 64. split; [unfold in_tile, zlen; cbn; lia|]. split; [apply demo_cdfs_ok; lia|]. split; [apply demo_in|]. vm_compute. repeat split; reflexivity.
Qed.
Print Assumptions C96_large_level_refuted.

(** Where the two differences do not matter: at most one coefficient, below 2^16. *)
Definition same_parse (r r' : parsed) : Prop := rLuma r = rLuma r' /\ rUsed r = rUsed r' /\ rEob r = rEob r' /\ (forall i, rCoef r i = rCoef r' i) /\ rLevel r = rLevel r' /\ rDc r = rDc r'.
Lemma dc_only dis lim b scan d h r d' h' : (forall c, hd_error (scan c) = Some 0) -> run dis (std_block (Bit Done) (2 ^ 20) lim b scan) d h = Ok (r, d', h') -> rEob r <= 1 -> Z.abs (rCoef r 0) < 2 ^ 16 ->
  exists r', run dis (std_block (Done 0) (2 ^ 16) lim b scan) d h = Ok (r', d', h') /\ same_parse r r'.
Proof.
  intros H0 E HE HC. unfold std_block in *. cbn [run] in *. destruct (tget (h "TxbSkipCdf") [size_context (bTx b); all_zero_context b]) as [c| |]; cbn [rbind] in *; try discriminate.
  destruct (ReadSymbol dis c d) as [[[z c'] d1]| |]; cbn [rbind fst snd] in *; try discriminate. destruct (tput (h "TxbSkipCdf") _ c') as [t'| |]; cbn [rbind] in *; try discriminate.
  destruct (z =? 0); [|exists r; split; [exact E|repeat split]]. unfold std_coded in *.
  rewrite run_andthen in E. rewrite run_andthen. destruct (run dis (if bPlane b =? 0 then std_type b else Done 0) d1 _) as [[[luma d2] h2]| |]; cbn [rbind fst snd] in *; try discriminate.
  rewrite run_andthen in E. rewrite run_andthen. destruct (run dis (std_eob b _) d2 h2) as [[[eob d3] h3]| |]; cbn [rbind fst snd] in *; try discriminate.
  set (c0 := class_of (used_type b luma)) in *. set (order := firstn (Z.to_nat eob) (scan c0)) in *.
  rewrite run_andthen in E. rewrite run_andthen. destruct (run dis (std_levels b c0 true (rev order) (fun _ => 0)) d3 h3) as [[[q d4] h4]| |]; cbn [rbind fst snd] in *; try discriminate.
  assert (EE : rEob r = eob). { rewrite run_andthen in E. apply rbind_inv in E as (x & _ & E). cbn [run] in E. injection E as <- _ _. reflexivity. }
  assert (O : order = [] \/ order = [0]). { unfold order. specialize (H0 c0). destruct (scan c0) as [|a l]; [discriminate|]. cbn in H0. injection H0 as ->. assert (Z.to_nat eob = 0%nat \/ Z.to_nat eob = 1%nat) as [-> | ->] by lia; [left|right]; reflexivity. }
  destruct O as [O|O]; rewrite O in *; cbn [std_signs] in *.
  - exists r. split; [exact E|repeat split].
  - rewrite !run_andthen in E. rewrite !run_andthen. unfold std_sign in *. rewrite run_andthen in E. rewrite run_andthen.
    destruct (run dis (if q 0 =? 0 then Done 0 else Sym "DcSignCdf" [ptype b; dc_context b] Done) d4 h4) as [[[sign d5] h5]| |]; cbn [rbind fst snd] in *; try discriminate.
    rewrite run_andthen in E. rewrite run_andthen. destruct (run dis (if 14 <? q 0 then andthen (golomb lim) (fun x => Done (x + 14)) else Done (q 0)) d5 h5) as [[[level d6] h6]| |]; cbn [rbind fst snd run] in *; try discriminate.
    injection E as <- <- <-. cbn [rEob rCoef fst snd] in *.
    assert (M : level mod 2 ^ 16 = level mod 2 ^ 20).
    { pose proof (Z.mod_pos_bound level (2 ^ 20) ltac:(lia)). unfold set_at in HC. rewrite Z.eqb_refl in HC. assert (K : 0 <= level mod 2 ^ 20 < 2 ^ 16) by (destruct (sign =? 0); lia).
      rewrite <- (Z.mod_small (level mod 2 ^ 20) (2 ^ 16) K). change (2 ^ 20) with (2 ^ 16 * 2 ^ 4). rewrite Z.rem_mul_r by lia. rewrite Z.mul_comm, Z.mod_add, Z.mod_mod by lia. reflexivity. }
    rewrite M. eexists. split; [reflexivity|repeat split].
Qed.
Theorem C96_single_coefficient_partial : forall lim TH TW e plane startX startY t scan s endp r d h, (lim <= 60)%nat -> in_tile (cDec s) endp -> cdfs_ok (cCdf s) -> block_in TH TW e plane t (startX / 4) (startY / 4) s ->
  t <> 18 -> (forall c, is_scan t c (scan c)) ->
  run (cDisable e) (std_block (Bit Done) (2 ^ 20) lim (block_of e plane t (startX / 4) (startY / 4) s) scan) (cDec s) (cCdf s) = Ok (r, d, h) -> rEob r <= 1 -> Z.abs (rCoef r 0) < 2 ^ 16 ->
  follows (Bit Done) (2 ^ 20) lim TH TW e plane startX startY t scan s endp.
Proof.
  intros lim TH TW e plane startX startY t scan s endp r d h HL HT HC HB H18 HS E H1 H2. pose proof HB as (_ & Ht & _).
  destruct (dc_only _ _ _ _ _ _ _ _ _ (fun c => scan_head t c _ Ht (HS c)) E H1 H2) as (r' & E' & (S1 & S2 & S3 & S4 & S5 & S6)).
  pose proof (C96_syntax_partial lim TH TW e plane startX startY t scan s endp HL HT HC HB ltac:(unfold order_of; destruct (Z.eqb_spec t 18); [contradiction|exact HS])) as F. unfold follows in *. cbv zeta in *. rewrite E. rewrite E' in F.
  destruct F as (z & s' & A1 & A2 & A3 & A4 & A5 & Q & D & F). exists z, s'. rewrite S5, S6, S1. split; [exact A1|]. split; [exact A2|]. split; [exact A3|]. split; [exact A4|]. split; [exact A5|]. split; [intros i Hi; rewrite S4; apply Q, Hi|]. split; [exact D|exact F].
Qed.
Print Assumptions C96_single_coefficient_partial.

(** ** C98: transform types *)
Lemma nth_in_set i set n : In (nth n (set_types_of i set) 0) (set_types_of i set).
Proof. destruct (lt_dec n (length (set_types_of i set))) as [H|H]; [apply nth_In, H|]. rewrite nth_overflow by lia. apply zero_in_set. Qed.
Lemma luma_type_legal dis m lim b scan a : holds dis (std_block a m lim b scan) (fun r => In (rLuma r) (set_types_of (bInter b) (tx_set (bInter b) (bReduced b) (bTx b)))).
Proof.
  unfold std_block. apply holds_sym. intros z. destruct (z =? 0); [|apply holds_done; apply zero_in_set].
  unfold std_coded. eapply holds_andthen with (P := fun luma => In luma (set_types_of (bInter b) (tx_set (bInter b) (bReduced b) (bTx b)))).
  - destruct (bPlane b =? 0); [|apply holds_done, zero_in_set]. unfold std_type. cbv zeta. destruct ((0 <? tx_set (bInter b) (bReduced b) (bTx b)) && (0 <? bQ b)); [|apply holds_done, zero_in_set].
    destruct (bInter b); [destruct (_ =? 1); [|destruct (_ =? 2)]|destruct (_ =? 1)]; apply holds_sym; intros v; apply holds_done, nth_in_set.
  - intros luma HL. eapply holds_andthen; [apply holds_any|]. intros eob _. eapply holds_andthen; [apply holds_any|]. intros q _. eapply holds_andthen; [apply holds_any|]. intros r _. apply holds_done. exact HL.
Qed.
(** Whatever is read, the type recorded for every 4x4 of a luma block belongs to the set the standard allows for the size and prediction of the block. *)
Theorem C98_luma_type : forall lim TH TW e startX startY t s endp z s' x y, (lim <= 60)%nat -> in_tile (cDec s) endp -> cdfs_ok (cCdf s) -> block_in TH TW e 0 t (startX / 4) (startY / 4) s ->
  coeffs lim e 0 startX startY t s = Ok (z, s') -> startX / 4 <= x < startX / 4 + tx_w t / 4 -> startY / 4 <= y < startY / 4 + tx_h t / 4 ->
  let inter := negb (cIsInter e =? 0) in exists v, idx2 (cTxTypes s') y x = Ok v /\ In v (set_types_of inter (tx_set inter (cReduced e) t)).
Proof.
  intros lim TH TW e startX startY t s endp z s' x y HL HT HC HB E Hx Hy inter. pose proof HB as (_ & Ht & _). destruct (scans_exist (order_of t) (order_range t Ht)) as [scan HS].
  pose proof (C96_syntax_partial lim TH TW e 0 startX startY t scan s endp HL HT HC HB HS) as F. unfold follows in F. cbv zeta in F.
  destruct (run (cDisable e) (std_block (Done 0) (2 ^ 16) lim (block_of e 0 t (startX / 4) (startY / 4) s) scan) (cDec s) (cCdf s)) as [[[r d] h]| |] eqn:R; [|contradiction|congruence].
  destruct F as (z' & s'' & E' & _ & _ & _ & _ & _ & _ & _ & _ & _ & _ & T & _). rewrite E in E'. injection E' as <- <-. exists (rLuma r). split.
  - rewrite T. change (0 =? 0) with true. destruct (Z.leb_spec (startY / 4) y), (Z.ltb_spec y (startY / 4 + tx_h t / 4)), (Z.leb_spec (startX / 4) x), (Z.ltb_spec x (startX / 4 + tx_w t / 4)); try lia. reflexivity.
  - exact (luma_type_legal _ _ _ _ _ _ _ _ _ _ _ R).
Qed.
Print Assumptions C98_luma_type.
(** Every set contains DCT in both directions (0); one-dimensional types occur only up to 16x16. *)
Theorem C98_sets : forall inter reduced t ty, 0 <= t < 19 -> In ty (set_types_of inter (tx_set inter reduced t)) -> 0 <= ty <= 15 /\ In 0 (set_types_of inter (tx_set inter reduced t)) /\
  (class_of ty <> TwoD -> tx_w t <= 16 /\ tx_h t <= 16) /\ (32 < Z.max (tx_w t) (tx_h t) -> ty = 0).
Proof.
  intros inter reduced t ty Ht Hin. destruct (set_type_ok inter reduced t ty Hin) as [H1 H2]. split; [exact H1|]. split; [apply zero_in_set|]. split; [intros H; specialize (H2 H); lia|].
  intros H. unfold tx_set in Hin. destruct (Z.ltb_spec 32 (Z.max (tx_w t) (tx_h t))); [|lia]. destruct inter; cbn in Hin; destruct Hin as [<-|[]]; reflexivity.
Qed.
Print Assumptions C98_sets.
(** The function that gives the type in use: for chroma the type of the corresponding luma block, or that of the intra mode, if the set of the chroma size has it, else 0. *)
Theorem C98_chroma_type : forall TH TW e plane t x4 y4 s, block_in TH TW e plane t x4 y4 s -> 0 < plane -> computeTxType e plane t x4 y4 (cTxTypes s) = Ok (used_type (block_of e plane t x4 y4 s) 0).
Proof. intros TH TW e plane t x4 y4 s HB Hp. apply (chroma_type TH TW e plane t x4 y4 s HB Hp). Qed.
Print Assumptions C98_chroma_type.
Example C98_case : match coeffs 60 demo_env 0 0 0 0 demo_s with Ok (z, s') => idx2 (cTxTypes s') 0 0 = Ok 11 | _ => False end /\ set_types_of false (tx_set false false 0) = [9; 0; 10; 11; 3; 1; 2].
Proof. split; vm_compute; reflexivity. Qed.

(** ** C99: the number of coefficients *)
(** Refuted: the number returned - on which the reconstruction of the block depends - is 0 whatever was read. *)
Theorem C99_returned_refuted : (forall lim e plane startX startY t s z s', coeffs lim e plane startX startY t s = Ok (z, s') -> z = 0) /\
  exists e s, in_tile (cDec s) 60 /\ cdfs_ok (cCdf s) /\ block_in 2 2 e 0 0 0 0 s /\
    match run (cDisable e) (std_block (Bit Done) (2 ^ 20) 60 (block_of e 0 0 0 0 s) (sorted_scan 0)) (cDec s) (cCdf s), coeffs 60 e 0 0 0 0 s with Ok (r, _, _), Ok (z, _) => rEob r = 11 /\ z = 0 | _, _ => False end.
Proof.
  split.
  - intros lim e plane startX startY t s z s' E. unfold coeffs in E. cbv zeta in E. repeat (apply bind_inv in E as (? & ? & _ & E)). injection E as <- _. reflexivity.
  - exists demo_env, demo_s. split; [unfold in_tile, zlen; cbn; lia|]. split; [apply demo_cdfs_ok; lia|]. split; [apply demo_in|]. vm_compute. repeat split; reflexivity.
Qed.
Print Assumptions C99_returned_refuted.
(** So it is right exactly for the blocks without coefficients. *)
Theorem C99_empty_partial : forall lim TH TW e plane startX startY t scan s endp r d h, (lim <= 60)%nat -> in_tile (cDec s) endp -> cdfs_ok (cCdf s) -> block_in TH TW e plane t (startX / 4) (startY / 4) s ->
  t <> 18 -> (forall c, is_scan t c (scan c)) ->
  run (cDisable e) (std_block (Bit Done) (2 ^ 20) lim (block_of e plane t (startX / 4) (startY / 4) s) scan) (cDec s) (cCdf s) = Ok (r, d, h) -> rEob r = 0 ->
  exists s', coeffs lim e plane startX startY t s = Ok (rEob r, s') /\ cDec s' = d /\ forall i, 0 <= i < coded t -> idx (cQuant s') i = Ok (rCoef r i).
Proof.
  intros lim TH TW e plane startX startY t scan s endp r d h HL HT HC HB H18 HS E HE.
  assert (HZ : Z.abs (rCoef r 0) < 2 ^ 16).
  { enough (rCoef r 0 = 0) as -> by lia. revert E. unfold std_block. cbn [run]. intros E. apply rbind_inv in E as (c & _ & E). apply rbind_inv in E as ([[z c'] d1] & _ & E). apply rbind_inv in E as (t' & _ & E). cbn [fst snd] in E. destruct (z =? 0); [|injection E as <- _ _; reflexivity].
    unfold std_coded in E. rewrite run_andthen in E. apply rbind_inv in E as (x1 & _ & E). rewrite run_andthen in E. apply rbind_inv in E as ([[eob d2] h2] & _ & E). cbn [fst snd] in E. rewrite run_andthen in E. apply rbind_inv in E as ([[q d3] h3] & EL & E). cbn [fst snd] in E.
    rewrite run_andthen in E. apply rbind_inv in E as ([[x4 d4] h4] & ES & E). cbn [run fst snd] in E. injection E as <- _ _. cbn [rEob rCoef] in *. rewrite HE in *. change (Z.to_nat 0) with 0%nat in *. cbn [firstn rev std_levels std_signs run] in *. injection EL as <- _ _. injection ES as <- _ _. reflexivity. }
  pose proof (C96_single_coefficient_partial lim TH TW e plane startX startY t scan s endp r d h HL HT HC HB H18 HS E ltac:(lia) HZ) as F. unfold follows in F. cbv zeta in F. rewrite E in F.
  destruct F as (z & s' & A1 & A2 & _ & _ & _ & Q & _). exists s'. pose proof (proj1 C99_returned_refuted _ _ _ _ _ _ _ _ _ A1) as ->. rewrite HE. auto.
Qed.
Print Assumptions C99_empty_partial.

(** ** C100: termination *)
(** A decoder whose data is used up and whose value is the highest possible reads zeros for ever. *)
Definition exhausted (d : dec) : Prop := 32768 <= SymbolRange d < 65536 /\ SymbolValue d = SymbolRange d - 1 /\ SymbolMaxBits d <= 0 /\ 0 <= Position (Bits d) <= 8 * zlen (Data (Bits d)).
Lemma exhausted_tile d : exhausted d -> tile_state d (Position (Bits d)).
Proof. unfold exhausted, tile_state. lia. Qed.
Lemma exhausted_bit dis d : exhausted d -> exists d', readBool dis d = Ok (0, d') /\ exhausted d'.
Proof.
  intros H. pose proof (exhausted_tile d H) as HT. pose proof H as (HR & HV & HM & HP). destruct (ReadSymbol_spec dis [16384; 32768; 0] d _ valid_bool_cdf HT) as (t & bits & Ht & Hb & Hin & Hbits & E & T'). cbv zeta in *.
  assert (t = 0) as ->.
  { change (nsyms [16384; 32768; 0]) with 2 in Ht. assert (t = 0 \/ t = 1) as [|] by lia; [assumption|]. subst t. exfalso. change (1 - 1) with 0 in Hin. revert Hin. unfold bound. change (0 <? 0) with false. cbv iota. change (at_ [16384; 32768; 0] 0) with 16384. change (nsyms [16384; 32768; 0]) with 2.
    change ((32768 - 16384) / 64) with 256. rewrite HV. pose proof (Z.div_mod (SymbolRange d) 256 ltac:(lia)). pose proof (Z.mod_pos_bound (SymbolRange d) 256 ltac:(lia)). replace (SymbolRange d / 256 * 256 / 2) with (SymbolRange d / 256 * 128) by (replace (SymbolRange d / 256 * 256) with (SymbolRange d / 256 * 128 * 2) by lia; rewrite Z.div_mul by lia; reflexivity). lia. }
  match type of E with _ = _ ?d1 => set (d' := d1) in * end. exists d'. split.
  - unfold readBool. rewrite bind_eq, E, bind_eq. destruct dis; [reflexivity|]. assert (A : exists c', adapt [16384; 32768; 0] (nsyms [16384; 32768; 0]) 0 = Ok c') by (eexists; reflexivity). destruct A as [c' A]. unfold lift. rewrite A. reflexivity.
  - unfold exhausted, d'. cbn [SymbolRange SymbolValue SymbolMaxBits Bits]. destruct T' as (TR & TV & TP & TE & TL). unfold d' in *. cbn [SymbolRange SymbolValue SymbolMaxBits Bits] in *. split; [exact TR|].
    assert (M0 : Z.min bits (Z.max 0 (SymbolMaxBits d)) = 0) by lia. rewrite M0 in *. split.
    + unfold refill. rewrite M0. change (Z.to_nat 0) with 0%nat. rewrite firstn_O. match goal with |- context [?f (@nil ?T)] => change (f (@nil T)) with 0 end. change (bound (SymbolRange d) [16384; 32768; 0] (0 - 1)) with (SymbolRange d). rewrite HV. lia.
    + split; [lia|]. unfold SpecStream.adv, set_pos in *. cbn [Position Data] in *. lia.
Qed.
Lemma exhausted_golomb dis : forall fuel n s, exhausted (cDec s) -> golombLength fuel dis n s = Hang.
Proof.
  induction fuel as [|fuel IH]; intros n s H; [reflexivity|]. cbn [golombLength]. rewrite bind_eq. unfold lit. rewrite L_one. destruct (exhausted_bit dis (cDec s) H) as (d' & E & H'). rewrite E. cbn [rbind fst snd]. change (bool_of (i64 0)) with false. cbv iota. apply IH. exact H'.
Qed.
(** what comes before the signs does not depend on the bound on the loop *)
Definition levels_only (e : CEnv) (plane x4 y4 txSz w4 h4 txSzCtx ptype : Z) : M CS (option (list Z * Z)) :=
  let* s := get in
  let* ctx := lift (allZeroCtx e plane txSz w4 h4 x4 y4 s) in
  let* allZero := sym (cDisable e) "TxbSkipCdf" [txSzCtx; ctx] in
  if bool_of allZero then
    (if plane =? 0 then let* s := get in let* t := lift (fillTypes w4 h4 x4 y4 DCT_DCT (cTxTypes s)) in put (set_types s t (cTxType s)) else ret tt) ;;
    ret None
  else
    (if plane =? 0 then transformType e x4 y4 txSz else ret tt) ;;
    let* s := get in
    let* ty := lift (computeTxType e plane txSz x4 y4 (cTxTypes s)) in
    put (set_planeType s ty) ;;
    let* scan := lift (getScan txSz ty) in
    let* wl := lift (idx TX_WIDTH_LOG2 txSz) in
    let* hl := lift (idx TX_HEIGHT_LOG2 txSz) in
    let* eobPt := readEobPt e plane txSz x4 y4 ptype (Min wl 5 + Min hl 5 - 4) in
    let* eob := readEob e txSzCtx ptype eobPt in
    for_to 0 eob (fun k _ => readLevel e plane txSz x4 y4 txSzCtx ptype eob scan (eob - 1 - k)) tt ;;
    ret (Some (scan, eob)).
Lemma bind_same {S A B C} (m : M S A) (k : A -> M S B) (k' : A -> M S C) (f : C -> M S B) s : (forall a s', k a s' = bind (k' a) f s') -> bind m k s = bind (bind m k') f s.
Proof. intros H. rewrite !bind_eq. destruct (m s) as [[a s']| |]; [apply H|reflexivity|reflexivity]. Qed.
Lemma readBlock_levels fuel e plane x4 y4 txSz w4 h4 txSzCtx ptype s : readBlock fuel e plane x4 y4 txSz w4 h4 txSzCtx ptype s =
  bind (levels_only e plane x4 y4 txSz w4 h4 txSzCtx ptype) (fun o => match o with None => ret (0, 0) | Some (scan, eob) => let* r := for_to 0 eob (fun c acc => readSign fuel e plane w4 h4 x4 y4 ptype scan c acc) (0, 0) in ret (Min 63 (fst r), snd r) end) s.
Proof.
  unfold readBlock, levels_only. apply bind_same. intros s0 s1. apply bind_same. intros ctx s2. apply bind_same. intros az s3. destruct (bool_of az).
  - apply bind_same. intros _ s4. reflexivity.
  - apply bind_same. intros _ s4. apply bind_same. intros s5 s6. apply bind_same. intros ty s7. apply bind_same. intros _ s8. apply bind_same. intros scan s9. apply bind_same. intros wl s10. apply bind_same. intros hl s11.
    apply bind_same. intros pt s12. apply bind_same. intros eob s13. apply bind_same. intros _ s14. reflexivity.
Qed.
Definition exhaustedb (d : dec) : bool := (32768 <=? SymbolRange d) && (SymbolRange d <? 65536) && (SymbolValue d =? SymbolRange d - 1) && (SymbolMaxBits d <=? 0) && (0 <=? Position (Bits d)) && (Position (Bits d) <=? 8 * zlen (Data (Bits d))).
Lemma exhaustedb_ok d : exhaustedb d = true -> exhausted d.
Proof. unfold exhaustedb, exhausted. intros H. repeat (apply andb_true_iff in H as [H ?]). lia. Qed.
(** the first coefficient has a Golomb remainder and the decoder is exhausted when it comes to read it *)
Definition stuckb (e : CEnv) (plane w4 h4 x4 y4 ptype : Z) (scan : list Z) (eob : Z) (s : CS) : bool :=
  (0 <? eob) && match idx scan 0 with Ok pos => match idx (cQuant s) pos, dcSignCtx e plane w4 h4 x4 y4 s with
    | Ok q, Ok ctx => (14 <? q) && match sym (cDisable e) "DcSignCdf" [ptype; ctx] s with Ok (_, s') => exhaustedb (cDec s') | _ => false end
    | _, _ => false end | _ => false end.
Lemma stuck_signs fuel e plane w4 h4 x4 y4 ptype scan eob s acc : stuckb e plane w4 h4 x4 y4 ptype scan eob s = true -> for_to 0 eob (fun c acc => readSign fuel e plane w4 h4 x4 y4 ptype scan c acc) acc s = Hang.
Proof.
  unfold stuckb. intros H. apply andb_true_iff in H as [He H]. destruct (idx scan 0) as [pos| |] eqn:E0; try discriminate. destruct (idx (cQuant s) pos) as [q| |] eqn:Eq; try discriminate. destruct (dcSignCtx e plane w4 h4 x4 y4 s) as [ctx| |] eqn:Ec; try discriminate.
  apply andb_true_iff in H as [Hq H]. destruct (sym (cDisable e) "DcSignCdf" [ptype; ctx] s) as [[v s']| |] eqn:Es; try discriminate. apply exhaustedb_ok in H.
  unfold for_to. rewrite Z.sub_0_r. destruct (Z.to_nat eob) as [|n] eqn:En; [lia|]. cbn [for_from]. rewrite bind_eq.
  assert (R : readSign fuel e plane w4 h4 x4 y4 ptype scan 0 acc s = Hang).
  { unfold readSign. rewrite bind_eq. unfold lift at 1. rewrite E0. cbv iota beta. rewrite bind_eq. unfold get at 1. cbv iota beta. rewrite bind_eq. unfold lift at 1. rewrite Eq. cbv iota beta. rewrite bind_eq. destruct (Z.eqb_spec q 0) as [Q0|Q0]; [apply Z.ltb_lt in Hq; lia|]. cbn [negb].
    change (0 =? 0) with true. cbv iota. rewrite bind_eq. unfold lift at 1. rewrite Ec. cbv iota beta. rewrite Es. cbv iota beta. rewrite bind_eq. change (NUM_BASE_LEVELS + COEFF_BASE_RANGE) with 14. rewrite Hq. rewrite bind_eq, (exhausted_golomb (cDisable e) fuel 0 s' H). reflexivity. }
  rewrite R. reflexivity.
Qed.
(** Refuted: there is a block of 20 bits on which the function never returns: after the data the decoder supplies zeros, and the loop that looks for the end of the Golomb
    prefix has no bound (the standard allows at most 20).  No amount of steps is enough. *)
Definition stuck_s : CS := demo_cs (mkDec 64030 65000 20 (mkBS [0x3F; 0x64; 0x00] 0 0)).
Theorem C100_termination_refuted : exists e s endp, in_tile (cDec s) endp /\ cdfs_ok (cCdf s) /\ block_in 2 2 e 0 0 0 0 s /\ forall steps, coeffs steps e 0 0 0 0 s = Hang.
Proof.
  exists fixed_env, stuck_s, 20. split; [unfold in_tile, zlen; cbn; lia|]. split; [apply demo_cdfs_ok; lia|]. split; [apply demo_in|]. intros steps.
  unfold coeffs. cbv zeta. change (shr 0 2) with 0. rewrite bind_eq. change (lift (idx Tx_Width 0) stuck_s) with (Ok (4, stuck_s)). cbv iota beta. rewrite bind_eq. change (lift (idx Tx_Height 0) stuck_s) with (Ok (4, stuck_s)). cbv iota beta.
  rewrite bind_eq. change (lift (idx TX_SIZE_SQR 0) stuck_s) with (Ok (0, stuck_s)). cbv iota beta. rewrite bind_eq. change (lift (idx TX_SIZE_SQR_UP 0) stuck_s) with (Ok (0, stuck_s)). cbv iota beta.
  rewrite bind_eq. unfold get at 1. cbv iota beta. change (if (0 =? TX_16X64) || (0 =? TX_64X16) then 512 else Min 1024 (4 * 4)) with 16.
  assert (C : match clearQuant 16 stuck_s with Ok s0 => match levels_only fixed_env 0 0 0 0 1 1 0 0 s0 with Ok (Some (scan, eob), s1) => stuckb fixed_env 0 1 1 0 0 0 scan eob s1 | _ => false end | _ => false end = true) by (vm_compute; reflexivity).
  rewrite bind_eq. unfold lift at 1. destruct (clearQuant 16 stuck_s) as [s0| |]; [|discriminate|discriminate]. cbv iota beta. rewrite bind_eq. unfold put at 1. cbv iota beta. rewrite bind_eq. change (shr 4 2) with 1. change (shr (0 + 0 + 1) 1) with 0. change (int_of (0 <? 0)) with 0.
  rewrite readBlock_levels, bind_eq. destruct (levels_only fixed_env 0 0 0 0 1 1 0 0 s0) as [[[[scan eob]|] s1]| |]; try discriminate. rewrite bind_eq, (stuck_signs steps _ _ _ _ _ _ _ _ _ _ (0, 0) C). reflexivity.
Qed.
Print Assumptions C100_termination_refuted.
(** The only reason not to return: a Golomb prefix longer than the bound (the standard's syntax run on the same data exceeds it too). *)
Theorem C100_returns_partial : forall lim TH TW e plane startX startY t scan s endp, (lim <= 60)%nat -> in_tile (cDec s) endp -> cdfs_ok (cCdf s) -> block_in TH TW e plane t (startX / 4) (startY / 4) s ->
  (forall c, is_scan (order_of t) c (scan c)) ->
  (exists z s', coeffs lim e plane startX startY t s = Ok (z, s')) \/ (coeffs lim e plane startX startY t s = Hang /\ run (cDisable e) (std_block (Done 0) (2 ^ 16) lim (block_of e plane t (startX / 4) (startY / 4) s) scan) (cDec s) (cCdf s) = Hang).
Proof.
  intros lim TH TW e plane startX startY t scan s endp HL HT HC HB HS. pose proof (C96_syntax_partial lim TH TW e plane startX startY t scan s endp HL HT HC HB HS) as F. unfold follows in F. cbv zeta in F.
  destruct (run (cDisable e) (std_block (Done 0) (2 ^ 16) lim (block_of e plane t (startX / 4) (startY / 4) s) scan) (cDec s) (cCdf s)) as [[[r d] h]| |]; [left|contradiction|right; auto]. destruct F as (z & s' & E & _). exists z, s'. exact E.
Qed.
Print Assumptions C100_returns_partial.

(** ** C101: where a transform block may lie *)
(** what does not change the contexts *)
Definition keeps {A} (m : M CS A) : Prop := forall s r s', m s = Ok (r, s') -> cAboveL s' = cAboveL s /\ cLeftL s' = cLeftL s.
Lemma keeps_bind {A B} (m : M CS A) (k : A -> M CS B) : keeps m -> (forall a, keeps (k a)) -> keeps (bind m k).
Proof. intros H K s r s' E. apply bind_inv in E as (a & s1 & E1 & E2). destruct (H _ _ _ E1), (K _ _ _ _ E2). split; congruence. Qed.
Lemma keeps_ret {A} (a : A) : keeps (ret a). Proof. intros s r s' [= _ <-]. auto. Qed.
Lemma keeps_lift {A} (a : res A) : keeps (lift a). Proof. intros s r s' E. unfold lift in E. destruct a; try discriminate. injection E as _ <-. auto. Qed.
Lemma keeps_get {A} (k : CS -> M CS A) : (forall s r s', k s s = Ok (r, s') -> cAboveL s' = cAboveL s /\ cLeftL s' = cLeftL s) -> keeps (bind get k).
Proof. intros H s r s' E. exact (H _ _ _ E). Qed.
Lemma keeps_get' {A} (k : CS -> M CS A) : (forall s, keeps (k s)) -> keeps (bind get k).
Proof. intros H. apply keeps_get. intros s r s' E. exact (H s s r s' E). Qed.
Lemma keeps_panic {A} : keeps (@panic CS A). Proof. intros s r s' E. discriminate. Qed.
Lemma keeps_sym dis n p : keeps (sym dis n p).
Proof. intros s r s' E. unfold sym in E. apply rbind_inv in E as (c & _ & E). apply rbind_inv in E as (x & _ & E). apply rbind_inv in E as (t & _ & E). injection E as _ <-. auto. Qed.
Lemma keeps_lit dis n : keeps (lit dis n).
Proof. intros s r s' E. unfold lit in E. apply rbind_inv in E as (x & _ & E). injection E as _ <-. auto. Qed.
Lemma keeps_setQuant p v : keeps (setQuant p v).
Proof. apply keeps_get. intros s r s' E. apply bind_inv in E as (q & s1 & E1 & E2). unfold lift in E1. destruct (upd (cQuant s) p v); try discriminate. injection E1 as <- <-. injection E2 as _ <-. auto. Qed.
Lemma keeps_for {A} a b (f : Z -> A -> M CS A) : (forall k x, keeps (f k x)) -> forall x, keeps (for_to a b f x).
Proof.
  intros H. unfold for_to. generalize (Z.to_nat (b - a)). intros n. revert a. induction n as [|n IH]; intros a x; cbn [for_from]; [apply keeps_ret|]. apply keeps_bind; [apply H|]. intros y. apply IH.
Qed.
Ltac keep := repeat match goal with
  | |- keeps (ret _) => apply keeps_ret | |- keeps (lift _) => apply keeps_lift | |- keeps (sym _ _ _) => apply keeps_sym | |- keeps (lit _ _) => apply keeps_lit
  | |- keeps (setQuant _ _) => apply keeps_setQuant | |- keeps panic => apply keeps_panic | |- keeps (for_to _ _ _ _) => apply keeps_for; intros ? ?
  | |- keeps (bind get _) => apply keeps_get'; intros ? | |- keeps (bind _ _) => apply keeps_bind; [|intros ?] | |- keeps (if ?b then _ else _) => destruct b end.
Lemma keeps_fill w4 h4 x4 y4 v ty : keeps (let* s := get in let* t := lift (fillTypes w4 h4 x4 y4 v (cTxTypes s)) in put (set_types s t (ty s))).
Proof. apply keeps_get. intros s r s' E. apply bind_inv in E as (t & s1 & E1 & E2). unfold lift in E1. destruct (fillTypes w4 h4 x4 y4 v (cTxTypes s)); try discriminate. injection E1 as <- <-. injection E2 as _ <-. auto. Qed.
Lemma keeps_transformType e x4 y4 t : keeps (transformType e x4 y4 t).
Proof.
  unfold transformType. cbv zeta. apply keeps_bind; [keep|]. intros set. apply keeps_bind; [unfold readTxType, intraTxTypeSymbol; keep|]. intros ty. apply keeps_bind; [keep|]. intros w. apply keeps_bind; [keep|]. intros h. apply (keeps_fill _ _ x4 y4 ty (fun _ => ty)).
Qed.
Lemma keeps_readBr n e txSz pos plane x4 y4 c p : forall l, keeps (readBr n e txSz pos plane x4 y4 c p l).
Proof. induction n as [|n IH]; intros l; cbn [readBr]; keep. apply IH. Qed.
Lemma keeps_golomb dis : forall fuel n, keeps (golombLength fuel dis n).
Proof. induction fuel as [|f IH]; intros n; cbn [golombLength]; [intros s r s' E; discriminate|]. keep. apply IH. Qed.
Lemma keeps_levels e plane x4 y4 t w4 h4 c p : keeps (levels_only e plane x4 y4 t w4 h4 c p).
Proof.
  unfold levels_only. apply keeps_get'. intros s. apply keeps_bind; [keep|]. intros ctx. apply keeps_bind; [keep|]. intros az. destruct (bool_of az).
  - apply keeps_bind; [|intros _; keep]. destruct (plane =? 0); [|keep]. apply (keeps_fill w4 h4 x4 y4 DCT_DCT cTxType).
  - apply keeps_bind; [destruct (plane =? 0); [apply keeps_transformType|keep]|]. intros _. apply keeps_get. intros s0 r s' E. apply bind_inv in E as (ty & s1 & E1 & E2). unfold lift in E1. destruct (computeTxType _ _ _ _ _ _); try discriminate. injection E1 as <- <-.
    apply bind_inv in E2 as (u & s1 & E1 & E2). injection E1 as _ <-. revert E2. match goal with |- ?m _ = _ -> _ => assert (K : keeps m) end.
    { apply keeps_bind; [keep|]. intros scan. apply keeps_bind; [keep|]. intros wl. apply keeps_bind; [keep|]. intros hl. apply keeps_bind; [unfold readEobPt; keep|]. intros pt. apply keeps_bind; [unfold readEob; cbv zeta; keep|]. intros eob.
      apply keeps_bind; [|intros _; keep]. apply keeps_for. intros k x. unfold readLevel. keep; apply keeps_readBr. }
    intros E2. exact (K _ _ _ E2).
Qed.
Lemma keeps_readBlock fuel e plane x4 y4 t w4 h4 c p : keeps (readBlock fuel e plane x4 y4 t w4 h4 c p).
Proof.
  intros s r s' E. rewrite readBlock_levels in E. revert s r s' E. apply keeps_bind; [apply keeps_levels|]. intros [[scan eob]|]; [|keep]. apply keeps_bind; [|intros; keep]. apply keeps_for. intros k acc. unfold readSign, golombData. cbv zeta. keep. apply keeps_golomb.
Qed.
(** a loop that ends well has done every step *)
Lemma loop_step {A} (P : A -> Prop) a b (f : Z -> A -> res A) x y k : rfor_to a b f x = Ok y -> a <= k < b -> P x -> (forall i u v, P u -> f i u = Ok v -> P v) -> exists u v, P u /\ f k u = Ok v.
Proof.
  unfold rfor_to. intros E Hk HP HI. assert (Hk' : a <= k < a + Z.of_nat (Z.to_nat (b - a))) by lia. clear Hk. revert E Hk'. generalize (Z.to_nat (b - a)). intros n E Hk'. revert a x E Hk' HP. induction n as [|n IH]; intros a x E Hk HP; [lia|]. cbn [rfor_from] in E. apply rbind_inv in E as (x1 & E1 & E).
  destruct (Z.eq_dec a k) as [<-|N]; [exists x, x1; auto|]. apply (IH (a + 1) x1 E); [lia|]. exact (HI _ _ _ HP E1).
Qed.
Lemma loop_keeps {A} (P : A -> Prop) a b (f : Z -> A -> res A) x y : rfor_to a b f x = Ok y -> P x -> (forall i u v, P u -> f i u = Ok v -> P v) -> P y.
Proof.
  unfold rfor_to. generalize (Z.to_nat (b - a)). intros n. revert a x. induction n as [|n IH]; intros a x E HP HI; [injection E as <-; exact HP|]. cbn [rfor_from] in E. apply rbind_inv in E as (x1 & E1 & E). exact (IH _ _ E (HI _ _ _ HP E1) HI).
Qed.
Lemma upd2_range n m (g : list (list Z)) i j v g' : array2 n m g -> upd2 g i j v = Ok g' -> 0 <= i < n /\ 0 <= j < m.
Proof.
  intros A E. apply (array2_get n m g i j A). unfold upd2 in E. apply rbind_inv in E as (r & E1 & E). apply rbind_inv in E as (r' & E2 & _). unfold idx2. rewrite E1. cbn [rbind]. destruct (upd_inv _ _ _ _ E2) as (H & _). destruct r as [|r0 r]; [exfalso; unfold zlen in H; cbn in H; lia|]. rewrite (idx_ok (r0 :: r) j r0) by lia. eexists. reflexivity.
Qed.

Lemma fill_range TH TW w4 h4 x4 y4 v t t' : array2 TH TW t -> 0 < w4 -> 0 < h4 -> fillTypes w4 h4 x4 y4 v t = Ok t' -> 0 <= x4 /\ x4 + w4 <= TW /\ 0 <= y4 /\ y4 + h4 <= TH.
Proof.
  intros A Hw Hh E. unfold fillTypes in E.
  assert (KI : forall i u u', array2 TH TW u -> rfor_to 0 h4 (fun j t => upd2 t (y4 + j) (x4 + i) v) u = Ok u' -> array2 TH TW u').
  { intros i u u' Au Eu. apply (loop_keeps (array2 TH TW) _ _ _ _ _ Eu Au). intros j a b Aa Ea. exact (array2_upd _ _ _ _ _ _ _ Aa Ea). }
  assert (R : forall i j, 0 <= i < w4 -> 0 <= j < h4 -> 0 <= y4 + j < TH /\ 0 <= x4 + i < TW).
  { intros i j Hi Hj. destruct (loop_step (array2 TH TW) _ _ _ _ _ i E Hi A KI) as (u & u' & Au & Eu).
    destruct (loop_step (array2 TH TW) _ _ _ _ _ j Eu Hj Au) as (a & a' & Aa & Ea); [intros k b c Ab Eb; exact (array2_upd _ _ _ _ _ _ _ Ab Eb)|]. exact (upd2_range _ _ _ _ _ _ _ Aa Ea). }
  pose proof (R 0 0 ltac:(lia) ltac:(lia)). pose proof (R (w4 - 1) (h4 - 1) ltac:(lia) ltac:(lia)). lia.
Qed.
Lemma leave_range W H plane x4 y4 w4 h4 c d s s' : array2 3 W (cAboveL s) -> array2 3 H (cLeftL s) -> 0 < w4 -> 0 < h4 -> leaveCtx plane x4 y4 w4 h4 c d s = Ok s' -> 0 <= x4 /\ x4 + w4 <= W /\ 0 <= y4 /\ y4 + h4 <= H.
Proof.
  intros AA AL Hw Hh E. unfold leaveCtx in E. apply rbind_inv in E as ([al ad] & E1 & E). apply rbind_inv in E as ([ll ld] & E2 & _).
  assert (R : forall N n z (l l' : list (list Z) * list (list Z)) k, array2 3 N (fst l) -> rfor_to 0 n (fun i a => let! l := upd2 (fst a) plane (z + i) c in let! d := upd2 (snd a) plane (z + i) d in Ok (l, d)) l = Ok l' -> 0 <= k < n -> 0 <= z + k < N).
  { intros N n z l l' k Al El Hk. destruct (loop_step (fun a => array2 3 N (fst a)) _ _ _ _ _ k El Hk Al) as (u & u' & Au & Eu).
    - intros i a b Aa Ea. apply rbind_inv in Ea as (l1 & Ea & Eb). apply rbind_inv in Eb as (d1 & _ & Eb). injection Eb as <-. exact (array2_upd _ _ _ _ _ _ _ Aa Ea).
    - apply rbind_inv in Eu as (l1 & Ea & _). apply (upd2_range 3 N _ _ _ _ _ Au Ea). }
  pose proof (R W w4 x4 (cAboveL s, cAboveD s) _ 0 AA E1 ltac:(lia)). pose proof (R W w4 x4 (cAboveL s, cAboveD s) _ (w4 - 1) AA E1 ltac:(lia)). pose proof (R H h4 y4 (cLeftL s, cLeftD s) _ 0 AL E2 ltac:(lia)). pose proof (R H h4 y4 (cLeftL s, cLeftD s) _ (h4 - 1) AL E2 ltac:(lia)). lia.
Qed.
(** The standard decodes every transform block that begins inside the frame, also one that reaches beyond the right or bottom edge.  Refuted: here a block decodes only if it
    lies entirely inside (the contexts are kept for the 4x4 columns and rows of the frame)... *)
Theorem C101_edges_refuted : forall lim e plane startX startY t s z s', 0 <= t < 19 -> array2 3 (cMiCols e) (cAboveL s) -> array2 3 (cMiRows e) (cLeftL s) -> coeffs lim e plane startX startY t s = Ok (z, s') ->
  0 <= startX / 4 /\ startX / 4 + tx_w t / 4 <= cMiCols e /\ 0 <= startY / 4 /\ startY / 4 + tx_h t / 4 <= cMiRows e.
Proof.
  intros lim e plane startX startY t s z s' Ht AA AL E. destruct (tx_logs t Ht) as (adj & wl0 & EW & EH & _). destruct (quarter t Ht) as (QW & QH & _ & _ & RW & RH).
  unfold coeffs in E. cbv zeta in E. rewrite bind_eq in E. unfold lift at 1 in E. rewrite EW in E. cbv iota beta in E. rewrite bind_eq in E. unfold lift at 1 in E. rewrite EH in E. cbv iota beta in E. rewrite QW, QH, !shr_div in E by lia. change (2 ^ 2) with 4 in E.
  apply bind_inv in E as (sq & s1 & E1 & E). unfold lift in E1. destruct (idx TX_SIZE_SQR t); try discriminate. injection E1 as <- <-. apply bind_inv in E as (up & s1 & E1 & E). unfold lift in E1. destruct (idx TX_SIZE_SQR_UP t); try discriminate. injection E1 as <- <-.
  apply bind_inv in E as (s1 & s2 & E1 & E). injection E1 as <- <-. apply bind_inv in E as (s1 & s2 & E1 & E). unfold lift in E1. destruct (clearQuant _ s) as [sc| |] eqn:EC; try discriminate. injection E1 as <- <-.
  apply bind_inv in E as (u & s2 & E1 & E). injection E1 as _ <-. apply bind_inv in E as (r & s2 & E1 & E). destruct (keeps_readBlock _ _ _ _ _ _ _ _ _ _ _ _ _ E1) as [K1 K2].
  apply bind_inv in E as (s3 & s4 & E2 & E). injection E2 as <- <-. apply bind_inv in E as (s3 & s4 & E2 & E). unfold lift in E2. destruct (leaveCtx _ _ _ _ _ _ _ s2) as [sl| |] eqn:EL; try discriminate.
  unfold clearQuant in EC. apply rbind_inv in EC as (q & _ & EC). apply rbind_inv in EC as (dq & _ & EC). injection EC as <-. cbn [cAboveL cLeftL set_clear] in K1, K2.
  rewrite <- K1 in AA. rewrite <- K2 in AL. exact (leave_range (cMiCols e) (cMiRows e) plane (startX / 4) (startY / 4) (tx_w t / 4) (tx_h t / 4) _ _ s2 sl AA AL ltac:(lia) ltac:(lia) EL).
Qed.
Print Assumptions C101_edges_refuted.
(** ... and a luma block only in the top left 8x8 of the frame, since the table of types has 2 x 2 entries. *)
Definition tkeeps {A} (m : M CS A) : Prop := forall s r s', m s = Ok (r, s') -> cTxTypes s' = cTxTypes s.
Lemma types_sym dis n p : tkeeps (sym dis n p).
Proof. intros s r s' E. unfold sym in E. apply rbind_inv in E as (c & _ & E). apply rbind_inv in E as (x & _ & E). apply rbind_inv in E as (t & _ & E). injection E as _ <-. reflexivity. Qed.
Lemma types_bind {A B} (m : M CS A) (k : A -> M CS B) : tkeeps m -> (forall a, tkeeps (k a)) -> tkeeps (bind m k).
Proof. intros H K s r s' E. apply bind_inv in E as (a & s1 & E1 & E2). rewrite (K _ _ _ _ E2), (H _ _ _ E1). reflexivity. Qed.
Lemma types_ret {A} (a : A) : tkeeps (ret a). Proof. intros s r s' [= _ <-]. reflexivity. Qed.
Lemma types_lift {A} (a : res A) : tkeeps (lift a). Proof. intros s r s' E. unfold lift in E. destruct a; try discriminate. injection E as _ <-. reflexivity. Qed.
Lemma types_read e set t : tkeeps (readTxType e set t).
Proof.
  unfold readTxType, intraTxTypeSymbol. repeat match goal with |- tkeeps (ret _) => apply types_ret | |- tkeeps (lift _) => apply types_lift | |- tkeeps (sym _ _ _) => apply types_sym | |- tkeeps (bind _ _) => apply types_bind; [|intros ?] | |- tkeeps (if ?b then _ else _) => destruct b | |- tkeeps panic => intros ? ? ? ?; discriminate end.
Qed.
Theorem C101_luma_refuted : forall lim e startX startY t s z s', 0 <= t < 19 -> array2 2 2 (cTxTypes s) -> coeffs lim e 0 startX startY t s = Ok (z, s') ->
  0 <= startX / 4 /\ startX / 4 + tx_w t / 4 <= 2 /\ 0 <= startY / 4 /\ startY / 4 + tx_h t / 4 <= 2.
Proof.
  intros lim e startX startY t s z s' Ht AT E. destruct (tx_logs t Ht) as (adj & wl0 & EW & EH & _). destruct (quarter t Ht) as (QW & QH & _ & _ & RW & RH).
  unfold coeffs in E. cbv zeta in E. rewrite bind_eq in E. unfold lift at 1 in E. rewrite EW in E. cbv iota beta in E. rewrite bind_eq in E. unfold lift at 1 in E. rewrite EH in E. cbv iota beta in E. rewrite QW, QH, !shr_div in E by lia. change (2 ^ 2) with 4 in E.
  apply bind_inv in E as (sq & s1 & E1 & E). unfold lift in E1. destruct (idx TX_SIZE_SQR t); try discriminate. injection E1 as <- <-. apply bind_inv in E as (up & s1 & E1 & E). unfold lift in E1. destruct (idx TX_SIZE_SQR_UP t); try discriminate. injection E1 as <- <-.
  apply bind_inv in E as (s1 & s2 & E1 & E). injection E1 as <- <-. apply bind_inv in E as (s1 & s2 & E1 & E). unfold lift in E1. destruct (clearQuant _ s) as [sc| |] eqn:EC; try discriminate. injection E1 as <- <-.
  apply bind_inv in E as (u & s2 & E1 & E). injection E1 as _ <-. apply bind_inv in E as (r & s2 & E1 & _).
  unfold clearQuant in EC. apply rbind_inv in EC as (q & _ & EC). apply rbind_inv in EC as (dq & _ & EC). injection EC as <-.
  unfold readBlock in E1. apply bind_inv in E1 as (s3 & s4 & E & E1). injection E as <- <-. apply bind_inv in E1 as (ctx & s4 & E & E1). unfold lift in E. destruct (allZeroCtx _ _ _ _ _ _ _ _); try discriminate. injection E as <- <-.
  apply bind_inv in E1 as (az & s4 & E & E1). apply types_sym in E. cbn [cTxTypes set_clear] in E. change (0 =? 0) with true in E1. cbv iota in E1. destruct (bool_of az).
  - apply bind_inv in E1 as (u' & s5 & E1 & _). apply bind_inv in E1 as (s6 & s7 & E2 & E1). injection E2 as <- <-. apply bind_inv in E1 as (t' & s7 & E2 & _). unfold lift in E2. rewrite E in E2. destruct (fillTypes _ _ _ _ _ (cTxTypes s)) as [tt'| |] eqn:EF; try discriminate. 
    exact (fill_range 2 2 (tx_w t / 4) (tx_h t / 4) (startX / 4) (startY / 4) _ _ _ AT ltac:(lia) ltac:(lia) EF).
  - apply bind_inv in E1 as (u' & s5 & E1 & _). unfold transformType in E1. cbv zeta in E1. apply bind_inv in E1 as (set & s6 & E2 & E1). apply types_lift in E2. apply bind_inv in E1 as (ty & s7 & E3 & E1).
    assert (E3' : cTxTypes s7 = cTxTypes s6). { revert E3. destruct (_ && _); intros E3; [exact (types_read _ _ _ _ _ _ E3)|exact (types_ret _ _ _ _ E3)]. }
    rewrite bind_eq in E1. unfold lift at 1 in E1. rewrite EW in E1. cbv iota beta in E1. rewrite bind_eq in E1. unfold lift at 1 in E1. rewrite EH in E1. cbv iota beta in E1. apply bind_inv in E1 as (s8 & s9 & E4 & E1). injection E4 as <- <-. apply bind_inv in E1 as (t' & s9 & E4 & _). unfold lift in E4.
    rewrite E3', E2, E, QW, QH in E4. destruct (fillTypes _ _ _ _ _ (cTxTypes s)) as [tt'| |] eqn:EF; try discriminate. exact (fill_range 2 2 (tx_w t / 4) (tx_h t / 4) (startX / 4) (startY / 4) _ _ _ AT ltac:(lia) ltac:(lia) EF).
Qed.
Print Assumptions C101_luma_refuted.
(** Inside, it decodes (no panic): C96, C100.  The case of C96 lies inside; one step to the right is outside. *)
Example C101_case : match coeffs 60 demo_env 0 0 0 0 demo_s, coeffs 60 demo_env 0 8 0 0 demo_s with Ok _, Panic => True | _, _ => False end.
Proof. vm_compute. exact I. Qed.
