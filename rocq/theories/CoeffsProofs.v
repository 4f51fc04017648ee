(** Proofs about Coeffs.v: contexts, scans, safety of the whole parse. *)
From Coq Require Import String Permutation.
From Verif Require Import GoBase Bitstream Util UtilProofs Constants Tables Frame Writes Symbol SpecSymbol SymbolProofs CdfMoves CdfMemory CdfMemoryProofs LoopFilter LoopFilterProofs MvStackProofs Coeffs SpecCoeffs.
Local Open Scope Z_scope.

(** ** The sizes *)
Definition tx (t : Z) : Prop := 0 <= t < 19.
Lemma tx_in t : tx t -> In t (map Z.of_nat (seq 0 19)).
Proof. unfold tx. intros. apply in_map_iff. exists (Z.to_nat t). split; [lia|apply in_seq; lia]. Qed.
(** everything the code looks up about a size *)
Definition logs_ok (t : Z) : Prop := exists adj wl,
  idx Tx_Width t = Ok (tx_w t) /\ idx Tx_Height t = Ok (tx_h t) /\ idx ADJUSTED_TX_SIZE t = Ok adj /\ idx TX_WIDTH_LOG2 adj = Ok wl /\ idx Tx_Width adj = Ok (coded_w t) /\ idx Tx_Height adj = Ok (coded_h t) /\
  2 ^ wl = coded_w t /\ 2 <= wl <= 5 /\ 4 <= coded_w t <= 32 /\ 4 <= coded_h t <= 32.
Lemma tx_logs t : tx t -> logs_ok t.
Proof.
  intros H. apply tx_in in H. cbn [seq map In] in H.
  repeat (destruct H as [<-|H]; [do 2 eexists; split; [vm_compute; reflexivity|]; split; [vm_compute; reflexivity|]; split; [vm_compute; reflexivity|]; split; [vm_compute; reflexivity|]; split; [vm_compute; reflexivity|]; split; [vm_compute; reflexivity|]; vm_compute; repeat split; congruence|]). contradiction.
Qed.
(** size class for the tables, and the squares *)
Definition sqr_ok (t : Z) : Prop := exists sq up, idx TX_SIZE_SQR t = Ok sq /\ idx TX_SIZE_SQR_UP t = Ok up /\ 0 <= sq <= up /\ up <= 4 /\ 4 * 2 ^ sq = Z.min (tx_w t) (tx_h t) /\ 4 * 2 ^ up = Z.max (tx_w t) (tx_h t).
Lemma tx_sqr t : tx t -> sqr_ok t.
Proof.
  intros H. apply tx_in in H. cbn [seq map In] in H.
  repeat (destruct H as [<-|H]; [do 2 eexists; split; [vm_compute; reflexivity|]; split; [vm_compute; reflexivity|]; vm_compute; repeat split; congruence|]). contradiction.
Qed.

(** ** Transform types *)
Lemma pow2_eqb a b : 0 <= a -> 0 <= b -> (2 ^ a =? 2 ^ b) = (a =? b).
Proof. intros. destruct (Z.eqb_spec a b), (Z.eqb_spec (2 ^ a) (2 ^ b)); try reflexivity; [congruence|]. exfalso. apply n. apply (Z.pow_inj_r 2); lia. Qed.
Lemma getTxSet_spec e t : tx t -> getTxSet e t = Ok (tx_set (bool_of (cIsInter e)) (cReduced e) t).
Proof.
  intros H. apply tx_in in H. unfold getTxSet. generalize (bool_of (cIsInter e)), (cReduced e). intros i r. cbn [seq map In] in H.
  repeat (destruct H as [<-|H]; [destruct i, r; vm_compute; reflexivity|]). contradiction.
Qed.
Lemma tx_set_range i r t : 0 <= tx_set i r t <= 3 /\ (i = false -> tx_set i r t <= 2).
Proof. unfold tx_set. cbv zeta. destruct (32 <? _); [lia|]. destruct i. - destruct (r || _); [lia|]. destruct (_ =? 16); lia. - destruct (_ =? 32); [lia|]. destruct (r || _); lia. Qed.
Lemma class_of_spec ty : getTxClass ty = match class_of ty with TwoD => 0 | Rows => 1 | Columns => 2 end.
Proof. unfold getTxClass, class_of. change V_DCT with 10. change V_ADST with 12. change V_FLIPADST with 14. change H_DCT with 11. change H_ADST with 13. change H_FLIPADST with 15. destruct (_ || _); [reflexivity|]. destruct (_ || _); reflexivity. Qed.
(** a type in range whose class is one-dimensional only for small blocks *)
Definition type_ok (t ty : Z) : Prop := 0 <= ty <= 15 /\ (class_of ty <> TwoD -> Z.max (tx_w t) (tx_h t) <= 16).
Lemma isTxTypeInSet_ok e set ty : 0 <= set <= 3 -> (bool_of (cIsInter e) = false -> set <= 2) -> 0 <= ty <= 15 ->
  exists b, isTxTypeInSet e set ty = Ok b /\ (b = true <-> In ty (set_types_of (bool_of (cIsInter e)) set)).
Proof.
  intros Hs Hi Ht. unfold isTxTypeInSet. destruct (bool_of (cIsInter e)).
  - assert (K : forallb (fun set => forallb (fun ty => match idx2 Tx_Type_In_Set_Inter set ty with Ok v => Bool.eqb (bool_of v) (existsb (Z.eqb ty) (set_types_of true set)) | _ => false end) (map Z.of_nat (seq 0 16))) (map Z.of_nat (seq 0 4)) = true) by (vm_compute; reflexivity).
    rewrite forallb_forall in K. specialize (K set ltac:(apply in_map_iff; exists (Z.to_nat set); split; [lia|apply in_seq; lia])). rewrite forallb_forall in K. specialize (K ty ltac:(apply in_map_iff; exists (Z.to_nat ty); split; [lia|apply in_seq; lia])).
    destruct (idx2 Tx_Type_In_Set_Inter set ty) as [v| |]; try discriminate. apply Bool.eqb_prop in K. eexists. split; [reflexivity|]. rewrite K, existsb_exists. split; [intros (x & A & B); apply Z.eqb_eq in B; subst; exact A|intros A; exists ty; split; [exact A|apply Z.eqb_refl]].
  - assert (K : forallb (fun set => forallb (fun ty => match idx2 Tx_Type_In_Set_Intra set ty with Ok v => Bool.eqb (bool_of v) (existsb (Z.eqb ty) (set_types_of false set)) | _ => false end) (map Z.of_nat (seq 0 16))) (map Z.of_nat (seq 0 3)) = true) by (vm_compute; reflexivity).
    rewrite forallb_forall in K. specialize (K set ltac:(apply in_map_iff; exists (Z.to_nat set); split; [lia|apply in_seq; lia])). rewrite forallb_forall in K. specialize (K ty ltac:(apply in_map_iff; exists (Z.to_nat ty); split; [lia|apply in_seq; lia])).
    destruct (idx2 Tx_Type_In_Set_Intra set ty) as [v| |]; try discriminate. apply Bool.eqb_prop in K. eexists. split; [reflexivity|]. rewrite K, existsb_exists. split; [intros (x & A & B); apply Z.eqb_eq in B; subst; exact A|intros A; exists ty; split; [exact A|apply Z.eqb_refl]].
Qed.
(** types of a set: their classes fit the sizes that use the set *)
Lemma set_type_ok i r t ty : In ty (set_types_of i (tx_set i r t)) -> type_ok t ty.
Proof.
  intros H. unfold tx_set in H. cbv zeta in H. unfold type_ok. set (m := Z.max (tx_w t) (tx_h t)) in *. set (n := Z.min (tx_w t) (tx_h t)) in *.
  assert (Z2 : ty = 0 \/ ty = 9 \/ 1 <= ty <= 8 -> class_of ty = TwoD).
  { intros X. unfold class_of. replace ((ty =? 10) || (ty =? 12) || (ty =? 14)) with false by (destruct (Z.eqb_spec ty 10), (Z.eqb_spec ty 12), (Z.eqb_spec ty 14); try reflexivity; lia).
    replace ((ty =? 11) || (ty =? 13) || (ty =? 15)) with false by (destruct (Z.eqb_spec ty 11), (Z.eqb_spec ty 13), (Z.eqb_spec ty 15); try reflexivity; lia). reflexivity. }
  assert (B : forall x, (32 <? m) = false -> (m =? 32) = false -> tx_set i r t = x -> m <= 16 \/ True) by auto. clear B.
  assert (P2 : m <= 32 -> m <> 32 -> m <= 16).
  { unfold m, tx_w, tx_h, tx_dims. intros A1 A2. destruct (Z.to_nat t) as [|k]; [cbn in *; lia|]. do 19 (destruct k as [|k]; [cbn in *; lia|]). cbn in *; destruct k; cbn in *; lia. }
  destruct (Z.ltb_spec 32 m).
  - assert (ty = 0) by (destruct i; cbn in H; intuition). split; [lia|]. intros X. exfalso. apply X, Z2. auto.
  - destruct i.
    + destruct (r || (m =? 32)) eqn:E.
      * assert (ty = 9 \/ ty = 0) by (cbn in H; intuition). split; [lia|]. intros X. exfalso. apply X, Z2. lia.
      * apply orb_false_iff in E as [_ E]. apply Z.eqb_neq in E. split; [|intros _; apply P2; lia]. destruct (n =? 16); cbn in H; repeat (destruct H as [<-|H]; [lia|]); contradiction.
    + destruct (Z.eqb_spec m 32).
      * assert (ty = 0) by (cbn in H; intuition). split; [lia|]. intros X. exfalso. apply X, Z2. auto.
      * split; [|intros _; apply P2; lia]. destruct (r || (n =? 16)); cbn in H; repeat (destruct H as [<-|H]; [lia|]); contradiction.
Qed.
Lemma zero_in_set i s : In 0 (set_types_of i s).
Proof. unfold set_types_of. destruct i; destruct s as [|[p|[p|p|]|]|p]; cbn; tauto. Qed.

(** ** Scans *)
Fixpoint incb (key : Z -> Z) (l : list Z) : bool := match l with a :: ((b :: _) as l') => (key a <? key b) && incb key l' | _ => true end.
Lemma incb_ok key l : incb key l = true -> increasing_key key l.
Proof. induction l as [|a [|b l] IH]; cbn; auto. intros H. apply andb_true_iff in H as [H1 H2]. split; [lia|apply IH; exact H2]. Qed.
Lemma increasing_head key : forall l a x, increasing_key key (a :: l) -> In x l -> key a < key x.
Proof. induction l as [|b l IH]; intros a x H Hx; [contradiction|]. cbn in H. destruct H as [H1 H2]. destruct Hx as [->|Hx]; [exact H1|]. specialize (IH b x H2 Hx). lia. Qed.
Lemma increasing_nodup key : forall l, increasing_key key l -> NoDup l.
Proof.
  induction l as [|a l IH]; intros H; [constructor|]. constructor.
  - intro X. pose proof (increasing_head key l a a H X). lia.
  - apply IH. destruct l; [exact I|]. cbn in H. tauto.
Qed.
Definition scanb (t : Z) (c : cls) (l : list Z) : bool := incb (scan_key t c) l && forallb (fun p => (0 <=? p) && (p <? coded t)) l && (zlen l =? coded t).
Lemma scanb_ok t c l : 0 <= coded t -> scanb t c l = true -> is_scan t c l.
Proof.
  intros Hc H. unfold scanb in H. apply andb_true_iff in H as [H HL]. apply andb_true_iff in H as [HI HF]. apply Z.eqb_eq in HL. apply incb_ok in HI. split; [|exact HI].
  apply NoDup_Permutation_bis.
  - eapply increasing_nodup. exact HI.
  - rewrite map_length, seq_length. unfold zlen in HL. lia.
  - intros p Hp. rewrite forallb_forall in HF. specialize (HF p Hp). apply in_map_iff. exists (Z.to_nat p). split; [lia|apply in_seq; lia].
Qed.
Lemma getScan_ok t ty : tx t -> t <> 18 -> type_ok t ty -> exists l, getScan t ty = Ok l /\ is_scan t (class_of ty) l.
Proof.
  intros H N [Ht Hc].
  assert (A : forallb (fun t => (t =? 18) || forallb (fun ty => match class_of ty with TwoD => true | _ => Z.max (tx_w t) (tx_h t) <=? 16 end && match getScan t ty with Ok l => scanb t (class_of ty) l | _ => false end ||
     match class_of ty with TwoD => false | _ => 16 <? Z.max (tx_w t) (tx_h t) end) (map Z.of_nat (seq 0 16))) (map Z.of_nat (seq 0 19)) = true) by (vm_compute; reflexivity).
  rewrite forallb_forall in A. specialize (A t (tx_in t H)). replace (t =? 18) with false in A by (symmetry; apply Z.eqb_neq; exact N). cbn [orb] in A.
  rewrite forallb_forall in A. specialize (A ty ltac:(apply in_map_iff; exists (Z.to_nat ty); split; [lia|apply in_seq; lia])).
  assert (C0 : 0 <= coded t) by (destruct (tx_logs t H) as (adj & wl & _ & _ & _ & _ & _ & _ & _ & _ & W & HH); unfold coded; nia).
  assert (M : (match class_of ty with TwoD => false | _ => 16 <? Z.max (tx_w t) (tx_h t) end) = false) by (destruct (class_of ty); [reflexivity| |]; (apply Z.ltb_ge, Hc; discriminate)).
  rewrite M, orb_false_r in A. apply andb_true_iff in A as [_ A]. destruct (getScan t ty) as [l| |]; try discriminate. exists l. split; [reflexivity|]. apply scanb_ok; assumption.
Qed.
(** 64x16 blocks: the scan of 16x64 blocks, which covers the same positions in another order *)
Lemma getScan_64x16 ty : getScan 18 ty = Ok Default_Scan_16x32 /\ is_scan 17 TwoD Default_Scan_16x32.
Proof. split; [reflexivity|]. apply scanb_ok; [vm_compute; congruence|vm_compute; reflexivity]. Qed.
(** what the parse needs of a scan *)
Definition covers (t : Z) (l : list Z) : Prop := Permutation l (map Z.of_nat (seq 0 (Z.to_nat (coded t)))) /\ idx l 0 = Ok 0.
Lemma scan_covers t ty : tx t -> type_ok t ty -> exists l, getScan t ty = Ok l /\ covers t l.
Proof.
  intros H HT. destruct (Z.eq_dec t 18) as [->|N].
  - exists Default_Scan_16x32. split; [reflexivity|]. split; [apply (getScan_64x16 0)|reflexivity].
  - destruct (getScan_ok t ty H N HT) as (l & E & P & I). exists l. split; [exact E|]. split; [exact P|].
    destruct l as [|a l].
    + apply Permutation_length in P. rewrite map_length, seq_length in P. destruct (tx_logs t H) as (adj & wl & _ & _ & _ & _ & _ & _ & _ & _ & W & HH). unfold coded in P. cbn in P. nia.
    + change (idx (a :: l) 0) with (Ok a). f_equal. destruct (Z.eq_dec a 0) as [|Na]; [assumption|]. exfalso.
      assert (Z0 : In 0 (a :: l)).
      { eapply Permutation_in; [symmetry; exact P|]. apply in_map_iff. exists 0%nat. split; [reflexivity|]. apply in_seq. destruct (tx_logs t H) as (adj & wl & _ & _ & _ & _ & _ & _ & _ & _ & W & HH). unfold coded. nia. }
      destruct Z0 as [|Z0]; [contradiction|]. pose proof (increasing_head _ _ _ _ I Z0) as X.
      assert (Ra : 0 <= a < coded t) by (assert (Y : In a (map Z.of_nat (seq 0 (Z.to_nat (coded t))))) by (eapply Permutation_in; [exact P|left; reflexivity]); apply in_map_iff in Y as (k & <- & Y); apply in_seq in Y; lia).
      destruct (tx_logs t H) as (adj & wl & _ & _ & _ & _ & _ & _ & _ & _ & W & HH).
      assert (K0 : scan_key t (class_of ty) 0 = 0) by (unfold scan_key, row_of, col_of; rewrite Z.div_0_l, Z.mod_0_l by lia; destruct (class_of ty); try reflexivity; change (0 + 0) with 0; change (Z.odd 0) with false; destruct (coded_w t =? coded_h t); [reflexivity|]; destruct (coded_w t <? coded_h t); reflexivity).
      assert (Ka : 0 <= scan_key t (class_of ty) a).
      { unfold scan_key. assert (0 <= row_of t a) by (unfold row_of; apply Z.div_pos; lia). assert (0 <= col_of t a) by (unfold col_of; apply Z.mod_pos_bound; lia). cbv zeta. destruct (class_of ty); [|lia|lia].
        destruct (_ =? _); [destruct (Z.odd _); lia|]. destruct (_ <? _); lia. }
      lia.
Qed.

(** ** Contexts *)
Definition qat (q : list Z) (p : Z) : Z := match idx q p with Ok v => v | _ => 0 end.
Lemma qat_ok q p : 0 <= p < zlen q -> idx q p = Ok (qat q p).
Proof. intros H. unfold qat. rewrite (idx_ok q p 0 H). reflexivity. Qed.
Lemma pos_rc t p : tx t -> 0 <= p < coded t -> 0 <= row_of t p < coded_h t /\ 0 <= col_of t p < coded_w t /\ p = row_of t p * coded_w t + col_of t p.
Proof.
  intros H Hp. destruct (tx_logs t H) as (adj & wl & _ & _ & _ & _ & _ & _ & _ & _ & W & HH). unfold row_of, col_of, coded in *. pose proof (Z.div_mod p (coded_w t) ltac:(lia)). pose proof (Z.mod_pos_bound p (coded_w t) ltac:(lia)).
  assert (0 <= p / coded_w t) by (apply Z.div_pos; lia). assert (p / coded_w t < coded_h t) by (apply Z.div_lt_upper_bound; lia). lia.
Qed.
Lemma row_shr t p wl : tx t -> 0 <= p < coded t -> 2 ^ wl = coded_w t -> 2 <= wl <= 5 -> shr p wl = row_of t p /\ p - shl (shr p wl) wl = col_of t p /\ shl 1 wl = coded_w t.
Proof.
  intros H Hp E Hw. destruct (pos_rc t p H Hp) as (A & B & C). destruct (tx_logs t H) as (adj & wl' & _ & _ & _ & _ & _ & _ & _ & _ & W & HH).
  assert (S : shr p wl = row_of t p) by (rewrite shr_div by lia; unfold row_of; rewrite E; reflexivity). rewrite S. split; [reflexivity|].
  assert (W32 : 0 <= row_of t p * coded_w t <= 1024) by nia.
  rewrite !shl_small by (rewrite ?E; change (2 ^ 63) with 9223372036854775808; lia). rewrite E. lia.
Qed.
Lemma Min_min2 a b : Min a b = Z.min a b. Proof. apply Min_min. Qed.
(** one neighbour *)
Definition near_term (t : Z) (q : Z -> Z) (cut r k : Z) (o : Z * Z) : Z := if (r + fst o <? coded_h t) && (k + snd o <? coded_w t) then Z.min (q ((r + fst o) * coded_w t + (k + snd o))) cut else 0.
Lemma near_pos t q offs cut r k : 0 <= cut -> (forall p, 0 <= q p) -> 0 <= near_sum t q offs cut r k.
Proof. intros Hc Hq. unfold near_sum. induction offs as [|o l IH]; cbn [fold_right]; [lia|]. destruct (_ && _); [|lia]. pose proof (Hq ((r + fst o) * coded_w t + (k + snd o))). lia. Qed.
Definition quant_ok (t : Z) (q : list Z) : Prop := coded t <= zlen q /\ forall p v, idx q p = Ok v -> 0 <= p < coded t -> 0 <= v <= 15.
Lemma qat_range t q p : quant_ok t q -> 0 <= p < coded t -> 0 <= qat q p <= 15.
Proof. intros [L R] Hp. apply (R p); [apply qat_ok; lia|exact Hp]. Qed.
Lemma near_step t (q : list Z) r k dr dc cut mag (f : Z -> Z) : tx t -> coded t <= zlen q -> 0 <= r -> 0 <= k -> 0 <= dr -> 0 <= dc ->
  (if (0 <=? r + dr) && (0 <=? k + dc) && (r + dr <? coded_h t) && (k + dc <? coded_w t) then let! v := idx q ((r + dr) * coded_w t + (k + dc)) in Ok (mag + Min (f v) cut) else Ok mag)
  = Ok (mag + near_term t (fun p => f (qat q p)) cut r k (dr, dc)).
Proof.
  intros H HL Hr Hk Hdr Hdc. destruct (tx_logs t H) as (adj & wl & _ & _ & _ & _ & _ & _ & _ & _ & W & HH). replace (0 <=? r + dr) with true by (symmetry; apply Z.leb_le; lia). replace (0 <=? k + dc) with true by (symmetry; apply Z.leb_le; lia). cbn [andb]. unfold near_term. cbn [fst snd].
  destruct (Z.ltb_spec (r + dr) (coded_h t)); [|cbn [andb]; f_equal; lia]. destruct (Z.ltb_spec (k + dc) (coded_w t)); cbn [andb]; [|f_equal; lia].
  rewrite qat_ok by (unfold coded in HL; nia). cbn [rbind]. rewrite Min_min. reflexivity.
Qed.

Lemma coeffBrCtx_spec e t p plane x4 y4 s ty : tx t -> 0 <= p < coded t -> computeTxType e plane t x4 y4 (cTxTypes s) = Ok ty -> quant_ok t (cQuant s) ->
  coeffBrCtx e t p plane x4 y4 s = Ok (range_context t (class_of ty) (qat (cQuant s)) p) /\ 0 <= range_context t (class_of ty) (qat (cQuant s)) p < 21.
Proof.
  intros H Hp ET HQ. destruct (tx_logs t H) as (adj & wl & _ & _ & E1 & E2 & E3 & E4 & W2 & Hwl & W & HH). destruct (row_shr t p wl H Hp W2 Hwl) as (R1 & R2 & R3). destruct (pos_rc t p H Hp) as (Rr & Rk & _).
  split.
  - unfold coeffBrCtx. rewrite E1. cbn [rbind]. rewrite E2. cbn [rbind]. rewrite E3. cbn [rbind]. rewrite E4. cbn [rbind]. rewrite ET. cbn [rbind]. cbv zeta. rewrite R2, R1, R3, class_of_spec.
    set (r := row_of t p) in *. set (k := col_of t p) in *. change (COEFF_BASE_RANGE + NUM_BASE_LEVELS + 1) with 15.
    assert (EM : forall c, (let! mag := rfor_to 0 3 (fun i mag => let! dr := idx3 MAG_REF_OFFSET_WITH_TX_CLASS (match c with TwoD => 0 | Rows => 1 | Columns => 2 end) i 0 in let! dc := idx3 MAG_REF_OFFSET_WITH_TX_CLASS (match c with TwoD => 0 | Rows => 1 | Columns => 2 end) i 1 in
        if (0 <=? r + dr) && (0 <=? k + dc) && (r + dr <? coded_h t) && (k + dc <? coded_w t) then let! q := idx (cQuant s) ((r + dr) * coded_w t + (k + dc)) in Ok (mag + Min q 15) else Ok mag) 0 in Ok mag) = Ok (near_sum t (qat (cQuant s)) (range_neighbours c) 15 r k)).
    { intros c. unfold rfor_to. change (Z.to_nat (3 - 0)) with 3%nat. cbn [rfor_from].
      destruct c; cbn [range_neighbours];
        repeat match goal with |- context [idx3 MAG_REF_OFFSET_WITH_TX_CLASS ?a ?b ?c] => let v := eval vm_compute in (idx3 MAG_REF_OFFSET_WITH_TX_CLASS a b c) in change (idx3 MAG_REF_OFFSET_WITH_TX_CLASS a b c) with v end; cbn [rbind];
        repeat (rewrite (near_step t (cQuant s) r k _ _ 15 _ (fun v => v)) by (try exact H; try exact (proj1 HQ); lia); cbn [rbind]);
        unfold near_sum, near_term; cbn [fold_right fst snd]; f_equal; lia. }
    specialize (EM (class_of ty)). match type of EM with rbind ?x _ = _ => destruct x as [mag| |]; try discriminate end. cbn [rbind] in *. injection EM as ->.
    unfold range_context. fold r k. cbv zeta. rewrite Min_min, shr_div by lia. change (2 ^ 1) with 2. set (mag := Z.min _ 6).
    destruct (class_of ty); cbn [Z.eqb Pos.eqb].
    + destruct (p =? 0); [f_equal; lia|]. change (0 =? 0) with true. cbv iota. destruct ((r <? 2) && (k <? 2)); reflexivity.
    + destruct (p =? 0); [f_equal; lia|]. change (1 =? 0) with false. change (1 =? 1) with true. cbv iota. destruct (k =? 0); reflexivity.
    + destruct (p =? 0); [f_equal; lia|]. change (2 =? 0) with false. change (2 =? 1) with false. cbv iota. destruct (r =? 0); reflexivity.
  - unfold range_context. cbv zeta.
    assert (N : 0 <= near_sum t (qat (cQuant s)) (range_neighbours (class_of ty)) 15 (row_of t p) (col_of t p)).
    { (* positions outside the coded area do not occur *)
      unfold near_sum. induction (range_neighbours (class_of ty)) as [|o l IH]; cbn [fold_right]; [lia|]. destruct ((row_of t p + fst o <? coded_h t) && (col_of t p + snd o <? coded_w t)) eqn:E; [|lia].
      assert (0 <= qat (cQuant s) ((row_of t p + fst o) * coded_w t + (col_of t p + snd o)) \/ qat (cQuant s) ((row_of t p + fst o) * coded_w t + (col_of t p + snd o)) < 0) as [X|X] by lia; [lia|]. exfalso.
      unfold qat in X. destruct (idx (cQuant s) _) as [v| |] eqn:Ev; [|lia|lia]. pose proof (idx_inv _ _ _ Ev) as [Iv _]. apply andb_true_iff in E as [Ea Eb].
      assert (v < 0) by lia. clear X. destruct HQ as [HL HR]. assert (Hlt : (row_of t p + fst o) * coded_w t + (col_of t p + snd o) < coded t) by (unfold coded; nia). specialize (HR _ _ Ev ltac:(lia)). lia. }
    pose proof (Z.div_pos (near_sum t (qat (cQuant s)) (range_neighbours (class_of ty)) 15 (row_of t p) (col_of t p) + 1) 2 ltac:(lia) ltac:(lia)).
    destruct (p =? 0); [lia|]. destruct (match class_of ty with TwoD => _ | Rows => _ | Columns => _ end); lia.
Qed.

Lemma base_table t r k : tx t -> 0 <= r < coded_h t -> 0 <= k < coded_w t -> ~ (r = 0 /\ k = 0) -> idx3 COEFF_BASE_CTX_OFFSET t (Z.min r 4) (Z.min k 4) = Ok (base_offset t TwoD r k).
Proof.
  intros H Hr Hk N.
  assert (A : forallb (fun t => forallb (fun r => forallb (fun k => negb ((r <? coded_h t) && (k <? coded_w t)) || (r =? 0) && (k =? 0) || match idx3 COEFF_BASE_CTX_OFFSET t r k with Ok v => v =? base_offset t TwoD r k | _ => false end) (map Z.of_nat (seq 0 5))) (map Z.of_nat (seq 0 5))) (map Z.of_nat (seq 0 19)) = true) by (vm_compute; reflexivity).
  rewrite forallb_forall in A. specialize (A t (tx_in t H)). rewrite forallb_forall in A. specialize (A (Z.min r 4) ltac:(apply in_map_iff; exists (Z.to_nat (Z.min r 4)); split; [lia|apply in_seq; lia])).
  rewrite forallb_forall in A. specialize (A (Z.min k 4) ltac:(apply in_map_iff; exists (Z.to_nat (Z.min k 4)); split; [lia|apply in_seq; lia])).
  replace (Z.min r 4 <? coded_h t) with true in A by (symmetry; apply Z.ltb_lt; lia). replace (Z.min k 4 <? coded_w t) with true in A by (symmetry; apply Z.ltb_lt; lia). cbn [andb negb orb] in A.
  replace ((Z.min r 4 =? 0) && (Z.min k 4 =? 0)) with false in A by (destruct (Z.eqb_spec (Z.min r 4) 0), (Z.eqb_spec (Z.min k 4) 0); try reflexivity; lia). cbn [orb] in A.
  destruct (idx3 COEFF_BASE_CTX_OFFSET t (Z.min r 4) (Z.min k 4)) as [v| |]; try discriminate. apply Z.eqb_eq in A. f_equal. rewrite A. unfold base_offset.
  replace (Z.min r 4 <? 2) with (r <? 2) by (destruct (Z.ltb_spec r 2), (Z.ltb_spec (Z.min r 4) 2); try reflexivity; lia). replace (Z.min k 4 <? 2) with (k <? 2) by (destruct (Z.ltb_spec k 2), (Z.ltb_spec (Z.min k 4) 2); try reflexivity; lia).
  replace (Z.min r 4 + Z.min k 4 <? 2) with (r + k <? 2) by (destruct (Z.ltb_spec (r + k) 2), (Z.ltb_spec (Z.min r 4 + Z.min k 4) 2); try reflexivity; lia).
  replace (Z.min r 4 + Z.min k 4 <? 4) with (r + k <? 4) by (destruct (Z.ltb_spec (r + k) 4), (Z.ltb_spec (Z.min r 4 + Z.min k 4) 4); try reflexivity; lia). reflexivity.
Qed.
Lemma base_offset_range t c r k : 0 <= r -> 0 <= k -> 1 <= base_offset t c r k <= 36.
Proof. intros. unfold base_offset. destruct c; [|lia|lia]. repeat match goal with |- context [if ?b then _ else _] => destruct b end; lia. Qed.
Lemma base_context_range t c q p : tx t -> 0 <= p < coded t -> (forall p, 0 <= q p) -> 0 <= base_context t c q p < 42.
Proof.
  intros H Hp Hq. destruct (pos_rc t p H Hp) as (Rr & Rk & _).
  assert (K : 0 <= Z.min ((near_sum t q (base_neighbours c) 3 (row_of t p) (col_of t p) + 1) / 2) 4 + base_offset t c (row_of t p) (col_of t p) < 42).
  { pose proof (near_pos t q (base_neighbours c) 3 (row_of t p) (col_of t p) ltac:(lia) Hq). pose proof (base_offset_range t c (row_of t p) (col_of t p) ltac:(lia) ltac:(lia)).
    pose proof (Z.div_pos (near_sum t q (base_neighbours c) 3 (row_of t p) (col_of t p) + 1) 2 ltac:(lia) ltac:(lia)). lia. }
  unfold base_context. cbv zeta. destruct c; [destruct p; [lia|exact K|exact K]|exact K|exact K].
Qed.
Lemma coeffBaseCtx_spec e t p c plane x4 y4 s ty : tx t -> 0 <= p < coded t -> computeTxType e plane t x4 y4 (cTxTypes s) = Ok ty -> quant_ok t (cQuant s) ->
  coeffBaseCtx e t plane x4 y4 p c false s = Ok (base_context t (class_of ty) (fun i => Z.abs (qat (cQuant s) i)) p).
Proof.
  intros H Hp ET HQ. destruct (tx_logs t H) as (adj & wl & _ & _ & E1 & E2 & E3 & E4 & W2 & Hwl & W & HH). destruct (row_shr t p wl H Hp W2 Hwl) as (R1 & R2 & R3). destruct (pos_rc t p H Hp) as (Rr & Rk & Ep).
  unfold coeffBaseCtx. rewrite E1. cbn [rbind]. rewrite E2. cbn [rbind]. cbv zeta. rewrite E4. cbn [rbind]. rewrite ET. cbn [rbind]. rewrite R2, R1, R3, class_of_spec.
  set (r := row_of t p) in *. set (k := col_of t p) in *.
  assert (HS : forall a, 0 <= a -> a < coded_h t -> shl a wl = a * coded_w t) by (intros a A1 A2; rewrite shl_small by (rewrite ?W2; change (2 ^ 63) with 9223372036854775808; nia); rewrite W2; reflexivity).
  assert (EM : forall c, (let! mag := rfor_to 0 SIG_REF_DIFF_OFFSET_NUM (fun i mag => let! dr := idx3 SIG_REF_DIFF_OFFSET (match c with TwoD => 0 | Rows => 1 | Columns => 2 end) i 0 in let! dc := idx3 SIG_REF_DIFF_OFFSET (match c with TwoD => 0 | Rows => 1 | Columns => 2 end) i 1 in
      if (0 <=? r + dr) && (0 <=? k + dc) && (r + dr <? coded_h t) && (k + dc <? coded_w t) then let! q := idx (cQuant s) (shl (r + dr) wl + (k + dc)) in Ok (mag + Min (Abs q) 3) else Ok mag) 0 in Ok mag) = Ok (near_sum t (fun i => Z.abs (qat (cQuant s) i)) (base_neighbours c) 3 r k)).
  { intros c'.
    assert (ST : forall dr dc mag, 0 <= dr -> 0 <= dc -> (if (0 <=? r + dr) && (0 <=? k + dc) && (r + dr <? coded_h t) && (k + dc <? coded_w t) then let! q := idx (cQuant s) (shl (r + dr) wl + (k + dc)) in Ok (mag + Min (Abs q) 3) else Ok mag)
       = Ok (mag + near_term t (fun i => Z.abs (qat (cQuant s) i)) 3 r k (dr, dc))).
    { intros dr dc mag Hdr Hdc. rewrite <- (near_step t (cQuant s) r k dr dc 3 mag Z.abs H (proj1 HQ)) by lia.
      destruct (Z.ltb_spec (r + dr) (coded_h t)); [|rewrite !andb_false_r; reflexivity]. destruct (Z.ltb_spec (k + dc) (coded_w t)); [|rewrite !andb_false_r; reflexivity]. rewrite HS by lia.
      match goal with |- (if ?b then _ else _) = _ => destruct b; [|reflexivity] end. assert (Hlt : 0 <= (r + dr) * coded_w t + (k + dc) < coded t) by (unfold coded; nia).
      pose proof (qat_range t _ _ HQ Hlt) as Rg. rewrite qat_ok by (destruct HQ; lia). cbn [rbind]. rewrite Abs_abs by (change (2 ^ 62) with 4611686018427387904; lia). reflexivity. }
    unfold rfor_to. change (Z.to_nat (SIG_REF_DIFF_OFFSET_NUM - 0)) with 5%nat. cbn [rfor_from].
    destruct c'; cbn [base_neighbours];
      repeat match goal with |- context [idx3 SIG_REF_DIFF_OFFSET ?a ?b ?c] => let v := eval vm_compute in (idx3 SIG_REF_DIFF_OFFSET a b c) in change (idx3 SIG_REF_DIFF_OFFSET a b c) with v end; cbn [rbind];
      repeat (rewrite ST by lia; cbn [rbind]); unfold near_sum, near_term; cbn [fold_right fst snd]; f_equal; lia. }
  specialize (EM (class_of ty)). match type of EM with rbind ?x _ = _ => destruct x as [mag| |]; try discriminate end. cbn [rbind] in *. injection EM as ->.
  unfold base_context. fold r k. cbv zeta. rewrite !Min_min, shr_div by lia. change (2 ^ 1) with 2.
  change TX_CLASS_2D with 0. change TX_CLASS_VERT with 2. change COEFF_BASE_POS_CTX_OFFSET with [26; 31; 36].
  destruct (class_of ty).
  - change (0 =? 0) with true. cbv iota. destruct (Z.eq_dec p 0) as [P0|P0].
    + assert (r = 0 /\ k = 0) as [-> ->] by nia. change ((0 =? 0) && (0 =? 0)) with true. cbv iota. subst p. reflexivity.
    + assert (N : ~ (r = 0 /\ k = 0)) by nia. replace ((r =? 0) && (k =? 0)) with false by (destruct (Z.eqb_spec r 0), (Z.eqb_spec k 0); try reflexivity; lia). rewrite (base_table t r k H Rr Rk N). cbn [rbind]. destruct p; [lia|reflexivity|reflexivity].
  - change (1 =? 0) with false. change (1 =? 2) with false. cbv iota. unfold base_offset. assert (Z.min k 2 = 0 \/ Z.min k 2 = 1 \/ Z.min k 2 = 2) as [X|[X|X]] by lia; rewrite X; reflexivity.
  - change (2 =? 0) with false. change (2 =? 2) with true. cbv iota. unfold base_offset. assert (Z.min r 2 = 0 \/ Z.min r 2 = 1 \/ Z.min r 2 = 2) as [X|[X|X]] by lia; rewrite X; reflexivity.
Qed.
Lemma lastCtx_spec e t p c plane x4 y4 s ty : tx t -> 0 <= c -> computeTxType e plane t x4 y4 (cTxTypes s) = Ok ty ->
  coeffBaseCtx e t plane x4 y4 p c true s = Ok (last_context t c + 38) /\ 0 <= last_context t c < 4.
Proof.
  intros H Hc ET. destruct (tx_logs t H) as (adj & wl & _ & _ & E1 & E2 & E3 & E4 & W2 & Hwl & W & HH). split.
  - unfold coeffBaseCtx. rewrite E1. cbn [rbind]. rewrite E2. cbn [rbind]. cbv zeta. rewrite E4. cbn [rbind]. rewrite ET. cbn [rbind]. rewrite shl_small by (rewrite ?W2; change (2 ^ 63) with 9223372036854775808; nia). rewrite W2. change SIG_COEF_CONTEXTS with 42.
    assert (N0 : 0 <= coded_h t * coded_w t) by nia. rewrite !Z.quot_div_nonneg by lia. unfold last_context, coded. rewrite (Z.mul_comm (coded_w t)). set (n := coded_h t * coded_w t) in *.
    destruct (Z.eqb_spec c 0); [reflexivity|].
    pose proof (Z.div_mod n 8 ltac:(lia)). pose proof (Z.mod_pos_bound n 8 ltac:(lia)). pose proof (Z.div_mod n 4 ltac:(lia)). pose proof (Z.mod_pos_bound n 4 ltac:(lia)).
    destruct (Z.leb_spec c (n / 8)), (Z.leb_spec (8 * c) n); try reflexivity; try lia. destruct (Z.leb_spec c (n / 4)), (Z.leb_spec (4 * c) n); try reflexivity; lia.
  - unfold last_context. repeat match goal with |- context [if ?b then _ else _] => destruct b end; lia.
Qed.
