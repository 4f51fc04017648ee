(** The coefficient parser follows the standard's syntax. *)
From Coq Require Import String Permutation.
From Verif Require Import GoBase Bitstream Util UtilProofs Constants Tables Frame Writes Symbol SpecSymbol SymbolProofs CdfMoves CdfMemory CdfMemoryProofs LoopFilter LoopFilterProofs MvStackProofs Coeffs SpecCoeffs CoeffRun CoeffsProofs CoeffsCtx.
Local Open Scope Z_scope.

Section Sim.
Context (dis : bool) (endp : Z).
Definition good (d : dec) (h : string -> tree) : Prop := tile_state d endp /\ cdfs_ok h.
Definition goods (s : CS) : Prop := good (cDec s) (cCdf s).
Definition sim {A B} (p : prog A) (m : M CS B) (s : CS) (Q : A -> B -> CS -> Prop) : Prop :=
  match run dis p (cDec s) (cCdf s) with
  | Ok (a, d, h) => exists b s', m s = Ok (b, s') /\ cDec s' = d /\ cCdf s' = h /\ Q a b s'
  | Panic => False | Hang => m s = Hang end.
Lemma sim_done {A B} (a : A) (m : M CS B) s b s' (Q : A -> B -> CS -> Prop) : m s = Ok (b, s') -> cDec s' = cDec s -> cCdf s' = cCdf s -> Q a b s' -> sim (Done a) m s Q.
Proof. intros. unfold sim. cbn [run]. exists b, s'. auto. Qed.
Lemma sim_ret {A B} (a : A) (b : B) s (Q : A -> B -> CS -> Prop) : Q a b s -> sim (Done a) (ret b) s Q.
Proof. intros. eapply sim_done; [reflexivity|reflexivity|reflexivity|assumption]. Qed.
Lemma sim_bind {A A' B B'} (p : prog A) (f : A -> prog A') (m : M CS B) (k : B -> M CS B') s R Q :
  sim p m s R -> (forall a b s1, R a b s1 -> sim (f a) (k b) s1 Q) -> sim (andthen p f) (bind m k) s Q.
Proof.
  unfold sim. intros H K. rewrite run_andthen, bind_eq. destruct (run dis p (cDec s) (cCdf s)) as [[[a d] h]| |]; cbn [rbind fst snd]; [|contradiction|rewrite H; reflexivity].
  destruct H as (b & s1 & E & <- & <- & HR). rewrite E. specialize (K a b s1 HR). exact K.
Qed.
(** steps of the code that do not read *)
Lemma sim_step {A B B'} (p : prog A) (m : M CS B) (k : B -> M CS B') s b s1 Q :
  m s = Ok (b, s1) -> cDec s1 = cDec s -> cCdf s1 = cCdf s -> sim p (k b) s1 Q -> sim p (bind m k) s Q.
Proof. unfold sim. intros E E1 E2. rewrite E1, E2, bind_eq, E. auto. Qed.
Lemma sim_lift {A B B'} (p : prog A) (r : res B) (k : B -> M CS B') s b Q : r = Ok b -> sim p (k b) s Q -> sim p (bind (lift r) k) s Q.
Proof. intros ->. apply sim_step; reflexivity. Qed.
Lemma sim_get {A B'} (p : prog A) (k : CS -> M CS B') s Q : sim p (k s) s Q -> sim p (bind get k) s Q.
Proof. apply sim_step; reflexivity. Qed.
Lemma sim_weaken {A B} (p : prog A) (m : M CS B) s (Q Q' : A -> B -> CS -> Prop) : (forall a b s', Q a b s' -> Q' a b s') -> sim p m s Q -> sim p m s Q'.
Proof. unfold sim. intros W. destruct (run dis p (cDec s) (cCdf s)) as [[[a d] h]| |]; auto. intros (b & s' & A1 & A2 & A3 & A4). exists b, s'. auto. Qed.

(** only the decoder moved *)
Definition moved (s s' : CS) : Prop := goods s' /\ exists d h, s' = set_dec s d h.
Lemma moved_refl s : goods s -> moved s s.
Proof. intros H. split; [exact H|]. exists (cDec s), (cCdf s). destruct s. reflexivity. Qed.
Lemma moved_trans s s1 s2 : moved s s1 -> moved s1 s2 -> moved s s2.
Proof. intros (_ & d1 & h1 & ->) (G & d2 & h2 & ->). split; [exact G|]. exists d2, h2. reflexivity. Qed.
Lemma sim_sym name dims n path s : goods s -> In (name, dims, n) coeff_cdfs -> path_in path dims ->
  sim (Sym name path Done) (sym dis name path) s (fun a b s' => a = b /\ 0 <= b < n /\ moved s s').
Proof.
  intros [GT GC] HI HP. destruct (GC name dims n path HI HP) as (c & Ec & Vc & Nc). unfold sim, sym. cbn [run]. rewrite Ec. cbn [rbind].
  destruct (ReadSymbol_safe dis c (cDec s) endp Vc GT) as (v & c' & d' & E & S & Hv & Vc' & Lc & _). rewrite E. cbn [rbind fst snd].
  destruct (tput_ok (cCdf s name) path c c' Ec) as [t' Et]. rewrite Et. cbn [rbind]. eexists v, _. split; [reflexivity|]. split; [reflexivity|]. split; [reflexivity|]. split; [reflexivity|]. split; [lia|].
  split; [|exists d', (hset (cCdf s) name t'); reflexivity]. split; [apply S|]. cbn [cCdf set_dec]. intros nm dm n' p Hin Hp. specialize (GC nm dm n' p Hin Hp). unfold has_cdf. rewrite hset_get. destruct (String.eqb_spec name nm) as [->|]; [|exact GC].
  rewrite (tput_tget _ _ _ _ Et). destruct (zs_eqb path p) eqn:Ez; [|exact GC]. apply zs_eqb_eq in Ez. subst p. exists c'. split; [reflexivity|]. split; [exact Vc'|].
  destruct GC as (c2 & E2 & _ & N2). rewrite Ec in E2. injection E2 as <-. unfold nsyms in *. rewrite Lc. exact N2.
Qed.
Lemma L_one d : L dis 1 d = match readBool dis d with Ok (b, d') => Ok (i64 b, d') | Panic => Panic | Hang => Hang end.
Proof. unfold L, for_to. change (Z.to_nat (1 - 0)) with 1%nat. cbn [for_from]. unfold bind, ret. destruct (readBool dis d) as [[b d']| |]; try reflexivity. Qed.
Lemma sim_bit s : goods s -> sim (Bit Done) (lit dis 1) s (fun a b s' => a = b /\ 0 <= b <= 1 /\ moved s s').
Proof.
  intros [GT GC]. unfold sim, lit. cbn [run]. rewrite L_one. destruct (readBool_safe dis (cDec s) endp GT) as (b & d' & E & S & Hb). rewrite E. cbn [rbind fst snd].
  rewrite i64_id by (change (2 ^ 63) with 9223372036854775808; lia). eexists b, _. split; [reflexivity|]. split; [reflexivity|]. split; [reflexivity|]. split; [reflexivity|]. split; [exact Hb|]. split; [|exists d', (cCdf s); reflexivity]. split; [apply S|exact GC].
Qed.
(** the same, with what follows *)
Lemma sim_symk {A B} name dims n path (f : Z -> prog A) (k : Z -> M CS B) s Q : goods s -> In (name, dims, n) coeff_cdfs -> path_in path dims ->
  (forall v s', 0 <= v < n -> moved s s' -> sim (f v) (k v) s' Q) -> sim (Sym name path f) (bind (sym dis name path) k) s Q.
Proof.
  intros G HI HP K. change (Sym name path f) with (andthen (Sym name path Done) f). eapply sim_bind; [apply (sim_sym name dims n path s G HI HP)|]. intros a b s1 (-> & Hb & M1). apply K; assumption.
Qed.
Lemma sim_bitk {A B} (f : Z -> prog A) (k : Z -> M CS B) s Q : goods s ->
  (forall v s', 0 <= v <= 1 -> moved s s' -> sim (f v) (k v) s' Q) -> sim (Bit f) (bind (lit dis 1) k) s Q.
Proof. intros G K. change (Bit f) with (andthen (Bit Done) f). eapply sim_bind; [apply (sim_bit s G)|]. intros a b s1 (-> & Hb & M1). apply K; assumption. Qed.

Lemma sim_assoc {A B C D} (p : prog A) (m : M CS B) (k : B -> M CS C) (h : C -> M CS D) s Q : sim p (bind (bind m k) h) s Q -> sim p (bind m (fun a => bind (k a) h)) s Q.
Proof. unfold sim. rewrite bind_assoc. auto. Qed.
Lemma sim_assoc' {A B C D} (p : prog A) (m : M CS B) (k : B -> M CS C) (h : C -> M CS D) s Q : sim p (bind m (fun a => bind (k a) h)) s Q -> sim p (bind (bind m k) h) s Q.
Proof. unfold sim. rewrite bind_assoc. auto. Qed.
Lemma sim_eq {A B} (p p' : prog A) (m m' : M CS B) s Q : p = p' -> m s = m' s -> sim p' m' s Q -> sim p m s Q.
Proof. unfold sim. intros -> ->. auto. Qed.
(** the decoder and Quant only *)
Definition stepped (s s' : CS) : Prop := goods s' /\ exists d h q, s' = set_quant (set_dec s d h) q.
Lemma stepped_refl s : goods s -> stepped s s.
Proof. intros H. split; [exact H|]. exists (cDec s), (cCdf s), (cQuant s). destruct s. reflexivity. Qed.
Lemma stepped_trans s s1 s2 : stepped s s1 -> stepped s1 s2 -> stepped s s2.
Proof. intros (_ & d1 & h1 & q1 & ->) (G & d2 & h2 & q2 & ->). split; [exact G|]. exists d2, h2, q2. reflexivity. Qed.
Lemma moved_stepped s s' : moved s s' -> stepped s s'.
Proof. intros (G & d & h & ->). split; [exact G|]. exists d, h, (cQuant s). destruct s. reflexivity. Qed.

(** ** Bits *)
Lemma bits_sim n : forall i acc base (body : Z -> Z -> M CS Z) s, goods s -> 0 <= acc ->
  (forall j r, i <= j < i + Z.of_nat n -> body j r = bind (lit dis 1) (fun b => ret (if bool_of b then r + 2 ^ (i + Z.of_nat n - 1 - j) else r))) ->
  sim (bits n acc) (for_from n i body (base + acc * 2 ^ Z.of_nat n)) s (fun a r s' => r = base + a /\ acc * 2 ^ Z.of_nat n <= a < (acc + 1) * 2 ^ Z.of_nat n /\ moved s s').
Proof.
  induction n as [|n IH]; intros i acc base body s G Ha HB.
  - cbn [bits for_from]. apply sim_ret. change (2 ^ Z.of_nat 0) with 1. split; [lia|]. split; [lia|]. apply moved_refl. exact G.
  - cbn [bits]. rewrite for_from_S, (HB i) by lia.
    replace (i + Z.of_nat (S n) - 1 - i) with (Z.of_nat n) by lia. 
    apply sim_assoc'. apply sim_bitk; [exact G|]. intros v s1 Hv M1.
    rewrite Nat2Z.inj_succ, Z.pow_succ_r by lia. set (P := 2 ^ Z.of_nat n) in *.
    eapply sim_step; [reflexivity|reflexivity|reflexivity|]. 
    replace (if bool_of v then base + acc * (2 * P) + P else base + acc * (2 * P)) with (base + (2 * acc + v) * P) by (assert (v = 0 \/ v = 1) as [->| ->] by lia; cbn [bool_of]; unfold bool_of; change (negb (0 =? 0)) with false; change (negb (1 =? 0)) with true; cbv iota; lia).
    eapply sim_weaken; [|apply (IH (i + 1) (2 * acc + v) base body s1)].
    + cbv beta. intros a b s' (E & Hr & M2). split; [exact E|]. fold P in Hr. split; [nia|]. eapply moved_trans; eassumption.
    + apply M1.
    + lia.
    + intros j r Hj. rewrite HB by lia. replace (i + Z.of_nat (S n) - 1 - j) with (i + 1 + Z.of_nat n - 1 - j) by lia. reflexivity.
Qed.
Lemma golombData_sim n : forall i acc s (body : Z -> Z -> M CS Z), goods s -> 1 <= acc -> (forall j x, body j x = bind (lit dis 1) (fun b => ret (Z.lor (shl x 1) b))) -> (acc + 1) * 2 ^ Z.of_nat n <= 2 ^ 62 ->
  sim (bits n acc) (for_from n i body acc) s (fun a r s' => r = a /\ 1 <= a < (acc + 1) * 2 ^ Z.of_nat n /\ moved s s').
Proof.
  induction n as [|n IH]; intros i acc s body G Ha HB HL.
  - cbn [bits for_from]. apply sim_ret. change (2 ^ Z.of_nat 0) with 1 in *. split; [lia|]. split; [lia|]. apply moved_refl. exact G.
  - cbn [bits]. rewrite for_from_S, HB. apply sim_assoc'. apply sim_bitk; [exact G|]. intros v s1 Hv M1.
    rewrite Nat2Z.inj_succ, Z.pow_succ_r in * by lia. set (P := 2 ^ Z.of_nat n) in *. assert (1 <= P) by (unfold P; pose proof (Z.pow_pos_nonneg 2 (Z.of_nat n)); lia).
    eapply sim_step; [reflexivity|reflexivity|reflexivity|].
    assert (E : Z.lor (shl acc 1) v = 2 * acc + v).
    { rewrite shl_small by (change (2 ^ 1) with 2; change (2 ^ 63) with (2 * 2 ^ 62); nia). change (2 ^ 1) with 2. assert (v = 0 \/ v = 1) as [->| ->] by lia; [rewrite Z.lor_0_r; lia|].
      rewrite (Z.mul_comm acc 2). destruct acc; [lia|reflexivity|lia]. }
    rewrite E. eapply sim_weaken; [|apply (IH (i + 1) (2 * acc + v) s1 body)].
    + cbv beta. intros a b s' (Eq & Hr & M2). split; [exact Eq|]. split; [nia|]. eapply moved_trans; eassumption.
    + apply M1.
    + lia.
    + exact HB.
    + fold P. nia.
Qed.
Lemma golombLength_sim lim : forall k s, goods s -> sim (zeros lim k) (golombLength lim dis (Z.of_nat k)) s (fun a r s' => r = Z.of_nat a + 1 /\ (k <= a < k + lim)%nat /\ moved s s').
Proof.
  induction lim as [|l IH]; intros k s G; cbn [zeros golombLength]; [unfold sim; reflexivity|].
  apply sim_bitk; [exact G|]. intros v s1 Hv M1. assert (v = 0 \/ v = 1) as [->| ->] by lia.
  - change (bool_of 0) with false. change (0 =? 0) with true. cbv iota. replace (Z.of_nat k + 1) with (Z.of_nat (S k)) by lia.
    eapply sim_weaken; [|apply IH; apply M1]. cbv beta. intros a b s' (E & H & M2). split; [exact E|]. split; [lia|]. eapply moved_trans; eassumption.
  - change (bool_of 1) with true. change (1 =? 0) with false. cbv iota. apply sim_ret. split; [lia|]. split; [lia|exact M1].
Qed.
Lemma golomb_sim lim s : goods s -> (lim <= 60)%nat -> sim (golomb lim) (bind (golombLength lim dis 0) (fun n => golombData dis n)) s (fun a r s' => r = a /\ 1 <= a < 2 ^ 62 - 100 /\ moved s s').
Proof.
  intros G HL. unfold golomb. change 0 with (Z.of_nat 0) at 1. eapply sim_bind; [apply (golombLength_sim lim 0 s G)|]. cbv beta. intros k r s1 (-> & Hk & M1). unfold golombData, for_to.
  replace (Z.to_nat (Z.of_nat k + 1 - 1 - 0)) with k by lia. assert (HP : 2 ^ Z.of_nat k <= 2 ^ 59) by (apply Z.pow_le_mono_r; lia). change (2 ^ 62) with 4611686018427387904. change (2 ^ 59) with 576460752303423488 in HP.
  eapply sim_weaken; [|apply (golombData_sim k 0 1 s1); [apply M1|lia|intros; reflexivity|change (2 ^ 62) with 4611686018427387904; lia]]. cbv beta. intros a b s' (E & H & M2). split; [exact E|]. split; [lia|]. eapply moved_trans; eassumption.
Qed.


(** ** Levels *)
Lemma near_sum_ext t q q' offs cut r k : tx t -> 0 <= r -> 0 <= k -> Forall (fun o => 0 <= fst o /\ 0 <= snd o) offs -> (forall i, 0 <= i < coded t -> q i = q' i) -> near_sum t q offs cut r k = near_sum t q' offs cut r k.
Proof.
  intros H Hr Hk F E. unfold near_sum. induction offs as [|o l IH]; cbn [fold_right]; [reflexivity|]. inversion F as [|? ? F1 F2]; subst. rewrite IH by exact F2. f_equal.
  destruct (Z.ltb_spec (r + fst o) (coded_h t)); [|reflexivity]. destruct (Z.ltb_spec (k + snd o) (coded_w t)); [|reflexivity]. cbn [andb]. rewrite E; [reflexivity|]. unfold coded. nia.
Qed.
Lemma offs_pos c : Forall (fun o => 0 <= fst o /\ 0 <= snd o) (base_neighbours c) /\ Forall (fun o => 0 <= fst o /\ 0 <= snd o) (range_neighbours c).
Proof. destruct c; split; repeat constructor; cbn; lia. Qed.
Lemma base_ext t c q q' p : tx t -> 0 <= p < coded t -> (forall i, 0 <= i < coded t -> q i = q' i) -> base_context t c q p = base_context t c q' p.
Proof. intros H Hp E. destruct (pos_rc t p H Hp) as (R & K & _). unfold base_context. cbv zeta. rewrite (near_sum_ext t q q' _ 3 (row_of t p) (col_of t p) H) by (try lia; try apply offs_pos; exact E). reflexivity. Qed.
Lemma range_ext t c q q' p : tx t -> 0 <= p < coded t -> (forall i, 0 <= i < coded t -> q i = q' i) -> range_context t c q p = range_context t c q' p.
Proof. intros H Hp E. destruct (pos_rc t p H Hp) as (R & K & _). unfold range_context. cbv zeta. rewrite (near_sum_ext t q q' _ 15 (row_of t p) (col_of t p) H) by (try lia; try apply offs_pos; exact E). reflexivity. Qed.

Definition rel (t : Z) (q : Z -> Z) (s : CS) : Prop := zlen (cQuant s) = 4096 /\ forall i, 0 <= i < coded t -> idx (cQuant s) i = Ok (q i).
Definition lv (t : Z) (q : Z -> Z) : Prop := forall i, 0 <= i < coded t -> 0 <= q i <= 15.
Lemma coded_le t : tx t -> 16 <= coded t <= 1024.
Proof. intros H. destruct (tx_logs t H) as (_ & _ & _ & _ & _ & _ & _ & _ & _ & _ & W & HH). unfold coded. nia. Qed.
Lemma rel_quant t q s : tx t -> rel t q s -> lv t q -> quant_ok t (cQuant s) /\ forall i, 0 <= i < coded t -> qat (cQuant s) i = q i.
Proof.
  intros H [L R] V. pose proof (coded_le t H). split; [split; [lia|]|].
  - intros p v E Hp. rewrite (R p Hp) in E. injection E as <-. apply V, Hp.
  - intros i Hi. unfold qat. rewrite (R i Hi). reflexivity.
Qed.

Lemma size_ctx_of t : tx t -> idx TX_SIZE_SQR t = Ok (log_min t) /\ idx TX_SIZE_SQR_UP t = Ok (log_max t) /\ 0 <= size_context t <= 4 /\ shr (log_min t + log_max t + 1) 1 = size_context t.
Proof. intros H. apply tx_in in H. cbn [seq map In] in H. repeat (destruct H as [<-|H]; [vm_compute; repeat split; congruence|]). contradiction. Qed.

Section Block.
Context (e : CEnv) (plane t x4 y4 ty : Z) (b : block).
Hypothesis (Hdis : cDisable e = dis) (Ht : tx t) (Hb : bTx b = t) (Hpt : 0 <= ptype b <= 1).
Let c := class_of ty.
Definition typed (s : CS) : Prop := computeTxType e plane t x4 y4 (cTxTypes s) = Ok ty.
Let size_ctx := size_ctx_of t Ht.
Lemma readBr_sim n : forall level q p s, goods s -> typed s -> rel t q s -> lv t q -> 0 <= p < coded t ->
  sim (std_more n b c q p level) (readBr n e t p plane x4 y4 (size_context t) (ptype b) level) s (fun a v s' => v = a /\ level <= v <= level + 3 * Z.of_nat n /\ moved s s').
Proof using Hdis Ht Hb Hpt.
  induction n as [|n IH]; intros level q p s G T R V Hp.
  - cbn [std_more readBr]. apply sim_ret. split; [reflexivity|]. split; [lia|apply moved_refl; exact G].
  - cbn [std_more readBr]. apply sim_get. destruct (rel_quant t q s Ht R V) as [QO QE]. destruct (coeffBrCtx_spec e t p plane x4 y4 s ty Ht Hp T QO) as [EC RC].
    fold c in EC, RC. rewrite (range_ext t c (qat (cQuant s)) q p Ht Hp QE) in EC, RC. eapply sim_lift; [exact EC|]. rewrite Hb, Hdis. change TX_32X32 with 3. rewrite Min_min.
    destruct size_ctx as (_ & _ & SC & _).
    apply (sim_symk "CoeffBrCdf" [4; 2; 21] 4); [exact G|cbn; tauto|repeat constructor; lia|]. intros v s1 Hv M1. change (BR_CDF_SIZE - 1) with 3. destruct (Z.ltb_spec v 3).
    + apply sim_ret. split; [reflexivity|]. split; [lia|exact M1].
    + pose proof M1 as (G1 & d & h & E1). eapply sim_weaken; [|apply (IH (level + v) q p s1 G1)]; [|subst s1; exact T|subst s1; exact R|exact V|exact Hp].
      cbv beta. intros a w s2 (Ea & Hw & M2). split; [exact Ea|]. split; [lia|]. eapply moved_trans; eassumption.
Qed.
Lemma setQuant_ok t' q s p v : rel t' q s -> 0 <= p < 4096 -> exists qt, upd (cQuant s) p v = Ok qt /\ setQuant p v s = Ok (tt, set_quant s qt) /\ rel t' (set_at q p v) (set_quant s qt).
Proof.
  intros [L R] Hp. destruct (upd_succeeds (cQuant s) p (nth (Z.to_nat p) (cQuant s) 0) v (idx_ok (cQuant s) p 0 ltac:(lia))) as [qt E]. exists qt. split; [exact E|]. split.
  - unfold setQuant, get, put, lift, bind. rewrite E. reflexivity.
  - split; cbn [cQuant set_quant].
    + apply upd_inv in E as [_ ->]. rewrite zlen_upd_nat. exact L.
    + intros i Hi. unfold set_at. destruct (Z.eqb_spec i p) as [->|N]; [apply (idx_upd_same _ _ _ _ E)|]. rewrite (idx_upd_other _ _ _ i _ E) by congruence. apply R, Hi.
Qed.
Lemma readLevel_sim scan eob place q p s : goods s -> typed s -> rel t q s -> lv t q -> 0 <= p < coded t -> 0 <= place -> idx scan place = Ok p ->
  sim (std_level b c (place =? eob - 1) place p q) (readLevel e plane t x4 y4 (size_context t) (ptype b) eob scan place) s
    (fun v _ s' => 0 <= v <= 15 /\ (place = eob - 1 -> 1 <= v) /\ stepped s s' /\ rel t (set_at q p v) s').
Proof using Hdis Ht Hb Hpt.
  intros G T R V Hp Hpl EI. unfold readLevel. eapply sim_lift; [exact EI|]. apply sim_get. destruct (rel_quant t q s Ht R V) as [QO QE]. destruct size_ctx as (_ & _ & SC & _). pose proof (coded_le t Ht) as CL.
  unfold std_level. rewrite Hb, Hdis.
  eapply sim_bind with (R := fun v w s' => w = v /\ 0 <= v <= 3 /\ (place = eob - 1 -> 1 <= v) /\ moved s s').
  - destruct (Z.eqb_spec place (eob - 1)) as [EL|NL].
    + destruct (lastCtx_spec e t p place plane x4 y4 s ty Ht Hpl T) as [EC RC]. eapply sim_lift; [exact EC|].
      replace (last_context t place + 38 - SIG_COEF_CONTEXTS + SIG_COEF_CONTEXTS_EOB) with (last_context t place) by (change SIG_COEF_CONTEXTS with 42; change SIG_COEF_CONTEXTS_EOB with 4; lia).
      apply (sim_symk "CoeffBaseEobCdf" [5; 2; 4] 3); [exact G|cbn; tauto|repeat constructor; lia|]. intros v s1 Hv M1. apply sim_ret. split; [reflexivity|]. split; [lia|]. split; [lia|exact M1].
    + pose proof (coeffBaseCtx_spec e t p place plane x4 y4 s ty Ht Hp T QO) as EC. fold c in EC.
      assert (EA : forall i, 0 <= i < coded t -> Z.abs (qat (cQuant s) i) = q i) by (intros i Hi; rewrite (QE i Hi); specialize (V i Hi); lia).
      pose proof (base_context_range t c (fun i => Z.abs (qat (cQuant s) i)) p Ht Hp ltac:(intros; lia)) as RC. rewrite (base_ext t c _ q p Ht Hp EA) in EC, RC. eapply sim_lift; [exact EC|].
      eapply sim_weaken; [|apply (sim_sym "CoeffBaseCdf" [5; 2; 42] 4); [exact G|cbn; tauto|repeat constructor; lia]]. cbv beta. intros a w s1 (-> & Hv & M1). split; [reflexivity|]. split; [lia|]. split; [lia|exact M1].
  - cbv beta. intros v w s1 (-> & Hv & HL & M1). pose proof M1 as (G1 & d1 & h1 & E1). assert (R1 : rel t q s1) by (rewrite E1; exact R). assert (T1 : typed s1) by (rewrite E1; exact T).
    change NUM_BASE_LEVELS with 2. change (Z.to_nat (Z.quot COEFF_BASE_RANGE (BR_CDF_SIZE - 1))) with 4%nat.
    assert (K : sim (if 2 <? v then std_more 4 b c q p v else Done v) (if 2 <? v then readBr 4 e t p plane x4 y4 (size_context t) (ptype b) v else ret v) s1 (fun a w s' => w = a /\ v <= w <= 15 /\ moved s s')).
    { destruct (2 <? v).
      - eapply sim_weaken; [|apply (readBr_sim 4 v q p s1 G1 T1 R1 V Hp)]. cbv beta. intros a w s2 (Ea & Hw & M2). split; [exact Ea|]. split; [lia|]. eapply moved_trans; eassumption.
      - apply sim_ret. split; [reflexivity|]. split; [lia|exact M1]. }
    unfold sim in K |- *. destruct (run dis _ (cDec s1) (cCdf s1)) as [[[a d] h]| |]; [|exact K|rewrite bind_eq, K; reflexivity].
    destruct K as (w & s2 & E2 & D2 & H2 & -> & Hw & M2). rewrite bind_eq, E2. pose proof M2 as (G2 & d2 & h2 & E2'). assert (R2 : rel t q s2) by (rewrite E2'; exact R).
    destruct (setQuant_ok t q s2 p a R2 ltac:(lia)) as (qt & EQ & ES & RQ). exists tt, (set_quant s2 qt). split; [exact ES|]. split; [exact D2|]. split; [exact H2|]. split; [lia|]. split; [lia|]. split; [|exact RQ].
    split; [exact G2|]. exists d2, h2, qt. rewrite E2'. reflexivity.
Qed.
Lemma lv_set q p v : lv t q -> 0 <= v <= 15 -> lv t (set_at q p v).
Proof. intros V Hv i Hi. unfold set_at. destruct (i =? p); [exact Hv|apply V, Hi]. Qed.
Lemma typed_stepped s s' : stepped s s' -> typed s -> typed s'.
Proof. intros (_ & d & h & q & ->) T. exact T. Qed.
Lemma levels_sim scan eob : forall l k0 q s, k0 + zlen l = eob -> 0 <= k0 -> (forall j, 0 <= j < zlen l -> idx scan (eob - 1 - (k0 + j)) = idx l j) -> Forall (fun p => 0 <= p < coded t) l ->
  goods s -> typed s -> rel t q s -> lv t q ->
  sim (std_levels b c (k0 =? 0) l q) (for_from (length l) k0 (fun k _ => readLevel e plane t x4 y4 (size_context t) (ptype b) eob scan (eob - 1 - k)) tt) s
    (fun q' _ s' => rel t q' s' /\ lv t q' /\ stepped s s').
Proof using Hdis Ht Hb Hpt.
  induction l as [|p l IH]; intros k0 q s HK H0 HI HF G T R V.
  - cbn [std_levels length for_from]. apply sim_ret. split; [exact R|]. split; [exact V|apply stepped_refl; exact G].
  - cbn [std_levels length]. rewrite for_from_S. inversion HF as [|? ? Hp HF']; subst x l0. rewrite zlen_cons in *. pose proof (zlen_nonneg l) as NL.
    assert (EP : idx scan (eob - 1 - k0) = Ok p). { specialize (HI 0 ltac:(lia)). rewrite Z.add_0_r in HI. rewrite HI. reflexivity. }
    assert (EL : Z.of_nat (length l) = eob - 1 - k0) by (unfold zlen in *; lia). rewrite EL. replace (k0 =? 0) with (eob - 1 - k0 =? eob - 1) by (destruct (Z.eqb_spec (eob - 1 - k0) (eob - 1)), (Z.eqb_spec k0 0); try reflexivity; lia).
    eapply sim_bind; [apply (readLevel_sim scan eob (eob - 1 - k0) q p s G T R V Hp ltac:(lia) EP)|]. cbv beta. intros v u s1 (Hv & _ & S1 & R1). replace false with (k0 + 1 =? 0) by (apply Z.eqb_neq; lia). destruct u.
    eapply sim_weaken; [|apply (IH (k0 + 1) (set_at q p v) s1)]; [| lia | lia | | exact HF' | apply S1 | apply (typed_stepped s s1 S1 T) | exact R1 | apply lv_set; assumption].
    + cbv beta. intros q' u s2 (R2 & V2 & S2). split; [exact R2|]. split; [exact V2|]. eapply stepped_trans; eassumption.
    + intros j Hj. specialize (HI (j + 1) ltac:(lia)). replace (k0 + 1 + j) with (k0 + (j + 1)) by lia. rewrite HI. unfold idx. destruct (Z.ltb_spec (j + 1) 0); [lia|]. destruct (Z.ltb_spec j 0); [lia|]. replace (Z.to_nat (j + 1)) with (S (Z.to_nat j)) by lia. reflexivity.
Qed.

(** ** Signs *)
Lemma land_mod v : Z.land v 65535 = v mod 65536.
Proof. change 65535 with (Z.ones 16). rewrite Z.land_ones by lia. reflexivity. Qed.
Lemma readSign_sim lim scan place q p s total dc w4 h4 : (lim <= 60)%nat -> goods s -> rel t q s -> 0 <= p < coded t -> idx scan place = Ok p -> (forall i, 0 <= i < coded t -> - 2 ^ 62 <= q i <= 2 ^ 62) ->
  dcSignCtx e plane w4 h4 x4 y4 s = Ok (dc_context b) -> 0 <= dc_context b < 3 ->
  sim (std_sign (Done 0) 65536 lim b (place =? 0) p (q, total, dc)) (readSign lim e plane w4 h4 x4 y4 (ptype b) scan place (total, dc)) s
    (fun a r s' => r = (snd (fst a), snd a) /\ rel t (fst (fst a)) s' /\ stepped s s' /\ exists v, fst (fst a) = set_at q p v /\ -65536 < v < 65536).
Proof using Hdis Ht Hb Hpt.
  intros HL G R Hp EI HQ ED RD. pose proof (coded_le t Ht) as CL. unfold readSign, std_sign. eapply sim_lift; [exact EI|]. apply sim_get. eapply sim_lift; [apply (proj2 R p Hp)|]. rewrite Hdis.
  eapply sim_bind with (R := fun v w s' => w = v /\ 0 <= v <= 1 /\ moved s s').
  { destruct (Z.eqb_spec (q p) 0) as [Q0|Q0]; cbn [negb]; [apply sim_ret; split; [reflexivity|]; split; [lia|apply moved_refl; exact G]|].
    destruct (place =? 0).
    - eapply sim_lift; [exact ED|]. eapply sim_weaken; [|apply (sim_sym "DcSignCdf" [2; 3] 2); [exact G|cbn; tauto|repeat constructor; lia]]. cbv beta. intros a w s1 (-> & Hv & M1). split; [reflexivity|]. split; [lia|exact M1].
    - eapply (sim_done 0 (lit dis 0) s 0 s); [|reflexivity|reflexivity|split; [reflexivity|]; split; [lia|apply moved_refl; exact G]]. unfold lit, L, for_to. cbn. destruct s; reflexivity. }
  cbv beta. intros sg w s1 (-> & Hsg & M1). pose proof M1 as (G1 & d1 & h1 & E1). assert (R1 : rel t q s1) by (rewrite E1; exact R).
  eapply sim_bind with (R := fun v w s' => w = v /\ - 2 ^ 62 <= v <= 2 ^ 62 /\ moved s s').
  { change (NUM_BASE_LEVELS + COEFF_BASE_RANGE) with 14. specialize (HQ p Hp). destruct (14 <? q p).
    - change COEFF_BASE_RANGE with 12. change NUM_BASE_LEVELS with 2. apply sim_assoc. eapply sim_bind; [apply (golomb_sim lim s1 G1 HL)|]. cbv beta. intros x w s2 (-> & Hx & M2). apply sim_ret.
      change (2 ^ 62) with 4611686018427387904 in *. rewrite i64_id by (change (2 ^ 63) with 9223372036854775808; lia). split; [lia|]. split; [lia|]. eapply moved_trans; eassumption.
    - apply sim_ret. split; [reflexivity|]. split; [lia|exact M1]. }
  cbv beta. intros v w s2 (-> & Hv & M2). pose proof M2 as (G2 & d2 & h2 & E2). assert (R2 : rel t q s2) by (rewrite E2; exact R). cbv zeta. rewrite land_mod. cbn [fst snd].
  set (nv := if sg =? 0 then v mod 65536 else - (v mod 65536)). assert (NV : (if bool_of sg then - (v mod 65536) else v mod 65536) = nv) by (unfold nv, bool_of; destruct (sg =? 0); reflexivity). rewrite NV.
  destruct (setQuant_ok t q s2 p nv R2 ltac:(lia)) as (qt & EQ & ES & RQ). eapply sim_step; [exact ES|reflexivity|reflexivity|]. apply sim_ret. cbn [fst snd]. split; [|split; [exact RQ|]; split].
  - f_equal. unfold bool_of. destruct ((p =? 0) && (0 <? v)); [|reflexivity]. destruct (sg =? 0); reflexivity.
  - split; [exact G2|]. exists d2, h2, qt. rewrite E2. reflexivity.
  - exists nv. split; [reflexivity|]. pose proof (Z.mod_pos_bound v 65536 ltac:(lia)). unfold nv. destruct (sg =? 0); lia.
Qed.
Lemma signs_sim lim scan w4 h4 : (lim <= 60)%nat -> 0 <= dc_context b < 3 -> forall l c0 q total dc s, 0 <= c0 -> (forall j, 0 <= j < zlen l -> idx scan (c0 + j) = idx l j) -> Forall (fun p => 0 <= p < coded t) l ->
  goods s -> rel t q s -> (forall i, 0 <= i < coded t -> - 2 ^ 62 <= q i <= 2 ^ 62) -> dcSignCtx e plane w4 h4 x4 y4 s = Ok (dc_context b) ->
  sim (std_signs (Done 0) 65536 lim b (c0 =? 0) l (q, total, dc)) (for_from (length l) c0 (fun c acc => readSign lim e plane w4 h4 x4 y4 (ptype b) scan c acc) (total, dc)) s
    (fun a r s' => r = (snd (fst a), snd a) /\ rel t (fst (fst a)) s' /\ stepped s s').
Proof using Hdis Ht Hb Hpt.
  intros HL RD. induction l as [|p l IH]; intros c0 q total dc s H0 HI HF G R HQ ED.
  - cbn [std_signs length for_from]. apply sim_ret. split; [reflexivity|]. split; [exact R|apply stepped_refl; exact G].
  - cbn [std_signs length]. rewrite for_from_S. inversion HF as [|? ? Hp HF']; subst x l0. rewrite zlen_cons in *. pose proof (zlen_nonneg l) as NL.
    assert (EP : idx scan c0 = Ok p). { specialize (HI 0 ltac:(lia)). rewrite Z.add_0_r in HI. rewrite HI. reflexivity. }
    eapply sim_bind; [apply (readSign_sim lim scan c0 q p s total dc w4 h4 HL G R Hp EP HQ ED RD)|]. cbv beta. intros [[q1 t1] dc1] r s1 (-> & R1 & S1 & v & Ev & Hv). cbn [fst snd] in *.
    replace false with (c0 + 1 =? 0) by (apply Z.eqb_neq; lia). pose proof S1 as (G1 & d1 & h1 & qq & E1).
    eapply sim_weaken; [|apply (IH (c0 + 1) q1 t1 dc1 s1)]; [|lia| |exact HF'|exact G1|exact R1| |].
    + cbv beta. intros a r s2 (Er & R2 & S2). split; [exact Er|]. split; [exact R2|]. eapply stepped_trans; eassumption.
    + intros j Hj. specialize (HI (j + 1) ltac:(lia)). replace (c0 + 1 + j) with (c0 + (j + 1)) by lia. rewrite HI. unfold idx. destruct (Z.ltb_spec (j + 1) 0); [lia|]. destruct (Z.ltb_spec j 0); [lia|]. replace (Z.to_nat (j + 1)) with (S (Z.to_nat j)) by lia. reflexivity.
    + intros i Hi. subst q1. unfold set_at. destruct (i =? p); [change (2 ^ 62) with 4611686018427387904; lia|apply HQ, Hi].
    + rewrite E1. exact ED.
Qed.
End Block.


(** ** Number of coefficients *)
Lemma eob_size t : tx t -> exists wl hl ms, idx TX_WIDTH_LOG2 t = Ok wl /\ idx TX_HEIGHT_LOG2 t = Ok hl /\ Min wl 5 + Min hl 5 - 4 = ms /\ 0 <= ms <= 6 /\ coded t = 16 * 2 ^ ms.
Proof.
  intros H. apply tx_in in H. cbn [seq map In] in H. repeat (destruct H as [<-|H]; [do 3 eexists; split; [vm_compute; reflexivity|]; split; [vm_compute; reflexivity|]; split; [vm_compute; reflexivity|]; vm_compute; repeat split; congruence|]). contradiction.
Qed.
Lemma eob_extra_sim e t b v s : cDisable e = dis -> tx t -> bTx b = t -> 0 <= ptype b <= 1 -> goods s -> 0 <= v <= 10 ->
  sim (if v <? 2 then Done (v + 1) else Sym "EobExtraCdf" [size_context (bTx b); ptype b; v - 2] (fun x => andthen (bits (Z.to_nat (v - 2)) x) (fun extra => Done (2 ^ (v - 1) + 1 + extra))))
    (readEob e (size_context t) (ptype b) (v + 1)) s (fun a r s' => r = a /\ 1 <= a <= Z.max 2 (2 ^ v) /\ moved s s').
Proof.
  intros Hd Ht Hb Hpt G Hv. unfold readEob. cbv zeta. rewrite !Max_max. replace (v + 1 - 3) with (v - 2) by lia. replace (v + 1 - 2) with (v - 1) by lia. destruct (Z.ltb_spec v 2) as [V|V].
  - assert (v = 0 \/ v = 1) as [->| ->] by lia; apply sim_ret; (split; [reflexivity|]); (split; [vm_compute; split; congruence|apply moved_refl; exact G]).
  - rewrite (Z.max_r (-1) (v - 2)) by lia. destruct (Z.leb_spec 0 (v - 2)); [|lia]. destruct (Z.ltb_spec (v + 1) 2); [lia|]. rewrite (Z.max_r 0 (v - 1)) by lia. rewrite Hb, Hd. destruct (size_ctx_of t Ht) as (_ & _ & SC & _).
    apply (sim_symk "EobExtraCdf" [5; 2; 9] 2); [exact G|cbn; tauto|repeat constructor; lia|]. intros x s1 Hx M1. 
    assert (SH : forall k, 0 <= k <= 20 -> shl 1 k = 2 ^ k) by (intros k Hk; rewrite shl_small by (pose proof (Z.pow_le_mono_r 2 k 20 ltac:(lia) ltac:(lia)) as PP; pose proof (Z.pow_pos_nonneg 2 k ltac:(lia) ltac:(lia)); change (2 ^ 20) with 1048576 in PP; change (2 ^ 63) with 9223372036854775808; lia); lia).
    rewrite !SH by lia. unfold for_to. replace (Z.to_nat (v - 1 - 1)) with (Z.to_nat (v - 2)) by lia.
    assert (P2 : 2 ^ (v - 1) = 2 * 2 ^ (v - 2)) by (rewrite <- Z.pow_succ_r by lia; f_equal; lia). assert (P3 : 2 ^ v = 2 * 2 ^ (v - 1)) by (rewrite <- Z.pow_succ_r by lia; f_equal; lia).
    replace (if bool_of x then 2 ^ (v - 1) + 1 + 2 ^ (v - 2) else 2 ^ (v - 1) + 1) with (2 ^ (v - 1) + 1 + x * 2 ^ Z.of_nat (Z.to_nat (v - 2))) by (rewrite Z2Nat.id by lia; assert (x = 0 \/ x = 1) as [->| ->] by lia; [change (bool_of 0) with false|change (bool_of 1) with true]; cbv iota; lia).
    match goal with |- sim _ ?m _ _ => eapply (sim_eq _ _ _ (bind m ret)); [reflexivity|rewrite bind_eq; destruct (m s1) as [[? ?]| |]; reflexivity|] end.
    eapply sim_bind; [apply (bits_sim (Z.to_nat (v - 2)) 1 x (2 ^ (v - 1) + 1)); [apply M1|lia|]|].
    + intros j r Hj. rewrite Z2Nat.id in * by lia. replace (v - 1 - 1 - j) with (1 + (v - 2) - 1 - j) by lia. rewrite SH by lia. reflexivity.
    + cbv beta. intros a r s2 (Er & Ha & M2). rewrite Z2Nat.id in Ha by lia. apply sim_ret. split; [lia|]. split; [nia|]. eapply moved_trans; eassumption.
Qed.
Lemma eob_sim e t b plane x4 y4 ty ms s : cDisable e = dis -> tx t -> bTx b = t -> 0 <= ptype b <= 1 -> goods s -> computeTxType e plane t x4 y4 (cTxTypes s) = Ok ty -> 0 <= ms <= 6 -> coded t = 16 * 2 ^ ms ->
  sim (std_eob b (class_of ty)) (bind (readEobPt e plane t x4 y4 (ptype b) ms) (fun pt => readEob e (size_context t) (ptype b) pt)) s (fun a r s' => r = a /\ 1 <= a <= coded t /\ moved s s').
Proof.
  intros Hd Ht Hb Hpt G T Hms HC. unfold std_eob.
  match goal with |- sim (Sym ?n ?p ?k) _ _ _ => change (Sym n p k) with (andthen (Sym n p (fun v => Done v)) k) end.
  eapply sim_bind with (R := fun v pt s' => pt = v + 1 /\ 0 <= v <= 10 /\ 2 ^ v <= coded t /\ moved s s').
  - unfold readEobPt. apply sim_get. rewrite Hb, Hd.
    assert (EC : eobPtCtx e plane t x4 y4 s = Ok (match class_of ty with TwoD => 0 | _ => 1 end)).
    { unfold eobPtCtx. rewrite T. cbn [rbind]. rewrite class_of_spec. destruct (class_of ty); reflexivity. }
    assert (RC : 0 <= match class_of ty with TwoD => 0 | _ => 1 end < 2) by (destruct (class_of ty); lia).
    set (cx := match class_of ty with TwoD => 0 | _ => 1 end) in *.
    assert (PW : forall v k, 0 <= v <= k -> 2 ^ v <= 2 ^ k) by (intros; apply Z.pow_le_mono_r; lia).
    change (Sym (eob_table (coded t)) (if coded t <=? 256 then [ptype b; cx] else [ptype b]) (fun v => Done v)) with (andthen (Sym (eob_table (coded t)) (if coded t <=? 256 then [ptype b; cx] else [ptype b]) (fun v => Done v)) (fun v => Done v)).
    eapply sim_bind with (R := fun a w s' => w = a /\ 0 <= w <= 4 + ms /\ moved s s').
    + rewrite HC. assert (ms = 0 \/ ms = 1 \/ ms = 2 \/ ms = 3 \/ ms = 4 \/ ms = 5 \/ ms = 6) as K by lia.
      destruct K as [->|[->|[->|[->|[->|[->| ->]]]]]];
        repeat match goal with |- context [?x =? ?y] => first [change (x =? y) with true|change (x =? y) with false] end; cbv iota;
        match goal with |- context [eob_table ?x] => let r := eval vm_compute in (eob_table x) in change (eob_table x) with r end;
        match goal with |- context [?x <=? 256] => let r := eval vm_compute in (x <=? 256) in change (x <=? 256) with r end; cbv iota;
        try (eapply sim_lift; [exact EC|]).
      * eapply sim_weaken; [|apply (sim_sym "EobPt16Cdf" [2; 2] 5); [exact G|cbn; tauto|repeat constructor; lia]]. cbv beta. intros a w s1 (-> & Hw & M1). split; [reflexivity|]. split; [lia|exact M1].
      * eapply sim_weaken; [|apply (sim_sym "EobPt32Cdf" [2; 2] 6); [exact G|cbn; tauto|repeat constructor; lia]]. cbv beta. intros a w s1 (-> & Hw & M1). split; [reflexivity|]. split; [lia|exact M1].
      * eapply sim_weaken; [|apply (sim_sym "EobPt64Cdf" [2; 2] 7); [exact G|cbn; tauto|repeat constructor; lia]]. cbv beta. intros a w s1 (-> & Hw & M1). split; [reflexivity|]. split; [lia|exact M1].
      * eapply sim_weaken; [|apply (sim_sym "EobPt128Cdf" [2; 2] 8); [exact G|cbn; tauto|repeat constructor; lia]]. cbv beta. intros a w s1 (-> & Hw & M1). split; [reflexivity|]. split; [lia|exact M1].
      * eapply sim_weaken; [|apply (sim_sym "EobPt256Cdf" [2; 2] 9); [exact G|cbn; tauto|repeat constructor; lia]]. cbv beta. intros a w s1 (-> & Hw & M1). split; [reflexivity|]. split; [lia|exact M1].
      * eapply sim_weaken; [|apply (sim_sym "EobPt512Cdf" [2] 10); [exact G|cbn; tauto|repeat constructor; lia]]. cbv beta. intros a w s1 (-> & Hw & M1). split; [reflexivity|]. split; [lia|exact M1].
      * eapply sim_weaken; [|apply (sim_sym "EobPt1024Cdf" [2] 11); [exact G|cbn; tauto|repeat constructor; lia]]. cbv beta. intros a w s1 (-> & Hw & M1). split; [reflexivity|]. split; [lia|exact M1].
    + cbv beta. intros a w s1 (-> & Hw & M1). apply sim_ret. split; [reflexivity|]. split; [lia|]. split; [|exact M1]. rewrite HC. change 16 with (2 ^ 4). rewrite <- Z.pow_add_r by lia. apply PW. lia.
  - cbv beta. intros v pt s1 (-> & Hv & HP & M1). eapply sim_weaken; [|apply (eob_extra_sim e t b v s1 Hd Ht Hb Hpt (proj1 M1) Hv)]. cbv beta. intros a r s2 (Er & Ha & M2). split; [exact Er|]. pose proof (coded_le t Ht). split; [lia|]. eapply moved_trans; eassumption.
Qed.

(** ** Transform type *)
Lemma fillTypes_ok TH TW w4 h4 x4 y4 v types : array2 TH TW types -> 0 <= x4 -> 0 <= y4 -> x4 + w4 <= TW -> y4 + h4 <= TH -> exists types', fillTypes w4 h4 x4 y4 v types = Ok types' /\ array2 TH TW types' /\
  forall j i, idx2 types' j i = if (y4 <=? j) && (j <? y4 + h4) && (x4 <=? i) && (i <? x4 + w4) then Ok v else idx2 types j i.
Proof.
  intros A Hx Hy Bx By. unfold fillTypes.
  assert (W : forall tt tt' i, 0 <= i < w4 -> rfor_to 0 h4 (fun j t => upd2 t (y4 + j) (x4 + i) v) tt = Ok tt' -> writes get2 (fun _ => Ok v) (fun p => exists j, 0 <= j < h4 /\ p = (y4 + j, x4 + i)) tt tt').
  { intros t1 t2 i Hi. apply (writes_loop get2 (fun _ => Ok v) 0 h4 _ (fun j p => p = (y4 + j, x4 + i))); [intros; apply decided_eq2|]. intros j a a' Hj E. apply (writes_upd2 (fun _ => Ok v) _ _ v a a' eq_refl E). }
  destruct (rfor_to_ok (fun t => array2 TH TW t) 0 w4 (fun i t => rfor_to 0 h4 (fun j t => upd2 t (y4 + j) (x4 + i) v) t) types A) as (t' & E & A').
  { intros i t1 Hi A1. apply (rfor_to_ok (fun t => array2 TH TW t)); [exact A1|]. intros j t2 Hj A2. destruct (proj2 (array2_get TH TW t2 (y4 + j) (x4 + i) A2) ltac:(lia)) as [u Eu].
    destruct (upd2_succeeds t2 (y4 + j) (x4 + i) u v Eu) as [t3 E3]. exists t3. split; [exact E3|]. eapply array2_upd; eassumption. }
  exists t'. split; [exact E|]. split; [exact A'|]. intros j i.
  assert (W2 : writes get2 (fun _ => Ok v) (fun p => exists i, 0 <= i < w4 /\ exists j, 0 <= j < h4 /\ p = (y4 + j, x4 + i)) types t').
  { revert E. apply (writes_loop get2 (fun _ => Ok v) 0 w4 _ (fun i p => exists j, 0 <= j < h4 /\ p = (y4 + j, x4 + i))).
    - intros i' Hi'. apply (decided_range 0 h4 (fun j p => p = (y4 + j, x4 + i'))). intros. apply decided_eq2.
    - intros i' a a' Hi' Ea. apply (W a a' i' Hi' Ea). }
  destruct W2 as [W1 W2]. specialize (W1 (j, i)). specialize (W2 (j, i)). unfold get2 in W1, W2. cbn [fst snd] in W1, W2.
  destruct (Z.leb_spec y4 j), (Z.ltb_spec j (y4 + h4)), (Z.leb_spec x4 i), (Z.ltb_spec i (x4 + w4)); cbn [andb];
    try (apply W2; intros (i' & Hi' & j' & Hj' & [= E1 E2]); lia).
  destruct W1 as (u & [= <-] & Eu); [|exact Eu]. exists (i - x4). split; [lia|]. exists (j - y4). split; [lia|]. f_equal; lia.
Qed.
Lemma set_paths t r : tx t -> (tx_set true r t = 1 -> log_min t < 2) /\ (tx_set false r t = 1 -> log_min t < 2) /\ (tx_set false r t = 2 -> log_min t < 3) /\ (0 <= log_min t < 4 \/ tx_set true r t = 0).
Proof.
  intros H. apply tx_in in H. cbn [seq map In] in H. destruct r; repeat (destruct H as [<-|H]; [vm_compute; repeat split; try congruence; solve [left; split; congruence|right; congruence]|]); contradiction.
Qed.
Lemma log_min_pos t : tx t -> 0 <= log_min t.
Proof. intros H. apply tx_in in H. cbn [seq map In] in H. repeat (destruct H as [<-|H]; [vm_compute; congruence|]). contradiction. Qed.
Lemma inv_tables v : (0 <= v < 16 -> idx Tx_Type_Inter_Inv_Set1 v = Ok (nth (Z.to_nat v) (set_types_of true 1) 0)) /\ (0 <= v < 12 -> idx Tx_Type_Inter_Inv_Set2 v = Ok (nth (Z.to_nat v) (set_types_of true 2) 0)) /\
  (0 <= v < 2 -> idx Tx_Type_Inter_Inv_Set3 v = Ok (nth (Z.to_nat v) (set_types_of true 3) 0)) /\ (0 <= v < 7 -> idx Tx_Type_Intra_Inv_Set1 v = Ok (nth (Z.to_nat v) (set_types_of false 1) 0)) /\ (0 <= v < 5 -> idx Tx_Type_Intra_Inv_Set2 v = Ok (nth (Z.to_nat v) (set_types_of false 2) 0)).
Proof.
  split; [intros H; apply (idx_ok Tx_Type_Inter_Inv_Set1 v 0 H)|]. split; [intros H; apply (idx_ok Tx_Type_Inter_Inv_Set2 v 0 H)|]. split; [intros H; apply (idx_ok Tx_Type_Inter_Inv_Set3 v 0 H)|].
  split; [intros H; apply (idx_ok Tx_Type_Intra_Inv_Set1 v 0 H)|intros H; apply (idx_ok Tx_Type_Intra_Inv_Set2 v 0 H)].
Qed.
Lemma readTxType_sim e t b s dir : cDisable e = dis -> tx t -> bTx b = t -> bInter b = bool_of (cIsInter e) -> bReduced b = cReduced e -> bDir b = dir -> 0 <= dir < 13 ->
  (bool_of (cIsInter e) = false -> (if cUseFilterIntra e then lift (idx FILTER_INTRA_MODE_TO_INTRA_DIR (cFilterIntraMode e)) else ret (cYMode e)) = (ret dir : M CS Z)) -> goods s ->
  0 < tx_set (bInter b) (bReduced b) t -> 0 < bQ b ->
  sim (std_type b) (readTxType e (tx_set (bInter b) (bReduced b) t) t) s (fun a r s' => r = a /\ type_ok t a /\ moved s s').
Proof.
  intros Hd Ht Hb Hi Hr Hdir Rd ED G P1 P2. unfold std_type. cbv zeta. rewrite Hb. replace (0 <? tx_set (bInter b) (bReduced b) t) with true by (symmetry; apply Z.ltb_lt; exact P1). replace (0 <? bQ b) with true by (symmetry; apply Z.ltb_lt; exact P2). cbn [andb].
  pose proof (tx_set_range (bInter b) (bReduced b) t) as [R1 R2]. destruct (set_paths t (bReduced b) Ht) as (S1 & S2 & S3 & S4). pose proof (log_min_pos t Ht) as LM. destruct (size_ctx_of t Ht) as (EQ & _).
  assert (TO : forall i set n v, tx_set i (bReduced b) t = set -> length (set_types_of i set) = n -> 0 <= v < Z.of_nat n -> type_ok t (nth (Z.to_nat v) (set_types_of i set) 0)) by (intros i set n v Es En Hv; apply (set_type_ok i (bReduced b) t); rewrite Es; apply nth_In; lia).
  unfold readTxType, intraTxTypeSymbol. rewrite <- Hi, Hd, Hdir. destruct (bInter b) eqn:BI.
  - set (set := tx_set true (bReduced b) t) in *. change TX_SET_INTER_1 with 1. change TX_SET_INTER_2 with 2. change TX_SET_INTER_3 with 3. assert (set = 1 \/ set = 2 \/ set = 3) as [E|[E|E]] by lia; rewrite E;
      repeat match goal with |- context [?x =? ?y] => first [change (x =? y) with true|change (x =? y) with false] end; cbv iota.
    + apply sim_assoc'. eapply sim_lift; [exact EQ|]. apply (sim_symk "InterTxTypeSet1Cdf" [2] 16); [exact G|cbn; tauto|repeat constructor; lia|]. intros v s1 Hv M1. eapply sim_done; [unfold lift; rewrite (proj1 (inv_tables v) Hv); reflexivity|reflexivity|reflexivity|]. split; [reflexivity|]. split; [apply (TO true 1 16%nat v E eq_refl); lia|exact M1].
    + apply (sim_symk "InterTxTypeSet2Cdf" [] 12); [exact G|cbn; tauto|constructor|]. intros v s1 Hv M1. eapply sim_done; [unfold lift; rewrite (proj1 (proj2 (inv_tables v)) Hv); reflexivity|reflexivity|reflexivity|]. split; [reflexivity|]. split; [apply (TO true 2 12%nat v E eq_refl); lia|exact M1].
    + apply sim_assoc'. eapply sim_lift; [exact EQ|]. apply (sim_symk "InterTxTypeSet3Cdf" [4] 2); [exact G|cbn; tauto|repeat constructor; lia|]. intros v s1 Hv M1. eapply sim_done; [unfold lift; rewrite (proj1 (proj2 (proj2 (inv_tables v))) Hv); reflexivity|reflexivity|reflexivity|]. split; [reflexivity|]. split; [apply (TO true 3 2%nat v E eq_refl); lia|exact M1].
  - rewrite ED by (symmetry; exact Hi). set (set := tx_set false (bReduced b) t) in *. change TX_SET_INTRA_1 with 1. change TX_SET_INTRA_2 with 2. assert (set = 1 \/ set = 2) as [E|E] by lia; rewrite E;
      repeat match goal with |- context [?x =? ?y] => first [change (x =? y) with true|change (x =? y) with false] end; cbv iota; apply sim_assoc'; (eapply sim_step; [reflexivity|reflexivity|reflexivity|]); apply sim_assoc'; (eapply sim_lift; [exact EQ|]).
    + apply (sim_symk "IntraTxTypeSet1Cdf" [2; 13] 7); [exact G|cbn; tauto|repeat constructor; lia|]. intros v s1 Hv M1. eapply sim_done; [unfold lift; rewrite (proj1 (proj2 (proj2 (proj2 (inv_tables v)))) Hv); reflexivity|reflexivity|reflexivity|]. split; [reflexivity|]. split; [apply (TO false 1 7%nat v E eq_refl); lia|exact M1].
    + apply (sim_symk "IntraTxTypeSet2Cdf" [3; 13] 5); [exact G|cbn; tauto|repeat constructor; lia|]. intros v s1 Hv M1. eapply sim_done; [unfold lift; rewrite (proj2 (proj2 (proj2 (proj2 (inv_tables v)))) Hv); reflexivity|reflexivity|reflexivity|]. split; [reflexivity|]. split; [apply (TO false 2 5%nat v E eq_refl); lia|exact M1].
Qed.


Lemma block_dir TH TW e t x4 y4 s : block_in TH TW e 0 t x4 y4 s -> bool_of (cIsInter e) = false ->
  (if cUseFilterIntra e then lift (idx FILTER_INTRA_MODE_TO_INTRA_DIR (cFilterIntraMode e)) else ret (cYMode e)) = (ret (bDir (block_of e 0 t x4 y4 s)) : M CS Z) /\ 0 <= bDir (block_of e 0 t x4 y4 s) < 13.
Proof.
  intros (_ & _ & _ & _ & _ & _ & _ & _ & _ & _ & _ & _ & _ & _ & _ & _ & H0 & _) HI. specialize (H0 eq_refl). destruct H0 as (_ & _ & HD). specialize (HD ltac:(unfold bool_of in HI; destruct (Z.eqb_spec (cIsInter e) 0); [assumption|discriminate])). cbn [bDir block_of].
  destruct (cUseFilterIntra e); [|split; [reflexivity|exact HD]]. assert (K : In (cFilterIntraMode e) (map Z.of_nat (seq 0 5))) by (apply in_map_iff; exists (Z.to_nat (cFilterIntraMode e)); split; [lia|apply in_seq; lia]).
  cbn [seq map In] in K. repeat (destruct K as [<-|K]; [split; [reflexivity|vm_compute; split; congruence]|]). contradiction.
Qed.
Definition typeds (s s' : CS) (v : Z) (w4 h4 x4 y4 : Z) : Prop := goods s' /\ exists d h types', fillTypes w4 h4 x4 y4 v (cTxTypes s) = Ok types' /\ s' = set_types (set_dec s d h) types' v.
Lemma transformType_sim TH TW e t x4 y4 s s1 : cDisable e = dis -> block_in TH TW e 0 t x4 y4 s -> moved s s1 ->
  sim (std_type (block_of e 0 t x4 y4 s)) (transformType e x4 y4 t) s1 (fun v _ s' => type_ok t v /\ typeds s1 s' v (tx_w t / 4) (tx_h t / 4) x4 y4).
Proof.
  intros Hd HB M1. pose proof M1 as (G & d1 & h1 & E1). pose proof HB as (_ & Ht & Hx & Hy & _ & _ & _ & _ & _ & _ & _ & _ & _ & _ & _ & AT & H0 & _). destruct (H0 eq_refl) as (BX & BY & _).
  set (b := block_of e 0 t x4 y4 s) in *. unfold transformType. eapply sim_lift; [apply getTxSet_spec; exact Ht|]. cbv zeta.
  assert (Eb : bTx b = t) by reflexivity. assert (Ei : bInter b = bool_of (cIsInter e)) by reflexivity. assert (Er : bReduced b = cReduced e) by reflexivity. assert (Eq : bQ b = if cSegEnabled e then cSegQ e else cBaseQIdx e) by reflexivity. rewrite <- Ei, <- Er, <- Eq.
  assert (K : sim (std_type b) (if (0 <? tx_set (bInter b) (bReduced b) t) && (0 <? bQ b) then readTxType e (tx_set (bInter b) (bReduced b) t) t else ret DCT_DCT) s1 (fun a r s' => r = a /\ type_ok t a /\ moved s1 s')).
  { destruct ((0 <? tx_set (bInter b) (bReduced b) t) && (0 <? bQ b)) eqn:C.
    - apply andb_true_iff in C as [C1 C2]. apply Z.ltb_lt in C1, C2. destruct (bool_of (cIsInter e)) eqn:BI.
      + (* the direction is not used by inter blocks *)
        eapply sim_eq with (p' := std_type (mkBlock (bPlane b) (bTx b) (bW b) (bH b) (bAbove b) (bLeft b) (bInter b) (bReduced b) (bLossless b) (bQ b) 0 (bChroma b))); [|reflexivity|].
        * unfold std_type. cbn [bTx bInter bReduced bQ bDir]. rewrite Ei. reflexivity.
        * match goal with |- sim (std_type ?b') _ _ _ => apply (readTxType_sim e t b' s1 0) end; auto; try lia. cbn [bInter]. intros X. congruence.
      + destruct (block_dir TH TW e t x4 y4 s HB BI) as [D1 D2]. apply (readTxType_sim e t b s1 (bDir b)); auto; congruence.
    - unfold std_type. cbv zeta. rewrite Eb, C. apply sim_ret. split; [reflexivity|]. split; [apply type0|apply moved_refl; exact G]. }
  match goal with |- sim ?p ?m ?s ?Q => assert (X : sim (andthen p (fun v => Done v)) m s Q) end.
  { eapply sim_bind; [exact K|]. cbv beta. intros a r s2 (-> & TO & M2). destruct (tx_logs t Ht) as (adj & wl & EW & EH & _). destruct (quarter t Ht) as (QW & QH & _). eapply sim_lift; [exact EW|]. eapply sim_lift; [exact EH|]. apply sim_get. rewrite QW, QH.
    pose proof M2 as (G2 & d2 & h2 & E2). assert (TT : cTxTypes s2 = cTxTypes s) by (rewrite E2, E1; reflexivity).
    destruct (fillTypes_ok TH TW (tx_w t / 4) (tx_h t / 4) x4 y4 a (cTxTypes s) AT Hx Hy BX BY) as (t' & Ef & _). eapply sim_lift; [rewrite TT; exact Ef|].
    eapply sim_done; [reflexivity|reflexivity|reflexivity|]. split; [exact TO|]. split; [exact G2|]. exists d2, h2, t'. split; [rewrite E1; exact Ef|]. rewrite E2. reflexivity. }
  unfold sim in *. rewrite run_andthen in X. destruct (run dis (std_type b) (cDec s1) (cCdf s1)) as [[[a d] h]| |]; exact X.
Qed.

(** ** The whole block *)
Definition quiet (s s' : CS) : Prop := goods s' /\ cDequant s' = cDequant s /\ cAboveL s' = cAboveL s /\ cAboveD s' = cAboveD s /\ cLeftL s' = cLeftL s /\ cLeftD s' = cLeftD s.
Lemma stepped_quiet s s' : stepped s s' -> quiet s s' /\ cTxTypes s' = cTxTypes s.
Proof. intros (G & d & h & q & ->). split; [split; [exact G|repeat split]|reflexivity]. Qed.
Lemma in_range_scan t l n : covers t l -> Forall (fun p => 0 <= p < coded t) (firstn n l).
Proof.
  intros [P _]. apply Forall_forall. intros p Hp. assert (Hp2 : In p l) by (rewrite <- (firstn_skipn n l); apply in_or_app; left; exact Hp).
  apply (Permutation_in p P) in Hp2. apply in_map_iff in Hp2 as (k & <- & Hk). apply in_seq in Hk. lia.
Qed.
Lemma covers_len t l : tx t -> covers t l -> zlen l = coded t.
Proof. intros H [P _]. pose proof (coded_le t H). apply Permutation_length in P. rewrite map_length, seq_length in P. unfold zlen. lia. Qed.
Lemma nth_error_firstn' {A} : forall k n (l : list A), (k < n)%nat -> nth_error (firstn n l) k = nth_error l k.
Proof. induction k as [|k IH]; intros [|n] l H; try lia; destruct l; cbn [firstn nth_error]; try reflexivity. apply IH. lia. Qed.
Lemma idx_firstn {A} (l : list A) n j : 0 <= j < Z.of_nat n -> idx (firstn n l) j = idx l j.
Proof. intros H. unfold idx. destruct (Z.ltb_spec j 0); [lia|]. rewrite nth_error_firstn' by lia. reflexivity. Qed.
Lemma idx_rev (l : list Z) j : 0 <= j < zlen l -> idx (rev l) j = idx l (zlen l - 1 - j).
Proof.
  intros H. rewrite (idx_ok (rev l) j 0), (idx_ok l (zlen l - 1 - j) 0) by (unfold zlen in *; rewrite ?rev_length; lia). f_equal. unfold zlen in *. rewrite rev_nth by lia. f_equal. lia.
Qed.
Lemma coded_sim lim TH TW e plane t x4 y4 s s1 scan : (lim <= 60)%nat -> cDisable e = dis -> block_in TH TW e plane t x4 y4 s -> moved s s1 -> rel t (fun _ => 0) s ->
  (forall ty, type_ok t ty -> getScan t ty = Ok (scan (class_of ty)) /\ covers t (scan (class_of ty))) ->
  let b := block_of e plane t x4 y4 s in
  forall wl hl, idx TX_WIDTH_LOG2 t = Ok wl -> idx TX_HEIGHT_LOG2 t = Ok hl ->
  sim (std_coded (Done 0) 65536 lim b scan)
    ((if plane =? 0 then transformType e x4 y4 t else ret tt) ;;
    let* s := get in
    let* ty := lift (computeTxType e plane t x4 y4 (cTxTypes s)) in
    put (set_planeType s ty) ;;
    let* scan := lift (getScan t ty) in
    let* wl := lift (idx TX_WIDTH_LOG2 t) in
    let* hl := lift (idx TX_HEIGHT_LOG2 t) in
    let* eobPt := readEobPt e plane t x4 y4 (ptype b) (Min wl 5 + Min hl 5 - 4) in
    let* eob := readEob e (size_context t) (ptype b) eobPt in
    for_to 0 eob (fun k _ => readLevel e plane t x4 y4 (size_context t) (ptype b) eob scan (eob - 1 - k)) tt ;;
    let* r := for_to 0 eob (fun c acc => readSign lim e plane (tx_w t / 4) (tx_h t / 4) x4 y4 (ptype b) scan c acc) (0, 0) in
    ret (Min 63 (fst r), snd r)) s1
    (fun a r s' => r = (rLevel a, rDc a) /\ rel t (rCoef a) s' /\ quiet s s' /\ (if plane =? 0 then fillTypes (tx_w t / 4) (tx_h t / 4) x4 y4 (rLuma a) (cTxTypes s) = Ok (cTxTypes s') else cTxTypes s' = cTxTypes s)).
Proof.
  intros HL Hd HB M1 RZ HS b wl hl EWl EHl. pose proof M1 as (G1 & d1 & h1 & E1). pose proof HB as (Hp & Ht & Hx & Hy & _ & _ & _ & _ & _ & _ & _ & _ & _ & _ & _ & AT & H0 & _).
  destruct (dcSign_spec TH TW e plane t x4 y4 s HB) as [DC1 DC2]. fold b in DC1, DC2.
  assert (Hpt : 0 <= ptype b <= 1) by (unfold ptype; destruct (_ =? 0); lia). assert (Hbt : bTx b = t) by reflexivity. assert (Hbp : bPlane b = plane) by reflexivity.
  unfold std_coded. rewrite Hbp.
  eapply sim_bind with (R := fun luma _ s2 => goods s2 /\ (exists ty0 pt0, s2 = mkCS (cDec s2) (cCdf s2) (cQuant s) (cDequant s) (cTxTypes s2) ty0 pt0 (cAboveL s) (cAboveD s) (cLeftL s) (cLeftD s)) /\
     computeTxType e plane t x4 y4 (cTxTypes s2) = Ok (used_type b luma) /\ type_ok t (used_type b luma) /\ if plane =? 0 then fillTypes (tx_w t / 4) (tx_h t / 4) x4 y4 luma (cTxTypes s) = Ok (cTxTypes s2) else cTxTypes s2 = cTxTypes s).
  { destruct (Z.eqb_spec plane 0) as [P0|P0].
    - assert (Eb0 : b = block_of e 0 t x4 y4 s) by (unfold b; rewrite P0; reflexivity). rewrite Eb0, P0. rewrite P0 in HB, H0. eapply sim_weaken; [|apply (transformType_sim TH TW e t x4 y4 s s1 Hd HB M1)]. cbv beta. intros v u s2 (TO & G2 & d2 & h2 & t' & Ef & E2). rewrite E1 in Ef. cbn [cTxTypes set_dec] in Ef.
      destruct (H0 eq_refl) as (BX & BY & _). destruct (fillTypes_ok TH TW (tx_w t / 4) (tx_h t / 4) x4 y4 v (cTxTypes s) AT Hx Hy BX BY) as (t'' & Ef' & _ & GT). rewrite Ef in Ef'. injection Ef' as <-.
      split; [exact G2|]. split; [exists v, (cPlaneTxType s); rewrite E2, E1; reflexivity|]. assert (ET : cTxTypes s2 = t') by (rewrite E2; reflexivity). rewrite ET.
      destruct (quarter t Ht) as (_ & _ & _ & _ & QW & QH). specialize (GT y4 x4). destruct (Z.leb_spec y4 y4), (Z.ltb_spec y4 (y4 + tx_h t / 4)), (Z.leb_spec x4 x4), (Z.ltb_spec x4 (x4 + tx_w t / 4)); try lia. cbn [andb] in GT.
      destruct (luma_type e t x4 y4 t' v Ht TO GT (block_of e 0 t x4 y4 s) eq_refl eq_refl eq_refl) as [C1 C2]. split; [exact C1|]. split; [exact C2|exact Ef].
    - apply sim_ret. split; [exact G1|]. split; [exists (cTxType s), (cPlaneTxType s); rewrite E1; destruct s; reflexivity|]. assert (ET : cTxTypes s1 = cTxTypes s) by (rewrite E1; reflexivity). rewrite ET.
      destruct (chroma_type TH TW e plane t x4 y4 s HB ltac:(lia)) as [C1 C2]. split; [exact C1|]. split; [exact C2|reflexivity]. }
  cbv beta. intros luma u s2 (G2 & (ty0 & pt0 & E2) & T2 & TO & TY). set (ty := used_type b luma) in *. cbv zeta. fold ty. destruct (HS ty TO) as [ES CV].
  apply sim_get. eapply sim_lift; [exact T2|]. eapply sim_step; [reflexivity|reflexivity|reflexivity|]. set (s3 := set_planeType s2 ty).
  assert (G3 : goods s3) by exact G2. eapply sim_lift; [exact ES|]. eapply sim_lift; [exact EWl|]. eapply sim_lift; [exact EHl|].
  destruct (eob_size t Ht) as (wl' & hl' & ms & E1' & E2' & Ems & Rms & Cms). rewrite EWl in E1'. rewrite EHl in E2'. injection E1' as <-. injection E2' as <-. rewrite Ems.
  assert (RQ : rel t (fun _ => 0) s3) by (unfold s3; rewrite E2; exact RZ). 
  assert (T3 : computeTxType e plane t x4 y4 (cTxTypes s3) = Ok ty) by exact T2.
  apply sim_assoc. eapply sim_bind; [apply (eob_sim e t b plane x4 y4 ty ms s3 Hd Ht Hbt Hpt G3 T3 Rms Cms)|]. cbv beta. intros eob r s4 (-> & Heob & M4). pose proof M4 as (G4 & d4 & h4 & E4).
  pose proof (covers_len t _ Ht CV) as CL. set (l := scan (class_of ty)) in *. set (order := firstn (Z.to_nat eob) l) in *. assert (OL : zlen order = eob) by (unfold order, zlen in *; rewrite firstn_length; lia).
  assert (OR : Forall (fun p => 0 <= p < coded t) order) by (apply in_range_scan; exact CV). assert (LEN : length order = Z.to_nat eob) by (unfold zlen in OL; lia).
  eapply sim_bind with (R := fun q _ s5 => rel t q s5 /\ lv t q /\ stepped s4 s5).
  { unfold for_to. rewrite Z.sub_0_r. replace (Z.to_nat eob) with (length (rev order)) by (rewrite rev_length; lia). change true with (0 =? 0).
    apply (levels_sim e plane t x4 y4 ty b Hd Ht Hbt Hpt l eob (rev order) 0 (fun _ => 0) s4).
    - unfold zlen. rewrite rev_length. unfold zlen in OL. lia.
    - lia.
    - intros j Hj. assert (ZR : zlen (rev order) = eob) by (unfold zlen; rewrite rev_length; exact OL). rewrite ZR in Hj. rewrite idx_rev by lia. rewrite OL. unfold order. rewrite idx_firstn by lia. f_equal.
    - apply Forall_rev. exact OR.
    - exact G4.
    - unfold typed. rewrite E4. exact T3.
    - rewrite E4. exact RQ.
    - intros i Hi. lia. }
  cbv beta. intros q u5 s5 (R5 & V5 & S5). pose proof S5 as (G5 & d5 & h5 & q5 & E5).
  eapply sim_bind with (R := fun a r s6 => r = (snd (fst a), snd a) /\ rel t (fst (fst a)) s6 /\ stepped s5 s6).
  { unfold for_to. rewrite Z.sub_0_r. rewrite <- LEN. change true with (0 =? 0).
    apply (signs_sim e plane t x4 y4 b Hd Ht Hbt Hpt lim l (tx_w t / 4) (tx_h t / 4) HL DC2 order 0 q 0 0 s5).
    - lia.
    - intros j Hj. rewrite OL in Hj. unfold order. rewrite idx_firstn by lia. reflexivity.
    - exact OR.
    - exact G5.
    - exact R5.
    - intros i Hi. specialize (V5 i Hi). change (2 ^ 62) with 4611686018427387904. lia.
    - rewrite E5, E4. unfold s3. rewrite E2. exact DC1. }
  cbv beta. intros a r s6 (-> & R6 & S6). destruct (stepped_quiet s5 s6 S6) as [Q6 TT6]. cbn [fst snd]. rewrite Min_min. apply sim_ret. cbn [rLevel rDc rCoef rLuma]. split; [reflexivity|]. split; [exact R6|].
  assert (TS : cTxTypes s6 = cTxTypes s2) by (rewrite TT6, E5, E4; reflexivity). split; [|rewrite TS; exact TY].
  destruct Q6 as (G6 & A1 & A2 & A3 & A4 & A5). split; [exact G6|]. rewrite A1, A2, A3, A4, A5, E5, E4. unfold s3. rewrite E2. repeat split.
Qed.

End Sim.
