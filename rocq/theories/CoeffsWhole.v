(** Clearing, the whole block, and what is left for the neighbours. *)
From Coq Require Import String Permutation.
From Verif Require Import GoBase Bitstream Util UtilProofs Constants Tables Frame Writes Symbol SpecSymbol SymbolProofs CdfMoves CdfMemory CdfMemoryProofs SpecPartition LoopFilter LoopFilterProofs MvStackProofs Coeffs SpecCoeffs CoeffRun CoeffsProofs CoeffsCtx CoeffsSim.
Local Open Scope Z_scope.

Lemma clear_row n (q : list Z) : 0 <= n <= zlen q -> exists q', rfor_to 0 n (fun c q => upd q c 0) q = Ok q' /\ zlen q' = zlen q /\ forall i, idx q' i = if (0 <=? i) && (i <? n) then Ok 0 else idx q i.
Proof.
  intros H. unfold rfor_to. rewrite Z.sub_0_r.
  destruct (rfor_from_inv (fun k a => zlen a = zlen q /\ forall i, idx a i = if (0 <=? i) && (i <? k) then Ok 0 else idx q i) (Z.to_nat n) 0 (fun c q => upd q c 0) q) as (q' & E & L & R).
  - split; [reflexivity|]. intros i. destruct (Z.leb_spec 0 i), (Z.ltb_spec i 0); try reflexivity; lia.
  - intros k a Hk (L & R). exists (upd_nat a (Z.to_nat k) 0). assert (U : upd a k 0 = Ok (upd_nat a (Z.to_nat k) 0)) by (apply upd_ok; lia). split; [exact U|]. split; [rewrite zlen_upd_nat; exact L|].
    intros i. destruct (Z.eq_dec i k) as [->|N].
    + rewrite (idx_upd_same _ _ _ _ U). destruct (Z.leb_spec 0 k), (Z.ltb_spec k (k + 1)); try reflexivity; lia.
    + rewrite (idx_upd_other _ _ _ i _ U) by congruence. rewrite R. destruct (Z.leb_spec 0 i), (Z.ltb_spec i k), (Z.ltb_spec i (k + 1)); try reflexivity; lia.
  - exists q'. split; [exact E|]. split; [exact L|]. intros i. rewrite R, Z.add_0_l, Z2Nat.id by lia. reflexivity.
Qed.
Lemma clear_square d : array2 64 64 d -> exists d', rfor_to 0 64 (fun i d => rfor_to 0 64 (fun j d => upd2 d i j 0) d) d = Ok d' /\ array2 64 64 d' /\ forall i j, 0 <= i < 64 -> 0 <= j < 64 -> idx2 d' i j = Ok 0.
Proof.
  intros A.
  assert (E : exists d', rfor_to 0 64 (fun i d => rfor_to 0 64 (fun j d => upd2 d i j 0) d) d = Ok d' /\ array2 64 64 d').
  { apply (rfor_to_ok (fun t => array2 64 64 t)); [exact A|]. intros i t1 Hi A1. apply (rfor_to_ok (fun t => array2 64 64 t)); [exact A1|]. intros j t2 Hj A2. destruct (proj2 (array2_get 64 64 t2 i j A2) ltac:(lia)) as [u Eu].
    destruct (upd2_succeeds t2 i j u 0 Eu) as [t3 E3]. exists t3. split; [exact E3|]. eapply array2_upd; eassumption. }
  destruct E as (d' & E & A'). exists d'. split; [exact E|]. split; [exact A'|]. intros i j Hi Hj.
  assert (W2 : writes get2 (fun _ => Ok 0) (fun p => exists i, 0 <= i < 64 /\ exists j, 0 <= j < 64 /\ p = (i, j)) d d').
  { revert E. apply (writes_loop get2 (fun _ => Ok 0) 0 64 _ (fun i p => exists j, 0 <= j < 64 /\ p = (i, j))).
    - intros i' Hi'. apply (decided_range 0 64 (fun j p => p = (i', j))). intros. apply decided_eq2.
    - intros i' a a' Hi' Ea. revert Ea. apply (writes_loop get2 (fun _ => Ok 0) 0 64 _ (fun j p => p = (i', j))); [intros; apply decided_eq2|]. intros j' u u' Hj' Eu. apply (writes_upd2 (fun _ => Ok 0) _ _ 0 u u' eq_refl Eu). }
  destruct W2 as [W1 _]. destruct (W1 (i, j)) as (v & [= <-] & Ev); [exists i; split; [lia|]; exists j; split; [lia|reflexivity]|exact Ev].
Qed.
(** two tables, the same cells of one row *)
Lemma leave_row W p x n u v (l d : list (list Z)) : array2 3 W l -> array2 3 W d -> 0 <= p < 3 -> 0 <= x -> 0 <= n -> x + n <= W ->
  exists l' d', rfor_to 0 n (fun i a => let! l := upd2 (fst a) p (x + i) u in let! d := upd2 (snd a) p (x + i) v in Ok (l, d)) (l, d) = Ok (l', d') /\ array2 3 W l' /\ array2 3 W d' /\
    (forall i j, idx2 l' i j = if (i =? p) && (x <=? j) && (j <? x + n) then Ok u else idx2 l i j) /\ (forall i j, idx2 d' i j = if (i =? p) && (x <=? j) && (j <? x + n) then Ok v else idx2 d i j).
Proof.
  intros AL AD Hp Hx Hn HW. unfold rfor_to. rewrite Z.sub_0_r.
  destruct (rfor_from_inv (fun k a => array2 3 W (fst a) /\ array2 3 W (snd a) /\ (forall i j, idx2 (fst a) i j = if (i =? p) && (x <=? j) && (j <? x + k) then Ok u else idx2 l i j) /\ (forall i j, idx2 (snd a) i j = if (i =? p) && (x <=? j) && (j <? x + k) then Ok v else idx2 d i j))
    (Z.to_nat n) 0 (fun i a => let! l := upd2 (fst a) p (x + i) u in let! d := upd2 (snd a) p (x + i) v in Ok (l, d)) (l, d)) as ([l' d'] & E & A1 & A2 & R1 & R2).
  - cbn [fst snd]. split; [exact AL|]. split; [exact AD|]. split; intros i j; (replace ((x <=? j) && (j <? x + 0)) with false by (destruct (Z.leb_spec x j), (Z.ltb_spec j (x + 0)); try reflexivity; lia)); rewrite <- andb_assoc; (replace ((x <=? j) && (j <? x + 0)) with false by (destruct (Z.leb_spec x j), (Z.ltb_spec j (x + 0)); try reflexivity; lia)); rewrite andb_false_r; reflexivity.
  - intros k [a1 a2] Hk (B1 & B2 & S1 & S2). cbn [fst snd] in *.
    destruct (proj2 (array2_get 3 W a1 p (x + k) B1) ltac:(lia)) as [u1 Eu1]. destruct (upd2_succeeds a1 p (x + k) u1 u Eu1) as [c1 C1].
    destruct (proj2 (array2_get 3 W a2 p (x + k) B2) ltac:(lia)) as [u2 Eu2]. destruct (upd2_succeeds a2 p (x + k) u2 v Eu2) as [c2 C2].
    exists (c1, c2). rewrite C1. cbn [rbind]. rewrite C2. cbn [rbind]. split; [reflexivity|]. cbn [fst snd]. split; [apply (array2_upd 3 W a1 c1 p (x + k) u B1 C1)|]. split; [apply (array2_upd 3 W a2 c2 p (x + k) v B2 C2)|].
    assert (K : forall (a c : list (list Z)) w z, upd2 a p (x + k) w = Ok c -> (forall i j, idx2 a i j = if (i =? p) && (x <=? j) && (j <? x + k) then Ok w else idx2 z i j) -> forall i j, idx2 c i j = if (i =? p) && (x <=? j) && (j <? x + (k + 1)) then Ok w else idx2 z i j).
    { intros a c w z C S i j. destruct (Z.eq_dec i p) as [->|Ni].
      - destruct (Z.eq_dec j (x + k)) as [->|Nj].
        + rewrite (idx2_upd2_same _ _ _ _ _ C), Z.eqb_refl. destruct (Z.leb_spec x (x + k)), (Z.ltb_spec (x + k) (x + (k + 1))); try lia. reflexivity.
        + rewrite (idx2_upd2_other _ _ _ _ p j _ C) by congruence. rewrite S, Z.eqb_refl. destruct (Z.leb_spec x j), (Z.ltb_spec j (x + k)), (Z.ltb_spec j (x + (k + 1))); try reflexivity; lia.
      - rewrite (idx2_upd2_other _ _ _ _ i j _ C) by congruence. rewrite S. destruct (Z.eqb_spec i p); [contradiction|reflexivity]. }
    split; [apply (K a1 c1 u l C1 S1)|apply (K a2 c2 v d C2 S2)].
  - exists l', d'. cbn [fst snd] in *. rewrite Z.add_0_l, Z2Nat.id in R1, R2 by lia. auto.
Qed.

Lemma seg_eob t : tx t -> (if (t =? TX_16X64) || (t =? TX_64X16) then 512 else Min 1024 (tx_w t * tx_h t)) = coded t.
Proof. intros H. apply tx_in in H. cbn [seq map In] in H. repeat (destruct H as [<-|H]; [vm_compute; reflexivity|]). contradiction. Qed.

(** what [coeffs] leaves, given the result of the parse *)
Definition leaves_ctx (plane x4 y4 t : Z) (r : parsed) (s s' : CS) : Prop :=
  (forall p j, idx2 (cAboveL s') p j = if (p =? plane) && (x4 <=? j) && (j <? x4 + tx_w t / 4) then Ok (rLevel r) else idx2 (cAboveL s) p j) /\
  (forall p j, idx2 (cAboveD s') p j = if (p =? plane) && (x4 <=? j) && (j <? x4 + tx_w t / 4) then Ok (rDc r) else idx2 (cAboveD s) p j) /\
  (forall p j, idx2 (cLeftL s') p j = if (p =? plane) && (y4 <=? j) && (j <? y4 + tx_h t / 4) then Ok (rLevel r) else idx2 (cLeftL s) p j) /\
  (forall p j, idx2 (cLeftD s') p j = if (p =? plane) && (y4 <=? j) && (j <? y4 + tx_h t / 4) then Ok (rDc r) else idx2 (cLeftD s) p j).
Definition leaves_types (plane x4 y4 t : Z) (r : parsed) (s s' : CS) : Prop :=
  forall j i, idx2 (cTxTypes s') j i = if (plane =? 0) && (y4 <=? j) && (j <? y4 + tx_h t / 4) && (x4 <=? i) && (i <? x4 + tx_w t / 4) then Ok (rLuma r) else idx2 (cTxTypes s) j i.
Definition same_sizes TH TW (e : CEnv) (s : CS) : Prop :=
  array2 3 (cMiCols e) (cAboveL s) /\ array2 3 (cMiCols e) (cAboveD s) /\ array2 3 (cMiRows e) (cLeftL s) /\ array2 3 (cMiRows e) (cLeftD s) /\ array1 4096 (cQuant s) /\ array2 64 64 (cDequant s) /\ array2 TH TW (cTxTypes s).

Lemma coeffs_follows lim TH TW e plane startX startY t s endp scan : (lim <= 60)%nat -> goods endp s -> block_in TH TW e plane t (startX / 4) (startY / 4) s ->
  (forall ty, type_ok t ty -> getScan t ty = Ok (scan (class_of ty)) /\ covers t (scan (class_of ty))) ->
  sim (cDisable e) (std_block (Done 0) 65536 lim (block_of e plane t (startX / 4) (startY / 4) s) scan) (coeffs lim e plane startX startY t) s
    (fun r z s' => z = 0 /\ goods endp s' /\ (forall i, 0 <= i < coded t -> idx (cQuant s') i = Ok (rCoef r i)) /\ (forall i j, 0 <= i < 64 -> 0 <= j < 64 -> idx2 (cDequant s') i j = Ok 0) /\
       leaves_ctx plane (startX / 4) (startY / 4) t r s s' /\ leaves_types plane (startX / 4) (startY / 4) t r s s' /\ same_sizes TH TW e s').
Proof.
  intros HL G HB HS. pose proof HB as (Hp & Ht & Hx & Hy & _ & HR & HC & Bx & By & AL & AD & LL & LD & AQ & ADq & AT & H0 & _). set (x4 := startX / 4) in *. set (y4 := startY / 4) in *.
  destruct (tx_logs t Ht) as (adj & wl0 & EW & EH & _). destruct (quarter t Ht) as (QW & QH & _ & _ & RW & RH). destruct (size_ctx_of t Ht) as (ES & EU & SC & ESC). pose proof (coded_le t Ht) as CL.
  unfold coeffs. cbv zeta. replace (shr startX 2) with x4 by (rewrite shr_div by lia; reflexivity). replace (shr startY 2) with y4 by (rewrite shr_div by lia; reflexivity).
  eapply sim_lift; [exact EW|]. eapply sim_lift; [exact EH|]. eapply sim_lift; [exact ES|]. eapply sim_lift; [exact EU|]. rewrite ESC, QW, QH, seg_eob by exact Ht. apply sim_get.
  destruct (clear_row (coded t) (cQuant s) ltac:(unfold array1 in AQ; lia)) as (q' & Eq & Lq & Rq). destruct (clear_square (cDequant s) ADq) as (dq' & Ed & Adq & Rd).
  assert (EC : clearQuant (coded t) s = Ok (set_clear s q' dq')) by (unfold clearQuant; rewrite Eq; cbn [rbind]; rewrite Ed; reflexivity).
  eapply sim_lift; [exact EC|]. eapply sim_step; [reflexivity|reflexivity|reflexivity|]. set (s0 := set_clear s q' dq').
  assert (HB0 : block_in TH TW e plane t x4 y4 s0) by (unfold block_in in *; unfold s0; cbn [cAboveL cAboveD cLeftL cLeftD cQuant cDequant cTxTypes set_clear]; decompose [and] HB; repeat (split; [first [assumption|unfold array1 in *; lia]|]); assumption).
  set (b := block_of e plane t x4 y4 s). assert (Eb : block_of e plane t x4 y4 s0 = b) by reflexivity.
  assert (Ept : int_of (0 <? plane) = ptype b) by (unfold ptype; cbn [bPlane b block_of]; destruct (Z.ltb_spec 0 plane), (Z.eqb_spec plane 0); try reflexivity; lia). rewrite Ept.
  assert (RZ : rel t (fun _ => 0) s0). { split; [cbn [cQuant s0 set_clear]; unfold array1 in AQ; lia|]. intros i Hi. cbn [cQuant s0 set_clear]. rewrite Rq. destruct (Z.leb_spec 0 i), (Z.ltb_spec i (coded t)); try lia. reflexivity. }
  match goal with |- sim ?d ?p (bind ?m ?k) ?s ?Q => assert (X : sim d (andthen p (fun v => Done v)) (bind m k) s Q) end.
  { eapply sim_bind with (R := fun a r s' => r = (rLevel a, rDc a) /\ rel t (rCoef a) s' /\ quiet endp s0 s' /\ (if plane =? 0 then fillTypes (tx_w t / 4) (tx_h t / 4) x4 y4 (rLuma a) (cTxTypes s0) = Ok (cTxTypes s') else cTxTypes s' = cTxTypes s0)).
    - unfold readBlock, std_block. apply sim_get. destruct (allZero_spec TH TW e plane t x4 y4 s0 HB0) as [AZ1 AZ2]. rewrite Eb in AZ1, AZ2. eapply sim_lift; [exact AZ1|].
      change (bTx b) with t. apply (sim_symk (cDisable e) endp "TxbSkipCdf" [5; 13] 2); [exact G|cbn; tauto|repeat constructor; lia|]. intros v s1 Hv M1. pose proof M1 as (G1 & d1 & h1 & E1).
      unfold bool_of. destruct (Z.eqb_spec v 0) as [V0|V0]; cbn [negb].
      + destruct (eob_size t Ht) as (wl & hl & ms & EWl & EHl & _). rewrite <- Eb. apply (coded_sim (cDisable e) endp lim TH TW e plane t x4 y4 s0 s1 scan HL eq_refl HB0 M1 RZ HS wl hl EWl EHl).
      + destruct (Z.eqb_spec plane 0) as [P0|P0].
        * destruct (H0 P0) as (BX & BY & _). destruct (fillTypes_ok TH TW (tx_w t / 4) (tx_h t / 4) x4 y4 0 (cTxTypes s) AT Hx Hy BX BY) as (t' & Ef & _).
          eapply sim_step; [unfold get, lift, put, bind; cbn; rewrite E1; cbn [cTxTypes set_dec s0 set_clear]; change DCT_DCT with 0; rewrite Ef; reflexivity|rewrite E1; reflexivity|rewrite E1; reflexivity|].
          apply sim_ret. cbn [rLevel rDc rCoef rLuma]. split; [reflexivity|]. split; [exact RZ|]. split; [|exact Ef]. split; [rewrite E1 in G1; exact G1|repeat split].
        * eapply sim_step; [reflexivity|reflexivity|reflexivity|]. apply sim_ret. cbn [rLevel rDc rCoef rLuma]. split; [reflexivity|]. split; [rewrite E1; exact RZ|]. split; [|rewrite E1; reflexivity]. split; [exact G1|rewrite E1; repeat split].
    - cbv beta. intros r rr s' (-> & RR & (GQ & A1 & A2 & A3 & A4 & A5) & TY). cbn [fst snd]. apply sim_get.
      destruct (leave_row (cMiCols e) plane x4 (tx_w t / 4) (rLevel r) (rDc r) (cAboveL s) (cAboveD s) AL AD ltac:(lia) Hx ltac:(lia) Bx) as (al & ad & EA & AAl & AAd & RAl & RAd).
      destruct (leave_row (cMiRows e) plane y4 (tx_h t / 4) (rLevel r) (rDc r) (cLeftL s) (cLeftD s) LL LD ltac:(lia) Hy ltac:(lia) By) as (ll & ld & EL & ALl & ALd & RLl & RLd).
      assert (ELv : leaveCtx plane x4 y4 (tx_w t / 4) (tx_h t / 4) (rLevel r) (rDc r) s' = Ok (set_ctx s' al ad ll ld)).
      { unfold leaveCtx. rewrite A2, A3, A4, A5. change (cAboveL s0) with (cAboveL s). change (cAboveD s0) with (cAboveD s). change (cLeftL s0) with (cLeftL s). change (cLeftD s0) with (cLeftD s). rewrite EA. cbn [rbind fst snd]. rewrite EL. reflexivity. }
      eapply sim_lift; [exact ELv|]. eapply sim_step; [reflexivity|reflexivity|reflexivity|]. apply sim_ret. split; [reflexivity|]. split; [exact GQ|]. split; [exact (proj2 RR)|]. split; [intros i j Hi Hj; cbn [cDequant set_ctx]; rewrite A1; apply Rd; assumption|].
      split; [unfold leaves_ctx; cbn [cAboveL cAboveD cLeftL cLeftD set_ctx]; auto|].
      assert (TT : (forall j i, idx2 (cTxTypes s') j i = if (plane =? 0) && (y4 <=? j) && (j <? y4 + tx_h t / 4) && (x4 <=? i) && (i <? x4 + tx_w t / 4) then Ok (rLuma r) else idx2 (cTxTypes s) j i) /\ array2 TH TW (cTxTypes s')).
      { destruct (Z.eqb_spec plane 0) as [P0|P0]; [|cbn [andb]; rewrite TY; split; [reflexivity|exact AT]]. cbn [andb]. destruct (H0 P0) as (BX & BY & _).
        destruct (fillTypes_ok TH TW (tx_w t / 4) (tx_h t / 4) x4 y4 (rLuma r) (cTxTypes s) AT Hx Hy BX BY) as (t' & Ef & At' & GT). change (cTxTypes s0) with (cTxTypes s) in TY. rewrite Ef in TY. injection TY as <-. split; [exact GT|exact At']. }
      split; [exact (proj1 TT)|]. split; [exact AAl|]. split; [exact AAd|]. split; [exact ALl|]. split; [exact ALd|]. split; [exact (proj1 RR)|]. split; [cbn [cDequant set_ctx]; rewrite A1; exact Adq|exact (proj2 TT)]. }
  unfold sim in *. rewrite run_andthen in X. destruct (run (cDisable e) (std_block (Done 0) 65536 lim b scan) (cDec s0) (cCdf s0)) as [[[a d] h]| |]; exact X.
Qed.
