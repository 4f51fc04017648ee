(** The contexts that depend on the neighbours, and the transform type. *)
From Coq Require Import String Permutation.
From Verif Require Import GoBase Bitstream Util UtilProofs Constants Tables Frame Writes Symbol SpecSymbol SymbolProofs CdfMoves CdfMemory CdfMemoryProofs SpecPartition LoopFilter LoopFilterProofs MvStackProofs Coeffs SpecCoeffs CoeffRun CoeffsProofs.
Local Open Scope Z_scope.

Lemma fold_inside {A} (f : A -> Z -> A) x lim : forall n k0 (body : Z -> A -> res A) a0, (forall k a, k0 <= k < k0 + Z.of_nat n -> body k a = if x + k <? lim then Ok (f a (x + k)) else Ok a) ->
  rfor_from n k0 body a0 = Ok (fold_left f (filter (fun i => i <? lim) (map (fun k => x + k0 + Z.of_nat k) (seq 0 n))) a0).
Proof.
  induction n as [|n IH]; intros k0 body a0 HB; [reflexivity|]. cbn [rfor_from seq map filter]. rewrite HB by lia. rewrite Z.add_0_r.
  assert (E : map (fun k => x + k0 + Z.of_nat k) (seq 1 n) = map (fun k => x + (k0 + 1) + Z.of_nat k) (seq 0 n)).
  { rewrite <- seq_shift, map_map. apply map_ext. intros. lia. }
  rewrite E. destruct (x + k0 <? lim); cbn [rbind fold_left]; apply IH; intros; apply HB; lia.
Qed.
Lemma loop_inside {A} (f : A -> Z -> A) x n lim (body : Z -> A -> res A) a0 : 0 <= n -> (forall k a, 0 <= k < n -> body k a = if x + k <? lim then Ok (f a (x + k)) else Ok a) ->
  rfor_to 0 n body a0 = Ok (fold_left f (inside x n lim) a0).
Proof.
  intros Hn HB. unfold rfor_to, inside. rewrite (fold_inside f x lim); [|intros; apply HB; lia]. do 3 f_equal. - rewrite Z.sub_0_r. apply map_ext. intros. lia.
Qed.
Lemma cell_ok g n m i j : array2 n m g -> 0 <= i < n -> 0 <= j < m -> idx2 g i j = Ok (cell g i j).
Proof. intros H Hi Hj. unfold cell. destruct (proj2 (array2_get n m g i j H) (conj Hi Hj)) as [v E]. rewrite E. reflexivity. Qed.
Lemma in_inside x n lim i : In i (inside x n lim) -> x <= i < x + n /\ i < lim.
Proof. unfold inside. rewrite filter_In, in_map_iff. intros ((k & <- & Hk) & L). apply in_seq in Hk. lia. Qed.

Lemma limit_eq e plane : 0 <= cMiCols e < 2 ^ 20 -> 0 <= cMiRows e < 2 ^ 20 -> maxX4 e plane = plane_limit (cMiCols e) plane (cSubX e) /\ maxY4 e plane = plane_limit (cMiRows e) plane (cSubY e).
Proof.
  intros H1 H2. unfold maxX4, maxY4, plane_limit. destruct (0 <? plane); [|auto]. cbn [andb]. rewrite !shr_div by (destruct (cSubX e), (cSubY e); cbn; lia).
  destruct (cSubX e), (cSubY e); cbn [int_of]; change (2 ^ 1) with 2; change (2 ^ 0) with 1; rewrite ?Z.div_1_r; auto.
Qed.
Lemma limit_le mi plane sub : 0 <= mi -> plane_limit mi plane sub <= mi.
Proof. intros. unfold plane_limit. destruct (_ && _); [|lia]. apply Z.div_le_upper_bound; lia. Qed.
Lemma quarter t : tx t -> shr (tx_w t) 2 = tx_w t / 4 /\ shr (tx_h t) 2 = tx_h t / 4 /\ 4 <= tx_w t <= 64 /\ 4 <= tx_h t <= 64 /\ 1 <= tx_w t / 4 <= 16 /\ 1 <= tx_h t / 4 <= 16.
Proof.
  intros H. apply tx_in in H. cbn [seq map In] in H. repeat (destruct H as [<-|H]; [vm_compute; repeat split; congruence|]). contradiction.
Qed.
Lemma block_dim_ok m : 0 <= m < 22 -> idx BLOCK_WIDTH m = Ok (fst (nth (Z.to_nat m) block_dims (0, 0))) /\ idx BLOCK_HEIGHT m = Ok (snd (nth (Z.to_nat m) block_dims (0, 0))).
Proof.
  intros H. assert (K : In m (map Z.of_nat (seq 0 22))) by (apply in_map_iff; exists (Z.to_nat m); split; [lia|apply in_seq; lia]).
  cbn [seq map In] in K. repeat (destruct K as [<-|K]; [vm_compute; split; reflexivity|]). contradiction.
Qed.
Lemma residual_ok e plane : 0 <= cMiSize e < 22 -> 0 <= plane -> (0 < plane -> cSubX e = cSubY e) -> exists bs, getPlaneResidualSize (cSubX e) (cSubY e) (cMiSize e) plane = Ok bs /\
  idx BLOCK_WIDTH bs = Ok (plane_size (fst (nth (Z.to_nat (cMiSize e)) block_dims (0, 0))) plane (cSubX e)) /\ idx BLOCK_HEIGHT bs = Ok (plane_size (snd (nth (Z.to_nat (cMiSize e)) block_dims (0, 0))) plane (cSubY e)).
Proof.
  intros H Hp HS. unfold getPlaneResidualSize, plane_size. cbv zeta. revert H HS. generalize (cMiSize e), (cSubX e), (cSubY e). intros m sx sy H HS.
  assert (K : In m (map Z.of_nat (seq 0 22))) by (apply in_map_iff; exists (Z.to_nat m); split; [lia|apply in_seq; lia]).
  destruct (Z.ltb_spec 0 plane) as [L|L].
  - rewrite <- (HS L). cbn [seq map In] in K. destruct sx; repeat (destruct K as [<-|K]; [eexists; split; [vm_compute; reflexivity|]; vm_compute; split; reflexivity|]); contradiction.
  - cbn [seq map In andb] in *. repeat (destruct K as [<-|K]; [eexists; split; [vm_compute; reflexivity|]; vm_compute; split; reflexivity|]). contradiction.
Qed.

Lemma fold_max l : forall a, 0 <= a -> fold_left (fun a v => Max a v) l a = Z.max a (maxl l) /\ 0 <= maxl l.
Proof.
  induction l as [|v l IH]; intros a Ha; cbn [fold_left maxl fold_right]; [lia|]. rewrite Max_max. destruct (IH (Z.max a v) ltac:(lia)) as [-> H]. unfold maxl in *. lia.
Qed.
Lemma fold_left_map {A B C} (f : A -> B -> A) (g : C -> B) l : forall a, fold_left (fun a c => f a (g c)) l a = fold_left f (map g l) a.
Proof. induction l as [|c l IH]; intros a; cbn; [reflexivity|]. apply IH. Qed.
Lemma fold_lor l : forall a, (fold_left (fun a (p : Z * Z) => Z.lor (Z.lor a (fst p)) (snd p)) l a =? 0) = (a =? 0) && negb (existsb (fun p => negb ((fst p =? 0) && (snd p =? 0))) l).
Proof.
  induction l as [|[u v] l IH]; intros a; cbn [fold_left existsb]; [rewrite andb_true_r; reflexivity|]. rewrite IH. cbn [fst snd].
  assert (E : (Z.lor (Z.lor a u) v =? 0) = (a =? 0) && ((u =? 0) && (v =? 0))).
  { destruct (Z.eqb_spec (Z.lor (Z.lor a u) v) 0) as [X|X].
    - apply Z.lor_eq_0_iff in X as [X ->]. apply Z.lor_eq_0_iff in X as [-> ->]. reflexivity.
    - destruct (Z.eqb_spec a 0) as [->|], (Z.eqb_spec u 0) as [->|], (Z.eqb_spec v 0) as [->|]; try reflexivity. exfalso. apply X. reflexivity. }
  rewrite E. destruct (a =? 0), (u =? 0), (v =? 0), (existsb _ l); reflexivity.
Qed.
Lemma level_top a b (whole : bool) : 0 <= a -> 0 <= b ->
  (if whole then 0 else if (Z.min a 255 =? 0) && (Z.min b 255 =? 0) then 1 else if (Z.min a 255 =? 0) || (Z.min b 255 =? 0) then 2 + int_of (3 <? Max (Z.min a 255) (Z.min b 255))
        else if Max (Z.min a 255) (Z.min b 255) <=? 3 then 4 else if Min (Z.min a 255) (Z.min b 255) <=? 3 then 5 else 6) = all_zero_luma whole a b.
Proof.
  intros Ha Hb. unfold all_zero_luma, level_class. destruct whole; [reflexivity|]. rewrite Max_max, Min_min.
  destruct (Z.leb_spec a 0), (Z.leb_spec a 3), (Z.leb_spec b 0), (Z.leb_spec b 3); try lia;
    destruct (Z.eqb_spec (Z.min a 255) 0), (Z.eqb_spec (Z.min b 255) 0); try lia; cbn [andb orb];
    repeat match goal with |- context [?u <=? ?v] => destruct (Z.leb_spec u v); try lia | |- context [?u <? ?v] => destruct (Z.ltb_spec u v); try lia end; reflexivity.
Qed.
Lemma all_zero_luma_range w a b : 0 <= all_zero_luma w a b <= 6.
Proof. unfold all_zero_luma, level_class. destruct w; [lia|]. destruct (a <=? 0), (a <=? 3), (b <=? 0), (b <=? 3); cbn; lia. Qed.

Lemma allZero_spec TH TW e plane t x4 y4 s : block_in TH TW e plane t x4 y4 s ->
  allZeroCtx e plane t (tx_w t / 4) (tx_h t / 4) x4 y4 s = Ok (all_zero_context (block_of e plane t x4 y4 s)) /\ 0 <= all_zero_context (block_of e plane t x4 y4 s) < 13.
Proof.
  intros (Hp & Ht & Hx & Hy & Hm & HR & HC & Bx & By & AL & AD & LL & LD & _ & _ & _ & H0 & H1).
  destruct (tx_logs t Ht) as (adj & wl & EW & EH & _). destruct (quarter t Ht) as (_ & _ & RW & RH & QW & QH).
  destruct (residual_ok e plane Hm ltac:(lia) ltac:(intros; apply H1; assumption)) as (bs & Eb & Ew & Eh). destruct (limit_eq e plane HC HR) as [LX LY].
  pose proof (limit_le (cMiCols e) plane (cSubX e) ltac:(lia)) as LimX. pose proof (limit_le (cMiRows e) plane (cSubY e) ltac:(lia)) as LimY.
  split.
  - unfold allZeroCtx. cbv zeta. rewrite EW, EH. cbn [rbind]. rewrite Eb. cbn [rbind]. rewrite Ew, Eh. cbn [rbind]. unfold all_zero_context. cbn [bPlane bTx bW bH bAbove bLeft block_of].
    destruct (Z.eqb_spec plane 0) as [P0|P0].
    + rewrite (loop_inside (fun a i => Max a (cell (cAboveL s) plane i)) x4 _ (maxX4 e plane)) by (first [lia | intros k a Hk; destruct (x4 + k <? maxX4 e plane) eqn:E; [|reflexivity]; apply Z.ltb_lt in E; rewrite LX in E; rewrite (cell_ok _ 3 (cMiCols e)) by (auto; lia); reflexivity]). cbn [rbind].
      rewrite (loop_inside (fun a i => Max a (cell (cLeftL s) plane i)) y4 _ (maxY4 e plane)) by (first [lia | intros k a Hk; destruct (y4 + k <? maxY4 e plane) eqn:E; [|reflexivity]; apply Z.ltb_lt in E; rewrite LY in E; rewrite (cell_ok _ 3 (cMiRows e)) by (auto; lia); reflexivity]). cbn [rbind].
      rewrite LX, LY. rewrite (fold_left_map (fun a v => Max a v) (fun i => cell (cAboveL s) plane i)), (fold_left_map (fun a v => Max a v) (fun i => cell (cLeftL s) plane i)). f_equal. unfold neighbours. rewrite !map_map. cbn [fst].
      destruct (fold_max (map (fun i => cell (cAboveL s) plane i) (inside x4 (tx_w t / 4) (plane_limit (cMiCols e) plane (cSubX e)))) 0 ltac:(lia)) as [-> N1].
      destruct (fold_max (map (fun i => cell (cLeftL s) plane i) (inside y4 (tx_h t / 4) (plane_limit (cMiRows e) plane (cSubY e)))) 0 ltac:(lia)) as [-> N2].
      rewrite !(Z.max_r 0) by assumption. rewrite (Min_min _ 255), (Min_min _ 255). apply level_top; assumption.
    + rewrite (loop_inside (fun a i => Z.lor (Z.lor a (cell (cAboveL s) plane i)) (cell (cAboveD s) plane i)) x4 _ (maxX4 e plane)) by (first [lia | intros k a Hk; destruct (x4 + k <? maxX4 e plane) eqn:E; [|reflexivity]; apply Z.ltb_lt in E; rewrite LX in E; rewrite !(cell_ok _ 3 (cMiCols e)) by (auto; lia); reflexivity]). cbn [rbind].
      rewrite (loop_inside (fun a i => Z.lor (Z.lor a (cell (cLeftL s) plane i)) (cell (cLeftD s) plane i)) y4 _ (maxY4 e plane)) by (first [lia | intros k a Hk; destruct (y4 + k <? maxY4 e plane) eqn:E; [|reflexivity]; apply Z.ltb_lt in E; rewrite LY in E; rewrite !(cell_ok _ 3 (cMiRows e)) by (auto; lia); reflexivity]). cbn [rbind].
      rewrite LX, LY. f_equal. rewrite (fold_left_map (fun a p => Z.lor (Z.lor a (fst p)) (snd p)) (fun i => (cell (cAboveL s) plane i, cell (cAboveD s) plane i))), (fold_left_map (fun a p => Z.lor (Z.lor a (fst p)) (snd p)) (fun i => (cell (cLeftL s) plane i, cell (cLeftD s) plane i))).
      rewrite !fold_lor. change (0 =? 0) with true. cbn [andb]. fold (neighbours (cAboveL s) (cAboveD s) plane x4 (tx_w t / 4) (plane_limit (cMiCols e) plane (cSubX e))). fold (neighbours (cLeftL s) (cLeftD s) plane y4 (tx_h t / 4) (plane_limit (cMiRows e) plane (cSubY e))).
      rewrite !negb_involutive. unfold some_nonzero. destruct (existsb _ (neighbours (cAboveL s) _ _ _ _ _)), (existsb _ (neighbours (cLeftL s) _ _ _ _ _)); cbn [int_of]; destruct (_ <? _); lia.
  - unfold all_zero_context. generalize (block_of e plane t x4 y4 s). intros b. destruct (bPlane b =? 0); [match goal with |- 0 <= all_zero_luma ?a ?b ?c < 13 => pose proof (all_zero_luma_range a b c); lia end|].
    unfold some_nonzero. repeat match goal with |- context [if ?b then _ else _] => destruct b end; lia.
Qed.
Lemma fold_sign l : forall a, fold_left (fun a v => addSign v a) l a = a + fold_right (fun v s => (if v =? 1 then -1 else if v =? 2 then 1 else 0) + s) 0 l.
Proof. induction l as [|v l IH]; intros a; cbn [fold_left fold_right]; [lia|]. rewrite IH. unfold addSign. destruct (v =? 1), (v =? 2); lia. Qed.
Lemma fold_right_snd (f : Z -> Z -> Z) (l : list (Z * Z)) a : fold_right (fun p s => f (snd p) s) a l = fold_right f a (map snd l).
Proof. induction l as [|p l IH]; cbn; [reflexivity|]. rewrite IH. reflexivity. Qed.
Lemma dcSign_spec TH TW e plane t x4 y4 s : block_in TH TW e plane t x4 y4 s ->
  dcSignCtx e plane (tx_w t / 4) (tx_h t / 4) x4 y4 s = Ok (dc_context (block_of e plane t x4 y4 s)) /\ 0 <= dc_context (block_of e plane t x4 y4 s) < 3.
Proof.
  intros (Hp & Ht & Hx & Hy & Hm & HR & HC & Bx & By & AL & AD & LL & LD & _ & _ & _ & H0 & H1).
  destruct (quarter t Ht) as (_ & _ & RW & RH & QW & QH). destruct (limit_eq e plane HC HR) as [LX LY].
  pose proof (limit_le (cMiCols e) plane (cSubX e) ltac:(lia)) as LimX. pose proof (limit_le (cMiRows e) plane (cSubY e) ltac:(lia)) as LimY.
  split.
  - unfold dcSignCtx. rewrite (loop_inside (fun a i => addSign (cell (cAboveD s) plane i) a) x4 _ (maxX4 e plane)) by (first [lia | intros k a Hk; destruct (x4 + k <? maxX4 e plane) eqn:E; [|reflexivity]; apply Z.ltb_lt in E; rewrite LX in E; rewrite (cell_ok _ 3 (cMiCols e)) by (auto; lia); reflexivity]). cbn [rbind].
    rewrite (loop_inside (fun a i => addSign (cell (cLeftD s) plane i) a) y4 _ (maxY4 e plane)) by (first [lia | intros k a Hk; destruct (y4 + k <? maxY4 e plane) eqn:E; [|reflexivity]; apply Z.ltb_lt in E; rewrite LY in E; rewrite (cell_ok _ 3 (cMiRows e)) by (auto; lia); reflexivity]). cbn [rbind].
    rewrite LX, LY. rewrite (fold_left_map (fun a v => addSign v a) (fun i => cell (cAboveD s) plane i)), (fold_left_map (fun a v => addSign v a) (fun i => cell (cLeftD s) plane i)), !fold_sign. unfold dc_context. cbn [bAbove bLeft block_of]. cbv zeta.
    rewrite (fold_right_snd (fun v s => (if v =? 1 then -1 else if v =? 2 then 1 else 0) + s)), map_app, fold_right_app. unfold neighbours. rewrite !map_map. cbn [snd].
    assert (FA : forall l b, fold_right (fun v s => (if v =? 1 then -1 else if v =? 2 then 1 else 0) + s) b l = fold_right (fun v s => (if v =? 1 then -1 else if v =? 2 then 1 else 0) + s) 0 l + b) by (induction l as [|v l IH]; intros b; cbn [fold_right]; [lia|rewrite IH; lia]).
    rewrite (FA _ (fold_right _ 0 _)). reflexivity.
  - unfold dc_context. cbv zeta. destruct (_ <? 0); [lia|]. destruct (0 <? _); lia.
Qed.

(** ** The transform type *)
Definition ctype (e : CEnv) (plane t : Z) (types : list (list Z)) (x4 y4 : Z) (ty : Z) : Prop := computeTxType e plane t x4 y4 types = Ok ty /\ type_ok t ty.
Lemma up_big t : tx t -> forall up, idx TX_SIZE_SQR_UP t = Ok up -> (TX_32X32 <? up) = (32 <? Z.max (tx_w t) (tx_h t)).
Proof.
  intros H. apply tx_in in H. cbn [seq map In] in H. repeat (destruct H as [<-|H]; [intros up E; vm_compute in E; injection E as <-; reflexivity|]). contradiction.
Qed.
Lemma type0 t : type_ok t 0. Proof. split; [lia|]. intros H. exfalso. apply H. reflexivity. Qed.
Lemma bool_of_inter i : bool_of i = negb (i =? 0).
Proof. unfold bool_of. reflexivity. Qed.
Lemma chroma_type TH TW e plane t x4 y4 s : block_in TH TW e plane t x4 y4 s -> 0 < plane -> 
  computeTxType e plane t x4 y4 (cTxTypes s) = Ok (used_type (block_of e plane t x4 y4 s) 0) /\ type_ok t (used_type (block_of e plane t x4 y4 s) 0).
Proof.
  intros (Hp & Ht & Hx & Hy & Hm & HR & HC & Bx & By & _ & _ & _ & _ & _ & _ & AT & H0 & H1) P. specialize (H1 P). destruct H1 as [HS HT].
  destruct (tx_sqr t Ht) as (sq & up & _ & Eu & _). unfold computeTxType, used_type. rewrite Eu. cbn [rbind]. rewrite (up_big t Ht up Eu). cbn [bLossless bTx bPlane bChroma bInter bReduced block_of].
  destruct (cLossless e || (32 <? Z.max (tx_w t) (tx_h t))); [split; [reflexivity|apply type0]|]. rewrite getTxSet_spec by exact Ht. cbn [rbind]. destruct (Z.eqb_spec plane 0); [lia|].
  assert (EV : exists v, (if bool_of (cIsInter e) then idx2 (cTxTypes s) (Max (cMiRow e) (shl y4 (int_of (cSubY e)))) (Max (cMiCol e) (shl x4 (int_of (cSubX e)))) else idx Mode_To_Txfm (cUVMode e)) = Ok v /\ 0 <= v <= 15 /\
     v = (if cIsInter e =? 0 then nth (Z.to_nat (cUVMode e)) mode_types 0 else cell (cTxTypes s) (Z.max (cMiRow e) (scaled y4 (cSubY e))) (Z.max (cMiCol e) (scaled x4 (cSubX e))))).
  { rewrite bool_of_inter. destruct (Z.eqb_spec (cIsInter e) 0) as [I0|I0]; cbn [negb].
    - exists (nth (Z.to_nat (cUVMode e)) mode_types 0). split; [rewrite (idx_ok Mode_To_Txfm (cUVMode e) 0) by (change (zlen Mode_To_Txfm) with 14; lia); reflexivity|]. split; [|reflexivity].
      assert (K : In (cUVMode e) (map Z.of_nat (seq 0 14))) by (apply in_map_iff; exists (Z.to_nat (cUVMode e)); split; [lia|apply in_seq; lia]). cbn [seq map In] in K.
      repeat (destruct K as [<-|K]; [vm_compute; split; congruence|]). contradiction.
    - destruct HT as (v & Ev & Rv). exists v. rewrite !Max_max. assert (SH : forall a b, 0 <= a < 2 ^ 21 -> shl a (int_of b) = scaled a b) by (intros a b Ha; unfold scaled; destruct b; cbn [int_of]; [|unfold shl; rewrite Z.shiftl_0_r; apply i64_id; change (2 ^ 21) with 2097152 in *; change (2 ^ 63) with 9223372036854775808; lia]; rewrite shl_small by (change (2 ^ 1) with 2; change (2 ^ 21) with 2097152 in *; change (2 ^ 63) with 9223372036854775808; lia); change (2 ^ 1) with 2; lia).
      destruct (quarter t Ht) as (_ & _ & _ & _ & QW & QH).
      rewrite !SH by (change (2 ^ 20) with 1048576 in *; change (2 ^ 21) with 2097152; lia). split; [exact Ev|]. split; [lia|]. unfold cell. rewrite Ev. reflexivity. }
  destruct EV as (v & Ev & Rv & Ev2). rewrite Ev. cbn [rbind]. rewrite <- Ev2. pose proof (tx_set_range (bool_of (cIsInter e)) (cReduced e) t) as [R1 R2].
  destruct (isTxTypeInSet_ok e (tx_set (bool_of (cIsInter e)) (cReduced e) t) v R1 R2 Rv) as (b & Eb & Hb). rewrite Eb. cbn [rbind].
  change (negb (cIsInter e =? 0)) with (bool_of (cIsInter e)).
  destruct (existsb (Z.eqb v) (set_types_of (bool_of (cIsInter e)) (tx_set (bool_of (cIsInter e)) (cReduced e) t))) eqn:EX.
  - assert (IN : In v (set_types_of (bool_of (cIsInter e)) (tx_set (bool_of (cIsInter e)) (cReduced e) t))) by (apply existsb_exists in EX as (w & Hw & Ew); apply Z.eqb_eq in Ew; subst w; exact Hw). rewrite (proj2 Hb IN).
    split; [reflexivity|]. apply set_type_ok in IN. exact IN.
  - destruct b; [|split; [reflexivity|apply type0]]. exfalso. assert (existsb (Z.eqb v) (set_types_of (bool_of (cIsInter e)) (tx_set (bool_of (cIsInter e)) (cReduced e) t)) = true) by (apply existsb_exists; exists v; split; [apply Hb; reflexivity|apply Z.eqb_refl]). congruence.
Qed.
Lemma luma_type e t x4 y4 types ty : tx t -> type_ok t ty -> idx2 types y4 x4 = Ok ty -> forall b, bTx b = t -> bPlane b = 0 -> bLossless b = cLossless e ->
  computeTxType e 0 t x4 y4 types = Ok (used_type b ty) /\ type_ok t (used_type b ty).
Proof.
  intros Ht HT E b Eb Ep El. destruct (tx_sqr t Ht) as (sq & up & _ & Eu & _). unfold computeTxType, used_type. rewrite Eu. cbn [rbind]. rewrite (up_big t Ht up Eu), Eb, Ep, El.
  destruct (cLossless e || (32 <? Z.max (tx_w t) (tx_h t))); [split; [reflexivity|apply type0]|]. rewrite getTxSet_spec by exact Ht. cbn [rbind]. change (0 =? 0) with true. split; [exact E|exact HT].
Qed.
