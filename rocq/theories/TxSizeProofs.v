(** Lemmas about the transform size of a block. *)
From Coq Require Import String.
From Verif Require Import GoBase Bitstream Util UtilProofs Constants Tables Frame Writes Rect Symbol SpecMath SpecSymbol SymbolProofs CdfMoves CdfMemory SpecPartition SpecCoeffs CoeffRun Elements ElementsSim SpecBlock SpecTx ModeInfoProofs TxSize.
Local Open Scope string_scope.
Local Open Scope Z_scope.

(** Transform size number t has these dimensions *)
Definition tx_is (t : Z) (d : Z * Z) : Prop := 0 <= t < 19 /\ (tx_w t, tx_h t) = d.
Definition tx_dims_of (t : Z) : Z * Z := (tx_w t, tx_h t).
Definition txs : list Z := map Z.of_nat (seq 0 19).
Lemma in_txs t : 0 <= t < 19 -> In t txs.
Proof. intros H. unfold txs. apply in_map_iff. exists (Z.to_nat t). split; [lia|]. apply in_seq. lia. Qed.
Lemma tx_facts t : 0 <= t < 19 -> idx Tx_Width t = Ok (tx_w t) /\ idx Tx_Height t = Ok (tx_h t) /\ exists u, idx Split_Tx_Size t = Ok u /\ 0 <= u < 19 /\ tx_dims_of u = split_tx (tx_dims_of t).
Proof.
  intros H. apply in_txs in H. cbn in H. repeat (destruct H as [<-|H]; [split; [reflexivity|split; [reflexivity|eexists; split; [vm_compute; reflexivity|split; [lia|vm_compute; reflexivity]]]]|]). contradiction.
Qed.
Definition table_of (n : Z) : string := if n =? 4 then "Tx64x64Cdf" else if n =? 3 then "Tx32x32Cdf" else if n =? 2 then "Tx16x16Cdf" else "Tx8x8Cdf".
Lemma max_facts b : 0 <= b < 22 -> exists m n, idx Max_Tx_Size_Rect b = Ok m /\ idx Max_Tx_Depth b = Ok n /\ tx_is m (max_tx b) /\ table_of n = depth_table b.
Proof.
  intros H. apply in_blocks in H. cbn in H. repeat (destruct H as [<-|H]; [do 2 eexists; split; [vm_compute; reflexivity|split; [vm_compute; reflexivity|split; [split; [lia|vm_compute; reflexivity]|vm_compute; reflexivity]]]|]). contradiction.
Qed.
Lemma iter_r {A} (f : A -> A) : forall n x, Nat.iter (S n) f x = Nat.iter n f (f x).
Proof. induction n as [|n IH]; intros x; [reflexivity|]. change (Nat.iter (S (S n)) f x) with (f (Nat.iter (S n) f x)). rewrite IH. reflexivity. Qed.
Lemma split_loop : forall n i m d, tx_is m d -> exists t, rfor_from n i (fun _ t => idx Split_Tx_Size t) m = Ok t /\ tx_is t (Nat.iter n split_tx d).
Proof.
  induction n as [|n IH]; intros i m d H; [exists m; split; [reflexivity|exact H]|]. destruct H as [H <-]. destruct (tx_facts m H) as (_ & _ & u & E & Hu & D).
  cbn [rfor_from]. rewrite E. cbn [rbind]. destruct (IH (i + 1) u (split_tx (tx_w m, tx_h m))) as (t & Et & Ht); [split; [exact Hu|exact D]|]. exists t. split; [exact Et|].
  rewrite iter_r. exact Ht.
Qed.

(** What is read exists, for the neighbours that are present *)
Definition tnb_ok (e : TEnv) (its : list (list Z)) (r c : Z) : Prop :=
  (exists i, idx2 (wIsInters e) r c = Ok i /\ 0 <= i <= 1) /\ (exists s, idx2 (wSkips e) r c = Ok s) /\ (exists b, idx2 (wMiSizes e) r c = Ok b /\ 0 <= b < 22) /\ (exists t, idx2 its r c = Ok t /\ 0 <= t < 19).
Definition tnb_at (e : TEnv) (its : list (list Z)) (r c : Z) : tnb := mkTnb (cell (wIsInters e) r c =? 1) (cell (wMiSizes e) r c) (tx_dims_of (cell its r c)).
Definition above_of (e : TEnv) (its : list (list Z)) : option tnb := if wAvailU e then Some (tnb_at e its (wMiRow e - 1) (wMiCol e)) else None.
Definition left_of (e : TEnv) (its : list (list Z)) : option tnb := if wAvailL e then Some (tnb_at e its (wMiRow e) (wMiCol e - 1)) else None.
Definition tx_env_ok (e : TEnv) (its : list (list Z)) : Prop :=
  0 <= wMiSize e < 22 /\ 0 <= wMiRow e /\ 0 <= wMiCol e /\ 0 <= wIsInter e <= 1 /\ 0 <= wSkip e <= 1 /\ array2 64 64 its /\
  (wAvailU e = true -> tnb_ok e its (wMiRow e - 1) (wMiCol e)) /\ (wAvailL e = true -> tnb_ok e its (wMiRow e) (wMiCol e - 1)).

Lemma cellv g r c v : idx2 g r c = Ok v -> cell g r c = v. Proof. unfold cell. intros ->. reflexivity. Qed.
Lemma above_ok e its : (wAvailU e = true -> tnb_ok e its (wMiRow e - 1) (wMiCol e)) -> aboveWidth e its = Ok (width_above (above_of e its)).
Proof.
  intros H. unfold aboveWidth, above_of, width_above. destruct (wAvailU e) eqn:A; [|reflexivity]. specialize (H eq_refl). destruct H as ((i & Ei & Hi) & (s & Es) & (b & Eb & Hb) & (t & Et & Ht)).
  rewrite Ei. cbn [rbind]. unfold tnb_at. cbn [tInter tSize tTx]. rewrite (cellv _ _ _ _ Ei), (cellv _ _ _ _ Eb), (cellv _ _ _ _ Et). rewrite bool_01 by exact Hi.
  destruct (i =? 1) eqn:E1; [rewrite Eb; apply block_facts, Hb|]. unfold getAboveTxWidth. rewrite Z.eqb_refl, A, Es. cbn [negb rbind]. rewrite Ei. destruct (bool_of s); cbn [rbind].
  - rewrite bool_01, E1 by exact Hi. cbn [rbind]. rewrite Et. apply tx_facts, Ht.
  - rewrite Et. apply tx_facts, Ht.
Qed.
(** The height to the left as the code takes it *)
Definition code_left (e : TEnv) (its : list (list Z)) : res Z :=
  if wAvailL e then if wAvailU e || tInter (tnb_at e its (wMiRow e) (wMiCol e - 1)) then Ok (height_left (left_of e its)) else Ok 0
  else if wAvailU e then if wMiRow e =? wMiCol e then Ok 64 else let! t := idx2 its (wMiRow e) (wMiCol e - 1) in idx Tx_Height t else Ok 0.
Lemma left_ok e its : (wAvailL e = true -> tnb_ok e its (wMiRow e) (wMiCol e - 1)) -> leftHeight e its = code_left e its.
Proof.
  intros H. unfold leftHeight, code_left, left_of, height_left. destruct (wAvailL e) eqn:A.
  - specialize (H eq_refl). destruct H as ((i & Ei & Hi) & (s & Es) & (b & Eb & Hb) & (t & Et & Ht)).
    rewrite Ei. cbn [rbind]. unfold tnb_at. cbn [tInter tSize tTx]. rewrite (cellv _ _ _ _ Ei), (cellv _ _ _ _ Eb), (cellv _ _ _ _ Et). rewrite bool_01 by exact Hi.
    destruct (i =? 1) eqn:E1; [rewrite orb_true_r, Eb; apply block_facts, Hb|]. rewrite orb_false_r. destruct (wAvailU e); [|reflexivity]. unfold getLeftTxHeight.
    destruct (wMiRow e =? wMiCol e); cbn [rbind]; [|rewrite Et; apply tx_facts, Ht]. rewrite A, Es. cbn [negb rbind]. rewrite Ei. destruct (bool_of s); cbn [rbind].
    + rewrite bool_01, E1 by exact Hi. cbn [rbind]. rewrite Et. apply tx_facts, Ht.
    + rewrite Et. apply tx_facts, Ht.
  - cbn [rbind]. destruct (wAvailU e); [|reflexivity]. unfold getLeftTxHeight. destruct (wMiRow e =? wMiCol e); cbn [rbind]; [rewrite A; reflexivity|reflexivity].
Qed.
Lemma code_left_std e its : wAvailU e = wAvailL e -> code_left e its = Ok (height_left (left_of e its)).
Proof. intros E. unfold code_left, left_of. rewrite E. destruct (wAvailL e); reflexivity. Qed.

Section Tx.
Context (e : TEnv) (its : list (list Z)) (endp : Z) (bad : Prop) (OK : tx_env_ok e its).
Notation ag := (agrees block_cdfs (wDisable e) endp bad).
Definition select_of : bool := wTxMode e =? TX_MODE_SELECT.
Lemma read_tx_ok allow lh : code_left e its = Ok lh -> 
  ag (tx_size_with allow (wLossless e) select_of (wMiSize e) (width_above (above_of e its)) lh) (readTxSize e its allow) (fun d t => tx_is t d).
Proof.
  intros HL. destruct OK as (Hb & _ & _ & _ & _ & _ & HU & HLn). unfold tx_size_with, readTxSize, select_of. destruct (wLossless e); [apply agrees_done; split; [unfold TX_4X4; lia|reflexivity]|].
  destruct (max_facts _ Hb) as (m & n & Em & En & Hm & Ht). apply (agrees_lift _ _ _ _ _ _ _ m); [exact Em|]. apply (agrees_lift _ _ _ _ _ _ _ n); [exact En|].
  change BLOCK_4X4 with 0. destruct ((0 <? wMiSize e) && allow && (wTxMode e =? TX_MODE_SELECT)); [|apply agrees_done; exact Hm].
  unfold txDepthSymbol. destruct Hm as [Hm Dm]. destruct (tx_facts m Hm) as (Ew & Eh & _).
  apply agrees_assoc. apply (agrees_lift _ _ _ _ _ _ _ (tx_w m)); [exact Ew|]. apply agrees_assoc. apply (agrees_lift _ _ _ _ _ _ _ (tx_h m)); [exact Eh|].
  apply agrees_assoc. apply (agrees_lift _ _ _ _ _ _ _ (width_above (above_of e its))); [apply above_ok, HU|]. apply agrees_assoc. apply (agrees_lift _ _ _ _ _ _ _ lh); [rewrite left_ok by exact HLn; exact HL|].
  cbv zeta. rewrite <- Ht, <- Dm. cbn [fst snd]. change (int_of (tx_w m <=? width_above (above_of e its))) with (at_least (width_above (above_of e its)) (tx_w m)). change (int_of (tx_h m <=? lh)) with (at_least lh (tx_h m)).
  assert (HC : 0 <= at_least (width_above (above_of e its)) (tx_w m) + at_least lh (tx_h m) < 3) by (unfold at_least; destruct (_ <=? _), (_ <=? _); lia).
  assert (K : forall v, ag (Done (split_times v (tx_w m, tx_h m))) (lift (rfor_to 0 v (fun _ t => idx Split_Tx_Size t) m)) (fun d t => tx_is t d)).
  { intros v. unfold rfor_to, split_times. rewrite Z.sub_0_r. destruct (split_loop (Z.to_nat v) 0 m (tx_w m, tx_h m) ltac:(split; [exact Hm|reflexivity])) as (t & E & P). rewrite E. apply (agrees_done _ _ _ _ _ t _ P). }
  unfold table_of. destruct (n =? 4); [apply (agrees_symk _ _ _ _ "Tx64x64Cdf" [3] 3); [tab|inr|intros; apply K]|]. destruct (n =? 3); [apply (agrees_symk _ _ _ _ "Tx32x32Cdf" [3] 3); [tab|inr|intros; apply K]|].
  destruct (n =? 2); [apply (agrees_symk _ _ _ _ "Tx16x16Cdf" [3] 3); [tab|inr|intros; apply K]|apply (agrees_symk _ _ _ _ "Tx8x8Cdf" [3] 2); [tab|inr|intros; apply K]].
Qed.
(** The array of transform sizes afterwards *)
Definition sizes_after (d : Z * Z) (x : list (list Z) * Z) : Prop :=
  tx_is (snd x) d /\ array2 64 64 (fst x) /\
  forall y c, idx2 (fst x) y c = if in_rect (wMiRow e) (wMiRow e + bsize_h (wMiSize e) / 4) (wMiCol e) (wMiCol e + bsize_w (wMiSize e) / 4) y c then Ok (snd x) else idx2 its y c.
Lemma block_tx_ok tx lh : has_tree (wLossless e) select_of (wIsInter e =? 1) (wSkip e =? 1) (wMiSize e) = false -> code_left e its = Ok lh ->
  wMiRow e + bsize_h (wMiSize e) / 4 <= 64 -> wMiCol e + bsize_w (wMiSize e) / 4 <= 64 ->
  ag (tx_size_with (negb (wSkip e =? 1) || (wIsInter e =? 1)) (wLossless e) select_of (wMiSize e) (width_above (above_of e its)) lh) (readBlockTxSize e its tx) sizes_after.
Proof.
  intros HT HL HR HC. destruct OK as (Hb & H1 & H2 & H3 & H4 & HA & HU & HLn). unfold readBlockTxSize. destruct (block_facts _ Hb) as (_ & _ & E1 & E2 & _).
  apply (agrees_lift _ _ _ _ _ _ _ (bsize_w (wMiSize e) / 4)); [exact E1|]. apply (agrees_lift _ _ _ _ _ _ _ (bsize_h (wMiSize e) / 4)); [exact E2|]. unfold has_tree, select_of in HT. rewrite <- !bool_01 in * by assumption. change BLOCK_4X4 with 0. rewrite HT.
  eapply agrees_eq with (p' := andthen (tx_size_with (negb (bool_of (wSkip e)) || bool_of (wIsInter e)) (wLossless e) select_of (wMiSize e) (width_above (above_of e its)) lh) Done).
  { unfold tx_size_with. destruct (wLossless e); [reflexivity|]. destruct ((0 <? wMiSize e) && _ && _); reflexivity. }
  { intros s. reflexivity. }
  eapply agrees_bind; [apply read_tx_ok, HL|]. cbv beta. intros d t HD.
  assert (P1 : 0 <= bsize_w (wMiSize e) / 4 /\ 0 <= bsize_h (wMiSize e) / 4).
  { clear -Hb. apply in_blocks in Hb. cbn in Hb. repeat (destruct Hb as [<-|Hb]; [vm_compute; split; congruence|]). contradiction. }
  destruct (rect_ok 64 64 (wMiRow e) (wMiRow e + bsize_h (wMiSize e) / 4) (wMiCol e) (wMiCol e + bsize_w (wMiSize e) / 4) t its HA ltac:(lia) HR ltac:(lia) HC) as (g & Eg & Ag & Pg).
  apply (agrees_lift _ _ _ _ _ _ _ g); [exact Eg|]. apply agrees_done. split; [exact HD|]. split; [exact Ag|exact Pg].
Qed.
End Tx.
