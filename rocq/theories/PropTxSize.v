(** Properties C111-C113: the transform size of a block. *)
From Coq Require Import String.
From Verif Require Import GoBase Bitstream Util UtilProofs Constants Tables Frame Writes Rect Symbol SpecMath SpecSymbol SymbolProofs PropSymbol CdfMoves CdfMemory SpecPartition SpecCoeffs CoeffRun Elements ElementsSim ElementsDemo SpecBlock SpecTx ModeInfoProofs PropModeInfo TxSize TxSizeProofs.
Local Open Scope string_scope.
Local Open Scope Z_scope.

(** ** C111: the size *)
(** In general: the standard's syntax, but skipped blocks code a depth exactly if they are inter blocks, and the height to the left is [code_left]. *)
Theorem C111_tx_size_partial : forall e its endp tx lh s, tx_env_ok e its -> ready endp s -> has_tree (wLossless e) (select_of e) (wIsInter e =? 1) (wSkip e =? 1) (wMiSize e) = false ->
  code_left e its = Ok lh -> wMiRow e + bsize_h (wMiSize e) / 4 <= 64 -> wMiCol e + bsize_w (wMiSize e) / 4 <= 64 ->
  follows_program False (wDisable e) endp (tx_size_with (negb (wSkip e =? 1) || (wIsInter e =? 1)) (wLossless e) (select_of e) (wMiSize e) (width_above (above_of e its)) lh) (readBlockTxSize e its tx) (sizes_after e its) s.
Proof. intros e its endp tx lh s HE HR HT HL H1 H2. apply agrees_follows; [|exact HR]. apply block_tx_ok; assumption. Qed.
Print Assumptions C111_tx_size_partial.
(** The standard's result for blocks that are not skipped and have both neighbours or none. *)
Theorem C111_standard_partial : forall e its endp tx s, tx_env_ok e its -> ready endp s -> has_tree (wLossless e) (select_of e) (wIsInter e =? 1) (wSkip e =? 1) (wMiSize e) = false ->
  (wSkip e = 0 \/ wLossless e = true \/ select_of e = false) -> wAvailU e = wAvailL e -> wMiRow e + bsize_h (wMiSize e) / 4 <= 64 -> wMiCol e + bsize_w (wMiSize e) / 4 <= 64 ->
  follows_program False (wDisable e) endp (std_tx_size (wLossless e) (select_of e) (wIsInter e =? 1) (wSkip e =? 1) (wMiSize e) (above_of e its) (left_of e its)) (readBlockTxSize e its tx) (sizes_after e its) s.
Proof.
  intros e its endp tx s HE HR HT HS HA H1 H2. assert (G := C111_tx_size_partial e its endp tx _ s HE HR HT (code_left_std e its HA) H1 H2).
  replace (std_tx_size _ _ _ _ _ _ _) with (tx_size_with (negb (wSkip e =? 1) || (wIsInter e =? 1)) (wLossless e) (select_of e) (wMiSize e) (width_above (above_of e its)) (height_left (left_of e its))); [exact G|].
  unfold std_tx_size, tx_size_with. destruct HS as [HS|[HS|HS]]; rewrite HS; [reflexivity|reflexivity|]. rewrite !andb_false_r. reflexivity.
Qed.
Print Assumptions C111_standard_partial.
Definition demo_t (u l : bool) (skip : Z) : TEnv := mkTEnv false TX_MODE_SELECT 1 1 6 16 16 u l 0 skip false [[0; 0]; [0; 0]] [[0; 0]; [0; 0]] (repeat (repeat 6 64) 64).
Definition demo_its : list (list Z) := repeat (repeat 3 64) 64.
Lemma demo_t_ok u l skip : 0 <= skip <= 1 -> tx_env_ok (demo_t u l skip) demo_its.
Proof.
  intros H. unfold tx_env_ok, demo_t, tnb_ok. cbn [wMiSize wMiRow wMiCol wIsInter wSkip wAvailU wAvailL wIsInters wSkips wMiSizes].
  split; [lia|]. split; [lia|]. split; [lia|]. split; [lia|]. split; [exact H|]. split; [split; [reflexivity|repeat constructor]|].
  split; intros _; (split; [eexists; split; [vm_compute; reflexivity|lia]|]); (split; [eexists; vm_compute; reflexivity|]); (split; eexists; (split; [vm_compute; reflexivity|lia])).
Qed.
(** A 16x16 block with neighbours in 32x32 transforms: context 2; the transform is 16x16 split [d] times. *)
Example C111_case : tx_env_ok (demo_t true true 0) demo_its /\ ready 24 demo_es /\ select_of (demo_t true true 0) = true /\
  std_tx_size false true false false 6 (above_of (demo_t true true 0) demo_its) (left_of (demo_t true true 0) demo_its) = Sym "Tx16x16Cdf" [2] (fun n => Done (split_times n (16, 16))) /\
  match readBlockTxSize (demo_t true true 0) demo_its 0 demo_es with Ok ((g, t), _) => t = 2 /\ idx2 g 4 4 = Ok 2 /\ idx2 g 4 5 = Ok 3 | _ => False end.
Proof. split; [apply demo_t_ok; lia|]. split; [exact demo_ready|]. split; [reflexivity|]. split; [vm_compute; reflexivity|]. vm_compute. auto. Qed.

(** Refuted: intra blocks that are skipped read nothing and get the largest transform; the standard reads a depth. *)
Theorem C111_skipped_refuted : forall e its tx endp s lh, tx_env_ok e its -> ready endp s -> wSkip e = 1 -> wIsInter e = 0 -> wLossless e = false -> select_of e = true -> 0 < wMiSize e ->
  code_left e its = Ok lh -> wMiRow e + bsize_h (wMiSize e) / 4 <= 64 -> wMiCol e + bsize_w (wMiSize e) / 4 <= 64 ->
  (exists x, readBlockTxSize e its tx s = Ok (x, s) /\ tx_is (snd x) (max_tx (wMiSize e))) /\
  forall above left, exists c, std_tx_size false true false true (wMiSize e) above left = Sym (depth_table (wMiSize e)) [c] (fun n => Done (split_times n (max_tx (wMiSize e)))).
Proof.
  intros e its tx endp s lh HE HR HS HI HL HSel Hb HC H1 H2. split.
  - assert (G := C111_tx_size_partial e its endp tx lh s HE HR). rewrite HS, HI, HL, HSel in G. specialize (G ltac:(unfold has_tree; rewrite !andb_false_r; reflexivity) HC H1 H2).
    unfold follows_program, tx_size_with in G. change (negb (1 =? 1) || (0 =? 1)) with false in G. rewrite andb_false_r, andb_false_l in G. cbn [run] in G. destruct G as (_ & x & E & Q). exists x. split; [destruct s; exact E|apply Q].
  - intros above left. unfold std_tx_size, tx_size_with. destruct (Z.ltb_spec 0 (wMiSize e)); [|lia]. cbn [andb negb orb]. eexists. reflexivity.
Qed.
Print Assumptions C111_skipped_refuted.
Example C111_skipped_case : tx_env_ok (demo_t true true 1) demo_its /\ code_left (demo_t true true 1) demo_its = Ok 32 /\ match readBlockTxSize (demo_t true true 1) demo_its 0 demo_es with Ok ((g, t), _) => t = 2 | _ => False end.
Proof. split; [apply demo_t_ok; lia|]. split; [vm_compute; reflexivity|]. vm_compute. reflexivity. Qed.
(** Refuted: in the first row of a tile the left neighbour is ignored unless it is an inter block. *)
Theorem C111_top_row_refuted : forall e its tx endp s, tx_env_ok e its -> ready endp s -> wSkip e = 0 -> wIsInter e = 0 -> wLossless e = false -> select_of e = true -> 0 < wMiSize e ->
  wAvailU e = false -> wAvailL e = true -> cell (wIsInters e) (wMiRow e) (wMiCol e - 1) = 0 -> snd (max_tx (wMiSize e)) <= tx_h (cell its (wMiRow e) (wMiCol e - 1)) ->
  wMiRow e + bsize_h (wMiSize e) / 4 <= 64 -> wMiCol e + bsize_w (wMiSize e) / 4 <= 64 ->
  follows_program False (wDisable e) endp (Sym (depth_table (wMiSize e)) [0] (fun n => Done (split_times n (max_tx (wMiSize e))))) (readBlockTxSize e its tx) (sizes_after e its) s /\
  std_tx_size false true false false (wMiSize e) None (left_of e its) = Sym (depth_table (wMiSize e)) [1] (fun n => Done (split_times n (max_tx (wMiSize e)))).
Proof.
  intros e its tx endp s HE HR HS HI HL HSel Hb HU HLf HN HH H1 H2. assert (Hw : 4 <= fst (max_tx (wMiSize e)) /\ 4 <= snd (max_tx (wMiSize e))).
  { destruct HE as (Hr & _). clear -Hr. apply in_blocks in Hr. cbn in Hr. repeat (destruct Hr as [<-|Hr]; [vm_compute; split; congruence|]). contradiction. }
  split.
  - assert (G := C111_tx_size_partial e its endp tx 0 s HE HR). rewrite HS, HI, HL, HSel in G. specialize (G ltac:(unfold has_tree; rewrite ?andb_false_r, ?andb_false_l; rewrite ?andb_false_r; destruct (0 <? wMiSize e); reflexivity)).
    unfold code_left in G. rewrite HU, HLf in G. unfold tnb_at in G. cbn [tInter orb] in G. rewrite HN in G. change (0 =? 1) with false in G. cbv iota in G. specialize (G eq_refl H1 H2).
    unfold tx_size_with in G. destruct (Z.ltb_spec 0 (wMiSize e)); [|lia]. cbn [andb negb orb] in G. unfold above_of in G. rewrite HU in G. cbn [width_above] in G. unfold at_least in G.
    destruct (Z.leb_spec (fst (max_tx (wMiSize e))) 0); [lia|]. destruct (Z.leb_spec (snd (max_tx (wMiSize e))) 0); [lia|]. exact G.
  - unfold std_tx_size, tx_size_with. destruct (Z.ltb_spec 0 (wMiSize e)); [|lia]. cbn [andb negb orb width_above]. unfold left_of. rewrite HLf. unfold height_left, tnb_at. cbn [tInter tTx]. rewrite HN. change (0 =? 1) with false. cbv iota. unfold tx_dims_of. cbn [snd]. unfold at_least.
    destruct (Z.leb_spec (fst (max_tx (wMiSize e))) 0); [lia|]. destruct (Z.leb_spec (snd (max_tx (wMiSize e))) (tx_h (cell its (wMiRow e) (wMiCol e - 1)))); [|lia]. reflexivity.
Qed.
Print Assumptions C111_top_row_refuted.
Example C111_top_row_case : let e := demo_t false true 0 in tx_env_ok e demo_its /\ snd (max_tx 6) <= tx_h (cell demo_its 1 0) /\ cell (wIsInters e) 1 0 = 0.
Proof. split; [apply demo_t_ok; lia|]. split; [vm_compute; congruence|reflexivity]. Qed.
(** Refuted: in the first column of the frame, below the first row, reading a depth panics. *)
Theorem C111_first_column_refuted : forall e its tx s, tx_env_ok e its -> wSkip e = 0 -> wIsInter e = 0 -> wLossless e = false -> select_of e = true -> 0 < wMiSize e ->
  wAvailU e = true -> wAvailL e = false -> wMiCol e = 0 -> 0 < wMiRow e < 64 -> readBlockTxSize e its tx s = Panic.
Proof.
  intros e its tx s (Hb & H1 & H2 & H3 & H4 & HA & HU & HL) HS HI HLs HSel Hp AU AL HC HRw. unfold readBlockTxSize. destruct (block_facts _ Hb) as (_ & _ & E1 & E2 & _). rewrite !bind_eq, E1. cbn [lift]. rewrite bind_eq, E2. cbn [lift].
  rewrite HS, HI. change (bool_of 0) with false. rewrite !andb_false_r. cbn [negb orb andb]. rewrite bind_eq. unfold readTxSize. rewrite HLs. destruct (max_facts _ Hb) as (m & n & Em & En & [Hm Dm] & _).
  rewrite bind_eq, Em. cbn [lift]. rewrite bind_eq, En. cbn [lift]. unfold select_of in HSel. rewrite HSel. change BLOCK_4X4 with 0. destruct (Z.ltb_spec 0 (wMiSize e)); [|lia]. cbn [andb]. rewrite bind_eq. unfold txDepthSymbol.
  destruct (tx_facts m Hm) as (Ew & Eh & _). rewrite bind_eq, Ew. cbn [lift]. rewrite bind_eq, Eh. cbn [lift]. rewrite bind_eq, (above_ok e its HU). cbn [lift]. rewrite bind_eq, (left_ok e its HL).
  unfold code_left. rewrite AL, AU. destruct (Z.eqb_spec (wMiRow e) (wMiCol e)); [lia|]. rewrite HC.
  assert (E : idx2 its (wMiRow e) (0 - 1) = Panic).
  { destruct (idx2 its (wMiRow e) (0 - 1)) as [v| |] eqn:E; [|reflexivity|exfalso; exact (idx2_nh _ _ _ E)]. assert (X : 0 <= wMiRow e < 64 /\ 0 <= 0 - 1 < 64) by (apply (array2_get 64 64 its (wMiRow e) (0 - 1) HA); eauto). lia. }
  rewrite E. reflexivity.
Qed.
Print Assumptions C111_first_column_refuted.
Definition demo_t0 : TEnv := mkTEnv false TX_MODE_SELECT 1 0 6 16 16 true false 0 0 false [[0; 0]; [0; 0]] [[0; 0]; [0; 0]] (repeat (repeat 6 64) 64).
Example C111_first_column_case : tx_env_ok demo_t0 demo_its.
Proof.
  unfold tx_env_ok, demo_t0, tnb_ok. cbn [wMiSize wMiRow wMiCol wIsInter wSkip wAvailU wAvailL wIsInters wSkips wMiSizes].
  split; [lia|]. split; [lia|]. split; [lia|]. split; [lia|]. split; [lia|]. split; [split; [reflexivity|repeat constructor]|].
  split; intros H; [|discriminate]. (split; [eexists; split; [vm_compute; reflexivity|lia]|]); (split; [eexists; vm_compute; reflexivity|]); (split; eexists; (split; [vm_compute; reflexivity|lia])).
Qed.

(** ** C112: the array of transform sizes *)
Lemma block_side b : 0 <= b < 22 -> 0 < bsize_w b / 4 /\ 0 < bsize_h b / 4.
Proof. intros H. apply in_blocks in H. cbn in H. repeat (destruct H as [<-|H]; [vm_compute; auto|]). contradiction. Qed.
Lemma no_tree_run e its tx s : 0 <= wMiSize e < 22 -> 0 <= wIsInter e <= 1 -> 0 <= wSkip e <= 1 -> has_tree (wLossless e) (select_of e) (wIsInter e =? 1) (wSkip e =? 1) (wMiSize e) = false ->
  readBlockTxSize e its tx s = match readTxSize e its (negb (wSkip e =? 1) || (wIsInter e =? 1)) s with
    | Ok (t, s') => match rectFill (wMiRow e) (wMiRow e + bsize_h (wMiSize e) / 4) (wMiCol e) (wMiCol e + bsize_w (wMiSize e) / 4) t its with Ok g => Ok ((g, t), s') | Panic => Panic | Hang => Hang end
    | Panic => Panic | Hang => Hang end.
Proof.
  intros Hb H3 H4 HT. unfold readBlockTxSize. destruct (block_facts _ Hb) as (_ & _ & E1 & E2 & _). rewrite !bind_eq, E1. cbn [lift]. rewrite bind_eq, E2. cbn [lift]. unfold has_tree, select_of in HT. rewrite <- !bool_01 in * by assumption. change BLOCK_4X4 with 0. rewrite HT.
  rewrite bind_eq. destruct (readTxSize _ _ _ s) as [[t s']| |]; try reflexivity. rewrite bind_eq. destruct (rectFill _ _ _ _ t its); reflexivity.
Qed.
(** Whenever the function returns, for a block without a tree, exactly the positions of the block hold the size. *)
Theorem C112_sizes : forall e its tx s g t s', 0 <= wMiSize e < 22 -> 0 <= wIsInter e <= 1 -> 0 <= wSkip e <= 1 -> has_tree (wLossless e) (select_of e) (wIsInter e =? 1) (wSkip e =? 1) (wMiSize e) = false ->
  readBlockTxSize e its tx s = Ok ((g, t), s') ->
  forall y x, idx2 g y x = if (wMiRow e <=? y) && (y <? wMiRow e + bsize_h (wMiSize e) / 4) && (wMiCol e <=? x) && (x <? wMiCol e + bsize_w (wMiSize e) / 4) then Ok t else idx2 its y x.
Proof.
  intros e its tx s g t s' Hb H3 H4 HT E. rewrite (no_tree_run e its tx s Hb H3 H4 HT) in E. destruct (readTxSize _ _ _ s) as [[t0 s0]| |]; try discriminate.
  destruct (rectFill _ _ _ _ t0 its) as [g0| |] eqn:ER; try discriminate. injection E as -> -> ->. destruct (block_side _ Hb). refine (rect_post _ _ _ _ _ _ _ _ _ ER); lia.
Qed.
Print Assumptions C112_sizes.
Example C112_case : match readBlockTxSize (demo_t true true 0) demo_its 0 demo_es with Ok ((g, t), _) => (t, idx2 g 1 1, idx2 g 4 4, idx2 g 5 4, idx2 g 0 1) = (2, Ok 2, Ok 2, Ok 3, Ok 3) | _ => False end.
Proof. vm_compute. reflexivity. Qed.
(** Refuted: the array covers 64x64 positions (256x256 samples); blocks beyond that make the function panic. *)
Theorem C112_limit_refuted : forall e its tx s, 0 <= wMiSize e < 22 -> 0 <= wIsInter e <= 1 -> 0 <= wSkip e <= 1 -> has_tree (wLossless e) (select_of e) (wIsInter e =? 1) (wSkip e =? 1) (wMiSize e) = false ->
  array2 64 64 its -> (64 < wMiRow e + bsize_h (wMiSize e) / 4 \/ 64 < wMiCol e + bsize_w (wMiSize e) / 4) -> forall r, readBlockTxSize e its tx s <> Ok r.
Proof.
  intros e its tx s Hb H3 H4 HT HA HB r. rewrite (no_tree_run e its tx s Hb H3 H4 HT). destruct (readTxSize _ _ _ s) as [[t s']| |]; try discriminate. destruct (block_side _ Hb).
  rewrite (rect_panic 64 64 _ _ _ _ t its HA); [discriminate|lia|lia|]. destruct HB as [HB|HB]; auto.
Qed.
Print Assumptions C112_limit_refuted.
Definition demo_tl : TEnv := mkTEnv false 0 60 62 6 100 100 false false 0 0 false [[0; 0]; [0; 0]] [[0; 0]; [0; 0]] [].
Example C112_limit_case : 64 < wMiCol demo_tl + bsize_w (wMiSize demo_tl) / 4 /\ array2 64 64 demo_its /\ readBlockTxSize demo_tl demo_its 0 demo_es = Panic.
Proof. split; [vm_compute; reflexivity|]. split; [split; [reflexivity|repeat constructor]|vm_compute; reflexivity]. Qed.

(** ** C113: trees of transform sizes in inter blocks *)
(** Refuted: every block that carries a tree makes the function panic (the split flag is read by a function that is not implemented). *)
Theorem C113_tree_refuted : forall e its tx s, 0 <= wMiSize e < 22 -> 0 <= wIsInter e <= 1 -> 0 <= wSkip e <= 1 -> has_tree (wLossless e) (select_of e) (wIsInter e =? 1) (wSkip e =? 1) (wMiSize e) = true ->
  wMiRow e < wMiRows e -> wMiCol e < wMiCols e -> readBlockTxSize e its tx s = Panic.
Proof.
  intros e its tx s Hb H3 H4 HT HR HC. unfold readBlockTxSize. destruct (block_facts _ Hb) as (_ & _ & E1 & E2 & _). rewrite !bind_eq, E1. cbn [lift]. rewrite bind_eq, E2. cbn [lift].
  assert (Hp : 0 < wMiSize e) by (unfold has_tree in HT; destruct (Z.ltb_spec 0 (wMiSize e)); [assumption|rewrite andb_false_r in HT; discriminate]).
  unfold has_tree, select_of in HT. rewrite <- !bool_01 in * by assumption. change BLOCK_4X4 with 0. rewrite HT.
  assert (F : exists m, idx Max_Tx_Size_Rect (wMiSize e) = Ok m /\ 0 < m < 19 /\ 0 < bsize_h (wMiSize e) / 4 / (tx_h m / 4) /\ 0 < bsize_w (wMiSize e) / 4 / (tx_w m / 4)).
  { clear -Hb Hp. revert Hb Hp. generalize (wMiSize e) as b. intros b Hb Hp. apply in_blocks in Hb. cbn in Hb. repeat (destruct Hb as [<-|Hb]; [first [lia|eexists; split; [vm_compute; reflexivity|split; [lia|vm_compute; auto]]]|]). contradiction. }
  destruct F as (m & Em & Hm & F1 & F2). rewrite bind_eq, Em. cbn [lift]. destruct (tx_facts m ltac:(lia)) as (Ew & Eh & _). rewrite bind_eq, Ew. cbn [lift]. rewrite bind_eq, Eh. cbn [lift].
  unfold for_to. rewrite !Z.sub_0_r. destruct (Z.to_nat (bsize_h (wMiSize e) / 4 / (tx_h m / 4))) eqn:N1; [lia|]. cbn [for_from]. rewrite bind_eq. destruct (Z.to_nat (bsize_w (wMiSize e) / 4 / (tx_w m / 4))) eqn:N2; [lia|].
  cbn [for_from]. rewrite bind_eq. change 3%nat with (S 2). cbn [readVarTxSize]. rewrite !Z.mul_0_l, !Z.add_0_r. destruct (Z.leb_spec (wMiRows e) (wMiRow e)); [lia|]. destruct (Z.leb_spec (wMiCols e) (wMiCol e)); [lia|]. cbn [orb].
  change TX_4X4 with 0. destruct (Z.eqb_spec m 0); [lia|]. reflexivity.
Qed.
Print Assumptions C113_tree_refuted.
Definition demo_ti : TEnv := mkTEnv false TX_MODE_SELECT 1 1 6 16 16 true true 1 0 false [] [] [].
Example C113_case : has_tree (wLossless demo_ti) (select_of demo_ti) (wIsInter demo_ti =? 1) (wSkip demo_ti =? 1) (wMiSize demo_ti) = true.
Proof. reflexivity. Qed.
(** Refuted: a leaf of the tree would be recorded on the diagonal only: positions of its first row other than the first one keep the old value. *)
Lemma diag_post (v : Z) r c : forall n i w (g g' : list (list Z)), rfor_from n i (fun i g => rfor_to 0 w (fun _ g => upd2 g (r + i) (c + i) v) g) g = Ok g' -> forall y x, y - r <> x - c -> idx2 g' y x = idx2 g y x.
Proof.
  induction n as [|n IH]; intros i w g g' E y x H; cbn [rfor_from] in E; [injection E as <-; reflexivity|].
  apply rbind_inv in E as (g1 & E1 & E). rewrite (IH _ _ _ _ E y x H). clear IH E. revert E1. unfold rfor_to. generalize (Z.to_nat (w - 0)) as k. intros k. generalize 0 as j. revert g.
  induction k as [|k IH]; intros g j E; cbn [rfor_from] in E; [injection E as <-; reflexivity|]. apply rbind_inv in E as (g2 & E2 & E). rewrite (IH _ _ E). apply (idx2_upd2_other _ _ _ _ _ _ _ E2). intros [= <- <-]. lia.
Qed.
Theorem C113_leaf_refuted : forall e row col tx its tx0 s g t s', readVarTxSize 1 e row col tx 2 (its, tx0) s = Ok ((g, t), s') -> row < wMiRows e -> col < wMiCols e ->
  forall k, 0 < k -> idx2 g row (col + k) = idx2 its row (col + k).
Proof.
  intros e row col tx its tx0 s g t s' E HR HC k Hk. cbn [readVarTxSize] in E. destruct (Z.leb_spec (wMiRows e) row); [lia|]. destruct (Z.leb_spec (wMiCols e) col); [lia|]. cbn [orb] in E.
  rewrite Z.eqb_refl, orb_true_r in E. rewrite !bind_eq in E. cbn [ret] in E. rewrite bind_eq in E. destruct (idx Tx_Width tx) as [w| |]; cbn [lift] in E; try discriminate. rewrite bind_eq in E. destruct (idx Tx_Height tx) as [h| |]; cbn [lift] in E; try discriminate.
  cbv zeta in E. change (bool_of 0) with false in E. cbv iota in E. rewrite bind_eq in E. destruct (rfor_to 0 _ _ _) as [g0| |] eqn:ER; cbn [lift] in E; try discriminate. injection E as -> _ _.
  unfold rfor_to in ER at 1. apply (diag_post _ _ _ _ _ _ _ _ ER). lia.
Qed.
Print Assumptions C113_leaf_refuted.
Example C113_leaf_case : match readVarTxSize 1 demo_ti 1 1 1 2 (demo_its, 0) demo_es with Ok ((g, t), _) => (idx2 g 1 1, idx2 g 1 2, idx2 g 2 2) = (Ok 1, Ok 3, Ok 1) | _ => False end.
Proof. vm_compute. reflexivity. Qed.
