(** C93: the partition symbol: availability of neighbours, context, table, legal values. *)
From Verif Require Import GoBase Constants Tables Bitstream Util UtilProofs Symbol SpecSymbol SymbolProofs PropSymbol CdfTables CdfDefaults Frame Partition SpecPartition PartitionProofs.

(** A block at (r, c) of the current tile: its upper neighbour is available exactly when the block is not in the first row of the tile,
    its left neighbour exactly when it is not in the first column.  In general a position is available iff it lies in the tile. *)
Theorem C93_available : forall g r c,
  (isInside g r c = true <-> (MiRowStart g <= r < MiRowEnd g /\ MiColStart g <= c < MiColEnd g)) /\
  (MiRowStart g <= r < MiRowEnd g -> MiColStart g <= c < MiColEnd g ->
   isInside g (r - 1) c = (MiRowStart g <? r) /\ isInside g r (c - 1) = (MiColStart g <? c)).
Proof.
  intros g r c. unfold isInside. split.
  - rewrite !andb_true_iff, !Z.leb_le, !Z.ltb_lt. lia.
  - intros Hr Hc. destruct (Z.leb_spec (MiColStart g) c), (Z.ltb_spec c (MiColEnd g)), (Z.leb_spec (MiRowStart g) (r - 1)), (Z.ltb_spec (r - 1) (MiRowEnd g)),
      (Z.leb_spec (MiColStart g) (c - 1)), (Z.ltb_spec (c - 1) (MiColEnd g)), (Z.leb_spec (MiRowStart g) r), (Z.ltb_spec r (MiRowEnd g)),
      (Z.ltb_spec (MiRowStart g) r), (Z.ltb_spec (MiColStart g) c); cbn; split; try reflexivity; lia.
Qed.
Print Assumptions C93_available.

Lemma log2_dims b : 0 <= b < 22 -> exists wl hl, idx MI_WIDTH_LOG2 b = Ok wl /\ idx MI_HEIGHT_LOG2 b = Ok hl /\ w4 b = 2 ^ wl /\ h4 b = 2 ^ hl /\ 0 <= wl <= 5 /\ 0 <= hl <= 5.
Proof.
  intros H. assert (K : In b (map Z.of_nat (seq 0 22))) by (apply in_map_iff; exists (Z.to_nat b); split; [lia|apply in_seq; lia]).
  cbn [seq map In] in K. repeat (destruct K as [<-|K]; [do 2 eexists; split; [vm_compute; reflexivity|]; split; [vm_compute; reflexivity|]; vm_compute; repeat split; congruence|]). contradiction.
Qed.
Lemma pow2_ltb a b : 0 <= a -> 0 <= b -> (2 ^ a <? 2 ^ b) = (a <? b).
Proof. intros. destruct (Z.ltb_spec a b), (Z.ltb_spec (2 ^ a) (2 ^ b)); try reflexivity; [pose proof (Z.pow_lt_mono_r 2 a b)|pose proof (Z.pow_le_mono_r 2 b a)]; lia. Qed.

(** The context of the partition symbol: 1 if the available block above is narrower than the block, plus 2 if the available block to the
    left is lower; the table is the one of the block's size (8x8, 16x16, .., 128x128). *)
Definition partition_context (b : Z) (above left : option Z) : Z :=
  (match above with Some a => if w4 a <? w4 b then 1 else 0 | None => 0 end) + (match left with Some l => if h4 l <? h4 b then 2 else 0 | None => 0 end).
Definition partition_table (b : Z) : Z := Z.log2 (w4 b) - 1.
(** the block covering the position left of (above) the block, if it is in the same tile *)
Definition neighbour {X} (s : PState X) (avail : bool) (r c : Z) (n : option Z) : Prop :=
  match n with Some b => avail = true /\ idx2 (PMiSizes s) r c = Ok b /\ 0 <= b < 22 | None => avail = false end.

Lemma partitionCtx_spec X (s : PState X) b r c u l above left wl : square b -> 3 <= b -> idx MI_WIDTH_LOG2 b = Ok wl ->
  neighbour s u (r - 1) c above -> neighbour s l r (c - 1) left ->
  partitionCtx wl r c u l s = Ok (partition_context b above left, s).
Proof.
  intros Hb Hb3 Ew Ha Hl. unfold partitionCtx. rewrite (bind_ok get _ s s s eq_refl).
  assert (Hb22 : 0 <= b < 22) by (unfold square in Hb; lia).
  destruct (log2_dims b Hb22) as (w & h & E1 & _ & W & H & Rw & Rh). rewrite Ew in E1. injection E1 as <-.
  assert (HS : h4 b = w4 b) by (destruct Hb as [->|[->|[->|[->|[->| ->]]]]]; reflexivity).
  unfold partition_context. rewrite HS, W.
  assert (A : (if u then (let* m := lift (idx2 (PMiSizes s) (r - 1) c) in let* l := lift (idx MI_WIDTH_LOG2 m) in ret (l <? wl)) else ret false) s
    = Ok (match above with Some a => w4 a <? 2 ^ wl | None => false end, s)).
  { destruct above as [a|]; cbn [neighbour] in Ha; [|subst u; reflexivity]. destruct Ha as (-> & Ei & Ra). destruct (log2_dims a Ra) as (wa & ha & F1 & F2 & F3 & F4 & F5 & F6).
    rewrite Ei. rewrite (bind_ok (lift (Ok a)) _ s a s eq_refl). rewrite F1. rewrite (bind_ok (lift (Ok wa)) _ s wa s eq_refl). unfold ret. rewrite F3, pow2_ltb by lia. reflexivity. }
  rewrite (bind_ok _ _ s _ s A). cbv beta.
  assert (B : (if l then (let* m := lift (idx2 (PMiSizes s) r (c - 1)) in let* l := lift (idx MI_HEIGHT_LOG2 m) in ret (l <? wl)) else ret false) s
    = Ok (match left with Some a => h4 a <? 2 ^ wl | None => false end, s)).
  { destruct left as [a|]; cbn [neighbour] in Hl; [|subst l; reflexivity]. destruct Hl as (-> & Ei & Ra). destruct (log2_dims a Ra) as (wa & ha & F1 & F2 & F3 & F4 & F5 & F6).
    rewrite Ei. rewrite (bind_ok (lift (Ok a)) _ s a s eq_refl). rewrite F2. rewrite (bind_ok (lift (Ok ha)) _ s ha s eq_refl). unfold ret. rewrite F4, pow2_ltb by lia. reflexivity. }
  rewrite (bind_ok _ _ s _ s B). cbv beta. unfold ret. f_equal. f_equal.
  destruct above as [a|], left as [l'|]; try (destruct (w4 a <? 2 ^ wl)); try (destruct (h4 l' <? 2 ^ wl)); reflexivity.
Qed.

(** The five tables of four CDFs each: 4 symbols for 8x8, 8 for 128x128, 10 for the others. *)
Definition table_symbols (t : Z) : Z := if t =? 0 then 4 else if t =? 4 then 8 else 10.
Definition partition_tables_ok (cs : list (list (list Z))) : Prop :=
  zlen cs = 5 /\ forall t tab, idx cs t = Ok tab -> zlen tab = 4 /\ Forall (fun c => valid_cdf c /\ nsyms c = table_symbols t) tab.

(** C93: reading the partition of a block at (r, c), for every decoder state with such tables and known neighbours: the symbol is decoded
    with the CDF of the specified table and context, the result is a partition that exists for the block size, only that CDF is adapted,
    and the tables stay valid. *)
Theorem C93_partition_symbol : forall X dis g b r c (s : PState X) e above left,
  square b -> 3 <= b -> partition_tables_ok (PCdfs s) -> in_tile (PDec s) e ->
  neighbour s (isInside g (r - 1) c) (r - 1) c above -> neighbour s (isInside g r (c - 1)) r (c - 1) left ->
  exists cdf p cdf' d' cs',
    idx2 (PCdfs s) (partition_table b) (partition_context b above left) = Ok cdf /\
    ReadSymbol dis cdf (PDec s) = Ok (p, cdf', d') /\
    partitionElement dis b r c (isInside g (r - 1) c) (isInside g r (c - 1)) s = Ok (p, mkPState cs' (PMiSizes s) d' (Pother s)) /\
    0 <= p <= 9 /\ (b = BLOCK_8X8 -> p <= 3) /\ (b = BLOCK_128X128 -> p <= 7) /\
    upd2 (PCdfs s) (partition_table b) (partition_context b above left) cdf' = Ok cs' /\ partition_tables_ok cs' /\ in_tile d' e.
Proof.
  intros X dis g b r c s e above left Hb Hb3 [HL HT] Ht Ha Hl.
  assert (Hb22 : 0 <= b < 22) by (unfold square in Hb; lia).
  destruct (log2_dims b Hb22) as (wl & hl & Ew & _ & W & _ & Rw & _).
  assert (TB : whichTable wl = partition_table b /\ 0 <= partition_table b < 5 /\ (b = 3 -> partition_table b = 0) /\ (b = 15 -> partition_table b = 4)).
  { destruct Hb as [->|[->|[->|[->|[->| ->]]]]]; [lia|..]; injection Ew as <-; vm_compute; repeat split; congruence. }
  destruct TB as (TB & TR & T3 & T15).
  assert (CR : 0 <= partition_context b above left < 4).
  { unfold partition_context. destruct above as [a|], left as [l|]; try (destruct (w4 a <? w4 b)); try (destruct (h4 l <? h4 b)); lia. }
  assert (Et : exists tab, idx (PCdfs s) (partition_table b) = Ok tab) by (eexists; apply (idx_ok _ _ []); lia). destruct Et as [tab Et]. destruct (HT _ _ Et) as [Lt Ft].
  assert (Ec : exists cdf, idx tab (partition_context b above left) = Ok cdf) by (eexists; apply (idx_ok _ _ []); lia). destruct Ec as [cdf Ec].
  pose proof (idx_Forall _ _ _ _ Ft Ec) as [Vc Nc].
  destruct (C27_read_symbol dis cdf (PDec s) e Vc Ht) as (p & cdf' & d' & Er & Rp & _ & Ht' & _).
  assert (V' : valid_cdf cdf' /\ nsyms cdf' = nsyms cdf).
  { destruct dis; [rewrite (C28_no_adaptation cdf _ e p cdf' d' Vc Ht Er); auto|]. destruct (C28_adaptation cdf _ e p cdf' d' Vc Ht Er) as (K1 & _ & K2 & _). split; [exact K1|]. unfold nsyms. rewrite K2. reflexivity. }
  destruct V' as [V' N'].
  pose proof (upd_ok tab (partition_context b above left) cdf' ltac:(lia)) as Eu. set (tab' := upd_nat tab _ cdf') in *.
  pose proof (upd_ok (PCdfs s) (partition_table b) tab' ltac:(lia)) as Eu2. set (cs' := upd_nat (PCdfs s) _ tab') in *.
  assert (EU : upd2 (PCdfs s) (partition_table b) (partition_context b above left) cdf' = Ok cs') by (unfold upd2; rewrite Et; cbn [rbind]; rewrite Eu; cbn [rbind]; exact Eu2).
  exists cdf, p, cdf', d', cs'. split; [unfold idx2; rewrite Et; exact Ec|]. split; [exact Er|]. split.
  { unfold partitionElement. rewrite Ew. rewrite (bind_ok (lift (Ok wl)) _ s wl s eq_refl). rewrite (bind_ok _ _ s _ s (partitionCtx_spec X s b r c _ _ above left wl Hb Hb3 Ew Ha Hl)).
    rewrite (bind_ok get _ s s s eq_refl). rewrite TB, Et. rewrite (bind_ok (lift (Ok tab)) _ s tab s eq_refl). rewrite Ec. rewrite (bind_ok (lift (Ok cdf)) _ s cdf s eq_refl). rewrite Er.
    rewrite EU. rewrite (bind_ok (lift (Ok cs')) _ s cs' s eq_refl). reflexivity. }
  rewrite Nc in Rp. unfold table_symbols in Rp.
  split; [destruct (_ =? _); [lia|]; destruct (_ =? _); lia|].
  split; [intros ->; rewrite T3 in Rp by reflexivity; change (0 =? 0) with true in Rp; cbv iota in Rp; lia|].
  split; [intros ->; rewrite T15 in Rp by reflexivity; change (4 =? 0) with false in Rp; change (4 =? 4) with true in Rp; cbv iota in Rp; lia|].
  split; [exact EU|]. split; [|exact Ht'].
  split.
  - unfold cs'. rewrite zlen_upd_nat. exact HL.
  - intros t tb E. destruct (Z.eq_dec t (partition_table b)) as [->|NE].
    + rewrite (idx_upd_same _ _ _ _ Eu2) in E. injection E as <-. split; [unfold tab'; rewrite zlen_upd_nat; exact Lt|].
      apply Forall_upd; [exact Ft|]. split; [exact V'|]. rewrite N'. exact Nc.
    + apply (HT t). rewrite (idx_upd_other _ _ _ _ _ Eu2) in E by congruence. exact E.
Qed.
Print Assumptions C93_partition_symbol.

(** The initial state meets the hypothesis: the default tables of the five sizes. *)
Definition default_partition_tables : list (list (list Z)) :=
  [DEFAULT_PARTITION_W8_CDF; DEFAULT_PARTITION_W16_CDF; DEFAULT_PARTITION_W32_CDF; DEFAULT_PARTITION_W64_CDF; DEFAULT_PARTITION_W128_CDF].
Theorem C93_default_tables : partition_tables_ok default_partition_tables.
Proof.
  split; [reflexivity|]. intros t tab E. apply idx_inv in E as [R E]. change (zlen default_partition_tables) with 5 in R.
  assert (K : forall (l : list (list Z)) n, forallb (fun c => valid_cdfb c && (nsyms c =? n)) l = true -> Forall (fun c => valid_cdf c /\ nsyms c = n) l).
  { intros l n. rewrite forallb_forall. intros H. apply Forall_forall. intros c Hc. specialize (H c Hc). apply andb_true_iff in H as [H1 H2]. split; [apply valid_cdfb_spec, H1|lia]. }
  assert (t = 0 \/ t = 1 \/ t = 2 \/ t = 3 \/ t = 4) as [->|[->|[->|[->| ->]]]] by lia; injection E as <-; (split; [reflexivity|]); apply K; vm_compute; reflexivity.
Qed.
Print Assumptions C93_default_tables.

(** The three cases of the frame edge, with the real syntax element: inside the frame the partition is the decoded symbol; at the bottom
    right corner it is a split without any bit read; blocks below 8x8 are not split.  (Blocks crossing one edge only: C37_frame_edge_refuted.) *)
Theorem C93_choice : forall X dis g he ve b r c half (s : PState X) es, square b ->
  (3 <= b -> r + half < MiRows g -> c + half < MiCols g ->
   choosePartition g (partitionElement dis) he ve r c b half (s, es) =
     match partitionElement dis b r c (isInside g (r - 1) c) (isInside g r (c - 1)) s with Ok (p, s') => Ok (p, (s', es)) | Panic => Panic | Hang => Hang end) /\
  (3 <= b -> MiRows g <= r + half -> MiCols g <= c + half -> choosePartition g (partitionElement dis) he ve r c b half (s, es) = Ok (PARTITION_SPLIT, (s, es))) /\
  (b < 3 -> choosePartition g (partitionElement dis) he ve r c b half (s, es) = Ok (PARTITION_NONE, (s, es))).
Proof.
  intros X dis g he ve b r c half s es Hb. unfold choosePartition. change BLOCK_8X8 with 3. repeat split; intros.
  - destruct (Z.ltb_spec b 3); [lia|]. destruct (Z.ltb_spec (r + half) (MiRows g)), (Z.ltb_spec (c + half) (MiCols g)); try lia. reflexivity.
  - destruct (Z.ltb_spec b 3); [lia|]. destruct (Z.ltb_spec (r + half) (MiRows g)), (Z.ltb_spec (c + half) (MiCols g)); try lia. reflexivity.
  - destruct (Z.ltb_spec b 3); [|lia]. reflexivity.
Qed.
Print Assumptions C93_choice.

(** A case: a 16x16 block with a 8x8 block above and a 64x64 block to the left. *)
Definition demo_pstate : PState unit := mkPState default_partition_tables (repeat [12; 3; 3; 3] 4) (mkDec 20000 40000 100 (NewBitStream (repeat 77 20))) tt.
Example C93_case : partition_tables_ok (PCdfs demo_pstate) /\ in_tile (PDec demo_pstate) 100 /\
  isInside (mkGrid 8 8 0 8 0 8) 0 1 = true /\ neighbour demo_pstate true 0 1 (Some 3) /\ neighbour demo_pstate true 1 0 (Some 12) /\
  partition_context 6 (Some 3) (Some 12) = 1 /\ partition_table 6 = 1 /\
  match partitionElement false 6 1 1 true true demo_pstate with Ok (p, _) => p = 2 | _ => False end.
Proof.
  split; [apply C93_default_tables|]. split; [vm_compute; repeat split; congruence|]. split; [reflexivity|].
  split; [vm_compute; repeat split; congruence|]. split; [vm_compute; repeat split; congruence|]. split; [reflexivity|]. split; [reflexivity|]. vm_compute. reflexivity.
Qed.
