(** Property C160: decoding terminates. *)
From Verif Require Import GoBase Constants Tables Bitstream Header SequenceHeader Util Symbol TileInfo UncompressedHeader Obu Parser Partition Residual TileGroup Decoder
  SpecBits SpecStream SpecSymbol UtilProofs SymbolProofs PropSymbolAny BitstreamProofs Parses SafeParse HeaderProofs SequenceHeaderProofs ObuProofs ParserProofs TileInfoProofs UHeaderGood UHeaderWhole PartitionProofs CdfDefaults PropHeader PropPartition PropDecoder.

(** A slice of Go: its length is at most its capacity. *)
Definition a_slice {A} (s : gslice A) : Prop := zlen (elems s) <= capa s.
Definition slices (g : gslice (gslice Z)) : Prop := a_slice g /\ Forall a_slice (elems g).
(** A step of the decoder that terminates (returns or panics), does not write to the data, does not move back, and keeps slices slices. *)
Definition steady {S A} (pos : S -> bs) (inv : S -> Prop) (m : M S A) : Prop := forall s, 0 <= Position (pos s) -> inv s ->
  match m s with Ok (_, s') => Data (pos s') = Data (pos s) /\ Position (pos s) <= Position (pos s') /\ inv s' | Panic => True | Hang => False end.

(** The same from one condition to another *)
Definition takes {S A} (pos : S -> bs) (pre post : S -> Prop) (m : M S A) : Prop := forall s, 0 <= Position (pos s) -> pre s ->
  match m s with Ok (_, s') => Data (pos s') = Data (pos s) /\ Position (pos s) <= Position (pos s') /\ post s' | Panic => True | Hang => False end.
Lemma tk_bind {S A B} (pos : S -> bs) p q r (m : M S A) (k : A -> M S B) : takes pos p q m -> (forall a, takes pos q r (k a)) -> takes pos p r (bind m k).
Proof.
  intros Hm Hk s H I. unfold bind. specialize (Hm s H I). destruct (m s) as [[a s1]| |]; auto. destruct Hm as (D & P & J).
  specialize (Hk a s1 ltac:(lia) J). destruct (k a s1) as [[b s2]| |]; auto. destruct Hk as (D2 & P2 & J2). rewrite D in *. repeat split; auto; lia.
Qed.
Section Steady.
  Context {S : Type} (pos : S -> bs) (inv : S -> Prop).
  Notation st := (steady pos inv).
  Lemma st_ret {A} (a : A) : st (ret a). Proof. intros s H I. cbn. repeat split; auto; lia. Qed.
  Lemma st_panic {A} : st (@panic S A). Proof. intros s H I. exact Logic.I. Qed.
  Lemma st_get : st get. Proof. intros s H I. cbn. repeat split; auto; lia. Qed.
  Lemma st_lift {A} (r : res A) : r <> Hang -> st (lift r). Proof. intros N s H I. unfold lift. destruct r; [repeat split; auto; lia|exact Logic.I|congruence]. Qed.
  Lemma st_modify f : (forall s, Data (pos (f s)) = Data (pos s) /\ Position (pos (f s)) = Position (pos s) /\ (inv s -> inv (f s))) -> st (modify f).
  Proof. intros H s P I. destruct (H s) as (D & Q & J). cbn. repeat split; auto; lia. Qed.
  Lemma st_bind {A B} (m : M S A) (k : A -> M S B) : st m -> (forall a, st (k a)) -> st (bind m k).
  Proof.
    intros Hm Hk s H I. unfold bind. specialize (Hm s H I). destruct (m s) as [[a s1]| |]; auto. destruct Hm as (D & P & J).
    specialize (Hk a s1 ltac:(lia) J). destruct (k a s1) as [[b s2]| |]; auto. destruct Hk as (D2 & P2 & J2). rewrite D in *. repeat split; auto; lia.
  Qed.
  Lemma st_if {A} (b : bool) (m k : M S A) : st m -> st k -> st (if b then m else k). Proof. destruct b; auto. Qed.
End Steady.

(** Partitions, with the list of events *)
Section Part.
  Context {S : Type} (pos : S -> bs) (inv : S -> Prop) (g : Grid) (pe he ve : Z -> Z -> Z -> bool -> bool -> M S Z) (blk : Z -> Z -> Z -> M S unit) (rs : M S unit) (ss : Z -> Z -> M S unit).
  Notation st := (steady pos inv).
  Notation pos2 := (fun s : S * list event => pos (fst s)).
  Notation inv2 := (fun s : S * list event => inv (fst s)).
  Notation st2 := (steady pos2 inv2).
  Hypothesis Hpe : forall a b c d e, st (pe a b c d e).
  Hypothesis Hhe : forall a b c d e, st (he a b c d e).
  Hypothesis Hve : forall a b c d e, st (ve a b c d e).
  Hypothesis Hblk : forall a b c, st (blk a b c).
  Hypothesis Hrs : st rs.
  Hypothesis Hss : forall r c, st (ss r c).
  Lemma st_on {A} (m : M S A) : st m -> st2 (Partition.on m).
  Proof. intros H s P I. unfold Partition.on. specialize (H (fst s) P I). destruct (m (fst s)) as [[? ?]| |]; auto. Qed.
  Lemma st_block r c z : st2 (decodeBlock blk r c z).
  Proof. apply st_bind; [intros s P I; cbn; repeat split; auto; lia|]. intros _. apply st_on, Hblk. Qed.
  Lemma st_choose r c b h : st2 (choosePartition g pe he ve r c b h).
  Proof.
    unfold choosePartition. destruct (_ <? _); [apply st_ret|]. destruct (_ && _); [apply st_on, Hpe|].
    destruct (c + h <? MiCols g); [apply st_bind; [apply st_on, Hhe|intros; apply st_ret]|].
    destruct (r + h <? MiRows g); [apply st_bind; [apply st_on, Hve|intros; apply st_ret]|]. apply st_ret.
  Qed.
  Lemma st_partition fuel : forall r c b, square b -> (depth b <= fuel)%nat -> st2 (decodePartition g pe he ve blk fuel r c b).
  Proof.
    induction fuel as [|fuel IH]; intros r c b Hb Hf; [exfalso; destruct Hb as [->|[->|[->|[->|[->| ->]]]]]; cbn in Hf; lia|].
    cbn [decodePartition]. destruct (_ || _); [apply st_ret|].
    apply st_bind; [apply st_lift, idx_nh|]. intros n. cbv zeta.
    assert (K : forall s p s1, choosePartition g pe he ve r c b (shr n 1) s = Ok (p, s1) -> b < 3 -> p = 0) by (intros s p s1 E; exact (proj1 (proj2 (choose_inv _ _ _ _ blk _ _ _ _ _ _ _ E)))).
    intros s P I. rewrite bind_eq. pose proof (st_choose r c b (shr n 1) s P I) as Hc. destruct (choosePartition g pe he ve r c b (shr n 1) s) as [[p s1]| |] eqn:Ec; [|exact Logic.I|exact Hc].
    specialize (K _ _ _ Ec). clear Ec. destruct Hc as (D1 & P1 & I1).
    match goal with |- match ?m s1 with _ => _ end => assert (ST : st2 m) end.
    2: { specialize (ST s1 ltac:(lia) I1). cbv beta in *. match goal with |- match ?x with _ => _ end => destruct x as [[? s2]| |] end; auto. destruct ST as (D2 & P2 & I2). repeat split; [congruence|lia|exact I2]. }
    apply st_bind; [intros t; cbn; repeat split; auto; lia|]. intros _.
    destruct (idx2 Partition_Subsize p b) as [sub| |] eqn:Es; [|intros t Pt It; exact Logic.I|exfalso; revert Es; apply PartitionProofs.idx2_nh].
    intros t Pt It. unfold bind at 1. unfold lift at 1. cbv beta iota. revert t Pt It.
    match goal with |- forall t, _ -> _ -> match ?m t with _ => _ end => change (st2 m) end.
    apply st_bind; [apply st_lift, PartitionProofs.idx2_nh|]. intros spl.
    destruct (p =? PARTITION_NONE); [apply st_block|].
    destruct (p =? PARTITION_HORZ); [apply st_bind; [apply st_block|intros _]; destruct (_ <? _); [apply st_block|apply st_ret]|].
    destruct (p =? PARTITION_VERT); [apply st_bind; [apply st_block|intros _]; destruct (_ <? _); [apply st_block|apply st_ret]|].
    destruct (Z.eqb_spec p PARTITION_SPLIT) as [PS|PS].
    { subst p. assert (Hb3 : 3 <= b) by (destruct (Z.lt_ge_cases b 3) as [Q|Q]; [discriminate (K Q)|exact Q]).
      assert (Q : square sub /\ (depth sub <= fuel)%nat).
      { destruct Hb as [->|[->|[->|[->|[->| ->]]]]]; [lia|..]; injection Es as <-; (split; [unfold square; lia|cbn in *; lia]). }
      destruct Q. repeat (apply st_bind; [apply IH; assumption|intros _]). apply IH; assumption. }
    repeat (match goal with |- steady _ _ (if ?x then _ else _) => destruct x end); repeat (apply st_bind; [apply st_block|intros _]);
    repeat (match goal with |- steady _ _ (if ?x then _ else _) => destruct x end); apply st_block || apply st_ret.
  Qed.
  Lemma st_cols sb4 b : square b -> (depth b <= 6)%nat -> 1 <= sb4 -> forall n r c, MiColEnd g - c <= Z.of_nat n -> st2 (sbCols g pe he ve blk ss n r c sb4 b).
  Proof.
    intros Hb Hd H1. induction n as [|n IH]; intros r c Hn; cbn [sbCols].
    - destruct (Z.ltb_spec c (MiColEnd g)); [lia|apply st_ret].
    - destruct (Z.ltb_spec c (MiColEnd g)); [|apply st_ret]. apply st_bind; [apply st_on, Hss|intros _]. apply st_bind; [apply st_partition; assumption|intros _]. apply IH. lia.
  Qed.
  Lemma st_rows sb4 b m : square b -> (depth b <= 6)%nat -> 1 <= sb4 -> MiColEnd g - MiColStart g <= Z.of_nat m ->
    forall n r, MiRowEnd g - r <= Z.of_nat n -> st2 (sbRows g pe he ve blk rs ss n m r sb4 b).
  Proof.
    intros Hb Hd H1 Hm. induction n as [|n IH]; intros r Hn; cbn [sbRows].
    - destruct (Z.ltb_spec r (MiRowEnd g)); [lia|apply st_ret].
    - destruct (Z.ltb_spec r (MiRowEnd g)); [|apply st_ret]. apply st_bind; [apply st_on, Hrs|intros _]. apply st_bind; [apply st_cols; assumption|intros _]. apply IH. lia.
  Qed.
  Lemma st_superblocks use128 : st2 (decodeSuperblocks g pe he ve blk rs ss use128).
  Proof.
    unfold decodeSuperblocks. cbv zeta.
    assert (Q : exists v, 1 <= v /\ idx NUM_4X4_BLOCKS_WIDE (if use128 then BLOCK_128X128 else BLOCK_64X64) = Ok v) by (destruct use128; eexists; (split; [|vm_compute; reflexivity]); lia).
    destruct Q as (v & V1 & ->). intros t Pt It. unfold bind at 1. unfold lift at 1. cbv beta iota. revert t Pt It.
    match goal with |- forall t, _ -> _ -> match ?m t with _ => _ end => change (st2 m) end.
    apply st_rows; [destruct use128; vm_compute; auto 10|destruct use128; cbn; lia|exact V1|lia|lia].
  Qed.
End Part.

(** The start of a tile *)
Lemma bdi {A B} (m : res A) (k : A -> res B) b : rbind m k = Ok b -> exists a, m = Ok a /\ k a = Ok b.
Proof. destruct m; cbn; try discriminate. intros H. eauto. Qed.
Lemma clearContext_nh n : clearContext n <> Hang.
Proof. unfold clearContext, rfor_to. destruct (n <? 0); [discriminate|]. cbv zeta. apply Frame.rfor_from_nh. intros. apply Frame.rfor_from_nh. intros. apply clearOne_nh. Qed.
Lemma zeroDeltaLF_nh l : zeroDeltaLF l <> Hang.
Proof. unfold zeroDeltaLF, rfor_to. apply Frame.rfor_from_nh. intros. apply upd_nh. Qed.
Lemma initRefs_nh planes a : initRefs planes a <> Hang.
Proof.
  unfold initRefs, rfor_to. apply Frame.rfor_from_nh. intros. apply Frame.rfor_from_nh. intros. apply Frame.rbind_nh; [apply idx_nh|intro]. apply Frame.rbind_nh; [apply upd2_nh|intro].
  apply Frame.rbind_nh; [|discriminate]. apply Frame.rfor_from_nh. intros. apply Frame.rbind_nh; [apply idx_nh|intro]. apply Frame.rbind_nh; [apply idx_nh|intro]. apply Frame.rbind_nh; [apply upd2_nh|intro]. apply upd_nh.
Qed.
Lemma growTo_ok {A} (x : A) n : forall fuel s, a_slice s -> n <= zlen (elems s) + Z.of_nat fuel -> exists k c, growTo fuel n x s = Ok (mkSlice (elems s ++ repeat x k) c) /\ a_slice (mkSlice (elems s ++ repeat x k) c).
Proof.
  induction fuel as [|fuel IH]; intros s W H; unfold a_slice in *; cbn [growTo]; destruct (Z.ltb_spec (capa s) n) as [L|L].
  - lia.
  - exists 0%nat, (capa s). cbn [repeat elems capa]. rewrite app_nil_r. destruct s; auto.
  - assert (ZL : zlen (elems (goappend s x)) = zlen (elems s) + 1) by (unfold goappend, zlen; cbn [elems]; rewrite app_length; cbn [length]; lia).
    destruct (IH (goappend s x)) as (k & c & E & W2).
    + rewrite ZL. unfold goappend. cbn [capa]. assert (0 <= zlen (elems s)) by (unfold zlen; lia). destruct (Z.ltb_spec (zlen (elems s)) (capa s)); [lia|]. destruct (Z.eqb_spec (capa s) 0); lia.
    + rewrite ZL. lia.
    + unfold goappend in E, W2. cbn [elems] in E, W2. exists (S k), c. cbn [repeat]. rewrite <- app_assoc in E, W2. auto.
  - exists 0%nat, (capa s). cbn [repeat elems capa]. rewrite app_nil_r. destruct s; auto.
Qed.
Lemma resetAt_slices r c g : slices g -> match resetAt r c g with Ok g' => slices g' | Panic => True | Hang => False end.
Proof.
  intros [W1 W2]. unfold resetAt. pose proof (idx_nh (elems g) r) as N1. destruct (idx (elems g) r) as [row| |] eqn:E1; [|exact I|congruence]. cbn [rbind].
  pose proof (upd_nh (elems row) c (-1)) as N2. destruct (upd (elems row) c (-1)) as [l| |] eqn:E2; [|exact I|congruence]. cbn [rbind].
  pose proof (upd_nh (elems g) r (mkSlice l (capa row))) as N3. destruct (upd (elems g) r _) as [rows| |] eqn:E3; [|exact I|congruence]. cbn [rbind].
  assert (WR : a_slice (mkSlice l (capa row))).
  { pose proof (Frame.idx_Forall _ _ _ _ W2 E1) as W. unfold a_slice in *. cbn [elems capa]. apply upd_inv in E2. destruct E2 as [_ ->]. unfold zlen in *. rewrite upd_nat_length. exact W. }
  split.
  - unfold a_slice in *. cbn [elems capa]. apply upd_inv in E3. destruct E3 as [_ ->]. unfold zlen in *. rewrite upd_nat_length. exact W1.
  - cbn [elems]. apply (Frame.upd_Forall _ _ _ _ _ W2 WR E3).
Qed.
Lemma ClearCdef_slices r c use128 z g : slices g -> match ClearCdef r c use128 z g with Ok g' => slices g' | Panic => True | Hang => False end.
Proof.
  intros [W1 W2]. unfold ClearCdef. assert (Z0 : forall A (l : list A), 0 <= zlen l) by (intros; unfold zlen; lia).
  destruct (growTo_ok nilslice (r + 1) (Z.to_nat (r + 1)) g W1) as (k & c1 & E1 & V1); [pose proof (Z0 _ (elems g)); lia|]. rewrite E1. cbn [rbind elems].
  assert (V2 : Forall a_slice (elems g ++ repeat (@nilslice Z) k)). { apply Forall_app. split; [exact W2|]. apply Forall_forall. intros x Hx. apply repeat_spec in Hx. subst. unfold a_slice, zlen. cbn. lia. }
  set (rows := elems g ++ repeat nilslice k) in *. pose proof (idx_nh rows r) as N1. destruct (idx rows r) as [row| |] eqn:EI; [|exact I|congruence]. cbn [rbind].
  destruct (growTo_ok 0 (c + 1) (Z.to_nat (c + 1)) row (Frame.idx_Forall _ _ _ _ V2 EI)) as (k2 & c2 & E2 & V3); [pose proof (Z0 _ (elems row)); lia|]. rewrite E2. cbn [rbind].
  pose proof (upd_nh rows r (mkSlice (elems row ++ repeat 0 k2) c2)) as N2. destruct (upd rows r _) as [rows2| |] eqn:E3; [|exact I|congruence]. cbn [rbind].
  assert (V4 : slices (mkSlice rows2 c1)).
  { split; [|cbn [elems]; apply (Frame.upd_Forall _ _ _ _ _ V2 V3 E3)]. unfold a_slice in *. cbn [elems capa] in *. apply upd_inv in E3. destruct E3 as [_ ->]. unfold zlen in *. rewrite upd_nat_length. exact V1. }
  cbn [capa]. set (g0 := mkSlice rows2 c1) in *. clearbody g0. pose proof (resetAt_slices r c g0 V4) as R. destruct (resetAt r c g0) as [g1| |]; auto. cbn [rbind]. destruct use128; [|exact R].
  pose proof (resetAt_slices r (c + z) g1 R) as R2. destruct (resetAt r (c + z) g1) as [g2| |]; auto. cbn [rbind].
  pose proof (resetAt_slices (r + z) c g2 R2) as R3. destruct (resetAt (r + z) c g2) as [g3| |]; auto. cbn [rbind]. apply resetAt_slices, R3.
Qed.
Lemma updb3_nh (d : list (list (list bool))) p y x v : updb3 d p y x v <> Hang.
Proof. unfold updb3. apply Frame.rbind_nh; [apply idx_nh|intro]. apply Frame.rbind_nh; [apply upd2_nh|intro]. apply upd_nh. Qed.
Lemma clearCols_nh w4 h4 plane hx : forall fuel x y d, -1 <= x -> -1 <= y -> 1 <= Z.of_nat fuel -> hx - x + 2 <= Z.of_nat fuel ->
  match clearCols fuel x hx y w4 h4 plane d with Ok (y', _) => y <= y' | Panic => True | Hang => False end.
Proof.
  assert (Z0 : forall A (l : list A), 0 <= zlen l) by (intros; unfold zlen; lia).
  induction fuel as [|fuel IH]; intros x y d Hx Hy H1 Hf; [lia|]; cbn [clearCols]; destruct (Z.leb_spec x hx) as [L|L].
  - pose proof (idx_nh d plane) as N1. destruct (idx d plane) as [dp| |]; [|exact I|congruence]. cbn [rbind].
    set (y1 := if y <? 0 then zlen dp + y else y). assert (Y1 : y <= y1) by (subst y1; destruct (y <? 0); pose proof (Z0 _ dp); lia). clearbody y1.
    match goal with |- match rbind ?m _ with _ => _ end => assert (X1 : match m with Ok x1 => x <= x1 | Panic => True | Hang => False end); [|destruct m as [x1| |]; [|exact I|exact X1]] end.
    { destruct (x <? 0); [|lia]. pose proof (idx_nh dp y1) as N2. destruct (idx dp y1) as [l| |]; [|exact I|congruence]. cbn [rbind]. pose proof (Z0 _ l). lia. }
    cbn [rbind]. match goal with |- match rbind (updb3 ?a ?b ?c ?e ?v) _ with _ => _ end => pose proof (updb3_nh a b c e v) as N3; destruct (updb3 a b c e v) as [d1| |]; [|exact I|congruence] end. cbn [rbind].
    specialize (IH (x1 + 1) y1 d1 ltac:(lia) ltac:(lia) ltac:(lia) ltac:(lia)). destruct (clearCols _ _ _ _ _ _ _ _) as [[y' d']| |]; auto. lia.
  - cbn. lia.
Qed.
Lemma clearRows_nh w4 h4 plane hy hx : -1 <= hx -> forall fuel y d, -1 <= y -> 1 <= Z.of_nat fuel -> hy - y + 2 <= Z.of_nat fuel -> clearRows fuel y hy hx w4 h4 plane d <> Hang.
Proof.
  intros Hx. induction fuel as [|fuel IH]; intros y d Hy H1 Hf; [lia|]; cbn [clearRows]; destruct (Z.leb_spec y hy) as [L|L]; [|discriminate].
  pose proof (clearCols_nh w4 h4 plane hx (Z.to_nat (hx + 3)) (-1) y d ltac:(lia) Hy ltac:(lia) ltac:(lia)) as C. destruct (clearCols _ _ _ _ _ _ _ _) as [[y' d']| |]; [|discriminate|contradiction].
  cbn [rbind fst snd]. apply IH; lia.
Qed.
Lemma clearForSuperblock_nh use128 planes sx sy re ce r c d : clearForSuperblock use128 planes sx sy re ce r c d <> Hang.
Proof.
  unfold clearForSuperblock, clearBlockDecodedFlags, rfor_to. apply Frame.rfor_from_nh. intros p d1. cbv zeta.
  assert (B : exists z, z = 12 \/ z = 15) by (exists 12; lia).
  assert (H : forall s b, -1 <= shr (if use128 then BLOCK_128X128 else BLOCK_64X64) (if (0 <? s) && (b : bool) then 1 else 0)) by (intros s b; destruct use128, (_ && _); vm_compute; discriminate).
  apply Frame.rbind_nh.
  - apply clearRows_nh; [apply H|lia|pose proof (H p sy); lia|pose proof (H p sy); lia].
  - intros d2. apply Frame.rbind_nh; [apply idx_nh|intro]. apply Frame.rbind_nh; [apply idx_nh|intro]. apply updb3_nh.
Qed.

(** What holds during a tile, with [K] for the rest of the state (say, that its CDF tables are valid) *)
Definition tile_pos {X} (s : @TS X) : bs := Bits (fst s).
Definition tile_inv {X} (K : X -> Prop) (s : @TS X) : Prop := slices (xCdef (snd s)) /\ regs (fst s) /\ K (xOther (snd s)).
Definition group_pos {X} (g : TGState (TileCtx X)) : bs := Bits (gDec g).
(** between the tiles, with [K0] *)
Definition group_inv {X} (K0 : TileCtx X -> Prop) (g : TGState (TileCtx X)) : Prop := slices (xCdef (gRest g)) /\ K0 (gRest g).
Section Tile.
  Context {X : Type} (K : X -> Prop).
  Notation st := (steady (@tile_pos X) (tile_inv K)).
  Lemma st_ctxop f : (forall x : TileCtx X, slices (xCdef x) -> match f x with Ok x' => slices (xCdef x') /\ xOther x' = xOther x | Panic => True | Hang => False end) -> st (ctxop f).
  Proof.
    intros H [d x] P (I & R & J). unfold ctxop. cbn [fst snd] in *. specialize (H x I). destruct (f x) as [x'| |]; auto. destruct H as [H E]. unfold tile_pos, tile_inv. cbn [fst snd]. rewrite E. split; [reflexivity|]. split; [lia|]. auto.
  Qed.
  Variable e : TileEnv.
  Lemma st_startTile g : st (ctxop (startTile e g)).
  Proof.
    apply st_ctxop. intros x I. unfold startTile. pose proof (clearContext_nh (MiCols g)) as N1. destruct (clearContext (MiCols g)) as [a| |]; [|exact Logic.I|congruence]. cbn [rbind].
    pose proof (zeroDeltaLF_nh (xDeltaLF x)) as N2. destruct (zeroDeltaLF _) as [b| |]; [|exact Logic.I|congruence]. cbn [rbind].
    pose proof (initRefs_nh (yPlanes e) (xSgr x, xWiener x)) as N3. destruct (initRefs _ _) as [c| |]; [|exact Logic.I|congruence]. split; [exact I|reflexivity].
  Qed.
  Lemma st_startRow g : st (ctxop (startRow g)).
  Proof. apply st_ctxop. intros x I. unfold startRow. pose proof (clearContext_nh (MiRows g)) as N1. destruct (clearContext (MiRows g)) as [a| |]; [|exact Logic.I|congruence]. split; [exact I|reflexivity]. Qed.
  Lemma st_startSuperblock g r c : st (ctxop (startSuperblock e g r c)).
  Proof.
    apply st_ctxop. intros x I. unfold startSuperblock. pose proof (ClearCdef_slices r c (yUse128 e) CdefSize4 _ I) as N1. destruct (ClearCdef _ _ _ _ _) as [a| |]; [|exact Logic.I|exact N1]. cbn [rbind].
    match goal with |- match rbind ?m _ with _ => _ end => assert (N2 : m <> Hang) by apply clearForSuperblock_nh; destruct m as [b| |]; [|exact Logic.I|congruence] end. split; [exact N1|reflexivity].
  Qed.
  Variable lr : Grid -> Z -> Z -> M (@TS X) unit.
  Variables partEl horzEl vertEl : Z -> Z -> Z -> bool -> bool -> M (@TS X) Z.
  Variable block : Z -> Z -> Z -> M (@TS X) unit.
  Hypothesis Hlr : forall g r c, st (lr g r c).
  Hypothesis Hpe : forall a b c d x, st (partEl a b c d x).
  Hypothesis Hhe : forall a b c d x, st (horzEl a b c d x).
  Hypothesis Hve : forall a b c d x, st (vertEl a b c d x).
  Hypothesis Hblk : forall a b c, st (block a b c).
  Lemma st_decodeTile g : st (decodeTile e lr partEl horzEl vertEl block g).
  Proof.
    unfold decodeTile. apply st_bind; [apply st_startTile|intros _]. intros s P I.
    pose proof (st_superblocks tile_pos (tile_inv K) g partEl horzEl vertEl block (ctxop (startRow g)) (fun r c => ctxop (startSuperblock e g r c) ;; lr g r c) Hpe Hhe Hve Hblk (st_startRow g)) as H.
    specialize (H ltac:(intros; apply st_bind; [apply st_startSuperblock|intros; apply Hlr]) (yUse128 e) (s, []) P I). cbv beta in H.
    destruct (decodeSuperblocks _ _ _ _ _ _ _ _ _) as [[u [s' ev]]| |]; auto.
  Qed.
End Tile.

(** A tile group *)
Section Group.
  Context {X : Type} (K0 : TileCtx X -> Prop) (K : X -> Prop).
  Notation st := (steady (@group_pos X) (group_inv K0)).
  Definition started (g : TGState (TileCtx X)) : Prop := group_inv K0 g /\ regs (gDec g).
  Definition inside (g : TGState (TileCtx X)) : Prop := tile_inv K (gDec g, gRest g).
  Lemma st_onbits {A} (m : BS A) : calm m -> st (onDec (onbits m)).
  Proof. intros H g P I. unfold onDec, onbits. specialize (H (Bits (gDec g)) P). destruct (m (Bits (gDec g))) as [[a b]| |]; auto. unfold group_pos, group_inv in *. cbn. tauto. Qed.
  Lemma tk_init sz : takes group_pos (group_inv K0) started (onDec (initSymbol sz)).
  Proof. intros g P I. unfold onDec. pose proof (initSymbol_regs sz (gDec g) P) as S. destruct (initSymbol sz (gDec g)) as [[a d']| |]; auto. unfold started, group_pos, group_inv in *. cbn. tauto. Qed.
  Lemma tk_exit : takes group_pos inside inside (onDec exitSymbol).
  Proof.
    intros g P I. unfold onDec, exitSymbol. rewrite (bind_ok _ _ _ _ _ (eq_refl : get (gDec g) = Ok (gDec g, gDec g))). destruct (_ <? _); [exact Logic.I|]. unfold put, group_pos, inside, tile_inv, regs in *. cbn in *. split; [reflexivity|]. split; [|exact I]. rewrite Max_max. lia.
  Qed.
  Lemma tk_restop (pre post : TGState (TileCtx X) -> Prop) (f : TileCtx X -> TileCtx X) : (forall g, pre g -> post (mkTGState (gNum g) (gGrid g) (gQIndex g) (gDec g) (f (gRest g)))) -> takes (@group_pos X) pre post (restop f).
  Proof. intros H g P I. unfold restop, modify. cbn. split; [reflexivity|]. split; [apply Z.le_refl|apply H, I]. Qed.
  Variable t : Tiles.
  Variable baseQ : Z.
  Variable loadCdfs : TileCtx X -> TileCtx X.
  Variable tile : M (TGState (TileCtx X)) unit.
  Variable saveCdfs : Z -> TileCtx X -> TileCtx X.
  Variable endFrame : M (TGState (TileCtx X)) unit.
  Hypothesis Hload : forall x, slices (xCdef x) -> K0 x -> slices (xCdef (loadCdfs x)) /\ K (xOther (loadCdfs x)).
  Hypothesis Hsave : forall k x, slices (xCdef x) -> K (xOther x) -> slices (xCdef (saveCdfs k x)) /\ K0 (saveCdfs k x).
  Hypothesis Htile : takes group_pos inside inside tile.
  Hypothesis Hend : st endFrame.
  Lemma calm_groupHeader : calm (groupHeader t).
  Proof.
    unfold groupHeader. cbv zeta. apply calm_bind; [apply calm_if; [apply calm_bind; [apply safe_calm, safe_F|intros; apply calm_ret]|apply calm_ret]|intros present].
    apply calm_bind; [apply calm_if; [apply calm_ret|apply calm_bind; [apply safe_calm, safe_F|intros; apply calm_bind; [apply safe_calm, safe_F|intros; apply calm_ret]]]|intros r].
    apply calm_bind; [apply calm_ByteAlignment|intros; apply calm_ret].
  Qed.
  Lemma st_oneTile tgEnd k sz : st (oneTile t baseQ loadCdfs tile saveCdfs tgEnd k sz).
  Proof.
    unfold oneTile. destruct (TileCols t =? 0); [apply st_panic|]. cbv zeta. apply st_bind.
    { destruct (k =? tgEnd); [apply st_ret|]. apply st_bind; [apply st_onbits, safe_calm, safe_Le|intros; apply st_ret]. }
    intros [ts sz']. do 4 (apply st_bind; [apply st_lift, idx_nh|intro]).
    apply st_bind; [apply st_modify; intros; split; [reflexivity|split; [reflexivity|auto]]|intros _].
    apply (tk_bind _ _ started); [apply tk_init|intros _]. apply (tk_bind _ _ inside); [apply tk_restop; intros g ([I1 I2] & R); unfold inside, tile_inv; cbn; destruct (Hload _ I1 I2); auto|intros _].
    apply (tk_bind _ _ inside); [exact Htile|intros _]. apply (tk_bind _ _ inside); [apply tk_exit|intros _].
    apply (tk_bind _ _ (group_inv K0)); [apply tk_restop; intros g (I1 & R & I2); unfold group_inv; cbn; apply Hsave; assumption|intros _]. apply st_ret.
  Qed.
  Lemma st_tileLoop n : forall tgEnd k sz, st (tileLoop t baseQ loadCdfs tile saveCdfs n tgEnd k sz).
  Proof. induction n as [|n IH]; intros; cbn [tileLoop]; [apply st_ret|]. apply st_bind; [apply st_oneTile|intros; apply IH]. Qed.
  Lemma st_build sz : st (buildTileGroup t baseQ loadCdfs tile saveCdfs endFrame sz).
  Proof.
    unfold buildTileGroup. apply st_bind; [apply st_get|intros g0]. apply st_bind; [apply st_onbits, calm_groupHeader|intros [a b]]. apply st_bind; [apply st_get|intros g1]. cbv zeta.
    apply st_bind; [apply st_tileLoop|intros _]. destruct (_ =? _); [apply st_bind; [exact Hend|intros; apply st_ret]|apply st_ret].
  Qed.
End Group.

(** The parts of the decoder that the model leaves open: that reading a syntax element or a block of a tile, or the end of a frame, terminates - when it starts with the decoder's registers
    in range and the condition [K] on the rest of the state that the parts keep during a tile, [K0] between tiles. *)
Definition terminating_parts (P : parts) (K0 : TileCtx (Decoder.X P) -> Prop) (K : Decoder.X P -> Prop) : Prop :=
  (forall uh sh h g r c, steady tile_pos (tile_inv K) (pLr P uh sh h g r c)) /\
  (forall uh sh g a b c d e, steady tile_pos (tile_inv K) (pPart P uh sh g a b c d e)) /\
  (forall uh sh g a b c d e, steady tile_pos (tile_inv K) (pHorz P uh sh g a b c d e)) /\
  (forall uh sh g a b c d e, steady tile_pos (tile_inv K) (pVert P uh sh g a b c d e)) /\
  (forall uh sh h g r c b, steady tile_pos (tile_inv K) (pBlock P uh sh h g r c b)) /\
  (forall uh sh, steady group_pos (group_inv K0) (pEnd P uh sh)) /\
  (forall x, slices (xCdef x) -> K0 x -> slices (xCdef (pLoad P x)) /\ K (xOther (pLoad P x))) /\
  (forall uh k x, slices (xCdef x) -> K (xOther x) -> slices (xCdef (pSave P uh k x)) /\ K0 (pSave P uh k x)) /\
  (forall uh sh d, slices (xCdef (pEnter P uh sh d)) /\ K0 (pEnter P uh sh d)).
Definition good_sh (sh : SequenceHeader) : Prop := size_bounds sh /\ 0 <= NumPlanes (Color sh) <= 3.
Lemma good_zeroSH : good_sh zeroSH. Proof. unfold good_sh, size_bounds. cbn. lia. Qed.
Section Decoder.
  Variable P : parts.
  Variable K0 : TileCtx (Decoder.X P) -> Prop.
  Variable K : Decoder.X P -> Prop.
  Hypothesis HP : terminating_parts P K0 K.
  Lemma calm_group sz uh sh d : calm (NewTileGroupOf P sz uh sh d).
  Proof.
    destruct HP as (H1 & H2 & H3 & H4 & H5 & H6 & H7 & H8 & H9). intros s S0. unfold NewTileGroupOf. cbv zeta.
    match goal with |- match match ?b ?g with _ => _ end with _ => _ end => assert (B : match b g with Ok (_, g') => Data (group_pos g') = Data s /\ Position s <= Position (group_pos g') | Panic => True | Hang => False end) end.
    { match goal with |- match buildTileGroup ?t ?q ?l ?ti ?sv ?en ?z ?g with _ => _ end => pose proof (st_build K0 K t q l ti sv en H7 (H8 uh)) as B end.
      specialize (fun T => B T (H6 uh sh) sz). match type of B with ?T -> _ => assert (Q : T) end.
      { intros g G I. unfold tileOf.
        pose proof (st_decodeTile K (pEnv P uh sh) (pLr P uh sh (sHeader (other d))) (pPart P uh sh (gGrid g)) (pHorz P uh sh (gGrid g)) (pVert P uh sh (gGrid g)) (pBlock P uh sh (sHeader (other d)) (gGrid g))) as Q.
        specialize (Q ltac:(intros; apply H1) ltac:(intros; apply H2) ltac:(intros; apply H3) ltac:(intros; apply H4) ltac:(intros; apply H5) (gGrid g) (gDec g, gRest g) G I).
        destruct (decodeTile _ _ _ _ _ _ _ _) as [[u [d' x']]| |]; auto. }
      specialize (B Q). match goal with |- match ?b ?g with _ => _ end => specialize (B g S0 (H9 _ _ _)); destruct (b g) as [[f g']| |]; auto end. tauto. }
    match goal with |- match match ?x with _ => _ end with _ => _ end => destruct x as [[f g']| |]; auto end. destruct (pLeave P uh (other d) g') as [tg [h' y]]. exact B.
  Qed.
  Lemma calm_header sh d : good_sh sh -> calm (NewHeaderOf P sh d).
  Proof.
    intros [B N]. unfold NewHeaderOf. apply calm_bind; [|intros [uh h]; apply calm_ret]. apply safe_calm. exact (proj1 (header_good sh (sHeader (other d)) B N)).
  Qed.
End Decoder.

(** ** The parser, when the headers are read only with a sequence header that was accepted *)
Section Parse.
  Variable P : payloads.
  Hypothesis Hh : forall h sh d, good_sh sh -> calm (NewUncompressedHeader P h sh d).
  Hypothesis Hg : forall sz uh sh d, calm (NewTileGroup P sz uh sh d).
  Lemma calmg_ParseFrameHeader d h sh : good_sh sh -> calm (ParseFrameHeader P d h sh).
  Proof.
    intros G. unfold ParseFrameHeader. apply calm_if; [apply calm_panic|].
    apply calm_bind; [apply Hh, G|]. intros [uh d1]. apply calm_if; [apply calm_panic|apply calm_ret].
  Qed.
  Lemma calmg_payload size h sh uh d : good_sh sh -> calm (payload P size h sh uh d).
  Proof.
    intros G. unfold payload, newFrame.
    repeat first [apply calm_ret | apply calm_panic | apply calm_get | apply calm_if | apply calmg_ParseFrameHeader; exact G
      | apply calm_paddingObu | apply calm_ByteAlignment | apply Hg | apply Hh; exact G
      | apply safe_calm; apply safe_NewSequenceHeader
      | apply calm_bind; [|intros ?]
      | match goal with |- calm (match ?x with _ => _ end) => destruct x end ].
  Qed.
  Lemma payload_good size h sh uh d s o d' s' : 0 <= Position s -> good_sh sh -> payload P size h sh uh d s = Ok (o, d', s') -> good_sh (ObuSH o).
  Proof.
    intros S0 G E. unfold payload in E. cbv zeta in E. destruct (Type_ h =? OBU_SEQUENCE_HEADER).
    - apply bind_inv in E. destruct E as ([sh' idc] & s1 & E1 & E). injection E as <- <- <-. cbn [ObuSH]. exact (accepted_bounds _ _ _ _ S0 E1).
    - repeat match type of E with
      | (if ?b then _ else _) _ = _ => destruct b
      | bind _ _ _ = Ok _ => apply bind_inv in E; destruct E as (? & ? & _ & E)
      | (let '(_, _) := ?x in _) _ = Ok _ => destruct x
      | ret _ _ = Ok _ => injection E as <- <- <-
      | panic _ = Ok _ => discriminate
      end; exact G.
  Qed.
  (** An OBU: no hang; not back; the sequence header it carries is a good one *)
  Lemma obu_good sz d sh uh s : 0 <= sz -> good_sh sh -> 0 <= Position s ->
    match NewObu P sz d sh uh s with Ok (o, _, s') => Data s' = Data s /\ Position s <= Position s' /\ good_sh (ObuSH o) | Panic => True | Hang => False end.
  Proof.
    intros Hsz G S0. unfold NewObu.
    pose proof (NewHeader_no_hang s S0) as Hn.
    destruct (NewHeader s) as [[h s1]| |] eqn:Eh; [|unfold bind; rewrite Eh; exact I|congruence].
    rewrite (bind_ok _ _ _ _ _ Eh).
    destruct (NewHeader_pos s h s1 S0 Eh) as (D1 & P1 & _ & _).
    assert (Hi : 0 <= int_of (ExtensionFlag h)) by (destruct (ExtensionFlag h); cbn; lia).
    match goal with |- match bind ?m ?k s1 with _ => _ end =>
      assert (K : forall size s2, Data s2 = Data s -> Position s1 <= Position s2 -> Position s <= Position s2 + size * 8 ->
        match k size s2 with Ok (o, _, s') => Data s' = Data s /\ Position s <= Position s' /\ good_sh (ObuSH o) | Panic => True | Hang => False end) end.
    { intros size s2 D2 P2 P2'. cbv beta.
      rewrite (bind_ok _ _ _ _ _ (eq_refl : get s2 = Ok (s2, s2))).
      destruct (dropped (OperatingPointIdc d) h).
      - cbn. split; [exact D2|]. split; [lia|exact G].
      - pose proof (calmg_payload size h sh uh d G s2 ltac:(lia)) as S.
        rewrite bind_eq. pose proof (fun o d' s' => payload_good size h sh uh d s2 o d' s' ltac:(lia) G) as GO. destruct (payload P size h sh uh d s2) as [[[o d'] s3]| |]; auto. destruct S as (D3 & P3). cbv beta.
        specialize (GO o d' s3 eq_refl).
        rewrite (bind_ok _ _ _ _ _ (eq_refl : get s3 = Ok (s3, s3))). cbv zeta. rewrite bind_eq.
        match goal with |- match match ?m s3 with _ => _ end with _ => _ end => assert (C : calm m) end.
        { apply calm_if; [apply safe_calm, safe_TrailingBits|apply calm_ret]. }
        specialize (C s3 ltac:(lia)).
        match goal with |- match match ?x with _ => _ end with _ => _ end => destruct x as [[r' s4]| |]; auto end.
        destruct C as (D4 & P4). cbn. split; [congruence|]. split; [lia|exact GO]. }
    rewrite bind_eq. destruct (HasSizeField h).
    - pose proof (safe_Leb128 s1 ltac:(lia)) as S. destruct (Leb128 s1) as [[size s2]| |] eqn:El; auto.
      destruct S as (D2 & P2 & _). destruct (Leb128_inv s1 size s2 ltac:(lia) El) as (k & _ & _ & V & _).
      apply K; [congruence|lia|lia].
    - cbn [ret]. apply K; [exact D1|lia|lia].
  Qed.
  Definition fineg (s : bs) (r : res (Parser P * bs)) : Prop :=
    match r with Ok (p, s') => Data s' = Data s /\ Position s <= Position s' /\ good_sh (PSH p) | Panic => True | Hang => False end.
  Lemma keep_good (p : Parser P) o : good_sh (PSH p) -> good_sh (ObuSH o) -> good_sh (PSH (keep p o)).
  Proof. intros A B. unfold keep. cbn [PSH]. destruct (_ =? _); assumption. Qed.
  Lemma fineg_frameUnit : forall fuel sz d p s, good_sh (PSH p) -> 0 <= Position s -> enough fuel s -> fineg s (frameUnit_loop P fuel sz d p s).
  Proof.
    induction fuel as [|f IH]; intros sz d p s G H0 Hf; cbn [frameUnit_loop];
      destruct (0 <? sz); try (cbn; split; [reflexivity|split; [lia|exact G]]).
    - destruct Hf; lia.
    - rewrite bind_eq. pose proof (Leb128_step s H0) as L. destruct (Leb128 s) as [[v s1]| |]; auto.
      destruct L as (D1 & P1 & Q1 & V). cbv beta. rewrite (bind_ok _ _ _ _ _ (eq_refl : get s1 = Ok (s1, s1))).
      rewrite bind_eq. pose proof (obu_good v d (PSH p) (PUH p) s1 V G ltac:(lia)) as C.
      destruct (NewObu P v d (PSH p) (PUH p) s1) as [[[o d1] s2]| |]; auto. destruct C as (D2 & P2 & GO). cbv beta.
      pose proof (IH (sz - Leb128Bytes s1 - v) d1 (keep p o) s2 (keep_good _ _ G GO) ltac:(lia)) as Q.
      pose proof (enough_step _ _ _ Hf D1 P1 Q1) as E1.
      specialize (Q (enough_mono _ _ _ E1 D2 P2)). unfold fineg in *.
      destruct (frameUnit_loop _ _ _ _ _ s2) as [[p' s']| |]; auto. destruct Q as (D3 & P3 & Q3). split; [congruence|]. split; [lia|exact Q3].
  Qed.
  Lemma fineg_temporalUnit : forall fuel sz p s, good_sh (PSH p) -> 0 <= Position s -> enough fuel s -> fineg s (temporalUnit P fuel sz p s).
  Proof.
    induction fuel as [|f IH]; intros sz p s G H0 Hf; cbn [temporalUnit];
      destruct (0 <? sz); try (cbn; split; [reflexivity|split; [lia|exact G]]).
    - destruct Hf; lia.
    - rewrite bind_eq. pose proof (Leb128_step s H0) as L. destruct (Leb128 s) as [[v s1]| |]; auto.
      destruct L as (D1 & P1 & Q1 & V). cbv beta. rewrite (bind_ok _ _ _ _ _ (eq_refl : get s1 = Ok (s1, s1))).
      pose proof (enough_step _ _ _ Hf D1 P1 Q1) as E1.
      rewrite bind_eq. pose proof (fineg_frameUnit f v (zeroState P) p s1 G ltac:(lia) E1) as C. unfold frameUnit.
      destruct (frameUnit_loop P f v _ p s1) as [[p1 s2]| |]; auto. destruct C as (D2 & P2 & G2). cbv beta.
      pose proof (IH (sz - Leb128Bytes s1 - v) p1 s2 G2 ltac:(lia) (enough_mono _ _ _ E1 D2 P2)) as Q. unfold fineg in *.
      destruct (temporalUnit _ _ _ _ s2) as [[p' s']| |]; auto. destruct Q as (D3 & P3 & Q3). split; [congruence|]. split; [lia|exact Q3].
  Qed.
  Lemma fineg_bitstream : forall fuel p s, good_sh (PSH p) -> 0 <= Position s -> enough fuel s -> fineg s (bitstream_loop P fuel p s).
  Proof.
    induction fuel as [|f IH]; intros p s G H0 Hf; cbn [bitstream_loop];
      rewrite (bind_ok _ _ _ _ _ (eq_refl : get s = Ok (s, s)));
      destruct (MoreDataInBitstream s); try (cbn; split; [reflexivity|split; [lia|exact G]]).
    - destruct Hf; lia.
    - rewrite bind_eq. pose proof (Leb128_step s H0) as L. destruct (Leb128 s) as [[v s1]| |]; auto.
      destruct L as (D1 & P1 & Q1 & V). cbv beta.
      pose proof (enough_step _ _ _ Hf D1 P1 Q1) as E1.
      rewrite bind_eq. pose proof (fineg_temporalUnit f v p s1 G ltac:(lia) E1) as C.
      destruct (temporalUnit P f v p s1) as [[p1 s2]| |]; auto. destruct C as (D2 & P2 & G2). cbv beta.
      pose proof (IH p1 s2 G2 ltac:(lia) (enough_mono _ _ _ E1 D2 P2)) as Q. unfold fineg in *.
      destruct (bitstream_loop _ _ _ s2) as [[p' s']| |]; auto. destruct Q as (D3 & P3 & Q3). split; [congruence|]. split; [lia|exact Q3].
  Qed.
End Parse.

(** C160.  For every input, reading the whole stream - temporal units, frame units, OBUs, frame headers, tile groups, tiles, superblocks and partitions - ends after finitely many steps
    (Hang is the outcome of a loop that does not end), provided the readers of syntax elements, the decoding of one block and the end of a frame do.  Missing: the last is false for some
    blocks (C100_termination_refuted). *)
Theorem C160_terminates_partial : forall P K0 K data, terminating_parts P K0 K -> parse (decoder P) data <> Hang.
Proof.
  intros P K0 K data HP. unfold parse.
  pose proof (fineg_bitstream (decoder P) (fun h sh d G => calm_header P sh d G) (fun sz uh sh d => calm_group P K0 K HP sz uh sh d)
    (length data + 3) (NewParser (decoder P)) (NewBitStream data) good_zeroSH) as F.
  assert (E : enough (length data + 3) (NewBitStream data)) by (unfold enough, zlen; cbn; lia).
  specialize (F ltac:(cbn; lia) E). destruct (bitstream_loop _ _ _ _) as [[p s]| |]; [discriminate|discriminate|contradiction].
Qed.
Print Assumptions C160_terminates_partial.

(** A decoder whose partitions are coded with a CDF that adapts, and whose blocks are one bit each. *)
Definition four : list Z := [8192; 16384; 24576; 32768; 0].
Definition read_partition {A B C} (_ : A) (_ : B) (_ : C) (_ _ _ : Z) (_ _ : bool) : M (@TS (list Z)) Z := fun s =>
  match ReadSymbol false (xOther (snd s)) (fst s) with
  | Ok (v, c, d) => let x := snd s in Ok (v, (d, mkTileCtx (xAbove x) (xLeft x) (xDeltaLF x) (xSgr x) (xWiener x) (xReadDeltas x) (xCdef x) (xDecoded x) c))
  | Panic => Panic | Hang => Hang end.
Definition read_block {A B C D} (_ : A) (_ : B) (_ : C) (_ : D) (_ _ _ : Z) : M (@TS (list Z)) unit := fun s =>
  match ReadSymbol false [16384; 32768; 0] (fst s) with Ok (_, d) => Ok (tt, (d, snd s)) | Panic => Panic | Hang => Hang end.
Definition coded_parts : parts := mkParts unit (list Z) (list Z) tt [] (fun _ y => y)
  (fun _ _ _ => mkTileCtx ([], [], []) ([], [], []) [0; 0; 0; 0] (repeat [0; 0] 3) (repeat [[0; 0; 0]; [0; 0; 0]] 3) false nilslice (repeat (repeat (repeat false 35) 35) 3) four)
  (fun _ sh => mkTileEnv false 3 true true false) (fun x => x) (fun _ _ x => x)
  (fun _ _ _ _ _ _ => ret tt) read_partition read_partition read_partition read_block (fun _ _ => ret tt)
  (fun _ d g => (xOther (gRest g), (sHeader d, sRest d))).
Definition usable_cdf (c : list Z) : Prop := valid_cdf c /\ length c = 5%nat.
Lemma valid_four : usable_cdf four. Proof. split; [|reflexivity]. apply valid_cdfb_spec. reflexivity. Qed.
Lemma read_partition_steady {A B C} (a : A) (b : B) (c : C) x y z u v : steady tile_pos (tile_inv usable_cdf) (read_partition a b c x y z u v).
Proof.
  intros s P (I & R & V & L). unfold read_partition. pose proof (ReadSymbol_regs false _ _ V R P) as H. unfold tile_pos, tile_inv in *. destruct (ReadSymbol _ _ _) as [[[t c'] d]| |]; auto.
  destruct H as (_ & V' & L' & R' & D1 & P1). cbn in *. split; [exact D1|]. split; [exact P1|]. split; [exact I|]. split; [exact R'|]. split; [exact V'|congruence].
Qed.
Lemma read_block_steady {A B C D} (a : A) (b : B) (c : C) (e : D) x y z : steady tile_pos (tile_inv usable_cdf) (read_block a b c e x y z).
Proof.
  intros s P (I & R & V). unfold read_block. pose proof (ReadSymbol_regs false _ _ valid_bool_cdf R P) as H. unfold tile_pos, tile_inv in *. destruct (ReadSymbol _ _ _) as [[[t c'] d]| |]; auto.
  destruct H as (_ & _ & _ & R' & D1 & P1). cbn in *. split; [exact D1|]. split; [exact P1|]. auto.
Qed.
Lemma coded_terminate : terminating_parts coded_parts (fun x => usable_cdf (xOther x)) usable_cdf.
Proof.
  unfold terminating_parts. cbn [coded_parts pLr pPart pHorz pVert pBlock pEnd pLoad pSave pEnter Decoder.X xCdef xOther].
  split; [intros; apply st_ret|]. split; [intros; apply read_partition_steady|]. split; [intros; apply read_partition_steady|]. split; [intros; apply read_partition_steady|].
  split; [intros; apply read_block_steady|]. split; [intros; apply st_ret|]. split; [auto|]. split; [auto|]. intros. split; [|exact valid_four].
  split; [unfold a_slice, zlen; cbn; lia|constructor].
Qed.
(** One temporal unit: a temporal delimiter, a sequence header and a frame of 2 + n bytes; the tables of the tile group and the position are the result. *)
Definition case_stream (tail : list Z) : list Z := let n := zlen tail in
  [17 + n; 16 + n; 2; 18; 0; 7; 10; 5; 0x18; 0; 0; 0; 0x20; 4 + n; 50; 2 + n; 0; 0] ++ tail.
Definition case_result (data : list Z) := match parse (decoder coded_parts) data with Ok (l, s) => Ok (map (fun o : Obu (decoder coded_parts) => (Type_ (Hdr o), ObuTG o)) l, Position s, zlen data) | Panic => Panic | Hang => Hang end.
Example C160_case :
  terminating_parts coded_parts (fun x => usable_cdf (xOther x)) usable_cdf /\
  case_result (case_stream [0; 50; 128; 0]) = Ok ([(2, []); (1, []); (6, [8960; 16896; 24832; 32768; 1])], 176, 22) /\
  case_result (case_stream [0; 255; 128; 0]) = Ok ([(2, []); (1, []); (6, [7936; 15872; 23808; 32768; 1])], 176, 22) /\
  case_result (firstn 20 (case_stream [0; 50; 128; 0])) = Panic.
Proof. split; [exact coded_terminate|]. vm_compute. auto. Qed.
