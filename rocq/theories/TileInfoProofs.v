From Verif Require Import GoBase Bitstream SpecBits SpecStream BitstreamProofs ReaderOps Parses SafeParse Yields Util UtilProofs
  Constants SymbolProofs TileInfo SpecTiles.

Lemma start_upd_same l i v : 0 <= i < zlen l -> start (upd_nat l (Z.to_nat i) v) i = v.
Proof. intros H. unfold start. apply nth_upd_nat_same. unfold zlen in H. lia. Qed.
Lemma start_upd_other l i j v : 0 <= i -> 0 <= j -> i <> j -> start (upd_nat l (Z.to_nat i) v) j = start l j.
Proof. intros Hi Hj H. unfold start. apply nth_upd_nat_other. lia. Qed.

(** Strictly increasing starts from 0 to total partition. *)
Lemma increasing_partitions l n total align :
  1 <= n < zlen l -> start l 0 = 0 -> start l n = total ->
  (forall j, 0 <= j < n -> start l j < start l (j + 1) /\ start l j mod align = 0) -> partitions l n total align.
Proof.
  intros Hn H0 Hl Hs. unfold partitions. fold (zlen l). repeat (split; [first [lia|assumption]|]).
  assert (Mono : forall i j, 0 <= i <= j -> j <= n -> start l i <= start l j).
  { intros i j [Hi Hij] Hj. revert Hj. pattern j. revert j Hij. apply Zlt_lower_bound_ind.
    intros j IH Hij Hj. destruct (Z.eq_dec i j) as [->|]; [lia|].
    pose proof (IH (j - 1) ltac:(lia) ltac:(lia)). destruct (Hs (j - 1) ltac:(lia)) as [A _]. replace (j - 1 + 1) with j in A by lia. lia. }
  intros x Hx.
  assert (Ex : forall m, 0 <= m -> m <= n -> x < start l m -> exists j, 0 <= j < m /\ start l j <= x < start l (j + 1)).
  { intros m Hm. pattern m. revert m Hm. apply natlike_ind; [intros _ HH; lia|].
    intros m Hm IH Hmn HH. destruct (Z_lt_le_dec x (start l m)) as [Hc|Hc].
    - destruct (IH ltac:(lia) Hc) as (j & Hj & Hjx). exists j. split; [lia|exact Hjx].
    - exists m. split; [lia|]. replace (m + 1) with (Z.succ m) by lia. lia. }
  destruct (Ex n ltac:(lia) ltac:(lia) ltac:(lia)) as (j & Hj & Hjx). exists j. split; [exact Hj|]. split; [exact Hjx|].
  intros k Hk Hkx. destruct (Z.lt_trichotomy j k) as [H|[H|H]]; [|congruence|].
  - pose proof (Mono (j + 1) k ltac:(lia) ltac:(lia)). lia.
  - pose proof (Mono (k + 1) j ltac:(lia) ltac:(lia)). lia.
Qed.

(** State of a start-filling loop: i tiles so far, next one at startSb. *)
Definition filled (arr : list Z) (len i startSb shift sb : Z) : Prop :=
  zlen arr = len /\ 0 <= i <= startSb /\ (i = 0 -> startSb = 0) /\
  (0 < i -> start arr 0 = 0) /\
  (forall j, 0 <= j < i -> start arr j mod 2 ^ shift = 0 /\
     (if j + 1 =? i then start arr j < startSb * 2 ^ shift /\ start arr j < sb * 2 ^ shift /\ start arr j <= (sb - 1) * 2 ^ shift
      else start arr j < start arr (j + 1))).

Lemma filled_step arr len i startSb size shift sb : 0 <= shift <= 5 -> 0 <= startSb < sb -> sb < 2 ^ 50 -> 1 <= size -> i < len ->
  filled arr len i startSb shift sb ->
  filled (upd_nat arr (Z.to_nat i) (shl startSb shift)) len (i + 1) (startSb + size) shift sb.
Proof.
  intros Hsh Hst Hsb Hsz Hil (HL & Hi & H0 & Hz & Hj).
  pose proof (pow2_pos shift ltac:(lia)) as PP. assert (P5 : 2 ^ shift <= 2 ^ 5) by (apply Z.pow_le_mono_r; lia). change (2 ^ 5) with 32 in P5.
  assert (E : shl startSb shift = startSb * 2 ^ shift) by (apply shl_small; nia).
  rewrite E. unfold filled. rewrite zlen_upd_nat. split; [exact HL|]. split; [lia|]. split; [lia|]. split.
  - intros _. destruct (Z.eq_dec i 0) as [->|].
    + rewrite start_upd_same by lia. rewrite H0 by lia. lia.
    + rewrite start_upd_other by lia. apply Hz. lia.
  - intros j Hjr. destruct (Z.eqb_spec (j + 1) (i + 1)) as [E1|E1].
    + assert (j = i) by lia. subst j. rewrite start_upd_same by lia. split; [apply Z.mod_mul; lia|]. nia.
    + rewrite start_upd_other by lia. destruct (Hj j ltac:(lia)) as [Hm Hb]. split; [exact Hm|].
      destruct (Z.eqb_spec (j + 1) i) as [E2|E2].
      * rewrite E2, start_upd_same by lia. lia.
      * rewrite start_upd_other by lia. exact Hb.
Qed.

Lemma uniform_starts_spec fuel : forall sb size shift startSb i arr, 0 <= shift <= 5 -> 0 < sb < 2 ^ 50 -> 1 <= size ->
  0 <= startSb -> filled arr (sb + 1) i startSb shift sb -> sb - startSb < Z.of_nat fuel ->
  (0 < sb - startSb -> i <= sb - 1) -> startSb = i * size ->
  exists arr' i' st', uniform_starts fuel sb size shift startSb i arr = Ok (arr', i') /\
    filled arr' (sb + 1) i' st' shift sb /\ sb <= st' /\ i' <= Z.max i sb /\ st' = i' * size /\ (i < i' -> st' < sb + size).
Proof.
  induction fuel as [|f IH]; intros sb size shift startSb i arr Hsh Hsb Hsz H0 HF Hf Hi Heq; cbn [uniform_starts].
  - destruct (Z.ltb_spec startSb sb); [lia|]. exists arr, i, startSb. split; [reflexivity|]. split; [exact HF|]. split; [lia|]. split; [lia|]. split; [exact Heq|]. lia.
  - destruct (Z.ltb_spec startSb sb) as [Hlt|Hge].
    + rewrite upd_ok by (destruct HF as (HL & ? & _); lia). cbn [rbind].
      pose proof (filled_step arr (sb + 1) i startSb size shift sb Hsh ltac:(lia) ltac:(lia) Hsz ltac:(lia) HF) as HF'.
      destruct (IH sb size shift (startSb + size) (i + 1) _ Hsh Hsb Hsz ltac:(lia) HF' ltac:(lia)) as (arr' & i' & st' & E & A & B & C & G & K).
      * intros. nia.
      * nia.
      * exists arr', i', st'. split; [exact E|]. split; [exact A|]. split; [exact B|]. split; [nia|]. split; [exact G|].
        intros _. destruct (Z_lt_le_dec (i + 1) i') as [Q|Q]; [apply K; exact Q|].
        assert (i' = i + 1). { destruct A as (_ & ? & _). nia. } nia.
    + exists arr, i, startSb. split; [reflexivity|]. split; [exact HF|]. split; [lia|]. split; [lia|]. split; [exact Heq|]. lia.
Qed.

Lemma filled_final arr sb i st shift total : 0 <= shift -> 0 < sb ->
  filled arr (sb + 1) i st shift sb -> sb <= st -> i <= sb -> (sb - 1) * 2 ^ shift < total ->
  exists arr', upd arr i total = Ok arr' /\ partitions arr' i total (2 ^ shift).
Proof.
  intros Hsh Hsb (HL & Hi & H0 & Hz & Hj) Hst Hisb Ht.
  assert (Hi1 : 1 <= i) by (destruct (Z.eq_dec i 0); [rewrite H0 in Hst by lia; lia|lia]).
  rewrite upd_ok by lia. eexists. split; [reflexivity|]. apply increasing_partitions.
  - rewrite zlen_upd_nat. lia.
  - rewrite start_upd_other by lia. apply Hz. lia.
  - apply start_upd_same. lia.
  - intros j Hjr. rewrite start_upd_other by lia. destruct (Hj j ltac:(lia)) as [Hm Hb]. split; [|exact Hm].
    destruct (Z.eqb_spec (j + 1) i) as [E|E].
    + rewrite E, start_upd_same by lia. lia.
    + rewrite start_upd_other by lia. exact Hb.
Qed.

(** Both at once: never loops, and what it returns satisfies P. *)
Definition good {A} (m : BS A) (P : A -> Prop) : Prop := safe m /\ yields m P.
Lemma g_bind {A B} (m : BS A) (k : A -> BS B) Q P : good m Q -> (forall a, Q a -> good (k a) P) -> good (bind m k) P.
Proof.
  intros [S Y] K. split.
  - apply (safe_bind_post Q); [exact S| |intros a Ha; apply (K a Ha)].
    intros s a s' H E. apply (Y s a s' H E).
  - eapply y_bind; [exact Y|]. intros a Ha. apply (K a Ha).
Qed.
Lemma g_weaken {A} (m : BS A) (Q P : A -> Prop) : good m Q -> (forall a, Q a -> P a) -> good m P.
Proof. intros [S Y] H. split; [exact S|]. eapply y_weaken; eauto. Qed.
Lemma g_ret {A} (a : A) (P : A -> Prop) : P a -> good (ret a) P.
Proof. intros H. split; [apply safe_ret|apply y_ret; exact H]. Qed.
Lemma g_panic {A} (P : A -> Prop) : good panic P.
Proof. split; [apply safe_panic|apply y_panic]. Qed.
Lemma g_get (P : bs -> Prop) : (forall s, P s) -> good get P.
Proof. intros H. split; [apply safe_get|apply y_get; intros; apply H]. Qed.
Lemma g_lift {A} (r : res A) (P : A -> Prop) : r <> Hang -> (forall a, r = Ok a -> P a) -> good (lift r) P.
Proof. intros H K. split; [apply safe_lift; exact H|apply y_lift; exact K]. Qed.
Lemma g_lift_ok {A} (a : A) (P : A -> Prop) : P a -> good (lift (Ok a)) P.
Proof. intros H. apply g_lift; [discriminate|]. intros b [= <-]. exact H. Qed.
Lemma g_Fbool : good Fbool (fun _ => True).
Proof. split; [apply safe_Fbool|apply y_Fbool]. Qed.
Lemma g_F n : 0 <= n <= 63 -> good (F n) (fun v => 0 <= v < 2 ^ n).
Proof. intros H. split; [apply safe_F|apply y_F; exact H]. Qed.
Lemma g_Su n : 1 <= n <= 62 -> good (Su n) (fun v => - 2 ^ (n - 1) <= v < 2 ^ (n - 1)).
Proof. intros H. split; [apply safe_Su|apply y_Su; exact H]. Qed.
Lemma g_Ns n : 0 < n < 2 ^ 62 -> good (Ns n) (fun v => 0 <= v < n).
Proof. intros H. split; [apply safe_Ns; lia|apply y_Ns; exact H]. Qed.
Lemma g_if {A} (b : bool) (m k : BS A) P : (b = true -> good m P) -> (b = false -> good k P) -> good (if b then m else k) P.
Proof. destruct b; auto. Qed.

Lemma explicit_starts_spec fuel : forall sb maxSize shift startSb i widest arr, 0 <= shift <= 5 -> 0 < sb < 2 ^ 50 -> 1 <= maxSize ->
  0 <= startSb -> filled arr (sb + 1) i startSb shift sb -> startSb <= sb -> sb - startSb < Z.of_nat fuel -> 0 <= widest -> (0 < i -> 1 <= widest) ->
  good (explicit_starts fuel sb maxSize shift startSb i widest arr)
    (fun r => let '(arr', i', w) := r in filled arr' (sb + 1) i' sb shift sb /\ i' <= sb /\ 1 <= w).
Proof.
  induction fuel as [|f IH]; intros sb maxSize shift startSb i widest arr Hsh Hsb Hmx H0 HF Hle Hf Hw Hw1.
  { lia. }
  cbn [explicit_starts]. destruct (Z.ltb_spec startSb sb) as [Hlt|Hge].
  - assert (Hu : upd arr i (shl startSb shift) = Ok (upd_nat arr (Z.to_nat i) (shl startSb shift))) by (apply upd_ok; destruct HF as (HL & ? & _); lia).
    rewrite Hu. rewrite Min_min.
    set (mx := Z.min (sb - startSb) maxSize). assert (Hmx1 : 0 < mx < 2 ^ 62) by (unfold mx; lia).
    assert (Step : forall v, 0 <= v < mx -> filled (upd_nat arr (Z.to_nat i) (shl startSb shift)) (sb + 1) (i + 1) (startSb + (v + 1)) shift sb).
    { intros v Hv. apply filled_step; try lia. destruct HF as (_ & ? & _). lia. exact HF. }
    eapply g_bind with (Q := fun a => a = upd_nat arr (Z.to_nat i) (shl startSb shift)); [apply g_lift_ok; reflexivity|].
    intros a ->. eapply g_bind; [apply (g_Ns mx Hmx1)|]. intros v Hv. cbv beta zeta in *. rewrite Max_max.
    apply (IH sb maxSize shift (startSb + (v + 1)) (i + 1) (Z.max (v + 1) widest) _ Hsh Hsb Hmx ltac:(lia) (Step v Hv)); try lia; unfold mx in *; lia.
  - assert (startSb = sb) by lia. subst startSb. apply g_ret. split; [exact HF|].
    destruct HF as (_ & ? & ? & _). split; [lia|]. apply Hw1. lia.
Qed.

Lemma make_zeros_filled sb shift : 0 < sb -> exists a, make_zeros (sb + 1) = Ok a /\ filled a (sb + 1) 0 0 shift sb.
Proof.
  intros H. unfold make_zeros. destruct (Z.ltb_spec (sb + 1) 0); [lia|]. eexists. split; [reflexivity|].
  unfold filled. split; [unfold zlen; rewrite repeat_length; lia|]. repeat split; lia.
Qed.

(** Bits for the columns. *)
Lemma incr_cols_spec n : forall log2, yields (incr_cols n log2) (fun r => log2 <= r <= log2 + Z.of_nat n).
Proof.
  induction n as [|n IH]; intros log2; cbn [incr_cols].
  - apply y_ret. lia.
  - eapply y_bind; [apply y_Fbool|]. intros b _. destruct b.
    + eapply y_weaken; [apply IH|]. cbv beta. intros; lia.
    + apply y_ret. lia.
Qed.
Lemma incr_cols_safe n : forall log2, safe (incr_cols n log2).
Proof. induction n as [|n IH]; intros log2; cbn [incr_cols]; safet. apply IH. Qed.

Lemma incr_cols_good n log2 : good (incr_cols n log2) (fun r => log2 <= r <= log2 + Z.of_nat n).
Proof. split; [apply incr_cols_safe|apply incr_cols_spec]. Qed.

Lemma TileLog2_min blk target r : 1 <= blk < 2 ^ 62 -> target <= 2 ^ 62 -> TileLog2 blk target = Ok r ->
  0 <= r /\ target <= blk * 2 ^ r /\ (forall j, 0 <= j -> target <= blk * 2 ^ j -> r <= j).
Proof.
  intros Hb Ht E. destruct (TileLog2_spec blk target Hb Ht) as (r' & E' & A & B & C). rewrite E in E'. injection E' as <-.
  split; [exact A|]. split; [exact B|]. intros j Hj HH. destruct (Z_le_gt_dec r j) as [|G]; [assumption|].
  specialize (C j ltac:(lia)). lia.
Qed.
Lemma g_TileLog2 blk target : 1 <= blk < 2 ^ 62 -> target <= 2 ^ 62 ->
  good (lift (TileLog2 blk target)) (fun r => 0 <= r /\ target <= blk * 2 ^ r /\ (forall j, 0 <= j -> target <= blk * 2 ^ j -> r <= j)).
Proof.
  intros Hb Ht. apply g_lift.
  - destruct (TileLog2_spec blk target Hb Ht) as (r' & E' & _). rewrite E'. discriminate.
  - intros a. apply TileLog2_min; assumption.
Qed.

Lemma filled_final' arr sb i st shift total : 0 <= shift -> 0 < sb ->
  filled arr (sb + 1) i st shift sb -> sb <= st -> i <= sb ->
  exists arr', upd arr i total = Ok arr' /\ ((sb - 1) * 2 ^ shift < total -> partitions arr' i total (2 ^ shift)) /\ 1 <= i.
Proof.
  intros Hsh Hsb HF Hst Hisb. pose proof HF as (HL & Hi & H0 & Hz & Hj).
  assert (Hi1 : 1 <= i) by (destruct (Z.eq_dec i 0); [rewrite H0 in Hst by lia; lia|lia]).
  assert (Hu : upd arr i total = Ok (upd_nat arr (Z.to_nat i) total)) by (apply upd_ok; lia).
  eexists. split; [exact Hu|]. split; [|exact Hi1]. intros Ht.
  destruct (filled_final arr sb i st shift total Hsh Hsb HF Hst Hisb Ht) as (a & E1 & E2). rewrite Hu in E1. injection E1 as <-. exact E2.
Qed.

Lemma uniform_good sb log2 shift total arr : 0 <= shift <= 5 -> 0 < sb <= 4096 -> 0 <= log2 <= 20 ->
  filled arr (sb + 1) 0 0 shift sb ->
  exists c cs, uniform_starts (Z.to_nat sb + 2) sb (shr (sb + shl 1 log2 - 1) log2) shift 0 0 arr = Ok c /\
    upd (fst c) (snd c) total = Ok cs /\ ((sb - 1) * 2 ^ shift < total -> partitions cs (snd c) total (2 ^ shift)) /\ 1 <= snd c <= 2 ^ log2.
Proof.
  intros Hsh Hsb Hl HF.
  pose proof (pow2_pos log2 ltac:(lia)) as PP. assert (P5 : 2 ^ log2 <= 2 ^ 20) by (apply Z.pow_le_mono_r; lia). change (2 ^ 20) with 1048576 in P5.
  assert (E : shl 1 log2 = 2 ^ log2). { rewrite shl_small by lia. lia. }
  rewrite E, shr_div by lia. set (size := (sb + 2 ^ log2 - 1) / 2 ^ log2).
  pose proof (Z.div_mod (sb + 2 ^ log2 - 1) (2 ^ log2) ltac:(lia)) as DM. fold size in DM.
  pose proof (Z.mod_pos_bound (sb + 2 ^ log2 - 1) (2 ^ log2) ltac:(lia)) as MB.
  assert (Hsz : 1 <= size) by nia.
  destruct (uniform_starts_spec (Z.to_nat sb + 2) sb size shift 0 0 arr Hsh ltac:(lia) Hsz ltac:(lia) HF ltac:(lia) ltac:(lia) ltac:(lia))
    as (arr' & i' & st' & EQ & A & B & C & G & K).
  rewrite EQ. exists (arr', i'). cbn [fst snd].
  destruct (filled_final' arr' sb i' st' shift total ltac:(lia) ltac:(lia) A B ltac:(lia)) as (cs & E1 & E2 & E3).
  exists cs. split; [reflexivity|]. split; [exact E1|]. split; [exact E2|].
  assert (Hi : 0 < i') by lia. specialize (K Hi).
  (* st' = i' * size < sb + size, sb <= 2^log2 * size *)
  nia.
Qed.

(** What every successful tile_info() satisfies.  With 64x64 superblocks: the tiles partition the frame. *)
Definition tiles_ok (use128 : bool) (MiCols MiRows old : Z) (t : Tiles) : Prop :=
  (use128 = false -> partitions (MiColStarts t) (TileCols t) MiCols 16 /\ partitions (MiRowStarts t) (TileRows t) MiRows 16) /\
  1 <= TileCols t /\ 1 <= TileRows t /\
  0 <= TileColsLog2 t <= 20 /\ 0 <= TileRowsLog2 t <= 20 /\
  TileCols t <= 2 ^ TileColsLog2 t /\ TileRows t <= 2 ^ TileRowsLog2 t /\
  0 <= ContextUpdateTileId t < 2 ^ (TileRowsLog2 t + TileColsLog2 t) /\
  (TileSizeBytes t = old \/ 1 <= TileSizeBytes t <= 4) /\
  (0 < TileColsLog2 t + TileRowsLog2 t -> 1 <= TileSizeBytes t <= 4).

Lemma NewTileInfo_good use128 MiCols MiRows old : 0 < MiCols <= 16384 -> 0 < MiRows <= 16384 ->
  good (NewTileInfo use128 MiCols MiRows old) (tiles_ok use128 MiCols MiRows old).
Proof.
  intros Hc Hr. unfold NewTileInfo. cbv beta zeta.
  set (sft := if use128 then 5 else 4).
  rewrite !shr_div by (unfold sft; destruct use128; lia). change (2 ^ 4) with 16. change (2 ^ 5) with 32.
  set (sbC := if use128 then (MiRows + 31) / 32 else (MiCols + 15) / 16). set (sbR := (MiRows + 15) / 16).
  set (mw := MAX_TILE_WIDTH / 2 ^ (sft + 2)). set (ma := MAX_TILE_AREA / 2 ^ (2 * (sft + 2))).
  assert (Hmw : mw = if use128 then 32 else 64) by (unfold mw, sft; destruct use128; reflexivity).
  assert (Hma : ma = if use128 then 576 else 2304) by (unfold ma, sft; destruct use128; reflexivity).
  assert (Hsft : 4 <= sft <= 5) by (unfold sft; destruct use128; lia).
  pose proof (Z.div_mod (MiRows + 15) 16 ltac:(lia)) as D2. pose proof (Z.mod_pos_bound (MiRows + 15) 16 ltac:(lia)) as B2. fold sbR in D2.
  assert (HsC : 0 < sbC <= 1024 /\ (use128 = false -> (sbC - 1) * 2 ^ sft < MiCols) /\ (use128 = true -> sbC <= 512)).
  { unfold sbC, sft. destruct use128.
    - pose proof (Z.div_mod (MiRows + 31) 32 ltac:(lia)). pose proof (Z.mod_pos_bound (MiRows + 31) 32 ltac:(lia)). split; [lia|]. split; [discriminate|lia].
    - pose proof (Z.div_mod (MiCols + 15) 16 ltac:(lia)). pose proof (Z.mod_pos_bound (MiCols + 15) 16 ltac:(lia)). split; [lia|]. split; [change (2 ^ 4) with 16; lia|discriminate]. }
  destruct HsC as (HsC & HcolT & Hc512).
  assert (HsR : 0 < sbR <= 1024) by lia.
  assert (HrowT : use128 = false -> (sbR - 1) * 2 ^ sft < MiRows) by (intros ->; unfold sft; change (2 ^ 4) with 16; lia).
  assert (Hsft64 : use128 = false -> 2 ^ sft = 16) by (intros ->; reflexivity).
  clearbody sbC sbR sft mw ma.
  destruct (make_zeros_filled sbC sft ltac:(lia)) as (ac & Eac & Fac). destruct (make_zeros_filled sbR sft ltac:(lia)) as (ar & Ear & Far).
  rewrite Eac, Ear.
  eapply g_bind with (Q := fun a => a = ac); [apply g_lift_ok; reflexivity|]. intros a ->.
  eapply g_bind with (Q := fun a => a = ar); [apply g_lift_ok; reflexivity|]. intros a ->.
  rewrite !Min_min. change MAX_TILE_COLS with 64. change MAX_TILE_ROWS with 64.
  assert (Hmw2 : 32 <= mw <= 64) by (rewrite Hmw; destruct use128; lia).
  assert (Hma2 : 576 <= ma <= 2304) by (rewrite Hma; destruct use128; lia).
  eapply g_bind; [apply g_TileLog2; lia|]. intros minC (mc0 & mc1 & mc2).
  eapply g_bind; [apply g_TileLog2; lia|]. intros maxC (xc0 & xc1 & xc2).
  eapply g_bind; [apply g_TileLog2; lia|]. intros maxR (xr0 & xr1 & xr2).
  eapply g_bind; [apply g_TileLog2; nia|]. intros ar2 (aa0 & aa1 & aa2).
  rewrite !Max_max.
  assert (minC <= 5) by (apply mc2; [lia|change (2 ^ 5) with 32; lia]).
  assert (maxC <= 6) by (apply xc2; [lia|change (2 ^ 6) with 64; lia]).
  assert (ar2 <= 12) by (apply aa2; [lia|change (2 ^ 12) with 4096; nia]).
  eapply g_bind; [apply g_Fbool|]. intros uniform _.
  eapply g_bind with (Q := fun t => (use128 = false -> partitions (MiColStarts t) (TileCols t) MiCols 16 /\ partitions (MiRowStarts t) (TileRows t) MiRows 16) /\
              1 <= TileCols t /\ 1 <= TileRows t /\
              0 <= TileColsLog2 t <= 20 /\ 0 <= TileRowsLog2 t <= 20 /\ TileCols t <= 2 ^ TileColsLog2 t /\ TileRows t <= 2 ^ TileRowsLog2 t /\
              ContextUpdateTileId t = 0 /\ TileSizeBytes t = old).
  - apply g_if; intros _.
    + eapply g_bind; [apply incr_cols_good|]. intros cl Hcl. cbv beta in Hcl.
      assert (Hcl2 : minC <= cl <= 6) by lia.
      destruct (uniform_good sbC cl sft MiCols ac ltac:(lia) ltac:(lia) ltac:(lia) Fac) as (c & cs & E1 & E2 & E3 & E4).
      rewrite E1. eapply g_bind with (Q := fun a => a = c); [apply g_lift_ok; reflexivity|]. intros a ->.
      rewrite E2. eapply g_bind with (Q := fun a => a = cs); [apply g_lift_ok; reflexivity|]. intros a ->.
      eapply g_bind; [apply (g_get (fun _ => True)); auto|]. intros s0 _.
      set (rl := Z.max (Z.max minC ar2 - cl) 0). assert (Hrl : 0 <= rl <= 12) by (unfold rl; lia).
      assert (Hrx : rl <= maxR).
      { unfold rl. assert (ar2 <= cl + maxR); [|lia]. apply aa2; [lia|]. rewrite Z.pow_add_r by lia.
        assert (HC : sbC <= mw * 2 ^ cl) by (pose proof (Z.pow_le_mono_r 2 minC cl ltac:(lia) ltac:(lia)); nia).
        assert (HR : sbR <= 16 * 2 ^ maxR) by lia.
        pose proof (pow2_pos cl ltac:(lia)). pose proof (pow2_pos maxR ltac:(lia)).
        assert (sbR * sbC <= (16 * 2 ^ maxR) * (mw * 2 ^ cl)) by (apply Z.mul_le_mono_nonneg; lia).
        assert (16 * mw <= ma) by (rewrite Hmw, Hma; destruct use128; lia).
        assert (0 <= 2 ^ cl * 2 ^ maxR) by nia. nia. }
      eapply g_bind with (Q := fun r => r = rl).
      { rewrite Max_max. fold rl. cbn [incr_rows]. destruct (Z.ltb_spec maxR rl); [lia|]. apply g_ret. reflexivity. }
      intros a ->.
      destruct (uniform_good sbR rl sft MiRows ar ltac:(lia) ltac:(lia) ltac:(lia) Far) as (r & rs & E5 & E6 & E7 & E8).
      rewrite E5. eapply g_bind with (Q := fun a => a = r); [apply g_lift_ok; reflexivity|]. intros a ->.
      rewrite E6. eapply g_bind with (Q := fun a => a = rs); [apply g_lift_ok; reflexivity|]. intros a ->.
      apply g_ret. cbn [MiColStarts MiRowStarts TileCols TileRows TileColsLog2 TileRowsLog2 ContextUpdateTileId TileSizeBytes].
      split; [intros U; rewrite <- (Hsft64 U); auto|]. split; [lia|]. split; [lia|]. split; [lia|]. split; [lia|]. split; [lia|]. split; [lia|]. auto.
    + eapply g_bind; [apply explicit_starts_spec; try lia; exact Fac|]. intros [[ca ci] w] (F1 & F2 & F3).
      destruct (filled_final' ca sbC ci sbC sft MiCols ltac:(lia) ltac:(lia) F1 ltac:(lia) F2) as (cs & E1 & E2 & ci1).
      rewrite E1. eapply g_bind with (Q := fun a => a = cs); [apply g_lift_ok; reflexivity|]. intros a ->.
      eapply g_bind; [apply g_TileLog2; lia|]. intros cl (cl0 & cl1 & cl2).
      assert (cl <= 10) by (apply cl2; [lia|change (2 ^ 10) with 1024; lia]).
      destruct (Z.eqb_spec w 0); [lia|]. rewrite Max_max.
      eapply g_bind; [apply explicit_starts_spec; try lia; exact Far|]. intros [[ra ri] w2] (G1 & G2 & G3).
      destruct (filled_final' ra sbR ri sbR sft MiRows ltac:(lia) ltac:(lia) G1 ltac:(lia) G2) as (rs & E3 & E4 & ri1).
      rewrite E3. eapply g_bind with (Q := fun a => a = rs); [apply g_lift_ok; reflexivity|]. intros a ->.
      eapply g_bind; [apply g_TileLog2; lia|]. intros rl (rl0 & rl1 & rl2).
      assert (rl <= 10) by (apply rl2; [lia|change (2 ^ 10) with 1024; lia]).
      apply g_ret. cbn [MiColStarts MiRowStarts TileCols TileRows TileColsLog2 TileRowsLog2 ContextUpdateTileId TileSizeBytes].
      split; [intros U; rewrite <- (Hsft64 U); auto|]. split; [lia|]. split; [lia|]. split; [lia|]. split; [lia|]. split; [lia|]. split; [lia|]. auto.
  - intros t (T1 & T1a & T1b & T3 & T4 & T5 & T6 & T7 & T8). unfold tiles_ok.
    apply g_if; intros Hb.
    + eapply g_bind; [apply g_F; lia|]. intros id Hid. eapply g_bind; [apply g_F; lia|]. intros n Hn. cbv beta in *. change (2 ^ 2) with 4 in Hn.
      apply g_ret. cbn [MiColStarts MiRowStarts TileCols TileRows TileColsLog2 TileRowsLog2 ContextUpdateTileId TileSizeBytes].
      split; [exact T1|]. split; [lia|]. split; [lia|]. split; [exact T3|]. split; [exact T4|]. split; [exact T5|]. split; [exact T6|].
      split; [exact Hid|]. split; [right; lia|]. intros; lia.
    + apply g_ret. apply Bool.orb_false_iff in Hb. destruct Hb as [Hb1 Hb2]. apply Z.ltb_ge in Hb1, Hb2.
      split; [exact T1|]. split; [lia|]. split; [lia|]. split; [exact T3|]. split; [exact T4|]. split; [exact T5|]. split; [exact T6|].
      split; [rewrite T7; pose proof (pow2_pos (TileRowsLog2 t + TileColsLog2 t) ltac:(lia)); lia|]. split; [left; exact T8|]. lia.
Qed.
