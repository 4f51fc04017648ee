(** Property C168: tile_info with coded tile sizes. *)
From Verif Require Import GoBase Bitstream SpecBits SpecStream BitstreamProofs Parses Util UtilProofs Constants TileInfo.
From Verif Require Import Header SequenceHeader SpecHeader SpecFrameHeader UncompressedHeader UHeaderProofs UHeaderWhole FrameHeaderProofs PropFrameHeader.

(** ** Specification (5.9.15 tile_info, uniform_tile_spacing_flag = 0) *)
(** The sizes of the tiles, in superblocks: they fill n superblocks, and none is larger than mx. *)
Fixpoint valid_sizes (mx n : Z) (l : list Z) : Prop :=
  match l with [] => n = 0 | w :: l => 1 <= w <= Z.min n mx /\ valid_sizes mx (n - w) l end.
(** Each is coded less 1, among the values that are possible *)
Fixpoint enc_sizes (mx n : Z) (l : list Z) : list bool :=
  match l with [] => [] | w :: l => enc_ns (Z.min n mx) (w - 1) ++ enc_sizes mx (n - w) l end.
(** The first 4x4 column (or row) of each tile, and the end of the frame *)
Fixpoint tile_starts (s total : Z) (l : list Z) : list Z :=
  match l with [] => [total] | w :: l => 16 * s :: tile_starts (s + w) total l end.
(** The least k with 2^k tiles of the given size covering n *)
Definition tiles_log2 (size n : Z) : Z := Z.log2_up ((n + size - 1) / size).
Definition widest (l : list Z) : Z := fold_right Z.max 0 l.
(** Tiles are at most 64 superblocks wide (4096 samples); the height is limited so that the widest tile has at most half of the area of a uniform one *)
Definition max_height (sbCols sbRows : Z) (ws : list Z) : Z :=
  let k := Z.max (tiles_log2 64 sbCols) (tiles_log2 2304 (sbRows * sbCols)) in
  Z.max 1 ((if 0 <? k then sbRows * sbCols / 2 ^ (k + 1) else sbRows * sbCols) / widest ws).
Definition count (l : list Z) : Z := Z.of_nat (length l).
Definition enc_tiles (sbCols sbRows : Z) (ws hs : list Z) (ctx bytes : Z) : list bool :=
  let k := tiles_log2 1 (count hs) + tiles_log2 1 (count ws) in
  [false] ++ enc_sizes 64 sbCols ws ++ enc_sizes (max_height sbCols sbRows ws) sbRows hs ++
  (if 0 <? k then enc_f (Z.to_nat k) ctx ++ enc_f 2 (bytes - 1) else []).

(** ** Proof *)
Lemma TileLog2_least size n : 1 <= size < 2 ^ 62 -> 1 <= n <= 2 ^ 61 -> TileLog2 size n = Ok (tiles_log2 size n).
Proof.
  intros Hs Hn. destruct (TileLog2_spec size n Hs ltac:(lia)) as (r & E & A & B & C). rewrite E. f_equal. unfold tiles_log2. set (q := (n + size - 1) / size).
  assert (Q : forall m, n <= size * m <-> q <= m).
  { intros m. pose proof (Z.div_mod (n + size - 1) size ltac:(lia)) as D. pose proof (Z.mod_pos_bound (n + size - 1) size ltac:(lia)) as M. fold q in D. split; intros H; nia. }
  assert (Hq : 1 <= q) by (destruct (Z_lt_le_dec q 1) as [L|L]; [|exact L]; assert (n <= size * 0) by (apply Q; lia); lia).
  apply Q in B. symmetry. destruct (Z.eq_dec q 1) as [E1|N1].
  - rewrite E1. change (Z.log2_up 1) with 0. destruct (Z.eq_dec r 0) as [->|Nr]; [reflexivity|]. specialize (C 0 ltac:(lia)).
    assert (n <= size * 2 ^ 0) by (apply Q; rewrite E1; change (2 ^ 0) with 1; lia). lia.
  - assert (Hr : 0 < r) by (destruct (Z.eq_dec r 0) as [->|]; [change (2 ^ 0) with 1 in B; lia|lia]).
    apply Z.log2_up_unique; [exact Hr|]. split; [|exact B]. specialize (C (Z.pred r) ltac:(lia)).
    destruct (Z_lt_le_dec (2 ^ Z.pred r) q) as [L|L]; [exact L|]. apply Q in L. lia.
Qed.
Lemma upd_middle (pre rest : list Z) r v : upd (pre ++ r :: rest) (zlen pre) v = Ok (pre ++ v :: rest).
Proof.
  unfold upd. destruct (Z.ltb_spec (zlen pre) 0) as [L|_]; [unfold zlen in L; lia|]. destruct (Z.leb_spec (zlen (pre ++ r :: rest)) (zlen pre)) as [L|_].
  { unfold zlen in L. rewrite app_length in L. cbn [length] in L. lia. }
  cbn [orb]. f_equal. unfold zlen. rewrite Nat2Z.id. induction pre as [|a pre IH]; cbn [app length upd_nat]; [reflexivity|]. f_equal. exact IH.
Qed.
Lemma sizes_count mx l : forall n, valid_sizes mx n l -> count l <= n /\ (n = 0 -> l = []).
Proof.
  unfold count. induction l as [|w l IH]; intros n; cbn [valid_sizes length].
  - intros ->. split; [lia|auto].
  - intros [Hw Hl]. apply IH in Hl. split; [lia|]. intros ->. lia.
Qed.
Lemma Min_min a b : Min a b = Z.min a b. Proof. unfold Min. destruct (Z.leb_spec a b); lia. Qed.
Lemma Max_max a b : Max a b = Z.max a b. Proof. unfold Max. destruct (Z.leb_spec b a); lia. Qed.
Lemma parses_explicit mx total l : forall fuel sb s W pre rest, (length l <= fuel)%nat -> 0 <= s -> 0 <= W -> sb < 2 ^ 40 -> valid_sizes mx (sb - s) l -> (length l < length rest)%nat ->
  exists arr, parses (explicit_starts fuel sb mx 4 s (zlen pre) W (pre ++ rest)) (enc_sizes mx (sb - s) l) (arr, zlen pre + count l, Z.max (widest l) W) /\
    exists rest', upd arr (zlen pre + count l) total = Ok (pre ++ tile_starts s total l ++ rest').
Proof.
  induction l as [|w l IH]; intros fuel sb s W pre rest Hf Hs HW Hsb Hv Hr; cbn [valid_sizes enc_sizes tile_starts length] in *.
  - exists (pre ++ rest). change (count []) with 0. change (widest []) with 0. replace (zlen pre + 0) with (zlen pre) by lia. split.
    + replace (Z.max 0 W) with W by lia. destruct fuel; cbn [explicit_starts]; destruct (Z.ltb_spec s sb); try lia; apply parses_ret.
    + destruct rest as [|r rest]; [cbn in Hr; lia|]. exists rest. apply upd_middle.
  - destruct Hv as [Hw Hv]. destruct fuel as [|fuel]; [lia|]. destruct rest as [|r rest]; [cbn in Hr; lia|]. cbn [length] in *.
    replace (sb - s - w) with (sb - (s + w)) in Hv |- * by lia.
    destruct (IH fuel sb (s + w) (Max w W) (pre ++ [16 * s]) rest) as (arr & P & rest' & U); [lia|lia|rewrite Max_max; lia|exact Hsb|exact Hv|lia|].
    assert (Lp : zlen (pre ++ [16 * s]) = zlen pre + 1) by (unfold zlen; rewrite app_length; cbn [length]; lia). rewrite Lp in P, U. rewrite <- app_assoc in P. cbn [app] in P.
    assert (Lc : zlen pre + 1 + count l = zlen pre + count (w :: l)) by (unfold count; cbn [length]; lia). rewrite Lc in P, U.
    exists arr. split.
    + cbn [explicit_starts]. destruct (Z.ltb_spec s sb); [|lia].
      eapply parses_bind0 with (a := pre ++ 16 * s :: rest).
      { apply parses_lift. replace (shl s 4) with (16 * s) by (unfold shl; rewrite Z.shiftl_mul_pow2 by lia; rewrite i64_id by (change (2 ^ 63) with (2 ^ 59 * 16); lia); change (2 ^ 4) with 16; lia). apply upd_middle. }
      cbv beta. rewrite Min_min. eapply parses_bind; [apply parses_Ns; [lia|lia]|]. cbv beta zeta. replace (w - 1 + 1) with w by lia.
      replace (Z.max (widest (w :: l)) W) with (Z.max (widest l) (Max w W)); [exact P|]. rewrite Max_max. unfold widest. cbn [fold_right]. lia.
    + exists rest'. rewrite U. f_equal. rewrite <- app_assoc. reflexivity.
Qed.
Lemma firstn_starts s total l rest : firstn (length (tile_starts s total l)) (tile_starts s total l ++ rest) = tile_starts s total l.
Proof. rewrite firstn_app, Nat.sub_diag, firstn_all, firstn_O, app_nil_r. reflexivity. Qed.
Lemma widest_pos mx n l : valid_sizes mx n l -> 1 <= n -> 1 <= widest l <= mx.
Proof.
  intros H Hn. assert (A : forall l n, valid_sizes mx n l -> 0 <= widest l /\ (l <> [] -> 1 <= widest l <= mx)).
  { clear. induction l as [|w l IH]; intros n H; cbn [valid_sizes] in H; cbn [widest fold_right]; [split; [lia|congruence]|]. destruct H as [H1 H2]. apply IH in H2. fold (widest l).
    destruct l as [|v l]; [cbn; split; [lia|intros; lia]|]. destruct H2 as [H2 H3]. specialize (H3 ltac:(discriminate)). split; [lia|intros; lia]. }
  destruct (A l n H) as [_ B]. apply B. intros ->. cbn in H. lia.
Qed.

(** Every layout with coded tile sizes is read as coded: the number of tiles, where each starts, the tile for the CDF update and the number of bytes
    of the tile sizes. *)
Theorem C168_coded_sizes_partial : forall miCols miRows old ws hs ctx bytes, 1 <= miCols <= 2 ^ 20 -> 1 <= miRows <= 2 ^ 20 ->
  let sbCols := (miCols + 15) / 16 in let sbRows := (miRows + 15) / 16 in
  valid_sizes 64 sbCols ws -> valid_sizes (max_height sbCols sbRows ws) sbRows hs ->
  let more := 0 <? tiles_log2 1 (count hs) + tiles_log2 1 (count ws) in
  (more = true -> 0 <= ctx < 2 ^ (tiles_log2 1 (count hs) + tiles_log2 1 (count ws)) /\ 1 <= bytes <= 4) ->
  exists t, parses (NewTileInfo false miCols miRows old) (enc_tiles sbCols sbRows ws hs ctx bytes) t /\
    TileCols t = count ws /\ TileRows t = count hs /\ TileColsLog2 t = tiles_log2 1 (count ws) /\ TileRowsLog2 t = tiles_log2 1 (count hs) /\
    firstn (length ws + 1) (MiColStarts t) = tile_starts 0 miCols ws /\ firstn (length hs + 1) (MiRowStarts t) = tile_starts 0 miRows hs /\
    ContextUpdateTileId t = (if more then ctx else 0) /\ TileSizeBytes t = (if more then bytes else old).
Proof.
  intros miCols miRows old ws hs ctx bytes HC HR sbCols sbRows VW VH more Hm.
  assert (BC : 1 <= sbCols <= 2 ^ 17). { unfold sbCols. pose proof (Z.div_mod (miCols + 15) 16 ltac:(lia)). pose proof (Z.mod_pos_bound (miCols + 15) 16 ltac:(lia)). lia. }
  assert (BR : 1 <= sbRows <= 2 ^ 17). { unfold sbRows. pose proof (Z.div_mod (miRows + 15) 16 ltac:(lia)). pose proof (Z.mod_pos_bound (miRows + 15) 16 ltac:(lia)). lia. }
  assert (Area : 1 <= sbRows * sbCols <= 2 ^ 34) by (split; [nia|change (2 ^ 34) with (2 ^ 17 * 2 ^ 17); apply Z.mul_le_mono_nonneg; lia]).
  destruct (sizes_count _ _ _ VW) as [CW NW]. destruct (sizes_count _ _ _ VH) as [CH NH].
  assert (CW1 : 1 <= count ws) by (unfold count in *; destruct ws; [cbn in VW; lia|cbn [length]; lia]).
  assert (CH1 : 1 <= count hs) by (unfold count in *; destruct hs; [cbn in VH; lia|cbn [length]; lia]).
  assert (L : forall n, 1 <= n <= 2 ^ 17 -> 0 <= tiles_log2 1 n <= 17).
  { intros n Hn. unfold tiles_log2. rewrite Z.div_1_r. split; [apply Z.log2_up_nonneg|]. change 17 with (Z.log2_up (2 ^ 17)). apply Z.log2_up_le_mono. lia. }
  pose proof (L (count ws) ltac:(lia)) as LW. pose proof (L (count hs) ltac:(lia)) as LH. pose proof (widest_pos _ _ _ VW ltac:(lia)) as WP.
  set (maxh := max_height sbCols sbRows ws) in *.
  destruct (parses_explicit 64 miCols ws (Z.to_nat sbCols + 2) sbCols 0 0 [] (repeat 0 (Z.to_nat (sbCols + 1)))) as (ca & PC & rc & UC);
    [unfold count in CW; lia|lia|lia|lia|rewrite Z.sub_0_r; exact VW|rewrite repeat_length; unfold count in CW; lia|].
  destruct (parses_explicit maxh miRows hs (Z.to_nat sbRows + 2) sbRows 0 0 [] (repeat 0 (Z.to_nat (sbRows + 1)))) as (ra & PR & rr & UR);
    [unfold count in CH; lia|lia|lia|lia|rewrite Z.sub_0_r; exact VH|rewrite repeat_length; unfold count in CH; lia|].
  change (zlen (@nil Z)) with 0 in *. cbn [app] in PC, PR, UC, UR. rewrite Z.add_0_l in PC, PR, UC, UR. rewrite Z.sub_0_r in PC, PR.
  set (cs := tile_starts 0 miCols ws ++ rc) in *. set (rs := tile_starts 0 miRows hs ++ rr) in *.
  set (t0 := mkTiles cs rs (count ws) (count hs) (tiles_log2 1 (count ws)) (tiles_log2 1 (count hs)) old 0).
  exists (if more then mkTiles cs rs (count ws) (count hs) (tiles_log2 1 (count ws)) (tiles_log2 1 (count hs)) bytes ctx else t0).
  split.
  - unfold NewTileInfo, enc_tiles. cbv iota zeta. replace (shr (miCols + 15) 4) with sbCols by (unfold shr, sbCols; rewrite Z.shiftr_div_pow2 by lia; reflexivity).
    replace (shr (miRows + 15) 4) with sbRows by (unfold shr, sbRows; rewrite Z.shiftr_div_pow2 by lia; reflexivity).
    assert (MZ : forall n, 1 <= n -> make_zeros (n + 1) = Ok (repeat 0 (Z.to_nat (n + 1)))) by (intros n Hn; unfold make_zeros; destruct (Z.ltb_spec (n + 1) 0); [lia|reflexivity]).
    rewrite !MZ by lia.
    eapply parses_bind0; [apply parses_lift; reflexivity|]. cbv beta. eapply parses_bind0; [apply parses_lift; reflexivity|]. cbv beta.
    change (shr MAX_TILE_WIDTH (4 + 2)) with 64. change (shr MAX_TILE_AREA (2 * (4 + 2))) with 2304. rewrite !Min_min. change MAX_TILE_COLS with 64. change MAX_TILE_ROWS with 64.
    eapply parses_bind0; [apply parses_lift, TileLog2_least; lia|]. cbv beta. eapply parses_bind0; [apply parses_lift, TileLog2_least; lia|]. cbv beta.
    eapply parses_bind0; [apply parses_lift, TileLog2_least; lia|]. cbv beta. eapply parses_bind0; [apply parses_lift, TileLog2_least; lia|]. cbv beta.
    cbn [app]. pbit. rewrite !Max_max. rewrite app_assoc. eapply parses_bind with (a := t0).
    { eapply parses_bind; [exact PC|]. cbv beta iota.
      eapply parses_bind0; [apply parses_lift; exact UC|]. cbv beta. eapply parses_bind0; [apply parses_lift, TileLog2_least; lia|]. cbv beta.
      replace (Z.max (widest ws) 0) with (widest ws) by lia. destruct (Z.eqb_spec (widest ws) 0); [lia|].
      match goal with |- context [explicit_starts _ _ ?m] => replace m with maxh end.
      2: { unfold maxh, max_height. cbv beta zeta. set (kk := Z.max (tiles_log2 64 sbCols) (tiles_log2 2304 (sbRows * sbCols))).
           destruct (Z.ltb_spec 0 kk) as [K0|K0].
           - unfold shr. rewrite Z.shiftr_div_pow2 by lia. rewrite Max_max, Z.max_comm. f_equal. symmetry. apply Z.quot_div_nonneg; [apply Z.div_pos; [lia|apply Z.pow_pos_nonneg; lia]|lia].
           - rewrite Max_max, Z.max_comm. f_equal. symmetry. apply Z.quot_div_nonneg; lia. }
      eapply parses_bind_end; [exact PR|]. cbv beta iota.
      eapply parses_bind0; [apply parses_lift; exact UR|]. cbv beta. eapply parses_bind0; [apply parses_lift, TileLog2_least; lia|]. cbv beta. apply parses_ret. }
    cbv beta. unfold t0 at 1 2. cbn [TileColsLog2 TileRowsLog2].
    assert (Em : (0 <? tiles_log2 1 (count ws)) || (0 <? tiles_log2 1 (count hs)) = more).
    { unfold more. destruct (Z.ltb_spec 0 (tiles_log2 1 (count ws))), (Z.ltb_spec 0 (tiles_log2 1 (count hs))), (Z.ltb_spec 0 (tiles_log2 1 (count hs) + tiles_log2 1 (count ws))); try reflexivity; lia. }
    rewrite Em. fold more. destruct more; [|apply parses_ret]. destruct (Hm eq_refl) as [H1 H2].
    unfold t0. cbn [TileColsLog2 TileRowsLog2 MiColStarts MiRowStarts TileCols TileRows].
    eapply parses_bind; [apply parses_F; [lia|exact H1|lia]|]. cbv beta.
    eapply parses_bind_end; [apply parses_F; [reflexivity|change (2 ^ 2) with 4; lia|lia]|]. cbv beta. replace (bytes - 1 + 1) with bytes by lia. apply parses_ret.
  - assert (Ls : forall s total l, length (tile_starts s total l) = (length l + 1)%nat) by (intros s total l; revert s; induction l; intros s; cbn [tile_starts length]; [reflexivity|rewrite IHl; reflexivity]).
    destruct more; unfold t0; cbn [TileColsLog2 TileRowsLog2 MiColStarts MiRowStarts TileCols TileRows ContextUpdateTileId TileSizeBytes];
      (do 4 (split; [reflexivity|]); split; [unfold cs; rewrite <- (Ls 0 miCols ws); apply firstn_starts|]; split; [unfold rs; rewrite <- (Ls 0 miRows hs); apply firstn_starts|]; split; reflexivity).
Qed.
Print Assumptions C168_coded_sizes_partial.


(** A frame of 1600x800 samples in tiles 10, 9 and 6 superblocks wide and 5 and 8 high: 25x13 superblocks *)
Example C168_case : valid_sizes 64 25 [10; 9; 6] /\ valid_sizes (max_height 25 13 [10; 9; 6]) 13 [5; 8] /\
  tiles_log2 1 2 + tiles_log2 1 3 = 3 /\
  enc_tiles 25 13 [10; 9; 6] [5; 8] 5 4 =
    [false; true; false; false; false; false; true; false;  false; true; true; true; true; false; true; true;
     true; true; true; true; true; false; true; true;  true] /\
  exists s', NewTileInfo false 400 200 1 (NewBitStream [0x42; 0x7B; 0xFB; 0x80]) =
    Ok (mkTiles ([0; 160; 304; 400] ++ repeat 0 22) ([0; 80; 200] ++ repeat 0 11) 3 2 2 1 4 5, s').
Proof.
  split; [cbn; lia|]. split; [replace (max_height 25 13 [10; 9; 6]) with 32 by (vm_compute; reflexivity); cbn; lia|].
  split; [vm_compute; reflexivity|]. split; [vm_compute; reflexivity|]. eexists. vm_compute. reflexivity.
Qed.

(** With 128x128 superblocks (line 25 takes the number of columns from the height, the number of rows still counts 64x64 superblocks): a frame of
    384x128 samples in three columns of one superblock and one row is read as one column and two rows. *)
Theorem C168_128_refuted : valid_sizes 32 ((96 + 31) / 32) [1; 1; 1] /\ valid_sizes 32 ((32 + 31) / 32) [1] /\
  (forall mxh, 1 <= mxh -> [false] ++ enc_sizes 32 3 [1; 1; 1] ++ enc_sizes mxh 1 [1] ++ enc_f 2 0 ++ enc_f 2 0 = repeat false 7) /\
  exists t s', NewTileInfo true 96 32 0 (NewBitStream [0; 0]) = Ok (t, s') /\ TileCols t = 1 /\ TileRows t = 2.
Proof.
  split; [change ((96 + 31) / 32) with 3; cbn; lia|]. split; [change ((32 + 31) / 32) with 1; cbn; lia|]. split; [intros mxh H; cbn [enc_sizes]; rewrite (Z.min_l 1 mxh) by lia; vm_compute; reflexivity|]. eexists _, _. split; [vm_compute; reflexivity|]. split; reflexivity.
Qed.
Print Assumptions C168_128_refuted.

(** So the whole header of an intra frame with coded tile sizes (see C94) is decoded, with exactly these tiles. *)
Lemma superblocks n : 1 <= n -> (2 * ((n + 7) / 8) + 15) / 16 = (n + 63) / 64.
Proof.
  intros H. pose proof (Z.div_mod (n + 7) 8 ltac:(lia)). pose proof (Z.mod_pos_bound (n + 7) 8 ltac:(lia)). pose proof (Z.div_mod (n + 63) 64 ltac:(lia)). pose proof (Z.mod_pos_bound (n + 63) 64 ltac:(lia)).
  symmetry. apply (Z.div_unique _ _ _ (2 * ((n + 7) / 8) + 15 - 16 * ((n + 63) / 64))); lia.
Qed.
Theorem C94_coded_tiles_partial : forall sh st f s ws hs ctx bytes, seq_ok sh -> valid_intra (info sh) f -> supported sh f -> St_GmType st <> [] ->
  Use128x128SuperBlock sh = false -> let i := info sh in 1 <= width i f <= 65536 -> 1 <= height i f <= 65536 ->
  let cols := 2 * ((width i f + 7) / 8) in let rows := 2 * ((height i f + 7) / 8) in
  let sbCols := (width i f + 63) / 64 in let sbRows := (height i f + 63) / 64 in
  valid_sizes 64 sbCols ws -> valid_sizes (max_height sbCols sbRows ws) sbRows hs ->
  (0 < tiles_log2 1 (count hs) + tiles_log2 1 (count ws) -> 0 <= ctx < 2 ^ (tiles_log2 1 (count hs) + tiles_log2 1 (count ws)) /\ 1 <= bytes <= 4) ->
  let bits := enc_intra 6 i f (enc_tiles sbCols sbRows ws hs ctx bytes) in
  starts s bits ->
  exists fh fr fb st', NewUncompressedHeader sh st s = Ok (UFrame fh fr fb, st', adv s (Z.of_nat (length bits))) /\
    MiCols (Size_ fr) = cols /\ MiRows (Size_ fr) = rows /\ St_Tiles st' = TileInfo_ fb /\
    TileCols (TileInfo_ fb) = count ws /\ TileRows (TileInfo_ fb) = count hs /\
    firstn (length ws + 1) (MiColStarts (TileInfo_ fb)) = tile_starts 0 cols ws /\
    firstn (length hs + 1) (MiRowStarts (TileInfo_ fb)) = tile_starts 0 rows hs.
Proof.
  intros sh st f s ws hs ctx bytes H1 H2 H3 H4 H5 i HW HH cols rows sbCols sbRows VW VH M bits HS.
  destruct (C168_coded_sizes_partial cols rows (TileSizeBytes (St_Tiles st)) ws hs ctx bytes) as (t & P & T1 & T2 & _ & _ & T3 & T4 & _).
  - unfold cols. pose proof (Z.div_mod (width i f + 7) 8 ltac:(lia)). pose proof (Z.mod_pos_bound (width i f + 7) 8 ltac:(lia)). lia.
  - unfold rows. pose proof (Z.div_mod (height i f + 7) 8 ltac:(lia)). pose proof (Z.mod_pos_bound (height i f + 7) 8 ltac:(lia)). lia.
  - unfold cols. rewrite superblocks by lia. exact VW.
  - unfold cols, rows. rewrite !superblocks by lia. exact VH.
  - intros E. apply Z.ltb_lt in E. exact (M E).
  - cbv zeta in P. unfold cols, rows in P. rewrite !superblocks in P by lia. fold cols rows sbCols sbRows in P.
    pose proof (C94_intra_header_partial sh st f s (enc_tiles sbCols sbRows ws hs ctx bytes) t H1 H2 H3 H4) as K. cbv zeta in K. rewrite H5 in K.
    destruct (K P HS) as (fh & fr & fb & st' & E & K'). clear K. exists fh, fr, fb, st'. split; [exact E|].
    assert (Q : MiCols (Size_ fr) = cols /\ MiRows (Size_ fr) = rows /\ TileInfo_ fb = t /\ St_Tiles st' = t) by (clear - K'; decompose [and] K'; repeat split; assumption).
    destruct Q as (Q1 & Q2 & Q3 & Q4). rewrite Q3, Q4. repeat split; assumption.
Qed.
Print Assumptions C94_coded_tiles_partial.
(** The frame of [C94_case] (4 by 1 superblocks) with tiles 1 and 3 superblocks wide *)
Example C94_coded_case : Use128x128SuperBlock case_sh = false /\ width (info case_sh) case_frame = 205 /\ height (info case_sh) case_frame = 64 /\
  valid_sizes 64 ((205 + 63) / 64) [1; 3] /\ valid_sizes (max_height 4 1 [1; 3]) ((64 + 63) / 64) [1] /\ tiles_log2 1 (count [1]) + tiles_log2 1 (count [1; 3]) = 1 /\
  length (enc_intra 6 (info case_sh) case_frame (enc_tiles 4 1 [1; 3] [1] 1 2)) = 341%nat.
Proof.
  split; [vm_compute; reflexivity|]. split; [vm_compute; reflexivity|]. split; [vm_compute; reflexivity|]. change ((205 + 63) / 64) with 4. change ((64 + 63) / 64) with 1.
  split; [cbn; lia|]. split; [replace (max_height 4 1 [1; 3]) with 1 by (vm_compute; reflexivity); cbn; lia|]. split; vm_compute; reflexivity.
Qed.
