(** Property C32: tile layout. *)
From Verif Require Import GoBase Bitstream SpecBits SpecStream BitstreamProofs ReaderOps Parses SafeParse Yields Util UtilProofs
  Constants SymbolProofs TileInfo SpecTiles TileInfoProofs.

(** C32 for 64x64 superblocks, every frame size and every bit stream: reading the tile syntax never loops, and when it returns,
    columns and rows cut the frame into superblock-aligned tiles, every mode info unit being in exactly one.
    Missing from the full property: 128x128 superblocks (refuted below) and the choice of tile rows (refuted below). *)
Theorem C32_tiles_partition_partial : forall MiCols MiRows old s, 0 < MiCols <= 16384 -> 0 < MiRows <= 16384 -> 0 <= Position s ->
  match NewTileInfo false MiCols MiRows old s with
  | Ok (t, s') =>
      partitions (MiColStarts t) (TileCols t) MiCols 16 /\ partitions (MiRowStarts t) (TileRows t) MiRows 16 /\
      TileCols t <= 2 ^ TileColsLog2 t /\ TileRows t <= 2 ^ TileRowsLog2 t /\
      0 <= ContextUpdateTileId t < 2 ^ (TileRowsLog2 t + TileColsLog2 t) /\
      (0 < TileColsLog2 t + TileRowsLog2 t -> 1 <= TileSizeBytes t <= 4) /\
      Data s' = Data s /\ Position s <= Position s'
  | Panic => True
  | Hang => False
  end.
Proof.
  intros MiCols MiRows old s Hc Hr Hs. destruct (NewTileInfo_good false MiCols MiRows old Hc Hr) as [S Y].
  specialize (S s Hs). specialize (Y s). destruct (NewTileInfo false MiCols MiRows old s) as [[t s']| |]; auto.
  destruct (Y t s' Hs eq_refl) as (_ & AB & _ & _ & _ & _ & E & G & H & _ & I). destruct (AB eq_refl) as [A B]. destruct S as (S1 & S2 & _). auto 12.
Qed.
Print Assumptions C32_tiles_partition_partial.

(** The layout of a frame of 100x70 mode info units with explicit sizes, and one with uniform columns: *)
Example C32_example_explicit :
  match NewTileInfo false 100 70 0 (NewBitStream [0x20;0;0;0;0;0;0;0]) with
  | Ok (t, s') => MiColStarts t = [0;32;48;64;80;96;100;0] /\ TileCols t = 6 /\ MiRowStarts t = [0;16;32;48;64;70] /\ TileRows t = 5
  | _ => False end.
Proof. vm_compute. auto. Qed.
Example C32_example_uniform_hyp : exists s1, Fbool (NewBitStream [0xff;0xff;0xff;0;0;0;0]) = Ok (true, s1).
Proof. eexists. vm_compute. reflexivity. Qed.
Example C32_example_uniform :
  match NewTileInfo false 100 200 0 (NewBitStream [0xff;0xff;0xff;0;0;0;0]) with
  | Ok (t, s') => MiColStarts t = [0;16;32;48;64;80;96;100] /\ TileCols t = 7 /\ TileRows t = 1 /\ TileSizeBytes t = 4
  | _ => False end.
Proof. vm_compute. auto. Qed.

(** With uniform spacing at most 64 columns. *)
Lemma uniform_inv MiCols MiRows old s s1 t s' : 0 < MiCols <= 16384 -> 0 < MiRows <= 16384 -> 0 <= Position s ->
  Fbool s = Ok (true, s1) -> NewTileInfo false MiCols MiRows old s = Ok (t, s') ->
  TileCols t <= 64 /\ TileCols t <= 2 ^ TileColsLog2 t /\
  ((MiCols + 15) / 16 * ((MiRows + 15) / 16) <= 2304 -> (MiCols + 15) / 16 <= 64 -> TileRows t = 1 /\ TileRowsLog2 t = 0).
Proof.
  intros Hc Hr Hs Hb E. pose proof Fbool as _.
  assert (Hs1 : 0 <= Position s1) by (destruct (y_Fbool s true s1 Hs Hb) as [? _]; assumption).
  unfold NewTileInfo in E. cbv beta zeta iota in E.
  rewrite !shr_div in E by lia. change (2 ^ 4) with 16 in E. change (4 + 2) with 6 in E. change (2 ^ 6) with 64 in E.
  change (MAX_TILE_WIDTH / 64) with 64 in E. change (MAX_TILE_AREA / 2 ^ (2 * 6)) with 2304 in E.
  set (sbC := (MiCols + 15) / 16) in *. set (sbR := (MiRows + 15) / 16) in *.
  pose proof (Z.div_mod (MiCols + 15) 16 ltac:(lia)) as D1. pose proof (Z.mod_pos_bound (MiCols + 15) 16 ltac:(lia)) as B1. fold sbC in D1.
  pose proof (Z.div_mod (MiRows + 15) 16 ltac:(lia)) as D2. pose proof (Z.mod_pos_bound (MiRows + 15) 16 ltac:(lia)) as B2. fold sbR in D2.
  assert (HsC : 0 < sbC <= 1024) by lia. assert (HsR : 0 < sbR <= 1024) by lia.
  clearbody sbC sbR.
  destruct (make_zeros_filled sbC 4 ltac:(lia)) as (ac & Eac & Fac). destruct (make_zeros_filled sbR 4 ltac:(lia)) as (ar & Ear & Far).
  rewrite Eac, Ear in E. rewrite !Min_min in E. change MAX_TILE_COLS with 64 in E. change MAX_TILE_ROWS with 64 in E.
  destruct (TileLog2 64 sbC) as [minC| |] eqn:T1; [|discriminate|discriminate].
  destruct (TileLog2 1 (Z.min sbC 64)) as [maxC| |] eqn:T2; [|discriminate|discriminate].
  destruct (TileLog2 1 (Z.min sbR 64)) as [maxR| |] eqn:T3; [|discriminate|discriminate].
  destruct (TileLog2 2304 (sbR * sbC)) as [ar2| |] eqn:T4; [|discriminate|discriminate].
  apply TileLog2_min in T1; [|lia|lia]. apply TileLog2_min in T2; [|lia|lia]. apply TileLog2_min in T3; [|lia|lia]. apply TileLog2_min in T4; [|lia|nia].
  destruct T1 as (mc0 & mc1 & mc2). destruct T2 as (xc0 & xc1 & xc2). destruct T3 as (xr0 & xr1 & xr2). destruct T4 as (aa0 & aa1 & aa2).
  repeat (rewrite (bind_ok (lift (Ok _)) _ s _ s eq_refl) in E; cbv beta in E).
  rewrite (bind_ok _ _ _ _ _ Hb) in E. cbv beta iota in E. rewrite !Max_max in E.
  assert (minC <= 4) by (apply mc2; [lia|change (2 ^ 4) with 16; lia]).
  assert (maxC <= 6) by (apply xc2; [lia|change (2 ^ 6) with 64; lia]).
  assert (ar2 <= 10) by (apply aa2; [lia|change (2 ^ 10) with 1024; nia]).
  apply bind_inv in E. destruct E as (t1 & s2 & E1 & E2).
  assert (K : TileCols t = TileCols t1 /\ TileColsLog2 t = TileColsLog2 t1 /\ TileRows t = TileRows t1 /\ TileRowsLog2 t = TileRowsLog2 t1).
  { destruct ((0 <? TileColsLog2 t1) || (0 <? TileRowsLog2 t1)).
    - apply bind_inv in E2. destruct E2 as (i & s3 & _ & E2). apply bind_inv in E2. destruct E2 as (i2 & s4 & _ & E2). injection E2 as <- <-. auto.
    - injection E2 as <- <-. auto. }
  destruct K as (-> & -> & -> & ->).
  apply bind_inv in E1. destruct E1 as (cl & s3 & Ecl & E1). cbv beta in E1.
  destruct (incr_cols_spec _ _ _ _ _ Hs1 Ecl) as [Hs3 Hcl].
  assert (Hcl2 : minC <= cl <= 6) by lia.
  destruct (uniform_good sbC cl 4 MiCols ac ltac:(lia) ltac:(lia) ltac:(lia) Fac) as (c & cs & U1 & U2 & U3 & U4).
  rewrite U1 in E1. rewrite (bind_ok (lift (Ok c)) _ _ _ _ eq_refl) in E1. cbv beta in E1.
  rewrite U2 in E1. rewrite (bind_ok (lift (Ok cs)) _ _ _ _ eq_refl) in E1. cbv beta in E1.
  rewrite (bind_ok _ _ _ _ _ (eq_refl : get _ = Ok (_, _))) in E1. cbv beta in E1.
  rewrite ?Max_max in E1.
  set (rl := Z.max (Z.max minC ar2 - cl) 0) in *. assert (Hrl : 0 <= rl <= 10) by (unfold rl; lia).
  assert (Hrx : rl <= maxR).
  { unfold rl. assert (ar2 <= cl + maxR); [|lia]. apply aa2; [lia|]. rewrite Z.pow_add_r by lia.
    assert (HC : sbC <= 64 * 2 ^ cl) by (pose proof (Z.pow_le_mono_r 2 minC cl ltac:(lia) ltac:(lia)); nia).
    assert (HR : sbR <= 16 * 2 ^ maxR) by lia.
    pose proof (pow2_pos cl ltac:(lia)). pose proof (pow2_pos maxR ltac:(lia)).
    assert (sbR * sbC <= (16 * 2 ^ maxR) * (64 * 2 ^ cl)) by (apply Z.mul_le_mono_nonneg; lia). nia. }
  assert (IR : forall f, incr_rows f maxR rl = ret rl) by (intros f; destruct f; cbn [incr_rows]; destruct (Z.ltb_spec maxR rl); [lia|reflexivity|lia|reflexivity]).
  rewrite IR in E1. rewrite (bind_ok (ret rl) _ _ _ _ eq_refl) in E1. cbv beta in E1.
  destruct (uniform_good sbR rl 4 MiRows ar ltac:(lia) ltac:(lia) ltac:(lia) Far) as (r & rs & V1 & V2 & V3 & V4).
  rewrite V1 in E1. rewrite (bind_ok (lift (Ok r)) _ _ _ _ eq_refl) in E1. cbv beta in E1.
  rewrite V2 in E1. rewrite (bind_ok (lift (Ok rs)) _ _ _ _ eq_refl) in E1. injection E1 as <- _. cbn.
  assert (2 ^ cl <= 2 ^ 6) by (apply Z.pow_le_mono_r; lia). change (2 ^ 6) with 64 in *.
  split; [lia|]. split; [apply U4|]. intros Ha Hw.
  assert (ar2 = 0) by (enough (ar2 <= 0) by lia; apply aa2; [lia|change (2 ^ 0) with 1; lia]).
  assert (minC = 0) by (enough (minC <= 0) by lia; apply mc2; [lia|change (2 ^ 0) with 1; lia]).
  assert (Hr0 : rl = 0) by (unfold rl; lia). rewrite Hr0 in V4. change (2 ^ 0) with 1 in V4. lia.
Qed.
Theorem C32_uniform_at_most_64_columns : forall MiCols MiRows old s s1 t s', 0 < MiCols <= 16384 -> 0 < MiRows <= 16384 -> 0 <= Position s ->
  Fbool s = Ok (true, s1) -> NewTileInfo false MiCols MiRows old s = Ok (t, s') -> 1 <= TileCols t <= 64.
Proof.
  intros MiCols MiRows old s s1 t s' Hc Hr Hs Hb E. split; [|apply (uniform_inv MiCols MiRows old s s1 t s' Hc Hr Hs Hb E)].
  pose proof (C32_tiles_partition_partial MiCols MiRows old s Hc Hr Hs) as H. rewrite E in H. apply H.
Qed.
Print Assumptions C32_uniform_at_most_64_columns.

(** The inverted loop test: with uniform spacing, a frame at most 64 superblocks wide with at most 2304 superblocks in all
    always has one tile row, whatever increment_tile_rows_log2 bits the stream carries - the standard allows up to 64. *)
Theorem C32_uniform_one_row_refuted : forall MiCols MiRows old s s1 t s', 0 < MiCols <= 16384 -> 0 < MiRows <= 16384 -> 0 <= Position s ->
  (MiCols + 15) / 16 <= 64 -> (MiCols + 15) / 16 * ((MiRows + 15) / 16) <= 2304 ->
  Fbool s = Ok (true, s1) -> NewTileInfo false MiCols MiRows old s = Ok (t, s') -> TileRows t = 1.
Proof. intros MiCols MiRows old s s1 t s' Hc Hr Hs H1 H2 Hb E. apply (uniform_inv MiCols MiRows old s s1 t s' Hc Hr Hs Hb E); assumption. Qed.
Print Assumptions C32_uniform_one_row_refuted.

(** 128x128 superblocks: still never loops. *)
Theorem C32_tile_info_total : forall use128 MiCols MiRows old s, 0 < MiCols <= 16384 -> 0 < MiRows <= 16384 -> 0 <= Position s ->
  NewTileInfo use128 MiCols MiRows old s <> Hang.
Proof.
  intros use128 MiCols MiRows old s Hc Hr Hs E. destruct (NewTileInfo_good use128 MiCols MiRows old Hc Hr) as [S _].
  specialize (S s Hs). rewrite E in S. exact S.
Qed.
Print Assumptions C32_tile_info_total.

(** With 128x128 superblocks the number of superblock columns is computed from the height (line 25): there are streams for which
    a tile starts to the right of the frame, so the columns do not partition it. *)
Theorem C32_128_superblocks_refuted : exists MiCols MiRows s t s', 0 < MiCols <= 16384 /\ 0 < MiRows <= 16384 /\ Position s = 0 /\
  NewTileInfo true MiCols MiRows 0 s = Ok (t, s') /\ TileCols t = 4 /\ start (MiColStarts t) 1 = MiCols /\ start (MiColStarts t) 3 > MiCols /\
  ~ partitions (MiColStarts t) (TileCols t) MiCols 32.
Proof.
  exists 32, 128, (NewBitStream [0xff;0xff]). eexists. eexists.
  split; [lia|]. split; [lia|]. split; [reflexivity|]. split; [vm_compute; reflexivity|].
  split; [reflexivity|]. split; [reflexivity|]. split; [reflexivity|].
  intros (_ & _ & _ & _ & H & _). specialize (H 3 ltac:(cbn; lia)). vm_compute in H. destruct H as [H _]. discriminate H.
Qed.
Print Assumptions C32_128_superblocks_refuted.
