(** Properties C156-C160: tile groups and the start of a tile. *)
From Verif Require Import GoBase Constants Tables Bitstream Util Symbol TileInfo Partition Residual TileGroup SpecBits SpecStream SpecSymbol SpecTileGroup
  BitstreamProofs SymbolProofs CdfDefaults Parses AnnexBProofs PropSymbol UtilProofs Frame Writes.

(** ** C156: the tiles of a group *)
(** The layout in the state is the layout [l]. *)
Definition same_layout (t : Tiles) (l : layout) : Prop :=
  TileCols t = Z.of_nat (l_cols l) /\ TileRows t = Z.of_nat (l_rows l) /\ TileColsLog2 t + TileRowsLog2 t = Z.of_nat (l_bits l) /\
  TileSizeBytes t = Z.of_nat (l_bytes l) /\ MiColStarts t = l_col_starts l /\ MiRowStarts t = l_row_starts l.
(** Decoding a tile reads the bitstream through the symbol decoder only (C27: every read keeps [in_tile]). *)
Definition confined {T} (tile : M (TGState T) unit) : Prop := forall a b e,
  in_tile (gDec a) e -> tile a = Ok (tt, b) -> in_tile (gDec b) e /\ Data (Bits (gDec b)) = Data (Bits (gDec a)).
(** The symbol decoder has just been started on the bytes [b]. *)
Definition started_on (d : dec) (b : list Z) : Prop :=
  SymbolRange d = 32768 /\ SymbolMaxBits d = 8 * zlen b - 15 /\ SymbolValue d = 32767 - first15 b /\ starts (Bits d) (skipn 15 (bits_of b)).
(** One tile: [a] is the state in which its decoding starts, [b] the one in which it ends. *)
Definition right_call {T} (l : layout) (baseQ k : Z) (data : list Z) (a : TGState T) : Prop :=
  gNum a = k /\ (MiRowStart (gGrid a), MiRowEnd (gGrid a), MiColStart (gGrid a), MiColEnd (gGrid a)) = tile_rect l k /\
  gQIndex a = baseQ /\ started_on (gDec a) data.
(** The decoding of the tiles k, k+1, ... with the bytes [data], from the rest of the state r0 to r1. *)
Inductive decoded {T} (l : layout) (baseQ : Z) (load : T -> T) (tile : M (TGState T) unit) (save : Z -> T -> T) : Z -> list (list Z) -> T -> T -> Prop :=
| no_tile k r : decoded l baseQ load tile save k [] r r
| next_tile k b more r r' a a' : right_call l baseQ k b a -> gRest a = load r -> tile a = Ok (tt, a') -> -14 <= SymbolMaxBits (gDec a') ->
    decoded l baseQ load tile save (k + 1) more (save k (gRest a')) r' -> decoded l baseQ load tile save k (b :: more) r r'.

Lemma lift_ok {S A} (r : res A) a (s : S) : r = Ok a -> lift r s = Ok (a, s). Proof. intros ->. reflexivity. Qed.
Lemma be_zeros n : be (repeat false n) = 0.
Proof. induction n; cbn [repeat be]; [reflexivity|]. rewrite IHn. cbn [b2z]. lia. Qed.
Lemma first15_spec b tail : let n := Z.min (8 * zlen b) 15 in be (firstn (Z.to_nat n) (bits_of b ++ tail)) * 2 ^ (15 - n) = first15 b.
Proof.
  cbv zeta. unfold first15. pose proof (length_bits_of b) as L. unfold zlen. destruct (Z.leb_spec 15 (8 * Z.of_nat (length b))) as [H|H].
  - rewrite Z.min_r by lia. change (Z.to_nat 15) with 15%nat. change (2 ^ (15 - 15)) with 1. rewrite Z.mul_1_r.
    rewrite !firstn_app. replace (15 - length (bits_of b))%nat with 0%nat by lia. reflexivity.
  - rewrite Z.min_l by lia. rewrite !firstn_app. replace (Z.to_nat (8 * Z.of_nat (length b)) - length (bits_of b))%nat with 0%nat by lia. rewrite firstn_O, app_nil_r.
    rewrite !firstn_all2 by lia. rewrite be_app. rewrite firstn_length, repeat_length.
    replace (firstn (15 - length (bits_of b)) (repeat false 15)) with (repeat false (15 - length (bits_of b))).
    2: { assert (E : exists m, (m <= 15)%nat /\ m = (15 - length (bits_of b))%nat) by (exists (15 - length (bits_of b))%nat; split; [apply Nat.le_sub_l|reflexivity]). destruct E as (m & Hm & <-). clear - Hm. do 16 (destruct m as [|m]; [reflexivity|]). lia. }
    rewrite Z.add_0_r || idtac. rewrite be_zeros. rewrite Nat.min_l by apply Nat.le_sub_l. rewrite L. replace (Z.of_nat (15 - 8 * length b)) with (15 - 8 * Z.of_nat (length b)) by lia. lia.
Qed.
Lemma starts_data s s' l : Data s' = Data s -> Position s' = Position s -> starts s l -> starts s' l.
Proof. intros D P. unfold starts, rest. rewrite D, P. auto. Qed.
Lemma starts_fits s l : starts s l -> Position s + Z.of_nat (length l) <= 8 * zlen (Data s) \/ l = [].
Proof.
  intros H. destruct l as [|x l]; [right; reflexivity|left]. pose proof (starts_length _ _ H) as L. pose proof (length_rest s (proj1 H)) as R. cbn [length] in *. lia.
Qed.

Section Framing.
  Context {T : Type}.
  Variables (l : layout) (t : Tiles) (baseQ : Z) (load : T -> T) (tile : M (TGState T) unit) (save : Z -> T -> T).
  Hypothesis VL : valid_layout l.
  Hypothesis SL : same_layout t l.
  Hypothesis CF : confined tile.
  Notation step := (oneTile t baseQ load tile save).

  Lemma rect_ok k : 0 <= k < l_tiles l -> exists r0 r1 c0 c1, tile_rect l k = (r0, r1, c0, c1) /\
    idx (MiRowStarts t) (Z.quot k (TileCols t)) = Ok r0 /\ idx (MiRowStarts t) (Z.quot k (TileCols t) + 1) = Ok r1 /\
    idx (MiColStarts t) (Z.rem k (TileCols t)) = Ok c0 /\ idx (MiColStarts t) (Z.rem k (TileCols t) + 1) = Ok c1.
  Proof.
    intros Hk. destruct VL as (C & R & _ & _ & _ & LC & LR). destruct SL as (EC & ER & _ & _ & MC & MR). unfold l_tiles in Hk. rewrite Nat2Z.inj_mul in Hk.
    rewrite EC, MC, MR. rewrite Z.quot_div_nonneg, Z.rem_mod_nonneg by lia.
    assert (HQ : 0 <= k / Z.of_nat (l_cols l) < Z.of_nat (l_rows l)) by (split; [apply Z.div_pos; lia|apply Z.div_lt_upper_bound; nia]).
    pose proof (Z.mod_pos_bound k (Z.of_nat (l_cols l)) ltac:(lia)) as HM.
    unfold tile_rect. do 4 eexists. split; [reflexivity|].
    repeat split; (rewrite idx_ok with (d := 0); [f_equal; f_equal; lia|unfold zlen; rewrite ?LC, ?LR; lia]).
  Qed.

  (** One round, up to the decoding of the tile. *)
  Lemma round_ok k tgEnd sz g b tail : 0 <= k < l_tiles l -> b <> [] -> (k = tgEnd -> sz = zlen b) -> (k <> tgEnd -> zlen b <= 2 ^ (8 * Z.of_nat (l_bytes l))) ->
    starts (Bits (gDec g)) ((if k =? tgEnd then [] else enc_le (l_bytes l) (zlen b - 1)) ++ bits_of b ++ tail) ->
    exists a, right_call l baseQ k b a /\ gRest a = load (gRest g) /\
      let e := Position (Bits (gDec g)) + Z.of_nat (length ((if k =? tgEnd then [] else enc_le (l_bytes l) (zlen b - 1)) ++ bits_of b)) in
      in_tile (gDec a) e /\ Data (Bits (gDec a)) = Data (Bits (gDec g)) /\
      step tgEnd k sz g = match tile a with
        | Ok (_, a') => if SymbolMaxBits (gDec a') <? -14 then Panic else
            Ok (if k =? tgEnd then sz else sz - (zlen b + TileSizeBytes t), mkTGState (gNum a') (gGrid a') (gQIndex a')
              (mkDec (SymbolValue (gDec a')) (SymbolRange (gDec a')) (SymbolMaxBits (gDec a')) (set_pos (Bits (gDec a')) (Position (Bits (gDec a')) + Z.max 0 (SymbolMaxBits (gDec a')))))
              (save k (gRest a')))
        | Panic => Panic | Hang => Hang end.
  Proof.
    intros Hk HB HE HN HS. destruct (rect_ok k Hk) as (r0 & r1 & c0 & c1 & HR & I1 & I2 & I3 & I4). destruct VL as (C & R & _ & _ & B7 & LC & LR). destruct SL as (EC & ER & _ & ES & MC & MR).
    set (pre := if k =? tgEnd then [] else enc_le (l_bytes l) (zlen b - 1)) in *.
    destruct (starts_app _ _ _ HS) as [S1 S2]. set (s1 := adv (Bits (gDec g)) (Z.of_nat (length pre))) in *.
    assert (P0 : 0 <= Position (Bits (gDec g))) by apply HS.
    assert (P1 : 0 <= Position s1) by apply S2.
    assert (LB : 1 <= zlen b) by (destruct b; [congruence|unfold zlen; cbn [length]; lia]).
    destruct (starts_app _ _ _ S2) as [S3 _].
    assert (FIT : Position s1 + 8 * zlen b <= 8 * zlen (Data s1)).
    { pose proof (length_bits_of b) as L8. unfold zlen in LB. destruct (starts_fits _ _ S3) as [F|F].
      - rewrite length_bits_of in F. unfold zlen at 1. lia.
      - rewrite F in L8. cbn [length] in L8. lia. }
    set (d1 := mkDec (SymbolValue (gDec g)) (SymbolRange (gDec g)) (SymbolMaxBits (gDec g)) s1).
    destruct (initSymbol_spec (zlen b) d1 ltac:(lia) P1 FIT) as [EI TI]. cbv zeta in EI, TI.
    match type of EI with _ = Ok (tt, ?x) => set (d2 := x) in * end.
    exists (mkTGState k (mkGrid (MiRows (gGrid g)) (MiCols (gGrid g)) r0 r1 c0 c1) baseQ d2 (load (gRest g))).
    assert (RS : exists q, rest s1 = bits_of b ++ q) by apply S3. destruct RS as (q & RS).
    split; [|split; [reflexivity|split; [|split]]].
    - split; [reflexivity|]. split; [cbn; symmetry; exact HR|]. split; [reflexivity|]. cbn [gDec]. split; [reflexivity|]. split; [reflexivity|]. split.
      + cbn [d2 d1 SymbolValue Bits]. unfold d2, d1. cbn [SymbolValue Bits]. rewrite RS. rewrite first15_spec. reflexivity.
      + unfold d2, d1. cbn [Bits]. split; [cbn; lia|]. pose proof (length_bits_of b) as L8. rewrite rest_adv by lia. rewrite RS. rewrite skipn_app.
        destruct (Z.leb_spec 15 (8 * zlen b)).
        * rewrite Z.min_r by lia. exists (skipn (15 - length (bits_of b)) q). reflexivity.
        * rewrite Z.min_l by lia. unfold zlen in *. rewrite !(skipn_all2 (bits_of b)) by lia. eexists. reflexivity.
    - apply in_tile_state. cbn [gDec]. cbn [d1 Bits] in TI. unfold d1 in TI. cbn [Bits] in TI. match type of TI with tile_state _ ?x => match goal with |- tile_state _ ?y => replace y with x; [exact TI|] end end.
      rewrite app_length, length_bits_of. unfold s1, adv, set_pos, zlen. cbn [Position]. lia.
    - reflexivity.
    - unfold oneTile. rewrite EC. destruct (Z.eqb_spec (Z.of_nat (l_cols l)) 0) as [|_]; [lia|]. cbv zeta. rewrite <- EC.
      assert (E0 : (if k =? tgEnd then ret (sz, sz) else let* m := onDec (onbits (Le (TileSizeBytes t))) in ret (m + 1, sz - (m + 1 + TileSizeBytes t))) g =
        Ok ((zlen b, if k =? tgEnd then sz else sz - (zlen b + TileSizeBytes t)), mkTGState (gNum g) (gGrid g) (gQIndex g) d1 (gRest g))).
      { unfold pre in *. destruct (Z.eqb_spec k tgEnd) as [EK|EK].
        - rewrite (HE EK). unfold ret. unfold d1, s1. cbn [length]. rewrite adv_0. destruct g as [? ? ? [? ? ? ?] ?]; reflexivity.
        - specialize (HN EK). unfold bind at 1. unfold onDec, onbits. rewrite ES. rewrite (Le_enc _ _ (zlen b - 1)); [|exact B7|lia|exact S1].
          unfold ret. cbn [SymbolValue SymbolRange SymbolMaxBits]. replace (zlen b - 1 + 1) with (zlen b) by lia. unfold d1, s1. rewrite length_enc_le. replace (Z.of_nat (8 * l_bytes l)) with (8 * Z.of_nat (l_bytes l)) by lia. reflexivity. }
      rewrite (bind_ok _ _ _ _ _ E0). cbv beta iota.
      rewrite (bind_ok _ _ _ _ _ (lift_ok _ _ _ I1)), (bind_ok _ _ _ _ _ (lift_ok _ _ _ I2)), (bind_ok _ _ _ _ _ (lift_ok _ _ _ I3)), (bind_ok _ _ _ _ _ (lift_ok _ _ _ I4)).
      unfold modify, bind at 1. cbv beta iota. cbn [gNum gGrid gQIndex gDec gRest]. unfold bind at 1. unfold onDec at 1. cbn [gNum gGrid gQIndex gDec gRest]. rewrite EI.
      unfold restop, modify. unfold bind at 1. cbn [gNum gGrid gQIndex gDec gRest]. unfold bind at 1.
      match goal with |- match tile ?x with _ => _ end = match tile ?y with _ => _ end => change x with y end.
      destruct (tile _) as [[u a']| |]; [|reflexivity|reflexivity]. unfold bind at 1, onDec at 1, exitSymbol, bind at 1, get. destruct (SymbolMaxBits (gDec a') <? -14); [reflexivity|].
      unfold put, ret, bind. cbn [gNum gGrid gQIndex gDec gRest]. rewrite Max_max. reflexivity.
  Qed.

  (** All rounds. *)
  Lemma loop_ok : forall data k sz g g', 0 <= k -> k + zlen data <= l_tiles l -> data <> [] -> Forall (fun b => b <> []) data ->
    (forall b, In b (removelast data) -> zlen b <= 2 ^ (8 * Z.of_nat (l_bytes l))) ->
    8 * sz = Z.of_nat (length (enc_tiles (l_bytes l) data)) -> starts (Bits (gDec g)) (enc_tiles (l_bytes l) data) ->
    tileLoop t baseQ load tile save (length data) (k + zlen data - 1) k sz g = Ok (tt, g') ->
    decoded l baseQ load tile save k data (gRest g) (gRest g') /\ Data (Bits (gDec g')) = Data (Bits (gDec g)) /\
    Position (Bits (gDec g')) = Position (Bits (gDec g)) + 8 * sz.
  Proof.
    induction data as [|b data IH]; intros k sz g g' K0 K1 NE FB SB LE ST E; [congruence|].
    cbn [length tileLoop] in E. apply bind_inv in E. destruct E as (sz2 & g2 & E1 & E2).
    assert (ZL : zlen (b :: data) = zlen data + 1) by (unfold zlen; cbn [length]; lia). rewrite ZL in *. assert (Z0 : 0 <= zlen data) by (unfold zlen; lia).
    assert (EQ : k =? k + (zlen data + 1) - 1 = match data with [] => true | _ => false end).
    { destruct data; unfold zlen; cbn [length]; [apply Z.eqb_eq|apply Z.eqb_neq]; lia. }
    assert (ENC : enc_tiles (l_bytes l) (b :: data) = (if k =? k + (zlen data + 1) - 1 then [] else enc_le (l_bytes l) (zlen b - 1)) ++ bits_of b ++ enc_tiles (l_bytes l) data).
    { rewrite EQ. destruct data; [cbn [enc_tiles app]; rewrite app_nil_r; reflexivity|reflexivity]. }
    rewrite ENC in ST. inversion FB as [|? ? NB FB']; subst.
    assert (SZ : 8 * sz = Z.of_nat (length (if k =? k + (zlen data + 1) - 1 then [] else enc_le (l_bytes l) (zlen b - 1))) + 8 * zlen b + Z.of_nat (length (enc_tiles (l_bytes l) data))).
    { rewrite LE, ENC, !app_length, length_bits_of. unfold zlen. lia. }
    destruct (round_ok k (k + (zlen data + 1) - 1) sz g b (enc_tiles (l_bytes l) data)) as (a & RC & RR & RT & RD & RE); [lia|exact NB| | |exact ST|].
    { intros EK. apply Z.eqb_eq in EK. rewrite EK in EQ. destruct data; [|discriminate]. rewrite EK in SZ. cbn [length enc_tiles] in SZ. lia. }
    { intros EK. apply Z.eqb_neq in EK. rewrite EK in EQ. destruct data; [discriminate|]. apply SB. left. reflexivity. }
    rewrite RE in E1. destruct (tile a) as [[[] a']| |] eqn:ET; [|discriminate|discriminate]. destruct (Z.ltb_spec (SymbolMaxBits (gDec a')) (-14)) as [|HM]; [discriminate|]. injection E1 as E1 E1g.
    destruct (CF a a' _ RT ET) as [IT DT]. apply in_tile_state in IT. destruct IT as (_ & _ & _ & PE & _).
    assert (D2 : Data (Bits (gDec g2)) = Data (Bits (gDec g))) by (rewrite <- E1g; cbn [gDec Bits set_pos Data]; congruence).
    assert (P2 : Position (Bits (gDec g2)) = Position (Bits (gDec g)) + Z.of_nat (length (if k =? k + (zlen data + 1) - 1 then [] else enc_le (l_bytes l) (zlen b - 1))) + 8 * zlen b).
    { rewrite <- E1g. cbn [gDec Bits set_pos Position]. rewrite PE, app_length, length_bits_of. unfold zlen. lia. }
    destruct data as [|b2 data].
    - cbn [length tileLoop] in E2. injection E2 as <-. split; [|split; [exact D2|]].
      + eapply next_tile; [exact RC|exact RR|exact ET|exact HM|]. rewrite <- E1g. cbn [gRest]. apply no_tile.
      + rewrite P2. cbn [enc_tiles length] in SZ. lia.
    - rewrite EQ in ST, SZ, P2, E1. cbv iota in ST, SZ, P2, E1. destruct (starts_app _ _ _ ST) as [_ ST2]. destruct (starts_app _ _ _ ST2) as [_ ST3]. rewrite adv_adv in ST3.
      replace (k + (zlen (b2 :: data) + 1) - 1) with (k + 1 + zlen (b2 :: data) - 1) in E2 by lia.
      destruct SL as (_ & _ & _ & ES & _). rewrite length_enc_le in SZ, P2, ST3.
      destruct (IH (k + 1) sz2 g2 g') as (I1 & I2 & I3).
      + lia. + lia. + discriminate. + exact FB'. + intros x Hx. apply SB. right. exact Hx.
      + rewrite <- E1, ES. lia.
      + refine (starts_data _ _ _ _ _ ST3); [exact D2|]. rewrite P2. unfold adv, set_pos. cbn [Position]. rewrite length_bits_of. unfold zlen. lia.
      + exact E2.
      + split; [|split; [congruence|]].
        * eapply next_tile; [exact RC|exact RR|exact ET|exact HM|]. rewrite <- E1g in I1. exact I1.
        * rewrite I3, P2, <- E1, ES. lia.
  Qed.
  (** If every tile is decoded, so is the group. *)
  Hypothesis RET : forall a e, in_tile (gDec a) e -> exists b, tile a = Ok (tt, b) /\ -14 <= SymbolMaxBits (gDec b).
  Lemma loop_ret : forall data k sz g, 0 <= k -> k + zlen data <= l_tiles l -> data <> [] -> Forall (fun b => b <> []) data ->
    (forall b, In b (removelast data) -> zlen b <= 2 ^ (8 * Z.of_nat (l_bytes l))) ->
    8 * sz = Z.of_nat (length (enc_tiles (l_bytes l) data)) -> starts (Bits (gDec g)) (enc_tiles (l_bytes l) data) ->
    exists g', tileLoop t baseQ load tile save (length data) (k + zlen data - 1) k sz g = Ok (tt, g').
  Proof.
    induction data as [|b data IH]; intros k sz g K0 K1 NE FB SB LE ST; [congruence|].
    cbn [length tileLoop].
    assert (ZL : zlen (b :: data) = zlen data + 1) by (unfold zlen; cbn [length]; lia). rewrite ZL in *. assert (Z0 : 0 <= zlen data) by (unfold zlen; lia).
    assert (EQ : k =? k + (zlen data + 1) - 1 = match data with [] => true | _ => false end).
    { destruct data; unfold zlen; cbn [length]; [apply Z.eqb_eq|apply Z.eqb_neq]; lia. }
    assert (ENC : enc_tiles (l_bytes l) (b :: data) = (if k =? k + (zlen data + 1) - 1 then [] else enc_le (l_bytes l) (zlen b - 1)) ++ bits_of b ++ enc_tiles (l_bytes l) data).
    { rewrite EQ. destruct data; [cbn [enc_tiles app]; rewrite app_nil_r; reflexivity|reflexivity]. }
    rewrite ENC in ST. inversion FB as [|? ? NB FB']; subst.
    assert (SZ : 8 * sz = Z.of_nat (length (if k =? k + (zlen data + 1) - 1 then [] else enc_le (l_bytes l) (zlen b - 1))) + 8 * zlen b + Z.of_nat (length (enc_tiles (l_bytes l) data))).
    { rewrite LE, ENC, !app_length, length_bits_of. unfold zlen. lia. }
    destruct (round_ok k (k + (zlen data + 1) - 1) sz g b (enc_tiles (l_bytes l) data)) as (a & RC & RR & RT & RD & RE); [lia|exact NB| | |exact ST|].
    { intros EK. apply Z.eqb_eq in EK. rewrite EK in EQ. destruct data; [|discriminate]. rewrite EK in SZ. cbn [length enc_tiles] in SZ. lia. }
    { intros EK. apply Z.eqb_neq in EK. rewrite EK in EQ. destruct data; [discriminate|]. apply SB. left. reflexivity. }
    destruct (RET a _ RT) as (a' & ET & HM). rewrite ET in RE. destruct (Z.ltb_spec (SymbolMaxBits (gDec a')) (-14)) as [|_]; [lia|].
    rewrite (bind_ok _ _ _ _ _ RE). clear RE. cbv beta.
    destruct (CF a a' _ RT ET) as [IT DT]. apply in_tile_state in IT. destruct IT as (_ & _ & _ & PE & _).
    match goal with |- context [mkTGState (gNum a') ?x ?y ?z ?w] => set (g2 := mkTGState (gNum a') x y z w) end.
    assert (D2 : Data (Bits (gDec g2)) = Data (Bits (gDec g))) by (cbn [g2 gDec Bits set_pos Data]; congruence).
    assert (P2 : Position (Bits (gDec g2)) = Position (Bits (gDec g)) + Z.of_nat (length (if k =? k + (zlen data + 1) - 1 then [] else enc_le (l_bytes l) (zlen b - 1))) + 8 * zlen b).
    { cbn [g2 gDec Bits set_pos Position]. rewrite PE, app_length, length_bits_of. unfold zlen. lia. }
    clearbody g2. destruct data as [|b2 data].
    - cbn [length tileLoop]. eexists. reflexivity.
    - rewrite EQ in ST, SZ, P2 |- *. cbv iota in ST, SZ, P2 |- *. destruct (starts_app _ _ _ ST) as [_ ST2]. destruct (starts_app _ _ _ ST2) as [_ ST3]. rewrite adv_adv in ST3.
      replace (k + (zlen (b2 :: data) + 1) - 1) with (k + 1 + zlen (b2 :: data) - 1) by lia.
      destruct SL as (_ & _ & _ & ES & _). rewrite length_enc_le in SZ, P2, ST3.
      apply IH.
      + lia. + lia. + discriminate. + exact FB'. + intros x Hx. apply SB. right. exact Hx.
      + rewrite ES. lia.
      + refine (starts_data _ _ _ _ _ ST3); [exact D2|]. rewrite P2. unfold adv, set_pos. cbn [Position]. rewrite length_bits_of. unfold zlen. lia.
  Qed.
End Framing.

Lemma header_ok l t g s : valid_layout l -> same_layout t l -> valid_group l g -> Position s mod 8 = 0 -> starts s (enc_group l g) ->
  groupHeader t s = Ok ((g_first g, g_last g), adv s (Z.of_nat (length (to_byte (enc_group_head l g))))).
Proof.
  intros VL SL VG AL ST. destruct VL as (C & R & B63 & NB & _). destruct SL as (EC & ER & EB & _). destruct VG as (NE & F0 & L0 & NC & NN & _).
  assert (NT : TileCols t * TileRows t = l_tiles l) by (rewrite EC, ER; unfold l_tiles; rewrite Nat2Z.inj_mul; reflexivity).
  assert (N1 : 1 <= l_tiles l) by (unfold l_tiles; nia).
  unfold enc_group in ST. destruct (starts_app _ _ _ ST) as [ST0 STD]. set (h := enc_group_head l g) in *. unfold to_byte in ST0. destruct (starts_app _ _ _ ST0) as [S1 S2].
  assert (LST : g_first g <= g_last g) by (unfold g_last; destruct (g_data g); [congruence|cbn [length]; lia]).
  assert (PR : parses (let* present := if 1 <? TileCols t * TileRows t then (let* b := F 1 in ret (bool_of b)) else ret false in
     if (TileCols t * TileRows t =? 1) || negb present then ret (0, TileCols t * TileRows t - 1)
      else (let bits := TileColsLog2 t + TileRowsLog2 t in let* a := F bits in let* b := F bits in ret (a, b))) h (g_first g, g_last g)).
  { rewrite NT. unfold h, enc_group_head. destruct (Z.ltb_spec 1 (l_tiles l)) as [H1|H1].
    - change (g_coded g :: ?x) with ([g_coded g] ++ x). eapply parses_bind.
      + eapply parses_bind_end; [apply parses_F1|]. apply parses_ret.
      + cbv beta. replace (l_tiles l =? 1) with false by (symmetry; apply Z.eqb_neq; lia). cbn [orb].
        destruct (g_coded g) eqn:GC; cbn [b2z bool_of negb].
        * change (bool_of 1) with true. cbn [negb]. cbv zeta. rewrite EB. eapply parses_bind; [apply parses_F; [reflexivity|lia|lia]|]. cbv beta. eapply parses_bind_end; [apply parses_F; [reflexivity|lia|lia]|]. apply parses_ret.
        * change (bool_of 0) with false. cbn [negb]. destruct (NC eq_refl) as [-> ->]. apply parses_ret.
    - assert (HO : l_tiles l = 1) by lia. rewrite HO. eapply parses_bind_end; [apply parses_ret|]. cbv beta. change (1 =? 1) with true. cbn [orb].
      replace (g_first g) with 0 by lia. replace (g_last g) with (1 - 1) by lia. apply parses_ret. }
  assert (EH : groupHeader t s = bind (let* present := if 1 <? TileCols t * TileRows t then (let* b := F 1 in ret (bool_of b)) else ret false in
     if (TileCols t * TileRows t =? 1) || negb present then ret (0, TileCols t * TileRows t - 1)
      else (let bits := TileColsLog2 t + TileRowsLog2 t in let* a := F bits in let* b := F bits in ret (a, b))) (fun r => ByteAlignment ;; ret r) s).
  { unfold groupHeader. cbv zeta. set (A := if 1 <? TileCols t * TileRows t then _ else _). unfold bind. destruct (A s) as [[p s']| |]; reflexivity. }
  rewrite EH, (bind_ok _ _ _ _ _ (PR s S1)). cbv beta. clear EH PR.
  assert (LE : Z.of_nat (length (to_byte h)) mod 8 = 0 /\ Z.of_nat (length h) <= Z.of_nat (length (to_byte h)) < Z.of_nat (length h) + 8).
  { unfold to_byte. rewrite app_length, repeat_length. pose proof (Nat.mod_upper_bound (length h) 8 ltac:(lia)) as U. rewrite Nat2Z.inj_add, !Nat2Z.inj_mod, Nat2Z.inj_sub, Nat2Z.inj_mod by lia.
    change (Z.of_nat 8) with 8. pose proof (Z.div_mod (Z.of_nat (length h)) 8 ltac:(lia)) as DM. pose proof (Z.mod_pos_bound (Z.of_nat (length h)) 8 ltac:(lia)).
    set (m := Z.of_nat (length h) mod 8) in *. assert (m = 0 \/ 0 < m < 8) as [M0|M0] by lia.
    - rewrite M0 in *. change ((8 - 0) mod 8) with 0. rewrite Z.add_0_r. fold m. lia.
    - rewrite (Z.mod_small (8 - m)) by lia. split; [|lia]. replace (Z.of_nat (length h) + (8 - m)) with ((Z.of_nat (length h) / 8 + 1) * 8) by lia. apply Z.mod_mul. lia. }
  assert (PB : 0 <= Position s + Z.of_nat (length (to_byte h)) <= 8 * zlen (Data s)).
  { destruct (starts_fits _ _ STD) as [Q|Q]; [unfold adv, set_pos in Q; cbn [Position Data] in Q; pose proof (proj1 ST); lia|].
    exfalso. destruct (g_data g) as [|b more]; [congruence|]. inversion NN as [|? ? NB1 _]; subst. destruct b as [|x b]; [congruence|]. apply (f_equal (@length bool)) in Q.
    destruct more as [|b2 more]; cbn [enc_tiles] in Q; rewrite ?app_length, length_bits_of in Q; cbn [length] in Q; lia. }
  pose proof (ByteAlignment_ok (adv s (Z.of_nat (length h)))) as BA. pose proof (proj1 ST) as P0.
  assert (PA : 0 <= Position (adv s (Z.of_nat (length h))) <= 8 * zlen (Data (adv s (Z.of_nat (length h))))) by (change (Position (adv s (Z.of_nat (length h)))) with (Position s + Z.of_nat (length h)); change (Data (adv s (Z.of_nat (length h)))) with (Data s); clear - PB LE P0; lia).
  unfold bind. rewrite (BA PA). clear BA PA. unfold ret, adv, set_pos, align_up. cbn [Position Data Leb128Bytes]. do 2 f_equal.
  assert (AU : (Position s + Z.of_nat (length h) + 7) / 8 * 8 = Position s + Z.of_nat (length (to_byte h))).
  { destruct LE as [L1 L2]. apply Z.mod_divide in AL; [|lia]. apply Z.mod_divide in L1; [|lia]. destruct AL as [x AL], L1 as [y L1]. rewrite AL in *. rewrite L1 in *.
    replace (x * 8 + Z.of_nat (length h) + 7) with ((x + y) * 8 + (Z.of_nat (length h) + 7 - y * 8)) by lia. rewrite Z.div_add_l by lia. rewrite (Z.div_small (Z.of_nat (length h) + 7 - y * 8)) by lia. lia. }
  f_equal. exact AU.
Qed.

Definition finishes (l : layout) (g : group) : Prop := g_last g = l_tiles l - 1.
(** Whatever decoding a tile does, as long as it reads through the symbol decoder: if the call returns for a valid group of tiles, then exactly the tiles of the group were decoded, one after the other,
    each with its own rectangle, with the base quantizer index and a symbol decoder started on exactly its own bytes, and the whole payload was consumed.  At the end of the last tile of the frame, and
    only then, the frame is completed. *)
Theorem C156_tiles_of_group : forall T l t baseQ (load : T -> T) tile save endFrame g s fin s',
  valid_layout l -> same_layout t l -> valid_group l g -> confined tile ->
  Position (Bits (gDec s)) mod 8 = 0 -> starts (Bits (gDec s)) (enc_group l g) ->
  buildTileGroup t baseQ load tile save endFrame (Z.of_nat (length (enc_group l g)) / 8) s = Ok (fin, s') ->
  exists s1, decoded l baseQ load tile save (g_first g) (g_data g) (gRest s) (gRest s1) /\
    Data (Bits (gDec s1)) = Data (Bits (gDec s)) /\ Position (Bits (gDec s1)) = Position (Bits (gDec s)) + Z.of_nat (length (enc_group l g)) /\
    ((finishes l g /\ fin = true /\ endFrame s1 = Ok (tt, s')) \/ (~ finishes l g /\ fin = false /\ s' = s1)).
Proof.
  intros T l t baseQ load tile save endFrame g s fin s' VL SL VG CF AL ST E. unfold buildTileGroup in E. unfold bind at 1, get in E. unfold bind at 1, onDec, onbits in E.
  rewrite (header_ok l t g _ VL SL VG AL ST) in E. cbv beta iota in E. unfold bind at 1 in E. cbn [gDec Bits] in E.
  set (hl := Z.of_nat (length (to_byte (enc_group_head l g)))) in *.
  assert (NT : TileCols t * TileRows t = l_tiles l) by (destruct SL as (EC & ER & _); rewrite EC, ER; unfold l_tiles; rewrite Nat2Z.inj_mul; reflexivity).
  destruct VG as (NE & F0 & L0 & NC & NN & SB & _).
  assert (HL : exists y, hl = 8 * y /\ 0 <= y).
  { unfold hl, to_byte. rewrite app_length, repeat_length. set (n := length (enc_group_head l g)). pose proof (Nat.mod_upper_bound n 8 ltac:(lia)) as U. pose proof (Nat.div_mod n 8 ltac:(lia)) as DM.
    destruct (Nat.eq_dec (n mod 8) 0) as [Z0|Z0]; [rewrite Z0; change ((8 - 0) mod 8)%nat with 0%nat; exists (Z.of_nat (n / 8)); lia|]. rewrite (Nat.mod_small (8 - n mod 8)) by lia. exists (Z.of_nat (n / 8) + 1). lia. }
  destruct HL as (y & HL & Y0).
  assert (TL : exists z, Z.of_nat (length (enc_tiles (l_bytes l) (g_data g))) = 8 * z).
  { clear. induction (g_data g) as [|b [|b2 more] IH]; [exists 0; reflexivity|exists (zlen b); cbn [enc_tiles]; rewrite length_bits_of; unfold zlen; lia|]. destruct IH as [z IH].
    exists (Z.of_nat (l_bytes l) + zlen b + z). change (enc_tiles (l_bytes l) (b :: b2 :: more)) with (enc_le (l_bytes l) (Z.of_nat (length b) - 1) ++ bits_of b ++ enc_tiles (l_bytes l) (b2 :: more)).
    rewrite !app_length, length_enc_le, length_bits_of. unfold zlen. lia. }
  destruct TL as (z & TL).
  assert (EL : Z.of_nat (length (enc_group l g)) = 8 * (y + z)) by (unfold enc_group; rewrite app_length; lia).
  rewrite EL in E. replace (8 * (y + z)) with ((y + z) * 8) in E by lia. rewrite Z.div_mul in E by lia.
  unfold adv, set_pos in E. cbn [Position] in E. replace (Position (Bits (gDec s)) + hl - Position (Bits (gDec s))) with (y * 8) in E by lia. rewrite Z.quot_mul in E by lia. replace (y + z - y) with z in E by lia.
  unfold bind at 1 in E. destruct (tileLoop _ _ _ _ _ _ _ _ _ _) as [[[] s1]| |] eqn:EL1; [|discriminate|discriminate].
  assert (LN : Z.to_nat (g_last g - g_first g + 1) = length (g_data g)) by (unfold g_last; lia). rewrite LN in EL1.
  assert (LZ : g_last g = g_first g + zlen (g_data g) - 1) by reflexivity. rewrite LZ in EL1.
  destruct (starts_app _ _ _ ST) as [_ ST2]. fold hl in ST2.
  destruct (loop_ok l t baseQ load tile save VL SL CF (g_data g) (g_first g) z
    (mkTGState (gNum s) (gGrid s) (gQIndex s) (mkDec (SymbolValue (gDec s)) (SymbolRange (gDec s)) (SymbolMaxBits (gDec s)) (adv (Bits (gDec s)) hl)) (gRest s))
    s1 F0 ltac:(unfold g_last in L0; unfold zlen; lia) NE NN SB (eq_sym TL) ST2 EL1) as (D1 & D2 & D3).
  cbn [gRest gDec Bits Data Position] in D1, D2, D3. exists s1. split; [exact D1|]. split; [exact D2|]. split; [rewrite D3, EL; unfold adv, set_pos; cbn [Position]; lia|].
  unfold finishes. rewrite NT in E. destruct (Z.eqb_spec (g_last g) (l_tiles l - 1)) as [EF|EF].
  - left. split; [exact EF|]. apply bind_inv in E. destruct E as ([] & s2 & E1 & E2). injection E2 as <- <-. auto.
  - right. injection E as <- <-. auto.
Qed.
Print Assumptions C156_tiles_of_group.

(** Conversely: if every tile whose decoding starts is decoded to its end (exitSymbol wants at most 14 bits read beyond the end), and the end of the frame too, then the call returns. *)
Theorem C156_group_returns : forall T l t baseQ (load : T -> T) tile save endFrame g s,
  valid_layout l -> same_layout t l -> valid_group l g -> confined tile ->
  (forall a e, in_tile (gDec a) e -> exists b, tile a = Ok (tt, b) /\ -14 <= SymbolMaxBits (gDec b)) -> (forall a, exists b, endFrame a = Ok (tt, b)) ->
  Position (Bits (gDec s)) mod 8 = 0 -> starts (Bits (gDec s)) (enc_group l g) ->
  exists fin s', buildTileGroup t baseQ load tile save endFrame (Z.of_nat (length (enc_group l g)) / 8) s = Ok (fin, s').
Proof.
  intros T l t baseQ load tile save endFrame g s VL SL VG CF RET EN AL ST. unfold buildTileGroup. unfold bind at 1, get. unfold bind at 1, onDec, onbits.
  rewrite (header_ok l t g _ VL SL VG AL ST) . cbv beta iota. unfold bind at 1 . cbn [gDec Bits] .
  set (hl := Z.of_nat (length (to_byte (enc_group_head l g)))) in *.
  assert (NT : TileCols t * TileRows t = l_tiles l) by (destruct SL as (EC & ER & _); rewrite EC, ER; unfold l_tiles; rewrite Nat2Z.inj_mul; reflexivity).
  destruct VG as (NE & F0 & L0 & NC & NN & SB & _).
  assert (HL : exists y, hl = 8 * y /\ 0 <= y).
  { unfold hl, to_byte. rewrite app_length, repeat_length. set (n := length (enc_group_head l g)). pose proof (Nat.mod_upper_bound n 8 ltac:(lia)) as U. pose proof (Nat.div_mod n 8 ltac:(lia)) as DM.
    destruct (Nat.eq_dec (n mod 8) 0) as [Z0|Z0]; [rewrite Z0; change ((8 - 0) mod 8)%nat with 0%nat; exists (Z.of_nat (n / 8)); lia|]. rewrite (Nat.mod_small (8 - n mod 8)) by lia. exists (Z.of_nat (n / 8) + 1). lia. }
  destruct HL as (y & HL & Y0).
  assert (TL : exists z, Z.of_nat (length (enc_tiles (l_bytes l) (g_data g))) = 8 * z).
  { clear. induction (g_data g) as [|b [|b2 more] IH]; [exists 0; reflexivity|exists (zlen b); cbn [enc_tiles]; rewrite length_bits_of; unfold zlen; lia|]. destruct IH as [z IH].
    exists (Z.of_nat (l_bytes l) + zlen b + z). change (enc_tiles (l_bytes l) (b :: b2 :: more)) with (enc_le (l_bytes l) (Z.of_nat (length b) - 1) ++ bits_of b ++ enc_tiles (l_bytes l) (b2 :: more)).
    rewrite !app_length, length_enc_le, length_bits_of. unfold zlen. lia. }
  destruct TL as (z & TL).
  assert (EL : Z.of_nat (length (enc_group l g)) = 8 * (y + z)) by (unfold enc_group; rewrite app_length; lia).
  rewrite EL . replace (8 * (y + z)) with ((y + z) * 8) by lia. rewrite Z.div_mul by lia.
  unfold adv, set_pos . cbn [Position] . replace (Position (Bits (gDec s)) + hl - Position (Bits (gDec s))) with (y * 8) by lia. rewrite Z.quot_mul by lia. replace (y + z - y) with z by lia.
  assert (LN : Z.to_nat (g_last g - g_first g + 1) = length (g_data g)) by (unfold g_last; lia). rewrite LN.
  assert (LZ : g_last g = g_first g + zlen (g_data g) - 1) by reflexivity.
  destruct (starts_app _ _ _ ST) as [_ ST2]. fold hl in ST2.
  destruct (loop_ret l t baseQ load tile save VL SL CF RET (g_data g) (g_first g) z
    (mkTGState (gNum s) (gGrid s) (gQIndex s) (mkDec (SymbolValue (gDec s)) (SymbolRange (gDec s)) (SymbolMaxBits (gDec s)) (adv (Bits (gDec s)) hl)) (gRest s))
    F0 ltac:(unfold g_last in L0; unfold zlen; lia) NE NN SB (eq_sym TL) ST2) as (s1 & E1).
  rewrite <- LZ in E1. unfold adv, set_pos in E1. cbn [gNum gGrid gQIndex gDec gRest] in E1. rewrite (bind_ok _ _ _ _ _ E1).
  destruct (g_last g =? TileCols t * TileRows t - 1).
  - destruct (EN s1) as (s2 & E2). rewrite (bind_ok _ _ _ _ _ E2). do 2 eexists. reflexivity.
  - do 2 eexists. reflexivity.
Qed.
Print Assumptions C156_group_returns.

(** A group of two tiles of one and two bytes, each read as one symbol over a CDF of three symbols. *)
Definition case_tile : M (TGState (list Z)) unit := fun g =>
  match ReadSymbol true [16384; 24576; 32768; 0] (gDec g) with
  | Ok (v, _, d) => Ok (tt, mkTGState (gNum g) (gGrid g) (gQIndex g) d (v :: gRest g))
  | Panic => Panic | Hang => Hang end.
Lemma case_cdf : valid_cdf [16384; 24576; 32768; 0].
Proof. apply CdfDefaults.valid_cdfb_spec. reflexivity. Qed.
Lemma case_confined : confined case_tile.
Proof.
  intros a b e HT E. unfold case_tile in E. destruct (C27_read_symbol true _ _ _ case_cdf HT) as (v & c' & d' & E1 & _ & _ & IT & D). rewrite E1 in E. injection E as <-. cbn [gDec]. auto.
Qed.
Definition case_layout : layout := mkLayout 2 1 1 1 [0; 2; 4] [0; 2].
Definition case_tiles : Tiles := mkTiles [0; 2; 4] [0; 2] 2 1 1 0 1 0.
Definition case_group : group := mkGroup true 0 [[37]; [200; 77]].
Example C156_case : valid_layout case_layout /\ same_layout case_tiles case_layout /\ valid_group case_layout case_group /\ confined case_tile /\
  enc_group case_layout case_group = bits_of [160; 0; 37; 200; 77] /\
  exists s', buildTileGroup case_tiles 9 (fun r => r) case_tile (fun k r => k :: r) (ret tt) 5
    (mkTGState 0 (mkGrid 2 4 0 0 0 0) 0 (mkDec 0 0 0 (mkBS [160; 0; 37; 200; 77] 0 0)) []) = Ok (true, s') /\ gRest s' = [1; 2; 0; 0] /\ Position (Bits (gDec s')) = 40.
Proof.
  split; [unfold valid_layout; vm_compute; intuition (lia || discriminate)|]. split; [unfold same_layout; vm_compute; auto 10|].
  split; [|split; [exact case_confined|split; [vm_compute; reflexivity|eexists; split; [vm_compute; reflexivity|vm_compute; auto]]]].
  split; [discriminate|]. split; [vm_compute; discriminate|]. split; [vm_compute; reflexivity|]. split; [discriminate|].
  split; [repeat constructor; discriminate|]. split; [intros b [<-|[]]; vm_compute; discriminate|]. cbn [g_data case_group]. repeat (apply Forall_cons || apply Forall_nil); unfold is_byte; lia.
Qed.
