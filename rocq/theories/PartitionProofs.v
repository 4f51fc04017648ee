From Verif Require Import GoBase Constants Tables Bitstream Util Symbol Partition SpecPartition.

Lemma inside_rows r c h w a y x : 0 <= a <= h -> inside r c h w y x = inside r c a w y x + inside (r + a) c (h - a) w y x.
Proof.
  intros H. unfold inside. replace (r + a + (h - a)) with (r + h) by lia.
  destruct (Z.leb_spec r y), (Z.ltb_spec y (r + h)), (Z.ltb_spec y (r + a)), (Z.leb_spec (r + a) y), (Z.leb_spec c x), (Z.ltb_spec x (c + w)); cbn; lia.
Qed.
Lemma inside_cols r c h w a y x : 0 <= a <= w -> inside r c h w y x = inside r c h a y x + inside r (c + a) h (w - a) y x.
Proof.
  intros H. unfold inside. replace (c + a + (w - a)) with (c + w) by lia.
  destruct (Z.leb_spec r y), (Z.ltb_spec y (r + h)), (Z.ltb_spec x (c + a)), (Z.leb_spec (c + a) x), (Z.leb_spec c x), (Z.ltb_spec x (c + w)); cbn; lia.
Qed.
Lemma inside_0 r c h w y x : (y < r \/ r + h <= y \/ x < c \/ c + w <= x) -> inside r c h w y x = 0.
Proof.
  intros H. unfold inside. destruct (Z.leb_spec r y), (Z.ltb_spec y (r + h)), (Z.leb_spec c x), (Z.ltb_spec x (c + w)); cbn; lia.
Qed.
Lemma inside_1 r c h w y x : r <= y < r + h -> c <= x < c + w -> inside r c h w y x = 1.
Proof.
  intros H K. unfold inside. destruct (Z.leb_spec r y), (Z.ltb_spec y (r + h)), (Z.leb_spec c x), (Z.ltb_spec x (c + w)); cbn; lia.
Qed.
Lemma inside_range r c h w y x : 0 <= inside r c h w y x <= 1.
Proof. unfold inside. destruct (_ && _); lia. Qed.
Lemma count_app l l' y x : count (l ++ l') y x = count l y x + count l' y x.
Proof. induction l as [|[[r c] s] l IH]; cbn; lia. Qed.

Definition blocks (es : list event) : list (Z * Z * Z) :=
  flat_map (fun e => match e with EBlock r c s => [(r, c, s)] | EPart _ _ _ _ => [] end) es.
Lemma blocks_app a b : blocks (a ++ b) = blocks a ++ blocks b.
Proof. unfold blocks. apply flat_map_app. Qed.

(** square block sizes 4x4 .. 128x128 *)
Definition square (b : Z) : Prop := b = 0 \/ b = 3 \/ b = 6 \/ b = 9 \/ b = 12 \/ b = 15.
(** The partitions the code carries out correctly: NONE, VERT, SPLIT, HORZ_B, VERT_A, HORZ_4; those with three parts not for 8x8,
    that with four not for 8x8 and 128x128 (where the syntax does not have it). *)
Definition good_partition (b p : Z) : Prop :=
  p = 0 \/ p = 2 \/ p = 3 \/ (6 <= b /\ (p = 5 \/ p = 6)) \/ (6 <= b <= 12 /\ p = 8).
Definition good_event (e : event) : Prop := match e with EPart _ _ b p => good_partition b p | EBlock _ _ _ => True end.

Section P.
  Context {S : Type} (g : Grid) (pe he ve : Z -> Z -> Z -> bool -> bool -> M S Z) (blk : Z -> Z -> Z -> M S unit).
  Notation dB := (decodeBlock blk).
  Notation dP := (decodePartition g pe he ve blk).

  Lemma decodeBlock_inv r c z s a s' : dB r c z s = Ok (a, s') -> snd s' = snd s ++ [EBlock r c z].
  Proof.
    unfold decodeBlock, emit, on. rewrite bind_eq. cbn [fst snd]. destruct (blk r c z (fst s)) as [[b t]| |]; [|discriminate|discriminate].
    injection 1 as _ <-. reflexivity.
  Qed.
  Lemma on_inv {A} (m : M S A) s a s' : on m s = Ok (a, s') -> snd s' = snd s.
  Proof. unfold on. destruct (m (fst s)) as [[b t]| |]; [|discriminate|discriminate]. injection 1 as _ <-. reflexivity. Qed.
  Lemma choose_inv r c b h s a s' : choosePartition g pe he ve r c b h s = Ok (a, s') ->
    snd s' = snd s /\ (b < 3 -> a = 0) /\ (3 < a -> r + h < MiRows g /\ c + h < MiCols g).
  Proof.
    unfold choosePartition. destruct (Z.ltb_spec b BLOCK_8X8); [injection 1 as <- <-; change PARTITION_NONE with 0; split; [auto|]; split; [auto|lia]|].
    change BLOCK_8X8 with 3 in *. intros E. enough (snd s' = snd s /\ (3 < a -> r + h < MiRows g /\ c + h < MiCols g)) by (split; [tauto|split; [lia|tauto]]). revert E.
    destruct (Z.ltb_spec (r + h) (MiRows g)), (Z.ltb_spec (c + h) (MiCols g)); cbn [andb];
      [intros E; apply on_inv in E; auto| | |injection 1 as <- <-; change PARTITION_SPLIT with 3; split; [reflexivity|lia]].
    all: intros E; apply bind_inv in E; destruct E as (x & s1 & E & K); injection K as <- <-; apply on_inv in E; split; [exact E|]; destruct (bool_of x);
      change PARTITION_SPLIT with 3; change PARTITION_HORZ with 1; change PARTITION_VERT with 2; lia.
  Qed.

  (** What the events es of decoding a block at (r, c) of size b must satisfy *)
  Definition tiles (r c b : Z) (es : list event) : Prop :=
    (forall y x, y < MiRows g -> x < MiCols g -> count (blocks es) y x = inside r c (h4 b) (w4 b) y x) /\
    Forall (fun q => let '(r', c', z) := q in r <= r' < MiRows g /\ c <= c' < MiCols g /\ r' + h4 z <= r + h4 b /\ c' + w4 z <= c + w4 b) (blocks es).

  Lemma tiles_split r c b b1 e1 e2 e3 e4 : h4 b = 2 * h4 b1 -> w4 b = 2 * w4 b1 -> 0 <= h4 b1 -> 0 <= w4 b1 ->
    tiles r c b1 e1 -> tiles r (c + w4 b1) b1 e2 -> tiles (r + h4 b1) c b1 e3 -> tiles (r + h4 b1) (c + w4 b1) b1 e4 ->
    forall p, tiles r c b (EPart r c b p :: e1 ++ e2 ++ e3 ++ e4).
  Proof.
    intros H1 H2 H3 H4 [A1 B1] [A2 B2] [A3 B3] [A4 B4] p. unfold tiles.
    change (blocks (EPart r c b p :: e1 ++ e2 ++ e3 ++ e4)) with (blocks (e1 ++ e2 ++ e3 ++ e4)). rewrite !blocks_app. split.
    - intros y x Hy Hx. rewrite !count_app, A1, A2, A3, A4 by assumption.
      rewrite (inside_rows r c (h4 b) (w4 b) (h4 b1)) by lia. rewrite (inside_cols r c (h4 b1) (w4 b) (w4 b1)), (inside_cols (r + h4 b1) c (h4 b - h4 b1) (w4 b) (w4 b1)) by lia.
      replace (h4 b - h4 b1) with (h4 b1) by lia. replace (w4 b - w4 b1) with (w4 b1) by lia. lia.
    - repeat (apply Forall_app; split); eapply Forall_impl; [|exact B1| |exact B2| |exact B3| |exact B4]; intros [[r' c'] z]; lia.
  Qed.
  Lemma tiles_out r c b : (MiRows g <= r \/ MiCols g <= c) -> tiles r c b [].
  Proof. intros H. split; [|constructor]. intros y x Hy Hx. cbn. symmetry. apply inside_0. lia. Qed.

  Ltac binv E a s1 E1 := apply bind_inv in E; destruct E as (a & s1 & E1 & E).
  Lemma decodePartition_tiles fuel : forall r c b s s', square b -> dP fuel r c b s = Ok (tt, s') ->
    exists es, snd s' = snd s ++ es /\ (Forall good_event es -> tiles r c b es).
  Proof.
    induction fuel as [|fuel IH]; intros r c b s s' Hb E; [discriminate|]. cbn [decodePartition] in E.
    destruct (Z.leb_spec (MiRows g) r) as [Hr|Hr]; cbn [orb] in E.
    { injection E as <-. exists []. rewrite app_nil_r. split; [reflexivity|]. intros _. apply tiles_out. lia. }
    destruct (Z.leb_spec (MiCols g) c) as [Hc|Hc]; cbn [orb] in E.
    { injection E as <-. exists []. rewrite app_nil_r. split; [reflexivity|]. intros _. apply tiles_out. lia. }
    binv E n s1 E1. binv E p s2 E2. binv E u s3 E3. binv E sub s4 E4. binv E spl s5 E5. destruct u.
    assert (T3 : snd s3 = snd s ++ [EPart r c b p] /\ (b < 3 -> p = 0) /\ (3 < p -> r + shr n 1 < MiRows g /\ c + shr n 1 < MiCols g)).
    { unfold lift in E1. destruct (idx NUM_4X4_BLOCKS_WIDE b); try discriminate. injection E1 as _ <-. apply choose_inv in E2. destruct E2 as [E2 K].
      unfold emit in E3. injection E3 as <-. cbn [snd]. rewrite E2. auto. }
    destruct T3 as (T3 & T0 & TG).
    assert (T5 : snd s5 = snd s ++ [EPart r c b p]).
    { unfold lift in E4, E5. destruct (idx2 Partition_Subsize p b); try discriminate. destruct (idx2 Partition_Subsize PARTITION_SPLIT b); try discriminate.
      injection E4 as _ <-. injection E5 as _ <-. exact T3. }
    assert (Ep : 0 <= p <= 9).
    { unfold lift in E4. destruct (idx2 Partition_Subsize p b) as [v| |] eqn:K; try discriminate. unfold idx2, rbind in K.
      destruct (idx Partition_Subsize p) as [row| |] eqn:K2; try discriminate. apply idx_inv in K2. destruct K2 as [K2 _]. change (zlen Partition_Subsize) with 10 in K2. lia. }
    assert (N : lift (idx NUM_4X4_BLOCKS_WIDE b) s = Ok (w4 b, s)) by (destruct Hb as [->|[->|[->|[->|[->| ->]]]]]; reflexivity).
    rewrite N in E1. injection E1 as <- <-.
    clear N E2 E3 T3. revert E.
    set (half := shr (w4 b) 1). set (quarter := shr half 1).
    intros E.
    (* each partition *)
    assert (BAD : ~ good_partition b p -> forall es, Forall good_event (EPart r c b p :: es) -> tiles r c b (EPart r c b p :: es)).
    { intros K es F. inversion F; subst. contradiction. }
    change PARTITION_NONE with 0 in *; change PARTITION_HORZ with 1 in *; change PARTITION_VERT with 2 in *; change PARTITION_SPLIT with 3 in *; change PARTITION_HORZ_A with 4 in *;
    change PARTITION_HORZ_B with 5 in *; change PARTITION_VERT_A with 6 in *; change PARTITION_VERT_B with 7 in *; change PARTITION_HORZ_4 with 8 in *.
    destruct (Z.eqb_spec p 0) as [P|P].
    { apply decodeBlock_inv in E. rewrite T5, <- app_assoc in E. exists ([EPart r c b p] ++ [EBlock r c sub]). split; [exact E|]. intros _. subst p.
      assert (sub = b) by (destruct Hb as [->|[->|[->|[->|[->| ->]]]]]; injection E4 as <- _; reflexivity). subst sub. split.
      - intros y x _ _. cbn [blocks flat_map app count]. lia.
      - cbn [blocks flat_map app]. apply Forall_cons; [lia|apply Forall_nil]. }
    assert (Hb3 : 3 <= b) by (destruct (Z.lt_ge_cases b 3); [exfalso; auto|assumption]).
    assert (Hb' : b = 3 \/ b = 6 \/ b = 9 \/ b = 12 \/ b = 15) by (unfold square in Hb; lia). clear T0.
    assert (HH : half = w4 b / 2 /\ quarter = w4 b / 4 /\ h4 b = w4 b /\ w4 b = 2 * half /\ (6 <= b -> half = 2 * quarter) /\ 1 <= half).
    { unfold quarter, half. destruct Hb' as [->|[->|[->|[->| ->]]]]; vm_compute; repeat split; try discriminate; intros K; contradiction K; reflexivity. }
    change (shr (w4 b) 1) with half in TG.
    destruct HH as (_ & _ & Hsq & Hhalf & Hq & Hpos).
    destruct (Z.eqb_spec p 1) as [P1|P1].
    { binv E u1 s6 E6. apply decodeBlock_inv in E6. destruct (_ <? _); [apply decodeBlock_inv in E|injection E as <-].
      - rewrite E6, T5, <- !app_assoc in E. eexists. split; [exact E|]. apply BAD. subst p. unfold good_partition. change PARTITION_HORZ with 1. lia.
      - rewrite T5, <- !app_assoc in E6. eexists. split; [exact E6|]. apply BAD. subst p. unfold good_partition. change PARTITION_HORZ with 1. lia. }
    destruct (Z.eqb_spec p 2) as [P2|P2].
    { assert (Dm : h4 sub = h4 b /\ w4 sub = half) by (subst p; destruct Hb' as [->|[->|[->|[->| ->]]]]; injection E4 as <- _; split; reflexivity).
      destruct Dm as [D1 D2].
      binv E u1 s6 E6. apply decodeBlock_inv in E6. destruct (Z.ltb_spec (c + half) (MiCols g)) as [HC|HC]; [apply decodeBlock_inv in E|injection E as <-].
      - rewrite E6, T5, <- !app_assoc in E. eexists. split; [exact E|]. intros _. split.
        + intros y x _ _. cbn [blocks flat_map app count]. rewrite (inside_cols r c (h4 b) (w4 b) half) by lia. rewrite D1, D2. replace (w4 b - half) with half by lia. lia.
        + cbn [blocks flat_map app]. repeat apply Forall_cons; try apply Forall_nil; lia.
      - rewrite T5, <- !app_assoc in E6. eexists. split; [exact E6|]. intros _. split.
        + intros y x _ Hx. cbn [blocks flat_map app count]. rewrite (inside_cols r c (h4 b) (w4 b) half) by lia. rewrite D1, D2.
          rewrite (inside_0 r (c + half)) by lia. lia.
        + cbn [blocks flat_map app]. repeat apply Forall_cons; try apply Forall_nil; lia. }
    destruct (Z.eqb_spec p 3) as [P3|P3].
    { assert (Dm : square sub /\ h4 sub = half /\ w4 sub = half).
      { subst p; destruct Hb' as [->|[->|[->|[->| ->]]]]; injection E4 as <- _; split; try (split; reflexivity); unfold square; lia. }
      destruct Dm as (D0 & D1 & D2).
      binv E u1 s6 E6. binv E u2 s7 E7. binv E u3 s8 E8. destruct u1, u2, u3.
      apply IH in E6; [|exact D0]. apply IH in E7; [|exact D0]. apply IH in E8; [|exact D0]. apply IH in E; [|exact D0].
      destruct E6 as (e1 & X1 & Y1), E7 as (e2 & X2 & Y2), E8 as (e3 & X3 & Y3), E as (e4 & X4 & Y4).
      exists (EPart r c b p :: e1 ++ e2 ++ e3 ++ e4). split; [rewrite X4, X3, X2, X1, T5, <- !app_assoc; reflexivity|].
      intros F. inversion F as [|? ? _ F']; subst. rewrite !Forall_app in F'. destruct F' as (F1 & F2 & F3 & F4).
      rewrite <- D1 in Y3, Y4 at 1. rewrite <- D2 in Y2. replace (c + half) with (c + w4 sub) in Y4 by lia.
      apply tiles_split with (b1 := sub); try lia; auto. }
    destruct (Z.eqb_spec p 4) as [P4|P4].
    { specialize (TG ltac:(lia)). binv E u1 s6 E6. binv E u2 s7 E7. apply decodeBlock_inv in E6, E7, E. rewrite E7, E6, T5, <- !app_assoc in E. eexists. split; [exact E|].
      apply BAD. subst p. unfold good_partition. change PARTITION_HORZ_A with 4. lia. }
    destruct (Z.eqb_spec p 5) as [P5|P5].
    { specialize (TG ltac:(lia)). binv E u1 s6 E6. binv E u2 s7 E7. apply decodeBlock_inv in E6, E7, E. rewrite E7, E6, T5, <- !app_assoc in E. eexists. split; [exact E|].
      destruct (Z.eq_dec b 3) as [B3|B3]; [apply BAD; subst p; unfold good_partition; change PARTITION_HORZ_B with 5; lia|].
      assert (Dm : h4 sub = half /\ w4 sub = w4 b /\ h4 spl = half /\ w4 spl = half).
      { subst p; destruct Hb' as [->|[->|[->|[->| ->]]]]; try contradiction; injection E4 as <- _; injection E5 as <- _; repeat split; reflexivity. }
      destruct Dm as (D1 & D2 & D3 & D4). intros F. split.
      - intros y x _ _. cbn [blocks flat_map app count]. rewrite (inside_rows r c (h4 b) (w4 b) half) by lia.
        rewrite (inside_cols (r + half) c (h4 b - half) (w4 b) half) by lia. rewrite D1, D2, D3, D4. replace (h4 b - half) with half by lia. replace (w4 b - half) with half by lia. lia.
      - cbn [blocks flat_map app]. repeat apply Forall_cons; try apply Forall_nil; lia. }
    destruct (Z.eqb_spec p 6) as [P6|P6].
    { specialize (TG ltac:(lia)). binv E u1 s6 E6. binv E u2 s7 E7. apply decodeBlock_inv in E6, E7, E. rewrite E7, E6, T5, <- !app_assoc in E. eexists. split; [exact E|].
      destruct (Z.eq_dec b 3) as [B3|B3]; [apply BAD; subst p; unfold good_partition; change PARTITION_VERT_A with 6; lia|].
      assert (Dm : w4 sub = half /\ h4 sub = h4 b /\ h4 spl = half /\ w4 spl = half).
      { subst p; destruct Hb' as [->|[->|[->|[->| ->]]]]; try contradiction; injection E4 as <- _; injection E5 as <- _; repeat split; reflexivity. }
      destruct Dm as (D1 & D2 & D3 & D4). intros F. split.
      - intros y x _ _. cbn [blocks flat_map app count]. rewrite (inside_cols r c (h4 b) (w4 b) half) by lia.
        rewrite (inside_rows r c (h4 b) half half) by lia. rewrite D1, D2, D3, D4. replace (h4 b - half) with half by lia. replace (w4 b - half) with half by lia. lia.
      - cbn [blocks flat_map app]. repeat apply Forall_cons; try apply Forall_nil; lia. }
    destruct (Z.eqb_spec p 7) as [P7|P7].
    { specialize (TG ltac:(lia)). binv E u1 s6 E6. binv E u2 s7 E7. apply decodeBlock_inv in E6, E7, E. rewrite E7, E6, T5, <- !app_assoc in E. eexists. split; [exact E|].
      apply BAD. subst p. unfold good_partition. change PARTITION_VERT_B with 7. lia. }
    destruct (Z.eqb_spec p 8) as [P8|P8].
    { specialize (TG ltac:(lia)). binv E u1 s6 E6. binv E u2 s7 E7. binv E u3 s8 E8. apply decodeBlock_inv in E6, E7, E8.
      destruct (Z.ltb_spec (r + quarter * 3) (MiRows g)) as [HC|HC]; [apply decodeBlock_inv in E; rewrite E8, E7, E6, T5, <- !app_assoc in E; rename E into EE
        |injection E as <-; rewrite E7, E6, T5, <- !app_assoc in E8; rename E8 into EE];
      (eexists; split; [exact EE|]);
      (destruct (Z.eq_dec b 3) as [B3|B3]; [apply BAD; subst p; unfold good_partition; change PARTITION_HORZ_4 with 8; lia|]);
      (destruct (Z.eq_dec b 15) as [B15|B15]; [apply BAD; subst p; unfold good_partition; change PARTITION_HORZ_4 with 8; lia|]);
      (assert (Dm : h4 sub = quarter /\ w4 sub = w4 b) by (subst p; destruct Hb' as [->|[->|[->|[->| ->]]]]; try contradiction; injection E4 as <- _; repeat split; reflexivity));
      destruct Dm as (D1 & D2); intros F; specialize (Hq ltac:(lia)).
      1,2: split; [intros y x Hy _; cbn [blocks flat_map app count]; rewrite (inside_rows r c (h4 b) (w4 b) quarter) by lia;
        rewrite (inside_rows (r + quarter) c (h4 b - quarter) (w4 b) quarter) by lia;
        rewrite (inside_rows (r + quarter + quarter) c (h4 b - quarter - quarter) (w4 b) quarter) by lia;
        rewrite D1, D2; replace (h4 b - quarter - quarter - quarter) with quarter by lia;
        replace (r + quarter * 0) with r by lia; replace (r + quarter * 1) with (r + quarter) by lia; replace (r + quarter * 2) with (r + quarter + quarter) by lia;
        replace (r + quarter + quarter + quarter) with (r + quarter * 3) by lia|].
      1: lia.
      2: rewrite (inside_0 (r + quarter * 3)) by lia; lia.
      all: cbn [blocks flat_map app]; repeat apply Forall_cons; try apply Forall_nil; try lia. }
    { specialize (TG ltac:(lia)). binv E u1 s6 E6. binv E u2 s7 E7. binv E u3 s8 E8. apply decodeBlock_inv in E6, E7, E8.
      change PARTITION_HORZ with 1 in *; change PARTITION_VERT with 2 in *; change PARTITION_SPLIT with 3 in *; change PARTITION_HORZ_A with 4 in *;
      change PARTITION_HORZ_B with 5 in *; change PARTITION_VERT_A with 6 in *; change PARTITION_VERT_B with 7 in *; change PARTITION_HORZ_4 with 8 in *.
      destruct (_ <? _); [apply decodeBlock_inv in E; rewrite E8, E7, E6, T5, <- !app_assoc in E; rename E into EE
        |injection E as <-; rewrite E7, E6, T5, <- !app_assoc in E8; rename E8 into EE];
      (eexists; split; [exact EE|]); apply BAD; unfold good_partition; lia. }
  Qed.
End P.

(** Enough fuel: never Hang *)
Definition never_hangs {S A} (m : M S A) : Prop := forall s, m s <> Hang.
Lemma nh_ret {S A} (a : A) : never_hangs (@ret S A a). Proof. intros s. discriminate. Qed.
Lemma nh_bind {S A B} (m : M S A) (k : A -> M S B) : never_hangs m -> (forall a, never_hangs (k a)) -> never_hangs (bind m k).
Proof.
  intros Hm Hk s. rewrite bind_eq. specialize (Hm s). destruct (m s) as [[a s1]| |]; [apply Hk|discriminate|congruence].
Qed.
Lemma nh_lift {S A} (r : res A) : r <> Hang -> never_hangs (@lift S A r). Proof. intros H s. unfold lift. destruct r; congruence. Qed.
Lemma idx_nh {A} (l : list A) i : idx l i <> Hang. Proof. unfold idx. destruct (i <? 0); [discriminate|]. destruct (nth_error l (Z.to_nat i)); discriminate. Qed.
Lemma idx2_nh {A} (l : list (list A)) i j : idx2 l i j <> Hang.
Proof. unfold idx2, rbind. pose proof (idx_nh l i). destruct (idx l i); [apply idx_nh|discriminate|congruence]. Qed.

Section H.
  Context {S : Type} (g : Grid) (pe he ve : Z -> Z -> Z -> bool -> bool -> M S Z) (blk : Z -> Z -> Z -> M S unit).
  Hypothesis Hpe : forall a b c d e, never_hangs (pe a b c d e).
  Hypothesis Hhe : forall a b c d e, never_hangs (he a b c d e).
  Hypothesis Hve : forall a b c d e, never_hangs (ve a b c d e).
  Hypothesis Hblk : forall a b c, never_hangs (blk a b c).
  Notation dB := (decodeBlock blk).
  Notation dP := (decodePartition g pe he ve blk).
  Lemma nh_on {A} (m : M S A) : never_hangs m -> never_hangs (on m).
  Proof. intros H s. unfold on. specialize (H (fst s)). destruct (m (fst s)) as [[? ?]| |]; congruence. Qed.
  Lemma nh_block r c z : never_hangs (dB r c z).
  Proof. apply nh_bind; [intros s; discriminate|]. intros _. apply nh_on, Hblk. Qed.
  Lemma nh_choose r c b h : never_hangs (choosePartition g pe he ve r c b h).
  Proof.
    unfold choosePartition. destruct (_ <? _); [apply nh_ret|]. destruct (_ && _); [apply nh_on, Hpe|].
    destruct (c + h <? MiCols g); [apply nh_bind; [apply nh_on, Hhe|intros; apply nh_ret]|].
    destruct (r + h <? MiRows g); [apply nh_bind; [apply nh_on, Hve|intros; apply nh_ret]|]. apply nh_ret.
  Qed.
  (** depth needed for a square block size *)
  Definition depth (b : Z) : nat := if b =? 15 then 6 else if b =? 12 then 5 else if b =? 9 then 4 else if b =? 6 then 3 else if b =? 3 then 2 else 1.
  Lemma nh_partition fuel : forall r c b, square b -> (depth b <= fuel)%nat -> never_hangs (dP fuel r c b).
  Proof.
    induction fuel as [|fuel IH]; intros r c b Hb Hf; [exfalso; destruct Hb as [->|[->|[->|[->|[->| ->]]]]]; cbn in Hf; lia|].
    cbn [decodePartition]. destruct (_ || _); [apply nh_ret|].
    apply nh_bind; [apply nh_lift, idx_nh|]. intros n. cbv zeta.
    assert (K : forall s p s1, choosePartition g pe he ve r c b (shr n 1) s = Ok (p, s1) -> b < 3 -> p = 0) by (intros s p s1 E; exact (proj1 (proj2 (choose_inv _ _ _ _ blk _ _ _ _ _ _ _ E)))).
    intros s. rewrite bind_eq. pose proof (nh_choose r c b (shr n 1) s) as Hc. destruct (choosePartition g pe he ve r c b (shr n 1) s) as [[p s1]| |] eqn:Ec; [|discriminate|congruence].
    specialize (K _ _ _ Ec). clear Hc Ec. revert s1.
    match goal with |- forall s1, ?m s1 <> Hang => change (never_hangs m) end.
    apply nh_bind; [intros t; discriminate|]. intros _.
    intros t. rewrite bind_eq. pose proof (nh_lift (S := St (S := S)) (idx2 Partition_Subsize p b) (idx2_nh _ _ _) t) as Hl.
    destruct (lift (idx2 Partition_Subsize p b) t) as [[sub t1]| |] eqn:El; [|discriminate|congruence]. clear Hl. revert t1 El.
    intros t1 El. assert (Es : idx2 Partition_Subsize p b = Ok sub) by (unfold lift in El; destruct (idx2 Partition_Subsize p b); try discriminate; injection El as <- _; reflexivity).
    clear El. revert t1. match goal with |- forall t1, ?m t1 <> Hang => change (never_hangs m) end.
    apply nh_bind; [apply nh_lift, idx2_nh|]. intros spl.
    destruct (p =? PARTITION_NONE); [apply nh_block|].
    destruct (p =? PARTITION_HORZ); [apply nh_bind; [apply nh_block|intros _]; destruct (_ <? _); [apply nh_block|apply nh_ret]|].
    destruct (p =? PARTITION_VERT); [apply nh_bind; [apply nh_block|intros _]; destruct (_ <? _); [apply nh_block|apply nh_ret]|].
    destruct (Z.eqb_spec p PARTITION_SPLIT) as [P|P].
    { subst p. assert (Hb3 : 3 <= b) by (destruct (Z.lt_ge_cases b 3) as [Q|Q]; [discriminate (K Q)|exact Q]).
      assert (Q : square sub /\ (depth sub <= fuel)%nat).
      { destruct Hb as [->|[->|[->|[->|[->| ->]]]]]; [lia|..]; injection Es as <-; (split; [unfold square; lia|cbn in *; lia]). }
      destruct Q. repeat (apply nh_bind; [apply IH; assumption|intros _]). apply IH; assumption. }
    repeat (match goal with |- never_hangs (if ?x then _ else _) => destruct x end); repeat (apply nh_bind; [apply nh_block|intros _]);
    repeat (match goal with |- never_hangs (if ?x then _ else _) => destruct x end); apply nh_block || apply nh_ret.
  Qed.
End H.

(** The superblocks of a tile *)
Section T.
  Context {S : Type} (g : Grid) (pe he ve : Z -> Z -> Z -> bool -> bool -> M S Z) (blk : Z -> Z -> Z -> M S unit) (rs : M S unit) (ss : Z -> Z -> M S unit).
  Lemma sbCols_tiles n : forall r c sb4 b s s', square b -> h4 b = sb4 -> w4 b = sb4 -> 0 < sb4 ->
    ((MiColEnd g - c) mod sb4 = 0 \/ MiColEnd g = MiCols g) ->
    sbCols g pe he ve blk ss n r c sb4 b s = Ok (tt, s') ->
    exists es, snd s' = snd s ++ es /\ (Forall good_event es -> forall y x, y < MiRows g -> x < MiCols g ->
      count (blocks es) y x = inside r c sb4 (Z.max 0 (MiColEnd g - c)) y x).
  Proof.
    induction n as [|n IH]; intros r c sb4 b s s' Hb H1 H2 Hp Ha E; cbn [sbCols] in E;
      (destruct (Z.ltb_spec c (MiColEnd g)) as [Hc|Hc]; [|injection E as <-; exists []; rewrite app_nil_r; split; [reflexivity|];
        intros _ y x _ _; cbn; symmetry; apply inside_0; lia]); [discriminate|].
    apply bind_inv in E. destruct E as (u & s1 & E1 & E). apply on_inv in E1.
    apply bind_inv in E. destruct E as (u2 & s2 & E2 & E). destruct u2. apply decodePartition_tiles in E2; [|exact Hb]. destruct E2 as (e1 & X1 & Y1).
    assert (Ha' : (MiColEnd g - (c + sb4)) mod sb4 = 0 \/ MiColEnd g = MiCols g).
    { destruct Ha as [Ha|Ha]; [left|right; exact Ha]. replace (MiColEnd g - (c + sb4)) with (MiColEnd g - c + (-1) * sb4) by lia. rewrite Z.mod_add by lia. exact Ha. }
    apply IH in E; try assumption. destruct E as (e2 & X2 & Y2).
    exists (e1 ++ e2). split; [rewrite X2, X1, E1, app_assoc; reflexivity|].
    intros F y x Hy Hx. rewrite Forall_app in F. destruct F as [F1 F2]. rewrite blocks_app, count_app. rewrite (proj1 (Y1 F1) y x Hy Hx), (Y2 F2 y x Hy Hx). rewrite H1, H2.
    destruct (Z.lt_ge_cases (MiColEnd g - c) sb4) as [L|L].
    - destruct Ha as [Ha|Ha]; [rewrite Z.mod_small in Ha by lia; lia|].
      rewrite Z.max_l by lia. rewrite (inside_0 r (c + sb4)) by lia. rewrite Z.max_r by lia.
      destruct (Z.lt_ge_cases x c); [rewrite !inside_0 by lia; lia|].
      destruct (Z.lt_ge_cases y r); [rewrite !inside_0 by lia; lia|]. destruct (Z.lt_ge_cases y (r + sb4)); [rewrite !inside_1 by lia; lia|rewrite !inside_0 by lia; lia].
    - rewrite !Z.max_r by lia. rewrite (inside_cols r c sb4 (MiColEnd g - c) sb4) by lia. replace (MiColEnd g - (c + sb4)) with (MiColEnd g - c - sb4) by lia. reflexivity.
  Qed.
  Lemma sbRows_tiles n m : forall r sb4 b s s', square b -> h4 b = sb4 -> w4 b = sb4 -> 0 < sb4 ->
    ((MiColEnd g - MiColStart g) mod sb4 = 0 \/ MiColEnd g = MiCols g) -> ((MiRowEnd g - r) mod sb4 = 0 \/ MiRowEnd g = MiRows g) ->
    sbRows g pe he ve blk rs ss n m r sb4 b s = Ok (tt, s') ->
    exists es, snd s' = snd s ++ es /\ (Forall good_event es -> forall y x, y < MiRows g -> x < MiCols g ->
      count (blocks es) y x = inside r (MiColStart g) (Z.max 0 (MiRowEnd g - r)) (Z.max 0 (MiColEnd g - MiColStart g)) y x).
  Proof.
    induction n as [|n IH]; intros r sb4 b s s' Hb H1 H2 Hp Hc Ha E; cbn [sbRows] in E;
      (destruct (Z.ltb_spec r (MiRowEnd g)) as [Hr|Hr]; [|injection E as <-; exists []; rewrite app_nil_r; split; [reflexivity|];
        intros _ y x _ _; cbn; symmetry; apply inside_0; lia]); [discriminate|].
    apply bind_inv in E. destruct E as (u & s1 & E1 & E). apply on_inv in E1.
    apply bind_inv in E. destruct E as (u2 & s2 & E2 & E). destruct u2. apply sbCols_tiles in E2; try assumption. destruct E2 as (e1 & X1 & Y1).
    assert (Ha' : (MiRowEnd g - (r + sb4)) mod sb4 = 0 \/ MiRowEnd g = MiRows g).
    { destruct Ha as [Ha|Ha]; [left|right; exact Ha]. replace (MiRowEnd g - (r + sb4)) with (MiRowEnd g - r + (-1) * sb4) by lia. rewrite Z.mod_add by lia. exact Ha. }
    apply IH in E; try assumption. destruct E as (e2 & X2 & Y2).
    exists (e1 ++ e2). split; [rewrite X2, X1, E1, app_assoc; reflexivity|].
    intros F y x Hy Hx. rewrite Forall_app in F. destruct F as [F1 F2]. rewrite blocks_app, count_app. rewrite (Y1 F1 y x Hy Hx), (Y2 F2 y x Hy Hx).
    set (W := Z.max 0 (MiColEnd g - MiColStart g)). assert (0 <= W) by lia.
    destruct (Z.lt_ge_cases (MiRowEnd g - r) sb4) as [L|L].
    - destruct Ha as [Ha|Ha]; [rewrite Z.mod_small in Ha by lia; lia|].
      rewrite (Z.max_l 0 (MiRowEnd g - (r + sb4))) by lia. rewrite (inside_0 (r + sb4)) by lia. rewrite Z.max_r by lia.
      destruct (Z.lt_ge_cases y r); [rewrite !inside_0 by lia; lia|].
      destruct (Z.lt_ge_cases x (MiColStart g)); [rewrite !inside_0 by lia; lia|].
      destruct (Z.lt_ge_cases x (MiColStart g + W)); [rewrite !inside_1 by lia; lia|rewrite !inside_0 by lia; lia].
    - rewrite !(Z.max_r 0 (MiRowEnd g - _)) by lia. rewrite (inside_rows r _ (MiRowEnd g - r) W sb4) by lia. replace (MiRowEnd g - (r + sb4)) with (MiRowEnd g - r - sb4) by lia. reflexivity.
  Qed.
End T.
