(** C37, C63: partition decoding. *)
From Verif Require Import GoBase Constants Tables Bitstream Util UtilProofs Symbol SpecSymbol SymbolProofs Partition SpecPartition PartitionProofs.

(** [run g el blk r c b s]: the events of decoding the block of size b at (r, c) from state s: Some list when decodePartition returns. *)
Definition run {S} (g : Grid) (pe he ve : Z -> Z -> Z -> bool -> bool -> M S Z) (blk : Z -> Z -> Z -> M S unit) (r c b : Z) (s : S) : option (list event) :=
  match decodePartition g pe he ve blk 6 r c b (s, []) with Ok (_, (_, es)) => Some es | _ => None end.

(** C37, true part: for every position, every square block size, every frame size, every behaviour of the syntax elements and of decodeBlock:
    if decodePartition returns and all partitions met on the way are NONE, VERT, SPLIT, HORZ_B, VERT_A or HORZ_4, the decoded blocks cover
    every visible 4x4 position of the block exactly once and nothing else, and each of them starts inside the frame. *)
Theorem C37_partition_tiles_partial : forall S g pe he ve blk r c b (s : S) es, square b ->
  run g pe he ve blk r c b s = Some es -> Forall good_event es ->
  (forall y x, y < MiRows g -> x < MiCols g -> count (blocks es) y x = if (r <=? y) && (y <? r + h4 b) && (c <=? x) && (x <? c + w4 b) then 1 else 0) /\
  Forall (fun q => let '(r', c', z) := q in r <= r' < MiRows g /\ c <= c' < MiCols g /\ r' + h4 z <= r + h4 b /\ c' + w4 z <= c + w4 b) (blocks es).
Proof.
  intros S g pe he ve blk r c b s es Hb E F. unfold run in E.
  destruct (decodePartition g pe he ve blk 6 r c b (s, [])) as [[[] [s' es']]| |] eqn:K; try discriminate. injection E as ->.
  apply decodePartition_tiles in K; [|exact Hb]. destruct K as (e & X & Y). cbn [snd app] in X. subst e. exact (Y F).
Qed.
Print Assumptions C37_partition_tiles_partial.

(** The same for a whole tile: each visible 4x4 position of the tile belongs to exactly one decoded block, positions outside to none.
    Tiles end on a superblock boundary or at the frame edge. *)
Theorem C37_tile_covered_partial : forall S g pe he ve blk rs ss (use128 : bool) (s s' : S) es,
  let sb := if use128 then 32 else 16 in
  ((MiColEnd g - MiColStart g) mod sb = 0 \/ MiColEnd g = MiCols g) -> ((MiRowEnd g - MiRowStart g) mod sb = 0 \/ MiRowEnd g = MiRows g) ->
  MiRowStart g <= MiRowEnd g -> MiColStart g <= MiColEnd g ->
  decodeSuperblocks g pe he ve blk rs ss use128 (s, []) = Ok (tt, (s', es)) -> Forall good_event es ->
  forall y x, y < MiRows g -> x < MiCols g ->
  count (blocks es) y x = if (MiRowStart g <=? y) && (y <? MiRowEnd g) && (MiColStart g <=? x) && (x <? MiColEnd g) then 1 else 0.
Proof.
  intros S g pe he ve blk rs ss use128 s s' es sb Hc Hr Hre Hce E F y x Hy Hx. unfold decodeSuperblocks in E.
  set (b := if use128 then BLOCK_128X128 else BLOCK_64X64) in *.
  assert (B : square b /\ h4 b = sb /\ w4 b = sb /\ 0 < sb) by (unfold b, sb, square; destruct use128; cbn; repeat split; try lia; tauto).
  destruct B as (B1 & B2 & B3 & B4).
  assert (N : lift (idx NUM_4X4_BLOCKS_WIDE b) (s, @nil event) = Ok (sb, (s, []))) by (unfold b, sb; destruct use128; reflexivity).
  rewrite (bind_ok _ _ _ _ _ N) in E. apply sbRows_tiles in E; try assumption. destruct E as (e & X & Y). cbn [snd app] in X. subst e.
  rewrite (Y F y x Hy Hx). unfold inside. rewrite !Z.max_r by lia.
  replace (MiRowStart g + (MiRowEnd g - MiRowStart g)) with (MiRowEnd g) by lia. replace (MiColStart g + (MiColEnd g - MiColStart g)) with (MiColEnd g) by lia. reflexivity.
Qed.
Print Assumptions C37_tile_covered_partial.

(** Partition decoding of a superblock never loops, provided block decoding does not. *)
Theorem C37_partition_terminates : forall S g pe he ve blk r c b (s : S), square b ->
  (forall x y z u v t, pe x y z u v t <> Hang) -> (forall x y z u v t, he x y z u v t <> Hang) -> (forall x y z u v t, ve x y z u v t <> Hang) ->
  (forall x y z t, blk x y z t <> Hang) ->
  decodePartition g pe he ve blk 6 r c b (s, []) <> Hang.
Proof.
  intros S g pe he ve blk r c b s Hb H1 H2 H3 H4. apply nh_partition; try (intros ? ? ? ? ? ?; auto; fail); try assumption.
  destruct Hb as [->|[->|[->|[->|[->| ->]]]]]; cbn; lia.
Qed.
Print Assumptions C37_partition_terminates.

(** * Refuted parts: what the other four partitions decode *)
Section Bad.
  Context {S : Type} (g : Grid) (pe he ve : Z -> Z -> Z -> bool -> bool -> M S Z) (blk : Z -> Z -> Z -> M S unit).
  Lemma bad_blocks fuel r c b s s' : square b -> 3 <= b -> r < MiRows g -> c < MiCols g ->
    decodePartition g pe he ve blk (Datatypes.S fuel) r c b s = Ok (tt, s') ->
    exists p es, snd s' = snd s ++ EPart r c b p :: es /\
      let h := w4 b / 2 in let q := w4 b / 4 in
      let sub := nth (Z.to_nat b) (nth (Z.to_nat p) Partition_Subsize []) 0 in let spl := nth (Z.to_nat b) (nth 3 Partition_Subsize []) 0 in
      (p = 1 -> r + h < MiRows g -> blocks es = [(r + h, c, sub); (r + h, c, sub)]) /\
      (p = 4 -> blocks es = [(r, c, spl); (r, c + h, spl); (r + h, c, spl)]) /\
      (p = 7 -> blocks es = [(r, c, sub); (r, c + h, spl); (r + h, c + h, sub)]) /\
      (p = 9 -> MiRows g <= c + 3 * q -> blocks es = [(r, c, sub); (r, c + q, sub); (r, c + 2 * q, sub)]).
  Proof.
    intros Hb Hb3 Hr Hc E. cbn [decodePartition] in E. destruct (Z.leb_spec (MiRows g) r); [lia|]. destruct (Z.leb_spec (MiCols g) c); [lia|]. cbn [orb] in E.
    assert (N : lift (idx NUM_4X4_BLOCKS_WIDE b) s = Ok (w4 b, s)) by (destruct Hb as [->|[->|[->|[->|[->| ->]]]]]; reflexivity).
    rewrite (bind_ok _ _ _ _ _ N) in E. cbv zeta in E.
    assert (HH : shr (w4 b) 1 = w4 b / 2 /\ shr (shr (w4 b) 1) 1 = w4 b / 4) by (destruct Hb as [->|[->|[->|[->|[->| ->]]]]]; split; reflexivity).
    destruct HH as [H1 H2]. rewrite H2, H1 in E. clear H1 H2.
    apply bind_inv in E. destruct E as (p & s2 & E2 & E). apply (choose_inv _ _ _ _ blk) in E2. destruct E2 as (E2 & _).
    rewrite (bind_ok (emit _) _ s2 tt (fst s2, snd s2 ++ [EPart r c b p]) eq_refl) in E.
    apply bind_inv in E. destruct E as (sub & s4 & E4 & E). apply bind_inv in E. destruct E as (spl & s5 & E5 & E).
    assert (Sb : nth (Z.to_nat b) (nth (Z.to_nat p) Partition_Subsize []) 0 = sub /\ nth (Z.to_nat b) (nth 3 Partition_Subsize []) 0 = spl /\ snd s5 = snd s ++ [EPart r c b p]).
    { unfold lift in E4, E5. destruct (idx2 Partition_Subsize p b) as [v| |] eqn:K4; try discriminate. destruct (idx2 Partition_Subsize PARTITION_SPLIT b) as [v'| |] eqn:K5; try discriminate.
      injection E4 as <- <-. injection E5 as <- <-. cbn [snd]. rewrite E2. split; [|split; [|reflexivity]].
      - unfold idx2, rbind in K4. destruct (idx Partition_Subsize p) as [row| |] eqn:K; try discriminate. apply idx_inv in K. destruct K as [_ K]. rewrite (nth_error_nth _ _ _ K).
        apply idx_inv in K4. destruct K4 as [_ K4]. exact (nth_error_nth _ _ _ K4).
      - unfold idx2, rbind in K5. change (idx Partition_Subsize PARTITION_SPLIT) with (Ok (nth 3 Partition_Subsize [])) in K5.
        apply idx_inv in K5. destruct K5 as [_ K5]. exact (nth_error_nth _ _ _ K5). }
    destruct Sb as (Sb & Sp & T5). exists p. cbv zeta. rewrite Sb, Sp.
    assert (OTHER : p <> 1 -> p <> 4 -> p <> 7 -> p <> 9 -> exists es, snd s' = snd s ++ EPart r c b p :: es).
    { intros _ _ _ _. assert (D : exists es, snd s' = snd s5 ++ es).
      { assert (DB : forall x y z t t', decodeBlock blk x y z t = Ok (tt, t') -> exists es, snd t' = snd t ++ es) by (intros x y z t t' K; apply decodeBlock_inv in K; eexists; exact K).
        assert (BI : forall (m k : M (St (S := S)) unit) t t', (forall t t' : St (S := S), m t = Ok (tt, t') -> exists es, snd t' = snd t ++ es) -> (forall t t' : St (S := S), k t = Ok (tt, t') -> exists es, snd t' = snd t ++ es) ->
                   bind m (fun _ => k) t = Ok (tt, t') -> exists es, snd t' = snd t ++ es).
        { intros m k t t' Hm Hk K. apply bind_inv in K. destruct K as ([] & t1 & K1 & K). apply Hm in K1. apply Hk in K. destruct K1 as [e1 K1], K as [e2 K]. exists (e1 ++ e2).
          rewrite K, K1, app_assoc. reflexivity. }
        assert (RT : forall t t' : St (S := S), ret tt t = Ok (tt, t') -> exists es, snd t' = snd t ++ es) by (intros t t' K; injection K as <-; exists []; rewrite app_nil_r; reflexivity).
        assert (DP : forall x y, p =? PARTITION_SPLIT = true -> forall t t', decodePartition g pe he ve blk fuel x y sub t = Ok (tt, t') -> exists es, snd t' = snd t ++ es).
        { intros x y P t t' K. apply Z.eqb_eq in P. subst p. apply decodePartition_tiles in K; [destruct K as (es & K & _); exists es; exact K|].
          destruct Hb as [->|[->|[->|[->|[->| ->]]]]]; [lia|..]; rewrite <- Sb; vm_compute; tauto. }
        revert E. generalize s5 s'. destruct (p =? PARTITION_NONE); [apply DB|].
        destruct (p =? PARTITION_HORZ); [intros ? ?; apply BI; [apply DB|]; destruct (_ <? _); [apply DB|apply RT]|].
        destruct (p =? PARTITION_VERT); [intros ? ?; apply BI; [apply DB|]; destruct (_ <? _); [apply DB|apply RT]|].
        destruct (p =? PARTITION_SPLIT) eqn:P; [intros ? ?; apply BI; [apply DP, eq_refl|]; intros ? ?; apply BI; [apply DP, eq_refl|]; intros ? ?; apply BI; [apply DP, eq_refl|apply DP, eq_refl]|].
        do 5 (match goal with |- forall _ _, (if ?x then _ else _) _ = _ -> _ => destruct x end;
          [intros ? ?; apply BI; [apply DB|]; intros ? ?; apply BI; [apply DB|]; first [apply DB|intros ? ?; apply BI; [apply DB|]; destruct (_ <? _); [apply DB|apply RT]]|]).
        intros ? ?; apply BI; [apply DB|]; intros ? ?; apply BI; [apply DB|]; intros ? ?; apply BI; [apply DB|]. destruct (_ <? _); [apply DB|apply RT]. }
      destruct D as [es D]. rewrite T5, <- app_assoc in D. exists es. exact D. }
    change PARTITION_NONE with 0 in *; change PARTITION_HORZ with 1 in *; change PARTITION_VERT with 2 in *; change PARTITION_SPLIT with 3 in *; change PARTITION_HORZ_A with 4 in *;
    change PARTITION_HORZ_B with 5 in *; change PARTITION_VERT_A with 6 in *; change PARTITION_VERT_B with 7 in *; change PARTITION_HORZ_4 with 8 in *.
    destruct (Z.eq_dec p 1) as [->|N1].
    { cbn [Z.eqb Pos.eqb] in E. apply bind_inv in E. destruct E as (u & s6 & E6 & E). apply decodeBlock_inv in E6. destruct (Z.ltb_spec (r + w4 b / 2) (MiRows g)) as [L|L].
      - apply decodeBlock_inv in E. rewrite E6, T5, <- !app_assoc in E. eexists. split; [exact E|]. repeat split; intros; try lia; reflexivity.
      - injection E as <-. rewrite T5, <- !app_assoc in E6. eexists. split; [exact E6|]. repeat split; intros; try lia. }
    destruct (Z.eq_dec p 4) as [->|N4].
    { cbn [Z.eqb Pos.eqb] in E. apply bind_inv in E. destruct E as (u & s6 & E6 & E). apply bind_inv in E. destruct E as (u2 & s7 & E7 & E). apply decodeBlock_inv in E6, E7, E.
      rewrite E7, E6, T5, <- !app_assoc in E. eexists. split; [exact E|]. repeat split; intros; try lia; reflexivity. }
    destruct (Z.eq_dec p 7) as [->|N7].
    { cbn [Z.eqb Pos.eqb] in E. apply bind_inv in E. destruct E as (u & s6 & E6 & E). apply bind_inv in E. destruct E as (u2 & s7 & E7 & E). apply decodeBlock_inv in E6, E7, E.
      rewrite E7, E6, T5, <- !app_assoc in E. eexists. split; [exact E|]. repeat split; intros; try lia; reflexivity. }
    destruct (Z.eq_dec p 9) as [->|N9].
    { cbn [Z.eqb Pos.eqb] in E. apply bind_inv in E. destruct E as (u & s6 & E6 & E). apply bind_inv in E. destruct E as (u2 & s7 & E7 & E). apply bind_inv in E. destruct E as (u3 & s8 & E8 & E).
      apply decodeBlock_inv in E6, E7, E8. replace (c + w4 b / 4 * 3) with (c + 3 * (w4 b / 4)) in E by lia. destruct (Z.ltb_spec (c + 3 * (w4 b / 4)) (MiRows g)) as [L|L].
      - apply decodeBlock_inv in E. rewrite E8, E7, E6, T5, <- !app_assoc in E. eexists. split; [exact E|]. repeat split; intros; try lia.
      - injection E as <-. rewrite E7, E6, T5, <- !app_assoc in E8. eexists. split; [exact E8|]. repeat split; intros; try lia.
        cbn [app blocks flat_map]. rewrite Z.mul_0_r, Z.mul_1_r, Z.add_0_r, (Z.mul_comm 2). reflexivity. }
    destruct (OTHER N1 N4 N7 N9) as [es HE]. exists es. split; [exact HE|]. repeat split; intros; contradiction.
  Qed.
End Bad.

Lemma run_bad S g pe he ve blk r c b (s : S) es : square b -> 3 <= b -> r < MiRows g -> c < MiCols g -> run g pe he ve blk r c b s = Some es ->
  exists p es', es = EPart r c b p :: es' /\
      let h := w4 b / 2 in let q := w4 b / 4 in
      let sub := nth (Z.to_nat b) (nth (Z.to_nat p) Partition_Subsize []) 0 in let spl := nth (Z.to_nat b) (nth 3 Partition_Subsize []) 0 in
      (p = 1 -> r + h < MiRows g -> blocks es' = [(r + h, c, sub); (r + h, c, sub)]) /\
      (p = 4 -> blocks es' = [(r, c, spl); (r, c + h, spl); (r + h, c, spl)]) /\
      (p = 7 -> blocks es' = [(r, c, sub); (r, c + h, spl); (r + h, c + h, sub)]) /\
      (p = 9 -> MiRows g <= c + 3 * q -> blocks es' = [(r, c, sub); (r, c + q, sub); (r, c + 2 * q, sub)]).
Proof.
  intros Hb Hb3 Hr Hc E. unfold run in E. destruct (decodePartition g pe he ve blk 6 r c b (s, [])) as [[[] [s' es']]| |] eqn:K; try discriminate. injection E as ->.
  apply bad_blocks in K; try assumption; exact K.
Qed.
Lemma dims b p : square b -> 3 <= b -> let sub := nth (Z.to_nat b) (nth (Z.to_nat p) Partition_Subsize []) 0 in let spl := nth (Z.to_nat b) (nth 3 Partition_Subsize []) 0 in
  h4 b = w4 b /\ 1 <= w4 b / 2 /\ w4 b = 2 * (w4 b / 2) /\ h4 spl = w4 b / 2 /\ w4 spl = w4 b / 2 /\
  (p = 1 -> h4 sub = w4 b / 2 /\ w4 sub = w4 b) /\ (p = 7 -> h4 sub = w4 b /\ w4 sub = w4 b / 2) /\
  (p = 9 -> 6 <= b <= 12 -> h4 sub = w4 b /\ w4 sub = w4 b / 4 /\ 1 <= w4 b / 4).
Proof.
  intros Hb Hb3. destruct Hb as [->|[->|[->|[->|[->| ->]]]]]; [lia|..]; cbv zeta; (split; [reflexivity|]); (split; [discriminate|]);
    (split; [reflexivity|]); (split; [reflexivity|]); (split; [reflexivity|]); (split; [intros ->; split; reflexivity|]); (split; [intros ->; split; reflexivity|]);
    intros -> K; try lia; split; [reflexivity|split; [reflexivity|discriminate]| | | | ]; repeat split; try reflexivity; discriminate.
Qed.
(** PARTITION_HORZ: the upper half is never decoded, the lower half twice (line 55). *)
Theorem C37_horz_refuted : forall S g pe he ve blk r c b (s : S) es, square b -> 3 <= b -> r < MiRows g -> c < MiCols g -> r + h4 b / 2 < MiRows g ->
  run g pe he ve blk r c b s = Some (EPart r c b PARTITION_HORZ :: es) ->
  count (blocks es) r c = 0 /\ count (blocks es) (r + h4 b / 2) c = 2.
Proof.
  intros S g pe he ve blk r c b s es Hb Hb3 Hr Hc Hh E. destruct (run_bad _ _ _ _ _ _ _ _ _ _ _ Hb Hb3 Hr Hc E) as (p & es' & X & Y & _).
  injection X as <- <-. cbv zeta in Y. pose proof (dims b PARTITION_HORZ Hb ltac:(lia)) as D. cbv zeta in D. destruct D as (D1 & D2 & D3 & D4 & D5 & D6 & _). specialize (D6 eq_refl).
  rewrite D1 in *. rewrite (Y eq_refl Hh). clear Y E. destruct D6 as [D6 D7]. cbn [count]. rewrite D6, D7. rewrite (inside_0 _ _ _ _ r c) by lia. rewrite inside_1 by lia. split; reflexivity.
Qed.
Print Assumptions C37_horz_refuted.
(** PARTITION_HORZ_A: the lower right quarter is never decoded (line 72 uses the split size). *)
Theorem C37_horz_a_refuted : forall S g pe he ve blk r c b (s : S) es, square b -> 6 <= b -> r < MiRows g -> c < MiCols g ->
  run g pe he ve blk r c b s = Some (EPart r c b PARTITION_HORZ_A :: es) ->
  count (blocks es) (r + h4 b / 2) (c + w4 b / 2) = 0.
Proof.
  intros S g pe he ve blk r c b s es Hb Hb3 Hr Hc E. destruct (run_bad _ _ _ _ _ _ _ _ _ _ _ Hb ltac:(lia) Hr Hc E) as (p & es' & X & _ & Y & _).
  injection X as <- <-. cbv zeta in Y. pose proof (dims b PARTITION_HORZ_A Hb ltac:(lia)) as D. cbv zeta in D. destruct D as (D1 & D2 & D3 & D4 & D5 & _).
  rewrite D1 in *. rewrite (Y eq_refl). clear Y E. cbn [count]. rewrite D4, D5. rewrite !inside_0 by lia. reflexivity.
Qed.
Print Assumptions C37_horz_a_refuted.
(** PARTITION_VERT_B: the third block reaches below the block being partitioned (line 86 uses the half-width size). *)
Theorem C37_vert_b_refuted : forall S g pe he ve blk r c b (s : S) es, square b -> 6 <= b -> r < MiRows g -> c < MiCols g ->
  run g pe he ve blk r c b s = Some (EPart r c b PARTITION_VERT_B :: es) ->
  count (blocks es) (r + h4 b) (c + w4 b / 2) = 1.
Proof.
  intros S g pe he ve blk r c b s es Hb Hb3 Hr Hc E. destruct (run_bad _ _ _ _ _ _ _ _ _ _ _ Hb ltac:(lia) Hr Hc E) as (p & es' & X & _ & _ & Y & _).
  injection X as <- <-. cbv zeta in Y. pose proof (dims b PARTITION_VERT_B Hb ltac:(lia)) as D. cbv zeta in D. destruct D as (D1 & D2 & D3 & D4 & D5 & _ & D6 & _). specialize (D6 eq_refl).
  rewrite D1 in *. rewrite (Y eq_refl). clear Y E. destruct D6 as [D6 D7]. cbn [count]. rewrite D4, D5, D6, D7. rewrite (inside_0 r c), (inside_0 r (c + _)), inside_1 by lia. reflexivity.
Qed.
Print Assumptions C37_vert_b_refuted.
(** PARTITION_VERT_4: the last quarter is decoded depending on the number of rows instead of columns (line 97): left of the frame
    diagonal it is missing even when it is visible. *)
Theorem C37_vert_4_refuted : forall S g pe he ve blk r c b (s : S) es, square b -> 6 <= b <= 12 -> r < MiRows g -> c < MiCols g -> MiRows g <= c + 3 * (w4 b / 4) ->
  run g pe he ve blk r c b s = Some (EPart r c b PARTITION_VERT_4 :: es) ->
  count (blocks es) r (c + 3 * (w4 b / 4)) = 0.
Proof.
  intros S g pe he ve blk r c b s es Hb Hb3 Hr Hc Hq E. destruct (run_bad _ _ _ _ _ _ _ _ _ _ _ Hb ltac:(lia) Hr Hc E) as (p & es' & X & _ & _ & _ & Y).
  injection X as <- <-. cbv zeta in Y. pose proof (dims b PARTITION_VERT_4 Hb ltac:(lia)) as D. cbv zeta in D. destruct D as (D1 & D2 & D3 & D4 & D5 & _ & _ & D6). specialize (D6 eq_refl ltac:(lia)).
  rewrite (Y eq_refl Hq). clear Y E. destruct D6 as (D6 & D7 & D8). cbn [count]. rewrite D7. rewrite !inside_0 by lia. reflexivity.
Qed.
Print Assumptions C37_vert_4_refuted.

(** Blocks that cross only the bottom edge or only the right edge of the frame: the syntax elements for them panic on every input
    (lines 136 and 173 write entry 3 of a slice of length 3), so no such frame can be decoded. *)
Lemma splitOr_panics X plus plus4 b r c u l (s : PState X) : match splitOrElement plus plus4 b r c u l s with Ok _ => False | _ => True end.
Proof.
  unfold splitOrElement.
  destruct (bind _ _ s) as [[v t]| |] eqn:E; auto.
  apply bind_inv in E. destruct E as (bsl & s1 & _ & E). apply bind_inv in E. destruct E as (ctx & s2 & _ & E). apply bind_inv in E. destruct E as (st & s3 & _ & E).
  apply bind_inv in E. destruct E as (tb & s4 & _ & E). apply bind_inv in E. destruct E as (p & s5 & _ & E). cbv zeta in E. apply bind_inv in E. destruct E as (ps & s6 & _ & E).
  apply bind_inv in E. destruct E as (ps2 & s7 & _ & E). apply bind_inv in E. destruct E as (c0 & s8 & E0 & E). injection E0 as <- <-.
  apply bind_inv in E. destruct E as (c1 & s9 & E1 & E). injection E1 as <- <-. apply bind_inv in E. destruct E as (c2 & s10 & E2 & _). discriminate.
Qed.
Theorem C37_frame_edge_refuted : forall X g pe blk r c b (s : PState X), square b -> 3 <= b -> r < MiRows g -> c < MiCols g ->
  (MiRows g <= r + h4 b / 2 /\ c + w4 b / 2 < MiCols g) \/ (r + h4 b / 2 < MiRows g /\ MiCols g <= c + w4 b / 2) ->
  run g pe splitOrHorzElement splitOrVertElement blk r c b s = None.
Proof.
  intros X g pe blk r c b s Hb Hb3 Hr Hc He. unfold run.
  assert (G : forall fuel u t, decodePartition g pe splitOrHorzElement splitOrVertElement blk (Datatypes.S fuel) r c b (s, []) = Ok (u, t) -> False).
  2: { specialize (G 5%nat). destruct (decodePartition _ _ _ _ _ 6 r c b (s, [])) as [[u t]| |]; [destruct (G u t eq_refl)|reflexivity|reflexivity]. }
  intros fuel u t E.
  cbn [decodePartition] in E. destruct (Z.leb_spec (MiRows g) r); [lia|]. destruct (Z.leb_spec (MiCols g) c); [lia|]. cbn [orb] in E.
  assert (N : lift (idx NUM_4X4_BLOCKS_WIDE b) (s, @nil event) = Ok (w4 b, (s, []))) by (destruct Hb as [->|[->|[->|[->|[->| ->]]]]]; reflexivity).
  rewrite (bind_ok _ _ _ _ _ N) in E. cbv zeta in E.
  assert (HH : shr (w4 b) 1 = w4 b / 2 /\ h4 b = w4 b) by (destruct Hb as [->|[->|[->|[->|[->| ->]]]]]; split; reflexivity). destruct HH as [H1 H2].
  rewrite H1 in E. rewrite H2 in He. apply bind_inv in E. destruct E as (p & s2 & E2 & _). unfold choosePartition in E2.
  change BLOCK_8X8 with 3 in E2. destruct (Z.ltb_spec b 3); [lia|].
  destruct (Z.ltb_spec (r + w4 b / 2) (MiRows g)), (Z.ltb_spec (c + w4 b / 2) (MiCols g)); try lia; cbn [andb] in E2;
  apply bind_inv in E2; destruct E2 as (x & s3 & E3 & _); unfold on in E3; cbn [fst] in E3.
  - pose proof (splitOr_panics X [PARTITION_HORZ; PARTITION_SPLIT; PARTITION_HORZ_A; PARTITION_HORZ_B; PARTITION_VERT_A] PARTITION_HORZ_4 b r c (isInside g (r - 1) c) (isInside g r (c - 1)) s) as K.
    unfold splitOrVertElement in E3. destruct (splitOrElement _ _ _ _ _ _ _ s) as [[? ?]| |]; [destruct K|discriminate|discriminate].
  - pose proof (splitOr_panics X [PARTITION_VERT; PARTITION_SPLIT; PARTITION_HORZ_A; PARTITION_VERT_A; PARTITION_VERT_B] PARTITION_VERT_4 b r c (isInside g (r - 1) c) (isInside g r (c - 1)) s) as K.
    unfold splitOrHorzElement in E3. destruct (splitOrElement _ _ _ _ _ _ _ s) as [[? ?]| |]; [destruct K|discriminate|discriminate].
Qed.
Print Assumptions C37_frame_edge_refuted.

(** A case with every good partition type: a 64x64 superblock of a 96x64 frame region, decisions taken from a list. *)
Definition from_list : Z -> Z -> Z -> bool -> bool -> M (list Z) Z := fun _ _ _ _ _ l => match l with p :: l => Ok (p, l) | [] => Panic end.
Definition no_block : Z -> Z -> Z -> M (list Z) unit := fun _ _ _ => ret tt.
Definition demo_events : list event := Eval vm_compute in
  match run (mkGrid 24 24 0 24 0 24) from_list from_list from_list no_block 0 0 BLOCK_64X64 [3; 5; 6; 8; 3; 0; 2; 3; 0; 0; 0; 2; 0] with Some es => es | None => [] end.
Example C37_case :
  run (mkGrid 24 24 0 24 0 24) from_list from_list from_list no_block 0 0 BLOCK_64X64 [3; 5; 6; 8; 3; 0; 2; 3; 0; 0; 0; 2; 0] = Some demo_events /\
  Forall good_event demo_events /\ length (blocks demo_events) = 19%nat /\
  run (mkGrid 24 24 0 24 0 24) from_list from_list from_list no_block 0 0 BLOCK_64X64 [1] = Some [EPart 0 0 12 1; EBlock 8 0 11; EBlock 8 0 11].
Proof.
  split; [vm_compute; reflexivity|]. split; [|split; vm_compute; reflexivity].
  unfold demo_events. repeat (apply Forall_cons; [cbn; unfold good_partition; try exact I; lia|]). apply Forall_nil.
Qed.

(** C63: clearing the above and left contexts of a tile *)
Theorem C63_small_frames_partial : forall n, 0 <= n <= 3 -> clearContext n = Ok (repeat (repeat 0 (Z.to_nat n)) 3, repeat (repeat 0 (Z.to_nat n)) 3, [0; 0; 0]).
Proof. intros n H. assert (n = 0 \/ n = 1 \/ n = 2 \/ n = 3) as [->|[->|[->| ->]]] by lia; reflexivity. Qed.
Print Assumptions C63_small_frames_partial.
Lemma clearOne_inv i pl q x : clearOne i pl q = Ok x -> length (snd x) = length (snd q) /\ i < Z.of_nat (length (snd q)).
Proof.
  destruct q as [[l d] s], x as [[l' d'] s']. unfold clearOne, rbind. destruct (upd2 l pl i 0); try discriminate. destruct (upd2 d pl i 0); try discriminate.
  destruct (upd s i 0) as [z| |] eqn:KU; try discriminate. injection 1 as <- <- <-. apply upd_inv in KU. destruct KU as [KU ->]. cbn [snd]. rewrite upd_nat_length. unfold zlen in KU. split; [reflexivity|lia].
Qed.
Lemma upd_nh {A} (l : list A) i v : upd l i v <> Hang. Proof. unfold upd. destruct (_ || _); discriminate. Qed.
Lemma upd2_nh {A} (l : list (list A)) i j v : upd2 l i j v <> Hang.
Proof. unfold upd2, rbind. pose proof (idx_nh l i). destruct (idx l i) as [row| |]; try congruence. pose proof (upd_nh row j v). destruct (upd row j v); try congruence. apply upd_nh. Qed.
Lemma clearOne_nh i pl q : clearOne i pl q <> Hang.
Proof.
  destruct q as [[l d] s]. unfold clearOne, rbind. pose proof (upd2_nh l pl i 0). destruct (upd2 l pl i 0); try congruence. pose proof (upd2_nh d pl i 0).
  destruct (upd2 d pl i 0); try congruence. pose proof (upd_nh s i 0). destruct (upd s i 0); congruence.
Qed.
Lemma rfor_nh {A} (f : Z -> A -> res A) : (forall i a, f i a <> Hang) -> forall n i a, rfor_from n i f a <> Hang.
Proof. intros H. induction n as [|n IH]; intros i a; cbn [rfor_from]; [discriminate|]. specialize (H i a). unfold rbind. destruct (f i a); congruence || apply IH. Qed.
Theorem C63_clear_context_refuted : forall n, 3 < n -> clearContext n = Panic.
Proof.
  intros n H. unfold clearContext. destruct (Z.ltb_spec n 0); [lia|]. cbv zeta.
  set (body := fun i acc => rfor_to 0 3 (clearOne i) acc).
  assert (NH : forall i a, body i a <> Hang) by (intros i a; unfold body, rfor_to; apply rfor_nh; intros; apply clearOne_nh).
  assert (ST : forall i q x, body i q = Ok x -> length (snd x) = length (snd q) /\ i < Z.of_nat (length (snd q))).
  { intros i q x E. unfold body, rfor_to in E. change (Z.to_nat (3 - 0)) with 3%nat in E. cbn [rfor_from] in E.
    destruct (clearOne i 0 q) as [x1| |] eqn:E1; try discriminate. cbn [rbind] in E. apply clearOne_inv in E1. change (0 + 1) with 1 in E.
    destruct (clearOne i 1 x1) as [x2| |] eqn:E2; try discriminate. cbn [rbind] in E. apply clearOne_inv in E2. change (1 + 1) with 2 in E.
    destruct (clearOne i 2 x2) as [x3| |] eqn:E3; try discriminate. cbn [rbind] in E. injection E as ->. apply clearOne_inv in E3. lia. }
  set (st0 := (_, _, [0; 0; 0])). assert (HL : length (snd st0) = 3%nat) by reflexivity. clearbody body st0.
  destruct (rfor_to 0 n body st0) as [x| |] eqn:E; [|reflexivity|exfalso; revert E; apply rfor_nh, NH].
  exfalso. unfold rfor_to in E. replace (Z.to_nat (n - 0)) with (4 + Z.to_nat (n - 4))%nat in E by lia. cbn [Nat.add rfor_from] in E.
  destruct (body 0 st0) as [x1| |] eqn:B0; try discriminate. apply ST in B0. cbn [rbind] in E. change (0 + 1) with 1 in E.
  destruct (body 1 x1) as [x2| |] eqn:B1; try discriminate. apply ST in B1. cbn [rbind] in E. change (1 + 1) with 2 in E.
  destruct (body 2 x2) as [x3| |] eqn:B2; try discriminate. apply ST in B2. cbn [rbind] in E. change (2 + 1) with 3 in E.
  destruct (body 3 x3) as [x4| |] eqn:B3; try discriminate. apply ST in B3. lia.
Qed.
Print Assumptions C63_clear_context_refuted.
Example C63_case : clearContext 2 = Ok ([[0;0];[0;0];[0;0]], [[0;0];[0;0];[0;0]], [0;0;0]) /\ clearContext 4 = Panic.
Proof. vm_compute. auto. Qed.
