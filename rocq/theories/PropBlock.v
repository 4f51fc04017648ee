(** Properties C114-C118: what decode_block records. *)
From Verif Require Import GoBase Bitstream Util UtilProofs Constants Tables Frame Writes Partition SpecPartition SpecBlock ModeInfoProofs Block.
Local Open Scope Z_scope.

(** ** C114: chroma and neighbours *)
(** The position (y, x) lies in the tile. *)
Definition tile_has (g : Grid) (y x : Z) : Prop := MiRowStart g <= y < MiRowEnd g /\ MiColStart g <= x < MiColEnd g.
(** Chroma of a subsampled plane is coded with the block that covers an odd row (column): the last one of every pair. *)
Definition covers_chroma (subX subY : bool) (size r c : Z) : Prop :=
  exists y x, r <= y < r + h4 size /\ c <= x < c + w4 size /\ (subY = true -> Z.Odd y) /\ (subX = true -> Z.Odd x).
(** The first luma row (column) the chroma of a block belongs to *)
Definition chroma_origin (sub : bool) (r : Z) : Z := if sub then 2 * (r / 2) else r.
Lemma inside_has g y x : isInside g y x = true <-> tile_has g y x.
Proof. unfold isInside, tile_has. rewrite !andb_true_iff, !Z.leb_le, !Z.ltb_lt. lia. Qed.
Lemma land1 a : (Z.land a 1 =? 0) = negb (Z.odd a).
Proof. change 1 with (Z.ones 1) at 1. rewrite Z.land_ones by lia. change (2 ^ 1) with 2. rewrite Zmod_odd. destruct (Z.odd a); reflexivity. Qed.
Lemma unit_sizes b : 0 <= b < 22 -> idx NUM_4X4_BLOCKS_WIDE b = Ok (w4 b) /\ idx NUM_4X4_BLOCKS_HIGH b = Ok (h4 b) /\ 0 < w4 b /\ 0 < h4 b /\ (w4 b = 1 \/ (2 | w4 b)) /\ (h4 b = 1 \/ (2 | h4 b)).
Proof.
  intros H. apply in_blocks in H. cbn in H. repeat (destruct H as [<-|H]; [split; [reflexivity|split; [reflexivity|split; [reflexivity|split; [reflexivity|split]]]]; first [left; reflexivity|right; apply Z.mod_divide; [lia|reflexivity]]|]). contradiction.
Qed.
Lemma odd_in r n : 0 < n -> (n = 1 \/ (2 | n)) -> (exists y, r <= y < r + n /\ Z.Odd y) <-> (n = 1 -> Z.odd r = true).
Proof.
  intros Hn H2. split.
  - intros (y & Hy & Ho) ->. replace r with y by lia. apply Z.odd_spec, Ho.
  - intros H. destruct H2 as [->|D]; [exists r; split; [lia|apply Z.odd_spec, H; reflexivity]|]. assert (n <> 1) by (intros ->; destruct D as [q Hq]; lia).
    destruct (Z.Even_or_Odd r) as [E|O]; [|exists r; split; [lia|exact O]]. exists (r + 1). split; [lia|]. destruct E as [q Hq]. exists q. lia.
Qed.
Lemma origin_row sub r n : 0 < n -> (n = 1 \/ (2 | n)) -> (n | r) -> (sub = true -> n = 1 -> Z.odd r = true) -> (if sub && (n =? 1) then r - 2 else r - 1) = chroma_origin sub r - 1.
Proof.
  intros Hn H2 HD HO. unfold chroma_origin. destruct sub; cbn [andb]; [|reflexivity]. destruct (Z.eqb_spec n 1) as [E|NE].
  - specialize (HO eq_refl E). apply Z.odd_spec in HO as [q Hq]. subst r. replace (2 * q + 1) with (1 + q * 2) by lia. rewrite Z.div_add by lia. change (1 / 2) with 0. lia.
  - destruct H2 as [H2|H2]; [contradiction|]. destruct H2 as [q Hq], HD as [p Hp]. assert (Er : r = p * q * 2) by (rewrite Hp, Hq; ring). rewrite Er. rewrite Z.div_mul by lia. lia.
Qed.
Theorem C114_chroma_and_neighbours : forall g subX subY planes r c size, 0 <= size < 22 -> (h4 size | r) -> (w4 size | c) ->
  exists p, placeBlock g subX subY planes r c size = Ok p /\
    (plChroma p = true <-> 1 < planes /\ covers_chroma subX subY size r c) /\
    (plU p = true <-> tile_has g (r - 1) c) /\ (plL p = true <-> tile_has g r (c - 1)) /\
    (plUC p = true <-> plChroma p = true /\ tile_has g (chroma_origin subY r - 1) c) /\ (plLC p = true <-> plChroma p = true /\ tile_has g r (chroma_origin subX c - 1)).
Proof.
  intros g subX subY planes r c size Hs HR HC. destruct (unit_sizes size Hs) as (E1 & E2 & P1 & P2 & D1 & D2). unfold placeBlock. rewrite E1, E2. cbn [rbind]. cbv zeta. eexists. split; [reflexivity|]. cbn [plChroma plU plL plUC plLC].
  assert (HCH : (if (h4 size =? 1) && subY && (Z.land r 1 =? 0) then false else if (w4 size =? 1) && subX && (Z.land c 1 =? 0) then false else 1 <? planes) = true <-> 1 < planes /\ covers_chroma subX subY size r c).
  { rewrite !land1. assert (Q : covers_chroma subX subY size r c <-> (subY = true -> h4 size = 1 -> Z.odd r = true) /\ (subX = true -> w4 size = 1 -> Z.odd c = true)).
    { unfold covers_chroma. split.
      - intros (y & x & Hy & Hx & Oy & Ox). split; intros S; [apply (odd_in r (h4 size) P2 D2); exists y; auto|apply (odd_in c (w4 size) P1 D1); exists x; auto].
      - intros [Hy Hx]. assert (Ay : exists y, r <= y < r + h4 size /\ (subY = true -> Z.Odd y)).
        { destruct subY; [destruct (proj2 (odd_in r (h4 size) P2 D2) (Hy eq_refl)) as (y & A & B); exists y; auto|exists r; split; [lia|discriminate]]. }
        assert (Ax : exists x, c <= x < c + w4 size /\ (subX = true -> Z.Odd x)).
        { destruct subX; [destruct (proj2 (odd_in c (w4 size) P1 D1) (Hx eq_refl)) as (x & A & B); exists x; auto|exists c; split; [lia|discriminate]]. }
        destruct Ay as (y & Y1 & Y2), Ax as (x & X1 & X2). exists y, x. auto. }
    rewrite Q. destruct (Z.eqb_spec (h4 size) 1) as [A|A], subY, (Z.odd r) eqn:O1; cbn [andb negb];
      try (split; [intros X; try discriminate X|intros [_ [X _]]; specialize (X eq_refl A); discriminate X]; fail);
      (destruct (Z.eqb_spec (w4 size) 1) as [B|B], subX, (Z.odd c) eqn:O2; cbn [andb negb];
        try (split; [intros X; try discriminate X|intros [_ [_ X]]; specialize (X eq_refl B); discriminate X]; fail); rewrite Z.ltb_lt; (split; [intros X; split; [exact X|split; intros; congruence]|intros [X _]; exact X])). }
  split; [exact HCH|]. split; [apply inside_has|]. split; [apply inside_has|].
  set (ch := if (h4 size =? 1) && subY && (Z.land r 1 =? 0) then false else _) in *. clearbody ch.
  assert (OD : ch = true -> (subY = true -> h4 size = 1 -> Z.odd r = true) /\ (subX = true -> w4 size = 1 -> Z.odd c = true)).
  { intros E. apply HCH in E as [_ (y & x & Hy & Hx & Oy & Ox)]. split; intros S; [apply (odd_in r (h4 size) P2 D2); exists y; auto|apply (odd_in c (w4 size) P1 D1); exists x; auto]. }
  split.
  - destruct ch; [|split; [discriminate|intros [X _]; discriminate X]]. destruct (OD eq_refl) as [O1 _]. rewrite <- (origin_row subY r (h4 size) P2 D2 HR O1). rewrite <- inside_has. destruct (subY && (h4 size =? 1)); tauto.
  - destruct ch; [|split; [discriminate|intros [X _]; discriminate X]]. destruct (OD eq_refl) as [_ O2]. rewrite <- (origin_row subX c (w4 size) P1 D1 HC O2). rewrite <- inside_has. destruct (subX && (w4 size =? 1)); tauto.
Qed.
Print Assumptions C114_chroma_and_neighbours.
(** 4:2:0, a 4x4 block at (3, 3): has chroma, which belongs to (2, 2); at (2, 3) it has none *)
Definition demo_grid : Grid := mkGrid 16 16 0 16 2 16.
Example C114_case : placeBlock demo_grid true true 3 3 3 0 = Ok (mkPlace true true true true false) /\ placeBlock demo_grid true true 3 2 3 0 = Ok (mkPlace false true true false false).
Proof. split; reflexivity. Qed.

(** ** Stores over a block *)
Definition covers (r c h w y x : Z) : bool := (r <=? y) && (y <? r + h) && (c <=? x) && (x <? c + w).
Lemma covers_true r c h w y x : covers r c h w y x = true <-> r <= y < r + h /\ c <= x < c + w.
Proof. unfold covers. rewrite !andb_true_iff, !Z.leb_le, !Z.ltb_lt. lia. Qed.
Definition cells {P} (r c h w : Z) (R : Z -> Z -> P -> Prop) (p : P) : Prop := exists y, 0 <= y < h /\ exists x, 0 <= x < w /\ R (r + y) (c + x) p.
Lemma block_writes {A P B} (get : A -> P -> res B) V (R : Z -> Z -> P -> Prop) (cell : Z -> Z -> A -> res A) r c h w a a' : (forall y x, decided (R y x)) ->
  (forall y x b b', cell y x b = Ok b' -> writes get V (R y x) b b') -> rfor_to 0 h (fun y a => rfor_to 0 w (fun x a => cell (r + y) (c + x) a) a) a = Ok a' -> writes get V (cells r c h w R) a a'.
Proof.
  intros D HC E. unfold cells. revert E. apply writes_loop.
  - intros j Hj. apply decided_range. intros. apply D.
  - intros j b b' Hj. apply writes_loop; [intros; apply D|]. intros i c0 c1 Hi. apply HC.
Qed.
(** A table of two dimensions *)
Lemma block_table {A} (f : A -> list (list Z)) v (cell : Z -> Z -> A -> res A) r c h w a a' : (forall y x b b', cell y x b = Ok b' -> upd2 (f b) y x v = Ok (f b')) ->
  rfor_to 0 h (fun y a => rfor_to 0 w (fun x a => cell (r + y) (c + x) a) a) a = Ok a' -> forall y x, idx2 (f a') y x = if covers r c h w y x then Ok v else idx2 (f a) y x.
Proof.
  intros HC E y x. assert (W := block_writes (fun a => get2 (f a)) (fun _ => Ok v) (fun y x p => p = (y, x)) cell r c h w a a' ltac:(intros; apply decided_eq2)).
  specialize (W ltac:(intros y0 x0 b b' Eb; exact (writes_upd2 (fun _ => Ok v) y0 x0 v (f b) (f b') eq_refl (HC _ _ _ _ Eb))) E). destruct W as [W1 W2].
  destruct (covers r c h w y x) eqn:K.
  - apply covers_true in K. destruct (W1 (y, x)) as (v' & [= <-] & G); [exists (y - r); split; [lia|]; exists (x - c); split; [lia|]; f_equal; lia|exact G].
  - assert (N : ~ cells r c h w (fun y0 x0 p => p = (y0, x0)) (y, x)) by (intros (i & Hi & j & Hj & [= -> ->]); rewrite (proj2 (covers_true r c h w (r + i) (c + j))) in K by lia; discriminate). apply (W2 (y, x) N).
Qed.
Lemma block_keep {A B} (f : A -> B) (cell : Z -> Z -> A -> res A) r c h w a a' : (forall y x b b', cell y x b = Ok b' -> f b' = f b) ->
  rfor_to 0 h (fun y a => rfor_to 0 w (fun x a => cell (r + y) (c + x) a) a) a = Ok a' -> f a' = f a.
Proof.
  intros HC. apply (rfor_to_keep (fun b => f b = f a)); [reflexivity|]. intros i b b' _ Hb. apply (rfor_to_keep (fun b => f b = f a)); [exact Hb|]. intros j d d' _ Hd Ed. rewrite (HC _ _ _ _ Ed). exact Hd.
Qed.
Lemma block_pred {A} (Q : A -> Prop) (cell : Z -> Z -> A -> res A) r c h w a a' : Q a -> (forall y x b b', Q b -> cell y x b = Ok b' -> Q b') ->
  rfor_to 0 h (fun y a => rfor_to 0 w (fun x a => cell (r + y) (c + x) a) a) a = Ok a' -> Q a'.
Proof. intros HQ HC. apply rfor_to_keep; [exact HQ|]. intros i b b' _ Hb. apply rfor_to_keep; [exact Hb|]. intros j d d' _ Hd. apply HC, Hd. Qed.
(** tables of lists *)
Lemma block_lists {A T} (f : A -> list (list (list T))) (vs : list T) n (cell : Z -> Z -> A -> res A) r c h w a a' :
  (forall y x b b', cell y x b = Ok b' -> rfor_to 0 n (fun k g => let! v := idx vs k in upd3 g y x k v) (f b) = Ok (f b')) ->
  rfor_to 0 h (fun y a => rfor_to 0 w (fun x a => cell (r + y) (c + x) a) a) a = Ok a' ->
  forall y x k, idx3 (f a') y x k = if covers r c h w y x && (0 <=? k) && (k <? n) then idx vs k else idx3 (f a) y x k.
Proof.
  intros HC E y x k. assert (W := block_writes (fun a => get3 (f a)) (fun p : Z * Z * Z => idx vs (snd p)) (fun y x p => exists k, 0 <= k < n /\ p = (y, x, k)) cell r c h w a a').
  specialize (W ltac:(intros; apply decided_range; intros; apply decided_eq3)).
  assert (WC : forall y0 x0 b b', cell y0 x0 b = Ok b' -> writes (fun a => get3 (f a)) (fun p : Z * Z * Z => idx vs (snd p)) (fun p => exists k, 0 <= k < n /\ p = (y0, x0, k)) b b').
  { intros y0 x0 b b' Eb. specialize (HC _ _ _ _ Eb). assert (Wl := writes_loop get3 (fun p : Z * Z * Z => idx vs (snd p)) 0 n (fun k g => let! v := idx vs k in upd3 g y0 x0 k v) (fun k p => p = (y0, x0, k)) (f b) (f b') ltac:(intros; apply decided_eq3)).
    specialize (Wl ltac:(intros j g0 g1 Hj Eg; apply rbind_inv in Eg as (v & Ev & Eg); exact (writes_upd3 (fun p : Z * Z * Z => idx vs (snd p)) y0 x0 j v g0 g1 Ev Eg)) HC). exact Wl. }
  specialize (W WC E). destruct W as [W1 W2]. destruct (covers r c h w y x && (0 <=? k) && (k <? n)) eqn:K.
  - rewrite !andb_true_iff, Z.leb_le, Z.ltb_lt in K. destruct K as [[K K1] K2]. apply covers_true in K. destruct (W1 (y, x, k)) as (v' & Ev & G); [exists (y - r); split; [lia|]; exists (x - c); split; [lia|]; exists k; split; [lia|]; repeat f_equal; lia|].
    cbn [snd] in Ev. rewrite Ev. exact G.
  - apply (W2 (y, x, k)). intros (i & Hi & j & Hj & k' & Hk & [= -> -> ->]). rewrite (proj2 (covers_true r c h w (r + i) (c + j))) in K by lia. destruct (Z.leb_spec 0 k'), (Z.ltb_spec k' n); try lia; discriminate K.
Qed.

(** ** C115: modes and reference frames *)
Theorem C115_recorded_before : forall v chroma inter r c h w a a', storesBefore v chroma inter r c h w a = Ok a' ->
  (forall y x, idx2 (rYModes a') y x = if covers r c h w y x then Ok (vYMode v) else idx2 (rYModes a) y x) /\
  (forall y x k, idx3 (rRefFrames a') y x k = if covers r c h w y x && (0 <=? k) && (k <? 2) then idx (vRefFrame v) k else idx3 (rRefFrames a) y x k) /\
  (forall y x, idx (vRefFrame v) 0 = Ok 0 -> chroma = true -> idx2 (rUVModes a') y x = if covers r c h w y x then Ok (vUVMode v) else idx2 (rUVModes a) y x).
Proof.
  intros v chroma inter r c h w a a' E. unfold storesBefore in E. split; [|split].
  - apply (block_table rYModes (vYMode v) (storeBefore v chroma inter) r c h w a a'); [|exact E]. intros y x b b' Eb. unfold storeBefore in Eb. apply rbind_inv in Eb as (ym & E1 & Eb). rewrite E1. f_equal.
    apply rbind_inv in Eb as (r0 & _ & Eb). apply rbind_inv in Eb as (uv & _ & Eb). apply rbind_inv in Eb as (rf & _ & Eb).
    destruct (bool_of inter); [|injection Eb as <-; reflexivity]. repeat (apply rbind_inv in Eb as (? & _ & Eb)). injection Eb as <-. reflexivity.
  - apply (block_lists rRefFrames (vRefFrame v) 2 (storeBefore v chroma inter) r c h w a a'); [|exact E]. intros y x b b' Eb. unfold storeBefore in Eb. apply rbind_inv in Eb as (ym & _ & Eb).
    apply rbind_inv in Eb as (r0 & _ & Eb). apply rbind_inv in Eb as (uv & _ & Eb). apply rbind_inv in Eb as (rf & E1 & Eb). rewrite E1. f_equal.
    destruct (bool_of inter); [|injection Eb as <-; reflexivity]. repeat (apply rbind_inv in Eb as (? & _ & Eb)). injection Eb as <-. reflexivity.
  - intros y x H0 ->. apply (block_table rUVModes (vUVMode v) (storeBefore v true inter) r c h w a a'); [|exact E]. clear - H0. intros y x b b' Eb. unfold storeBefore in Eb. apply rbind_inv in Eb as (ym & _ & Eb).
    apply rbind_inv in Eb as (r0 & E0 & Eb). rewrite H0 in E0. injection E0 as <-. apply rbind_inv in Eb as (uv & E1 & Eb). change ((0 =? INTRA_FRAME) && true) with true in E1. cbv iota in E1. rewrite E1. f_equal. apply rbind_inv in Eb as (rf & _ & Eb).
    destruct (bool_of inter); [|injection Eb as <-; reflexivity]. repeat (apply rbind_inv in Eb as (? & _ & Eb)). injection Eb as <-. reflexivity.
Qed.
Print Assumptions C115_recorded_before.
(** The stores succeed in the first 64x64 positions for blocks that are not recorded as intra with chroma. *)
Definition arr1_ok (a : Arr1) : Prop := array2 64 64 (rYModes a) /\ array3 64 64 2 (rRefFrames a) /\ array2 2 2 (rUVModes a).
Theorem C115_returns_partial : forall v chroma r c h w a f0 f1, arr1_ok a -> vRefFrame v = [f0; f1] -> (f0 <> 0 \/ chroma = false) -> 0 <= r -> 0 <= c -> r + h <= 64 -> c + w <= 64 ->
  exists a', storesBefore v chroma 0 r c h w a = Ok a' /\ arr1_ok a'.
Proof.
  intros v chroma r c h w a f0 f1 HA HF H0 Hr Hc HH HW. unfold storesBefore. apply rfor_to_ok; [exact HA|]. intros y b Hy Hb. apply rfor_to_ok; [exact Hb|]. clear a HA b Hb. intros x a Hx (A1 & A2 & A3).
  unfold storeBefore. destruct (proj2 (array2_get 64 64 (rYModes a) (r + y) (c + x) A1) ltac:(lia)) as [o1 Eo1]. destruct (upd2_succeeds (rYModes a) (r + y) (c + x) o1 (vYMode v) Eo1) as [ym Em]. rewrite Em. cbn [rbind]. rewrite HF. change (idx [f0; f1] 0) with (Ok f0). cbn [rbind].
  replace ((f0 =? INTRA_FRAME) && chroma) with false by (destruct H0 as [H0| ->]; [destruct (Z.eqb_spec f0 INTRA_FRAME) as [X|]; [unfold INTRA_FRAME in X; lia|reflexivity]|rewrite andb_false_r; reflexivity]). cbn [rbind].
  assert (L : exists g, rfor_to 0 2 (fun k g => let! f := idx [f0; f1] k in upd3 g (r + y) (c + x) k f) (rRefFrames a) = Ok g /\ array3 64 64 2 g).
  { apply rfor_to_ok; [exact A2|]. intros k g Hk Hg. assert (K : exists f, idx [f0; f1] k = Ok f) by (assert (k = 0 \/ k = 1) as [->| ->] by lia; eexists; reflexivity). destruct K as [f Ef]. rewrite Ef. cbn [rbind].
    destruct (proj2 (array3_get 64 64 2 g (r + y) (c + x) k Hg) ltac:(lia)) as [old Eo]. destruct (upd3_succeeds g (r + y) (c + x) k old f Eo) as [g' Eg]. exists g'. split; [exact Eg|exact (array3_upd _ _ _ _ _ _ _ _ _ Hg Eg)]. }
  destruct L as (g & Eg & Ag). rewrite Eg. cbn [rbind]. change (bool_of 0) with false. cbv iota. eexists. split; [reflexivity|]. split; [exact (array2_upd _ _ _ _ _ _ _ A1 Em)|]. split; [exact Ag|exact A3].
Qed.
Print Assumptions C115_returns_partial.
Lemma before_arrays v chroma inter r c h w a a' : arr1_ok a -> storesBefore v chroma inter r c h w a = Ok a' -> arr1_ok a'.
Proof.
  intros HA E. refine (block_pred arr1_ok (storeBefore v chroma inter) r c h w a a' HA _ E). clear. intros y x b b' (A1 & A2 & A3) Eb. unfold storeBefore in Eb. apply rbind_inv in Eb as (ym & E1 & Eb).
  apply rbind_inv in Eb as (r0 & _ & Eb). apply rbind_inv in Eb as (uv & E2 & Eb). apply rbind_inv in Eb as (rf & E3 & Eb).
  assert (B2 : array2 2 2 uv) by (destruct ((r0 =? INTRA_FRAME) && chroma); [exact (array2_upd _ _ _ _ _ _ _ A3 E2)|injection E2 as <-; exact A3]).
  assert (B3 : array3 64 64 2 rf) by (revert E3; apply rfor_to_keep; [exact A2|]; intros k g g' _ Hg Eg; apply rbind_inv in Eg as (f & _ & Eg); exact (array3_upd _ _ _ _ _ _ _ _ _ Hg Eg)).
  assert (B1 := array2_upd _ _ _ _ _ _ _ A1 E1). destruct (bool_of inter); [|injection Eb as <-; exact (conj B1 (conj B3 B2))].
  repeat (apply rbind_inv in Eb as (? & _ & Eb)). injection Eb as <-. exact (conj B1 (conj B3 B2)).
Qed.
(** Refuted: no block beyond 256x256 samples, and no intra block with chroma beyond 8x8 samples, is recorded: the function panics. *)
Theorem C115_limits_refuted : forall v chroma inter r c h w a, arr1_ok a -> 0 < h -> 0 < w ->
  (64 < r + h \/ 64 < c + w \/ (idx (vRefFrame v) 0 = Ok 0 /\ chroma = true /\ (2 < r + h \/ 2 < c + w))) -> forall a', storesBefore v chroma inter r c h w a <> Ok a'.
Proof.
  intros v chroma inter r c h w a HA Hh Hw HB a' E. assert (K : covers r c h w (r + h - 1) (c + w - 1) = true) by (apply covers_true; lia).
  destruct (C115_recorded_before _ _ _ _ _ _ _ _ _ E) as (P1 & _ & P3). destruct (before_arrays _ _ _ _ _ _ _ _ _ HA E) as (B1 & _ & B3).
  specialize (P1 (r + h - 1) (c + w - 1)). rewrite K in P1. assert (Q := proj1 (array2_get 64 64 (rYModes a') (r + h - 1) (c + w - 1) B1) ltac:(eauto)).
  destruct HB as [HB|[HB|(H0 & H1 & HB)]]; [lia|lia|]. specialize (P3 (r + h - 1) (c + w - 1) H0 H1). rewrite K in P3. assert (Q3 := proj1 (array2_get 2 2 (rUVModes a') (r + h - 1) (c + w - 1) B3) ltac:(eauto)). lia.
Qed.
Print Assumptions C115_limits_refuted.
Definition demo_a1 : Arr1 := mkArr1 (repeat (repeat 0 64) 64) (repeat (repeat 0 2) 2) (repeat (repeat [0; 0] 64) 64) [] [] (repeat (repeat [0; 0] 2) 2) (repeat (repeat [[0; 0]; [0; 0]] 64) 64).
Definition demo_v (f0 : Z) : BVal := mkBVal 5 7 [f0; -1] 0 0 0 [0; 0] [[8; 9]; [1; 2]] 1 0 1 2 0 0 [] [] [1; 2; 3; 4].
Example C115_case : arr1_ok demo_a1 /\ match storesBefore (demo_v 1) true 0 4 8 2 4 demo_a1 with Ok a => (idx2 (rYModes a) 5 11, idx2 (rYModes a) 6 11, idx2 (rRefFrames a) 4 8, idx2 (rUVModes a) 0 0) = (Ok 5, Ok 0, Ok [1; -1], Ok 0) | _ => False end /\
  storesBefore (demo_v 0) true 0 4 8 2 4 demo_a1 = Panic.
Proof. split; [split; [|split]; split; [reflexivity|repeat constructor|reflexivity|repeat constructor|reflexivity|repeat constructor]|]. split; vm_compute; reflexivity. Qed.

(** ** C116: motion vectors, filters and compound indices of inter blocks *)
(** True for the value IsInter = 1 of the state: they are recorded over the block. *)
Theorem C116_recorded_partial : forall v chroma r c h w a a', storesBefore v chroma 1 r c h w a = Ok a' ->
  (forall y x k, idx3 (rInterpFilters a') y x k = if covers r c h w y x && (0 <=? k) && (k <? 2) then idx (vInterpFilter v) k else idx3 (rInterpFilters a) y x k) /\
  (vUseIntrabc v = 0 -> forall y x, idx2 (rCompGroupIdxs a') y x = if covers r c h w y x then Ok (vCompGroupIdx v) else idx2 (rCompGroupIdxs a) y x) /\
  (vUseIntrabc v = 0 -> forall y x, idx2 (rCompoundIdxs a') y x = if covers r c h w y x then Ok (vCompoundIdx v) else idx2 (rCompoundIdxs a) y x).
Proof.
  intros v chroma r c h w a a' E. unfold storesBefore in E.
  assert (S : forall y x b b', storeBefore v chroma 1 y x b = Ok b' -> rfor_to 0 2 (fun k g => let! f := idx (vInterpFilter v) k in upd3 g y x k f) (rInterpFilters b) = Ok (rInterpFilters b') /\
    (vUseIntrabc v = 0 -> upd2 (rCompGroupIdxs b) y x (vCompGroupIdx v) = Ok (rCompGroupIdxs b') /\ upd2 (rCompoundIdxs b) y x (vCompoundIdx v) = Ok (rCompoundIdxs b'))).
  { intros y x b b' Eb. unfold storeBefore in Eb. apply rbind_inv in Eb as (ym & _ & Eb). apply rbind_inv in Eb as (r0 & _ & Eb). apply rbind_inv in Eb as (uv & _ & Eb). apply rbind_inv in Eb as (rf & _ & Eb).
    change (bool_of 1) with true in Eb. cbv iota in Eb. apply rbind_inv in Eb as (cg & Ecg & Eb). apply rbind_inv in Eb as (ci & Eci & Eb). apply rbind_inv in Eb as (fi & Efi & Eb). apply rbind_inv in Eb as (r1 & _ & Eb). apply rbind_inv in Eb as (mv & _ & Eb).
    injection Eb as <-. cbn [rInterpFilters rCompGroupIdxs rCompoundIdxs]. split; [exact Efi|]. intros Z0. rewrite Z0 in *. change (bool_of 0) with false in *. cbn [negb] in *. auto. }
  split; [|split].
  - apply (block_lists rInterpFilters (vInterpFilter v) 2 (storeBefore v chroma 1) r c h w a a'); [|exact E]. intros y x b b' Eb. apply (S _ _ _ _ Eb).
  - intros Z0. apply (block_table rCompGroupIdxs (vCompGroupIdx v) (storeBefore v chroma 1) r c h w a a'); [|exact E]. intros y x b b' Eb. apply (S _ _ _ _ Eb), Z0.
  - intros Z0. apply (block_table rCompoundIdxs (vCompoundIdx v) (storeBefore v chroma 1) r c h w a a'); [|exact E]. intros y x b b' Eb. apply (S _ _ _ _ Eb), Z0.
Qed.
Print Assumptions C116_recorded_partial.
(** Refuted: IsInter of the state is never assigned (it is 0), so whatever the block, none of them is recorded. *)
Theorem C116_motion_refuted : forall S (info : Place -> M S BVal) recon g subX subY planes r c size t a1 a2 s t' a1' a2' s',
  decodeBlock info recon 0 0 g subX subY planes r c size t a1 a2 s = Ok ((t', a1', a2'), s') ->
  rMvs a1' = rMvs a1 /\ rInterpFilters a1' = rInterpFilters a1 /\ rCompGroupIdxs a1' = rCompGroupIdxs a1 /\ rCompoundIdxs a1' = rCompoundIdxs a1.
Proof.
  intros S info recon g subX subY planes r c size t a1 a2 s t' a1' a2' s' E. unfold decodeBlock in E. rewrite bind_eq in E. destruct (placeBlock g subX subY planes r c size) as [pl| |]; cbn [lift] in E; try discriminate.
  rewrite bind_eq in E. destruct (idx NUM_4X4_BLOCKS_WIDE size) as [bw| |]; cbn [lift] in E; try discriminate. rewrite bind_eq in E. destruct (idx NUM_4X4_BLOCKS_HIGH size) as [bh| |]; cbn [lift] in E; try discriminate.
  rewrite bind_eq in E. destruct (info pl s) as [[v s1]| |]; try discriminate. rewrite bind_eq in E. change (bool_of 0) with false in E at 1. cbv iota in E. cbn [lift] in E. rewrite bind_eq in E.
  destruct (storesBefore v (plChroma pl) 0 r c bh bw a1) as [b1| |] eqn:E1; cbn [lift] in E; try discriminate. rewrite bind_eq in E. destruct (recon pl v t s1) as [[t1 s2]| |]; try discriminate. rewrite bind_eq in E.
  destruct (storesAfter v size r c bh bw a2) as [b2| |]; cbn [lift] in E; try discriminate. injection E as <- <- <- <-.
  assert (S0 : forall y x b b', storeBefore v (plChroma pl) 0 y x b = Ok b' -> (rMvs b', rInterpFilters b', rCompGroupIdxs b', rCompoundIdxs b') = (rMvs b, rInterpFilters b, rCompGroupIdxs b, rCompoundIdxs b)).
  { intros y x b b' Eb. unfold storeBefore in Eb. repeat (apply rbind_inv in Eb as (? & _ & Eb)). change (bool_of 0) with false in Eb. cbv iota in Eb. injection Eb as <-. reflexivity. }
  assert (K := block_keep (fun b => (rMvs b, rInterpFilters b, rCompGroupIdxs b, rCompoundIdxs b)) (storeBefore v (plChroma pl) 0) r c bh bw a1 b1 S0 E1). injection K as -> -> -> ->. auto.
Qed.
Print Assumptions C116_motion_refuted.
(** With the flag set, each covered position holds the vector of each reference of the block (two if it has a second reference), and nothing else changes. *)
Theorem C116_vectors_partial : forall v chroma r c h w a a' second, storesBefore v chroma 1 r c h w a = Ok a' -> idx (vRefFrame v) 1 = Ok second ->
  forall y x k, idx3 (rMvs a') y x k = if covers r c h w y x && ((k =? 0) || ((k =? 1) && (0 <? second))) then idx (vMv v) k else idx3 (rMvs a) y x k.
Proof.
  intros v chroma r c h w a a' second E E1 y x k. unfold storesBefore in E.
  assert (S : forall y x b b', storeBefore v chroma 1 y x b = Ok b' -> rfor_to 0 (1 + int_of (0 <? second)) (fun k g => let! f := idx (vMv v) k in upd3 g y x k f) (rMvs b) = Ok (rMvs b')).
  { clear - E1. intros y x b b' Eb. unfold storeBefore in Eb. do 4 apply rbind_inv in Eb as (? & _ & Eb). change (bool_of 1) with true in Eb. cbv iota in Eb.
    apply rbind_inv in Eb as (cg & _ & Eb). apply rbind_inv in Eb as (ci & _ & Eb). apply rbind_inv in Eb as (fi & _ & Eb). rewrite E1 in Eb. cbn [rbind] in Eb.
    apply rbind_inv in Eb as (mv & Em & Eb). injection Eb as <-. exact Em. }
  rewrite (block_lists rMvs (vMv v) (1 + int_of (0 <? second)) (storeBefore v chroma 1) r c h w a a' S E y x k).
  replace ((k =? 0) || ((k =? 1) && (0 <? second))) with ((0 <=? k) && (k <? 1 + int_of (0 <? second))); [rewrite andb_assoc; reflexivity|].
  apply Bool.eq_true_iff_eq. rewrite orb_true_iff, !andb_true_iff, !Z.eqb_eq, Z.leb_le, Z.ltb_lt. destruct (0 <? second); cbn [int_of]; intuition (try discriminate; lia).
Qed.
Example C116_vectors_case : let g := repeat (repeat 0 2) 2 in let demo_a1 := mkArr1 g g (repeat (repeat [0; 0] 2) 2) g g (repeat (repeat [0; 0] 2) 2) (repeat (repeat [[0; 0]; [0; 0]] 2) 2) in
  idx (vRefFrame (demo_v 1)) 1 = Ok (-1) /\ match storesBefore (demo_v 1) true 1 0 0 2 1 demo_a1 with
  | Ok a => (idx3 (rMvs a) 1 0 0, idx3 (rMvs a) 1 0 1, idx3 (rMvs a) 1 1 0) = (idx (vMv (demo_v 1)) 0, idx3 (rMvs demo_a1) 1 0 1, idx3 (rMvs demo_a1) 1 1 0) /\ idx (vMv (demo_v 1)) 0 <> idx3 (rMvs demo_a1) 1 0 0 | _ => False end.
Proof. vm_compute. repeat split; try reflexivity; discriminate. Qed.
Print Assumptions C116_vectors_partial.
(** an inter block with motion vector (8, 9) is decoded; nothing of it is recorded *)
Definition demo_a2 : Arr2 := mkArr2 [[0; 0]; [0; 0]] [[0; 0]; [0; 0]] [[0; 0]; [0; 0]] [[0; 0]; [0; 0]] (repeat (repeat 0 64) 64) [[[0; 0]; [0; 0]]; [[0; 0]; [0; 0]]] [] [[[0; 0; 0; 0]; [0; 0; 0; 0]]; [[0; 0; 0; 0]; [0; 0; 0; 0]]].
Definition demo_x : Ctxs := let l := repeat (repeat 3 16) 3 in mkCtxs l l l l.
Example C116_case : vIsInter (demo_v 1) = 1 /\ match decodeBlock (S := unit) (fun _ => ret (demo_v 1)) (fun _ _ t => ret t) 0 0 demo_grid true true 3 0 0 3 demo_x demo_a1 demo_a2 tt with
  | Ok ((_, a1, a2), _) => (idx2 (rMvs a1) 1 1, idx2 (rIsInters a2) 1 1) = (Ok [[0; 0]; [0; 0]], Ok 1) | _ => False end.
Proof. split; [reflexivity|vm_compute; reflexivity]. Qed.

(** ** C117: values recorded after the residual *)
Lemma upd3_at {A} (g g' : list (list (list A))) p y x v s : upd3 g p y x v = Ok g' -> idx g p = Ok s -> exists s', upd2 s y x v = Ok s' /\ idx g' p = Ok s'.
Proof.
  unfold upd3. intros E Es. rewrite Es in E. cbn [rbind] in E. apply rbind_inv in E as (s' & E1 & E). exists s'. split; [exact E1|]. exact (idx_upd_same _ _ _ _ E).
Qed.
Lemma upd3_off {A} (g g' : list (list (list A))) p q y x v : upd3 g p y x v = Ok g' -> q <> p -> idx g' q = idx g q.
Proof. unfold upd3. intros E N. apply rbind_inv in E as (s & E0 & E). apply rbind_inv in E as (s' & E1 & E). apply (idx_upd_other _ _ _ _ _ E). congruence. Qed.
Theorem C117_recorded_after : forall v size r c h w a a', storesAfter v size r c h w a = Ok a' ->
  (forall y x, idx2 (rIsInters a') y x = if covers r c h w y x then Ok (vIsInter v) else idx2 (rIsInters a) y x) /\
  (forall y x, idx2 (rSkipModes a') y x = if covers r c h w y x then Ok (vSkipMode v) else idx2 (rSkipModes a) y x) /\
  (forall y x, idx2 (rSkips a') y x = if covers r c h w y x then Ok (vSkip v) else idx2 (rSkips a) y x) /\
  (forall y x, idx2 (rTxSizes a') y x = if covers r c h w y x then Ok (vTxSize v) else idx2 (rTxSizes a) y x) /\
  (forall y x, idx2 (rMiSizes a') y x = if covers r c h w y x then Ok size else idx2 (rMiSizes a) y x) /\
  (forall p y x, idx3 (rPaletteSizes a') p y x = if covers r c h w y x && (0 <=? p) && (p <? 2) then idx [vPaletteSizeY v; vPaletteSizeUV v] p else idx3 (rPaletteSizes a) p y x) /\
  (forall y x i, idx3 (rDeltaLFs a') y x i = if covers r c h w y x && (0 <=? i) && (i <? 4) then idx (vDeltaLF v) i else idx3 (rDeltaLFs a) y x i).
Proof.
  intros v size r c h w a a' E. unfold storesAfter in E.
  assert (S : forall y x b b', storeAfter v size y x b = Ok b' -> upd2 (rIsInters b) y x (vIsInter v) = Ok (rIsInters b') /\ upd2 (rSkipModes b) y x (vSkipMode v) = Ok (rSkipModes b') /\
    upd2 (rSkips b) y x (vSkip v) = Ok (rSkips b') /\ upd2 (rTxSizes b) y x (vTxSize v) = Ok (rTxSizes b') /\ upd2 (rMiSizes b) y x size = Ok (rMiSizes b') /\
    (exists p0, upd3 (rPaletteSizes b) 0 y x (vPaletteSizeY v) = Ok p0 /\ upd3 p0 1 y x (vPaletteSizeUV v) = Ok (rPaletteSizes b')) /\
    rfor_to 0 4 (fun i g => let! k := idx (vDeltaLF v) i in upd3 g y x i k) (rDeltaLFs b) = Ok (rDeltaLFs b')).
  { intros y x b b' Eb. unfold storeAfter in Eb. apply rbind_inv in Eb as (ii & E1 & Eb). apply rbind_inv in Eb as (sm & E2 & Eb). apply rbind_inv in Eb as (sk & E3 & Eb). apply rbind_inv in Eb as (tx & E4 & Eb).
    apply rbind_inv in Eb as (ms & E5 & Eb). apply rbind_inv in Eb as (p0 & E6 & Eb). apply rbind_inv in Eb as (p1 & E7 & Eb). apply rbind_inv in Eb as (c0 & _ & Eb). apply rbind_inv in Eb as (c1 & _ & Eb). apply rbind_inv in Eb as (dl & E8 & Eb).
    injection Eb as <-. cbn [rIsInters rSkipModes rSkips rTxSizes rMiSizes rPaletteSizes rDeltaLFs]. repeat (split; [assumption|]). split; [exists p0; auto|exact E8]. }
  split; [apply (block_table rIsInters (vIsInter v) (storeAfter v size) r c h w a a'); [intros y x b b' Eb; apply (S _ _ _ _ Eb)|exact E]|].
  split; [apply (block_table rSkipModes (vSkipMode v) (storeAfter v size) r c h w a a'); [intros y x b b' Eb; apply (S _ _ _ _ Eb)|exact E]|].
  split; [apply (block_table rSkips (vSkip v) (storeAfter v size) r c h w a a'); [intros y x b b' Eb; apply (S _ _ _ _ Eb)|exact E]|].
  split; [apply (block_table rTxSizes (vTxSize v) (storeAfter v size) r c h w a a'); [intros y x b b' Eb; apply (S _ _ _ _ Eb)|exact E]|].
  split; [apply (block_table rMiSizes size (storeAfter v size) r c h w a a'); [intros y x b b' Eb; apply (S _ _ _ _ Eb)|exact E]|].
  split; [|apply (block_lists rDeltaLFs (vDeltaLF v) 4 (storeAfter v size) r c h w a a'); [intros y x b b' Eb; apply (S _ _ _ _ Eb)|exact E]].
  intros p y x. set (V := fun q : Z * Z * Z => idx [vPaletteSizeY v; vPaletteSizeUV v] (fst (fst q))).
  assert (W := block_writes (fun a => get3 (rPaletteSizes a)) V (fun y x q => q = (0, y, x) \/ q = (1, y, x)) (storeAfter v size) r c h w a a').
  specialize (W ltac:(intros y0 x0 q; destruct (decided_eq3 (0, y0, x0) q), (decided_eq3 (1, y0, x0) q); tauto)).
  assert (WC : forall y0 x0 b b', storeAfter v size y0 x0 b = Ok b' -> writes (fun a => get3 (rPaletteSizes a)) V (fun q => q = (0, y0, x0) \/ q = (1, y0, x0)) b b').
  { intros y0 x0 b b' Eb. destruct (S _ _ _ _ Eb) as (_ & _ & _ & _ & _ & (p0 & Ep0 & Ep1) & _).
    assert (W1 := writes_upd3 V 0 y0 x0 _ _ _ eq_refl Ep0). assert (W2 := writes_upd3 V 1 y0 x0 _ _ _ eq_refl Ep1). exact (writes_union get3 V _ _ _ _ _ (decided_eq3 (1, y0, x0)) W1 W2). }
  specialize (W WC E). destruct W as [W1 W2]. destruct (covers r c h w y x && (0 <=? p) && (p <? 2)) eqn:K.
  - rewrite !andb_true_iff, Z.leb_le, Z.ltb_lt in K. destruct K as [[K K1] K2]. apply covers_true in K. destruct (W1 (p, y, x)) as (v' & Ev & G).
    { exists (y - r). split; [lia|]. exists (x - c). split; [lia|]. replace (r + (y - r)) with y by lia. replace (c + (x - c)) with x by lia. assert (p = 0 \/ p = 1) as [->| ->] by lia; auto. }
    unfold V in Ev. cbn [fst] in Ev. rewrite Ev. exact G.
  - apply (W2 (p, y, x)). intros (i & Hi & j & Hj & HE). assert (HY : y = r + i /\ x = c + j /\ 0 <= p < 2) by (destruct HE as [HE|HE]; injection HE as -> -> ->; lia). destruct HY as (-> & -> & Hp).
    rewrite (proj2 (covers_true r c h w (r + i) (c + j))) in K by lia. destruct (Z.leb_spec 0 p), (Z.ltb_spec p 2); try lia; discriminate K.
Qed.
Print Assumptions C117_recorded_after.
(** Refuted: the arrays have 2x2 positions; every block that reaches beyond the first 8x8 samples of the frame makes the decoder panic here. *)
Theorem C117_limit_refuted : forall v size r c h w a, array2 2 2 (rIsInters a) -> 0 < h -> 0 < w -> (2 < r + h \/ 2 < c + w) -> forall a', storesAfter v size r c h w a <> Ok a'.
Proof.
  intros v size r c h w a HA Hh Hw HB a' E. destruct (C117_recorded_after _ _ _ _ _ _ _ _ E) as (P & _). specialize (P (r + h - 1) (c + w - 1)).
  assert (K : covers r c h w (r + h - 1) (c + w - 1) = true) by (apply covers_true; lia). rewrite K in P.
  assert (HA' : array2 2 2 (rIsInters a')).
  { refine (block_pred (fun a => array2 2 2 (rIsInters a)) (storeAfter v size) r c h w a a' HA _ E). intros y x b b' Hb Eb. unfold storeAfter in Eb. apply rbind_inv in Eb as (ii & E1 & Eb). repeat (apply rbind_inv in Eb as (? & _ & Eb)).
    injection Eb as <-. exact (array2_upd _ _ _ _ _ _ _ Hb E1). }
  assert (Q := proj1 (array2_get 2 2 (rIsInters a') (r + h - 1) (c + w - 1) HA') ltac:(eauto)). lia.
Qed.
Print Assumptions C117_limit_refuted.
Example C117_case : match storesAfter (demo_v 0) 3 0 0 2 2 demo_a2 with Ok a => (idx2 (rSkips a) 1 1, idx2 (rTxSizes a) 1 0, idx2 (rMiSizes a) 1 1, idx2 (rMiSizes a) 1 2, idx2 (rDeltaLFs a) 0 1) = (Ok 1, Ok 2, Ok 3, Ok 0, Ok [1; 2; 3; 4]) | _ => False end /\
  storesAfter (demo_v 0) 3 0 2 2 2 demo_a2 = Panic.
Proof. split; vm_compute; reflexivity. Qed.

(** ** C118: skipped blocks clear the coefficient contexts *)
(** The positions (in units of 4 samples of the plane) a block covers in a plane *)
Definition plane_range (plane : Z) (chroma sub : bool) (start n i : Z) : Prop :=
  (plane = 0 /\ start <= i <= start + n - 1) \/ (chroma = true /\ (plane = 1 \/ plane = 2) /\ start / (if sub then 2 else 1) <= i <= (start + n - 1) / (if sub then 2 else 1)).
Lemma shr_sub a (sub : bool) : shr a (int_of sub) = a / (if sub then 2 else 1).
Proof. rewrite shr_div by (destruct sub; cbn; lia). destruct sub; cbn [int_of]; [change (2 ^ 1) with 2|change (2 ^ 0) with 1]; reflexivity. Qed.
Lemma half_end a n (sub : bool) : (n = 1 \/ (2 | n)) -> 0 < n -> (n | a) -> (sub = true -> n = 1 -> Z.odd a = true) -> forall i, i < (a + n) / (if sub then 2 else 1) <-> i <= (a + n - 1) / (if sub then 2 else 1).
Proof.
  intros H2 Hn HD HO i. destruct sub; [|rewrite !Z.div_1_r; lia].
  assert (E : exists q, a + n = q * 2).
  { destruct H2 as [->|[k ->]]; [specialize (HO eq_refl eq_refl); apply Z.odd_spec in HO as [q ->]; exists (q + 1); lia|]. destruct HD as [m ->]. exists (m * k + k). lia. }
  destruct E as [q E]. rewrite E. rewrite Z.div_mul by lia. replace (q * 2 - 1) with (1 + (q - 1) * 2) by lia. rewrite Z.div_add by lia. change (1 / 2) with 0. lia.
Qed.
(** The function, where it is called, clears exactly the positions of the block in every plane. *)
Theorem C118_reset_partial : forall subX subY planes g r c size t t' p, 0 <= size < 22 -> (h4 size | r) -> (w4 size | c) -> placeBlock g subX subY planes r c size = Ok p ->
  resetBlockContext subX subY (plChroma p) r c (w4 size) (h4 size) t = Ok t' ->
  (forall q i, plane_range q (plChroma p) subX c (w4 size) i -> idx2 (xAL t') q i = Ok 0 /\ idx2 (xAD t') q i = Ok 0) /\
  (forall q i, plane_range q (plChroma p) subY r (h4 size) i -> idx2 (xLL t') q i = Ok 0 /\ idx2 (xLD t') q i = Ok 0) /\
  (forall q i, ~ plane_range q (plChroma p) subX c (w4 size) i -> idx2 (xAL t') q i = idx2 (xAL t) q i /\ idx2 (xAD t') q i = idx2 (xAD t) q i) /\
  (forall q i, ~ plane_range q (plChroma p) subY r (h4 size) i -> idx2 (xLL t') q i = idx2 (xLL t) q i /\ idx2 (xLD t') q i = idx2 (xLD t) q i).
Proof.
  intros subX subY planes g r c size t t' p Hs HR HC HP E. destruct (unit_sizes size Hs) as (_ & _ & P1 & P2 & D1 & D2).
  destruct (C114_chroma_and_neighbours g subX subY planes r c size Hs HR HC) as (p0 & Ep & CH & _). rewrite HP in Ep. injection Ep as <-.
  assert (OD : plChroma p = true -> (subY = true -> h4 size = 1 -> Z.odd r = true) /\ (subX = true -> w4 size = 1 -> Z.odd c = true)).
  { intros X. apply CH in X as [_ (y & x & Hy & Hx & Oy & Ox)]. split; intros S; [apply (odd_in r (h4 size) P2 D2); exists y; auto|apply (odd_in c (w4 size) P1 D1); exists x; auto]. }
  set (lo := fun (sub : bool) (s q : Z) => shr s (if 0 <? q then int_of sub else 0)). 
  assert (RG : forall (sub : bool) s n q i, 0 < n -> (n = 1 \/ (2 | n)) -> (n | s) -> (plChroma p = true -> sub = true -> n = 1 -> Z.odd s = true) ->
     (0 <= q < 1 + 2 * int_of (plChroma p) /\ lo sub s q <= i < lo sub (s + n) q) <-> plane_range q (plChroma p) sub s n i).
  { intros sub s n q i Hn H2 HD HO. unfold plane_range, lo. destruct (Z.ltb_spec 0 q) as [Hq|Hq].
    - rewrite !shr_sub. destruct (plChroma p); cbn [int_of]; [|split; [lia|intros [X|(X & _)]; [lia|discriminate X]]]. specialize (HO eq_refl). rewrite (half_end s n sub H2 Hn HD HO i). split; [intros [Hq2 Hi]; right; split; [reflexivity|split; [lia|exact Hi]]|intros [X|(_ & Hq2 & Hi)]; [lia|split; [lia|exact Hi]]].
    - rewrite !shr_div by lia. change (2 ^ 0) with 1. rewrite !Z.div_1_r. split; [intros [Hq2 Hi]; left; lia|intros [X|(_ & [X|X] & _)]; try lia]. destruct (plChroma p); cbn [int_of]; lia. }
  unfold resetBlockContext in E.
  assert (G : forall (f : Ctxs -> list (list Z)) (sub : bool) s n,
    (forall q b b', (let! t := rfor_to (lo subX c q) (lo subX (c + w4 size) q) (fun i t => let! a := upd2 (xAL t) q i 0 in let! b := upd2 (xAD t) q i 0 in Ok (mkCtxs a b (xLL t) (xLD t))) b in
       rfor_to (lo subY r q) (lo subY (r + h4 size) q) (fun i t => let! a := upd2 (xLL t) q i 0 in let! b := upd2 (xLD t) q i 0 in Ok (mkCtxs (xAL t) (xAD t) a b)) t) = Ok b' ->
       writes (fun t => get2 (f t)) (fun _ => Ok 0) (fun pt => exists i, lo sub s q <= i < lo sub (s + n) q /\ pt = (q, i)) b b') ->
    0 < n -> (n = 1 \/ (2 | n)) -> (n | s) -> (plChroma p = true -> sub = true -> n = 1 -> Z.odd s = true) ->
    (forall q i, plane_range q (plChroma p) sub s n i -> idx2 (f t') q i = Ok 0) /\ (forall q i, ~ plane_range q (plChroma p) sub s n i -> idx2 (f t') q i = idx2 (f t) q i)).
  { intros f sub s n HW Hn H2 HD HO. assert (W := writes_loop (fun t => get2 (f t)) (fun _ => Ok 0) 0 (1 + 2 * int_of (plChroma p)) _ (fun q pt => exists i, lo sub s q <= i < lo sub (s + n) q /\ pt = (q, i)) t t'
      ltac:(intros; apply decided_range; intros; apply decided_eq2) (fun q b b' _ Eb => HW q b b' Eb) E). destruct W as [W1 W2]. split; intros q i H.
    - apply RG in H as [H1 H3]; try assumption. destruct (W1 (q, i)) as (v & [= <-] & X); [exists q; split; [exact H1|]; exists i; split; [exact H3|reflexivity]|exact X].
    - apply (W2 (q, i)). intros (q' & Hq & i' & Hi & [= -> ->]). apply H. apply RG; auto. }
  assert (U1 : forall (f : Ctxs -> list (list Z)), (forall a b t, f (mkCtxs a b (xLL t) (xLD t)) = a) \/ (forall a b t, f (mkCtxs a b (xLL t) (xLD t)) = b) -> (forall a b t, f (mkCtxs (xAL t) (xAD t) a b) = f t) -> (f = xAL \/ f = xAD) -> forall q b b',
     (let! t := rfor_to (lo subX c q) (lo subX (c + w4 size) q) (fun i t => let! a := upd2 (xAL t) q i 0 in let! b := upd2 (xAD t) q i 0 in Ok (mkCtxs a b (xLL t) (xLD t))) b in
       rfor_to (lo subY r q) (lo subY (r + h4 size) q) (fun i t => let! a := upd2 (xLL t) q i 0 in let! b := upd2 (xLD t) q i 0 in Ok (mkCtxs (xAL t) (xAD t) a b)) t) = Ok b' ->
       writes (fun t => get2 (f t)) (fun _ => Ok 0) (fun pt => exists i, lo subX c q <= i < lo subX (c + w4 size) q /\ pt = (q, i)) b b').
  { intros f _ FK FE q b b' Eb. apply rbind_inv in Eb as (b1 & Eb1 & Eb2). assert (K : f b' = f b1).
    { revert Eb2. apply (rfor_to_keep (fun u => f u = f b1)); [reflexivity|]. intros i u u' _ Hu Eu. apply rbind_inv in Eu as (a0 & _ & Eu). apply rbind_inv in Eu as (b0 & _ & Eu). injection Eu as <-. rewrite FK. exact Hu. }
    assert (W : writes (fun t => get2 (f t)) (fun _ => Ok 0) (fun pt => exists i, lo subX c q <= i < lo subX (c + w4 size) q /\ pt = (q, i)) b b1).
    { revert Eb1. apply writes_loop; [intros; apply decided_eq2|]. intros i u u' _ Eu. apply rbind_inv in Eu as (a0 & Ea & Eu). apply rbind_inv in Eu as (b0 & Eb0 & Eu). injection Eu as <-.
      destruct FE as [->| ->]; [exact (writes_upd2 (fun _ => Ok 0) q i 0 _ _ eq_refl Ea)|exact (writes_upd2 (fun _ => Ok 0) q i 0 _ _ eq_refl Eb0)]. }
    destruct W as [W1 W2]. split; intros pt Hpt; rewrite K; auto. }
  assert (U2 : forall (f : Ctxs -> list (list Z)), (forall a b t, f (mkCtxs a b (xLL t) (xLD t)) = f t) -> (f = xLL \/ f = xLD) -> forall q b b',
     (let! t := rfor_to (lo subX c q) (lo subX (c + w4 size) q) (fun i t => let! a := upd2 (xAL t) q i 0 in let! b := upd2 (xAD t) q i 0 in Ok (mkCtxs a b (xLL t) (xLD t))) b in
       rfor_to (lo subY r q) (lo subY (r + h4 size) q) (fun i t => let! a := upd2 (xLL t) q i 0 in let! b := upd2 (xLD t) q i 0 in Ok (mkCtxs (xAL t) (xAD t) a b)) t) = Ok b' ->
       writes (fun t => get2 (f t)) (fun _ => Ok 0) (fun pt => exists i, lo subY r q <= i < lo subY (r + h4 size) q /\ pt = (q, i)) b b').
  { intros f FK FE q b b' Eb. apply rbind_inv in Eb as (b1 & Eb1 & Eb2). assert (K : f b1 = f b).
    { revert Eb1. apply (rfor_to_keep (fun u => f u = f b)); [reflexivity|]. intros i u u' _ Hu Eu. apply rbind_inv in Eu as (a0 & _ & Eu). apply rbind_inv in Eu as (b0 & _ & Eu). injection Eu as <-. rewrite FK. exact Hu. }
    assert (W : writes (fun t => get2 (f t)) (fun _ => Ok 0) (fun pt => exists i, lo subY r q <= i < lo subY (r + h4 size) q /\ pt = (q, i)) b1 b').
    { revert Eb2. apply writes_loop; [intros; apply decided_eq2|]. intros i u u' _ Eu. apply rbind_inv in Eu as (a0 & Ea & Eu). apply rbind_inv in Eu as (b0 & Eb0 & Eu). injection Eu as <-.
      destruct FE as [->| ->]; [exact (writes_upd2 (fun _ => Ok 0) q i 0 _ _ eq_refl Ea)|exact (writes_upd2 (fun _ => Ok 0) q i 0 _ _ eq_refl Eb0)]. }
    destruct W as [W1 W2]. split; intros pt Hpt; [apply W1, Hpt|]. rewrite (W2 pt Hpt), K. reflexivity. }
  destruct (G xAL subX c (w4 size) (U1 xAL (or_introl (fun a b t => eq_refl)) (fun a b t => eq_refl) (or_introl eq_refl)) P1 D1 HC (fun X => proj2 (OD X))) as [A1 A2].
  destruct (G xAD subX c (w4 size) (U1 xAD (or_intror (fun a b t => eq_refl)) (fun a b t => eq_refl) (or_intror eq_refl)) P1 D1 HC (fun X => proj2 (OD X))) as [B1 B2].
  destruct (G xLL subY r (h4 size) (U2 xLL (fun a b t => eq_refl) (or_introl eq_refl)) P2 D2 HR (fun X => proj1 (OD X))) as [C1 C2].
  destruct (G xLD subY r (h4 size) (U2 xLD (fun a b t => eq_refl) (or_intror eq_refl)) P2 D2 HR (fun X => proj1 (OD X))) as [E1 E2].
  split; [intros q i H; split; auto|]. split; [intros q i H; split; auto|]. split; intros q i H; split; auto.
Qed.
Print Assumptions C118_reset_partial.
(** Refuted: Skip of the state is never assigned (it is 0), so the contexts are left as they are by every skipped block. *)
Theorem C118_not_reset_refuted : forall S (info : Place -> M S BVal) recon inter g subX subY planes r c size t a1 a2 s t' a1' a2' s',
  (forall pl v t s t' s', recon pl v t s = Ok (t', s') -> vSkip v = 1 -> t' = t) -> (forall pl s v s', info pl s = Ok (v, s') -> vSkip v = 1) ->
  decodeBlock info recon 0 inter g subX subY planes r c size t a1 a2 s = Ok ((t', a1', a2'), s') -> t' = t.
Proof.
  intros S info recon inter g subX subY planes r c size t a1 a2 s t' a1' a2' s' HRc HI E. unfold decodeBlock in E. rewrite bind_eq in E. destruct (placeBlock g subX subY planes r c size) as [pl| |]; cbn [lift] in E; try discriminate.
  rewrite bind_eq in E. destruct (idx NUM_4X4_BLOCKS_WIDE size) as [bw| |]; cbn [lift] in E; try discriminate. rewrite bind_eq in E. destruct (idx NUM_4X4_BLOCKS_HIGH size) as [bh| |]; cbn [lift] in E; try discriminate.
  rewrite bind_eq in E. destruct (info pl s) as [[v s1]| |] eqn:EI; try discriminate. rewrite bind_eq in E. change (bool_of 0) with false in E at 1. cbv iota in E. cbn [lift] in E. rewrite bind_eq in E.
  destruct (storesBefore v (plChroma pl) inter r c bh bw a1) as [b1| |] eqn:E1; cbn [lift] in E; try discriminate. rewrite bind_eq in E. destruct (recon pl v t s1) as [[t1 s2]| |] eqn:ER; try discriminate. rewrite bind_eq in E.
  destruct (storesAfter v size r c bh bw a2) as [b2| |]; cbn [lift] in E; try discriminate. injection E as <- <- <- <-. exact (HRc _ _ _ _ _ _ ER (HI _ _ _ _ EI)).
Qed.
Print Assumptions C118_not_reset_refuted.
(** an 8x8 block at the origin, 4:2:0: the contexts are 3; clearing them gives 0 at two positions in luma and one in chroma *)
Example C118_case : match resetBlockContext true true true 0 0 2 2 demo_x with Ok t => (idx2 (xAL t) 0 1, idx2 (xAL t) 0 2, idx2 (xLD t) 1 0, idx2 (xLD t) 1 1) = (Ok 0, Ok 3, Ok 0, Ok 3) | _ => False end /\ vSkip (demo_v 1) = 1 /\
  match decodeBlock (S := unit) (fun _ => ret (demo_v 1)) (fun _ _ t => ret t) 0 0 demo_grid true true 3 0 0 3 demo_x demo_a1 demo_a2 tt with Ok ((t, _, _), _) => idx2 (xAL t) 0 1 = Ok 3 | _ => False end.
Proof. split; [vm_compute; reflexivity|]. split; [reflexivity|vm_compute; reflexivity]. Qed.
