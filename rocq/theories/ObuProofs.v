From Verif Require Import GoBase Bitstream SpecBits SpecStream BitstreamProofs ReaderOps Parses SafeParse Yields
  Header HeaderProofs SpecSyntax SequenceHeader SequenceHeaderProofs Obu Parser.

(** [calm m]: m returns or panics, never loops, does not write to the data and does not move back. *)
Definition calm {A} (m : BS A) : Prop :=
  forall s, 0 <= Position s ->
    match m s with
    | Ok (_, s') => Data s' = Data s /\ Position s <= Position s'
    | Panic => True
    | Hang => False
    end.
Definition calm_payloads (P : payloads) : Prop :=
  (forall h sh d, calm (NewUncompressedHeader P h sh d)) /\
  (forall sz uh sh d, calm (NewTileGroup P sz uh sh d)).

Lemma safe_calm {A} (m : BS A) : safe m -> calm m.
Proof. intros H s Hs. specialize (H s Hs). destruct (m s) as [[? ?]| |]; tauto. Qed.
Lemma calm_ret {A} (a : A) : calm (ret a). Proof. apply safe_calm, safe_ret. Qed.
Lemma calm_panic {A} : calm (@panic bs A). Proof. apply safe_calm, safe_panic. Qed.
Lemma calm_get : calm get. Proof. apply safe_calm, safe_get. Qed.
Lemma calm_bind {A B} (m : BS A) (k : A -> BS B) : calm m -> (forall a, calm (k a)) -> calm (bind m k).
Proof.
  intros Hm Hk s H. unfold bind. specialize (Hm s H). destruct (m s) as [[a s1]| |]; auto.
  destruct Hm as (D & P). specialize (Hk a s1 ltac:(lia)). destruct (k a s1) as [[b s2]| |]; auto.
  destruct Hk as (D2 & P2). rewrite D in *. split; auto; lia.
Qed.
Lemma calm_if {A} (b : bool) (m k : BS A) : calm m -> calm k -> calm (if b then m else k).
Proof. destruct b; auto. Qed.

Lemma ByteAlignment_never_hangs s : 0 <= Position s -> ByteAlignment s <> Hang.
Proof.
  intros H. destruct (Z_le_gt_dec (Position s) (8 * zlen (Data s))).
  - rewrite ByteAlignment_ok by lia. discriminate.
  - unfold ByteAlignment. cbn [ByteAlignment_loop]. unfold bind at 1, get.
    destruct (bool_of _); [|discriminate].
    unfold bind. pose proof (length_rest s H) as HL.
    rewrite F_panic; [discriminate|exact H|]. rewrite HL. lia.
Qed.
Lemma calm_ByteAlignment : calm ByteAlignment.
Proof.
  apply safe_calm, safe_of; [|apply ByteAlignment_never_hangs].
  pose proof (fw_call RAlign) as HF. intros s a s' H0 E. cbn [call] in HF.
  apply (HF s 0 s' H0). rewrite (bind_ok _ _ _ _ _ E). reflexivity.
Qed.

(** The padding loop: it stops on the first zero byte. *)
Lemma padding_loop_spec fuel : forall s, 0 <= Position s -> (length (rest s) < 8 * fuel)%nat ->
  match padding_loop fuel s with
  | Ok (_, s') => exists k, 0 <= k /\ s' = adv s (8 * k + 8) /\
       be (firstn 8 (skipn (8 * Z.to_nat k) (rest s))) = 0 /\
       (forall j, 0 <= j < k -> be (firstn 8 (skipn (8 * Z.to_nat j) (rest s))) <> 0)
  | Panic => True
  | Hang => False
  end.
Proof.
  induction fuel as [|f IH]; intros s H0 HL; [lia|]. cbn [padding_loop].
  destruct (F_total 8 s H0 ltac:(lia)) as [(l & r & Hr & Hl & E)|[Hc E]].
  - rewrite (bind_ok _ _ _ _ _ E).
    assert (Hl8 : length l = 8%nat) by lia.
    assert (Hfirst : firstn 8 (rest s) = l) by (rewrite Hr, <- Hl8, firstn_app, Nat.sub_diag, firstn_all; cbn [firstn]; apply app_nil_r).
    destruct (Z.eqb_spec (be l) 0) as [Ez|Ez]; cbn [negb].
    + exists 0. split; [lia|]. split; [reflexivity|]. change (8 * Z.to_nat 0)%nat with 0%nat. cbn [skipn].
      rewrite Hfirst. split; [exact Ez|]. lia.
    + assert (Hra : rest (adv s 8) = r).
      { rewrite rest_adv by lia. rewrite Hr. change (Z.to_nat 8) with 8%nat. rewrite <- Hl8, skipn_app, skipn_all, Nat.sub_diag. reflexivity. }
      specialize (IH (adv s 8) ltac:(cbn; lia)). rewrite Hra in IH.
      specialize (IH ltac:(rewrite Hr, app_length in HL; lia)).
      destruct (padding_loop f (adv s 8)) as [[u s']| |]; auto.
      destruct IH as (k & Hk & -> & Hz & Hnz). exists (k + 1). split; [lia|]. rewrite adv_adv. split; [okeq|].
      assert (Sk : forall j, 0 <= j -> skipn (8 * Z.to_nat (j + 1)) (rest s) = skipn (8 * Z.to_nat j) r).
      { intros j Hj. replace (8 * Z.to_nat (j + 1))%nat with (8 * Z.to_nat j + 8)%nat by lia.
        rewrite <- skipn_skipn_add. f_equal. rewrite Hr, <- Hl8, skipn_app, skipn_all, Nat.sub_diag. reflexivity. }
      split; [rewrite Sk by lia; exact Hz|].
      intros j Hj. destruct (Z.eq_dec j 0) as [->|].
      * change (8 * Z.to_nat 0)%nat with 0%nat. cbn [skipn]. rewrite Hfirst. exact Ez.
      * replace j with (j - 1 + 1) by lia. rewrite Sk by lia. apply Hnz. lia.
  - unfold bind. rewrite E. exact I.
Qed.

Lemma paddingObu_spec s : 0 <= Position s ->
  match paddingObu s with
  | Ok (_, s') => exists k, 0 <= k /\ s' = adv s (8 * k) /\
       be (firstn 8 (skipn (8 * Z.to_nat k) (rest s))) = 0 /\
       (forall j, 0 <= j < k -> be (firstn 8 (skipn (8 * Z.to_nat j) (rest s))) <> 0)
  | Panic => True
  | Hang => False
  end.
Proof.
  intros H0. unfold paddingObu. rewrite (bind_ok _ _ _ _ _ (eq_refl : get s = Ok (s, s))).
  pose proof (padding_loop_spec (S (bits_left s)) s H0) as G. rewrite bits_left_rest in * by exact H0.
  specialize (G ltac:(lia)). unfold bind. destruct (padding_loop _ s) as [[u s']| |]; auto.
  destruct G as (k & Hk & -> & Hz & Hnz). cbn. exists k. split; [exact Hk|]. split; [|split; assumption].
  unfold adv, set_pos. cbn. okeq.
Qed.
Lemma calm_paddingObu : calm paddingObu.
Proof.
  intros s H. pose proof (paddingObu_spec s H) as G. destruct (paddingObu s) as [[u s']| |]; auto.
  destruct G as (k & Hk & -> & _). cbn. split; [reflexivity|lia].
Qed.

Lemma calm_ParseFrameHeader P d h sh : calm_payloads P -> calm (ParseFrameHeader P d h sh).
Proof.
  intros [H1 _]. unfold ParseFrameHeader. apply calm_if; [apply calm_panic|].
  apply calm_bind; [apply H1|]. intros [uh d1]. apply calm_if; [apply calm_panic|apply calm_ret].
Qed.
Lemma calm_payload P size h sh uh d : calm_payloads P -> calm (payload P size h sh uh d).
Proof.
  intros HP. unfold payload, newFrame.
  repeat first [apply calm_ret | apply calm_panic | apply calm_get | apply calm_if | apply calm_ParseFrameHeader; exact HP
    | apply calm_paddingObu | apply calm_ByteAlignment | apply (proj2 HP) | apply (proj1 HP)
    | apply safe_calm; apply safe_NewSequenceHeader
    | apply calm_bind; [|intros ?]
    | match goal with |- calm (match ?x with _ => _ end) => destruct x end ].
Qed.

Lemma NewHeader_pos s h s1 : 0 <= Position s -> NewHeader s = Ok (h, s1) ->
  Data s1 = Data s /\ Position s1 = Position s + 8 + 8 * int_of (ExtensionFlag h) /\
  (Position s1 <= 8 * zlen (Data s)) /\ 0 <= TemporalID (ExtHeader h) < 8 /\ 0 <= SpatialID (ExtHeader h) < 4 /\ 0 <= Type_ h < 16.
Proof.
  assert (FI : forall n s v s', F n s = Ok (v, s') -> 0 <= Position s -> 0 < n <= 63 ->
     s' = adv s n /\ 0 <= v < 2 ^ n /\ Position s + n <= 8 * zlen (Data s)).
  { intros n t v t' E Ht Hn. destruct (F_total n t Ht ltac:(lia)) as [(l & r & Hr & Hl & E2)|[_ E2]]; rewrite E2 in E; [|discriminate].
    injection E as <- <-. split; [reflexivity|]. split; [rewrite <- Hl; apply be_nonneg|].
    pose proof (length_rest t Ht) as HL. rewrite Hr, app_length in HL. lia. }
  assert (BI : forall s v s', Fbool s = Ok (v, s') -> 0 <= Position s -> s' = adv s 1 /\ Position s + 1 <= 8 * zlen (Data s)).
  { intros t v t' E Ht. unfold Fbool in E. apply bind_inv in E. destruct E as (x & t1 & E1 & E2).
    destruct (FI 1 t x t1 E1 Ht ltac:(lia)) as (A & B & C). injection E2 as <- <-. split; [exact A|lia]. }
  intros H0 E. unfold NewHeader in E.
  apply bind_inv in E; destruct E as (a1 & t1 & E1 & E). destruct (BI _ _ _ E1 H0) as [-> Q1].
  apply bind_inv in E; destruct E as (a2 & t2 & E2 & E). destruct (FI 4 _ _ _ E2 ltac:(cbn; lia) ltac:(lia)) as (-> & R2 & Q2). rewrite adv_adv in *.
  apply bind_inv in E; destruct E as (a3 & t3 & E3 & E). destruct (BI _ _ _ E3 ltac:(cbn; lia)) as [-> Q3]. rewrite adv_adv in *.
  apply bind_inv in E; destruct E as (a4 & t4 & E4 & E). destruct (BI _ _ _ E4 ltac:(cbn; lia)) as [-> Q4]. rewrite adv_adv in *.
  apply bind_inv in E; destruct E as (a5 & t5 & E5 & E). destruct (BI _ _ _ E5 ltac:(cbn; lia)) as [-> Q5]. rewrite adv_adv in *.
  cbn in Q1, Q2, Q3, Q4, Q5.
  destruct a3.
  - apply bind_inv in E; destruct E as (a6 & t6 & E6 & E). injection E as <- <-. unfold NewExtensionHeader in E6.
    apply bind_inv in E6; destruct E6 as (b1 & u1 & F1 & E6). destruct (FI 3 _ _ _ F1 ltac:(cbn; lia) ltac:(lia)) as (-> & S1 & T1). rewrite adv_adv in *.
    apply bind_inv in E6; destruct E6 as (b2 & u2 & F2 & E6). destruct (FI 2 _ _ _ F2 ltac:(cbn; lia) ltac:(lia)) as (-> & S2 & T2). rewrite adv_adv in *.
    apply bind_inv in E6; destruct E6 as (b3 & u3 & F3 & E6). destruct (FI 3 _ _ _ F3 ltac:(cbn; lia) ltac:(lia)) as (-> & S3 & T3). rewrite adv_adv in *.
    injection E6 as <- <-. cbn in *. repeat split; lia.
  - injection E as <- <-. cbn in *. repeat split; lia.
Qed.
Lemma NewHeader_no_hang s : 0 <= Position s -> NewHeader s <> Hang.
Proof.
  intros H0 E. assert (S : safe NewHeader) by (unfold NewHeader, NewExtensionHeader; safet).
  specialize (S s H0). rewrite E in S. exact S.
Qed.

(** NewObu never moves back (an obu_length of 0 without size field gives Size = -1 or -2, which only
    undoes the header). *)
Lemma calm_NewObu P sz d sh uh : calm_payloads P -> 0 <= sz -> calm (NewObu P sz d sh uh).
Proof.
  intros HP Hsz s H0. unfold NewObu.
  pose proof (NewHeader_no_hang s H0) as Hh.
  destruct (NewHeader s) as [[h s1]| |] eqn:Eh; [|unfold bind; rewrite Eh; exact I|congruence].
  rewrite (bind_ok _ _ _ _ _ Eh).
  destruct (NewHeader_pos s h s1 H0 Eh) as (D1 & P1 & _ & _).
  assert (Hi : 0 <= int_of (ExtensionFlag h)) by (destruct (ExtensionFlag h); cbn; lia).
  match goal with |- match bind ?m ?k s1 with _ => _ end =>
    assert (K : forall size s2, Data s2 = Data s -> Position s1 <= Position s2 -> Position s <= Position s2 + size * 8 ->
      match k size s2 with Ok (_, s') => Data s' = Data s /\ Position s <= Position s' | Panic => True | Hang => False end) end.
  { intros size s2 D2 P2 P2'. cbv beta.
    rewrite (bind_ok _ _ _ _ _ (eq_refl : get s2 = Ok (s2, s2))).
    destruct (dropped (OperatingPointIdc d) h).
    - cbn. split; [exact D2|lia].
    - pose proof (calm_payload P size h sh uh d HP s2 ltac:(lia)) as S.
      rewrite bind_eq. destruct (payload P size h sh uh d s2) as [[r s3]| |]; auto. destruct S as (D3 & P3). cbv beta.
      rewrite (bind_ok _ _ _ _ _ (eq_refl : get s3 = Ok (s3, s3))).
      match goal with |- match ?m s3 with _ => _ end => assert (C : calm m) end.
      { apply calm_bind; [|intros; apply calm_ret]. apply calm_if; [apply safe_calm, safe_TrailingBits|apply calm_ret]. }
      specialize (C s3 ltac:(lia)).
      match goal with |- match ?x with _ => _ end => destruct x as [[r' s4]| |]; auto end.
      destruct C as (D4 & P4). rewrite D4, D3. split; [exact D2|lia]. }
  rewrite bind_eq. destruct (HasSizeField h).
  - pose proof (safe_Leb128 s1 ltac:(lia)) as S. destruct (Leb128 s1) as [[size s2]| |] eqn:El; auto.
    destruct S as (D2 & P2 & _). destruct (Leb128_inv s1 size s2 ltac:(lia) El) as (k & _ & _ & V & _).
    apply K; [congruence|lia|lia].
  - cbn [ret]. apply K; [exact D1|lia|lia].
Qed.
