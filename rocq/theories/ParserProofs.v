From Verif Require Import GoBase Bitstream SpecBits SpecStream BitstreamProofs ReaderOps Parses SafeParse
  Header HeaderProofs SpecSyntax SequenceHeader SequenceHeaderProofs Obu Parser ObuProofs.

(** Enough fuel for position s: every iteration consumes at least one byte. *)
Definition enough (fuel : nat) (s : bs) : Prop :=
  (1 <= fuel)%nat /\ 8 * zlen (Data s) - Position s + 8 <= 8 * Z.of_nat fuel.
(** Outcome: not a hang, data kept, position not decreased. *)
Definition fine {A} (s : bs) (r : res (A * bs)) : Prop :=
  match r with Ok (_, s') => Data s' = Data s /\ Position s <= Position s' | Panic => True | Hang => False end.

Lemma Leb128_step s : 0 <= Position s ->
  match Leb128 s with
  | Ok (v, s') => Data s' = Data s /\ Position s + 8 <= Position s' /\ Position s' <= 8 * zlen (Data s) /\ 0 <= v
  | Panic => True | Hang => False end.
Proof.
  intros H0. pose proof (safe_Leb128 s H0) as S. destruct (Leb128 s) as [[v s']| |] eqn:E; auto.
  destruct (Leb128_inv s v s' H0 E) as (k & Hk & -> & Hv & HL). pose proof (length_rest s H0) as HR.
  cbn. repeat split; lia.
Qed.
Lemma enough_step f s s' : enough (S f) s -> Data s' = Data s -> Position s + 8 <= Position s' -> Position s' <= 8 * zlen (Data s) -> enough f s'.
Proof. intros [H1 H2] D H3 H4. unfold enough. rewrite D. lia. Qed.
Lemma enough_mono f s s' : enough f s -> Data s' = Data s -> Position s <= Position s' -> enough f s'.
Proof. intros [H1 H2] D H3. unfold enough. rewrite D. lia. Qed.

Lemma fine_frameUnit P : calm_payloads P -> forall fuel sz d p s, 0 <= Position s -> enough fuel s ->
  fine s (frameUnit_loop P fuel sz d p s).
Proof.
  intros HP. induction fuel as [|f IH]; intros sz d p s H0 Hf; cbn [frameUnit_loop];
    destruct (0 <? sz); try (cbn; split; [reflexivity|lia]).
  - destruct Hf; lia.
  - rewrite bind_eq. pose proof (Leb128_step s H0) as L. destruct (Leb128 s) as [[v s1]| |]; auto.
    destruct L as (D1 & P1 & Q1 & V). cbv beta. rewrite (bind_ok _ _ _ _ _ (eq_refl : get s1 = Ok (s1, s1))).
    rewrite bind_eq. pose proof (calm_NewObu P v d (PSH p) (PUH p) HP V s1 ltac:(lia)) as C.
    destruct (NewObu P v d (PSH p) (PUH p) s1) as [[[o d1] s2]| |]; auto. destruct C as [D2 P2]. cbv beta.
    pose proof (IH (sz - Leb128Bytes s1 - v) d1 (keep p o) s2 ltac:(lia)) as G.
    pose proof (enough_step _ _ _ Hf D1 P1 Q1) as E1.
    specialize (G (enough_mono _ _ _ E1 D2 P2)). unfold fine in *.
    destruct (frameUnit_loop _ _ _ _ _ s2) as [[p' s']| |]; auto. destruct G as [D3 P3]. split; [congruence|lia].
Qed.
Lemma fine_temporalUnit P : calm_payloads P -> forall fuel sz p s, 0 <= Position s -> enough fuel s ->
  fine s (temporalUnit P fuel sz p s).
Proof.
  intros HP. induction fuel as [|f IH]; intros sz p s H0 Hf; cbn [temporalUnit];
    destruct (0 <? sz); try (cbn; split; [reflexivity|lia]).
  - destruct Hf; lia.
  - rewrite bind_eq. pose proof (Leb128_step s H0) as L. destruct (Leb128 s) as [[v s1]| |]; auto.
    destruct L as (D1 & P1 & Q1 & V). cbv beta. rewrite (bind_ok _ _ _ _ _ (eq_refl : get s1 = Ok (s1, s1))).
    pose proof (enough_step _ _ _ Hf D1 P1 Q1) as E1.
    rewrite bind_eq. pose proof (fine_frameUnit P HP f v (zeroState P) p s1 ltac:(lia) E1) as C. unfold frameUnit.
    destruct (frameUnit_loop P f v _ p s1) as [[p1 s2]| |]; auto. destruct C as [D2 P2]. cbv beta.
    pose proof (IH (sz - Leb128Bytes s1 - v) p1 s2 ltac:(lia) (enough_mono _ _ _ E1 D2 P2)) as G. unfold fine in *.
    destruct (temporalUnit _ _ _ _ s2) as [[p' s']| |]; auto. destruct G as [D3 P3]. split; [congruence|lia].
Qed.
Lemma fine_bitstream P : calm_payloads P -> forall fuel p s, 0 <= Position s -> enough fuel s ->
  fine s (bitstream_loop P fuel p s).
Proof.
  intros HP. induction fuel as [|f IH]; intros p s H0 Hf; cbn [bitstream_loop];
    rewrite (bind_ok _ _ _ _ _ (eq_refl : get s = Ok (s, s)));
    destruct (MoreDataInBitstream s); try (cbn; split; [reflexivity|lia]).
  - destruct Hf; lia.
  - rewrite bind_eq. pose proof (Leb128_step s H0) as L. destruct (Leb128 s) as [[v s1]| |]; auto.
    destruct L as (D1 & P1 & Q1 & V). cbv beta.
    pose proof (enough_step _ _ _ Hf D1 P1 Q1) as E1.
    rewrite bind_eq. pose proof (fine_temporalUnit P HP f v p s1 ltac:(lia) E1) as C.
    destruct (temporalUnit P f v p s1) as [[p1 s2]| |]; auto. destruct C as [D2 P2]. cbv beta.
    pose proof (IH p1 s2 ltac:(lia) (enough_mono _ _ _ E1 D2 P2)) as G. unfold fine in *.
    destruct (bitstream_loop _ _ _ s2) as [[p' s']| |]; auto. destruct G as [D3 P3]. split; [congruence|lia].
Qed.

(** What NewObu puts into the headers it returns. *)
Lemma NewObu_headers P sz d sh uh s o d' s' : NewObu P sz d sh uh s = Ok (o, d', s') ->
  (Type_ (Hdr o) <> OBU_SEQUENCE_HEADER -> ObuSH o = sh) /\
  (Type_ (Hdr o) <> OBU_FRAME_HEADER -> Type_ (Hdr o) <> OBU_FRAME -> ObuUH o = uh).
Proof.
  intros E. unfold NewObu in E.
  apply bind_inv in E. destruct E as (h & s1 & _ & E).
  apply bind_inv in E. destruct E as (size & s2 & _ & E).
  apply bind_inv in E. destruct E as (s2' & s3 & _ & E).
  destruct (dropped (OperatingPointIdc d) h).
  - apply bind_inv in E. destruct E as (? & s4 & _ & E). injection E as <- <- <-. cbn. auto.
  - apply bind_inv in E. destruct E as (r & s4 & E4 & E).
    apply bind_inv in E. destruct E as (? & s5 & _ & E).
    apply bind_inv in E. destruct E as (? & s6 & _ & E). injection E as E <-. subst r. clear - E4.
    unfold payload in E4. cbv zeta in E4.
    repeat match type of E4 with
    | (if ?t =? ?c then _ else _) _ = _ => destruct (Z.eqb_spec t c)
    | bind _ _ _ = Ok _ => apply bind_inv in E4; destruct E4 as (? & ? & _ & E4)
    | (let '(_, _) := ?x in _) _ = Ok _ => destruct x
    | ret _ _ = Ok _ => injection E4 as <- <- <-
    | panic _ = Ok _ => discriminate
    end; cbn; split; intros; congruence.
Qed.

(** Sequence header in effect after a list of OBUs. *)
Definition in_effect {P} (l : list (Obu P)) : SequenceHeader :=
  fold_left (fun acc o => if Type_ (Hdr o) =? OBU_SEQUENCE_HEADER then ObuSH o else acc) l zeroSH.
Definition uh_in_effect {P} (l : list (Obu P)) : UH P :=
  fold_left (fun acc o => if Type_ (Hdr o) =? OBU_FRAME_HEADER then ObuUH o else acc) l (uh0 P).

Definition coherent {P} (p : Parser P) : Prop :=
  PSH p = in_effect (obus p) /\ PUH p = uh_in_effect (obus p) /\
  forall pre o post, obus p = pre ++ o :: post ->
    (Type_ (Hdr o) <> OBU_SEQUENCE_HEADER -> ObuSH o = in_effect pre) /\
    (Type_ (Hdr o) <> OBU_FRAME_HEADER -> Type_ (Hdr o) <> OBU_FRAME -> ObuUH o = uh_in_effect pre).

Lemma coherent_keep P (p : Parser P) sz d s o d' s' : coherent p ->
  NewObu P sz d (PSH p) (PUH p) s = Ok (o, d', s') -> coherent (keep p o).
Proof.
  intros (A & B & C) E. destruct (NewObu_headers _ _ _ _ _ _ _ _ _ E) as [H1 H2].
  unfold coherent, keep. cbn [PSH PUH obus]. unfold in_effect, uh_in_effect in *. rewrite !fold_left_app. cbn [fold_left].
  rewrite <- A, <- B. split; [reflexivity|]. split; [reflexivity|].
  intros pre o' post Ho. assert (Hpc : post = [] \/ post <> []) by (destruct post; [left; reflexivity|right; discriminate]).
  destruct Hpc as [->|Hp].
  - apply app_inj_tail in Ho. destruct Ho as [<- <-]. rewrite <- A, <- B. split; assumption.
  - destruct (exists_last Hp) as (post' & x & ->).
    change (o' :: post' ++ [x]) with ((o' :: post') ++ [x]) in Ho. rewrite app_assoc in Ho.
    apply app_inj_tail in Ho. destruct Ho as [Ho _]. apply (C _ _ _ Ho).
Qed.

Lemma coherent_frameUnit P : forall fuel sz d p s p' s', coherent p ->
  frameUnit_loop P fuel sz d p s = Ok (p', s') -> coherent p'.
Proof.
  induction fuel as [|f IH]; intros sz d p s p' s' Hc E; cbn [frameUnit_loop] in E; destruct (0 <? sz);
    try (injection E as <- <-; exact Hc); try discriminate.
  apply bind_inv in E. destruct E as (v & s1 & _ & E). apply bind_inv in E. destruct E as (s1' & s2 & Eg & E).
  apply bind_inv in E. destruct E as ([o d1] & s3 & Eo & E).
  apply (IH _ _ _ _ _ _ (coherent_keep _ _ _ _ _ _ _ _ Hc Eo) E).
Qed.
Lemma coherent_temporalUnit P : forall fuel sz p s p' s', coherent p ->
  temporalUnit P fuel sz p s = Ok (p', s') -> coherent p'.
Proof.
  induction fuel as [|f IH]; intros sz p s p' s' Hc E; cbn [temporalUnit] in E; destruct (0 <? sz);
    try (injection E as <- <-; exact Hc); try discriminate.
  apply bind_inv in E. destruct E as (v & s1 & _ & E). apply bind_inv in E. destruct E as (s1' & s2 & Eg & E).
  apply bind_inv in E. destruct E as (p1 & s3 & Eo & E).
  apply (IH _ _ _ _ _ (coherent_frameUnit _ _ _ _ _ _ _ _ Hc Eo) E).
Qed.
Lemma coherent_bitstream P : forall fuel p s p' s', coherent p ->
  bitstream_loop P fuel p s = Ok (p', s') -> coherent p'.
Proof.
  induction fuel as [|f IH]; intros p s p' s' Hc E; cbn [bitstream_loop] in E;
    rewrite (bind_ok _ _ _ _ _ (eq_refl : get s = Ok (s, s))) in E; destruct (MoreDataInBitstream s);
    try (injection E as <- <-; exact Hc); try discriminate.
  apply bind_inv in E. destruct E as (v & s1 & _ & E).
  apply bind_inv in E. destruct E as (p1 & s3 & Eo & E).
  apply (IH _ _ _ _ (coherent_temporalUnit _ _ _ _ _ _ _ Hc Eo) E).
Qed.
Lemma coherent_parse P data os s : parse P data = Ok (os, s) -> exists p, coherent p /\ obus p = os.
Proof.
  unfold parse. destruct (bitstream_loop _ _ _ _) as [[p s']| |] eqn:E; try discriminate. intros [= <- <-].
  exists p. split; [|reflexivity]. refine (coherent_bitstream _ _ _ _ _ _ _ E).
  unfold coherent. cbn. repeat split; intros; destruct pre; discriminate.
Qed.
