From Verif Require Import GoBase Bitstream SpecBits SpecStream BitstreamProofs ReaderOps Parses SafeParse
  Header HeaderProofs SpecSyntax SpecAnnexB SequenceHeader SequenceHeaderProofs Obu Parser ObuProofs ParserProofs.

(** In decoder state d (with the given headers in effect) the OBU with bits l is decoded to o, leaves state
    d', and consumes exactly its bits, wherever it stands. *)
Definition decodes_obu (P : payloads) (d : dstate (IS P)) (sh : SequenceHeader) (uh : UH P) (l : list bool)
  (o : Obu P) (d' : dstate (IS P)) : Prop :=
  forall s, starts s l -> exists k, NewObu P (Z.of_nat (length l) / 8) d sh uh s =
    Ok (o, d', set_leb_adv s k (Z.of_nat (length l))).

Inductive decodes_obus (P : payloads) : dstate (IS P) -> Parser P -> list obu_u -> Parser P -> Prop :=
| DO_nil d p : decodes_obus P d p [] p
| DO_cons d p k l t o d' p' : decodes_obu P d (PSH p) (PUH p) l o d' ->
    decodes_obus P d' (keep p o) t p' -> decodes_obus P d p ((k, l) :: t) p'.
Inductive decodes_frames (P : payloads) : Parser P -> list frame_u -> Parser P -> Prop :=
| DF_nil p : decodes_frames P p [] p
| DF_cons p k l t p1 p2 : decodes_obus P (zeroState P) p l p1 -> decodes_frames P p1 t p2 ->
    decodes_frames P p ((k, l) :: t) p2.
Inductive decodes_stream (P : payloads) : Parser P -> list temporal_u -> Parser P -> Prop :=
| DS_nil p : decodes_stream P p [] p
| DS_cons p k l t p1 p2 : decodes_frames P p l p1 -> decodes_stream P p1 t p2 ->
    decodes_stream P p ((k, l) :: t) p2.

Lemma starts_leb s k n l : starts (set_leb_adv s k n) l <-> starts (adv s n) l.
Proof. reflexivity. Qed.
Lemma set_leb_twice s k n k' n' : set_leb_adv (set_leb_adv s k n) k' n' = set_leb_adv s k' (n + n').
Proof. unfold set_leb_adv. cbn. okeq. Qed.
Lemma set_leb_self s : set_leb_adv s (Leb128Bytes s) 0 = s.
Proof. destruct s. unfold set_leb_adv. cbn. okeq. Qed.

(** Reading the length field of a unit. *)
Lemma unit_len k body : valid_unit k body -> length (enc_unit k body) = (8 * k + length body)%nat.
Proof. intros _. unfold enc_unit. rewrite app_length, length_enc_leb128. reflexivity. Qed.
Lemma unit_leb k body r s : valid_unit k body -> starts s (enc_unit k body ++ r) ->
  Leb128 s = Ok (Z.of_nat (length body) / 8, set_leb_adv s (Z.of_nat k) (8 * Z.of_nat k)) /\
  starts (set_leb_adv s (Z.of_nat k) (8 * Z.of_nat k)) (body ++ r).
Proof.
  intros (Hk & n & Hn & Hn2) H. unfold enc_unit in H. rewrite <- app_assoc in H.
  destruct (starts_app _ _ _ H) as [H1 H2]. split.
  - apply Leb128_enc; [exact Hk| |exact H1]. rewrite Hn.
    replace (Z.of_nat (8 * n)) with (Z.of_nat n * 8) by lia. rewrite Z.div_mul by lia. lia.
  - apply starts_leb. rewrite length_enc_leb128 in H2. replace (8 * Z.of_nat k) with (Z.of_nat (8 * k)) by lia. exact H2.
Qed.
Lemma valid_len k body : valid_unit k body -> exists n, length body = (8 * n)%nat /\ (1 <= k <= 8)%nat.
Proof. intros (Hk & n & Hn & _). exists n. auto. Qed.

Lemma starts_app_l s l r : starts s (l ++ r) -> starts s l.
Proof. intros H. apply (proj1 (starts_app _ _ _ H)). Qed.

(** Byte multiple of concatenated units *)
Lemma obus_bytes l : valid_obus l -> exists n, length (enc_obus l) = (8 * n)%nat.
Proof.
  induction 1 as [|[k b] t Hu Ht (n & IH)]; [exists 0%nat; reflexivity|]. cbn [enc_obus flat_map fst snd] in *.
  destruct (valid_len _ _ Hu) as (m & Hm & _). exists (k + m + n)%nat. rewrite app_length, unit_len by exact Hu.
  change (flat_map _ t) with (enc_obus t). lia.
Qed.
Lemma frames_bytes l : valid_frames l -> exists n, length (enc_frames l) = (8 * n)%nat.
Proof.
  induction 1 as [|[k b] t [Hu Hv] Ht (n & IH)]; [exists 0%nat; reflexivity|]. cbn [enc_frames flat_map fst snd] in *.
  destruct (valid_len _ _ Hu) as (m & Hm & _). exists (k + m + n)%nat. rewrite app_length, unit_len by exact Hu.
  change (flat_map _ t) with (enc_frames t). lia.
Qed.
Lemma div8 n m : Z.of_nat (8 * n + 8 * m) / 8 = Z.of_nat n + Z.of_nat m.
Proof. replace (Z.of_nat (8 * n + 8 * m)) with ((Z.of_nat n + Z.of_nat m) * 8) by lia. apply Z.div_mul. lia. Qed.
Lemma div8_1 n : Z.of_nat (8 * n) / 8 = Z.of_nat n.
Proof. replace (Z.of_nat (8 * n)) with (Z.of_nat n * 8) by lia. apply Z.div_mul. lia. Qed.

Lemma frameUnit_decodes P : forall d p us p', decodes_obus P d p us p' -> valid_obus us ->
  forall fuel s, starts s (enc_obus us) -> (length (enc_obus us) <= 8 * fuel)%nat ->
  exists k, frameUnit_loop P fuel (Z.of_nat (length (enc_obus us)) / 8) d p s =
    Ok (p', set_leb_adv s k (Z.of_nat (length (enc_obus us)))).
Proof.
  induction 1 as [d p|d p k l t o d' p' Ho Ht IH]; intros Hv fuel s Hs Hf.
  - exists (Leb128Bytes s). cbn. destruct fuel; cbn; rewrite set_leb_self; reflexivity.
  - inversion Hv as [|x y Hu Hv' E1]; subst. cbn [fst snd] in Hu.
    cbn [enc_obus flat_map fst snd] in *. change (flat_map _ t) with (enc_obus t) in *.
    destruct (valid_len _ _ Hu) as (n & Hn & Hk).
    destruct (obus_bytes t Hv') as (m & Hm).
    assert (HL : length (enc_unit k l ++ enc_obus t) = (8 * (k + n + m))%nat) by (rewrite app_length, unit_len by exact Hu; lia).
    rewrite HL in *. destruct fuel as [|f]; [lia|]. cbn [frameUnit_loop]. rewrite div8_1.
    destruct (Z.ltb_spec 0 (Z.of_nat (k + n + m))); [|lia].
    destruct (unit_leb k l (enc_obus t) s Hu Hs) as [EL HS].
    rewrite (bind_ok _ _ _ _ _ EL). rewrite (bind_ok _ _ _ _ _ (eq_refl : get _ = Ok (_, _))).
    destruct (Ho _ (starts_app_l _ _ _ HS)) as (k1 & Eo). rewrite (bind_ok _ _ _ _ _ Eo).
    rewrite set_leb_twice. rewrite Hn, div8_1.
    destruct (IH Hv' f (set_leb_adv s k1 (8 * Z.of_nat k + Z.of_nat (8 * n)))) as (k2 & E2).
    { destruct (starts_app _ _ _ HS) as [_ HS2]. apply starts_leb. unfold adv, set_pos, set_leb_adv in *. cbn in *.
      destruct HS2 as [A B]. cbn in *. split; [cbn; lia|]. destruct B as [r B]. exists r. rewrite <- B. unfold rest. cbn. do 2 f_equal. lia. }
    { lia. }
    exists k2. rewrite Hm, div8_1 in E2. cbn [Leb128Bytes set_leb_adv].
    replace (Z.of_nat (k + n + m) - Z.of_nat k - Z.of_nat n) with (Z.of_nat m) by lia.
    rewrite E2. rewrite set_leb_twice. unfold set_leb_adv. okeq.
Qed.

Lemma temporalUnit_decodes P : forall p fs p', decodes_frames P p fs p' -> valid_frames fs ->
  forall fuel s, starts s (enc_frames fs) -> (length (enc_frames fs) <= 8 * fuel)%nat ->
  exists k, temporalUnit P fuel (Z.of_nat (length (enc_frames fs)) / 8) p s =
    Ok (p', set_leb_adv s k (Z.of_nat (length (enc_frames fs)))).
Proof.
  induction 1 as [p|p k us t p1 p2 Hu0 Ht IH]; intros Hv fuel s Hs Hf.
  - exists (Leb128Bytes s). cbn. destruct fuel; cbn; rewrite set_leb_self; reflexivity.
  - inversion Hv as [|x y [Hu Hus] Hv' E1]; subst. cbn [fst snd] in Hu, Hus.
    cbn [enc_frames flat_map fst snd] in *. change (flat_map _ t) with (enc_frames t) in *.
    destruct (valid_len _ _ Hu) as (n & Hn & Hk).
    destruct (frames_bytes t Hv') as (m & Hm).
    assert (HL : length (enc_unit k (enc_obus us) ++ enc_frames t) = (8 * (k + n + m))%nat) by (rewrite app_length, unit_len by exact Hu; lia).
    rewrite HL in *. destruct fuel as [|f]; [lia|]. cbn [temporalUnit]. rewrite div8_1.
    destruct (Z.ltb_spec 0 (Z.of_nat (k + n + m))); [|lia].
    destruct (unit_leb k (enc_obus us) (enc_frames t) s Hu Hs) as [EL HS].
    rewrite (bind_ok _ _ _ _ _ EL). rewrite (bind_ok _ _ _ _ _ (eq_refl : get _ = Ok (_, _))).
    destruct (frameUnit_decodes P _ _ _ _ Hu0 Hus f _ (starts_app_l _ _ _ HS) ltac:(lia)) as (k1 & Eo).
    unfold frameUnit. rewrite (bind_ok _ _ _ _ _ Eo).
    rewrite set_leb_twice. rewrite Hn, div8_1.
    destruct (IH Hv' f (set_leb_adv s k1 (8 * Z.of_nat k + Z.of_nat (8 * n)))) as (k2 & E2).
    { destruct (starts_app _ _ _ HS) as [_ HS2]. apply starts_leb. unfold adv, set_pos, set_leb_adv in *. cbn in *.
      destruct HS2 as [A B]. cbn in *. split; [cbn; lia|]. destruct B as [r B]. exists r. rewrite <- B. unfold rest. cbn. do 2 f_equal. lia. }
    { lia. }
    exists k2. rewrite Hm, div8_1 in E2. cbn [Leb128Bytes set_leb_adv].
    replace (Z.of_nat (k + n + m) - Z.of_nat k - Z.of_nat n) with (Z.of_nat m) by lia.
    rewrite E2. rewrite set_leb_twice. unfold set_leb_adv. okeq.
Qed.

Lemma bitstream_decodes P : forall p ts p', decodes_stream P p ts p' -> valid_stream ts ->
  forall fuel s n, Position s = 8 * n -> 0 <= n -> rest s = enc_stream ts -> (length (enc_stream ts) <= 8 * fuel)%nat ->
  n <= zlen (Data s) ->
  exists k, bitstream_loop P fuel p s = Ok (p', set_leb_adv s k (Z.of_nat (length (enc_stream ts)))).
Proof.
  induction 1 as [p|p k fs t p1 p2 Hu0 Ht IH]; intros Hv fuel s n0 Hp Hn0 Hs Hf Hle.
  - exists (Leb128Bytes s). cbn in *.
    assert (M0 : MoreDataInBitstream s = false).
    { unfold MoreDataInBitstream. pose proof (length_rest s ltac:(lia)) as HR. rewrite Hs in HR. cbn [length] in HR.
      assert (n0 = zlen (Data s)) by lia. rewrite Hp, Z.mul_comm, Z.quot_mul by lia. rewrite H, Z.eqb_refl. reflexivity. }
    destruct fuel; cbn [bitstream_loop]; rewrite (bind_ok _ _ _ _ _ (eq_refl : get s = Ok (s, s))), M0;
      change (Z.of_nat 0) with 0; rewrite set_leb_self; reflexivity.
  - inversion Hv as [|x y [Hu Hus] Hv' E1]; subst. cbn [fst snd] in Hu, Hus.
    cbn [enc_stream flat_map fst snd] in *. change (flat_map _ t) with (enc_stream t) in *.
    destruct (valid_len _ _ Hu) as (n & Hn & Hk).
    assert (HL : length (enc_unit k (enc_frames fs) ++ enc_stream t) = (8 * (k + n) + length (enc_stream t))%nat) by (rewrite app_length, unit_len by exact Hu; lia).
    rewrite HL in *. destruct fuel as [|f]; [lia|]. cbn [bitstream_loop].
    assert (HR := length_rest s ltac:(lia)). rewrite Hs, HL in HR.
    assert (M1 : MoreDataInBitstream s = true).
    { unfold MoreDataInBitstream. rewrite Hp, Z.mul_comm, Z.quot_mul by lia.
      destruct (Z.eqb_spec n0 (zlen (Data s))) as [E|]; [|reflexivity]. exfalso. lia. }
    rewrite (bind_ok _ _ _ _ _ (eq_refl : get s = Ok (s, s))), M1.
    assert (Hst : starts s (enc_unit k (enc_frames fs) ++ enc_stream t)).
    { split; [lia|]. exists []. rewrite app_nil_r. exact Hs. }
    destruct (unit_leb k (enc_frames fs) (enc_stream t) s Hu Hst) as [EL HS].
    rewrite (bind_ok _ _ _ _ _ EL).
    destruct (temporalUnit_decodes P _ _ _ Hu0 Hus f _ (starts_app_l _ _ _ HS) ltac:(lia)) as (k1 & Eo).
    rewrite (bind_ok _ _ _ _ _ Eo).
    rewrite set_leb_twice. rewrite Hn.
    destruct (IH Hv' f (set_leb_adv s k1 (8 * Z.of_nat k + Z.of_nat (8 * n))) (n0 + Z.of_nat k + Z.of_nat n)) as (k2 & E2).
    { cbn. lia. }
    { lia. }
    { change (rest (set_leb_adv s k1 (8 * Z.of_nat k + Z.of_nat (8 * n)))) with (rest (adv s (8 * Z.of_nat k + Z.of_nat (8 * n)))).
      rewrite rest_adv by lia. rewrite Hs.
      replace (Z.to_nat (8 * Z.of_nat k + Z.of_nat (8 * n))) with (length (enc_unit k (enc_frames fs))) by (rewrite unit_len by exact Hu; lia).
      rewrite skipn_app, skipn_all, Nat.sub_diag. reflexivity. }
    { lia. }
    { cbn. lia. }
    exists k2. rewrite E2, set_leb_twice. unfold set_leb_adv. okeq.
Qed.

(** One OBU per unit, in order. *)
Lemma decodes_obus_count P d p us p' : decodes_obus P d p us p' -> length (obus p') = (length (obus p) + length us)%nat.
Proof. induction 1 as [|d p k l t o d' p' Ho Ht IH]; cbn [length]; [lia|]. rewrite IH. unfold keep. cbn. rewrite app_length. cbn. lia. Qed.
Lemma decodes_frames_count P p fs p' : decodes_frames P p fs p' -> length (obus p') = (length (obus p) + length (flat_map snd fs))%nat.
Proof. induction 1 as [|p k us t p1 p2 Hu Ht IH]; cbn [flat_map snd length]; [lia|]. rewrite IH, (decodes_obus_count _ _ _ _ _ Hu), app_length. lia. Qed.
Lemma decodes_stream_count P p ts p' : decodes_stream P p ts p' -> length (obus p') = (length (obus p) + length (all_obus ts))%nat.
Proof.
  induction 1 as [|p k fs t p1 p2 Hu Ht IH]; cbn [all_obus flat_map snd length]; [lia|].
  rewrite IH, (decodes_frames_count _ _ _ _ Hu), app_length. unfold all_obus. lia.
Qed.
