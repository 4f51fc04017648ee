(** Properties C23-C26 and C47: OBUs, operating points, Annex B framing, header persistence.
    Every theorem is for an arbitrary behaviour of the frame header and tile group parsers (P); where it
    matters, [calm_payloads P] says that they never hang, never move back and never write to the data. *)
From Verif Require Import GoBase Bitstream SpecBits SpecStream BitstreamProofs ReaderOps Parses SafeParse Yields
  Header HeaderProofs SpecSyntax SpecAnnexB SequenceHeader SequenceHeaderProofs Obu Parser ObuProofs ParserProofs AnnexBProofs.

(** The bits of obu_header() and obu_size (in k bytes). *)
Definition enc_obu_prefix (forbidden : bool) (ty : Z) (ext : option (Z * Z * Z)) (reserved : bool) (k : nat) (size : Z) :=
  enc_obu_header forbidden ty ext true reserved ++ enc_leb128 k size.
Definition valid_prefix (ty : Z) (ext : option (Z * Z * Z)) (k : nat) (size : Z) : Prop :=
  0 <= ty < 16 /\ match ext with Some (t, sp, r) => 0 <= t < 8 /\ 0 <= sp < 4 /\ 0 <= r < 8 | None => True end /\
  (1 <= k <= 8)%nat /\ 0 <= size < 2 ^ (7 * Z.of_nat k).
Definition mk_header forbidden ty (ext : option (Z * Z * Z)) has_size reserved : Header :=
  match ext with
  | Some (t, sp, r) => mkHeader forbidden ty true has_size reserved (mkExt t sp r)
  | None => mkHeader forbidden ty false has_size reserved (mkExt 0 0 0)
  end.

(** Where the payload starts. *)
Definition payload_start (s : bs) (ext : option (Z * Z * Z)) (k : nat) : Z :=
  Position s + (match ext with Some _ => 16 | None => 8 end) + 8 * Z.of_nat k.

Lemma NewObu_prefix P sz d sh uh s forbidden ty ext reserved k size :
  valid_prefix ty ext k size -> starts s (enc_obu_prefix forbidden ty ext reserved k size) ->
  exists s2, Position s2 = payload_start s ext k /\ Data s2 = Data s /\ 0 <= Position s2 /\
  let h := mk_header forbidden ty ext true reserved in
  NewObu P sz d sh uh s =
  (let* s0 := get in
  if dropped (OperatingPointIdc d) h then
    modify (fun s => set_pos s (Position s + size * 8)) ;;
    ret (mkObu size h sh uh (tg0 P), d)
  else
    let* r := payload P size h sh uh d in
    let* s1 := get in
    let payloadBits := Position s1 - Position s0 in
    (if hasTrailingBits size h then TrailingBits (size * 8 - payloadBits) else ret tt) ;;
    ret r) s2.
Proof.
  intros (Hty & Hext & Hk & Hsz) H. unfold enc_obu_prefix in H. destruct (starts_app _ _ _ H) as [H1 H2].
  pose proof (parses_NewHeader forbidden ty ext true reserved Hty Hext s H1) as Eh.
  set (n := match ext with Some _ => 16 | None => 8 end).
  assert (Hl : Z.of_nat (length (enc_obu_header forbidden ty ext true reserved)) = n).
  { unfold enc_obu_header, n. destruct ext as [[[t sp] r]|]; rewrite ?app_length, ?length_enc_f; cbn; rewrite ?app_length, ?length_enc_f; reflexivity. }
  rewrite Hl in H2.
  exists (set_leb_adv (adv s n) (Z.of_nat k) (8 * Z.of_nat k)).
  assert (H0 : 0 <= Position s) by apply H.
  assert (Hn : 0 <= n) by (unfold n; destruct ext; lia).
  split; [reflexivity|]. split; [reflexivity|]. split; [cbn; lia|].
  unfold NewObu.
  assert (Eh' : NewHeader s = Ok (mk_header forbidden ty ext true reserved, adv s n)).
  { rewrite Eh. unfold mk_header, n. destruct ext as [[[t sp] r]|]; reflexivity. }
  rewrite (bind_ok _ _ _ _ _ Eh').
  assert (Hs : HasSizeField (mk_header forbidden ty ext true reserved) = true) by (destruct ext as [[[t sp] r]|]; reflexivity).
  rewrite Hs. rewrite (bind_ok _ _ _ _ _ (Leb128_enc _ k size Hk Hsz H2)). reflexivity.
Qed.

Lemma shr_bit x n : 0 <= n -> bool_of (Z.land (shr x n) 1) = Z.testbit x n.
Proof.
  intros Hn. unfold shr, bool_of. destruct (Z.ltb_spec n 0); [lia|].
  replace (Z.land _ 1) with (Z.b2z (Z.testbit x n)).
  - destruct (Z.testbit x n); reflexivity.
  - rewrite Z.testbit_spec' by lia. change 1 with (Z.ones 1) at 1. rewrite Z.land_ones by lia.
    rewrite ?Z.shiftr_div_pow2 by lia. reflexivity.
Qed.

(** C24.  [in_op idc t sp]: bit t and bit 8+sp of the operating point are both set. *)
Definition in_op (idc t sp : Z) : bool := Z.testbit idc t && Z.testbit idc (8 + sp).

Lemma dropped_spec idc forbidden ty t sp r has_size reserved : 0 <= t -> 0 <= sp ->
  dropped idc (mk_header forbidden ty (Some (t, sp, r)) has_size reserved) =
  negb (ty =? 1) && negb (ty =? 2) && negb (idc =? 0) && negb (in_op idc t sp).
Proof.
  intros Ht Hs. unfold dropped, mk_header, in_op. cbn [Type_ ExtensionFlag ExtHeader TemporalID SpatialID].
  rewrite !shr_bit by lia. rewrite (Z.add_comm sp 8). rewrite negb_andb, andb_true_r. reflexivity.
Qed.

Theorem C24_dropped_obu_skipped : forall P sz d sh uh s forbidden ty t sp r reserved k size,
  valid_prefix ty (Some (t, sp, r)) k size ->
  starts s (enc_obu_prefix forbidden ty (Some (t, sp, r)) reserved k size) ->
  ty <> 1 -> ty <> 2 -> OperatingPointIdc d <> 0 -> in_op (OperatingPointIdc d) t sp = false ->
  exists o s', NewObu P sz d sh uh s = Ok (o, d, s') /\
    Position s' = payload_start s (Some (t, sp, r)) k + 8 * size /\ Data s' = Data s /\
    Size o = size /\ ObuSH o = sh /\ ObuUH o = uh.
Proof.
  intros P sz d sh uh s forbidden ty t sp r reserved k size Hv H H1 H2 Hi Ho.
  destruct (NewObu_prefix P sz d sh uh s _ _ _ _ _ _ Hv H) as (s2 & Hp & HD & H0 & E). cbv zeta in E.
  rewrite dropped_spec in E by (destruct Hv as (_ & ? & _); lia).
  rewrite Ho in E. destruct (Z.eqb_spec ty 1); [contradiction|]. destruct (Z.eqb_spec ty 2); [contradiction|].
  destruct (Z.eqb_spec (OperatingPointIdc d) 0); [contradiction|]. cbn [negb andb] in E.
  eexists _, _. split; [rewrite E; reflexivity|]. cbn. rewrite Hp, HD. repeat split; lia.
Qed.
Print Assumptions C24_dropped_obu_skipped.

(** An OBU without size field is skipped by the size given by the Annex B framing. *)
Theorem C24_dropped_obu_skipped_no_size : forall P sz d sh uh s forbidden ty t sp r reserved,
  0 <= ty < 16 -> 0 <= t < 8 -> 0 <= sp < 4 -> 0 <= r < 8 ->
  starts s (enc_obu_header forbidden ty (Some (t, sp, r)) false reserved) ->
  ty <> 1 -> ty <> 2 -> OperatingPointIdc d <> 0 -> in_op (OperatingPointIdc d) t sp = false ->
  exists o s', NewObu P sz d sh uh s = Ok (o, d, s') /\
    Position s' = Position s + 8 * sz /\ Data s' = Data s /\ ObuSH o = sh /\ ObuUH o = uh.
Proof.
  intros P sz d sh uh s forbidden ty t sp r reserved Hty Ht Hsp Hr H H1 H2 Hi Ho.
  pose proof (parses_NewHeader forbidden ty (Some (t, sp, r)) false reserved Hty ltac:(cbn; lia) s H) as Eh.
  unfold NewObu.
  assert (Eh' : NewHeader s = Ok (mk_header forbidden ty (Some (t, sp, r)) false reserved, adv s 16)) by (rewrite Eh; reflexivity).
  rewrite (bind_ok _ _ _ _ _ Eh').
  pose proof (dropped_spec (OperatingPointIdc d) forbidden ty t sp r false reserved ltac:(lia) ltac:(lia)) as Hd.
  rewrite Ho in Hd. destruct (Z.eqb_spec ty 1); [contradiction|]. destruct (Z.eqb_spec ty 2); [contradiction|].
  destruct (Z.eqb_spec (OperatingPointIdc d) 0); [contradiction|]. cbn [negb andb] in Hd.
  eexists _, _. split; [|split; [|split; [|split]]].
  - cbn [HasSizeField mk_header]. rewrite (bind_ok _ _ _ _ _ (eq_refl : ret _ _ = Ok (_, _))).
    rewrite (bind_ok _ _ _ _ _ (eq_refl : get _ = Ok (_, _))). cbv beta zeta.
    fold (mk_header forbidden ty (Some (t, sp, r)) false reserved). rewrite Hd. reflexivity.
  - cbn. lia.
  - reflexivity.
  - reflexivity.
  - reflexivity.
Qed.
Print Assumptions C24_dropped_obu_skipped_no_size.

(** An OBU that is selected is parsed: sequence headers, temporal delimiters, OBUs without extension, in a
    stream without operating point, or with both layer bits set.  What follows the size field is then the
    payload, parsed according to the type. *)
Theorem C24_selected_obu_parsed : forall P sz d sh uh s forbidden ty ext reserved k size o d' s',
  valid_prefix ty ext k size -> starts s (enc_obu_prefix forbidden ty ext reserved k size) ->
  (ty = 1 \/ ty = 2 \/ ext = None \/ OperatingPointIdc d = 0 \/
   exists t sp r, ext = Some (t, sp, r) /\ in_op (OperatingPointIdc d) t sp = true) ->
  NewObu P sz d sh uh s = Ok (o, d', s') ->
  exists s2 s3, Position s2 = payload_start s ext k /\ Data s2 = Data s /\
    payload P size (mk_header forbidden ty ext true reserved) sh uh d s2 = Ok (o, d', s3) /\
    (ty = 2 -> SeenFrameHeader d' = false) /\
    (ty = 1 -> exists idc, NewSequenceHeader s2 = Ok (ObuSH o, idc, s3)).
Proof.
  intros P sz d sh uh s forbidden ty ext reserved k size o d' s' Hv H Hc E0.
  destruct (NewObu_prefix P sz d sh uh s _ _ _ _ _ _ Hv H) as (s2 & Hp & HD & H0 & E). cbv zeta in E. rewrite E0 in E. clear E0. symmetry in E.
  assert (Hd : dropped (OperatingPointIdc d) (mk_header forbidden ty ext true reserved) = false).
  { destruct Hc as [->|[->|[->|[Hi|(t & sp & r & -> & Hi)]]]].
    - destruct ext as [[[? ?] ?]|]; reflexivity.
    - destruct ext as [[[? ?] ?]|]; reflexivity.
    - unfold dropped. cbn [mk_header Type_ ExtensionFlag]. rewrite andb_false_r. reflexivity.
    - unfold dropped. rewrite Hi. cbn [Z.eqb negb]. rewrite andb_false_r. reflexivity.
    - rewrite dropped_spec by (destruct Hv as (_ & ? & _); lia). rewrite Hi. apply andb_false_r. }
  rewrite (bind_ok _ _ _ _ _ (eq_refl : get _ = Ok (_, _))) in E. rewrite Hd in E.
  apply bind_inv in E. destruct E as ([o1 d1] & s3 & E1 & E).
  apply bind_inv in E. destruct E as (? & s4 & _ & E). apply bind_inv in E. destruct E as (? & s5 & _ & E).
  injection E as <- <- <-. exists s2, s3. repeat split; try assumption.
  - intros ->. unfold payload in E1. destruct ext as [[[? ?] ?]|]; cbn in E1; injection E1 as <- <- <-; reflexivity.
  - intros ->. unfold payload in E1.
    assert (Ht : Type_ (mk_header forbidden 1 ext true reserved) = 1) by (destruct ext as [[[? ?] ?]|]; reflexivity).
    rewrite Ht in E1. cbn [Z.eqb OBU_SEQUENCE_HEADER Pos.eqb] in E1.
    apply bind_inv in E1. destruct E1 as ([sh' idc] & s6 & E2 & E1). injection E1 as <- <- <-. exists idc. exact E2.
Qed.
Print Assumptions C24_selected_obu_parsed.

(** A parser set for which everything is trivial, for the examples. *)
Definition trivial_payloads : payloads :=
  mkPayloads unit unit unit tt tt tt (fun _ => false) (fun x => x)
    (fun _ _ d => ret (tt, d)) (fun _ _ _ d => ret (tt, d)).
Lemma trivial_calm : calm_payloads trivial_payloads.
Proof. split; intros; apply calm_ret. Qed.

Example C24_case :
  let s := mkBS [0x36; 0x48; 3; 9; 9; 9; 7] 0 0 in
  starts s (enc_obu_prefix false 6 (Some (2, 1, 0)) false 1 3) /\ in_op 0x301 2 1 = false /\
  valid_prefix 6 (Some (2, 1, 0)) 1 3 /\
  (forall d, OperatingPointIdc d = 0x301 ->
    exists o s', NewObu trivial_payloads 0 d zeroSH tt s = Ok (o, d, s') /\ Position s' = 48).
Proof.
  assert (A : starts (mkBS [0x36; 0x48; 3; 9; 9; 9; 7] 0 0) (enc_obu_prefix false 6 (Some (2, 1, 0)) false 1 3)) by (split; [cbn; lia|eexists; reflexivity]).
  assert (B : valid_prefix 6 (Some (2, 1, 0)) 1 3) by (repeat split; cbn; lia).
  split; [exact A|]. split; [reflexivity|]. split; [exact B|]. intros d Hd.
  destruct (C24_dropped_obu_skipped trivial_payloads 0 d zeroSH tt _ _ _ _ _ _ _ _ _ B A) as (o & s' & E & Hp & _);
    [lia|lia|lia|rewrite Hd; reflexivity|]. exists o, s'. split; [exact E|]. rewrite Hp. reflexivity.
Qed.

(** C23 *)
(** Every OBU that returns, other than tile groups and frames, ends at its declared size, provided the
    payload proper left at least one bit for the trailing bits; otherwise it ends one bit behind the payload. *)
Theorem C23_ends_at_declared_size_partial : forall P sz d sh uh s forbidden ty ext reserved k size o d' s',
  calm_payloads P ->
  valid_prefix ty ext k size -> starts s (enc_obu_prefix forbidden ty ext reserved k size) ->
  ty <> 4 -> ty <> 6 -> 0 < size ->
  NewObu P sz d sh uh s = Ok (o, d', s') ->
  let start := payload_start s ext k in
  Position s' = start + 8 * size \/
  exists s2 s3, Position s2 = start /\ Data s2 = Data s /\
    payload P size (mk_header forbidden ty ext true reserved) sh uh d s2 = Ok (o, d', s3) /\
    start + 8 * size <= Position s3 /\ Position s' = Position s3 + 1.
Proof.
  intros P sz d sh uh s forbidden ty ext reserved k size o d' s' HP Hv H H4 H6 Hsz E0 start.
  destruct (NewObu_prefix P sz d sh uh s _ _ _ _ _ _ Hv H) as (s2 & Hp & HD & H0 & E). cbv zeta in E. rewrite E0 in E. clear E0. symmetry in E.
  set (h := mk_header forbidden ty ext true reserved) in *.
  assert (Ht : Type_ h = ty) by (unfold h; destruct ext as [[[? ?] ?]|]; reflexivity).
  rewrite (bind_ok _ _ _ _ _ (eq_refl : get _ = Ok (_, _))) in E.
  destruct (dropped (OperatingPointIdc d) h).
  { cbn in E. injection E as <- <- <-. left. cbn. rewrite Hp. unfold start. lia. }
  apply bind_inv in E. destruct E as ([o1 d1] & s3 & E1 & E).
  rewrite (bind_ok _ _ _ _ _ (eq_refl : get _ = Ok (_, _))) in E.
  apply bind_inv in E. destruct E as ([] & s5 & E2 & E). injection E as <- <- <-.
  pose proof (calm_payload P size h sh uh d HP s2 H0) as C. rewrite E1 in C. destruct C as [D3 P3].
  destruct (hasTrailingBits size h) eqn:Etb.
  - rewrite TrailingBits_spec in E2 by lia.
    destruct (_ <=? _) in E2; [|discriminate]. injection E2 as <-. cbn [Position adv set_pos].
    destruct (Z_lt_dec (Position s3 - Position s2) (size * 8)).
    + left. replace (Z.max 1 _) with (size * 8 - (Position s3 - Position s2)) by lia. unfold start. lia.
    + right. exists s2, s3. split; [exact Hp|]. split; [exact HD|]. split; [exact E1|].
      replace (Z.max 1 _) with 1 by lia. unfold start. lia.
  - unfold hasTrailingBits in Etb. rewrite Ht in Etb.
    destruct (Z.ltb_spec 0 size); [|lia]. destruct (Z.eqb_spec ty OBU_TILE_GROUP); [contradiction|].
    destruct (Z.eqb_spec ty OBU_FRAME); [contradiction|].
    destruct (Z.eqb_spec ty OBU_TILE_LIST) as [E8|]; [|cbn in Etb; discriminate].
    exfalso. unfold payload in E1. rewrite Ht, E8 in E1. cbn in E1. discriminate.
Qed.
Print Assumptions C23_ends_at_declared_size_partial.

(** Temporal delimiters: exactly the declared size, whatever it is and whatever the bits are. *)
Theorem C23_temporal_delimiter : forall P sz d sh uh s forbidden ext reserved k size,
  valid_prefix 2 ext k size -> starts s (enc_obu_prefix forbidden 2 ext reserved k size) ->
  match NewObu P sz d sh uh s with
  | Ok (o, d', s') => Position s' = payload_start s ext k + 8 * size /\ SeenFrameHeader d' = false
  | Panic => 8 * zlen (Data s) < payload_start s ext k + 8 * size
  | Hang => False
  end.
Proof.
  intros P sz d sh uh s forbidden ext reserved k size Hv H.
  destruct (NewObu_prefix P sz d sh uh s _ _ _ _ _ _ Hv H) as (s2 & Hp & HD & H0 & E). cbv zeta in E. rewrite E. clear E.
  set (h := mk_header forbidden 2 ext true reserved) in *.
  assert (Ht : Type_ h = 2) by (unfold h; destruct ext as [[[? ?] ?]|]; reflexivity).
  rewrite (bind_ok _ _ _ _ _ (eq_refl : get _ = Ok (_, _))).
  assert (Hd : dropped (OperatingPointIdc d) h = false) by (unfold dropped; rewrite Ht; reflexivity). rewrite Hd.
  assert (Epay : payload P size h sh uh d s2 = Ok (mkObu size h sh uh (tg0 P), set_seen d false, s2)) by (unfold payload; rewrite Ht; reflexivity).
  rewrite (bind_ok _ _ _ _ _ Epay), (bind_ok _ _ _ _ _ (eq_refl : get _ = Ok (_, _))). cbv beta zeta.
  unfold hasTrailingBits. rewrite Ht. cbn [Z.eqb Pos.eqb OBU_TILE_GROUP OBU_TILE_LIST OBU_FRAME negb]. rewrite !andb_true_r.
  destruct (Z.ltb_spec 0 size) as [Hs|Hs].
  - rewrite bind_eq, TrailingBits_spec by lia. pose proof (length_rest s2 H0) as HL. rewrite HD in HL.
    destruct (Z.leb_spec (Z.max 1 (size * 8 - (Position s2 - Position s2))) (Z.of_nat (length (rest s2)))).
    + cbn. rewrite Hp. split; [lia|reflexivity].
    + lia.
  - destruct Hv as (_ & _ & _ & Hsz). cbn. rewrite Hp. split; [lia|reflexivity].
Qed.
Print Assumptions C23_temporal_delimiter.

(** Padding: if one of the first size-1 ... bytes is zero the OBU ends where declared; if all its bytes are
    non-zero, the OBU reads past its declared end. *)
Theorem C23_padding_partial : forall P sz d sh uh s forbidden reserved k size z o d' s',
  valid_prefix 15 None k size -> starts s (enc_obu_prefix forbidden 15 None reserved k size ++ z) ->
  length z = Z.to_nat (8 * size) ->
  (exists j, 0 <= j < size /\ be (firstn 8 (skipn (8 * Z.to_nat j) z)) = 0) ->
  NewObu P sz d sh uh s = Ok (o, d', s') ->
  Position s' = payload_start s None k + 8 * size /\ d' = d.
Proof.
  intros P sz d sh uh s forbidden reserved k size z o d' s' Hv Hs Hz (j & Hj & Ej) E0.
  destruct (starts_app _ _ _ Hs) as [H Hrest].
  destruct (NewObu_prefix P sz d sh uh s _ _ _ _ _ _ Hv H) as (s2 & Hp & HD & H0 & E). cbv zeta in E. rewrite E0 in E. clear E0. symmetry in E.
  assert (Hlen : Z.of_nat (length (enc_obu_prefix forbidden 15 None reserved k size)) = 8 + 8 * Z.of_nat k).
  { unfold enc_obu_prefix. rewrite app_length, length_enc_leb128. unfold enc_obu_header. rewrite ?app_length, ?length_enc_f. cbn. rewrite ?app_length, ?length_enc_f. cbn. lia. }
  rewrite Hlen in Hrest.
  assert (Hr2 : exists r, rest s2 = z ++ r).
  { destruct Hrest as [_ [r Hr]]. exists r. rewrite <- Hr. unfold rest. rewrite HD, Hp. unfold payload_start. cbn [Data Position adv set_pos]. do 2 f_equal. lia. }
  destruct Hr2 as [r Hr2].
  rewrite (bind_ok _ _ _ _ _ (eq_refl : get _ = Ok (_, _))) in E.
  set (h := mk_header forbidden 15 None true reserved) in *.
  assert (Hd : dropped (OperatingPointIdc d) h = false) by (unfold dropped, h; cbn [mk_header ExtensionFlag]; rewrite andb_false_r; reflexivity).
  rewrite Hd in E.
  apply bind_inv in E. destruct E as ([o1 d1] & s3 & E1 & E).
  rewrite (bind_ok _ _ _ _ _ (eq_refl : get _ = Ok (_, _))) in E.
  apply bind_inv in E. destruct E as ([] & s5 & E2 & E). injection E as <- <- <-.
  unfold payload in E1. cbn [h mk_header Type_] in E1. cbn [Z.eqb Pos.eqb OBU_SEQUENCE_HEADER OBU_TEMPORAL_DELIMITER OBU_FRAME_HEADER OBU_REDUNDANT_FRAME_HEADER OBU_FRAME OBU_PADDING] in E1.
  apply bind_inv in E1. destruct E1 as ([] & s6 & Ep & E1). injection E1 as <- <- <-.
  pose proof (paddingObu_spec s2 H0) as G. rewrite Ep in G. destruct G as (m & Hm & -> & Gz & Gnz).
  assert (Hmj : m <= j).
  { destruct (Z_le_gt_dec m j); [assumption|exfalso]. apply (Gnz j ltac:(lia)). rewrite Hr2.
    rewrite skipn_app, firstn_app. rewrite (proj2 (Nat.sub_0_le 8 _)).
    - cbn [firstn]. rewrite app_nil_r. exact Ej.
    - rewrite skipn_length. lia. }
  unfold hasTrailingBits in E2. cbn [h mk_header Type_] in E2. destruct (Z.ltb_spec 0 size); [|lia].
  cbn [Z.eqb Pos.eqb OBU_TILE_GROUP OBU_TILE_LIST OBU_FRAME negb andb] in E2.
  rewrite TrailingBits_spec in E2 by (cbn; lia). destruct (_ <=? _) in E2; [|discriminate]. injection E2 as <-.
  cbn [Position adv set_pos]. split; [|reflexivity]. rewrite <- Hp. lia.
Qed.
Print Assumptions C23_padding_partial.

Theorem C23_padding_overrun_refuted : forall P sz d sh uh s forbidden reserved k size z o d' s',
  valid_prefix 15 None k size -> starts s (enc_obu_prefix forbidden 15 None reserved k size ++ z) ->
  0 < size -> length z = Z.to_nat (8 * size) ->
  (forall j, 0 <= j < size -> be (firstn 8 (skipn (8 * Z.to_nat j) z)) <> 0) ->
  NewObu P sz d sh uh s = Ok (o, d', s') ->
  payload_start s None k + 8 * size < Position s'.
Proof.
  intros P sz d sh uh s forbidden reserved k size z o d' s' Hv Hs Hpos Hz Hnz E0.
  destruct (starts_app _ _ _ Hs) as [H Hrest].
  destruct (NewObu_prefix P sz d sh uh s _ _ _ _ _ _ Hv H) as (s2 & Hp & HD & H0 & E). cbv zeta in E. rewrite E0 in E. clear E0. symmetry in E.
  assert (Hlen : Z.of_nat (length (enc_obu_prefix forbidden 15 None reserved k size)) = 8 + 8 * Z.of_nat k).
  { unfold enc_obu_prefix. rewrite app_length, length_enc_leb128. unfold enc_obu_header. rewrite ?app_length, ?length_enc_f. cbn. rewrite ?app_length, ?length_enc_f. cbn. lia. }
  rewrite Hlen in Hrest.
  assert (Hr2 : exists r, rest s2 = z ++ r).
  { destruct Hrest as [_ [r Hr]]. exists r. rewrite <- Hr. unfold rest. rewrite HD, Hp. unfold payload_start. cbn [Data Position adv set_pos]. do 2 f_equal. lia. }
  destruct Hr2 as [r Hr2].
  rewrite (bind_ok _ _ _ _ _ (eq_refl : get _ = Ok (_, _))) in E.
  set (h := mk_header forbidden 15 None true reserved) in *.
  assert (Hd : dropped (OperatingPointIdc d) h = false) by (unfold dropped, h; cbn [mk_header ExtensionFlag]; rewrite andb_false_r; reflexivity).
  rewrite Hd in E.
  apply bind_inv in E. destruct E as ([o1 d1] & s3 & E1 & E).
  rewrite (bind_ok _ _ _ _ _ (eq_refl : get _ = Ok (_, _))) in E.
  apply bind_inv in E. destruct E as ([] & s5 & E2 & E). injection E as <- <- <-.
  unfold payload in E1. cbn [h mk_header Type_] in E1. cbn [Z.eqb Pos.eqb OBU_SEQUENCE_HEADER OBU_TEMPORAL_DELIMITER OBU_FRAME_HEADER OBU_REDUNDANT_FRAME_HEADER OBU_FRAME OBU_PADDING] in E1.
  apply bind_inv in E1. destruct E1 as ([] & s6 & Ep & E1). injection E1 as <- <- <-.
  pose proof (paddingObu_spec s2 H0) as G. rewrite Ep in G. destruct G as (m & Hm & -> & Gz & _).
  assert (Hms : size <= m).
  { destruct (Z_le_gt_dec size m); [assumption|exfalso]. apply (Hnz m ltac:(lia)). rewrite Hr2 in Gz.
    rewrite skipn_app, firstn_app in Gz. rewrite (proj2 (Nat.sub_0_le 8 _)) in Gz.
    - cbn [firstn] in Gz. rewrite app_nil_r in Gz. exact Gz.
    - rewrite skipn_length. lia. }
  unfold hasTrailingBits in E2. cbn [h mk_header Type_] in E2. destruct (Z.ltb_spec 0 size); [|lia].
  cbn [Z.eqb Pos.eqb OBU_TILE_GROUP OBU_TILE_LIST OBU_FRAME negb andb] in E2.
  rewrite TrailingBits_spec in E2 by (cbn; lia). destruct (_ <=? _) in E2; [|discriminate]. injection E2 as <-.
  cbn [Position adv set_pos]. rewrite <- Hp. lia.
Qed.
Print Assumptions C23_padding_overrun_refuted.
(** A conforming padding OBU (payload 1 1, trailing byte 0x80) followed by another OBU: the parser runs into it. *)
Example C23_case : exists o s',
  NewObu trivial_payloads 5 (zeroState trivial_payloads) zeroSH tt (mkBS [0x7A; 3; 1; 1; 0x80; 0x12; 0; 0] 0 0)
  = Ok (o, zeroState trivial_payloads, s') /\ Position s' = 49 /\
  enc_obu_prefix false 15 None false 1 3 = bits_of [0x7A; 3].
Proof. eexists _, _. split; [vm_compute; reflexivity|]. split; reflexivity. Qed.

(** A frame OBU at a byte boundary: after the frame header the position is rounded up to the next byte, and the tile
    group parser is handed exactly the bytes from there to the end of the OBU. *)
Lemma ByteAlignment_inv s s' : 0 <= Position s -> ByteAlignment s = Ok (tt, s') ->
  Data s' = Data s /\ Position s <= Position s' < Position s + 8 /\ Position s' mod 8 = 0.
Proof.
  intros H0 E. destruct (Z_le_dec (Position s) (8 * zlen (Data s))) as [H|H].
  - rewrite ByteAlignment_ok in E by lia. injection E as <-. pose proof (align_up_spec (Position s)). cbn. tauto.
  - unfold ByteAlignment in E. cbn [ByteAlignment_loop] in E. unfold bind at 1, get in E. rewrite land7 in E. unfold bool_of in E.
    destruct (Z.eqb_spec (Position s mod 8) 0) as [Ez|Ez]; cbn [negb] in E.
    + injection E as <-. repeat split; try lia; exact Ez.
    + rewrite bind_eq, (F_panic 1 s) in E by (try rewrite length_rest by lia; lia). discriminate.
Qed.
Theorem C23_frame_obu_tile_group_size : forall P sz d sh uh s forbidden ext reserved k size o d' s',
  calm_payloads P -> valid_prefix 6 ext k size -> starts s (enc_obu_prefix forbidden 6 ext reserved k size) ->
  Position s mod 8 = 0 ->
  (ext = None \/ OperatingPointIdc d = 0 \/ exists t sp r, ext = Some (t, sp, r) /\ in_op (OperatingPointIdc d) t sp = true) ->
  NewObu P sz d sh uh s = Ok (o, d', s') ->
  exists s2 uh1 d1 s3 s4 n,
    Position s2 = payload_start s ext k /\ Data s2 = Data s /\
    ParseFrameHeader P d (mk_header forbidden 6 ext true reserved) sh s2 = Ok (uh1, d1, s3) /\
    Data s4 = Data s3 /\ Position s3 <= Position s4 < Position s3 + 8 /\ Position s4 mod 8 = 0 /\
    Position s4 + 8 * n = payload_start s ext k + 8 * size /\
    NewTileGroup P n uh1 sh d1 s4 = Ok (ObuTG o, d', s') /\ ObuUH o = uh1.
Proof.
  intros P sz d sh uh s forbidden ext reserved k size o d' s' HP Hv H Ha Hc E0.
  destruct (NewObu_prefix P sz d sh uh s _ _ _ _ _ _ Hv H) as (s2 & Hp & HD & H0 & E). cbv zeta in E. rewrite E0 in E. clear E0. symmetry in E.
  assert (Hd : dropped (OperatingPointIdc d) (mk_header forbidden 6 ext true reserved) = false).
  { destruct Hc as [->|[Hi|(t & sp & r & -> & Hi)]].
    - unfold dropped. cbn [mk_header Type_ ExtensionFlag]. rewrite andb_false_r. reflexivity.
    - unfold dropped. rewrite Hi. cbn [Z.eqb negb]. rewrite andb_false_r. reflexivity.
    - rewrite dropped_spec by (destruct Hv as (_ & ? & _); lia). rewrite Hi. apply andb_false_r. }
  rewrite (bind_ok _ _ _ _ _ (eq_refl : get _ = Ok (_, _))) in E. rewrite Hd in E.
  set (h := mk_header forbidden 6 ext true reserved) in *.
  assert (Ht : Type_ h = 6) by (unfold h; destruct ext as [[[? ?] ?]|]; reflexivity).
  apply bind_inv in E. destruct E as ([o1 d1] & s5 & E1 & E).
  rewrite (bind_ok _ _ _ _ _ (eq_refl : get _ = Ok (_, _))) in E.
  assert (Htb : hasTrailingBits size h = false).
  { unfold hasTrailingBits. rewrite Ht. cbn. rewrite ?andb_false_r. reflexivity. }
  rewrite Htb in E. cbn in E. injection E as -> -> ->.
  unfold payload in E1. rewrite Ht in E1. cbn [Z.eqb Pos.eqb OBU_SEQUENCE_HEADER OBU_TEMPORAL_DELIMITER OBU_FRAME_HEADER OBU_REDUNDANT_FRAME_HEADER OBU_FRAME orb] in E1.
  apply bind_inv in E1. destruct E1 as ([[uh' tg] d2] & s6 & E1 & E). injection E as <- <- <-.
  unfold newFrame in E1. rewrite (bind_ok _ _ _ _ _ (eq_refl : get _ = Ok (_, _))) in E1.
  apply bind_inv in E1. destruct E1 as ([uh1 d1'] & s3 & E2 & E1).
  apply bind_inv in E1. destruct E1 as ([] & s4 & E3 & E1).
  rewrite (bind_ok _ _ _ _ _ (eq_refl : get _ = Ok (_, _))) in E1. cbv zeta in E1.
  apply bind_inv in E1. destruct E1 as ([tg1 d3] & s7 & E4 & E1). injection E1 as -> -> -> ->.
  pose proof (calm_ParseFrameHeader P d h sh HP s2 H0) as C. rewrite E2 in C. destruct C as [D3 P3].
  destruct (ByteAlignment_inv s3 s4 ltac:(lia) E3) as (A1 & A2 & A3).
  exists s2, uh', d1', s3, s4, (size - Z.quot (Position s4 - Position s2) 8).
  repeat split; try assumption; try lia; try exact E4.
  rewrite Z.quot_div_nonneg by lia.
  assert (M2 : Position s2 mod 8 = 0).
  { rewrite Hp. unfold payload_start. rewrite Z.add_mod, (Z.add_mod (Position s)), Ha by lia.
    rewrite (Z.mul_comm 8), Z.mod_mul by lia. destruct ext; reflexivity. }
  assert (M : (Position s4 - Position s2) mod 8 = 0) by (rewrite Zminus_mod, A3, M2; reflexivity).
  pose proof (Z.div_mod (Position s4 - Position s2) 8 ltac:(lia)). lia.
Qed.
Print Assumptions C23_frame_obu_tile_group_size.
(** A frame whose header takes 3 bits leaves size - 1 bytes to the tile group. *)
Definition sized_payloads : payloads :=
  mkPayloads unit Z unit tt 0 tt (fun _ => false) (fun x => x)
    (fun _ _ d => F 3 ;; ret (tt, d)) (fun sz _ _ d => ret (sz, d)).
Example C23_frame_case :
  match NewObu sized_payloads 9 (mkDState 0 false tt) zeroSH tt (mkBS [0x32; 5; 0xA0; 1; 2; 3; 4] 0 0) with
  | Ok (o, _, s') => ObuTG o = 4 /\ Position s' = 24
  | _ => False
  end.
Proof. vm_compute. split; reflexivity. Qed.

(** C25 *)
Theorem C25_parser_terminates : forall P data, calm_payloads P ->
  match parse P data with Ok (_, s) => Data s = data /\ 0 <= Position s | Panic => True | Hang => False end.
Proof.
  intros P data HP. unfold parse.
  pose proof (fine_bitstream P HP (length data + 3)%nat (NewParser P) (NewBitStream data) ltac:(cbn; lia)) as G.
  assert (En : enough (length data + 3) (NewBitStream data)) by (unfold enough, zlen; cbn; lia).
  specialize (G En). unfold fine in G. destruct (bitstream_loop _ _ _ _) as [[p s]| |]; auto.
Qed.
Print Assumptions C25_parser_terminates.

(** A stream that is the Annex B encoding of temporal units of frame units of OBUs, all of whose OBUs decode
    one after the other (decodes_stream: each to an entry, consuming exactly its bits), parses completely:
    the position ends at the end of the data, and there is one entry per OBU of the stream. *)
Theorem C25_wellformed_stream_parses : forall P data ts p, bits_of data = enc_stream ts -> valid_stream ts ->
  decodes_stream P (NewParser P) ts p ->
  exists s, parse P data = Ok (obus p, s) /\ Position s = 8 * zlen data /\
    length (obus p) = length (all_obus ts).
Proof.
  intros P data ts p Hb Hv Hd. unfold parse.
  assert (Hlen : length (enc_stream ts) = (8 * length data)%nat).
  { rewrite <- Hb. clear. unfold bits_of. induction data as [|x t IH]; [reflexivity|]. cbn [flat_map]. rewrite app_length, IH. cbn [length byte_bits]. lia. }
  destruct (bitstream_decodes P _ _ _ Hd Hv (length data + 3)%nat (NewBitStream data) 0) as (k & E).
  - reflexivity.
  - lia.
  - unfold rest. cbn [NewBitStream Position Data]. change (Z.to_nat 0) with 0%nat. cbn [skipn]. exact Hb.
  - lia.
  - unfold zlen. lia.
  - rewrite E. eexists. split; [reflexivity|]. split; [cbn [Position set_leb_adv NewBitStream]; rewrite Hlen; unfold zlen; lia|].
    rewrite (decodes_stream_count _ _ _ _ Hd). reflexivity.
Qed.
Print Assumptions C25_wellformed_stream_parses.

(** Temporal delimiter OBUs with a size field (0x12, size, padding) always decode this way. *)
Definition td_bits (z : list bool) : list bool :=
  enc_obu_prefix false 2 None false 1 (Z.of_nat (length z) / 8) ++ z.
Lemma td_decodes P d sh uh z : (exists n, length z = (8 * n)%nat /\ (n < 128)%nat) ->
  exists o, decodes_obu P d sh uh (td_bits z) o (set_seen d false) /\ Type_ (Hdr o) = 2.
Proof.
  intros (n & Hn & Hn2). set (sz := Z.of_nat (length z) / 8).
  assert (Esz : sz = Z.of_nat n).
  { unfold sz. rewrite Hn. replace (Z.of_nat (8 * n)) with (Z.of_nat n * 8) by lia. apply Z.div_mul. lia. }
  exists (mkObu sz (mk_header false 2 None true false) sh uh (tg0 P)). split; [|reflexivity].
  intros s Hs. exists 1. unfold td_bits in *. fold sz in Hs |- *.
  destruct (starts_app _ _ _ Hs) as [H Hz]. set (pre := enc_obu_prefix _ _ _ _ _ _) in *.
  assert (Hpre : length pre = 16%nat) by (unfold pre, enc_obu_prefix; rewrite app_length, length_enc_leb128; reflexivity).
  unfold NewObu. unfold pre, enc_obu_prefix in H. destruct (starts_app _ _ _ H) as [H1 H2].
  pose proof (parses_NewHeader false 2 None true false ltac:(lia) I s H1) as Eh.
  rewrite (bind_ok _ _ _ _ _ Eh). cbn [HasSizeField].
  assert (HL : Leb128 (adv s 8) = Ok (sz, set_leb_adv (adv s 8) 1 8)) by (apply (Leb128_enc _ 1 sz); [lia|lia|exact H2]).
  change (Z.of_nat (length (enc_obu_header false 2 None true false))) with 8.
  rewrite (bind_ok _ _ _ _ _ HL). rewrite (bind_ok _ _ _ _ _ (eq_refl : get _ = Ok (_, _))).
  change (dropped _ _) with false. cbv iota beta. unfold payload. cbn [Type_ Z.eqb Pos.eqb OBU_SEQUENCE_HEADER OBU_TEMPORAL_DELIMITER].
  rewrite (bind_ok _ _ _ _ _ (eq_refl : ret _ _ = Ok (_, _))), (bind_ok _ _ _ _ _ (eq_refl : get _ = Ok (_, _))). cbv beta zeta.
  unfold hasTrailingBits. cbn [Type_ Z.eqb Pos.eqb OBU_TILE_GROUP OBU_TILE_LIST OBU_FRAME negb]. rewrite !andb_true_r.
  rewrite app_length, Hpre, Hn.
  destruct (Z.ltb_spec 0 sz) as [Hp|Hp].
  - rewrite bind_eq, TrailingBits_spec by (destruct Hs; cbn; lia). rewrite Z.sub_diag, Z.sub_0_r.
    replace (Z.max 1 (sz * 8)) with (sz * 8) by lia.
    assert (Hge : sz * 8 <= Z.of_nat (length (rest (set_leb_adv (adv s 8) 1 8)))).
    { rewrite Hpre in Hz. destruct Hz as [_ [r Hr]]. change (rest (set_leb_adv (adv s 8) 1 8)) with (rest (adv (adv s 8) 8)).
      rewrite adv_adv. change (8 + 8) with (Z.of_nat 16). rewrite Hr, app_length. lia. }
    destruct (Z.leb_spec (sz * 8) (Z.of_nat (length (rest (set_leb_adv (adv s 8) 1 8))))); [|lia].
    cbn. unfold ret, adv, set_leb_adv, set_pos. cbn. okeq.
  - cbn. unfold ret, adv, set_leb_adv, set_pos. cbn. okeq.
Qed.
Example C25_case :
  let td := td_bits [] in
  let ts := [(1%nat, [(1%nat, [(1%nat, td)])]); (1%nat, [(1%nat, [(1%nat, td); (1%nat, td)]); (1%nat, [])])] in
  let data := [4; 3; 2; 0x12; 0; 8; 6; 2; 0x12; 0; 2; 0x12; 0; 0] in
  valid_stream ts /\ bits_of data = enc_stream ts /\
  (exists p, decodes_stream trivial_payloads (NewParser trivial_payloads) ts p /\ length (obus p) = 3%nat).
Proof.
  cbv zeta. split; [|split].
  - assert (V : forall b n, length b = (8 * n)%nat -> (n < 128)%nat -> valid_unit 1 b).
    { intros b n Hb Hn. split; [lia|]. exists n. split; [exact Hb|]. cbn. lia. }
    repeat first [apply Forall_nil | apply Forall_cons
          | apply (V _ 0%nat); [reflexivity|lia] | apply (V _ 2%nat); [reflexivity|lia] | apply (V _ 3%nat); [reflexivity|lia]
          | apply (V _ 4%nat); [reflexivity|lia] | apply (V _ 6%nat); [reflexivity|lia] | apply (V _ 8%nat); [reflexivity|lia] | split].
  - vm_compute. reflexivity.
  - assert (T : forall d sh uh, exists o, decodes_obu trivial_payloads d sh uh (td_bits []) o (set_seen d false) /\ Type_ (Hdr o) = 2)
      by (intros; apply td_decodes; exists 0%nat; cbn; lia).
    set (p0 := NewParser trivial_payloads).
    destruct (T (zeroState trivial_payloads) (PSH p0) (PUH p0)) as (o1 & D1 & _).
    destruct (T (zeroState trivial_payloads) (PSH (keep p0 o1)) (PUH (keep p0 o1))) as (o2 & D2 & _).
    destruct (T (set_seen (zeroState trivial_payloads) false) (PSH (keep (keep p0 o1) o2)) (PUH (keep (keep p0 o1) o2))) as (o3 & D3 & _).
    exists (keep (keep (keep p0 o1) o2) o3). split; [|reflexivity].
    repeat (eassumption || econstructor).
Qed.

(** C26 *)
(** Every returned OBU that is not itself a sequence header carries the sequence header of the last sequence
    header OBU before it in the stream (or the zero value when there is none). *)
Definition last_sequence_header {P} (l : list (Obu P)) (sh : SequenceHeader) : Prop :=
  (exists a o b, l = a ++ o :: b /\ Type_ (Hdr o) = 1 /\ ObuSH o = sh /\ Forall (fun x => Type_ (Hdr x) <> 1) b) \/
  (Forall (fun x => Type_ (Hdr x) <> 1) l /\ sh = zeroSH).

Lemma in_effect_last P (l : list (Obu P)) : last_sequence_header l (in_effect l).
Proof.
  induction l as [|o l IH] using rev_ind.
  - right. split; [constructor|reflexivity].
  - unfold in_effect. rewrite fold_left_app. cbn [fold_left]. fold (in_effect l).
    destruct (Z.eqb_spec (Type_ (Hdr o)) OBU_SEQUENCE_HEADER) as [Ht|Ht].
    + left. exists l, o, []. repeat split; auto.
    + destruct IH as [(a & x & b & E & T & S & B)|[A Z0]].
      * left. exists a, x, (b ++ [o]). split; [rewrite E, <- app_assoc; reflexivity|]. split; [exact T|]. split; [exact S|].
        apply Forall_app. split; [exact B|repeat constructor; exact Ht].
      * right. split; [|exact Z0]. apply Forall_app. split; [exact A|repeat constructor; exact Ht].
Qed.

Theorem C26_sequence_header_persists : forall P data os s pre o post, parse P data = Ok (os, s) ->
  os = pre ++ o :: post -> Type_ (Hdr o) <> 1 -> last_sequence_header pre (ObuSH o).
Proof.
  intros P data os s pre o post E Ho Ht. destruct (coherent_parse P data os s E) as (p & (_ & _ & C) & Hp).
  destruct (C pre o post (eq_trans Hp Ho)) as [H _]. rewrite (H Ht). apply in_effect_last.
Qed.
Print Assumptions C26_sequence_header_persists.

(** The operating point chosen with a sequence header does not persist: every frame unit starts without
    operating point, so in the frame units after the sequence header no OBU is ever dropped. *)
Theorem C26_operating_point_forgotten_refuted : forall P sz sh uh s o d' s', 0 <= Position s ->
  NewObu P sz (zeroState P) sh uh s = Ok (o, d', s') ->
  exists s2, Position s <= Position s2 /\ exists s3, payload P (Size o) (Hdr o) sh uh (zeroState P) s2 = Ok (o, d', s3).
Proof.
  intros P sz sh uh s o d' s' H0 E. unfold NewObu in E.
  apply bind_inv in E. destruct E as (h & s1 & E1 & E).
  apply bind_inv in E. destruct E as (size & s2 & E2 & E).
  rewrite (bind_ok _ _ _ _ _ (eq_refl : get _ = Ok (_, _))) in E.
  assert (Hd : dropped (OperatingPointIdc (zeroState P)) h = false).
  { unfold dropped. cbn [OperatingPointIdc zeroState Z.eqb negb]. rewrite andb_false_r. reflexivity. }
  rewrite Hd in E.
  apply bind_inv in E. destruct E as ([o1 d1] & s3 & E3 & E).
  apply bind_inv in E. destruct E as (? & s4 & _ & E). apply bind_inv in E. destruct E as (? & s5 & _ & E).
  injection E as <- <- <-. exists s2. split.
  - destruct (NewHeader_pos s h s1 H0 E1) as (_ & P1 & _).
    assert (0 <= int_of (ExtensionFlag h)) by (destruct (ExtensionFlag h); cbn; lia).
    destruct (HasSizeField h).
    + destruct (Leb128_inv s1 size s2 ltac:(lia) E2) as (k & Hk & -> & _). cbn. lia.
    + injection E2 as _ <-. lia.
  - exists s3. rewrite <- E3. 
    assert (Hso : Size o1 = size /\ Hdr o1 = h).
    { clear - E3. unfold payload in E3. cbv zeta in E3.
      repeat match type of E3 with
      | (if ?t =? ?c then _ else _) _ = _ => destruct (Z.eqb_spec t c)
      | bind _ _ _ = Ok _ => apply bind_inv in E3; destruct E3 as (? & ? & _ & E3)
      | (let '(_, _) := ?x in _) _ = Ok _ => destruct x
      | ret _ _ = Ok _ => injection E3 as <- <- <-
      | panic _ = Ok _ => discriminate
      end; cbn; auto. }
    destruct Hso as [-> ->]. reflexivity.
Qed.
Print Assumptions C26_operating_point_forgotten_refuted.

(** C47: within a frame unit, once a frame header was parsed, any further frame header, redundant frame header
    or frame OBU (before a temporal delimiter) stops the decoder, although redundant copies are legal. *)
Theorem C47_repeated_frame_header_panics_refuted : forall P sz d sh uh s forbidden ty ext reserved k size,
  valid_prefix ty ext k size -> starts s (enc_obu_prefix forbidden ty ext reserved k size) ->
  (ty = 3 \/ ty = 6 \/ ty = 7) -> OperatingPointIdc d = 0 -> SeenFrameHeader d = true ->
  NewObu P sz d sh uh s = Panic.
Proof.
  intros P sz d sh uh s forbidden ty ext reserved k size Hv H Hty Hi Hs.
  destruct (NewObu_prefix P sz d sh uh s _ _ _ _ _ _ Hv H) as (s2 & Hp & HD & H0 & E). cbv zeta in E. rewrite E. clear E.
  set (h := mk_header forbidden ty ext true reserved) in *.
  assert (Ht : Type_ h = ty) by (unfold h; destruct ext as [[[? ?] ?]|]; reflexivity).
  rewrite (bind_ok _ _ _ _ _ (eq_refl : get _ = Ok (_, _))).
  assert (Hd : dropped (OperatingPointIdc d) h = false) by (unfold dropped; rewrite Hi; cbn [Z.eqb negb]; rewrite andb_false_r; reflexivity).
  rewrite Hd. rewrite bind_eq.
  assert (Ep : payload P size h sh uh d s2 = Panic).
  { unfold payload, newFrame, ParseFrameHeader. rewrite Ht, Hs. destruct Hty as [->|[->| ->]]; cbn; reflexivity. }
  rewrite Ep. reflexivity.
Qed.
Print Assumptions C47_repeated_frame_header_panics_refuted.
(** And the flag is indeed set by every frame header that parses. *)
Theorem C47_frame_header_sets_flag_partial : forall P d h sh s uh d' s',
  ParseFrameHeader P d h sh s = Ok (uh, d', s') -> SeenFrameHeader d = false /\ SeenFrameHeader d' = true.
Proof.
  intros P d h sh s uh d' s' E. unfold ParseFrameHeader in E. destruct (SeenFrameHeader d); [discriminate|].
  apply bind_inv in E. destruct E as ([u d1] & s1 & _ & E). destruct (ShowExistingFrame P u); [discriminate|].
  injection E as <- <- <-. split; reflexivity.
Qed.
Print Assumptions C47_frame_header_sets_flag_partial.
Example C47_case : exists d s o, NewObu trivial_payloads 3 (zeroState trivial_payloads) zeroSH tt (mkBS [0x1A; 1; 0x80; 0x3A; 1; 0x80] 0 0)
   = Ok (o, d, s) /\ NewObu trivial_payloads 3 d zeroSH tt s = Panic.
Proof. eexists _, _, _. split; [vm_compute; reflexivity|]. vm_compute. reflexivity. Qed.
