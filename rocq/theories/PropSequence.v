(** Property theorems C21, C22, C45, C46: colour configuration and sequence header. *)
From Verif Require Import GoBase Bitstream SpecBits SpecStream BitstreamProofs ReaderOps Parses SafeParse Yields
  SpecSyntax SequenceHeader SequenceHeaderProofs.

(** C21 *)
Theorem C21_color_config_roundtrip : forall s profile c, valid_color profile c -> starts s (enc_color profile c) ->
  exists cc, NewColorConfig profile s = Ok (cc, adv s (Z.of_nat (length (enc_color profile c)))) /\
    BitDepth cc = sc_bit_depth c /\ MonoChrome cc = sc_mono c /\ NumPlanes cc = (if sc_mono c then 1 else 3) /\
    ColorPrimaries cc = sc_cp c /\ TransferCharacteristics cc = sc_tc c /\ MatrixCoefficients cc = sc_mc c /\
    ColorRange cc = sc_range c /\ SubsamplingX cc = sc_sub_x c /\ SubsamplingY cc = sc_sub_y c /\
    ChromaSamplePosition cc = sc_chroma_pos c /\ SeparateUvDeltaQ cc = sc_separate_uv c.
Proof.
  intros s profile c Hv H. exists (decoded_color c).
  split; [exact (parses_NewColorConfig profile c Hv s H)|]. repeat split.
Qed.
Print Assumptions C21_color_config_roundtrip.
Definition demo_color := mkSpecColor 12 false (Some (9, 16, 9)) true true true 2 true.
Example C21_case : valid_color 2 demo_color /\ length (enc_color 2 demo_color) = 34%nat /\
  exists bytes, starts (mkBS bytes 0 0) (enc_color 2 demo_color).
Proof.
  split; [unfold valid_color, demo_color; cbn; repeat split; auto; try lia; try discriminate|].
  split; [reflexivity|]. exists [0xD0; 0x91; 0x00; 0x9F; 0x40]. split; [cbn; lia|]. eexists. vm_compute. reflexivity.
Qed.

Theorem C21_color_config_ranges : forall s profile cc s', 0 <= Position s -> 0 <= profile <= 2 ->
  NewColorConfig profile s = Ok (cc, s') ->
  (BitDepth cc = 8 \/ BitDepth cc = 10 \/ BitDepth cc = 12) /\ (BitDepth cc = 12 -> profile = 2) /\
  NumPlanes cc = (if MonoChrome cc then 1 else 3) /\ (MonoChrome cc = true -> profile <> 1) /\
  (SubsamplingY cc = true -> SubsamplingX cc = true) /\
  0 <= ChromaSamplePosition cc < 4 /\
  (profile = 0 -> SubsamplingX cc = SubsamplingY cc).
Proof.
  intros s profile cc s' H0 Hp E.
  refine (proj2 ((_ : yields (NewColorConfig profile) (fun cc => _)) s cc s' H0 E)). clear E s' cc s H0.
  unfold NewColorConfig.
  eapply y_bind with (Q := fun bd => (snd bd = 8 \/ snd bd = 10 \/ snd bd = 12) /\ (snd bd = 12 -> profile = 2)).
  { unfold readBitDepth. yb. apply y_if; intros E1.
    - apply andb_true_iff in E1. destruct E1 as [E1 _]. apply Z.eqb_eq in E1.
      yb. apply y_ret. cbn. destruct a0; lia.
    - apply y_if; intros E2; [|apply Z.leb_gt in E2; lia]. apply y_ret. cbn. destruct a; lia. }
  intros [[hb tb] bd] [B1 B2]. cbn [snd] in *.
  eapply y_bind with (Q := fun m => m = true -> profile <> 1).
  { apply y_if; intros Ep.
    - eapply y_weaken; [apply y_Fbool|]. intros a _ _. destruct (Z.eqb_spec profile 1); [discriminate|assumption].
    - apply y_ret. discriminate. }
  intros mono Hm. yb.
  assert (G : yields (if a then F 8 else ret 2) (fun v => 0 <= v < 256)).
  { apply y_if; intros _; [apply y_F; lia|apply y_ret; lia]. }
  eapply y_bind; [exact G|intros cp ?]. eapply y_bind; [exact G|intros tc ?]. eapply y_bind; [exact G|intros mc ?].
  destruct mono.
  { yb. apply y_ret. cbn. repeat split; auto; lia. }
  apply y_if; intros _.
  { yb. apply y_ret. cbn. repeat split; auto; try lia; discriminate. }
  yb.
  eapply y_bind with (Q := fun x => profile = 0 -> x = true).
  { apply y_if; intros Ez; [apply y_ret; auto|]. apply Z.eqb_neq in Ez.
    apply y_if; intros _; [apply y_ret; lia|]. apply y_if; intros _; [|apply y_ret; lia].
    eapply y_weaken; [apply y_Fbool|]. intros; lia. }
  intros sx Hx.
  eapply y_bind with (Q := fun y => (profile = 0 -> y = true) /\ (y = true -> sx = true)).
  { apply y_if; intros Ez; [apply y_ret; apply Z.eqb_eq in Ez; auto|]. apply Z.eqb_neq in Ez.
    apply y_if; intros _; [apply y_ret; split; [lia|discriminate]|].
    apply y_if; intros _; [|apply y_ret; split; [lia|discriminate]].
    apply y_if; intros ->; [|apply y_ret; split; [lia|discriminate]].
    eapply y_weaken; [apply y_Fbool|]. intros; split; auto; lia. }
  intros sy [Hy1 Hy2].
  eapply y_bind with (Q := fun v => 0 <= v < 4).
  { apply y_if; intros _; [apply y_F; lia|apply y_ret; lia]. }
  intros csp Hc. yb. apply y_ret. cbn. repeat split; auto; try lia.
  intros Hp0. rewrite (Hx Hp0). symmetry. apply Hy1. exact Hp0.
Qed.
Print Assumptions C21_color_config_ranges.

(** C22.  The claim is false of the code.  What it gets right: the first three fields of every header,
    and the frame size / coding tool section once it is positioned on it. *)
Lemma parses_step {A B} (m : BS A) (k : A -> BS B) l r a s :
  parses m l a -> starts s (l ++ r) -> bind m k s = k a (adv s (Z.of_nat (length l))) /\ starts (adv s (Z.of_nat (length l))) r.
Proof.
  intros Hm H. destruct (starts_app _ _ _ H) as [H1 H2]. split; [|exact H2].
  apply bind_ok. apply Hm. exact H1.
Qed.

Theorem C22_header_prefix_partial : forall s q sh idc s', 0 <= q_profile q < 8 -> starts s (enc_seq q) ->
  NewSequenceHeader s = Ok (sh, idc, s') ->
  SeqProfile sh = q_profile q /\ StillPicture sh = q_still q /\ ReducedStillPictureHeader sh = q_reduced q.
Proof.
  intros s q sh idc s' Hp H E. unfold NewSequenceHeader in E. unfold enc_seq in H.
  assert (P3 : parses (F 3) (enc_f 3 (q_profile q)) (q_profile q)) by (apply parses_F; [reflexivity|lia|lia]).
  match type of E with bind _ ?k ?s = _ => destruct (parses_step (F 3) k _ _ _ s P3 H) as [E1 H1] end.
  rewrite E1 in E. clear E1 H. cbn [app] in H1.
  match type of E with bind _ ?k ?s = _ => destruct (parses_step Fbool k [q_still q] _ _ s (parses_Fbool _) H1) as [E2 H2] end.
  rewrite E2 in E. clear E2 H1.
  match type of E with bind _ ?k ?s = _ => destruct (parses_step Fbool k [q_reduced q] _ _ s (parses_Fbool _) H2) as [E3 H3] end.
  rewrite E3 in E. clear E3 H2 H3.
  repeat (apply bind_inv in E; destruct E as (? & ? & _ & E)).
  injection E as <- <- <-. repeat split.
Qed.
Print Assumptions C22_header_prefix_partial.

Theorem C22_size_and_tools_section_partial : forall s t, valid_tools t -> starts s (enc_tools t) ->
  exists st, sizeToolPart s = Ok (st, adv s (Z.of_nat (length (enc_tools t)))) /\
    st_w st = t_width t /\ st_h st = t_height t /\
    st_wb st = Z.of_nat (t_width_bits t) /\ st_hb st = Z.of_nat (t_height_bits t) /\
    (st_idp st = true <-> t_frame_ids t <> None) /\
    (forall d a, t_frame_ids t = Some (d, a) -> st_delta st = d /\ st_add st = a) /\
    st_128 st = t_128 t /\ st_fi st = t_filter_intra t /\ st_ief st = t_intra_edge t /\
    st_ii st = t_interintra t /\ st_masked st = t_masked t /\ st_warped st = t_warped t /\ st_dual st = t_dual t /\
    (st_oh st = true <-> t_order_hint t <> None) /\
    (forall j r n, t_order_hint t = Some (j, r, n) -> st_jnt st = j /\ st_rmv st = r /\ st_ohb st = n) /\
    st_sct st = match t_screen_content t with None => 2 | Some b => b2z b end /\
    st_imv st = match t_integer_mv t with None => 2 | Some b => b2z b end.
Proof.
  intros s t Hv H. exists (decoded_tools t). split; [exact (parses_sizeToolPart t Hv s H)|].
  unfold decoded_tools. cbn. destruct (t_frame_ids t) as [[d a]|]; destruct (t_order_hint t) as [[[j r] n]|];
    repeat split; try congruence; intros; try congruence.
Qed.
Print Assumptions C22_size_and_tools_section_partial.
Definition demo_tools : spec_tools :=
  mkSpecTools 10 9 1919 1023 (Some (13, 0)) true true false true false true false (Some (true, false, 7)) None (Some false).
Example C22_tools_case : valid_tools demo_tools /\ length (enc_tools demo_tools) = 53%nat.
Proof. split; [unfold valid_tools; cbn; repeat split; try lia; discriminate|reflexivity]. Qed.

(** Every conforming non-reduced header without timing information and with one operating point
    (idc 0) is misread: five bits are consumed that the syntax does not have, so that the decoder takes
    frame_width_bits from the middle of operating_point_idc, and ends with frame_width_bits_minus_1 = 0. *)
Theorem C22_full_header_misread_refuted : forall s q o sh idc s',
  0 <= q_profile q < 8 -> q_reduced q = false -> q_timing q = None -> q_ops q = [o] -> o_idc o = 0 ->
  starts s (enc_seq q) -> NewSequenceHeader s = Ok (sh, idc, s') ->
  FrameWidthBitsMinusOne sh = 0 /\ MaxFrameWidthMinusOne sh <= 1.
Proof.
  intros s q o sh idc s' Hp Hr Ht Ho Hi H E. unfold NewSequenceHeader in E. unfold enc_seq in H.
  rewrite Hr, Ht, Ho in H. cbn [length flat_map] in H. unfold enc_op in H. rewrite Hi in H.
  assert (P3 : parses (F 3) (enc_f 3 (q_profile q)) (q_profile q)) by (apply parses_F; [reflexivity|lia|lia]).
  match type of E with bind _ ?k ?s = _ => destruct (parses_step (F 3) k _ _ _ s P3 H) as [E1 H1] end.
  rewrite E1 in E. clear E1 H. cbn [app] in H1.
  match type of E with bind _ ?k ?s = _ => destruct (parses_step Fbool k [q_still q] _ _ s (parses_Fbool _) H1) as [E2 H2] end.
  rewrite E2 in E. clear E2 H1.
  match type of E with bind _ ?k ?s = _ => destruct (parses_step Fbool k [false] _ _ s (parses_Fbool _) H2) as [E3 H3] end.
  rewrite E3 in E. clear E3 H2.
  change (enc_f 5 (Z.of_nat 1 - 1)) with [false; false; false; false; false] in H3.
  change (enc_f 12 0) with (repeat false 12) in H3. cbn [repeat app] in H3.
  match type of H3 with starts ?s ?l => assert (P5 : parses (F 5) [false; q_idd q; false; false; false] (be [false; q_idd q; false; false; false])) end.
  { intros t Ht'. rewrite (F_starts 5 t _ Ht') by (cbn; lia). reflexivity. }
  match type of E with bind _ ?k ?s = _ => destruct (parses_step (F 5) k [false; q_idd q; false; false; false] _ _ s P5 H3) as [E4 H4] end.
  rewrite E4 in E. clear E4 H3 P5.
  assert (PT : parses (timingPart (be [false; q_idd q; false; false; false])) [false]
     (mkTimingPart zeroTiming false zeroModel false 0 (mkOpState [0] [be [false; q_idd q; false; false; false]] [0] [false] [false] []))).
  { unfold timingPart. cbv zeta. eapply parses_bind_end; [apply parses_Fbool|]. apply parses_ret. }
  cbv iota in E.
  match type of E with bind _ ?k ?s = _ => destruct (parses_step _ k [false] _ _ s PT H4) as [E5 H5] end.
  rewrite E5 in E. clear E5 H4 PT. cbv iota beta in E. cbn [op_idc tp_ops] in E.
  change (idx [0] 0) with (@Ok Z 0) in E.
  apply bind_inv in E. destruct E as (i & s1 & Ei & E).
  apply bind_inv in Ei. destruct Ei as (i0 & s2 & Ei0 & Ei1). injection Ei0 as <- <-. injection Ei1 as <- <-.
  apply bind_inv in E. destruct E as (st & s3 & Est & E).
  repeat (apply bind_inv in E; destruct E as (? & ? & _ & E)). injection E as <- <- <-.
  unfold FrameWidthBitsMinusOne, MaxFrameWidthMinusOne.
  unfold sizeToolPart in Est.
  assert (P4 : parses (F 4) [false; false; false; false] 0).
  { intros t Ht'. rewrite (F_starts 4 t _ Ht') by (cbn; lia). reflexivity. }
  match type of Est with bind _ ?k ?s = _ => destruct (parses_step (F 4) k [false; false; false; false] _ _ s P4 H5) as [E6 H6] end.
  rewrite E6 in Est. clear E6 H5 P4.
  apply bind_inv in Est. destruct Est as (hb & s4 & Ehb & Est).
  apply bind_inv in Est. destruct Est as (w & s5 & Ew & Est).
  repeat (apply bind_inv in Est; destruct Est as (? & ? & _ & Est)). injection Est as <- <-. cbn [st_wb st_w].
  split; [reflexivity|].
  destruct H6 as [H6 _].
  destruct (y_F 4 ltac:(lia) _ _ _ H6 Ehb) as [Hp4 _].
  destruct (y_F (0 + 1) ltac:(lia) _ _ _ Hp4 Ew) as [_ Hw]. change (2 ^ (0 + 1)) with 2 in Hw. lia.
Qed.
Print Assumptions C22_full_header_misread_refuted.
(** Reduced still picture headers: the frame size is never read at all. *)
Theorem C22_reduced_header_has_no_size_refuted : forall s sh idc s',
  NewSequenceHeader s = Ok (sh, idc, s') -> ReducedStillPictureHeader sh = true ->
  MaxFrameWidthMinusOne sh = 0 /\ MaxFrameHeightMinusOne sh = 0 /\
  SeqForceScreenContentTools sh = 0 /\ SeqForceIntegerMv sh = 0 /\ idc = None.
Proof.
  intros s sh idc s' E Hr. unfold NewSequenceHeader in E.
  apply bind_inv in E. destruct E as (profile & s1 & _ & E).
  apply bind_inv in E. destruct E as (still & s2 & _ & E).
  apply bind_inv in E. destruct E as (reduced & s3 & _ & E).
  apply bind_inv in E. destruct E as (level & s4 & _ & E).
  apply bind_inv in E. destruct E as (tp & s5 & E5 & E).
  apply bind_inv in E. destruct E as (i & s6 & E6 & E).
  apply bind_inv in E. destruct E as (st & s7 & E7 & E).
  repeat (apply bind_inv in E; destruct E as (? & ? & _ & E)). injection E as <- <- <-.
  cbn in Hr. subst reduced. injection E7 as <- <-. injection E6 as <- <-. repeat split.
Qed.
Print Assumptions C22_reduced_header_has_no_size_refuted.

Fixpoint pack (l : list bool) (n : nat) : list Z :=
  match n with O => [] | S n' => be (firstn 8 (l ++ repeat false 8)) :: pack (skipn 8 l) n' end.
(** What the decoder does accept: the AV1 sequence header with three deviations: seq_level_idx (5 bits) is coded before the timing
    information, initial display delay and operating points are coded only together with timing information, and then there is one
    operating point whose level has 12 bits and which has neither decoder model parameters nor an initial display delay. *)
Definition enc_accepted_timing (timing : option (Z * Z * option Z)) (model : option (nat * Z * Z * Z)) (idd : bool) (idc level : Z) (tier : bool) : list bool :=
  match timing with
  | None => [false]
  | Some (u, ts, ticks) =>
      [true] ++ enc_f 32 u ++ enc_f 32 ts ++ match ticks with Some k => [true] ++ enc_uvlc k | None => [false] end ++
      match model with Some (n, a, b, c) => [true] ++ enc_f 5 (Z.of_nat n) ++ enc_f 32 a ++ enc_f 5 b ++ enc_f 5 c | None => [false] end ++
      [idd] ++ enc_f 5 0 ++ enc_f 12 idc ++ enc_f 12 level ++ (if 7 <? level then [tier] else []) ++
      (match model with Some _ => [false] | None => [] end) ++ (if idd then [false] else [])
  end.
Definition enc_accepted (profile : Z) (still reduced : bool) (level : Z) (timing : list bool) (t : spec_tools) (superres cdef restoration : bool) (c : spec_color) (grain : bool) : list bool :=
  enc_f 3 profile ++ [still; reduced] ++ enc_f 5 level ++ (if reduced then [] else timing ++ enc_tools t) ++ [superres; cdef; restoration] ++ enc_color profile c ++ [grain].
Definition valid_timing (timing : option (Z * Z * option Z)) (model : option (nat * Z * Z * Z)) (idc level : Z) : Prop :=
  match timing with Some (u, ts, ticks) => 0 <= u < 2 ^ 32 /\ 0 <= ts < 2 ^ 32 /\ match ticks with Some k => 0 <= k < 2 ^ 32 - 1 | None => True end | None => True end /\
  match model with Some (n, a, b, c) => (n < 32)%nat /\ 0 <= a < 2 ^ 32 /\ 0 <= b < 32 /\ 0 <= c < 32 | None => True end /\ 0 <= idc < 2 ^ 12 /\ 0 <= level < 2 ^ 12.
(** the operating point the decoder works with *)
Definition decoded_idc (timing : option (Z * Z * option Z)) (idc : Z) : Z := match timing with Some _ => idc | None => 0 end.
Lemma parses_timingPart l0 timing model idd idc level tier : valid_timing timing model idc level ->
  parses (timingPart l0) (enc_accepted_timing timing model idd idc level tier)
   (match timing with
    | None => mkTimingPart zeroTiming false zeroModel false 0 (mkOpState [0] [l0] [0] [false] [false] [])
    | Some (u, ts, ticks) => mkTimingPart (mkTimingInfo u ts (match ticks with Some _ => true | None => false end) (match ticks with Some k => k | None => 0 end))
        (match model with Some _ => true | None => false end) (match model with Some (n, a, b, c) => mkDecoderModelInfo (Z.of_nat n) a b c | None => zeroModel end) idd 0
        (mkOpState [idc] [level] [if 7 <? level then b2z tier else 0] [false] [false] []) end).
Proof.
  intros (HT & HM & HI & HL). unfold timingPart, enc_accepted_timing. cbv zeta. destruct timing as [[[u ts] ticks]|].
  2:{ eapply parses_bind_end; [apply parses_Fbool|]. cbv beta iota. apply parses_ret. }
  destruct HT as (Hu & Hts & Hk). change (2 ^ 32) with 4294967296 in *. change (2 ^ 12) with 4096 in *. cbn [app]. pbit. cbv iota.
  assert (PT : parses NewTimingInfo (enc_f 32 u ++ enc_f 32 ts ++ match ticks with Some k => true :: enc_uvlc k | None => [false] end)
     (mkTimingInfo u ts (match ticks with Some _ => true | None => false end) (match ticks with Some k => k | None => 0 end))).
  { unfold NewTimingInfo. pf. pf. destruct ticks as [k|].
    - pbit. cbv iota. eapply parses_bind_end; [apply parses_Uvlc; change (2 ^ 32) with 4294967296; exact Hk|]. cbv beta. apply parses_ret.
    - pbit. cbv iota. eapply parses_bind0; [apply parses_ret|]. cbv beta. apply parses_ret. }
  match goal with |- parses _ ?l _ => assert (EL : l = (enc_f 32 u ++ enc_f 32 ts ++ match ticks with Some k => true :: enc_uvlc k | None => [false] end) ++
      (match model with Some (n, a, b, c) => true :: enc_f 5 (Z.of_nat n) ++ enc_f 32 a ++ enc_f 5 b ++ enc_f 5 c | None => [false] end) ++ [idd] ++ enc_f 5 0 ++
      (enc_f 12 idc ++ enc_f 12 level ++ (if 7 <? level then [tier] else []) ++ (match model with Some _ => [false] | None => [] end) ++ (if idd then [false] else [])))
    by (rewrite <- !app_assoc; destruct ticks; reflexivity) end. rewrite EL. clear EL.
  eapply parses_bind; [exact PT|]. cbv beta.
  set (dmp := match model with Some _ => true | None => false end). set (dm := match model with Some (n, a, b, c) => mkDecoderModelInfo (Z.of_nat n) a b c | None => zeroModel end).
  assert (PO : parses (operatingPoint dmp idd (BufferDelayLengthMinusOne dm) 0 (mkOpState [0] [l0] [0] [false] [false] []))
    (enc_f 12 idc ++ enc_f 12 level ++ (if 7 <? level then [tier] else []) ++ (match model with Some _ => [false] | None => [] end) ++ (if idd then [false] else []))
    (mkOpState [idc] [level] [if 7 <? level then b2z tier else 0] [false] [false] [])).
  { unfold operatingPoint. cbn [op_idc op_level op_tier op_dmp op_iddp op_idd]. pf. eapply parses_bind0; [apply parses_lift; reflexivity|]. cbv beta. pf. eapply parses_bind0; [apply parses_lift; reflexivity|]. cbv beta.
    eapply parses_bind; [instantiate (1 := if 7 <? level then b2z tier else 0); destruct (7 <? level); [apply parses_F1|apply parses_ret]|]. cbv beta. eapply parses_bind0; [apply parses_lift; reflexivity|]. cbv beta.
    eapply parses_bind; [instantiate (1 := false); unfold dmp; destruct model as [[[[n a] b] c]|]; [apply parses_Fbool|apply parses_ret]|]. cbv beta. eapply parses_bind0; [apply parses_lift; reflexivity|]. cbv beta iota.
    eapply parses_bind0; [apply parses_ret|]. cbv beta. destruct idd; [|apply parses_ret]. eapply parses_bind_end; [apply parses_Fbool|]. cbv beta. eapply parses_bind0; [apply parses_lift; reflexivity|]. cbv beta iota. apply parses_ret. }
  assert (PL : parses (for_to 0 (0 + 1) (operatingPoint dmp idd (BufferDelayLengthMinusOne dm)) (mkOpState [0] [l0] [0] [false] [false] []))
    (enc_f 12 idc ++ enc_f 12 level ++ (if 7 <? level then [tier] else []) ++ (match model with Some _ => [false] | None => [] end) ++ (if idd then [false] else []))
    (mkOpState [idc] [level] [if 7 <? level then b2z tier else 0] [false] [false] [])).
  { unfold for_to. change (Z.to_nat (0 + 1 - 0)) with 1%nat. cbn [for_from]. eapply parses_bind_end; [exact PO|]. cbv beta. apply parses_ret. }
  destruct model as [[[[n a] b] c]|]; cbn [app].
  - destruct HM as (Hn & Ha & Hb & Hc). change (2 ^ 32) with 4294967296 in *. pbit. cbv iota. rewrite <- !app_assoc.
    match goal with |- parses (bind ?m ?k) _ _ => assert (PM : parses m (enc_f 5 (Z.of_nat n) ++ enc_f 32 a ++ enc_f 5 b ++ enc_f 5 c) dm) by (pf; pf; pf; eapply parses_bind_end; [apply parses_F; [reflexivity|lia|lia]|]; cbv beta; apply parses_ret) end.
    match goal with |- parses _ ?l _ => assert (EL : exists r, l = (enc_f 5 (Z.of_nat n) ++ enc_f 32 a ++ enc_f 5 b ++ enc_f 5 c) ++ r /\ r = [idd] ++ enc_f 5 0 ++ (enc_f 12 idc ++ enc_f 12 level ++ (if 7 <? level then [tier] else []) ++ [false] ++ (if idd then [false] else []))) by (eexists; split; [rewrite <- !app_assoc; reflexivity|reflexivity]) end.
    destruct EL as (r & -> & ->). eapply parses_bind; [exact PM|]. cbv beta. cbn [app]. pbit. pf. eapply parses_bind_end; [exact PL|]. cbv beta. apply parses_ret.
  - pbit. cbv iota. eapply parses_bind0; [apply parses_ret|]. cbv beta. pbit. pf. eapply parses_bind_end; [exact PL|]. cbv beta. apply parses_ret.
Qed.
(** Every such header is read back exactly: all fields, consuming exactly its bits. *)
Theorem C22_accepted_syntax_partial : forall s profile still level timing model idd idc olevel tier t superres cdef restoration c grain,
  0 <= level < 32 -> valid_timing timing model idc olevel -> valid_tools t -> valid_color profile c ->
  starts s (enc_accepted profile still false level (enc_accepted_timing timing model idd idc olevel tier) t superres cdef restoration c grain) ->
  exists sh, NewSequenceHeader s = Ok (sh, Some (decoded_idc timing idc), adv s (Z.of_nat (length (enc_accepted profile still false level (enc_accepted_timing timing model idd idc olevel tier) t superres cdef restoration c grain)))) /\
    SeqProfile sh = profile /\ StillPicture sh = still /\ ReducedStillPictureHeader sh = false /\
    (forall u ts ticks, timing = Some (u, ts, ticks) ->
       NumUnitsInDisplayTick (Timing sh) = u /\ TimeScale (Timing sh) = ts /\ (EqualPictureInterval (Timing sh) = true <-> ticks <> None) /\ (forall k, ticks = Some k -> NumTicksPerMinuteMinusOne (Timing sh) = k) /\
       (DecoderModelInfoPresent sh = true <-> model <> None) /\ InitialDisplayDelayPresent sh = idd /\ SeqLevelIdx sh = [olevel] /\ SeqTier sh = [if 7 <? olevel then b2z tier else 0] /\
       (forall n a b d, model = Some (n, a, b, d) -> BufferDelayLengthMinusOne (DecoderModel sh) = Z.of_nat n /\ NumUnitsInDecodingTick (DecoderModel sh) = a /\ BufferRemovalTimeLengthMinusOne (DecoderModel sh) = b /\ FramePresentationTimeLengthMinusOne (DecoderModel sh) = d)) /\
    (timing = None -> DecoderModelInfoPresent sh = false /\ InitialDisplayDelayPresent sh = false /\ SeqLevelIdx sh = [level] /\ SeqTier sh = [0]) /\
    FrameWidthBitsMinusOne sh = Z.of_nat (t_width_bits t) /\ FrameHeightBitsMinusOne sh = Z.of_nat (t_height_bits t) /\ MaxFrameWidthMinusOne sh = t_width t /\ MaxFrameHeightMinusOne sh = t_height t /\
    (FrameIdNumbersPresent sh = true <-> t_frame_ids t <> None) /\ (forall d a, t_frame_ids t = Some (d, a) -> DeltaFrameIdLengthMinusTwo sh = d /\ AdditionalFrameIdLengthMinusOne sh = a) /\
    Use128x128SuperBlock sh = t_128 t /\ EnableFilterIntra sh = t_filter_intra t /\ EnableIntraEdgeFilter sh = t_intra_edge t /\ EnableInterIntraCompound sh = t_interintra t /\ EnableMaskedCompound sh = t_masked t /\ EnableWarpedMotion sh = t_warped t /\ EnableDualFilter sh = t_dual t /\
    (EnableOrderHint sh = true <-> t_order_hint t <> None) /\ (forall j r n, t_order_hint t = Some (j, r, n) -> EnableJntComp sh = j /\ EnableRefFrameMvs sh = r /\ OrderHintBits sh = n) /\
    SeqForceScreenContentTools sh = match t_screen_content t with None => 2 | Some b => b2z b end /\ SeqForceIntegerMv sh = match t_integer_mv t with None => 2 | Some b => b2z b end /\
    EnableSuperRes sh = superres /\ EnableCdef sh = cdef /\ EnableRestoration sh = restoration /\
    BitDepth (Color sh) = sc_bit_depth c /\ MonoChrome (Color sh) = sc_mono c /\ NumPlanes (Color sh) = (if sc_mono c then 1 else 3) /\ SubsamplingX (Color sh) = sc_sub_x c /\ SubsamplingY (Color sh) = sc_sub_y c /\ SeparateUvDeltaQ (Color sh) = sc_separate_uv c /\ ColorRange (Color sh) = sc_range c /\
    FilmGrainParamsPresent sh = grain.
Proof.
  intros s profile still level timing model idd idc olevel tier t superres cdef restoration c grain HL HT Ht Hc H.
  pose proof (parses_timingPart level timing model idd idc olevel tier HT) as PT. pose proof (parses_sizeToolPart t Ht) as PS. pose proof (parses_NewColorConfig profile c Hc) as PC.
  assert (Hp : 0 <= profile < 8) by (destruct Hc; lia).
  match type of PT with parses _ _ ?tp => set (TP := tp) in * end.
  assert (P : parses NewSequenceHeader (enc_accepted profile still false level (enc_accepted_timing timing model idd idc olevel tier) t superres cdef restoration c grain)
     (mkSequenceHeader profile still false
         (tp_timing TP) (tp_dmp TP) (tp_dm TP) (tp_iddp TP) (tp_cnt TP)
         (op_level (tp_ops TP)) (op_tier (tp_ops TP)) (op_dmp (tp_ops TP))
         (op_iddp (tp_ops TP)) (op_idd (tp_ops TP))
         (st_wb (decoded_tools t)) (st_hb (decoded_tools t)) (st_w (decoded_tools t)) (st_h (decoded_tools t)) (st_idp (decoded_tools t)) (st_add (decoded_tools t)) (st_delta (decoded_tools t))
         (st_128 (decoded_tools t)) (st_fi (decoded_tools t)) (st_ief (decoded_tools t)) (st_ii (decoded_tools t)) (st_masked (decoded_tools t)) (st_warped (decoded_tools t))
         (st_oh (decoded_tools t)) (st_dual (decoded_tools t)) (st_jnt (decoded_tools t)) (st_rmv (decoded_tools t))
         (st_choose (decoded_tools t)) (st_sct (decoded_tools t)) (st_imv (decoded_tools t)) (st_ohb (decoded_tools t))
         superres cdef restoration (decoded_color c) grain, Some (decoded_idc timing idc))).
  { unfold NewSequenceHeader, enc_accepted. pf. cbn [app]. pbit. pbit. pf. cbv iota. rewrite <- app_assoc. eapply parses_bind; [exact PT|]. cbv beta.
    eapply parses_bind0; [eapply parses_bind0; [apply parses_lift; instantiate (1 := decoded_idc timing idc); unfold TP; destruct timing as [[[u ts] k]|]; reflexivity|]; cbv beta; apply parses_ret|]. cbv beta.
    eapply parses_bind; [exact PS|]. cbv beta. cbn [app]. pbit. pbit. pbit. eapply parses_bind; [exact PC|]. cbv beta. eapply parses_bind_end; [apply parses_Fbool|]. cbv beta. apply parses_ret. }
  eexists. split; [exact (P s H)|]. clear P PT PS PC H. cbn [SeqProfile StillPicture ReducedStillPictureHeader Timing DecoderModelInfoPresent DecoderModel InitialDisplayDelayPresent SeqLevelIdx SeqTier FrameWidthBitsMinusOne FrameHeightBitsMinusOne MaxFrameWidthMinusOne MaxFrameHeightMinusOne FrameIdNumbersPresent AdditionalFrameIdLengthMinusOne DeltaFrameIdLengthMinusTwo Use128x128SuperBlock EnableFilterIntra EnableIntraEdgeFilter EnableInterIntraCompound EnableMaskedCompound EnableWarpedMotion EnableOrderHint EnableDualFilter EnableJntComp EnableRefFrameMvs SeqForceScreenContentTools SeqForceIntegerMv OrderHintBits EnableSuperRes EnableCdef EnableRestoration Color FilmGrainParamsPresent].
  unfold decoded_tools, decoded_color. cbn.
  split; [reflexivity|]. split; [reflexivity|]. split; [reflexivity|].
  split. { intros u ts ticks ->. unfold TP. cbn. split; [reflexivity|]. split; [reflexivity|]. split; [destruct ticks; split; congruence|]. split; [intros k ->; reflexivity|]. split; [destruct model as [[[[n a] b] d]|]; split; congruence|]. split; [reflexivity|]. split; [reflexivity|]. split; [reflexivity|]. intros n a b d ->. auto. }
  split. { intros ->. unfold TP. cbn. auto. }
  do 4 (split; [reflexivity|]). split; [destruct (t_frame_ids t) as [[d a]|]; split; congruence|]. split; [intros d a ->; auto|]. do 7 (split; [reflexivity|]). split; [destruct (t_order_hint t) as [[[j r] n]|]; split; congruence|]. split; [intros j r n ->; auto|]. repeat split; reflexivity.
Qed.
Print Assumptions C22_accepted_syntax_partial.
(** ... and for still pictures with a reduced header, where no size is coded. *)
Theorem C22_accepted_reduced_partial : forall s profile still level t superres cdef restoration c grain,
  0 <= level < 32 -> valid_color profile c -> starts s (enc_accepted profile still true level [] t superres cdef restoration c grain) ->
  exists sh, NewSequenceHeader s = Ok (sh, None, adv s (Z.of_nat (length (enc_accepted profile still true level [] t superres cdef restoration c grain)))) /\
    SeqProfile sh = profile /\ StillPicture sh = still /\ ReducedStillPictureHeader sh = true /\ SeqLevelIdx sh = [level] /\ Use128x128SuperBlock sh = false /\ OrderHintBits sh = 0 /\
    EnableSuperRes sh = superres /\ EnableCdef sh = cdef /\ EnableRestoration sh = restoration /\ BitDepth (Color sh) = sc_bit_depth c /\ MonoChrome (Color sh) = sc_mono c /\ FilmGrainParamsPresent sh = grain.
Proof.
  intros s profile still level t superres cdef restoration c grain HL Hc H. pose proof (parses_NewColorConfig profile c Hc) as PC. assert (Hp : 0 <= profile < 8) by (destruct Hc; lia).
  assert (P : exists sh, parses NewSequenceHeader (enc_accepted profile still true level [] t superres cdef restoration c grain) (sh, None) /\
    SeqProfile sh = profile /\ StillPicture sh = still /\ ReducedStillPictureHeader sh = true /\ SeqLevelIdx sh = [level] /\ Use128x128SuperBlock sh = false /\ OrderHintBits sh = 0 /\
    EnableSuperRes sh = superres /\ EnableCdef sh = cdef /\ EnableRestoration sh = restoration /\ BitDepth (Color sh) = sc_bit_depth c /\ MonoChrome (Color sh) = sc_mono c /\ FilmGrainParamsPresent sh = grain).
  { eexists. split.
    - unfold NewSequenceHeader, enc_accepted. pf. cbn [app]. pbit. pbit. pf. cbv iota. eapply parses_bind0; [apply parses_ret|]. cbv beta. eapply parses_bind0; [apply parses_ret|]. cbv beta. eapply parses_bind0; [apply parses_ret|]. cbv beta.
      pbit. pbit. pbit. eapply parses_bind; [exact PC|]. cbv beta. eapply parses_bind_end; [apply parses_Fbool|]. cbv beta. apply parses_ret.
    - unfold decoded_color. cbn. repeat split; reflexivity. }
  destruct P as (sh & P & K). exists sh. split; [exact (P s H)|exact K].
Qed.
Print Assumptions C22_accepted_reduced_partial.
Example C22_accepted_case : exists sh s', let e := enc_accepted 0 false false 8 (enc_accepted_timing (Some (1001, 30000, Some 0)) (Some (9%nat, 77, 3, 4)) true 0x101 9 true) demo_tools true true false (mkSpecColor 10 false None false true true 1 false) true in
  NewSequenceHeader (mkBS (pack e 45) 0 0) = Ok (sh, Some 0x101, s') /\ starts (mkBS (pack e 45) 0 0) e /\ MaxFrameWidthMinusOne sh = 1919 /\ TimeScale (Timing sh) = 30000 /\ SeqTier sh = [1].
Proof. eexists. eexists. split; [vm_compute; reflexivity|]. split; [split; [cbn; lia|eexists; vm_compute; reflexivity]|]. repeat split. Qed.

(** A conforming 1920x1024 header and what becomes of it. *)
Definition demo_seq : spec_seq :=
  mkSpecSeq 0 false false None None false [mkSpecOp 0 8 false None None] demo_tools true true false
    (mkSpecColor 10 false None false true true 1 false) true.
Example C22_case : exists sh idc s', starts (mkBS (pack (enc_seq demo_seq) 14) 0 0) (enc_seq demo_seq) /\
  NewSequenceHeader (mkBS (pack (enc_seq demo_seq) 14) 0 0) = Ok (sh, idc, s') /\
  MaxFrameWidthMinusOne sh = 0 /\ t_width (q_tools demo_seq) = 1919.
Proof.
  eexists. eexists. eexists. split; [split; [cbn; lia|eexists; vm_compute; reflexivity]|].
  split; [vm_compute; reflexivity|]. split; reflexivity.
Qed.

(** C45 *)
Theorem C45_returned_header_consistent : forall s sh idc s', 0 <= Position s ->
  NewSequenceHeader s = Ok (sh, idc, s') ->
  0 <= SeqProfile sh < 8 /\
  0 <= FrameWidthBitsMinusOne sh < 16 /\ 0 <= FrameHeightBitsMinusOne sh < 16 /\
  0 <= MaxFrameWidthMinusOne sh < 2 ^ (FrameWidthBitsMinusOne sh + 1) /\
  0 <= MaxFrameHeightMinusOne sh < 2 ^ (FrameHeightBitsMinusOne sh + 1) /\
  0 <= SeqForceScreenContentTools sh <= 2 /\ 0 <= SeqForceIntegerMv sh <= 2 /\
  0 <= OrderHintBits sh <= 8 /\ (EnableOrderHint sh = true <-> 0 < OrderHintBits sh) /\
  (EnableJntComp sh = true -> EnableOrderHint sh = true) /\
  (EnableRefFrameMvs sh = true -> EnableOrderHint sh = true) /\
  OperatingPointsCountMinusOne sh = 0 /\
  match idc with None => ReducedStillPictureHeader sh = true | Some x => ReducedStillPictureHeader sh = false /\ 0 <= x < 2 ^ 12 end.
Proof.
  intros s sh idc s' H0 E.
  refine (proj2 ((_ : yields NewSequenceHeader (fun r => let '(sh, idc) := r in _)) s (sh, idc) s' H0 E)). clear E s' sh idc s H0.
  unfold NewSequenceHeader.
  yb. rename a into profile. yb. yb. rename a0 into reduced. yb. rename a0 into level.
  eapply y_bind with (Q := fun tp => tp_cnt tp = 0 /\ exists x, op_idc (tp_ops tp) = [x] /\ 0 <= x < 2 ^ 12).
  { apply y_if; intros _; [apply y_ret; split; [reflexivity|exists 0; split; [reflexivity|lia]]|].
    unfold timingPart. cbv zeta. yb. apply y_if; intros _; [|apply y_ret; split; [reflexivity|exists 0; split; [reflexivity|lia]]].
    eapply y_bind with (Q := fun _ => True). { apply y_forward. unfold NewTimingInfo.
      apply fw_bind; [apply fw_F|intros]. apply fw_bind; [apply fw_F|intros]. apply fw_bind; [apply fw_Fbool|intros].
      apply fw_bind; [apply fw_if; [apply (fw_call RUvlc)|apply fw_ret]|intros; apply fw_ret]. }
    intros ti _. yb.
    eapply y_bind with (Q := fun _ => True).
    { apply y_if; intros _; [yb; yb; yb; yb|]; apply y_ret; exact I. }
    intros dm _. yb. yb. rename a3 into cnt.
    eapply y_bind with (Q := fun o => cnt = 0 /\ exists x, op_idc o = [x] /\ 0 <= x < 2 ^ 12).
    { eapply y_weaken; [apply (y_for_to (fun i o => i <= 1 /\ exists x, op_idc o = [x] /\ 0 <= x < 2 ^ 12)) |].
      - split; [lia|]. exists 0. split; [reflexivity|lia].
      - intros j o Hj0 Hj1 (Hj & x & Hx & _). unfold operatingPoint. yb.
        eapply y_bind with (Q := fun l => j = 0 /\ l = [a3]).
        { apply y_lift. intros l El. apply upd_inv in El. destruct El as [El1 El2]. rewrite Hx in El1, El2.
          cbn in El1. change (zlen [x]) with 1 in El1. assert (j = 0) by lia. subst j. split; [reflexivity|]. subst l. reflexivity. }
        intros l [-> ->]. yb.
        eapply y_bind with (Q := fun _ => True); [apply y_lift; auto|intros ? _].
        eapply y_bind with (Q := fun _ => True); [apply y_if; intros _; [eapply y_weaken; [apply y_F; lia|auto]|apply y_ret; exact I]|intros ? _].
        eapply y_bind with (Q := fun _ => True); [apply y_lift; auto|intros ? _].
        eapply y_bind with (Q := fun _ => True); [apply y_if; intros _; [apply y_Fbool|apply y_ret; exact I]|intros ? _].
        eapply y_bind with (Q := fun _ => True); [apply y_lift; auto|intros ? _].
        eapply y_bind with (Q := fun _ => True).
        { apply y_if; intros _; [|apply y_ret; exact I]. unfold operatingParametersInfo.
          eapply y_bind; [apply y_forward; apply fw_F|intros; apply y_panic]. }
        intros ? _. apply y_if; intros _; [|apply y_ret; cbn; split; [lia|exists a3; split; [reflexivity|lia]]].
        yb. eapply y_bind with (Q := fun _ => True); [apply y_lift; auto|intros ? _].
        apply y_if; intros _; [|apply y_ret; cbn; split; [lia|exists a3; split; [reflexivity|lia]]].
        yb. eapply y_bind with (Q := fun _ => True); [apply y_lift; auto|intros ? _].
        apply y_ret; cbn; split; [lia|exists a3; split; [reflexivity|lia]].
      - cbv beta. intros o (Hm & Hx). split; [lia|exact Hx]. }
    intros ops [Hc Hx]. apply y_ret. cbn. auto. }
  intros tp (Hcnt & x & Hx & Hxr). rewrite Hx.
  eapply y_bind with (Q := fun idc => match idc with None => reduced = true | Some x => reduced = false /\ 0 <= x < 2 ^ 12 end).
  { apply y_if; intros ->; [apply y_ret; reflexivity|].
    eapply y_bind with (Q := fun y => y = x); [apply y_lift; intros y Ey; change (Ok x = Ok y) in Ey; congruence|].
    intros y ->. apply y_ret. auto. }
  intros idc Hidc.
  eapply y_bind with (Q := fun st => 0 <= st_wb st < 16 /\ 0 <= st_hb st < 16 /\
     0 <= st_w st < 2 ^ (st_wb st + 1) /\ 0 <= st_h st < 2 ^ (st_hb st + 1) /\
     0 <= st_sct st <= 2 /\ 0 <= st_imv st <= 2 /\ 0 <= st_ohb st <= 8 /\ (st_oh st = true <-> 0 < st_ohb st) /\
     (st_jnt st = true -> st_oh st = true) /\ (st_rmv st = true -> st_oh st = true)).
  { apply y_if; intros _; [apply y_ret; cbn; repeat split; try lia; discriminate|].
    unfold sizeToolPart. yb. yb. yb. yb. yb.
    eapply y_bind with (Q := fun _ => True); [apply y_if; intros _; [eapply y_weaken; [apply y_F; lia|auto]|apply y_ret; exact I]|intros ? _].
    eapply y_bind with (Q := fun _ => True); [apply y_if; intros _; [eapply y_weaken; [apply y_F; lia|auto]|apply y_ret; exact I]|intros ? _].
    do 8 yb.
    match goal with |- context [if ?oh then Fbool else ret false] => rename oh into oh' end.
    eapply y_bind with (Q := fun j => j = true -> oh' = true); [apply y_if; intros Ho; [eapply y_weaken; [apply y_Fbool|auto]|apply y_ret; discriminate]|intros jnt Hj].
    eapply y_bind with (Q := fun j => j = true -> oh' = true); [apply y_if; intros Ho; [eapply y_weaken; [apply y_Fbool|auto]|apply y_ret; discriminate]|intros rmv Hrm].
    yb.
    eapply y_bind with (Q := fun v => 0 <= v <= 2); [apply y_if; intros _; [apply y_ret; lia|eapply y_weaken; [apply y_F; lia|cbv beta; lia]]|intros sct Hs].
    eapply y_bind with (Q := fun v => 0 <= v <= 2).
    { apply y_if; intros _; [|apply y_ret; lia]. yb. apply y_if; intros _; [apply y_ret; lia|eapply y_weaken; [apply y_F; lia|cbv beta; lia]]. }
    intros imv Hi.
    eapply y_bind with (Q := fun v => 0 <= v <= 8 /\ (oh' = true <-> 0 < v)).
    { apply y_if; intros Ho; [yb; apply y_ret; split; [lia|]; split; [lia|auto]|apply y_ret; split; [lia|]; split; [congruence|lia]]. }
    intros ohb [Ho1 Ho2]. apply y_ret. cbn.
    repeat match goal with |- _ /\ _ => split end; try lia; try assumption; try (apply Ho2). }
  intros st (A1 & A2 & A3 & A4 & A5 & A6 & A7 & A8 & A9 & A10).
  yb. yb. yb.
  eapply y_bind with (Q := fun _ => True).
  { intros s cc' s' H0' E. pose proof (safe_NewColorConfig profile s H0') as HS. rewrite E in HS. split; [lia|exact I]. }
  intros cc _. yb. apply y_ret. cbn.
  repeat match goal with |- _ /\ _ => split end; try lia; try assumption; try apply A8.
Qed.
Print Assumptions C45_returned_header_consistent.

(** C46 *)
Theorem C46_sequence_header_total : forall s, 0 <= Position s ->
  match NewSequenceHeader s with
  | Ok (_, s') => Data s' = Data s /\ Position s < Position s' /\ (Position s <= 8 * zlen (Data s) -> Position s' <= 8 * zlen (Data s))
  | Panic => True
  | Hang => False
  end.
Proof.
  intros s H0. pose proof (safe_NewSequenceHeader s H0) as H.
  destruct (NewSequenceHeader s) as [[r s']| |] eqn:E; auto. destruct H as (D & P & Q). split; [exact D|]. split; [|exact Q].
  unfold NewSequenceHeader in E. apply bind_inv in E. destruct E as (a & s1 & E1 & E).
  destruct (F_total 3 s H0 ltac:(lia)) as [(l & r' & Hr & Hl & E2)|[_ E2]]; rewrite E2 in E1; [|discriminate].
  injection E1 as <- <-.
  match type of E with ?m ?s = _ => assert (S : safe m) end.
  { safet; first [apply safe_timingPart | apply safe_sizeToolPart | apply safe_NewColorConfig | idtac]. }
  specialize (S (adv s 3) ltac:(cbn; lia)). rewrite E in S. cbn in S. lia.
Qed.
Print Assumptions C46_sequence_header_total.
