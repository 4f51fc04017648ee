From Verif Require Import GoBase Bitstream SpecBits SpecStream BitstreamProofs ReaderOps Parses SafeParse
  SpecSyntax SequenceHeader.

Lemma safe_NewColorConfig p : safe (NewColorConfig p).
Proof. unfold NewColorConfig, readBitDepth. safet. Qed.
Lemma safe_timingPart l : safe (timingPart l).
Proof. unfold timingPart, NewTimingInfo, operatingPoint, operatingParametersInfo. safet. Qed.
Lemma safe_sizeToolPart : safe sizeToolPart.
Proof. unfold sizeToolPart. safet. Qed.
Lemma safe_NewSequenceHeader : safe NewSequenceHeader.
Proof.
  unfold NewSequenceHeader. safet; first [apply safe_timingPart | apply safe_sizeToolPart | apply safe_NewColorConfig | idtac].
Qed.

(** color_config round trip *)
Definition decoded_color (c : spec_color) : ColorConfig :=
  mkColorConfig (negb (sc_bit_depth c =? 8)) (sc_bit_depth c =? 12) (sc_mono c)
    (match sc_desc c with Some _ => true | None => false end)
    (sc_cp c) (sc_tc c) (sc_mc c) (sc_range c) (sc_sub_x c) (sc_sub_y c) (sc_chroma_pos c)
    (sc_separate_uv c) (if sc_mono c then 1 else 3) (sc_bit_depth c).

Lemma parses_if_Fbool (b : bool) v w : (b = false -> v = w) ->
  parses (if b then Fbool else ret w) (if b then [v] else []) v.
Proof. intros H. destruct b; [apply parses_Fbool|]. rewrite H by reflexivity. apply parses_ret. Qed.
Lemma parses_if_F (b : bool) n m v w : (b = false -> v = w) -> (b = true -> Z.of_nat n = m /\ 0 <= v < 2 ^ m /\ m <= 63) ->
  parses (if b then F m else ret w) (if b then enc_f n v else []) v.
Proof.
  intros H H2. destruct b; [destruct H2 as (A & B & C); auto; apply parses_F; assumption|].
  rewrite H by reflexivity. apply parses_ret.
Qed.

Lemma parses_NewColorConfig profile c : valid_color profile c ->
  parses (NewColorConfig profile) (enc_color profile c) (decoded_color c).
Proof.
  intros (Hp & Hbd & Hdesc & Hmono & Hsrgb & Hsub & Hcsp & Hcsp0).
  unfold NewColorConfig, enc_color.
  set (high := negb (sc_bit_depth c =? 8)).
  rewrite app_assoc.
  eapply (parses_bind _ _ _ _ (high, sc_bit_depth c =? 12, sc_bit_depth c)).
  { unfold readBitDepth. cbn [app]. pbit.
    destruct (Z.eqb_spec profile 2) as [E2|E2]; cbn [andb].
    - destruct high eqn:Eh; subst high.
      + eapply parses_bind_end; [apply parses_Fbool|].
        destruct (Z.eqb_spec (sc_bit_depth c) 12) as [->|]; [apply parses_ret|].
        assert (sc_bit_depth c = 10) as ->. { destruct (Z.eqb_spec (sc_bit_depth c) 8); [discriminate|lia]. } apply parses_ret.
      + destruct (Z.leb_spec profile 2); [|lia].
        destruct (Z.eqb_spec (sc_bit_depth c) 8) as [->|]; [apply parses_ret|discriminate].
    - destruct (Z.leb_spec profile 2); [|lia].
      assert (sc_bit_depth c = 8 \/ sc_bit_depth c = 10) as [Eb|Eb] by lia; subst high; rewrite Eb; apply parses_ret. }
  cbv beta iota.
  eapply parses_bind.
  { instantiate (1 := sc_mono c). replace (if profile =? 1 then [] else [sc_mono c]) with (if negb (profile =? 1) then [sc_mono c] else []) by (destruct (profile =? 1); reflexivity).
    apply parses_if_Fbool. intros Hn. destruct (Z.eqb_spec profile 1); [|discriminate].
    destruct (sc_mono c) eqn:Em; [|reflexivity]. destruct Hmono as [? _]; auto; congruence. }
  cbv beta.
  replace (match sc_desc c with Some (a, b, d) => [true] ++ enc_f 8 a ++ enc_f 8 b ++ enc_f 8 d | None => [false] end)
    with ([match sc_desc c with Some _ => true | None => false end] ++
          (match sc_desc c with Some _ => enc_f 8 (sc_cp c) | None => [] end) ++
          (match sc_desc c with Some _ => enc_f 8 (sc_tc c) | None => [] end) ++
          (match sc_desc c with Some _ => enc_f 8 (sc_mc c) | None => [] end)).
  2:{ unfold sc_cp, sc_tc, sc_mc. destruct (sc_desc c) as [[[a b] d]|]; reflexivity. }
  rewrite <- !app_assoc. cbn [app].
  pbit.
  assert (G : forall x, match sc_desc c with Some _ => 0 <= x < 256 | None => x = 2 end ->
     parses (if match sc_desc c with Some _ => true | None => false end then F 8 else ret 2)
            (match sc_desc c with Some _ => enc_f 8 x | None => [] end) x).
  { intros x Hx. destruct (sc_desc c); [apply parses_F; [reflexivity|exact Hx|lia]|]. rewrite Hx. apply parses_ret. }
  eapply parses_bind; [apply (G (sc_cp c)); unfold sc_cp; destruct (sc_desc c) as [[[a b] d]|]; [apply Hdesc|reflexivity]|]; cbv beta.
  eapply parses_bind; [apply (G (sc_tc c)); unfold sc_tc; destruct (sc_desc c) as [[[a b] d]|]; [apply Hdesc|reflexivity]|]; cbv beta.
  eapply parses_bind; [apply (G (sc_mc c)); unfold sc_mc; destruct (sc_desc c) as [[[a b] d]|]; [apply Hdesc|reflexivity]|]; cbv beta.
  fold (sc_srgb c). unfold decoded_color. fold high.
  destruct (sc_mono c) eqn:Em.
  { destruct (Hmono eq_refl) as (_ & -> & -> & -> & ->).
    eapply parses_bind_end; [apply parses_Fbool|]. apply parses_ret. }
  specialize (Hsrgb eq_refl). specialize (Hsub eq_refl).
  destruct (sc_srgb c) eqn:Es.
  { destruct (Hsrgb eq_refl) as (Hr & Hx & Hy). rewrite Hx in Hcsp0. cbn in Hcsp0. rewrite (Hcsp0 eq_refl), Hr, Hx, Hy.
    eapply parses_bind_end; [apply parses_Fbool|]. apply parses_ret. }
  destruct (Hsub eq_refl) as (H0 & H1 & H2 & H3). clear Hsub Hsrgb Hmono.
  pbit.
  assert (Ep : profile = 0 \/ profile = 1 \/ profile = 2) by lia.
  destruct Ep as [->|[->| ->]].
  - destruct (H0 eq_refl) as [-> ->]. cbn [Z.eqb andb app Pos.eqb].
    eapply parses_bind0; [apply parses_ret|]. eapply parses_bind0; [apply parses_ret|]. cbn [andb].
    pf. eapply parses_bind_end; [apply parses_Fbool|]. apply parses_ret.
  - destruct (H1 eq_refl) as [Hx Hy]. rewrite Hx in Hcsp0. cbn in Hcsp0. rewrite Hx, Hy, (Hcsp0 eq_refl). cbn [Z.eqb andb app Pos.eqb].
    eapply parses_bind0; [apply parses_ret|]. eapply parses_bind0; [apply parses_ret|]. cbn [andb].
    eapply parses_bind0; [apply parses_ret|].
    eapply parses_bind_end; [apply parses_Fbool|]. apply parses_ret.
  - change (2 =? 0) with false. change (2 =? 1) with false. change (2 =? 2) with true. cbn [andb].
    destruct (Z.eqb_spec (sc_bit_depth c) 12) as [E12|E12].
    + cbn [app]. pbit. destruct (sc_sub_x c) eqn:Ex.
      * cbn [app]. pbit. cbn [andb]. destruct (sc_sub_y c) eqn:Ey.
        -- pf. eapply parses_bind_end; [apply parses_Fbool|]. apply parses_ret.
        -- rewrite (Hcsp0 eq_refl). eapply parses_bind0; [apply parses_ret|]. cbn [app].
           eapply parses_bind_end; [apply parses_Fbool|]. apply parses_ret.
      * destruct (sc_sub_y c) eqn:Ey; [discriminate (H3 eq_refl)|]. cbn [andb app].
        rewrite (Hcsp0 eq_refl). eapply parses_bind0; [apply parses_ret|]. eapply parses_bind0; [apply parses_ret|].
        eapply parses_bind_end; [apply parses_Fbool|]. apply parses_ret.
    + destruct (H2 eq_refl E12) as [Hx Hy]. rewrite Hx, Hy in Hcsp0. cbn in Hcsp0. rewrite Hx, Hy, (Hcsp0 eq_refl). cbn [andb app].
      eapply parses_bind0; [apply parses_ret|]. eapply parses_bind0; [apply parses_ret|]. cbn [andb].
      eapply parses_bind0; [apply parses_ret|].
      eapply parses_bind_end; [apply parses_Fbool|]. apply parses_ret.
Qed.

(** Frame size and coding tool section round trip. *)
Definition decoded_tools (t : spec_tools) : SizeToolPart :=
  mkSizeToolPart (Z.of_nat (t_width_bits t)) (Z.of_nat (t_height_bits t)) (t_width t) (t_height t)
    (match t_frame_ids t with Some _ => true | None => false end)
    (match t_frame_ids t with Some (d, _) => d | None => 0 end)
    (match t_frame_ids t with Some (_, a) => a | None => 0 end)
    (t_128 t) (t_filter_intra t) (t_intra_edge t) (t_interintra t) (t_masked t) (t_warped t)
    (match t_order_hint t with Some _ => true | None => false end)
    (t_dual t)
    (match t_order_hint t with Some (j, _, _) => j | None => false end)
    (match t_order_hint t with Some (_, r, _) => r | None => false end)
    (match t_screen_content t with None => true | Some _ => false end)
    (match t_screen_content t with None => 2 | Some b => b2z b end)
    (match t_integer_mv t with None => 2 | Some b => b2z b end)
    (match t_order_hint t with Some (_, _, n) => n | None => 0 end).

Lemma parses_choice o : parses (let* c := Fbool in if c then ret 2 else F 1) (enc_choice o)
  (match o with None => 2 | Some b => b2z b end).
Proof.
  destruct o as [b|]; cbn [enc_choice].
  - pbit. cbv iota. apply parses_F1.
  - eapply parses_bind_end; [apply parses_Fbool|]. cbv beta iota. apply parses_ret.
Qed.

Lemma parses_sizeToolPart t : valid_tools t -> parses sizeToolPart (enc_tools t) (decoded_tools t).
Proof.
  intros (Hwb & Hhb & Hw & Hh & Hid & Hoh & Hsc).
  unfold sizeToolPart, enc_tools, enc_size. rewrite <- !app_assoc.
  pf. pf.
  eapply parses_bind; [apply parses_F; [lia|rewrite ?Nat2Z.inj_succ; exact Hw|lia]|]; cbv beta.
  eapply parses_bind; [apply parses_F; [lia|exact Hh|lia]|]; cbv beta.
  unfold decoded_tools.
  destruct (t_frame_ids t) as [[d a]|]; cbn [app]; pbit; cbv iota;
    [rewrite <- ?app_assoc; pf; pf | eapply parses_bind0; [apply parses_ret|]; eapply parses_bind0; [apply parses_ret|]; cbv beta];
  pbit; pbit; pbit; pbit; pbit; pbit; pbit;
  (destruct (t_order_hint t) as [[[j r] n]|]; cbn [app]; pbit; cbv iota;
    [pbit; pbit | eapply parses_bind0; [apply parses_ret|]; eapply parses_bind0; [apply parses_ret|]; cbv beta]);
  (destruct (t_screen_content t) as [[|]|]; cbn [enc_choice app]; pbit; cbv iota;
   [refine (parses_bind _ _ [true] _ 1 _ (parses_F1 true) _); cbv beta
   |refine (parses_bind _ _ [false] _ 0 _ (parses_F1 false) _); cbv beta
   |eapply parses_bind0; [apply parses_ret|]; cbv beta]);
  change (0 <? 1) with true; change (0 <? 0) with false; change (0 <? 2) with true; cbv iota;
  try (rewrite (Hsc eq_refl); eapply parses_bind0; [apply parses_ret|]; cbv beta);
  try (eapply parses_bind; [apply (parses_choice (t_integer_mv t))|]; cbv beta);
  try (eapply parses_bind_end;
       [eapply parses_bind_end; [apply (parses_F 3 3 (n - 1)); [reflexivity|lia|lia]|cbv beta; apply parses_ret]|]);
  try (eapply parses_bind0; [apply parses_ret|]); cbv beta;
  cbn [b2z]; try (replace (n - 1 + 1) with n by lia); try apply parses_ret.
Qed.
