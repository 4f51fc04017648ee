(** Proofs for property C94: the frame header of key and intra-only frames. *)
From Verif Require Import GoBase Bitstream SpecBits SpecStream BitstreamProofs ReaderOps Parses SafeParse Yields Util UtilProofs
  Constants Tables Header SequenceHeader SequenceHeaderProofs SymbolProofs TileInfo SpecTiles TileInfoProofs SpecHeader SpecFrameHeader UncompressedHeader
  UHeaderProofs UHeaderGood UHeaderWhole.

(** The sequence header fields used by the frame header. *)
Definition info (sh : SequenceHeader) : seq_info :=
  mkSeqInfo (ReducedStillPictureHeader sh)
    (if DecoderModelInfoPresent sh && negb (EqualPictureInterval (Timing sh))
     then Some (Z.to_nat (FramePresentationTimeLengthMinusOne (DecoderModel sh) + 1)) else None)
    (DecoderModelInfoPresent sh)
    (if SeqForceScreenContentTools sh =? 2 then None else Some (SeqForceScreenContentTools sh =? 1))
    (if SeqForceIntegerMv sh =? 2 then None else Some (SeqForceIntegerMv sh =? 1))
    (Z.to_nat (FrameWidthBitsMinusOne sh + 1)) (Z.to_nat (FrameHeightBitsMinusOne sh + 1))
    (MaxFrameWidthMinusOne sh + 1) (MaxFrameHeightMinusOne sh + 1)
    (Z.to_nat (OrderHintBits sh)) (EnableSuperRes sh) (EnableCdef sh) (EnableRestoration sh) (Use128x128SuperBlock sh)
    (MonoChrome (Color sh)) (SubsamplingX (Color sh)) (SubsamplingY (Color sh)) (SeparateUvDeltaQ (Color sh)) (FilmGrainParamsPresent sh).

(** What the code reads as AV1 does. *)
Definition supported (sh : SequenceHeader) (f : intra_frame) : Prop :=
  FrameIdNumbersPresent sh = false /\ SeqForceScreenContentTools sh <> 0 /\
  f_show f = f_key f /\ (f_key f = false -> f_resilient f && EnableOrderHint sh = true -> f_refresh f = 255).
Definition seq_ok (sh : SequenceHeader) : Prop :=
  0 <= FramePresentationTimeLengthMinusOne (DecoderModel sh) /\ size_bounds sh /\ 0 <= OrderHintBits sh /\
  (SeqForceScreenContentTools sh = 0 \/ SeqForceScreenContentTools sh = 1 \/ SeqForceScreenContentTools sh = 2) /\
  NumPlanes (Color sh) = (if MonoChrome (Color sh) then 1 else 3).

Definition exp_head (i : seq_info) (f : intra_frame) : FrameHead :=
  mkFrameHead (if f_key f then 0 else 2) true (f_show f) (f_showable f)
    (if i_reduced i then false else if f_key f && f_show f then true else f_resilient f)
    (if i_reduced i then 0 else match i_time_bits i with Some _ => if f_show f then f_time f else 0 | None => 0 end)
    (f_disable_cdf f) (b2z (sct i f)) true 0 (match f_size f with Some _ => true | None => false end) (f_hint f) 7 (f_refresh f).
Definition exp_size (i : seq_info) (f : intra_frame) : FrameSize :=
  mkFrameSize (width i f) (height i f) (up_width i f) (match f_superres f with Some _ => true | None => false end)
    (match f_superres f with Some d => d | None => 8 end) (2 * ((width i f + 7) / 8)) (2 * ((height i f + 7) / 8)).
Definition exp_refs (i : seq_info) (f : intra_frame) : FrameRefs :=
  mkFrameRefs (exp_size i f) (match f_render f with Some wh => wh | None => (up_width i f, 0) end) (f_intrabc f)
    (repeat 0 7) false 0 false false (repeat 0 8) [false; false; false].

Lemma parses_yields {A B} (m : BS A) (k : A -> BS B) (P : A -> Prop) l1 l2 a b :
  parses m l1 a -> yields m P -> (P a -> parses (k a) l2 b) -> parses (bind m k) (l1 ++ l2) b.
Proof.
  intros Hm Hy Hk s H. pose proof (starts_app _ _ _ H) as [H1 H2]. pose proof (Hm s H1) as E.
  destruct (Hy s a _ (proj1 H1) E) as [_ HP]. exact (parses_bind m k l1 l2 a b Hm (Hk HP) s H).
Qed.

Lemma bool_of_b2z b : bool_of (b2z b) = b.
Proof. destruct b; reflexivity. Qed.

Lemma parses_frameType sh f : seq_ok sh -> valid_intra (info sh) f -> f_show f = f_key f -> ReducedStillPictureHeader sh = false ->
  parses (frameType sh)
    (enc_f 2 (if f_key f then 0 else 2) ++ [f_show f] ++
     (match i_time_bits (info sh) with Some n => when (f_show f) (enc_f n (f_time f)) | None => [] end) ++
     when (negb (f_show f)) [f_showable f] ++
     when (negb (f_key f && f_show f)) [f_resilient f])
    (if f_key f then 0 else 2, true, f_show f, f_showable f, if f_key f && f_show f then true else f_resilient f,
     match i_time_bits (info sh) with Some _ => if f_show f then f_time f else 0 | None => 0 end).
Proof.
  intros (Ht & _) HV HS HR. destruct HV as (_ & V2 & _ & _ & V5 & _). unfold frameType.
  eapply parses_bind; [apply parses_F; [reflexivity|destruct (f_key f); cbn; lia|lia]|]. cbv beta zeta.
  pbit. unfold hasTemporalPoint, TemporalPointInfo.
  assert (EI : i_time_bits (info sh) = if DecoderModelInfoPresent sh && negb (EqualPictureInterval (Timing sh))
     then Some (Z.to_nat (FramePresentationTimeLengthMinusOne (DecoderModel sh) + 1)) else None) by reflexivity.
  rewrite EI in V5 |- *. change (i_reduced (info sh)) with (ReducedStillPictureHeader sh) in V5.
  eapply parses_bind with (a := match (if DecoderModelInfoPresent sh && negb (EqualPictureInterval (Timing sh))
     then Some (Z.to_nat (FramePresentationTimeLengthMinusOne (DecoderModel sh) + 1)) else None) with Some _ => if f_show f then f_time f else 0 | None => 0 end).
  { destruct (DecoderModelInfoPresent sh && negb (EqualPictureInterval (Timing sh))); [|rewrite andb_false_r; apply parses_ret].
    rewrite andb_true_r. destruct V5 as [V5a V5b]. unfold when. unfold fits in V5b.
    destruct (f_show f); [|apply parses_ret]. specialize (V5b HR eq_refl).
    apply parses_F; [lia| |lia]. rewrite Z2Nat.id in V5b by lia. exact V5b. }
  cbv beta. rewrite HS in *.
  destruct (f_key f) eqn:EK; cbn [negb andb Z.eqb orb when] in *; change (2 =? 0) with false; change (2 =? 3) with false; change (0 =? 3) with false; change (0 =? 0) with true; change (2 =? 2) with true;
    change (0 =? 2) with false; cbn [orb andb app negb].
  - rewrite V2 by reflexivity. apply (parses_bind0 (ret false) _ [] false); [apply parses_ret|]. cbv beta.
    apply (parses_bind0 (ret true) _ [] true); [apply parses_ret|]. apply parses_ret.
  - pbit. apply (parses_bind_end Fbool _ [_] (f_resilient f)); [apply parses_Fbool|]. apply parses_ret.
Qed.

Lemma b2z_01 b : b2z b = if b then 1 else 0.
Proof. destruct b; reflexivity. Qed.
Lemma parses_frameHead sh f er t : seq_ok sh -> valid_intra (info sh) f -> supported sh f ->
  (f_key f = false -> er = f_resilient f) ->
  parses (frameHead sh (if f_key f then 0 else 2, true, f_show f, f_showable f, er, t))
    ([f_disable_cdf f] ++
     (match i_sct (info sh) with None => [f_sct f] | Some _ => [] end) ++
     when (sct (info sh) f) (match i_imv (info sh) with None => [f_imv f] | Some _ => [] end) ++
     when (negb (i_reduced (info sh))) [match f_size f with Some _ => true | None => false end] ++
     enc_f (i_hint_bits (info sh)) (f_hint f) ++
     when (i_decoder_model (info sh)) [false] ++
     when (negb (f_key f && f_show f)) (enc_f 8 (f_refresh f)))
    (mkFrameHead (if f_key f then 0 else 2) true (f_show f) (f_showable f) er t (f_disable_cdf f) (b2z (sct (info sh) f)) true 0
       (match f_size f with Some _ => true | None => false end) (f_hint f) 7 (f_refresh f)).
Proof.
  intros (_ & _ & Ho & Hs & _) HV (S1 & S2 & S3 & S4) Her. destruct HV as (V1 & _ & V3 & V4 & _ & V6 & V7 & V8 & _).
  unfold frameHead. pbit.
  (* screen content tools *)
  eapply parses_bind with (a := b2z (sct (info sh) f)).
  { unfold sct. cbn [i_sct info]. destruct (Z.eqb_spec (SeqForceScreenContentTools sh) 2) as [E|E]; [apply parses_F1|].
    assert (E1 : SeqForceScreenContentTools sh = 1) by lia. rewrite E1. apply parses_ret. }
  cbv beta. rewrite bool_of_b2z.
  eapply parses_bind with (a := if sct (info sh) f then (if SeqForceIntegerMv sh =? 2 then f_imv f else true) else false).
  { cbn [i_imv info]. unfold when. destruct (sct (info sh) f); [|apply parses_ret].
    destruct (SeqForceIntegerMv sh =? 2); [apply parses_Fbool|apply parses_ret]. }
  cbv beta zeta iota. rewrite S1. apply (parses_bind0 (ret tt) _ _ tt); [apply parses_ret|]. cbv beta.
  eapply parses_bind with (a := match f_size f with Some _ => true | None => false end).
  { change (i_reduced (info sh)) with (ReducedStillPictureHeader sh) in *. unfold when.
    assert (ET : (if f_key f then 0 else 2) =? 3 = false) by (destruct (f_key f); reflexivity). rewrite ET.
    destruct (ReducedStillPictureHeader sh); cbn [negb]; [|apply parses_Fbool]. destruct V1 as (_ & _ & ->); [reflexivity|]. apply parses_ret. }
  cbv beta.
  assert (EH : Z.of_nat (i_hint_bits (info sh)) = OrderHintBits sh) by (cbn [i_hint_bits info]; lia).
  eapply parses_bind; [apply parses_F; [exact EH| |lia]; unfold fits in V7; rewrite EH in V7; exact V7|]. cbv beta. cbn [orb].
  apply (parses_bind0 (ret PRIMARY_REF_NONE) _ _ 7); [apply parses_ret|]. cbv beta.
  eapply parses_bind with (a := tt).
  { unfold bufferRemoval. cbn [i_decoder_model info]. destruct (DecoderModelInfoPresent sh); [|apply parses_ret]. cbn [when].
    apply (parses_bind_end Fbool _ [false] false); [apply parses_Fbool|]. apply parses_ret. }
  cbv beta.
  eapply parses_bind_end with (a := f_refresh f).
  { rewrite S3 in *. unfold when. destruct (f_key f); cbn [andb negb orb].
    - rewrite V3 by reflexivity. apply parses_ret.
    - change ((2 =? 3) || (2 =? 0) || false) with false. cbv iota. apply parses_F; [reflexivity|exact V4|lia]. }
  cbv beta.
  assert (EE : (negb true || negb (f_refresh f =? 255)) && er && EnableOrderHint sh = false).
  { cbn [negb orb]. destruct (f_key f) eqn:EK.
    - rewrite V3 by (rewrite S3; reflexivity). reflexivity.
    - rewrite Her by reflexivity. rewrite <- andb_assoc. destruct (f_resilient f && EnableOrderHint sh) eqn:EO; [|rewrite andb_false_r; reflexivity].
      rewrite S4 by reflexivity. reflexivity. }
  rewrite EE. apply (parses_bind0 (ret tt) _ _ tt); [apply parses_ret|]. apply parses_ret.
Qed.

Lemma parses_frameSize sh f : seq_ok sh -> valid_intra (info sh) f ->
  parses (frameSize (match f_size f with Some _ => true | None => false end) sh)
    ((match f_size f with Some (w, h) => enc_f (i_width_bits (info sh)) (w - 1) ++ enc_f (i_height_bits (info sh)) (h - 1) | None => [] end) ++
     enc_superres (i_superres (info sh)) (f_superres f)) (exp_size (info sh) f).
Proof.
  intros (_ & (B1 & B2 & B3 & B4) & _) (_ & _ & _ & _ & _ & _ & _ & V8 & V9 & _). unfold frameSize.
  eapply parses_bind with (a := (up_width (info sh) f, height (info sh) f)).
  { unfold up_width, height. destruct (f_size f) as [[w h]|]; [|apply parses_ret].
    destruct V8 as (_ & _ & Vw & Vh). unfold fits in Vw, Vh.
    change (i_width_bits (info sh)) with (Z.to_nat (FrameWidthBitsMinusOne sh + 1)) in *. change (i_height_bits (info sh)) with (Z.to_nat (FrameHeightBitsMinusOne sh + 1)) in *.
    rewrite Z2Nat.id in Vw, Vh by lia.
    eapply parses_bind; [apply parses_F; [lia|exact Vw|lia]|]. cbv beta.
    eapply parses_bind_end; [apply parses_F; [lia|exact Vh|lia]|]. cbv beta.
    replace (w - 1 + 1) with w by lia. replace (h - 1 + 1) with h by lia. apply parses_ret. }
  cbv beta. cbn [fst snd].
  eapply parses_bind_end with (a := (match f_superres f with Some _ => true | None => false end, match f_superres f with Some d => d | None => 8 end, up_width (info sh) f, width (info sh) f)).
  2:{ cbv beta iota. unfold exp_size, computeImageSize. cbn [fst snd]. rewrite !shr_div by lia. apply parses_ret. }
  assert (HW : 0 <= up_width (info sh) f).
  { unfold up_width. destruct (f_size f) as [[w h]|]; [destruct V8 as (_ & _ & V & _); unfold fits in V; lia|]. cbn [i_max_width info]. lia. }
  unfold superResParams, enc_superres. change (i_superres (info sh)) with (EnableSuperRes sh) in *.
  unfold width. destruct (f_superres f) as [d|].
  - destruct V9 as [Vd Ve]. rewrite Ve. cbn [app]. pbit. change SUPERRES_DENOM_BITS with 3. change SUPERRES_DENOM_MIN with 9. change SUPERRES_NUM with 8.
    eapply parses_bind_end.
    { eapply parses_bind_end; [apply parses_F; [reflexivity|change (2 ^ 3) with 8; lia|lia]|]. cbv beta. apply parses_ret. }
    cbv beta. replace (d - 9 + 9) with d by lia.
    rewrite (Z.quot_div_nonneg d 2), Z.quot_div_nonneg by (try lia; pose proof (Z.div_pos d 2); lia). apply parses_ret.
  - assert (EQ : Z.quot (up_width (info sh) f * 8 + Z.quot 8 2) 8 = up_width (info sh) f).
    { change (Z.quot 8 2) with 4. rewrite Z.quot_div_nonneg by lia. rewrite Z.div_add_l by lia. change (4 / 8) with 0. lia. }
    destruct (EnableSuperRes sh).
    + apply (parses_bind_end Fbool _ [false] false); [apply parses_Fbool|]. cbv beta.
      apply (parses_bind0 (ret 8) _ [] 8); [apply parses_ret|]. cbv beta. change SUPERRES_NUM with 8. rewrite EQ. apply parses_ret.
    + apply (parses_bind0 (ret false) _ [] false); [apply parses_ret|]. cbv beta.
      apply (parses_bind0 (ret 8) _ [] 8); [apply parses_ret|]. cbv beta. change SUPERRES_NUM with 8. rewrite EQ. apply parses_ret.
Qed.

Lemma parses_intraRefs sh f fh : seq_ok sh -> valid_intra (info sh) f ->
  FrameSizeOverrideFlag fh = (match f_size f with Some _ => true | None => false end) -> AllowScreenContentTools fh = b2z (sct (info sh) f) ->
  parses (intraRefs sh fh)
    (((match f_size f with Some (w, h) => enc_f (i_width_bits (info sh)) (w - 1) ++ enc_f (i_height_bits (info sh)) (h - 1) | None => [] end) ++
     enc_superres (i_superres (info sh)) (f_superres f)) ++
     (match f_render f with Some (w, h) => [true] ++ enc_f 16 (w - 1) ++ enc_f 16 (h - 1) | None => [false] end) ++
     when (intrabc_coded (info sh) f) [f_intrabc f]) (exp_refs (info sh) f).
Proof.
  intros Hs HV E1 E2. unfold intraRefs. rewrite E1.
  eapply parses_bind; [apply (parses_frameSize sh f Hs HV)|]. cbv beta. cbn [UpscaledWidth FrameWidth exp_size]. rewrite E2, bool_of_b2z.
  fold (intrabc_coded (info sh) f).
  destruct HV as (_ & _ & _ & _ & _ & _ & _ & _ & _ & V10 & V11 & _).
  eapply parses_bind with (a := match f_render f with Some wh => wh | None => (up_width (info sh) f, 0) end).
  { unfold renderSize. destruct (f_render f) as [[w h]|].
    - destruct V10 as [Vw Vh]. unfold fits in Vw, Vh. cbn [app]. pbit. eapply parses_bind; [apply parses_F; [reflexivity|exact Vw|lia]|]. cbv beta.
      eapply parses_bind_end; [apply parses_F; [reflexivity|exact Vh|lia]|]. cbv beta.
      replace (w - 1 + 1) with w by lia. replace (h - 1 + 1) with h by lia. apply parses_ret.
    - apply (parses_bind_end Fbool _ [false] false); [apply parses_Fbool|]. apply parses_ret. }
  cbv beta. eapply parses_bind_end; [apply (parses_if_Fbool (intrabc_coded (info sh) f) (f_intrabc f) false V11)|]. apply parses_ret.
Qed.

Definition exp_quant (i : seq_info) (f : intra_frame) : Quant := decoded_quant (planes i) (i_separate i) (f_quant f).
Definition exp_seg (f : intra_frame) : Seg := decoded_segmentation (f_seg f).
Lemma length_dec_features l : forall j, length (dec_features j l) = length l.
Proof. induction l; intros j; cbn; auto. Qed.
Lemma seg_qindex_ok f k : (match f_seg f with Some s => valid_segmentation s | None => True end) -> (k < 8)%nat ->
  spec_qindex (sq_base (f_quant f)) (exp_seg f) k = seg_qindex f k.
Proof.
  intros HV Hk. unfold spec_qindex, seg_qindex, seg_active, exp_seg, seg_entry. destruct (f_seg f) as [s|]; [|reflexivity].
  cbn [decoded_segmentation SegmentationEnabled FeatureEnabled FeatureData andb fst snd]. destruct HV as [HL HF].
  assert (HIn : In (nth k s []) s) by (apply nth_In; lia). rewrite Forall_forall in HF. destruct (HF _ HIn) as [HL2 _].
  rewrite !map_map. 
  set (g := fun x : list (option Z) => map fst (dec_features 0 x)). set (h := fun x : list (option Z) => map snd (dec_features 0 x)).
  replace (nth k (map g s) []) with (g (nth k s [])) by (symmetry; exact (map_nth g s [] k)).
  replace (nth k (map h s) []) with (h (nth k s [])) by (symmetry; exact (map_nth h s [] k)).
  unfold g, h. destruct (nth k s []) as [|x l]; [discriminate|]. cbn [dec_features map nth]. destruct x as [v|]; cbn [dec_feature fst snd]; [|reflexivity].
  rewrite Z.eqb_refl. unfold code_feature. cbn [Nat.eqb]. unfold clamp255. reflexivity.
Qed.
Lemma coded_lossless_ok i f : valid_quant (i_separate i) (f_quant f) -> (match f_seg f with Some s => valid_segmentation s | None => True end) ->
  CodedLossless (lossless_spec (exp_quant i f) (exp_seg f)) = coded_lossless i f.
Proof.
  intros HQ HS. unfold lossless_spec, coded_lossless. cbn [CodedLossless].
  assert (EB : BaseQIdx (exp_quant i f) = sq_base (f_quant f)).
  { unfold exp_quant, decoded_quant. destruct (sq_qm (f_quant f)) as [[[a b] c]|]; reflexivity. }
  assert (EN : no_deltas (exp_quant i f) = forallb (Z.eqb 0) (dq (sq_ydc (f_quant f)) :: chroma_deltas i (f_quant f))).
  { assert (HD : sq_diff (f_quant f) = false \/ sq_diff (f_quant f) = true) by (destruct (sq_diff (f_quant f)); auto).
    unfold no_deltas, exp_quant, decoded_quant, chroma_deltas, planes.
    destruct (sq_qm (f_quant f)) as [[[a b] c]|]; cbn [DeltaQYDc DeltaQUAc DeltaQUDc DeltaQVAc DeltaQVDc];
      destruct (i_mono i); change (1 <? 1) with false; change (1 <? 3) with true; cbn [forallb app]; rewrite (Z.eqb_sym 0 (dq (sq_ydc (f_quant f))));
      try (destruct (dq (sq_ydc (f_quant f)) =? 0); reflexivity);
      destruct (sq_diff (f_quant f)); cbn [forallb app];
      rewrite ?(Z.eqb_sym 0 (dq (sq_udc (f_quant f)))), ?(Z.eqb_sym 0 (dq (sq_uac (f_quant f)))), ?(Z.eqb_sym 0 (dq (sq_vdc (f_quant f)))), ?(Z.eqb_sym 0 (dq (sq_vac (f_quant f))));
      destruct (dq (sq_ydc (f_quant f)) =? 0), (dq (sq_udc (f_quant f)) =? 0), (dq (sq_uac (f_quant f)) =? 0), (dq (sq_vdc (f_quant f)) =? 0), (dq (sq_vac (f_quant f)) =? 0); reflexivity. }
  rewrite <- EN. cbn [seq forallb]. unfold lossless_seg. rewrite EB.
  rewrite !(fun k H => seg_qindex_ok f k HS H) by lia.
  generalize (no_deltas (exp_quant i f)). intros d.
  destruct (seg_qindex f 0 =? 0), (seg_qindex f 1 =? 0), (seg_qindex f 2 =? 0), (seg_qindex f 3 =? 0), (seg_qindex f 4 =? 0), (seg_qindex f 5 =? 0), (seg_qindex f 6 =? 0), (seg_qindex f 7 =? 0), d; reflexivity.
Qed.

Definition exp_lf (i : seq_info) (f : intra_frame) : LoopFilter :=
  if lf_coded i f then decoded_lf (planes i) (f_lf f) defaultRefDeltas [0; 0] else mkLoopFilter [0; 1; 0; 0] 0 true 0 defaultRefDeltas [0; 0].
Definition exp_cdef (i : seq_info) (f : intra_frame) : CdefParams :=
  if cdef_coded i f then let '(damping, bits, l) := f_cdef f in
    mkCdefParams damping bits (map (fun x => fst (fst x)) l) (map (fun x => snd (fst x)) l) (map (fun x => fst (snd x)) l) (map (fun x => snd (snd x)) l)
  else mkCdefParams 3 0 [0] [0] [0] [0].
Definition exp_lr (i : seq_info) (f : intra_frame) (size0 : list Z) : LrParams :=
  if lr_coded i f then let '(types, size, half) := f_lr f in lr_decoded types size half (i_subx i && i_suby i) size0
  else mkLrParams [0; 0; 0] false size0.
Definition exp_grain (i : seq_info) (f : intra_frame) : Grain :=
  match f_grain f with Some g => decoded_grain g | None => noGrain end.
Definition exp_body (i : seq_info) (f : intra_frame) (st : HState) (gt : Z) (tiles : Tiles) : FrameBody :=
  mkFrameBody (f_no_end_update f) tiles (exp_quant i f) (exp_seg f)
    (match f_dq f with Some _ => true | None => false end) (match f_dq f with Some v => v | None => 0 end)
    (match f_dlf f with Some (v, m) => (true, v, b2z m) | None => (false, 0, 0) end)
    (lossless_spec (exp_quant i f) (exp_seg f)) (coded_lossless i f && (width i f =? up_width i f))
    (exp_lf i f) (exp_cdef i f) (exp_lr i f (St_LoopRestorationSize st))
    (if coded_lossless i f then 0 else if f_tx_select f then 2 else 1) false 0 false (f_reduced_tx f)
    (gt :: repeat 0 7) ([0;0;0;0;0;0] :: repeat gmIdentity 7) (exp_grain i f).

Lemma parses_frameBody sh st f fh gt gts tb tiles : seq_ok sh -> valid_intra (info sh) f ->
  DisableCdfUpdate fh = f_disable_cdf f -> PrimaryRefFrame fh = 7 -> FrameIsIntra fh = true -> ShowFrame fh = f_show f -> ShowableFrame fh = f_showable f ->
  (FrameType fh = 0 \/ FrameType fh = 2) -> St_GmType st = gt :: gts ->
  let i := info sh in let fs := exp_size i f in
  parses (NewTileInfo (Use128x128SuperBlock sh) (MiCols fs) (MiRows fs) (TileSizeBytes (St_Tiles st))) tb tiles ->
  parses (frameBody sh st fh (exp_refs i f))
   (when (negb (i_reduced i || f_disable_cdf f)) [f_no_end_update f] ++
    tb ++
    enc_quant (planes i) (i_separate i) (f_quant f) ++
    enc_segmentation (f_seg f) ++
    enc_delta_q_params (sq_base (f_quant f)) (f_dq f) ++
    enc_delta_lf_params (match f_dq f with Some _ => true | None => false end) (f_intrabc f) (f_dlf f) ++
    when (lf_coded i f) (enc_lf_bits 6 (planes i) (f_lf f)) ++
    when (cdef_coded i f) (let '(damping, bits, l) := f_cdef f in enc_cdef (planes i) damping bits l) ++
    when (lr_coded i f) (let '(types, size, half) := f_lr f in enc_lr (i_use128 i) (i_subx i && i_suby i) types size half) ++
    when (negb (coded_lossless i f)) [f_tx_select f] ++
    [f_reduced_tx f] ++
    when (grain_coded i f) (match f_grain f with Some g => enc_grain false (i_mono i) (i_subx i) (i_suby i) g | None => [false] end))
   (exp_body i f st gt tiles).
Proof.
  intros Hs HV D1 D2 D3 D4 D5 D6 HG i fs HT. unfold frameBody. rewrite D1, D2, D3, D4, D5, HG. cbn [Size_ exp_refs AllowIntraBc UseRefFrameMvs RefFrameIdx].
  change (7 =? PRIMARY_REF_NONE) with true. cbn [negb]. fold fs.
  destruct Hs as (_ & _ & _ & _ & HN).
  assert (HP : NumPlanes (Color sh) = planes i) by exact HN.
  destruct HV as (_ & _ & _ & _ & _ & _ & _ & _ & _ & _ & _ & V12 & V13 & V14 & V15 & V16 & V17 & V18 & V19 & V20). fold i in V12, V13, V18, V19, V20.
  eapply parses_bind with (a := f_no_end_update f).
  { change (ReducedStillPictureHeader sh) with (i_reduced i). destruct (i_reduced i || f_disable_cdf f); cbn [negb when]; [rewrite V12 by reflexivity; apply parses_ret|apply parses_Fbool]. }
  cbv beta. eapply parses_bind; [exact HT|]. cbv beta zeta. rewrite HP.
  eapply parses_bind; [apply parses_quant; exact V13|]. cbv beta. change (SeparateUvDeltaQ (Color sh)) with (i_separate i). fold (exp_quant i f).
  change 7 with PRIMARY_REF_NONE.
  apply (parses_yields _ _ seg_ok _ _ (exp_seg f)); [apply parses_segmentation; exact V14|exact (proj2 seg_good)|]. intros HSok.
  assert (EB : BaseQIdx (exp_quant i f) = sq_base (f_quant f)).
  { unfold exp_quant, decoded_quant. destruct (sq_qm (f_quant f)) as [[[a b] c]|]; reflexivity. }
  rewrite EB.
  eapply parses_bind.
  { apply parses_delta_q_params; destruct (f_dq f); [exact (proj1 V15)|exact I|intros; lia|auto]. }
  cbv beta.
  assert (EF : fst (match f_dq f with Some v => (true, v) | None => (false, 0) end) = match f_dq f with Some _ => true | None => false end) by (destruct (f_dq f); reflexivity).
  assert (ES : snd (match f_dq f with Some v => (true, v) | None => (false, 0) end) = match f_dq f with Some v => v | None => 0 end) by (destruct (f_dq f); reflexivity).
  rewrite EF, ES.
  eapply parses_bind.
  { apply parses_delta_lf_params; destruct (f_dlf f) as [[v m]|]; [exact (proj1 V16)|exact I| |auto].
    destruct V16 as (_ & A & B). rewrite B. intros [C|C]; [|discriminate]. destruct (f_dq f); [discriminate|congruence]. }
  cbv beta.
  apply (parses_bind0 (lift _) _ _ (lossless_spec (exp_quant i f) (exp_seg f))); [apply parses_lift; apply lossless_ok; exact HSok|]. cbv beta.
  rewrite (coded_lossless_ok i f V13 V14). cbn [FrameWidth UpscaledWidth fs exp_size].
  eapply parses_bind with (a := exp_lf i f).
  { unfold when, exp_lf, lf_coded. destruct (coded_lossless i f); [apply parses_ret|]. destruct (f_intrabc f); [apply parses_ret|]. cbn [negb andb].
    apply parses_lf; [exact V17|reflexivity|reflexivity]. }
  cbv beta. eapply parses_bind with (a := exp_cdef i f).
  { unfold when, exp_cdef, cdef_coded, lf_coded. change (EnableCdef sh) with (i_cdef i). destruct (coded_lossless i f); [apply parses_ret|]. destruct (f_intrabc f); [apply parses_ret|].
    destruct (i_cdef i); [|apply parses_ret]. cbn [negb andb]. destruct (f_cdef f) as [[d b] l]. destruct V18 as (A & B & C & D). apply parses_cdef; assumption. }
  cbv beta. eapply parses_bind with (a := exp_lr i f (St_LoopRestorationSize st)).
  { unfold when, exp_lr, lr_coded. change (EnableRestoration sh) with (i_lr i). change (Use128x128SuperBlock sh) with (i_use128 i). change (SubsamplingX (Color sh)) with (i_subx i). change (SubsamplingY (Color sh)) with (i_suby i).
    destruct (coded_lossless i f && (width i f =? up_width i f)); [apply parses_ret|]. destruct (f_intrabc f); [apply parses_ret|].
    destruct (i_lr i); [|apply parses_ret]. cbn [negb andb]. destruct (f_lr f) as [[ty sz] hf]. destruct V19 as (A & B). rewrite <- A. apply parses_lr. exact B. }
  cbv beta. eapply parses_bind with (a := if coded_lossless i f then 0 else if f_tx_select f then 2 else 1).
  { unfold readTxMode, when. destruct (coded_lossless i f); [apply parses_ret|]. cbn [negb].
    apply (parses_bind_end Fbool _ [_] (f_tx_select f)); [apply parses_Fbool|]. destruct (f_tx_select f); apply parses_ret. }
  cbv beta. apply (parses_bind0 (frameReferenceMode true) _ _ false); [apply parses_ret|]. cbv beta.
  apply (parses_bind0 (skipModeParams _ _ _ _ _ _ _) _ _ 0); [apply parses_ret|]. cbv beta. cbn [orb].
  apply (parses_bind0 (ret false) _ _ false); [apply parses_ret|]. cbv beta.
  pbit. apply (parses_bind0 (lift (idx (gt :: gts) 0)) _ _ gt); [apply parses_lift; reflexivity|]. cbv beta.
  apply (parses_bind0 (globalMotionParams true gt) _ _ (gt :: repeat 0 7, [0;0;0;0;0;0] :: repeat gmIdentity 7)); [apply parses_ret|]. cbv beta.
  eapply parses_bind_end with (a := exp_grain i f); [|cbv beta; apply parses_ret].
  change (FilmGrainParamsPresent sh) with (i_grain i). change (MonoChrome (Color sh)) with (i_mono i). change (SubsamplingX (Color sh)) with (i_subx i). change (SubsamplingY (Color sh)) with (i_suby i).
  unfold exp_grain, when. destruct (f_grain f) as [g|].
  - destruct V20 as [A B]. rewrite A. unfold grain_coded in A. apply andb_prop in A. destruct A as [A1 A2]. rewrite A1.
    assert (EI : FrameType fh =? 1 = false) by (destruct D6 as [-> | ->]; reflexivity).
    pose proof (parses_grain (f_show f) (f_showable f) (FrameType fh) (i_mono i) (i_subx i) (i_suby i) g A2 B) as P. rewrite EI in P. exact P.
  - unfold grain_coded, filmGrainParams. destruct (i_grain i); [|apply parses_ret]. cbn [negb orb andb].
    destruct (f_show f), (f_showable f); cbn [negb andb orb]; try apply parses_ret;
      (apply (parses_bind_end Fbool _ [_] false); [apply parses_Fbool|]; apply parses_ret).
Qed.

Definition exp_state (i : seq_info) (f : intra_frame) (st : HState) (gt : Z) (tiles : Tiles) : HState :=
  afterHeader st (exp_refs i f) (exp_body i f st gt tiles).
Lemma parses_header sh st f gt gts tb tiles : seq_ok sh -> valid_intra (info sh) f -> supported sh f -> St_GmType st = gt :: gts ->
  let i := info sh in let fs := exp_size i f in
  parses (NewTileInfo (Use128x128SuperBlock sh) (MiCols fs) (MiRows fs) (TileSizeBytes (St_Tiles st))) tb tiles ->
  parses (NewUncompressedHeader sh st) (enc_intra 6 i f tb)
    (UFrame (exp_head i f) (exp_refs i f) (exp_body i f st gt tiles), exp_state i f st gt tiles).
Proof.
  intros Hs HV HU HG i fs HT.
  assert (HF : forall er t, (f_key f = false -> er = f_resilient f) ->
    parses (let* fh := frameHead sh (if f_key f then 0 else 2, true, f_show f, f_showable f, er, t) in
            let* fr := if FrameIsIntra fh then intraRefs sh fh else interRefs sh fh st in
            let* fb := frameBody sh st fh fr in ret (UFrame fh fr fb, afterHeader st fr fb))
      (([f_disable_cdf f] ++
       (match i_sct i with None => [f_sct f] | Some _ => [] end) ++
       when (sct i f) (match i_imv i with None => [f_imv f] | Some _ => [] end) ++
       when (negb (i_reduced i)) [match f_size f with Some _ => true | None => false end] ++
       enc_f (i_hint_bits i) (f_hint f) ++
       when (i_decoder_model i) [false] ++
       when (negb (f_key f && f_show f)) (enc_f 8 (f_refresh f))) ++
       (((match f_size f with Some (w, h) => enc_f (i_width_bits i) (w - 1) ++ enc_f (i_height_bits i) (h - 1) | None => [] end) ++
        enc_superres (i_superres i) (f_superres f)) ++
        (match f_render f with Some (w, h) => [true] ++ enc_f 16 (w - 1) ++ enc_f 16 (h - 1) | None => [false] end) ++
        when (intrabc_coded i f) [f_intrabc f]) ++
       (when (negb (i_reduced i || f_disable_cdf f)) [f_no_end_update f] ++
        tb ++
        enc_quant (planes i) (i_separate i) (f_quant f) ++
        enc_segmentation (f_seg f) ++
        enc_delta_q_params (sq_base (f_quant f)) (f_dq f) ++
        enc_delta_lf_params (match f_dq f with Some _ => true | None => false end) (f_intrabc f) (f_dlf f) ++
        when (lf_coded i f) (enc_lf_bits 6 (planes i) (f_lf f)) ++
        when (cdef_coded i f) (let '(damping, bits, l) := f_cdef f in enc_cdef (planes i) damping bits l) ++
        when (lr_coded i f) (let '(types, size, half) := f_lr f in enc_lr (i_use128 i) (i_subx i && i_suby i) types size half) ++
        when (negb (coded_lossless i f)) [f_tx_select f] ++
        [f_reduced_tx f] ++
        when (grain_coded i f) (match f_grain f with Some g => enc_grain false (i_mono i) (i_subx i) (i_suby i) g | None => [false] end)))
      (UFrame (mkFrameHead (if f_key f then 0 else 2) true (f_show f) (f_showable f) er t (f_disable_cdf f) (b2z (sct i f)) true 0
         (match f_size f with Some _ => true | None => false end) (f_hint f) 7 (f_refresh f)) (exp_refs i f) (exp_body i f st gt tiles), exp_state i f st gt tiles)).
  { intros er t Her. eapply parses_bind; [apply (parses_frameHead sh f er t Hs HV HU Her)|]. cbv beta. cbn [FrameIsIntra].
    eapply parses_bind; [apply (parses_intraRefs sh f _ Hs HV); reflexivity|]. cbv beta.
    eapply parses_bind_end; [apply (parses_frameBody sh st f _ gt gts tb tiles Hs HV); try reflexivity; [destruct (f_key f); auto|exact HG|exact HT]|].
    apply parses_ret. }
  unfold NewUncompressedHeader, enc_intra, exp_head. cbv zeta. change (i_reduced i) with (ReducedStillPictureHeader sh).
  destruct (ReducedStillPictureHeader sh) eqn:ER.
  - destruct HV as (V1 & V2 & _). change (i_reduced (info sh)) with (ReducedStillPictureHeader sh) in V1. destruct (V1 ER) as (K1 & K2 & K3).
    assert (K4 : f_showable f = false) by (rewrite V2 by exact K2; rewrite K1; reflexivity).
    specialize (HF false 0 ltac:(rewrite K1; discriminate)). change (i_reduced i) with (ReducedStillPictureHeader sh) in HF. rewrite ER in HF.
    rewrite K1, K2, K4 in HF |- *. cbn [negb andb when orb] in HF |- *.
    eapply parses_eq; [|exact HF]. cbn [app]. rewrite <- ?app_assoc. cbn [app]. rewrite <- ?app_assoc. reflexivity.
  - specialize (HF (if f_key f && f_show f then true else f_resilient f) (match i_time_bits i with Some _ => if f_show f then f_time f else 0 | None => 0 end) ltac:(intros ->; reflexivity)).
    change (i_reduced i) with (ReducedStillPictureHeader sh) in HF. rewrite ER in HF.
    cbn [negb when]. rewrite <- (app_assoc [false]). change (?b ++ ?x) with (b ++ x).
    eapply parses_bind; [apply parses_Fbool|]. cbv beta iota.
    eapply parses_bind; [apply (parses_frameType sh f Hs HV (proj1 (proj2 (proj2 HU))) ER)|]. cbv beta.
    eapply parses_eq; [|exact HF]. rewrite <- ?app_assoc. reflexivity.
Qed.

(* ------------------------------------------------------------ tiles of a frame of one superblock row *)
Lemma parses_get {B} (k : bs -> BS B) l b : (forall s, parses (k s) l b) -> parses (bind get k) l b.
Proof. intros H s Hs. unfold bind, get. exact (H s s Hs). Qed.
Lemma parses_incr_cols k : forall n c, (k <= n)%nat -> parses (incr_cols n c) (repeat true k ++ when (k <? n)%nat [false]) (c + Z.of_nat k).
Proof.
  induction k as [|k IH]; intros n c H.
  - destruct n as [|n]; cbn [incr_cols repeat app when Nat.ltb Nat.leb]; replace (c + Z.of_nat 0) with c by lia; [apply parses_ret|].
    apply (parses_bind_end Fbool _ [false] false); [apply parses_Fbool|]. apply parses_ret.
  - destruct n as [|n]; [lia|]. cbn [incr_cols repeat app]. change ((S k <? S n)%nat) with ((k <? n)%nat).
    pbit. replace (c + Z.of_nat (S k)) with (c + 1 + Z.of_nat k) by lia. apply IH. lia.
Qed.
Lemma TileLog2_0 blk target : 1 <= blk < 2 ^ 62 -> target <= blk -> TileLog2 blk target = Ok 0.
Proof.
  intros Hb Ht. destruct (TileLog2_spec blk target Hb ltac:(lia)) as (r & E & A & B & C). rewrite E. f_equal. clear E.
  destruct (Z.eq_dec r 0) as [|N]; [assumption|]. specialize (C 0 ltac:(lia)). change (2 ^ 0) with 1 in C. lia.
Qed.
Lemma TileLog2_up n : 1 <= n <= 64 -> TileLog2 1 n = Ok (Z.log2_up n).
Proof.
  intros Hn. destruct (TileLog2_spec 1 n ltac:(lia) ltac:(lia)) as (r & E & A & B & C). rewrite E. f_equal.
  destruct (Z.eq_dec n 1) as [->|N]. { destruct (Z.eq_dec r 0) as [->|Nr]; [reflexivity|]. specialize (C 0 ltac:(lia)). change (2 ^ 0) with 1 in C. lia. }
  symmetry. apply Z.log2_up_unique; [|split].
  - destruct (Z.eq_dec r 0) as [->|]; [change (2 ^ 0) with 1 in B; lia|lia].
  - assert (0 < r) by (destruct (Z.eq_dec r 0) as [->|]; [change (2 ^ 0) with 1 in B; lia|lia]). specialize (C (Z.pred r) ltac:(lia)). lia.
  - lia.
Qed.
Lemma parses_tiles_one_row miCols miRows old k ctx bytes : 1 <= miCols <= 1024 -> 1 <= miRows <= 16 ->
  let sbCols := (miCols + 15) / 16 in Z.of_nat k <= Z.log2_up sbCols ->
  (0 < Z.of_nat k -> 0 <= ctx < 2 ^ Z.of_nat k /\ 1 <= bytes <= 4) ->
  exists tiles, parses (NewTileInfo false miCols miRows old) (enc_tiles_one_row sbCols k ctx bytes) tiles /\
    TileColsLog2 tiles = Z.of_nat k /\ TileRowsLog2 tiles = 0 /\ 1 <= TileCols tiles <= 2 ^ Z.of_nat k /\ TileRows tiles = 1 /\
    partitions (MiColStarts tiles) (TileCols tiles) miCols 16 /\ partitions (MiRowStarts tiles) 1 miRows 16 /\
    ContextUpdateTileId tiles = (if 0 <? Z.of_nat k then ctx else 0) /\ TileSizeBytes tiles = (if 0 <? Z.of_nat k then bytes else old).
Proof.
  intros HC HR sbCols Hk Hctx.
  pose proof (Z.div_mod (miCols + 15) 16 ltac:(lia)) as DC. pose proof (Z.mod_pos_bound (miCols + 15) 16 ltac:(lia)) as BC. fold sbCols in DC.
  pose proof (Z.div_mod (miRows + 15) 16 ltac:(lia)) as DR. pose proof (Z.mod_pos_bound (miRows + 15) 16 ltac:(lia)) as BR.
  assert (HSC : 1 <= sbCols <= 64) by lia.
  assert (HLU : 0 <= Z.log2_up sbCols <= 6). { split; [apply Z.log2_up_nonneg|]. change 6 with (Z.log2_up 64). apply Z.log2_up_le_mono. lia. }
  destruct (make_zeros_filled sbCols 4 ltac:(lia)) as (ac & Eac & Fac).
  destruct (make_zeros_filled 1 4 ltac:(lia)) as (ar & Ear & Far). change (1 + 1) with 2 in Ear.
  destruct (uniform_good sbCols (Z.of_nat k) 4 miCols ac ltac:(lia) ltac:(lia) ltac:(lia) Fac) as (c & cs & E1 & E2 & E3 & E4).
  destruct (uniform_good 1 0 4 miRows ar ltac:(lia) ltac:(lia) ltac:(lia) Far) as (r & rs & E5 & E6 & E7 & E8).
  assert (Er : snd r = 1) by (change (2 ^ 0) with 1 in E8; lia).
  set (t0 := mkTiles cs rs (snd c) (snd r) (Z.of_nat k) 0 old 0).
  exists (if 0 <? Z.of_nat k then mkTiles cs rs (snd c) (snd r) (Z.of_nat k) 0 bytes ctx else t0).
  split.
  - unfold NewTileInfo, enc_tiles_one_row. cbv iota zeta. rewrite !(shr_div _ 4) by lia. change (2 ^ 4) with 16. fold sbCols.
    assert (ERow : (miRows + 15) / 16 = 1) by lia. rewrite ERow. change (1 + 1) with 2. rewrite Eac, Ear.
    apply (parses_bind0 (lift (Ok ac)) _ _ ac); [apply parses_lift; reflexivity|]. cbv beta.
    apply (parses_bind0 (lift (Ok ar)) _ _ ar); [apply parses_lift; reflexivity|]. cbv beta.
    change (shr MAX_TILE_WIDTH (4 + 2)) with 64. change (shr MAX_TILE_AREA (2 * (4 + 2))) with 2304.
    apply (parses_bind0 (lift (TileLog2 64 sbCols)) _ _ 0); [apply parses_lift, TileLog2_0; lia|]. cbv beta.
    replace (Min sbCols MAX_TILE_COLS) with sbCols by (rewrite Min_min; change MAX_TILE_COLS with 64; lia).
    apply (parses_bind0 (lift (TileLog2 1 sbCols)) _ _ (Z.log2_up sbCols)); [apply parses_lift, TileLog2_up; lia|]. cbv beta.
    apply (parses_bind0 (lift (TileLog2 1 (Min 1 MAX_TILE_ROWS))) _ _ 0); [apply parses_lift, TileLog2_0; [lia|rewrite Min_min; lia]|]. cbv beta.
    apply (parses_bind0 (lift (TileLog2 2304 (1 * sbCols))) _ _ 0); [apply parses_lift, TileLog2_0; lia|]. cbv beta zeta.
    cbn [app]. pbit.
    rewrite app_assoc. eapply parses_bind with (a := t0).
    { replace (Z.log2_up sbCols - 0) with (Z.log2_up sbCols) by lia.
      eapply parses_bind_end.
      { pose proof (parses_incr_cols k (Z.to_nat (Z.log2_up sbCols)) 0 ltac:(lia)) as P.
        replace ((k <? Z.to_nat (Z.log2_up sbCols))%nat) with (Z.of_nat k <? Z.log2_up sbCols) in P; [exact P|].
        destruct (Z.ltb_spec (Z.of_nat k) (Z.log2_up sbCols)), (Nat.ltb_spec k (Z.to_nat (Z.log2_up sbCols))); try reflexivity; lia. }
      cbv beta. replace (0 + Z.of_nat k) with (Z.of_nat k) by lia. rewrite E1.
      apply (parses_bind0 (lift (Ok c)) _ _ c); [apply parses_lift; reflexivity|]. cbv beta. rewrite E2.
      apply (parses_bind0 (lift (Ok cs)) _ _ cs); [apply parses_lift; reflexivity|]. cbv beta.
      apply parses_get. intros s0. change (Max 0 0) with 0.
      assert (EM : Max (0 - Z.of_nat k) 0 = 0). { unfold Max. destruct (Z.leb_spec 0 (0 - Z.of_nat k)); cbn; lia. }
      rewrite EM. apply (parses_bind0 (incr_rows (S (bits_left s0)) 0 0) _ _ 0); [apply parses_ret|]. cbv beta. rewrite E5.
      apply (parses_bind0 (lift (Ok r)) _ _ r); [apply parses_lift; reflexivity|]. cbv beta. rewrite E6.
      apply (parses_bind0 (lift (Ok rs)) _ _ rs); [apply parses_lift; reflexivity|]. apply parses_ret. }
    cbv beta. unfold t0 at 1 2. cbn [TileColsLog2 TileRowsLog2]. change (0 <? 0) with false. rewrite orb_false_r. unfold when.
    destruct (Z.ltb_spec 0 (Z.of_nat k)) as [L|L]; [|apply parses_ret]. destruct (Hctx L) as [H1 H2].
    unfold t0. cbn [TileColsLog2 TileRowsLog2 MiColStarts MiRowStarts TileCols TileRows].
    eapply parses_bind; [apply parses_F; [lia|replace (0 + Z.of_nat k) with (Z.of_nat k) by lia; exact H1|lia]|]. cbv beta.
    eapply parses_bind_end; [apply parses_F; [reflexivity|change (2 ^ 2) with 4; lia|lia]|]. cbv beta.
    replace (bytes - 1 + 1) with bytes by lia. apply parses_ret.
  - change (2 ^ 4) with 16 in E3, E7. rewrite Er in E7.
    destruct (0 <? Z.of_nat k); unfold t0; cbn [TileColsLog2 TileRowsLog2 MiColStarts MiRowStarts TileCols TileRows ContextUpdateTileId TileSizeBytes];
      (split; [reflexivity|]; split; [reflexivity|]; split; [exact E4|]; split; [exact Er|]; split; [apply E3; lia|]; split; [apply E7; lia|]; split; reflexivity).
Qed.
