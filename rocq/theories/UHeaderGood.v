(** Whatever the bits are, every part of the frame header reader returns or panics, and what it returns is in range. *)
From Verif Require Import GoBase Bitstream SpecBits SpecStream BitstreamProofs ReaderOps Parses SafeParse Yields Util UtilProofs
  Constants Tables Header SequenceHeader SymbolProofs TileInfo SpecTiles TileInfoProofs SpecHeader UncompressedHeader UHeaderProofs.

Lemma g_times {A} (m : BS A) (P : A -> Prop) n : good m P -> good (times n m) (fun l => length l = n /\ Forall P l).
Proof.
  intros H. induction n as [|n IH]; cbn [times].
  - apply g_ret. auto.
  - eapply g_bind; [exact H|]. intros x Hx. eapply g_bind; [exact IH|]. intros l [L F]. apply g_ret. cbn [length]. auto.
Qed.
Lemma g_for_to {A} (P : Z -> A -> Prop) lo hi (body : Z -> A -> BS A) acc : lo <= hi ->
  P lo acc -> (forall j a, lo <= j < hi -> P j a -> good (body j a) (P (j + 1))) -> good (for_to lo hi body acc) (P hi).
Proof.
  intros Hl H0 HB. unfold for_to. assert (E : hi = lo + Z.of_nat (Z.to_nat (hi - lo))) by lia.
  rewrite E at 2. assert (HB' : forall j a, lo <= j < lo + Z.of_nat (Z.to_nat (hi - lo)) -> P j a -> good (body j a) (P (j + 1))) by (intros; apply HB; [lia|assumption]).
  clear HB E Hl. revert HB'. generalize (Z.to_nat (hi - lo)). intros n. revert lo acc H0.
  induction n as [|n IH]; intros lo acc H0 HB.
  - cbn [for_from]. apply g_ret. replace (lo + Z.of_nat 0) with lo by lia. exact H0.
  - rewrite for_from_S. eapply g_bind; [apply HB; [lia|exact H0]|]. intros a Ha.
    replace (lo + Z.of_nat (S n)) with (lo + 1 + Z.of_nat n) by lia. apply (IH (lo + 1) a); [exact Ha|].
    intros j b Hj. apply HB. lia.
Qed.
(** read n bits, with a closed bound *)
Lemma g_Fn n c : 0 <= n <= 63 -> 2 ^ n = c -> good (F n) (fun v => 0 <= v < c).
Proof. intros H <-. apply g_F. exact H. Qed.
Ltac gF := first [apply g_Fbool | apply g_Fn; [lia|reflexivity] | apply g_F; lia].
Ltac gb x H := eapply g_bind; [gF|intros x H]; cbv beta in *.

(* ------------------------------------------------------------ sizes *)
(** the part of a sequence header that bounds frame sizes *)
Definition size_bounds (sh : SequenceHeader) : Prop :=
  0 <= FrameWidthBitsMinusOne sh < 16 /\ 0 <= FrameHeightBitsMinusOne sh < 16 /\
  0 <= MaxFrameWidthMinusOne sh < 65536 /\ 0 <= MaxFrameHeightMinusOne sh < 65536.
Definition coded_width (up denom : Z) : Z := (up * 8 + denom / 2) / denom.
Lemma coded_width_8 w : 0 <= w -> coded_width w 8 = w.
Proof. intros H. unfold coded_width. change (8 / 2) with 4. rewrite Z.add_comm, Z.div_add by lia. reflexivity. Qed.
Lemma coded_width_bounds w d : 1 <= w -> 8 <= d <= 16 -> 1 <= coded_width w d <= w /\ w <= 2 * coded_width w d.
Proof.
  intros Hw Hd. unfold coded_width. pose proof (Z.div_mod d 2 ltac:(lia)). pose proof (Z.mod_pos_bound d 2 ltac:(lia)).
  set (h := d / 2) in *. pose proof (Z.div_mod (w * 8 + h) d ltac:(lia)). pose proof (Z.mod_pos_bound (w * 8 + h) d ltac:(lia)).
  set (c := (w * 8 + h) / d) in *. nia.
Qed.
Definition frame_size_ok (fs : FrameSize) : Prop :=
  1 <= FrameWidth fs <= UpscaledWidth fs /\ UpscaledWidth fs <= 65536 /\ UpscaledWidth fs <= 2 * FrameWidth fs /\
  1 <= FrameHeight fs <= 65536 /\ FrameWidth fs = coded_width (UpscaledWidth fs) (SuperResDenom fs) /\
  (if UseSuperRes fs then 9 <= SuperResDenom fs <= 16 else SuperResDenom fs = 8) /\
  MiCols fs = 2 * ((FrameWidth fs + 7) / 8) /\ MiRows fs = 2 * ((FrameHeight fs + 7) / 8).
Lemma superRes_good en w : 1 <= w <= 65536 ->
  good (superResParams en w) (fun r => let '(use, d, up, fw) := r in up = w /\ fw = coded_width w d /\
    (en = false -> use = false) /\ (if use : bool then 9 <= d <= 16 else d = 8)).
Proof.
  intros Hw. unfold superResParams.
  eapply g_bind with (Q := fun u => en = false -> u = false). { destruct en; [eapply g_weaken; [apply g_Fbool|discriminate]|apply g_ret; auto]. }
  intros u Hu.
  eapply g_bind with (Q := fun d => if u : bool then 9 <= d <= 16 else d = 8).
  { destruct u; [|apply g_ret; reflexivity]. change SUPERRES_DENOM_BITS with 3. gb c Hc. apply g_ret. change SUPERRES_DENOM_MIN with 9. lia. }
  intros d Hd. assert (8 <= d <= 16) by (destruct u; lia). apply g_ret. split; [reflexivity|].
  split; [|split; assumption]. change SUPERRES_NUM with 8. unfold coded_width.
  rewrite (Z.quot_div_nonneg d 2), Z.quot_div_nonneg by (try lia; pose proof (Z.div_pos d 2); lia). reflexivity.
Qed.
Lemma frameSize_good ov sh : size_bounds sh -> good (frameSize ov sh) (fun fs => frame_size_ok fs /\ (EnableSuperRes sh = false -> UseSuperRes fs = false) /\
   (ov = false -> UpscaledWidth fs = MaxFrameWidthMinusOne sh + 1 /\ FrameHeight fs = MaxFrameHeightMinusOne sh + 1)).
Proof.
  intros (A & B & C & D). unfold frameSize.
  eapply g_bind with (Q := fun wh => 1 <= fst wh <= 65536 /\ 1 <= snd wh <= 65536 /\ (ov = false -> wh = (MaxFrameWidthMinusOne sh + 1, MaxFrameHeightMinusOne sh + 1))).
  { destruct ov; [|apply g_ret; cbn; split; [lia|split; [lia|auto]]]. gb w Hw. gb h Hh. apply g_ret. cbn [fst snd].
    assert (2 ^ (FrameWidthBitsMinusOne sh + 1) <= 2 ^ 16) by (apply Z.pow_le_mono_r; lia).
    assert (2 ^ (FrameHeightBitsMinusOne sh + 1) <= 2 ^ 16) by (apply Z.pow_le_mono_r; lia). change (2 ^ 16) with 65536 in *.
    split; [lia|]. split; [lia|discriminate]. }
  intros [w h] (Hw & Hh & Ho). cbn [fst snd] in *.
  eapply g_bind; [apply superRes_good; exact Hw|]. intros [[[use d] up] fw] (-> & -> & Hen & Hd). cbv beta iota.
  apply g_ret. assert (Hd8 : 8 <= d <= 16) by (destruct use; lia). pose proof (coded_width_bounds w d ltac:(lia) Hd8) as (? & ?).
  unfold frame_size_ok, computeImageSize. cbn [FrameWidth FrameHeight UpscaledWidth UseSuperRes SuperResDenom MiCols MiRows fst snd].
  rewrite !shr_div by lia. change (2 ^ 3) with 8.
  repeat match goal with |- _ /\ _ => split end; try lia; try reflexivity; try assumption.
  intros K. specialize (Ho K). injection Ho as <- <-. auto.
Qed.
Lemma mi_bounds fs : frame_size_ok fs -> 0 < MiCols fs <= 16384 /\ 0 < MiRows fs <= 16384.
Proof.
  intros (A & B & C & D & _ & _ & -> & ->).
  pose proof (Z.div_mod (FrameWidth fs + 7) 8 ltac:(lia)). pose proof (Z.mod_pos_bound (FrameWidth fs + 7) 8 ltac:(lia)).
  pose proof (Z.div_mod (FrameHeight fs + 7) 8 ltac:(lia)). pose proof (Z.mod_pos_bound (FrameHeight fs + 7) 8 ltac:(lia)). lia.
Qed.
Lemma renderSize_good w : good (renderSize w) (fun r => r = (w, 0) \/ (1 <= fst r <= 65536 /\ 1 <= snd r <= 65536)).
Proof. unfold renderSize. gb b Hb. apply g_if; intros _; [|apply g_ret; auto]. gb x Hx. gb y Hy. apply g_ret. right. cbn [fst snd]. lia. Qed.

(* ------------------------------------------------------------ quantizer, segmentation *)
Definition delta7 (v : Z) : Prop := -64 <= v < 64.
Definition quant_ok (q : Quant) : Prop :=
  0 <= BaseQIdx q < 256 /\ delta7 (DeltaQYDc q) /\ delta7 (DeltaQUDc q) /\ delta7 (DeltaQUAc q) /\ delta7 (DeltaQVDc q) /\ delta7 (DeltaQVAc q) /\
  0 <= Qmy q < 16 /\ 0 <= Qmu q < 16 /\ 0 <= Qmv q < 16.
Lemma readDeltaQ_good : good readDeltaQ delta7.
Proof.
  unfold readDeltaQ, delta7. gb b Hb. apply g_if; intros _; [|apply g_ret; lia].
  eapply g_weaken; [apply g_Su; lia|]. intros v Hv. cbv beta in Hv. change (2 ^ (1 + 6 - 1)) with 64 in Hv. lia.
Qed.
Lemma quant_good np sep : good (quantizationParams np sep) quant_ok.
Proof.
  unfold quantizationParams. gb base Hb. eapply g_bind; [apply readDeltaQ_good|]. intros ydc Hy.
  eapply g_bind with (Q := fun r => let '(a, b, c, d) := r in delta7 a /\ delta7 b /\ delta7 c /\ delta7 d).
  { apply g_if; intros _; [|apply g_ret; unfold delta7; lia].
    eapply g_bind with (Q := fun _ => True); [destruct sep; [apply g_Fbool|apply g_ret; exact I]|]. intros diff _.
    eapply g_bind; [apply readDeltaQ_good|]. intros udc Hud. eapply g_bind; [apply readDeltaQ_good|]. intros uac Hua.
    destruct diff; [|apply g_ret; auto].
    eapply g_bind; [apply readDeltaQ_good|]. intros vdc Hvd. eapply g_bind; [apply readDeltaQ_good|]. intros vac Hva. apply g_ret. auto. }
  intros [[[udc uac] vdc] vac] (A & B & C & D). cbv beta iota. gb u Hu. destruct u.
  - gb qy Hqy. gb qu Hqu. eapply g_bind with (Q := fun v => 0 <= v < 16); [destruct sep; cbn [negb]; [gF|apply g_ret; lia]|]. intros qv Hqv.
    apply g_ret. unfold quant_ok. cbn. repeat match goal with |- _ /\ _ => split end; try lia; assumption.
  - apply g_ret. unfold quant_ok. cbn. repeat match goal with |- _ /\ _ => split end; try lia; assumption.
Qed.

(** one feature (index j): the enabled flag and a value in the feature's range; a disabled feature has value 0 *)
Definition feature_ok (j : nat) (f : Z * Z) : Prop :=
  (fst f = 0 /\ snd f = 0) \/ (fst f = 1 /\ (if seg_signed j then - seg_max j <= snd f <= seg_max j else 0 <= snd f <= seg_max j)).
Lemma Clip3_range lo hi x : lo <= hi -> lo <= Clip3 lo hi x <= hi.
Proof. intros H. unfold Clip3. destruct (Z.ltb_spec x lo); [lia|]. destruct (Z.ltb_spec hi x); lia. Qed.
Lemma safe_readFeature j : safe (readFeature j).
Proof. unfold readFeature. safet. Qed.
Lemma idx_nth {A} (l : list A) j d : (j < length l)%nat -> idx l (Z.of_nat j) = Ok (nth j l d).
Proof.
  intros H. unfold idx. destruct (Z.ltb_spec (Z.of_nat j) 0); [lia|]. rewrite Nat2Z.id.
  rewrite (nth_error_nth' l d H). reflexivity.
Qed.
Lemma yields_any_safe {A} (m : BS A) : safe m -> yields m (fun _ => True).
Proof. intros S s a s' H E. specialize (S s H). rewrite E in S. split; [lia|exact I]. Qed.
Lemma readFeature_good j : (j < 8)%nat -> good (readFeature (Z.of_nat j)) (feature_ok j).
Proof.
  intros Hj. split; [apply safe_readFeature|]. unfold readFeature. eapply y_bind; [apply y_F; lia|]. intros e He. cbv beta in He. change (2 ^ 1) with 2 in He.
  apply y_if; intros K; [apply Z.eqb_eq in K; subst e|apply y_ret; left; cbn; split; [destruct (Z.eqb_spec e 1); [discriminate|lia]|reflexivity]].
  rewrite !(idx_nth _ j 0) by (cbn; lia).
  eapply y_bind with (Q := fun b => b = nth j Segmentation_Feature_Bits 0); [apply y_lift; intros ? [= <-]; reflexivity|]. intros b ->.
  eapply y_bind with (Q := fun b => b = nth j Segmentation_Feature_Max 0); [apply y_lift; intros ? [= <-]; reflexivity|]. intros m ->.
  eapply y_bind with (Q := fun b => b = nth j Segmentation_Feature_Signed 0); [apply y_lift; intros ? [= <-]; reflexivity|]. intros sg ->.
  assert (EM : nth j Segmentation_Feature_Max 0 = seg_max j) by (do 8 (destruct j as [|j]; [reflexivity|]); lia).
  assert (ES : (nth j Segmentation_Feature_Signed 0 =? 1) = seg_signed j) by (do 8 (destruct j as [|j]; [reflexivity|]); lia).
  assert (EN : 0 <= seg_max j) by (do 8 (destruct j as [|j]; [vm_compute; discriminate|]); lia).
  rewrite EM, ES. destruct (seg_signed j) eqn:Esg.
  - eapply y_bind; [apply yields_any_safe, safe_Su|]. intros v _. apply y_ret. right. rewrite Esg. cbn [fst snd]. split; [reflexivity|]. apply Clip3_range. lia.
  - eapply y_bind; [apply yields_any_safe, safe_Su|]. intros v _. apply y_ret. right. rewrite Esg. cbn [fst snd]. split; [reflexivity|]. apply Clip3_range. lia.
Qed.
Fixpoint features_ok (j : nat) (l : list (Z * Z)) : Prop :=
  match l with [] => True | f :: t => feature_ok j f /\ features_ok (S j) t end.
Lemma features_ok_snoc l f : forall j, features_ok j l -> feature_ok (j + length l) f -> features_ok j (l ++ [f]).
Proof.
  induction l as [|x l IH]; intros j; cbn [features_ok app length].
  - rewrite Nat.add_0_r. auto.
  - intros [A B] C. split; [exact A|]. apply IH; [exact B|]. replace (S j + length l)%nat with (j + S (length l))%nat by lia. exact C.
Qed.
Lemma segFeatures_good : good readSegFeatures (fun fs => length fs = 8%nat /\ Forall (fun l => length l = 8%nat /\ features_ok 0 l) fs).
Proof.
  unfold readSegFeatures. apply (g_times _ (fun l => length l = 8%nat /\ features_ok 0 l) 8).
  eapply g_bind.
  { apply (g_for_to (fun j l => Z.of_nat (length l) = j /\ features_ok 0 l) 0 SEG_LVL_MAX); [vm_compute; discriminate|split; [reflexivity|exact I]|].
    change SEG_LVL_MAX with 8. intros j l Hj [HL HF]. subst j. eapply g_bind; [apply readFeature_good; lia|]. intros f Hf. apply g_ret.
    split; [rewrite app_length; cbn [length]; lia|]. apply features_ok_snoc; assumption. }
  cbv beta. change SEG_LVL_MAX with 8. intros l [HL HF]. apply g_ret. split; [lia|exact HF].
Qed.
Definition seg_ok (sg : Seg) : Prop :=
  (exists fs, length fs = 8%nat /\ Forall (fun l => length l = 8%nat /\ features_ok 0 l) fs /\
     FeatureEnabled sg = map (map fst) fs /\ FeatureData sg = map (map snd) fs) /\
  (SegmentationEnabled sg = false -> FeatureEnabled sg = zeros8x8 /\ FeatureData sg = zeros8x8 /\ SegmentationUpdateMap sg = 0) /\
  (SegIdPreSkip sg, LastActiveSegId sg) = scanFeatures (FeatureEnabled sg).
Definition zero_features : list (list (Z * Z)) := repeat (repeat (0, 0) 8) 8.
Lemma zero_features_ok : length zero_features = 8%nat /\ Forall (fun l => length l = 8%nat /\ features_ok 0 l) zero_features.
Proof.
  split; [reflexivity|]. unfold zero_features. apply Forall_forall. intros l Hl. apply repeat_spec in Hl. subst l. split; [reflexivity|].
  cbn [repeat features_ok]. unfold feature_ok. cbn [fst snd]. auto 20.
Qed.
Lemma seg_good : good (segmentationParams PRIMARY_REF_NONE zeros8x8 zeros8x8) seg_ok.
Proof.
  unfold segmentationParams. gb en Hen.
  eapply g_bind with (Q := fun r => let '(um, tu, ud, e, d) := r in
     (exists fs, length fs = 8%nat /\ Forall (fun l => length l = 8%nat /\ features_ok 0 l) fs /\ e = map (map fst) fs /\ d = map (map snd) fs) /\
     (en = false -> e = zeros8x8 /\ d = zeros8x8 /\ um = 0)).
  { destruct en.
    - rewrite Z.eqb_refl. eapply g_bind with (Q := fun u => u = (1, 0, 1)); [apply g_ret; reflexivity|]. intros u ->. cbv beta iota. rewrite Z.eqb_refl.
      eapply g_bind; [apply segFeatures_good|]. intros fs [L HF]. apply g_ret. split; [exists fs; auto|discriminate].
    - apply g_ret. split; [|auto]. exists zero_features. pose proof zero_features_ok as [A B]. auto. }
  intros [[[[um tu] ud] e] d] [H1 H2]. cbv beta iota. apply g_ret. unfold seg_ok. cbn. split; [exact H1|]. split; [exact H2|].
  destruct (scanFeatures e); reflexivity.
Qed.

(* ------------------------------------------------------------ deltas, filters *)
Lemma deltaQ_good base : good (deltaQParams base) (fun r => 0 <= snd r < 4 /\ (fst r = true -> 0 < base) /\ (fst r = false -> snd r = 0)).
Proof.
  unfold deltaQParams. eapply g_bind with (Q := fun p => p = true -> 0 < base).
  { destruct (Z.ltb_spec 0 base); [eapply g_weaken; [apply g_Fbool|auto]|apply g_ret; discriminate]. }
  intros p Hp. eapply g_bind with (Q := fun r => 0 <= r < 4 /\ (p = false -> r = 0)).
  { destruct p; [eapply g_weaken; [gF|cbv beta; intros; split; [lia|discriminate]]|apply g_ret; split; [lia|auto]]. }
  intros r [Hr Hz]. apply g_ret. auto.
Qed.
Lemma deltaLf_good dq ibc : good (deltaLfParams dq ibc) (fun r => let '(p, v, m) := r in 0 <= v < 4 /\ 0 <= m < 2 /\ (p = true -> dq = true /\ ibc = false)).
Proof.
  unfold deltaLfParams. destruct dq; [|apply g_ret; repeat split; try lia; discriminate].
  eapply g_bind with (Q := fun p => p = true -> ibc = false).
  { destruct ibc; [apply g_ret; discriminate|eapply g_weaken; [apply g_Fbool|auto]]. }
  intros p Hp. destruct p; [|apply g_ret; repeat split; try lia; discriminate].
  gb r Hr. gb m Hm. apply g_ret. repeat split; try lia. auto.
Qed.
Lemma readDelta_good i l : 0 <= i < zlen l -> Forall delta7 l -> good (readDelta i l) (fun l' => zlen l' = zlen l /\ Forall delta7 l').
Proof.
  intros Hi HF. unfold readDelta. gb u Hu. destruct (u =? 1); [|apply g_ret; auto].
  eapply g_bind; [apply g_Su; lia|]. intros v Hv. cbv beta in Hv. change (2 ^ (1 + 6 - 1)) with 64 in Hv.
  rewrite (upd_ok l i v) by lia. apply g_lift_ok. split; [apply zlen_upd_nat|].
  apply Forall_forall. intros x Hx. destruct (In_nth _ _ 0 Hx) as (n & Hn & <-). rewrite Forall_forall in HF.
  destruct (Nat.eq_dec n (Z.to_nat i)) as [->|Hne].
  - rewrite nth_upd_nat_same by (unfold zlen in *; lia). exact Hv.
  - rewrite nth_upd_nat_other by auto. apply HF. apply nth_In. rewrite upd_nat_length in Hn. exact Hn.
Qed.
Lemma readDeltas_good n l : 0 <= n <= zlen l -> Forall delta7 l -> good (for_to 0 n readDelta l) (fun l' => zlen l' = zlen l /\ Forall delta7 l').
Proof.
  intros Hn HF. apply (g_for_to (fun _ l' => zlen l' = zlen l /\ Forall delta7 l')); [lia|auto|].
  intros j a Hj [H1 H2]. eapply g_weaken; [apply readDelta_good; [lia|exact H2]|]. intros b [A B]. split; [lia|exact B].
Qed.
Definition lf_ok (f : LoopFilter) : Prop :=
  length (LoopFilterLevel f) = 4%nat /\ Forall (fun v => 0 <= v < 64) (LoopFilterLevel f) /\ 0 <= LoopFilterSharpness f < 64 /\
  length (LoopFilterRefDeltas f) = 8%nat /\ Forall delta7 (LoopFilterRefDeltas f) /\
  length (LoopFilterModeDeltas f) = 2%nat /\ Forall delta7 (LoopFilterModeDeltas f).
Lemma default_deltas_ok : zlen defaultRefDeltas = 8 /\ Forall delta7 defaultRefDeltas.
Proof. split; [reflexivity|]. unfold defaultRefDeltas, delta7. repeat constructor; lia. Qed.
Lemma lf_good cl ibc np en0 : good (loopFilterParams cl ibc np en0 defaultRefDeltas [0; 0]) lf_ok.
Proof.
  pose proof default_deltas_ok as [DL DF]. assert (MF : Forall delta7 [0; 0]) by (unfold delta7; repeat constructor; lia).
  unfold loopFilterParams. apply g_if; intros _.
  { apply g_ret. unfold lf_ok. cbn. repeat match goal with |- _ /\ _ => split end; try reflexivity; try lia; try assumption; repeat constructor; lia. }
  gb l0 H0. gb l1 H1. eapply g_bind with (Q := fun r => 0 <= fst r < 64 /\ 0 <= snd r < 64).
  { apply g_if; intros _; [|apply g_ret; cbn; lia]. apply g_if; intros _; [|apply g_ret; cbn; lia]. gb l2 H2. gb l3 H3. apply g_ret. auto. }
  intros [l2 l3] [H2 H3]. cbn [fst snd] in *. gb sharp Hs. gb en Hen.
  assert (K : forall u rd md, zlen rd = 8 -> Forall delta7 rd -> zlen md = 2 -> Forall delta7 md -> lf_ok (mkLoopFilter [l0; l1; l2; l3] sharp en u rd md)).
  { intros u rd md A B C D. unfold lf_ok, zlen in *. cbn. repeat match goal with |- _ /\ _ => split end; try lia; try assumption. repeat constructor; lia. }
  destruct en; [|apply g_ret; apply K; auto].
  gb up Hup. destruct (up =? 1); [|apply g_ret; apply K; auto].
  change TOTAL_REFS_PER_FRAME with 8.
  eapply g_bind; [apply readDeltas_good; [lia|exact DF]|]. intros rd [R1 R2].
  eapply g_bind; [apply readDeltas_good; [change (zlen [0; 0]) with 2; lia|exact MF]|]. intros md [M1 M2]. apply g_ret. apply K; auto; lia.
Qed.

Definition cdef_ok (c : CdefParams) : Prop :=
  3 <= CdefDampening c <= 6 /\ 0 <= CdefBits c <= 3 /\
  Z.of_nat (length (CdefYPri c)) = 2 ^ CdefBits c /\ Z.of_nat (length (CdefYSec c)) = 2 ^ CdefBits c /\
  Z.of_nat (length (CdefUVPri c)) = 2 ^ CdefBits c /\ Z.of_nat (length (CdefUVSec c)) = 2 ^ CdefBits c /\
  Forall (fun v => 0 <= v < 16) (CdefYPri c) /\ Forall valid_sec (CdefYSec c) /\
  Forall (fun v => 0 <= v < 16) (CdefUVPri c) /\ Forall valid_sec (CdefUVSec c).
Lemma bump3_sec v : 0 <= v < 4 -> valid_sec (bump3 v).
Proof. intros H. unfold bump3, valid_sec. assert (K : v = 0 \/ v = 1 \/ v = 2 \/ v = 3) by lia. destruct K as [->|[->|[->| ->]]]; cbn; lia. Qed.
Lemma Forall_map' {A B} (f : A -> B) (P : B -> Prop) l : Forall (fun x => P (f x)) l -> Forall P (map f l).
Proof. induction 1; cbn; constructor; auto. Qed.
Lemma cdef_good cl ibc en np : good (cdefParams cl ibc en np) cdef_ok.
Proof.
  unfold cdefParams. apply g_if; intros _.
  { apply g_ret. unfold cdef_ok, valid_sec. cbn. repeat match goal with |- _ /\ _ => split end; try lia; repeat constructor; lia. }
  gb d Hd. gb bits Hb.
  eapply g_bind.
  { apply (g_times _ (fun x => 0 <= fst (fst x) < 16 /\ valid_sec (snd (fst x)) /\ 0 <= fst (snd x) < 16 /\ valid_sec (snd (snd x)))).
    unfold readCdefStrength. gb yp Hyp. gb ys Hys.
    eapply g_bind with (Q := fun x => 0 <= fst x < 16 /\ valid_sec (snd x)).
    { apply g_if; intros _; [|apply g_ret; cbn; unfold valid_sec; lia]. gb a Ha. gb b Hb'. apply g_ret. cbn. split; [lia|apply bump3_sec; lia]. }
    intros uv [U1 U2]. apply g_ret. cbn. split; [lia|]. split; [apply bump3_sec; lia|auto]. }
  intros l [HL HF]. apply g_ret. unfold cdef_ok. cbn [CdefDampening CdefBits CdefYPri CdefYSec CdefUVPri CdefUVSec]. rewrite !map_length, HL.
  assert (ES : Z.of_nat (Z.to_nat (shl 1 bits)) = 2 ^ bits).
  { assert (K : bits = 0 \/ bits = 1 \/ bits = 2 \/ bits = 3) by lia. destruct K as [->|[->|[->| ->]]]; reflexivity. }
  repeat match goal with |- _ /\ _ => split end; try lia; try exact ES; apply Forall_map'; (eapply Forall_impl; [|exact HF]; cbv beta; tauto).
Qed.

Definition lr_ok (np : Z) (size0 : list Z) (l : LrParams) : Prop :=
  length (FrameRestorationType l) = 3%nat /\ Forall (fun t => 0 <= t <= 3) (FrameRestorationType l) /\
  (UsesLr l = false -> FrameRestorationType l = [0; 0; 0] /\ LoopRestorationSize l = size0) /\
  (UsesLr l = true -> exists s0 s1, LoopRestorationSize l = [s0; s1; s1] /\ (s0 = 64 \/ s0 = 128 \/ s0 = 256) /\ (s1 = s0 \/ 2 * s1 = s0)).
Lemma lr_types_step types i ty uses (chroma : bool) : 0 <= i < 3 -> length types = 3%nat -> Forall (fun t => 0 <= t <= 3) types -> 0 <= ty <= 3 ->
  (uses = false -> types = [0; 0; 0]) ->
  let types' := upd_nat types (Z.to_nat i) ty in
  length types' = 3%nat /\ Forall (fun t => 0 <= t <= 3) types' /\ ((if negb (ty =? 0) then true else uses) = false -> types' = [0; 0; 0]).
Proof.
  intros Hi HL HF Ht HU. destruct types as [|a [|b [|c [|? ?]]]]; try discriminate.
  inversion HF as [|? ? Ha HF1]; subst. inversion HF1 as [|? ? Hb HF2]; subst. inversion HF2 as [|? ? Hc _]; subst.
  assert (K : i = 0 \/ i = 1 \/ i = 2) by lia.
  destruct K as [->|[->| ->]]; cbn; (split; [reflexivity|]); (split; [repeat constructor; lia|]);
    destruct (Z.eqb_spec ty 0); cbn; try discriminate; intros U; specialize (HU U); injection HU as -> -> ->; subst; reflexivity.
Qed.
Lemma remap_range x ty : 0 <= x < 4 -> idx REMAP_LR_TYPE x = Ok ty -> 0 <= ty <= 3.
Proof. intros H E. assert (K : x = 0 \/ x = 1 \/ x = 2 \/ x = 3) by lia. destruct K as [->|[->|[->| ->]]]; vm_compute in E; injection E as <-; lia. Qed.
Lemma lr_good al ibc en use128 sx sy np size0 : 0 <= np <= 3 -> good (lrParams al ibc en use128 sx sy np size0) (lr_ok np size0).
Proof.
  intros Hnp. unfold lrParams. apply g_if; intros _.
  { apply g_ret. unfold lr_ok. cbn. repeat split; try reflexivity; try discriminate. repeat constructor; vm_compute; discriminate. }
  eapply g_bind.
  { apply (g_for_to (fun _ (acc : list Z * bool * bool) => let '(types, uses, chroma) := acc in
       length types = 3%nat /\ Forall (fun t => 0 <= t <= 3) types /\ (uses = false -> types = [0; 0; 0]))).
    - lia.
    - cbn. repeat split; try reflexivity. repeat constructor; lia.
    - intros i [[types uses] chroma] Hi (A & B & C). gb x Hx.
      eapply g_bind with (Q := fun ty => 0 <= ty <= 3); [apply g_lift; [apply idx_no_hang|]; intros ty E; apply (remap_range x ty Hx E)|]. intros ty Hty.
      rewrite (upd_ok types i ty) by (unfold zlen; rewrite A; lia).
      eapply g_bind with (Q := fun t' => t' = upd_nat types (Z.to_nat i) ty); [apply g_lift_ok; reflexivity|]. intros t' ->.
      pose proof (lr_types_step types i ty uses chroma ltac:(lia) A B Hty C) as (D & E & G). cbv zeta in *.
      change RESTORE_NONE with 0. destruct (negb (ty =? 0)); apply g_ret; auto. }
  intros [[types uses] chroma] (A & B & C). destruct uses.
  - assert (HS : forall b, shr RESTORATION_TILESIZE_MAX (2 - b) = 256 / 2 ^ (2 - b) \/ True) by auto.
    eapply g_bind with (Q := fun sft => sft = 0 \/ sft = 1 \/ sft = 2).
    { destruct use128; [gb x Hx; apply g_ret; lia|]. gb x Hx. destruct (bool_of x) eqn:Ebx; [|apply g_ret; lia].
      gb e He. apply g_ret. lia. }
    intros sft Hs.
    eapply g_bind with (Q := fun uv => uv = 0 \/ uv = 1).
    { apply g_if; intros _; [eapply g_weaken; [gF|cbv beta; lia]|apply g_ret; auto]. }
    intros uv Hu. cbv zeta. apply g_ret. unfold lr_ok. cbn [FrameRestorationType UsesLr LoopRestorationSize].
    split; [exact A|]. split; [exact B|]. split; [discriminate|]. intros _.
    eexists. eexists. split; [reflexivity|].
    destruct Hs as [->|[->| ->]]; destruct Hu as [->| ->]; vm_compute; intuition congruence.
  - apply g_ret. unfold lr_ok. cbn. split; [exact A|]. split; [exact B|]. split; [auto|discriminate].
Qed.

Lemma txMode_good cl : good (readTxMode cl) (fun t => (cl = true -> t = 0) /\ (t = 0 \/ t = 1 \/ t = 2)).
Proof. unfold readTxMode. destruct cl; [apply g_ret; auto|]. gb b Hb. apply g_ret. split; [discriminate|]. destruct b; vm_compute; auto. Qed.
Lemma gmType_good : good readGmType (fun t => 0 <= t <= 3).
Proof.
  unfold readGmType. gb a Ha. apply g_if; intros _; [|apply g_ret; vm_compute; split; discriminate].
  gb b Hb. apply g_if; intros _; [apply g_ret; vm_compute; split; discriminate|]. gb c Hc. apply g_ret. destruct (bool_of c); vm_compute; split; discriminate.
Qed.
Lemma gm_good intra t0 : good (globalMotionParams intra t0) (fun r => length (fst r) = 8%nat /\ Forall (fun t => 0 <= t <= 3) (tl (fst r)) /\
  snd r = [0;0;0;0;0;0] :: repeat gmIdentity 7 /\ (intra = true -> tl (fst r) = repeat 0 7)).
Proof.
  unfold globalMotionParams. cbv zeta. destruct intra.
  - apply g_ret. cbn. repeat split. repeat constructor; vm_compute; discriminate.
  - eapply g_bind; [apply (g_times readGmType _ 7 gmType_good)|]. intros t [L HF]. apply g_ret. cbn [fst snd tl length]. rewrite L. repeat split; [exact HF|discriminate].
Qed.
(** GetRelativeDist with order hints disabled in the receiver is always 0, so neither loop finds a reference. *)
Lemma skipForward_off bits refIdx hints oh r : skipForward false bits refIdx hints oh = Ok r -> r = (-1, 0, -1, 0).
Proof.
  unfold skipForward, rfor_to.
  match goal with |- rfor_from _ _ ?b ?a = _ -> _ => enough (G : forall n i, rfor_from n i b a = Ok r -> r = a) by apply G end.
  intros n. induction n as [|n IH]; intros i E; [cbn in E; congruence|].
  cbn [rfor_from] in E.
  destruct (idx refIdx i) as [ri| |]; try discriminate. cbn [rbind] in E.
  destruct (idx hints ri) as [h| |]; try discriminate. cbn [rbind] in E. cbn [GetRelativeDist negb rbind] in E.
  exact (IH (i + 1) E).
Qed.
Lemma rfor_no_hang {A} n : forall i (body : Z -> A -> res A) acc, (forall j a, body j a <> Hang) -> rfor_from n i body acc <> Hang.
Proof.
  induction n as [|n IH]; intros i body acc H; [discriminate|]. cbn [rfor_from]. pose proof (H i acc) as K.
  destruct (body i acc) as [a| |]; cbn [rbind]; [|discriminate|congruence]. apply IH. exact H.
Qed.
Lemma GetRelativeDist_no_hang en b x y : GetRelativeDist en b x y <> Hang.
Proof. unfold GetRelativeDist. destruct en; cbn; [|discriminate]. destruct (_ <? 0); discriminate. Qed.
Lemma skipForward_no_hang en bits refIdx hints oh : skipForward en bits refIdx hints oh <> Hang.
Proof.
  apply rfor_no_hang. intros j [[[fi fh] bi] bh].
  pose proof (idx_no_hang refIdx j). destruct (idx refIdx j) as [ri| |]; cbn [rbind]; try congruence.
  pose proof (idx_no_hang hints ri). destruct (idx hints ri) as [h| |]; cbn [rbind]; try congruence.
  pose proof (GetRelativeDist_no_hang en bits h oh). destruct (GetRelativeDist en bits h oh) as [d| |]; cbn [rbind]; try congruence.
  destruct (d <? 0).
  - destruct (fi <? 0); [discriminate|]. pose proof (GetRelativeDist_no_hang en bits h fh). destruct (GetRelativeDist en bits h fh) as [d2| |]; cbn [rbind]; try congruence.
    destruct (0 <? d2); discriminate.
  - destruct (0 <? d); [|discriminate]. destruct (bi <? 0); [discriminate|].
    pose proof (GetRelativeDist_no_hang en bits h bh). destruct (GetRelativeDist en bits h bh) as [d2| |]; cbn [rbind]; try congruence. destruct (0 <? d2); discriminate.
Qed.
Lemma skip_good intra rsel bits refIdx hints oh : good (skipModeParams intra rsel false bits refIdx hints oh) (fun p => p = 0).
Proof.
  unfold skipModeParams. apply g_if; intros _; [apply g_ret; reflexivity|].
  eapply g_bind with (Q := fun r => r = (-1, 0, -1, 0)).
  { apply g_lift; [apply skipForward_no_hang|]. intros r. apply skipForward_off. }
  intros r ->. cbv beta iota. change (-1 <? 0) with true. apply g_ret. reflexivity.
Qed.

(* ------------------------------------------------------------ film grain *)
Definition grain_ok (g : Grain) : Prop :=
  0 <= GrainSeed g < 65536 /\ (length (PointY g) < 16)%nat /\ (length (PointCb g) < 16)%nat /\ (length (PointCr g) < 16)%nat /\
  Forall point_ok (PointY g) /\ Forall point_ok (PointCb g) /\ Forall point_ok (PointCr g) /\
  0 <= GrainScalingMinus8 g < 4 /\ 0 <= ArCoeffLag g < 4 /\ Forall byte (ArCoeffsY g) /\ Forall byte (ArCoeffsCb g) /\ Forall byte (ArCoeffsCr g) /\
  (length (ArCoeffsY g) <= 24)%nat /\ (length (ArCoeffsCb g) <= 25)%nat /\ (length (ArCoeffsCr g) <= 25)%nat.
Lemma noGrain_ok : grain_ok noGrain.
Proof. unfold grain_ok, noGrain. cbn. repeat match goal with |- _ /\ _ => split end; try lia; constructor. Qed.
Lemma point_good : good readPoint point_ok.
Proof. unfold readPoint. gb a Ha. gb b Hb. apply g_ret. split; assumption. Qed.
Lemma points_good n : 0 <= n < 16 -> good (times (Z.to_nat n) readPoint) (fun l => (length l < 16)%nat /\ Forall point_ok l).
Proof. intros H. eapply g_weaken; [apply (g_times _ _ _ point_good)|]. intros l [L HF]. split; [lia|exact HF]. Qed.
Lemma bytes_good n m : n <= Z.of_nat m -> good (times (Z.to_nat n) (F 8)) (fun l => (length l <= m)%nat /\ Forall byte l).
Proof. intros H. eapply g_weaken; [apply (g_times (F 8) byte); gF|]. intros l [L HF]. split; [lia|exact HF]. Qed.
Lemma grain_good present sf shf ty mono sx sy : good (filmGrainParams present sf shf ty mono sx sy) grain_ok.
Proof.
  unfold filmGrainParams. apply g_if; intros _; [apply g_ret, noGrain_ok|].
  gb ap Hap. apply g_if; intros _; [apply g_ret, noGrain_ok|]. gb seed Hseed.
  eapply g_bind with (Q := fun _ => True); [apply g_if; intros _; [gF|apply g_ret; exact I]|]. intros up _.
  apply g_if; intros _; [gb i Hi; apply g_panic|].
  gb ny Hny. eapply g_bind; [apply points_good; exact Hny|]. intros py [Y1 Y2].
  eapply g_bind with (Q := fun _ => True); [apply g_if; intros _; [apply g_ret; exact I|gF]|]. intros cfl _.
  eapply g_bind with (Q := fun r => let '(ncb, pcb, ncr, pcr) := r in (length pcb < 16)%nat /\ Forall point_ok pcb /\ (length pcr < 16)%nat /\ Forall point_ok pcr).
  { apply g_if; intros _; [apply g_ret; cbn; repeat split; try lia; constructor|].
    gb ncb Hncb. eapply g_bind; [apply points_good; exact Hncb|]. intros pcb [B1 B2].
    gb ncr Hncr. eapply g_bind; [apply points_good; exact Hncr|]. intros pcr [C1 C2]. apply g_ret. auto. }
  intros [[[ncb pcb] ncr] pcr] (B1 & B2 & C1 & C2). cbv beta iota. gb gs Hgs. gb lag Hlag. cbv zeta.
  assert (HL : 2 * lag * (lag + 1) <= 24) by nia.
  eapply g_bind with (Q := fun l => (length l <= 24)%nat /\ Forall byte l).
  { apply g_if; intros _; [apply bytes_good; lia|apply g_ret; split; [cbn; lia|constructor]]. }
  intros ay [A1 A2].
  assert (HC : (if bool_of ny then 2 * lag * (lag + 1) + 1 else 2 * lag * (lag + 1)) <= 25) by (destruct (bool_of ny); lia).
  eapply g_bind with (Q := fun l => (length l <= 25)%nat /\ Forall byte l).
  { apply g_if; intros _; [apply bytes_good; lia|apply g_ret; split; [cbn; lia|constructor]]. }
  intros acb [D1 D2].
  eapply g_bind with (Q := fun l => (length l <= 25)%nat /\ Forall byte l).
  { apply g_if; intros _; [apply bytes_good; lia|apply g_ret; split; [cbn; lia|constructor]]. }
  intros acr [E1 E2]. gb sft Hsft. gb gsf Hgsf.
  eapply g_bind with (Q := fun _ => True).
  { apply g_if; intros _; [|apply g_ret; exact I]. gb a Ha. gb b Hb. gb c Hc. apply g_ret. exact I. }
  intros cb _. eapply g_bind with (Q := fun _ => True).
  { apply g_if; intros _; [|apply g_ret; exact I]. gb a Ha. gb b Hb. gb c Hc. apply g_ret. exact I. }
  intros cr _. gb ov Hov. gb cl Hcl. destruct cb as [[? ?] ?], cr as [[? ?] ?]. apply g_ret. unfold grain_ok. cbn.
  repeat match goal with |- _ /\ _ => split end; try lia; assumption.
Qed.
