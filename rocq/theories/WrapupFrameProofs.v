(** Proofs about decodeFrameWrapup. *)
From Verif Require Import GoBase Util UtilProofs Constants Frame Writes LoopFilter Cdef Upscale UpscaleProofs Restoration RestorationProofs Wrapup SpecReference WrapupProofs.

Lemma outPlane_writes V w h g g' : outPlane V w h g = Ok g' -> writes get2 (fun q => V (fst q) (snd q)) (fun q => exists x, 0 <= x < w /\ exists y, 0 <= y < h /\ q = (y, x)) g g'.
Proof.
  unfold outPlane. apply writes_loop; [intros; apply decided_range; intros; apply decided_eq2|]. intros x a a' Hx. apply writes_loop; [intros; apply decided_eq2|]. intros y b b' Hy H.
  apply rbind_inv in H as (v & Ev & H). eapply writes_upd2; [|exact H]. exact Ev.
Qed.
Lemma outPlane_shape V w h g g' n m : array2 n m g -> outPlane V w h g = Ok g' -> array2 n m g'.
Proof. intros HG. unfold outPlane. apply rfor_to_keep; [exact HG|]. intros x b b' _ Hb. apply rfor_to_keep; [exact Hb|]. intros y c c' _ Hc H. apply rbind_inv in H as (v & _ & H). exact (array2_upd _ _ _ _ _ _ _ Hc H). Qed.
Lemma outPlane_at V w h g g' y x : outPlane V w h g = Ok g' -> 0 <= y < h -> 0 <= x < w -> copied (V y x) (idx2 g' y x).
Proof. intros H Hy Hx. destruct (outPlane_writes _ _ _ _ _ H) as [W _]. destruct (W (y, x)) as (v & E & G); [exists x; split; [exact Hx|]; exists y; split; [exact Hy|reflexivity]|]. exists v. split; [exact E|exact G]. Qed.

Lemma existing_transposed s o o' y x : outExisting s o = Ok o' -> sSubX s = 0 -> sSubY s = 0 -> 0 <= y < sFrameHeight s -> 0 <= x < sUpscaledWidth s ->
  copied (idx3 (sStore s) 0 y x) (idx2 (oY o') y x) /\ copied (idx3 (sStore s) 1 x y) (idx2 (oU o') y x) /\ copied (idx3 (sStore s) 2 x y) (idx2 (oV o') y x).
Proof.
  intros H HX HY Hy Hx. unfold outExisting in H. cbv zeta in H. rewrite HX, HY in H. unfold shr in H. rewrite !Z.shiftr_0_r, !Z.add_0_r in H. apply rbind_inv in H as (yy & E1 & H). apply rbind_inv in H as (uu & E2 & H). apply rbind_inv in H as (vv & E3 & H). injection H as <-. cbn [oY oU oV].
  split; [exact (outPlane_at _ _ _ _ _ _ _ E1 Hy Hx)|]. split; [exact (outPlane_at _ _ _ _ _ _ _ E2 Hy Hx)|exact (outPlane_at _ _ _ _ _ _ _ E3 Hy Hx)].
Qed.
Lemma output_inv op fg ag prep o : outputProcess op fg ag prep = Ok o -> op = 0 /\ prep = Ok o /\ fg && ag = false.
Proof.
  unfold outputProcess. destruct (Z.eqb_spec op 0) as [->|N]; cbn [negb]; [|discriminate]. intros H. apply rbind_inv in H as (o1 & E & H). destruct (fg && ag); [discriminate|]. injection H as <-. auto.
Qed.
Lemma filter_luma w curr cdef curr' cdef' lr : 2 <= lfBitDepth (wLf w) -> 1 <= lfNumPlanes (wLf w) -> 0 < wUpscaledWidth w < 2 ^ 31 -> 0 < lfFrameHeight (wLf w) < 2 ^ 31 -> filterFrame w curr cdef = Ok (curr', cdef', lr) ->
  wUpscaledWidth w <= 9 /\ lfFrameHeight (wLf w) <= 9 /\ forall y x, 0 <= y < lfFrameHeight (wLf w) -> 0 <= x < wUpscaledWidth w -> idx3 lr 0 y x = Ok 2.
Proof.
  intros Hb Hn Hw Hh H. change (2 ^ 31) with 2147483648 in *. unfold filterFrame in H. do 4 (apply rbind_inv in H as (? & _ & H)). apply rbind_inv in H as (uc & EU & H). apply rbind_inv in H as (ucur & _ & H). apply rbind_inv in H as (l & EL & H). injection H as _ _ <-.
  assert (HA : forall y x, 0 <= y < lfFrameHeight (wLf w) -> 0 <= x < wUpscaledWidth w -> idx3 uc 0 y x = Ok 2).
  { intros y xx Hy Hx. destruct (upscaling_writes (uenvOf w) _ _ Hb ltac:(cbn; change (2 ^ 32) with 4294967296; lia) ltac:(cbn; change (2 ^ 32) with 4294967296; lia) EU) as [W _].
    destruct (W (0, y, xx)) as (v & [= <-] & G); [|exact G]. exists 0. split; [cbn; lia|]. exists y. change (sub_shift 0 _) with 0. unfold half_up. change (2 ^ 0) with 1. rewrite !Z.div_1_r, !Z.add_0_r. split; [exact Hy|]. exists xx. split; [exact Hx|reflexivity]. }
  pose proof (upscaling_shape _ _ _ EU) as HS. pose proof (proj1 (array3_get 3 9 9 uc 0 (lfFrameHeight (wLf w) - 1) (wUpscaledWidth w - 1) HS) (ex_intro _ _ (HA (lfFrameHeight (wLf w) - 1) (wUpscaledWidth w - 1) ltac:(lia) ltac:(lia)))) as HB.
  split; [lia|]. split; [lia|]. intros y xx Hy Hx. destruct (restoration_defined (renvOf w uc ucur) l Hb EL (0, y, xx)) as [v Ev]; [exists 2; exact (HA y xx Hy Hx)|].
  destruct (restoration_values (renvOf w uc ucur) l Hb EL (0, y, xx) v Ev) as [->|E]; [exact Ev|]. change (idx3 uc 0 y xx = Ok v) in E. rewrite HA in E by assumption. injection E as <-. exact Ev.
Qed.
(** what a completed call did *)
Lemma wrapup_inv w lr x x' : wShowExisting w = false -> decodeFrameWrapup w lr x = Ok x' -> exists curr cdef lr', filterFrame w (xCurr x) (xCdef x) = Ok (curr, cdef, lr') /\ refUpdate (infoOf w lr' (xSegIds x')) (xSlots x) = Ok (xSlots x') /\
  (wShowFrame w = true -> wOperatingPointIdc w = 0 /\ wFilmGrainPresent w && wApplyGrain w = false /\ outNew lr' (wUpscaledWidth w) (lfFrameHeight (wLf w)) (lfSubX (wLf w)) (lfSubY (wLf w)) (xOut x) = Ok (xOut x')) /\
  (wShowFrame w = false -> xOut x' = xOut x).
Proof.
  intros HE H. unfold decodeFrameWrapup in H. rewrite HE in H. cbn [negb] in H. apply rbind_inv in H as ([[[curr cdef] lr'] segs] & E & H). apply rbind_inv in E as ([[c1 c2] l1] & EF & E). apply rbind_inv in E as (sg & _ & E). injection E as -> -> -> ->.
  apply rbind_inv in H as (slots & ER & H). apply rbind_inv in H as (o & EO & H). injection H as <-. cbn [xSegIds xSlots xOut]. exists curr, cdef, lr'. split; [exact EF|]. split; [exact ER|]. destruct (wShowFrame w); cbn [orb] in EO.
  - split; [|discriminate]. intros _. apply output_inv in EO. tauto.
  - split; [discriminate|]. intros _. congruence.
Qed.
Lemma wrapup_slots w lr x x' : wShowExisting w = false -> zlen (xSlots x) = 8 -> decodeFrameWrapup w lr x = Ok x' ->
  exists lr', (forall i, 0 <= i < 8 -> exists s s', idx (xSlots x) i = Ok s /\ idx (xSlots x') i = Ok s' /\ if Z.testbit (wRefresh w) i then saved (infoOf w lr' (xSegIds x')) s s' else s' = s) /\
  (wShowFrame w = false -> xOut x' = xOut x).
Proof. intros HE HZ H. destruct (wrapup_inv w lr x x' HE H) as (curr & cdef & lr' & _ & ER & _ & HO). exists lr'. split; [|exact HO]. exact (refUpdate_post _ _ _ HZ ER). Qed.
Lemma wrapup_output w lr x x' : wShowExisting w = false -> 2 <= lfBitDepth (wLf w) -> 1 <= lfNumPlanes (wLf w) -> 0 < wUpscaledWidth w < 2 ^ 31 -> 0 < lfFrameHeight (wLf w) < 2 ^ 31 ->
  zlen (xSlots x) = 8 -> array2 1 1 (oY (xOut x)) -> decodeFrameWrapup w lr x = Ok x' ->
  wUpscaledWidth w <= 9 /\ lfFrameHeight (wLf w) <= 9 /\
  (forall i s, 0 <= i < 8 -> Z.testbit (wRefresh w) i = true -> idx (xSlots x') i = Ok s -> forall y c, 0 <= y < lfFrameHeight (wLf w) -> 0 <= c < wUpscaledWidth w -> idx3 (sStore s) 0 y c = Ok 2) /\
  (wShowFrame w = true -> wUpscaledWidth w = 1 /\ lfFrameHeight (wLf w) = 1 /\ oY (xOut x') = [[2]]).
Proof.
  intros HE Hb Hn Hw Hh HZ HO H. destruct (wrapup_inv w lr x x' HE H) as (curr & cdef & lr' & EF & ER & HS & _). destruct (filter_luma _ _ _ _ _ _ Hb Hn Hw Hh EF) as (W9 & H9 & L).
  split; [exact W9|]. split; [exact H9|]. split.
  - intros i s Hi Ht Es y c Hy Hc. destruct (refUpdate_post _ _ _ HZ ER i Hi) as (s0 & s1 & _ & E1 & K). rewrite Es in E1. injection E1 as <-. change (iRefresh (infoOf w lr' (xSegIds x'))) with (wRefresh w) in K. rewrite Ht in K. destruct K as (_ & K & _).
    destruct (K 0 y c ltac:(lia) Hy Hc) as (v & G1 & G2). change (idx3 lr' 0 y c = Ok v) in G1. rewrite L in G1 by assumption. injection G1 as <-. exact G2.
  - intros HF. destruct (HS HF) as (_ & _ & EO). unfold outNew in EO. cbv zeta in EO. apply rbind_inv in EO as (yy & EY & EO). apply rbind_inv in EO as (uu & _ & EO). apply rbind_inv in EO as (vv & _ & EO). injection EO as <-. cbn [oY].
    assert (G : forall y c, 0 <= y < lfFrameHeight (wLf w) -> 0 <= c < wUpscaledWidth w -> idx2 yy y c = Ok 2). { intros y c Hy Hc. destruct (outPlane_at _ _ _ _ _ _ _ EY Hy Hc) as (v & G1 & G2). rewrite L in G1 by assumption. injection G1 as <-. exact G2. }
    pose proof (outPlane_shape _ _ _ _ _ _ _ HO EY) as SY. pose proof (proj1 (array2_get 1 1 yy _ _ SY) (ex_intro _ _ (G (lfFrameHeight (wLf w) - 1) (wUpscaledWidth w - 1) ltac:(lia) ltac:(lia)))) as B.
    split; [lia|]. split; [lia|]. specialize (G 0 0 ltac:(lia) ltac:(lia)). destruct SY as [Z1 F]. destruct yy as [|r [|? yy]]; try (unfold zlen in Z1; cbn in Z1; lia). apply Forall_inv in F. destruct r as [|v [|? r]]; try (unfold array1, zlen in F; cbn in F; lia).
    unfold idx2 in G. cbn in G. injection G as ->. reflexivity.
Qed.
Lemma wrapup_shown w lr x x' : wShowFrame w = true -> decodeFrameWrapup w lr x = Ok x' -> wOperatingPointIdc w = 0 /\ wFilmGrainPresent w && wApplyGrain w = false.
Proof.
  intros HF H. unfold decodeFrameWrapup in H. apply rbind_inv in H as ([[[curr cdef] lr'] segs] & _ & H). apply rbind_inv in H as (slots & _ & H). apply rbind_inv in H as (o & EO & _). rewrite HF in EO. cbn [orb] in EO. apply output_inv in EO. tauto.
Qed.
Lemma wrapup_operating_point w lr x : wShowFrame w = true -> wOperatingPointIdc w <> 0 -> forall x', decodeFrameWrapup w lr x <> Ok x'.
Proof. intros HF HO x' H. apply HO. exact (proj1 (wrapup_shown _ _ _ _ HF H)). Qed.
Lemma wrapup_film_grain w lr x : wShowFrame w = true -> wFilmGrainPresent w = true -> wApplyGrain w = true -> forall x', decodeFrameWrapup w lr x <> Ok x'.
Proof. intros HF HP HA x' H. apply wrapup_shown in H as [_ H]; [|exact HF]. rewrite HP, HA in H. discriminate. Qed.
Lemma wrapup_repeat_key w lr x : wShowExisting w = true -> wFrameType w = KEY_FRAME -> forall x', decodeFrameWrapup w lr x <> Ok x'.
Proof.
  intros HE HK x' H. unfold decodeFrameWrapup in H. rewrite HE, HK in H. cbn [negb] in H. rewrite Z.eqb_refl in H. apply rbind_inv in H as (r & E & _). apply rbind_inv in E as (s & _ & E). apply rbind_inv in E as (l & E & _).
  unfold refLoad in E. apply rbind_inv in E as (? & _ & E). apply rbind_inv in E as (? & _ & E). discriminate.
Qed.
