From Verif Require Import GoBase Bitstream SpecBits SpecStream BitstreamProofs ReaderOps Parses SafeParse Yields Util UtilProofs
  Constants Tables SequenceHeader SequenceHeaderProofs SymbolProofs TileInfo SpecTiles TileInfoProofs UncompressedHeader SpecHeader.

(* ------------------------------------------------------------ round trips *)
Lemma parses_times {A X} (m : BS A) (enc : X -> list bool) (dec : X -> A) l n : n = length l ->
  (forall x, In x l -> parses m (enc x) (dec x)) -> parses (times n m) (flat_map enc l) (map dec l).
Proof.
  intros ->. induction l as [|x l IH]; intros H; cbn [times flat_map map length].
  - apply parses_ret.
  - eapply parses_bind; [apply H; left; reflexivity|]. cbv beta.
    eapply parses_bind_end; [apply IH; intros y Hy; apply H; right; exact Hy|]. apply parses_ret.
Qed.

Lemma parses_delta_q d : valid_delta_q d -> parses readDeltaQ (enc_delta_q d) (dq d).
Proof.
  intros H. unfold readDeltaQ. destruct d as [v|]; cbn [enc_delta_q dq].
  - eapply parses_bind; [apply parses_Fbool|]. cbv beta iota. change (1 + 6) with (Z.of_nat 7). apply parses_Su; [lia|].
    cbn in H. change (2 ^ (Z.of_nat 7 - 1)) with 64. lia.
  - eapply parses_bind_end; [apply parses_Fbool|]. apply parses_ret.
Qed.

Definition decoded_quant (numPlanes : Z) (separate : bool) (q : spec_quant) : Quant :=
  let '(y, u, v) := match sq_qm q with Some x => x | None => (0, 0, 0) end in
  let uv := 1 <? numPlanes in
  mkQuant (sq_base q) (dq (sq_ydc q)) (if uv then dq (sq_udc q) else 0) (if uv then dq (sq_uac q) else 0)
    (if uv then if sq_diff q then dq (sq_vdc q) else dq (sq_udc q) else 0)
    (if uv then if sq_diff q then dq (sq_vac q) else dq (sq_uac q) else 0)
    (match sq_qm q with Some _ => true | None => false end) y u v.

Lemma parses_quant numPlanes separate q : valid_quant separate q ->
  parses (quantizationParams numPlanes separate) (enc_quant numPlanes separate q) (decoded_quant numPlanes separate q).
Proof.
  intros (Hb & Hy & Hu1 & Hu2 & Hv1 & Hv2 & Hd & Hm). unfold quantizationParams, enc_quant.
  eapply parses_bind; [apply parses_F; [reflexivity|exact Hb|lia]|]. cbv beta.
  eapply parses_bind; [apply parses_delta_q; exact Hy|]. cbv beta.
  eapply parses_bind with (a := ((if 1 <? numPlanes then dq (sq_udc q) else 0), (if 1 <? numPlanes then dq (sq_uac q) else 0),
    (if 1 <? numPlanes then if sq_diff q then dq (sq_vdc q) else dq (sq_udc q) else 0),
    (if 1 <? numPlanes then if sq_diff q then dq (sq_vac q) else dq (sq_uac q) else 0))).
  - destruct (1 <? numPlanes); [|apply parses_ret].
    eapply parses_bind; [apply parses_if_Fbool; destruct separate; [discriminate|]; intros _; destruct (sq_diff q); [discriminate Hd; reflexivity|reflexivity]|].
    cbv beta.
    eapply parses_bind; [apply parses_delta_q; exact Hu1|]. cbv beta.
    eapply parses_bind; [apply parses_delta_q; exact Hu2|]. cbv beta.
    destruct (sq_diff q).
    + eapply parses_bind; [apply parses_delta_q; exact Hv1|]. cbv beta.
      eapply parses_bind_end; [apply parses_delta_q; exact Hv2|]. apply parses_ret.
    + apply parses_ret.
  - cbv beta iota. unfold decoded_quant. destruct (sq_qm q) as [[[y u] v]|].
    + destruct Hm as (M1 & M2 & M3 & M4).
      eapply parses_bind; [apply parses_Fbool|]. cbv beta iota.
      eapply parses_bind; [apply parses_F; [reflexivity|lia|lia]|]. cbv beta.
      eapply parses_bind; [apply parses_F; [reflexivity|lia|lia]|]. cbv beta.
      destruct separate; cbn [negb].
      * eapply parses_bind_end; [apply parses_F; [reflexivity|lia|lia]|]. apply parses_ret.
      * rewrite M4 by reflexivity. eapply parses_bind0; [apply parses_ret|]. apply parses_ret.
    + eapply parses_bind_end; [apply parses_Fbool|]. cbv beta iota. apply parses_ret.
Qed.

(* ------------------------------------------------------------ segmentation *)
(** What the code makes of a coded feature: feature 5 (the reference frame) is read as a signed number of 3 bits and then
    clipped at 0, so the frames 4..7 become 0. *)
Definition code_feature (j : nat) (v : Z) : Z := if (j =? 5)%nat then if v <? 4 then v else 0 else v.
Definition dec_feature (j : nat) (f : option Z) : Z * Z :=
  match f with Some v => (1, code_feature j v) | None => (0, 0) end.
Fixpoint dec_features (j : nat) (l : list (option Z)) : list (Z * Z) :=
  match l with [] => [] | f :: t => dec_feature j f :: dec_features (S j) t end.

Ltac powlia := repeat match goal with |- context[2 ^ ?e] => let x := eval vm_compute in (2 ^ e) in change (2 ^ e) with x end; lia.
Lemma Clip3_id lo hi v : lo <= v <= hi -> Clip3 lo hi v = v.
Proof. intros H. unfold Clip3. destruct (Z.ltb_spec v lo); [lia|]. destruct (Z.ltb_spec hi v); lia. Qed.

(** Reading an unsigned n-bit value with su(n). *)
Lemma parses_Su_unsigned n v : (1 <= n <= 62)%nat -> 0 <= v < 2 ^ Z.of_nat n ->
  parses (Su (Z.of_nat n)) (enc_f n v) (if v <? 2 ^ (Z.of_nat n - 1) then v else v - 2 ^ Z.of_nat n).
Proof.
  intros Hn Hv. set (w := if v <? 2 ^ (Z.of_nat n - 1) then v else v - 2 ^ Z.of_nat n).
  assert (E : enc_f n v = enc_su n w).
  { unfold enc_su, w. f_equal. destruct (v <? 2 ^ (Z.of_nat n - 1)); [rewrite Z.mod_small; lia|].
    replace (v - 2 ^ Z.of_nat n) with (v + (-1) * 2 ^ Z.of_nat n) by ring. rewrite Z.mod_add by lia. rewrite Z.mod_small; lia. }
  rewrite E. apply parses_Su; [exact Hn|].
  assert (2 ^ Z.of_nat n = 2 * 2 ^ (Z.of_nat n - 1)) by (rewrite <- Z.pow_succ_r by lia; f_equal; lia).
  unfold w. destruct (Z.ltb_spec v (2 ^ (Z.of_nat n - 1))); lia.
Qed.

Lemma parses_Su0 : parses (Su 0) [] 0.
Proof. intros s _. cbn [length]. change (Z.of_nat 0) with 0. rewrite adv_0. reflexivity. Qed.
Lemma parses_feature j f : (j < 8)%nat -> valid_feature j f -> parses (readFeature (Z.of_nat j)) (enc_feature j f) (dec_feature j f).
Proof.
  intros Hj Hv. unfold readFeature. destruct f as [v|]; cbn [enc_feature dec_feature].
  - eapply parses_bind; [apply parses_F1|]. cbv beta. change (b2z true =? 1) with true. cbv iota.
    do 8 (destruct j as [|j]; [cbn in Hv;
      (eapply parses_bind0; [apply parses_lift; reflexivity|]; cbv beta);
      (eapply parses_bind0; [apply parses_lift; reflexivity|]; cbv beta);
      (eapply parses_bind0; [apply parses_lift; reflexivity|]; cbv beta iota); cbn [Z.eqb Pos.eqb]; cbv iota;
      cbn [seg_signed Nat.ltb Nat.leb seg_bits nth];
      first
       [ eapply parses_bind_end; [match goal with |- parses (Su ?m) (enc_su ?n _) _ => change m with (Z.of_nat n) end; apply parses_Su; [lia|powlia]|];
         cbv beta; rewrite Clip3_id by lia; apply parses_ret
       | eapply parses_bind_end; [change 3 with (Z.of_nat 3); apply parses_Su_unsigned; [lia|powlia]|]; cbv beta;
         match goal with |- context[Clip3 0 7 ?x] => replace (Clip3 0 7 x) with (code_feature 5 v); [apply parses_ret|] end; unfold code_feature; cbn [Nat.eqb];
         change (2 ^ (Z.of_nat 3 - 1)) with 4; change (2 ^ Z.of_nat 3) with 8; destruct (Z.ltb_spec v 4); [rewrite Clip3_id; lia|];
         unfold Clip3; destruct (Z.ltb_spec (v - 8) 0); lia
       | assert (v = 0) by lia; subst v; apply (parses_bind0 (Su 0) _ [] 0); [exact parses_Su0|]; apply parses_ret ]|]).
    lia.
  - eapply parses_bind_end; [apply parses_F1|]. cbv beta. apply parses_ret.
Qed.

Lemma parses_features l : forall j acc, (j + length l <= 8)%nat -> valid_features j l ->
  parses (for_from (length l) (Z.of_nat j) (fun j acc => let* f := readFeature j in ret (acc ++ [f])) acc)
    (enc_features j l) (acc ++ dec_features j l).
Proof.
  induction l as [|f l IH]; intros j acc Hj Hv; cbn [length for_from enc_features dec_features].
  - rewrite app_nil_r. apply parses_ret.
  - cbn [length] in Hj. destruct Hv as [Hv Hvs].
    eapply parses_bind.
    + eapply parses_bind_end; [apply parses_feature; [lia|exact Hv]|]. apply parses_ret.
    + replace (Z.of_nat j + 1) with (Z.of_nat (S j)) by lia.
      specialize (IH (S j) (acc ++ [dec_feature j f]) ltac:(lia) Hvs). rewrite <- app_assoc in IH. exact IH.
Qed.

Lemma map_map2 {A B C} (f : A -> B) (g : B -> C) (l : list (list A)) : map (map g) (map (map f) l) = map (map (fun x => g (f x))) l.
Proof. rewrite map_map. apply map_ext. intros. apply map_map. Qed.

Definition decoded_segmentation (s : option (list (list (option Z)))) : Seg :=
  match s with
  | None => mkSeg false 0 0 0 zeros8x8 zeros8x8 0 0
  | Some s =>
      let fs := map (dec_features 0) s in
      mkSeg true 1 0 1 (map (map fst) fs) (map (map snd) fs) (fst (scanFeatures (map (map fst) fs))) (snd (scanFeatures (map (map fst) fs)))
  end.
Lemma parses_segmentation s en dat : match s with Some s => valid_segmentation s | None => True end ->
  parses (segmentationParams PRIMARY_REF_NONE en dat) (enc_segmentation s) (decoded_segmentation s).
Proof.
  intros H. unfold segmentationParams. destruct s as [s|]; cbn [enc_segmentation decoded_segmentation].
  - eapply parses_bind; [apply parses_Fbool|]. cbv beta iota.
    eapply parses_bind_end with (a := (1, 0, 1, map (map fst) (map (dec_features 0) s), map (map snd) (map (dec_features 0) s))).
    + eapply parses_bind0; [apply parses_ret|]. cbv beta iota.
      eapply parses_bind_end with (a := map (dec_features 0) s).
      * unfold readSegFeatures. destruct H as [HL HF]. apply parses_times; [symmetry; exact HL|].
        intros l Hl. rewrite Forall_forall in HF. destruct (HF l Hl) as [Hl8 Hv].
        eapply parses_bind_end; [|apply parses_ret]. unfold for_to. change (Z.to_nat (SEG_LVL_MAX - 0)) with 8%nat. rewrite <- Hl8.
        apply (parses_features l 0 []); [lia|exact Hv].
      * apply parses_ret.
    + cbv beta iota. apply parses_ret.
  - eapply parses_bind_end; [apply parses_Fbool|]. cbv beta iota. eapply parses_bind0; [apply parses_ret|]. cbv beta iota.
    change (scanFeatures zeros8x8) with (0, 0). apply parses_ret.
Qed.

(** The scan: the last segment with an enabled feature, and whether a feature from REF_FRAME on is enabled. *)
Definition enabled_at (en : list (list Z)) (i j : Z) : Prop := nth (Z.to_nat j) (nth (Z.to_nat i) en []) 0 = 1.
Definition seen (en : list (list Z)) (i j : Z) (a b : Z) : Prop := 0 <= a < 8 /\ 0 <= b < 8 /\ enabled_at en a b /\ (a < i \/ (a = i /\ b < j)).
Definition scan_inv (en : list (list Z)) (i j : Z) (acc : Z * Z) : Prop :=
  (fst acc = 0 \/ fst acc = 1) /\ (fst acc = 1 <-> exists a b, seen en i j a b /\ 5 <= b) /\
  0 <= snd acc < 8 /\ (forall a b, seen en i j a b -> a <= snd acc) /\
  (snd acc = 0 \/ exists b, seen en i j (snd acc) b).
Lemma seen_step en i j a b : 0 <= i < 8 -> 0 <= j < 8 -> seen en i (j + 1) a b <-> seen en i j a b \/ (a = i /\ b = j /\ enabled_at en i j).
Proof.
  intros Hi Hj. unfold seen. split.
  - intros (A & B & C & D). destruct (Z.eq_dec a i) as [->|]; [destruct (Z.eq_dec b j) as [->|]|]; [right; auto|left|left]; (split; [lia|]; split; [lia|]; split; [exact C|lia]).
  - intros [(A & B & C & D)|(-> & -> & C)]; (split; [lia|]; split; [lia|]; split; [exact C|lia]).
Qed.
Lemma seen_row en i a b : seen en (i + 1) 0 a b <-> seen en i 8 a b.
Proof. unfold seen. split; intros (A & B & C & D); (split; [lia|]; split; [lia|]; split; [exact C|lia]). Qed.
Lemma scan_inv_row en i acc : scan_inv en i 8 acc -> scan_inv en (i + 1) 0 acc.
Proof.
  intros (A & B & C & D & E). split; [exact A|]. split.
  - rewrite B. split; intros (a & b & S & L); exists a, b; (split; [apply seen_row; exact S|exact L]).
  - split; [exact C|]. split; [intros a b S; apply (D a b); apply seen_row; exact S|].
    destruct E as [E|[b E]]; [left; exact E|right; exists b; apply seen_row; exact E].
Qed.
Lemma scanFeatures_inv en : scan_inv en 8 0 (scanFeatures en).
Proof.
  unfold scanFeatures. change MAX_SEGMENTS with 8. change SEG_LVL_MAX with 8. change SEG_LVL_REF_FRAME with 5.
  change 8 with (0 + Z.of_nat 8) at 1. apply (pfor_from_inv (fun i acc => scan_inv en i 0 acc)).
  - split; [left; reflexivity|]. split.
    + split; [discriminate|]. intros (a & b & (A & B & C & D) & _). lia.
    + cbn [fst snd]. split; [lia|]. split; [intros a b (A & B & C & D); lia|left; reflexivity].
  - intros i acc Hi HI. apply scan_inv_row.
    change 8 with (0 + Z.of_nat 8) at 1. apply (pfor_from_inv (fun j acc => scan_inv en i j acc)); [exact HI|].
    clear acc HI. intros j acc Hj (A & B & C & D & E).
    destruct (Z.eqb_spec (nth (Z.to_nat j) (nth (Z.to_nat i) en []) 0) 1) as [En|En].
    + split; [destruct (5 <=? j); cbn [fst]; auto|]. cbn [fst snd]. split; [|split; [lia|split]].
      * destruct (Z.leb_spec 5 j) as [L|L].
        -- split; [intros _; exists i, j; split; [apply seen_step; auto|lia]|reflexivity].
        -- rewrite B. split; intros (a & b & S & K); exists a, b.
           ++ split; [apply seen_step; auto|exact K].
           ++ apply seen_step in S; [|lia|lia]. destruct S as [S|(-> & -> & _)]; [split; auto|lia].
      * intros a b S. destruct S as (? & ? & ? & ?). lia.
      * right. exists j. apply seen_step; auto.
    + assert (EQ : forall a b, seen en i (j + 1) a b <-> seen en i j a b).
      { intros a b. rewrite seen_step by lia. unfold enabled_at. tauto. }
      split; [exact A|]. split; [rewrite B; split; intros (a & b & S & K); exists a, b; (split; [apply EQ; exact S|exact K])|].
      split; [exact C|]. split; [intros a b S; apply (D a b); apply EQ; exact S|].
      destruct E as [E|[b E]]; [left; exact E|right; exists b; apply EQ; exact E].
Qed.

(* ------------------------------------------------------------ delta q / lf *)
Lemma parses_delta_q_params base r : match r with Some v => 0 <= v < 4 | None => True end -> (base <= 0 -> r = None) ->
  parses (deltaQParams base) (enc_delta_q_params base r) (match r with Some v => (true, v) | None => (false, 0) end).
Proof.
  intros H Hb. unfold deltaQParams, enc_delta_q_params. destruct (Z.ltb_spec 0 base) as [L|L].
  - destruct r as [v|].
    + eapply parses_bind; [apply parses_Fbool|]. cbv beta iota. eapply parses_bind_end; [apply parses_F; [reflexivity|powlia|lia]|]. apply parses_ret.
    + eapply parses_bind_end; [apply parses_Fbool|]. cbv beta iota. eapply parses_bind0; [apply parses_ret|]. apply parses_ret.
  - rewrite Hb by exact L. eapply parses_bind0; [apply parses_ret|]. cbv beta iota. eapply parses_bind0; [apply parses_ret|]. apply parses_ret.
Qed.
Lemma parses_delta_lf_params dqp ibc r : match r with Some (v, _) => 0 <= v < 4 | None => True end ->
  (dqp = false \/ ibc = true -> r = None) ->
  parses (deltaLfParams dqp ibc) (enc_delta_lf_params dqp ibc r) (match r with Some (v, m) => (true, v, b2z m) | None => (false, 0, 0) end).
Proof.
  intros H Hb. unfold deltaLfParams, enc_delta_lf_params. destruct dqp; [destruct ibc|]; cbn [negb].
  - rewrite Hb by auto. eapply parses_bind0; [apply parses_ret|]. cbv beta iota. apply parses_ret.
  - destruct r as [[v m]|].
    + eapply parses_bind; [apply parses_Fbool|]. cbv beta iota. eapply parses_bind; [apply parses_F; [reflexivity|powlia|lia]|]. cbv beta.
      eapply parses_bind_end; [apply parses_F1|]. apply parses_ret.
    + eapply parses_bind_end; [apply parses_Fbool|]. cbv beta iota. apply parses_ret.
  - rewrite Hb by auto. apply parses_ret.
Qed.

(* ------------------------------------------------------------ cdef *)
Lemma parses_sec s : valid_sec s -> exists c, parses (F 2) (enc_sec s) c /\ bump3 c = s.
Proof.
  intros H. exists (if s =? 4 then 3 else s). unfold enc_sec.
  split; [apply parses_F; [reflexivity| |lia]|]; destruct H as [->|[->|[->| ->]]]; try reflexivity; powlia || (cbn; powlia).
Qed.
Lemma parses_cdef_strength n x : valid_cdef_strength n x -> parses (readCdefStrength n) (enc_cdef_strength n x) x.
Proof.
  destruct x as [[yp ys] [up us]]. intros (Hyp & Hys & Huv). unfold readCdefStrength, enc_cdef_strength.
  eapply parses_bind; [apply parses_F; [reflexivity|powlia|lia]|]. cbv beta.
  destruct (parses_sec ys Hys) as (c & Hc & Ec). eapply parses_bind; [exact Hc|]. cbv beta. rewrite Ec.
  eapply parses_bind_end with (a := (up, us)); [|apply parses_ret].
  destruct (1 <? n).
  - destruct Huv as [Hup Hus]. eapply parses_bind; [apply parses_F; [reflexivity|powlia|lia]|]. cbv beta.
    destruct (parses_sec us Hus) as (c2 & Hc2 & Ec2). eapply parses_bind_end; [exact Hc2|]. cbv beta. rewrite Ec2. apply parses_ret.
  - destruct Huv as [-> ->]. apply parses_ret.
Qed.
Lemma shl1 n : 0 <= n <= 62 -> shl 1 n = 2 ^ n.
Proof. intros H. pose proof (pow2_pos n ltac:(lia)). assert (2 ^ n <= 2 ^ 62) by (apply Z.pow_le_mono_r; lia). rewrite shl_small by lia. lia. Qed.
Lemma parses_cdef n damping bits l : 3 <= damping <= 6 -> 0 <= bits <= 3 -> Z.of_nat (length l) = 2 ^ bits ->
  Forall (valid_cdef_strength n) l ->
  parses (cdefParams false false true n) (enc_cdef n damping bits l)
    (mkCdefParams damping bits (map (fun x => fst (fst x)) l) (map (fun x => snd (fst x)) l) (map (fun x => fst (snd x)) l) (map (fun x => snd (snd x)) l)).
Proof.
  intros Hd Hb Hl HF. unfold cdefParams, enc_cdef. cbn [orb negb].
  eapply parses_bind; [apply parses_F; [reflexivity|powlia|lia]|]. cbv beta.
  eapply parses_bind; [apply parses_F; [reflexivity|powlia|lia]|]. cbv beta.
  rewrite shl1 by lia.
  eapply parses_bind_end with (a := map (fun x : Z * Z * (Z * Z) => x) l).
  - apply (parses_times _ (enc_cdef_strength n) (fun x : Z * Z * (Z * Z) => x)); [lia|]. intros x Hx. apply parses_cdef_strength. rewrite Forall_forall in HF. auto.
  - cbv beta. rewrite map_id. replace (damping - 3 + 3) with damping by lia. apply parses_ret.
Qed.

(* ------------------------------------------------------------ loop restoration *)
Lemma parses_lr_type t : 0 <= t <= 3 -> exists c, parses (F 2) (enc_f 2 (lr_code t)) c /\ idx REMAP_LR_TYPE c = Ok t.
Proof.
  intros H. exists (lr_code t). assert (t = 0 \/ t = 1 \/ t = 2 \/ t = 3) as [->|[->|[->| ->]]] by lia;
  (split; [apply parses_F; [reflexivity|cbn; powlia|lia]|reflexivity]).
Qed.
Definition lr_decoded (types : list Z) (size : Z) (half : bool) (subsampled : bool) (size0 : list Z) : LrParams :=
  let ts := types ++ repeat 0 (3 - length types) in
  let uses := existsb (fun t => negb (t =? 0)) types in
  let chroma := existsb (fun t => negb (t =? 0)) (tl types) in
  let csize := if subsampled && chroma && half then size / 2 else size in
  mkLrParams ts uses (if uses then [size; csize; csize] else size0).
Lemma parses_unit (use128 : bool) size : (if use128 then size = 128 \/ size = 256 else size = 64 \/ size = 128 \/ size = 256) ->
  exists sft, parses (if use128 then let* x := F 1 in ret (x + 1)
                  else let* x := F 1 in if bool_of x then let* e := F 1 in ret (x + e) else ret x) (enc_unit use128 size) sft /\
    shr RESTORATION_TILESIZE_MAX (2 - sft) = size.
Proof.
  intros H. unfold enc_unit. destruct use128.
  - eexists. split; [eapply parses_bind_end; [apply parses_F1|]; apply parses_ret|]. destruct H as [->| ->]; reflexivity.
  - destruct (Z.eqb_spec size 64) as [->|N].
    + eexists. split; [eapply parses_bind_end; [apply parses_F1|]; cbv beta; apply parses_ret|]. reflexivity.
    + eexists. split.
      * eapply (parses_bind _ _ [true]); [apply parses_F1|]. cbv beta. change (bool_of (b2z true)) with true. cbv iota.
        eapply parses_bind_end; [apply parses_F1|]. apply parses_ret.
      * destruct H as [->|[->| ->]]; [lia|reflexivity|reflexivity].
Qed.
Lemma parses_lr use128 subX subY types size half size0 : valid_lr use128 types size ->
  parses (lrParams false false true use128 subX subY (Z.of_nat (length types)) size0) (enc_lr use128 (subX && subY) types size half)
    (lr_decoded types size half (subX && subY) size0).
Proof.
  intros (HL & HT & HS). unfold lrParams, enc_lr. cbn [orb negb].
  set (ts := types ++ repeat 0 (3 - length types)).
  eapply parses_bind with (a := (ts, existsb (fun t => negb (t =? 0)) types, existsb (fun t => negb (t =? 0)) (tl types))).
  - destruct HL as [HL|HL].
    + destruct types as [|t [|? ?]]; try discriminate. inversion HT as [|? ? H1 _]; subst.
      change (Z.of_nat (length [t])) with 1. unfold for_to. change (Z.to_nat (1 - 0)) with 1%nat. cbn [for_from].
      destruct (parses_lr_type t H1) as (c & Pc & Ec).
      cbn [flat_map]. rewrite app_nil_r.
      eapply parses_bind_end; [|apply parses_ret]. eapply parses_bind_end; [exact Pc|]. cbv beta.
      rewrite Ec. eapply parses_bind0; [apply parses_lift; reflexivity|]. cbv beta.
      eapply parses_bind0; [apply parses_lift; reflexivity|]. cbv beta. change RESTORE_NONE with 0.
      unfold ts. cbn [length repeat app Nat.sub existsb tl]. destruct (Z.eqb_spec t 0) as [->|]; cbn [negb orb]; cbv iota; apply parses_ret.
    + destruct types as [|t [|t2 [|t3 [|? ?]]]]; try discriminate.
      inversion HT as [|? ? H1 HT1]; subst. inversion HT1 as [|? ? H2 HT2]; subst. inversion HT2 as [|? ? H3 _]; subst.
      change (Z.of_nat (length [t; t2; t3])) with 3. unfold for_to. change (Z.to_nat (3 - 0)) with 3%nat. cbn [for_from].
      destruct (parses_lr_type t H1) as (c & Pc & Ec). destruct (parses_lr_type t2 H2) as (c2 & Pc2 & Ec2). destruct (parses_lr_type t3 H3) as (c3 & Pc3 & Ec3).
      cbn [flat_map]. rewrite app_nil_r. change RESTORE_NONE with 0.
      unfold ts. cbn [length repeat app Nat.sub existsb tl].
      eapply parses_bind with (a := ([t; 0; 0], negb (t =? 0), false)).
      { eapply parses_bind_end; [exact Pc|]. cbv beta. rewrite Ec. eapply parses_bind0; [apply parses_lift; reflexivity|]. cbv beta.
        eapply parses_bind0; [apply parses_lift; reflexivity|]. cbv beta. destruct (t =? 0); apply parses_ret. }
      cbv beta. eapply parses_bind with (a := ([t; t2; 0], negb (t =? 0) || negb (t2 =? 0), negb (t2 =? 0))).
      { eapply parses_bind_end; [exact Pc2|]. cbv beta. rewrite Ec2. eapply parses_bind0; [apply parses_lift; reflexivity|]. cbv beta.
        eapply parses_bind0; [apply parses_lift; reflexivity|]. cbv beta. destruct (t =? 0), (t2 =? 0); apply parses_ret. }
      cbv beta. eapply parses_bind_end with (a := ([t; t2; t3], negb (t =? 0) || (negb (t2 =? 0) || (negb (t3 =? 0) || false)), negb (t2 =? 0) || (negb (t3 =? 0) || false))).
      { eapply parses_bind_end; [exact Pc3|]. cbv beta. rewrite Ec3. eapply parses_bind0; [apply parses_lift; reflexivity|]. cbv beta.
        eapply parses_bind0; [apply parses_lift; reflexivity|]. cbv beta. destruct (t =? 0), (t2 =? 0), (t3 =? 0); apply parses_ret. }
      apply parses_ret.
  - cbv beta iota. unfold lr_decoded. fold ts.
    destruct (existsb (fun t => negb (t =? 0)) types) eqn:EU; [|apply parses_ret].
    destruct (parses_unit use128 size HS) as (sft & Pu & Eu). eapply parses_bind; [exact Pu|]. cbv beta zeta. rewrite Eu.
    set (chroma := existsb (fun t => negb (t =? 0)) (tl types)).
    destruct (subX && subY && chroma) eqn:EC; cbn [andb].
    + eapply parses_bind_end; [apply parses_F1|]. cbv beta.
      replace (shr size (b2z half)) with (if half then size / 2 else size); [apply parses_ret|].
      destruct half; cbn [b2z]; [rewrite shr_div by lia; reflexivity|reflexivity].
    + eapply parses_bind0; [apply parses_ret|]. cbv beta. change (shr size 0) with size. apply parses_ret.
Qed.

(* ------------------------------------------------------------ film grain *)
Lemma parses_point p : point_ok p -> parses readPoint (enc_point p) p.
Proof.
  destruct p as [a b]. intros [Ha Hb]. unfold byte in *. cbn [fst snd] in *. unfold readPoint, enc_point.
  cbn [fst snd].
  eapply parses_bind; [apply parses_F; [reflexivity|powlia|lia]|]. cbv beta.
  eapply parses_bind_end; [apply parses_F; [reflexivity|powlia|lia]|]. apply parses_ret.
Qed.
Lemma parses_points l : Forall point_ok l -> parses (times (length l) readPoint) (flat_map enc_point l) l.
Proof.
  intros H. rewrite <- (map_id l) at 3. apply (parses_times _ enc_point (fun x : Z * Z => x)); [reflexivity|].
  intros x Hx. apply parses_point. rewrite Forall_forall in H. auto.
Qed.
Lemma parses_bytes l n : Forall byte l -> Z.of_nat (length l) = n -> parses (times (Z.to_nat n) (F 8)) (flat_map (enc_f 8) l) l.
Proof.
  intros H <-. rewrite Nat2Z.id. rewrite <- (map_id l) at 3. apply (parses_times _ (enc_f 8) (fun x : Z => x)); [reflexivity|].
  intros x Hx. rewrite Forall_forall in H. specialize (H x Hx). unfold byte in H. apply parses_F; [reflexivity|powlia|lia].
Qed.
Lemma bool_of_length {A} (l : list A) : bool_of (Z.of_nat (length l)) = nonempty l.
Proof. unfold bool_of, nonempty. destruct l; [reflexivity|]. cbn [length]. destruct (Z.eqb_spec (Z.of_nat (S (length l))) 0); [lia|reflexivity]. Qed.
Lemma eqb_length {A} (l : list A) : (Z.of_nat (length l) =? 0) = (length l =? 0)%nat.
Proof. destruct l; reflexivity. Qed.
Lemma parses_mult (coded : bool) (p : Z * Z * Z) :
  (let '(a, b, c) := p in if coded then byte a /\ byte b /\ 0 <= c < 512 else a = 0 /\ b = 0 /\ c = 0) ->
  parses (if coded then let* a := F 8 in let* b := F 8 in let* c := F 9 in ret (a, b, c) else ret (0, 0, 0)) (enc_mult coded p) p.
Proof.
  destruct p as [[a b] c]. unfold byte. destruct coded; cbn [enc_mult].
  - intros (A & B & C). eapply parses_bind; [apply parses_F; [reflexivity|powlia|lia]|]. cbv beta.
    eapply parses_bind; [apply parses_F; [reflexivity|powlia|lia]|]. cbv beta.
    eapply parses_bind_end; [apply parses_F; [reflexivity|powlia|lia]|]. apply parses_ret.
  - intros (-> & -> & ->). apply parses_ret.
Qed.
Definition decoded_grain (g : spec_grain) : Grain :=
  mkGrain true (gr_seed g) (gr_y g) (gr_from_luma g) (gr_cb g) (gr_cr g) (gr_scaling g) (gr_lag g) (gr_ay g) (gr_acb g) (gr_acr g)
    (gr_shift g) (gr_gshift g) (fst (fst (gr_cbp g))) (snd (fst (gr_cbp g))) (snd (gr_cbp g))
    (fst (fst (gr_crp g))) (snd (fst (gr_crp g))) (snd (gr_crp g)) (gr_overlap g) (gr_clip g).
Lemma parses_grain show showable ty mono subX subY g : show || showable = true -> valid_grain mono subX subY g ->
  parses (filmGrainParams true show showable ty mono subX subY) (enc_grain (ty =? 1) mono subX subY g) (decoded_grain g).
Proof.
  intros Hsh (H1 & H2 & H3 & H4 & H5 & H6 & H7 & H8 & H9 & H10 & H11 & H12 & H13 & H14 & H15 & H16 & (L1 & L2 & L3) & M1 & M2).
  unfold filmGrainParams, enc_grain.
  assert (E : negb true || (negb show && negb showable) = false) by (destruct show, showable; try discriminate; reflexivity). rewrite E. clear E.
  eapply parses_bind; [apply parses_Fbool|]. cbv beta. cbn [negb]. cbv iota.
  eapply parses_bind; [apply parses_F; [reflexivity|powlia|lia]|]. cbv beta.
  apply (parses_bind _ _ _ _ true); [destruct (ty =? 1); [apply parses_Fbool|apply parses_ret]|]. cbv beta. cbn [negb]. cbv iota.
  unfold enc_points at 1. rewrite <- app_assoc.
  eapply parses_bind; [apply parses_F; [reflexivity|powlia|lia]|]. cbv beta.
  eapply parses_bind; [rewrite Nat2Z.id; apply parses_points; exact H5|]. cbv beta.
  apply (parses_bind _ _ _ _ (gr_from_luma g)); [destruct mono; [rewrite H8 by reflexivity; apply parses_ret|apply parses_Fbool]|]. cbv beta.
  rewrite eqb_length.
  apply (parses_bind _ _ _ _ (Z.of_nat (length (gr_cb g)), gr_cb g, Z.of_nat (length (gr_cr g)), gr_cr g)).
  { unfold chroma_points_coded in *. destruct (mono || gr_from_luma g || subX && subY && (length (gr_y g) =? 0)%nat); cbn [negb] in *.
    - destruct H9 as [-> ->]; [reflexivity|]. apply parses_ret.
    - unfold enc_points. rewrite <- !app_assoc.
      eapply parses_bind; [apply parses_F; [reflexivity|powlia|lia]|]. cbv beta.
      eapply parses_bind; [rewrite Nat2Z.id; apply parses_points; exact H6|]. cbv beta.
      eapply parses_bind; [apply parses_F; [reflexivity|powlia|lia]|]. cbv beta.
      eapply parses_bind_end; [rewrite Nat2Z.id; apply parses_points; exact H7|]. apply parses_ret. }
  cbv beta iota.
  eapply parses_bind; [apply parses_F; [reflexivity|powlia|lia]|]. cbv beta.
  eapply parses_bind; [apply parses_F; [reflexivity|powlia|lia]|]. cbv beta zeta.
  rewrite !bool_of_length. unfold luma_taps in *.
  eapply parses_bind.
  { instantiate (1 := gr_ay g). destruct (nonempty (gr_y g)); [apply parses_bytes; [exact H14|exact L1]|].
    destruct (gr_ay g); [apply parses_ret|cbn [length] in L1; lia]. }
  cbv beta.
  assert (EC : (if nonempty (gr_y g) then 2 * gr_lag g * (gr_lag g + 1) + 1 else 2 * gr_lag g * (gr_lag g + 1)) =
     2 * gr_lag g * (gr_lag g + 1) + (if nonempty (gr_y g) then 1 else 0)) by (destruct (nonempty (gr_y g)); lia).
  rewrite EC.
  eapply parses_bind.
  { instantiate (1 := gr_acb g). destruct (gr_from_luma g || nonempty (gr_cb g)); [apply parses_bytes; [exact H15|exact L2]|].
    destruct (gr_acb g); [apply parses_ret|cbn [length] in L2; lia]. }
  cbv beta.
  eapply parses_bind.
  { instantiate (1 := gr_acr g). destruct (gr_from_luma g || nonempty (gr_cr g)); [apply parses_bytes; [exact H16|exact L3]|].
    destruct (gr_acr g); [apply parses_ret|cbn [length] in L3; lia]. }
  cbv beta.
  eapply parses_bind; [apply parses_F; [reflexivity|powlia|lia]|]. cbv beta.
  eapply parses_bind; [apply parses_F; [reflexivity|powlia|lia]|]. cbv beta.
  eapply parses_bind; [apply parses_mult; exact M1|]. cbv beta.
  eapply parses_bind; [apply parses_mult; exact M2|]. cbv beta.
  eapply (parses_bind _ _ [_]); [apply parses_Fbool|]. cbv beta.
  eapply parses_bind_end; [apply parses_Fbool|]. cbv beta.
  unfold decoded_grain. destruct (gr_cbp g) as [[a b] c], (gr_crp g) as [[a' b'] c']. cbn [fst snd]. apply parses_ret.
Qed.

(* ------------------------------------------------------------ loop filter *)
Definition apply_deltas (ds : list (option Z)) (old : list Z) : list Z :=
  map (fun p => match fst p with Some v => v | None => snd p end) (combine ds old).
Lemma parses_readDelta d i l x : valid_delta_q d -> 0 <= i -> nth_error l (Z.to_nat i) = Some x ->
  parses (readDelta i l) (enc_delta_q d) (upd_nat l (Z.to_nat i) (match d with Some v => v | None => x end)).
Proof.
  intros Hd Hi Hx. unfold readDelta. destruct d as [v|]; cbn [enc_delta_q].
  - eapply parses_bind; [apply parses_F1|]. cbv beta. change (b2z true =? 1) with true. cbv iota.
    eapply parses_bind_end; [change (1 + 6) with (Z.of_nat 7); apply parses_Su; [lia|cbn in Hd; powlia]|]. cbv beta.
    apply parses_lift. apply upd_ok. assert (Z.to_nat i < length l)%nat by (apply nth_error_Some; congruence). unfold zlen. lia.
  - eapply parses_bind_end; [apply parses_F1|]. cbv beta. change (b2z false =? 1) with false. cbv iota.
    replace (upd_nat l (Z.to_nat i) x) with l; [apply parses_ret|].
    revert Hx. generalize (Z.to_nat i). clear. induction l as [|y l IH]; intros [|n]; cbn; intros H; try discriminate; [congruence|].
    f_equal. apply IH. exact H.
Qed.
Lemma apply_deltas_cons d ds x xs : apply_deltas (d :: ds) (x :: xs) = (match d with Some v => v | None => x end) :: apply_deltas ds xs.
Proof. reflexivity. Qed.
Lemma upd_nat_app {A} (pre : list A) x post v : upd_nat (pre ++ x :: post) (length pre) v = pre ++ v :: post.
Proof. induction pre; cbn; congruence. Qed.
Lemma parses_readDeltas ds : forall pre old, length old = length ds -> Forall valid_delta_q ds ->
  parses (for_from (length ds) (Z.of_nat (length pre)) readDelta (pre ++ old)) (flat_map enc_delta_q ds) (pre ++ apply_deltas ds old).
Proof.
  induction ds as [|d ds IH]; intros pre old HL HF; cbn [length for_from flat_map].
  - destruct old; [|discriminate]. unfold apply_deltas. cbn. apply parses_ret.
  - destruct old as [|x old]; [discriminate|]. inversion HF; subst. cbn [length] in HL.
    eapply parses_bind.
    + apply (parses_readDelta d _ _ x); [assumption|lia|]. rewrite Nat2Z.id, nth_error_app2, Nat.sub_diag by lia. reflexivity.
    + rewrite Nat2Z.id, upd_nat_app, apply_deltas_cons. set (v := match d with Some v => v | None => x end).
      replace (Z.of_nat (length pre) + 1) with (Z.of_nat (length (pre ++ [v]))) by (rewrite app_length; cbn [length]; lia).
      specialize (IH (pre ++ [v]) old ltac:(lia) H2). rewrite <- !app_assoc in IH. exact IH.
Qed.
(** The syntax with a sharpness field of [n] bits: the code uses 6, the standard 3. *)
Definition enc_lf_n (n : nat) (numPlanes : Z) (f : spec_lf) : list bool :=
  enc_lf_levels numPlanes f ++ enc_f n (lf_sharp f) ++ enc_lf_deltas f.
Definition decoded_lf (numPlanes : Z) (f : spec_lf) (ref0 mode0 : list Z) : LoopFilter :=
  let uv := (1 <? numPlanes) && negb ((lf_l0 f =? 0) && (lf_l1 f =? 0)) in
  mkLoopFilter [lf_l0 f; lf_l1 f; if uv then lf_l2 f else 0; if uv then lf_l3 f else 0] (lf_sharp f)
    (match lf_deltas f with Some _ => true | None => false end)
    (match lf_deltas f with Some (Some _) => 1 | _ => 0 end)
    (match lf_deltas f with Some (Some (r, _)) => apply_deltas r ref0 | _ => ref0 end)
    (match lf_deltas f with Some (Some (_, m)) => apply_deltas m mode0 | _ => mode0 end).
Lemma parses_lf_levels_then {B} numPlanes f (k : Z -> Z -> Z * Z -> BS B) l b :
  0 <= lf_l0 f < 64 /\ 0 <= lf_l1 f < 64 /\ 0 <= lf_l2 f < 64 /\ 0 <= lf_l3 f < 64 ->
  parses (k (lf_l0 f) (lf_l1 f) (let uv := (1 <? numPlanes) && negb ((lf_l0 f =? 0) && (lf_l1 f =? 0)) in (if uv then lf_l2 f else 0, if uv then lf_l3 f else 0))) l b ->
  parses (let* l0 := F 6 in let* l1 := F 6 in
    let* l23 := if 1 <? numPlanes then
                  if bool_of l0 || bool_of l1 then let* l2 := F 6 in let* l3 := F 6 in ret (l2, l3) else ret (0, 0)
                else ret (0, 0) in k l0 l1 l23) (enc_lf_levels numPlanes f ++ l) b.
Proof.
  intros (H0 & H1 & H2 & H3) HK. unfold enc_lf_levels. rewrite <- !app_assoc.
  eapply parses_bind; [apply parses_F; [reflexivity|powlia|lia]|]. cbv beta.
  eapply parses_bind; [apply parses_F; [reflexivity|powlia|lia]|]. cbv beta.
  eapply parses_bind; [|exact HK]. cbv zeta. unfold bool_of.
  destruct (1 <? numPlanes); cbn [andb]; [|apply parses_ret].
  rewrite <- negb_andb. destruct ((lf_l0 f =? 0) && (lf_l1 f =? 0)); cbn [negb]; [apply parses_ret|].
  eapply parses_bind; [apply parses_F; [reflexivity|powlia|lia]|]. cbv beta.
  eapply parses_bind_end; [apply parses_F; [reflexivity|powlia|lia]|]. apply parses_ret.
Qed.
Lemma parses_lf numPlanes en0 f ref0 mode0 : valid_lf f -> length ref0 = 8%nat -> length mode0 = 2%nat ->
  parses (loopFilterParams false false numPlanes en0 ref0 mode0) (enc_lf_n 6 numPlanes f) (decoded_lf numPlanes f ref0 mode0).
Proof.
  intros (H0 & H1 & H2 & H3 & Hs & HD) HR HM. unfold loopFilterParams, enc_lf_n. cbn [orb].
  apply (parses_lf_levels_then numPlanes f (fun l0 l1 l23 => let* sharp := F 6 in
    let* en := Fbool in
    if en then
      let* up := F 1 in
      if up =? 1 then
        let* rd := for_to 0 TOTAL_REFS_PER_FRAME readDelta ref0 in
        let* md := for_to 0 2 readDelta mode0 in
        ret (mkLoopFilter [l0; l1; fst l23; snd l23] sharp en up rd md)
      else ret (mkLoopFilter [l0; l1; fst l23; snd l23] sharp en up ref0 mode0)
    else ret (mkLoopFilter [l0; l1; fst l23; snd l23] sharp en 0 ref0 mode0))); [auto|].
  eapply parses_bind; [apply parses_F; [reflexivity|powlia|lia]|]. cbv beta. unfold decoded_lf, enc_lf_deltas. cbn [fst snd].
  destruct (lf_deltas f) as [[[r m]|]|].
  - destruct HD as (R1 & M1 & R2 & M2).
    eapply (parses_bind _ _ [_]); [apply parses_Fbool|]. cbv beta iota.
    eapply (parses_bind _ _ [_]); [apply parses_F1|]. cbv beta. change (b2z true =? 1) with true. cbv iota.
    eapply parses_bind.
    { unfold for_to. change (Z.to_nat (TOTAL_REFS_PER_FRAME - 0)) with 8%nat. rewrite <- R1. apply (parses_readDeltas r [] ref0); [lia|exact R2]. }
    cbv beta. eapply parses_bind_end.
    { unfold for_to. change (Z.to_nat (2 - 0)) with 2%nat. rewrite <- M1. apply (parses_readDeltas m [] mode0); [lia|exact M2]. }
    apply parses_ret.
  - eapply (parses_bind _ _ [_]); [apply parses_Fbool|]. cbv beta iota.
    eapply parses_bind_end; [apply parses_F1|]. cbv beta. apply parses_ret.
  - eapply parses_bind_end; [apply parses_Fbool|]. cbv beta iota. apply parses_ret.
Qed.
