(** Property theorems C01-C11: bitstream readers and the OBU header. *)
From Verif Require Import GoBase Bitstream SpecBits SpecStream BitstreamProofs ReaderOps
  Parses Header SpecSyntax HeaderProofs.

(** A concrete stream used to show that hypotheses are met: position 3 inside two bytes. *)
Definition demo : bs := mkBS [0xB5; 0x2C; 0xFF; 0x01] 3 0.

(** C01 *)
Theorem C01_F_reads_next_bits : forall s n, 0 <= Position s -> 0 <= n <= 63 ->
  F n s = if n <=? Z.of_nat (length (rest s))
          then Ok (be (firstn (Z.to_nat n) (rest s)), adv s n) else Panic.
Proof.
  intros s n H0 Hn. destruct (F_total n s H0 Hn) as [(l & r & Hr & Hl & E)|[Hc E]]; rewrite E.
  - assert (length l = Z.to_nat n) as Hl' by lia.
    rewrite Hr, app_length. destruct (Z.leb_spec n (Z.of_nat (length l + length r))); [|lia].
    rewrite <- Hl', firstn_app, Nat.sub_diag, firstn_all. cbn [firstn]. rewrite app_nil_r. reflexivity.
  - destruct (Z.leb_spec n (Z.of_nat (length (rest s)))); [lia|reflexivity].
Qed.
Print Assumptions C01_F_reads_next_bits.
Example C01_case : F 7 demo = Ok (0x54, mkBS (Data demo) 10 0) /\ F 30 demo = Panic
  /\ be (firstn 7 (rest demo)) = 0x54.
Proof. repeat split; reflexivity. Qed.

(** The unread bits really are the bits of the bytes, most significant first. *)
Theorem C01_bit_order : forall data i j, (i < length data)%nat -> (j < 8)%nat ->
  nth_error (bits_of data) (8 * i + j) = Some (Z.testbit (nth i data 0) (7 - Z.of_nat j)).
Proof. intros data i j Hi Hj. exact (nth_bits_of data i j Hj Hi). Qed.
Print Assumptions C01_bit_order.

(** C02 *)
Theorem C02_F_concat : forall s m n, 0 <= Position s -> 0 <= m -> 0 <= n -> m + n <= 63 ->
  F (m + n) s = match F m s with
                | Ok (hi, s1) => match F n s1 with
                                 | Ok (lo, s2) => Ok (hi * 2 ^ n + lo, s2)
                                 | Panic => Panic | Hang => Hang end
                | Panic => Panic | Hang => Hang end.
Proof.
  intros s m n H0 Hm Hn Hmn.
  destruct (F_total m s H0 ltac:(lia)) as [(l & r & Hr & Hl & E)|[Hc E]]; rewrite E.
  - destruct (F_total n (adv s m) ltac:(cbn; lia) ltac:(lia)) as [(l2 & r2 & Hr2 & Hl2 & E2)|[Hc2 E2]]; rewrite E2.
    + rewrite rest_adv in Hr2 by lia. rewrite Hr in Hr2.
      assert (El : Z.to_nat m = length l) by lia. rewrite El, skipn_app, skipn_all, Nat.sub_diag in Hr2.
      cbn [skipn app] in Hr2. rewrite Hr2, app_assoc in Hr.
      rewrite (F_ok (m + n) s (l ++ l2) r2 H0 Hr) by (rewrite ?app_length; lia).
      rewrite be_app, Hl2, adv_adv. reflexivity.
    + apply F_panic; [exact H0|]. rewrite rest_adv, skipn_length in Hc2 by lia. lia.
  - apply F_panic; lia.
Qed.
Print Assumptions C02_F_concat.
Example C02_case : F 5 demo = Ok (0x15, adv demo 5) /\ F 2 (adv demo 5) = Ok (0, adv demo 7) /\ 0x15 * 2 ^ 2 + 0 = 0x54.
Proof. repeat split; reflexivity. Qed.

(** C03 *)
Theorem C03_uvlc_roundtrip : forall s v, 0 <= v < 2 ^ 32 - 1 -> starts s (enc_uvlc v) ->
  Uvlc s = Ok (v, adv s (2 * Z.log2 (v + 1) + 1)).
Proof.
  intros s v Hv H. rewrite (Uvlc_enc s v Hv H). unfold enc_uvlc. rewrite app_length, repeat_length. cbn [length].
  rewrite length_enc_f. pose proof (Z.log2_nonneg (v + 1)). okeq.
Qed.
Print Assumptions C03_uvlc_roundtrip.
Theorem C03_uvlc_saturates : forall s k, (32 <= k)%nat -> starts s (repeat false k ++ [true]) ->
  Uvlc s = Ok (2 ^ 32 - 1, adv s (Z.of_nat k + 1)).
Proof. exact Uvlc_saturate. Qed.
Print Assumptions C03_uvlc_saturates.
Theorem C03_uvlc_total : forall s, 0 <= Position s ->
  Uvlc s <> Hang /\ (Forall (fun b => b = false) (rest s) -> Uvlc s = Panic) /\
  (forall v s', Uvlc s = Ok (v, s') -> 0 <= v < 2 ^ 32).
Proof.
  intros s H0. split; [apply Uvlc_never_hangs; exact H0|]. split.
  - intros Hall. apply Uvlc_no_one; [exact H0|]. clear H0. induction Hall as [|b l Hb Hl IH]; [reflexivity|].
    cbn [length repeat]. rewrite <- IH, Hb. reflexivity.
  - intros v s' E. apply Uvlc_inv in E; [|exact H0]. destruct E as (k & _ & [(_ & -> & _)|(Hk & Hv & _)]); [lia|].
    assert (1 <= 2 ^ Z.of_nat k) by (pose proof (Z.pow_pos_nonneg 2 (Z.of_nat k)); lia).
    assert (2 ^ (Z.of_nat k + 1) <= 2 ^ 32) by (apply Z.pow_le_mono_r; lia). lia.
Qed.
Print Assumptions C03_uvlc_total.
Example C03_case : enc_uvlc 5 = [false; false; true; true; false] /\
  starts (mkBS [0x30] 0 0) (enc_uvlc 5) /\ Uvlc (mkBS [0x30] 0 0) = Ok (5, mkBS [0x30] 5 0) /\
  starts (mkBS [0;0;0;0;128] 0 0) (repeat false 32 ++ [true]).
Proof. repeat split; try reflexivity; try (cbn; lia); eexists; reflexivity. Qed.

(** C04 *)
Theorem C04_leb128_roundtrip : forall s k v, (1 <= k <= 8)%nat -> 0 <= v < 2 ^ (7 * Z.of_nat k) ->
  starts s (enc_leb128 k v) -> Leb128 s = Ok (v, set_leb_adv s (Z.of_nat k) (8 * Z.of_nat k)).
Proof. exact Leb128_enc. Qed.
Print Assumptions C04_leb128_roundtrip.
Theorem C04_leb128_range : forall s v s', 0 <= Position s -> Leb128 s = Ok (v, s') ->
  0 <= v < 2 ^ 56 /\ 1 <= Leb128Bytes s' <= 8 /\ Position s' = Position s + 8 * Leb128Bytes s' /\ Data s' = Data s.
Proof.
  intros s v s' H0 E. apply Leb128_inv in E; [|exact H0]. destruct E as (k & Hk & -> & Hv & _). cbn.
  assert (2 ^ (7 * Z.of_nat k) <= 2 ^ 56) by (apply Z.pow_le_mono_r; lia). repeat split; lia.
Qed.
Print Assumptions C04_leb128_range.
Example C04_case : Leb128 (mkBS [0xE5; 0x8E; 0x26] 0 0) = Ok (624485, mkBS [0xE5; 0x8E; 0x26] 24 3) /\
  starts (mkBS [0xE5; 0x8E; 0x26] 0 0) (enc_leb128 3 624485) /\
  starts (mkBS [0xE5; 0x8E; 0xA6; 0x80; 0x00] 0 0) (enc_leb128 5 624485).
Proof. repeat split; try reflexivity; try (cbn; lia); eexists; reflexivity. Qed.

(** C05 *)
Theorem C05_su_roundtrip : forall s n v, (1 <= n <= 62)%nat ->
  - 2 ^ (Z.of_nat n - 1) <= v < 2 ^ (Z.of_nat n - 1) -> starts s (enc_su n v) ->
  Su (Z.of_nat n) s = Ok (v, adv s (Z.of_nat n)).
Proof. exact Su_enc. Qed.
Print Assumptions C05_su_roundtrip.
Theorem C05_su_range : forall s n v s', 0 <= Position s -> 1 <= n <= 62 -> Su n s = Ok (v, s') ->
  - 2 ^ (n - 1) <= v < 2 ^ (n - 1) /\ s' = adv s n.
Proof. intros s n v s' H0 Hn E. destruct (Su_inv s n v s' H0 Hn E) as (A & B & _). split; assumption. Qed.
Print Assumptions C05_su_range.
Example C05_case : starts demo (enc_su 7 (-44)) /\ Su 7 demo = Ok (-44, adv demo 7).
Proof. repeat split; try reflexivity; try (cbn; lia); eexists; reflexivity. Qed.

(** C06 *)
Theorem C06_ns_roundtrip : forall s n v, 0 < n < 2 ^ 62 -> 0 <= v < n -> starts s (enc_ns n v) ->
  Ns n s = Ok (v, adv s (if v <? 2 ^ (Z.log2 n + 1) - n then Z.log2 n else Z.log2 n + 1)).
Proof.
  intros s n v Hn Hv H. rewrite (Ns_enc s n v Hn Hv H). unfold enc_ns.
  pose proof (Z.log2_nonneg n). destruct (v <? 2 ^ (Z.log2 n + 1) - n); rewrite length_enc_f; okeq.
Qed.
Print Assumptions C06_ns_roundtrip.
Theorem C06_ns_range : forall s n v s', 0 <= Position s -> 0 < n < 2 ^ 62 -> Ns n s = Ok (v, s') ->
  0 <= v < n /\ Data s' = Data s /\ Position s + Z.log2 n <= Position s' <= Position s + Z.log2 n + 1.
Proof.
  intros s n v s' H0 Hn E. destruct (Ns_inv s n v s' H0 Hn E) as (Hv & k & -> & Hk & Hk2).
  split; [exact Hv|]. split; [reflexivity|]. cbn. lia.
Qed.
Print Assumptions C06_ns_range.
Example C06_case : enc_ns 5 2 = [true; false] /\ enc_ns 5 4 = [true; true; true] /\
  starts demo (enc_ns 5 2) /\ Ns 5 demo = Ok (2, adv demo 2).
Proof. repeat split; try reflexivity; try (cbn; lia); eexists; reflexivity. Qed.

(** C07 *)
Theorem C07_le_roundtrip : forall s n v, (n <= 7)%nat -> 0 <= v < 2 ^ (8 * Z.of_nat n) -> starts s (enc_le n v) ->
  Le (Z.of_nat n) s = Ok (v, adv s (8 * Z.of_nat n)).
Proof. exact Le_enc. Qed.
Print Assumptions C07_le_roundtrip.
Example C07_case : starts (mkBS [1;2;3] 0 0) (enc_le 3 0x030201) /\ Le 3 (mkBS [1;2;3] 0 0) = Ok (0x030201, mkBS [1;2;3] 24 0).
Proof. repeat split; try reflexivity; try (cbn; lia); eexists; reflexivity. Qed.

(** C08 *)
Theorem C08_byte_alignment : forall s, 0 <= Position s <= 8 * zlen (Data s) ->
  exists p, ByteAlignment s = Ok (tt, mkBS (Data s) p (Leb128Bytes s)) /\
    p mod 8 = 0 /\ Position s <= p < Position s + 8 /\ p <= 8 * zlen (Data s) /\
    (Position s mod 8 = 0 -> p = Position s).
Proof.
  intros s H. exists (align_up (Position s)). pose proof (align_up_spec (Position s)) as [A B].
  split; [apply ByteAlignment_ok; exact H|]. split; [exact B|]. split; [exact A|].
  pose proof (Z.div_mod (align_up (Position s)) 8 ltac:(lia)) as D.
  split; [lia|]. intros E. pose proof (Z.div_mod (Position s) 8 ltac:(lia)) as D2. lia.
Qed.
Print Assumptions C08_byte_alignment.
Example C08_case : ByteAlignment demo = Ok (tt, adv demo 5).
Proof. reflexivity. Qed.

(** C09 *)
Theorem C09_trailing_bits : forall s k, 0 <= Position s -> 1 <= k ->
  TrailingBits k s = if k <=? Z.of_nat (length (rest s)) then Ok (tt, adv s k) else Panic.
Proof. intros s k H0 Hk. rewrite TrailingBits_spec by exact H0. replace (Z.max 1 k) with k by lia. reflexivity. Qed.
Print Assumptions C09_trailing_bits.
(** TrailingBits(0) and TrailingBits of a negative count still consume one bit. *)
Theorem C09_trailing_bits_zero : forall s k, 0 <= Position s -> k <= 0 ->
  TrailingBits k s = if 1 <=? Z.of_nat (length (rest s)) then Ok (tt, adv s 1) else Panic.
Proof. intros s k H0 Hk. rewrite TrailingBits_spec by exact H0. replace (Z.max 1 k) with 1 by lia. reflexivity. Qed.
Print Assumptions C09_trailing_bits_zero.
Example C09_case : TrailingBits 13 demo = Ok (tt, adv demo 13) /\ TrailingBits 30 demo = Panic.
Proof. split; reflexivity. Qed.

(** C10 *)
Theorem C10_readers_move_forward : forall ops s vs s', 0 <= Position s -> calls ops s = Ok (vs, s') ->
  Data s' = Data s /\ Position s <= Position s' /\
  (Position s <= 8 * zlen (Data s) -> Position s' <= 8 * zlen (Data s)).
Proof. intros ops s vs s' H0 E. exact (fw_calls ops s vs s' H0 E). Qed.
Print Assumptions C10_readers_move_forward.
(** The end-of-data test is exact: it answers no only when every bit of the data has been read. *)
Theorem C10_more_data : forall s, 0 <= Position s <= 8 * zlen (Data s) ->
  (MoreDataInBitstream s = false <-> rest s = []) /\ (MoreDataInBitstream s = true <-> exists b r, rest s = b :: r).
Proof.
  intros s H. pose proof (length_rest s ltac:(lia)) as L.
  assert (E : MoreDataInBitstream s = false <-> rest s = []).
  { unfold MoreDataInBitstream. rewrite negb_false_iff, Z.eqb_eq. rewrite Z.quot_div_nonneg by lia. split; intros K.
    - apply length_zero_iff_nil. pose proof (Z.mul_div_le (Position s) 8 ltac:(lia)). lia.
    - rewrite K in L. cbn in L. replace (Position s) with (zlen (Data s) * 8) by lia. apply Z.div_mul. lia. }
  split; [exact E|]. destruct (rest s) as [|b r] eqn:R.
  - split; intros K; [|destruct K as (b & r & K); discriminate]. destruct E as [_ E]. rewrite E in K by reflexivity. discriminate.
  - split; intros K; [eauto|]. destruct (MoreDataInBitstream s); [reflexivity|]. destruct E as [E _]. specialize (E eq_refl). discriminate.
Qed.
Print Assumptions C10_more_data.
Example C10_more_data_case : MoreDataInBitstream demo = true /\ MoreDataInBitstream (mkBS [1;2] 15 0) = true
  /\ MoreDataInBitstream (mkBS [1;2] 16 0) = false.
Proof. repeat split. Qed.
Example C10_case : calls [RF 3; RSu 4; RNs 5; RAlign; RLeb128] demo = Ok ([5; 4; 2; 0; 255], mkBS (Data demo) 32 2).
Proof. reflexivity. Qed.

(** C11 *)
Theorem C11_obu_header_roundtrip : forall s forbidden ty ext has_size reserved,
  0 <= ty < 16 ->
  match ext with Some (t, sp, r) => 0 <= t < 8 /\ 0 <= sp < 4 /\ 0 <= r < 8 | None => True end ->
  starts s (enc_obu_header forbidden ty ext has_size reserved) ->
  exists h, NewHeader s = Ok (h, adv s (match ext with Some _ => 16 | None => 8 end)) /\
    ForbiddenBit h = forbidden /\ Type_ h = ty /\ HasSizeField h = has_size /\ ReservedBit h = reserved /\
    match ext with
    | Some (t, sp, r) => ExtensionFlag h = true /\ TemporalID (ExtHeader h) = t /\
                         SpatialID (ExtHeader h) = sp /\ Reserved3Bits (ExtHeader h) = r
    | None => ExtensionFlag h = false
    end.
Proof.
  intros s forbidden ty ext has_size reserved Hty Hext H.
  pose proof (parses_NewHeader forbidden ty ext has_size reserved Hty Hext s H) as E.
  destruct ext as [[[t sp] r]|]; eexists; (split; [exact E|]); cbn; repeat split.
Qed.
Print Assumptions C11_obu_header_roundtrip.
Example C11_case : starts (mkBS [0x36; 0x48] 0 0) (enc_obu_header false 6 (Some (2, 1, 0)) true false).
Proof. repeat split; try (cbn; lia); eexists; reflexivity. Qed.
