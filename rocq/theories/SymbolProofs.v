From Verif Require Import GoBase Bitstream SpecBits SpecStream BitstreamProofs Util UtilProofs Symbol SpecSymbol.

Lemma idx_at c i : 0 <= i < zlen c -> idx c i = Ok (at_ c i).
Proof. intros H. rewrite (idx_ok c i 0 H). reflexivity. Qed.
Lemma at_upd_same c i v : 0 <= i < zlen c -> at_ (upd_nat c (Z.to_nat i) v) i = v.
Proof. intros H. unfold at_. apply nth_upd_nat_same. unfold zlen in H. lia. Qed.
Lemma at_upd_other c i j v : 0 <= i -> 0 <= j -> i <> j -> at_ (upd_nat c (Z.to_nat i) v) j = at_ c j.
Proof. intros Hi Hj H. unfold at_. apply nth_upd_nat_other. lia. Qed.
Lemma Min_min x y : Min x y = Z.min x y.
Proof. unfold Min. destruct (Z.leb_spec x y); lia. Qed.
Lemma Max_max x y : Max x y = Z.max x y.
Proof. unfold Max. destruct (Z.leb_spec y x); lia. Qed.
Lemma nsyms_zlen c : nsyms c = zlen c - 1. Proof. reflexivity. Qed.

Lemma valid_mono c : valid_cdf c -> forall i j, 0 <= i <= j -> j < nsyms c -> at_ c i <= at_ c j.
Proof.
  intros (HN & H0 & Hm & _) i j [Hi Hij] Hj. revert Hj. pattern j. revert j Hij. apply Zlt_lower_bound_ind.
  intros j IH Hij Hj. destruct (Z.eq_dec i j) as [->|]; [lia|].
  pose proof (IH (j - 1) ltac:(lia) ltac:(lia)) as A. pose proof (Hm (j - 1) ltac:(lia) ltac:(lia)) as B.
  replace (j - 1 + 1) with j in B by lia. lia.
Qed.
Lemma valid_range c : valid_cdf c -> forall i, 0 <= i < nsyms c -> 1 <= at_ c i <= 32768.
Proof.
  intros V i Hi. pose proof (valid_mono c V 0 i ltac:(lia) ltac:(lia)). pose proof (valid_mono c V i (nsyms c - 1) ltac:(lia) ltac:(lia)).
  destruct V as (_ & ? & _ & ? & _). lia.
Qed.

(** Bounds decrease by at least 4 per symbol and end in 0. *)
Lemma bound_last R c : valid_cdf c -> bound R c (nsyms c - 1) = 0.
Proof.
  intros V. destruct V as (HN & _ & _ & HL & _). unfold bound. destruct (Z.ltb_spec (nsyms c - 1) 0); [lia|].
  rewrite HL. change ((32768 - 32768) / 64) with 0. rewrite Z.mul_0_r, Z.div_0_l by lia. lia.
Qed.
Lemma bound_step R c i : valid_cdf c -> 32768 <= R < 65536 -> 0 <= i < nsyms c ->
  bound R c i + 4 <= bound R c (i - 1).
Proof.
  intros V HR Hi. unfold bound. destruct (Z.ltb_spec i 0); [lia|].
  assert (HN : 1 <= nsyms c <= 16) by apply V.
  assert (H8 : 128 <= R / 256 < 256).
  { split; [apply Z.div_le_lower_bound; lia|apply Z.div_lt_upper_bound; lia]. }
  assert (H8' : 256 * (R / 256) <= R) by (apply Z.mul_div_le; lia).
  pose proof (valid_range c V i Hi) as Hr.
  destruct (Z.ltb_spec (i - 1) 0).
  - assert (i = 0) by lia. subst i.
    assert (Hf : 0 <= (32768 - at_ c 0) / 64 <= 511).
    { split; [apply Z.div_pos; lia|]. apply Zlt_succ_le. apply Z.div_lt_upper_bound; lia. }
    assert (Hd : R / 256 * ((32768 - at_ c 0) / 64) / 2 <= R / 256 * 511 / 2) by (apply Z.div_le_mono; [lia|nia]).
    assert (Hd2 : R / 256 * 511 / 2 <= R / 256 * 256 - 64).
    { apply Z.div_le_upper_bound; lia. }
    lia.
  - pose proof (valid_mono c V (i - 1) i ltac:(lia) ltac:(lia)) as Hm.
    assert (Hf : (32768 - at_ c i) / 64 <= (32768 - at_ c (i - 1)) / 64) by (apply Z.div_le_mono; lia).
    assert (R / 256 * ((32768 - at_ c i) / 64) / 2 <= R / 256 * ((32768 - at_ c (i - 1)) / 64) / 2) by (apply Z.div_le_mono; [lia|nia]).
    lia.
Qed.
Lemma bound_anti R c i j : valid_cdf c -> 32768 <= R < 65536 -> -1 <= i <= j -> j < nsyms c ->
  bound R c j <= bound R c i.
Proof.
  intros V HR [Hi Hij] Hj. revert Hj. pattern j. revert j Hij. apply Zlt_lower_bound_ind.
  intros j IH Hij Hj. destruct (Z.eq_dec i j) as [->|]; [lia|].
  pose proof (IH (j - 1) ltac:(lia) ltac:(lia)) as A. pose proof (bound_step R c j V HR ltac:(lia)). lia.
Qed.
Lemma bound_bounds R c i : valid_cdf c -> 32768 <= R < 65536 -> -1 <= i < nsyms c -> 0 <= bound R c i <= R.
Proof.
  intros V HR Hi. pose proof (bound_anti R c i (nsyms c - 1) V HR ltac:(lia) ltac:(lia)) as A. rewrite bound_last in A by exact V.
  pose proof (bound_anti R c (-1) i V HR ltac:(lia) ltac:(lia)) as B. unfold bound at 2 in B. cbn in B. lia.
Qed.
Lemma bound_unique R c V i j : valid_cdf c -> 32768 <= R < 65536 -> 0 <= i < nsyms c -> 0 <= j < nsyms c ->
  bound R c i <= V < bound R c (i - 1) -> bound R c j <= V < bound R c (j - 1) -> i = j.
Proof.
  intros Hv HR Hi Hj Bi Bj. destruct (Z.lt_trichotomy i j) as [H|[H|H]]; [|exact H|].
  - pose proof (bound_anti R c i (j - 1) Hv HR ltac:(lia) ltac:(lia)). lia.
  - pose proof (bound_anti R c j (i - 1) Hv HR ltac:(lia) ltac:(lia)). lia.
Qed.

(** The search loop finds the interval the value lies in. *)
Lemma sym_loop_spec c R V : valid_cdf c -> 32768 <= R < 65536 -> 0 <= V ->
  forall fuel s, -1 <= s < nsyms c - 1 -> nsyms c - 1 - s < Z.of_nat fuel + 1 -> V < bound R c s ->
  exists t, s < t < nsyms c /\ bound R c t <= V < bound R c (t - 1) /\
    sym_loop fuel c (nsyms c) R V s (bound R c s) = Ok (t, bound R c (t - 1), bound R c t).
Proof.
  intros Hv HR HV. induction fuel as [|f IH]; intros s Hs Hf Hlt; [lia|]. cbn [sym_loop].
  rewrite idx_at by (rewrite nsyms_zlen in Hs; lia). cbn [rbind].
  assert (Eb : shr (shr R 8 * shr (32768 - at_ c (s + 1)) 6) 1 + 4 * (nsyms c - (s + 1) - 1) = bound R c (s + 1)).
  { unfold bound. destruct (Z.ltb_spec (s + 1) 0); [lia|]. rewrite !shr_div by lia. reflexivity. }
  rewrite Eb. destruct (Z.leb_spec (bound R c (s + 1)) V) as [Hle|Hgt].
  - exists (s + 1). replace (s + 1 - 1) with s by lia. repeat split; lia.
  - assert (s + 1 < nsyms c - 1).
    { destruct (Z.eq_dec (s + 1) (nsyms c - 1)) as [E|]; [|lia]. rewrite E, bound_last in Hgt by exact Hv. lia. }
    destruct (IH (s + 1) ltac:(lia) ltac:(lia) Hgt) as (t & Ht & Hb & E). exists t. split; [lia|]. split; [exact Hb|exact E].
Qed.

(** The refill by xor. *)
Lemma xor_compl b p : 0 <= b -> 0 <= p < 2 ^ b -> Z.lxor p (Z.ones b) = 2 ^ b - 1 - p.
Proof.
  intros Hb Hp. replace (2 ^ b - 1) with (Z.ones b) by (rewrite Z.ones_equiv; lia).
  assert (Hd : Z.ldiff p (Z.ones b) = 0) by (rewrite Z.ldiff_ones_r, Z.shiftr_div_pow2, Z.div_small by lia; apply Z.shiftl_0_l).
  rewrite Z.sub_nocarry_ldiff by exact Hd.
  apply Z.bits_inj'. intros i Hi. rewrite Z.lxor_spec, Z.ldiff_spec.
  assert (T := f_equal (fun z => Z.testbit z i) Hd). cbv beta in T. rewrite Z.ldiff_spec, Z.bits_0 in T.
  destruct (Z.testbit p i), (Z.testbit (Z.ones b) i); cbn in *; congruence.
Qed.
Lemma xor_refill v b p : 0 <= v -> 0 <= b -> 0 <= p < 2 ^ b ->
  Z.lxor p ((v + 1) * 2 ^ b - 1) = v * 2 ^ b + (2 ^ b - 1 - p).
Proof.
  intros Hv Hb Hp. pose proof (pow2_pos b Hb) as P.
  assert (E1 : (v + 1) * 2 ^ b - 1 = Z.lxor (Z.shiftl v b) (Z.ones b)).
  { rewrite <- Z.add_nocarry_lxor.
    - rewrite Z.shiftl_mul_pow2, Z.ones_equiv by lia. lia.
    - rewrite Z.land_comm. apply land_shiftl_disjoint; [lia|]. rewrite Z.ones_equiv. lia. }
  rewrite E1, (Z.lxor_comm (Z.shiftl v b)), <- Z.lxor_assoc, xor_compl by assumption.
  rewrite Z.lxor_comm, <- Z.add_nocarry_lxor.
  - rewrite Z.shiftl_mul_pow2 by lia. lia.
  - rewrite Z.land_comm. apply land_shiftl_disjoint; lia.
Qed.

(** Decoder invariant: [tile_state d e] - registers in range, the unread bits of the tile are those up to
    bit position e. *)
Definition tile_state (d : dec) (e : Z) : Prop :=
  32768 <= SymbolRange d < 65536 /\ 0 <= SymbolValue d < SymbolRange d /\
  0 <= Position (Bits d) /\ Position (Bits d) + Z.max 0 (SymbolMaxBits d) = e /\ e <= 8 * zlen (Data (Bits d)).

Lemma log2_range r : 1 <= r < 65536 -> 0 <= Z.log2 r <= 15 /\ 2 ^ Z.log2 r <= r < 2 * 2 ^ Z.log2 r.
Proof.
  intros H. pose proof (Z.log2_nonneg r). pose proof (Z.log2_spec r ltac:(lia)) as S. rewrite Z.pow_succ_r in S by lia.
  pose proof (Z.log2_lt_pow2 r 16 ltac:(lia)) as T. split; [|lia]. split; [lia|]. assert (Z.log2 r < 16) by (apply T; cbn; lia). lia.
Qed.

(** The bits read by F, most significant first, complemented and padded (zero data bits become ones). *)
Definition refill (d : dec) (bits : Z) : Z :=
  let numBits := Z.min bits (Z.max 0 (SymbolMaxBits d)) in
  2 ^ bits - 1 - be (firstn (Z.to_nat numBits) (rest (Bits d))) * 2 ^ (bits - numBits).

Lemma be_firstn_bound n l : 0 <= be (firstn n l) < 2 ^ Z.of_nat n.
Proof.
  pose proof (be_nonneg (firstn n l)) as H. split; [lia|]. eapply Z.lt_le_trans; [apply H|].
  apply Z.pow_le_mono_r; [lia|]. rewrite firstn_length. lia.
Qed.
Lemma refill_bound d bits : 0 <= bits -> 0 <= refill d bits < 2 ^ bits.
Proof.
  intros Hb. unfold refill. set (n := Z.min bits (Z.max 0 (SymbolMaxBits d))).
  assert (0 <= n <= bits) by (unfold n; lia).
  pose proof (be_firstn_bound (Z.to_nat n) (rest (Bits d))) as B. rewrite Z2Nat.id in B by lia.
  pose proof (pow2_pos (bits - n) ltac:(lia)).
  assert (2 ^ bits = 2 ^ n * 2 ^ (bits - n)) by (rewrite <- Z.pow_add_r by lia; f_equal; lia). nia.
Qed.

(** F inside the tile. *)
Lemma onbits_F d e n : tile_state d e -> 0 <= n <= Z.max 0 (SymbolMaxBits d) -> n <= 63 ->
  onbits (F n) d = Ok (be (firstn (Z.to_nat n) (rest (Bits d))),
    mkDec (SymbolValue d) (SymbolRange d) (SymbolMaxBits d) (adv (Bits d) n)).
Proof.
  intros (_ & _ & H0 & He & Hl) Hn H63. unfold onbits.
  pose proof (length_rest (Bits d) H0) as HL.
  rewrite (F_ok n (Bits d) (firstn (Z.to_nat n) (rest (Bits d))) (skipn (Z.to_nat n) (rest (Bits d)))).
  - reflexivity.
  - exact H0.
  - symmetry. apply firstn_skipn.
  - rewrite firstn_length. lia.
  - exact H63.
Qed.

(** What one ReadSymbol does, as long as the registers are in range. *)
Lemma ReadSymbol_spec dis c d e : valid_cdf c -> tile_state d e ->
  exists t bits, 0 <= t < nsyms c /\ 0 <= bits <= 15 /\
    bound (SymbolRange d) c t <= SymbolValue d < bound (SymbolRange d) c (t - 1) /\
    let r := bound (SymbolRange d) c (t - 1) - bound (SymbolRange d) c t in
    bits = 15 - Z.log2 r /\
    let d' := mkDec ((SymbolValue d - bound (SymbolRange d) c t) * 2 ^ bits + refill d bits) (r * 2 ^ bits)
                    (SymbolMaxBits d - bits) (adv (Bits d) (Z.min bits (Z.max 0 (SymbolMaxBits d)))) in
    ReadSymbol dis c d = (let* c' := if dis then ret c else lift (adapt c (nsyms c) t) in ret (t, c')) d' /\
    tile_state d' e.
Proof.
  intros Hv HT. assert (HT' := HT). destruct HT as (HR & HV & H0 & He & Hl).
  set (R := SymbolRange d) in *. set (V := SymbolValue d) in *.
  assert (HN : 1 <= nsyms c <= 16) by apply Hv.
  destruct (sym_loop_spec c R V Hv HR ltac:(lia) (S (length c)) (-1)) as (t & Ht & Hb & Eloop).
  { lia. } { unfold nsyms. lia. } { unfold bound. cbn. lia. }
  pose proof (bound_step R c t Hv HR ltac:(lia)) as Hstep.
  pose proof (bound_bounds R c t Hv HR ltac:(lia)) as Hb1. pose proof (bound_bounds R c (t - 1) Hv HR ltac:(lia)) as Hb2.
  set (r := bound R c (t - 1) - bound R c t).
  assert (Hr : 1 <= r < 65536) by (unfold r; lia).
  destruct (log2_range r Hr) as [Hlg Hlg2].
  set (bits := 15 - Z.log2 r).
  assert (Epow : 2 ^ bits * 2 ^ Z.log2 r = 32768) by (rewrite <- Z.pow_add_r by (unfold bits; lia); replace (bits + Z.log2 r) with 15 by (unfold bits; lia); reflexivity).
  assert (Pb : 0 < 2 ^ bits) by (apply pow2_pos; unfold bits; lia).
  assert (Hb15 : 2 ^ bits <= 2 ^ 15) by (apply Z.pow_le_mono_r; unfold bits; lia). change (2 ^ 15) with 32768 in Hb15.
  assert (Hr2 : 32768 <= r * 2 ^ bits < 65536) by nia.
  exists t, bits. split; [lia|]. split; [unfold bits; lia|]. split; [exact Hb|]. cbv zeta. fold r. split; [reflexivity|].
  set (nb := Z.min bits (Z.max 0 (SymbolMaxBits d))).
  pose proof (refill_bound d bits ltac:(unfold bits; lia)) as Hrf.
  split.
  - unfold ReadSymbol. rewrite <- nsyms_zlen. destruct (Z.ltb_spec (nsyms c) 1); [lia|].
    rewrite idx_at by (rewrite <- (Z.sub_add 1 (zlen c)); fold (nsyms c); rewrite <- nsyms_zlen; lia).
    destruct Hv as (_ & _ & _ & HL & _). unfold lift at 1. rewrite HL.
    rewrite (bind_ok _ _ _ _ _ (eq_refl : _ = Ok (_, _))). cbn [Z.eqb Pos.eqb negb].
    rewrite (bind_ok _ _ _ _ _ (eq_refl : get d = Ok (d, d))). fold R V.
    change (bound R c (-1)) with R in Eloop. rewrite Eloop. unfold lift at 1.
    rewrite (bind_ok _ _ _ _ _ (eq_refl : _ = Ok (_, _))). cbv beta iota zeta. fold r.
    assert (r < 2 ^ 63) by (eapply Z.lt_trans; [apply Hr|reflexivity]).
    rewrite (FloorLog2_pos r) by lia. unfold lift at 1. rewrite (bind_ok _ _ _ _ _ (eq_refl : _ = Ok (_, _))). cbv beta. fold bits.
    destruct (Z.ltb_spec bits 0); [unfold bits in *; lia|].
    assert (Emin : Min bits (Max 0 (SymbolMaxBits d)) = nb).
    { rewrite Min_min, Max_max. reflexivity. }
    rewrite Emin.
    rewrite (bind_ok _ _ _ _ _ (onbits_F d e nb HT' ltac:(unfold nb; lia) ltac:(unfold nb, bits; lia))).
    cbv beta. unfold modify. rewrite (bind_ok _ _ _ _ _ (eq_refl : _ = Ok (_, _))). cbv beta. cbn [Bits].
    set (x := be (firstn (Z.to_nat nb) (rest (Bits d)))).
    assert (Hx : 0 <= x < 2 ^ nb).
    { unfold x. pose proof (be_firstn_bound (Z.to_nat nb) (rest (Bits d))) as Q. rewrite Z2Nat.id in Q by (unfold nb; lia). exact Q. }
    assert (Hpn : 2 ^ bits = 2 ^ nb * 2 ^ (bits - nb)) by (rewrite <- Z.pow_add_r by (unfold nb; lia); f_equal; lia).
    pose proof (pow2_pos (bits - nb) ltac:(unfold nb; lia)).
    rewrite (shl_small x) by (unfold nb in *; nia). rewrite (shl_small r) by lia.
    rewrite (shl_small (V - bound R c t + 1)) by nia.
    rewrite xor_refill; [|lia|lia|nia].
    replace (2 ^ bits - 1 - x * 2 ^ (bits - nb)) with (refill d bits) by reflexivity. reflexivity.
  - unfold tile_state. cbn [SymbolRange SymbolValue SymbolMaxBits Bits Position adv set_pos Data]. split; [exact Hr2|].
    split; [unfold r in *; nia|]. split; [lia|]. split; [unfold bits in *; lia|exact Hl].
Qed.

Lemma adapt_spec c t : valid_cdf c -> 0 <= t < nsyms c -> exists c', adapt c (nsyms c) t = Ok c' /\ adapted c t c'.
Proof.
  intros Hv Ht. assert (Hv' := Hv). destruct Hv as (HN & H0 & Hm & HL & HC). unfold adapt.
  assert (Hz : zlen c = nsyms c + 1) by (rewrite nsyms_zlen; lia).
  rewrite idx_at by lia. cbn [rbind].
  assert (nsyms c < 2 ^ 63) by (eapply Z.le_lt_trans; [apply HN|reflexivity]).
  rewrite FloorLog2_pos by lia. cbn [rbind]. rewrite Min_min.
  replace (3 + int_of (15 <? at_ c (nsyms c)) + int_of (31 <? at_ c (nsyms c)) + Z.min (Z.log2 (nsyms c)) 2) with (rate c) by reflexivity.
  assert (Hrate : 0 <= rate c) by (unfold rate; pose proof (Z.log2_nonneg (nsyms c)); destruct (15 <? _), (31 <? _); lia).
  unfold rfor_to. rewrite Z.sub_0_r.
  match goal with |- context[rfor_from ?n 0 ?body _] => 
    destruct (rfor_from_inv (fun j (a : Z * list Z) => fst a = (if (j <=? t) then 0 else 32768) /\ length (snd a) = length c /\
       forall i, 0 <= i < zlen c -> at_ (snd a) i = if (i <? j) then (if i <? t then at_ c i - at_ c i / 2 ^ rate c
                else at_ c i + (32768 - at_ c i) / 2 ^ rate c) else at_ c i) n 0 body (0, c)) as ([tmp c1] & E & Ht1 & Hl1 & Ha1) end.
  - cbn. destruct (Z.leb_spec 0 t); [|lia]. repeat split. intros i Hi. destruct (Z.ltb_spec i 0); [lia|reflexivity].
  - intros j [tmp c1] Hj (Htmp & Hl & Ha). cbn [fst snd] in *. assert (Hj2 : 0 <= j < nsyms c - 1) by lia.
    assert (Hz1 : zlen c1 = zlen c) by (unfold zlen; congruence).
    rewrite idx_at by lia. cbn [rbind]. rewrite upd_ok by lia. cbn [rbind]. eexists. split; [reflexivity|]. cbn [fst snd].
    rewrite upd_nat_length. split; [|split; [exact Hl|]].
    + rewrite Htmp. destruct (Z.eqb_spec j t), (Z.leb_spec j t), (Z.leb_spec (j + 1) t); lia.
    + intros i Hi. destruct (Z.eq_dec i j) as [->|Hij].
      * rewrite at_upd_same by lia. destruct (Z.ltb_spec j (j + 1)); [|lia].
        pose proof (valid_range c Hv' j ltac:(lia)) as Hr.
        rewrite (Ha j Hi). destruct (Z.ltb_spec j j); [lia|]. rewrite Htmp.
        destruct (Z.ltb_spec j t); destruct (Z.eqb_spec j t); try lia.
        -- destruct (Z.leb_spec j t); [|lia]. destruct (Z.ltb_spec 0 (at_ c j)); [|lia]. rewrite shr_div by lia. rewrite Z.sub_0_r. reflexivity.
        -- destruct (Z.ltb_spec 32768 (at_ c j)); [lia|]. rewrite shr_div by lia. reflexivity.
        -- destruct (Z.leb_spec j t); [lia|]. destruct (Z.ltb_spec 32768 (at_ c j)); [lia|]. rewrite shr_div by lia. reflexivity.
      * rewrite at_upd_other by lia. rewrite (Ha i Hi).
        destruct (Z.ltb_spec i j), (Z.ltb_spec i (j + 1)); try lia; reflexivity.
  - rewrite E. cbn [rbind snd fst] in *. assert (Hz1 : zlen c1 = zlen c) by (unfold zlen; congruence).
    rewrite idx_at by lia. cbn [rbind]. rewrite upd_ok by lia. eexists. split; [reflexivity|].
    assert (Hn : forall i, nsyms c - 1 <= i < zlen c -> at_ c1 i = at_ c i).
    { intros i Hi. rewrite Ha1 by lia. destruct (Z.ltb_spec i (0 + Z.of_nat (Z.to_nat (nsyms c - 1)))); [lia|reflexivity]. }
    unfold adapted. split; [rewrite upd_nat_length; exact Hl1|]. split; [|split].
    + intros i Hi. rewrite at_upd_other by lia. rewrite Ha1 by lia.
      destruct (Z.ltb_spec i (0 + Z.of_nat (Z.to_nat (nsyms c - 1)))); [reflexivity|lia].
    + rewrite at_upd_other by lia. apply Hn. lia.
    + rewrite at_upd_same by lia. rewrite Hn by lia. destruct (Z.ltb_spec (at_ c (nsyms c)) 32); cbn [int_of]; lia.
Qed.

Lemma rate_bounds c : 1 <= nsyms c <= 16 -> 3 <= rate c <= 7.
Proof.
  intros H. unfold rate. pose proof (Z.log2_nonneg (nsyms c)). destruct (15 <? _), (31 <? _); lia.
Qed.
Lemma down_mono x y r : 0 <= x <= y -> 0 <= r -> x - x / 2 ^ r <= y - y / 2 ^ r.
Proof.
  intros H Hr. pose proof (pow2_pos r Hr) as P. 
  assert (y / 2 ^ r <= x / 2 ^ r + (y - x)); [|lia].
  assert (y / 2 ^ r < x / 2 ^ r + (y - x) + 1); [|lia]. apply Z.div_lt_upper_bound; [lia|].
  pose proof (Z.div_mod x (2 ^ r) ltac:(lia)). pose proof (Z.mod_pos_bound x (2 ^ r) ltac:(lia)). nia.
Qed.
Lemma div_le_self x r : 0 <= x -> 0 <= r -> 0 <= x / 2 ^ r <= x.
Proof.
  intros H Hr. pose proof (pow2_pos r Hr). split; [apply Z.div_pos; lia|]. apply Z.div_le_upper_bound; nia.
Qed.
Lemma div_lt_self x r : 0 < x -> 1 <= r -> x / 2 ^ r < x.
Proof.
  intros H Hr. assert (2 <= 2 ^ r) by (change 2 with (2 ^ 1) at 1; apply Z.pow_le_mono_r; lia).
  apply Z.div_lt; lia.
Qed.
Lemma adapted_valid c t c' : valid_cdf c -> 0 <= t < nsyms c -> adapted c t c' -> valid_cdf c'.
Proof.
  intros Hv Ht (Hlen & Ha & Hlast & Hcnt). assert (Hns : nsyms c' = nsyms c) by (unfold nsyms; rewrite Hlen; reflexivity).
  assert (HN : 1 <= nsyms c <= 16) by apply Hv. pose proof (rate_bounds c HN) as Hr.
  assert (R : forall i, 0 <= i < nsyms c -> 1 <= at_ c i <= 32768) by (apply valid_range; exact Hv).
  assert (M1 : forall i j, 0 <= i <= j -> j < nsyms c -> at_ c i <= at_ c j) by (apply valid_mono; exact Hv).
  assert (B : forall i, 0 <= i < nsyms c -> 1 <= at_ c' i <= 32768).
  { intros i Hi. destruct (Z.eq_dec i (nsyms c - 1)) as [->|]; [rewrite Hlast; apply R; lia|].
    rewrite Ha by lia. specialize (R i Hi). destruct (i <? t).
    - pose proof (div_lt_self (at_ c i) (rate c) ltac:(lia) ltac:(lia)). pose proof (div_le_self (at_ c i) (rate c) ltac:(lia) ltac:(lia)). lia.
    - pose proof (div_le_self (32768 - at_ c i) (rate c) ltac:(lia) ltac:(lia)). lia. }
  unfold valid_cdf. rewrite Hns. split; [exact HN|]. split; [apply B; lia|]. split; [|split].
  - intros i Hi Hi1. destruct (Z.eq_dec (i + 1) (nsyms c - 1)) as [E|].
    + rewrite E, Hlast. destruct Hv as (_ & _ & _ & HL & _). rewrite HL. apply B. lia.
    + rewrite !Ha by lia. pose proof (M1 i (i + 1) ltac:(lia) ltac:(lia)) as Hm. pose proof (R i ltac:(lia)). pose proof (R (i + 1) ltac:(lia)).
      pose proof (div_le_self (at_ c i) (rate c) ltac:(lia) ltac:(lia)).
      pose proof (div_le_self (32768 - at_ c (i + 1)) (rate c) ltac:(lia) ltac:(lia)).
      destruct (Z.ltb_spec i t), (Z.ltb_spec (i + 1) t); try lia.
      * apply down_mono; lia.
      * pose proof (down_mono (32768 - at_ c (i + 1)) (32768 - at_ c i) (rate c) ltac:(lia) ltac:(lia)). lia.
  - rewrite Hlast. apply Hv.
  - rewrite Hcnt. destruct Hv as (_ & _ & _ & _ & ?). lia.
Qed.

(** ---------- running a history of reads ---------- *)
Inductive op := OSym (k : Z) | OLit (n : Z) | ONs (n : Z).
Definition run_op (dis : bool) (store : list (list Z)) (o : op) : D (Z * list (list Z)) :=
  match o with
  | OSym k => let* c := lift (idx store k) in
              let* r := ReadSymbol dis c in
              let* store' := lift (upd store k (snd r)) in
              ret (fst r, store')
  | OLit n => let* x := L dis n in ret (x, store)
  | ONs n => let* x := NS dis n in ret (x, store)
  end.
Fixpoint run (dis : bool) (store : list (list Z)) (ops : list op) : D (list Z * list (list Z)) :=
  match ops with
  | [] => ret ([], store)
  | o :: t => let* r := run_op dis store o in
              let* r2 := run dis (snd r) t in
              ret (fst r :: fst r2, snd r2)
  end.
(** The values an operation may return; lens are the symbol counts of the tables. *)
Definition allowed (store : list (list Z)) (o : op) (v : Z) : Prop :=
  match o with
  | OSym k => 0 <= k < zlen store /\ 0 <= v < nsyms (nth (Z.to_nat k) store [])
  | OLit n => 0 <= n <= 62 /\ 0 <= v < 2 ^ n
  | ONs n => 0 < n < 2 ^ 62 /\ 0 <= v < n
  end.
Definition op_ok (store : list (list Z)) (o : op) : Prop :=
  match o with
  | OSym k => 0 <= k < zlen store
  | OLit n => 0 <= n <= 62
  | ONs n => 0 < n < 2 ^ 62
  end.
Definition same_shape (a b : list (list Z)) : Prop := map (@length Z) a = map (@length Z) b.

Lemma shape_zlen a b : same_shape a b -> zlen a = zlen b.
Proof. unfold same_shape, zlen. intros H. apply (f_equal (@length nat)) in H. rewrite !map_length in H. congruence. Qed.
Lemma shape_nth a b k : same_shape a b -> length (nth k a []) = length (nth k b []).
Proof.
  unfold same_shape. intros H. change (length (nth k a [])) with (length (nth k a (@nil Z))).
  rewrite <- (map_nth (@length Z) a [] k), <- (map_nth (@length Z) b [] k), H. reflexivity.
Qed.
Lemma shape_allowed a b o v : same_shape a b -> allowed a o v -> allowed b o v.
Proof.
  intros H. destruct o as [k|n|n]; cbn; auto. unfold nsyms. rewrite (shape_zlen a b H), (shape_nth a b _ H). auto.
Qed.
Lemma shape_op_ok a b o : same_shape a b -> op_ok a o -> op_ok b o.
Proof. intros H. destruct o; cbn; auto. rewrite (shape_zlen a b H). auto. Qed.
Lemma shape_upd a k c : 0 <= k < zlen a -> length c = length (nth (Z.to_nat k) a []) -> same_shape (upd_nat a (Z.to_nat k) c) a.
Proof.
  unfold zlen, same_shape. intros Hk Hc. assert (Hk' : (Z.to_nat k < length a)%nat) by lia. revert Hc Hk'. generalize (Z.to_nat k). clear Hk. 
  induction a as [|x a IH]; intros [|n] Hc Hk; cbn in *; try reflexivity; try lia.
  - congruence.
  - f_equal. apply IH; [exact Hc|lia].
Qed.

(** ---------- exact position of the code word ---------- *)
Definition X (d : dec) (P : Z) : Z := SymbolValue d * 2 ^ P + refill d P.

Lemma firstn_add_split {A} n m (l : list A) : firstn (n + m) l = firstn n l ++ firstn m (skipn n l).
Proof. revert l. induction n as [|n IH]; intros [|x l]; cbn; try reflexivity; [rewrite firstn_nil; reflexivity|f_equal; apply IH]. Qed.

Lemma refill_split d e a b d' : tile_state d e -> 0 <= a -> 0 <= b ->
  SymbolMaxBits d' = SymbolMaxBits d - a -> Bits d' = adv (Bits d) (Z.min a (Z.max 0 (SymbolMaxBits d))) ->
  refill d (a + b) = refill d a * 2 ^ b + refill d' b.
Proof.
  intros (_ & _ & H0 & He & Hl) Ha Hb Hm HB. unfold refill. rewrite Hm, HB.
  set (mx := Z.max 0 (SymbolMaxBits d)).
  assert (Hmx' : Z.max 0 (SymbolMaxBits d - a) = Z.max 0 (mx - a)) by (unfold mx; lia).
  rewrite Hmx'. set (n1 := Z.min a mx). set (n2 := Z.min b (Z.max 0 (mx - a))).
  assert (En : Z.min (a + b) mx = n1 + n2) by (unfold n1, n2, mx; lia). rewrite En.
  rewrite rest_adv by (unfold n1, mx; lia).
  rewrite Z2Nat.inj_add by (unfold n1, n2, mx; lia).
  rewrite firstn_add_split, be_app.
  assert (HL : Z.of_nat (length (rest (Bits d))) = Z.max 0 (8 * zlen (Data (Bits d)) - Position (Bits d))) by (apply length_rest; exact H0).
  assert (Hlen2 : Z.of_nat (length (firstn (Z.to_nat n2) (skipn (Z.to_nat n1) (rest (Bits d))))) = n2).
  { rewrite firstn_length, skipn_length. unfold n1, n2, mx in *. lia. }
  rewrite Hlen2. set (x := be (firstn (Z.to_nat n1) _)). set (y := be (firstn (Z.to_nat n2) _)).
  assert (P1 : 2 ^ (a + b) = 2 ^ a * 2 ^ b) by (apply Z.pow_add_r; lia).
  assert (P2 : 2 ^ n2 * 2 ^ (a + b - (n1 + n2)) = 2 ^ (a - n1) * 2 ^ b).
  { rewrite <- !Z.pow_add_r by (unfold n1, n2, mx; lia). f_equal. lia. }
  assert (P3 : y * 2 ^ (a + b - (n1 + n2)) = y * 2 ^ (b - n2)).
  { destruct (Z.eq_dec n2 0) as [E0|].
    - unfold y. rewrite E0. change (Z.to_nat 0) with 0%nat. cbn [firstn be]. lia.
    - f_equal. f_equal. unfold n1, n2, mx in *. lia. }
  rewrite P1. rewrite Z.mul_add_distr_r, P3. rewrite <- Z.mul_assoc, P2. lia.
Qed.

(** [codes m R a R']: there is a code interval (of width R' at precision P, inside [0, R)) such that whenever the
    code word lies in it, m returns a, and leaves range R' with the code word relative to the interval. *)
Definition codes {A} (m : D A) (R : Z) (a : A) (R' : Z) : Prop :=
  exists P lo, 0 <= P /\ 0 <= lo /\ lo + R' <= R * 2 ^ P /\ 32768 <= R' < 65536 /\
  forall d e, tile_state d e -> SymbolRange d = R -> lo <= X d P < lo + R' ->
    exists d', m d = Ok (a, d') /\ tile_state d' e /\ SymbolRange d' = R' /\ SymbolMaxBits d' = SymbolMaxBits d - P /\
      Data (Bits d') = Data (Bits d) /\
      forall Q, 0 <= Q -> X d' Q = X d (P + Q) - lo * 2 ^ Q.

Lemma X_floor d e P Q : tile_state d e -> 0 <= P -> 0 <= Q -> X d P * 2 ^ Q <= X d (P + Q) < (X d P + 1) * 2 ^ Q.
Proof.
  intros HT HP HQ. unfold X.
  set (d' := mkDec 0 0 (SymbolMaxBits d - P) (adv (Bits d) (Z.min P (Z.max 0 (SymbolMaxBits d))))).
  rewrite (refill_split d e P Q d' HT HP HQ eq_refl eq_refl).
  pose proof (refill_bound d' Q HQ). rewrite Z.pow_add_r by lia. pose proof (pow2_pos Q HQ). nia.
Qed.

Lemma codes_ret {A} (a : A) R : 32768 <= R < 65536 -> codes (ret a) R a R.
Proof.
  intros HR. exists 0, 0. change (2 ^ 0) with 1. repeat split; try lia.
  intros d e HT HR1 _. exists d. split; [reflexivity|]. split; [exact HT|]. split; [exact HR1|]. split; [lia|]. split; [reflexivity|].
  intros Q HQ. replace (0 + Q) with Q by lia. lia.
Qed.
Lemma codes_bind {A B} (m : D A) (k : A -> D B) R a R1 b R2 :
  codes m R a R1 -> codes (k a) R1 b R2 -> codes (bind m k) R b R2.
Proof.
  intros (P1 & lo1 & HP1 & Hlo1 & Hw1 & HR1 & H1) (P2 & lo2 & HP2 & Hlo2 & Hw2 & HR2 & H2).
  exists (P1 + P2), (lo1 * 2 ^ P2 + lo2). pose proof (pow2_pos P2 HP2) as Q2. pose proof (pow2_pos P1 HP1) as Q1.
  split; [lia|]. split; [nia|]. split; [rewrite Z.pow_add_r by lia; nia|]. split; [exact HR2|].
  intros d e HT HR HX.
  pose proof (X_floor d e P1 P2 HT HP1 HP2) as Fl.
  assert (HX1 : lo1 <= X d P1 < lo1 + R1) by nia.
  destruct (H1 d e HT HR HX1) as (d1 & E1 & T1 & Rg1 & M1 & D1 & S1).
  assert (HX2 : lo2 <= X d1 P2 < lo2 + R2) by (rewrite S1 by lia; lia).
  destruct (H2 d1 e T1 Rg1 HX2) as (d2 & E2 & T2 & Rg2 & M2 & D2 & S2).
  exists d2. split; [rewrite (bind_ok _ _ _ _ _ E1); exact E2|]. split; [exact T2|]. split; [exact Rg2|]. split; [lia|]. split; [congruence|].
  intros Q HQ. rewrite S2 by lia. rewrite S1 by lia. rewrite Z.pow_add_r by lia.
  replace (P1 + P2 + Q) with (P1 + (P2 + Q)) by lia. lia.
Qed.
Lemma codes_lift {A} (r : res A) a R : r = Ok a -> 32768 <= R < 65536 -> codes (lift r) R a R.
Proof. intros -> HR. apply (codes_ret a R HR). Qed.

Lemma codes_ReadSymbol dis c t R : valid_cdf c -> 32768 <= R < 65536 -> 0 <= t < nsyms c ->
  exists c' R', codes (ReadSymbol dis c) R (t, c') R' /\ valid_cdf c' /\ length c' = length c.
Proof.
  intros Hv HR Ht.
  assert (Hc' : exists c', (if dis then ret c else lift (adapt c (nsyms c) t) : D (list Z)) = ret c' /\ valid_cdf c' /\ length c' = length c).
  { destruct dis; [exists c; auto|]. destruct (adapt_spec c t Hv Ht) as (c' & E & A). exists c'. rewrite E.
    split; [reflexivity|]. split; [apply (adapted_valid c t c' Hv Ht A)|apply A]. }
  destruct Hc' as (c' & Ec & Vc & Lc).
  set (r := bound R c (t - 1) - bound R c t).
  pose proof (bound_step R c t Hv HR ltac:(lia)) as Hstep.
  pose proof (bound_bounds R c t Hv HR ltac:(lia)) as Hb1. pose proof (bound_bounds R c (t - 1) Hv HR ltac:(lia)) as Hb2.
  assert (Hr : 1 <= r < 65536) by (unfold r; lia). destruct (log2_range r Hr) as [Hlg Hlg2].
  set (P := 15 - Z.log2 r).
  assert (Epow : 2 ^ P * 2 ^ Z.log2 r = 32768) by (rewrite <- Z.pow_add_r by (unfold P; lia); replace (P + Z.log2 r) with 15 by (unfold P; lia); reflexivity).
  assert (Pp : 0 < 2 ^ P) by (apply pow2_pos; unfold P; lia).
  exists c', (r * 2 ^ P). split; [|split; [exact Vc|exact Lc]].
  exists P, (bound R c t * 2 ^ P). split; [unfold P; lia|]. split; [nia|]. split; [unfold r; nia|]. split; [nia|].
  intros d e HT HRd HX.
  destruct (ReadSymbol_spec dis c d e Hv HT) as (t' & bits & Ht' & Hbits & Hin & Hbe & E & T'). cbv zeta in *.
  rewrite HRd in *.
  assert (Hin2 : bound R c t <= SymbolValue d < bound R c (t - 1)).
  { pose proof (refill_bound d P ltac:(unfold P; lia)) as RB. unfold X in HX. unfold r in *. nia. }
  assert (t' = t) by (apply (bound_unique R c (SymbolValue d) t' t Hv HR Ht' Ht Hin Hin2)). subst t'.
  fold r in Hbe, E, T'. assert (bits = P) by (unfold P; lia). subst bits. fold P in E, T'.
  rewrite Ec in E. eexists. split; [rewrite E; reflexivity|]. split; [exact T'|]. split; [reflexivity|]. split; [reflexivity|]. split; [reflexivity|].
  intros Q HQ. unfold X at 1. cbn [SymbolValue].
  unfold X. 
  match goal with |- _ + refill ?dd Q = _ => rewrite (refill_split d e P Q dd HT ltac:(lia) HQ eq_refl eq_refl) end.
  rewrite Z.pow_add_r by lia. lia.
Qed.

Lemma valid_bool_cdf : valid_cdf [16384; 32768; 0].
Proof.
  unfold valid_cdf, nsyms. cbn [length]. change (Z.of_nat 3 - 1) with 2. repeat split; try (vm_compute; congruence); try lia.
  intros i Hi Hi1. assert (i = 0) by lia. subst. vm_compute. congruence.
Qed.
Lemma codes_readBool dis R b : 32768 <= R < 65536 -> 0 <= b <= 1 -> exists R', codes (readBool dis) R b R'.
Proof.
  intros HR Hb. destruct (codes_ReadSymbol dis [16384; 32768; 0] b R valid_bool_cdf HR) as (c' & R' & Hc & _).
  { unfold nsyms. cbn [length]. lia. }
  exists R'. unfold readBool. eapply codes_bind; [exact Hc|]. cbn [fst]. apply codes_ret.
  destruct Hc as (? & ? & _ & _ & _ & ? & _). assumption.
Qed.
Lemma codes_range {A} (m : D A) R a R' : codes m R a R' -> 32768 <= R' < 65536.
Proof. intros (? & ? & _ & _ & _ & H & _). exact H. Qed.

Lemma codes_L_loop dis n : forall i acc R v, (n <= 62)%nat -> 32768 <= R < 65536 -> 0 <= v < 2 ^ Z.of_nat n ->
  0 <= acc -> (acc + 1) * 2 ^ Z.of_nat n <= 2 ^ 62 ->
  exists R', codes (for_from n i (fun _ x => let* b := readBool dis in ret (i64 (2 * x + b))) acc) R (acc * 2 ^ Z.of_nat n + v) R'.
Proof.
  induction n as [|n IH]; intros i acc R v Hn HR Hv Ha Hacc.
  - exists R. change (2 ^ Z.of_nat 0) with 1 in *. replace (acc * 1 + v) with acc by lia. apply codes_ret. exact HR.
  - rewrite Nat2Z.inj_succ, Z.pow_succ_r in * by lia. set (p := 2 ^ Z.of_nat n) in *.
    assert (Hp : 0 < p) by (apply pow2_pos; lia).
    pose proof (Z.div_mod v p ltac:(lia)) as Dm. pose proof (Z.mod_pos_bound v p ltac:(lia)) as Mb.
    assert (Hb : 0 <= v / p <= 1) by nia.
    destruct (codes_readBool dis R (v / p) HR Hb) as (R1 & C1).
    destruct (IH (i + 1) (2 * acc + v / p) R1 (v mod p) ltac:(lia) (codes_range _ _ _ _ C1) Mb ltac:(lia) ltac:(nia)) as (R2 & C2).
    exists R2. rewrite for_from_S. 
    replace (acc * (2 * p) + v) with ((2 * acc + v / p) * p + v mod p) by lia.
    eapply codes_bind; [|exact C2].
    eapply codes_bind; [exact C1|]. cbv beta.
    rewrite i64_id; [apply codes_ret, (codes_range _ _ _ _ C1)|].
    assert (2 ^ 63 = 2 * 2 ^ 62) by reflexivity. nia.
Qed.
Lemma codes_L dis n v R : 0 <= n <= 62 -> 32768 <= R < 65536 -> 0 <= v < 2 ^ n -> exists R', codes (L dis n) R v R'.
Proof.
  intros Hn HR Hv. unfold L, for_to. rewrite Z.sub_0_r.
  destruct (codes_L_loop dis (Z.to_nat n) 0 0 R v ltac:(lia) HR) as (R' & C).
  - rewrite Z2Nat.id by lia. exact Hv.
  - lia.
  - rewrite Z2Nat.id by lia. rewrite Z.mul_1_l. apply Z.pow_le_mono_r; lia.
  - exists R'. exact C.
Qed.
Lemma log2_62 n : 0 < n < 2 ^ 62 -> 0 <= Z.log2 n <= 61 /\ 2 ^ Z.log2 n <= n < 2 ^ (Z.log2 n + 1).
Proof.
  intros H. pose proof (Z.log2_nonneg n). pose proof (Z.log2_spec n ltac:(lia)) as S.
  assert (Z.log2 n < 62) by (apply Z.log2_lt_pow2; lia). split; [lia|]. exact S.
Qed.
Lemma codes_NS dis n v R : 0 < n < 2 ^ 62 -> 32768 <= R < 65536 -> 0 <= v < n -> exists R', codes (NS dis n) R v R'.
Proof.
  intros Hn HR Hv. unfold NS. destruct (log2_62 n Hn) as [Hl1 Hl2].
  set (l := Z.log2 n) in *. rewrite Z.pow_add_r, Z.pow_1_r in Hl2 by lia.
  assert (Hp : 2 ^ l <= 2 ^ 61) by (apply Z.pow_le_mono_r; lia). assert (E62 : 2 ^ 62 = 2 * 2 ^ 61) by reflexivity. assert (E63 : 2 ^ 63 = 2 * 2 ^ 62) by reflexivity.
  assert (Em : shl 1 (l + 1) - n = 2 * 2 ^ l - n) by (rewrite shl_1 by lia; rewrite Z.pow_add_r by lia; lia).
  assert (Efl : FloorLog2 n = Ok l) by (apply FloorLog2_pos; lia).
  destruct (Z_lt_le_dec v (2 * 2 ^ l - n)) as [Hlt|Hge].
  - destruct (codes_L dis l v R ltac:(lia) HR ltac:(lia)) as (R1 & C1). exists R1.
    eapply codes_bind; [apply codes_lift; [exact Efl|exact HR]|]. cbv beta zeta. replace (l + 1 - 1) with l by lia.
    eapply codes_bind; [exact C1|]. cbv beta. rewrite Em. destruct (Z.ltb_spec v (2 * 2 ^ l - n)); [|lia].
    apply codes_ret, (codes_range _ _ _ _ C1).
  - set (x := v + (2 * 2 ^ l - n)). pose proof (Z.div_mod x 2 ltac:(lia)) as Dm. pose proof (Z.mod_pos_bound x 2 ltac:(lia)) as Mb.
    assert (Hx : 0 <= x < 2 * 2 ^ l) by (unfold x; lia).
    assert (Hq : 2 * 2 ^ l - n <= x / 2 < 2 ^ l) by (unfold x in *; lia).
    destruct (codes_L dis l (x / 2) R ltac:(lia) HR ltac:(lia)) as (R1 & C1).
    destruct (codes_L dis 1 (x mod 2) R1 ltac:(lia) (codes_range _ _ _ _ C1) ltac:(lia)) as (R2 & C2).
    exists R2.
    eapply codes_bind; [apply codes_lift; [exact Efl|exact HR]|]. cbv beta zeta. replace (l + 1 - 1) with l by lia.
    eapply codes_bind; [exact C1|]. cbv beta. rewrite Em. destruct (Z.ltb_spec (x / 2) (2 * 2 ^ l - n)); [lia|].
    eapply codes_bind; [exact C2|]. cbv beta. rewrite shl_small by lia.
    replace (x / 2 * 2 ^ 1 - (2 * 2 ^ l - n) + x mod 2) with v by (change (2 ^ 1) with 2; unfold x in *; lia).
    apply codes_ret, (codes_range _ _ _ _ C2).
Qed.

Lemma Forall_upd {A} (Q : A -> Prop) l i v : Forall Q l -> Q v -> Forall Q (upd_nat l i v).
Proof. intros H Hv. revert i. induction H as [|x l Hx Hl IH]; intros [|i]; cbn; constructor; auto. Qed.
Lemma Forall_nth_in {A} (Q : A -> Prop) l i d : Forall Q l -> (i < length l)%nat -> Q (nth i l d).
Proof. intros H Hi. rewrite Forall_forall in H. apply H, nth_In. exact Hi. Qed.

Lemma codes_run_op dis store o v R : Forall valid_cdf store -> 32768 <= R < 65536 -> allowed store o v ->
  exists store' R', codes (run_op dis store o) R (v, store') R' /\ Forall valid_cdf store' /\ same_shape store' store.
Proof.
  intros Hs HR Ha. destruct o as [k|n|n]; cbn [allowed run_op] in *.
  - destruct Ha as [Hk Hv]. set (c := nth (Z.to_nat k) store []) in *.
    assert (Vc : valid_cdf c) by (apply Forall_nth_in; [exact Hs|unfold zlen in Hk; lia]).
    destruct (codes_ReadSymbol dis c v R Vc HR Hv) as (c' & R' & C & Vc' & Lc').
    exists (upd_nat store (Z.to_nat k) c'), R'. split; [|split].
    + eapply codes_bind; [apply codes_lift; [apply (idx_ok store k []); exact Hk|exact HR]|]. fold c.
      eapply codes_bind; [exact C|]. cbn [fst snd].
      eapply codes_bind; [apply codes_lift; [apply upd_ok; exact Hk|exact (codes_range _ _ _ _ C)]|].
      apply codes_ret, (codes_range _ _ _ _ C).
    + apply Forall_upd; assumption.
    + apply shape_upd; [exact Hk|exact Lc'].
  - destruct (codes_L dis n v R ltac:(lia) HR ltac:(lia)) as (R' & C). exists store, R'. split; [|split; [exact Hs|reflexivity]].
    eapply codes_bind; [exact C|]. apply codes_ret, (codes_range _ _ _ _ C).
  - destruct (codes_NS dis n v R ltac:(lia) HR ltac:(lia)) as (R' & C). exists store, R'. split; [|split; [exact Hs|reflexivity]].
    eapply codes_bind; [exact C|]. apply codes_ret, (codes_range _ _ _ _ C).
Qed.
Lemma codes_run dis : forall ops vs store R, Forall valid_cdf store -> 32768 <= R < 65536 -> Forall2 (allowed store) ops vs ->
  exists store' R', codes (run dis store ops) R (vs, store') R' /\ Forall valid_cdf store' /\ same_shape store' store.
Proof.
  induction ops as [|o ops IH]; intros vs store R Hs HR Ha; inversion Ha as [|? v ? vs' H1 H2]; subst.
  - exists store, R. split; [apply codes_ret; exact HR|]. split; [exact Hs|reflexivity].
  - destruct (codes_run_op dis store o v R Hs HR H1) as (st1 & R1 & C1 & V1 & S1).
    assert (H2' : Forall2 (allowed st1) ops vs').
    { clear - H2 S1. induction H2; constructor; auto. apply (shape_allowed store); [symmetry; exact S1|assumption]. }
    destruct (IH vs' st1 R1 V1 (codes_range _ _ _ _ C1) H2') as (st2 & R2 & C2 & V2 & S2).
    exists st2, R2. split; [|split; [exact V2|unfold same_shape in *; congruence]].
    cbn [run]. eapply codes_bind; [exact C1|]. cbn [fst snd].
    eapply codes_bind; [exact C2|]. cbn [fst snd]. apply codes_ret, (codes_range _ _ _ _ C2).
Qed.

(** ---------- safety of every history ---------- *)
Definition tstep (d d' : dec) (e : Z) : Prop :=
  tile_state d' e /\ Data (Bits d') = Data (Bits d) /\ Position (Bits d) <= Position (Bits d').
Lemma tstep_refl d e : tile_state d e -> tstep d d e.
Proof. intros H. split; [exact H|]. split; [reflexivity|lia]. Qed.
Lemma tstep_trans d d1 d2 e : tstep d d1 e -> tstep d1 d2 e -> tstep d d2 e.
Proof. intros (A & B & C) (A1 & B1 & C1). split; [exact A1|]. split; [congruence|lia]. Qed.

Lemma ReadSymbol_safe dis c d e : valid_cdf c -> tile_state d e ->
  exists t c' d', ReadSymbol dis c d = Ok (t, c', d') /\ tstep d d' e /\ 0 <= t < nsyms c /\ valid_cdf c' /\
    length c' = length c /\ (if dis then c' = c else adapted c t c') /\
    bound (SymbolRange d) c t <= SymbolValue d < bound (SymbolRange d) c (t - 1).
Proof.
  intros Hv HT. destruct (ReadSymbol_spec dis c d e Hv HT) as (t & bits & Ht & Hb & Hin & _ & E & T').
  cbv zeta in *. rewrite E. destruct dis.
  - eexists t, c, _. split; [reflexivity|]. split; [split; [exact T'|split; [reflexivity|cbn; lia]]|]. repeat split; auto; try lia; apply Hv.
  - destruct (adapt_spec c t Hv Ht) as (c' & Ea & A). rewrite Ea. eexists t, c', _. split; [reflexivity|].
    split; [split; [exact T'|split; [reflexivity|cbn; lia]]|]. split; [exact Ht|]. split; [apply (adapted_valid c t c' Hv Ht A)|].
    split; [apply A|]. split; [exact A|exact Hin].
Qed.
Lemma readBool_safe dis d e : tile_state d e -> exists b d', readBool dis d = Ok (b, d') /\ tstep d d' e /\ 0 <= b <= 1.
Proof.
  intros HT. destruct (ReadSymbol_safe dis _ d e valid_bool_cdf HT) as (t & c' & d' & E & S & Ht & _).
  exists t, d'. split; [unfold readBool; rewrite (bind_ok _ _ _ _ _ E); reflexivity|]. split; [exact S|].
  unfold nsyms in Ht. cbn [length] in Ht. lia.
Qed.
Lemma L_safe dis n d e : 0 <= n <= 62 -> tile_state d e -> exists x d', L dis n d = Ok (x, d') /\ tstep d d' e /\ 0 <= x < 2 ^ n.
Proof.
  intros Hn HT. unfold L, for_to. rewrite Z.sub_0_r.
  match goal with |- context[for_from ?k 0 ?body 0 d] =>
    destruct (for_from_inv (fun j x d1 => tstep d d1 e /\ 0 <= x < 2 ^ j) k 0 body 0 d) as (x & d' & E & S & Hx) end.
  - split; [apply tstep_refl; exact HT|]. change (2 ^ 0) with 1. lia.
  - intros j x d1 Hj [S Hx]. destruct (readBool_safe dis d1 e ltac:(apply S)) as (b & d2 & E & S2 & Hb).
    assert (2 ^ (j + 1) <= 2 ^ 62) by (apply Z.pow_le_mono_r; lia). rewrite Z.pow_add_r, Z.pow_1_r in * by lia.
    exists (i64 (2 * x + b)), d2. split; [rewrite (bind_ok _ _ _ _ _ E); reflexivity|].
    split; [apply (tstep_trans _ _ _ _ S S2)|]. rewrite i64_id; [lia|]. assert (2 ^ 63 = 2 * 2 ^ 62) by reflexivity. lia.
  - exists x, d'. split; [exact E|]. split; [exact S|]. rewrite Z.add_0_l, Z2Nat.id in Hx by lia. exact Hx.
Qed.
Lemma NS_safe dis n d e : 0 < n < 2 ^ 62 -> tile_state d e -> exists x d', NS dis n d = Ok (x, d') /\ tstep d d' e /\ 0 <= x < n.
Proof.
  intros Hn HT. unfold NS. destruct (log2_62 n Hn) as [Hl1 Hl2].
  set (l := Z.log2 n) in *. rewrite Z.pow_add_r, Z.pow_1_r in Hl2 by lia.
  assert (Hp : 2 ^ l <= 2 ^ 61) by (apply Z.pow_le_mono_r; lia). assert (E62 : 2 ^ 62 = 2 * 2 ^ 61) by reflexivity. assert (E63 : 2 ^ 63 = 2 * 2 ^ 62) by reflexivity.
  assert (Em : shl 1 (l + 1) - n = 2 * 2 ^ l - n) by (rewrite shl_1 by lia; rewrite Z.pow_add_r by lia; lia).
  rewrite FloorLog2_pos by lia. fold l. unfold lift. rewrite (bind_ok _ _ _ _ _ (eq_refl : _ = Ok (_, _))). cbv beta zeta.
  replace (l + 1 - 1) with l by lia.
  destruct (L_safe dis l d e ltac:(lia) HT) as (x & d1 & E1 & S1 & Hx). rewrite (bind_ok _ _ _ _ _ E1). cbv beta. rewrite Em.
  destruct (Z.ltb_spec x (2 * 2 ^ l - n)).
  - exists x, d1. split; [reflexivity|]. split; [exact S1|lia].
  - destruct (L_safe dis 1 d1 e ltac:(lia) ltac:(apply S1)) as (b & d2 & E2 & S2 & Hb). rewrite (bind_ok _ _ _ _ _ E2). cbv beta.
    exists (shl x 1 - (2 * 2 ^ l - n) + b), d2. split; [reflexivity|]. split; [apply (tstep_trans _ _ _ _ S1 S2)|].
    rewrite shl_small by lia. change (2 ^ 1) with 2 in *. lia.
Qed.
Lemma run_op_safe dis store o d e : Forall valid_cdf store -> op_ok store o -> tile_state d e ->
  exists v store' d', run_op dis store o d = Ok (v, store', d') /\ tstep d d' e /\ allowed store o v /\
    Forall valid_cdf store' /\ same_shape store' store.
Proof.
  intros Hs Ho HT. destruct o as [k|n|n]; cbn [op_ok run_op allowed] in *.
  - set (c := nth (Z.to_nat k) store []) in *.
    assert (Vc : valid_cdf c) by (apply Forall_nth_in; [exact Hs|unfold zlen in Ho; lia]).
    destruct (ReadSymbol_safe dis c d e Vc HT) as (t & c' & d' & E & S & Ht & Vc' & Lc' & _).
    exists t, (upd_nat store (Z.to_nat k) c'), d'.
    rewrite (idx_ok store k []) by exact Ho. fold c. unfold lift at 1. rewrite (bind_ok _ _ _ _ _ (eq_refl : _ = Ok (_, _))). cbv beta.
    rewrite (bind_ok _ _ _ _ _ E). cbn [fst snd]. rewrite upd_ok by exact Ho. split; [reflexivity|]. split; [exact S|].
    split; [split; assumption|]. split; [apply Forall_upd; assumption|apply shape_upd; assumption].
  - destruct (L_safe dis n d e Ho HT) as (x & d' & E & S & Hx). exists x, store, d'. rewrite (bind_ok _ _ _ _ _ E).
    split; [reflexivity|]. repeat split; try assumption; try (apply S); try lia.
  - destruct (NS_safe dis n d e Ho HT) as (x & d' & E & S & Hx). exists x, store, d'. rewrite (bind_ok _ _ _ _ _ E).
    split; [reflexivity|]. repeat split; try assumption; try (apply S); try lia.
Qed.
Lemma run_safe dis : forall ops store d e, Forall valid_cdf store -> Forall (op_ok store) ops -> tile_state d e ->
  exists vs store' d', run dis store ops d = Ok (vs, store', d') /\ tstep d d' e /\ Forall2 (allowed store) ops vs /\
    Forall valid_cdf store' /\ same_shape store' store.
Proof.
  induction ops as [|o ops IH]; intros store d e Hs Ho HT; cbn [run].
  - exists [], store, d. split; [reflexivity|]. split; [apply tstep_refl; exact HT|]. repeat split; auto.
  - inversion Ho as [|? ? H1 H2]; subst.
    destruct (run_op_safe dis store o d e Hs H1 HT) as (v & st1 & d1 & E1 & S1 & A1 & V1 & Sh1).
    assert (H2' : Forall (op_ok st1) ops) by (eapply Forall_impl; [|exact H2]; intros a; apply shape_op_ok; symmetry; exact Sh1).
    destruct (IH st1 d1 e V1 H2' ltac:(apply S1)) as (vs & st2 & d2 & E2 & S2 & A2 & V2 & Sh2).
    exists (v :: vs), st2, d2. rewrite (bind_ok _ _ _ _ _ E1). cbn [fst snd]. rewrite (bind_ok _ _ _ _ _ E2). cbn [fst snd].
    split; [reflexivity|]. split; [apply (tstep_trans _ _ _ _ S1 S2)|]. split; [|split; [exact V2|unfold same_shape in *; congruence]].
    constructor; [exact A1|]. clear - A2 Sh1. induction A2; constructor; auto. apply (shape_allowed st1); assumption.
Qed.

(** ---------- initSymbol, exitSymbol ---------- *)
Lemma initSymbol_spec sz d : 0 <= sz -> 0 <= Position (Bits d) -> Position (Bits d) + 8 * sz <= 8 * zlen (Data (Bits d)) ->
  let n := Z.min (8 * sz) 15 in
  let x := be (firstn (Z.to_nat n) (rest (Bits d))) * 2 ^ (15 - n) in
  let d' := mkDec (32767 - x) 32768 (8 * sz - 15) (adv (Bits d) n) in
  initSymbol sz d = Ok (tt, d') /\ tile_state d' (Position (Bits d) + 8 * sz).
Proof.
  intros Hsz H0 Hl n x d'. unfold initSymbol. rewrite Min_min. replace (sz * 8) with (8 * sz) by lia. fold n.
  pose proof (length_rest (Bits d) H0) as HL.
  assert (EF : onbits (F n) d = Ok (be (firstn (Z.to_nat n) (rest (Bits d))), mkDec (SymbolValue d) (SymbolRange d) (SymbolMaxBits d) (adv (Bits d) n))).
  { unfold onbits. rewrite (F_ok n (Bits d) (firstn (Z.to_nat n) (rest (Bits d))) (skipn (Z.to_nat n) (rest (Bits d)))).
    - reflexivity. - exact H0. - symmetry; apply firstn_skipn. - rewrite firstn_length. unfold n in *. lia. - unfold n; lia. }
  pose proof (be_firstn_bound (Z.to_nat n) (rest (Bits d))) as B. rewrite Z2Nat.id in B by (unfold n; lia).
  assert (Hpw : 2 ^ n * 2 ^ (15 - n) = 32768) by (rewrite <- Z.pow_add_r by (unfold n; lia); replace (n + (15 - n)) with 15 by lia; reflexivity).
  pose proof (pow2_pos (15 - n) ltac:(unfold n; lia)) as Pn.
  assert (Hx : 0 <= x < 32768) by (unfold x; nia).
  split.
  - rewrite (bind_ok _ _ _ _ _ EF). cbv beta zeta. unfold modify. cbn [Bits]. rewrite shl_small by lia. fold x.
    replace (Z.lxor 32767 x) with (32767 - x); [reflexivity|].
    rewrite Z.lxor_comm. change 32767 with (Z.ones 15) at 2. rewrite xor_compl by (change (2 ^ 15) with 32768; lia). reflexivity.
  - unfold d', tile_state. cbn [SymbolRange SymbolValue SymbolMaxBits Bits Position adv set_pos Data]. unfold n. lia.
Qed.
