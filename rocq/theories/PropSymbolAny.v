(** Property C161: reading symbols from a tile of any size, also one that does not fit into the data. *)
From Verif Require Import GoBase Bitstream Util Symbol SpecBits SpecStream SpecSymbol BitstreamProofs SafeParse UtilProofs SymbolProofs PropSymbol.

(** The registers of the arithmetic decoder in range, whatever the size of the tile *)
Definition regs (d : dec) : Prop := 32768 <= SymbolRange d < 65536 /\ 0 <= SymbolValue d < SymbolRange d.
(** The arithmetic decoder *)
Lemma F_range n s v s' : 0 <= Position s -> 0 <= n <= 62 -> F n s = Ok (v, s') -> 0 <= v < 2 ^ n.
Proof.
  intros H0 Hn E. destruct (F_total n s H0 ltac:(lia)) as [(l & r & Hr & Hl & E2)|[_ E2]]; rewrite E2 in E; [|discriminate].
  injection E as <- _. rewrite <- Hl. apply be_nonneg.
Qed.
Lemma initSymbol_regs sz d : 0 <= Position (Bits d) ->
  match initSymbol sz d with Ok (_, d') => Data (Bits d') = Data (Bits d) /\ Position (Bits d) <= Position (Bits d') /\ regs d' | Panic => True | Hang => False end.
Proof.
  intros P. unfold initSymbol. cbv zeta. rewrite bind_eq. unfold onbits at 1. pose proof (safe_F (Min (sz * 8) 15) (Bits d) P) as S.
  destruct (F _ (Bits d)) as [[a b]| |] eqn:EF; auto. destruct S as (S1 & S2 & _). unfold modify. cbn [Bits]. split; [exact S1|]. split; [exact S2|].
  assert (A : 0 <= shl a (15 - Min (sz * 8) 15) < 32768).
  { unfold Min in *. destruct (Z.leb_spec (sz * 8) 15) as [L|L].
    - destruct (Z.lt_ge_cases (sz * 8) 0) as [N|N].
      + unfold F in EF. replace (Z.to_nat (sz * 8)) with 0%nat in EF by lia. injection EF as <- _. unfold shl. rewrite Z.shiftl_0_l. vm_compute. split; congruence.
      + assert (W : 0 <= sz * 8 <= 62) by lia. pose proof (F_range _ _ _ _ P W EF) as R. assert (Q : 2 ^ (sz * 8) * 2 ^ (15 - sz * 8) = 32768) by (rewrite <- Z.pow_add_r by lia; change 32768 with (2 ^ 15); f_equal; lia).
        assert (0 < 2 ^ (15 - sz * 8)) by (apply Z.pow_pos_nonneg; lia). assert (U : 0 <= a * 2 ^ (15 - sz * 8) < 32768) by (clear - R Q H; nia).
        rewrite shl_small; [exact U|lia|]. change (2 ^ 63) with 9223372036854775808. lia.
    - assert (W : 0 <= 15 <= 62) by lia. pose proof (F_range _ _ _ _ P W EF) as R. unfold shl. rewrite Z.sub_diag, Z.shiftl_0_r. change (2 ^ 15) with 32768 in R. rewrite i64_id; [exact R|]. change (2 ^ 63) with 9223372036854775808. lia. }
  unfold regs. cbn [SymbolRange SymbolValue]. split; [lia|].
  set (p := shl a _) in *. clearbody p. rewrite Z.lxor_comm. change 32767 with (Z.ones 15) at 1 2. rewrite xor_compl by (change (2 ^ 15) with 32768; lia). change (2 ^ 15) with 32768. lia.
Qed.
(** Reading a symbol, also beyond the end of the tile or of the data *)
Lemma ReadSymbol_regs dis c d : valid_cdf c -> regs d -> 0 <= Position (Bits d) ->
  match ReadSymbol dis c d with
  | Ok (t, c', d') => 0 <= t < nsyms c /\ valid_cdf c' /\ length c' = length c /\ regs d' /\ Data (Bits d') = Data (Bits d) /\ Position (Bits d) <= Position (Bits d')
  | Panic => True | Hang => False end.
Proof.
  intros Hv [HR HV] H0. set (R := SymbolRange d) in *. set (V := SymbolValue d) in *.
  assert (HN : 1 <= nsyms c <= 16) by apply Hv.
  destruct (sym_loop_spec c R V Hv HR ltac:(lia) (S (length c)) (-1)) as (t & Ht & Hb & Eloop).
  { lia. } { unfold nsyms. lia. } { unfold bound. cbn. lia. }
  pose proof (bound_step R c t Hv HR ltac:(lia)) as Hstep.
  pose proof (bound_bounds R c t Hv HR ltac:(lia)) as Hb1. pose proof (bound_bounds R c (t - 1) Hv HR ltac:(lia)) as Hb2.
  set (r := bound R c (t - 1) - bound R c t).
  assert (Hr : 1 <= r < 65536) by (unfold r; lia).
  destruct (log2_range r Hr) as [Hlg Hlg2].
  set (bits := 15 - Z.log2 r).
  assert (Epow : 2 ^ bits * 2 ^ Z.log2 r = 32768) by (rewrite <- Z.pow_add_r by (unfold bits; lia); replace (bits + Z.log2 r) with 15 by (unfold bits; lia); reflexivity).
  assert (Pb : 0 < 2 ^ bits) by (apply pow2_pos; unfold bits; lia).
  assert (Hb15 : 2 ^ bits <= 2 ^ 15) by (apply Z.pow_le_mono_r; unfold bits; lia). change (2 ^ 15) with 32768 in Hb15.
  assert (Hr2 : 32768 <= r * 2 ^ bits < 65536) by nia.
  set (nb := Z.min bits (Z.max 0 (SymbolMaxBits d))).
  unfold ReadSymbol. rewrite <- nsyms_zlen. destruct (Z.ltb_spec (nsyms c) 1); [lia|].
  rewrite idx_at by (rewrite <- (Z.sub_add 1 (zlen c)); fold (nsyms c); rewrite <- nsyms_zlen; lia).
  assert (HL : at_ c (nsyms c - 1) = 32768) by apply Hv. unfold lift at 1. rewrite HL.
  rewrite (bind_ok _ _ _ _ _ (eq_refl : _ = Ok (_, _))). cbn [Z.eqb Pos.eqb negb].
  rewrite (bind_ok _ _ _ _ _ (eq_refl : get d = Ok (d, d))). fold R V.
  change (bound R c (-1)) with R in Eloop. rewrite Eloop. unfold lift at 1.
  rewrite (bind_ok _ _ _ _ _ (eq_refl : _ = Ok (_, _))). cbv beta iota zeta. fold r.
  assert (r < 2 ^ 63) by (eapply Z.lt_trans; [apply Hr|reflexivity]).
  rewrite (FloorLog2_pos r) by lia. unfold lift at 1. rewrite (bind_ok _ _ _ _ _ (eq_refl : _ = Ok (_, _))). cbv beta. fold bits.
  destruct (Z.ltb_spec bits 0); [unfold bits in *; lia|].
  assert (Emin : Min bits (Max 0 (SymbolMaxBits d)) = nb) by (rewrite Min_min, Max_max; reflexivity). rewrite Emin.
  rewrite bind_eq. unfold onbits at 1. pose proof (safe_F nb (Bits d) H0) as S. destruct (F nb (Bits d)) as [[x b]| |] eqn:EF; auto. destruct S as (S1 & S2 & _).
  assert (W : 0 <= nb <= 62) by (unfold nb, bits; lia). pose proof (F_range _ _ _ _ H0 W EF) as Hx.
  unfold modify. rewrite (bind_ok _ _ _ _ _ (eq_refl : _ = Ok (_, _))). cbv beta. cbn [Bits].
  assert (Hpn : 2 ^ bits = 2 ^ nb * 2 ^ (bits - nb)) by (rewrite <- Z.pow_add_r by (unfold nb; lia); f_equal; lia).
  pose proof (pow2_pos (bits - nb) ltac:(unfold nb; lia)) as Pn.
  assert (U : 0 <= x * 2 ^ (bits - nb) < 2 ^ bits) by (clear - Hx Hpn Pn; nia). assert (P63 : 2 ^ 63 = 9223372036854775808) by reflexivity.
  rewrite (shl_small x) by (unfold nb in *; lia). rewrite (shl_small r) by lia.
  rewrite (shl_small (V - bound R c t + 1)) by (first [lia | rewrite P63; clear - HV HR Hb Hb1 Hb2 Pb Hb15; nia]).
  rewrite xor_refill; [|lia|lia|exact U].
  assert (RG : regs (mkDec ((V - bound R c t) * 2 ^ bits + (2 ^ bits - 1 - x * 2 ^ (bits - nb))) (r * 2 ^ bits) (SymbolMaxBits d - bits) b)).
  { split; cbn [SymbolRange SymbolValue]; [exact Hr2|]. unfold r in *. clear - U Hb Pb. nia. }
  destruct dis.
  - rewrite bind_eq. unfold ret. cbv beta iota. split; [lia|]. split; [exact Hv|]. split; [reflexivity|]. split; [exact RG|]. auto.
  - assert (Ht0 : 0 <= t < nsyms c) by lia. clear Ht. rename Ht0 into Ht. destruct (adapt_spec c t Hv Ht) as (c' & Ea & A). rewrite Ea. rewrite bind_eq. unfold lift, ret. cbv beta iota. pose proof (adapted_valid c t c' Hv Ht A) as V'.
    split; [lia|]. split; [exact V'|]. split; [apply A|]. split; [exact RG|]. auto.
Qed.

Lemma readBool_regs dis d : regs d -> 0 <= Position (Bits d) ->
  match readBool dis d with Ok (b, d') => 0 <= b <= 1 /\ regs d' /\ Data (Bits d') = Data (Bits d) /\ Position (Bits d) <= Position (Bits d') | Panic => True | Hang => False end.
Proof.
  intros R P. unfold readBool. rewrite bind_eq. pose proof (ReadSymbol_regs dis _ d valid_bool_cdf R P) as H. destruct (ReadSymbol _ _ _) as [[[t c'] d']| |]; auto.
  destruct H as (T & _ & _ & H). cbn [ret fst]. unfold nsyms in T. cbn in T. split; [lia|exact H].
Qed.
(** Not a hang, and what holds afterwards *)
Definition okay {A} (Q : A -> Prop) (d : dec) (r : res (A * dec)) : Prop :=
  match r with Ok (a, d') => Q a /\ regs d' /\ Data (Bits d') = Data (Bits d) /\ Position (Bits d) <= Position (Bits d') | Panic => True | Hang => False end.
Lemma okay_bind {A B} (Q : A -> Prop) (R : B -> Prop) (m : D A) (k : A -> D B) d : 0 <= Position (Bits d) -> okay Q d (m d) ->
  (forall a d', Q a -> regs d' -> 0 <= Position (Bits d') -> okay R d' (k a d')) -> okay R d (bind m k d).
Proof.
  intros P H K. rewrite bind_eq. destruct (m d) as [[a d']| |]; auto. destruct H as (Qa & R1 & D1 & P1). specialize (K a d' Qa R1 ltac:(lia)).
  unfold okay in *. destruct (k a d') as [[b d2]| |]; auto. destruct K as (H2 & R2 & D2 & P2). split; [exact H2|]. split; [exact R2|]. split; [congruence|lia].
Qed.
Lemma okay_ret {A} (Q : A -> Prop) a d : Q a -> regs d -> okay Q d (ret a d).
Proof. intros H R. cbn. split; [exact H|]. split; [exact R|]. split; [reflexivity|lia]. Qed.
Lemma okay_lift {A} (Q : A -> Prop) (r : res A) d a : r = Ok a -> Q a -> regs d -> okay Q d (lift r d).
Proof. intros -> H R. apply okay_ret; assumption. Qed.
Lemma okay_mono {A} (Q Q' : A -> Prop) d r : okay Q d r -> (forall a, Q a -> Q' a) -> okay Q' d r.
Proof. unfold okay. destruct r as [[a d']| |]; auto. intros (H & T) K. split; [apply K, H|exact T]. Qed.
Lemma okay_bool dis d : regs d -> 0 <= Position (Bits d) -> okay (fun b => 0 <= b <= 1) d (readBool dis d).
Proof. exact (readBool_regs dis d). Qed.
Lemma okay_L dis n d : 0 <= n <= 62 -> regs d -> 0 <= Position (Bits d) -> okay (fun x => 0 <= x < 2 ^ n) d (L dis n d).
Proof.
  intros Hn. unfold L, for_to. rewrite Z.sub_0_r.
  assert (G : forall k i x d, 0 <= i -> i + Z.of_nat k = n -> 0 <= x < 2 ^ i -> regs d -> 0 <= Position (Bits d) ->
    okay (fun x => 0 <= x < 2 ^ n) d (for_from k i (fun _ x => let* b := readBool dis in ret (i64 (2 * x + b))) x d)).
  { induction k as [|k IH]; intros i x d0 Hi Hk Hx R P; cbn [for_from].
    - apply okay_ret; [|exact R]. replace n with i by lia. exact Hx.
    - assert (2 ^ (i + 1) <= 2 ^ 62) by (apply Z.pow_le_mono_r; lia). rewrite Z.pow_add_r, Z.pow_1_r in * by lia.
      apply (okay_bind (fun x => 0 <= x < 2 ^ (i + 1))); [exact P| |].
      + apply (okay_bind (fun b => 0 <= b <= 1)); [exact P|apply okay_bool; assumption|]. intros b d1 Hb R1 P1. apply okay_ret; [|exact R1].
        rewrite i64_id; [rewrite Z.pow_add_r, Z.pow_1_r by lia; lia|]. assert (2 ^ 63 = 2 * 2 ^ 62) by reflexivity. lia.
      + intros y d1 Hy R1 P1. apply IH; try assumption; lia. }
  intros R P. apply G; try assumption; try lia.
Qed.
Lemma okay_NS dis n d : 0 < n < 2 ^ 62 -> regs d -> 0 <= Position (Bits d) -> okay (fun x => 0 <= x < n) d (NS dis n d).
Proof.
  intros Hn R P. unfold NS. destruct (log2_62 n Hn) as [Hl1 Hl2].
  set (l := Z.log2 n) in *. rewrite Z.pow_add_r, Z.pow_1_r in Hl2 by lia.
  assert (Hp : 2 ^ l <= 2 ^ 61) by (apply Z.pow_le_mono_r; lia). assert (E62 : 2 ^ 62 = 2 * 2 ^ 61) by reflexivity. assert (E63 : 2 ^ 63 = 2 * 2 ^ 62) by reflexivity.
  assert (Em : shl 1 (l + 1) - n = 2 * 2 ^ l - n) by (rewrite shl_1 by lia; rewrite Z.pow_add_r by lia; lia).
  rewrite FloorLog2_pos by lia. fold l. unfold lift. rewrite (bind_ok _ _ _ _ _ (eq_refl : _ = Ok (_, _))). cbv beta zeta.
  replace (l + 1 - 1) with l by lia.
  apply (okay_bind (fun x => 0 <= x < 2 ^ l)); [exact P|apply okay_L; try assumption; lia|]. intros x d1 Hx R1 P1. rewrite Em.
  destruct (Z.ltb_spec x (2 * 2 ^ l - n)); [apply okay_ret; [lia|exact R1]|].
  apply (okay_bind (fun b => 0 <= b < 2 ^ 1)); [exact P1|apply okay_L; try assumption; lia|]. intros b d2 Hb R2 P2. apply okay_ret; [|exact R2].
  rewrite shl_small by lia. change (2 ^ 1) with 2 in *. lia.
Qed.
Lemma okay_run dis : forall ops store d, Forall valid_cdf store -> Forall (op_ok store) ops -> regs d -> 0 <= Position (Bits d) ->
  okay (fun r => Forall2 (allowed store) ops (fst r) /\ Forall valid_cdf (snd r) /\ same_shape (snd r) store) d (run dis store ops d).
Proof.
  induction ops as [|o ops IH]; intros store d Hs Ho R P; cbn [run].
  - apply okay_ret; [|exact R]. cbn. repeat split; auto.
  - inversion Ho as [|? ? H1 H2]; subst.
    apply (okay_bind (fun r => allowed store o (fst r) /\ Forall valid_cdf (snd r) /\ same_shape (snd r) store)); [exact P| |].
    + destruct o as [k|n|n]; cbn [op_ok run_op allowed] in *.
      * set (c := nth (Z.to_nat k) store []) in *.
        assert (Vc : valid_cdf c) by (apply Forall_nth_in; [exact Hs|unfold zlen in H1; lia]).
        apply (okay_bind (fun c1 => c1 = c)); [exact P|apply (okay_lift _ _ _ c); [apply idx_ok; exact H1|reflexivity|exact R]|]. intros c1 d1 -> R1 P1.
        apply (okay_bind (fun r => 0 <= fst r < nsyms c /\ valid_cdf (snd r) /\ length (snd r) = length c)); [exact P1| |].
        { pose proof (ReadSymbol_regs dis c d1 Vc R1 P1) as H. unfold okay. destruct (ReadSymbol dis c d1) as [[[t c'] d']| |]; auto. cbn [fst snd]. tauto. }
        intros [t c'] d2 (Ht & Vc' & Lc') R2 P2. cbn [fst snd] in *. rewrite upd_ok by exact H1. unfold lift. rewrite (bind_ok _ _ _ _ _ (eq_refl : _ = Ok (_, _))).
        apply okay_ret; [|exact R2]. cbn [fst snd]. split; [split; assumption|]. split; [apply Forall_upd; assumption|apply shape_upd; assumption].
      * apply (okay_bind (fun x => 0 <= x < 2 ^ n)); [exact P|apply okay_L; assumption|]. intros x d1 Hx R1 P1. apply okay_ret; [|exact R1]. cbn [fst snd]. repeat split; auto; lia.
      * apply (okay_bind (fun x => 0 <= x < n)); [exact P|apply okay_NS; assumption|]. intros x d1 Hx R1 P1. apply okay_ret; [|exact R1]. cbn [fst snd]. repeat split; auto; lia.
    + intros [v st1] d1 (A1 & V1 & Sh1) R1 P1. cbn [fst snd] in *.
      assert (H2' : Forall (op_ok st1) ops) by (eapply Forall_impl; [|exact H2]; intros a; apply shape_op_ok; symmetry; exact Sh1).
      apply (okay_bind _ _ _ _ d1 P1 (IH st1 d1 V1 H2' R1 P1)). intros [vs st2] d2 (A2 & V2 & Sh2) R2 P2. cbn [fst snd] in *. apply okay_ret; [|exact R2]. cbn [fst snd].
      split; [|split; [exact V2|unfold same_shape in *; congruence]]. constructor; [exact A1|]. clear - A2 Sh1. induction A2; constructor; auto. apply (shape_allowed st1); assumption.
Qed.

(** C161.  A tile of [sz] bytes, where [sz] is any integer (a corrupt tile size, or one computed from a corrupt obu_size): initSymbol and any history of reads over valid CDFs never hangs and
    never returns a value outside of the alphabet; the tables stay valid, the registers in range, the data as it is.  It panics at most when the tile does not fit into the data. *)
Theorem C161_any_size : forall dis store ops sz d, Forall valid_cdf store -> Forall (op_ok store) ops -> 0 <= Position (Bits d) ->
  match (initSymbol sz ;; run dis store ops) d with
  | Ok (vs, store', d') => Forall2 (allowed store) ops vs /\ Forall valid_cdf store' /\ map (@length Z) store' = map (@length Z) store /\
      32768 <= SymbolRange d' < 65536 /\ 0 <= SymbolValue d' < SymbolRange d' /\ Data (Bits d') = Data (Bits d) /\ Position (Bits d) <= Position (Bits d')
  | Panic => 8 * zlen (Data (Bits d)) < Position (Bits d) + 8 * Z.max 0 sz
  | Hang => False end.
Proof.
  intros dis store ops sz d Hs Ho P. pose proof (initSymbol_regs sz d P) as S.
  destruct (Z.le_gt_cases (Position (Bits d) + 8 * Z.max 0 sz) (8 * zlen (Data (Bits d)))) as [Fit|Fit].
  - assert (T : exists d1 e, initSymbol sz d = Ok (tt, d1) /\ tile_state d1 e).
    { destruct (Z.le_gt_cases 0 sz) as [N|N].
      - pose proof (initSymbol_spec sz d N P ltac:(lia)) as Q. cbv zeta in Q. destruct Q as [Q1 Q2]. eauto.
      - unfold initSymbol in *. cbv zeta in *. rewrite bind_eq in *. unfold onbits at 1 in S. unfold onbits at 1. assert (EF : F (Min (sz * 8) 15) (Bits d) = Ok (0, Bits d)).
        { unfold F, Min. destruct (Z.leb_spec (sz * 8) 15); [|lia]. replace (Z.to_nat (sz * 8)) with 0%nat by lia. reflexivity. }
        rewrite EF in *. unfold modify in *. eexists _, (Position (Bits d)). split; [reflexivity|]. destruct S as (_ & _ & R1 & R2). cbn [Bits SymbolRange SymbolValue] in *.
        unfold tile_state. cbn [SymbolRange SymbolValue SymbolMaxBits Bits]. split; [exact R1|]. split; [exact R2|]. lia. }
    destruct T as (d1 & e & E1 & T). rewrite E1 in S. destruct S as (D1 & P1 & R1). rewrite (bind_ok _ _ _ _ _ E1).
    destruct (run_safe dis ops store d1 e Hs Ho T) as (vs & store' & d' & E & (T' & D' & P') & A & V & Sh). rewrite E. destruct T' as (T1 & T2 & _).
    split; [exact A|]. split; [exact V|]. split; [exact Sh|]. split; [exact T1|]. split; [exact T2|]. split; [congruence|lia].
  - rewrite bind_eq. destruct (initSymbol sz d) as [[u d1]| |]; [|lia|contradiction]. destruct S as (D1 & P1 & R1).
    pose proof (okay_run dis ops store d1 Hs Ho R1 ltac:(lia)) as H. unfold okay in H. destruct (run dis store ops d1) as [[[vs store'] d']| |]; [|lia|contradiction].
    cbn [fst snd] in H. destruct H as ((A & V & Sh) & [R2 R3] & D2 & P2). split; [exact A|]. split; [exact V|]. split; [exact Sh|]. split; [exact R2|]. split; [exact R3|]. split; [congruence|lia].
Qed.
Print Assumptions C161_any_size.
(** Three bytes of data from bit 15 on: a tile of 200 bytes of which a symbol and 2 bits can be read, but not 20; and a tile of -3 bytes. *)
Definition case_dec := mkDec 0 0 0 (mkBS [0xA5; 0x5A; 0xF0; 0x77] 9 0).
Definition case_of (sz : Z) (ops : list op) : res (list Z * list (list Z) * dec) := (initSymbol sz ;; run false [demo_cdf] ops) case_dec.
Example C161_case :
  Forall valid_cdf [demo_cdf] /\ Forall (op_ok [demo_cdf]) [OSym 0; OLit 2; ONs 9] /\
  (match case_of 200 [OSym 0; OLit 2] with Ok (l, t, d) => map (zlen (A := Z)) [l] = [2] /\ (SymbolMaxBits d, Position (Bits d)) = (1581, 28) | _ => False end) /\
  case_of 200 [OSym 0; OLit 20] = Panic /\
  (match case_of (-3) [OSym 0; OLit 2; ONs 9] with Ok (l, t, d) => (l, t) = ([0; 0; 0], [[4899; 9742; 20399; 32768; 8]]) /\ Position (Bits d) = 9 | _ => False end).
Proof.
  split; [repeat constructor; apply demo_valid|]. split; [repeat constructor; unfold zlen; cbn; lia|]. vm_compute. auto.
Qed.
