(** Properties C27-C31: the arithmetic (symbol) decoder. *)
From Verif Require Import GoBase Bitstream SpecBits SpecStream BitstreamProofs Util UtilProofs Symbol SpecSymbol SymbolProofs.

(** A decoder in use: registers in range; the tile's data ends at bit e. *)
Definition in_tile (d : dec) (e : Z) : Prop :=
  32768 <= SymbolRange d < 65536 /\ 0 <= SymbolValue d < SymbolRange d /\
  0 <= Position (Bits d) <= e /\ e <= 8 * zlen (Data (Bits d)) /\
  e - Position (Bits d) = Z.max 0 (SymbolMaxBits d).
Lemma in_tile_state d e : in_tile d e <-> tile_state d e.
Proof. unfold in_tile, tile_state. lia. Qed.

(** C27: whatever the data, a read over a valid CDF returns a symbol of that CDF - the one whose interval
    [bound t, bound (t-1)) contains the value - and leaves the registers in range. *)
Theorem C27_read_symbol : forall dis c d e, valid_cdf c -> in_tile d e ->
  exists t c' d', ReadSymbol dis c d = Ok (t, c', d') /\ 0 <= t < nsyms c /\
    bound (SymbolRange d) c t <= SymbolValue d < bound (SymbolRange d) c (t - 1) /\
    in_tile d' e /\ Data (Bits d') = Data (Bits d).
Proof.
  intros dis c d e Hv HT. apply in_tile_state in HT.
  destruct (ReadSymbol_safe dis c d e Hv HT) as (t & c' & d' & E & (T & Dt & _) & Ht & _ & _ & _ & Hb).
  exists t, c', d'. rewrite in_tile_state. auto.
Qed.
Print Assumptions C27_read_symbol.
(** The new registers: the value is taken relative to the interval, the range is the interval's width, both
    scaled up so that the range has 16 bits again; the number of bits consumed is that scale. *)
Theorem C27_registers : forall dis c d e t c' d', valid_cdf c -> in_tile d e -> ReadSymbol dis c d = Ok (t, c', d') ->
  let w := bound (SymbolRange d) c (t - 1) - bound (SymbolRange d) c t in
  exists bits new, 0 <= bits <= 15 /\ 0 <= new < 2 ^ bits /\ SymbolRange d' = w * 2 ^ bits /\
    SymbolValue d' = (SymbolValue d - bound (SymbolRange d) c t) * 2 ^ bits + new /\
    SymbolMaxBits d' = SymbolMaxBits d - bits /\
    (bits <= SymbolMaxBits d -> Position (Bits d') = Position (Bits d) + bits).
Proof.
  intros dis c d e t c' d' Hv HT E w. apply in_tile_state in HT.
  destruct (ReadSymbol_spec dis c d e Hv HT) as (t' & bits & Ht & Hb & Hin & Hbits & E' & T').
  cbv zeta in *. rewrite E in E'. 
  assert (t' = t /\ d' = mkDec ((SymbolValue d - bound (SymbolRange d) c t') * 2 ^ bits + refill d bits)
       ((bound (SymbolRange d) c (t' - 1) - bound (SymbolRange d) c t') * 2 ^ bits)
       (SymbolMaxBits d - bits) (adv (Bits d) (Z.min bits (Z.max 0 (SymbolMaxBits d))))) as [-> ->].
  { symmetry in E'. apply bind_inv in E'. destruct E' as (c1 & d1 & E1 & E2). injection E2 as <- <- <-.
    destruct dis; [injection E1 as <- <-; auto|]. destruct (adapt c (nsyms c) t'); cbn in E1; try discriminate. injection E1 as <- <-. auto. }
  exists bits, (refill d bits). split; [exact Hb|]. split; [apply refill_bound; lia|]. cbn. repeat split; lia.
Qed.
Print Assumptions C27_registers.
Definition demo_cdf := [4000; 9000; 20000; 32768; 7].
Lemma demo_valid : valid_cdf demo_cdf.
Proof.
  unfold valid_cdf, nsyms. cbn [length demo_cdf]. change (Z.of_nat 5 - 1) with 4. repeat split; try (vm_compute; congruence); try lia.
  intros i H1 H2. assert (i = 0 \/ i = 1 \/ i = 2) as [->|[->| ->]] by lia; vm_compute; congruence.
Qed.
Definition demo_dec := mkDec 20000 40000 9 (mkBS [0xA5; 0x5A; 0xF0] 15 0).
Example C27_case : in_tile demo_dec 24 /\
  ReadSymbol false demo_cdf demo_dec = Ok (2, [3875; 8719; 20399; 32768; 8],
    mkDec 17898 53680 7 (mkBS [0xA5; 0x5A; 0xF0] 17 0)).
Proof. split; [unfold in_tile, zlen; cbn; lia|vm_compute; reflexivity]. Qed.

(** C28 *)
Theorem C28_adaptation : forall c d e t c' d', valid_cdf c -> in_tile d e ->
  ReadSymbol false c d = Ok (t, c', d') ->
  valid_cdf c' /\ adapted c t c' /\ length c' = length c /\ prob c t <= prob c' t /\
  (forall i, 0 <= i < t -> at_ c' i <= at_ c i) /\ (forall i, t <= i < nsyms c -> at_ c i <= at_ c' i).
Proof.
  intros c d e t c' d' Hv HT E. apply in_tile_state in HT.
  destruct (ReadSymbol_safe false c d e Hv HT) as (t1 & c1 & d1 & E1 & _ & Ht & Vc & Lc & Ad & _).
  rewrite E in E1. injection E1 as <- <- <-.
  assert (R : forall i, 0 <= i < nsyms c -> 1 <= at_ c i <= 32768) by (apply valid_range; exact Hv).
  pose proof (rate_bounds c ltac:(apply Hv)) as Hr. destruct Ad as (A0 & A1 & A2 & A3).
  assert (Dn : forall i, 0 <= i < t -> at_ c' i <= at_ c i).
  { intros i Hi. rewrite A1 by lia. destruct (Z.ltb_spec i t); [|lia].
    pose proof (div_le_self (at_ c i) (rate c) ltac:(specialize (R i); lia) ltac:(lia)). lia. }
  assert (Up : forall i, t <= i < nsyms c -> at_ c i <= at_ c' i).
  { intros i Hi. destruct (Z.eq_dec i (nsyms c - 1)) as [->|]; [lia|]. rewrite A1 by lia. destruct (Z.ltb_spec i t); [lia|].
    pose proof (div_le_self (32768 - at_ c i) (rate c) ltac:(specialize (R i); lia) ltac:(lia)). lia. }
  split; [exact Vc|]. split; [split; [exact A0|split; [exact A1|split; assumption]]|]. split; [exact Lc|].
  split; [|split; assumption]. unfold prob. pose proof (Up t ltac:(lia)). destruct (Z.eqb_spec t 0) as [->|]; [lia|].
  pose proof (Dn (t - 1) ltac:(lia)). lia.
Qed.
Print Assumptions C28_adaptation.
Theorem C28_no_adaptation : forall c d e t c' d', valid_cdf c -> in_tile d e ->
  ReadSymbol true c d = Ok (t, c', d') -> c' = c.
Proof.
  intros c d e t c' d' Hv HT E. apply in_tile_state in HT.
  destruct (ReadSymbol_safe true c d e Hv HT) as (t1 & c1 & d1 & E1 & _ & _ & _ & _ & H & _). rewrite E in E1. injection E1 as <- <- <-. exact H.
Qed.
Print Assumptions C28_no_adaptation.
(** Over whole histories: all tables stay valid. *)
Theorem C28_history : forall dis store ops d e, Forall valid_cdf store -> Forall (op_ok store) ops -> in_tile d e ->
  exists vs store' d', run dis store ops d = Ok (vs, store', d') /\ Forall valid_cdf store' /\
    map (@length Z) store' = map (@length Z) store.
Proof.
  intros dis store ops d e Hs Ho HT. apply in_tile_state in HT.
  destruct (run_safe dis ops store d e Hs Ho HT) as (vs & st & d' & E & _ & _ & V & S). exists vs, st, d'. auto.
Qed.
Print Assumptions C28_history.
Example C28_case : adapted demo_cdf 2 [3875; 8719; 20399; 32768; 8] /\ rate demo_cdf = 5.
Proof.
  split; [|reflexivity]. unfold adapted, nsyms. cbn [length demo_cdf]. change (Z.of_nat 5 - 1) with 4. repeat split.
  intros i Hi. assert (i = 0 \/ i = 1 \/ i = 2) as [->|[->| ->]] by lia; reflexivity.
Qed.

(** C29: a tile of sz bytes starting at the current position.  After initSymbol, any history of reads returns,
    stays inside the tile, and exitSymbol lands on the end of the tile (or reports the overread of more than 14
    bits by panicking). *)
Theorem C29_tile_confined : forall dis store ops sz d, Forall valid_cdf store -> Forall (op_ok store) ops ->
  0 <= sz -> 0 <= Position (Bits d) -> Position (Bits d) + 8 * sz <= 8 * zlen (Data (Bits d)) ->
  let start := Position (Bits d) in
  exists d1 vs store' d2, initSymbol sz d = Ok (tt, d1) /\ run dis store ops d1 = Ok (vs, store', d2) /\
    Data (Bits d2) = Data (Bits d) /\
    start <= Position (Bits d1) /\ Position (Bits d1) <= Position (Bits d2) /\ Position (Bits d2) <= start + 8 * sz /\
    match exitSymbol d2 with
    | Ok (_, d3) => Position (Bits d3) = start + 8 * sz /\ Data (Bits d3) = Data (Bits d)
    | Panic => SymbolMaxBits d2 < -14
    | Hang => False
    end.
Proof.
  intros dis store ops sz d Hs Ho Hsz H0 Hl start.
  destruct (initSymbol_spec sz d Hsz H0 Hl) as [E1 T1]. cbv zeta in *.
  match type of E1 with _ = Ok (_, ?d1) => set (dd := d1) in * end.
  destruct (run_safe dis ops store dd _ Hs Ho T1) as (vs & st & d2 & E2 & (T2 & D2 & P2) & _).
  exists dd, vs, st, d2. split; [exact E1|]. split; [exact E2|]. split; [rewrite D2; reflexivity|].
  split; [cbn; unfold start; lia|]. split; [exact P2|].
  destruct T2 as (_ & _ & A & B & C). fold start in B, C.
  split; [lia|]. unfold exitSymbol. rewrite (bind_ok _ _ _ _ _ (eq_refl : get d2 = Ok (d2, d2))).
  destruct (Z.ltb_spec (SymbolMaxBits d2) (-14)); [exact H|]. cbn. rewrite Max_max. split; [lia|rewrite D2; reflexivity].
Qed.
Print Assumptions C29_tile_confined.
Example C29_case : exists d1 vs st d2 d3, initSymbol 3 (mkDec 0 0 0 (mkBS [0x11; 0xA5; 0x5A; 0xF0; 0x22] 8 0)) = Ok (tt, d1) /\
  run false [demo_cdf] [OSym 0; OLit 3; ONs 5] d1 = Ok (vs, st, d2) /\ vs = [3; 0; 2] /\
  exitSymbol d2 = Ok (tt, d3) /\ Position (Bits d3) = 32.
Proof. do 5 eexists. repeat (split; [vm_compute; reflexivity|]). vm_compute; reflexivity. Qed.

(** C30: completeness.  For every history of reads and every list of results (a symbol of the table read, a
    literal of n bits, a non-symmetric value below n), there is tile data that decodes to exactly these results. *)
Fixpoint bytes_of (n : nat) (l : list bool) : list Z :=
  match n with O => [] | S n' => be (firstn 8 l) :: bytes_of n' (skipn 8 l) end.
Lemma bytes_of_bits n : forall l, length l = (8 * n)%nat -> bits_of (bytes_of n l) = l /\ Forall is_byte (bytes_of n l) /\ length (bytes_of n l) = n.
Proof.
  induction n as [|n IH]; intros l Hl.
  - destruct l; [|cbn in Hl; lia]. cbn. auto.
  - do 8 (destruct l as [|? l]; [cbn in Hl; lia|]). cbn [length] in Hl.
    destruct (IH l ltac:(lia)) as (A & B & C). cbn [bytes_of firstn skipn bits_of flat_map length].
    split; [|split].
    + fold (bits_of (bytes_of n l)). rewrite A. 
      replace (byte_bits (be [b; b0; b1; b2; b3; b4; b5; b6])) with [b; b0; b1; b2; b3; b4; b5; b6]; [reflexivity|].
      destruct b, b0, b1, b2, b3, b4, b5, b6; reflexivity.
    + constructor; [|exact B]. pose proof (be_nonneg [b; b0; b1; b2; b3; b4; b5; b6]) as H. cbn [length] in H.
      change (2 ^ Z.of_nat 8) with 256 in H. exact H.
    + congruence.
Qed.

Theorem C30_every_sequence_encodable : forall dis store ops vs, Forall valid_cdf store -> Forall2 (allowed store) ops vs ->
  exists data, Forall is_byte data /\ forall v r m, exists d1 store' d2 d3,
    initSymbol (zlen data) (mkDec v r m (NewBitStream data)) = Ok (tt, d1) /\
    run dis store ops d1 = Ok (vs, store', d2) /\
    exitSymbol d2 = Ok (tt, d3) /\ Position (Bits d3) = 8 * zlen data.
Proof.
  intros dis store ops vs Hs Ha.
  destruct (codes_run dis ops vs store 32768 Hs ltac:(lia) Ha) as (st & R' & (P & lo & HP & Hlo & Hw & HR' & H) & _ & _).
  pose proof (pow2_pos P HP) as PP.
  set (k := Z.to_nat (15 + P)).
  set (code := 2 ^ (15 + P) - 1 - lo).
  assert (E15 : 2 ^ (15 + P) = 32768 * 2 ^ P) by (rewrite Z.pow_add_r by lia; reflexivity).
  assert (Hcode : 0 <= code < 2 ^ (15 + P)) by (unfold code; lia).
  set (n := (k / 8 + 1)%nat). assert (Hn : (k <= 8 * n)%nat) by (unfold n; pose proof (Nat.div_mod k 8 ltac:(lia)); pose proof (Nat.mod_upper_bound k 8 ltac:(lia)); lia).
  set (l := enc_f k code ++ repeat false (8 * n - k)).
  assert (Hl : length l = (8 * n)%nat) by (unfold l; rewrite app_length, length_enc_f, repeat_length; lia).
  destruct (bytes_of_bits n l Hl) as (Hb & Hbytes & Hlen).
  exists (bytes_of n l). split; [exact Hbytes|]. intros v r m.
  set (data := bytes_of n l) in *. assert (Hz : zlen data = Z.of_nat n) by (unfold zlen; congruence).
  destruct (initSymbol_spec (zlen data) (mkDec v r m (NewBitStream data))) as [E1 T1]; [lia|cbn; lia|cbn; lia|]. cbv zeta in *.
  match type of E1 with _ = Ok (_, ?d) => set (d1 := d) in * end.
  assert (Hrest : rest (NewBitStream data) = l) by (unfold rest, NewBitStream; cbn [Data Position]; change (Z.to_nat 0) with 0%nat; exact Hb).
  assert (HX : X d1 P = lo).
  { assert (Hmin : Z.min (8 * zlen data) 15 = 15) by (unfold k in Hn; lia).
    assert (XT : X d1 P = 2 ^ (15 + P) - 1 - be (firstn k l)).
    { unfold X. set (r15 := be (firstn 15 l)). 
      assert (EV : SymbolValue d1 = 32767 - r15) by (unfold d1; cbn [SymbolValue Bits]; rewrite Hmin, Hrest; change (15 - 15) with 0; change (2 ^ 0) with 1; rewrite Z.mul_1_r; reflexivity).
      rewrite EV. unfold refill. cbn [SymbolMaxBits d1 Bits]. rewrite Hmin.
      replace (Z.min P (Z.max 0 (8 * zlen data - 15))) with P by (unfold k in Hn; lia). rewrite Z.sub_diag. change (2 ^ 0) with 1. rewrite Z.mul_1_r.
      rewrite rest_adv by (cbn; lia). rewrite Hrest. change (Z.to_nat 15) with 15%nat.
      replace k with (15 + Z.to_nat P)%nat by (unfold k; lia). rewrite firstn_add_split, be_app. fold r15.
      replace (Z.of_nat (length (firstn (Z.to_nat P) (skipn 15 l)))) with P by (rewrite firstn_length, skipn_length, Hl; unfold k in Hn; lia).
      rewrite E15. lia. }
    rewrite XT. unfold l. rewrite firstn_app, length_enc_f, Nat.sub_diag. cbn [firstn]. rewrite app_nil_r.
    rewrite <- (length_enc_f k code) at 1. rewrite firstn_all. rewrite be_enc_f. unfold k. rewrite Z2Nat.id by lia.
    rewrite Z.mod_small by lia. unfold code. lia. }
  destruct (H d1 _ T1 eq_refl) as (d2 & E2 & T2 & _ & M2 & D2 & _); [lia|].
  assert (Hmb : 0 <= SymbolMaxBits d2) by (rewrite M2; unfold d1; cbn [SymbolMaxBits]; unfold k in Hn; lia).
  exists d1, st, d2. eexists. split; [exact E1|]. split; [exact E2|].
  split.
  - unfold exitSymbol. rewrite (bind_ok _ _ _ _ _ (eq_refl : get d2 = Ok (d2, d2))). destruct (Z.ltb_spec (SymbolMaxBits d2) (-14)); [lia|]. reflexivity.
  - cbn. rewrite Max_max. destruct T2 as (_ & _ & _ & B & _). cbn in B. lia.
Qed.
Print Assumptions C30_every_sequence_encodable.
Example C30_case : Forall2 (allowed [demo_cdf]) [OSym 0; OSym 0; OLit 3; ONs 5; OSym 0] [3; 0; 6; 4; 2] /\
  exists d1 st d2, initSymbol 3 (mkDec 0 0 0 (NewBitStream [188; 170; 0])) = Ok (tt, d1) /\
    run false [demo_cdf] [OSym 0; OSym 0; OLit 2] d1 = Ok ([3; 2; 0], st, d2).
Proof.
  split.
  - repeat constructor; unfold zlen, nsyms; cbn; lia.
  - do 3 eexists. split; [vm_compute; reflexivity|]. vm_compute; reflexivity.
Qed.

(** C31 *)
Theorem C31_literal : forall dis n d e, 0 <= n <= 62 -> in_tile d e ->
  exists x d', L dis n d = Ok (x, d') /\ 0 <= x < 2 ^ n /\ in_tile d' e.
Proof.
  intros dis n d e Hn HT. apply in_tile_state in HT. destruct (L_safe dis n d e Hn HT) as (x & d' & E & (T & _) & Hx).
  exists x, d'. rewrite in_tile_state. auto.
Qed.
Print Assumptions C31_literal.
Theorem C31_non_symmetric : forall dis n d e, 0 < n < 2 ^ 62 -> in_tile d e ->
  exists x d', NS dis n d = Ok (x, d') /\ 0 <= x < n /\ in_tile d' e.
Proof.
  intros dis n d e Hn HT. apply in_tile_state in HT. destruct (NS_safe dis n d e Hn HT) as (x & d' & E & (T & _) & Hx).
  exists x, d'. rewrite in_tile_state. auto.
Qed.
Print Assumptions C31_non_symmetric.
(** Every value of either kind is obtained from some data. *)
Theorem C31_all_values : forall dis n m v w, 0 <= n <= 62 -> 0 <= v < 2 ^ n -> 0 < m < 2 ^ 62 -> 0 <= w < m ->
  exists data d1 st d2, initSymbol (zlen data) (mkDec 0 0 0 (NewBitStream data)) = Ok (tt, d1) /\
    run dis [] [OLit n; ONs m] d1 = Ok ([v; w], st, d2).
Proof.
  intros dis n m v w Hn Hv Hm Hw.
  destruct (C30_every_sequence_encodable dis [] [OLit n; ONs m] [v; w]) as (data & _ & H).
  - constructor.
  - repeat constructor; cbn; lia.
  - destruct (H 0 0 0) as (d1 & st & d2 & _ & E1 & E2 & _). exists data, d1, st, d2. auto.
Qed.
Print Assumptions C31_all_values.
Example C31_case : exists d', NS false 5 demo_dec = Ok (1, d').
Proof. eexists. vm_compute. reflexivity. Qed.
