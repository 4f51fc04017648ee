(** C120: the box filter of the self-guided restoration filter (section 7.17.3 of the standard). *)
From Verif Require Import GoBase Bitstream Util UtilProofs Constants Tables Frame Restoration.
Require Import Lia Psatz.

(** * The standard's filter for one sample *)
Definition rnd (x n : Z) : Z := if n =? 0 then x else (x + 2 ^ (n - 1)) / 2 ^ n.
(** the sum of g over the (2r+1) x (2r+1) samples around (x, y) *)
Definition square (r : Z) : list (Z * Z) := let l := if r =? 1 then [-1; 0; 1] else [-2; -1; 0; 1; 2] in list_prod l l.
Definition around (r : Z) (src : Z -> Z -> Z) (g : Z -> Z) (x y : Z) : Z := fold_left (fun s '(dy, dx) => s + g (src (x + dx) (y + dy))) (square r) 0.
(** how strongly the sample itself counts (in 256ths), from the variance of the window *)
Definition sgr_a (bd r eps a b : Z) : Z :=
  let n := (2 * r + 1) * (2 * r + 1) in
  let p := Z.max 0 (rnd a (2 * (bd - 8)) * n - rnd b (bd - 8) * rnd b (bd - 8)) in
  let z := rnd (p * ((2 ^ 20 + n * n * eps / 2) / (n * n * eps))) 20 in
  if 255 <=? z then 256 else if z =? 0 then 1 else (256 * z + z / 2) / (z + 1).
Definition sgr_b (r a2 b : Z) : Z := let n := (2 * r + 1) * (2 * r + 1) in rnd ((256 - a2) * b * ((2 ^ 12 + n / 2) / n)) 12.
Definition cell_a (bd r eps : Z) (src : Z -> Z -> Z) (x y : Z) : Z := sgr_a bd r eps (around r src (fun c => c * c) x y) (around r src (fun c => c) x y).
Definition cell_b (bd r eps : Z) (src : Z -> Z -> Z) (x y : Z) : Z := sgr_b r (cell_a bd r eps src x y) (around r src (fun c => c) x y).
(** the weights of the 3x3 cells around the first sample: first pass (only the rows above and below), second pass *)
Definition first_weights : list (Z * Z * Z) := [(-1, -1, 5); (-1, 0, 6); (-1, 1, 5); (1, -1, 5); (1, 0, 6); (1, 1, 5)].
Definition second_weights : list (Z * Z * Z) := [(-1, -1, 3); (-1, 0, 4); (-1, 1, 3); (0, -1, 4); (0, 0, 4); (0, 1, 4); (1, -1, 3); (1, 0, 4); (1, 1, 3)].
Definition weighted (cell : Z -> Z -> Z) (x y : Z) (l : list (Z * Z * Z)) : Z := fold_left (fun s '(dy, dx, k) => s + k * cell (x + dx) (y + dy)) l 0.
Definition sgr_sample (bd r eps : Z) (pass : bool) (src : Z -> Z -> Z) (x y c : Z) : Z :=
  let l := if pass then second_weights else first_weights in
  rnd (weighted (cell_a bd r eps src) x y l * c + weighted (cell_b bd r eps src) x y l) 9.

(** * The code *)
Lemma Round2_rnd x n : 0 <= n <= 62 -> - 2 ^ 62 <= x < 2 ^ 62 -> Round2 x n = Ok (rnd x n).
Proof. intros. rewrite Round2_spec by assumption. reflexivity. Qed.
Lemma Max0 x : Max 0 x = Z.max 0 x.
Proof. unfold Max. destruct (Z.leb_spec x 0); lia. Qed.
Lemma rnd_bound x n m : 0 <= x -> 0 <= n -> x <= m * 2 ^ n -> 0 <= rnd x n <= m.
Proof.
  intros Hx Hn Hm. unfold rnd. destruct (Z.eqb_spec n 0) as [->|N]; [change (2 ^ 0) with 1 in Hm; lia|].
  assert (E : 2 ^ n = 2 * 2 ^ (n - 1)) by (rewrite <- Z.pow_succ_r by lia; f_equal; lia). assert (0 < 2 ^ (n - 1)) by (apply Z.pow_pos_nonneg; lia). split; [apply Z.div_pos; lia|].
  apply Z.lt_succ_r, Z.div_lt_upper_bound; nia.
Qed.

Section Box.
Variables (e : REnv) (s : stripe) (plane : Z) (src : Z -> Z -> Z) (bd x y : Z).
Hypothesis Hbd : 8 <= bd <= 12.
Hypothesis Hsrc : forall x' y', x - 3 <= x' <= x + 3 -> y - 3 <= y' <= y + 3 -> getSourceSample e s plane x' y' = Ok (src x' y') /\ 0 <= src x' y' < 2 ^ bd.

Lemma sums_ok r x' y' : r = 1 \/ r = 2 -> x - 1 <= x' <= x + 1 -> y - 1 <= y' <= y + 1 ->
  boxSums e s plane x' y' r = Ok (around r src (fun c => c * c) x' y', around r src (fun c => c) x' y').
Proof.
  intros Hr Hx Hy. unfold boxSums, rfor_to.
  destruct Hr as [->| ->].
  - change (Z.to_nat (1 + 1 - - (1))) with 3%nat. cbn [rfor_from]. 
    repeat (match goal with |- context [getSourceSample e s plane ?a ?b] => rewrite (proj1 (Hsrc a b ltac:(lia) ltac:(lia))) end; cbn [rbind]).
    unfold around, square. change (1 =? 1) with true. cbv iota zeta. cbn [list_prod map app fold_left]. reflexivity.
  - change (Z.to_nat (2 + 1 - - (2))) with 5%nat. cbn [rfor_from].
    repeat (match goal with |- context [getSourceSample e s plane ?a ?b] => rewrite (proj1 (Hsrc a b ltac:(lia) ltac:(lia))) end; cbn [rbind]).
    unfold around, square. change (2 =? 1) with false. cbv iota zeta. cbn [list_prod map app fold_left]. reflexivity.
Qed.

Lemma around_bound r x' y' : r = 1 \/ r = 2 -> x - 1 <= x' <= x + 1 -> y - 1 <= y' <= y + 1 ->
  0 <= around r src (fun c => c) x' y' <= (2 * r + 1) * (2 * r + 1) * (2 ^ bd - 1) /\
  0 <= around r src (fun c => c * c) x' y' <= (2 * r + 1) * (2 * r + 1) * ((2 ^ bd - 1) * (2 ^ bd - 1)).
Proof.
  intros Hr Hx Hy.
  assert (K : forall g M l a, (forall c, 0 <= c < 2 ^ bd -> 0 <= g c <= M) -> (forall dy dx, In (dy, dx) l -> -2 <= dy <= 2 /\ -2 <= dx <= 2) ->
    a <= fold_left (fun s '(dy, dx) => s + g (src (x' + dx) (y' + dy))) l a <= a + zlen l * M).
  { intros g M l. induction l as [|[dy dx] l IH]; intros a Hg Hl; cbn [fold_left]; [change (zlen []) with 0; lia|].
    destruct (Hl dy dx (or_introl eq_refl)) as [H1 H2]. assert (B := Hg _ (proj2 (Hsrc (x' + dx) (y' + dy) ltac:(lia) ltac:(lia)))). specialize (IH (a + g (src (x' + dx) (y' + dy))) Hg ltac:(intros; apply Hl; right; assumption)).
    assert (zlen ((dy, dx) :: l) = zlen l + 1) as -> by (unfold zlen; cbn [length]; lia). lia. }
  assert (L : forall dy dx, In (dy, dx) (square r) -> -2 <= dy <= 2 /\ -2 <= dx <= 2).
  { unfold square. intros dy dx Hi. destruct Hr as [->| ->]; [change (1 =? 1) with true in Hi|change (2 =? 1) with false in Hi]; cbv iota zeta in Hi; apply in_prod_iff in Hi; cbn [In] in Hi; lia. }
  assert (Z1 : zlen (square r) = (2 * r + 1) * (2 * r + 1)) by (destruct Hr as [->| ->]; reflexivity).
  unfold around. split.
  - generalize (K (fun c => c) (2 ^ bd - 1) (square r) 0 ltac:(intros; lia) L). rewrite Z1. lia.
  - generalize (K (fun c => c * c) ((2 ^ bd - 1) * (2 ^ bd - 1)) (square r) 0 ltac:(intros; nia) L). rewrite Z1. lia.
Qed.

Lemma coeffs_ok r eps x' y' : r = 1 \/ r = 2 -> 1 <= eps -> x - 1 <= x' <= x + 1 -> y - 1 <= y' <= y + 1 ->
  let n := (2 * r + 1) * (2 * r + 1) in
  boxCoeffs bd n (Z.quot (shl 1 SGRPROJ_MTABLE_BITS + Z.quot (n * n * eps) 2) (n * n * eps)) (around r src (fun c => c * c) x' y') (around r src (fun c => c) x' y') = Ok (cell_a bd r eps src x' y', cell_b bd r eps src x' y') /\
  1 <= cell_a bd r eps src x' y' <= 256 /\ 0 <= cell_b bd r eps src x' y' < 2 ^ 24.
Proof.
  intros Hr He Hx Hy n. destruct (around_bound r x' y' Hr Hx Hy) as [Bb Ba]. fold n in Bb, Ba.
  unfold cell_b, cell_a. set (a := around r src (fun c => c * c) x' y') in *. set (b := around r src (fun c => c) x' y') in *. clearbody a b.
  assert (Hn : n = 9 \/ n = 25) by (unfold n; lia).
  assert (Hp : bd = 8 \/ bd = 9 \/ bd = 10 \/ bd = 11 \/ bd = 12) by lia.
  assert (Bp : 256 <= 2 ^ bd <= 4096) by (destruct Hp as [->|[->|[->|[->| ->]]]]; cbv; split; discriminate).
  assert (Ba' : 0 <= a < 2 ^ 30) by (change (2 ^ 30) with 1073741824; nia). assert (Bb' : 0 <= b < 2 ^ 17) by (change (2 ^ 17) with 131072; nia).
  unfold boxCoeffs. unfold sgr_a, sgr_b. fold n. cbv zeta. change SGRPROJ_MTABLE_BITS with 20. change SGRPROJ_SGR_BITS with 8. change SGRPROJ_RECIP_BITS with 12. change (shl 1 20) with (2 ^ 20). change (shl 1 12) with (2 ^ 12). change (shl 1 8) with 256.
  change (2 ^ 30) with 1073741824 in *. change (2 ^ 17) with 131072 in *.
  rewrite (Round2_rnd a) by (change (2 ^ 62) with 4611686018427387904; lia). cbn [rbind]. rewrite (Round2_rnd b) by (change (2 ^ 62) with 4611686018427387904; lia). cbn [rbind].
  assert (Ra : 0 <= rnd a (2 * (bd - 8)) <= 1073741824) by (apply rnd_bound; [lia|lia|]; assert (0 < 2 ^ (2 * (bd - 8))) by (apply Z.pow_pos_nonneg; lia); nia).
  assert (Rb : 0 <= rnd b (bd - 8) <= 131072) by (apply rnd_bound; [lia|lia|]; assert (0 < 2 ^ (bd - 8)) by (apply Z.pow_pos_nonneg; lia); nia).
  set (a' := rnd a (2 * (bd - 8))) in *. set (d := rnd b (bd - 8)) in *. clearbody a' d. rewrite Max0.
  assert (Bpp : 0 <= Z.max 0 (a' * n - d * d) <= 1073741824 * 25) by nia. set (p := Z.max 0 (a' * n - d * d)) in *. clearbody p.
  assert (N1 : 1 <= n * n * eps) by nia. set (m := n * n * eps) in *. clearbody m.
  assert (Q1 : Z.quot (2 ^ 20 + Z.quot m 2) m = (2 ^ 20 + m / 2) / m).
  { rewrite (Z.quot_div_nonneg m 2) by lia. apply Z.quot_div_nonneg; [|lia]. assert (0 <= m / 2) by (apply Z.div_pos; lia). change (2 ^ 20) with 1048576. lia. }
  assert (B1 : 0 <= (2 ^ 20 + m / 2) / m <= 1048577).
  { assert (0 <= m / 2) by (apply Z.div_pos; lia). assert (m / 2 <= m) by (apply Z.div_le_upper_bound; lia). change (2 ^ 20) with 1048576. split; [apply Z.div_pos; lia|]. apply Z.div_le_upper_bound; nia. }
  rewrite Q1. clear Q1. set (sc := (2 ^ 20 + m / 2) / m) in *. clearbody sc.
  rewrite Round2_rnd by (change (2 ^ 62) with 4611686018427387904; nia). cbn [rbind].
  assert (Bz : 0 <= rnd (p * sc) 20). { apply (rnd_bound _ _ (p * sc)); change (2 ^ 20) with 1048576; nia. } set (z := rnd (p * sc) 20) in *. clearbody z.
  assert (Q2 : (if 255 <=? z then 256 else if z =? 0 then 1 else Z.quot (shl z 8 + Z.quot z 2) (z + 1)) = (if 255 <=? z then 256 else if z =? 0 then 1 else (256 * z + z / 2) / (z + 1))).
  { destruct (Z.leb_spec 255 z); [reflexivity|]. destruct (z =? 0); [reflexivity|]. rewrite shl_small by (change (2 ^ 8) with 256; change (2 ^ 63) with 9223372036854775808; lia). change (2 ^ 8) with 256.
    rewrite (Z.quot_div_nonneg z 2) by lia. assert (0 <= z / 2) by (apply Z.div_pos; lia). rewrite Z.quot_div_nonneg by lia. do 2 f_equal. lia. }
  rewrite Q2. clear Q2.
  assert (B2 : 1 <= (if 255 <=? z then 256 else if z =? 0 then 1 else (256 * z + z / 2) / (z + 1)) <= 256).
  { destruct (Z.leb_spec 255 z); [lia|]. destruct (Z.eqb_spec z 0); [lia|]. assert (0 <= z / 2) by (apply Z.div_pos; lia). assert (z / 2 <= z) by (apply Z.div_le_upper_bound; lia). split; [apply Z.div_le_lower_bound; lia|apply Z.div_le_upper_bound; lia]. }
  set (a2 := if 255 <=? z then 256 else _) in *. clearbody a2.
  assert (Q3 : Z.quot (2 ^ 12 + Z.quot n 2) n = (2 ^ 12 + n / 2) / n) by (destruct Hn as [->| ->]; reflexivity). rewrite Q3. clear Q3.
  assert (B3 : 0 <= (2 ^ 12 + n / 2) / n <= 455) by (destruct Hn as [->| ->]; cbv; split; discriminate). set (o := (2 ^ 12 + n / 2) / n) in *.
  assert (B4 : 0 <= (256 - a2) * b * o <= 255 * 102400 * 455).
  { assert (Ho : (n = 9 /\ o = 455) \/ (n = 25 /\ o = 164)) by (unfold o; destruct Hn as [->| ->]; [left|right]; split; reflexivity). clearbody o n.
    assert (Hbo : 0 <= b * o <= 16789500) by (destruct Ho as [[-> ->]|[-> ->]]; lia). rewrite <- Z.mul_assoc. set (q := b * o) in *. clearbody q. nia. }
  rewrite Round2_rnd by (change (2 ^ 62) with 4611686018427387904; lia). split; [reflexivity|]. split; [exact B2|].
  change (2 ^ 24) with 16777216. assert (0 <= rnd ((256 - a2) * b * o) 12 <= 16777215) by (apply rnd_bound; change (2 ^ 12) with 4096; lia). lia.
Qed.

(** the tables of a 1x1 block: row and column -1 are the last *)
Lemma tables_ok r eps : r = 1 \/ r = 2 -> 1 <= eps -> rBitDepth e = bd ->
  let n := (2 * r + 1) * (2 * r + 1) in let A i j := cell_a bd r eps src (x + j) (y + i) in let B i j := cell_b bd r eps src (x + j) (y + i) in
  boxTables e s plane x y 1 1 r n (Z.quot (shl 1 SGRPROJ_MTABLE_BITS + Z.quot (n * n * eps) 2) (n * n * eps)) =
  Ok ([[A 0 0; A 0 1; A 0 (-1)]; [A 1 0; A 1 1; A 1 (-1)]; [A (-1) 0; A (-1) 1; A (-1) (-1)]], [[B 0 0; B 0 1; B 0 (-1)]; [B 1 0; B 1 1; B 1 (-1)]; [B (-1) 0; B (-1) 1; B (-1) (-1)]]).
Proof.
  intros Hr He Hb n A B. unfold boxTables, rfor_to. change (Z.to_nat (1 + 1 - -1)) with 3%nat. rewrite Hb. 
  assert (K : forall i j, -1 <= i <= 1 -> -1 <= j <= 1 ->
    boxCoeffs bd n (Z.quot (shl 1 SGRPROJ_MTABLE_BITS + Z.quot (n * n * eps) 2) (n * n * eps)) (around r src (fun c => c * c) (x + j) (y + i)) (around r src (fun c => c) (x + j) (y + i)) = Ok (A i j, B i j)).
  { intros i j Hi Hj. pose proof (proj1 (coeffs_ok r eps (x + j) (y + i) Hr He ltac:(lia) ltac:(lia))) as E. cbv zeta in E. fold n in E. rewrite E. reflexivity. }
  set (sc := Z.quot _ (n * n * eps)) in *. clearbody sc n A B. cbn [rfor_from]. change (-1 + 1) with 0. change (0 + 1) with 1.
  repeat (match goal with |- context [boxSums e s plane ?a ?b r] => rewrite (sums_ok r a b Hr ltac:(lia) ltac:(lia)) end; cbn [rbind]; rewrite K by lia).
  reflexivity.
Qed.

Lemma first_ok (A B : Z -> Z -> Z) :
  boxWeighted [[A 0 0; A 0 1; A 0 (-1)]; [A 1 0; A 1 1; A 1 (-1)]; [A (-1) 0; A (-1) 1; A (-1) (-1)]] [[B 0 0; B 0 1; B 0 (-1)]; [B 1 0; B 1 1; B 1 (-1)]; [B (-1) 0; B (-1) 1; B (-1) (-1)]] false 0 0 =
  Ok (0 + 5 * A (-1) (-1) + 6 * A (-1) 0 + 5 * A (-1) 1 + 0 * A 0 (-1) + 0 * A 0 0 + 0 * A 0 1 + 5 * A 1 (-1) + 6 * A 1 0 + 5 * A 1 1,
      0 + 5 * B (-1) (-1) + 6 * B (-1) 0 + 5 * B (-1) 1 + 0 * B 0 (-1) + 0 * B 0 0 + 0 * B 0 1 + 5 * B 1 (-1) + 6 * B 1 0 + 5 * B 1 1).
Proof. reflexivity. Qed.
Lemma second_ok (A B : Z -> Z -> Z) :
  boxWeighted [[A 0 0; A 0 1; A 0 (-1)]; [A 1 0; A 1 1; A 1 (-1)]; [A (-1) 0; A (-1) 1; A (-1) (-1)]] [[B 0 0; B 0 1; B 0 (-1)]; [B 1 0; B 1 1; B 1 (-1)]; [B (-1) 0; B (-1) 1; B (-1) (-1)]] true 0 0 =
  Ok (0 + 3 * A (-1) (-1) + 4 * A (-1) 0 + 3 * A (-1) 1 + 4 * A 0 (-1) + 4 * A 0 0 + 4 * A 0 1 + 3 * A 1 (-1) + 4 * A 1 0 + 3 * A 1 1,
      0 + 3 * B (-1) (-1) + 4 * B (-1) 0 + 3 * B (-1) 1 + 4 * B 0 (-1) + 4 * B 0 0 + 4 * B 0 1 + 3 * B 1 (-1) + 4 * B 1 0 + 3 * B 1 1).
Proof. reflexivity. Qed.

Lemma box_ok set pass r eps c : rBitDepth e = bd -> idx2 SGR_PARAMS set (int_of pass * 2) = Ok r -> idx2 SGR_PARAMS set (int_of pass * 2 + 1) = Ok eps -> r = 1 \/ r = 2 -> 1 <= eps ->
  idx3 (rCdef e) plane y x = Ok c -> 0 <= c < 2 ^ bd -> boxFilter e s plane x y 1 1 set pass = Ok [[sgr_sample bd r eps pass src x y c]].
Proof.
  intros Hb E1 E2 Hr He Ec Hc. unfold boxFilter. rewrite E1. cbn [rbind]. destruct (Z.eqb_spec r 0); [lia|]. rewrite E2. cbn [rbind]. cbv zeta.
  destruct (Z.eqb_spec ((2 * r + 1) * (2 * r + 1) * ((2 * r + 1) * (2 * r + 1)) * eps) 0); [nia|].
  pose proof (tables_ok r eps Hr He Hb) as ET. cbv zeta in ET. rewrite ET. clear ET. cbn [rbind].
  assert (BA : forall i j, -1 <= i <= 1 -> -1 <= j <= 1 -> 1 <= cell_a bd r eps src (x + j) (y + i) <= 256 /\ 0 <= cell_b bd r eps src (x + j) (y + i) < 2 ^ 24).
  { intros i j Hi Hj. apply (coeffs_ok r eps (x + j) (y + i) Hr He); lia. }
  assert (Bc : 0 <= c < 4096) by (assert (2 ^ bd <= 2 ^ 12) by (apply Z.pow_le_mono_r; lia); change (2 ^ 12) with 4096 in *; lia).
  unfold sgr_sample.
  unfold rfor_to. change (Z.to_nat (1 - 0)) with 1%nat. cbn [rfor_from]. change (negb pass && bool_of (Z.land 0 1)) with (negb pass && false). rewrite andb_false_r. cbv iota.
  change (2 ^ 24) with 16777216 in BA.
  destruct pass.
  - rewrite (second_ok (fun i j => cell_a bd r eps src (x + j) (y + i)) (fun i j => cell_b bd r eps src (x + j) (y + i))). cbn [rbind]. replace (y + 0) with y by lia. replace (x + 0) with x by lia. rewrite Ec. cbn [rbind].
    change (SGRPROJ_SGR_BITS + 5 - SGRPROJ_RST_BITS) with 9. unfold weighted, second_weights. cbn [fold_left].
    pose proof (BA (-1) (-1) ltac:(lia) ltac:(lia)). pose proof (BA (-1) 0 ltac:(lia) ltac:(lia)). pose proof (BA (-1) 1 ltac:(lia) ltac:(lia)). pose proof (BA 0 (-1) ltac:(lia) ltac:(lia)). pose proof (BA 0 0 ltac:(lia) ltac:(lia)).
    pose proof (BA 0 1 ltac:(lia) ltac:(lia)). pose proof (BA 1 (-1) ltac:(lia) ltac:(lia)). pose proof (BA 1 0 ltac:(lia) ltac:(lia)). pose proof (BA 1 1 ltac:(lia) ltac:(lia)). replace (y + 0) with y in * by lia. replace (x + 0) with x in * by lia.
    match goal with |- context [Round2 (?a * c + ?b) 9] => assert (HA : 0 <= a <= 8192) by lia; assert (HB : 0 <= b <= 536870912) by lia; assert (HM : 0 <= a * c <= 8192 * 4096) by (clear - HA Bc; nia) end.
    rewrite Round2_rnd by (change (2 ^ 62) with 4611686018427387904; lia). reflexivity.
  - rewrite (first_ok (fun i j => cell_a bd r eps src (x + j) (y + i)) (fun i j => cell_b bd r eps src (x + j) (y + i))). cbn [rbind]. replace (y + 0) with y by lia. replace (x + 0) with x by lia. rewrite Ec. cbn [rbind].
    change (SGRPROJ_SGR_BITS + 5 - SGRPROJ_RST_BITS) with 9. unfold weighted, first_weights. cbn [fold_left].
    pose proof (BA (-1) (-1) ltac:(lia) ltac:(lia)). pose proof (BA (-1) 0 ltac:(lia) ltac:(lia)). pose proof (BA (-1) 1 ltac:(lia) ltac:(lia)).
    pose proof (BA 1 (-1) ltac:(lia) ltac:(lia)). pose proof (BA 1 0 ltac:(lia) ltac:(lia)). pose proof (BA 1 1 ltac:(lia) ltac:(lia)). replace (x + 0) with x in * by lia.
    rewrite !Z.mul_0_l, !Z.add_0_r. match goal with |- context [Round2 (?a * c + ?b) 9] => assert (HA : 0 <= a <= 8192) by lia; assert (HB : 0 <= b <= 536870912) by lia; assert (HM : 0 <= a * c <= 8192 * 4096) by (clear - HA Bc; nia) end.
    rewrite Round2_rnd by (change (2 ^ 62) with 4611686018427387904; lia). reflexivity.
Qed.
End Box.

(** * C120.  The box filter of a block of one sample is the standard's, for every parameter set and both passes. *)
(** Sgr_Params of the standard: radius and noise of the first pass, radius and noise of the second; radius 0: the pass is not used. *)
Definition std_sgr_params : list (list Z) :=
  [[2; 12; 1; 4]; [2; 15; 1; 6]; [2; 18; 1; 8]; [2; 21; 1; 9]; [2; 24; 1; 10]; [2; 29; 1; 11]; [2; 36; 1; 12]; [2; 45; 1; 13]; [2; 56; 1; 14]; [2; 68; 1; 15];
   [0; 0; 1; 5]; [0; 0; 1; 8]; [0; 0; 1; 11]; [0; 0; 1; 14]; [2; 30; 0; 0]; [2; 75; 0; 0]].
Theorem C120_box_filter_partial : forall e s plane src bd x y c set pass params, 8 <= bd <= 12 -> rBitDepth e = bd ->
  (forall x' y', x - 3 <= x' <= x + 3 -> y - 3 <= y' <= y + 3 -> getSourceSample e s plane x' y' = Ok (src x' y') /\ 0 <= src x' y' < 2 ^ bd) ->
  idx3 (rCdef e) plane y x = Ok c -> 0 <= c < 2 ^ bd -> idx std_sgr_params set = Ok params ->
  exists r eps, idx params (if pass : bool then 2 else 0) = Ok r /\ idx params (if pass then 3 else 1) = Ok eps /\
  boxFilter e s plane x y 1 1 set pass = Ok [[if r =? 0 then 0 else sgr_sample bd r eps pass src x y c]].
Proof.
  intros e s plane src bd x y c set pass params Hbd Hb Hs Ec Hc Hp.
  assert (Hset : In set (map Z.of_nat (seq 0 16))). { apply idx_inv in Hp as [Hp _]. change (zlen std_sgr_params) with 16 in Hp. replace set with (Z.of_nat (Z.to_nat set)) by lia. apply in_map. apply in_seq. lia. }
  assert (E : forall k r eps, k = (if pass then 2 else 0) -> idx2 SGR_PARAMS set k = Ok r -> idx2 SGR_PARAMS set (k + 1) = Ok eps -> (r = 0 \/ ((r = 1 \/ r = 2) /\ 1 <= eps)) ->
    boxFilter e s plane x y 1 1 set pass = Ok [[if r =? 0 then 0 else sgr_sample bd r eps pass src x y c]]).
  { intros k r eps Hk E1 E2 Hr. replace k with (int_of pass * 2) in * by (destruct pass; cbn; lia). destruct Hr as [->|[Hr He]].
    - unfold boxFilter. rewrite E1. reflexivity.
    - rewrite (box_ok e s plane src bd x y Hbd Hs set pass r eps c Hb E1 E2 Hr He Ec Hc). destruct (Z.eqb_spec r 0); [lia|reflexivity]. }
  revert E Hp. clear - Hset. cbn [map seq Z.of_nat] in Hset. cbn in Hset.
  repeat (destruct Hset as [<-|Hset]; [intros E Hp; injection Hp as <-; destruct pass; (do 2 eexists; split; [reflexivity|split; [reflexivity|eapply E; [reflexivity|reflexivity|reflexivity|lia]]])|]). destruct Hset.
Qed.
Print Assumptions C120_box_filter_partial.
(** A 9x9 picture whose sample at (y, x) is 10 y + x. *)
Definition demo_box_frame : frame := repeat (map (fun y => map (fun x => 10 * y + x) [0; 1; 2; 3; 4; 5; 6; 7; 8]) [0; 1; 2; 3; 4; 5; 6; 7; 8]) 3.
Definition demo_box : REnv := mkREnv 1 true true 8 9 9 true [3; 0; 0] [64; 32; 32] [[[2]]; [[0]]; [[0]]] [[[12]]; [[0]]; [[0]]] [[[[0; 0]]]; [[[0; 0]]]; [[[0; 0]]]] [] demo_box_frame demo_box_frame.
Definition demo_stripe : stripe := mkStripe 0 8 8 8.
Example C120_case : (forall x y, 4 - 3 <= x <= 4 + 3 -> 4 - 3 <= y <= 4 + 3 -> getSourceSample demo_box demo_stripe 0 x y = Ok (10 * y + x) /\ 0 <= 10 * y + x < 2 ^ 8) /\
  boxFilter demo_box demo_stripe 0 4 4 1 1 3 false = Ok [[704]] /\ boxFilter demo_box demo_stripe 0 4 4 1 1 3 true = Ok [[704]] /\ sgr_sample 8 2 21 false (fun x y => 10 * y + x) 4 4 44 = 704.
Proof.
  split; [|split; [vm_compute; reflexivity|split; vm_compute; reflexivity]]. intros x y Hx Hy. split; [|change (2 ^ 8) with 256; lia].
  assert (Ix : In x [1; 2; 3; 4; 5; 6; 7]) by (cbn; lia). assert (Iy : In y [1; 2; 3; 4; 5; 6; 7]) by (cbn; lia). clear Hx Hy. cbn in Ix, Iy.
  repeat (destruct Iy as [<-|Iy]; [repeat (destruct Ix as [<-|Ix]; [reflexivity|]); destruct Ix|]). destruct Iy.
Qed.
