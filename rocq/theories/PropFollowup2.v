(** More about C58 (types of global motion), C151 (index of the candidate) and C152 (where samples for warping are looked for). *)
From Verif Require Import GoBase Bitstream BitstreamProofs Util UtilProofs Constants Tables SpecStream Parses UHeaderProofs UncompressedHeader.

(** ** C58: the types of the global motions as coded: not global, or global, then rotation with zoom, or neither, then translation or not *)
Definition gm_code (t : Z) : list bool := match t with 0 => [false] | 2 => [true; true] | 1 => [true; false; true] | _ => [true; false; false] end.
Theorem C58_types_coded_partial : forall s g0 types, length types = 7%nat -> Forall (fun t => 0 <= t <= 3) types -> starts s (flat_map gm_code types) ->
  exists params, globalMotionParams false g0 s = Ok ((g0 :: types, params), adv s (Z.of_nat (length (flat_map gm_code types)))).
Proof.
  intros s g0 types HL HF HS. exists ([0; 0; 0; 0; 0; 0] :: repeat gmIdentity 7). revert s HS. change (parses (globalMotionParams false g0) (flat_map gm_code types) (g0 :: types, [0; 0; 0; 0; 0; 0] :: repeat gmIdentity 7)).
  unfold globalMotionParams. rewrite <- (app_nil_r (flat_map gm_code types)). eapply parses_bind; [|cbv beta; apply parses_ret]. rewrite <- (map_id types) at 2.
  apply (parses_times _ gm_code (fun x : Z => x)); [symmetry; exact HL|]. intros x Hx. rewrite Forall_forall in HF. specialize (HF x Hx). cbv beta in HF.
  assert (C : x = 0 \/ x = 1 \/ x = 2 \/ x = 3) by lia. unfold readGmType.
  destruct C as [->|[->|[->| ->]]]; cbn [gm_code].
  - change [false] with ([false] ++ []). eapply parses_bind; [apply (parses_F1 false)|]. apply parses_ret.
  - change [true; false; true] with ([true] ++ [false] ++ [true] ++ []). eapply parses_bind; [apply (parses_F1 true)|]. eapply parses_bind; [apply (parses_F1 false)|]. eapply parses_bind; [apply (parses_F1 true)|]. apply parses_ret.
  - change [true; true] with ([true] ++ [true] ++ []). eapply parses_bind; [apply (parses_F1 true)|]. eapply parses_bind; [apply (parses_F1 true)|]. apply parses_ret.
  - change [true; false; false] with ([true] ++ [false] ++ [false] ++ []). eapply parses_bind; [apply (parses_F1 true)|]. eapply parses_bind; [apply (parses_F1 false)|]. eapply parses_bind; [apply (parses_F1 false)|]. apply parses_ret.
Qed.
Print Assumptions C58_types_coded_partial.
Example C58_types_coded_case : starts (mkBS [235; 32] 0 0) (flat_map gm_code [2; 1; 0; 2; 0; 0; 3]).
Proof. split; [cbn; lia|exists [false; false; false]; vm_compute; reflexivity]. Qed.
Example C58_types_coded_result : globalMotionParams false 0 (mkBS [235; 32] 0 0) = Ok (([0; 2; 1; 0; 2; 0; 0; 3], [0; 0; 0; 0; 0; 0] :: repeat gmIdentity 7), mkBS [235; 32] 13 0).
Proof. vm_compute. reflexivity. Qed.
From Coq Require Import String.
From Verif Require Import Frame Writes Symbol SpecMath SpecSymbol SpecBlock SpecInterMode ModeInfo ModeInfoProofs InterMode PropInterMode PropInterBlock.
Local Open Scope Z_scope.

(** ** C151: the index of the candidate, for the modes of two vectors as well *)
(** One candidate or none: the modes with a "near" vector take the candidate of index 1, all the others that of index 0; nothing is read. *)
Theorem C151_one_candidate : forall found s, found <= 1 ->
  (forall y, In y [NEARMV; NEAR_NEARMV; NEAR_NEWMV; NEW_NEARMV] -> readDrl y found s = Ok (1, s)) /\ (forall y, In y [NEARESTMV; GLOBALMV; NEWMV; NEAREST_NEARESTMV; NEAREST_NEWMV; NEW_NEARESTMV; GLOBAL_GLOBALMV; NEW_NEWMV] -> readDrl y found s = Ok (0, s)).
Proof.
  intros found s Hf. split; intros y C; cbn [In] in C;
  repeat (destruct C as [<-|C]; [unfold readDrl, drlLoop; repeat match goal with |- context [if ?b then _ else _] => (let v := eval vm_compute in b in (match v with true => idtac | false => idtac end; change b with v)); cbv iota end;
    repeat match goal with |- context [?a <? found] => destruct (Z.ltb_spec a found); [lia|] end; reflexivity|]); contradiction.
Qed.
Print Assumptions C151_one_candidate.

(** ** C152: where samples for warping are looked for *)
(** A block of the tile at (row, col) that gives a sample: predicted from this reference only. *)
Definition gives_sample (e : IEnv) (ref : Z) (p : Z * Z) : bool :=
  let '(r, c) := p in (nColStart e <=? c) && (c <? nColEnd e) && (nRowStart e <=? r) && (r <? nRowEnd e) && (fst (refs_at e r c) =? ref) && (snd (refs_at e r c) =? -1).
(** The places: with a block above (to the left) at least as wide (high) as this one, one above and one to the left; the corner above left unless one of these blocks reaches there;
    the one above to the right unless the block above covers it, or the block is larger than 64 samples. *)
Definition sample_places (row col w h upW leftH : Z) : list (Z * Z) :=
  [(row - 1, col); (row, col - 1)] ++ (if (col mod upW =? 0) && (row mod leftH =? 0) then [(row - 1, col - 1)] else []) ++
  (if (col - col mod upW + upW <=? col + w) && (Z.max w h <=? 16) then [(row - 1, col + w)] else []).
Lemma side_pow2 b : 0 <= b < 22 -> (forall c, Z.land c (bsize_w b / 4 - 1) = c mod (bsize_w b / 4)) /\ (forall c, Z.land c (bsize_h b / 4 - 1) = c mod (bsize_h b / 4)).
Proof.
  intros H. apply in_blocks in H. unfold blocks in H. cbn in H.
  assert (G : forall n k, 0 <= k -> n = 2 ^ k -> forall c, Z.land c (n - 1) = c mod n) by (intros n k Hk -> c; rewrite <- Z.land_ones by exact Hk; rewrite Z.ones_equiv, Z.sub_1_r; reflexivity).
  repeat (destruct H as [<-|H]; [split; match goal with |- forall c, Z.land c (?n - 1) = _ => let k := eval vm_compute in (Z.log2 n) in apply (G n k); [discriminate|vm_compute; reflexivity] end|]). contradiction.
Qed.
Lemma sample_char e ref r c dr dc : 0 < ref -> refs_known e (bMiRow (nB e) + dr) (bMiCol (nB e) + dc) -> r = bMiRow (nB e) + dr -> c = bMiCol (nB e) + dc ->
  addSample e ref dr dc (0, 0) = if gives_sample e ref (r, c) then Panic else Ok (0, 0).
Proof.
  intros Hr [[a Ea] [b Eb]] -> ->. unfold addSample, gives_sample, refs_at, cell3. change (LEAST_SQUARES_SAMPLES_MAX <=? snd (0, 0)) with false. cbv iota zeta. rewrite Ea, Eb. cbn [rbind fst snd].
  destruct (_ && _ && _ && _); cbn [negb andb]; [|reflexivity]. destruct (Z.eqb_spec a 0); [destruct (Z.eqb_spec a ref); [lia|reflexivity]|]. destruct (a =? ref); cbn [negb andb]; [|reflexivity]. change NONE with (-1). destruct (b =? -1); reflexivity.
Qed.
Theorem C152_places_refuted : forall e ref su sl, 0 <= bMiSize (nB e) < 22 -> 0 < ref -> bAvailU (nB e) = true -> bAvailL (nB e) = true ->
  idx2 (nSizes e) (bMiRow (nB e) - 1) (bMiCol (nB e)) = Ok su -> idx2 (nSizes e) (bMiRow (nB e)) (bMiCol (nB e) - 1) = Ok sl -> 0 <= su < 22 -> 0 <= sl < 22 ->
  bsize_w (bMiSize (nB e)) <= bsize_w su -> bsize_h (bMiSize (nB e)) <= bsize_h sl ->
  let places := sample_places (bMiRow (nB e)) (bMiCol (nB e)) (bsize_w (bMiSize (nB e)) / 4) (bsize_h (bMiSize (nB e)) / 4) (bsize_w su / 4) (bsize_h sl / 4) in
  (forall r c, In (r, c) places -> refs_known e r c) ->
  findWarpSamples e ref = if existsb (gives_sample e ref) places then Panic else Ok (0, 0).
Proof.
  intros e ref su sl Hb Hr HU HL Eu El Hsu Hsl HW HH places HK. destruct (block_facts _ Hb) as (_ & _ & EW & EH & _). destruct (block_facts _ Hsu) as (_ & _ & EWs & _ & _ & _ & B1 & _). destruct (block_facts _ Hsl) as (_ & _ & _ & EHs & _ & _ & _ & B2).
  destruct (side_pow2 _ Hsu) as [Lu _]. destruct (side_pow2 _ Hsl) as [_ Ll].
  unfold findWarpSamples. rewrite EW, EH. cbn [rbind]. unfold samplesAbove. rewrite HU, Eu. cbn [rbind]. rewrite EWs. cbn [rbind].
  assert (bsize_w (bMiSize (nB e)) / 4 <= bsize_w su / 4) by (apply Z.div_le_mono; lia). assert (bsize_h (bMiSize (nB e)) / 4 <= bsize_h sl / 4) by (apply Z.div_le_mono; lia).
  destruct (Z.leb_spec (bsize_w (bMiSize (nB e)) / 4) (bsize_w su / 4)); [|lia]. cbv zeta.
  unfold sample_places in places. subst places. set (row := bMiRow (nB e)) in *. set (col := bMiCol (nB e)) in *. set (w := bsize_w (bMiSize (nB e)) / 4) in *. set (h := bsize_h (bMiSize (nB e)) / 4) in *. set (uw := bsize_w su / 4) in *. set (lh := bsize_h sl / 4) in *.
  assert (M1 := Z.mod_pos_bound col uw ltac:(lia)). assert (M2 := Z.mod_pos_bound row lh ltac:(lia)).
  rewrite (sample_char e ref (row - 1) col (-1) 0); [|exact Hr|fold row col; replace (row + -1) with (row - 1) by lia; replace (col + 0) with col by lia; apply HK; left; reflexivity|fold row; lia|fold col; lia].
  cbn [app existsb]. destruct (gives_sample e ref (row - 1, col)); [reflexivity|]. cbn [rbind orb]. unfold samplesLeft. rewrite HL. fold row col. rewrite El. cbn [rbind]. rewrite EHs. cbn [rbind].
  destruct (Z.leb_spec h lh); [|lia].
  rewrite (sample_char e ref row (col - 1) 0 (-1)); [|exact Hr|fold row col; replace (row + 0) with row by lia; replace (col + -1) with (col - 1) by lia; apply HK; right; left; reflexivity|fold row; lia|fold col; lia].
  destruct (gives_sample e ref (row, col - 1)); [reflexivity|]. cbn [rbind orb]. rewrite Lu, Ll.
  assert (T : (if - (row mod lh) <? 0 then false else negb (- (col mod uw) <? 0)) = (col mod uw =? 0) && (row mod lh =? 0)).
  { destruct (Z.ltb_spec (- (row mod lh)) 0), (Z.ltb_spec (- (col mod uw)) 0), (Z.eqb_spec (col mod uw) 0), (Z.eqb_spec (row mod lh) 0); try lia; reflexivity. }
  rewrite T. assert (MX := ModeInfoProofs.Max_max).
  assert (T2 : negb (w <? - (col mod uw) + uw) && (Max w h <=? 16) = (col - col mod uw + uw <=? col + w) && (Z.max w h <=? 16)).
  { rewrite MX. f_equal. destruct (Z.ltb_spec w (- (col mod uw) + uw)), (Z.leb_spec (col - col mod uw + uw) (col + w)); try lia; reflexivity. }
  rewrite T2. rewrite existsb_app. destruct ((col mod uw =? 0) && (row mod lh =? 0)) eqn:A.
  - rewrite (sample_char e ref (row - 1) (col - 1) (-1) (-1)); [|exact Hr|fold row col; replace (row + -1) with (row - 1) by lia; replace (col + -1) with (col - 1) by lia; apply HK; right; right; left; reflexivity|fold row; lia|fold col; lia].
    cbn [existsb]. destruct (gives_sample e ref (row - 1, col - 1)); [reflexivity|]. cbn [rbind orb].
    destruct ((col - col mod uw + uw <=? col + w) && (Z.max w h <=? 16)); [|reflexivity].
    rewrite (sample_char e ref (row - 1) (col + w) (-1) w); [|exact Hr|fold row col; replace (row + -1) with (row - 1) by lia; apply HK; right; right; right; left; reflexivity|fold row; lia|reflexivity].
    cbn [existsb]. destruct (gives_sample e ref (row - 1, col + w)); reflexivity.
  - cbn [existsb orb rbind]. destruct ((col - col mod uw + uw <=? col + w) && (Z.max w h <=? 16)); [|reflexivity].
    rewrite (sample_char e ref (row - 1) (col + w) (-1) w); [|exact Hr|fold row col; replace (row + -1) with (row - 1) by lia; apply HK; right; right; left; reflexivity|fold row; lia|reflexivity].
    cbn [existsb]. destruct (gives_sample e ref (row - 1, col + w)); reflexivity.
Qed.
Print Assumptions C152_places_refuted.
(** A block of 16x16 at (1, 1), all its neighbours of the same size: the places above, to the left, and above to the right at column 5; then aligned and other blocks. *)
Example C152_places_case : sample_places 1 1 4 4 4 4 = [(0, 1); (1, 0); (0, 5)] /\ sample_places 4 4 2 2 4 4 = [(3, 4); (4, 3); (3, 3)] /\ sample_places 4 6 2 2 4 4 = [(3, 6); (4, 5); (3, 8)] /\ sample_places 4 4 4 4 4 4 = [(3, 4); (4, 3); (3, 3); (3, 8)] /\ existsb (gives_sample (demo_in demo_nb 1 false true 0) 1) (sample_places 1 1 4 4 4 4) = true /\ findWarpSamples (demo_in demo_nb 1 false true 0) 1 = Panic /\ existsb (gives_sample (demo_in demo_nb 5 false true 0) 1) (sample_places 1 1 4 4 4 4) = false /\ findWarpSamples (demo_in demo_nb 5 false true 0) 1 = Ok (0, 0).
Proof. repeat split; vm_compute; reflexivity. Qed.
