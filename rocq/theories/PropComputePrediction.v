(** Property C146: which predictions an inter block asks for. *)
From Verif Require Import GoBase Util UtilProofs Constants Tables Frame LoopFilter SpecBlock SpecResidual PropResidual PredictInter SpecInter.
Local Open Scope Z_scope.

(** ** Specification *)
(** A unit of the area a block's chroma covers refers to no other picture *)
Definition some_intra (refs : list (list (list Z))) (row col h w : Z) : Prop := exists r c, 0 <= r < h /\ 0 <= c < w /\ idx3 refs (row + r) (col + c) 0 = Ok 0.
Definition all_known (refs : list (list (list Z))) (row col h w : Z) : Prop := forall r c, 0 <= r < h -> 0 <= c < w -> exists v, idx3 refs (row + r) (col + c) 0 = Ok v.
(** In a subsampled plane the block starts on an even unit *)
Definition sub_of (ss : bool) (plane : Z) : bool := ss && (0 <? plane).
Definition even_of (s : bool) (v : Z) : Z := if s then v / 2 * 2 else v.
Definition half_of (s : bool) (v : Z) : Z := if s then v / 2 else v.
(** The predictions of one plane of a block of size b at (row, col).
    [intra]: a unit under it is not inter coded; then one prediction for all, with the block's own vector.  Otherwise each block under it is predicted with its own vector *)
Definition std_plane (ss : bool) (b row col plane : Z) (intra : bool) : list pcall :=
  let s := sub_of ss plane in
  let X := half_of s col * 4 in let Y := half_of s row * 4 in
  let w := extent plane ss (bsize_w b) in let h := extent plane ss (bsize_h b) in
  if intra then std_predictions plane X Y w h w h row col
  else std_predictions plane X Y w h (half_of s (bsize_w b)) (half_of s (bsize_h b)) (even_of s row) (even_of s col).
Definition do_pcall {A} (inter : Z -> Z -> Z -> Z -> Z -> Z -> Z -> A -> res A) (c : pcall) (a : A) : res A :=
  inter (pcPlane c) (pcX c) (pcY c) (pcW c) (pcH c) (pcRow c) (pcCol c) a.
(** What the block covers in units, in both directions *)
Definition area (plane : Z) (ss : bool) (v : Z) : Z := extent plane ss v / 4 * (if sub_of ss plane then 2 else 1).

(** ** Lemmas *)
Lemma half_shr s v : shr v (int_of s) = half_of s v.
Proof. rewrite shr_div by (destruct s; cbn; lia). destruct s; cbn [int_of half_of]; [reflexivity|]. change (2 ^ 0) with 1. apply Z.div_1_r. Qed.
Lemma b_cases b : 0 <= b < 22 -> In b (map Z.of_nat (seq 0 22)).
Proof. intros H. apply in_map_iff. exists (Z.to_nat b). split; [lia|apply in_seq; lia]. Qed.
Lemma block_dims_ok b : 0 <= b < 22 -> idx BLOCK_WIDTH b = Ok (bsize_w b) /\ idx BLOCK_HEIGHT b = Ok (bsize_h b).
Proof. intros H. pose proof (b_cases b H) as I. cbn [seq map In] in I. repeat (destruct I as [<-|I]; [split; vm_compute; reflexivity|]). contradiction. Qed.
Definition pw (ss : bool) (plane v : Z) : Z := half_of (sub_of ss plane) v.
Lemma pred_bounds ss b plane : 0 <= b < 22 -> 0 <= plane < 3 ->
  2 <= pw ss plane (bsize_w b) /\ 2 <= pw ss plane (bsize_h b) /\ extent plane ss (bsize_w b) / 4 <= pw ss plane (bsize_w b) /\ extent plane ss (bsize_h b) / 4 <= pw ss plane (bsize_h b) /\
  1 <= extent plane ss (bsize_w b) / pw ss plane (bsize_w b) /\ 1 <= extent plane ss (bsize_h b) / pw ss plane (bsize_h b).
Proof.
  intros H Hp. pose proof (b_cases b H) as I. cbn [seq map In] in I. assert (P : plane = 0 \/ plane = 1 \/ plane = 2) by lia.
  destruct P as [-> | [-> | ->]]; destruct ss; repeat (destruct I as [<-|I]; [vm_compute; repeat split; intros; congruence|]); contradiction.
Qed.
Lemma stepLoop_one {A} fuel n st (f : Z -> A -> res A) a : (1 <= fuel)%nat -> 1 <= n <= st -> stepLoop (S fuel) 0 n st f a = f 0 a.
Proof.
  intros Hf H. cbn [stepLoop]. destruct (Z.ltb_spec 0 n); [|lia]. destruct fuel as [|fuel]; [lia|]. destruct (f 0 a); cbn [rbind stepLoop]; try reflexivity. destruct (Z.ltb_spec (0 + st) n); [lia|reflexivity].
Qed.
Lemma upto_cons n : 1 <= n -> upto n = 0 :: map Z.of_nat (seq 1 (Z.to_nat n - 1)).
Proof. intros H. unfold upto. replace (Z.to_nat n) with (S (Z.to_nat n - 1)) at 1 by lia. reflexivity. Qed.
Lemma std_head plane X Y w h bw bh row col : 1 <= w / bw -> 1 <= h / bh -> exists rest, std_predictions plane X Y w h bw bh row col = PCall plane X Y bw bh row col :: rest /\ Z.of_nat (S (List.length rest)) = (w / bw) * (h / bh).
Proof.
  intros Hw Hh. assert (L : forall l m, List.length (flat_map (fun r => map (fun c => PCall plane (X + c * bw) (Y + r * bh) bw bh (row + r) (col + c)) m) l) = (List.length l * List.length m)%nat).
  { induction l as [|r l IH]; intros m; cbn [flat_map List.length]; [reflexivity|]. rewrite app_length, map_length, IH. lia. }
  pose proof (L (upto (h / bh)) (upto (w / bw))) as LL. fold (std_predictions plane X Y w h bw bh row col) in LL.
  assert (U : forall n, List.length (upto n) = Z.to_nat n) by (intros; unfold upto; rewrite map_length, seq_length; reflexivity). rewrite !U in LL.
  unfold std_predictions in *. rewrite (upto_cons (h / bh) Hh), (upto_cons (w / bw) Hw) in *. cbn [flat_map map app] in *. eexists. split; [f_equal; f_equal; lia|]. cbn [List.length] in LL. rewrite LL. lia.
Qed.

(** the scan for units that are not inter coded *)
Lemma scan_row refs row col w s0 : (forall c, 0 <= c < w -> exists v, idx3 refs row (col + c) 0 = Ok v) ->
  exists s, rfor_to 0 w (fun c s => let! rf := idx3 refs row (col + c) 0 in Ok (if rf =? INTRA_FRAME then true else s)) s0 = Ok s /\ (s = true <-> s0 = true \/ exists c, 0 <= c < w /\ idx3 refs row (col + c) 0 = Ok 0).
Proof.
  intros H. destruct (Z_le_dec w 0) as [L|L].
  { exists s0. unfold rfor_to. replace (Z.to_nat (w - 0)) with 0%nat by lia. split; [reflexivity|]. split; [auto|]. intros [E|(c & Hc & _)]; [exact E|lia]. }
  destruct (rfor_from_inv (fun i s => s = true <-> s0 = true \/ exists c, 0 <= c < i /\ idx3 refs row (col + c) 0 = Ok 0) (Z.to_nat (w - 0)) 0
    (fun c s => let! rf := idx3 refs row (col + c) 0 in Ok (if rf =? INTRA_FRAME then true else s)) s0) as (s & E & P).
  - split; [auto|]. intros [E|(c & Hc & _)]; [exact E|lia].
  - intros i s Hi HI. destruct (H i ltac:(lia)) as [v Ev]. rewrite Ev. cbn [rbind]. eexists. split; [reflexivity|]. unfold INTRA_FRAME. destruct (Z.eqb_spec v 0) as [->|N].
    + split; [intros _; right; exists i; split; [lia|exact Ev]|reflexivity].
    + rewrite HI. split; (intros [E|(c & Hc & Ec)]; [left; exact E|right]).
      * exists c. split; [lia|exact Ec].
      * exists c. split; [|exact Ec]. destruct (Z.eq_dec c i) as [->|]; [|lia]. rewrite Ev in Ec. congruence.
  - exists s. split; [exact E|]. replace (0 + Z.of_nat (Z.to_nat (w - 0))) with w in P by lia. exact P.
Qed.
Lemma scan_all refs row col h w : all_known refs row col h w ->
  exists s, rfor_to 0 h (fun r s => rfor_to 0 w (fun c s => let! rf := idx3 refs (row + r) (col + c) 0 in Ok (if rf =? INTRA_FRAME then true else s)) s) false = Ok s /\ (s = true <-> some_intra refs row col h w).
Proof.
  intros H. destruct (Z_le_dec h 0) as [L|L].
  { exists false. unfold rfor_to at 1. replace (Z.to_nat (h - 0)) with 0%nat by lia. split; [reflexivity|]. split; [discriminate|]. intros (r & c & Hr & _). lia. }
  destruct (rfor_from_inv (fun i s => s = true <-> some_intra refs row col i w) (Z.to_nat (h - 0)) 0
    (fun r s => rfor_to 0 w (fun c s => let! rf := idx3 refs (row + r) (col + c) 0 in Ok (if rf =? INTRA_FRAME then true else s)) s) false) as (s & E & P).
  - split; [discriminate|]. intros (r & c & Hr & _). lia.
  - intros i s Hi HI. destruct (scan_row refs (row + i) col w s) as (s' & E & P). { intros c Hc. apply H; lia. }
    exists s'. split; [exact E|]. rewrite P, HI. split.
    + intros [(r & c & Hr & Hc & Ec)|(c & Hc & Ec)]; [exists r, c; repeat split; try lia; exact Ec|exists i, c; repeat split; try lia; exact Ec].
    + intros (r & c & Hr & Hc & Ec). destruct (Z.eq_dec r i) as [->|]; [right; exists c; auto|left; exists r, c; repeat split; try lia; exact Ec].
  - exists s. split; [exact E|]. replace (0 + Z.of_nat (Z.to_nat (h - 0))) with h in P by lia. exact P.
Qed.

(** ** C146 *)
(** The state of an inter block that is not inter-intra *)
Definition plain_inter (e : PEnv) (k : KEnv) (q : CEnv) (ss : bool) : Prop :=
  pSubX e = ss /\ pSubY e = ss /\ 0 <= kSize k < 22 /\ 0 <= kRow k < 2 ^ 31 /\ 0 <= kCol k < 2 ^ 31 /\ cInter q = true /\ cRef1 q <> 0 /\
  forall plane, 0 <= plane < 3 -> all_known (pRefFrames e) (even_of (sub_of ss plane) (kRow k)) (even_of (sub_of ss plane) (kCol k)) (area plane ss (bsize_h (kSize k))) (area plane ss (bsize_w (kSize k))).
Definition intra_under (e : PEnv) (k : KEnv) (ss : bool) (plane : Z) : Prop :=
  some_intra (pRefFrames e) (even_of (sub_of ss plane) (kRow k)) (even_of (sub_of ss plane) (kCol k)) (area plane ss (bsize_h (kSize k))) (area plane ss (bsize_w (kSize k))).

Lemma log_ok ps : forall v, idx NUM_4X4_BLOCKS_WIDE ps = Ok v -> exists a b, idx MI_WIDTH_LOG2 ps = Ok a /\ idx MI_HEIGHT_LOG2 ps = Ok b.
Proof.
  intros v H. apply idx_inv in H as [H _]. change (zlen NUM_4X4_BLOCKS_WIDE) with 22 in H. pose proof (b_cases ps H) as I. cbn [seq map In] in I. repeat (destruct I as [<-|I]; [do 2 eexists; split; vm_compute; reflexivity|]). contradiction.
Qed.
Lemma shl_even s v : 0 <= v < 2 ^ 31 -> shl (half_of s v) (int_of s) = even_of s v.
Proof.
  intros H. destruct s; cbn [int_of half_of even_of].
  - pose proof (Z.div_pos v 2 ltac:(lia) ltac:(lia)). pose proof (Z.mul_div_le v 2 ltac:(lia)). unfold shl. rewrite Z.shiftl_mul_pow2 by lia. change (2 ^ 1) with 2. apply i64_id. lia.
  - unfold shl. rewrite Z.shiftl_mul_pow2 by lia. change (2 ^ 0) with 1. rewrite Z.mul_1_r. apply i64_id. lia.
Qed.
Lemma shl_area s v : 0 <= v < 2 ^ 31 -> shl v (int_of s) = v * (if s then 2 else 1).
Proof. intros H. unfold shl. destruct s; cbn [int_of]; rewrite Z.shiftl_mul_pow2 by lia; [change (2 ^ 1) with 2|change (2 ^ 0) with 1]; apply i64_id; lia. Qed.

(** In every plane the code makes the first of the predictions of the standard, and no other. *)
Theorem C146_first {A} (intra : Z -> Z -> Z -> bool -> bool -> bool -> bool -> Z -> Z -> Z -> A -> res A) (inter : Z -> Z -> Z -> Z -> Z -> Z -> Z -> A -> res A) e k q ss plane a :
  plain_inter e k q ss -> 0 <= plane < 3 -> exists i : bool, (i = true <-> intra_under e k ss plane) /\
  computePlane intra inter e k q plane a = each (do_pcall inter) (firstn 1 (std_plane ss (kSize k) (kRow k) (kCol k) plane i)) a.
Proof.
  intros (HX & HY & Hb & Hr & Hc & HI & HR & HK) Hp. specialize (HK plane Hp). destruct (scan_all _ _ _ _ _ HK) as (i & Ei & Pi). exists i. split; [exact Pi|].
  destruct (size_facts ss (kSize k) plane Hb Hp) as (ps & Eps & Ew & Eh & _ & _ & Bw & Bh). destruct (log_ok _ _ Ew) as (lw & lh & Elw & Elh). destruct (block_dims_ok _ Hb) as [Ebw Ebh].
  unfold computePlane. rewrite HX, HY, Eps. cbn [rbind]. rewrite Ew, Eh, Elw, Elh. cbn [rbind]. rewrite HI. cbn [andb].
  assert (ES : (if 0 <? plane then int_of ss else 0) = int_of (sub_of ss plane)) by (unfold sub_of; destruct ss, (0 <? plane); reflexivity). rewrite !ES.
  destruct (Z.eqb_spec (cRef1 q) INTRA_FRAME) as [E0|_]; [exfalso; apply HR; exact E0|]. cbn [rbind]. rewrite Ebw, Ebh. cbn [rbind]. rewrite !half_shr, !shl_even by lia. rewrite !shl_area by lia.
  unfold area in Ei. rewrite Ei. cbn [rbind]. destruct (pred_bounds ss (kSize k) plane Hb Hp) as (Q1 & Q2 & Q3 & Q4 & Q5 & Q6). unfold pw in *.
  rewrite !Nat.add_1_r.
  assert (Z1 : forall v t : Z, 1 <= v -> v <= t -> 1 <= v <= (if i then v * 4 else t)) by (intros; destruct i; lia).
  rewrite stepLoop_one; [|clear - Bh; lia|apply Z1; [apply Bh|exact Q4]]. rewrite stepLoop_one; [|clear - Bw; lia|apply Z1; [apply Bw|exact Q3]]. change MI_SIZE with 4. rewrite !Z.add_0_r.
  unfold std_plane. destruct i.
  - destruct (std_head plane (half_of (sub_of ss plane) (kCol k) * 4) (half_of (sub_of ss plane) (kRow k) * 4) (extent plane ss (bsize_w (kSize k))) (extent plane ss (bsize_h (kSize k))) (extent plane ss (bsize_w (kSize k))) (extent plane ss (bsize_h (kSize k))) (kRow k) (kCol k)) as (rest & E & _).
    { rewrite Z.div_same by (intro Z0; rewrite Z0 in Bw; apply (Z.lt_irrefl 0); apply Z.lt_le_trans with 1; [reflexivity|exact (proj1 Bw)]). lia. } { rewrite Z.div_same by (intro Z0; rewrite Z0 in Bh; apply (Z.lt_irrefl 0); apply Z.lt_le_trans with 1; [reflexivity|exact (proj1 Bh)]). lia. }
    rewrite E. cbn [firstn each]. unfold do_pcall. cbn [pcPlane pcX pcY pcW pcH pcRow pcCol].
    destruct (size_facts ss (kSize k) plane Hb Hp) as (? & _ & _ & _ & F1 & F2 & _). rewrite (Z.mul_comm 4) in F1, F2. rewrite <- F1, <- F2. destruct (inter _ _ _ _ _ _ _ a); reflexivity.
  - edestruct std_head as (rest & E & _); [| |rewrite E]; [assumption|assumption|]. cbn [firstn each]. unfold do_pcall. cbn [pcPlane pcX pcY pcW pcH pcRow pcCol]. destruct (inter _ _ _ _ _ _ _ a); reflexivity.
Qed.
Print Assumptions C146_first.

(** When the standard asks for one prediction: no subsampling, both sides of the luma block at least 8, or a unit under it that is not inter coded. *)
Definition one_prediction (ss : bool) (b plane : Z) (intra : bool) : Prop := sub_of ss plane = false \/ 8 <= bsize_w b /\ 8 <= bsize_h b \/ intra = true.
Lemma one_or_more ss b row col plane i : 0 <= b < 22 -> 0 <= plane < 3 -> exists c rest, std_plane ss b row col plane i = c :: rest /\ (rest = [] <-> one_prediction ss b plane i).
Proof.
  intros Hb Hp. destruct (pred_bounds ss b plane Hb Hp) as (Q1 & Q2 & Q3 & Q4 & Q5 & Q6). unfold pw in *. unfold std_plane. destruct i.
  - destruct (size_facts ss b plane Hb Hp) as (? & _ & _ & _ & _ & _ & Bw & Bh).
    assert (N1 : extent plane ss (bsize_w b) <> 0) by (intro Z0; rewrite Z0 in Bw; apply (Z.lt_irrefl 0); apply Z.lt_le_trans with 1; [reflexivity|exact (proj1 Bw)]).
    assert (N2 : extent plane ss (bsize_h b) <> 0) by (intro Z0; rewrite Z0 in Bh; apply (Z.lt_irrefl 0); apply Z.lt_le_trans with 1; [reflexivity|exact (proj1 Bh)]).
    edestruct std_head as (rest & E & L); [| |rewrite E]; [rewrite Z.div_same by assumption; lia|rewrite Z.div_same by assumption; lia|]. rewrite !Z.div_same in L by assumption.
    do 2 eexists. split; [reflexivity|]. split; [intros _; right; right; reflexivity|]. intros _. destruct rest; [reflexivity|cbn [List.length] in L; lia].
  - edestruct std_head as (rest & E & L); [| |rewrite E]; [assumption|assumption|]. do 2 eexists. split; [reflexivity|].
    assert (C : (extent plane ss (bsize_w b) / half_of (sub_of ss plane) (bsize_w b)) * (extent plane ss (bsize_h b) / half_of (sub_of ss plane) (bsize_h b)) = 1 <-> one_prediction ss b plane false).
    { clear - Hb Hp. pose proof (b_cases b Hb) as I. cbn [seq map In] in I. assert (P : plane = 0 \/ plane = 1 \/ plane = 2) by lia. unfold one_prediction.
      destruct P as [-> | [-> | ->]]; destruct ss; repeat (destruct I as [<-|I]; [split; [intros X; first [left; reflexivity|right; left; split; vm_compute; congruence|vm_compute in X; discriminate X]|
        intros [X|[[X Y]|X]]; first [reflexivity|discriminate X|exfalso; vm_compute in X; congruence|exfalso; vm_compute in Y; congruence]]|]); contradiction. }
    rewrite <- C, <- L. destruct rest; cbn [List.length]; split; intros X; try reflexivity; try congruence; lia.
Qed.
(** Then the code makes exactly the standard's predictions. *)
Theorem C146_predictions_partial {A} (intra : Z -> Z -> Z -> bool -> bool -> bool -> bool -> Z -> Z -> Z -> A -> res A) (inter : Z -> Z -> Z -> Z -> Z -> Z -> Z -> A -> res A) e k q ss a :
  plain_inter e k q ss -> exists i : Z -> bool, (forall plane, 0 <= plane < 3 -> i plane = true <-> intra_under e k ss plane) /\
  ((forall plane, 0 <= plane < (if cChroma q then 3 else 1) -> one_prediction ss (kSize k) plane (i plane)) ->
   computePrediction intra inter e k q a = each (do_pcall inter) (flat_map (fun plane => std_plane ss (kSize k) (kRow k) (kCol k) plane (i plane)) (if cChroma q then [0; 1; 2] else [0])) a).
Proof.
  intros H. destruct (C146_first intra inter e k q ss 0 a H ltac:(lia)) as (i0 & I0 & _). destruct (C146_first intra inter e k q ss 1 a H ltac:(lia)) as (i1 & I1 & _). destruct (C146_first intra inter e k q ss 2 a H ltac:(lia)) as (i2 & I2 & _).
  exists (fun p => if p =? 0 then i0 else if p =? 1 then i1 else i2). assert (HI : forall plane, 0 <= plane < 3 -> (if plane =? 0 then i0 else if plane =? 1 then i1 else i2) = true <-> intra_under e k ss plane).
  { intros plane Hp. assert (P : plane = 0 \/ plane = 1 \/ plane = 2) by lia. destruct P as [-> | [-> | ->]]; cbn [Z.eqb]; assumption. }
  split; [exact HI|]. intros HO.
  assert (F : forall plane a, 0 <= plane < (if cChroma q then 3 else 1) -> computePlane intra inter e k q plane a = each (do_pcall inter) (std_plane ss (kSize k) (kRow k) (kCol k) plane (if plane =? 0 then i0 else if plane =? 1 then i1 else i2)) a).
  { intros plane a0 Hp. assert (Hp' : 0 <= plane < 3) by (destruct (cChroma q); lia). destruct (C146_first intra inter e k q ss plane a0 H Hp') as (j & J & E). rewrite E.
    assert (EJ : j = (if plane =? 0 then i0 else if plane =? 1 then i1 else i2)) by (specialize (HI plane Hp'); rewrite <- J in HI; destruct j, (if plane =? 0 then i0 else if plane =? 1 then i1 else i2); try reflexivity; destruct HI as [U V]; [symmetry; auto|auto]).
    rewrite <- EJ. destruct (one_or_more ss (kSize k) (kRow k) (kCol k) plane j ltac:(apply H) Hp') as (c & rest & ER & O). rewrite ER. rewrite (proj2 O); [reflexivity|]. rewrite EJ. exact (HO plane Hp). }
  rewrite <- each_flat. unfold computePrediction. destruct (cChroma q); cbn [int_of].
  - change (rfor_to 0 (1 + 1 * 2) (fun plane a => computePlane intra inter e k q plane a) a) with (let! a := computePlane intra inter e k q 0 a in let! a := computePlane intra inter e k q 1 a in let! a := computePlane intra inter e k q 2 a in Ok a).
    cbn [each]. rewrite F by lia. destruct (each _ _ a) as [a1| |]; cbn [rbind]; try reflexivity. rewrite F by lia. destruct (each _ _ a1) as [a2| |]; cbn [rbind]; try reflexivity. rewrite F by lia. reflexivity.
  - change (rfor_to 0 (1 + 0 * 2) (fun plane a => computePlane intra inter e k q plane a) a) with (let! a := computePlane intra inter e k q 0 a in Ok a). cbn [each]. rewrite F by lia. reflexivity.
Qed.
Print Assumptions C146_predictions_partial.

(** In a subsampled plane a block with a side of 4 samples, over inter blocks only, is predicted in two or four parts; the code predicts the first and leaves the others as they are. *)
Theorem C146_small_refuted {A} (intra : Z -> Z -> Z -> bool -> bool -> bool -> bool -> Z -> Z -> Z -> A -> res A) (inter : Z -> Z -> Z -> Z -> Z -> Z -> Z -> A -> res A) e k q plane a :
  plain_inter e k q true -> 0 < plane < 3 -> bsize_w (kSize k) < 8 \/ bsize_h (kSize k) < 8 -> ~ intra_under e k true plane ->
  exists c d rest, std_plane true (kSize k) (kRow k) (kCol k) plane false = c :: d :: rest /\ computePlane intra inter e k q plane a = do_pcall inter c a.
Proof.
  intros H Hp Hs HN. destruct (C146_first intra inter e k q true plane a H ltac:(lia)) as (i & Hi & E). assert (i = false) as -> by (destruct i; [exfalso; apply HN, Hi; reflexivity|reflexivity]).
  destruct (one_or_more true (kSize k) (kRow k) (kCol k) plane false ltac:(apply H) ltac:(lia)) as (c & rest & ER & O). rewrite ER in E. cbn [firstn each] in E. destruct rest as [|d rest].
  - exfalso. destruct (proj1 O eq_refl) as [X|[[X Y]|X]]; [|lia|discriminate X]. unfold sub_of in X. destruct (Z.ltb_spec 0 plane); [discriminate X|lia].
  - exists c, d, rest. split; [exact ER|]. rewrite E. destruct (do_pcall inter c a); reflexivity.
Qed.
Print Assumptions C146_small_refuted.

(** Inter-intra blocks: with the block in the first row or column of its superblock a flag is looked up at row or column -1, which panics, whatever the predictors do. *)
Theorem C146_interintra_refuted {A} (intra : Z -> Z -> Z -> bool -> bool -> bool -> bool -> Z -> Z -> Z -> A -> res A) (inter : Z -> Z -> Z -> Z -> Z -> Z -> Z -> A -> res A) e k q a ss :
  pSubX e = ss -> pSubY e = ss -> 0 <= kSize k < 22 -> cInter q = true -> cRef1 q = 0 -> kRow k mod (if c128 q then 32 else 16) = 0 \/ kCol k mod (if c128 q then 32 else 16) = 0 ->
  computePrediction intra inter e k q a = Panic.
Proof.
  intros HX HY Hb HI HR HE. assert (F : computePlane intra inter e k q 0 a = Panic).
  { destruct (size_facts ss (kSize k) 0 Hb ltac:(lia)) as (ps & Eps & Ew & Eh & _ & _ & Bw & Bh). destruct (log_ok _ _ Ew) as (lw & lh & Elw & Elh).
    unfold computePlane. rewrite HX, HY, Eps. cbn [rbind]. rewrite Ew, Eh, Elw, Elh. cbn [rbind]. rewrite HI, HR. cbn [andb Z.ltb Z.compare]. change (0 =? INTRA_FRAME) with true. cbv iota.
    assert (LM : forall v, Z.land v (if c128 q then 31 else 15) = v mod (if c128 q then 32 else 16)) by (intros v; destruct (c128 q); [exact (Z.land_ones v 5 ltac:(lia))|exact (Z.land_ones v 4 ltac:(lia))]).
    rewrite !LM. assert (S0 : forall v, shr v 0 = v) by (intros v; rewrite shr_div by lia; apply Z.div_1_r). rewrite !S0.
    assert (PN : forall (l : list (list (list bool))) p i j, i < 0 \/ j < 0 -> idx3 l p i j = Panic).
    { intros l p i j D. unfold idx3, idx2. destruct (idx l p) as [g| |] eqn:Eg; cbn [rbind]; try reflexivity; [|exfalso; revert Eg; apply idx_nh].
      destruct D as [D|D]; [rewrite idx_panic by lia; reflexivity|]. destruct (idx g i) as [r| |] eqn:Er; cbn [rbind]; try reflexivity; [apply idx_panic; lia|exfalso; revert Er; apply idx_nh]. }
    destruct HE as [E|E]; rewrite E.
    - rewrite PN by lia. reflexivity.
    - destruct (idx3 _ _ (kRow k mod _ - 1) _) as [ar| |] eqn:Ea; cbn [rbind]; try reflexivity; [rewrite PN by lia; reflexivity|].
      exfalso. revert Ea. unfold idx3, idx2. destruct (idx (cDec q) 0) as [g| |] eqn:Eg; cbn [rbind]; try discriminate; [|intros _; revert Eg; apply idx_nh]. destruct (idx g _) as [r| |] eqn:Er; cbn [rbind]; try discriminate; [apply idx_nh|intros _; revert Er; apply idx_nh]. }
  unfold computePrediction, rfor_to. destruct (cChroma q); cbn [int_of].
  - change (Z.to_nat (1 + 1 * 2 - 0)) with 3%nat. cbn [rfor_from]. rewrite F. reflexivity.
  - change (Z.to_nat (1 + 0 * 2 - 0)) with 1%nat. cbn [rfor_from]. rewrite F. reflexivity.
Qed.
Print Assumptions C146_interintra_refuted.
(** A block that is not inter coded is left alone. *)
Theorem C146_intra_untouched_partial {A} (intra : Z -> Z -> Z -> bool -> bool -> bool -> bool -> Z -> Z -> Z -> A -> res A) (inter : Z -> Z -> Z -> Z -> Z -> Z -> Z -> A -> res A) e k q a ss :
  pSubX e = ss -> pSubY e = ss -> 0 <= kSize k < 22 -> cInter q = false -> computePrediction intra inter e k q a = Ok a.
Proof.
  intros HX HY Hb HI. assert (F : forall plane, 0 <= plane < 3 -> computePlane intra inter e k q plane a = Ok a).
  { intros plane Hp. destruct (size_facts ss (kSize k) plane Hb Hp) as (ps & Eps & Ew & Eh & _). destruct (log_ok _ _ Ew) as (lw & lh & Elw & Elh).
    unfold computePlane. rewrite HX, HY, Eps. cbn [rbind]. rewrite Ew, Eh, Elw, Elh. cbn [rbind]. rewrite HI. reflexivity. }
  unfold computePrediction, rfor_to. destruct (cChroma q); cbn [int_of].
  - change (Z.to_nat (1 + 1 * 2 - 0)) with 3%nat. cbn [rfor_from]. do 3 (rewrite F by lia; cbn [rbind]). reflexivity.
  - change (Z.to_nat (1 + 0 * 2 - 0)) with 1%nat. cbn [rfor_from]. rewrite F by lia. reflexivity.
Qed.
Print Assumptions C146_intra_untouched_partial.

(** ** Examples *)
Definition penv0 (ss : bool) : PEnv := mkPEnv [] [] 64 64 [] false [] [] (repeat (repeat [1; -1] 64) 64) [1; -1] [] [] [] ss ss 8.
Definition kenv0 (b row col : Z) : KEnv := mkKEnv 0 false [] 13 0 0 false 0 b row col 16 16 false true [].
Definition cenv0 : CEnv := mkCEnv false true true (-1) true true true true [] 0.
Definition all_knownb (refs : list (list (list Z))) (row col h w : Z) : bool :=
  forallb (fun r => forallb (fun c => match idx3 refs (row + r) (col + c) 0 with Ok _ => true | _ => false end) (upto w)) (upto h).
Lemma all_knownb_ok refs row col h w : all_knownb refs row col h w = true -> all_known refs row col h w.
Proof.
  intros H r c Hr Hc. unfold all_knownb in H. rewrite forallb_forall in H. specialize (H r ltac:(apply in_map_iff; exists (Z.to_nat r); split; [lia|apply in_seq; lia])). rewrite forallb_forall in H.
  specialize (H c ltac:(apply in_map_iff; exists (Z.to_nat c); split; [lia|apply in_seq; lia])). destruct (idx3 refs (row + r) (col + c) 0); try discriminate. eauto.
Qed.
Lemma plain0 ss b row col : In b [0; 3; 6] -> In (row, col) [(3, 5); (4, 8)] -> plain_inter (penv0 ss) (kenv0 b row col) cenv0 ss.
Proof.
  intros Hb Hp. unfold plain_inter. cbn [In] in Hb, Hp. assert (Q : forall (P : Z -> Prop), P 0 -> P 1 -> P 2 -> forall p, 0 <= p < 3 -> P p) by (intros P P0 P1 P2 p H; assert (X : p = 0 \/ p = 1 \/ p = 2) by lia; destruct X as [-> | [-> | ->]]; assumption).
  repeat (destruct Hb as [<-|Hb]); try contradiction; (repeat (destruct Hp as [[= <- <-]|Hp]; try contradiction)); cbn [pSubX pSubY kSize kRow kCol cInter cRef1 penv0 kenv0 cenv0];
    (repeat (split; [first [reflexivity|lia]|])); apply Q; apply all_knownb_ok; destruct ss; vm_compute; reflexivity.
Qed.
(** An 8x8 block: one prediction of 8x8 and two of 4x4; a 4x4 block at an odd place: four predictions of 2x2 in each chroma plane, of which the code makes the first. *)
Example C146_example : plain_inter (penv0 true) (kenv0 3 4 8) cenv0 true /\ plain_inter (penv0 true) (kenv0 0 3 5) cenv0 true /\
  computePrediction (fun _ _ _ _ _ _ _ _ _ _ l => Ok l) (fun p x y w h r c l => Ok (PCall p x y w h r c :: l)) (penv0 true) (kenv0 3 4 8) cenv0 [] = Ok [PCall 2 16 8 4 4 4 8; PCall 1 16 8 4 4 4 8; PCall 0 32 16 8 8 4 8] /\
  computePrediction (fun _ _ _ _ _ _ _ _ _ _ l => Ok l) (fun p x y w h r c l => Ok (PCall p x y w h r c :: l)) (penv0 true) (kenv0 0 3 5) cenv0 [] = Ok [PCall 2 8 4 2 2 2 4; PCall 1 8 4 2 2 2 4; PCall 0 20 12 4 4 3 5] /\
  std_plane true 0 3 5 1 false = [PCall 1 8 4 2 2 2 4; PCall 1 10 4 2 2 2 5; PCall 1 8 6 2 2 3 4; PCall 1 10 6 2 2 3 5].
Proof. split; [apply plain0; cbn; auto|]. split; [apply plain0; cbn; auto|]. vm_compute. auto. Qed.
