(** Proofs about the CDEF direction search. *)
From Verif Require Import GoBase Bitstream BitstreamProofs Util UtilProofs Constants Tables Frame Cdef SpecCdef.

(** Loops as folds. *)
Fixpoint rfold {A B} (f : A -> B -> res B) (l : list A) (b : B) : res B :=
  match l with [] => Ok b | a :: l => let! b := f a b in rfold f l b end.
Lemma rfold_app {A B} (f : A -> B -> res B) l1 : forall l2 b, rfold f (l1 ++ l2) b = let! b := rfold f l1 b in rfold f l2 b.
Proof. induction l1; intros; cbn [app rfold rbind]; [reflexivity|]. destruct (f a b); cbn [rbind]; auto. Qed.
Lemma rfold_map {A B C} (g : A -> C) (f : C -> B -> res B) l : forall b, rfold f (map g l) b = rfold (fun a => f (g a)) l b.
Proof. induction l; intros; cbn [map rfold]; [reflexivity|]. destruct (f (g a) b); cbn [rbind]; auto. Qed.
Lemma rfold_flat_map {A B C} (g : A -> list C) (f : C -> B -> res B) l : forall b, rfold f (flat_map g l) b = rfold (fun a b => rfold f (g a) b) l b.
Proof. induction l; intros; cbn [flat_map rfold]; [reflexivity|]. rewrite rfold_app. destruct (rfold f (g a) b); cbn [rbind]; auto. Qed.
Lemma rfold_ext {A B} (f g : A -> B -> res B) l : (forall a b, f a b = g a b) -> forall b, rfold f l b = rfold g l b.
Proof. intros H. induction l; intros; cbn [rfold]; [reflexivity|]. rewrite H. destruct (g a b); cbn [rbind]; auto. Qed.
Definition eight : list Z := [0;1;2;3;4;5;6;7].
Lemma rfor8 {B} (f : Z -> B -> res B) b : rfor_to 0 8 f b = rfold f eight b.
Proof. reflexivity. Qed.

(** A table of 8 rows and 15 columns given by a function. *)
Definition fifteen : list Z := [0;1;2;3;4;5;6;7;8;9;10;11;12;13;14].
Definition tab (F : Z -> Z -> Z) : list (list Z) := map (fun d => map (F d) fifteen) eight.

Lemma eight_cases (P : Z -> Prop) : P 0 -> P 1 -> P 2 -> P 3 -> P 4 -> P 5 -> P 6 -> P 7 -> forall d, 0 <= d < 8 -> P d.
Proof. intros. assert (D : d = 0 \/ d = 1 \/ d = 2 \/ d = 3 \/ d = 4 \/ d = 5 \/ d = 6 \/ d = 7) by lia. destruct D as [->|[->|[->|[->|[->|[->|[->| ->]]]]]]]; assumption. Qed.
Lemma fifteen_cases (P : Z -> Prop) : P 0 -> P 1 -> P 2 -> P 3 -> P 4 -> P 5 -> P 6 -> P 7 -> P 8 -> P 9 -> P 10 -> P 11 -> P 12 -> P 13 -> P 14 -> forall d, 0 <= d < 15 -> P d.
Proof.
  intros. assert (D : d = 0 \/ d = 1 \/ d = 2 \/ d = 3 \/ d = 4 \/ d = 5 \/ d = 6 \/ d = 7 \/ d = 8 \/ d = 9 \/ d = 10 \/ d = 11 \/ d = 12 \/ d = 13 \/ d = 14) by lia.
  repeat (destruct D as [->|D]; [assumption|]). subst; assumption.
Qed.

Lemma accum_tab F d k x : 0 <= d < 8 -> 0 <= k < 15 -> accum (tab F) d k x = Ok (tab (fun d' k' => if (d' =? d) && (k' =? k) then F d' k' + x else F d' k')).
Proof.
  intros Hd Hk. revert d Hd. apply (fifteen_cases (fun k => forall d, 0 <= d < 8 -> accum (tab F) d k x = Ok (tab (fun d' k' => if (d' =? d) && (k' =? k) then F d' k' + x else F d' k')))); [..|exact Hk];
    (apply eight_cases; reflexivity).
Qed.

Lemma tab_ext F G : (forall d k, In d eight -> In k fifteen -> F d k = G d k) -> tab F = tab G.
Proof. intros H. unfold tab. apply map_ext_in. intros d Hd. apply map_ext_in. intros k Hk. auto. Qed.

Definition addline (i j x : Z) (F : Z -> Z -> Z) (d k : Z) : Z := if line d i j =? k then F d k + x else F d k.

Lemma quot2 j : 0 <= j -> Z.quot j 2 = j / 2.
Proof. intros. apply Z.quot_div_nonneg; lia. Qed.

Lemma accum8 F i j x : 0 <= i < 8 -> 0 <= j < 8 ->
  (let! p := accum (tab F) 0 (i + j) x in
   let! p := accum p 1 (i + Z.quot j 2) x in
   let! p := accum p 2 i x in
   let! p := accum p 3 (3 + i - Z.quot j 2) x in
   let! p := accum p 4 (7 + i - j) x in
   let! p := accum p 5 (3 - Z.quot i 2 + j) x in
   let! p := accum p 6 j x in
   accum p 7 (Z.quot i 2 + j) x) = Ok (tab (addline i j x F)).
Proof.
  intros Hi Hj. rewrite !quot2 by lia. pose proof (Z.div_mod i 2 ltac:(lia)). pose proof (Z.mod_pos_bound i 2 ltac:(lia)). pose proof (Z.div_mod j 2 ltac:(lia)). pose proof (Z.mod_pos_bound j 2 ltac:(lia)).
  rewrite accum_tab by lia. cbn [rbind]. rewrite accum_tab by lia. cbn [rbind]. rewrite accum_tab by lia. cbn [rbind]. rewrite accum_tab by lia. cbn [rbind].
  rewrite accum_tab by lia. cbn [rbind]. rewrite accum_tab by lia. cbn [rbind]. rewrite accum_tab by lia. cbn [rbind]. rewrite accum_tab by lia. f_equal.
  apply tab_ext. intros d k Hd Hk. unfold eight in Hd. cbn [In] in Hd. unfold addline.
  destruct Hd as [<-|[<-|[<-|[<-|[<-|[<-|[<-|[<-|[]]]]]]]]]; cbn [Z.eqb Pos.eqb andb]; unfold line; cbn [Z.to_nat Pos.to_nat Pos.iter_op nth Init.Nat.add]; (rewrite Z.eqb_sym; reflexivity).
Qed.

Fixpoint addlines (X : Z -> Z -> Z) (l : list (Z * Z)) (F : Z -> Z -> Z) : Z -> Z -> Z :=
  match l with [] => F | p :: l => addlines X l (addline (fst p) (snd p) (X (fst p) (snd p)) F) end.
Lemma addlines_sum X l : forall F d k, addlines X l F d k = F d k + zsum (map (fun p => X (fst p) (snd p)) (filter (fun p => line d (fst p) (snd p) =? k) l)).
Proof.
  induction l as [|[i j] l IH]; intros; cbn [addlines filter map]; [cbn; lia|]. rewrite IH. unfold addline. cbn [fst snd]. destruct (line d i j =? k); cbn [map zsum fold_right fst snd]; unfold zsum; lia.
Qed.

Lemma positions_range p : In p positions -> 0 <= fst p < 8 /\ 0 <= snd p < 8.
Proof.
  unfold positions. rewrite in_flat_map. intros (i & Hi & Hp). rewrite in_map_iff in Hp. destruct Hp as (j & <- & Hj). cbn [fst snd].
  cbn [In] in Hi, Hj. lia.
Qed.

Lemma partials_ok e f x0 y0 X : (forall i j, 0 <= i < 8 -> 0 <= j < 8 -> exists s, idx3 f 0 (y0 + i) (x0 + j) = Ok s /\ X i j = shr s (cBitDepth e - 8) - 128) ->
  cdefPartials e f x0 y0 = Ok (tab (line_sum X)).
Proof.
  intros HX. unfold cdefPartials. rewrite rfor8.
  set (body := cdefPixel e f x0 y0).
  assert (E : rfold (fun i p => rfor_to 0 8 (body i) p) eight (repeat (repeat 0 15) 8) = rfold (fun q p => body (fst q) (snd q) p) positions (tab (fun _ _ => 0))).
  { unfold positions. rewrite rfold_flat_map. apply rfold_ext. intros i b. rewrite rfor8. unfold eight. rewrite (rfold_map (fun j => (i, j)) (fun q p => body (fst q) (snd q) p)). reflexivity. }
  change (rfold (fun i p => rfor_to 0 8 (body i) p) eight (repeat (repeat 0 15) 8) = Ok (tab (line_sum X))). rewrite E. clear E.
  assert (G : forall l F, (forall p, In p l -> 0 <= fst p < 8 /\ 0 <= snd p < 8) -> rfold (fun q p => body (fst q) (snd q) p) l (tab F) = Ok (tab (addlines X l F))).
  { induction l as [|[i j] l IH]; intros F HF; [reflexivity|]. cbn [rfold addlines fst snd]. destruct (HF (i, j) (or_introl eq_refl)) as [Hi Hj]. cbn [fst snd] in Hi, Hj.
    unfold body at 1, cdefPixel. destruct (HX i j Hi Hj) as (s & -> & Hs). cbn [rbind]. cbv zeta. rewrite <- Hs. rewrite accum8 by assumption. cbn [rbind]. apply IH. intros; apply HF; right; assumption. }
  rewrite (G positions); [|apply positions_range]. f_equal. apply tab_ext. intros. rewrite addlines_sum. unfold line_sum. lia.
Qed.

Ltac zlit := repeat match goal with
  | |- context [?a + ?b] => is_ground a; is_ground b; match a with Z0 => idtac | Zpos _ => idtac | Zneg _ => idtac end; match b with Z0 => idtac | Zpos _ => idtac | Zneg _ => idtac end; let v := eval vm_compute in (a + b) in change (a + b) with v
  | |- context [?a - ?b] => is_ground a; is_ground b; match a with Z0 => idtac | Zpos _ => idtac | Zneg _ => idtac end; match b with Z0 => idtac | Zpos _ => idtac | Zneg _ => idtac end; let v := eval vm_compute in (a - b) in change (a - b) with v
  | |- context [?a * ?b] => is_ground a; is_ground b; match a with Z0 => idtac | Zpos _ => idtac | Zneg _ => idtac end; match b with Z0 => idtac | Zpos _ => idtac | Zneg _ => idtac end; let v := eval vm_compute in (a * b) in change (a * b) with v
  end.


Lemma costs_tab (F : Z -> Z -> Z) : cdefCosts (tab F) = Ok (map (fun d => zsum (map (fun k => F d k * F d k * (840 / line_len d k)) fifteen)) eight).
Proof.
  unfold cdefCosts, rfor_to. change (Z.to_nat (8 - 0)) with 8%nat. change (Z.to_nat (7 - 0)) with 7%nat. change (Z.to_nat (4 - 0)) with 4%nat. change (Z.to_nat (5 - 0)) with 5%nat. change (Z.to_nat (3 - 0)) with 3%nat.
  cbn [rfor_from]. cbv beta zeta. zlit.
  etransitivity; [cbv -[Z.add Z.mul]; reflexivity|]. f_equal. unfold eight, fifteen. cbn [map].
  repeat match goal with |- context [840 / line_len ?a ?b] => let v := eval vm_compute in (840 / line_len a b) in change (840 / line_len a b) with v end.
  unfold zsum. cbn [fold_right].
  repeat (apply (f_equal2 (@cons Z)); [ring|]). reflexivity.
Qed.

Lemma direction_cost_nonneg X d : 0 <= direction_cost X d.
Proof.
  unfold direction_cost, zsum. assert (forall l, (forall v, In v l -> 0 <= v) -> 0 <= fold_right Z.add 0 l).
  { induction l as [|a l IH]; intros H; cbn [fold_right]; [lia|]. pose proof (H a (or_introl eq_refl)). assert (0 <= fold_right Z.add 0 l) by (apply IH; intros; apply H; right; assumption). lia. }
  apply H. intros v Hv. apply in_map_iff in Hv as (k & <- & _). apply Z.mul_nonneg_nonneg; [apply Z.square_nonneg|].
  unfold line_len. destruct (length _); [vm_compute; congruence|]. apply Z.div_pos; lia.
Qed.

(** The first largest element of a list of 8 non-negative costs. *)
Lemma best_ok c : length c = 8%nat -> Forall (fun v => 0 <= v) c -> exists d, cdefBest c = Ok (d, shr (nth (Z.to_nat d) c 0 - nth (Z.to_nat ((d + 4) mod 8)) c 0) 10) /\
  0 <= d < 8 /\ (forall i, 0 <= i < 8 -> nth (Z.to_nat i) c 0 <= nth (Z.to_nat d) c 0) /\ (forall i, 0 <= i < d -> nth (Z.to_nat i) c 0 < nth (Z.to_nat d) c 0).
Proof.
  intros HL HF. assert (NN : forall i, 0 <= nth i c 0).
  { intros i. destruct (Nat.ltb_spec i (length c)); [|rewrite nth_overflow by lia; lia]. rewrite Forall_forall in HF. apply HF, nth_In; assumption. }
  unfold cdefBest, rfor_to.
  destruct (rfor_from_inv (fun i b => let '(best, d) := b in 0 <= d < 8 /\ (forall m, 0 <= m < i -> nth (Z.to_nat m) c 0 <= best) /\ (forall m, 0 <= m < d -> nth (Z.to_nat m) c 0 < best) /\
      ((best = 0 /\ d = 0) \/ best = nth (Z.to_nat d) c 0)) (Z.to_nat (8 - 0)) 0
    (fun i b => let '(bestCost, yDir) := b in let! c := idx c i in Ok (if bestCost <? c then (c, i) else (bestCost, yDir))) (0, 0)) as ([best d] & E & P).
  - repeat split; try lia. 
  - intros j [best d] Hj (A & B & C & D). change (Z.of_nat (Z.to_nat (8 - 0))) with 8 in Hj. rewrite (idx_ok c j 0) by (unfold zlen; lia). cbn [rbind]. eexists. split; [reflexivity|].
    destruct (Z.ltb_spec best (nth (Z.to_nat j) c 0)) as [L|L].
    + repeat split; try lia; try (right; reflexivity).
      * intros m Hm. destruct (Z.eq_dec m j) as [->|]; [lia|]. specialize (B m ltac:(lia)). lia.
      * intros m Hm. specialize (B m ltac:(lia)). lia.
    + repeat split; try lia; auto. intros m Hm. destruct (Z.eq_dec m j) as [->|]; [lia|]. apply B. lia.
  - rewrite E. cbn [rbind]. change (0 + Z.of_nat (Z.to_nat (8 - 0))) with 8 in P. destruct P as (A & B & C & D).
    assert (BB : best = nth (Z.to_nat d) c 0).
    { destruct D as [[-> ->]|D]; [|exact D]. pose proof (NN (Z.to_nat 0)). pose proof (B 0 ltac:(lia)). lia. }
    subst best. exists d. assert (L7 : Z.land (d + 4) 7 = (d + 4) mod 8) by (change 7 with (Z.ones 3); rewrite Z.land_ones by lia; reflexivity). rewrite L7.
    pose proof (Z.mod_pos_bound (d + 4) 8 ltac:(lia)). rewrite (idx_ok c ((d + 4) mod 8) 0) by (unfold zlen; lia). cbn [rbind]. auto.
Qed.

Lemma nth_eight (f : Z -> Z) i : 0 <= i < 8 -> nth (Z.to_nat i) (map f eight) 0 = f i.
Proof. revert i. apply eight_cases; reflexivity. Qed.

Lemma direction_ok e f r c X : 0 <= r < 2 ^ 32 -> 0 <= c < 2 ^ 32 ->
  (forall i j, 0 <= i < 8 -> 0 <= j < 8 -> exists s, idx3 f 0 (4 * r + i) (4 * c + j) = Ok s /\ X i j = s / 2 ^ (cBitDepth e - 8) - 128) -> 8 <= cBitDepth e ->
  exists d, cdefDirection e f r c = Ok (d, (direction_cost X d - direction_cost X ((d + 4) mod 8)) / 1024) /\
    0 <= d < 8 /\ (forall i, 0 <= i < 8 -> direction_cost X i <= direction_cost X d) /\ (forall i, 0 <= i < d -> direction_cost X i < direction_cost X d).
Proof.
  intros Hr Hc HX Hb. unfold cdefDirection. change (2 ^ 32) with 4294967296 in *. change MI_SIZE_LOG2 with 2. rewrite !shl_small by (change (2 ^ 2) with 4; change (2 ^ 63) with 9223372036854775808; lia).
  change (2 ^ 2) with 4. rewrite (Z.mul_comm c), (Z.mul_comm r). rewrite (partials_ok e f _ _ X).
  2: { intros i j Hi Hj. destruct (HX i j Hi Hj) as (s & A & B). exists s. split; [exact A|]. rewrite shr_div by lia. exact B. }
  cbn [rbind]. rewrite costs_tab. cbn [rbind].
  assert (FN : Forall (fun v => 0 <= v) (map (direction_cost X) eight)) by (apply Forall_forall; intros v Hv; apply in_map_iff in Hv as (d & <- & _); apply direction_cost_nonneg).
  destruct (best_ok (map (direction_cost X) eight) eq_refl FN) as (d & E & Hd & A & B).
  exists d. pose proof (Z.mod_pos_bound (d + 4) 8 ltac:(lia)). rewrite !nth_eight in E by lia. rewrite shr_div in E by lia. change (2 ^ 10) with 1024 in E.
  split; [exact E|]. split; [exact Hd|]. split; intros i Hi; [specialize (A i Hi); rewrite !nth_eight in A by lia; exact A|specialize (B i Hi); rewrite !nth_eight in B by lia; exact B].
Qed.
