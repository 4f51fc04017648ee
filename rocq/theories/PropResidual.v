(** Properties C130-C136: the residual of a block. *)
From Coq Require Import Sorting.Sorted.
From Verif Require Import GoBase Util UtilProofs Constants Tables Frame LoopFilter SymbolProofs Writes SpecCoeffs SpecPartition SpecBlock Residual SpecResidual.
Local Open Scope Z_scope.

(** ** Lists of calls *)
Lemma each_app {A B} (f : A -> B -> res B) l m b : each f (l ++ m) b = let! b := each f l b in each f m b.
Proof. revert b. induction l as [|x l IH]; intros b; cbn [app each]; [reflexivity|]. destruct (f x b); cbn [rbind]; auto. Qed.
Lemma each_flat {A B C} (g : C -> list A) (f : A -> B -> res B) l b : each (fun c b => each f (g c) b) l b = each f (flat_map g l) b.
Proof. revert b. induction l as [|x l IH]; intros b; cbn [each flat_map]; [reflexivity|]. rewrite each_app. destruct (each f (g x) b); cbn [rbind]; auto. Qed.
Lemma each_map {A B C} (g : C -> A) (f : A -> B -> res B) l b : each (fun c b => f (g c) b) l b = each f (map g l) b.
Proof. revert b. induction l as [|x l IH]; intros b; cbn [each map]; [reflexivity|]. destruct (f (g x) b); cbn [rbind]; auto. Qed.
Lemma each_ext {A B} (f g : A -> B -> res B) l b : (forall x b, f x b = g x b) -> each f l b = each g l b.
Proof. intros H. revert b. induction l as [|x l IH]; intros b; cbn [each]; [reflexivity|]. rewrite H. destruct (g x b); cbn [rbind]; auto. Qed.
(** the values of a loop variable: k of them, from i, st apart *)
Fixpoint steps (k : nat) (i st : Z) : list Z := match k with O => [] | S k => i :: steps k (i + st) st end.
Lemma rstep_each {A} (f : Z -> A -> res A) st : 0 < st -> forall k fuel i n a, (k < fuel)%nat -> n = i + Z.of_nat k * st -> rstep fuel i n st f a = each f (steps k i st) a.
Proof.
  intros Hs. induction k as [|k IH]; intros fuel i n a Hf ->; (destruct fuel as [|fuel]; [lia|]); cbn [rstep steps each].
  - destruct (Z.ltb_spec i (i + Z.of_nat 0 * st)); [lia|reflexivity].
  - destruct (Z.ltb_spec i (i + Z.of_nat (S k) * st)); [|nia]. destruct (f i a); cbn [rbind]; try reflexivity. apply IH; lia.
Qed.
Lemma times_app {A} (p : A -> bool) l m : times p (l ++ m) = times p l + times p m.
Proof. unfold times. rewrite filter_app, app_length. lia. Qed.
Lemma times_none {A} (p : A -> bool) l : (forall x, In x l -> p x = false) -> times p l = 0.
Proof. unfold times. induction l as [|x l IH]; intros H; [reflexivity|]. cbn [filter]. rewrite (H x (or_introl eq_refl)). apply IH. intros y Hy. apply H. now right. Qed.
Lemma times_map {A B} (g : A -> B) p l : times p (map g l) = times (fun x => p (g x)) l.
Proof. unfold times. induction l as [|x l IH]; [reflexivity|]. cbn [map filter]. destruct (p (g x)); cbn [length]; lia. Qed.
Lemma times_ext {A} (p q : A -> bool) l : (forall x, p x = q x) -> times p l = times q l.
Proof. intros H. unfold times. rewrite (filter_ext _ _ H). reflexivity. Qed.
Lemma times_nonneg {A} (p : A -> bool) l : 0 <= times p l.
Proof. unfold times. lia. Qed.
Lemma times_product {A B C} (g : A -> B -> C) p px py (ys : list A) (xs : list B) : (forall y x, p (g y x) = px x && py y) -> times p (flat_map (fun y => map (g y) xs) ys) = times px xs * times py ys.
Proof.
  intros H. induction ys as [|y ys IH]; cbn [flat_map]; [unfold times; cbn; lia|]. rewrite times_app, IH, times_map. rewrite (times_ext _ (fun x => px x && py y)) by (intros; apply H).
  change (y :: ys) with ([y] ++ ys). rewrite (times_app py). assert (E : times py [y] = if py y then 1 else 0) by (unfold times; cbn [filter]; destruct (py y); reflexivity). rewrite E. destruct (py y).
  - rewrite (times_ext _ px) by (intros; apply andb_true_r). lia.
  - rewrite times_none by (intros; apply andb_false_r). lia.
Qed.
(** a value lies in exactly one step *)
Lemma times_steps st X : 0 < st -> forall k i, times (fun x => (x <=? X) && (X <? x + st)) (steps k i st) = if (i <=? X) && (X <? i + Z.of_nat k * st) then 1 else 0.
Proof.
  intros Hs. induction k as [|k IH]; intros i; cbn [steps].
  - destruct (Z.leb_spec i X), (Z.ltb_spec X (i + Z.of_nat 0 * st)); cbn [andb]; try reflexivity. lia.
  - change (i :: steps k (i + st) st) with ([i] ++ steps k (i + st) st). rewrite times_app, IH. unfold times. cbn [filter]. replace (i + Z.of_nat (S k) * st) with (i + st + Z.of_nat k * st) by lia.
    destruct (Z.leb_spec i X), (Z.ltb_spec X (i + st)), (Z.leb_spec (i + st) X), (Z.ltb_spec X (i + st + Z.of_nat k * st)); cbn [andb length]; nia.
Qed.
Lemma steps_in k : forall i st x, In x (steps k i st) -> 0 < st -> i <= x < i + Z.of_nat k * st.
Proof. induction k as [|k IH]; intros i st x; cbn [steps In]; [tauto|]. intros [<-|H] Hs; [nia|]. apply IH in H; [nia|exact Hs]. Qed.
Lemma steps_sorted k : forall i st, 0 < st -> StronglySorted Z.lt (steps k i st).
Proof. induction k as [|k IH]; intros i st Hs; cbn [steps]; constructor; [apply IH, Hs|]. apply Forall_forall. intros x Hx. apply steps_in in Hx; lia. Qed.
Lemma sorted_app {A} (R : A -> A -> Prop) l m : StronglySorted R l -> StronglySorted R m -> (forall a b, In a l -> In b m -> R a b) -> StronglySorted R (l ++ m).
Proof.
  induction 1 as [|x l HS IH HF]; intros Hm H; cbn [app]; [exact Hm|]. constructor; [apply IH; [exact Hm|]; intros a b Ha Hb; apply H; [now right|exact Hb]|].
  apply Forall_app. split; [exact HF|]. apply Forall_forall. intros b Hb. apply H; [now left|exact Hb].
Qed.
Lemma sorted_map {A B} (R : A -> A -> Prop) (Q : B -> B -> Prop) (g : A -> B) l : (forall a b, R a b -> Q (g a) (g b)) -> StronglySorted R l -> StronglySorted Q (map g l).
Proof. intros H. induction 1 as [|x l HS IH HF]; cbn [map]; constructor; [exact IH|]. rewrite Forall_map. revert HF. apply Forall_impl. auto. Qed.
Lemma sorted_flat {A B} (R : A -> A -> Prop) (Q : B -> B -> Prop) (g : A -> list B) l : (forall a, In a l -> StronglySorted Q (g a)) -> (forall a b, R a b -> forall x y, In x (g a) -> In y (g b) -> Q x y) -> StronglySorted R l -> StronglySorted Q (flat_map g l).
Proof.
  intros H1 H2. induction 1 as [|x l HS IH HF]; cbn [flat_map]; [constructor|]. apply sorted_app; [apply H1; now left|apply IH; intros a Ha; apply H1; now right|].
  intros a b Ha Hb. apply in_flat_map in Hb as (y & Hy & Hb). rewrite Forall_forall in HF. eapply H2; [apply HF, Hy|exact Ha|exact Hb].
Qed.

(** ** Tables *)
Lemma tx_facts t : 0 <= t < 19 -> idx Tx_Width t = Ok (tx_w t) /\ idx Tx_Height t = Ok (tx_h t) /\ idx TX_WIDTH_LOG2 t = Ok (Z.log2 (tx_w t)) /\ idx TX_HEIGHT_LOG2 t = Ok (Z.log2 (tx_h t)) /\
  shr (tx_w t) 2 = tx_w t / 4 /\ shr (tx_h t) 2 = tx_h t / 4 /\ tx_w t = 4 * (tx_w t / 4) /\ tx_h t = 4 * (tx_h t / 4) /\ 1 <= tx_w t / 4 <= 16 /\ 1 <= tx_h t / 4 <= 16.
Proof.
  intros H. assert (K : In t (map Z.of_nat (seq 0 19))) by (apply in_map_iff; exists (Z.to_nat t); split; [lia|apply in_seq; lia]). cbn [seq map In] in K.
  repeat (destruct K as [<-|K]; [repeat split; vm_compute; congruence|]). contradiction.
Qed.
(** ** C135: transform sizes of chroma planes and of the leaves of trees *)
Theorem C135_uv_size : forall sub b plane luma, 0 <= b < 22 -> 0 <= plane < 3 -> exists t, getTxSize sub sub b plane luma = Ok t /\
  (plane = 0 -> t = luma) /\ (plane <> 0 -> 0 <= t < 19 /\ (tx_w t, tx_h t) = uv_tx sub b).
Proof.
  intros sub b plane luma H Hp. destruct (Z.eq_dec plane 0) as [->|N]; [exists luma; split; [reflexivity|split; [reflexivity|lia]]|].
  assert (K : In b (map Z.of_nat (seq 0 22))) by (apply in_map_iff; exists (Z.to_nat b); split; [lia|apply in_seq; lia]). cbn [seq map In] in K.
  assert (P : plane = 1 \/ plane = 2) by lia.
  destruct P as [-> | ->]; destruct sub; repeat (destruct K as [<-|K]; [eexists; split; [vm_compute; reflexivity|]; split; [congruence|]; intros _; split; [lia|vm_compute; reflexivity]|]); contradiction.
Qed.
Print Assumptions C135_uv_size.
(** with chroma subsampled in x only; the standard does not allow blocks higher than wide then *)
Theorem C135_uv_size_422 : forall b plane luma, 0 <= b < 22 -> bsize_h b <= bsize_w b -> 0 < plane < 3 -> exists t, getTxSize true false b plane luma = Ok t /\
  0 <= t < 19 /\ tx_w t = Z.min 32 (chroma_side (bsize_w b) true) /\ tx_h t = Z.min 32 (chroma_side (bsize_h b) false).
Proof.
  intros b plane luma H HW Hp. assert (K : In b (map Z.of_nat (seq 0 22))) by (apply in_map_iff; exists (Z.to_nat b); split; [lia|apply in_seq; lia]). cbn [seq map In] in K.
  assert (P : plane = 1 \/ plane = 2) by lia.
  destruct P as [-> | ->]; repeat (destruct K as [<-|K]; [first [exfalso; vm_compute in HW; apply HW; reflexivity|eexists; split; [vm_compute; reflexivity|]; split; [lia|split; vm_compute; reflexivity]]|]); contradiction.
Qed.
Print Assumptions C135_uv_size_422.
Definition tx_side (v : Z) : Prop := In v [4; 8; 16; 32; 64].
Theorem C135_find : forall w h, tx_side w -> tx_side h -> w <= 4 * h -> h <= 4 * w -> exists t, findTxSize w h = Ok t /\ 0 <= t < 19 /\ tx_w t = w /\ tx_h t = h.
Proof.
  intros w h Hw Hh A B. unfold tx_side in *. cbn [In] in *.
  repeat (destruct Hw as [<-|Hw]; [repeat (destruct Hh as [<-|Hh]; [first [exfalso; lia|eexists; split; [vm_compute; reflexivity|]; split; [lia|split; vm_compute; reflexivity]]|]); contradiction|]). contradiction.
Qed.
Print Assumptions C135_find.
Example C135_case : getTxSize true true 12 1 4 = Ok 3 /\ uv_tx true 12 = (32, 32) /\ getTxSize true true 0 2 0 = Ok 0 /\ findTxSize 16 64 = Ok 17.
Proof. vm_compute. repeat split. Qed.
Lemma size_facts sub b plane : 0 <= b < 22 -> 0 <= plane < 3 -> exists ps, getPlaneResidualSize sub sub b plane = Ok ps /\ idx NUM_4X4_BLOCKS_WIDE ps = Ok (extent plane sub (bsize_w b) / 4) /\ idx NUM_4X4_BLOCKS_HIGH ps = Ok (extent plane sub (bsize_h b) / 4) /\
  extent plane sub (bsize_w b) = 4 * (extent plane sub (bsize_w b) / 4) /\ extent plane sub (bsize_h b) = 4 * (extent plane sub (bsize_h b) / 4) /\ 1 <= extent plane sub (bsize_w b) / 4 <= 32 /\ 1 <= extent plane sub (bsize_h b) / 4 <= 32.
Proof.
  intros H Hp. assert (K : In b (map Z.of_nat (seq 0 22))) by (apply in_map_iff; exists (Z.to_nat b); split; [lia|apply in_seq; lia]). cbn [seq map In] in K.
  assert (P : plane = 0 \/ plane = 1 \/ plane = 2) by lia.
  destruct P as [-> | [-> | ->]]; destruct sub; repeat (destruct K as [<-|K]; [eexists; split; [vm_compute; reflexivity|]; repeat split; vm_compute; congruence|]); contradiction.
Qed.
Lemma uv_divides sub b plane : 0 <= b < 22 -> 0 < plane < 3 -> (fst (uv_tx sub b) / 4 | extent plane sub (bsize_w b) / 4) /\ (snd (uv_tx sub b) / 4 | extent plane sub (bsize_h b) / 4).
Proof.
  intros H Hp. unfold uv_tx, extent. destruct (Z.ltb_spec 0 plane); [|lia]. cbn [fst snd]. assert (K : In b (map Z.of_nat (seq 0 22))) by (apply in_map_iff; exists (Z.to_nat b); split; [lia|apply in_seq; lia]). cbn [seq map In] in K.
  destruct sub; repeat (destruct K as [<-|K]; [split; (apply Z.mod_divide; [let X := fresh in intro X; vm_compute in X; discriminate X|vm_compute; reflexivity])|]); contradiction.
Qed.

(** ** C130: the transform blocks of a block *)
(** planes one after the other, rows, columns *)
Definition raster (c d : call) : Prop := cPlane c < cPlane d \/ cPlane c = cPlane d /\ (top_of c < top_of d \/ top_of c = top_of d /\ left_of c < left_of d).
Definition residual_ok (e : REnv) : Prop := 0 <= rSize e < 22 /\ 0 <= rRow e < 2 ^ 30 /\ 0 <= rCol e < 2 ^ 30 /\ rSubX e = rSubY e /\
  (rLossless e = false -> 0 <= rTx e < 19 /\ (tx_w (rTx e) | bsize_w (rSize e)) /\ (tx_h (rTx e) | bsize_h (rSize e))).
Definition planes_of (e : REnv) : Z := if rChroma e then 3 else 1.
Definition do_call {A} (tb : Z -> Z -> Z -> Z -> Z -> Z -> A -> res A) (c : call) : A -> res A := tb (cPlane c) (cX c) (cY c) (cTx c) (cOffX c) (cOffY c).
(** the calls of a plane: ny rows of nx, ty and tx units apart *)
Definition plane_calls (e : REnv) (plane t : Z) (nx ny : nat) : list call :=
  flat_map (fun y => map (fun x => Call plane (corner plane (rSubX e) (rCol e)) (corner plane (rSubX e) (rRow e)) t x y) (steps nx 0 (tx_w t / 4))) (steps ny 0 (tx_h t / 4)).
Definition in_area (e : REnv) (p X Y : Z) : bool :=
  (corner p (rSubX e) (rCol e) <=? X) && (X <? corner p (rSubX e) (rCol e) + extent p (rSubX e) (bsize_w (rSize e))) &&
  (corner p (rSubY e) (rRow e) <=? Y) && (Y <? corner p (rSubY e) (rRow e) + extent p (rSubY e) (bsize_h (rSize e))).
Lemma corner_shr plane (sub : bool) mi : 0 <= mi -> shr mi (if 0 <? plane then int_of sub else 0) * MI_SIZE = corner plane sub mi.
Proof. intros H. unfold corner, int_of, MI_SIZE. destruct (0 <? plane); [destruct sub|]; cbn [andb]; rewrite shr_div by lia; [reflexivity|rewrite Z.pow_0_r, Z.div_1_r; reflexivity..]. Qed.
Lemma divide_count (w t : Z) : 0 < t / 4 -> 0 <= w / 4 -> (t / 4 | w / 4) -> exists n : nat, w / 4 = Z.of_nat n * (t / 4).
Proof. intros H1 H2 [k Hk]. exists (Z.to_nat k). rewrite Z2Nat.id; nia. Qed.
Lemma plane_calls_ok e plane : residual_ok e -> 0 <= plane < 3 -> (plane = 0 -> rInter e = false \/ rLossless e = true) -> exists t nx ny, 0 <= t < 19 /\
  extent plane (rSubX e) (bsize_w (rSize e)) / 4 = Z.of_nat nx * (tx_w t / 4) /\ extent plane (rSubX e) (bsize_h (rSize e)) / 4 = Z.of_nat ny * (tx_h t / 4) /\
  forall A (tb : Z -> Z -> Z -> Z -> Z -> Z -> A -> res A) a, residualPlane tb e (rSize e) 0 0 plane a = each (do_call tb) (plane_calls e plane t nx ny) a.
Proof.
  intros (H1 & H2 & H3 & H4 & H5) Hp HI. set (sub := rSubX e) in *.
  destruct (size_facts sub (rSize e) plane H1 Hp) as (ps & E1 & E2 & E3 & W4 & Hh4 & RW & RH).
  assert (T : exists t, (if rLossless e then Ok TX_4X4 else getTxSize sub sub (rSize e) plane (rTx e)) = Ok t /\ 0 <= t < 19 /\ (tx_w t / 4 | extent plane sub (bsize_w (rSize e)) / 4) /\ (tx_h t / 4 | extent plane sub (bsize_h (rSize e)) / 4)).
  { destruct (rLossless e); [exists 0; split; [reflexivity|split; [lia|split; apply Z.divide_1_l]]|].
    destruct (C135_uv_size sub (rSize e) plane (rTx e) H1 Hp) as (t & Et & T0 & T1). exists t. split; [exact Et|]. destruct (Z.eq_dec plane 0) as [->|N].
    - rewrite (T0 eq_refl). destruct (H5 eq_refl) as (A & B & C). split; [exact A|]. destruct (tx_facts _ A) as (_ & _ & _ & _ & _ & _ & D1 & D2 & D3 & D4). unfold extent in *. change (0 <? 0) with false in *. cbv iota in *.
      rewrite D1, W4 in B. rewrite D2, Hh4 in C. split; [exact (proj1 (Z.mul_divide_cancel_l _ _ 4 ltac:(discriminate)) B)|exact (proj1 (Z.mul_divide_cancel_l _ _ 4 ltac:(discriminate)) C)].
    - destruct (T1 N) as [A B]. split; [exact A|]. destruct (uv_divides sub (rSize e) plane H1 ltac:(lia)) as [C D]. rewrite <- B in C, D. auto. }
  destruct T as (t & Et & Rt & D1 & D2). destruct (tx_facts t Rt) as (F1 & F2 & _ & _ & F5 & F6 & F7 & F8 & F9 & F10).
  destruct (divide_count (extent plane sub (bsize_w (rSize e))) (tx_w t) ltac:(lia) ltac:(lia) D1) as (nx & Nx). destruct (divide_count (extent plane sub (bsize_h (rSize e))) (tx_h t) ltac:(lia) ltac:(lia) D2) as (ny & Ny).
  exists t, nx, ny. split; [exact Rt|]. split; [exact Nx|]. split; [exact Ny|]. intros A tb a. unfold residualPlane. fold sub. rewrite <- H4. fold sub. rewrite Et. cbn [rbind]. rewrite F1, F2. cbn [rbind]. rewrite E1. cbn [rbind]. rewrite E2, E3. cbn [rbind]. cbv zeta.
  assert (B : rInter e && negb (rLossless e) && (plane =? 0) = false) by (destruct (Z.eqb_spec plane 0) as [->|]; [destruct (HI eq_refl) as [-> | ->]; destruct (rInter e); reflexivity|apply andb_false_r]). rewrite B.
  change (shl 0 4) with 0. rewrite F5, F6. rewrite !corner_shr by lia. replace (shr 0 (if 0 <? plane then int_of sub else 0)) with 0 by (unfold int_of; destruct (0 <? plane), sub; reflexivity).
  assert (X : (nx <= Z.to_nat (extent plane sub (bsize_w (rSize e)) / 4))%nat) by (rewrite Nx; nia). assert (Y : (ny <= Z.to_nat (extent plane sub (bsize_h (rSize e)) / 4))%nat) by (rewrite Ny; nia).
  rewrite (rstep_each _ (tx_h t / 4) ltac:(lia) ny) by lia. unfold plane_calls. rewrite <- each_flat. apply each_ext. intros y b. rewrite (rstep_each _ (tx_w t / 4) ltac:(lia) nx) by lia. rewrite <- each_map. apply each_ext. intros x b'. unfold do_call. cbn [cPlane cX cY cTx cOffX cOffY]. rewrite !Z.add_0_r. reflexivity.
Qed.
Lemma plane_calls_in e plane t nx ny c : In c (plane_calls e plane t nx ny) -> exists x y, c = Call plane (corner plane (rSubX e) (rCol e)) (corner plane (rSubX e) (rRow e)) t x y /\ In x (steps nx 0 (tx_w t / 4)) /\ In y (steps ny 0 (tx_h t / 4)).
Proof. unfold plane_calls. intros H. apply in_flat_map in H as (y & Hy & H). apply in_map_iff in H as (x & <- & Hx). eauto. Qed.
Lemma plane_calls_other e plane t nx ny p X Y : p <> plane -> times (covers p X Y) (plane_calls e plane t nx ny) = 0.
Proof. intros N. apply times_none. intros c H. apply plane_calls_in in H as (x & y & -> & _). unfold covers. cbn [cPlane]. destruct (Z.eqb_spec plane p); [congruence|reflexivity]. Qed.
Lemma plane_calls_times e plane t nx ny X Y : residual_ok e -> 0 <= plane < 3 -> 0 <= t < 19 -> extent plane (rSubX e) (bsize_w (rSize e)) / 4 = Z.of_nat nx * (tx_w t / 4) -> extent plane (rSubX e) (bsize_h (rSize e)) / 4 = Z.of_nat ny * (tx_h t / 4) ->
  times (covers plane X Y) (plane_calls e plane t nx ny) = if in_area e plane X Y then 1 else 0.
Proof.
  intros (H1 & _ & _ & H4 & _) Hp Ht Nx Ny. destruct (size_facts (rSubX e) (rSize e) plane H1 Hp) as (_ & _ & _ & _ & W4 & Hh4 & _ & _). destruct (tx_facts t Ht) as (_ & _ & _ & _ & _ & _ & F7 & F8 & F9 & F10).
  set (x0 := corner plane (rSubX e) (rCol e)). set (y0 := corner plane (rSubX e) (rRow e)). set (tw := tx_w t / 4) in *. set (th := tx_h t / 4) in *.
  assert (MX : forall x, (x0 + 4 * x <=? X) && (X <? x0 + 4 * x + tx_w t) = (x <=? (X - x0) / 4) && ((X - x0) / 4 <? x + tw)).
  { intros x. pose proof (Z.mul_div_le (X - x0) 4 ltac:(lia)). pose proof (Z.mul_succ_div_gt (X - x0) 4 ltac:(lia)). rewrite F7. destruct (Z.leb_spec (x0 + 4 * x) X), (Z.ltb_spec X (x0 + 4 * x + 4 * tw)), (Z.leb_spec x ((X - x0) / 4)), (Z.ltb_spec ((X - x0) / 4) (x + tw)); cbn [andb]; reflexivity || lia. }
  assert (MY : forall y, (y0 + 4 * y <=? Y) && (Y <? y0 + 4 * y + tx_h t) = (y <=? (Y - y0) / 4) && ((Y - y0) / 4 <? y + th)).
  { intros y. pose proof (Z.mul_div_le (Y - y0) 4 ltac:(lia)). pose proof (Z.mul_succ_div_gt (Y - y0) 4 ltac:(lia)). rewrite F8. destruct (Z.leb_spec (y0 + 4 * y) Y), (Z.ltb_spec Y (y0 + 4 * y + 4 * th)), (Z.leb_spec y ((Y - y0) / 4)), (Z.ltb_spec ((Y - y0) / 4) (y + th)); cbn [andb]; reflexivity || lia. }
  unfold plane_calls. rewrite (times_product _ _ (fun x => (x <=? (X - x0) / 4) && ((X - x0) / 4 <? x + tw)) (fun y => (y <=? (Y - y0) / 4) && ((Y - y0) / 4 <? y + th))).
  2: { intros y x. unfold covers, left_of, top_of. cbn [cPlane cX cY cTx cOffX cOffY]. rewrite Z.eqb_refl. cbn [andb]. rewrite <- MX, <- MY. fold x0 y0. rewrite !andb_assoc. reflexivity. }
  fold tw th. rewrite !times_steps by lia. rewrite !Z.add_0_l. rewrite <- Nx, <- Ny. unfold in_area. rewrite <- H4. fold x0 y0. set (qw := extent plane (rSubX e) (bsize_w (rSize e)) / 4) in *. set (qh := extent plane (rSubX e) (bsize_h (rSize e)) / 4) in *. rewrite W4, Hh4.
  pose proof (Z.mul_div_le (X - x0) 4 ltac:(lia)). pose proof (Z.mul_succ_div_gt (X - x0) 4 ltac:(lia)). pose proof (Z.mul_div_le (Y - y0) 4 ltac:(lia)). pose proof (Z.mul_succ_div_gt (Y - y0) 4 ltac:(lia)).
  clear - H H0 H2 H3.
  destruct (Z.leb_spec 0 ((X - x0) / 4)), (Z.ltb_spec ((X - x0) / 4) qw), (Z.leb_spec 0 ((Y - y0) / 4)), (Z.ltb_spec ((Y - y0) / 4) qh), (Z.leb_spec x0 X), (Z.ltb_spec X (x0 + 4 * qw)), (Z.leb_spec y0 Y), (Z.ltb_spec Y (y0 + 4 * qh)); cbn [andb]; reflexivity || lia.
Qed.
Lemma plane_calls_sorted e plane t nx ny : 0 <= t < 19 -> StronglySorted raster (plane_calls e plane t nx ny).
Proof.
  intros Ht. destruct (tx_facts t Ht) as (_ & _ & _ & _ & _ & _ & F7 & F8 & F9 & F10). unfold plane_calls. eapply (sorted_flat Z.lt); [| |apply steps_sorted; lia].
  - intros y _. eapply (sorted_map Z.lt); [|apply steps_sorted; lia]. intros a b L. right. unfold top_of, left_of. cbn [cPlane cX cY cOffX cOffY]. lia.
  - intros a b L x y Hx Hy. apply in_map_iff in Hx as (x1 & <- & _). apply in_map_iff in Hy as (x2 & <- & _). right. unfold top_of, left_of. cbn [cPlane cX cY cOffX cOffY]. lia.
Qed.
Lemma residual_planes {A} (tb : Z -> Z -> Z -> Z -> Z -> Z -> A -> res A) e a : 0 <= rSize e < 22 -> residual tb e a = rfor_to 0 (planes_of e) (fun plane a => residualPlane tb e (rSize e) 0 0 plane a) a.
Proof.
  intros H. unfold residual. assert (E : idx (repeat 0 64) (rSize e) = Ok 0). { rewrite (idx_ok _ _ 0) by (unfold zlen; rewrite repeat_length; lia). f_equal. apply nth_repeat. }
  rewrite E. cbn [rbind]. change (shr 0 6) with 0. change (Max 1 0) with 1. change (1 <? 1) with false. cbn [orb]. cbv zeta iota. unfold rfor_to at 1 2. change (Z.to_nat (1 - 0)) with 1%nat. cbn [rfor_from].
  replace (1 + int_of (rChroma e) * 2) with (planes_of e) by (unfold planes_of, int_of; destruct (rChroma e); reflexivity). destruct (rfor_to _ _ _ _); reflexivity.
Qed.
Lemma tiling_raster : forall e, residual_ok e -> rInter e = false \/ rLossless e = true -> exists l,
  (forall A (tb : Z -> Z -> Z -> Z -> Z -> Z -> A -> res A) a, residual tb e a = each (do_call tb) l a) /\
  (forall p X Y, times (covers p X Y) l = if (0 <=? p) && (p <? planes_of e) && in_area e p X Y then 1 else 0) /\ StronglySorted raster l /\
  (forall c, In c l -> 0 <= cPlane c < 3 /\ cX c = corner (cPlane c) (rSubX e) (rCol e) /\ cY c = corner (cPlane c) (rSubX e) (rRow e) /\ 0 <= 4 * cOffX c < extent (cPlane c) (rSubX e) (bsize_w (rSize e)) /\ 0 <= 4 * cOffY c < extent (cPlane c) (rSubX e) (bsize_h (rSize e))).
Proof.
  intros e He HI. assert (G : forall plane, 0 <= plane < 3 -> _) by (intros plane Hp; exact (plane_calls_ok e plane He Hp (fun _ => HI))).
  destruct (G 0 ltac:(lia)) as (t0 & x0 & y0 & A0 & B0 & C0 & D0). destruct (G 1 ltac:(lia)) as (t1 & x1 & y1 & A1 & B1 & C1 & D1). destruct (G 2 ltac:(lia)) as (t2 & x2 & y2 & A2 & B2 & C2 & D2).
  set (l0 := plane_calls e 0 t0 x0 y0) in *. set (l1 := plane_calls e 1 t1 x1 y1) in *. set (l2 := plane_calls e 2 t2 x2 y2) in *.
  assert (O : forall i j ti tj xi xj yi yj a b, i < j -> In a (plane_calls e i ti xi yi) -> In b (plane_calls e j tj xj yj) -> raster a b).
  { intros i j ti tj xi xj yi yj a b L Ha Hb. apply plane_calls_in in Ha as (? & ? & -> & _). apply plane_calls_in in Hb as (? & ? & -> & _). left. exact L. }
  assert (IN : forall plane t nx ny, 0 <= plane < 3 -> 0 <= t < 19 -> extent plane (rSubX e) (bsize_w (rSize e)) / 4 = Z.of_nat nx * (tx_w t / 4) -> extent plane (rSubX e) (bsize_h (rSize e)) / 4 = Z.of_nat ny * (tx_h t / 4) -> forall c, In c (plane_calls e plane t nx ny) ->
    0 <= cPlane c < 3 /\ cX c = corner (cPlane c) (rSubX e) (rCol e) /\ cY c = corner (cPlane c) (rSubX e) (rRow e) /\ 0 <= 4 * cOffX c < extent (cPlane c) (rSubX e) (bsize_w (rSize e)) /\ 0 <= 4 * cOffY c < extent (cPlane c) (rSubX e) (bsize_h (rSize e))).
  { intros plane t nx ny Hp Ht Nx Ny c Hc. apply plane_calls_in in Hc as (x & y & -> & Hx & Hy). destruct (tx_facts t Ht) as (_ & _ & _ & _ & _ & _ & _ & _ & F9 & F10). destruct (size_facts (rSubX e) (rSize e) plane (proj1 He) Hp) as (_ & _ & _ & _ & W4 & Hh4 & _ & _).
    apply steps_in in Hx; [|lia]. apply steps_in in Hy; [|lia]. cbn [cPlane cX cY cOffX cOffY]. rewrite <- Nx in Hx. rewrite <- Ny in Hy. split; [exact Hp|]. split; [reflexivity|]. split; [reflexivity|]. split; lia. }
  exists (if rChroma e then l0 ++ (l1 ++ l2) else l0). split; [|split; [|split]].
  - intros A tb a. rewrite residual_planes by apply He. unfold planes_of, rfor_to. destruct (rChroma e).
    + change (Z.to_nat (3 - 0)) with 3%nat. cbn [rfor_from]. change (0 + 1) with 1. change (1 + 1) with 2. rewrite each_app. rewrite D0. destruct (each _ l0 a) as [a0| |]; cbn [rbind]; try reflexivity. rewrite each_app, D1. destruct (each _ l1 a0) as [a1| |]; cbn [rbind]; try reflexivity. rewrite D2. destruct (each _ l2 a1); reflexivity.
    + change (Z.to_nat (1 - 0)) with 1%nat. cbn [rfor_from]. rewrite D0. destruct (each _ l0 a); reflexivity.
  - intros p X Y. assert (M0 := plane_calls_times e 0 t0 x0 y0 X Y He ltac:(lia) A0 B0 C0). assert (M1 := plane_calls_times e 1 t1 x1 y1 X Y He ltac:(lia) A1 B1 C1). assert (M2 := plane_calls_times e 2 t2 x2 y2 X Y He ltac:(lia) A2 B2 C2). fold l0 in M0. fold l1 in M1. fold l2 in M2.
    assert (Z0 : p <> 0 -> times (covers p X Y) l0 = 0) by (intros; apply plane_calls_other; lia). assert (Z1 : p <> 1 -> times (covers p X Y) l1 = 0) by (intros; apply plane_calls_other; lia). assert (Z2 : p <> 2 -> times (covers p X Y) l2 = 0) by (intros; apply plane_calls_other; lia).
    unfold planes_of. destruct (rChroma e); rewrite ?times_app; (destruct (Z.eq_dec p 0) as [->|N0]; [rewrite M0, ?Z1, ?Z2 by lia; cbn [Z.leb Z.ltb Z.compare Pos.compare Pos.compare_cont andb]; destruct (in_area e 0 X Y); reflexivity|rewrite Z0 by lia]).
    + destruct (Z.eq_dec p 1) as [->|N1]; [rewrite M1, Z2 by lia; cbn [Z.leb Z.ltb Z.compare Pos.compare Pos.compare_cont andb]; destruct (in_area e 1 X Y); reflexivity|rewrite Z1 by lia]. destruct (Z.eq_dec p 2) as [->|N2]; [rewrite M2; cbn [Z.leb Z.ltb Z.compare Pos.compare Pos.compare_cont andb]; destruct (in_area e 2 X Y); reflexivity|rewrite Z2 by lia].
      destruct (Z.leb_spec 0 p), (Z.ltb_spec p 3); cbn [andb]; reflexivity || lia.
    + destruct (Z.leb_spec 0 p), (Z.ltb_spec p 1); cbn [andb]; reflexivity || lia.
  - assert (S0 : StronglySorted raster l0) by (apply plane_calls_sorted; exact A0). destruct (rChroma e); [|exact S0]. apply sorted_app; [exact S0|apply sorted_app; [apply plane_calls_sorted; exact A1|apply plane_calls_sorted; exact A2|]|].
    + intros a b Ha Hb. eapply (O 1 2); [lia|exact Ha|exact Hb].
    + intros a b Ha Hb. apply in_app_or in Hb as [Hb|Hb]; [eapply (O 0 1)|eapply (O 0 2)]; try exact Ha; try exact Hb; lia.
  - intros c Hc. destruct (rChroma e); [apply in_app_or in Hc as [Hc|Hc]; [|apply in_app_or in Hc as [Hc|Hc]]|]; [eapply (IN 0)|eapply (IN 1)|eapply (IN 2)|eapply (IN 0)]; try exact Hc; try lia; eassumption.
Qed.
(** in blocks up to 64x64 there is one chunk *)
Lemma sorted_in {A} (R Q : A -> A -> Prop) l : (forall a b, In a l -> In b l -> R a b -> Q a b) -> StronglySorted R l -> StronglySorted Q l.
Proof.
  intros H. induction 1 as [|x l HS IH HF]; constructor; [apply IH; intros a b Ha Hb; apply H; now right|]. apply Forall_forall. intros b Hb. apply H; [now left|now right|]. rewrite Forall_forall in HF. auto.
Qed.
Lemma chunk_zero p sub c0 off n : 0 <= p < 3 -> n <= 64 -> 4 <= n -> 0 <= 4 * off < extent p sub n -> chunk p sub c0 (c0 + 4 * off) = 0.
Proof.
  intros Hp Hn Hm H. unfold chunk, extent, chroma_side in *. replace (c0 + 4 * off - c0) with (4 * off) by lia. apply Z.div_small. destruct (0 <? p), sub; cbn [andb]; try lia.
  pose proof (Z.mul_div_le n 2 ltac:(lia)). lia.
Qed.
Lemma bsize_min b : 0 <= b < 22 -> 4 <= bsize_w b /\ 4 <= bsize_h b.
Proof.
  intros H. assert (K : In b (map Z.of_nat (seq 0 22))) by (apply in_map_iff; exists (Z.to_nat b); split; [lia|apply in_seq; lia]). cbn [seq map In] in K. repeat (destruct K as [<-|K]; [vm_compute; split; discriminate|]). contradiction.
Qed.
(** The residual of an intra block, or of a lossless one, is a sequence of transform blocks: every sample of the block's area in each plane is in exactly one of them, and no other sample in any.
    If the block is not larger than 64x64 they are in the order of the standard. *)
Theorem C130_tiling_partial : forall e, residual_ok e -> rInter e = false \/ rLossless e = true -> exists l,
  (forall A (tb : Z -> Z -> Z -> Z -> Z -> Z -> A -> res A) a, residual tb e a = each (do_call tb) l a) /\
  (forall p X Y, times (covers p X Y) l = if (0 <=? p) && (p <? planes_of e) && in_area e p X Y then 1 else 0) /\
  (bsize_w (rSize e) <= 64 -> bsize_h (rSize e) <= 64 -> StronglySorted (before (rSubX e) (rSubY e) (rCol e) (rRow e)) l).
Proof.
  intros e He HI. destruct (tiling_raster e He HI) as (l & H1 & H2 & H3 & H4). exists l. split; [exact H1|]. split; [exact H2|]. intros Hw Hh. destruct (bsize_min (rSize e) (proj1 He)) as [Mw Mh].
  eapply sorted_in; [|exact H3]. intros a b Ha Hb R. unfold before. assert (S : rSubY e = rSubX e) by (symmetry; apply He). rewrite S.
  assert (C : forall c, In c l -> chunkY (rSubX e) (rRow e) c = 0 /\ chunkX (rSubX e) (rCol e) c = 0).
  { intros c Hc. destruct (H4 c Hc) as (P & X & Y & OX & OY). unfold chunkX, chunkY, left_of, top_of. rewrite X, Y. split; [apply (chunk_zero _ _ _ _ (bsize_h (rSize e)))|apply (chunk_zero _ _ _ _ (bsize_w (rSize e)))]; assumption. }
  destruct (C a Ha) as [-> ->]. destruct (C b Hb) as [-> ->]. cbn [lex]. unfold raster in R. lia.
Qed.
Print Assumptions C130_tiling_partial.
(** Larger blocks are not coded chunk by chunk: all of luma comes first. *)
Definition e128 : REnv := mkREnv 15 0 0 64 64 true false 4 false [] true true.
Definition record (p x y t i j : Z) (l : list call) : res (list call) := Ok (Call p x y t i j :: l).
Lemma each_record l : forall a, each (do_call record) l a = Ok (rev l ++ a).
Proof. induction l as [|c l IH]; intros a; cbn [each rev]; [reflexivity|]. unfold do_call at 1, record at 1. cbn [rbind]. rewrite IH, <- app_assoc. destruct c; reflexivity. Qed.
Theorem C130_chunks_refuted : residual_ok e128 /\ forall l, (forall A (tb : Z -> Z -> Z -> Z -> Z -> Z -> A -> res A) a, residual tb e128 a = each (do_call tb) l a) ->
  ~ StronglySorted (before (rSubX e128) (rSubY e128) (rCol e128) (rRow e128)) l.
Proof.
  split; [unfold residual_ok, e128; cbn [rSize rRow rCol rSubX rSubY rLossless rTx]; change (2 ^ 30) with 1073741824; split; [lia|]; split; [lia|]; split; [lia|]; split; [reflexivity|]; intros _; split; [lia|]; split; [exists 2|exists 2]; reflexivity|].
  intros l H HS. specialize (H _ record []). rewrite each_record, app_nil_r in H. let r := eval vm_compute in (residual record e128 []) in assert (E : residual record e128 [] = r) by (vm_compute; reflexivity).
  rewrite H in E. injection E as E. apply (f_equal (@rev call)) in E. rewrite rev_involutive in E. cbn [rev app] in E. subst l. apply StronglySorted_inv in HS as [HS _]. apply StronglySorted_inv in HS as [_ HF].
  rewrite Forall_forall in HF. specialize (HF (Call 1 0 0 3 0 0) ltac:(cbn; tauto)). unfold before in HF. vm_compute in HF. intuition discriminate.
Qed.
Print Assumptions C130_chunks_refuted.
(** An intra 16x8 block at (2, 3), 4:2:0, with 8x8 luma transforms: two of them, and one 8x4 transform in each chroma plane. *)
Definition e16 : REnv := mkREnv 5 2 3 64 64 true false 1 false [] true true.
Example C130_case : residual_ok e16 /\ residual record e16 [] = Ok (rev [Call 0 12 8 1 0 0; Call 0 12 8 1 2 0; Call 1 4 4 6 0 0; Call 2 4 4 6 0 0]).
Proof. split; [unfold residual_ok, e16; cbn [rSize rRow rCol rSubX rSubY rLossless rTx]; change (2 ^ 30) with 1073741824; split; [lia|]; split; [lia|]; split; [lia|]; split; [reflexivity|]; intros _; split; [lia|]; split; [exists 2|exists 1]; reflexivity|vm_compute; reflexivity]. Qed.

(** ** C131: the tree of luma transforms of an inter block *)
Definition recorded (e : REnv) (X Y t : Z) : Prop := idx2 (rInterTx e) (Y / 4) (X / 4) = Ok t.
Definition fits_recorded (e : REnv) (r : rect) : Prop := exists t, recorded e (rX r) (rY r) t /\ rW r <= tx_w t /\ rH r <= tx_h t.
(** sizes are recorded for every position in the frame *)
Definition tree_ok (e : REnv) : Prop := forall r c, 0 <= r < rRows e -> 0 <= c < rCols e -> exists t, idx2 (rInterTx e) r c = Ok t /\ 0 <= t < 19.
Definition rect_of (c : call) : rect := Rect (left_of c) (top_of c) (tx_w (cTx c)) (tx_h (cTx c)).
Definition side (v : Z) : Prop := In v [4; 8; 16; 32; 64; 128].
Lemma side_half v : side v -> 4 < v -> side (v / 2) /\ v / 2 * 2 = v /\ Z.log2 v = Z.log2 (v / 2) + 1 /\ v ÷ 2 = v / 2.
Proof. unfold side. cbn [In]. intros H L. repeat (destruct H as [<-|H]; [first [lia|vm_compute; intuition congruence]|]). contradiction. Qed.
Lemma side_pos v : side v -> 4 <= v <= 128 /\ 2 <= Z.log2 v.
Proof. unfold side. cbn [In]. intros H. repeat (destruct H as [<-|H]; [vm_compute; intuition congruence|]). contradiction. Qed.
Lemma side_tx v : side v -> v <= 64 -> tx_side v.
Proof. unfold side, tx_side. cbn [In]. lia. Qed.
Lemma side_double w h : side w -> side h -> h < w -> 2 * h <= w.
Proof. unfold side. cbn [In]. lia. Qed.
Definition leaf_ok (c : call) : Prop := cPlane c = 0 /\ cOffX c = 0 /\ cOffY c = 0 /\ 0 <= cTx c < 19.
Definition tree_result (e : REnv) (n : nat) (X Y w h : Z) (l : list call) : Prop :=
  (forall A (tb : Z -> Z -> Z -> Z -> Z -> Z -> A -> res A) a, transformTree tb n e X Y w h a = each (do_call tb) l a) /\
  tx_tree (fits_recorded e) (rCols e * 4) (rRows e * 4) (Rect X Y w h) (map rect_of l) /\ Forall leaf_ok l /\
  forall X' Y', (in_rect (Rect X Y w h) X' Y' = true -> X' < rCols e * 4 -> Y' < rRows e * 4 -> times (covers 0 X' Y') l = 1) /\ (in_rect (Rect X Y w h) X' Y' = false -> times (covers 0 X' Y') l = 0).
Lemma rb_each {A B} (f : A -> B -> res B) l m (b : B) : (let! b := each f l b in each f m b) = each f (l ++ m) b.
Proof. rewrite each_app. reflexivity. Qed.
Lemma tree_leaves e : tree_ok e -> forall n X Y w h, 0 <= X -> 0 <= Y -> side w -> side h -> w <= 4 * h -> h <= 4 * w -> Z.log2 w + Z.log2 h < Z.of_nat n + 4 -> exists l, tree_result e n X Y w h l.
Proof.
  intros He. induction n as [|n IH]; intros X Y w h HX HY Sw Sh R1 R2 HF; [destruct (side_pos w Sw), (side_pos h Sh); lia|].
  assert (PW := side_pos w Sw). assert (PH := side_pos h Sh).
  destruct (Z.leb_spec (rCols e * 4) X) as [O|IX].
  { exists []. split; [|split; [|split; [constructor|]]].
    - intros A tb a. cbn [transformTree each]. unfold MI_SIZE. destruct (Z.leb_spec (rCols e * 4) X); [reflexivity|lia].
    - cbn [map]. apply T_outside. left. exact O.
    - intros X' Y'. split; [|reflexivity]. unfold in_rect. cbn [rX rY rW rH]. lia. }
  destruct (Z.leb_spec (rRows e * 4) Y) as [O|IY].
  { exists []. split; [|split; [|split; [constructor|]]].
    - intros A tb a. cbn [transformTree each]. unfold MI_SIZE. destruct (Z.leb_spec (rRows e * 4) Y); [|lia]. rewrite orb_true_r. reflexivity.
    - cbn [map]. apply T_outside. right. exact O.
    - intros X' Y'. split; [|reflexivity]. unfold in_rect. cbn [rX rY rW rH]. lia. }
  destruct (He (Y / 4) (X / 4)) as (t & Et & Rt).
  { split; [apply Z.div_pos; lia|apply Z.div_lt_upper_bound; lia]. } { split; [apply Z.div_pos; lia|apply Z.div_lt_upper_bound; lia]. }
  destruct (tx_facts t Rt) as (F1 & F2 & _ & _ & _ & _ & F7 & F8 & F9 & F10).
  assert (STEP : forall A (tb : Z -> Z -> Z -> Z -> Z -> Z -> A -> res A) a, transformTree tb (S n) e X Y w h a =
    if (w <=? tx_w t) && (h <=? tx_h t) then let! t := findTxSize w h in tb 0 X Y t 0 0 a
    else if h <? w then let! a := transformTree tb n e X Y (w / 2) h a in transformTree tb n e (X + w / 2) Y (w / 2) h a
    else if w <? h then let! a := transformTree tb n e X Y w (h / 2) a in transformTree tb n e X (Y + h / 2) w (h / 2) a
    else let! a := transformTree tb n e X Y (w / 2) (h / 2) a in let! a := transformTree tb n e (X + w / 2) Y (w / 2) (h / 2) a in
         let! a := transformTree tb n e X (Y + h / 2) (w / 2) (h / 2) a in transformTree tb n e (X + w / 2) (Y + h / 2) (w / 2) (h / 2) a).
  { intros A tb a. cbn [transformTree]. unfold MI_SIZE, MI_SIZE_LOG2. destruct (Z.leb_spec (rCols e * 4) X); [lia|]. destruct (Z.leb_spec (rRows e * 4) Y); [lia|]. cbn [orb]. rewrite !shr_div by lia. change (2 ^ 2) with 4. rewrite Et. cbn [rbind]. rewrite F1, F2. cbn [rbind].
    rewrite !Z.quot_div_nonneg by lia. reflexivity. }
  assert (FIT : fits_recorded e (Rect X Y w h) <-> (w <= tx_w t /\ h <= tx_h t)).
  { unfold fits_recorded, recorded. cbn [rX rY rW rH]. split; [|intros; exists t; tauto]. intros (t' & E & H). rewrite Et in E. injection E as <-. exact H. }
  destruct ((w <=? tx_w t) && (h <=? tx_h t)) eqn:EF.
  { (* a leaf *) apply andb_true_iff in EF as [L1 L2]. apply Z.leb_le in L1, L2. destruct (C135_find w h (side_tx w Sw ltac:(lia)) (side_tx h Sh ltac:(lia)) R1 R2) as (t' & E' & R' & W' & H'). exists [Call 0 X Y t' 0 0]. split; [|split; [|split]].
    - intros A tb a. rewrite STEP, E'. cbn [rbind each]. unfold do_call. cbn [cPlane cX cY cTx cOffX cOffY]. destruct (tb _ _ _ _ _ _ _); reflexivity.
    - cbn [map]. unfold rect_of, left_of, top_of. cbn [cX cY cTx cOffX cOffY]. rewrite W', H', !Z.add_0_r. apply T_leaf; cbn [rX rY]; [lia|lia|]. apply FIT. lia.
    - constructor; [|constructor]. unfold leaf_ok. cbn. lia.
    - intros X' Y'. unfold times. cbn [filter]. unfold covers, left_of, top_of, in_rect. cbn [cPlane cX cY cTx cOffX cOffY rX rY rW rH]. rewrite W', H', !Z.add_0_r, Z.eqb_refl. cbn [andb]. split; intros HI; rewrite HI; reflexivity. }
  assert (NF : ~ fits_recorded e (Rect X Y w h)) by (rewrite FIT; apply andb_false_iff in EF as [E|E]; apply Z.leb_gt in E; lia).
  assert (NODE : forall ls, Forall2 (fun r l => exists X Y w h, r = Rect X Y w h /\ tree_result e n X Y w h l) (parts (Rect X Y w h)) ls ->
     tx_tree (fits_recorded e) (rCols e * 4) (rRows e * 4) (Rect X Y w h) (map rect_of (concat ls)) /\ Forall leaf_ok (concat ls)).
  { intros ls HL. split.
    - rewrite concat_map. apply T_node; [exact IX|exact IY|exact NF|]. induction HL as [|r l rs ls (X1 & Y1 & w1 & h1 & -> & HR) HL IHL]; cbn [map]; constructor; [apply HR|exact IHL].
    - induction HL as [|r l rs ls (X1 & Y1 & w1 & h1 & -> & HR) HL IHL]; cbn [concat]; [constructor|]. apply Forall_app. split; [apply HR|exact IHL]. }
  unfold parts in NODE.
  destruct (Z.ltb_spec h w) as [L|L].
  { destruct (side_half w Sw ltac:(lia)) as (S2 & E2 & LG & _). pose proof (side_double w h Sw Sh L).
    destruct (IH X Y (w / 2) h HX HY S2 Sh ltac:(lia) ltac:(lia) ltac:(lia)) as (l1 & G1). destruct (IH (X + w / 2) Y (w / 2) h ltac:(lia) HY S2 Sh ltac:(lia) ltac:(lia) ltac:(lia)) as (l2 & G2).
    destruct (NODE [l1; l2]) as [T F]. { constructor; [exists X, Y, (w / 2), h; split; [reflexivity|exact G1]|]. constructor; [do 4 eexists; split; [reflexivity|exact G2]|constructor]. }
    cbn [concat] in *. exists (l1 ++ l2 ++ []). split; [|split; [exact T|split; [exact F|]]].
    - intros A tb a. rewrite STEP, (proj1 G1). rewrite app_nil_r, each_app. destruct (each (do_call tb) l1 a); cbn [rbind]; [apply (proj1 G2)|reflexivity..].
    - intros X' Y'. rewrite app_nil_r, times_app. destruct G1 as (_ & _ & _ & G1). destruct G2 as (_ & _ & _ & G2). destruct (G1 X' Y') as [A1 B1]. destruct (G2 X' Y') as [A2 B2]. unfold in_rect in *. cbn [rX rY rW rH] in *. split; intros HI.
      + intros HX' HY'. destruct (Z.ltb_spec X' (X + w / 2)); [rewrite A1, B2 by lia|rewrite B1, A2 by lia]; lia.
      + rewrite B1, B2 by lia. lia. }
  destruct (Z.ltb_spec w h) as [L'|L'].
  { destruct (side_half h Sh ltac:(lia)) as (S2 & E2 & LG & _). pose proof (side_double h w Sh Sw L').
    destruct (IH X Y w (h / 2) HX HY Sw S2 ltac:(lia) ltac:(lia) ltac:(lia)) as (l1 & G1). destruct (IH X (Y + h / 2) w (h / 2) HX ltac:(lia) Sw S2 ltac:(lia) ltac:(lia) ltac:(lia)) as (l2 & G2).
    destruct (NODE [l1; l2]) as [T F]. { constructor; [exists X, Y, w, (h / 2); split; [reflexivity|exact G1]|]. constructor; [do 4 eexists; split; [reflexivity|exact G2]|constructor]. }
    cbn [concat] in *. exists (l1 ++ l2 ++ []). split; [|split; [exact T|split; [exact F|]]].
    - intros A tb a. rewrite STEP, (proj1 G1). rewrite app_nil_r, each_app. destruct (each (do_call tb) l1 a); cbn [rbind]; [apply (proj1 G2)|reflexivity..].
    - intros X' Y'. rewrite app_nil_r, times_app. destruct G1 as (_ & _ & _ & G1). destruct G2 as (_ & _ & _ & G2). destruct (G1 X' Y') as [A1 B1]. destruct (G2 X' Y') as [A2 B2]. unfold in_rect in *. cbn [rX rY rW rH] in *. split; intros HI.
      + intros HX' HY'. destruct (Z.ltb_spec Y' (Y + h / 2)); [rewrite A1, B2 by lia|rewrite B1, A2 by lia]; lia.
      + rewrite B1, B2 by lia. lia. }
  assert (w = h) by lia. subst h. assert (4 < w) by (destruct (Z.eq_dec w 4) as [->|]; [|lia]; exfalso; apply NF, FIT; lia).
  destruct (side_half w Sw ltac:(lia)) as (S2 & E2 & LG & _).
  destruct (IH X Y (w / 2) (w / 2) HX HY S2 S2 ltac:(lia) ltac:(lia) ltac:(lia)) as (l1 & G1). destruct (IH (X + w / 2) Y (w / 2) (w / 2) ltac:(lia) HY S2 S2 ltac:(lia) ltac:(lia) ltac:(lia)) as (l2 & G2).
  destruct (IH X (Y + w / 2) (w / 2) (w / 2) HX ltac:(lia) S2 S2 ltac:(lia) ltac:(lia) ltac:(lia)) as (l3 & G3). destruct (IH (X + w / 2) (Y + w / 2) (w / 2) (w / 2) ltac:(lia) ltac:(lia) S2 S2 ltac:(lia) ltac:(lia) ltac:(lia)) as (l4 & G4).
  destruct (NODE [l1; l2; l3; l4]) as [T F]. { constructor; [do 4 eexists; split; [reflexivity|exact G1]|]. constructor; [do 4 eexists; split; [reflexivity|exact G2]|]. constructor; [do 4 eexists; split; [reflexivity|exact G3]|]. constructor; [do 4 eexists; split; [reflexivity|exact G4]|constructor]. }
  cbn [concat] in *. exists (l1 ++ l2 ++ l3 ++ l4 ++ []). split; [|split; [exact T|split; [exact F|]]].
  - intros A tb a. rewrite STEP, (proj1 G1). rewrite app_nil_r, each_app. destruct (each (do_call tb) l1 a) as [a1| |]; cbn [rbind]; [|reflexivity..]. rewrite (proj1 G2), each_app. destruct (each (do_call tb) l2 a1) as [a2| |]; cbn [rbind]; [|reflexivity..].
    rewrite (proj1 G3), each_app. destruct (each (do_call tb) l3 a2) as [a3| |]; cbn [rbind]; [|reflexivity..]. apply (proj1 G4).
  - intros X' Y'. rewrite app_nil_r, !times_app. destruct G1 as (_ & _ & _ & G1). destruct G2 as (_ & _ & _ & G2). destruct G3 as (_ & _ & _ & G3). destruct G4 as (_ & _ & _ & G4).
    destruct (G1 X' Y') as [A1 B1]. destruct (G2 X' Y') as [A2 B2]. destruct (G3 X' Y') as [A3 B3]. destruct (G4 X' Y') as [A4 B4]. clear G1 G2 G3 G4 T F NODE IH STEP FIT NF. unfold in_rect in *. cbn [rX rY rW rH] in *. split; intros HI.
    + intros HX' HY'. destruct (Z.ltb_spec X' (X + w / 2)), (Z.ltb_spec Y' (Y + w / 2)); [rewrite A1, B2, B3, B4 by lia|rewrite B1, B2, A3, B4 by lia|rewrite B1, A2, B3, B4 by lia|rewrite B1, B2, B3, A4 by lia]; lia.
    + rewrite B1, B2, B3, B4 by lia. lia.
Qed.
Lemma bsize_sides b : 0 <= b < 22 -> side (bsize_w b) /\ side (bsize_h b) /\ bsize_w b <= 4 * bsize_h b /\ bsize_h b <= 4 * bsize_w b /\ Z.log2 (bsize_w b) + Z.log2 (bsize_h b) < bsize_w b + bsize_h b + 4.
Proof.
  intros H. assert (K : In b (map Z.of_nat (seq 0 22))) by (apply in_map_iff; exists (Z.to_nat b); split; [lia|apply in_seq; lia]). cbn [seq map In] in K.
  unfold side. repeat (destruct K as [<-|K]; [vm_compute; intuition congruence|]). contradiction.
Qed.
(** The residual of an inter block that is not lossless: first the luma transforms, the leaves of the tree of the standard in its order, each of the size it has in the tree; then those of chroma.
    Every sample of the block's area is in exactly one transform block (in luma: if it is in the frame), no other sample in any. *)
Theorem C131_tree : forall e, residual_ok e -> tree_ok e -> rInter e = true -> rLossless e = false -> exists l m,
  (forall A (tb : Z -> Z -> Z -> Z -> Z -> Z -> A -> res A) a, residual tb e a = each (do_call tb) (l ++ m) a) /\
  tx_tree (fits_recorded e) (rCols e * 4) (rRows e * 4) (Rect (rCol e * 4) (rRow e * 4) (bsize_w (rSize e)) (bsize_h (rSize e))) (map rect_of l) /\
  Forall (fun c => cPlane c = 0 /\ 0 <= cTx c < 19) l /\ Forall (fun c => cPlane c > 0) m /\
  (forall X Y, in_area e 0 X Y = true -> X < rCols e * 4 -> Y < rRows e * 4 -> times (covers 0 X Y) l = 1) /\ (forall X Y, in_area e 0 X Y = false -> times (covers 0 X Y) l = 0) /\
  (forall p X Y, 0 < p -> times (covers p X Y) m = if (p <? planes_of e) && in_area e p X Y then 1 else 0).
Proof.
  intros e He Ht HI HL. destruct (bsize_sides (rSize e) (proj1 He)) as (Sw & Sh & R1 & R2 & LG). assert (P := He). destruct P as (Hs & Hr & Hc & HS & HX). destruct (HX HL) as (Tx & _ & _).
  assert (PW := side_pos _ Sw). assert (PH := side_pos _ Sh).
  destruct (tree_leaves e Ht (Z.to_nat (bsize_w (rSize e) + bsize_h (rSize e))) (rCol e * 4) (rRow e * 4) (bsize_w (rSize e)) (bsize_h (rSize e)) ltac:(lia) ltac:(lia) Sw Sh R1 R2 ltac:(lia)) as (l & G1 & G2 & G3 & G4).
  destruct (plane_calls_ok e 1 He ltac:(lia) ltac:(lia)) as (t1 & x1 & y1 & A1 & B1 & C1 & D1). destruct (plane_calls_ok e 2 He ltac:(lia) ltac:(lia)) as (t2 & x2 & y2 & A2 & B2 & C2 & D2).
  set (l1 := plane_calls e 1 t1 x1 y1) in *. set (l2 := plane_calls e 2 t2 x2 y2) in *.
  assert (D0 : forall A (tb : Z -> Z -> Z -> Z -> Z -> Z -> A -> res A) a, residualPlane tb e (rSize e) 0 0 0 a = each (do_call tb) l a).
  { intros A tb a. unfold residualPlane. rewrite HL. unfold getTxSize. change (0 =? 0) with true. cbv iota. cbn [rbind]. destruct (tx_facts _ Tx) as (F1 & F2 & _). rewrite F1, F2. cbn [rbind].
    destruct (size_facts (rSubX e) (rSize e) 0 Hs ltac:(lia)) as (ps & E1 & E2 & E3 & W4 & Hh4 & _ & _). rewrite <- HS, E1. cbn [rbind]. rewrite E2, E3. cbn [rbind]. cbv zeta. rewrite HI. cbn [negb andb]. change (0 <? 0) with false. cbv iota. change (shl 0 4) with 0.
    unfold extent in *. change (0 <? 0) with false in *. cbv iota in *. replace (bsize_w (rSize e) / 4 * 4) with (bsize_w (rSize e)) by lia. replace (bsize_h (rSize e) / 4 * 4) with (bsize_h (rSize e)) by lia.
    rewrite !Z.add_0_r. rewrite !shr_div by lia. rewrite Z.pow_0_r, !Z.div_1_r. unfold MI_SIZE. apply G1. }
  assert (AR : forall X Y, in_area e 0 X Y = in_rect (Rect (rCol e * 4) (rRow e * 4) (bsize_w (rSize e)) (bsize_h (rSize e))) X Y) by reflexivity.
  exists l, (if rChroma e then l1 ++ l2 else []). split; [|split; [exact G2|split; [|split; [|split; [|split]]]]].
  - intros A tb a. rewrite residual_planes by exact Hs. unfold planes_of, rfor_to. destruct (rChroma e).
    + change (Z.to_nat (3 - 0)) with 3%nat. cbn [rfor_from]. change (0 + 1) with 1. change (1 + 1) with 2. rewrite each_app. rewrite D0. destruct (each _ l a) as [a0| |]; cbn [rbind]; try reflexivity. rewrite each_app, D1. destruct (each _ l1 a0) as [a1| |]; cbn [rbind]; try reflexivity. rewrite D2. destruct (each _ l2 a1); reflexivity.
    + change (Z.to_nat (1 - 0)) with 1%nat. cbn [rfor_from]. rewrite D0, app_nil_r. destruct (each _ l a); reflexivity.
  - eapply Forall_impl; [|exact G3]. intros c (U1 & _ & _ & U2). auto.
  - destruct (rChroma e); [|constructor]. apply Forall_forall. intros c Hin. apply in_app_or in Hin as [Hin|Hin]; apply plane_calls_in in Hin as (? & ? & -> & _); cbn [cPlane]; lia.
  - intros X Y HA HX' HY'. rewrite AR in HA. exact (proj1 (G4 X Y) HA HX' HY').
  - intros X Y HA. rewrite AR in HA. exact (proj2 (G4 X Y) HA).
  - intros p X Y Hp. assert (M1 := plane_calls_times e 1 t1 x1 y1 X Y He ltac:(lia) A1 B1 C1). assert (M2 := plane_calls_times e 2 t2 x2 y2 X Y He ltac:(lia) A2 B2 C2). fold l1 in M1. fold l2 in M2.
    assert (Z1 : p <> 1 -> times (covers p X Y) l1 = 0) by (intros; apply plane_calls_other; lia). assert (Z2 : p <> 2 -> times (covers p X Y) l2 = 0) by (intros; apply plane_calls_other; lia).
    unfold planes_of. destruct (rChroma e).
    + rewrite times_app. destruct (Z.eq_dec p 1) as [->|N1]; [rewrite M1, Z2 by lia; cbn [Z.ltb Z.compare Pos.compare Pos.compare_cont andb]; destruct (in_area e 1 X Y); reflexivity|rewrite Z1 by lia]. destruct (Z.eq_dec p 2) as [->|N2]; [rewrite M2; cbn [Z.ltb Z.compare Pos.compare Pos.compare_cont andb]; destruct (in_area e 2 X Y); reflexivity|rewrite Z2 by lia].
      destruct (Z.ltb_spec p 3); cbn [andb]; reflexivity || lia.
    + destruct (Z.ltb_spec p 1); cbn [andb]; [lia|reflexivity].
Qed.
Print Assumptions C131_tree.
(** a 16x16 inter block whose left half has 8x8 and whose right half 8x16 recorded; the frame ends 12 samples to the right of and 16 below its corner *)
Definition e_tree : REnv := mkREnv 6 0 0 4 3 true false 1 true [[1;1;7;7];[1;1;7;7];[1;1;7;7];[1;1;7;7]] true true.
Example C131_case : residual_ok e_tree /\ tree_ok e_tree /\ residual record e_tree [] = Ok (rev [Call 0 0 0 1 0 0; Call 0 8 0 1 0 0; Call 0 0 8 1 0 0; Call 0 8 8 1 0 0; Call 1 0 0 1 0 0; Call 2 0 0 1 0 0]).
Proof.
  split; [|split; [|reflexivity]].
  - split; [cbn; lia|]. split; [cbn; lia|]. split; [cbn; lia|]. split; [reflexivity|]. intros _. cbn [rTx rSize e_tree]. split; [lia|]. split; apply Z.mod_divide; reflexivity || discriminate.
  - intros r c Hr Hc. cbn [e_tree rRows rCols] in *. assert (R : r = 0 \/ r = 1 \/ r = 2 \/ r = 3) by lia. assert (C : c = 0 \/ c = 1 \/ c = 2) by lia.
    destruct R as [-> | [-> | [-> | ->]]], C as [-> | [-> | ->]]; eexists; (split; [reflexivity|lia]).
Qed.

(** ** C134: palette prediction *)
Lemma palette_fill palettes colors startX startY x y t f : palettePrediction palettes colors 0 startX startY x y t f =
  let! w := idx Tx_Width t in let! h := idx Tx_Height t in fill (fun i j => let! k := idx2 colors (y * 4 + i) (x * 4 + j) in idx (nth 0 palettes []) k) 0 (fun i => startY + i) (fun j => startX + j) 0 h 0 w f.
Proof. reflexivity. Qed.
(** If the map has a colour of the palette for every sample of the transform block and the frame has room for it, luma gets these colours and the rest of the frame is unchanged. *)
Theorem C134_luma_partial : forall palette others colors startX startY x y t f, 0 <= t < 19 ->
  (forall i j, 0 <= i < tx_h t -> 0 <= j < tx_w t -> exists v, painted palette colors (4 * x + j) (4 * y + i) v) ->
  (forall i j, 0 <= i < tx_h t -> 0 <= j < tx_w t -> exists v, idx3 f 0 (startY + i) (startX + j) = Ok v) ->
  exists f', palettePrediction (palette :: others) colors 0 startX startY x y t f = Ok f' /\
  (forall i j v, 0 <= i < tx_h t -> 0 <= j < tx_w t -> painted palette colors (4 * x + j) (4 * y + i) v -> idx3 f' 0 (startY + i) (startX + j) = Ok v) /\
  forall p Y X, ~ (p = 0 /\ startY <= Y < startY + tx_h t /\ startX <= X < startX + tx_w t) -> idx3 f' p Y X = idx3 f p Y X.
Proof.
  intros palette others colors startX startY x y t f Ht HM HF. destruct (tx_facts t Ht) as (F1 & F2 & _ & _ & _ & _ & F7 & F8 & F9 & F10). rewrite palette_fill, F1, F2. cbn [rbind nth].
  set (V := fun i j => let! k := idx2 colors (y * 4 + i) (x * 4 + j) in idx palette k).
  destruct (fill_ok V 0 startY startX (fun i => startY + i) (fun j => startX + j) (fun _ => eq_refl) (fun _ => eq_refl) 0 (tx_h t) 0 (tx_w t) f ltac:(lia) ltac:(lia)) as (f' & E & _).
  - intros i j Hi Hj. destruct (HM i j Hi Hj) as (v & k & E1 & E2). exists v. unfold V. rewrite (Z.mul_comm y), (Z.mul_comm x), E1. exact E2.
  - exact HF.
  - exists f'. split; [exact E|]. apply (fill_post V 0 startY startX _ _ (fun _ => eq_refl) (fun _ => eq_refl)) in E as [P1 P2]; [|lia..]. split.
    + intros i j v Hi Hj (k & E1 & E2). destruct (P1 i j Hi Hj) as (u & U1 & U2). rewrite U2. unfold V in U1. rewrite (Z.mul_comm y), (Z.mul_comm x), E1 in U1. cbn [rbind] in U1. rewrite E2 in U1. symmetry. exact U1.
    + intros p Y X N. apply P2. lia.
Qed.
Print Assumptions C134_luma_partial.
(** In the chroma planes no palette prediction ever succeeds: the map that is used is empty. *)
Theorem C134_chroma_refuted : forall palettes colors plane startX startY x y t f, 0 <= t < 19 -> plane <> 0 -> palettePrediction palettes colors plane startX startY x y t f = Panic.
Proof.
  intros palettes colors plane startX startY x y t f Ht Hp. destruct (tx_facts t Ht) as (F1 & F2 & _ & _ & _ & _ & F7 & F8 & F9 & F10). unfold palettePrediction. rewrite F1, F2. cbn [rbind].
  destruct (Z.eqb_spec plane 0); [contradiction|]. unfold fill, fill_row, rfor_to. replace (Z.to_nat (tx_h t - 0)) with (S (Z.to_nat (tx_h t - 1))) by lia. cbn [rfor_from]. replace (Z.to_nat (tx_w t - 0)) with (S (Z.to_nat (tx_w t - 1))) by lia. cbn [rfor_from].
  assert (E : forall i, idx (@nil (list Z)) i = Panic) by (intros i; apply idx_panic; change (zlen (@nil (list Z))) with 0; lia). unfold idx2 at 1. rewrite E. reflexivity.
Qed.
Print Assumptions C134_chroma_refuted.
Example C134_case : let f := repeat (repeat (repeat 0 16) 16) 3 in let colors := repeat [0; 1; 1; 0] 4 in
  (let! g := palettePrediction [[70; 90]] colors 0 4 8 0 0 0 f in idx3 g 0 9 6) = Ok 90 /\ painted [70; 90] colors 2 1 90.
Proof. split; [vm_compute; reflexivity|exists 1; split; reflexivity]. Qed.

(** ** C133: chroma from luma *)
Lemma Clip1_two x bd : 2 <= bd -> Clip1 x bd = 2.
Proof. intros H. unfold Clip1. destruct (Z.ltb_spec bd 1); [lia|]. assert (2 ^ 1 <= 2 ^ (bd - 1)) by (apply Z.pow_le_mono_r; lia). change (2 ^ 1) with 2 in *. unfold Clip3. destruct (Z.ltb_spec 2 0); [lia|]. destruct (Z.ltb_spec (2 ^ (bd - 1)) 2); [lia|reflexivity]. Qed.
(** Whatever the luma samples, the alphas and the prediction so far: if it returns, the samples of the transform block are all 2; only they have changed. *)
Theorem C133_block_partial : forall subX subY bitDepth au av plane startX startY t maxW maxH f f', 0 <= t < 19 -> 2 <= bitDepth ->
  predictChromaFromLuma subX subY bitDepth au av plane startX startY t maxW maxH f = Ok f' ->
  (forall i j, 0 <= i < tx_h t -> 0 <= j < tx_w t -> idx3 f' plane (startY + i) (startX + j) = Ok 2) /\
  forall p Y X, ~ (p = plane /\ startY <= Y < startY + tx_h t /\ startX <= X < startX + tx_w t) -> idx3 f' p Y X = idx3 f p Y X.
Proof.
  intros subX subY bd au av plane sx sy t mw mh f f' Ht Hb E. destruct (tx_facts t Ht) as (F1 & F2 & F3 & F4 & _ & _ & F7 & F8 & F9 & F10). unfold predictChromaFromLuma in E. rewrite F1, F2, F3, F4 in E. cbn [rbind] in E.
  apply rbind_inv in E as (la & El & E). apply rbind_inv in E as (avg & Ea & E). clear El Ea.
  assert (W : writes get3 (fun _ : Z * Z * Z => Ok 2) (fun q => exists i, 0 <= i < tx_h t /\ exists j, 0 <= j < tx_w t /\ q = (plane, sy + i, sx + j)) f f').
  { refine (writes_loop get3 (fun _ : Z * Z * Z => Ok 2) 0 (tx_h t) _ (fun i q => exists j, 0 <= j < tx_w t /\ q = (plane, sy + i, sx + j)) f f' _ _ E); [intros; apply decided_range; intros; apply decided_eq3|].
    intros i g g' Hi Eg. refine (writes_loop get3 (fun _ : Z * Z * Z => Ok 2) 0 (tx_w t) _ (fun j q => q = (plane, sy + i, sx + j)) g g' _ _ Eg); [intros; apply decided_eq3|].
    intros j h h' Hj Eh. apply rbind_inv in Eh as (dc & _ & Eh). apply rbind_inv in Eh as (l & _ & Eh). apply rbind_inv in Eh as (sc & _ & Eh). rewrite Clip1_two in Eh by exact Hb. eapply writes_upd3; [reflexivity|exact Eh]. }
  destruct W as [W1 W2]. split.
  - intros i j Hi Hj. destruct (W1 (plane, sy + i, sx + j)) as (v & [= <-] & Ev); [exists i; split; [exact Hi|]; exists j; auto|exact Ev].
  - intros p Y X N. apply (W2 (p, Y, X)). intros (i & Hi & j & Hj & [= -> -> ->]). apply N. lia.
Qed.
Print Assumptions C133_block_partial.

(** The luma part is that of the standard: the table of scaled sums and their total *)
Definition luma_of (f : frame) (luma : Z -> Z -> Z) : Prop := forall y x v, idx3 f 0 y x = Ok v -> v = luma y x /\ 0 <= v < 2 ^ 16.
Lemma lumaAt_spec f luma (subX subY : bool) sx sy mw mh i j v : luma_of f luma -> 0 <= sx + j < 2 ^ 30 -> 0 <= sy + i < 2 ^ 30 ->
  lumaAt f (int_of subX) (int_of subY) sx sy mw mh i j = Ok v -> v = cfl_luma luma subX subY mw mh (sx + j) (sy + i).
Proof.
  intros HL HX HY E. unfold lumaAt in E. rewrite !Min_min in E. unfold cfl_luma.
  assert (S : forall u (sub : bool), 0 <= u < 2 ^ 30 -> shl u (int_of sub) = if sub then 2 * u else u) by (intros u sub Hu; destruct sub; cbn [int_of]; rewrite shl_small by lia; lia).
  assert (S1 : forall sub : bool, shl 1 (int_of sub) = if sub then 2 else 1) by (intros []; reflexivity). rewrite !S1, !S in E by lia.
  set (ly := Z.min _ _) in *. set (lx := Z.min _ _) in *. cbv zeta.
  assert (D : int_of subX - 0 = int_of subX) by lia.
  destruct subY, subX; cbn [int_of] in *; unfold rfor_to in E;
    repeat match type of E with context [Z.to_nat ?n] => let k := eval vm_compute in (Z.to_nat n) in change (Z.to_nat n) with k in E end; cbn [rfor_from] in E;
    repeat match type of E with
      | context [idx3 f 0 ?y ?x] => let v := fresh "v" in let E1 := fresh "E1" in destruct (idx3 f 0 y x) as [v| |] eqn:E1; cbn [rbind] in E; [|discriminate E..]; apply HL in E1 as [E1 ?]
    end; rewrite ?Z.add_0_r in *;
    match type of E with context [?a <? 0] => change (a <? 0) with false in E end; cbv iota in E; injection E as <-;
    rewrite shl_small by lia; change (0 + 1) with 1 in *; cbn [Z.sub Z.add Z.opp Z.pos_sub Pos.pred_double] in *;
    repeat match goal with H : ?v = luma ?a ?b |- _ => rewrite <- H; clear H end; nia.
Qed.
Lemma sum_app l m : fold_right Z.add 0 (l ++ m) = fold_right Z.add 0 l + fold_right Z.add 0 m.
Proof. induction l as [|x l IH]; cbn [app fold_right]; [reflexivity|rewrite IH; lia]. Qed.
Definition sum_row (w : Z) (g : Z -> Z) : Z := fold_right Z.add 0 (map (fun j => g (Z.of_nat j)) (seq 0 (Z.to_nat w))).
Lemma sum_row_S w g : 0 <= w -> sum_row (w + 1) g = sum_row w g + g w.
Proof. intros H. unfold sum_row. replace (Z.to_nat (w + 1)) with (Z.to_nat w + 1)%nat by lia. rewrite seq_app, map_app, sum_app. cbn [seq map fold_right Nat.add]. rewrite Z2Nat.id by lia. lia. Qed.
Lemma sum_rect_S w h g : 0 <= h -> sum_rect w (h + 1) g = sum_rect w h g + sum_row w (g h).
Proof. intros H. unfold sum_rect, sum_row. replace (Z.to_nat (h + 1)) with (Z.to_nat h + 1)%nat by lia. rewrite seq_app, flat_map_app, sum_app. cbn [seq flat_map Nat.add]. rewrite app_nil_r, Z2Nat.id by lia. reflexivity. Qed.
Theorem C133_luma_partial : forall f luma (subX subY : bool) startX startY maxW maxH w h l total, luma_of f luma -> 0 <= startX < 2 ^ 29 -> 0 <= startY < 2 ^ 29 -> 0 <= w <= 64 -> 0 <= h <= 64 ->
  lumaTable f (int_of subX) (int_of subY) startX startY maxW maxH w h = Ok (l, total) ->
  (forall i j, 0 <= i < h -> 0 <= j < w -> idx2 l i j = Ok (cfl_luma luma subX subY maxW maxH (startX + j) (startY + i))) /\
  total = sum_rect w h (fun i j => cfl_luma luma subX subY maxW maxH (startX + j) (startY + i)).
Proof.
  intros f luma subX subY sx sy mw mh w h l total HL HX HY Hw Hh E. set (G := fun i j => cfl_luma luma subX subY mw mh (sx + j) (sy + i)). unfold lumaTable, rfor_to in E.
  apply (rfor_from_post (fun m (acc : list (list Z) * Z) => (forall i j, 0 <= i < m -> 0 <= j < w -> idx2 (fst acc) i j = Ok (G i j)) /\ snd acc = sum_rect w m G)) in E.
  - replace (0 + Z.of_nat (Z.to_nat (h - 0))) with h in E by lia. exact E.
  - split; [intros; lia|reflexivity].
  - intros i [l0 s0] [l1 s1] Hi [A B] E1. cbn [fst snd] in A, B.
    apply (rfor_from_post (fun m (acc : list (list Z) * Z) => (forall i' j, 0 <= i' < i -> 0 <= j < w -> idx2 (fst acc) i' j = Ok (G i' j)) /\ (forall j, 0 <= j < m -> idx2 (fst acc) i j = Ok (G i j)) /\ snd acc = sum_rect w i G + sum_row m (G i))) in E1.
    + replace (0 + Z.of_nat (Z.to_nat (w - 0))) with w in E1 by lia. destruct E1 as (P1 & P2 & P3). cbn [fst snd] in *. split; [|rewrite sum_rect_S by lia; exact P3].
      intros i' j Hi' Hj. destruct (Z.eq_dec i' i) as [->|N]; [apply P2, Hj|apply P1; lia].
    + cbn [fst snd]. split; [exact A|]. split; [intros; lia|]. rewrite B. change (sum_row 0 (G i)) with 0. lia.
    + intros j [l2 s2] [l3 s3] Hj (P1 & P2 & P3) E2. cbn [fst snd] in *. apply rbind_inv in E2 as (v & Ev & E2). apply (lumaAt_spec _ luma) in Ev; [|exact HL|lia|lia]. apply rbind_inv in E2 as (l4 & El & E2). injection E2 as <- <-. split; [|split].
      * intros i' j' Hi' Hj'. rewrite (idx2_upd2_other _ _ _ _ _ _ _ El); [apply P1; assumption|intros [= ]; lia].
      * intros j' Hj'. destruct (Z.eq_dec j' j) as [->|N]; [rewrite (idx2_upd2_same _ _ _ _ _ El); f_equal; exact Ev|]. rewrite (idx2_upd2_other _ _ _ _ _ _ _ El); [apply P2; lia|intros [= ]; lia].
      * rewrite sum_row_S by lia. rewrite P3, Ev. unfold G. lia.
Qed.
Print Assumptions C133_luma_partial.
(** With alpha 0 the standard leaves the prediction as it is; the code makes it 2. *)
Definition grey : frame := repeat (repeat (repeat 100 16) 16) 3.
Definition cfl_grey (alphaU alphaV plane : Z) : res frame := predictChromaFromLuma true true 8 alphaU alphaV plane 0 0 0 8 8 grey.
Theorem C133_value_refuted : exists f', cfl_grey 0 0 1 = Ok f' /\ idx3 f' 1 2 3 = Ok 2 /\
  (forall l avg, cfl_sample 8 0 100 l avg = 100) /\ luma_of grey (fun _ _ => 100).
Proof.
  destruct (cfl_grey 0 0 1) as [f'| |] eqn:E; [|vm_compute in E; discriminate E..]. exists f'. split; [reflexivity|]. split; [|split].
  - unfold cfl_grey in E. apply C133_block_partial in E as [P _]; [|lia..]. apply (P 2 3); vm_compute; split; congruence.
  - intros l avg. unfold cfl_sample. rewrite Z.mul_0_l. reflexivity.
  - intros y x v H. apply (idx3_Forall (fun v => v = 100)) in H; [subst v; split; [reflexivity|lia]|]. apply Forall_forall. intros a Ha. apply repeat_spec in Ha as ->. apply Forall_forall. intros a Ha. apply repeat_spec in Ha as ->. apply Forall_forall. intros a Ha. exact (repeat_spec _ _ _ Ha).
Qed.
Print Assumptions C133_value_refuted.
(** The alpha of U is never used for a chroma plane. *)
Theorem C133_alpha_refuted : forall subX subY bitDepth au au' av plane startX startY t maxW maxH f, plane <> 0 ->
  predictChromaFromLuma subX subY bitDepth au av plane startX startY t maxW maxH f = predictChromaFromLuma subX subY bitDepth au' av plane startX startY t maxW maxH f.
Proof. intros. unfold predictChromaFromLuma. destruct (Z.eqb_spec plane 0); [contradiction|reflexivity]. Qed.
Print Assumptions C133_alpha_refuted.
Example C133_case : (let! r := lumaTable grey 1 1 2 0 8 8 4 4 in Ok (snd r)) = Ok (16 * 800) /\ cfl_luma (fun y x => y * 16 + x) true true 8 8 5 1 = 2 * ((2 * 16 + 6) + (2 * 16 + 7) + (3 * 16 + 6) + (3 * 16 + 7)) /\ cfl_sample 8 16 100 820 800 = 105.
Proof. split; [vm_compute; reflexivity|split; reflexivity]. Qed.

(** ** C136: the flags of decoded blocks at the start of a superblock *)
Definition set13 (d : list (list (list bool))) (l : list (Z * Z * Z)) : res (list (list (list bool))) := each (fun q d => updb3 d (fst (fst q)) (snd (fst q)) (snd q) false) l d.
Lemma updb3_upd3 d p r c v : updb3 d p r c v = upd3 d p r c v.
Proof. reflexivity. Qed.
Lemma array3_plane {B} n m k (d : list (list (list B))) p : array3 n m k d -> 0 <= p < n -> exists g, idx d p = Ok g /\ array2 m k g.
Proof.
  intros [H1 H2] Hp. assert (D : d <> []) by (intros ->; unfold zlen in H1; cbn in H1; lia). destruct d as [|g0 d0]; [contradiction|]. exists (nth (Z.to_nat p) (g0 :: d0) g0). split; [apply idx_ok; lia|]. rewrite Forall_forall in H2. apply H2, nth_In. unfold zlen in H1. lia.
Qed.
Lemma array2_row {B} m k (d : list (list B)) r : array2 m k d -> 0 <= r < m -> exists g, idx d r = Ok g /\ zlen g = k.
Proof.
  intros [H1 H2] Hp. destruct d as [|g0 d0]; [unfold zlen in H1; cbn in H1; lia|]. exists (nth (Z.to_nat r) (g0 :: d0) g0). split; [apply idx_ok; lia|]. rewrite Forall_forall in H2. apply (H2 (nth (Z.to_nat r) (g0 :: d0) g0)), nth_In. unfold zlen in H1. lia.
Qed.
(** one plane: superblocks of 64x64 *)
Lemma clear_cols d plane hx w4 h4 fuel : array3 3 13 13 d -> 0 <= plane < 3 -> 0 <= hx <= 12 -> (2 <= fuel)%nat -> clearCols fuel (-1) hx (-1) w4 h4 plane d = let! d := updb3 d plane 12 12 false in Ok (12, d).
Proof.
  intros HA Hp Hx Hf. destruct fuel as [|[|fuel]]; [lia|lia|]. destruct (array3_plane _ _ _ _ _ HA Hp) as (g & Eg & HG). destruct (array2_row _ _ _ 12 HG ltac:(lia)) as (row & Er & Lr). unfold clearCols. fold clearCols. destruct (Z.leb_spec (-1) hx); [|lia].
  rewrite Eg. cbn [rbind]. change (-1 <? 0) with true. cbv iota. rewrite (proj1 HG). change (13 + -1) with 12. rewrite Er. cbn [rbind]. rewrite Lr. change (13 + -1) with 12. change (12 <? 0) with false. cbn [andb]. cbv iota. destruct (updb3 d plane 12 12 false); [|reflexivity..]. cbn [rbind]. destruct (Z.leb_spec (12 + 1) hx); [lia|reflexivity].
Qed.
Lemma clear_plane d plane hx hy w4 h4 : array3 3 13 13 d -> 0 <= plane < 3 -> 0 <= hx <= 12 -> 0 <= hy <= 12 ->
  (let! d := clearRows (Z.to_nat (hy + 3)) (-1) hy hx w4 h4 plane d in let! dp := idx d plane in let! l := idx dp hy in updb3 d plane hy (zlen l - 1) false) = let! d := updb3 d plane 12 12 false in updb3 d plane hy 12 false.
Proof.
  intros HA Hp Hx Hy. replace (Z.to_nat (hy + 3)) with (S (S (Z.to_nat (hy + 1)))) by lia. unfold clearRows. fold clearRows. destruct (Z.leb_spec (-1) hy); [|lia]. rewrite clear_cols by (assumption || lia).
  destruct (updb3 d plane 12 12 false) as [d1| |] eqn:E; [|reflexivity..]. cbn [rbind fst snd]. destruct (Z.leb_spec (12 + 1) hy); [lia|]. cbn [rbind]. assert (HA1 : array3 3 13 13 d1) by (eapply array3_upd; [exact HA|exact E]).
  destruct (array3_plane _ _ _ _ _ HA1 Hp) as (g & Eg & HG). destruct (array2_row _ _ _ hy HG ltac:(lia)) as (row & Er & Lr). rewrite Eg. cbn [rbind]. rewrite Er. cbn [rbind]. rewrite Lr. reflexivity.
Qed.
Definition cleared (planes : Z) (subY : bool) (p r c : Z) : bool := (0 <=? p) && (p <? planes) && (c =? 12) && ((r =? 12) || (0 <? p) && subY && (r =? 6)).
(** With 64x64 superblocks it returns, and what it does is to clear the flag stored for the corner above left, and that for the row below the superblock, column -1; all other flags keep what the superblock before left there. *)
Theorem C136_small_partial : forall planes subX subY rowEnd colEnd r c d, (planes = 1 \/ planes = 3) -> array3 3 13 13 d -> exists d',
  clearForSuperblock false planes subX subY rowEnd colEnd r c d = Ok d' /\
  forall p y x, idxb3 d' p y x = if cleared planes subY p y x then Ok false else idxb3 d p y x.
Proof.
  intros planes subX subY rowEnd colEnd r c d HP HA. unfold clearForSuperblock, clearBlockDecodedFlags. change BLOCK_64X64 with 12.
  assert (K : forall n, (n = 1 \/ n = 3) -> exists d', (rfor_to 0 n (fun plane d => let! d := updb3 d plane 12 12 false in updb3 d plane (shr 12 (if (0 <? plane) && subY then 1 else 0)) 12 false) d) = Ok d' /\
    forall p y x, idxb3 d' p y x = if cleared n subY p y x then Ok false else idxb3 d p y x).
  { intros n Hn. assert (STEP : forall plane d, 0 <= plane < 3 -> array3 3 13 13 d -> exists d', (let! d := updb3 d plane 12 12 false in updb3 d plane (shr 12 (if (0 <? plane) && subY then 1 else 0)) 12 false) = Ok d' /\ array3 3 13 13 d' /\
      forall p y x, idxb3 d' p y x = if (p =? plane) && (x =? 12) && ((y =? 12) || (0 <? plane) && subY && (y =? 6)) then Ok false else idxb3 d p y x).
    { intros plane d0 Hp H0. set (hy := shr 12 _). assert (Hy : hy = if (0 <? plane) && subY then 6 else 12) by (unfold hy; destruct ((0 <? plane) && subY); reflexivity). clearbody hy.
      destruct (proj2 (array3_get _ _ _ _ plane 12 12 H0) ltac:(lia)) as (v & Ev). destruct (upd3_succeeds _ _ _ _ _ false Ev) as (d1 & E1). rewrite updb3_upd3, E1. cbn [rbind]. assert (H1 := array3_upd _ _ _ _ _ _ _ _ _ H0 E1).
      assert (Hy2 : 0 <= hy < 13) by (rewrite Hy; destruct ((0 <? plane) && subY); lia). destruct (proj2 (array3_get _ _ _ _ plane hy 12 H1) ltac:(lia)) as (v2 & Ev2). destruct (upd3_succeeds _ _ _ _ _ false Ev2) as (d2 & E2). rewrite updb3_upd3, E2. exists d2. split; [reflexivity|]. split; [exact (array3_upd _ _ _ _ _ _ _ _ _ H1 E2)|].
      intros p y x. change (idxb3 d2 p y x) with (idx3 d2 p y x). change (idxb3 d0 p y x) with (idx3 d0 p y x).
      destruct (Z.eqb_spec p plane) as [->|N]; cbn [andb].
      - destruct (Z.eqb_spec x 12) as [->|N]; cbn [andb].
        + destruct (Z.eq_dec y hy) as [->|Ny].
          * rewrite (idx3_upd3_same _ _ _ _ _ _ E2). rewrite Hy. destruct ((0 <? plane) && subY); reflexivity.
          * rewrite (idx3_upd3_other _ _ _ _ _ _ _ _ _ E2) by (intros [= ]; congruence). destruct (Z.eqb_spec y 12) as [->|N12]; cbn [orb]; [exact (idx3_upd3_same _ _ _ _ _ _ E1)|]. rewrite (idx3_upd3_other _ _ _ _ _ _ _ _ _ E1) by (intros [= ]; congruence).
            destruct ((0 <? plane) && subY); cbn [andb]; [|reflexivity]. destruct (Z.eqb_spec y 6); [congruence|reflexivity].
        + rewrite (idx3_upd3_other _ _ _ _ _ _ _ _ _ E2) by (intros [= ]; congruence). rewrite (idx3_upd3_other _ _ _ _ _ _ _ _ _ E1) by (intros [= ]; congruence). reflexivity.
      - rewrite (idx3_upd3_other _ _ _ _ _ _ _ _ _ E2) by (intros [= ]; congruence). rewrite (idx3_upd3_other _ _ _ _ _ _ _ _ _ E1) by (intros [= ]; congruence). reflexivity. }
    destruct (STEP 0 d ltac:(lia) HA) as (d1 & E1 & A1 & P1). unfold rfor_to, cleared. destruct Hn as [-> | ->].
    - change (Z.to_nat (1 - 0)) with 1%nat. cbn [rfor_from]. rewrite E1. cbn [rbind]. exists d1. split; [reflexivity|]. intros p y x. rewrite P1. destruct (Z.eqb_spec p 0) as [->|N]; [reflexivity|]. replace ((0 <=? p) && (p <? 1)) with false by lia. reflexivity.
    - change (Z.to_nat (3 - 0)) with 3%nat. cbn [rfor_from]. rewrite E1. cbn [rbind]. change (0 + 1) with 1. change (1 + 1) with 2. destruct (STEP 1 d1 ltac:(lia) A1) as (d2 & E2 & A2 & P2). rewrite E2. cbn [rbind]. destruct (STEP 2 d2 ltac:(lia) A2) as (d3 & E3 & A3 & P3). rewrite E3. cbn [rbind]. exists d3. split; [reflexivity|].
      intros p y x. rewrite P3, P2, P1. destruct (Z.eqb_spec p 2) as [->|N2]; [change (0 <=? 2) with true; change (2 <? 3) with true; change (2 =? 1) with false; change (2 =? 0) with false; cbn [andb]; destruct ((x =? 12) && ((y =? 12) || (0 <? 2) && subY && (y =? 6))); reflexivity|].
      destruct (Z.eqb_spec p 1) as [->|N1]; [change (0 <=? 1) with true; change (1 <? 3) with true; change (1 =? 0) with false; cbn [andb]; destruct ((x =? 12) && ((y =? 12) || (0 <? 1) && subY && (y =? 6))); reflexivity|]. destruct (Z.eqb_spec p 0) as [->|N0]; [reflexivity|]. replace ((0 <=? p) && (p <? 3)) with false by lia. reflexivity. }
  destruct (K planes HP) as (d' & E & P). exists d'. split; [|exact P]. rewrite <- E. clear E P K.
  assert (EXT : forall n i (d : list (list (list bool))), array3 3 13 13 d -> 0 <= i -> i + Z.of_nat n <= 3 -> forall f g : Z -> list (list (list bool)) -> res (list (list (list bool))), (forall i d, array3 3 13 13 d -> 0 <= i < 3 -> f i d = g i d) -> (forall i d d', array3 3 13 13 d -> g i d = Ok d' -> array3 3 13 13 d') -> rfor_from n i f d = rfor_from n i g d).
  { induction n as [|n IH]; intros i d0 H0 Hi Hn f g FG GA; [reflexivity|]. cbn [rfor_from]. rewrite FG by (assumption || lia). destruct (g i d0) as [d1| |] eqn:E1; [|reflexivity..]. cbn [rbind]. apply IH; try assumption; [eapply GA; eassumption|lia|lia]. }
  unfold rfor_to. apply EXT; try assumption; [lia|lia| |].
  - intros i d0 H0 Hi. cbv beta zeta. apply clear_plane; [exact H0|exact Hi|destruct ((0 <? i) && subX); vm_compute; split; congruence|destruct ((0 <? i) && subY); vm_compute; split; congruence].
  - intros i d0 d1 H0 E1. apply rbind_inv in E1 as (d2 & E2 & E3). eapply array3_upd; [eapply array3_upd; [exact H0|exact E2]|exact E3].
Qed.
Print Assumptions C136_small_partial.
(** So the flags of the superblocks above and to the left are not set, though the standard has them true... *)
Theorem C136_start_refuted : forall planes subX subY rowEnd colEnd r c d d', (planes = 1 \/ planes = 3) -> array3 3 13 13 d -> (forall p y x, idxb3 d p y x <> Ok true) ->
  clearForSuperblock false planes subX subY rowEnd colEnd r c d = Ok d' -> (forall p y x, idxb3 d' p y x <> Ok true) /\ (0 < colEnd - c -> start_flag 16 (colEnd - c) (rowEnd - r) (-1) 0 = true).
Proof.
  intros planes subX subY rowEnd colEnd r c d d' HP HA HF E. destruct (C136_small_partial planes subX subY rowEnd colEnd r c d HP HA) as (d2 & E2 & P). rewrite E2 in E. injection E as <-. split.
  - intros p y x. rewrite P. destruct (cleared planes subY p y x); [discriminate|apply HF].
  - intros H. unfold start_flag. change (-1 <? 0) with true. cbn [andb]. destruct (Z.ltb_spec 0 (colEnd - c)); [reflexivity|lia].
Qed.
Print Assumptions C136_start_refuted.
(** ... and with 128x128 superblocks no superblock gets past this point. *)
Lemma clear_cols_large d hx w4 h4 fuel : array3 3 13 13 d -> 13 <= hx -> clearCols (S (S fuel)) (-1) hx (-1) w4 h4 0 d = Panic.
Proof.
  intros HA Hx. destruct (array3_plane _ _ _ _ 0 HA ltac:(lia)) as (g & Eg & HG). destruct (array2_row _ _ _ 12 HG ltac:(lia)) as (row & Er & Lr).
  unfold clearCols. fold clearCols. destruct (Z.leb_spec (-1) hx); [|lia]. rewrite Eg. cbn [rbind]. change (-1 <? 0) with true. cbv iota. rewrite (proj1 HG). change (13 + -1) with 12. rewrite Er. cbn [rbind]. rewrite Lr. change (13 + -1) with 12. change (12 <? 0) with false. cbn [andb]. cbv iota.
  destruct (updb3 d 0 12 12 false) as [d1| |] eqn:E1; [|reflexivity|exfalso; revert E1; rewrite updb3_upd3; apply upd3_nh]. cbn [rbind]. destruct (Z.leb_spec (12 + 1) hx); [|lia]. assert (H1 : array3 3 13 13 d1) by (eapply array3_upd; [exact HA|exact E1]). destruct (array3_plane _ _ _ _ 0 H1 ltac:(lia)) as (g1 & Eg1 & HG1).
  rewrite Eg1. cbn [rbind]. change (12 + 1 <? 0) with false. change (12 <? 0) with false. cbn [rbind andb]. cbv iota. change (12 + 1 <? 0) with false. cbn [rbind andb]. cbv iota. destruct (updb3 d1 0 12 (12 + 1) false) as [d2| |] eqn:E2; [|reflexivity|exfalso; revert E2; rewrite updb3_upd3; apply upd3_nh].
  rewrite updb3_upd3 in E2. apply idx3_upd3_same in E2 as E3. exfalso. assert (H2 : array3 3 13 13 d2) by (eapply array3_upd; [exact H1|exact E2]). assert (0 <= 12 + 1 < 13); [|lia]. apply (proj1 (array3_get _ _ _ _ 0 12 (12 + 1) H2) (ex_intro _ false E3)).
Qed.
Lemma clear_rows_large d hx hy w4 h4 fuel : array3 3 13 13 d -> 13 <= hx -> 0 <= hy -> clearRows (S fuel) (-1) hy hx w4 h4 0 d = Panic.
Proof. intros HA Hx Hy. unfold clearRows. fold clearRows. destruct (Z.leb_spec (-1) hy); [|lia]. replace (Z.to_nat (hx + 3)) with (S (S (Z.to_nat (hx + 1)))) by lia. rewrite clear_cols_large by assumption. reflexivity. Qed.
Theorem C136_large_refuted : forall planes subX subY rowEnd colEnd r c d, 1 <= planes -> array3 3 13 13 d -> clearForSuperblock true planes subX subY rowEnd colEnd r c d = Panic.
Proof.
  intros planes subX subY rowEnd colEnd r c d HP HA. unfold clearForSuperblock, clearBlockDecodedFlags, rfor_to. replace (Z.to_nat (planes - 0)) with (S (Z.to_nat (planes - 1))) by lia. cbn [rfor_from]. change (0 <? 0) with false. cbn [andb]. cbv iota.
  change BLOCK_128X128 with 15. change (shr 15 0) with 15. change (Z.to_nat (15 + 3)) with (S 17). rewrite clear_rows_large by (assumption || lia). reflexivity.
Qed.
Print Assumptions C136_large_refuted.
Example C136_case : array3 3 13 13 (repeat (repeat (repeat true 13) 13) 3) /\ (let! d := clearForSuperblock false 3 true true 16 16 0 0 (repeat (repeat (repeat true 13) 13) 3) in idxb3 d 1 6 12) = Ok false.
Proof. split; [|vm_compute; reflexivity]. split; [reflexivity|]. apply Forall_forall. intros a Ha. apply repeat_spec in Ha as ->. split; [reflexivity|]. apply Forall_forall. intros a Ha. apply repeat_spec in Ha as ->. reflexivity. Qed.

(** ** C132: one transform block *)
(** what is called is recorded; [eob] coefficients are read *)
Definition rec_pal (p x y i j t : Z) (l : list event) : res (list event) := Ok (l ++ [Palette p x y i j t]).
Definition rec_intra (p x y : Z) (hl ha ar bl : bool) (mode lw lh : Z) (l : list event) : res (list event) := Ok (l ++ [Intra p x y hl ha ar bl mode lw lh]).
Definition rec_cfl (p x y t mw mh : Z) (l : list event) : res (list event) := Ok (l ++ [FromLuma p x y t]).
Definition rec_coefs (eob p x y t : Z) (l : list event) : res (Z * list event) := Ok (eob, l ++ [Coeffs p x y t]).
Definition rec_recon (p x y t : Z) (l : list event) : res (list event) := Ok (l ++ [Residue p x y t]).
Definition rec_block (eob : Z) (e : REnv) (q : TEnv) (c : call) : TSt (list event) -> res (TSt (list event)) :=
  transformBlock rec_pal rec_intra rec_cfl (rec_coefs eob) rec_recon e q (cPlane c) (cX c) (cY c) (cTx c) (cOffX c) (cOffY c).
Definition info_of (e : REnv) (q : TEnv) : blockinfo := mkBlockinfo (rInter e) (tSkip q) (negb (tPalY q =? 0)) (negb (tPalUV q =? 0)) (tY q) (tUV q) (tL q) (tU q) (tLC q) (tUC q).
Definition call_ok (c : call) : Prop := 0 <= cPlane c < 3 /\ 0 <= cTx c < 19 /\ 0 <= left_of c < 2 ^ 30 /\ 0 <= top_of c < 2 ^ 30.
(** the frame's size in a plane *)
Definition frame_edge (p : Z) (sub : bool) (n : Z) : Z := if (0 <? p) && sub then n * 4 / 2 else n * 4.
Definition in_frame (e : REnv) (c : call) : Prop := left_of c < frame_edge (cPlane c) (rSubX e) (rCols e) /\ top_of c < frame_edge (cPlane c) (rSubY e) (rRows e).
Definition sub_of (c : call) (sub : bool) : Z := if 0 <? cPlane c then int_of sub else 0.
Lemma sub_of_cases c sub : sub_of c sub = 0 /\ (0 <? cPlane c) && sub = false \/ sub_of c sub = 1 /\ (0 <? cPlane c) && sub = true.
Proof. unfold sub_of, int_of. destruct (0 <? cPlane c), sub; auto. Qed.
Lemma unit_row c sub v : 0 <= v < 2 ^ 30 -> shr (shr (shl v (sub_of c sub)) 2) (sub_of c sub) = unit4 v.
Proof.
  intros H. unfold unit4. destruct (sub_of_cases c sub) as [[-> _]|[-> _]]; rewrite shl_small, !shr_div by lia.
  - rewrite Z.pow_0_r, Z.mul_1_r, Z.div_1_r. reflexivity.
  - rewrite Z.div_div by lia. change (2 ^ 2 * 2 ^ 1) with (4 * 2). change (2 ^ 1) with 2. apply Z.div_mul_cancel_r; lia.
Qed.
Lemma unit_sb c sub v : 0 <= v < 2 ^ 30 -> shr (Z.land (shr (shl v (sub_of c sub)) 2) 15) (sub_of c sub) = unit_in_sb (cPlane c) sub v.
Proof.
  intros H. unfold unit_in_sb. change 15 with (Z.ones 4). rewrite Z.land_ones by lia. destruct (sub_of_cases c sub) as [[-> ->]|[-> ->]]; rewrite shl_small, !shr_div by lia.
  - rewrite Z.pow_0_r, Z.mul_1_r, Z.div_1_r. reflexivity.
  - change (2 ^ 1) with 2. change (2 ^ 2) with (2 * 2). rewrite Z.div_mul_cancel_r by lia. replace (v / 4) with (v / 2 / 2) by (rewrite Z.div_div by lia; reflexivity). change (2 ^ 4) with 16. set (u := v / 2). clearbody u.
    rewrite (Z.mod_eq u 16) by lia. rewrite (Z.mod_eq (u / 2) 8) by lia. rewrite Z.div_div by lia. change (2 * 8) with 16. replace (u - 16 * (u / 16)) with (u + (- 8 * (u / 16)) * 2) by lia. rewrite Z.div_add by lia. lia.
Qed.
Lemma edge_shr c sub n : shr (n * MI_SIZE) (sub_of c sub) = frame_edge (cPlane c) sub n.
Proof. unfold frame_edge, MI_SIZE. destruct (sub_of_cases c sub) as [[-> ->]|[-> ->]]; rewrite shr_div by lia; [apply Z.div_1_r|reflexivity]. Qed.
(** the loops at the end *)
Definition mark {A} (c : call) (u v us vs n : Z) (s : TSt A) : res (TSt A) :=
  rfor_to 0 n (fun i s => rfor_to 0 n (fun j s =>
    let! lf := upd3 (tsLf s) (cPlane c) (u + i) (v + j) (cTx c) in
    let! d := updb3 (tsDec s) (cPlane c) (us + i) (vs + j) true in
    Ok (mkTSt (tsA s) lf d (tsW s) (tsH s))) s) s.
Lemma mark_post {A} c u v us vs n (s s' : TSt A) : 0 <= n -> mark c u v us vs n s = Ok s' -> tsA s' = tsA s /\ tsW s' = tsW s /\ tsH s' = tsH s /\
  (forall p r k, (p = cPlane c /\ u <= r < u + n /\ v <= k < v + n -> idx3 (tsLf s') p r k = Ok (cTx c)) /\ (~ (p = cPlane c /\ u <= r < u + n /\ v <= k < v + n) -> idx3 (tsLf s') p r k = idx3 (tsLf s) p r k)) /\
  (forall p r k, (p = cPlane c /\ us <= r < us + n /\ vs <= k < vs + n -> idx3 (tsDec s') p r k = Ok true) /\ (~ (p = cPlane c /\ us <= r < us + n /\ vs <= k < vs + n) -> idx3 (tsDec s') p r k = idx3 (tsDec s) p r k)).
Proof.
  intros Hn E. unfold mark in E.
  assert (K : tsA s' = tsA s /\ tsW s' = tsW s /\ tsH s' = tsH s).
  { revert E. apply (rfor_to_keep (fun s' => tsA s' = tsA s /\ tsW s' = tsW s /\ tsH s' = tsH s)); [auto|]. intros i b b' _ Hb. apply (rfor_to_keep (fun s' => tsA s' = tsA s /\ tsW s' = tsW s /\ tsH s' = tsH s)); [exact Hb|]. intros j b1 b2 _ Hb1 E1. apply rbind_inv in E1 as (lf & _ & E1). apply rbind_inv in E1 as (d & _ & E1). injection E1 as <-. exact Hb1. }
  destruct K as (K1 & K2 & K3). split; [exact K1|]. split; [exact K2|]. split; [exact K3|].
  assert (W1 : writes (fun (s : TSt A) (q : Z * Z * Z) => get3 (tsLf s) q) (fun _ => Ok (cTx c)) (fun q => exists i, 0 <= i < n /\ exists j, 0 <= j < n /\ q = (cPlane c, u + i, v + j)) s s').
  { refine (writes_loop (fun (s : TSt A) (q : Z * Z * Z) => get3 (tsLf s) q) (fun _ => Ok (cTx c)) 0 n _ (fun i q => exists j, 0 <= j < n /\ q = (cPlane c, u + i, v + j)) s s' _ _ E); [intros; apply decided_range; intros; apply decided_eq3|].
    intros i g g' Hi Eg. refine (writes_loop (fun (s : TSt A) (q : Z * Z * Z) => get3 (tsLf s) q) (fun _ => Ok (cTx c)) 0 n _ (fun j q => q = (cPlane c, u + i, v + j)) g g' _ _ Eg); [intros; apply decided_eq3|].
    intros j h h' Hj Eh. apply rbind_inv in Eh as (lf & E1 & Eh). apply rbind_inv in Eh as (d & _ & Eh). injection Eh as <-. exact (writes_upd3 (fun _ => Ok (cTx c)) _ _ _ (cTx c) (tsLf h) lf eq_refl E1). }
  assert (W2 : writes (fun (s : TSt A) (q : Z * Z * Z) => get3 (tsDec s) q) (fun _ => Ok true) (fun q => exists i, 0 <= i < n /\ exists j, 0 <= j < n /\ q = (cPlane c, us + i, vs + j)) s s').
  { refine (writes_loop (fun (s : TSt A) (q : Z * Z * Z) => get3 (tsDec s) q) (fun _ => Ok true) 0 n _ (fun i q => exists j, 0 <= j < n /\ q = (cPlane c, us + i, vs + j)) s s' _ _ E); [intros; apply decided_range; intros; apply decided_eq3|].
    intros i g g' Hi Eg. refine (writes_loop (fun (s : TSt A) (q : Z * Z * Z) => get3 (tsDec s) q) (fun _ => Ok true) 0 n _ (fun j q => q = (cPlane c, us + i, vs + j)) g g' _ _ Eg); [intros; apply decided_eq3|].
    intros j h h' Hj Eh. apply rbind_inv in Eh as (lf & _ & Eh). apply rbind_inv in Eh as (d & E1 & Eh). injection Eh as <-. exact (writes_upd3 (fun _ => Ok true) _ _ _ true (tsDec h) d eq_refl E1). }
  destruct W1 as [A1 B1]. destruct W2 as [A2 B2]. split; intros p r k; split.
  - intros (-> & Hr & Hk). destruct (A1 (cPlane c, r, k)) as (w & [= <-] & Ew); [exists (r - u); split; [lia|]; exists (k - v); split; [lia|f_equal; [f_equal|]; lia]|exact Ew].
  - intros N. apply (B1 (p, r, k)). intros (i & Hi & j & Hj & [= -> -> ->]). apply N. lia.
  - intros (-> & Hr & Hk). destruct (A2 (cPlane c, r, k)) as (w & [= <-] & Ew); [exists (r - us); split; [lia|]; exists (k - vs); split; [lia|f_equal; [f_equal|]; lia]|exact Ew].
  - intros N. apply (B2 (p, r, k)). intros (i & Hi & j & Hj & [= -> -> ->]). apply N. lia.
Qed.
Lemma mark_array {A} c u v us vs n (s s' : TSt A) : mark c u v us vs n s = Ok s' -> array3 3 2 2 (tsLf s) -> array3 3 2 2 (tsLf s').
Proof.
  intros E HA. unfold mark in E. revert E. apply (rfor_to_keep (fun s' => array3 3 2 2 (tsLf s'))); [exact HA|]. intros i b b' _ Hb. apply (rfor_to_keep (fun s' => array3 3 2 2 (tsLf s'))); [exact Hb|]. intros j b1 b2 _ Hb1 E1.
  apply rbind_inv in E1 as (lf & E2 & E1). apply rbind_inv in E1 as (d & _ & E1). injection E1 as <-. cbn [tsLf]. exact (array3_upd _ _ _ _ _ _ _ _ _ Hb1 E2).
Qed.
Section Any.
  Context {A : Type} (pal : Z -> Z -> Z -> Z -> Z -> Z -> A -> res A) (intra : Z -> Z -> Z -> bool -> bool -> bool -> bool -> Z -> Z -> Z -> A -> res A) (cfl : Z -> Z -> Z -> Z -> Z -> Z -> A -> res A) (coefs : Z -> Z -> Z -> Z -> A -> res (Z * A)) (recon : Z -> Z -> Z -> Z -> A -> res A).
  Definition any_block (e : REnv) (q : TEnv) (c : call) : TSt A -> res (TSt A) := transformBlock pal intra cfl coefs recon e q (cPlane c) (cX c) (cY c) (cTx c) (cOffX c) (cOffY c).
  Definition col_of (e : REnv) (c : call) : Z := shr (shl (top_of c) (sub_of c (rSubY e))) 2.
  Definition sb_mask (q : TEnv) : Z := if t128 q then 21 else 15.
  Definition middle (e : REnv) (q : TEnv) (c : call) (s : TSt A) : res (TSt A) :=
    let! s := if rInter e then Ok s else predictBlock pal intra cfl e q (cPlane c) (left_of c) (top_of c) (cTx c) (cOffX c) (cOffY c) (sub_of c (rSubX e)) (sub_of c (rSubY e)) (Z.land (col_of e c) (sb_mask q)) (Z.land (col_of e c) (sb_mask q)) (tx_w (cTx c) / 4) (tx_h (cTx c) / 4) s in
    let! a := if tSkip q then Ok (tsA s) else let! r := coefs (cPlane c) (left_of c) (top_of c) (cTx c) (tsA s) in if 0 <? fst r then recon (cPlane c) (left_of c) (top_of c) (cTx c) (snd r) else Ok (snd r) in
    Ok (mkTSt a (tsLf s) (tsDec s) (tsW s) (tsH s)).
  Lemma block_split e q c s : call_ok c -> in_frame e c -> any_block e q c s =
    let! s := middle e q c s in mark c (shr (col_of e c) (sub_of c (rSubY e))) (shr (col_of e c) (sub_of c (rSubX e))) (shr (Z.land (col_of e c) (sb_mask q)) (sub_of c (rSubY e))) (shr (Z.land (col_of e c) (sb_mask q)) (sub_of c (rSubX e))) (tx_h (cTx c) / 4) s.
  Proof.
    intros (Hp & Ht & HX & HY) [F1 F2]. destruct (tx_facts _ Ht) as (T1 & T2 & _ & _ & T5 & T6 & _). unfold any_block, transformBlock. cbv zeta. fold (left_of c) (top_of c). fold (sub_of c (rSubX e)) (sub_of c (rSubY e)). rewrite T1, T2. cbn [rbind]. change MI_SIZE_LOG2 with 2. rewrite T5, T6.
    rewrite !edge_shr. destruct (Z.leb_spec (frame_edge (cPlane c) (rSubX e) (rCols e)) (left_of c)); [lia|]. destruct (Z.leb_spec (frame_edge (cPlane c) (rSubY e) (rRows e)) (top_of c)); [lia|]. cbn [orb]. cbv iota.
    unfold middle. fold (col_of e c) (sb_mask q). destruct (if rInter e then _ else _) as [s1| |]; cbn [rbind]; [|reflexivity..]. destruct (if tSkip q then _ else _) as [a| |]; cbn [rbind]; reflexivity.
  Qed.
  Lemma middle_keep e q c s s1 : middle e q c s = Ok s1 -> tsLf s1 = tsLf s /\ tsDec s1 = tsDec s /\ (tsW s1, tsH s1) = if negb (rInter e) && (cPlane c =? 0) then (left_of c + tx_w (cTx c) / 4 * 4, top_of c + tx_h (cTx c) / 4 * 4) else (tsW s, tsH s).
  Proof.
    intros E. unfold middle in E. apply rbind_inv in E as (s2 & E2 & E). apply rbind_inv in E as (a & Ea & E). injection E as <-. cbn [tsLf tsDec tsW tsH]. destruct (rInter e); cbn [negb andb].
    - injection E2 as <-. auto.
    - unfold predictBlock in E2. apply rbind_inv in E2 as (a2 & _ & E2). destruct (cPlane c =? 0); injection E2 as <-; cbn [tsLf tsDec tsW tsH]; auto.
  Qed.
End Any.
(** A transform block outside the frame does nothing. *)
Theorem C132_outside : forall A (pal : Z -> Z -> Z -> Z -> Z -> Z -> A -> res A) intra cfl coefs recon e q c s, call_ok c -> ~ in_frame e c -> any_block pal intra cfl coefs recon e q c s = Ok s.
Proof.
  intros A pal intra cfl coefs recon e q c s (Hp & Ht & HX & HY) NF. destruct (tx_facts _ Ht) as (T1 & T2 & _ & _ & T5 & T6 & _). unfold any_block, transformBlock. cbv zeta. fold (left_of c) (top_of c). fold (sub_of c (rSubX e)) (sub_of c (rSubY e)). rewrite T1, T2. cbn [rbind]. rewrite !edge_shr. unfold in_frame in NF.
  destruct (Z.leb_spec (frame_edge (cPlane c) (rSubX e) (rCols e)) (left_of c)); [reflexivity|]. destruct (Z.leb_spec (frame_edge (cPlane c) (rSubY e) (rRows e)) (top_of c)); [reflexivity|]. exfalso. apply NF. lia.
Qed.
Print Assumptions C132_outside.
(** A square transform block on the diagonal, with 64x64 superblocks: its size is recorded and it is marked as decoded, at exactly its positions; the luma size is recorded for chroma from luma. *)
Theorem C132_marks_partial : forall A (pal : Z -> Z -> Z -> Z -> Z -> Z -> A -> res A) intra cfl coefs recon e q c s s', call_ok c -> in_frame e c -> rSubX e = rSubY e -> left_of c = top_of c -> tx_w (cTx c) = tx_h (cTx c) -> t128 q = false ->
  any_block pal intra cfl coefs recon e q c s = Ok s' ->
  let here r0 c0 p r k := p = cPlane c /\ r0 <= r < r0 + tx_h (cTx c) / 4 /\ c0 <= k < c0 + tx_w (cTx c) / 4 in
  let mine := here (unit4 (top_of c)) (unit4 (left_of c)) in
  let mine_sb := here (unit_in_sb (cPlane c) (rSubY e) (top_of c)) (unit_in_sb (cPlane c) (rSubX e) (left_of c)) in
  (forall p r k, (mine p r k -> idx3 (tsLf s') p r k = Ok (cTx c)) /\ (~ mine p r k -> idx3 (tsLf s') p r k = idx3 (tsLf s) p r k)) /\
  (forall p r k, (mine_sb p r k -> idx3 (tsDec s') p r k = Ok true) /\ (~ mine_sb p r k -> idx3 (tsDec s') p r k = idx3 (tsDec s) p r k)) /\
  (tsW s', tsH s') = if negb (rInter e) && (cPlane c =? 0) then (left_of c + tx_w (cTx c), top_of c + tx_h (cTx c)) else (tsW s, tsH s).
Proof.
  intros A pal intra cfl coefs recon e q c s s' HC HF HS HD HQ H128 E. rewrite block_split in E by assumption. apply rbind_inv in E as (s1 & E1 & E). apply middle_keep in E1 as (K1 & K2 & K3). destruct HC as (Hp & Ht & HX & HY). destruct (tx_facts _ Ht) as (_ & _ & _ & _ & _ & _ & T7 & T8 & T9 & T10).
  unfold col_of, sb_mask in E. rewrite H128 in E. rewrite HS in E. rewrite unit_row, unit_sb in E by assumption. apply mark_post in E as (M1 & M2 & M3 & M4 & M5); [|lia]. rewrite <- HQ in M4, M5. rewrite HS, HD. cbv zeta. rewrite K1 in M4. rewrite K2 in M5. rewrite HQ in *. split; [|split].
  - intros p r k. destruct (M4 p r k) as [U1 U2]. split; [exact U1|exact U2].
  - intros p r k. destruct (M5 p r k) as [U1 U2]. split; [exact U1|exact U2].
  - rewrite M2, M3, K3. rewrite HD. destruct (negb (rInter e) && (cPlane c =? 0)); [|reflexivity]. f_equal; lia.
Qed.
Print Assumptions C132_marks_partial.
(** A transform block that reaches below the first 8 rows of its plane never returns: the table of transform sizes has 2 rows. *)
Theorem C132_rows_refuted : forall A (pal : Z -> Z -> Z -> Z -> Z -> Z -> A -> res A) intra cfl coefs recon e q c s s', call_ok c -> in_frame e c -> array3 3 2 2 (tsLf s) -> 2 < unit4 (top_of c) + tx_h (cTx c) / 4 -> any_block pal intra cfl coefs recon e q c s <> Ok s'.
Proof.
  intros A pal intra cfl coefs recon e q c s s' HC HF HA HR E. rewrite block_split in E by assumption. apply rbind_inv in E as (s1 & E1 & E). apply middle_keep in E1 as (K1 & _ & _). destruct HC as (Hp & Ht & HX & HY). destruct (tx_facts _ Ht) as (_ & _ & _ & _ & _ & _ & T7 & T8 & T9 & T10).
  unfold col_of in E at 1. rewrite unit_row in E by assumption. assert (HA' := mark_array _ _ _ _ _ _ _ _ E). rewrite K1 in HA'. specialize (HA' HA). apply mark_post in E as (_ & _ & _ & M4 & _); [|lia].
  destruct (M4 (cPlane c) (unit4 (top_of c) + tx_h (cTx c) / 4 - 1) (shr (col_of e c) (sub_of c (rSubX e)))) as [U _]. assert (G := proj1 (array3_get _ _ _ _ _ _ _ HA') (ex_intro _ (cTx c) (U ltac:(lia)))). lia.
Qed.
Print Assumptions C132_rows_refuted.
Lemma flag_read d p r k v rows : idx d p = Ok rows -> (if r <? 0 then zlen rows + r else r) = (if r <? 0 then zlen rows - 1 else r) -> forall k', (forall row, idx rows (if r <? 0 then zlen rows + r else r) = Ok row -> k' = if k <? 0 then zlen row - 1 else k) ->
  idxb3 d p (if r <? 0 then zlen rows + r else r) k' = Ok v -> flag d p r k v.
Proof.
  intros E1 E2 k' HK E. unfold idxb3 in E. rewrite E1 in E. cbn [rbind] in E. unfold idx2 in E. destruct (idx rows (if r <? 0 then zlen rows + r else r)) as [row| |] eqn:ER; [|discriminate E..]. cbn [rbind] in E. exists rows, row. split; [exact E1|]. rewrite <- E2. split; [exact ER|]. rewrite <- (HK row eq_refl). exact E.
Qed.
(** A transform block in the frame, on the diagonal, of a block whose luma and chroma neighbours are available alike, with 64x64 superblocks: if it returns, it has done what the standard says, in this order. *)
Theorem C132_events_partial : forall eob e q c s s', call_ok c -> in_frame e c -> rSubX e = rSubY e -> left_of c = top_of c -> t128 q = false -> tL q = tLC q -> tU q = tUC q ->
  rec_block eob e q c s = Ok s' -> exists aboveRight belowLeft,
  (rInter e = false -> (if cPlane c =? 0 then tPalY q else tPalUV q) = 0 ->
    flag (tsDec s) (cPlane c) (unit_in_sb (cPlane c) (rSubY e) (top_of c) - 1) (unit_in_sb (cPlane c) (rSubX e) (left_of c) + tx_w (cTx c) / 4) aboveRight /\
    flag (tsDec s) (cPlane c) (unit_in_sb (cPlane c) (rSubY e) (top_of c) + tx_h (cTx c) / 4) (unit_in_sb (cPlane c) (rSubX e) (left_of c) - 1) belowLeft) /\
  tsA s' = tsA s ++ std_events (info_of e q) c aboveRight belowLeft eob.
Proof.
  intros eob e q c s s' HC HF HS HD H128 HL HU E. change (rec_block eob e q c s) with (any_block rec_pal rec_intra rec_cfl (rec_coefs eob) rec_recon e q c s) in E. rewrite block_split in E by assumption. apply rbind_inv in E as (s1 & E1 & E). destruct HC as (Hp & Ht & HX & HY).
  destruct (tx_facts _ Ht) as (T1 & T2 & T3 & T4 & _ & _ & T7 & T8 & T9 & T10). apply mark_post in E as (M1 & _); [|lia]. rewrite M1. clear M1 s'. unfold middle in E1. apply rbind_inv in E1 as (s2 & E2 & E1).
  assert (REST : forall l, tsA s2 = tsA s ++ l -> tsA s1 = tsA s ++ (l ++ if tSkip q then [] else Coeffs (cPlane c) (left_of c) (top_of c) (cTx c) :: if 0 <? eob then [Residue (cPlane c) (left_of c) (top_of c) (cTx c)] else [])).
  { intros l Hl. apply rbind_inv in E1 as (a & Ea & E1). injection E1 as <-. cbn [tsA]. destruct (tSkip q); [injection Ea as <-; rewrite app_nil_r; exact Hl|]. unfold rec_coefs in Ea. cbn [rbind fst snd] in Ea. rewrite Hl in Ea. destruct (0 <? eob); unfold rec_recon in Ea; injection Ea as <-; rewrite <- !app_assoc; reflexivity. }
  unfold std_events, info_of. cbn [bInter bSkip bPalY bPalUV bY bUV bL bU bLC bUC]. cbv zeta.
  destruct (rInter e) eqn:RI. { injection E2 as <-. exists false, false. split; [discriminate|]. apply REST. rewrite app_nil_r. reflexivity. }
  unfold predictBlock in E2. apply rbind_inv in E2 as (a2 & Ea & E2). assert (A2 : tsA s2 = a2) by (destruct (cPlane c =? 0); injection E2 as <-; reflexivity). clear E2.
  unfold col_of, sb_mask in Ea. rewrite H128, HS in Ea. cbv zeta in Ea. rewrite unit_sb in Ea by assumption. set (u := unit_in_sb (cPlane c) (rSubY e) (top_of c)) in *. assert (Hu : 0 <= u) by (unfold u, unit_in_sb; destruct ((0 <? cPlane c) && rSubY e); apply Z.mod_pos_bound; lia).
  rewrite HS, HD. rewrite HD in REST. fold u. unfold bool_of in Ea. set (P := (cPlane c =? 0) && negb (tPalY q =? 0) || negb (cPlane c =? 0) && negb (tPalUV q =? 0)) in Ea.
  assert (HP : P = if cPlane c =? 0 then negb (tPalY q =? 0) else negb (tPalUV q =? 0)) by (unfold P; destruct (cPlane c =? 0); cbn [andb orb negb]; [apply orb_false_r|reflexivity]). rewrite <- HP. clearbody P. destruct P.
  { unfold rec_pal in Ea. injection Ea as <-. exists false, false. split; [intros _ Z0; destruct (cPlane c =? 0); rewrite Z0 in HP; discriminate HP|]. apply REST. rewrite HD in A2. exact A2. }
  rewrite T3, T4 in Ea. cbn [rbind] in Ea. apply rbind_inv in Ea as (x2 & Ex & Ea). apply rbind_inv in Ea as (y2 & Ey & Ea). apply rbind_inv in Ea as (ar & Ear & Ea). apply rbind_inv in Ea as (bl & Ebl & Ea). exists ar, bl. split.
  - intros _ _. assert (EP : exists rows, idx (tsDec s) (cPlane c) = Ok rows) by (unfold idxb3 in Ear; apply rbind_inv in Ear as (rows & ER & _); exists rows; exact ER). destruct EP as (rows & EP). rewrite EP in Ex, Ey. cbn [rbind] in Ex, Ey. split.
    + assert (Y2 : y2 = if u - 1 <? 0 then zlen rows + (u - 1) else u - 1) by (destruct (u - 1 <? 0); injection Ey as <-; reflexivity). rewrite Y2 in Ear.
      eapply flag_read; [exact EP| | |exact Ear]; [destruct (Z.ltb_spec (u - 1) 0); lia|]. intros row _. destruct (Z.ltb_spec (u + tx_w (cTx c) / 4) 0); lia.
    + assert (NB : u + tx_h (cTx c) / 4 <? 0 = false) by lia. assert (Ebl' : idxb3 (tsDec s) (cPlane c) (if u + tx_h (cTx c) / 4 <? 0 then zlen rows + (u + tx_h (cTx c) / 4) else u + tx_h (cTx c) / 4) x2 = Ok bl) by (rewrite NB; exact Ebl).
      eapply flag_read; [exact EP| | |exact Ebl']; [rewrite NB; reflexivity|]. rewrite NB. intros row ER. destruct (Z.ltb_spec (u - 1) 0); [rewrite ER in Ex; cbn [rbind] in Ex; injection Ex as <-; lia|injection Ex as <-; reflexivity].
  - apply REST. rewrite A2. clear REST A2 E1 Ear Ebl Ex Ey HP. unfold rec_intra in Ea. cbn [rbind] in Ea. change UV_CFL_PRED with 13 in Ea. change DC_PRED with 0 in Ea. rewrite HD in Ea. rewrite HL, HU in *.
    assert (CL : forall (x y : bool) (b : bool), x = y -> (if b then x else y) = y) by (intros x y [] ->; reflexivity). rewrite ?HL, ?HU in Ea. destruct (cPlane c =? 0) eqn:E0.
    + assert (N : 0 <? cPlane c = false) by lia. rewrite N in *. cbn [andb] in *. injection Ea as <-. rewrite ?HL, ?HU. reflexivity.
    + destruct ((0 <? cPlane c) && (tUV q =? 13)); [unfold rec_cfl in Ea; injection Ea as <-; rewrite <- app_assoc; reflexivity|injection Ea as <-; reflexivity].
Qed.
Print Assumptions C132_events_partial.

(** For luma the neighbours of chroma are asked: here the block to the left is available for luma, not for chroma. *)
Definition t_env (l lc : bool) : TEnv := mkTEnv false 0 0 0 1 false l true lc true.
Definition t_start : TSt (list event) := mkTSt [] (repeat (repeat (repeat 0 2) 2) 3) (repeat (repeat (repeat false 13) 13) 3) 0 0.
Definition e_small : REnv := mkREnv 0 0 0 4 4 true false 0 false [] true true.
Definition events_of (r : res (TSt (list event))) : res (list event) := let! s := r in Ok (tsA s).
Definition lf_of (r : res (TSt (list event))) : res (list (list (list Z))) := let! s := r in Ok (tsLf s).
Theorem C132_neighbours_refuted : exists l, events_of (rec_block 1 e_small (t_env true false) (Call 0 0 0 0 0 0) t_start) = Ok l /\
  forall ar bl, l <> std_events (info_of e_small (t_env true false)) (Call 0 0 0 0 0 0) ar bl 1.
Proof. eexists. split; [vm_compute; reflexivity|]. intros ar bl H. unfold std_events, info_of in H. vm_compute in H. discriminate H. Qed.
Print Assumptions C132_neighbours_refuted.
(** The position of a block is taken from its row: the size of the block at column 1, row 0 is recorded at column 0. *)
Theorem C132_column_refuted : exists lf, lf_of (rec_block 1 e_small (t_env true true) (Call 0 4 0 6 0 0) t_start) = Ok lf /\ idx3 lf 0 0 0 = Ok 6 /\ idx3 lf 0 0 1 = Ok 0 /\ unit4 (left_of (Call 0 4 0 6 0 0)) = 1 /\ unit4 (top_of (Call 0 4 0 6 0 0)) = 0.
Proof. eexists. split; [vm_compute; reflexivity|]. repeat split. Qed.
Print Assumptions C132_column_refuted.
(** The marks are as wide as the block is high: of an 8x4 block only the left half is recorded. *)
Theorem C132_shape_refuted : exists lf, lf_of (rec_block 1 e_small (t_env true true) (Call 0 0 0 6 0 0) t_start) = Ok lf /\ idx3 lf 0 0 0 = Ok 6 /\ idx3 lf 0 0 1 = Ok 0 /\ tx_w 6 = 8 /\ tx_h 6 = 4.
Proof. eexists. split; [vm_compute; reflexivity|]. repeat split. Qed.
Print Assumptions C132_shape_refuted.
Example C132_case : call_ok (Call 0 4 4 0 0 0) /\ in_frame e_small (Call 0 4 4 0 0 0) /\
  events_of (rec_block 1 e_small (t_env false false) (Call 0 4 4 0 0 0) t_start) = Ok [Intra 0 4 4 false true false false 1 2 2; Coeffs 0 4 4 0; Residue 0 4 4 0] /\
  std_events (info_of e_small (t_env false false)) (Call 0 4 4 0 0 0) false false 1 = [Intra 0 4 4 false true false false 1 2 2; Coeffs 0 4 4 0; Residue 0 4 4 0].
Proof. split; [vm_compute; intuition congruence|]. split; [split; reflexivity|]. split; vm_compute; reflexivity. Qed.
