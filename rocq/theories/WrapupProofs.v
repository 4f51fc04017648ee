(** Proofs about the reference frame update and the output. *)
From Verif Require Import GoBase Util UtilProofs Constants Frame Writes Wrapup SpecReference.

Lemma refreshed_testbit flags i : 0 <= i -> refreshed flags i = Z.testbit flags i.
Proof.
  intros Hi. unfold refreshed, shr. assert (E : Z.land (Z.shiftr flags i) 1 = Z.shiftr flags i mod 2) by (exact (Z.land_ones _ 1 ltac:(lia))). rewrite E.
  replace (Z.testbit flags i) with (Z.odd (Z.shiftr flags i)) by (rewrite <- Z.bit0_odd, Z.shiftr_spec by lia; f_equal; lia). rewrite Zmod_odd. destruct (Z.odd _); reflexivity.
Qed.

(** ** The copying loops *)
Lemma storePlane_writes lr plane w h g g' : storePlane lr plane w h g = Ok g' ->
  writes get3 (get3 lr) (fun q => exists x, 0 <= x < w /\ exists y, 0 <= y < h /\ q = (plane, y, x)) g g'.
Proof.
  unfold storePlane. apply writes_loop.
  - intros x Hx. apply decided_range. intros y Hy. apply decided_eq3.
  - intros x a a' Hx H. revert H. apply writes_loop; [intros; apply decided_eq3|]. intros y b b' Hy H. apply rbind_inv in H as (v & Ev & H). eapply writes_upd3; [|exact H]. exact Ev.
Qed.
Lemma storeGrid_writes rows cols src g g' : storeGrid rows cols src g = Ok g' ->
  writes get2 (get2 src) (fun q => exists r, 0 <= r < rows /\ exists c, 0 <= c < cols /\ q = (r, c)) g g'.
Proof.
  unfold storeGrid. apply writes_loop.
  - intros x Hx. apply decided_range. intros y Hy. apply decided_eq2.
  - intros x a a' Hx H. revert H. apply writes_loop; [intros; apply decided_eq2|]. intros y b b' Hy H. apply rbind_inv in H as (v & Ev & H). eapply writes_upd2; [|exact H]. exact Ev.
Qed.
Lemma storeGm_writes src g g' : storeGm src g = Ok g' -> writes get2 (get2 src) (fun q => exists r, LAST_FRAME <= r < ALTREF_FRAME + 1 /\ exists c, 0 <= c < 6 /\ q = (r, c)) g g'.
Proof.
  unfold storeGm. apply writes_loop.
  - intros x Hx. apply decided_range. intros y Hy. apply decided_eq2.
  - intros x a a' Hx H. revert H. apply writes_loop; [intros; apply decided_eq2|]. intros y b b' Hy H. apply rbind_inv in H as (v & Ev & H). eapply writes_upd2; [|exact H]. exact Ev.
Qed.
Lemma storeHints_writes src g g' : storeHints src g = Ok g' -> writes get1 (get1 src) (fun q => exists r, 0 <= r < REFS_PER_FRAME /\ q = r + LAST_FRAME) g g'.
Proof.
  unfold storeHints. apply writes_loop; [intros; apply decided_eq1|]. intros y b b' Hy H. apply rbind_inv in H as (v & Ev & H). eapply writes_upd; [|exact H]. exact Ev.
Qed.
Lemma storeMvs_writes rows cols src g g' : storeMvs rows cols src g = Ok g' ->
  writes get3 (get3 src) (fun q => exists comp, 0 <= comp < 2 /\ exists r, 0 <= r < rows /\ exists c, 0 <= c < cols /\ q = (r, c, comp)) g g'.
Proof.
  unfold storeMvs. apply writes_loop.
  - intros x Hx. apply decided_range. intros y Hy. apply decided_range. intros. apply decided_eq3.
  - intros x a a' Hx H. revert H. apply writes_loop.
    + intros y Hy. apply decided_range. intros. apply decided_eq3.
    + intros y b b' Hy H. revert H. apply writes_loop; [intros; apply decided_eq3|]. intros z d d' Hz H. apply rbind_inv in H as (v & Ev & H). eapply writes_upd3; [|exact H]. exact Ev.
Qed.

(** all three planes *)
Lemma storePlanes_writes lr w h g g1 g' : storePlane lr 0 w h g = Ok g1 -> rfor_to 1 3 (fun plane store => storePlane lr plane w h store) g1 = Ok g' ->
  writes get3 (get3 lr) (fun q => exists p y x, 0 <= p < 3 /\ 0 <= y < h /\ 0 <= x < w /\ q = (p, y, x)) g g'.
Proof.
  intros H0 H1. apply storePlane_writes in H0.
  assert (DP : forall p, decided (fun q => exists x, 0 <= x < w /\ exists y, 0 <= y < h /\ q = (p, y, x))) by (intro; apply decided_range; intros; apply decided_range; intros; apply decided_eq3).
  pose proof (writes_loop get3 (get3 lr) 1 3 _ (fun plane q => exists x, 0 <= x < w /\ exists y, 0 <= y < h /\ q = (plane, y, x)) g1 g' (fun j _ => DP j) (fun j a a' _ H => storePlane_writes _ _ _ _ _ _ H) H1) as W1.
  pose proof (writes_union get3 (get3 lr) _ _ _ _ _ (decided_range 1 3 _ (fun j _ => DP j)) H0 W1) as W. eapply writes_ext; [|exact W]. intros q. cbv beta. split.
  - intros [(x & Hx & y & Hy & E)|(p & Hp & x & Hx & y & Hy & E)]; [exists 0, y, x|exists p, y, x]; repeat split; (lia || exact E).
  - intros (p & y & x & Hp & Hy & Hx & E). destruct (Z.eq_dec p 0) as [->|]; [left; exists x; split; [lia|]; exists y; split; [lia|exact E]|].
    right. exists p. split; [lia|]. exists x. split; [lia|]. exists y. split; [lia|exact E].
Qed.

Lemma shr_self (b : bool) : shr (int_of b) (int_of b) = 0. Proof. destruct b; reflexivity. Qed.

Lemma refUpdateSlot_saved e s s' : refUpdateSlot e s = Ok s' -> saved e s (setHint s' (iOrderHint e)) /\ sOrderHint s' = sOrderHint s.
Proof.
  unfold refUpdateSlot. rewrite !shr_self, !Z.add_0_r. intros H.
  apply rbind_inv in H as (hints & Eh & H). apply rbind_inv in H as (st0 & Es0 & H). apply rbind_inv in H as (st & Es & H). apply rbind_inv in H as (refs & Er & H).
  apply rbind_inv in H as (mvs & Em & H). apply rbind_inv in H as (gm & Eg & H). apply rbind_inv in H as (segs & Esg & H). injection H as <-. split; [|reflexivity].
  apply storeHints_writes in Eh as [Eh Nh]. pose proof (storePlanes_writes _ _ _ _ _ _ Es0 Es) as [Ep Np]. apply storeGrid_writes in Er as [Er Nr], Esg as [Esg Ns]. apply storeMvs_writes in Em as [Em Nm]. apply storeGm_writes in Eg as [Eg Ng].
  change LAST_FRAME with 1 in *. change ALTREF_FRAME with 7 in *. change REFS_PER_FRAME with 7 in *.
  split; [|split; [|split]].
  - unfold holds_header. cbn [setHint sValid sUpscaledWidth sFrameWidth sFrameHeight sRenderWidth sRenderHeight sMiCols sMiRows sFrameType sSubX sSubY sBitDepth sOrderHint sOrderHints].
    repeat (split; [reflexivity|]). intros r Hr. destruct (Eh r) as (v & A & B); [exists (r - 1); lia|]. exists v. split; [exact A|exact B].
  - intros plane y x Hp Hy Hx. destruct (Ep (plane, y, x)) as (v & A & B); [exists plane, y, x; repeat split; lia|]. exists v. split; [exact A|exact B].
  - split.
    + intros r c Hr Hc. split; [|split].
      * destruct (Er (r, c)) as (v & A & B); [exists r; split; [lia|]; exists c; split; [lia|reflexivity]|]. exists v. split; [exact A|exact B].
      * destruct (Esg (r, c)) as (v & A & B); [exists r; split; [lia|]; exists c; split; [lia|reflexivity]|]. exists v. split; [exact A|exact B].
      * intros comp Hk. destruct (Em (r, c, comp)) as (v & A & B); [exists comp; split; [lia|]; exists r; split; [lia|]; exists c; split; [lia|reflexivity]|]. exists v. split; [exact A|exact B].
    + intros ref j Hr Hj. destruct (Eg (ref, j)) as (v & A & B); [exists ref; split; [lia|]; exists j; split; [lia|reflexivity]|]. exists v. split; [exact A|exact B].
  - split; [|split; [|split; [|split]]].
    + intros plane y x N. apply (Np (plane, y, x)). intros (p & y1 & x1 & Hp & Hy & Hx & [= -> -> ->]). apply N. lia.
    + intros r c N. split; [apply (Nr (r, c))|apply (Ns (r, c))]; intros (r1 & H1 & c1 & H2 & [= -> ->]); apply N; lia.
    + intros r c comp N. apply (Nm (r, c, comp)). intros (k & H0 & r1 & H1 & c1 & H2 & [= -> -> ->]); apply N; lia.
    + intros ref j N. apply (Ng (ref, j)). intros (r1 & H1 & c1 & H2 & [= -> ->]); apply N; lia.
    + intros r N. apply (Nh r). intros (k & Hk & ->). apply N. lia.
Qed.

Lemma setHint_twice s h h' : setHint (setHint s h) h' = setHint s h'. Proof. reflexivity. Qed.
Lemma setHint_id s : setHint s (sOrderHint s) = s. Proof. destruct s; reflexivity. Qed.
Lemma refHints_post flags hint l l' : refHints flags hint l = Ok l' -> forall i, 0 <= i < 8 ->
  if Z.testbit flags i then exists s, idx l i = Ok s /\ idx l' i = Ok (setHint s hint) else idx l' i = idx l i.
Proof.
  unfold refHints, rfor_to. change (Z.to_nat (NUM_REF_FRAMES - 0)) with 8%nat. intros H i Hi.
  enough (K : (fun m l' => forall i, 0 <= i < 8 -> if (i <? m) && Z.testbit flags i then exists s, idx l i = Ok s /\ idx l' i = Ok (setHint s hint) else idx l' i = idx l i) 8 l').
  { cbv beta in K. specialize (K i Hi). destruct (Z.ltb_spec i 8); [exact K|lia]. }
  clear i Hi. revert H. apply (rfor_from_post (fun m l' => forall i, 0 <= i < 8 -> if (i <? m) && Z.testbit flags i then exists s, idx l i = Ok s /\ idx l' i = Ok (setHint s hint) else idx l' i = idx l i)).
  - intros i Hi. destruct (Z.ltb_spec i 0); [lia|]. reflexivity.
  - intros m a a' Hm Ha H i Hi. rewrite refreshed_testbit in H by lia. specialize (Ha i Hi). destruct (Z.testbit flags m) eqn:Tm.
    + apply rbind_inv in H as (s & Es & H). destruct (Z.eq_dec i m) as [->|N].
      * rewrite Tm in *. destruct (Z.ltb_spec m m); [lia|]. destruct (Z.ltb_spec m (m + 1)); [|lia]. cbn [andb] in *. exists s. split; [congruence|exact (idx_upd_same _ _ _ _ H)].
      * rewrite (idx_upd_other _ _ _ i _ H) by congruence. destruct (Z.ltb_spec i m), (Z.ltb_spec i (m + 1)); try lia; exact Ha.
    + injection H as <-. destruct (Z.eq_dec i m) as [->|N]; [rewrite Tm, andb_false_r in *; exact Ha|]. destruct (Z.ltb_spec i m), (Z.ltb_spec i (m + 1)); try lia; exact Ha.
Qed.
Lemma keeps_hint e old h s : keeps_rest e (setHint old h) s <-> keeps_rest e old s. Proof. reflexivity. Qed.
Lemma saved_old_hint e old h s : saved e (setHint old h) s <-> saved e old s. Proof. reflexivity. Qed.

Definition updInv (e : FrameInfo) (l : list slot) (m : Z) (l' : list slot) : Prop := forall i, 0 <= i < 8 ->
  if Z.testbit (iRefresh e) i then exists s, idx l i = Ok s /\ if i <? m then exists s', idx l' i = Ok (setHint s' (iOrderHint e)) /\ saved e s (setHint s' (iOrderHint e)) else exists h, idx l' i = Ok (setHint s h)
  else idx l' i = idx l i.
Lemma refUpdate_post e l l' : zlen l = 8 -> refUpdate e l = Ok l' -> forall i, 0 <= i < 8 ->
  exists s s', idx l i = Ok s /\ idx l' i = Ok s' /\ if Z.testbit (iRefresh e) i then saved e s s' else s' = s.
Proof.
  intros HL H i Hi. assert (K : updInv e l 8 l').
  { revert H. unfold refUpdate, rfor_to. change (Z.to_nat (NUM_REF_FRAMES - 0)) with 8%nat. apply (rfor_from_post (updInv e l)).
    - intros k Hk. destruct (proj2 (array1_get 8 l k HL) Hk) as [s Es]. destruct (Z.testbit _ k); [|reflexivity]. exists s. split; [exact Es|]. destruct (Z.ltb_spec k 0); [lia|]. exists (sOrderHint s). rewrite setHint_id. exact Es.
    - intros m a a' Hm Ha H k Hk. rewrite refreshed_testbit in H by lia. destruct (Z.testbit (iRefresh e) m) eqn:Tm.
      + apply rbind_inv in H as (s & Es & H). apply rbind_inv in H as (s' & Es' & H). apply rbind_inv in H as (a1 & Eu & H). pose proof (refHints_post _ _ _ _ H k Hk) as HH.
        pose proof (Ha k Hk) as Hk'. destruct (Z.testbit (iRefresh e) k) eqn:Tk.
        * destruct HH as (t & Et & Et'). destruct Hk' as (s0 & Es0 & Hk'). exists s0. split; [exact Es0|]. destruct (Z.eq_dec k m) as [->|N].
          -- destruct (Z.ltb_spec m m); [lia|]. destruct (Z.ltb_spec m (m + 1)); [|lia]. destruct Hk' as [h Eh]. rewrite Eh in Es. injection Es as <-. rewrite (idx_upd_same _ _ _ _ Eu) in Et. injection Et as <-.
             exists s'. split; [exact Et'|]. apply refUpdateSlot_saved in Es' as [SV _]. exact SV.
          -- rewrite (idx_upd_other _ _ _ _ _ Eu) in Et by congruence. destruct (Z.ltb_spec k m), (Z.ltb_spec k (m + 1)); try lia.
             ++ destruct Hk' as (s1 & E1 & SV). rewrite E1 in Et. injection Et as <-. exists s1. split; [exact Et'|exact SV].
             ++ destruct Hk' as (h & E1). rewrite E1 in Et. injection Et as <-. exists (iOrderHint e). exact Et'.
        * rewrite HH. destruct (Z.eq_dec k m) as [->|N]; [congruence|]. rewrite (idx_upd_other _ _ _ _ _ Eu) by congruence. exact Hk'.
      + injection H as <-. pose proof (Ha k Hk) as Hk'. destruct (Z.eq_dec k m) as [->|N]; [rewrite Tm in *; exact Hk'|]. destruct (Z.testbit (iRefresh e) k); [|exact Hk']. destruct Hk' as (s0 & Es0 & Hk'). exists s0. split; [exact Es0|].
        destruct (Z.ltb_spec k m), (Z.ltb_spec k (m + 1)); try lia; exact Hk'. }
  specialize (K i Hi). destruct (Z.testbit (iRefresh e) i).
  - destruct K as (s & Es & K). destruct (Z.ltb_spec i 8); [|lia]. destruct K as (s' & E' & SV). exists s, (setHint s' (iOrderHint e)). auto.
  - destruct (proj2 (array1_get 8 l i HL) Hi) as [s Es]. exists s, s. rewrite K. auto.
Qed.

(** ** When it succeeds *)
(** Go's array types of a slot and of the frame's data *)
Definition slot_shape (s : slot) : Prop := array1 8 (sOrderHints s) /\ array3 3 16 16 (sStore s) /\ array2 64 64 (sRefFrames s) /\ array3 64 64 2 (sMvs s) /\ array2 8 6 (sGm s) /\ array2 64 64 (sSegIds s).
Definition info_shape (e : FrameInfo) : Prop := array1 8 (iOrderHints e) /\ array3 3 9 9 (iLr e) /\ array2 64 64 (iMfRefFrames e) /\ array3 64 64 2 (iMfMvs e) /\ array2 8 6 (iGm e) /\ array2 64 64 (iSegIds e).

Lemma storePlane_keep lr plane w h g g' n m k : array3 n m k g -> storePlane lr plane w h g = Ok g' -> array3 n m k g'.
Proof. intros H. apply rfor_to_keep; [exact H|]. intros x b b' _ Hb. apply rfor_to_keep; [exact Hb|]. intros y d d' _ Hd E. apply rbind_inv in E as (v & _ & E). exact (array3_upd _ _ _ _ _ _ _ _ _ Hd E). Qed.
Lemma storeGrid_keep src r c g g' n m : array2 n m g -> storeGrid r c src g = Ok g' -> array2 n m g'.
Proof. intros H. apply rfor_to_keep; [exact H|]. intros x b b' _ Hb. apply rfor_to_keep; [exact Hb|]. intros y d d' _ Hd E. apply rbind_inv in E as (v & _ & E). exact (array2_upd _ _ _ _ _ _ _ Hd E). Qed.
Lemma storeGm_keep src g g' n m : array2 n m g -> storeGm src g = Ok g' -> array2 n m g'.
Proof. intros H. apply rfor_to_keep; [exact H|]. intros x b b' _ Hb. apply rfor_to_keep; [exact Hb|]. intros y d d' _ Hd E. apply rbind_inv in E as (v & _ & E). exact (array2_upd _ _ _ _ _ _ _ Hd E). Qed.
Lemma storeHints_keep src g g' n : array1 n g -> storeHints src g = Ok g' -> array1 n g'.
Proof. intros H. apply rfor_to_keep; [exact H|]. intros y d d' _ Hd E. apply rbind_inv in E as (v & _ & E). exact (array1_upd _ _ _ _ _ Hd E). Qed.
Lemma storeMvs_keep src r c g g' n m k : array3 n m k g -> storeMvs r c src g = Ok g' -> array3 n m k g'.
Proof. intros H. apply rfor_to_keep; [exact H|]. intros x b b' _ Hb. apply rfor_to_keep; [exact Hb|]. intros y d d' _ Hd. apply rfor_to_keep; [exact Hd|]. intros z f f' _ Hf E. apply rbind_inv in E as (v & _ & E). exact (array3_upd _ _ _ _ _ _ _ _ _ Hf E). Qed.

Lemma copy3_ok {B} n m k n' m' k' (src g : list (list (list B))) p y x : array3 n' m' k' src -> array3 n m k g -> 0 <= p < n' -> 0 <= y < m' -> 0 <= x < k' -> p < n -> y < m -> x < k ->
  exists g', (let! v := idx3 src p y x in upd3 g p y x v) = Ok g' /\ array3 n m k g'.
Proof.
  intros A1 A2 Hp Hy Hx Hp' Hy' Hx'. destruct (proj2 (array3_get n' m' k' src p y x A1)) as [v Ev]; [lia|]. rewrite Ev. cbn [rbind]. destruct (proj2 (array3_get n m k g p y x A2)) as [u Eu]; [lia|].
  destruct (upd3_succeeds _ _ _ _ _ v Eu) as [g' E]. exists g'. split; [exact E|]. exact (array3_upd _ _ _ _ _ _ _ _ _ A2 E).
Qed.
Lemma copy2_ok {B} n m n' m' (src g : list (list B)) y x : array2 n' m' src -> array2 n m g -> 0 <= y < n' -> 0 <= x < m' -> y < n -> x < m -> exists g', (let! v := idx2 src y x in upd2 g y x v) = Ok g' /\ array2 n m g'.
Proof.
  intros A1 A2 Hy Hx Hy' Hx'. destruct (proj2 (array2_get n' m' src y x A1)) as [v Ev]; [lia|]. rewrite Ev. cbn [rbind]. destruct (proj2 (array2_get n m g y x A2)) as [u Eu]; [lia|].
  destruct (upd2_succeeds _ _ _ _ v Eu) as [g' E]. exists g'. split; [exact E|]. exact (array2_upd _ _ _ _ _ _ _ A2 E).
Qed.
Lemma copy1_ok {B} n n' (src g : list B) x : array1 n' src -> array1 n g -> 0 <= x < n' -> x < n -> exists g', (let! v := idx src x in upd g x v) = Ok g' /\ array1 n g'.
Proof.
  intros A1 A2 Hx Hx'. destruct (proj2 (array1_get n' src x A1)) as [v Ev]; [lia|]. rewrite Ev. cbn [rbind]. destruct (proj2 (array1_get n g x A2)) as [u Eu]; [lia|].
  destruct (upd_succeeds _ _ _ v Eu) as [g' E]. exists g'. split; [exact E|]. exact (array1_upd _ _ _ _ _ A2 E).
Qed.
Lemma storePlane_ok lr plane w h g : array3 3 9 9 lr -> array3 3 16 16 g -> 0 <= plane < 3 -> w <= 9 -> h <= 9 -> exists g', storePlane lr plane w h g = Ok g' /\ array3 3 16 16 g'.
Proof. intros A1 A2 Hp Hw Hh. apply rfor_to_ok; [exact A2|]. intros x b Hx Hb. apply rfor_to_ok; [exact Hb|]. intros y d Hy Hd. apply (copy3_ok 3 16 16 3 9 9); auto; lia. Qed.
Lemma storeGrid_ok r c src g : array2 64 64 src -> array2 64 64 g -> r <= 64 -> c <= 64 -> exists g', storeGrid r c src g = Ok g' /\ array2 64 64 g'.
Proof. intros A1 A2 Hr Hc. apply rfor_to_ok; [exact A2|]. intros x b Hx Hb. apply rfor_to_ok; [exact Hb|]. intros y d Hy Hd. apply (copy2_ok 64 64 64 64); auto; lia. Qed.
Lemma storeGm_ok src g : array2 8 6 src -> array2 8 6 g -> exists g', storeGm src g = Ok g' /\ array2 8 6 g'.
Proof. intros A1 A2. apply rfor_to_ok; [exact A2|]. change LAST_FRAME with 1. change ALTREF_FRAME with 7. intros x b Hx Hb. apply rfor_to_ok; [exact Hb|]. intros y d Hy Hd. apply (copy2_ok 8 6 8 6); auto; lia. Qed.
Lemma storeHints_ok src g : array1 8 src -> array1 8 g -> exists g', storeHints src g = Ok g' /\ array1 8 g'.
Proof. intros A1 A2. apply rfor_to_ok; [exact A2|]. change LAST_FRAME with 1. change REFS_PER_FRAME with 7. intros x b Hx Hb. apply (copy1_ok 8 8); auto; lia. Qed.
Lemma storeMvs_ok r c src g : array3 64 64 2 src -> array3 64 64 2 g -> r <= 64 -> c <= 64 -> exists g', storeMvs r c src g = Ok g' /\ array3 64 64 2 g'.
Proof. intros A1 A2 Hr Hc. apply rfor_to_ok; [exact A2|]. intros k b Hk Hb. apply rfor_to_ok; [exact Hb|]. intros x d Hx Hd. apply rfor_to_ok; [exact Hd|]. intros y f Hy Hf. apply (copy3_ok 64 64 2 64 64 2); auto; lia. Qed.

Lemma refUpdateSlot_ok e s : info_shape e -> slot_shape s -> iUpscaledWidth e <= 9 -> iFrameHeight e <= 9 -> iMiRows e <= 64 -> iMiCols e <= 64 -> exists s', refUpdateSlot e s = Ok s' /\ slot_shape s'.
Proof.
  intros (I1 & I2 & I3 & I4 & I5 & I6) (S1 & S2 & S3 & S4 & S5 & S6) Hw Hh Hr Hc. unfold refUpdateSlot. rewrite !shr_self, !Z.add_0_r.
  destruct (storeHints_ok _ _ I1 S1) as (hints & -> & P1). cbn [rbind]. destruct (storePlane_ok _ 0 _ _ _ I2 S2 ltac:(lia) Hw Hh) as (st0 & -> & P2). cbn [rbind].
  match goal with |- context [rfor_to 1 3 ?bd st0] => destruct (rfor_to_ok (A := frame) (array3 3 16 16) 1 3 bd st0 P2) as (st & Est & P3); [intros j b Hj Hb; apply storePlane_ok; auto; lia|rewrite Est] end. cbn [rbind].
  destruct (storeGrid_ok _ _ _ _ I3 S3 Hr Hc) as (refs & -> & P4). cbn [rbind]. destruct (storeMvs_ok _ _ _ _ I4 S4 Hr Hc) as (mvs & -> & P5). cbn [rbind]. destruct (storeGm_ok _ _ I5 S5) as (gm & -> & P6). cbn [rbind].
  destruct (storeGrid_ok _ _ _ _ I6 S6 Hr Hc) as (segs & -> & P7). cbn [rbind]. eexists. split; [reflexivity|]. repeat split; cbn; first [exact P1|apply P3|apply P4|apply P5|apply P6|apply P7].
Qed.
Lemma refHints_ok flags hint l : zlen l = 8 -> Forall slot_shape l -> exists l', refHints flags hint l = Ok l' /\ zlen l' = 8 /\ Forall slot_shape l'.
Proof.
  intros HL HF. apply (rfor_to_ok (fun l => zlen l = 8 /\ Forall slot_shape l)); [auto|]. change NUM_REF_FRAMES with 8. intros j b Hj [B1 B2]. destruct (refreshed flags j); [|exists b; auto].
  destruct (proj2 (array1_get 8 b j B1) Hj) as [s Es]. rewrite Es. cbn [rbind]. destruct (upd_succeeds _ _ _ (setHint s hint) Es) as [l' E]. exists l'. split; [exact E|]. split; [exact (array1_upd 8 _ _ _ _ B1 E)|].
  eapply upd_Forall; [exact B2| |exact E]. exact (idx_Forall _ _ _ _ B2 Es).
Qed.
Lemma refUpdate_ok e l : info_shape e -> zlen l = 8 -> Forall slot_shape l -> iUpscaledWidth e <= 9 -> iFrameHeight e <= 9 -> iMiRows e <= 64 -> iMiCols e <= 64 -> exists l', refUpdate e l = Ok l' /\ zlen l' = 8 /\ Forall slot_shape l'.
Proof.
  intros HI HL HF Hw Hh Hr Hc. apply (rfor_to_ok (fun l => zlen l = 8 /\ Forall slot_shape l)); [auto|]. change NUM_REF_FRAMES with 8. intros j b Hj [B1 B2]. destruct (refreshed _ j); [|exists b; auto].
  destruct (proj2 (array1_get 8 b j B1) Hj) as [s Es]. rewrite Es. cbn [rbind]. destruct (refUpdateSlot_ok e s HI (idx_Forall _ _ _ _ B2 Es) Hw Hh Hr Hc) as (s' & -> & SS). cbn [rbind].
  destruct (upd_succeeds _ _ _ s' Es) as [l' E]. rewrite E. cbn [rbind]. apply refHints_ok; [exact (array1_upd 8 _ _ _ _ B1 E)|]. eapply upd_Forall; [exact B2|exact SS|exact E].
Qed.
Lemma storePlane_nh lr plane w h g : storePlane lr plane w h g <> Hang.
Proof. apply rfor_to_nh. intros. apply rfor_to_nh. intros. apply rbind_nh; [apply idx3_nh|intro; apply upd3_nh]. Qed.
Lemma storeGrid_nh r c src g : storeGrid r c src g <> Hang.
Proof. apply rfor_to_nh. intros. apply rfor_to_nh. intros. apply rbind_nh; [apply idx2_nh|intro; apply upd2_nh]. Qed.
Lemma storeGm_nh src g : storeGm src g <> Hang.
Proof. apply rfor_to_nh. intros. apply rfor_to_nh. intros. apply rbind_nh; [apply idx2_nh|intro; apply upd2_nh]. Qed.
Lemma storeHints_nh src g : storeHints src g <> Hang.
Proof. apply rfor_to_nh. intros. apply rbind_nh; [apply idx_nh|intro; apply upd_nh]. Qed.
Lemma storeMvs_nh r c src g : storeMvs r c src g <> Hang.
Proof. apply rfor_to_nh. intros. apply rfor_to_nh. intros. apply rfor_to_nh. intros. apply rbind_nh; [apply idx3_nh|intro; apply upd3_nh]. Qed.
Lemma refUpdateSlot_nh e s : refUpdateSlot e s <> Hang.
Proof.
  unfold refUpdateSlot. cbv zeta. apply rbind_nh; [apply storeHints_nh|intro]. apply rbind_nh; [apply storePlane_nh|intro]. apply rbind_nh; [apply rfor_to_nh; intros; apply storePlane_nh|intro].
  apply rbind_nh; [apply storeGrid_nh|intro]. apply rbind_nh; [apply storeMvs_nh|intro]. apply rbind_nh; [apply storeGm_nh|intro]. apply rbind_nh; [apply storeGrid_nh|intro]. discriminate.
Qed.
Lemma refHints_nh flags h l : refHints flags h l <> Hang.
Proof. apply rfor_to_nh. intros i d. destruct (refreshed _ i); [|discriminate]. apply rbind_nh; [apply idx_nh|intro; apply upd_nh]. Qed.
Lemma refUpdate_nh e l : refUpdate e l <> Hang.
Proof.
  apply rfor_to_nh. intros j b. destruct (refreshed _ j); [|discriminate]. apply rbind_nh; [apply idx_nh|]. intro s. apply rbind_nh; [apply refUpdateSlot_nh|].
  intro s'. apply rbind_nh; [apply upd_nh|]. intro l'. apply refHints_nh.
Qed.
(** a frame larger than the arrays cannot be saved *)
Lemma refUpdate_large e l : info_shape e -> zlen l = 8 -> (exists i, 0 <= i < 8 /\ Z.testbit (iRefresh e) i = true) -> 0 < iUpscaledWidth e -> 0 < iFrameHeight e -> (9 < iUpscaledWidth e \/ 9 < iFrameHeight e) -> refUpdate e l = Panic.
Proof.
  intros HI HL (i & Hi & Ti) Hw Hh HH. destruct (refUpdate e l) as [l'| |] eqn:E; [|reflexivity|destruct (refUpdate_nh e l E)]. exfalso.
  destruct (refUpdate_post e l l' HL E i Hi) as (s & s' & _ & _ & K). rewrite Ti in K. destruct K as (_ & HS & _). destruct HI as (_ & I2 & _).
  destruct (HS 0 (iFrameHeight e - 1) (iUpscaledWidth e - 1) ltac:(lia) ltac:(lia) ltac:(lia)) as (v & Ev & _). pose proof (proj1 (array3_get 3 9 9 (iLr e) 0 _ _ I2) (ex_intro _ v Ev)). lia.
Qed.
