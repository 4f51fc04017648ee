(** Property C167: the masks of wedge prediction. *)
From Verif Require Import GoBase Constants Tables Util Frame UtilProofs Wedge.

(** ** Specification *)
Inductive direction := Horizontal | Vertical | Oblique27 | Oblique63 | Oblique117 | Oblique153.
(** The blend from weight 0 to weight 64 across a vertical edge, and across a steep one in even and odd rows, from column 28 to column 39 *)
Definition ramp (l : list Z) (x : Z) : Z := if x <? 28 then 0 else if 39 <? x then 64 else nth (Z.to_nat (x - 28)) l 0.
Definition vertical_ramp := ramp [0; 2; 7; 21; 43; 57; 62; 64; 64; 64; 64; 64].
Definition even_ramp := ramp [1; 4; 11; 27; 46; 58; 62; 63; 64; 64; 64; 64].
Definition odd_ramp := ramp [1; 2; 6; 18; 37; 53; 60; 63; 64; 64; 64; 64].
(** The weight of sample (y, x) of the 64x64 mask of a direction: the edge of Oblique63 moves half a column to the left in each row; the other
    directions are mirror images of Oblique63 and Vertical. *)
Definition steep (y x : Z) : Z := (if Z.even y then even_ramp else odd_ramp) (x - 16 + (y + 1) / 2).
Definition master (d : direction) (y x : Z) : Z :=
  match d with
  | Vertical => vertical_ramp x
  | Horizontal => vertical_ramp y
  | Oblique63 => steep y x
  | Oblique27 => steep x y
  | Oblique117 => 64 - steep y (63 - x)
  | Oblique153 => 64 - steep x (63 - y)
  end.
(** The 16 wedges of a block of width w and height h: the direction of the edge and the point on it, in eighths of the block (x, y) *)
Definition wedge_line (w h k : Z) : direction * (Z * Z) :=
  nth (Z.to_nat k)
    ([(Oblique27, (4, 4)); (Oblique63, (4, 4)); (Oblique117, (4, 4)); (Oblique153, (4, 4))] ++
     (if w <? h then [(Horizontal, (4, 2)); (Horizontal, (4, 4)); (Horizontal, (4, 6)); (Vertical, (4, 4))]
      else if h <? w then [(Vertical, (2, 4)); (Vertical, (4, 4)); (Vertical, (6, 4)); (Horizontal, (4, 4))]
      else [(Horizontal, (4, 2)); (Horizontal, (4, 6)); (Vertical, (2, 4)); (Vertical, (6, 4))]) ++
     [(Oblique27, (4, 2)); (Oblique27, (4, 6)); (Oblique153, (4, 2)); (Oblique153, (4, 6));
      (Oblique63, (2, 4)); (Oblique63, (6, 4)); (Oblique117, (2, 4)); (Oblique117, (6, 4))]) (Horizontal, (0, 0)).
(** The part of the direction's mask whose centre is at that point *)
Definition window (w h k y x : Z) : Z := let '(d, (px, py)) := wedge_line w h k in master d (32 - py * h / 8 + y) (32 - px * w / 8 + x).
Definition zsum (n : Z) (f : Z -> Z) : Z := fold_right Z.add 0 (map (fun i => f (Z.of_nat i)) (seq 0 (Z.to_nat n))).
(** The mean weight of the first row and the first column, the corner counted once, to the nearest integer *)
Definition border_mean (w h k : Z) : Z :=
  (zsum w (fun x => window w h k 0 x) + zsum (h - 1) (fun y => window w h k (y + 1) 0) + (w + h - 1) / 2) / (w + h - 1).
(** The wedge of sign 0 gives the larger weight to the first row and column, that of sign 1 the complement *)
Definition wedge_weight (w h k sign y x : Z) : Z :=
  let m := window w h k y x in
  if Bool.eqb (border_mean w h k <? 32) (sign =? 0) then 64 - m else m.
(** The block sizes that have wedges: the number of the size, its width and its height *)
Definition wedge_blocks : list (Z * (Z * Z)) :=
  [(3, (8, 8)); (4, (8, 16)); (5, (16, 8)); (6, (16, 16)); (7, (16, 32)); (8, (32, 16)); (9, (32, 32)); (18, (8, 32)); (19, (32, 8))].
Definition is_wedge (b w h sign k y x : Z) : Prop := In (b, (w, h)) wedge_blocks /\ 0 <= sign < 2 /\ 0 <= k < 16 /\ 0 <= y < h /\ 0 <= x < w.
Definition master_room (M : cube) : Prop := forall d y x, 0 <= d < 6 -> 0 <= y < 64 -> 0 <= x < 64 -> exists v, idx3 M d y x = Ok v.
Definition wedge_room (W : wedges) : Prop := forall b w h sign k y x, is_wedge b w h sign k y x -> exists v, idx5 W b sign k y x = Ok v.

(** ** Assignments to nested slices *)
Definition law {A K V} (get : A -> K -> res V) (put : A -> K -> V -> res A) : Prop := forall a k v u, get a k = Ok u ->
  exists a', put a k v = Ok a' /\ get a' k = Ok v /\ forall k', k' <> k -> get a' k' = get a k'.
Lemma list_law {A} : law (@idx A) upd.
Proof.
  intros l k v u E. destruct (upd_succeeds l k u v E) as (l' & U). exists l'. split; [exact U|]. split; [eapply idx_upd_same; eassumption|].
  intros k' Hk. eapply idx_upd_other; [eassumption|congruence].
Qed.
Lemma deeper {A K V} (get : A -> K -> res V) (put : A -> K -> V -> res A) : law get put ->
  law (fun (l : list A) ik => let! a := idx l (fst ik) in get a (snd ik)) (fun l ik v => let! a := idx l (fst ik) in let! a' := put a (snd ik) v in upd l (fst ik) a').
Proof.
  intros L l (i, k) v u E. cbv beta in *. cbn [fst snd] in *. destruct (idx l i) as [a| |] eqn:Ea; cbn [rbind] in E; try discriminate.
  destruct (L a k v u E) as (a' & P & G & O). destruct (list_law l i a' a Ea) as (l' & U & S & N).
  exists l'. cbn [rbind]. rewrite P. cbn [rbind]. split; [exact U|]. split; [rewrite S; exact G|].
  intros (i', k') Hk. cbv beta. cbn [fst snd]. destruct (Z.eq_dec i' i) as [->|Hi]; [|rewrite N; auto].
  rewrite S, Ea. cbn [rbind]. apply O. congruence.
Qed.
Definition get3 (M : cube) (k : Z * (Z * Z)) : res Z := idx3 M (fst k) (fst (snd k)) (snd (snd k)).
Definition put3 (M : cube) (k : Z * (Z * Z)) (v : Z) : res cube := upd3 M (fst k) (fst (snd k)) (snd (snd k)) v.
Lemma law3 : law get3 put3.
Proof. exact (deeper _ _ (deeper _ _ list_law)). Qed.
Definition get5 (W : wedges) (k : Z * (Z * (Z * (Z * Z)))) : res Z := let '(a, (b, (c, (d, e)))) := k in idx5 W a b c d e.
Definition put5 (W : wedges) (k : Z * (Z * (Z * (Z * Z)))) (v : Z) : res wedges := let '(a, (b, (c, (d, e)))) := k in upd5 W a b c d e v.
Lemma law5 : law get5 put5.
Proof.
  intros W (a, (b, (c, (d, e)))) v u E.
  destruct (deeper _ _ (deeper _ _ law3) W (a, (b, (c, (d, e)))) v u) as (W' & P & G & O).
  - cbn [fst snd]. unfold get5, idx5 in E. destruct (idx W a) as [x| |]; cbn [rbind] in *; try discriminate. destruct (idx x b); cbn [rbind] in *; try discriminate. exact E.
  - exists W'. cbn [fst snd] in *. split.
    + etransitivity; [|exact P]. unfold put5, upd5. destruct (idx W a) as [x| |]; cbn [rbind]; auto. destruct (idx x b) as [y| |]; cbn [rbind]; auto.
      unfold put3. cbn [fst snd]. destruct (upd3 y c d e v); cbn [rbind]; auto. 
    + split; [exact G|]. intros (a', (b', (c', (d', e')))) Hk. specialize (O (a', (b', (c', (d', e')))) Hk). exact O.
Qed.

(** ** Loops that store known values *)
Section Store.
Context {S K : Type} (get : S -> K -> res Z) (put : S -> K -> Z -> res S) (keq : K -> K -> bool) (val : K -> Z) (R known : K -> Prop).
Hypothesis L : law get put.
Hypothesis keq_ok : forall k k', keq k k' = true <-> k = k'.
(** the keys with room can be read, the known ones are stored *)
Definition good (s : S) : Prop := (forall k, R k -> exists v, get s k = Ok v) /\ (forall k, known k -> get s k = Ok (val k)).
(** s' is s with the values of the keys in D stored *)
Definition eff (D : K -> bool) (s s' : S) : Prop := (forall k, D k = true -> get s' k = Ok (val k)) /\ (forall k, D k = false -> get s' k = get s k).
Lemma eff_good D s s' : good s -> eff D s s' -> good s'.
Proof.
  intros [G1 G2] [E1 E2]. split; intros k Hk; destruct (D k) eqn:Ek.
  - exists (val k). apply E1, Ek.
  - rewrite E2 by exact Ek. apply G1, Hk.
  - apply E1, Ek.
  - rewrite E2 by exact Ek. apply G2, Hk.
Qed.
Lemma eff_trans D1 D2 s1 s2 s3 : eff D1 s1 s2 -> eff D2 s2 s3 -> eff (fun k => D1 k || D2 k) s1 s3.
Proof.
  intros [A1 A2] [B1 B2]. split; intros k Hk.
  - destruct (D2 k) eqn:E2; [apply B1, E2|]. rewrite B2 by exact E2. apply A1. destruct (D1 k); [reflexivity|]. discriminate.
  - apply orb_false_iff in Hk. destruct Hk as [H1 H2]. rewrite B2, A2; auto.
Qed.
Lemma eff_none s : eff (fun _ => false) s s.
Proof. split; [discriminate|reflexivity]. Qed.
Lemma eff_ext D D' s s' : (forall k, D k = D' k) -> eff D s s' -> eff D' s s'.
Proof. intros E [A B]. split; intros k Hk; rewrite <- E in Hk; auto. Qed.
Lemma store k v s : R k -> v = val k -> good s -> exists s', put s k v = Ok s' /\ eff (keq k) s s' /\ good s'.
Proof.
  intros Hk -> G. destruct (proj1 G k Hk) as (u & Hu). destruct (L s k (val k) u Hu) as (s' & P & E & O).
  assert (Ef : eff (keq k) s s').
  { split; intros k' H'.
    - apply keq_ok in H'. subst k'. exact E.
    - apply O. intro X. assert (keq k k' = true) by (apply keq_ok; auto). congruence. }
  exists s'. split; [exact P|]. split; [exact Ef|]. eapply eff_good; eassumption.
Qed.
(** one of the n indices from lo on stores k *)
Fixpoint some (n : nat) (lo : Z) (D : Z -> K -> bool) (k : K) : bool := match n with O => false | Datatypes.S n' => D lo k || some n' (lo + 1) D k end.
Lemma some_true n : forall lo D k, some n lo D k = true <-> exists i, lo <= i < lo + Z.of_nat n /\ D i k = true.
Proof.
  induction n as [|n IH]; intros lo D k; cbn [some].
  - split; [discriminate|]. intros (i & Hi & _). lia.
  - rewrite orb_true_iff, IH. split.
    + intros [H|(i & Hi & H)]; [exists lo|exists i]; split; auto; lia.
    + intros (i & Hi & H). destruct (Z.eq_dec i lo) as [->|]; [left; exact H|right; exists i; split; [lia|exact H]].
Qed.
Lemma loop_store {T} (proj : T -> S) (P : Z -> T -> Prop) (D : Z -> K -> bool) (body : Z -> T -> res T) n : forall lo t,
  (forall i t, lo <= i < lo + Z.of_nat n -> P i t -> good (proj t) -> exists t', body i t = Ok t' /\ P (i + 1) t' /\ eff (D i) (proj t) (proj t')) ->
  P lo t -> good (proj t) -> exists t', rfor_from n lo body t = Ok t' /\ P (lo + Z.of_nat n) t' /\ eff (some n lo D) (proj t) (proj t').
Proof.
  induction n as [|n IH]; intros lo t Hb Hp Hg; cbn [rfor_from some].
  - exists t. split; [reflexivity|]. split; [replace (lo + Z.of_nat 0) with lo by lia; exact Hp|]. apply eff_none.
  - destruct (Hb lo t) as (t1 & E1 & P1 & F1); [lia|exact Hp|exact Hg|]. rewrite E1. cbn [rbind].
    destruct (IH (lo + 1) t1) as (t2 & E2 & P2 & F2).
    + intros i u Hi. apply Hb. lia.
    + exact P1.
    + eapply eff_good; eassumption.
    + exists t2. split; [exact E2|]. split; [replace (lo + Z.of_nat (Datatypes.S n)) with (lo + 1 + Z.of_nat n) by lia; exact P2|]. eapply eff_trans; eassumption.
Qed.
Lemma for_store (D : Z -> K -> bool) (body : Z -> S -> res S) lo hi s :
  (forall i s, lo <= i < hi -> good s -> exists s', body i s = Ok s' /\ eff (D i) s s') ->
  good s -> exists s', rfor_to lo hi body s = Ok s' /\ eff (some (Z.to_nat (hi - lo)) lo D) s s'.
Proof.
  intros Hb Hg. destruct (loop_store (fun s => s) (fun _ _ => True) D body (Z.to_nat (hi - lo)) lo s) as (s' & E & _ & F); auto.
  - intros i t Hi _ G. destruct (Hb i t) as (t' & ? & ?); [lia|exact G|]. exists t'. auto.
  - exists s'. auto.
Qed.
Lemma some_range lo hi D k : some (Z.to_nat (hi - lo)) lo D k = true <-> exists i, lo <= i < hi /\ D i k = true.
Proof. rewrite some_true. split; intros (i & Hi & H); exists i; split; auto; lia. Qed.
End Store.
Definition key3_eqb (k k' : Z * (Z * Z)) : bool := (fst k =? fst k') && (fst (snd k) =? fst (snd k')) && (snd (snd k) =? snd (snd k')).
Lemma key3_ok k k' : key3_eqb k k' = true <-> k = k'.
Proof. destruct k as (a, (b, c)), k' as (a', (b', c')). unfold key3_eqb. cbn [fst snd]. rewrite !andb_true_iff, !Z.eqb_eq. split; [intros [[-> ->] ->]; reflexivity|intros H; inversion H; auto]. Qed.
Definition key5_eqb (k k' : Z * (Z * (Z * (Z * Z)))) : bool := (fst k =? fst k') && (fst (snd k) =? fst (snd k')) && key3_eqb (snd (snd k)) (snd (snd k')).
Lemma key5_ok k k' : key5_eqb k k' = true <-> k = k'.
Proof. destruct k as (a, (b, c)), k' as (a', (b', c')). unfold key5_eqb. cbn [fst snd]. rewrite !andb_true_iff, !Z.eqb_eq, key3_ok. split; [intros [[-> ->] ->]; reflexivity|intros H; inversion H; auto]. Qed.

(** ** The masks of the directions *)
Definition number (d : direction) : Z := match d with Horizontal => 0 | Vertical => 1 | Oblique27 => 2 | Oblique63 => 3 | Oblique117 => 4 | Oblique153 => 5 end.
Definition val3 (k : Z * (Z * Z)) : Z :=
  let '(d, (y, x)) := k in
  master (if d =? 0 then Horizontal else if d =? 1 then Vertical else if d =? 2 then Oblique27 else if d =? 3 then Oblique63 else if d =? 4 then Oblique117 else Oblique153) y x.
Definition room3 (k : Z * (Z * Z)) : Prop := 0 <= fst k < 6 /\ 0 <= fst (snd k) < 64 /\ 0 <= snd (snd k) < 64.
Lemma small_all (f : Z -> bool) n : forallb f (map Z.of_nat (seq 0 n)) = true -> forall i, 0 <= i < Z.of_nat n -> f i = true.
Proof. intros H i Hi. rewrite forallb_forall in H. apply H. apply in_map_iff. exists (Z.to_nat i). split; [lia|]. apply in_seq. lia. Qed.
Definition ok_eqb (r : res Z) (v : Z) : bool := match r with Ok u => u =? v | _ => false end.
Lemma ok_eqb_true r v : ok_eqb r v = true -> r = Ok v.
Proof. destruct r; cbn; try discriminate. intros H. apply Z.eqb_eq in H. congruence. Qed.
Lemma ramp_at T l t : forallb (fun i => ok_eqb (idx T i) (ramp l i)) (map Z.of_nat (seq 0 64)) = true -> idx T (Clip3 0 63 t) = Ok (ramp l t).
Proof.
  intros H. assert (forall i, 0 <= i < 64 -> idx T i = Ok (ramp l i)) as A.
  { intros i Hi. apply ok_eqb_true. exact (small_all _ 64 H i Hi). }
  destruct (Z.ltb_spec t 0).
  - replace (Clip3 0 63 t) with 0 by (unfold Clip3; destruct (Z.ltb_spec t 0); lia). rewrite A by lia. f_equal. unfold ramp.
    destruct (Z.ltb_spec t 28); [reflexivity|lia].
  - destruct (Z.ltb_spec 63 t).
    + replace (Clip3 0 63 t) with 63 by (unfold Clip3; repeat match goal with |- context [?a <? ?b] => destruct (Z.ltb_spec a b) end; lia).
      rewrite A by lia. f_equal. unfold ramp. destruct (Z.ltb_spec t 28); [lia|]. destruct (Z.ltb_spec 39 t); [reflexivity|lia].
    + replace (Clip3 0 63 t) with t by (unfold Clip3; repeat match goal with |- context [?a <? ?b] => destruct (Z.ltb_spec a b) end; lia). apply A. lia.
Qed.
Lemma even_at t : idx Wedge_Master_Oblique_Even (Clip3 0 63 t) = Ok (even_ramp t). Proof. apply ramp_at. vm_compute. reflexivity. Qed.
Lemma odd_at t : idx Wedge_Master_Oblique_Odd (Clip3 0 63 t) = Ok (odd_ramp t). Proof. apply ramp_at. vm_compute. reflexivity. Qed.
Lemma vertical_at j : 0 <= j < 64 -> idx Wedge_Master_Vertical j = Ok (vertical_ramp j).
Proof.
  intros Hj. assert (E : idx Wedge_Master_Vertical (Clip3 0 63 j) = Ok (vertical_ramp j)) by (apply ramp_at; vm_compute; reflexivity). rewrite <- E. f_equal. unfold Clip3. repeat match goal with |- context [?a <? ?b] => destruct (Z.ltb_spec a b) end; lia.
Qed.
Lemma steps2 {A} (body : Z -> A -> res A) m : forall i n a, (m <= n)%nat -> rfor_step n (2 * i) (2 * (i + Z.of_nat m)) 2 body a = rfor_from m i (fun i => body (2 * i)) a.
Proof.
  induction m as [|m IH]; intros i n a Hn; cbn [rfor_from].
  - destruct n; cbn [rfor_step]; destruct (Z.ltb_spec (2 * i) (2 * (i + Z.of_nat 0))); try lia; reflexivity.
  - destruct n as [|n]; [lia|]. cbn [rfor_step]. destruct (Z.ltb_spec (2 * i) (2 * (i + Z.of_nat (Datatypes.S m)))); [|lia].
    destruct (body (2 * i) a) as [a'| |]; cbn [rbind]; auto. rewrite <- (IH (i + 1) n a') by lia. f_equal; lia.
Qed.
Definition D_column (j i : Z) (k : Z * (Z * Z)) : bool :=
  key3_eqb (3, (2 * i, j)) k || key3_eqb (3, (2 * i + 1, j)) k || key3_eqb (1, (2 * i, j)) k || key3_eqb (1, (2 * i + 1, j)) k.
Definition D_steep : Z * (Z * Z) -> bool := some (Z.to_nat (64 - 0)) 0 (fun j => some 32 0 (D_column j)).
Notation good3 := (good get3 val3 room3).
Notation eff3 := (eff get3 val3).
Lemma masterSteep_ok M : good3 (fun _ => False) M -> exists M', masterSteep M = Ok M' /\ eff3 D_steep M M'.
Proof.
  intros G. unfold masterSteep. change MASK_MASTER_SIZE with 64. apply (for_store get3 val3 room3 (fun _ => False)); [|exact G]. clear M G.
  intros j M Hj G. unfold rfor_by. change (rfor_step (Z.to_nat (64 - 0)) 0 64 2) with (@rfor_step (Z * cube) 64 (2 * 0) (2 * (0 + Z.of_nat 32)) 2).
  rewrite steps2 by lia.
  destruct (loop_store get3 val3 room3 (fun _ => False) (fun t : Z * cube => snd t) (fun i t => fst t = 16 - i) (D_column j)
    (fun i => (fun (i : Z) (a : Z * cube) => let '(shift, M) := a in
       let! v := idx Wedge_Master_Oblique_Even (Clip3 0 (64 - 1) (j - shift)) in
       let! M := upd3 M WEDGE_OBLIQUE63 i j v in
       let shift := shift - 1 in
       let! v := idx Wedge_Master_Oblique_Odd (Clip3 0 (64 - 1) (j - shift)) in
       let! M := upd3 M WEDGE_OBLIQUE63 (i + 1) j v in
       let! v := idx Wedge_Master_Vertical j in
       let! M := upd3 M WEDGE_VERTICAL i j v in
       let! M := upd3 M WEDGE_VERTICAL (i + 1) j v in
       Ok (shift, M)) (2 * i)) 32 0 (Z.quot 64 4, M)) as (t & E & _ & F).
  - intros i (sh, M0) Hi Hp G0. cbn [fst snd] in *. subst sh. change (64 - 1) with 63. rewrite even_at, odd_at, vertical_at by lia. cbn [rbind].
    change WEDGE_OBLIQUE63 with 3. change WEDGE_VERTICAL with 1.
    destruct (store get3 put3 key3_eqb val3 room3 (fun _ => False) law3 key3_ok (3, (2 * i, j)) (even_ramp (j - (16 - i))) M0) as (M1 & P1 & F1 & G1);
      [red; cbn [fst snd]; lia| |exact G0|].
    { cbn [val3]. unfold val3. cbn [Z.eqb Pos.eqb]. unfold master, steep. rewrite Z.even_mul. cbn [Z.even orb]. f_equal. Z.div_mod_to_equations. lia. }
    unfold put3 in P1. cbn [fst snd] in P1. rewrite P1. cbn [rbind].
    destruct (store get3 put3 key3_eqb val3 room3 (fun _ => False) law3 key3_ok (3, (2 * i + 1, j)) (odd_ramp (j - (16 - i - 1))) M1) as (M2 & P2 & F2 & G2);
      [red; cbn [fst snd]; lia| |exact G1|].
    { unfold val3. cbn [Z.eqb Pos.eqb]. unfold master, steep. rewrite Z.even_add, Z.even_mul. cbn [Z.even orb Bool.eqb]. f_equal. Z.div_mod_to_equations. lia. }
    unfold put3 in P2. cbn [fst snd] in P2. rewrite P2. cbn [rbind].
    destruct (store get3 put3 key3_eqb val3 room3 (fun _ => False) law3 key3_ok (1, (2 * i, j)) (vertical_ramp j) M2) as (M3 & P3 & F3 & G3);
      [red; cbn [fst snd]; lia|reflexivity|exact G2|].
    unfold put3 in P3. cbn [fst snd] in P3. rewrite P3. cbn [rbind].
    destruct (store get3 put3 key3_eqb val3 room3 (fun _ => False) law3 key3_ok (1, (2 * i + 1, j)) (vertical_ramp j) M3) as (M4 & P4 & F4 & G4);
      [red; cbn [fst snd]; lia|reflexivity|exact G3|].
    unfold put3 in P4. cbn [fst snd] in P4. rewrite P4. cbn [rbind].
    exists (16 - i - 1, M4). cbn [fst snd]. split; [reflexivity|]. split; [lia|].
    unfold D_column. eapply (eff_trans get3 val3 (fun k => _ || _)); [eapply (eff_trans get3 val3 (fun k => _ || _)); [eapply (eff_trans get3 val3); eassumption|exact F3]|exact F4].
  - reflexivity.
  - exact G.
  - exists (snd t). split; [|exact F]. transitivity (let! r := Ok t in Ok (snd r)); [rewrite <- E; reflexivity|reflexivity].
Qed.
Definition known3 (k : Z * (Z * Z)) : Prop := room3 k /\ (fst k = 1 \/ fst k = 3).
Lemma steep_all k : known3 k -> D_steep k = true.
Proof.
  destruct k as (d, (y, x)). intros [(Hd & Hy & Hx) H]. cbn [fst snd] in *. unfold D_steep. apply some_range. exists x. split; [exact Hx|].
  apply some_true. exists (y / 2). split; [Z.div_mod_to_equations; lia|]. unfold D_column, key3_eqb. cbn [fst snd].
  rewrite !orb_true_iff, !andb_true_iff, !Z.eqb_eq. destruct H as [-> | ->]; Z.div_mod_to_equations; lia.
Qed.
Definition D_cell (i j : Z) (k : Z * (Z * Z)) : bool :=
  key3_eqb (2, (j, i)) k || key3_eqb (4, (i, 63 - j)) k || key3_eqb (5, (63 - j, i)) k || key3_eqb (0, (j, i)) k.
Definition D_turned : Z * (Z * Z) -> bool := some (Z.to_nat (64 - 0)) 0 (fun i => some (Z.to_nat (64 - 0)) 0 (D_cell i)).
Lemma masterTurned_ok M : good3 known3 M -> exists M', masterTurned M = Ok M' /\ eff3 D_turned M M'.
Proof.
  intros G. unfold masterTurned. change MASK_MASTER_SIZE with 64. change (64 - 1) with 63. change WEDGE_OBLIQUE63 with 3. change WEDGE_OBLIQUE27 with 2.
  change WEDGE_OBLIQUE117 with 4. change WEDGE_OBLIQUE153 with 5. change WEDGE_VERTICAL with 1. change WEDGE_HORIZONTAL with 0.
  apply (for_store get3 val3 room3 known3); [|exact G]. clear M G.
  intros i M Hi G. apply (for_store get3 val3 room3 known3); [|exact G]. clear M G. intros j M0 Hj G0.
  assert (K : forall M, good3 known3 M -> idx3 M 3 i j = Ok (steep i j) /\ idx3 M 1 i j = Ok (vertical_ramp j)).
  { intros M [_ G]. split; [apply (G (3, (i, j)))|apply (G (1, (i, j)))]; split; unfold room3; cbn [fst snd]; lia. }
  rewrite (proj1 (K M0 G0)). cbn [rbind].
  destruct (store get3 put3 key3_eqb val3 room3 known3 law3 key3_ok (2, (j, i)) (steep i j) M0) as (M1 & P1 & F1 & G1); [red; cbn [fst snd]; lia|reflexivity|exact G0|].
  unfold put3 in P1. cbn [fst snd] in P1. rewrite P1. cbn [rbind].
  destruct (store get3 put3 key3_eqb val3 room3 known3 law3 key3_ok (4, (i, 63 - j)) (64 - steep i j) M1) as (M2 & P2 & F2 & G2); [red; cbn [fst snd]; lia| |exact G1|].
  { unfold val3. cbn [Z.eqb Pos.eqb]. unfold master. do 2 f_equal. lia. }
  unfold put3 in P2. cbn [fst snd] in P2. rewrite P2. cbn [rbind].
  destruct (store get3 put3 key3_eqb val3 room3 known3 law3 key3_ok (5, (63 - j, i)) (64 - steep i j) M2) as (M3 & P3 & F3 & G3); [red; cbn [fst snd]; lia| |exact G2|].
  { unfold val3. cbn [Z.eqb Pos.eqb]. unfold master. do 2 f_equal. lia. }
  unfold put3 in P3. cbn [fst snd] in P3. rewrite P3. cbn [rbind].
  rewrite (proj2 (K M3 G3)). cbn [rbind].
  destruct (store get3 put3 key3_eqb val3 room3 known3 law3 key3_ok (0, (j, i)) (vertical_ramp j) M3) as (M4 & P4 & F4 & G4); [red; cbn [fst snd]; lia|reflexivity|exact G3|].
  unfold put3 in P4. cbn [fst snd] in P4. rewrite P4. cbn [rbind].
  exists M4. split; [reflexivity|]. unfold D_cell.
  eapply (eff_trans get3 val3 (fun k => _ || _)); [eapply (eff_trans get3 val3 (fun k => _ || _)); [eapply (eff_trans get3 val3); eassumption|exact F3]|exact F4].
Qed.
Lemma turned_all k : room3 k -> fst k <> 1 -> fst k <> 3 -> D_turned k = true.
Proof.
  destruct k as (d, (y, x)). intros (Hd & Hy & Hx) H1 H3. cbn [fst snd] in *. unfold D_turned. apply some_range.
  assert (C : d = 2 \/ d = 4 \/ d = 5 \/ d = 0) by lia.
  exists (if d =? 4 then y else x). split; [destruct (Z.eqb_spec d 4); lia|]. apply some_range.
  exists (if d =? 4 then 63 - x else if d =? 5 then 63 - y else y). split; [destruct (Z.eqb_spec d 4); [lia|]; destruct (Z.eqb_spec d 5); lia|].
  unfold D_cell, key3_eqb. cbn [fst snd]. rewrite !orb_true_iff, !andb_true_iff, !Z.eqb_eq.
  destruct C as [-> | [-> | [-> | ->]]]; cbn [Z.eqb Pos.eqb]; lia.
Qed.
Lemma masters_ok M : master_room M -> exists M1 M2, masterSteep M = Ok M1 /\ masterTurned M1 = Ok M2 /\ forall k, room3 k -> get3 M2 k = Ok (val3 k).
Proof.
  intros R. assert (G : good3 (fun _ => False) M).
  { split; [|contradiction]. intros (d, (y, x)) (H1 & H2 & H3). apply R; auto. }
  destruct (masterSteep_ok M G) as (M1 & E1 & F1). assert (G1 : good3 known3 M1).
  { split; [apply (eff_good get3 val3 room3 (fun _ => False) D_steep M M1 G F1)|]. intros k Hk. apply (proj1 F1), steep_all, Hk. }
  destruct (masterTurned_ok M1 G1) as (M2 & E2 & F2). exists M1, M2. split; [exact E1|]. split; [exact E2|].
  intros k Hk. destruct (Z.eq_dec (fst k) 1); [|destruct (Z.eq_dec (fst k) 3)].
  - apply (eff_good get3 val3 room3 known3 D_turned M1 M2 G1 F2). split; auto.
  - apply (eff_good get3 val3 room3 known3 D_turned M1 M2 G1 F2). split; auto.
  - apply (proj1 F2), turned_all; auto.
Qed.

(** ** The masks of the blocks *)
Lemma wedge_shape b w h : In (b, (w, h)) wedge_blocks -> blockShape b = Ok (if w <? h then 0 else if h <? w then 1 else 2) /\ (exists n, idx Wedge_Bits b = Ok n /\ 0 < n) /\ 3 <= b < 22 /\ 8 <= w <= 32 /\ 8 <= h <= 32.
Proof.
  intros H. repeat (destruct H as [H|H]; [injection H as <- <- <-; split; [reflexivity|]; split; [exists 4; split; [reflexivity|lia]|lia]|]). destruct H.
Qed.
Definition wedge_dir (w h k : Z) : Z := number (fst (wedge_line w h k)).
Definition wedge_y (w h k : Z) : Z := 32 - snd (snd (wedge_line w h k)) * h / 8.
Definition wedge_x (w h k : Z) : Z := 32 - fst (snd (wedge_line w h k)) * w / 8.
Definition places_ok (e : Z * (Z * Z)) : bool := let '(b, (w, h)) := e in
  forallb (fun k => ok_eqb (codebook b k 0) (wedge_dir w h k) && ok_eqb (codebook b k 1) (fst (snd (wedge_line w h k))) && ok_eqb (codebook b k 2) (snd (snd (wedge_line w h k))) &&
    (0 <=? wedge_y w h k) && (wedge_y w h k + h <=? 64) && (0 <=? wedge_x w h k) && (wedge_x w h k + w <=? 64)) (map Z.of_nat (seq 0 16)).
Lemma places b w h k : In (b, (w, h)) wedge_blocks -> 0 <= k < 16 ->
  codebook b k 0 = Ok (wedge_dir w h k) /\ codebook b k 1 = Ok (fst (snd (wedge_line w h k))) /\ codebook b k 2 = Ok (snd (snd (wedge_line w h k))) /\
  0 <= wedge_y w h k /\ wedge_y w h k + h <= 64 /\ 0 <= wedge_x w h k /\ wedge_x w h k + w <= 64.
Proof.
  intros Hb Hk. assert (A : forallb places_ok wedge_blocks = true) by (vm_compute; reflexivity). rewrite forallb_forall in A. specialize (A _ Hb). unfold places_ok in A.
  pose proof (small_all _ 16 A k Hk) as B. cbv beta in B. rewrite !andb_true_iff in B. destruct B as [[[[[[B1 B2] B3] B4] B5] B6] B7].
  repeat split; try (apply ok_eqb_true; assumption); apply Z.leb_le; assumption.
Qed.
Lemma window_at M w h k : (forall key, room3 key -> get3 M key = Ok (val3 key)) -> forall y x, 0 <= wedge_y w h k + y < 64 -> 0 <= wedge_x w h k + x < 64 ->
  idx3 M (wedge_dir w h k) (wedge_y w h k + y) (wedge_x w h k + x) = Ok (window w h k y x).
Proof.
  intros G y x Hy Hx. change (get3 M (wedge_dir w h k, (wedge_y w h k + y, wedge_x w h k + x)) = Ok (window w h k y x)).
  rewrite G; unfold wedge_dir, wedge_y, wedge_x, window in *; destruct (wedge_line w h k) as (d, (px, py)); cbn [fst snd] in *; [|unfold room3; cbn [fst snd]; destruct d; cbn [number]; lia].
  destruct d; reflexivity.
Qed.
Lemma sum_loop (f : Z -> res Z) (g : Z -> Z) n : forall lo s, (forall i, lo <= i < lo + Z.of_nat n -> f i = Ok (g i)) ->
  rfor_from n lo (fun i s => let! v := f i in Ok (s + v)) s = Ok (s + fold_right Z.add 0 (map (fun i => g (lo + Z.of_nat i)) (seq 0 n))).
Proof.
  induction n as [|n IH]; intros lo s H; cbn [rfor_from]; [cbn; f_equal; lia|]. rewrite H by lia. cbn [rbind]. rewrite IH by (intros; apply H; lia).
  f_equal. cbn [seq map fold_right]. rewrite <- seq_shift, map_map. replace (lo + Z.of_nat 0) with lo by lia.
  rewrite (map_ext (fun i => g (lo + 1 + Z.of_nat i)) (fun x => g (lo + Z.of_nat (Datatypes.S x)))) by (intros; f_equal; lia). lia.
Qed.
(** the corner counted twice does not change the sign of any wedge *)
Definition code_mean (w h k : Z) : Z :=
  Z.quot (0 + zsum w (fun x => window w h k 0 x) + zsum h (fun y => window w h k y 0) + Z.quot (w + h - 1) 2) (w + h - 1).
Definition signs_ok (e : Z * (Z * Z)) : bool := let '(b, (w, h)) := e in forallb (fun k => Bool.eqb (code_mean w h k <? 32) (border_mean w h k <? 32)) (map Z.of_nat (seq 0 16)).
Lemma signs b w h k : In (b, (w, h)) wedge_blocks -> 0 <= k < 16 -> (code_mean w h k <? 32) = (border_mean w h k <? 32).
Proof.
  intros Hb Hk. assert (A : forallb signs_ok wedge_blocks = true) by (vm_compute; reflexivity). rewrite forallb_forall in A. specialize (A _ Hb). unfold signs_ok in A.
  pose proof (small_all _ 16 A k Hk) as B. apply Bool.eqb_prop. exact B.
Qed.
Definition size_of (b : Z) : Z * Z := match find (fun e => fst e =? b) wedge_blocks with Some e => snd e | None => (0, 0) end.
Definition val5 (key : Z * (Z * (Z * (Z * Z)))) : Z := let '(b, (sign, (k, (y, x)))) := key in wedge_weight (fst (size_of b)) (snd (size_of b)) k sign y x.
Definition room5 (key : Z * (Z * (Z * (Z * Z)))) : Prop := let '(b, (sign, (k, (y, x)))) := key in exists w h, is_wedge b w h sign k y x.
Lemma size_of_ok b w h : In (b, (w, h)) wedge_blocks -> size_of b = (w, h).
Proof. intros H. repeat (destruct H as [H|H]; [injection H as <- <- <-; reflexivity|]). destruct H. Qed.
Notation good5 := (good get5 val5 room5 (fun _ => False)).
Notation eff5 := (eff get5 val5).
Definition D_pixel (b k : Z) (flip : bool) (y x : Z) (key : Z * (Z * (Z * (Z * Z)))) : bool :=
  key5_eqb (b, (int_of flip, (k, (y, x)))) key || key5_eqb (b, (int_of (negb flip), (k, (y, x)))) key.
Definition D_one (b w h k : Z) : Z * (Z * (Z * (Z * Z))) -> bool :=
  some (Z.to_nat (h - 0)) 0 (fun y => some (Z.to_nat (w - 0)) 0 (D_pixel b k (border_mean w h k <? 32) y)).
Lemma wedgeOne_ok M b w h k W : (forall key, room3 key -> get3 M key = Ok (val3 key)) -> In (b, (w, h)) wedge_blocks -> 0 <= k < 16 -> good5 W ->
  exists W', wedgeOne M b w h k W = Ok W' /\ eff5 (D_one b w h k) W W'.
Proof.
  intros GM Hb Hk G. destruct (places b w h k Hb Hk) as (E0 & E1 & E2 & Y1 & Y2 & X1 & X2). destruct (wedge_shape b w h Hb) as (_ & _ & _ & Hw & Hh).
  unfold wedgeOne. rewrite E0, E1, E2. cbn [rbind]. cbv zeta. change (Z.quot MASK_MASTER_SIZE 2) with 32.
  assert (Sx : 32 - shr (fst (snd (wedge_line w h k)) * w) 3 = wedge_x w h k) by (unfold wedge_x, shr; rewrite Z.shiftr_div_pow2 by lia; reflexivity).
  assert (Sy : 32 - shr (snd (snd (wedge_line w h k)) * h) 3 = wedge_y w h k) by (unfold wedge_y, shr; rewrite Z.shiftr_div_pow2 by lia; reflexivity).
  rewrite Sx, Sy. unfold rfor_to at 1 2.
  rewrite (sum_loop (fun i => idx3 M (wedge_dir w h k) (wedge_y w h k) (wedge_x w h k + i)) (fun x => window w h k 0 x)).
  2: { intros i Hi. rewrite <- (window_at M w h k GM 0 i) by lia. f_equal. lia. }
  cbn [rbind].
  rewrite (sum_loop (fun i => idx3 M (wedge_dir w h k) (wedge_y w h k + i) (wedge_x w h k)) (fun y => window w h k y 0)).
  2: { intros i Hi. rewrite <- (window_at M w h k GM i 0) by lia. f_equal. lia. }
  cbn [rbind]. destruct (Z.eqb_spec (w + h - 1) 0) as [|_]; [lia|].
  match goal with |- context [?a <? 32] => assert (Fl : (a <? 32) = (border_mean w h k <? 32)) end.
  { rewrite <- (signs b w h k Hb Hk). unfold code_mean, zsum. do 4 f_equal; [f_equal|]; rewrite Z.sub_0_r; reflexivity. }
  rewrite Fl. clear Fl Sx Sy E0 E1 E2.
  apply (for_store get5 val5 room5 (fun _ => False)); [|exact G]. clear W G. intros y W Hy G. apply (for_store get5 val5 room5 (fun _ => False)); [|exact G]. clear W G. intros x W0 Hx G0.
  rewrite (window_at M w h k GM y x) by lia. cbn [rbind]. set (flip := border_mean w h k <? 32).
  destruct (store get5 put5 key5_eqb val5 room5 (fun _ => False) law5 key5_ok (b, (int_of flip, (k, (y, x)))) (window w h k y x) W0) as (W1 & P1 & F1 & G1); [| |exact G0|].
  { exists w, h. split; [exact Hb|]. destruct flip; cbn [int_of]; lia. }
  { unfold val5. rewrite (size_of_ok b w h Hb). cbn [fst snd]. unfold wedge_weight. fold flip. destruct flip; reflexivity. }
  unfold put5 in P1. rewrite P1. cbn [rbind].
  destruct (store get5 put5 key5_eqb val5 room5 (fun _ => False) law5 key5_ok (b, (int_of (negb flip), (k, (y, x)))) (64 - window w h k y x) W1) as (W2 & P2 & F2 & G2); [| |exact G1|].
  { exists w, h. split; [exact Hb|]. destruct flip; cbn [int_of negb]; lia. }
  { unfold val5. rewrite (size_of_ok b w h Hb). cbn [fst snd]. unfold wedge_weight. fold flip. destruct flip; reflexivity. }
  unfold put5 in P2. rewrite P2. exists W2. split; [reflexivity|]. eapply eff_trans; eassumption.
Qed.
Definition D_size (b : Z) : Z * (Z * (Z * (Z * Z))) -> bool :=
  match find (fun e => fst e =? b) wedge_blocks with Some (_, (w, h)) => some (Z.to_nat (16 - 0)) 0 (D_one b w h) | None => fun _ => false end.
Lemma no_wedge b : 3 <= b < 22 -> find (fun e => fst e =? b) wedge_blocks = None -> exists n, idx Wedge_Bits b = Ok n /\ n <= 0.
Proof.
  intros Hb H. assert (C : In b [3;4;5;6;7;8;9;10;11;12;13;14;15;16;17;18;19;20;21]) by (cbn [In]; lia).
  repeat (destruct C as [C|C]; [subst b; clear Hb; vm_compute in H; first [discriminate H|exists 0; split; [reflexivity|lia]]|]). destruct C.
Qed.
Definition block_sizes_are (bw bh : list Z) : Prop := forall b w h, In (b, (w, h)) wedge_blocks -> idx bw b = Ok w /\ idx bh b = Ok h.
Theorem C167_masks_partial : forall bw bh M W, block_sizes_are bw bh -> master_room M -> wedge_room W ->
  exists W', wedgeTable bw bh M W = Ok W' /\
    (forall b w h sign k y x, is_wedge b w h sign k y x -> idx5 W' b sign k y x = Ok (wedge_weight w h k sign y x)) /\
    (forall b sign k y x, (forall w h, ~ is_wedge b w h sign k y x) -> idx5 W' b sign k y x = idx5 W b sign k y x).
Proof.
  intros bw bh M W HS HM HW. destruct (masters_ok M HM) as (M1 & M2 & E1 & E2 & GM). unfold wedgeTable. rewrite E1. cbn [rbind]. rewrite E2. cbn [rbind].
  assert (G : good5 W). { split; [|contradiction]. intros (b, (s, (k, (y, x)))) (w & h & Hk). eapply HW; exact Hk. }
  destruct (for_store get5 val5 room5 (fun _ => False) D_size (fun bsize W => let! bits := idx Wedge_Bits bsize in
    if 0 <? bits then let! w := idx bw bsize in let! h := idx bh bsize in rfor_to 0 WEDGE_TYPES (fun wedge W => wedgeOne M2 bsize w h wedge W) W else Ok W) BLOCK_8X8 BLOCK_SIZES W) as (W' & E & F1 & F2).
  - intros b W0 Hb G0. change BLOCK_8X8 with 3 in Hb. change BLOCK_SIZES with 22 in Hb. unfold D_size. destruct (find (fun e => fst e =? b) wedge_blocks) as [(b', (w, h))|] eqn:Ef.
    + apply find_some in Ef. destruct Ef as [Hin Eb]. cbn [fst] in Eb. apply Z.eqb_eq in Eb. subst b'.
      destruct (wedge_shape b w h Hin) as (_ & (n & -> & Hn) & _). cbn [rbind]. destruct (Z.ltb_spec 0 n); [|lia].
      destruct (HS b w h Hin) as [-> ->]. cbn [rbind]. change WEDGE_TYPES with 16.
      apply (for_store get5 val5 room5 (fun _ => False)); [|exact G0]. intros k W1 Hk G1. apply wedgeOne_ok; auto.
    + destruct (no_wedge b Hb Ef) as (n & -> & Hn). cbn [rbind]. destruct (Z.ltb_spec 0 n); [lia|]. exists W0. split; [reflexivity|]. apply eff_none.
  - exact G.
  - exists W'. split; [exact E|]. split.
    + intros b w h sign k y x (Hb & Hs & Hk & Hy & Hx). change (get5 W' (b, (sign, (k, (y, x)))) = Ok (wedge_weight w h k sign y x)). rewrite F1.
      * unfold val5. rewrite (size_of_ok b w h Hb). reflexivity.
      * destruct (wedge_shape b w h Hb) as (_ & _ & Hr & _). apply some_range. exists b. change BLOCK_8X8 with 3. change BLOCK_SIZES with 22. split; [lia|].
        unfold D_size. assert (Ef : find (fun e => fst e =? b) wedge_blocks = Some (b, (w, h))).
        { clear - Hb. repeat (destruct Hb as [H|Hb]; [injection H as <- <- <-; reflexivity|]). destruct Hb. }
        rewrite Ef. apply some_range. exists k. split; [lia|]. unfold D_one. apply some_range. exists y. split; [lia|]. apply some_range. exists x. split; [lia|].
        unfold D_pixel, key5_eqb, key3_eqb. cbn [fst snd]. rewrite !Z.eqb_refl. rewrite !andb_true_r. cbn [andb].
        destruct (border_mean w h k <? 32); cbn [int_of negb]; assert (Cs : sign = 0 \/ sign = 1) by lia; destruct Cs as [-> | ->]; reflexivity.
    + intros b sign k y x N. change (get5 W' (b, (sign, (k, (y, x)))) = get5 W (b, (sign, (k, (y, x))))). apply F2.
      destruct (some _ _ _ _) eqn:E3; [|reflexivity]. exfalso. apply some_range in E3. destruct E3 as (b' & _ & E3). unfold D_size in E3.
      destruct (find (fun e => fst e =? b') wedge_blocks) as [(b1, (w, h))|] eqn:Ef; [|discriminate]. apply find_some in Ef. destruct Ef as [Hin Eb]. cbn [fst] in Eb. apply Z.eqb_eq in Eb. subst b1.
      apply some_range in E3. destruct E3 as (k' & Hk & E3). apply some_range in E3. destruct E3 as (y' & Hy & E3). apply some_range in E3. destruct E3 as (x' & Hx & E3).
      unfold D_pixel in E3. apply (N w h). apply orb_true_iff in E3.
      assert (Q : b' = b /\ 0 <= sign < 2 /\ k' = k /\ y' = y /\ x' = x).
      { destruct E3 as [E3|E3]; apply key5_ok in E3; injection E3 as <- <- <- <- <-; destruct (border_mean w h k' <? 32); cbn [int_of negb]; lia. }
      destruct Q as (-> & Hs & -> & -> & ->). unfold is_wedge. auto.
Qed.
(** ** What the masks are like *)
Definition pixels_ok (P : Z -> Z -> Z -> Z -> Z -> bool) : bool := forallb (fun e : Z * (Z * Z) => let '(_, (w, h)) := e in
  forallb (fun k => forallb (fun y => forallb (fun x => P w h k y x) (map Z.of_nat (seq 0 (Z.to_nat w)))) (map Z.of_nat (seq 0 (Z.to_nat h)))) (map Z.of_nat (seq 0 16))) wedge_blocks.
Lemma pixels (P : Z -> Z -> Z -> Z -> Z -> bool) : pixels_ok P = true -> forall b w h sign k y x, is_wedge b w h sign k y x -> P w h k y x = true.
Proof.
  intros H b w h sign k y x (Hb & Hs & Hk & Hy & Hx). unfold pixels_ok in H. rewrite forallb_forall in H. specialize (H _ Hb). cbv beta iota in H.
  pose proof (small_all _ 16 H k Hk) as H1. cbv beta in H1. pose proof (small_all _ (Z.to_nat h) H1 y ltac:(lia)) as H2. cbv beta in H2. exact (small_all _ (Z.to_nat w) H2 x ltac:(lia)).
Qed.
(** The two signs of a wedge are complementary, and both are between 0 and 64. *)
Theorem C167_complement : forall b w h k y x, is_wedge b w h 0 k y x -> wedge_weight w h k 0 y x + wedge_weight w h k 1 y x = 64 /\ 0 <= wedge_weight w h k 0 y x <= 64.
Proof.
  intros b w h k y x H. assert (A : pixels_ok (fun w h k y x => (0 <=? window w h k y x) && (window w h k y x <=? 64)) = true) by (vm_compute; reflexivity).
  pose proof (pixels _ A _ _ _ _ _ _ _ H) as B. cbv beta in B. apply andb_true_iff in B. destruct B as [B1 B2]. apply Z.leb_le in B1. apply Z.leb_le in B2.
  unfold wedge_weight. destruct (border_mean w h k <? 32); cbn [Bool.eqb Z.eqb Pos.eqb]; lia.
Qed.
(** Each row and each column of a wedge goes from one side of the edge to the other without turning back. *)
Definition monotone (f : Z -> Z) (n : Z) : Prop := (forall i j, 0 <= i <= j -> j < n -> f i <= f j) \/ (forall i j, 0 <= i <= j -> j < n -> f j <= f i).
Lemma steps_up (f : Z -> Z) n : (forall i, 0 <= i < n - 1 -> f i <= f (i + 1)) -> forall i j, 0 <= i <= j -> j < n -> f i <= f j.
Proof.
  intros H i j Hi Hj. replace j with (i + Z.of_nat (Z.to_nat (j - i))) by lia. assert (Hm : i + Z.of_nat (Z.to_nat (j - i)) < n) by lia.
  revert Hm. induction (Z.to_nat (j - i)) as [|m IH]; intros Hm; [replace (i + Z.of_nat 0) with i by lia; lia|].
  specialize (IH ltac:(lia)). specialize (H (i + Z.of_nat m) ltac:(lia)). replace (i + Z.of_nat (Datatypes.S m)) with (i + Z.of_nat m + 1) by lia. lia.
Qed.
Definition monotoneb (f : Z -> Z) (n : Z) : bool :=
  forallb (fun i => f i <=? f (i + 1)) (map Z.of_nat (seq 0 (Z.to_nat (n - 1)))) || forallb (fun i => f (i + 1) <=? f i) (map Z.of_nat (seq 0 (Z.to_nat (n - 1)))).
Lemma monotoneb_ok f n : monotoneb f n = true -> monotone f n.
Proof.
  intros H. apply orb_true_iff in H. destruct H as [H|H]; [left|right].
  - apply steps_up. intros i Hi. apply Z.leb_le. exact (small_all (fun i => f i <=? f (i + 1)) _ H i ltac:(lia)).
  - intros i j Hi Hj. assert (- f i <= - f j); [|lia]. apply (steps_up (fun i => - f i) n); auto. intros m Hm.
    assert (f (m + 1) <= f m); [|lia]. apply Z.leb_le. exact (small_all (fun i => f (i + 1) <=? f i) _ H m ltac:(lia)).
Qed.
Definition shape_ok (e : Z * (Z * Z)) : bool := let '(_, (w, h)) := e in forallb (fun k =>
  forallb (fun y => monotoneb (window w h k y) w) (map Z.of_nat (seq 0 (Z.to_nat h))) && forallb (fun x => monotoneb (fun y => window w h k y x) h) (map Z.of_nat (seq 0 (Z.to_nat w))))
  (map Z.of_nat (seq 0 16)).
Lemma monotone_flip f n : monotone f n -> monotone (fun i => 64 - f i) n.
Proof. intros [H|H]; [right|left]; intros i j Hi Hj; specialize (H i j Hi Hj); lia. Qed.
Theorem C167_one_edge : forall b w h sign k y x, is_wedge b w h sign k y x -> monotone (wedge_weight w h k sign y) w /\ monotone (fun y => wedge_weight w h k sign y x) h.
Proof.
  intros b w h sign k y x (Hb & Hs & Hk & Hy & Hx). assert (A : forallb shape_ok wedge_blocks = true) by (vm_compute; reflexivity).
  rewrite forallb_forall in A. specialize (A _ Hb). unfold shape_ok in A. pose proof (small_all _ 16 A k Hk) as B. cbv beta in B. apply andb_true_iff in B. destruct B as [B1 B2].
  pose proof (small_all _ (Z.to_nat h) B1 y ltac:(lia)) as C1. pose proof (small_all _ (Z.to_nat w) B2 x ltac:(lia)) as C2. cbv beta in C1, C2.
  apply monotoneb_ok in C1. apply monotoneb_ok in C2. unfold wedge_weight.
  destruct (Bool.eqb (border_mean w h k <? 32) (sign =? 0)); split; auto; [apply monotone_flip in C1; exact C1|apply monotone_flip in C2; exact C2].
Qed.
(** The wedge of sign 0 gives at least half of the weight to the first row and column. *)
Definition border_sum (w h k sign : Z) : Z := zsum w (fun x => wedge_weight w h k sign 0 x) + zsum (h - 1) (fun y => wedge_weight w h k sign (y + 1) 0).
Theorem C167_sign : forall b w h k, In (b, (w, h)) wedge_blocks -> 0 <= k < 16 -> 32 <= (border_sum w h k 0 + (w + h - 1) / 2) / (w + h - 1).
Proof.
  intros b w h k Hb Hk. assert (A : forallb (fun e : Z * (Z * Z) => let '(_, (w, h)) := e in forallb (fun k => 32 <=? (border_sum w h k 0 + (w + h - 1) / 2) / (w + h - 1)) (map Z.of_nat (seq 0 16))) wedge_blocks = true) by (vm_compute; reflexivity).
  rewrite forallb_forall in A. specialize (A _ Hb). cbv beta iota in A. apply Z.leb_le. exact (small_all _ 16 A k Hk).
Qed.

(** ** The code *)
Lemma tables_read b : 0 <= b < 22 -> idx Wedge_Bits b <> Panic.
Proof. intros Hb. rewrite (idx_ok _ b 0) by (change (zlen Wedge_Bits) with 22; lia). discriminate. Qed.
(** MasterMask is nil: the function never returns. *)
Theorem C167_nil_refuted : forall bw bh W r, wedgeTable bw bh [] W <> Ok r.
Proof. intros bw bh W r H. unfold wedgeTable in H. assert (E : masterSteep [] = Panic) by (vm_compute; reflexivity). rewrite E in H. discriminate. Qed.
Lemma for_same {S} (body : Z -> S -> res S) lo hi s : (forall i, lo <= i < hi -> body i s = Ok s) -> rfor_to lo hi body s = Ok s.
Proof.
  intros H. unfold rfor_to. assert (A : forall n i, (forall j, i <= j < i + Z.of_nat n -> body j s = Ok s) -> rfor_from n i body s = Ok s).
  { induction n as [|n IH]; intros i Hi; cbn [rfor_from]; [reflexivity|]. rewrite Hi by lia. cbn [rbind]. apply IH. intros; apply Hi; lia. }
  apply A. intros; apply H. lia.
Qed.
(** Even with room for the masks, with state.BlockWidth and state.BlockHeight as they are (never written, all 0) no mask is stored. *)
Theorem C167_sizes_refuted : forall M W, master_room M -> wedgeTable (repeat 0 64) (repeat 0 64) M W = Ok W.
Proof.
  intros M W HM. destruct (masters_ok M HM) as (M1 & M2 & E1 & E2 & _). unfold wedgeTable. rewrite E1. cbn [rbind]. rewrite E2. cbn [rbind].
  apply for_same. intros b Hb. change BLOCK_8X8 with 3 in Hb. change BLOCK_SIZES with 22 in Hb.
  destruct (idx Wedge_Bits b) as [n| |] eqn:En; [|exfalso; revert En; apply (tables_read b); lia|exfalso; revert En; unfold idx; destruct (b <? 0); [discriminate|]; destruct (nth_error _ _); discriminate].
  cbn [rbind]. destruct (0 <? n) eqn:Ep; [|reflexivity].
  assert (Z0 : idx (repeat 0 64) b = Ok 0) by (rewrite (idx_ok _ b 0) by (change (zlen (repeat 0 64)) with 64; lia); f_equal; apply nth_repeat).
  rewrite Z0. cbn [rbind]. apply for_same. intros k Hk. change WEDGE_TYPES with 16 in Hk.
  assert (Hw : exists w h, In (b, (w, h)) wedge_blocks).
  { destruct (find (fun e => fst e =? b) wedge_blocks) as [(b', (w, h))|] eqn:Ef.
    - apply find_some in Ef. destruct Ef as [Hin Eb]. cbn [fst] in Eb. apply Z.eqb_eq in Eb. subst b'. eauto.
    - destruct (no_wedge b Hb Ef) as (m & Em & Hm). rewrite Em in En. injection En as ->. apply Z.ltb_lt in Ep. lia. }
  destruct Hw as (w & h & Hw). destruct (places b w h k Hw Hk) as (P0 & P1 & P2 & _). unfold wedgeOne. rewrite P0, P1, P2. cbn [rbind].
  rewrite !Z.mul_0_r. reflexivity.
Qed.
(** Slices with room exist: all zero masks; of an 8x8 block (size 3) the horizontal wedge (4) of sign 0 has the ramp through the rows. *)
Definition M0 : cube := repeat (repeat (repeat 0 64) 64) 6.
Definition W0 : wedges := repeat (repeat (repeat (repeat (repeat 0 32) 32) 16) 2) 22.
Definition BW : list Z := [4; 4; 8; 8; 8; 16; 16; 16; 32; 32; 32; 64; 64; 64; 128; 128; 4; 16; 8; 32; 16; 64].
Definition BH : list Z := [4; 8; 4; 8; 16; 8; 16; 32; 16; 32; 64; 32; 64; 128; 64; 128; 16; 4; 32; 8; 64; 16].
Lemma idx_repeat_ok {A} (a : A) n i : 0 <= i < Z.of_nat n -> idx (repeat a n) i = Ok a.
Proof. intros H. rewrite (idx_ok _ i a) by (unfold zlen; rewrite repeat_length; lia). f_equal. apply nth_repeat. Qed.
Lemma M0_room : master_room M0.
Proof. intros d y x Hd Hy Hx. exists 0. unfold idx3, idx2, M0. rewrite !idx_repeat_ok by lia. cbn [rbind]. rewrite !idx_repeat_ok by lia. cbn [rbind]. rewrite idx_repeat_ok by lia. reflexivity. Qed.
Lemma W0_room : wedge_room W0.
Proof.
  intros b w h sign k y x (Hb & Hs & Hk & Hy & Hx). destruct (wedge_shape b w h Hb) as (_ & _ & Hr & Hw & Hh). exists 0. unfold idx5, idx3, idx2, W0.
  do 4 (rewrite idx_repeat_ok by lia; cbn [rbind]). apply idx_repeat_ok. lia.
Qed.
Lemma BW_sizes : block_sizes_are BW BH.
Proof. intros b w h H. repeat (destruct H as [H|H]; [injection H as <- <- <-; split; reflexivity|]). destruct H. Qed.
Example C167_case : exists W', wedgeTable BW BH M0 W0 = Ok W' /\ is_wedge 3 8 8 0 4 2 5 /\
  map (fun y => idx5 W' 3 0 4 y 5) [0; 1; 2; 3; 4; 5; 6; 7] = map Ok [57; 43; 21; 7; 2; 0; 0; 0] /\
  map (fun x => idx5 W' 7 1 13 15 x) [0; 1; 2; 3; 4; 5; 6; 7; 8; 9; 10; 11; 12; 13; 14; 15] = map Ok [0; 0; 0; 0; 0; 0; 0; 0; 1; 2; 6; 18; 37; 53; 60; 63] /\
  map (fun x => idx5 W' 7 0 13 15 x) [7; 8; 12] = map Ok [64; 63; 27] /\ idx5 W' 10 0 4 0 0 = Ok 0.
Proof.
  destruct (C167_masks_partial BW BH M0 W0 BW_sizes M0_room W0_room) as (W' & E & V & U). exists W'. split; [exact E|].
  split; [unfold is_wedge; split; [cbn; tauto|lia]|].
  split; [|split; [|split]]; cbn [map].
  - rewrite !(V 3 8 8) by (unfold is_wedge; split; [cbn; tauto|lia]). vm_compute. reflexivity.
  - rewrite !(V 7 16 32) by (unfold is_wedge; split; [cbn; tauto|lia]). vm_compute. reflexivity.
  - rewrite !(V 7 16 32) by (unfold is_wedge; split; [cbn; tauto|lia]). vm_compute. reflexivity.
  - rewrite U by (intros w h (H & _); cbn in H; repeat (destruct H as [H|H]; [discriminate|]); destruct H). vm_compute. reflexivity.
Qed.
Example C167_sizes_case : exists M, master_room M. Proof. exists M0. exact M0_room. Qed.
Print Assumptions C167_masks_partial. Print Assumptions C167_complement. Print Assumptions C167_one_edge. Print Assumptions C167_sign. Print Assumptions C167_nil_refuted. Print Assumptions C167_sizes_refuted.
