(** Proofs about CdfMemory.v. *)
From Coq Require Import String.
From Verif Require Import GoBase Bitstream Util Symbol SpecSymbol SymbolProofs Frame IntraProofs CdfTables CdfMoves CdfMemory SpecCdfMemory.

Lemma zs_eqb_eq a b : zs_eqb a b = true <-> a = b.
Proof.
  revert b. induction a as [|x a IH]; intros [|y b]; cbn; split; intros H; try discriminate; try reflexivity.
  - apply andb_true_iff in H as [H1 H2]. apply Z.eqb_eq in H1. apply IH in H2. congruence.
  - injection H as -> ->. rewrite Z.eqb_refl. cbn. apply IH. reflexivity.
Qed.
Lemma key_eqb_eq a b : key_eqb a b = true <-> a = b.
Proof.
  unfold key_eqb. rewrite andb_true_iff, zs_eqb_eq, String.eqb_eq. destruct a, b; cbn. split; [intros [-> ->]; reflexivity|intros [= -> ->]; split; reflexivity].
Qed.
Lemma key_eqb_refl a : key_eqb a a = true. Proof. apply key_eqb_eq. reflexivity. Qed.

Lemma lift_inv {A B} (r : res B) (s : A) b s' : lift r s = Ok (b, s') -> r = Ok b /\ s' = s.
Proof. unfold lift. destruct r; intros [= -> ->]; split; reflexivity. Qed.

(** ** Nested slices *)
Lemma tput_tget t p c t' : tput t p c = Ok t' -> forall p', tget t' p' = if zs_eqb p p' then Ok c else tget t p'.
Proof.
  revert t t'. induction p as [|i p IH]; intros t t' H p'.
  - destruct t; [|discriminate]. injection H as <-. destruct p'; reflexivity.
  - destruct t as [|l]; [discriminate|]. cbn [tput] in H. apply rbind_inv in H as (s & Es & H). apply rbind_inv in H as (s' & Es' & H). apply rbind_inv in H as (l' & El & [= <-]).
    destruct p' as [|j p']; [reflexivity|]. cbn [tget zs_eqb]. destruct (Z.eqb_spec i j) as [->|Hij].
    + rewrite (idx_upd_same _ _ _ _ El), Es. cbn [rbind andb]. apply (IH _ _ Es').
    + rewrite (idx_upd_other _ _ _ j _ El Hij). reflexivity.
Qed.
Lemma tput_ok t p c0 c : tget t p = Ok c0 -> exists t', tput t p c = Ok t'.
Proof.
  revert t. induction p as [|i p IH]; intros t H; destruct t; try discriminate; cbn [tget tput] in *; [eexists; reflexivity|].
  apply rbind_inv in H as (s & Es & H). rewrite Es. cbn [rbind]. destruct (IH _ H) as (t' & ->). cbn [rbind]. destruct (upd_succeeds _ _ _ t' Es) as (l' & ->). eexists. reflexivity.
Qed.

(** ** Adaptation of a CDF: the length stays, the counter grows up to 32 *)
Definition counter (c : list Z) : Z := at_ c (nsyms c).
Lemma adapt_counter c n t c' : n = nsyms c -> 1 <= n -> adapt c n t = Ok c' -> length c' = length c /\ counter c' = counter c + int_of (counter c <? 32).
Proof.
  intros -> Hn H. unfold adapt in H. apply rbind_inv in H as (cnt & Ec & H). apply rbind_inv in H as (l & _ & H). apply rbind_inv in H as (r & Er & H). apply rbind_inv in H as (cnt' & Ec' & H).
  assert (K : length (snd r) = length c /\ at_ (snd r) (nsyms c) = at_ c (nsyms c)).
  { unfold rfor_to in Er. revert Er. apply (rfor_from_post (fun _ a => length (snd a) = length c /\ at_ (snd a) (nsyms c) = at_ c (nsyms c))); [split; reflexivity|].
    intros j [tmp a] [tmp' a'] Hj [Hl Ha] Hb. cbn [snd] in *. apply rbind_inv in Hb as (x & _ & Hb). apply rbind_inv in Hb as (a1 & Eu & [= <- <-]).
    apply upd_inv in Eu as [Hr ->]. rewrite upd_nat_length, at_upd_other by lia. split; assumption. }
  destruct K as [Kl Ka]. apply upd_inv in H as [Hr ->]. rewrite upd_nat_length. split; [exact Kl|]. unfold counter.
  assert (Hns : forall v, nsyms (upd_nat (snd r) (Z.to_nat (nsyms c)) v) = nsyms c) by (intros; unfold nsyms; rewrite upd_nat_length, Kl; reflexivity).
  rewrite Hns, at_upd_same by lia. rewrite idx_at in Ec' by lia. injection Ec' as <-. rewrite Ka. reflexivity.
Qed.
Lemma ReadSymbol_counter dis c d t c' d' : ReadSymbol dis c d = Ok (t, c', d') ->
  length c' = length c /\ counter c' = (if dis then counter c else counter c + int_of (counter c <? 32)) /\ (dis = true -> c' = c).
Proof.
  unfold ReadSymbol. intros H. destruct (Z.ltb_spec (zlen c - 1) 1); [discriminate|].
  apply bind_inv in H as (x & d1 & E1 & H). apply lift_inv in E1 as [_ ->]. destruct (negb _); [discriminate|].
  apply bind_inv in H as (x2 & d2 & E2 & H). injection E2 as <- <-.
  apply bind_inv in H as (r & d3 & E3 & H). apply lift_inv in E3 as [_ ->]. destruct r as [[symbol prev] cur]. cbv zeta in H.
  apply bind_inv in H as (l & d4 & E4 & H). destruct (_ <? 0); [discriminate|].
  apply bind_inv in H as (nd & d5 & E5 & H). apply bind_inv in H as (u & d6 & E6 & H).
  apply bind_inv in H as (c1 & d7 & E7 & H). injection H as _ <- _.
  destruct dis; [injection E7 as <- _; repeat split|].
  apply lift_inv in E7 as [E7 _]. apply adapt_counter in E7; [|reflexivity|lia]. destruct E7 as [A B]. split; [exact A|]. split; [exact B|discriminate].
Qed.

(** ** Assignments *)
Lemma fold_pset {A} (f : key * A -> ptr) l e k :
  fold_left (fun e m => pset e (fst m) (f m)) l e k = fold_left (fun p m => if key_eqb (fst m) k then f m else p) l (e k).
Proof. revert e. induction l as [|m l IH]; intros e; [reflexivity|]. cbn [fold_left]. rewrite IH. reflexivity. Qed.
Lemma fold_const {A} (f : key * A -> ptr) l k v p0 : (forall m, In m l -> fst m = k -> f m = v) ->
  fold_left (fun p m => if key_eqb (fst m) k then f m else p) l p0 = if existsb (fun m => key_eqb (fst m) k) l then v else p0.
Proof.
  revert p0. induction l as [|m l IH]; intros p0 H; [reflexivity|]. cbn [fold_left existsb]. rewrite IH by (intros m' Hm; apply H; right; exact Hm).
  destruct (key_eqb (fst m) k) eqn:E; cbn [orb]; [|reflexivity]. destruct (existsb _ l); [reflexivity|]. apply H; [left; reflexivity|apply key_eqb_eq; exact E].
Qed.
Definition same_keys (l : list (key * (area * key))) := forallb (fun m => key_eqb (fst m) (snd (snd m))) l.
Lemma moves_at (g : ptr -> area -> key -> ptr) src l e k : (forall e a k, src e a k = g (e k) a k) -> same_keys l = true ->
  moves src l e k = fold_left (fun p m => if key_eqb (fst m) k then g p (fst (snd m)) k else p) l (e k).
Proof.
  intros Hs. unfold moves. revert e. induction l as [|m l IH]; intros e H; [reflexivity|]. cbn [same_keys forallb] in H. apply andb_true_iff in H as [H1 H2].
  cbn [fold_left]. rewrite IH by exact H2. f_equal. unfold pset. destruct (key_eqb (fst m) k) eqn:E; [|reflexivity].
  apply key_eqb_eq in H1, E. rewrite <- H1, E. apply Hs.
Qed.
(** A property of pointers that every source has is kept. *)
Lemma moves_keep (P : ptr -> Prop) g src l e k : (forall e a k, src e a k = g (e k) a k) -> same_keys l = true ->
  P (e k) -> (forall p a, P p -> P (g p a k)) -> P (moves src l e k).
Proof.
  intros Hs Hk He Hg. rewrite (moves_at g) by assumption. revert He. generalize (e k). clear -Hg. induction l as [|m l IH]; intros p Hp; [exact Hp|].
  cbn [fold_left]. apply IH. destruct (key_eqb _ _); [apply Hg|]; exact Hp.
Qed.
(** When all the sources are in one other area the variables of the list are copied. *)
Lemma moves_copy g src l e k v : (forall e a k, src e a k = g (e k) a k) -> same_keys l = true -> (forall m p, In m l -> g p (fst (snd m)) k = v) ->
  moves src l e k = if existsb (fun m => key_eqb (fst m) k) l then v else e k.
Proof.
  intros Hs Hk Hv. rewrite (moves_at g) by assumption. revert Hv. generalize (e k). clear. induction l as [|m l IH]; intros p Hv; [reflexivity|].
  cbn [fold_left existsb]. rewrite IH by (intros m' p' Hm; apply Hv; right; exact Hm). destruct (key_eqb (fst m) k); [|reflexivity]. cbn [orb].
  destruct (existsb _ l); [reflexivity|]. apply Hv. left. reflexivity.
Qed.
Lemma same_initSymbol : same_keys initSymbolMoves = true. Proof. vm_compute. reflexivity. Qed.
Lemma same_exitSymbol : same_keys exitSymbolMoves = true. Proof. vm_compute. reflexivity. Qed.
Lemma same_frameEnd : same_keys frameEndMoves = true. Proof. vm_compute. reflexivity. Qed.
Lemma same_save : same_keys saveMoves = true. Proof. vm_compute. reflexivity. Qed.
Lemma same_load : same_keys loadMoves = true. Proof. vm_compute. reflexivity. Qed.

(** ** The tables of the variables *)
Definition pair_eqb (a b : key * string) := key_eqb (fst a) (fst b) && (snd a =? snd b)%string.
Lemma pair_eqb_eq a b : pair_eqb a b = true <-> a = b.
Proof. unfold pair_eqb. rewrite andb_true_iff, key_eqb_eq, String.eqb_eq. destruct a, b; cbn. split; [intros [-> ->]; reflexivity|intros [= -> ->]; split; reflexivity]. Qed.
Definition sub (l l' : list (key * string)) := forallb (fun m => existsb (pair_eqb m) l') l.
Lemma sub_In l l' m : sub l l' = true -> In m l -> In m l'.
Proof. intros H Hm. unfold sub in H. rewrite forallb_forall in H. specialize (H _ Hm). apply existsb_exists in H as (x & Hx & E). apply pair_eqb_eq in E. subst. exact Hx. Qed.
Definition functional (l : list (key * string)) := forallb (fun m => forallb (fun m' => negb (key_eqb (fst m) (fst m')) || (snd m =? snd m')%string) l) l.
Lemma functional_eq l k t t' : functional l = true -> In (k, t) l -> In (k, t') l -> t = t'.
Proof.
  intros H H1 H2. unfold functional in H. rewrite forallb_forall in H. specialize (H _ H1). cbn beta in H. rewrite forallb_forall in H. specialize (H _ H2). cbn [fst snd] in H.
  rewrite key_eqb_refl in H. apply String.eqb_eq. exact H.
Qed.
Lemma init_noncoeff m : In m initNonCoeffMoves <-> In m noncoeff_variables.
Proof. split; apply sub_In; vm_compute; reflexivity. Qed.
Lemma init_coeff m : In m initCoeffMoves <-> In m coeff_variables.
Proof. split; apply sub_In; vm_compute; reflexivity. Qed.
Lemma vars_functional k t t' : In (k, t) (noncoeff_variables ++ coeff_variables) -> In (k, t') (noncoeff_variables ++ coeff_variables) -> t = t'.
Proof. apply functional_eq. vm_compute. reflexivity. Qed.
Lemma vars_disjoint k t t' : In (k, t) noncoeff_variables -> In (k, t') coeff_variables -> False.
Proof.
  intros H H'. assert (A : forallb (fun m => forallb (fun m' => negb (key_eqb (fst m) (fst m'))) coeff_variables) noncoeff_variables = true) by (vm_compute; reflexivity).
  rewrite forallb_forall in A. specialize (A _ H). cbn beta in A. rewrite forallb_forall in A. specialize (A _ H'). cbn [fst] in A. rewrite key_eqb_refl in A. discriminate.
Qed.
Definition ifym : key := ("IntraFrameYModeCdf"%string, []).
Lemma vars_no_ifym t : ~ In (ifym, t) (noncoeff_variables ++ coeff_variables).
Proof.
  intros H. assert (A : forallb (fun m => negb (key_eqb (fst m) ifym)) (noncoeff_variables ++ coeff_variables) = true) by (vm_compute; reflexivity).
  rewrite forallb_forall in A. specialize (A _ H). cbn [fst] in A. rewrite key_eqb_refl in A. discriminate.
Qed.

(** Which pointers a variable can hold. *)
Definition home (k : key) (p : ptr) : Prop :=
  p = Nil \/ (exists t, In (k, t) noncoeff_variables /\ p = At t []) \/ (exists t i, In (k, t) coeff_variables /\ 0 <= i < 4 /\ p = At t [i])
  \/ (k = ifym /\ p = At "DEFAULT_INTRA_FRAME_Y_MODE_CDF" []).
Lemma home_noncoeff k t p : In (k, t) noncoeff_variables -> home k p -> p = Nil \/ p = At t [].
Proof.
  intros Hk [->|[(t' & H & ->)|[(t' & i & H & _)|[-> _]]]]; [left; reflexivity|right|exfalso|exfalso].
  - f_equal. apply (vars_functional k); apply in_or_app; left; assumption.
  - exact (vars_disjoint _ _ _ Hk H).
  - apply (vars_no_ifym t). apply in_or_app. left. exact Hk.
Qed.
Lemma home_coeff k t p : In (k, t) coeff_variables -> home k p -> p = Nil \/ exists i, 0 <= i < 4 /\ p = At t [i].
Proof.
  intros Hk [->|[(t' & H & ->)|[(t' & i & H & Hi & ->)|[-> _]]]]; [left; reflexivity|exfalso|right|exfalso].
  - exact (vars_disjoint _ _ _ H Hk).
  - exists i. split; [exact Hi|]. f_equal. apply (vars_functional k); apply in_or_app; right; assumption.
  - apply (vars_no_ifym t). apply in_or_app. right. exact Hk.
Qed.
Lemma coeffIdx_class q i : coeffIdx q = i <-> q_class q i.
Proof. unfold coeffIdx, q_class. destruct (Z.leb_spec q 20), (Z.leb_spec q 60), (Z.leb_spec q 120); lia. Qed.
Lemma coeffIdx_range q : 0 <= coeffIdx q < 4.
Proof. unfold coeffIdx. destruct (q <=? 20), (q <=? 60), (q <=? 120); lia. Qed.

Lemma existsb_key {A} (l : list (key * A)) k : existsb (fun m => key_eqb (fst m) k) l = true <-> exists a, In (k, a) l.
Proof.
  rewrite existsb_exists. split.
  - intros ([k' a] & H & E). apply key_eqb_eq in E. cbn in E. subst. exists a. exact H.
  - intros (a & H). exists (k, a). split; [exact H|apply key_eqb_refl].
Qed.
Lemma existsb_key_false {A} (l : list (key * A)) k : (forall a, ~ In (k, a) l) -> existsb (fun m => key_eqb (fst m) k) l = false.
Proof. intros H. destruct (existsb _ l) eqn:E; [|reflexivity]. apply existsb_key in E as (a & E). destruct (H a E). Qed.

Lemma initNonCoeff_at e k t : In (k, t) noncoeff_variables -> initNonCoeff e k = At t [].
Proof.
  intros H. unfold initNonCoeff. rewrite (fold_pset (fun m => At (snd m) [])). rewrite (fold_const _ _ _ (At t [])).
  - rewrite (proj2 (existsb_key _ _)); [reflexivity|]. exists t. exact (proj2 (init_noncoeff _) H).
  - intros [k' t'] Hm E. cbn in E. subst k'. cbn [snd]. f_equal. pose proof (proj1 (init_noncoeff _) Hm) as Hm'. clear Hm. rename Hm' into Hm. apply (vars_functional k); apply in_or_app; left; assumption.
Qed.
Lemma initNonCoeff_other e k : (forall t, ~ In (k, t) noncoeff_variables) -> initNonCoeff e k = e k.
Proof.
  intros H. unfold initNonCoeff. rewrite (fold_pset (fun m => At (snd m) [])). rewrite (fold_const _ _ _ Nil).
  - rewrite existsb_key_false; [reflexivity|]. intros t Ht. exact (H t (proj1 (init_noncoeff _) Ht)).
  - intros [k' t'] Hm E. cbn in E. subst k'. pose proof (proj1 (init_noncoeff _) Hm) as Hm'. clear Hm. rename Hm' into Hm. destruct (H _ Hm).
Qed.
Lemma initCoeff_at q e k t : In (k, t) coeff_variables -> initCoeff q e k = At t [coeffIdx q].
Proof.
  intros H. unfold initCoeff. rewrite (fold_pset (fun m => At (snd m) [coeffIdx q])). rewrite (fold_const _ _ _ (At t [coeffIdx q])).
  - rewrite (proj2 (existsb_key _ _)); [reflexivity|]. exists t. exact (proj2 (init_coeff _) H).
  - intros [k' t'] Hm E. cbn in E. subst k'. cbn [snd]. f_equal. pose proof (proj1 (init_coeff _) Hm) as Hm'. clear Hm. rename Hm' into Hm. apply (vars_functional k); apply in_or_app; right; assumption.
Qed.
Lemma initCoeff_other q e k : (forall t, ~ In (k, t) coeff_variables) -> initCoeff q e k = e k.
Proof.
  intros H. unfold initCoeff. rewrite (fold_pset (fun m => At (snd m) [coeffIdx q])). rewrite (fold_const _ _ _ Nil).
  - rewrite existsb_key_false; [reflexivity|]. intros t Ht. exact (H t (proj1 (init_coeff _) Ht)).
  - intros [k' t'] Hm E. cbn in E. subst k'. pose proof (proj1 (init_coeff _) Hm) as Hm'. clear Hm. rename Hm' into Hm. destruct (H _ Hm).
Qed.
Lemma in_dec_key (l : list (key * string)) k : (exists t, In (k, t) l) \/ forall t, ~ In (k, t) l.
Proof. destruct (existsb (fun m => key_eqb (fst m) k) l) eqn:E; [left; apply existsb_key, E|right]. intros t H. rewrite (proj2 (existsb_key _ _)) in E; [discriminate|]. exists t. exact H. Qed.

(** ** Every reachable state has its variables at home *)
Definition homes (m : mem) : Prop := forall k, home k (mCur m k) /\ home k (mTile m k) /\ home k (mSaved m k) /\ forall s, home k (mSlot m s k).
Lemma start_homes : homes start. Proof. intros k. repeat split; intros; left; reflexivity. Qed.
Lemma load_home m s c k : homes m -> loadP m s = Ok c -> home k (c k).
Proof.
  intros H. unfold loadP. destruct (_ && _); [|discriminate]. intros E. assert (c = moves (fun _ _ => mSlot m s) loadMoves (mCur m)) as -> by congruence. apply (moves_keep (home k) (fun _ _ k => mSlot m s k)); [reflexivity|exact same_load|apply H|]. intros. apply H.
Qed.
Lemma step_homes ev m m' : homes m -> step ev m = Ok m' -> homes m'.
Proof.
  intros H E k. destruct (H k) as (Hc & Ht & Hs & Hsl). destruct ev as [none s q| |k0 path dis d|b|b|s|s]; cbn [step] in E.
  - destruct none; [injection E as <-|apply rbind_inv in E as (c & Ec & [= <-])]; cbn [mCur mTile mSaved mSlot]; (split; [|split; [exact Ht|split; [exact Hs|exact Hsl]]]).
    + destruct (in_dec_key coeff_variables k) as [(t & Hk)|Hk].
      * rewrite (initCoeff_at _ _ _ t Hk). right. right. left. exists t, (coeffIdx q). split; [exact Hk|]. split; [apply coeffIdx_range|reflexivity].
      * rewrite initCoeff_other by exact Hk. destruct (in_dec_key noncoeff_variables k) as [(t & Hn)|Hn].
        -- rewrite (initNonCoeff_at _ _ t Hn). right. left. exists t. split; [exact Hn|reflexivity].
        -- rewrite initNonCoeff_other by exact Hn. exact Hc.
    + apply (load_home m s); assumption.
  - injection E as <-. cbn [mCur mTile mSaved mSlot]. split; [exact Hc|]. split; [|split; [exact Hs|exact Hsl]].
    unfold initSymbolP. apply (moves_keep (home k) (fun p a k => match a with Cur => mCur m k | Tile => p | Saved => mSaved m k end)); [intros ? []; reflexivity|exact same_initSymbol| |].
    + unfold pset. destruct (key_eqb ("IntraFrameYModeCdf"%string, []) k) eqn:Ek; [|exact Ht]. apply key_eqb_eq in Ek. right. right. right. split; [symmetry; exact Ek|reflexivity].
    + intros p [] Hp; [exact Hc|exact Hp|exact Hs].
  - apply rbind_inv in E as (a & _ & E). apply rbind_inv in E as (c & _ & E). apply rbind_inv in E as (r & _ & E). apply rbind_inv in E as (t & _ & [= <-]). exact (H k).
  - injection E as <-. destruct b; [|exact (H k)]. cbn [mCur mTile mSaved mSlot]. split; [exact Hc|]. split; [exact Ht|]. split; [|exact Hsl].
    unfold exitSymbolP. apply (moves_keep (home k) (fun p a k => match a with Cur => mCur m k | Tile => mTile m k | Saved => p end)); [intros ? []; reflexivity|exact same_exitSymbol|exact Hs|].
    intros p [] Hp; [exact Hc|exact Ht|exact Hp].
  - injection E as <-. destruct b; [|exact (H k)]. cbn [mCur mTile mSaved mSlot]. split; [|split; [exact Ht|split; [exact Hs|exact Hsl]]].
    unfold frameEndP. apply (moves_keep (home k) (fun p a k => match a with Cur => p | Tile => mTile m k | Saved => mSaved m k end)); [intros ? []; reflexivity|exact same_frameEnd|exact Hc|].
    intros p [] Hp; [exact Hp|exact Ht|exact Hs].
  - destruct (_ && _); [|discriminate]. injection E as <-. cbn [mCur mTile mSaved mSlot]. split; [exact Hc|]. split; [exact Ht|]. split; [exact Hs|]. intros s'.
    destruct (s =? s'); [|apply Hsl]. unfold saveP. apply (moves_keep (home k) (fun p a k => match a with Cur => mCur m k | Tile => mTile m k | Saved => mSaved m k end)); [intros ? []; reflexivity|exact same_save|left; reflexivity|].
    intros p [] Hp; [exact Hc|exact Ht|exact Hs].
  - apply rbind_inv in E as (c & Ec & [= <-]). cbn [mCur mTile mSaved mSlot]. split; [|split; [exact Ht|split; [exact Hs|exact Hsl]]]. apply (load_home m s); assumption.
Qed.
Lemma run_homes h m m' : homes m -> run h m = Ok m' -> homes m'.
Proof. revert m. induction h as [|ev h IH]; cbn [run]; intros m H E; [injection E as <-; exact H|]. apply rbind_inv in E as (m1 & E1 & E). apply (IH m1); [apply (step_homes ev m)|]; assumption. Qed.
Lemma run_app h1 h2 m : run (h1 ++ h2) m = let! m := run h1 m in run h2 m.
Proof. revert m. induction h1 as [|ev h1 IH]; cbn [run app]; intros m; [reflexivity|]. destruct (step ev m); cbn [rbind]; auto. Qed.

(** ** The heap: lengths stay, counters grow *)
Definition hle (h h' : string -> tree) : Prop :=
  forall n p c, tget (h n) p = Ok c -> exists c', tget (h' n) p = Ok c' /\ length c' = length c /\ counter c <= counter c'.
Lemma hle_refl h : hle h h. Proof. intros n p c H. exists c. repeat split; [exact H|lia]. Qed.
Lemma hle_trans a b c : hle a b -> hle b c -> hle a c.
Proof. intros H1 H2 n p x Hx. destruct (H1 _ _ _ Hx) as (y & Hy & L1 & C1). destruct (H2 _ _ _ Hy) as (z & Hz & L2 & C2). exists z. repeat split; [exact Hz|congruence|lia]. Qed.
Lemma hset_get h n t n' p : tget (hset h n t n') p = if (n =? n')%string then tget t p else tget (h n') p.
Proof. unfold hset. destruct (n =? n')%string; reflexivity. Qed.
Lemma step_hle ev m m' : step ev m = Ok m' -> hle (mHeap m) (mHeap m').
Proof.
  intros E. destruct ev as [none s q| |k path dis d|b|b|s|s]; cbn [step] in E.
  - destruct none; [injection E as <-|apply rbind_inv in E as (c & Ec & [= <-])]; apply hle_refl.
  - injection E as <-. apply hle_refl.
  - apply rbind_inv in E as ([n p] & _ & E). apply rbind_inv in E as (c & Ec & E). apply rbind_inv in E as ([[t c'] d'] & Er & E). apply rbind_inv in E as (tr & Et & [= <-]). cbn [fst snd mHeap] in *.
    apply ReadSymbol_counter in Er as (L & C & _). intros n' p' x Hx. rewrite hset_get. destruct (String.eqb_spec n n') as [<-|Hn]; [|exists x; repeat split; [exact Hx|lia]].
    rewrite (tput_tget _ _ _ _ Et). destruct (zs_eqb p p') eqn:Ep; [|exists x; repeat split; [exact Hx|lia]]. apply zs_eqb_eq in Ep. subst p'.
    rewrite Ec in Hx. injection Hx as <-. exists c'. repeat split; [exact L|]. rewrite C. destruct dis; [lia|]. unfold int_of. destruct (_ <? _); lia.
  - injection E as <-. destruct b; apply hle_refl.
  - injection E as <-. destruct b; apply hle_refl.
  - destruct (_ && _); [injection E as <-; apply hle_refl|discriminate].
  - apply rbind_inv in E as (c & Ec & [= <-]). apply hle_refl.
Qed.
Lemma run_hle h m m' : run h m = Ok m' -> hle (mHeap m) (mHeap m').
Proof. revert m. induction h as [|ev h IH]; cbn [run]; intros m E; [injection E as <-; apply hle_refl|]. apply rbind_inv in E as (m1 & E1 & E). eapply hle_trans; [apply (step_hle ev); exact E1|apply IH, E]. Qed.

(** Reads that do not adapt change nothing. *)
Lemma tput_same t p c t' : tget t p = Ok c -> tput t p c = Ok t' -> forall p', tget t' p' = tget t p'.
Proof. intros Hg Hp p'. rewrite (tput_tget _ _ _ _ Hp). destruct (zs_eqb p p') eqn:E; [apply zs_eqb_eq in E; subst; symmetry; exact Hg|reflexivity]. Qed.
Definition heq (h h' : string -> tree) : Prop := forall n p, tget (h n) p = tget (h' n) p.
Definition adapting (ev : event) : bool := match ev with ReadSym _ _ dis _ => negb dis | _ => false end.
Lemma step_heq ev m m' : adapting ev = false -> step ev m = Ok m' -> heq (mHeap m) (mHeap m').
Proof.
  intros Ha E. destruct ev as [none s q| |k path dis d|b|b|s|s]; cbn [step] in E.
  - destruct none; [injection E as <-|apply rbind_inv in E as (c & Ec & [= <-])]; intros ? ?; reflexivity.
  - injection E as <-. intros ? ?; reflexivity.
  - cbn in Ha. destruct dis; [|discriminate].
    apply rbind_inv in E as ([n p] & _ & E). apply rbind_inv in E as (c & Ec & E). apply rbind_inv in E as ([[t c'] d'] & Er & E). apply rbind_inv in E as (tr & Et & [= <-]). cbn [fst snd mHeap] in *.
    apply ReadSymbol_counter in Er as (_ & _ & Er). specialize (Er eq_refl). subst c'. intros n' p'. rewrite hset_get. destruct (String.eqb_spec n n') as [<-|Hn]; [|reflexivity].
    symmetry. apply (tput_same _ _ _ _ Ec Et).
  - injection E as <-. destruct b; intros ? ?; reflexivity.
  - injection E as <-. destruct b; intros ? ?; reflexivity.
  - destruct (_ && _); [injection E as <-; intros ? ?; reflexivity|discriminate].
  - apply rbind_inv in E as (c & Ec & [= <-]). intros ? ?; reflexivity.
Qed.
Lemma run_heq h m m' : forallb (fun ev => negb (adapting ev)) h = true -> run h m = Ok m' -> heq (mHeap m) (mHeap m').
Proof.
  revert m. induction h as [|ev h IH]; cbn [run forallb]; intros m Ha E; [injection E as <-; intros ? ?; reflexivity|]. apply andb_true_iff in Ha as [A1 A2]. apply negb_true_iff in A1.
  apply rbind_inv in E as (m1 & E1 & E). intros n p. rewrite (step_heq _ _ _ A1 E1 n p). apply (IH _ A2 E).
Qed.

(** ** The tile's variables after a tile start *)
Lemma initSymbol_at m k : (exists a, In (k, a) initSymbolMoves) -> initSymbolP m k = mCur m k.
Proof.
  intros H. unfold initSymbolP. erewrite (moves_copy (fun p a k => match a with Cur => mCur m k | Tile => p | Saved => mSaved m k end) _ _ _ _ (mCur m k)); [|intros ? []; reflexivity|exact same_initSymbol|].
  - rewrite (proj2 (existsb_key _ _) H). reflexivity.
  - assert (A : forallb (fun m : key * (area * key) => match fst (snd m) with Cur => true | _ => false end) initSymbolMoves = true) by (vm_compute; reflexivity).
    rewrite forallb_forall in A. intros m' p Hm. specialize (A _ Hm). destruct (fst (snd m')); [reflexivity|discriminate|discriminate].
Qed.
Definition keys_sub {A} (l : list (key * string)) (l' : list (key * A)) := forallb (fun m => existsb (fun m' => key_eqb (fst m') (fst m)) l') l.
Lemma keys_sub_In {A} l (l' : list (key * A)) k t : keys_sub l l' = true -> In (k, t) l -> exists a, In (k, a) l'.
Proof. intros H Hk. unfold keys_sub in H. rewrite forallb_forall in H. specialize (H _ Hk). cbn [fst] in H. apply existsb_key in H. exact H. Qed.
Lemma vars_in_initSymbol k t : In (k, t) (noncoeff_variables ++ coeff_variables) -> exists a, In (k, a) initSymbolMoves.
Proof. apply keys_sub_In. vm_compute. reflexivity. Qed.
Lemma initSymbol_ifym m : initSymbolP m ifym = At "DEFAULT_INTRA_FRAME_Y_MODE_CDF" [].
Proof.
  unfold initSymbolP. erewrite (moves_copy (fun p a k => match a with Cur => mCur m k | Tile => p | Saved => mSaved m k end) _ _ _ _ (mCur m ifym)); [|intros ? []; reflexivity|exact same_initSymbol|].
  - rewrite existsb_key_false; [unfold pset; rewrite key_eqb_refl; reflexivity|].
    intros a Ha. assert (A : forallb (fun m => negb (key_eqb (fst m) ifym)) initSymbolMoves = true) by (vm_compute; reflexivity).
    rewrite forallb_forall in A. specialize (A _ Ha). cbn [fst] in A. rewrite key_eqb_refl in A. discriminate.
  - assert (A : forallb (fun m : key * (area * key) => match fst (snd m) with Cur => true | _ => false end) initSymbolMoves = true) by (vm_compute; reflexivity).
    rewrite forallb_forall in A. intros m' p Hm. specialize (A _ Hm). destruct (fst (snd m')); [reflexivity|discriminate|discriminate].
Qed.

(** ** Leaves *)
Fixpoint leaves (t : tree) : list (list Z) := match t with Leaf c => [c] | Node l => flat_map leaves l end.
Lemma tget_leaf t p c : tget t p = Ok c -> In c (leaves t).
Proof.
  revert t. induction p as [|i p IH]; intros [c'|l] H; try discriminate; cbn [tget leaves] in *; [injection H as <-; left; reflexivity|].
  apply rbind_inv in H as (s & Es & H). apply in_flat_map. exists s. split; [|apply IH, H]. apply idx_inv in Es as [_ Es]. apply nth_error_In in Es. exact Es.
Qed.
Lemma default_counter n p c : tget (defaultHeap n) p = Ok c -> counter c = 0.
Proof.
  intros H. unfold defaultHeap in H. destruct (find _ defaultTrees) as [[n' t]|] eqn:E.
  - apply find_some in E as [E _]. assert (A : forallb (fun x => forallb (fun c => (counter c =? 0)) (leaves (snd x))) defaultTrees = true) by (vm_compute; reflexivity).
    rewrite forallb_forall in A. specialize (A _ E). cbn beta in A. rewrite forallb_forall in A. apply Z.eqb_eq. apply A. exact (tget_leaf _ _ _ H).
  - destruct p; [injection H as <-; reflexivity|discriminate].
Qed.
Lemma step_dom ev m m' n p c : step ev m = Ok m' -> tget (mHeap m' n) p = Ok c -> exists c0, tget (mHeap m n) p = Ok c0.
Proof.
  intros E H. destruct (adapting ev) eqn:Ha; [|exists c; rewrite (step_heq _ _ _ Ha E); exact H].
  destruct ev as [none s q| |k path dis d|b|b|s|s]; try discriminate. cbn [step] in E.
  apply rbind_inv in E as ([n' p'] & _ & E). apply rbind_inv in E as (c1 & Ec & E). apply rbind_inv in E as ([[t c'] d'] & Er & E). apply rbind_inv in E as (tr & Et & [= <-]). cbn [fst snd mHeap] in *.
  rewrite hset_get in H. destruct (String.eqb_spec n' n) as [<-|Hn]; [|exists c; exact H]. rewrite (tput_tget _ _ _ _ Et) in H.
  destruct (zs_eqb p' p) eqn:Ep; [apply zs_eqb_eq in Ep; subst; exists c1; exact Ec|exists c; exact H].
Qed.
Lemma run_dom h m m' n p c : run h m = Ok m' -> tget (mHeap m' n) p = Ok c -> exists c0, tget (mHeap m n) p = Ok c0.
Proof.
  revert m c. induction h as [|ev h IH]; cbn [run]; intros m c E H; [injection E as <-; exists c; exact H|]. apply rbind_inv in E as (m1 & E1 & E).
  destruct (IH _ _ E H) as (c1 & H1). exact (step_dom _ _ _ _ _ _ E1 H1).
Qed.

(** ** An adapting read *)
Lemma read_adapts m k path d m' n p c : step (ReadSym k path false d) m = Ok m' -> address (mTile m) k path = Ok (n, p) -> tget (mHeap m n) p = Ok c ->
  exists c', tget (mHeap m' n) p = Ok c' /\ length c' = length c /\ counter c' = counter c + int_of (counter c <? 32).
Proof.
  intros E Ha Hc. cbn [step] in E. rewrite Ha in E. cbn [rbind fst snd] in E. rewrite Hc in E. cbn [rbind] in E.
  apply rbind_inv in E as ([[t c'] d'] & Er & E). apply rbind_inv in E as (tr & Et & [= <-]). cbn [fst snd mHeap] in *.
  exists c'. rewrite hset_get, String.eqb_refl, (tput_tget _ _ _ _ Et), (proj2 (zs_eqb_eq p p) eq_refl). split; [reflexivity|]. apply ReadSymbol_counter in Er as (A & B & _). split; assumption.
Qed.
Lemma read_inv m k path dis d m' : step (ReadSym k path dis d) m = Ok m' -> exists n p c, address (mTile m) k path = Ok (n, p) /\ tget (mHeap m n) p = Ok c.
Proof. intros E. cbn [step] in E. apply rbind_inv in E as ([n p] & Ea & E). apply rbind_inv in E as (c & Ec & E). exists n, p, c. split; [exact Ea|exact Ec]. Qed.
Lemma read_other m k path dis d m' n p n' p' : step (ReadSym k path dis d) m = Ok m' -> address (mTile m) k path = Ok (n, p) -> (n', p') <> (n, p) ->
  tget (mHeap m' n') p' = tget (mHeap m n') p'.
Proof.
  intros E Ha Hne. cbn [step] in E. rewrite Ha in E. cbn [rbind fst snd] in E. apply rbind_inv in E as (c & Ec & E).
  apply rbind_inv in E as ([[t c'] d'] & Er & E). apply rbind_inv in E as (tr & Et & [= <-]). cbn [fst snd mHeap] in *. rewrite hset_get.
  destruct (String.eqb_spec n n') as [<-|Hn]; [|reflexivity]. rewrite (tput_tget _ _ _ _ Et). destruct (zs_eqb p p') eqn:Ep; [|reflexivity]. apply zs_eqb_eq in Ep. subst. congruence.
Qed.
Lemma address_noncoeff e k t path a : (forall k, home k (e k)) -> In (k, t) noncoeff_variables -> address e k path = Ok a -> e k = At t [] /\ a = (t, path).
Proof.
  intros H Hk Ha. unfold address in Ha. destruct (home_noncoeff _ _ _ Hk (H k)) as [E|E]; rewrite E in Ha; [discriminate|]. injection Ha as <-. split; [exact E|reflexivity].
Qed.
(** With an adapting read of a variable with a fixed table, its counter is larger afterwards. *)
Lemma adapted_between h1 h2 m0 m1 k t path d c0 : homes m0 -> In (k, t) noncoeff_variables -> run (h1 ++ ReadSym k path false d :: h2) m0 = Ok m1 ->
  tget (mHeap m0 t) path = Ok c0 -> counter c0 < 32 -> exists c1, tget (mHeap m1 t) path = Ok c1 /\ counter c0 < counter c1.
Proof.
  intros H0 Hk E Hc Hlt. rewrite run_app in E. apply rbind_inv in E as (ma & Ea & E). cbn [run] in E. apply rbind_inv in E as (mb & Eb & E).
  pose proof (run_homes _ _ _ H0 Ea) as Ha. destruct (read_inv _ _ _ _ _ _ Eb) as (n & p & c & Ad & Gc).
  destruct (address_noncoeff _ _ _ _ _ (fun k => proj1 (proj2 (Ha k))) Hk Ad) as [_ [= -> ->]].
  destruct (run_hle _ _ _ Ea _ _ _ Hc) as (c1 & G1 & _ & L1). rewrite Gc in G1. injection G1 as ->.
  destruct (read_adapts _ _ _ _ _ _ _ _ Eb Ad Gc) as (c2 & G2 & _ & C2). destruct (run_hle _ _ _ E _ _ _ G2) as (c3 & G3 & _ & L3).
  exists c3. split; [exact G3|]. unfold int_of in C2. destruct (Z.ltb_spec (counter c1) 32); lia.
Qed.

(** ** Lookups after a tile start *)
Lemma frame_start_lookup m0 s q m : run [FrameHeader true s q; TileStart] m0 = Ok m ->
  (forall k t path, In (k, t) noncoeff_variables -> lookup m k path = tget (mHeap m0 t) path) /\
  (forall k t path, In (k, t) coeff_variables -> lookup m k path = tget (mHeap m0 t) (coeffIdx q :: path)) /\
  (forall path, lookup m ifym path = tget (mHeap m0 "DEFAULT_INTRA_FRAME_Y_MODE_CDF") path).
Proof.
  cbn [run step rbind]. intros E.
  assert (E' : m = mkMem (initCoeff q (initNonCoeff (mCur m0))) (initSymbolP (mkMem (initCoeff q (initNonCoeff (mCur m0))) (mTile m0) (mSaved m0) (mSlot m0) (mHeap m0))) (mSaved m0) (mSlot m0) (mHeap m0)).
  { change (Ok (mkMem (initCoeff q (initNonCoeff (mCur m0))) (initSymbolP (mkMem (initCoeff q (initNonCoeff (mCur m0))) (mTile m0) (mSaved m0) (mSlot m0) (mHeap m0))) (mSaved m0) (mSlot m0) (mHeap m0)) = Ok m) in E. congruence. }
  subst m.
  clear E. set (mm := mkMem (initCoeff q (initNonCoeff (mCur m0))) (mTile m0) (mSaved m0) (mSlot m0) (mHeap m0)).
  unfold lookup, address. cbn [mTile mHeap]. split; [|split]; intros.
  - rewrite (initSymbol_at mm k) by (apply (vars_in_initSymbol k t), in_or_app; left; assumption). unfold mm. cbn [mCur].
    rewrite initCoeff_other by (intros t' Ht'; exact (vars_disjoint _ _ _ H Ht')). rewrite (initNonCoeff_at _ _ _ H). reflexivity.
  - rewrite (initSymbol_at mm k) by (apply (vars_in_initSymbol k t), in_or_app; right; assumption). unfold mm. cbn [mCur].
    rewrite (initCoeff_at _ _ _ _ H). reflexivity.
  - rewrite initSymbol_ifym. reflexivity.
Qed.

(** ** Saving and loading *)
Lemma all_cur_save : forallb (fun m : key * (area * key) => match fst (snd m) with Cur => true | _ => false end) saveMoves = true. Proof. vm_compute. reflexivity. Qed.
Lemma save_at m k : (exists a, In (k, a) saveMoves) -> saveP m k = mCur m k.
Proof.
  intros H. unfold saveP. erewrite (moves_copy (fun p a k => match a with Cur => mCur m k | Tile => mTile m k | Saved => mSaved m k end) _ _ _ _ (mCur m k)); [|intros ? []; reflexivity|exact same_save|].
  - rewrite (proj2 (existsb_key _ _) H). reflexivity.
  - pose proof all_cur_save as A. rewrite forallb_forall in A. intros m' p Hm. specialize (A _ Hm). destruct (fst (snd m')); [reflexivity|discriminate|discriminate].
Qed.
Lemma load_at m s c k : (exists a, In (k, a) loadMoves) -> loadP m s = Ok c -> c k = mSlot m s k.
Proof.
  intros H. unfold loadP. destruct (_ && _); [|discriminate]. intros E. assert (c = moves (fun _ _ => mSlot m s) loadMoves (mCur m)) as -> by congruence. clear E.
  erewrite (moves_copy (fun _ _ k => mSlot m s k) _ _ _ _ (mSlot m s k)); [|reflexivity|exact same_load|reflexivity]. rewrite (proj2 (existsb_key _ _) H). reflexivity.
Qed.
Lemma vars_in_save k t : In (k, t) (noncoeff_variables ++ coeff_variables) -> exists a, In (k, a) saveMoves.
Proof. apply keys_sub_In. vm_compute. reflexivity. Qed.
Lemma vars_in_load k t : In (k, t) (noncoeff_variables ++ coeff_variables) -> exists a, In (k, a) loadMoves.
Proof. apply keys_sub_In. vm_compute. reflexivity. Qed.
Definition overwrites (slot : Z) (ev : event) : bool := match ev with RefUpdate s => s =? slot | _ => false end.
Lemma step_slot ev slot m m' k : overwrites slot ev = false -> step ev m = Ok m' -> mSlot m' slot k = mSlot m slot k.
Proof.
  intros Ho E. destruct ev as [none s q| |k0 path dis d|b|b|s|s]; cbn [step] in E.
  - destruct none; [injection E as <-|apply rbind_inv in E as (c & Ec & [= <-])]; reflexivity.
  - injection E as <-. reflexivity.
  - apply rbind_inv in E as (a & _ & E). apply rbind_inv in E as (c & _ & E). apply rbind_inv in E as (r & _ & E). apply rbind_inv in E as (t & _ & [= <-]). reflexivity.
  - injection E as <-. destruct b; reflexivity.
  - injection E as <-. destruct b; reflexivity.
  - cbn in Ho. destruct (_ && _); [|discriminate]. injection E as <-. cbn [mSlot]. rewrite Ho. reflexivity.
  - apply rbind_inv in E as (c & Ec & [= <-]). reflexivity.
Qed.
Lemma run_slot h slot m m' k : forallb (fun ev => negb (overwrites slot ev)) h = true -> run h m = Ok m' -> mSlot m' slot k = mSlot m slot k.
Proof.
  revert m. induction h as [|ev h IH]; cbn [run forallb]; intros m Ho E; [injection E as <-; reflexivity|]. apply andb_true_iff in Ho as [O1 O2]. apply negb_true_iff in O1.
  apply rbind_inv in E as (m1 & E1 & E). rewrite (IH _ O2 E). apply (step_slot ev); assumption.
Qed.
(** Starting a frame from a slot *)
Lemma load_start m slot q m' : run [FrameHeader false slot q; TileStart] m = Ok m' ->
  (forall k t, In (k, t) (noncoeff_variables ++ coeff_variables) -> mTile m' k = mSlot m slot k) /\ mHeap m' = mHeap m.
Proof.
  cbn [run step]. intros E. apply rbind_inv in E as (m1 & E1 & E). apply rbind_inv in E1 as (c & Ec & E1). cbn [rbind] in E.
  set (mm := mkMem c (mTile m) (mSaved m) (mSlot m) (mHeap m)) in *. assert (m1 = mm) as -> by congruence. clear E1.
  assert (m' = mkMem c (initSymbolP mm) (mSaved m) (mSlot m) (mHeap m)) as -> by (change (Ok (mkMem c (initSymbolP mm) (mSaved m) (mSlot m) (mHeap m)) = Ok m') in E; congruence).
  split; [|reflexivity]. intros k t Hk. cbn [mTile]. rewrite initSymbol_at by (apply (vars_in_initSymbol k t Hk)). unfold mm. cbn [mCur]. apply (load_at m slot); [apply (vars_in_load k t Hk)|exact Ec].
Qed.
