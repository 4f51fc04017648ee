(** Properties C122-C125: motion vectors of a block. *)
From Coq Require Import String.
From Verif Require Import GoBase Bitstream Util UtilProofs Constants Tables Frame Symbol SpecSymbol SymbolProofs PropSymbol CdfMoves CdfMemory CdfMemoryProofs SpecCoeffs CoeffRun Elements ElementsSim ElementsDemo MvStack MvRead SpecMv.
Local Open Scope string_scope.
Local Open Scope Z_scope.

(** ** Tables without the shared dimensions *)
(** number of leading indices (context; component) that select the same table *)
Definition shared_dims (name : string) : nat :=
  if ((name =? "MvJointCdf") || (name =? "MvClassCdf") || (name =? "MvFrCdf") || (name =? "MvClass0FrCdf"))%string then 1%nat else 2%nat.
Definition merged (name : string) (path : list Z) : list Z := skipn (shared_dims name) path.
Definition mv_cdfs : list (string * list Z * Z) := map (fun x => (fst (fst x), merged (fst (fst x)) (snd (fst x)), snd x)) std_mv_cdfs.
(** the program with the tables merged *)
Fixpoint merge {A} (p : prog A) : prog A :=
  match p with Done a => Done a | Sym t path k => Sym t (merged t path) (fun v => merge (k v)) | Bit k => Bit (fun v => merge (k v)) | Fail => Fail end.
Lemma merge_andthen {A B} (p : prog A) (f : A -> prog B) dis d h : run dis (merge (andthen p f)) d h = run dis (andthen (merge p) (fun a => merge (f a))) d h.
Proof.
  revert d h. induction p as [a|t path k IH|k IH|]; intros d h; cbn [andthen merge run]; try reflexivity.
  - destruct (tget (h t) (merged t path)); cbn [rbind]; try reflexivity. destruct (ReadSymbol dis a d) as [[[v c'] d']| |]; cbn [rbind fst snd]; try reflexivity.
    destruct (tput (h t) (merged t path) c'); cbn [rbind]; try reflexivity. apply IH.
  - destruct (readBool dis d) as [[v d']| |]; cbn [rbind fst snd]; try reflexivity. apply IH.
Qed.

(** ** The computation reads the merged program *)
(** what the code makes of the bits of the integer part: all in the second place *)
Fixpoint or_all (l : list Z) : Z := match l with [] => 0 | b :: l => Z.lor b (or_all l) end.
Definition code_magnitude (y : mv_syms) : Z :=
  if yClass y =? 0 then 8 * binary (yBits y) + 2 * yFr y + yHp y + 1 else 2 ^ (yClass y + 3) + 8 * (2 * or_all (yBits y)) + 2 * yFr y + yHp y + 1.
Definition code_value (y : mv_syms) : Z := if ySign y =? 0 then code_magnitude y else - code_magnitude y.
Definition syms_in (y : mv_syms) : Prop :=
  0 <= ySign y <= 1 /\ 0 <= yClass y <= 10 /\ Forall (fun b => 0 <= b <= 1) (yBits y) /\ zlen (yBits y) = Z.max 1 (yClass y) /\ 0 <= yFr y <= 3 /\ 0 <= yHp y <= 1.

Ltac tabm := unfold mv_cdfs, std_mv_cdfs, merged, shared_dims; cbn; tauto.
Ltac inr := repeat constructor; lia.

Lemma or_all_range l : Forall (fun b => 0 <= b <= 1) l -> or_all l = 0 \/ or_all l = 1.
Proof. induction 1 as [|b l Hb _ IH]; [left; reflexivity|]. cbn [or_all]. assert (b = 0 \/ b = 1) as [-> | ->] by lia; destruct IH as [-> | ->]; cbn; auto. Qed.
Section Comp.
Context (dis : bool) (endp : Z).
Lemma bits_ok comp ctx : forall n i d, 0 <= i -> i + Z.of_nat n <= 10 -> (d = 0 \/ d = 2) ->
  agrees mv_cdfs dis endp False (merge (std_mv_bits ctx comp n i)) (readMvBits dis n i d) (fun l b => b = Z.lor d (2 * or_all l) /\ zlen l = Z.of_nat n /\ Forall (fun b => 0 <= b <= 1) l).
Proof.
  induction n as [|n IH]; intros i d Hi Hn Hd.
  - cbn [std_mv_bits merge readMvBits]. apply agrees_done. cbn [or_all]. rewrite Z.mul_0_r, Z.lor_0_r. repeat split. constructor.
  - cbn [std_mv_bits merge readMvBits]. apply (agrees_symk _ _ _ _ "MvBitCdf" [10] 2); [tabm|unfold merged; cbn; inr|]. intros v Hv.
    eapply agrees_run; [intros; apply merge_andthen|].
    assert (Hd' : Z.lor d (shl v 1) = 0 \/ Z.lor d (shl v 1) = 2) by (assert (v = 0 \/ v = 1) as [-> | ->] by lia; destruct Hd as [-> | ->]; cbn; auto).
    intros s F. specialize (IH (i + 1) (Z.lor d (shl v 1)) ltac:(lia) ltac:(lia) Hd' s F). rewrite run_andthen.
    destruct (run dis (merge (std_mv_bits ctx comp n (i + 1))) (fst s) (snd s)) as [[[l d1] h1]| |]; cbn [rbind fst snd]; [|exact IH|exact IH].
    destruct IH as (F1 & b & E & -> & L & A). cbn [merge run]. split; [exact F1|]. eexists. split; [exact E|]. split; [|split; [rewrite zlen_cons, L; lia|constructor; [lia|exact A]]].
    cbn [or_all]. destruct (or_all_range l A) as [-> | ->]; assert (v = 0 \/ v = 1) as [-> | ->] by lia; destruct Hd as [-> | ->]; reflexivity.
Qed.
Lemma lor_digits a fr hp : 0 <= a <= 2 -> 0 <= fr <= 3 -> 0 <= hp <= 1 -> Z.lor (Z.lor (shl a 3) (shl fr 1)) hp = 8 * a + 2 * fr + hp.
Proof.
  intros Ha Hf Hh. assert (a = 0 \/ a = 1 \/ a = 2) as [-> | [-> | ->]] by lia; (assert (fr = 0 \/ fr = 1 \/ fr = 2 \/ fr = 3) as [-> | [-> | [-> | ->]]] by lia); (assert (hp = 0 \/ hp = 1) as [-> | ->] by lia); reflexivity.
Qed.
Ltac mgk := eapply agrees_run; [intros; apply merge_andthen|].
Definition comp_post (y : mv_syms) (v : Z) : Prop := syms_in y /\ v = code_value y.
Lemma opt_sym (c : bool) name path dims n x : In (name, dims, n) mv_cdfs -> path_in (merged name path) dims -> 0 <= x < n ->
  agrees mv_cdfs dis endp False (merge (if c then Sym name path Done else Done x)) (if c then esym dis name (merged name path) else ret x) (fun a b => a = b /\ 0 <= b < n).
Proof. intros HI HP Hx. destruct c; cbn [merge]; [apply (agrees_sym _ _ _ _ name dims n); assumption|apply agrees_done; lia]. Qed.
Lemma opt_sym' (c : bool) name path dims n x : In (name, dims, n) mv_cdfs -> path_in (merged name path) dims -> 0 <= x < n ->
  agrees mv_cdfs dis endp False (merge (if c then Done x else Sym name path Done)) (if c then ret x else esym dis name (merged name path)) (fun a b => a = b /\ 0 <= b < n).
Proof. intros HI HP Hx. destruct c; cbn [merge]; [apply agrees_done; lia|apply (agrees_sym _ _ _ _ name dims n); assumption]. Qed.
Lemma component_ok int high ctx comp : 0 <= comp <= 1 -> agrees mv_cdfs dis endp False (merge (std_mv_component int high ctx comp)) (readMvComponent dis int high comp) comp_post.
Proof.
  intros Hc. unfold std_mv_component, readMvComponent. cbn [merge]. apply (agrees_symk _ _ _ _ "MvSignCdf" [] 2); [tabm|constructor|]. intros sg Hs.
  apply (agrees_symk _ _ _ _ "MvClassCdf" [2] 11); [tabm|unfold merged; cbn; inr|]. intros c Hk. change MV_CLASS_0 with 0. destruct (Z.eqb_spec c 0) as [->|Hn].
  - unfold readMvClass0. apply agrees_assoc. cbn [merge]. apply (agrees_symk _ _ _ _ "MvClass0BitCdf" [] 2); [tabm|constructor|]. intros b Hb.
    mgk. apply agrees_assoc. eapply agrees_bind; [apply (opt_sym' int "MvClass0FrCdf" [ctx; comp; b] [2; 2] 4); [tabm|unfold merged; cbn; inr|lia]|]. intros fr ? (<- & Hf).
    mgk. apply agrees_assoc. eapply agrees_bind; [apply (opt_sym high "MvClass0HpCdf" [ctx; comp] [] 2); [tabm|constructor|lia]|]. intros hp ? (<- & Hh).
    apply agrees_ret. cbn [merge]. apply agrees_done. split; [unfold syms_in; cbn [ySign yClass yBits yFr yHp]; repeat split; try lia; repeat constructor; lia|].
    unfold code_value, code_magnitude. cbn [ySign yClass yBits yFr yHp binary]. rewrite lor_digits by lia. change (0 =? 0) with true. cbv iota. unfold bool_of. destruct (Z.eqb_spec sg 0); cbn [negb]; lia.
  - unfold readMvLong. mgk. apply agrees_assoc. eapply agrees_bind; [apply (bits_ok comp ctx (Z.to_nat c) 0 0); lia|]. intros l d (Hd & L & A). rewrite Z.lor_0_l in Hd. subst d.
    mgk. apply agrees_assoc. eapply agrees_bind; [apply (opt_sym' int "MvFrCdf" [ctx; comp] [2] 4); [tabm|unfold merged; cbn; inr|lia]|]. intros fr ? (<- & Hf).
    mgk. apply agrees_assoc. eapply agrees_bind; [apply (opt_sym high "MvHpCdf" [ctx; comp] [] 2); [tabm|constructor|lia]|]. intros hp ? (<- & Hh).
    apply agrees_ret. cbn [merge]. apply agrees_done. split; [unfold syms_in; cbn [ySign yClass yBits yFr yHp]; repeat split; try lia; exact A|].
    unfold code_value, code_magnitude. cbn [ySign yClass yBits yFr yHp]. assert (Ho := or_all_range l A). rewrite lor_digits by lia.
    destruct (Z.eqb_spec c 0) as [->|_]; [lia|]. replace (shl CLASS0_SIZE (c + 2)) with (2 ^ (c + 3)); [unfold bool_of; destruct (Z.eqb_spec sg 0); cbn [negb]; lia|].
    assert (P : 2 ^ (c + 3) = 2 * 2 ^ (c + 2)) by (rewrite <- Z.pow_succ_r by lia; f_equal; lia). assert (2 ^ (c + 2) <= 2 ^ 12) by (apply Z.pow_le_mono_r; lia).
    rewrite shl_small; [unfold CLASS0_SIZE; lia|lia|]. unfold CLASS0_SIZE. change (2 ^ 12) with 4096 in *. change (2 ^ 63) with 9223372036854775808. assert (0 < 2 ^ (c + 2)) by (apply Z.pow_pos_nonneg; lia). lia.
Qed.
Lemma mv_ok int high ctx pred : agrees mv_cdfs dis endp False (merge (std_mv int high ctx)) (readMv dis int high pred)
  (fun y v => v = mv_sum code_value pred y /\ (forall x, fst y = Some x \/ snd y = Some x -> syms_in x)).
Proof.
  unfold std_mv, readMv. cbn [merge]. apply (agrees_symk _ _ _ _ "MvJointCdf" [] 4); [tabm|constructor|]. intros j Hj.
  change MV_JOINT_HZVNZ with 2. change MV_JOINT_HNZVNZ with 3. change MV_JOINT_HNZVZ with 1.
  assert (P : forall (c : bool) comp, 0 <= comp <= 1 -> agrees mv_cdfs dis endp False (merge (if c then andthen (std_mv_component int high ctx comp) (fun y => Done (Some y)) else Done None))
    (if c then readMvComponent dis int high comp else ret 0) (fun o v => v = mv_part code_value o /\ forall x, o = Some x -> syms_in x)).
  { intros c comp Hc. destruct c; [|cbn [merge]; apply agrees_done; split; [reflexivity|discriminate]]. mgk. intros s F. assert (G := component_ok int high ctx comp Hc s F). rewrite run_andthen.
    destruct (run dis (merge (std_mv_component int high ctx comp)) (fst s) (snd s)) as [[[y d] h]| |]; cbn [rbind fst snd merge run]; [|exact G|exact G].
    destruct G as (F1 & b & E & I & ->). split; [exact F1|]. eexists. split; [exact E|]. split; [reflexivity|]. intros x [= <-]. exact I. }
  mgk. eapply agrees_bind; [apply (P _ 0); lia|]. intros r ? (-> & Hr). mgk. eapply agrees_bind; [apply (P _ 1); lia|]. intros c ? (-> & Hc).
  cbn [merge]. apply agrees_done. split; [reflexivity|]. cbn [fst snd]. intros x [H|H]; auto.
Qed.
End Comp.

(** ** From merged tables to the standard's *)
(** Where the shared tables hold what the standard's tables hold for one context and one component, the merged program reads the same values. *)
Definition holds (ctx comp : Z) (h hs : string -> tree) : Prop :=
  tget (h "MvJointCdf") [] = tget (hs "MvJointCdf") [ctx] /\
  forall name rest, name <> "MvJointCdf" -> tget (h name) (merged name (ctx :: comp :: rest)) = tget (hs name) (ctx :: comp :: rest).
Inductive only (ctx comp : Z) {A} : prog A -> Prop :=
| only_done a : only ctx comp (Done a)
| only_sym name rest k : name <> "MvJointCdf" -> (forall v, only ctx comp (k v)) -> only ctx comp (Sym name (ctx :: comp :: rest) k)
| only_joint k : (forall v, only ctx comp (k v)) -> only ctx comp (Sym "MvJointCdf" [ctx] k).
Lemma only_andthen ctx comp {A B} (p : prog A) (f : A -> prog B) : only ctx comp p -> (forall a, only ctx comp (f a)) -> only ctx comp (andthen p f).
Proof. intros H Hf. induction H; cbn [andthen]; [apply Hf|constructor; auto|constructor; auto]. Qed.
Lemma merged_inj ctx comp name r1 r2 : merged name (ctx :: comp :: r1) = merged name (ctx :: comp :: r2) -> r1 = r2.
Proof. unfold merged, shared_dims. destruct (_ || _); cbn [skipn]; congruence. Qed.
Lemma zs_eqb_refl l : zs_eqb l l = true.
Proof. apply zs_eqb_eq. reflexivity. Qed.
Lemma unmerge dis ctx comp {A} (p : prog A) : only ctx comp p -> forall d h hs a d' h', holds ctx comp h hs -> run dis (merge p) d h = Ok (a, d', h') ->
  exists hs', run dis p d hs = Ok (a, d', hs') /\ holds ctx comp h' hs'.
Proof.
  induction 1 as [a0|name rest k Hn Hk IH|k Hk IH]; intros d h hs a d' h' HH E; cbn [merge run] in *.
  - injection E as -> -> ->. exists hs. auto.
  - destruct HH as [HJ HR]. apply rbind_inv in E as (c & E1 & E). rewrite (HR name rest Hn) in E1. rewrite E1. cbn [rbind]. apply rbind_inv in E as (r & E2 & E). rewrite E2. cbn [rbind].
    apply rbind_inv in E as (t & E3 & E). destruct (tput_ok _ _ _ (snd (fst r)) E1) as [t' E4]. rewrite E4. cbn [rbind]. apply (IH (fst (fst r)) (snd r) _ (hset hs name t')) in E; [exact E|].
    split; [rewrite !hset_get; destruct (String.eqb_spec name "MvJointCdf"); [congruence|exact HJ]|]. intros nm r' Hnm. rewrite !hset_get. destruct (String.eqb_spec name nm) as [<-|]; [|apply HR, Hnm].
    rewrite (tput_tget _ _ _ _ E3), (tput_tget _ _ _ _ E4). destruct (zs_eqb (ctx :: comp :: rest) (ctx :: comp :: r')) eqn:Z1.
    + apply zs_eqb_eq in Z1. rewrite <- Z1. rewrite zs_eqb_refl. reflexivity.
    + destruct (zs_eqb (merged name _) _) eqn:Z2; [|apply HR, Hn]. apply zs_eqb_eq, merged_inj in Z2. subst r'. rewrite zs_eqb_refl in Z1. discriminate.
  - destruct HH as [HJ HR]. change (merged "MvJointCdf" [ctx]) with (@nil Z) in E. apply rbind_inv in E as (c & E1 & E). rewrite HJ in E1. rewrite E1. cbn [rbind]. apply rbind_inv in E as (r & E2 & E). rewrite E2. cbn [rbind].
    apply rbind_inv in E as (t & E3 & E). destruct (tput_ok _ _ _ (snd (fst r)) E1) as [t' E4]. rewrite E4. cbn [rbind]. apply (IH (fst (fst r)) (snd r) _ (hset hs "MvJointCdf" t')) in E; [exact E|].
    split; [rewrite !hset_get, !String.eqb_refl, (tput_tget _ _ _ _ E3), (tput_tget _ _ _ _ E4), !zs_eqb_refl; reflexivity|]. intros nm r' Hnm. rewrite !hset_get. destruct (String.eqb_spec "MvJointCdf" nm); [congruence|apply HR, Hnm].
Qed.

(** ** C122: which symbols are read *)
(** The decoder is inside a tile and the shared tables are CDFs of the right sizes. *)
Definition mv_ready (endp : Z) (s : ES) : Prop := in_tile (fst s) endp /\ table_ok mv_cdfs (snd s).
Lemma mv_ready_fit endp s : mv_ready endp s <-> fit mv_cdfs endp s.
Proof. unfold mv_ready, fit. rewrite in_tile_state. reflexivity. Qed.
Lemma only_bits ctx comp n : forall i, only ctx comp (std_mv_bits ctx comp n i).
Proof. induction n as [|n IH]; intros i; cbn [std_mv_bits]; [constructor|]. apply only_sym; [discriminate|]. intros v. apply only_andthen; [apply IH|]. intros l. constructor. Qed.
Ltac only_tac := repeat match goal with
  | |- only _ _ (if ?c then _ else _) => destruct c
  | |- only _ _ (Done _) => constructor
  | |- only _ _ (Sym "MvJointCdf" _ _) => apply only_joint; intros
  | |- only _ _ (Sym _ _ _) => apply only_sym; [discriminate|]; intros
  | |- only _ _ (andthen (std_mv_bits _ _ _ _) _) => apply only_andthen; [apply only_bits|]; intros
  | |- only _ _ (andthen _ _) => apply only_andthen; intros
  end.
Lemma only_component int high ctx comp : only ctx comp (std_mv_component int high ctx comp).
Proof. unfold std_mv_component. only_tac. Qed.

(** One component: exactly the symbols of the standard, with the standard's tables if the shared tables hold them before; they hold them afterwards too. *)
Theorem C122_component_partial : forall dis endp int high ctx comp s hs, 0 <= comp <= 1 -> mv_ready endp s -> holds ctx comp (snd s) hs ->
  exists y v d h hs', readMvComponent dis int high comp s = Ok (v, (d, h)) /\ run dis (std_mv_component int high ctx comp) (fst s) hs = Ok (y, d, hs') /\
    mv_ready endp (d, h) /\ holds ctx comp h hs' /\ syms_in y /\ v = code_value y.
Proof.
  intros dis endp int high ctx comp s hs Hc HR HH. apply mv_ready_fit in HR. assert (G := component_ok dis endp int high ctx comp Hc s HR).
  destruct (run dis (merge (std_mv_component int high ctx comp)) (fst s) (snd s)) as [[[y d] h]| |] eqn:E; [|contradiction|destruct G as [[] _]].
  destruct G as (F & v & Ev & I & V). destruct (unmerge dis ctx comp _ (only_component int high ctx comp) _ _ _ _ _ _ HH E) as (hs' & E' & HH').
  exists y, v, d, h, hs'. rewrite mv_ready_fit. auto 10.
Qed.
Print Assumptions C122_component_partial.
(** A motion vector of which at most one component is coded: the same. *)
Theorem C122_one_component_partial : forall dis endp int high ctx pred s hs y d hs', mv_ready endp s -> holds ctx 0 (snd s) hs -> holds ctx 1 (snd s) hs ->
  run dis (std_mv int high ctx) (fst s) hs = Ok (y, d, hs') -> fst y = None \/ snd y = None ->
  exists h, readMv dis int high pred s = Ok (mv_sum code_value pred y, (d, h)) /\ mv_ready endp (d, h).
Proof.
  intros dis endp int high ctx pred s hs y d hs' HR H0 H1 ER Hy. apply mv_ready_fit in HR. assert (G := mv_ok dis endp int high ctx pred s HR).
  assert (X : exists h, run dis (merge (std_mv int high ctx)) (fst s) (snd s) = Ok (y, d, h)).
  { destruct (run dis (merge (std_mv int high ctx)) (fst s) (snd s)) as [[[y1 d1] h1]| |] eqn:E; [|contradiction|destruct G as [[] _]]. clear G.
    unfold std_mv in E, ER. cbn [merge run] in E, ER. change (merged "MvJointCdf" [ctx]) with (@nil Z) in E. destruct H0 as [HJ H0]. destruct H1 as [_ H1].
    apply rbind_inv in E as (c & E1 & E). rewrite HJ in E1. rewrite E1 in ER. cbn [rbind] in ER. apply rbind_inv in E as (r & E2 & E). rewrite E2 in ER. cbn [rbind] in ER.
    apply rbind_inv in E as (t & E3 & E). apply rbind_inv in ER as (t' & E4 & ER). destruct r as [[j c'] d']. cbn [fst snd] in *.
    assert (HH : forall comp, comp = 0 \/ comp = 1 -> holds ctx comp (hset (snd s) "MvJointCdf" t) (hset hs "MvJointCdf" t')).
    { intros comp Hc. split; [rewrite !hset_get, !String.eqb_refl, (tput_tget _ _ _ _ E3), (tput_tget _ _ _ _ E4), !zs_eqb_refl; reflexivity|]. intros nm r' Hnm. rewrite !hset_get.
      destruct (String.eqb_spec "MvJointCdf" nm); [congruence|destruct Hc as [-> | ->]; auto]. }
    assert (J3 : j <> 3).
    { intros ->. change (3 =? 3) with true in ER. rewrite !orb_true_r in ER. rewrite run_andthen in ER. apply rbind_inv in ER as (r & E5 & ER). rewrite run_andthen in ER. apply rbind_inv in ER as (r2 & E6 & ER).
      cbn [run] in ER. injection ER as <- <- <-. rewrite run_andthen in E5, E6. apply rbind_inv in E5 as (r3 & _ & E5). apply rbind_inv in E6 as (r4 & _ & E6). cbn [run] in E5, E6. injection E5 as <-. injection E6 as <-.
      cbn [fst snd] in Hy. destruct Hy; discriminate. }
    set (p := andthen (if (j =? 2) || (j =? 3) then andthen (std_mv_component int high ctx 0) (fun y => Done (Some y)) else Done None) (fun r =>
        andthen (if (j =? 1) || (j =? 3) then andthen (std_mv_component int high ctx 1) (fun y => Done (Some y)) else Done None) (fun c => Done (r, c)))) in *.
    assert (O : exists comp, (comp = 0 \/ comp = 1) /\ only ctx comp p).
    { assert (E3' : (j =? 3) = false) by (apply Z.eqb_neq, J3). unfold p. rewrite E3', !orb_false_r. destruct (Z.eqb_spec j 2) as [->|N2].
      - exists 0. split; [auto|]. change (2 =? 1) with false. apply only_andthen; [apply only_andthen; [apply only_component|intros; constructor]|]. intros a. apply only_andthen; [constructor|]. intros. constructor.
      - exists 1. split; [auto|]. apply only_andthen; [constructor|]. intros a. apply only_andthen; [|intros; constructor]. destruct (j =? 1); [apply only_andthen; [apply only_component|]|]; intros; constructor. }
    destruct O as (comp & Hc & O). destruct (unmerge dis ctx comp p O _ _ _ _ _ _ (HH comp Hc) E) as (hs2 & E5 & _). rewrite ER in E5. injection E5 as <- <- <-. eauto. }
  destruct X as (h & E). rewrite E in G. destruct G as (F & v & Ev & V & _). exists h. rewrite mv_ready_fit. subst v. auto.
Qed.
Print Assumptions C122_one_component_partial.
(** Both components: as the standard with tables shared between contexts and components (C81). *)
Theorem C122_merged_partial : forall dis endp int high ctx pred s, mv_ready endp s ->
  exists y d h, run dis (merge (std_mv int high ctx)) (fst s) (snd s) = Ok (y, d, h) /\ readMv dis int high pred s = Ok (mv_sum code_value pred y, (d, h)) /\ mv_ready endp (d, h) /\
    (forall x, fst y = Some x \/ snd y = Some x -> syms_in x).
Proof.
  intros dis endp int high ctx pred s HR. apply mv_ready_fit in HR. assert (G := mv_ok dis endp int high ctx pred s HR).
  destruct (run dis (merge (std_mv int high ctx)) (fst s) (snd s)) as [[[y d] h]| |]; [|contradiction|destruct G as [[] _]]. destruct G as (F & v & Ev & -> & I). exists y, d, h. rewrite mv_ready_fit. auto.
Qed.
Print Assumptions C122_merged_partial.

(** ** C123: the value of a component *)
Lemma binary_range l : Forall (fun b => 0 <= b <= 1) l -> 0 <= binary l /\ (binary l = 0 <-> or_all l = 0).
Proof.
  induction 1 as [|b l Hb HF IH]; [cbn; lia|]. cbn [binary or_all]. destruct (or_all_range l HF) as [E|E]; rewrite E in *; (assert (b = 0 \/ b = 1) as [-> | ->] by lia); match goal with |- context [Z.lor ?a ?b] => let v := eval vm_compute in (Z.lor a b) in change (Z.lor a b) with v end; lia.
Qed.
Lemma code_value_right y : syms_in y -> (code_value y = mv_value y <-> yClass y = 0 \/ binary (yBits y) = 0 \/ binary (yBits y) = 2).
Proof.
  intros (S & C & B & L & F & H). unfold code_value, mv_value, code_magnitude, mv_magnitude. destruct (binary_range _ B) as [B1 B2]. assert (O := or_all_range _ B).
  destruct (Z.eqb_spec (yClass y) 0) as [->|N]; [split; [auto|intros _; reflexivity]|]. set (p := 2 ^ (yClass y + 3)). destruct (Z.eqb_spec (ySign y) 0); split; intros; lia.
Qed.
(** Right exactly for class 0 and for integer parts 0 and 2 of the other classes. *)
Theorem C123_value_partial : forall dis endp int high ctx comp s hs, 0 <= comp <= 1 -> mv_ready endp s -> holds ctx comp (snd s) hs ->
  exists y v d h hs', readMvComponent dis int high comp s = Ok (v, (d, h)) /\ run dis (std_mv_component int high ctx comp) (fst s) hs = Ok (y, d, hs') /\
    (v = mv_value y <-> yClass y = 0 \/ binary (yBits y) = 0 \/ binary (yBits y) = 2).
Proof.
  intros dis endp int high ctx comp s hs Hc HR HH. destruct (C122_component_partial dis endp int high ctx comp s hs Hc HR HH) as (y & v & d & h & hs' & E1 & E2 & _ & _ & I & ->).
  exists y, (code_value y), d, h, hs'. split; [exact E1|]. split; [exact E2|]. apply code_value_right, I.
Qed.
Print Assumptions C123_value_partial.

(** ** C124: the modes of the two vectors of a compound prediction *)
Theorem C124_modes_partial : forall mode h0 o1, std_how mode = Some (h0, o1) -> getMode mode 0 = how_single h0 /\ (forall h1, o1 = Some h1 -> mode <> 18 -> mode <> 21 -> getMode mode 1 = how_single h1).
Proof.
  intros mode h0 o1 H. assert (R : 14 <= mode <= 25) by (destruct (Z_lt_le_dec mode 14) as [L|L]; [destruct mode as [|p|p]; try discriminate; exfalso; do 5 (destruct p as [p|p|]; try discriminate; try lia)|];
    destruct (Z_le_gt_dec mode 25); [lia|]; destruct mode as [|p|p]; try lia; exfalso; do 5 (destruct p as [p|p|]; try discriminate; try lia)).
  assert (I : In mode (map Z.of_nat (seq 14 12))) by (apply in_map_iff; exists (Z.to_nat mode); split; [lia|apply in_seq; lia]). clear R.
  repeat (destruct I as [<-|I]; [cbn in H; injection H as <- <-; split; [reflexivity|intros h1 E N1 N2; try discriminate E; try injection E as <-; try reflexivity; exfalso; (now apply N1) || (now apply N2)]|]). destruct I.
Qed.
Print Assumptions C124_modes_partial.
(** The second vector of NEAREST_NEARESTMV and NEW_NEARESTMV is treated as near instead of nearest. *)
Theorem C124_second_nearest_refuted : forall mode h0, std_how mode = Some (h0, Some Nearest) -> getMode mode 1 = how_single Near.
Proof.
  intros mode h0 H. assert (mode = 18 \/ mode = 21) as [-> | ->]; [|reflexivity|reflexivity].
  destruct mode as [|p|p]; try discriminate. do 5 (destruct p as [p|p|]; try discriminate H; auto).
Qed.
Print Assumptions C124_second_nearest_refuted.
Example C124_case : std_how 21 = Some (New, Some Nearest) /\ getMode 21 0 = 17 /\ getMode 21 1 = 15.
Proof. repeat split. Qed.

(** ** C125: the vectors of a block *)
(** how the code treats the second vector (C124) *)
Definition code_second (h : how) : how := match h with Nearest => Near | h => h end.
Definition code_how (hs : how * option how) : how * option how := (fst hs, option_map code_second (snd hs)).
Lemma run_merge_assoc {A B C} dis (p : prog A) (g : A -> prog B) (k : B -> prog C) d h : run dis (merge (andthen (andthen p g) k)) d h = run dis (merge (andthen p (fun a => andthen (g a) k))) d h.
Proof.
  rewrite !merge_andthen, !run_andthen, merge_andthen, run_andthen. destruct (run dis (merge p) d h) as [[[a d1] h1]| |]; cbn [rbind fst snd]; try reflexivity. rewrite merge_andthen, run_andthen. reflexivity.
Qed.
Definition in_stack (e : AEnv) : Prop := zlen (aStack e) = 2 /\ 0 <= aRefMvIdx e <= 1.
Lemma stack_get e h : in_stack e -> h <> Global -> idx (aStack e) (std_candidate h (aRefMvIdx e) (aNum e)) = Ok (nth (Z.to_nat (std_candidate h (aRefMvIdx e) (aNum e))) (aStack e) ((0, 0), (0, 0))).
Proof.
  intros [L I] Hg. apply idx_ok. unfold std_candidate. destruct h; try lia; try congruence. destruct (aNum e <=? 1); lia.
Qed.
Definition put_all (r : (Z * Z) * option (Z * Z)) (old : mvs) : mvs := (fst r, match snd r with Some v => v | None => snd old end).
Lemma one_ok e endp i h g : aIntrabc e = false -> in_stack e -> 0 <= i <= 1 -> getMode (aYMode e) i = how_single h ->
  agrees mv_cdfs (aDis e) endp False (merge (std_vector code_value (aInt e) (aHigh e) h (std_pred h i (aStack e) (aGlobal e) (aRefMvIdx e) (aNum e)))) (assignOne e i g)
    (fun v g' => snd g' = put2 i v (snd g)).
Proof.
  intros HB HS Hi HM. unfold assignOne. rewrite HB, HM. cbv zeta.
  set (pm := put2 i (std_pred h i (aStack e) (aGlobal e) (aRefMvIdx e) (aNum e)) (fst g)).
  assert (SP : sel (A := mv) i pm = std_pred h i (aStack e) (aGlobal e) (aRefMvIdx e) (aNum e)) by (unfold pm, put2, sel; destruct (i =? 0); reflexivity).
  apply (agrees_lift _ _ _ _ _ _ _ pm).
  { unfold pm, std_pred. destruct h; cbn [how_single].
    - change (14 =? GLOBALMV) with false. change (14 =? NEARESTMV) with true. change (14 =? NEWMV) with false. cbn [andb]. cbv iota. assert (SG := stack_get e Nearest HS ltac:(discriminate)). cbn [std_candidate] in SG |- *. rewrite SG. reflexivity.
    - change (15 =? GLOBALMV) with false. change (15 =? NEARESTMV) with false. change (15 =? NEWMV) with false. cbn [andb]. cbv iota. assert (SG := stack_get e Near HS ltac:(discriminate)). cbn [std_candidate] in SG |- *. rewrite SG. reflexivity.
    - reflexivity.
    - change (17 =? GLOBALMV) with false. change (17 =? NEARESTMV) with false. change (17 =? NEWMV) with true. cbn [andb]. cbv iota. change (if aNum e <=? 1 then 0 else aRefMvIdx e) with (std_candidate New (aRefMvIdx e) (aNum e)).
      assert (SG := stack_get e New HS ltac:(discriminate)). cbn [std_candidate] in SG |- *. rewrite SG. reflexivity. }
  cbv beta. rewrite SP. destruct h; cbn [how_single std_vector merge]; try (apply agrees_done; reflexivity).
  change (17 =? NEWMV) with true. cbv iota. eapply agrees_run; [intros; apply merge_andthen|]. eapply agrees_bind; [apply (mv_ok (aDis e) endp (aInt e) (aHigh e) 0)|]. intros y v (-> & _). cbn [merge]. apply agrees_done. reflexivity.
Qed.
Lemma mode_known mode h0 o1 : std_how mode = Some (h0, o1) -> getMode mode 0 = how_single h0 /\ forall h1, o1 = Some h1 -> getMode mode 1 = how_single (code_second h1).
Proof.
  intros H. destruct (C124_modes_partial mode h0 o1 H) as [A B]. split; [exact A|]. intros h1 E. destruct h1; try (rewrite (B _ E); [reflexivity| |]; intros ->; cbn in H; congruence). subst o1. apply (C124_second_nearest_refuted mode h0 H).
Qed.
(** Without intra block copy, for a candidate index below 2: the vectors of the standard, but for the treatment of the second vector (C124), the value of long components
    (code_value, C123) and the sharing of tables (merge, C122). *)
Theorem C125_assignment_partial : forall e endp hs g s, aIntrabc e = false -> in_stack e -> std_how (aYMode e) = Some hs -> mv_ready endp s ->
  exists r d h p, run (aDis e) (merge (std_assign code_value (aInt e) (aHigh e) (code_how hs) (aStack e) (aGlobal e) (aRefMvIdx e) (aNum e))) (fst s) (snd s) = Ok (r, d, h) /\
    assignMv e (match snd hs with Some _ => 1 | None => 0 end) g s = Ok ((p, put_all r (snd g)), (d, h)) /\ mv_ready endp (d, h).
Proof.
  intros e endp [h0 o1] g s HB HS HM HR. destruct (mode_known _ _ _ HM) as [M0 M1]. apply mv_ready_fit in HR. cbn [fst snd].
  assert (G : agrees mv_cdfs (aDis e) endp False (merge (std_assign code_value (aInt e) (aHigh e) (code_how (h0, o1)) (aStack e) (aGlobal e) (aRefMvIdx e) (aNum e)))
    (assignMv e (match o1 with Some _ => 1 | None => 0 end) g) (fun r g' => snd g' = put_all r (snd g))).
  { unfold std_assign, code_how, assignMv. cbn [fst snd]. eapply agrees_run; [intros; apply merge_andthen|].
    assert (O0 := one_ok e endp 0 h0 g HB HS ltac:(lia) M0). unfold for_to. destruct o1 as [h1|]; cbn [option_map].
    - change (Z.to_nat (1 + 1 - 0)) with 2%nat. cbn [for_from]. eapply agrees_bind; [exact O0|]. intros v g' E1. eapply agrees_run; [intros; apply merge_andthen|].
      eapply agrees_bind; [apply (one_ok e endp 1 (code_second h1) g' HB HS); [lia|]; apply M1; reflexivity|]. intros v1 g2 E2. cbn [merge]. apply agrees_done. unfold put_all, put2 in *. cbn in *. rewrite E2, E1. reflexivity.
    - change (Z.to_nat (1 + 0 - 0)) with 1%nat. cbn [for_from]. eapply agrees_bind; [exact O0|]. intros v g' E1. cbn [merge]. apply agrees_done. unfold put_all, put2 in *. cbn in *. rewrite E1. reflexivity. }
  specialize (G s HR). destruct (run _ _ (fst s) (snd s)) as [[[r d] h]| |]; [|contradiction|destruct G as [[] _]]. destruct G as (F & [p m] & E & Q). cbn [snd] in Q. subst m. exists r, d, h, p. rewrite mv_ready_fit. auto.
Qed.
Print Assumptions C125_assignment_partial.
(** The treatment of the second vector makes a difference only for NEW_NEARESTMV with a candidate index above 0: else it is the standard's assignment. *)
Theorem C125_second_partial : forall value mode hs int high stack global idx found, std_how mode = Some hs -> (mode = 21 -> idx = 0) -> (mode = 18 -> idx = 0) ->
  std_assign value int high (code_how hs) stack global idx found = std_assign value int high hs stack global idx found.
Proof.
  intros value mode [h0 o1] int high stack global i found H H1 H2. unfold std_assign, code_how. cbn [fst snd]. destruct o1 as [h1|]; cbn [option_map]; [|reflexivity].
  destruct h1; cbn [code_second]; try reflexivity. assert (i = 0) as ->; [|reflexivity]. assert (mode = 18 \/ mode = 21) as [M|M]; [|auto|auto].
  destruct mode as [|p|p]; try discriminate. do 5 (destruct p as [p|p|]; try discriminate H; auto).
Qed.
Print Assumptions C125_second_partial.
(** Candidate indices above 1, which the standard allows (up to 3), panic. *)
Theorem C125_index_refuted : forall e g s, aIntrabc e = false -> zlen (aStack e) = 2 -> 2 <= aRefMvIdx e -> aYMode e = 15 \/ aYMode e = 17 /\ 2 <= aNum e -> forall c, 0 <= c -> assignMv e c g s = Panic.
Proof.
  intros e g s HB HL HI HM c Hc. unfold assignMv, for_to. replace (Z.to_nat (1 + c - 0)) with (S (Z.to_nat c)) by lia. cbn [for_from]. rewrite bind_eq. unfold assignOne. rewrite HB.
  assert (P : idx (aStack e) (aRefMvIdx e) = Panic) by (apply idx_panic; lia).
  destruct HM as [->|[-> HN]]; cbv zeta.
  - change (getMode 15 0) with 15. change (15 =? GLOBALMV) with false. change (15 =? NEARESTMV) with false. change (15 =? NEWMV) with false. cbn [andb]. cbv iota. rewrite P. reflexivity.
  - change (getMode 17 0) with 17. change (17 =? GLOBALMV) with false. change (17 =? NEARESTMV) with false. change (17 =? NEWMV) with true. cbn [andb]. cbv iota.
    replace (aNum e <=? 1) with false by (symmetry; apply Z.leb_gt; lia). rewrite P. reflexivity.
Qed.
Print Assumptions C125_index_refuted.
(** Intra block copy: the standard's prediction unless there is no candidate and the block is not in the first row of superblocks. *)
Definition sb_of (e : AEnv) : Z := if aUse128 e then 128 else 64.
Definition first_row (e : AEnv) : bool := aMiRow e - sb_of e / 4 <? aRowStart e.
Theorem C125_intrabc_partial : forall e endp s0 s1 g s, aIntrabc e = true -> aStack e = [s0; s1] -> mv_ready endp s -> (first_row e = true \/ fst s0 <> (0, 0) \/ fst s1 <> (0, 0)) ->
  exists y d h, run (aDis e) (merge (std_mv (aInt e) (aHigh e) 1)) (fst s) (snd s) = Ok (y, d, h) /\ mv_ready endp (d, h) /\
    let p := std_intrabc_pred (fst s0) (fst s1) (sb_of e) (first_row e) in
    assignMv e 0 g s = Ok (((p, snd (fst g)), (mv_sum code_value p y, snd (snd g))), (d, h)).
Proof.
  intros e endp [[r0 c0] x0] [[r1 c1] x1] g s HB HS HR HC. cbv zeta. cbn [fst] in *. set (p := std_intrabc_pred (r0, c0) (r1, c1) (sb_of e) (first_row e)).
  destruct (C122_merged_partial (aDis e) endp (aInt e) (aHigh e) 1 p s HR) as (y & d & h & E1 & E2 & E3 & _). exists y, d, h. split; [exact E1|]. split; [exact E3|].
  assert (P : intrabcPred e = Ok p).
  { unfold intrabcPred. rewrite HS. change (idx [((r0, c0), x0); ((r1, c1), x1)] 0) with (Ok ((r0, c0), x0)). change (idx [((r0, c0), x0); ((r1, c1), x1)] 1) with (Ok ((r1, c1), x1)). cbn [rbind fst snd]. cbv zeta.
    unfold p, std_intrabc_pred. cbn [fst snd]. unfold first_row, sb_of in *. assert (N : forall a b : Z, (a, b) <> (0, 0) -> (a =? 0) && (b =? 0) = false) by (intros a b Hab; destruct (Z.eqb_spec a 0), (Z.eqb_spec b 0); subst; congruence || reflexivity).
    destruct ((r0 =? 0) && (c0 =? 0)) eqn:Z0; cbn [rbind fst snd negb]; [|rewrite Z0; reflexivity]. destruct ((r1 =? 0) && (c1 =? 0)) eqn:Z1; cbn [negb]; [|reflexivity].
    destruct HC as [HC|[HC|HC]]; [|apply N in HC; congruence|apply N in HC; congruence]. rewrite HC. destruct (aUse128 e).
    - change (idx NUM_4X4_BLOCKS_HIGH BLOCK_128X128) with (Ok 32). cbn [rbind]. change (128 / 4) with 32 in HC. rewrite HC. reflexivity.
    - change (idx NUM_4X4_BLOCKS_HIGH BLOCK_64X64) with (Ok 16). cbn [rbind]. change (64 / 4) with 16 in HC. rewrite HC. reflexivity. }
  unfold assignMv, for_to. change (Z.to_nat (1 + 0 - 0)) with 1%nat. cbn [for_from]. rewrite bind_eq. unfold assignOne. rewrite HB. cbv zeta. rewrite bind_eq. cbn [lift]. rewrite P. cbn [rbind].
  change (NEWMV =? NEWMV) with true. cbv iota. cbn [lift]. rewrite bind_eq. unfold sel, put2. change (0 =? 0) with true. cbv iota. cbn [fst snd]. rewrite E2. reflexivity.
Qed.
Print Assumptions C125_intrabc_partial.
(** Otherwise the prediction is one eighth of a row downwards instead of one superblock upwards. *)
Theorem C125_intrabc_refuted : forall e endp x0 x1 g s, aIntrabc e = true -> aStack e = [((0, 0), x0); ((0, 0), x1)] -> mv_ready endp s -> first_row e = false ->
  std_intrabc_pred (0, 0) (0, 0) (sb_of e) (first_row e) = (- 8 * sb_of e, 0) /\
  exists m t, assignMv e 0 g s = Ok ((((1, 0), snd (fst g)), m), t).
Proof.
  intros e endp x0 x1 g s HB HS HR HF. split; [rewrite HF; reflexivity|].
  destruct (C122_merged_partial (aDis e) endp (aInt e) (aHigh e) 1 (1, 0) s HR) as (y & d & h & E1 & E2 & E3 & _).
  assert (P : intrabcPred e = Ok (1, 0)).
  { unfold intrabcPred. rewrite HS. change (idx [((0, 0), x0); ((0, 0), x1)] 0) with (Ok ((0, 0), x0)). change (idx [((0, 0), x0); ((0, 0), x1)] 1) with (Ok ((0, 0), x1)). cbn [rbind fst snd]. cbv zeta.
    change ((0 =? 0) && (0 =? 0)) with true. cbv iota. cbn [rbind fst snd]. change ((0 =? 0) && (0 =? 0)) with true. cbv iota. unfold first_row, sb_of in HF. destruct (aUse128 e).
    - change (idx NUM_4X4_BLOCKS_HIGH BLOCK_128X128) with (Ok 32). cbn [rbind]. change (128 / 4) with 32 in HF. rewrite HF. reflexivity.
    - change (idx NUM_4X4_BLOCKS_HIGH BLOCK_64X64) with (Ok 16). cbn [rbind]. change (64 / 4) with 16 in HF. rewrite HF. reflexivity. }
  eexists _, _. unfold assignMv, for_to. change (Z.to_nat (1 + 0 - 0)) with 1%nat. cbn [for_from]. rewrite bind_eq. unfold assignOne. rewrite HB. cbv zeta. rewrite bind_eq. cbn [lift]. rewrite P. cbn [rbind].
  change (NEWMV =? NEWMV) with true. cbv iota. cbn [lift]. rewrite bind_eq. unfold sel, put2. change (0 =? 0) with true. cbv iota. cbn [fst snd]. rewrite E2. reflexivity.
Qed.
Print Assumptions C125_intrabc_refuted.

(** ** Concrete cases: the default tables *)
Definition mv_default (name : string) : string :=
  if (name =? "MvJointCdf")%string then "DEFAULT_MV_JOINT_CDF" else if (name =? "MvSignCdf")%string then "DEFAULT_MV_SIGN_CDF" else if (name =? "MvClassCdf")%string then "DEFAULT_MV_CLASS_CDF"
  else if (name =? "MvClass0BitCdf")%string then "DEFAULT_MV_CLASS0_BIT_CDF" else if (name =? "MvClass0FrCdf")%string then "DEFAULT_MV_CLASS0_FR_CDF" else if (name =? "MvClass0HpCdf")%string then "DEFAULT_MV_CLASS0_HP_CDF"
  else if (name =? "MvBitCdf")%string then "DEFAULT_MV_BIT_CDF" else if (name =? "MvFrCdf")%string then "DEFAULT_MV_FR_CDF" else "DEFAULT_MV_HP_CDF".
Definition mv_heap (name : string) : tree := defaultHeap (mv_default name).
(** the standard's tables: the same defaults, a copy for each context and component *)
Definition mv_heap_std (name : string) : tree := let t := mv_heap name in Node (match shared_dims name with 1%nat => [t; t] | _ => [Node [t; t]; Node [t; t]] end).
Definition mv_dec (v : Z) : dec := mkDec v 65000 49 (mkBS [0xA5; 0x5A; 0xF0; 0x33; 0x77; 0x81; 0x2C; 0x90] 15 0).
Lemma mv_dec_ready v : 0 <= v < 65000 -> mv_ready 64 (mv_dec v, mv_heap).
Proof. intros H. split; [unfold in_tile, mv_dec, zlen; cbn; lia|]. apply table_okb_ok. vm_compute. reflexivity. Qed.
Lemma mv_std_ok : table_ok std_mv_cdfs mv_heap_std.
Proof. apply table_okb_ok. vm_compute. reflexivity. Qed.
Lemma mv_holds ctx comp : 0 <= ctx <= 1 -> 0 <= comp <= 1 -> holds ctx comp mv_heap mv_heap_std.
Proof.
  intros H1 H2. split; [assert (ctx = 0 \/ ctx = 1) as [-> | ->] by lia; reflexivity|]. intros name rest _. unfold mv_heap_std, merged. cbv zeta. set (t := mv_heap name).
  assert (shared_dims name = 1%nat \/ shared_dims name = 2%nat) as [-> | ->] by (unfold shared_dims; destruct (_ || _); auto); (assert (ctx = 0 \/ ctx = 1) as [-> | ->] by lia); (assert (comp = 0 \/ comp = 1) as [-> | ->] by lia); reflexivity.
Qed.
(** With both components coded, the sign, bit and precision tables have been adapted by the first when the second is read: its symbols differ from the standard's. *)
Theorem C122_both_components_refuted : mv_ready 64 (mv_dec 390, mv_heap) /\ table_ok std_mv_cdfs mv_heap_std /\ (forall comp, 0 <= comp <= 1 -> holds 0 comp mv_heap mv_heap_std) /\
  match run false (std_mv false true 0) (mv_dec 390) mv_heap_std, readMv false false true (0, 0) (mv_dec 390, mv_heap) with
  | Ok ((Some y0, Some y1), _, _), Ok (m, _) => fst m = code_value y0 /\ snd m <> code_value y1 /\ m = (-55, -1) /\ mv_sum mv_value (0, 0) (Some y0, Some y1) = (-63, 107)
  | _, _ => False end.
Proof.
  split; [apply mv_dec_ready; lia|]. split; [exact mv_std_ok|]. split; [intros comp H; apply mv_holds; lia|]. vm_compute. split; [reflexivity|]. split; [discriminate|]. split; reflexivity.
Qed.
Print Assumptions C122_both_components_refuted.
(** A long component: the standard gives -184, the code -152. *)
Theorem C123_long_refuted : mv_ready 64 (mv_dec 26650, mv_heap) /\ holds 0 0 mv_heap mv_heap_std /\
  match run false (std_mv false true 0) (mv_dec 26650) mv_heap_std, readMv false false true (0, 0) (mv_dec 26650, mv_heap) with
  | Ok (y, _, _), Ok (m, _) => y = (Some (mkMvSyms 1 4 [0; 1; 1; 0] 3 1), None) /\ mv_sum mv_value (0, 0) y = (-184, 0) /\ m = (-152, 0)
  | _, _ => False end.
Proof. split; [apply mv_dec_ready; lia|]. split; [apply mv_holds; lia|]. vm_compute. repeat split. Qed.
Print Assumptions C123_long_refuted.
Definition demo_a (mode idx : Z) (bc : bool) : AEnv := mkAEnv false false true bc mode idx 2 [((8, 16), (24, 32)); ((40, 48), (56, 64))] ((2, 4), (6, 8)) false 20 0.
Example C125_case : in_stack (demo_a 20 1 false) /\ std_how 20 = Some (Nearest, Some New) /\
  match assignMv (demo_a 20 1 false) 1 (((0, 0), (0, 0)), ((0, 0), (0, 0))) (mv_dec 26650, mv_heap) with Ok ((p, m), _) => p = ((8, 16), (56, 64)) /\ m = ((8, 16), (-96, 64)) | _ => False end /\
  match assignMv (demo_a 16 0 true) 0 (((0, 0), (0, 0)), ((0, 0), (0, 0))) (mv_dec 26650, mv_heap) with Ok ((p, m), _) => p = ((8, 16), (0, 0)) /\ m = ((-144, 16), (0, 0)) | _ => False end.
Proof. split; [unfold in_stack, zlen; cbn; lia|]. split; [reflexivity|]. split; vm_compute; split; reflexivity. Qed.
