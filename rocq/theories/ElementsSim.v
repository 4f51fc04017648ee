(** A computation on the decoder reads what a program of the standard asks for. *)
From Coq Require Import String.
From Verif Require Import GoBase Bitstream Util UtilProofs Constants Symbol SpecSymbol SymbolProofs CdfMoves CdfMemory CdfMemoryProofs SpecCoeffs CoeffRun Elements.
Local Open Scope Z_scope.

Definition table_ok (T : list (string * list Z * Z)) (h : string -> tree) : Prop :=
  forall name dims n path, In (name, dims, n) T -> path_in path dims -> has_cdf (h name) path n.

Section Agree.
Context (T : list (string * list Z * Z)) (dis : bool) (endp : Z) (bad : Prop).
Definition fit (s : ES) : Prop := tile_state (fst s) endp /\ table_ok T (snd s).
(** From every fit state: what the program asks for is what the computation reads, the results are related by Q, and the state stays fit.
    Where the program says Fail the computation panics; [bad] says when this can happen. *)
Definition agrees {A B} (p : prog A) (m : M ES B) (Q : A -> B -> Prop) : Prop := forall s, fit s ->
  match run dis p (fst s) (snd s) with
  | Ok (a, d, h) => fit (d, h) /\ exists b, m s = Ok (b, (d, h)) /\ Q a b
  | Hang => bad /\ m s = Panic
  | Panic => False
  end.
Lemma agrees_done {A B} (a : A) (b : B) (Q : A -> B -> Prop) : Q a b -> agrees (Done a) (ret b) Q.
Proof. intros HQ [d h] F. cbn [run fst snd]. split; [exact F|]. exists b. split; [reflexivity|exact HQ]. Qed.
Lemma agrees_fail {A B} (Q : A -> B -> Prop) : bad -> agrees Fail panic Q.
Proof. intros B0 s F. split; [exact B0|reflexivity]. Qed.
Lemma agrees_bind {A A' B B'} (p : prog A) (f : A -> prog A') (m : M ES B) (k : B -> M ES B') R Q :
  agrees p m R -> (forall a b, R a b -> agrees (f a) (k b) Q) -> agrees (andthen p f) (bind m k) Q.
Proof.
  intros H K s F. rewrite run_andthen, bind_eq. specialize (H s F). destruct (run dis p (fst s) (snd s)) as [[[a d] h]| |]; cbn [rbind fst snd]; [|contradiction|destruct H as [B0 H]; rewrite H; split; [exact B0|reflexivity]].
  destruct H as (F' & b & E & HR). rewrite E. exact (K a b HR (d, h) F').
Qed.
Lemma agrees_lift {A B B'} (p : prog A) (r : res B) (k : B -> M ES B') b Q : r = Ok b -> agrees p (k b) Q -> agrees p (bind (lift r) k) Q.
Proof. intros -> H s F. rewrite bind_eq. cbn [lift]. exact (H s F). Qed.
Lemma agrees_ret {A B B'} (p : prog A) (b : B) (k : B -> M ES B') Q : agrees p (k b) Q -> agrees p (bind (ret b) k) Q.
Proof. intros H s F. rewrite bind_eq. cbn [ret]. exact (H s F). Qed.
Lemma agrees_panic {A B B'} (k : B -> M ES B') (Q : A -> B' -> Prop) : bad -> agrees Fail (bind panic k) Q.
Proof. intros B0 s F. rewrite bind_eq. split; [exact B0|reflexivity]. Qed.
Lemma agrees_weaken {A B} (p : prog A) (m : M ES B) (Q Q' : A -> B -> Prop) : agrees p m Q -> (forall a b, Q a b -> Q' a b) -> agrees p m Q'.
Proof. intros H W s F. specialize (H s F). destruct (run dis p (fst s) (snd s)) as [[[a d] h]| |]; auto. destruct H as (F' & b & E & HQ). split; [exact F'|]. exists b. auto. Qed.
Lemma agrees_eq {A B} (p p' : prog A) (m m' : M ES B) Q : p = p' -> (forall s, m s = m' s) -> agrees p' m' Q -> agrees p m Q.
Proof. intros -> E H s F. rewrite E. exact (H s F). Qed.
Lemma agrees_run {A B} (p p' : prog A) (m : M ES B) Q : (forall d h, run dis p d h = run dis p' d h) -> agrees p' m Q -> agrees p m Q.
Proof. intros E H s F. rewrite E. exact (H s F). Qed.
Lemma run_assoc {A B C} (p : prog A) (g : A -> prog B) (k : B -> prog C) d h : run dis (andthen (andthen p g) k) d h = run dis (andthen p (fun a => andthen (g a) k)) d h.
Proof.
  rewrite !run_andthen. destruct (run dis p d h) as [[[a d'] h']| |]; cbn [rbind fst snd]; try reflexivity. rewrite run_andthen. reflexivity.
Qed.
Lemma run_cong {A B} (p : prog A) (g g' : A -> prog B) d h : (forall a d h, run dis (g a) d h = run dis (g' a) d h) -> run dis (andthen p g) d h = run dis (andthen p g') d h.
Proof. intros E. rewrite !run_andthen. destruct (run dis p d h) as [[[a d'] h']| |]; cbn [rbind fst snd]; try reflexivity. apply E. Qed.
Lemma agrees_sym name dims n path : In (name, dims, n) T -> path_in path dims ->
  agrees (Sym name path Done) (esym dis name path) (fun a b => a = b /\ 0 <= b < n).
Proof.
  intros HI HP [d h] [GT GC]. cbn [fst snd] in *. destruct (GC name dims n path HI HP) as (c & Ec & Vc & Nc). unfold esym. cbn [run fst snd]. rewrite Ec. cbn [rbind].
  destruct (ReadSymbol_safe dis c d endp Vc GT) as (v & c' & d' & E & S & Hv & Vc' & Lc & _). rewrite E. cbn [rbind fst snd].
  destruct (tput_ok (h name) path c c' Ec) as [t' Et]. rewrite Et. cbn [rbind]. split; [|exists v; split; [reflexivity|split; [reflexivity|lia]]].
  split; [apply S|]. cbn [snd]. intros nm dm n' p Hin Hp. specialize (GC nm dm n' p Hin Hp). unfold has_cdf. rewrite hset_get. destruct (String.eqb_spec name nm) as [->|]; [|exact GC].
  rewrite (tput_tget _ _ _ _ Et). destruct (zs_eqb path p) eqn:Ez; [|exact GC]. apply zs_eqb_eq in Ez. subst p. exists c'. split; [reflexivity|]. split; [exact Vc'|].
  destruct GC as (c2 & E2 & _ & N2). rewrite Ec in E2. injection E2 as <-. unfold nsyms in *. rewrite Lc. exact N2.
Qed.
Lemma agrees_symk {A B} name dims n path (f : Z -> prog A) (k : Z -> M ES B) Q : In (name, dims, n) T -> path_in path dims ->
  (forall v, 0 <= v < n -> agrees (f v) (k v) Q) -> agrees (Sym name path f) (bind (esym dis name path) k) Q.
Proof. intros HI HP K. change (Sym name path f) with (andthen (Sym name path Done) f). eapply agrees_bind; [apply (agrees_sym name dims n path HI HP)|]. intros a b (-> & Hb). apply K, Hb. Qed.
(** n bits *)
Lemma agrees_bits_from n : forall i acc (k : nat), (k + n <= 62)%nat -> 0 <= acc < 2 ^ Z.of_nat k ->
  agrees (bits n acc) (fun s => let! r := for_from n i (fun _ x => let* b := readBool dis in ret (i64 (2 * x + b))) acc (fst s) in Ok (fst r, (snd r, snd s))) (fun a b => a = b /\ 0 <= b < 2 ^ Z.of_nat (k + n)).
Proof.
  induction n as [|n IH]; intros i acc k Hk Ha [d h] F.
  - cbn [bits run for_from fst snd rbind ret]. split; [exact F|]. exists acc. split; [reflexivity|]. split; [reflexivity|]. replace (k + 0)%nat with k by lia. exact Ha.
  - cbn [bits run for_from fst snd]. destruct F as [GT GC]. cbn [fst snd] in *. destruct (readBool_safe dis d endp GT) as (b & d' & E & St & Hb).
    assert (Hp : 2 ^ Z.of_nat (S k) = 2 * 2 ^ Z.of_nat k) by (rewrite Nat2Z.inj_succ, Z.pow_succ_r; lia).
    assert (Hp2 : 2 ^ Z.of_nat (S k) <= 2 ^ 62) by (apply Z.pow_le_mono_r; lia).
    rewrite !bind_eq, E; cbn [rbind fst snd ret]; rewrite i64_id by (change (2 ^ 62) with 4611686018427387904 in Hp2; change (2 ^ 63) with 9223372036854775808; lia).
    specialize (IH (i + 1) (2 * acc + b) (S k) ltac:(lia) ltac:(lia) (d', h)). cbn [fst snd] in IH. replace (S k + n)%nat with (k + S n)%nat in IH by lia. refine (IH _). split; [apply St|exact GC].
Qed.
Lemma agrees_bits n : 0 <= n <= 62 -> agrees (bits (Z.to_nat n) 0) (elit dis n) (fun a b => a = b /\ 0 <= b < 2 ^ n).
Proof.
  intros Hn. assert (G := agrees_bits_from (Z.to_nat n) 0 0 0%nat ltac:(lia) ltac:(change (Z.of_nat 0) with 0; change (2 ^ 0) with 1; lia)).
  cbn [Nat.add] in G. rewrite Z2Nat.id in G by lia. intros s F. specialize (G s F). unfold elit, L, for_to. rewrite Z.sub_0_r. exact G.
Qed.
Lemma agrees_bitsk {A B} n (f : Z -> prog A) (k : Z -> M ES B) Q : 0 <= n <= 62 -> (forall v, 0 <= v < 2 ^ n -> agrees (f v) (k v) Q) -> agrees (andthen (bits (Z.to_nat n) 0) f) (bind (elit dis n) k) Q.
Proof. intros Hn K. eapply agrees_bind; [apply (agrees_bits n Hn)|]. intros a b (-> & Hb). apply K, Hb. Qed.
Lemma agrees_bitk {A B} (f : Z -> prog A) (k : Z -> M ES B) Q : (forall v, 0 <= v <= 1 -> agrees (f v) (k v) Q) -> agrees (Bit f) (bind (elit dis 1) k) Q.
Proof.
  intros K. assert (G := agrees_bitsk 1 f k Q ltac:(lia)). change (Z.to_nat 1) with 1%nat in G. cbn [bits andthen] in G.
  eapply agrees_eq; [|reflexivity|apply G; intros v Hv; change (2 ^ 1) with 2 in Hv; apply K; lia]. reflexivity.
Qed.
Lemma agrees_assoc {A B C D} (p : prog A) (m : M ES B) (k : B -> M ES C) (h : C -> M ES D) Q : agrees p (bind m (fun a => bind (k a) h)) Q -> agrees p (bind (bind m k) h) Q.
Proof. intros H s F. rewrite bind_assoc. exact (H s F). Qed.
End Agree.
