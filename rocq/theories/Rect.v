(** Filling a rectangle of a two-dimensional array. *)
From Verif Require Import GoBase Frame Fill2 Writes.
Local Open Scope Z_scope.
(** for y := r0; y < r1; y++ { for x := c0; x < c1; x++ { g[y][x] = v } } *)
Definition rectFill {A} (r0 r1 c0 c1 : Z) (v : A) (g : list (list A)) : res (list (list A)) := rfor_to r0 r1 (fun y g => rfor_to c0 c1 (fun x g => upd2 g y x v) g) g.
Definition in_rect (r0 r1 c0 c1 y x : Z) : bool := (r0 <=? y) && (y <? r1) && (c0 <=? x) && (x <? c1).

Lemma rect_fill2 {A} r0 r1 c0 c1 (v : A) g : rectFill r0 r1 c0 c1 v g = fill2 (fun _ _ => Ok v) (fun i => i) (fun j => j) r0 r1 c0 c1 g.
Proof. reflexivity. Qed.
Lemma rect_nh {A} r0 r1 c0 c1 (v : A) g : rectFill r0 r1 c0 c1 v g <> Hang.
Proof. rewrite rect_fill2. apply fill2_nh. discriminate. Qed.
Lemma rect_post {A} r0 r1 c0 c1 (v : A) g g' : r0 <= r1 -> c0 <= c1 -> rectFill r0 r1 c0 c1 v g = Ok g' -> forall y x, idx2 g' y x = if in_rect r0 r1 c0 c1 y x then Ok v else idx2 g y x.
Proof.
  intros Hr Hc E y x. rewrite rect_fill2 in E. apply (fill2_post (fun _ _ => Ok v) 0 0 (fun i => i) (fun j => j) ltac:(intros; reflexivity) ltac:(intros; reflexivity)) in E as [E1 E2]; try lia. unfold in_rect.
  destruct (Z.leb_spec r0 y), (Z.ltb_spec y r1), (Z.leb_spec c0 x), (Z.ltb_spec x c1); cbn [andb]; try (apply E2; lia).
  destruct (E1 y x ltac:(lia) ltac:(lia)) as (w & [= <-] & E3). exact E3.
Qed.
Lemma rect_keeps {A} N K r0 r1 c0 c1 (v : A) g g' : array2 N K g -> rectFill r0 r1 c0 c1 v g = Ok g' -> array2 N K g'.
Proof.
  intros HA. unfold rectFill. apply rfor_to_keep; [exact HA|]. intros y b b' _ Hb. apply rfor_to_keep; [exact Hb|]. intros x c c' _ Hc. apply (array2_upd _ _ _ _ _ _ _ Hc).
Qed.
Lemma rect_ok {A} N K r0 r1 c0 c1 (v : A) g : array2 N K g -> 0 <= r0 <= r1 -> r1 <= N -> 0 <= c0 <= c1 -> c1 <= K ->
  exists g', rectFill r0 r1 c0 c1 v g = Ok g' /\ array2 N K g' /\ forall y x, idx2 g' y x = if in_rect r0 r1 c0 c1 y x then Ok v else idx2 g y x.
Proof.
  intros HA Hr HN Hc HK.
  destruct (fill2_ok (fun _ _ => Ok v) 0 0 (fun i => i) (fun j => j) ltac:(intros; reflexivity) ltac:(intros; reflexivity) r0 r1 c0 c1 g ltac:(lia) ltac:(lia)) as (g' & E & _).
  - intros. eauto.
  - intros i j Hi Hj. apply (array2_get N K g); [exact HA|lia].
  - rewrite <- rect_fill2 in E. exists g'. split; [exact E|]. split; [exact (rect_keeps _ _ _ _ _ _ _ _ _ HA E)|]. apply rect_post; [lia|lia|exact E].
Qed.
Lemma rect_panic {A} N K r0 r1 c0 c1 (v : A) g : array2 N K g -> r0 < r1 -> c0 < c1 -> r0 < 0 \/ N < r1 \/ c0 < 0 \/ K < c1 -> rectFill r0 r1 c0 c1 v g = Panic.
Proof.
  intros HA Hr Hc HB. destruct (rectFill r0 r1 c0 c1 v g) as [g'| |] eqn:E; [exfalso|reflexivity|exfalso; exact (rect_nh _ _ _ _ _ _ E)].
  pose proof (rect_keeps _ _ _ _ _ _ _ _ _ HA E) as HA'. pose proof (rect_post r0 r1 c0 c1 v g g' ltac:(lia) ltac:(lia) E) as P.
  assert (G1 : idx2 g' r0 c0 = Ok v) by (rewrite P; unfold in_rect; destruct (Z.leb_spec r0 r0), (Z.ltb_spec r0 r1), (Z.leb_spec c0 c0), (Z.ltb_spec c0 c1); try lia; reflexivity).
  assert (G2 : idx2 g' (r1 - 1) (c1 - 1) = Ok v) by (rewrite P; unfold in_rect; destruct (Z.leb_spec r0 (r1 - 1)), (Z.ltb_spec (r1 - 1) r1), (Z.leb_spec c0 (c1 - 1)), (Z.ltb_spec (c1 - 1) c1); try lia; reflexivity).
  assert (H1 : 0 <= r0 < N /\ 0 <= c0 < K) by (apply (array2_get N K g' r0 c0 HA'); eauto). assert (H2 : 0 <= r1 - 1 < N /\ 0 <= c1 - 1 < K) by (apply (array2_get N K g' _ _ HA'); eauto). lia.
Qed.
