(** Properties C162, C163: the palette cache and the color indices of a palette block. *)
From Verif Require Import GoBase Constants Tables Bitstream Util Frame Palette.
From Coq Require Import Sorted.

(** ** The palette cache *)
Lemma sorted_snoc l c v : StronglySorted Z.lt (l ++ [c]) -> c < v -> StronglySorted Z.lt ((l ++ [c]) ++ [v]).
Proof.
  intros hs hv. induction l as [|a l IH]; cbn in *.
  - constructor; [constructor; constructor|constructor; [exact hv|constructor]].
  - apply StronglySorted_inv in hs. destruct hs as (hs & ha). constructor; [apply IH; exact hs|].
    apply Forall_app; split; [exact ha|]. apply Forall_app in ha. destruct ha as (_ & h). apply Forall_inv in h. constructor; [lia|constructor].
Qed.
(** The color last stored is the largest: pushing v keeps the colors in order. *)
Lemma addColor_ok c r v : StronglySorted Z.lt c -> Forall (fun x => x <= v) c -> 1 <= zlen r ->
  exists c' r', addColor v (zlen c, c ++ r) = Ok (zlen c', c' ++ r') /\ StronglySorted Z.lt c' /\ Forall (fun x => x <= v) c' /\
    (forall x, In x c' <-> In x c \/ x = v) /\ zlen c' + zlen r' = zlen c + zlen r /\ zlen c' <= zlen c + 1.
Proof.
  intros hs hv hr. destruct r as [|y r]; [rewrite (eq_refl : zlen (@nil Z) = 0) in hr; lia|].
  assert (upd_at : upd (c ++ y :: r) (zlen c) v = Ok (c ++ v :: r)).
  { pose proof (zlen_nonneg c). pose proof (zlen_nonneg r). rewrite upd_ok by (rewrite zlen_app, zlen_cons; lia). f_equal. unfold zlen. rewrite Nat2Z.id. clear. induction c as [|a c IH]; cbn; congruence. }
  assert (STORE : StronglySorted Z.lt (c ++ [v]) -> exists c' r', (let! cache' := upd (c ++ y :: r) (zlen c) v in Ok (zlen c + 1, cache')) = Ok (zlen c', c' ++ r') /\ StronglySorted Z.lt c' /\ Forall (fun x => x <= v) c' /\
    (forall x, In x c' <-> In x c \/ x = v) /\ zlen c' + zlen r' = zlen c + zlen (y :: r) /\ zlen c' <= zlen c + 1).
  { intros hs'. exists (c ++ [v]), r. rewrite upd_at. cbn [rbind]. rewrite zlen_app, !zlen_cons, (eq_refl : zlen (@nil Z) = 0). rewrite <- app_assoc. cbn.
    split; [reflexivity|]. split; [exact hs'|]. split; [apply Forall_app; split; [exact hv|constructor; [lia|constructor]]|].
    split; [|lia]. intros x. rewrite in_app_iff. cbn. intuition auto. }
  unfold addColor. destruct c as [|c0 l _] using rev_ind.
  - cbn [app]. rewrite (eq_refl : zlen (@nil Z) = 0). cbn [Z.eqb]. apply STORE. cbn. constructor; constructor.
  - pose proof (zlen_nonneg l). assert (el : zlen (l ++ [c0]) = zlen l + 1) by (rewrite zlen_app; reflexivity).
    replace (zlen (l ++ [c0]) =? 0) with false by (symmetry; apply Z.eqb_neq; lia).
    assert (LAST : idx ((l ++ [c0]) ++ y :: r) (zlen (l ++ [c0]) - 1) = Ok c0).
    { pose proof (zlen_nonneg r). rewrite (idx_ok _ _ 0) by (rewrite !zlen_app, !zlen_cons; change (zlen (@nil Z)) with 0; lia). rewrite el. replace (Z.to_nat (zlen l + 1 - 1)) with (length l) by (unfold zlen; lia).
      rewrite <- app_assoc. cbn [app]. rewrite app_nth2, Nat.sub_diag by lia. reflexivity. }
    rewrite LAST.
    cbn [rbind]. destruct (v =? c0) eqn:e; cbn [negb].
    + apply Z.eqb_eq in e. exists (l ++ [c0]), (y :: r). split; [reflexivity|]. split; [exact hs|]. split; [exact hv|]. split; [|lia].
      intros x. rewrite in_app_iff. cbn. intuition subst; auto.
    + apply Z.eqb_neq in e. apply STORE. apply Forall_app in hv. destruct hv as (hl & hc). apply Forall_inv in hc. apply sorted_snoc; [exact hs|lia].
Qed.

Section Merge.
Variables (A L : list Z) (above left : Z -> res Z).
Hypothesis HA : forall i, 0 <= i < zlen A -> above i = idx A i.
Hypothesis HL : forall i, 0 <= i < zlen L -> left i = idx L i.
Hypothesis SA : StronglySorted Z.le A.
Hypothesis SL : StronglySorted Z.le L.
(** The colors taken so far, A1 of A and L1 of L, are those of the cache c. *)
Definition merged A1 A2 L1 L2 (c : list Z) : Prop :=
  A = A1 ++ A2 /\ L = L1 ++ L2 /\ StronglySorted Z.lt c /\ (forall x y, In x c -> In y (A2 ++ L2) -> x <= y) /\
  (forall x, In x c <-> In x A1 \/ In x L1) /\ (forall x, In x L1 -> exists y, In y A /\ x <= y).

Lemma sorted_app_le (P Q : list Z) a : StronglySorted Z.le (P ++ a :: Q) -> Forall (fun y => a <= y) Q.
Proof. induction P as [|p P IH]; cbn; intros h; inversion_clear h; auto. Qed.
Lemma at_end (P Q : list Z) a : idx (P ++ a :: Q) (zlen P) = Ok a.
Proof. rewrite (idx_ok _ _ 0) by (rewrite zlen_app, zlen_cons; pose proof (zlen_nonneg P); pose proof (zlen_nonneg Q); lia). unfold zlen. rewrite Nat2Z.id, app_nth2, Nat.sub_diag by lia. reflexivity. Qed.
Lemma snoc_len (P : list Z) a : zlen P + 1 = zlen (P ++ [a]). Proof. rewrite zlen_app. reflexivity. Qed.

Lemma merge_ok fuel : forall A1 A2 L1 L2 c r, merged A1 A2 L1 L2 c -> zlen A2 + zlen L2 <= Z.of_nat fuel -> zlen A2 + zlen L2 <= zlen r ->
  exists A1' A2' L1' L2' c' r', mergeColors fuel above left (zlen A) (zlen L) (zlen A1) (zlen L1) (zlen c, c ++ r) = Ok (zlen A1', (zlen c', c' ++ r')) /\
    merged A1' A2' L1' L2' c' /\ (A2' = [] \/ L2' = []) /\ zlen A2' <= zlen r' /\ zlen c' + zlen r' = zlen c + zlen r.
Proof.
  induction fuel as [|fuel IH]; intros A1 A2 L1 L2 c r hm hf hr; pose proof hm as (eA & eL & hs & hle & hin & hex).
  - assert (A2 = [] /\ L2 = []) as (-> & ->) by (destruct A2, L2; rewrite ?zlen_cons in hf; try pose proof (zlen_nonneg A2); try pose proof (zlen_nonneg L2); try change (zlen (@nil Z)) with 0 in hf; try lia; auto).
    cbn [mergeColors]. replace (zlen A1 <? zlen A) with false by (symmetry; apply Z.ltb_ge; rewrite eA, app_nil_r; lia). cbn [andb]. exists A1, [], L1, [], c, r. change (zlen (@nil Z)) with 0 in hr. auto 10 using zlen_nonneg.
  - destruct A2 as [|a A2].
    { cbn [mergeColors]. replace (zlen A1 <? zlen A) with false by (symmetry; apply Z.ltb_ge; rewrite eA, app_nil_r; lia). cbn [andb]. exists A1, [], L1, L2, c, r. pose proof (zlen_nonneg r). auto 10. }
    destruct L2 as [|l L2].
    { cbn [mergeColors]. replace (zlen L1 <? zlen L) with false by (symmetry; apply Z.ltb_ge; rewrite eL, app_nil_r; lia). rewrite andb_false_r. exists A1, (a :: A2), L1, [], c, r. change (zlen (@nil Z)) with 0 in hr. rewrite Z.add_0_r in hr. auto 10. }
    pose proof (zlen_nonneg A1). pose proof (zlen_nonneg L1). pose proof (zlen_nonneg A2). pose proof (zlen_nonneg L2). pose proof (zlen_nonneg c).
    rewrite !zlen_cons in hf. rewrite !zlen_cons in hr.
    assert (lA : zlen A = zlen A1 + zlen A2 + 1) by (rewrite eA, zlen_app, zlen_cons; lia).
    assert (lL : zlen L = zlen L1 + zlen L2 + 1) by (rewrite eL, zlen_app, zlen_cons; lia).
    cbn [mergeColors]. replace (zlen A1 <? zlen A) with true by (symmetry; apply Z.ltb_lt; lia). replace (zlen L1 <? zlen L) with true by (symmetry; apply Z.ltb_lt; lia). cbn [andb].
    rewrite HA, HL by lia. replace (idx A (zlen A1)) with (@Ok Z a) by (rewrite eA; symmetry; apply at_end). replace (idx L (zlen L1)) with (@Ok Z l) by (rewrite eL; symmetry; apply at_end). cbn [rbind].
    pose proof SA as sa. rewrite eA in sa. apply sorted_app_le in sa. pose proof SL as sl. rewrite eL in sl. apply sorted_app_le in sl. rewrite Forall_forall in sa, sl.
    assert (inA : In a A) by (rewrite eA; apply in_app_iff; right; left; reflexivity).
    destruct (l <? a) eqn:e.
    + apply Z.ltb_lt in e. destruct (addColor_ok c r l hs) as (c' & r' & E & hs' & hl' & hin' & h4 & h5); [apply Forall_forall; intros x hx; apply hle; [exact hx|rewrite in_app_iff; cbn; auto]|lia|].
      rewrite E. cbn [rbind]. rewrite (snoc_len L1 l). rewrite <- h4. apply (IH A1 (a :: A2) (L1 ++ [l]) L2); [|rewrite ?zlen_cons; lia|rewrite ?zlen_cons; lia].
      split; [exact eA|]. split; [rewrite <- app_assoc; exact eL|]. split; [exact hs'|]. rewrite Forall_forall in hl'. split; [|split].
      * intros x y hx hy. specialize (hl' _ hx). apply in_app_iff in hy. destruct hy as [[<-|hy]|hy]; [lia| |]; [specialize (sa _ hy); lia|specialize (sl _ hy); lia].
      * intros x. rewrite hin', hin, in_app_iff. cbn. intuition auto.
      * intros x hx. apply in_app_iff in hx. destruct hx as [hx|[<-|[]]]; [apply hex; exact hx|]. exists a. split; [exact inA|lia].
    + apply Z.ltb_ge in e. destruct (addColor_ok c r a hs) as (c' & r' & E & hs' & hl' & hin' & h4 & h5); [apply Forall_forall; intros x hx; apply hle; [exact hx|rewrite in_app_iff; cbn; auto]|lia|].
      rewrite E. cbn [rbind]. rewrite (snoc_len A1 a). rewrite <- h4. rewrite Forall_forall in hl'. destruct (l =? a) eqn:e'.
      * apply Z.eqb_eq in e'. subst l. rewrite (snoc_len L1 a). apply (IH (A1 ++ [a]) A2 (L1 ++ [a]) L2); [|lia|lia].
        split; [rewrite <- app_assoc; exact eA|]. split; [rewrite <- app_assoc; exact eL|]. split; [exact hs'|]. split; [|split].
        -- intros x y hx hy. specialize (hl' _ hx). apply in_app_iff in hy. destruct hy as [hy|hy]; [specialize (sa _ hy); lia|specialize (sl _ hy); lia].
        -- intros x. rewrite hin', hin, !in_app_iff. cbn. intuition auto.
        -- intros x hx. apply in_app_iff in hx. destruct hx as [hx|[<-|[]]]; [apply hex; exact hx|]. exists a. split; [exact inA|lia].
      * apply (IH (A1 ++ [a]) A2 L1 (l :: L2)); [|rewrite ?zlen_cons; lia|rewrite ?zlen_cons; lia].
        split; [rewrite <- app_assoc; exact eA|]. split; [exact eL|]. split; [exact hs'|]. split; [|split].
        -- intros x y hx hy. specialize (hl' _ hx). apply in_app_iff in hy. destruct hy as [hy|[<-|hy]]; [specialize (sa _ hy); lia|lia|specialize (sl _ hy); lia].
        -- intros x. rewrite hin', hin, !in_app_iff. cbn. intuition auto.
        -- exact hex.
Qed.

(** palette.go:181-188 *)
Lemma rest_ok n : forall A1 A2 L1 L2 c r, merged A1 A2 L1 L2 c -> (A2 = [] \/ L2 = []) -> n = length A2 -> zlen A2 <= zlen r ->
  exists c' r', rfor_from n (zlen A1) (fun i a => let! v := above i in addColor v a) (zlen c, c ++ r) = Ok (zlen c', c' ++ r') /\ merged A [] L1 L2 c' /\ zlen c' + zlen r' = zlen c + zlen r.
Proof.
  induction n as [|n IH]; intros A1 A2 L1 L2 c r hm hor hn hr; pose proof hm as (eA & eL & hs & hle & hin & hex).
  - destruct A2; [|discriminate]. exists c, r. split; [reflexivity|]. rewrite app_nil_r in eA. subst A1. auto.
  - destruct A2 as [|a A2]; [discriminate|]. injection hn as hn. destruct hor as [?| ->]; [discriminate|]. rewrite zlen_cons in hr.
    pose proof (zlen_nonneg A1). pose proof (zlen_nonneg A2). pose proof (zlen_nonneg c).
    assert (lA : zlen A = zlen A1 + zlen A2 + 1) by (rewrite eA, zlen_app, zlen_cons; lia).
    cbn [rfor_from]. rewrite HA by lia. replace (idx A (zlen A1)) with (@Ok Z a) by (rewrite eA; symmetry; apply at_end). cbn [rbind].
    pose proof SA as sa. rewrite eA in sa. apply sorted_app_le in sa. rewrite Forall_forall in sa.
    destruct (addColor_ok c r a hs) as (c' & r' & E & hs' & hl' & hin' & h4 & h5); [apply Forall_forall; intros x hx; apply hle; [exact hx|rewrite in_app_iff; cbn; auto]|lia|].
    rewrite E. cbn [rbind]. rewrite (snoc_len A1 a). rewrite <- h4. apply (IH _ A2 L1 []); auto; [|lia].
    split; [rewrite <- app_assoc; exact eA|]. split; [exact eL|]. split; [exact hs'|]. rewrite Forall_forall in hl'. split; [|split; [|exact hex]].
    + intros x y hx hy. specialize (hl' _ hx). rewrite app_nil_r in hy. specialize (sa _ hy). lia.
    + intros x. rewrite hin', hin, !in_app_iff. cbn. intuition auto.
Qed.

Lemma cache_ok fuel cache : zlen A + zlen L <= Z.of_nat fuel -> zlen A + zlen L <= zlen cache ->
  exists c rest, (let! r := mergeColors fuel above left (zlen A) (zlen L) 0 0 (0, cache) in rfor_to (fst r) (zlen A) (fun i a => let! v := above i in addColor v a) (snd r)) = Ok (zlen c, c ++ rest) /\
    zlen c + zlen rest = zlen cache /\ StronglySorted Z.lt c /\ (forall x, In x c <-> In x A \/ (In x L /\ exists y, In y A /\ x <= y)).
Proof.
  intros hf hc. destruct (merge_ok fuel [] A [] L [] cache) as (A1 & A2 & L1 & L2 & c & r & E & hm & hor & hr & hz); auto.
  { repeat split; auto; cbn; try tauto. constructor. }
  change (zlen (@nil Z)) with 0 in E. cbn [app] in E. rewrite E. cbn [rbind fst snd]. pose proof hm as (eA & _).
  assert (lA : zlen A = zlen A1 + zlen A2) by (rewrite eA, zlen_app; lia).
  destruct (rest_ok (length A2) A1 A2 L1 L2 c r hm hor eq_refl hr) as (c' & r' & E' & (_ & eL & hs & hle & hin & hex) & hz').
  unfold rfor_to. replace (Z.to_nat (zlen A - zlen A1)) with (length A2) by (unfold zlen in *; lia). rewrite E'. exists c', r'. split; [reflexivity|].
  split; [change (zlen (@nil Z)) with 0 in hz; lia|]. split; [exact hs|].
  intros x. rewrite hin. split; [intros [?|h]; [auto|right; split; [rewrite eL; apply in_app_iff; auto|apply hex; exact h]]|].
  intros [?|(h & y & hy & hxy)]; [auto|]. rewrite eL in h. apply in_app_iff in h. destruct h as [h|h]; [auto|].
  left. replace x with y; [exact hy|]. assert (y <= x) by (apply hle; [apply hin; auto|exact h]). lia.
Qed.
End Merge.

(** The palette of [plane] at row r and column c is l: its size is stored in PaletteSizes, its colors in PaletteColors. *)
Definition palette_at (sizes : list (list (list Z))) (colors : list (list (list (list Z)))) (plane r c : Z) (l : list Z) : Prop :=
  idx3 sizes plane r c = Ok (zlen l) /\ exists more, idx3 colors plane r c = Ok (l ++ more).
(** The palettes A above and L to the left of the block at (MiRow, MiCol): none above the first row of a 64x64 superblock, none left of a tile. *)
Definition neighbours sizes colors plane MiRow MiCol (availL : bool) (A L : list Z) : Prop :=
  (if MiRow mod 16 =? 0 then A = [] else palette_at sizes colors plane (MiRow - 1) MiCol A) /\
  (if availL then palette_at sizes colors plane MiRow (MiCol - 1) L else L = []).

Lemma superblock_row MiRow : 0 <= MiRow -> bool_of (Z.rem (MiRow * 4) 64) = negb (MiRow mod 16 =? 0).
Proof.
  intros h. unfold bool_of. rewrite Z.rem_mod_nonneg by lia. replace 64 with (16 * 4) by reflexivity. rewrite Z.mul_mod_distr_r by lia.
  destruct (MiRow mod 16 =? 0) eqn:e; [apply Z.eqb_eq in e; rewrite e; reflexivity|]. apply Z.eqb_neq in e. destruct (MiRow mod 16 * 4 =? 0) eqn:f; [apply Z.eqb_eq in f; lia|reflexivity].
Qed.
Lemma at_color colors plane r c (l more : list Z) i : idx3 colors plane r c = Ok (l ++ more) -> 0 <= i < zlen l -> (let! x := idx3 colors plane r c in idx x i) = idx l i.
Proof.
  intros -> hi. cbn [rbind]. rewrite !(idx_ok _ _ 0) by (rewrite ?zlen_app; pose proof (zlen_nonneg more); lia). f_equal. apply app_nth1. unfold zlen in hi. lia.
Qed.

(** The cache is in order, without duplicates; it has every color above, and those on the left that are not larger than all colors above. *)
Theorem C162_cache_partial : forall plane MiRow MiCol availL sizes colors cache A L, 0 <= MiRow ->
  neighbours sizes colors plane MiRow MiCol availL A L -> StronglySorted Z.le A -> StronglySorted Z.le L -> zlen A + zlen L <= zlen cache ->
  exists c rest, getPaletteCache plane MiRow MiCol availL sizes colors cache = Ok (zlen c, c ++ rest) /\ zlen (c ++ rest) = zlen cache /\
    StronglySorted Z.lt c /\ (forall x, In x c <-> In x A \/ (In x L /\ exists y, In y A /\ x <= y)).
Proof.
  intros plane MiRow MiCol availL sizes colors cache A L hr (hA & hL) sA sL hc. unfold getPaletteCache. rewrite superblock_row by exact hr.
  set (above := fun i => let! l := idx3 colors plane (MiRow - 1) MiCol in idx l i). set (left := fun i => let! l := idx3 colors plane MiRow (MiCol - 1) in idx l i).
  assert (EA : (if negb (MiRow mod 16 =? 0) then idx3 sizes plane (MiRow - 1) MiCol else Ok 0) = Ok (zlen A) /\ forall i, 0 <= i < zlen A -> above i = idx A i).
  { destruct (MiRow mod 16 =? 0); cbn [negb].
    - subst A. split; [reflexivity|]. intros i hi. change (zlen (@nil Z)) with 0 in hi. lia.
    - destruct hA as (h1 & more & h2). split; [exact h1|]. intros i hi. apply (at_color _ _ _ _ _ _ _ h2 hi). }
  assert (EL : (if availL then idx3 sizes plane MiRow (MiCol - 1) else Ok 0) = Ok (zlen L) /\ forall i, 0 <= i < zlen L -> left i = idx L i).
  { destruct availL.
    - destruct hL as (h1 & more & h2). split; [exact h1|]. intros i hi. apply (at_color _ _ _ _ _ _ _ h2 hi).
    - subst L. split; [reflexivity|]. intros i hi. change (zlen (@nil Z)) with 0 in hi. lia. }
  destruct EA as (-> & fA). destruct EL as (-> & fL). cbn [rbind].
  destruct (cache_ok A L above left fA fL sA sL (Z.to_nat (zlen A) + Z.to_nat (zlen L)) cache) as (c & rest & E & h1 & h2 & h3);
    [pose proof (zlen_nonneg A); pose proof (zlen_nonneg L); lia|exact hc|].
  exists c, rest. split; [exact E|]. rewrite zlen_app. auto.
Qed.

(** The specification takes every color of both palettes; a color on the left that is larger than all colors above is left out. *)
Theorem C162_left_refuted : forall plane MiRow MiCol availL sizes colors cache L, 0 <= MiRow -> MiRow mod 16 = 0 ->
  neighbours sizes colors plane MiRow MiCol availL [] L -> getPaletteCache plane MiRow MiCol availL sizes colors cache = Ok (0, cache).
Proof.
  intros plane MiRow MiCol availL sizes colors cache L hr hm (_ & hL). unfold getPaletteCache. rewrite superblock_row, hm by exact hr. cbn [Z.eqb negb rbind].
  replace (if availL then idx3 sizes plane MiRow (MiCol - 1) else Ok 0) with (Ok (zlen L)) by (destruct availL; [symmetry; apply hL|subst L; reflexivity]). cbn [rbind].
  destruct (Z.to_nat 0 + Z.to_nat (zlen L))%nat; reflexivity.
Qed.

(** No statement of the code gives t.PaletteCache a length: it is nil, and the first color from above does not fit in. *)
Theorem C162_nil_refuted : forall plane MiRow MiCol availL sizes colors A L, 0 <= MiRow ->
  neighbours sizes colors plane MiRow MiCol availL A L -> A <> [] -> getPaletteCache plane MiRow MiCol availL sizes colors [] = Panic.
Proof.
  intros plane MiRow MiCol availL sizes colors A L hr (hA & hL) ne. unfold getPaletteCache. rewrite superblock_row by exact hr.
  destruct (MiRow mod 16 =? 0); [contradiction|]. destruct hA as (h1 & more & h2). cbn [negb]. rewrite h1. cbn [rbind].
  destruct A as [|a A]; [contradiction|]. pose proof (zlen_nonneg A). rewrite zlen_cons.
  replace (if availL then idx3 sizes plane MiRow (MiCol - 1) else Ok 0) with (Ok (zlen L)) by (destruct availL; [symmetry; apply hL|subst L; reflexivity]). cbn [rbind].
  assert (ab : (let! x := idx3 colors plane (MiRow - 1) MiCol in idx x 0) = Ok a) by (rewrite h2; reflexivity).
  assert (add : forall v, addColor v (0, []) = Panic) by reflexivity.
  replace (Z.to_nat (zlen A + 1) + Z.to_nat (zlen L))%nat with (S (Z.to_nat (zlen A) + Z.to_nat (zlen L)))%nat by lia. cbn [mergeColors].
  replace (0 <? zlen A + 1) with true by (symmetry; apply Z.ltb_lt; lia). destruct (0 <? zlen L) eqn:e; cbn [andb].
  - rewrite ab. cbn [rbind]. destruct L as [|l L]; [discriminate|]. destruct availL; [|discriminate hL]. destruct hL as (_ & more' & hL). assert (lf : (let! x := idx3 colors plane MiRow (MiCol - 1) in idx x 0) = Ok l) by (rewrite hL; reflexivity). rewrite lf. cbn [rbind].
    destruct (l <? a); rewrite add; reflexivity.
  - cbn [rbind fst snd]. unfold rfor_to. replace (Z.to_nat (zlen A + 1 - 0)) with (S (Z.to_nat (zlen A))) by lia. cbn [rfor_from]. rewrite ab. cbn [rbind]. rewrite add. reflexivity.
Qed.

(** Palettes 3 5 9 above and 1 5 12 to the left: 12 is missing. *)
Example C162_case :
  let sizes := [[[0; 3]; [3; 0]]] in let colors := [[[[]; [3; 5; 9; 0; 0]]; [[1; 5; 12; 0; 0]; []]]] in
  neighbours sizes colors 0 1 1 true [3; 5; 9] [1; 5; 12] /\
  getPaletteCache 0 1 1 true sizes colors (repeat 0 16) = Ok (4, [1; 3; 5; 9; 0; 0; 0; 0; 0; 0; 0; 0; 0; 0; 0; 0]) /\
  getPaletteCache 0 1 1 true sizes colors [] = Panic.
Proof. split; [|split; reflexivity]. split; cbn; (split; [reflexivity|]); exists [0; 0]; reflexivity. Qed.

(** ** The color indices *)
(** The score table is a nil slice: the context of a sample is never computed. *)
Theorem C163_context_refuted : forall colorMap r c n order, getPaletteColorContext colorMap r c n order = Panic.
Proof. reflexivity. Qed.

Lemma tokens_never S_ n bw bh ow oh m order hash b r b' : 1 <= ow -> 2 <= oh -> mapTokens S_ n bw bh ow oh m order hash b <> Ok (r, b').
Proof.
  intros h1 h2 E. unfold mapTokens in E. apply bind_inv in E. destruct E as (v & b1 & _ & E). apply bind_inv in E. destruct E as (m1 & b2 & _ & E).
  apply bind_inv in E. destruct E as (r1 & b3 & E & _). unfold for_to in E. replace (Z.to_nat (oh + ow - 1 - 1)) with (S (Z.to_nat (oh + ow - 3))) in E by lia.
  cbn [for_from] in E. apply bind_inv in E. destruct E as (r2 & b4 & E & _). unfold Min, Max in E.
  match type of E with for_from ?k _ _ _ _ = _ => replace k with (S (pred k)) in E end.
  - cbn [for_from] in E. apply bind_inv in E. destruct E as (r3 & b5 & E & _). apply bind_inv in E. destruct E as (r4 & b6 & E & _). discriminate E.
  - destruct (1 <=? ow - 1) eqn:a; destruct (1 - oh + 1 <=? 0) eqn:c; lia.
Qed.

(** A block with a palette in luma or in chroma is never decoded. *)
Theorem C163_tokens_refuted : forall MiRows MiCols MiRow MiCol MiSize subX subY sizeY sizeUV t b t' b',
  0 <= MiSize < 22 -> MiRow < MiRows -> MiCol < MiCols -> sizeY <> 0 \/ sizeUV <> 0 ->
  paletteTokens MiRows MiCols MiRow MiCol MiSize subX subY sizeY sizeUV t b <> Ok (t', b').
Proof.
  intros MiRows MiCols MiRow MiCol MiSize subX subY sizeY sizeUV t b t' b' hs hr hc hp E. unfold paletteTokens in E.
  apply bind_inv in E. destruct E as (bh & b1 & E1 & E). apply bind_inv in E. destruct E as (bw & b2 & E2 & E).
  assert (big : forall l v, l = BLOCK_HEIGHT \/ l = BLOCK_WIDTH -> idx l MiSize = Ok v -> 4 <= v).
  { intros l v hl hv. apply (idx_Forall (fun v => 4 <= v) l MiSize); [|exact hv]. apply Forall_forall. intros x hx.
    assert (F : forallb (fun x => 4 <=? x) l = true) by (destruct hl; subst l; reflexivity). rewrite forallb_forall in F. apply Z.leb_le, F, hx. }
  assert (hbh : 4 <= bh) by (unfold lift in E1; destruct (idx BLOCK_HEIGHT MiSize) eqn:e; try discriminate; injection E1 as -> ->; apply (big _ _ (or_introl eq_refl) e)).
  assert (hbw : 4 <= bw) by (unfold lift in E2; destruct (idx BLOCK_WIDTH MiSize) eqn:e; try discriminate; injection E2 as -> ->; apply (big _ _ (or_intror eq_refl) e)).
  clear E1 E2 big. assert (hoh : 4 <= Min bh ((MiRows - MiRow) * 4)) by (unfold Min; destruct (_ <=? _); lia). assert (how : 4 <= Min bw ((MiCols - MiCol) * 4)) by (unfold Min; destruct (_ <=? _); lia).
  revert E hoh how. generalize (Min bh ((MiRows - MiRow) * 4)) (Min bw ((MiCols - MiCol) * 4)). intros oh ow E hoh how.
  apply bind_inv in E. destruct E as (t1 & b3 & E1 & E).
  destruct (bool_of sizeY) eqn:ey.
  { apply bind_inv in E1. destruct E1 as (r & b4 & E1 & _). revert E1. apply tokens_never; lia. }
  destruct (bool_of sizeUV) eqn:eu; [|unfold bool_of in ey, eu; apply negb_false_iff, Z.eqb_eq in ey, eu; lia].
  assert (half : forall x s, 4 <= x -> 2 <= shr x (int_of s)).
  { intros x [|] hx; unfold shr, int_of; [|rewrite Z.shiftr_0_r; lia]. rewrite Z.shiftr_div_pow2 by lia. change (2 ^ 1) with 2. apply Z.div_le_lower_bound; lia. }
  pose proof (half oh subX hoh). pose proof (half ow subX how). destruct (shr bw (int_of subX) <? 4); destruct (shr bh (int_of subY) <? 4);
    (apply bind_inv in E; destruct E as (r & b4 & E & _); revert E; apply tokens_never; lia).
Qed.

(** A block without a palette reads no color index and leaves the maps as they are. *)
Theorem C163_none_partial : forall MiRows MiCols MiRow MiCol MiSize subX subY t b, 0 <= MiSize < 22 ->
  paletteTokens MiRows MiCols MiRow MiCol MiSize subX subY 0 0 t b = Ok (t, b).
Proof.
  intros MiRows MiCols MiRow MiCol MiSize subX subY t b h. unfold paletteTokens, bind, lift.
  rewrite (idx_ok BLOCK_HEIGHT MiSize 0), (idx_ok BLOCK_WIDTH MiSize 0) by (vm_compute (zlen _); lia). reflexivity.
Qed.

(** An 8x8 block with a luma palette of two colors *)
Example C163_case : let b := mkBS [255; 255; 255; 255] 0 0 in let t := mkMaps (repeat (repeat 0 64) 64) (repeat (repeat 0 64) 64) (repeat 0 8) 0 in
  paletteTokens 16 16 0 0 3 true true 2 0 t b = Panic /\ paletteTokens 16 16 0 0 3 true true 0 0 t b = Ok (t, b).
Proof. vm_compute. split; reflexivity. Qed.

Print Assumptions C162_cache_partial.
Print Assumptions C162_left_refuted.
Print Assumptions C162_nil_refuted.
Print Assumptions C163_context_refuted.
Print Assumptions C163_tokens_refuted.
Print Assumptions C163_none_partial.
