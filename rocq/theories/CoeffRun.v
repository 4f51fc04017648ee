(** Running a program of SpecCoeffs.v against the arithmetic decoder (Symbol.v, C27-C31) and a set of CDF tables. *)
From Coq Require Import String.
From Verif Require Import GoBase Bitstream Symbol CdfMoves CdfMemory SpecCoeffs SpecPartition Coeffs Frame Writes.
Local Open Scope Z_scope.
(** Sym: decode with the CDF of that table at that place, which adapts in place unless [dis]; Bit: one equiprobable bit; Fail gives Hang. *)
Fixpoint run {A} (dis : bool) (p : prog A) (d : dec) (h : string -> tree) : res (A * dec * (string -> tree)) :=
  match p with
  | Done a => Ok (a, d, h)
  | Sym t path k => let! c := tget (h t) path in let! r := ReadSymbol dis c d in let! t' := tput (h t) path (snd (fst r)) in run dis (k (fst (fst r))) (snd r) (hset h t t')
  | Bit k => let! r := readBool dis d in run dis (k (fst r)) (snd r) h
  | Fail => Hang
  end.
Lemma run_andthen {A B} dis (p : prog A) (f : A -> prog B) : forall d h, run dis (andthen p f) d h = let! r := run dis p d h in run dis (f (fst (fst r))) (snd (fst r)) (snd r).
Proof.
  induction p as [a|t path k IH|k IH|]; intros d h; cbn [andthen run rbind fst snd]; try reflexivity.
  - destruct (tget (h t) path); cbn [rbind]; try reflexivity. destruct (ReadSymbol dis a d) as [[[v c'] d']| |]; cbn [rbind fst snd]; try reflexivity. destruct (tput (h t) path c'); cbn [rbind]; try reflexivity. apply IH.
  - destruct (readBool dis d) as [[v d']| |]; cbn [rbind fst snd]; try reflexivity. apply IH.
Qed.

(** ** The block the standard sees, in terms of the decoder's state *)
Definition cell (g : list (list Z)) (i j : Z) : Z := match idx2 g i j with Ok v => v | _ => 0 end.
(** positions x .. x+n-1 below lim *)
Definition inside (x n lim : Z) : list Z := filter (fun i => i <? lim) (map (fun k => x + Z.of_nat k) (seq 0 (Z.to_nat n))).
Definition neighbours (levels dcs : list (list Z)) (plane x n lim : Z) : list (Z * Z) := map (fun i => (cell levels plane i, cell dcs plane i)) (inside x n lim).
(** size of the plane in units of 4 samples *)
Definition plane_limit (mi plane : Z) (sub : bool) : Z := if (0 <? plane) && sub then mi / 2 else mi.
(** size of the block in the plane *)
Definition plane_size (w plane : Z) (sub : bool) : Z := if (0 <? plane) && sub then Z.max 4 (w / 2) else w.
(** transform type of chroma: of the luma block at the same place, or by intra mode *)
Definition mode_types : list Z := [0; 1; 2; 0; 3; 1; 2; 2; 1; 3; 1; 2; 3; 0].
Definition scaled (v : Z) (sub : bool) : Z := if sub then 2 * v else v.
Definition block_of (e : CEnv) (plane t x4 y4 : Z) (s : CS) : block :=
  let wh := nth (Z.to_nat (cMiSize e)) block_dims (0, 0) in
  mkBlock plane t (plane_size (fst wh) plane (cSubX e)) (plane_size (snd wh) plane (cSubY e))
    (neighbours (cAboveL s) (cAboveD s) plane x4 (tx_w t / 4) (plane_limit (cMiCols e) plane (cSubX e)))
    (neighbours (cLeftL s) (cLeftD s) plane y4 (tx_h t / 4) (plane_limit (cMiRows e) plane (cSubY e)))
    (negb (cIsInter e =? 0)) (cReduced e) (cLossless e) (if cSegEnabled e then cSegQ e else cBaseQIdx e)
    (if cUseFilterIntra e then nth (Z.to_nat (cFilterIntraMode e)) [0; 1; 2; 6; 0] 0 else cYMode e)
    (if cIsInter e =? 0 then nth (Z.to_nat (cUVMode e)) mode_types 0 else cell (cTxTypes s) (Z.max (cMiRow e) (scaled y4 (cSubY e))) (Z.max (cMiCol e) (scaled x4 (cSubX e)))).
(** The block lies in the tables of the decoder, and the modes are those of the standard.  Tables: TxTypes has TH rows of TW. *)
Definition block_in (TH TW : Z) (e : CEnv) (plane t x4 y4 : Z) (s : CS) : Prop :=
  0 <= plane <= 2 /\ 0 <= t < 19 /\ 0 <= x4 /\ 0 <= y4 /\ 0 <= cMiSize e < 22 /\ 0 <= cMiRows e < 2 ^ 20 /\ 0 <= cMiCols e < 2 ^ 20 /\
  x4 + tx_w t / 4 <= cMiCols e /\ y4 + tx_h t / 4 <= cMiRows e /\
  array2 3 (cMiCols e) (cAboveL s) /\ array2 3 (cMiCols e) (cAboveD s) /\ array2 3 (cMiRows e) (cLeftL s) /\ array2 3 (cMiRows e) (cLeftD s) /\
  array1 4096 (cQuant s) /\ array2 64 64 (cDequant s) /\ array2 TH TW (cTxTypes s) /\
  (plane = 0 -> x4 + tx_w t / 4 <= TW /\ y4 + tx_h t / 4 <= TH /\ (cIsInter e = 0 -> if cUseFilterIntra e then 0 <= cFilterIntraMode e < 5 else 0 <= cYMode e < 13)) /\
  (0 < plane -> cSubX e = cSubY e /\
     if cIsInter e =? 0 then 0 <= cUVMode e < 14
     else exists v, idx2 (cTxTypes s) (Z.max (cMiRow e) (scaled y4 (cSubY e))) (Z.max (cMiCol e) (scaled x4 (cSubX e))) = Ok v /\ 0 <= v < 16).
