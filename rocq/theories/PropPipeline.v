(** C121: the stages at the end of a frame, in order. *)
From Verif Require Import GoBase Bitstream Util UtilProofs Constants Tables Frame Writes LoopFilter Cdef Upscale Restoration Wrapup WrapupProofs WrapupFrameProofs PropWrapup.
Require Import Lia.

(** A new frame: deblocked if one of the first two levels is not 0, then CDEF of the deblocked frame, then both superresolved, then restoration; the result is what the reference slots and the output get.
    The segment ids are those of the previous frame when the frame does not code a map, and stay otherwise. *)
Theorem C121_new_frame : forall w lr x x', wShowExisting w = false -> decodeFrameWrapup w lr x = Ok x' ->
  (exists l0, idx (lfLevel (wLf w)) 0 = Ok l0 /\ exists on, (l0 = 0 -> exists l1, idx (lfLevel (wLf w)) 1 = Ok l1 /\ (on = true <-> l1 <> 0)) /\ (l0 <> 0 -> on = true) /\
    if on : bool then loopFilter (wLf w) (xCurr x) = Ok (xCurr x') else xCurr x' = xCurr x) /\
  cdefProcess (cenvOf w) (xCurr x') (xCdef x) = Ok (xCdef x') /\
  (exists ucdef ucurr lr', upscalingProcess (uenvOf w) (xCdef x') = Ok ucdef /\ upscalingProcess (uenvOf w) (xCurr x') = Ok ucurr /\ loopRestoration (renvOf w ucdef ucurr) = Ok lr' /\
    refUpdate (infoOf w lr' (xSegIds x')) (xSlots x) = Ok (xSlots x') /\
    (wShowFrame w = true -> outNew lr' (wUpscaledWidth w) (lfFrameHeight (wLf w)) (lfSubX (wLf w)) (lfSubY (wLf w)) (xOut x) = Ok (xOut x')) /\ (wShowFrame w = false -> xOut x' = xOut x)) /\
  (forall row col, if lfSegEnabled (wLf w) && (wSegUpdateMap w =? 0) && ((0 <=? row) && (row <? lfMiRows (wLf w)) && (0 <=? col) && (col <? lfMiCols (wLf w)))
    then exists v, idx2 (wPrevSegIds w) row col = Ok v /\ idx2 (xSegIds x') row col = Ok v
    else idx2 (xSegIds x') row col = idx2 (xSegIds x) row col).
Proof.
  intros w lr x x' Hs E. unfold decodeFrameWrapup in E. rewrite Hs in E. cbn [negb] in E. apply rbind_inv in E as ([[[curr cdef] lr'] segs] & E1 & E). apply rbind_inv in E as (slots & E2 & E). apply rbind_inv in E as (o & E3 & E). injection E as <-.
  cbn [xCurr xCdef xSlots xSegIds xOut]. apply rbind_inv in E1 as ([[c1 d1] l1] & EF & E1). apply rbind_inv in E1 as (sg & ES & E1). injection E1 as -> -> -> ->.
  unfold filterFrame in EF. apply rbind_inv in EF as (l0 & El0 & EF). apply rbind_inv in EF as (on & Eon & EF). apply rbind_inv in EF as (c2 & Ec & EF). apply rbind_inv in EF as (d2 & Ed & EF).
  apply rbind_inv in EF as (ucdef & Eu1 & EF). apply rbind_inv in EF as (ucurr & Eu2 & EF). apply rbind_inv in EF as (l2 & El & EF). injection EF as -> -> ->.
  split; [|split; [|split]].
  - exists l0. split; [exact El0|]. exists on. split; [|split].
    + intros ->. change (bool_of 0) with false in Eon. cbv iota in Eon. apply rbind_inv in Eon as (l1 & El1 & Eon). injection Eon as <-. exists l1. split; [exact El1|]. unfold bool_of. destruct (Z.eqb_spec l1 0); cbn [negb]; split; congruence.
    + intros Hn. assert (bool_of l0 = true) as Hb by (unfold bool_of; destruct (Z.eqb_spec l0 0); [contradiction|reflexivity]). rewrite Hb in Eon. congruence.
    + destruct on; [exact Ec|congruence].
  - exact Ed.
  - exists ucdef, ucurr, lr'. split; [exact Eu1|]. split; [exact Eu2|]. split; [exact El|]. split; [exact E2|]. rewrite orb_false_r in E3. split; intros Hw; rewrite Hw in E3.
    + apply output_inv in E3. tauto.
    + congruence.
  - intros row col. destruct (lfSegEnabled (wLf w) && (wSegUpdateMap w =? 0)) eqn:EB; cbn [andb]; [|injection ES as <-; reflexivity].
    apply storeGrid_writes in ES.
    destruct ((0 <=? row) && (row <? lfMiRows (wLf w)) && (0 <=? col) && (col <? lfMiCols (wLf w))) eqn:ER.
    + rewrite !andb_true_iff, !Z.leb_le, !Z.ltb_lt in ER. exact (proj1 ES (row, col) ltac:(exists row; split; [lia|]; exists col; split; [lia|reflexivity])).
    + apply (proj2 ES (row, col)). intros (r & Hr & c & Hc & Q). injection Q as -> ->.
      assert (K : (0 <=? r) && (r <? lfMiRows (wLf w)) && (0 <=? c) && (c <? lfMiCols (wLf w)) = true) by (rewrite !andb_true_iff, !Z.leb_le, !Z.ltb_lt; lia). congruence.
Qed.
Print Assumptions C121_new_frame.
(** A repeated frame that is not a key frame: nothing is filtered, and the frame of the slot is output whether or not show_frame is set. *)
Theorem C121_repeated_frame : forall w lr x x', wShowExisting w = true -> wFrameType w <> KEY_FRAME -> decodeFrameWrapup w lr x = Ok x' ->
  xCurr x' = xCurr x /\ xCdef x' = xCdef x /\ xSegIds x' = xSegIds x /\ exists s, idx (xSlots x') (wToShow w) = Ok s /\ outExisting s (xOut x) = Ok (xOut x').
Proof.
  intros w lr x x' Hs Hk E. unfold decodeFrameWrapup in E. rewrite Hs in E. cbn [negb] in E. destruct (Z.eqb_spec (wFrameType w) KEY_FRAME); [contradiction|]. cbn [rbind] in E.
  apply rbind_inv in E as (slots & E2 & E). apply rbind_inv in E as (o & E3 & E). injection E as <-. cbn [xCurr xCdef xSlots xSegIds xOut]. rewrite orb_true_r in E3. apply output_inv in E3 as (_ & E3 & _). apply rbind_inv in E3 as (s & Es & E3). eauto 6.
Qed.
Print Assumptions C121_repeated_frame.
(** a 1x1 picture shown after all stages; one that is repeated while show_frame is 0; a 9x7 picture with segments but no map *)
Definition demo_wseg : WEnv :=
  mkWEnv (mkLFEnv 8 3 true true 9 7 2 2 [0; 0; 0; 0] 0 false [] [] 0 true [] [] (repeat (repeat 0 64) 64) [] [[0; 0]; [0; 0]] [] [] [] []) [[-1]] 3 [0] [0] [0] [0] 9 9 7 1 5 [0; 1; 2; 3; 4; 5; 6; 7] 3 false [0; 0; 0] [64; 64; 64] [] [] [] [] 0
    (repeat (repeat 6 64) 64) (repeat (repeat 1 64) 64) (repeat (repeat [3; 4] 64) 64) (repeat (repeat 9 6) 8) false false 0 0 false false.
Example C121_case : wShowExisting (demo_w 1 1 true false 0 false) = false /\
  match decodeFrameWrapup (demo_w 1 1 true false 0 false) zero9 demo_x with Ok x' => oY (xOut x') = [[2]] | _ => False end /\
  wFrameType (demo_w 1 1 false true 0 false) = 1 /\ match decodeFrameWrapup (demo_w 1 1 false true 0 false) zero9 demo_x with Ok x' => oY (xOut x') = [[0]] | _ => False end /\
  match decodeFrameWrapup demo_wseg zero9 demo_x with Ok x' => idx2 (xSegIds x') 1 1 = Ok 6 /\ idx2 (xSegIds x') 2 1 = Ok 2 | _ => False end.
Proof. split; [reflexivity|]. split; [vm_compute; reflexivity|]. split; [reflexivity|]. split; vm_compute; [reflexivity|split; reflexivity]. Qed.
