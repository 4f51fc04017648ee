(** Model of the masks and weights of compound prediction: internal/tilegroup/predict_inter.go:629-729.
    In the code t.Mask and dist are nil slices (PredictInter.v: maskWrites, distanceWeights), so that these functions panic at their first
    assignment.  Here the slices are parameters, so that the rest of the functions can be checked too. *)
From Verif Require Import GoBase Constants Tables Util Frame UncompressedHeader.

(** predict_inter.go:630-643 differenceWeightMaskProcess: preds0 and preds1 are preds[0] and preds[1], post is t.InterPostRound *)
Definition differenceMask (preds0 preds1 : list (list Z)) (w h BitDepth post MaskType : Z) (mask : list (list Z)) : res (list (list Z)) :=
  rfor_to 0 h (fun i m => rfor_to 0 w (fun j m =>
    let! p0 := idx2 preds0 i j in
    let! p1 := idx2 preds1 i j in
    let! diff := Round2 (Abs (i64 (p0 - p1))) (BitDepth - 8 + post) in
    let c := Clip3 0 64 (38 + Z.quot diff 16) in
    if bool_of MaskType then upd2 m i j (64 - c) else upd2 m i j c) m) mask.
(** predict_inter.go:646-661 intraModeVariantMaskProcess; the division panics when w = h = 0 *)
Definition intraMask (w h InterIntraMode : Z) (mask : list (list Z)) : res (list (list Z)) :=
  if Max h w =? 0 then Panic else
  let sizeScale := Z.quot MAX_SB_SIZE (Max h w) in
  rfor_to 0 h (fun i m => rfor_to 0 w (fun j m =>
    let! v := if InterIntraMode =? II_V_PRED then idx Ii_Weights_1d (i * sizeScale)
              else if InterIntraMode =? II_H_PRED then idx Ii_Weights_1d (j * sizeScale)
              else if InterIntraMode =? II_SMOOTH_PRED then idx Ii_Weights_1d (Min i j * sizeScale)
              else Ok 32 in
    upd2 m i j v) m) mask.
(** predict_inter.go:672-683: the weight of the sample in column x and row y of the plane *)
Definition maskAt (subX subY : Z) (InterIntra WedgeInterIntra : Z) (mask : list (list Z)) (y x : Z) : res Z :=
  if (negb (bool_of subX) && negb (bool_of subY)) || (bool_of InterIntra && negb (bool_of WedgeInterIntra)) then idx2 mask y x
  else if bool_of subX && negb (bool_of subY) then let! a := idx2 mask y (2 * x) in let! b := idx2 mask y (2 * x + 1) in Round2 (a + b) 1
  else if negb (bool_of subX) && bool_of subY then let! a := idx2 mask (2 * y) x in let! b := idx2 mask (2 * y + 1) x in Round2 (a + b) 1
  else let! a := idx2 mask (2 * y) (2 * x) in let! b := idx2 mask (2 * y) (2 * x + 1) in let! c := idx2 mask (2 * y + 1) (2 * x) in let! d := idx2 mask (2 * y + 1) (2 * x + 1) in Round2 (a + b + c + d) 2.
(** predict_inter.go:664-695 maskBlendProcess; the result is state.CurrFrame *)
Definition maskBlend (preds0 preds1 : list (list Z)) (plane dstX dstY w h : Z) (subX subY : bool) (InterIntra WedgeInterIntra : Z) (mask : list (list Z)) (post BitDepth : Z) (f : list (list (list Z))) : res (list (list (list Z))) :=
  let sx := if plane =? 0 then 0 else int_of subX in
  let sy := if plane =? 0 then 0 else int_of subY in
  rfor_to 0 h (fun y f => rfor_to 0 w (fun x f =>
    let! m := maskAt sx sy InterIntra WedgeInterIntra mask y x in
    let! p := idx2 preds0 y x in
    if bool_of InterIntra then
      let! r := Round2 p post in
      let pred0 := Clip1 r BitDepth in
      let! pred1 := idx3 f plane (y + dstY) (x + dstX) in
      let! v := Round2 (m * pred1 + (64 - m) * pred0) 6 in
      upd3 f plane (y + dstY) (x + dstX) v
    else
      let! pred1 := idx2 preds1 y x in
      let! v := Round2 (m * p + (64 - m) * pred1) (6 + post) in
      upd3 f plane (y + dstY) (x + dstX) v) f) f.

(** predict_inter.go:713-726: the entry of the tables, from entry i on *)
Fixpoint quantEntry (n : nat) (d0 d1 order i : Z) : res Z :=
  match n with
  | O => Ok i
  | S n =>
      let! c0 := idx2 Quant_Dist_Weight i order in
      let! c1 := idx2 Quant_Dist_Weight i (1 - order) in
      if (if bool_of order then d1 * c1 <? d0 * c0 else d0 * c0 <? d1 * c1) then Ok i else quantEntry n d0 d1 order (i + 1)
  end.
(** predict_inter.go:704-729: t.FwdWeight and t.BckWeight from the two distances *)
Definition quantWeights (dist : list Z) : res (Z * Z) :=
  let! d0 := idx dist 1 in
  let! d1 := idx dist 0 in
  let order := int_of (d0 <=? d1) in
  let! i := if (d0 =? 0) || (d1 =? 0) then Ok 3 else quantEntry 3 d0 d1 order 0 in
  let! f := idx2 Quant_Dist_Lookup i order in
  let! b := idx2 Quant_Dist_Lookup i (1 - order) in
  Ok (f, b).
(** predict_inter.go:698-730 distanceWeightsProcess: hints is uh.OrderHints, refs is state.RefFrames; dist is nil in the code (line 699) *)
Definition distanceWeightsOf (hints : list Z) (refs : list (list (list Z))) (enable : bool) (bits OrderHint candRow candCol : Z) (dist : list Z) : res (Z * Z) :=
  let! dist := rfor_to 0 2 (fun refList d =>
    let! r := idx3 refs candRow candCol refList in
    let! h := idx hints r in
    let! v := GetRelativeDist enable bits h OrderHint in
    upd d refList (Clip3 0 MAX_FRAME_DISTANCE (Abs v))) dist in
  quantWeights dist.
