(** What it means that a reference slot holds a frame (AV1 specification 7.20), independent of the loops of the code. *)
From Verif Require Import GoBase Frame Wrapup.

(** the same readable value in both tables *)
Definition copied {A} (a b : res A) : Prop := exists v, a = Ok v /\ b = Ok v.
(** the header values *)
Definition holds_header (e : FrameInfo) (s : slot) : Prop :=
  sValid s = 1 /\ sUpscaledWidth s = iUpscaledWidth e /\ sFrameWidth s = iFrameWidth e /\ sFrameHeight s = iFrameHeight e /\
  sRenderWidth s = iRenderWidth e /\ sRenderHeight s = iRenderHeight e /\ sMiCols s = iMiCols e /\ sMiRows s = iMiRows e /\ sFrameType s = iFrameType e /\
  sSubX s = (if iSubX e then 1 else 0) /\ sSubY s = (if iSubY e then 1 else 0) /\ sBitDepth s = iBitDepth e /\ sOrderHint s = iOrderHint e /\
  (forall r, 1 <= r <= 7 -> copied (idx (iOrderHints e) r) (idx (sOrderHints s) r)).
(** the samples: all three planes in full luma size *)
Definition holds_samples (e : FrameInfo) (s : slot) : Prop :=
  forall plane y x, 0 <= plane < 3 -> 0 <= y < iFrameHeight e -> 0 <= x < iUpscaledWidth e -> copied (idx3 (iLr e) plane y x) (idx3 (sStore s) plane y x).
(** the block information: reference frames, motion vectors, segment ids of every 4x4 unit; global motion parameters *)
Definition holds_blocks (e : FrameInfo) (s : slot) : Prop :=
  (forall r c, 0 <= r < iMiRows e -> 0 <= c < iMiCols e ->
     copied (idx2 (iMfRefFrames e) r c) (idx2 (sRefFrames s) r c) /\ copied (idx2 (iSegIds e) r c) (idx2 (sSegIds s) r c) /\
     forall comp, 0 <= comp < 2 -> copied (idx3 (iMfMvs e) r c comp) (idx3 (sMvs s) r c comp)) /\
  (forall ref j, 1 <= ref <= 7 -> 0 <= j < 6 -> copied (idx2 (iGm e) ref j) (idx2 (sGm s) ref j)).
(** nothing else of the slot changes *)
Definition keeps_rest (e : FrameInfo) (old s : slot) : Prop :=
  (forall plane y x, ~ (0 <= plane < 3 /\ 0 <= y < iFrameHeight e /\ 0 <= x < iUpscaledWidth e) -> idx3 (sStore s) plane y x = idx3 (sStore old) plane y x) /\
  (forall r c, ~ (0 <= r < iMiRows e /\ 0 <= c < iMiCols e) -> idx2 (sRefFrames s) r c = idx2 (sRefFrames old) r c /\ idx2 (sSegIds s) r c = idx2 (sSegIds old) r c) /\
  (forall r c comp, ~ (0 <= r < iMiRows e /\ 0 <= c < iMiCols e /\ 0 <= comp < 2) -> idx3 (sMvs s) r c comp = idx3 (sMvs old) r c comp) /\
  (forall ref j, ~ (1 <= ref <= 7 /\ 0 <= j < 6) -> idx2 (sGm s) ref j = idx2 (sGm old) ref j) /\
  (forall r, ~ (1 <= r <= 7) -> idx (sOrderHints s) r = idx (sOrderHints old) r).
(** The frame [e] was saved in a slot that held [old]. *)
Definition saved (e : FrameInfo) (old s : slot) : Prop := holds_header e s /\ holds_samples e s /\ holds_blocks e s /\ keeps_rest e old s.
