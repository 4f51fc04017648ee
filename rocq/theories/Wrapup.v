(** Model of the end of a frame: referenceFrameUpdate, referenceFrameLoadingProcess (decode_frame_wrapup.go:107-294), the output process (output.go) and
    decodeFrameWrapup (tile_group.go:339-367).
    Simplifications: the arrays indexed by the reference slot (state.Ref..., state.Saved..., t.FrameStore) are kept as one list of eight slot records; the CDFs of the
    slots are modelled in CdfMemory.v; integers are exact. *)
From Verif Require Import GoBase Util Constants Frame LoopFilter Cdef Upscale Restoration.

(** One reference slot: RefValid, RefUpscaledWidth, ..., SavedSegmentIds (state.go) and FrameStore (tile_group.go:236) *)
Record slot := mkSlot {
  sValid : Z; sUpscaledWidth : Z; sFrameWidth : Z; sFrameHeight : Z; sRenderWidth : Z; sRenderHeight : Z; sMiCols : Z; sMiRows : Z;
  sFrameType : Z; sSubX : Z; sSubY : Z; sBitDepth : Z; sOrderHint : Z; sOrderHints : list Z;
  sStore : frame;                                                              (* [3][16][16]int *)
  sRefFrames : list (list Z); sMvs : frame; sGm : list (list Z); sSegIds : list (list Z) }.

(** What the update reads: frame header, sequence header, state, and the tile group's segment ids *)
Record FrameInfo := mkFrameInfo {
  iUpscaledWidth : Z; iFrameWidth : Z; iFrameHeight : Z; iRenderWidth : Z; iRenderHeight : Z; iMiCols : Z; iMiRows : Z; iFrameType : Z;
  iSubX : bool; iSubY : bool; iBitDepth : Z; iOrderHint : Z; iOrderHints : list Z; iRefresh : Z;
  iLr : frame;                                                                 (* state.LrFrame: [3][9][9]int *)
  iMfRefFrames : list (list Z); iMfMvs : frame; iGm : list (list Z); iSegIds : list (list Z) }.

(** (RefreshFrameFlags >> i) & 1 == 1 *)
Definition refreshed (flags i : Z) : bool := Z.land (shr flags i) 1 =? 1.

(** decode_frame_wrapup.go:126-130, 133-137: one plane of FrameStore[i]; columns are the outer loop *)
Definition storePlane (lr : frame) (plane w h : Z) (g : frame) : res frame :=
  rfor_to 0 w (fun x g => rfor_to 0 h (fun y g => let! v := idx3 lr plane y x in upd3 g plane y x v) g) g.
(** decode_frame_wrapup.go:140-144, 158-162: a table of MiRows x MiCols entries *)
Definition storeGrid (rows cols : Z) (src dst : list (list Z)) : res (list (list Z)) :=
  rfor_to 0 rows (fun row dst => rfor_to 0 cols (fun col dst => let! v := idx2 src row col in upd2 dst row col v) dst) dst.
(** decode_frame_wrapup.go:146-152: both components of the motion vectors *)
Definition storeMvs (rows cols : Z) (src dst : frame) : res frame :=
  rfor_to 0 2 (fun comp dst => rfor_to 0 rows (fun row dst => rfor_to 0 cols (fun col dst => let! v := idx3 src row col comp in upd3 dst row col comp v) dst) dst) dst.
(** decode_frame_wrapup.go:154-158 *)
Definition storeGm (src dst : list (list Z)) : res (list (list Z)) :=
  rfor_to LAST_FRAME (ALTREF_FRAME + 1) (fun ref dst => rfor_to 0 6 (fun j dst => let! v := idx2 src ref j in upd2 dst ref j v) dst) dst.
(** decode_frame_wrapup.go:122-124 *)
Definition storeHints (src dst : list Z) : res (list Z) :=
  rfor_to 0 REFS_PER_FRAME (fun j dst => let! v := idx src (j + LAST_FRAME) in upd dst (j + LAST_FRAME) v) dst.
(** decode_frame_wrapup.go:110-164: the update of one slot.  The chroma bound [UpscaledWidth + subX>>subX] is UpscaledWidth + (subX >> subX) in Go. *)
Definition refUpdateSlot (e : FrameInfo) (s : slot) : res slot :=
  let subX := int_of (iSubX e) in
  let subY := int_of (iSubY e) in
  let! hints := storeHints (iOrderHints e) (sOrderHints s) in
  let! store := storePlane (iLr e) 0 (iUpscaledWidth e) (iFrameHeight e) (sStore s) in
  let! store := rfor_to 1 3 (fun plane store => storePlane (iLr e) plane (iUpscaledWidth e + shr subX subX) (iFrameHeight e + shr subY subY) store) store in
  let! refs := storeGrid (iMiRows e) (iMiCols e) (iMfRefFrames e) (sRefFrames s) in
  let! mvs := storeMvs (iMiRows e) (iMiCols e) (iMfMvs e) (sMvs s) in
  let! gm := storeGm (iGm e) (sGm s) in
  let! segs := storeGrid (iMiRows e) (iMiCols e) (iSegIds e) (sSegIds s) in
  Ok (mkSlot 1 (iUpscaledWidth e) (iFrameWidth e) (iFrameHeight e) (iRenderWidth e) (iRenderHeight e) (iMiCols e) (iMiRows e)
        (iFrameType e) subX subY (iBitDepth e) (sOrderHint s) hints store refs mvs gm segs).
(** slot with another order hint *)
Definition setHint (s : slot) (h : Z) : slot :=
  mkSlot (sValid s) (sUpscaledWidth s) (sFrameWidth s) (sFrameHeight s) (sRenderWidth s) (sRenderHeight s) (sMiCols s) (sMiRows s)
    (sFrameType s) (sSubX s) (sSubY s) (sBitDepth s) h (sOrderHints s) (sStore s) (sRefFrames s) (sMvs s) (sGm s) (sSegIds s).
(** decode_frame_wrapup.go:173-177: the order hint of every refreshed slot (the inner loop reuses the name i) *)
Definition refHints (flags hint : Z) (l : list slot) : res (list slot) :=
  rfor_to 0 NUM_REF_FRAMES (fun i l => if refreshed flags i then let! s := idx l i in upd l i (setHint s hint) else Ok l) l.
(** decode_frame_wrapup.go:107-181 referenceFrameUpdate; saveGrainParams, saveLoopFilterParams and saveSegmentationParams (184-199) do nothing *)
Definition refUpdate (e : FrameInfo) (l : list slot) : res (list slot) :=
  rfor_to 0 NUM_REF_FRAMES (fun i l =>
    if refreshed (iRefresh e) i then
      let! s := idx l i in
      let! s' := refUpdateSlot e s in
      let! l := upd l i s' in
      refHints (iRefresh e) (iOrderHint e) l
    else Ok l) l.

(** ** Output (output.go) *)
(** t.OutY, t.OutU, t.OutV: [1][1]int each *)
Record outp := mkOutp { oY : list (list Z); oU : list (list Z); oV : list (list Z) }.
(** output.go:36-40 and 66-70: columns are the outer loop *)
Definition outPlane (V : Z -> Z -> res Z) (w h : Z) (g : list (list Z)) : res (list (list Z)) :=
  rfor_to 0 w (fun x g => rfor_to 0 h (fun y g => let! v := V y x in upd2 g y x v) g) g.
(** output.go:26-80 intermediateOutputPreparation for a new frame *)
Definition outNew (lr : frame) (w h : Z) (ssx ssy : bool) (o : outp) : res outp :=
  let subX := int_of ssx in let subY := int_of ssy in
  let! yy := outPlane (fun y x => idx3 lr 0 y x) w h (oY o) in
  let! uu := outPlane (fun y x => idx3 lr 1 y x) (shr (w + subX) subX) (shr (h + subY) subY) (oU o) in
  let! vv := outPlane (fun y x => idx3 lr 2 y x) (shr (w + subX) subX) (shr (h + subY) subY) (oV o) in
  Ok (mkOutp yy uu vv).
(** output.go:28-56 for show_existing_frame (sic: chroma is read [x][y]) *)
Definition outExisting (s : slot) (o : outp) : res outp :=
  let w := sUpscaledWidth s in let h := sFrameHeight s in let subX := sSubX s in let subY := sSubY s in
  let! yy := outPlane (fun y x => idx3 (sStore s) 0 y x) w h (oY o) in
  let! uu := outPlane (fun y x => idx3 (sStore s) 1 x y) (shr (w + subX) subX) (shr (h + subY) subY) (oU o) in
  let! vv := outPlane (fun y x => idx3 (sStore s) 2 x y) (shr (w + subX) subX) (shr (h + subY) subY) (oV o) in
  Ok (mkOutp yy uu vv).
(** output.go:11-23 outputProcess: [prep] is the prepared output *)
Definition outputProcess (operatingPointIdc : Z) (filmGrainPresent applyGrain : bool) (prep : res outp) : res outp :=
  if negb (operatingPointIdc =? 0) then Panic else
  let! o := prep in
  if filmGrainPresent && applyGrain then Panic else Ok o.

(** ** The whole of decodeFrameWrapup *)
(** What it reads besides frames, slots and segment ids; the header and state fields the loop filter reads are in [wLf]. *)
Record WEnv := mkWEnv {
  wLf : LFEnv;
  wCdefIdx : list (list Z); wDamping : Z; wYPri : list Z; wYSec : list Z; wUVPri : list Z; wUVSec : list Z;
  wUpscaledWidth : Z; wRenderWidth : Z; wRenderHeight : Z; wFrameType : Z; wOrderHint : Z; wOrderHints : list Z; wRefresh : Z;
  wUsesLr : bool; wLrFrameType : list Z; wUnitSize : list Z; wLrType : list (list (list Z)); wSgrSet : list (list (list Z)); wSgrXqd : list (list (list (list Z)));
  wWiener : list (list (list (list (list Z))));
  wSegUpdateMap : Z; wPrevSegIds : list (list Z); wMfRefFrames : list (list Z); wMfMvs : frame; wGm : list (list Z);
  wShowExisting : bool; wShowFrame : bool; wToShow : Z; wOperatingPointIdc : Z; wFilmGrainPresent : bool; wApplyGrain : bool }.
(** What it changes: state.CurrFrame, state.CdefFrame, the reference slots and the output *)
Record WState := mkWState { xCurr : frame; xCdef : frame; xSlots : list slot; xSegIds : list (list Z); xOut : outp }.
(** the views of the single steps *)
Definition cenvOf (w : WEnv) : CEnv := let e := wLf w in
  mkCEnv (lfBitDepth e) (lfNumPlanes e) (lfSubX e) (lfSubY e) (lfMiRows e) (lfMiCols e) (wCdefIdx w) (lfSkips e) (wDamping w) (wYPri w) (wYSec w) (wUVPri w) (wUVSec w).
Definition uenvOf (w : WEnv) : UEnv := let e := wLf w in
  mkUEnv (lfNumPlanes e) (lfSubX e) (lfSubY e) (lfBitDepth e) (lfFrameWidth e) (wUpscaledWidth w) (lfFrameHeight e) (lfMiCols e).
Definition renvOf (w : WEnv) (cdef curr : frame) : REnv := let e := wLf w in
  mkREnv (lfNumPlanes e) (lfSubX e) (lfSubY e) (lfBitDepth e) (wUpscaledWidth w) (lfFrameHeight e) (wUsesLr w) (wLrFrameType w) (wUnitSize w) (wLrType w) (wSgrSet w) (wSgrXqd w) (wWiener w) cdef curr.
Definition infoOf (w : WEnv) (lr : frame) (segs : list (list Z)) : FrameInfo := let e := wLf w in
  mkFrameInfo (wUpscaledWidth w) (lfFrameWidth e) (lfFrameHeight e) (wRenderWidth w) (wRenderHeight w) (lfMiCols e) (lfMiRows e) (wFrameType w)
    (lfSubX e) (lfSubY e) (lfBitDepth e) (wOrderHint w) (wOrderHints w) (wRefresh w) lr (wMfRefFrames w) (wMfMvs w) (wGm w) segs.

(** decode_frame_wrapup.go:227-231, 233-239: the copies of referenceFrameLoadingProcess into LrFrame; in the chroma loop the inner loop increments x,
    so it only ends by an index out of range (or is not entered) *)
Definition loadPlane (src : frame) (plane w h : Z) (g : frame) : res frame :=
  rfor_to 0 w (fun x g => rfor_to 0 h (fun y g => let! v := idx3 src plane y x in upd3 g plane y x v) g) g.
Fixpoint runRight (fuel : nat) (src : frame) (plane x : Z) (g : frame) : res frame :=
  match fuel with O => Hang | S n => let! v := idx3 src plane 0 x in let! g := upd3 g plane 0 x v in runRight n src plane (x + 1) g end.
(** decode_frame_wrapup.go:233-239: for (w-1) columns and (h-1) rows; runRight has more fuel than a row has samples *)
Definition loadChroma (src : frame) (plane w h : Z) (g : frame) : res frame :=
  if (0 <? w - 1) && (0 <? h - 1) then runRight 20 src plane 0 g else Ok g.
(** decode_frame_wrapup.go:202-283 referenceFrameLoadingProcess: whatever the loads give, LoadLoopFilterParams panics at the end.  Only the loops that can fail to
    end or panic earlier are kept, up to the first chroma loops; everything after them is the final panic. *)
Definition refLoad (s : slot) (lr : frame) : res frame :=
  let! lr := loadPlane (sStore s) 0 (sUpscaledWidth s) (sFrameHeight s) lr in
  let! lr := rfor_to 1 3 (fun plane lr => loadChroma (sStore s) plane (shr (sUpscaledWidth s + sSubX s) (sSubX s)) (shr (sFrameHeight s + sSubY s) (sSubY s)) lr) lr in
  Panic.

(** tile_group.go:341-356: the filters of a frame that is not a repeat: CurrFrame, CdefFrame and LrFrame *)
Definition filterFrame (w : WEnv) (curr cdef : frame) : res (frame * frame * frame) :=
  let! l0 := idx (lfLevel (wLf w)) 0 in
  let! on := if bool_of l0 then Ok true else let! l1 := idx (lfLevel (wLf w)) 1 in Ok (bool_of l1) in
  let! curr := if on : bool then loopFilter (wLf w) curr else Ok curr in
  let! cdef := cdefProcess (cenvOf w) curr cdef in
  let! ucdef := upscalingProcess (uenvOf w) cdef in
  let! ucurr := upscalingProcess (uenvOf w) curr in
  let! lr := loopRestoration (renvOf w ucdef ucurr) in
  Ok (curr, cdef, lr).
(** tile_group.go:339-367 decodeFrameWrapup; [lr] is state.LrFrame before the call.  With show_existing_frame of a key frame refLoad always panics or hangs. *)
Definition decodeFrameWrapup (w : WEnv) (lr : frame) (x : WState) : res WState :=
  let! r :=
    if negb (wShowExisting w) then
      let! r := filterFrame w (xCurr x) (xCdef x) in
      let '(curr, cdef, lr) := r in
      let! segs := if lfSegEnabled (wLf w) && (wSegUpdateMap w =? 0) then storeGrid (lfMiRows (wLf w)) (lfMiCols (wLf w)) (wPrevSegIds w) (xSegIds x) else Ok (xSegIds x) in
      Ok (curr, cdef, lr, segs)
    else if wFrameType w =? KEY_FRAME then
      let! s := idx (xSlots x) (wToShow w) in let! lr := refLoad s lr in Ok (xCurr x, xCdef x, lr, xSegIds x)
    else Ok (xCurr x, xCdef x, lr, xSegIds x) in
  let '(curr, cdef, lr, segs) := r in
  let! slots := refUpdate (infoOf w lr segs) (xSlots x) in
  let! o :=
    if wShowFrame w || wShowExisting w then
      outputProcess (wOperatingPointIdc w) (wFilmGrainPresent w) (wApplyGrain w)
        (if wShowExisting w then let! s := idx slots (wToShow w) in outExisting s (xOut x)
         else outNew lr (wUpscaledWidth w) (lfFrameHeight (wLf w)) (lfSubX (wLf w)) (lfSubY (wLf w)) (xOut x))
    else Ok (xOut x) in
  Ok (mkWState curr cdef slots segs o).

(** ** The next tile group *)
(** A TileGroup{} literal (tile_group.go:272-276) has a zero FrameStore ([8][3][16][16]int, tile_group.go:236) *)
Definition zero16 : frame := repeat (repeat (repeat 0 16) 16) 3.
Definition setStore (s : slot) (f : frame) : slot :=
  mkSlot (sValid s) (sUpscaledWidth s) (sFrameWidth s) (sFrameHeight s) (sRenderWidth s) (sRenderHeight s) (sMiCols s) (sMiRows s)
    (sFrameType s) (sSubX s) (sSubY s) (sBitDepth s) (sOrderHint s) (sOrderHints s) f (sRefFrames s) (sMvs s) (sGm s) (sSegIds s).
(** obu.go:76 and 105: every tile group OBU and every frame OBU starts a new TileGroup; the state (and so the other arrays of the slots) goes on *)
Definition newTileGroup (l : list slot) : list slot := map (fun s => setStore s zero16) l.
