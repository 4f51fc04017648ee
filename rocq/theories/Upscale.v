(** Model of the upscaling process, internal/tilegroup/decode_frame_wrapup.go:12-98.
    Simplification: sums and products are exact integers (frame widths and samples are below 2^32, so the code's 64-bit arithmetic does not wrap). *)
From Verif Require Import GoBase Util Constants Frame.

(** What upscaling reads besides the frame: sequence header, frame header and state.MiCols *)
Record UEnv := mkUEnv { uNumPlanes : Z; uSubX : bool; uSubY : bool; uBitDepth : Z; uFrameWidth : Z; uUpscaledWidth : Z; uFrameHeight : Z; uMiCols : Z }.

(** decode_frame_wrapup.go:65-98 UPSCALE_FILTER *)
Definition UPSCALE_FILTER : list (list Z) := [
  [0; 0; 0; 128; 0; 0; 0; 0]; [0; 0; -1; 128; 2; -1; 0; 0];
  [0; 1; -3; 127; 4; -2; 1; 0]; [0; 1; -4; 127; 6; -3; 1; 0];
  [0; 2; -6; 126; 8; -3; 1; 0]; [0; 2; -7; 125; 11; -4; 1; 0];
  [-1; 2; -8; 125; 13; -5; 2; 0]; [-1; 3; -9; 124; 15; -6; 2; 0];
  [-1; 3; -10; 123; 18; -6; 2; -1]; [-1; 3; -11; 122; 20; -7; 3; -1];
  [-1; 4; -12; 121; 22; -8; 3; -1]; [-1; 4; -13; 120; 25; -9; 3; -1];
  [-1; 4; -14; 118; 28; -9; 3; -1]; [-1; 4; -15; 117; 30; -10; 4; -1];
  [-1; 5; -16; 116; 32; -11; 4; -1]; [-1; 5; -16; 114; 35; -12; 4; -1];
  [-1; 5; -17; 112; 38; -12; 4; -1]; [-1; 5; -18; 111; 40; -13; 5; -1];
  [-1; 5; -18; 109; 43; -14; 5; -1]; [-1; 6; -19; 107; 45; -14; 5; -1];
  [-1; 6; -19; 105; 48; -15; 5; -1]; [-1; 6; -19; 103; 51; -16; 5; -1];
  [-1; 6; -20; 101; 53; -16; 6; -1]; [-1; 6; -20; 99; 56; -17; 6; -1];
  [-1; 6; -20; 97; 58; -17; 6; -1]; [-1; 6; -20; 95; 61; -18; 6; -1];
  [-2; 7; -20; 93; 64; -18; 6; -2]; [-2; 7; -20; 91; 66; -19; 6; -1];
  [-2; 7; -20; 88; 69; -19; 6; -1]; [-2; 7; -20; 86; 71; -19; 6; -1];
  [-2; 7; -20; 84; 74; -20; 7; -2]; [-2; 7; -20; 81; 76; -20; 7; -1];
  [-2; 7; -20; 79; 79; -20; 7; -2]; [-1; 7; -20; 76; 81; -20; 7; -2];
  [-2; 7; -20; 74; 84; -20; 7; -2]; [-1; 6; -19; 71; 86; -20; 7; -2];
  [-1; 6; -19; 69; 88; -20; 7; -2]; [-1; 6; -19; 66; 91; -20; 7; -2];
  [-2; 6; -18; 64; 93; -20; 7; -2]; [-1; 6; -18; 61; 95; -20; 6; -1];
  [-1; 6; -17; 58; 97; -20; 6; -1]; [-1; 6; -17; 56; 99; -20; 6; -1];
  [-1; 6; -16; 53; 101; -20; 6; -1]; [-1; 5; -16; 51; 103; -19; 6; -1];
  [-1; 5; -15; 48; 105; -19; 6; -1]; [-1; 5; -14; 45; 107; -19; 6; -1];
  [-1; 5; -14; 43; 109; -18; 5; -1]; [-1; 5; -13; 40; 111; -18; 5; -1];
  [-1; 4; -12; 38; 112; -17; 5; -1]; [-1; 4; -12; 35; 114; -16; 5; -1];
  [-1; 4; -11; 32; 116; -16; 5; -1]; [-1; 4; -10; 30; 117; -15; 4; -1];
  [-1; 3; -9; 28; 118; -14; 4; -1]; [-1; 3; -9; 25; 120; -13; 4; -1];
  [-1; 3; -8; 22; 121; -12; 4; -1]; [-1; 3; -7; 20; 122; -11; 3; -1];
  [-1; 2; -6; 18; 123; -10; 3; -1]; [0; 2; -6; 15; 124; -9; 3; -1];
  [0; 2; -5; 13; 125; -8; 2; -1]; [0; 1; -4; 11; 125; -7; 2; 0];
  [0; 1; -3; 8; 126; -6; 2; 0]; [0; 1; -3; 6; 127; -4; 1; 0];
  [0; 1; -2; 4; 127; -3; 1; 0]; [0; 0; -1; 2; 128; -1; 0; 0]].

(** state.go: UpscaledCurrFrame, UpscaledCdefFrame and LrFrame are [3][9][9]int; a new local one (decode_frame_wrapup.go:13) is zero *)
Definition zero9 : frame := repeat (repeat (repeat 0 9) 9) 3.

(** decode_frame_wrapup.go:27 stepX; integer division by 0 panics *)
Definition upStep (dw uw : Z) : res Z :=
  if uw =? 0 then Panic else Ok (Z.quot (shl dw SUPERRES_SCALE_BITS + Z.quot uw 2) uw).
(** decode_frame_wrapup.go:28-33 err and initialSubpelX *)
Definition upInitial (dw uw stepX : Z) : res Z :=
  if uw =? 0 then Panic else
  let err := uw * stepX - shl dw SUPERRES_SCALE_BITS in
  Ok (Z.land (Z.quot (- shl (uw - dw) (SUPERRES_SCALE_BITS - 1) + Z.quot uw 2) uw + shl 1 (SUPERRES_EXTRA_BITS - 1) - Z.quot err 2) SUPERRES_SCALE_MASK).
(** decode_frame_wrapup.go:39 srcX *)
Definition upSrcX (initialSubpelX stepX x : Z) : Z := - shl 1 SUPERRES_SCALE_BITS + initialSubpelX + x * stepX.
(** decode_frame_wrapup.go:40-47: the filter sum of one sample of a row *)
Definition upSum (f : frame) (plane y minX maxX srcX : Z) : res Z :=
  let srcXPx := shr srcX SUPERRES_SCALE_BITS in
  let srcXSubpel := shr (Z.land srcX SUPERRES_SCALE_MASK) SUPERRES_EXTRA_BITS in
  rfor_to 0 SUPERRES_FILTER_TAPS (fun k sum =>
    let sampleX := Clip3 minX maxX (srcXPx + (k - SUPERRES_FILTER_OFFSET)) in
    let! px := idx3 f plane y sampleX in
    let! c := idx2 UPSCALE_FILTER srcXSubpel k in
    Ok (sum + px * c)) 0.
(** decode_frame_wrapup.go:39-48: the value of one sample *)
Definition upSample (e : UEnv) (f : frame) (plane maxX initialSubpelX stepX y x : Z) : res Z :=
  let! sum := upSum f plane y 0 maxX (upSrcX initialSubpelX stepX x) in
  let! v := Round2 sum FILTER_BITS in
  Ok (Clip1 v (uBitDepth e)).
(** decode_frame_wrapup.go:15-50: one plane *)
Definition upPlane (e : UEnv) (f : frame) (plane : Z) (g : frame) : res frame :=
  let subX := if 0 <? plane then int_of (uSubX e) else 0 in
  let subY := if 0 <? plane then int_of (uSubY e) else 0 in
  let! dw := Round2 (uFrameWidth e) subX in
  let! uw := Round2 (uUpscaledWidth e) subX in
  let! planeH := Round2 (uFrameHeight e) subY in
  let! stepX := upStep dw uw in
  let! initialSubpelX := upInitial dw uw stepX in
  let miW := shr (uMiCols e) subX in
  let maxX := miW * MI_SIZE - 1 in
  rfor_to 0 planeH (fun y g => rfor_to 0 uw (fun x g =>
    let! v := upSample e f plane maxX initialSubpelX stepX y x in
    upd3 g plane y x v) g) g.
(** decode_frame_wrapup.go:12-54 upscalingProcess *)
Definition upscalingProcess (e : UEnv) (f : frame) : res frame :=
  rfor_to 0 (uNumPlanes e) (fun plane g => upPlane e f plane g) zero9.
