(** AV1 spec section 5.9.2: uncompressed_header( ) of a key frame or intra-only frame as an encoder, independent of the model.
    [sharp] is the number of bits of loop_filter_sharpness (3 in AV1), [tiles] the bits of tile_info( ). *)
From Coq Require Import ZArith List Bool.
From Verif Require Import SpecBits SpecHeader.
Import ListNotations.
Open Scope Z_scope.

(** what the frame header needs from the sequence header *)
Record seq_info := mkSeqInfo {
  i_reduced : bool;                       (* reduced_still_picture_header *)
  i_time_bits : option nat;               (* length of frame_presentation_time when a temporal point is coded for shown frames *)
  i_decoder_model : bool;                 (* decoder_model_info_present_flag *)
  i_sct : option bool;                    (* seq_force_screen_content_tools; None: chosen per frame *)
  i_imv : option bool;                    (* seq_force_integer_mv; None: chosen per frame *)
  i_width_bits : nat; i_height_bits : nat; i_max_width : Z; i_max_height : Z;
  i_hint_bits : nat; i_superres : bool; i_cdef : bool; i_lr : bool; i_use128 : bool;
  i_mono : bool; i_subx : bool; i_suby : bool; i_separate : bool; i_grain : bool }.
Definition planes (i : seq_info) : Z := if i_mono i then 1 else 3.

Record intra_frame := mkIntraFrame {
  f_key : bool; f_show : bool; f_showable : bool; f_resilient : bool; f_time : Z;
  f_disable_cdf : bool; f_sct : bool; f_imv : bool; f_size : option (Z * Z); f_hint : Z; f_refresh : Z;
  f_superres : option Z; f_render : option (Z * Z); f_intrabc : bool; f_no_end_update : bool;
  f_quant : spec_quant; f_seg : option (list (list (option Z))); f_dq : option Z; f_dlf : option (Z * bool);
  f_lf : spec_lf; f_cdef : Z * Z * list (Z * Z * (Z * Z)); f_lr : list Z * Z * bool;
  f_tx_select : bool; f_reduced_tx : bool; f_grain : option spec_grain }.

(** screen content tools in force *)
Definition sct (i : seq_info) (f : intra_frame) : bool := match i_sct i with Some b => b | None => f_sct f end.
(** the upscaled size, and the coded width after super-resolution (5.9.8: rounded division by denom / 8) *)
Definition up_width (i : seq_info) (f : intra_frame) : Z := match f_size f with Some (w, _) => w | None => i_max_width i end.
Definition height (i : seq_info) (f : intra_frame) : Z := match f_size f with Some (_, h) => h | None => i_max_height i end.
Definition width (i : seq_info) (f : intra_frame) : Z :=
  match f_superres f with Some d => (up_width i f * 8 + d / 2) / d | None => up_width i f end.
(** allow_intrabc is coded *)
Definition intrabc_coded (i : seq_info) (f : intra_frame) : bool := sct i f && (up_width i f =? width i f).
(** 7.12.2: quantizer index of segment k; a frame is coded lossless when all are 0 and there are no quantizer deltas *)
Definition seg_qindex (f : intra_frame) (k : nat) : Z :=
  match f_seg f with
  | Some s => match nth 0 (nth k s []) None with Some v => Z.max 0 (Z.min 255 (sq_base (f_quant f) + v)) | None => sq_base (f_quant f) end
  | None => sq_base (f_quant f) end.
Definition chroma_deltas (i : seq_info) (q : spec_quant) : list Z :=
  if i_mono i then [] else [dq (sq_udc q); dq (sq_uac q)] ++ (if sq_diff q then [dq (sq_vdc q); dq (sq_vac q)] else []).
Definition coded_lossless (i : seq_info) (f : intra_frame) : bool :=
  forallb (fun k => seg_qindex f k =? 0) (seq 0 8) && forallb (Z.eqb 0) (dq (sq_ydc (f_quant f)) :: chroma_deltas i (f_quant f)).
(** whether loop filter, cdef and loop restoration parameters are coded *)
Definition lf_coded (i : seq_info) (f : intra_frame) : bool := negb (coded_lossless i f) && negb (f_intrabc f).
Definition cdef_coded (i : seq_info) (f : intra_frame) : bool := lf_coded i f && i_cdef i.
Definition lr_coded (i : seq_info) (f : intra_frame) : bool :=
  negb (coded_lossless i f && (width i f =? up_width i f)) && negb (f_intrabc f) && i_lr i.
Definition grain_coded (i : seq_info) (f : intra_frame) : bool := i_grain i && (f_show f || f_showable f).

Definition enc_lf_bits (sharp : nat) (numPlanes : Z) (f : spec_lf) : list bool :=
  enc_lf_levels numPlanes f ++ enc_f sharp (lf_sharp f) ++ enc_lf_deltas f.
Definition when (b : bool) (l : list bool) : list bool := if b then l else [].

Definition enc_intra (sharp : nat) (i : seq_info) (f : intra_frame) (tiles : list bool) : list bool :=
  when (negb (i_reduced i))
    ([false] ++ enc_f 2 (if f_key f then 0 else 2) ++ [f_show f] ++
     (match i_time_bits i with Some n => when (f_show f) (enc_f n (f_time f)) | None => [] end) ++
     when (negb (f_show f)) [f_showable f] ++
     when (negb (f_key f && f_show f)) [f_resilient f]) ++
  [f_disable_cdf f] ++
  (match i_sct i with None => [f_sct f] | Some _ => [] end) ++
  when (sct i f) (match i_imv i with None => [f_imv f] | Some _ => [] end) ++
  when (negb (i_reduced i)) [match f_size f with Some _ => true | None => false end] ++
  enc_f (i_hint_bits i) (f_hint f) ++
  when (i_decoder_model i) [false] ++                    (* buffer_removal_time_present_flag = 0 *)
  when (negb (f_key f && f_show f)) (enc_f 8 (f_refresh f)) ++
  (match f_size f with Some (w, h) => enc_f (i_width_bits i) (w - 1) ++ enc_f (i_height_bits i) (h - 1) | None => [] end) ++
  enc_superres (i_superres i) (f_superres f) ++
  (match f_render f with Some (w, h) => [true] ++ enc_f 16 (w - 1) ++ enc_f 16 (h - 1) | None => [false] end) ++
  when (intrabc_coded i f) [f_intrabc f] ++
  when (negb (i_reduced i || f_disable_cdf f)) [f_no_end_update f] ++
  tiles ++
  enc_quant (planes i) (i_separate i) (f_quant f) ++
  enc_segmentation (f_seg f) ++
  enc_delta_q_params (sq_base (f_quant f)) (f_dq f) ++
  enc_delta_lf_params (match f_dq f with Some _ => true | None => false end) (f_intrabc f) (f_dlf f) ++
  when (lf_coded i f) (enc_lf_bits sharp (planes i) (f_lf f)) ++
  when (cdef_coded i f) (let '(damping, bits, l) := f_cdef f in enc_cdef (planes i) damping bits l) ++
  when (lr_coded i f) (let '(types, size, half) := f_lr f in enc_lr (i_use128 i) (i_subx i && i_suby i) types size half) ++
  when (negb (coded_lossless i f)) [f_tx_select f] ++
  [f_reduced_tx f] ++
  when (grain_coded i f) (match f_grain f with Some g => enc_grain false (i_mono i) (i_subx i) (i_suby i) g | None => [false] end).

(** Field ranges, and: values that are not coded have their inferred value. *)
Definition fits (n : nat) (v : Z) : Prop := 0 <= v < 2 ^ Z.of_nat n.
Definition valid_intra (i : seq_info) (f : intra_frame) : Prop :=
  (i_reduced i = true -> f_key f = true /\ f_show f = true /\ f_size f = None) /\
  (f_show f = true -> f_showable f = negb (f_key f)) /\
  (f_key f && f_show f = true -> f_refresh f = 255) /\ fits 8 (f_refresh f) /\
  (match i_time_bits i with Some n => (n <= 63)%nat /\ (i_reduced i = false -> f_show f = true -> fits n (f_time f)) | None => True end) /\
  (i_hint_bits i <= 63)%nat /\ fits (i_hint_bits i) (f_hint f) /\
  (match f_size f with Some (w, h) => (i_width_bits i <= 63)%nat /\ (i_height_bits i <= 63)%nat /\ fits (i_width_bits i) (w - 1) /\ fits (i_height_bits i) (h - 1)
   | None => 1 <= i_max_width i /\ 1 <= i_max_height i end) /\
  (match f_superres f with Some d => 9 <= d <= 16 /\ i_superres i = true | None => True end) /\
  (match f_render f with Some (w, h) => fits 16 (w - 1) /\ fits 16 (h - 1) | None => True end) /\
  (intrabc_coded i f = false -> f_intrabc f = false) /\
  (i_reduced i || f_disable_cdf f = true -> f_no_end_update f = true) /\
  valid_quant (i_separate i) (f_quant f) /\
  (match f_seg f with Some s => valid_segmentation s | None => True end) /\
  (match f_dq f with Some v => 0 <= v < 4 /\ 0 < sq_base (f_quant f) | None => True end) /\
  (match f_dlf f with Some (v, _) => 0 <= v < 4 /\ f_dq f <> None /\ f_intrabc f = false | None => True end) /\
  valid_lf (f_lf f) /\
  (let '(damping, bits, l) := f_cdef f in 3 <= damping <= 6 /\ 0 <= bits <= 3 /\ Z.of_nat (length l) = 2 ^ bits /\ Forall (valid_cdef_strength (planes i)) l) /\
  (let '(types, size, half) := f_lr f in Z.of_nat (length types) = planes i /\ valid_lr (i_use128 i) types size) /\
  (match f_grain f with Some g => grain_coded i f = true /\ valid_grain (i_mono i) (i_subx i) (i_suby i) g | None => True end).

(** 5.9.15 tile_info( ) of a frame of one superblock row and at most 64 superblock columns with uniform spacing: 2^k columns
    at most, coded in unary up to the least k that gives every superblock its own column; with more than one column the tile
    used for the CDF update and the number of bytes of tile sizes. *)
Definition enc_tiles_one_row (sbCols : Z) (k : nat) (ctx bytes : Z) : list bool :=
  [true] ++ repeat true k ++ when (Z.of_nat k <? Z.log2_up sbCols) [false] ++
  when (0 <? Z.of_nat k) (enc_f k ctx ++ enc_f 2 (bytes - 1)).
