(** AV1 syntax structures as encoders (AV1 spec section 5), independent of the model. *)
From Coq Require Import ZArith List Bool.
From Verif Require Import SpecBits.
Import ListNotations.
Open Scope Z_scope.

(** 5.3.2 obu_header, 5.3.3 obu_extension_header *)
Definition enc_obu_header (forbidden : bool) (ty : Z) (ext : option (Z * Z * Z)) (has_size reserved : bool) : list bool :=
  forbidden :: enc_f 4 ty ++ (match ext with Some _ => true | None => false end) :: has_size :: reserved ::
  match ext with
  | Some (tid, sid, r3) => enc_f 3 tid ++ enc_f 2 sid ++ enc_f 3 r3
  | None => []
  end.

(** 5.5.2 color_config( ): the values a configuration can take, and its bits. *)
Record spec_color := mkSpecColor {
  sc_bit_depth : Z;                  (* 8, 10 or 12 *)
  sc_mono : bool;
  sc_desc : option (Z * Z * Z);      (* color primaries, transfer characteristics, matrix coefficients *)
  sc_range : bool; sc_sub_x : bool; sc_sub_y : bool;
  sc_chroma_pos : Z; sc_separate_uv : bool }.
Definition sc_cp (c : spec_color) : Z := match sc_desc c with Some (a, _, _) => a | None => 2 end.
Definition sc_tc (c : spec_color) : Z := match sc_desc c with Some (_, a, _) => a | None => 2 end.
Definition sc_mc (c : spec_color) : Z := match sc_desc c with Some (_, _, a) => a | None => 2 end.
(** CP_BT_709 = 1, TC_SRGB = 13, MC_IDENTITY = 0 *)
Definition sc_srgb (c : spec_color) : bool := (sc_cp c =? 1) && (sc_tc c =? 13) && (sc_mc c =? 0).

Definition valid_color (profile : Z) (c : spec_color) : Prop :=
  0 <= profile <= 2 /\
  (sc_bit_depth c = 8 \/ sc_bit_depth c = 10 \/ (sc_bit_depth c = 12 /\ profile = 2)) /\
  (match sc_desc c with Some (a, b, d) => 0 <= a < 256 /\ 0 <= b < 256 /\ 0 <= d < 256 | None => True end) /\
  (sc_mono c = true -> profile <> 1 /\ sc_sub_x c = true /\ sc_sub_y c = true /\
                       sc_chroma_pos c = 0 /\ sc_separate_uv c = false) /\
  (sc_mono c = false -> sc_srgb c = true -> sc_range c = true /\ sc_sub_x c = false /\ sc_sub_y c = false) /\
  (sc_mono c = false -> sc_srgb c = false ->
     (profile = 0 -> sc_sub_x c = true /\ sc_sub_y c = true) /\
     (profile = 1 -> sc_sub_x c = false /\ sc_sub_y c = false) /\
     (profile = 2 -> sc_bit_depth c <> 12 -> sc_sub_x c = true /\ sc_sub_y c = false) /\
     (sc_sub_y c = true -> sc_sub_x c = true)) /\
  0 <= sc_chroma_pos c < 4 /\
  (sc_sub_x c && sc_sub_y c = false -> sc_chroma_pos c = 0).

Definition enc_color (profile : Z) (c : spec_color) : list bool :=
  let high := negb (sc_bit_depth c =? 8) in
  [high] ++
  (if (profile =? 2) && high then [sc_bit_depth c =? 12] else []) ++
  (if profile =? 1 then [] else [sc_mono c]) ++
  (match sc_desc c with
   | Some (a, b, d) => [true] ++ enc_f 8 a ++ enc_f 8 b ++ enc_f 8 d
   | None => [false] end) ++
  (if sc_mono c then [sc_range c]
   else if sc_srgb c then [sc_separate_uv c]
   else [sc_range c] ++
        (if (profile =? 2) && (sc_bit_depth c =? 12)
         then [sc_sub_x c] ++ (if sc_sub_x c then [sc_sub_y c] else []) else []) ++
        (if sc_sub_x c && sc_sub_y c then enc_f 2 (sc_chroma_pos c) else []) ++
        [sc_separate_uv c]).

(** 5.5.1 sequence_header_obu( ) from frame_width_bits_minus_1 up to order_hint_bits_minus_1
    (reduced_still_picture_header = 0). *)
Record spec_tools := mkSpecTools {
  t_width_bits : nat; t_height_bits : nat;      (* frame_width_bits_minus_1 and height *)
  t_width : Z; t_height : Z;                    (* max_frame_width_minus_1 and height *)
  t_frame_ids : option (Z * Z);                 (* delta_frame_id_length_minus_2, additional_frame_id_length_minus_1 *)
  t_128 : bool; t_filter_intra : bool; t_intra_edge : bool;
  t_interintra : bool; t_masked : bool; t_warped : bool; t_dual : bool;
  t_order_hint : option (bool * bool * Z);      (* jnt_comp, ref_frame_mvs, order_hint_bits (1..8) *)
  t_screen_content : option bool;               (* None: chosen per frame, Some b: forced to b *)
  t_integer_mv : option bool }.
Definition valid_tools (t : spec_tools) : Prop :=
  (t_width_bits t < 16)%nat /\ (t_height_bits t < 16)%nat /\
  0 <= t_width t < 2 ^ (Z.of_nat (t_width_bits t) + 1) /\
  0 <= t_height t < 2 ^ (Z.of_nat (t_height_bits t) + 1) /\
  match t_frame_ids t with Some (d, a) => 0 <= d < 16 /\ 0 <= a < 8 | None => True end /\
  match t_order_hint t with Some (_, _, n) => 1 <= n <= 8 | None => True end /\
  (t_screen_content t = Some false -> t_integer_mv t = None).
Definition enc_size (t : spec_tools) : list bool :=
  enc_f 4 (Z.of_nat (t_width_bits t)) ++ enc_f 4 (Z.of_nat (t_height_bits t)) ++
  enc_f (S (t_width_bits t)) (t_width t) ++ enc_f (S (t_height_bits t)) (t_height t).
Definition enc_choice (o : option bool) : list bool :=
  match o with None => [true] | Some b => [false; b] end.
Definition enc_tools (t : spec_tools) : list bool :=
  enc_size t ++
  match t_frame_ids t with Some (d, a) => [true] ++ enc_f 4 d ++ enc_f 3 a | None => [false] end ++
  [t_128 t; t_filter_intra t; t_intra_edge t; t_interintra t; t_masked t; t_warped t; t_dual t] ++
  match t_order_hint t with Some (j, r, _) => [true; j; r] | None => [false] end ++
  enc_choice (t_screen_content t) ++
  match t_screen_content t with Some false => [] | _ => enc_choice (t_integer_mv t) end ++
  match t_order_hint t with Some (_, _, n) => enc_f 3 (n - 1) | None => [] end.

(** One operating point. *)
Record spec_op := mkSpecOp {
  o_idc : Z; o_level : Z; o_tier : bool;
  o_model : option (Z * Z * bool);              (* decoder/encoder buffer delay, low delay mode *)
  o_delay : option Z }.                         (* initial_display_delay_minus_1 *)
Definition enc_op (dm : option (nat * Z * Z * Z)) (idd : bool) (o : spec_op) : list bool :=
  enc_f 12 (o_idc o) ++ enc_f 5 (o_level o) ++ (if 7 <? o_level o then [o_tier o] else []) ++
  match dm with
  | Some (n, _, _, _) => match o_model o with
                         | Some (a, b, l) => [true] ++ enc_f (S n) a ++ enc_f (S n) b ++ [l]
                         | None => [false] end
  | None => [] end ++
  (if idd then match o_delay o with Some d => [true] ++ enc_f 4 d | None => [false] end else []).

(** 5.5.1 sequence_header_obu( ) in full. *)
Record spec_seq := mkSpecSeq {
  q_profile : Z; q_still : bool; q_reduced : bool;
  q_timing : option (Z * Z * option Z);         (* units, time scale, ticks per picture *)
  q_model : option (nat * Z * Z * Z);           (* buffer_delay_length_minus_1, ... (needs timing) *)
  q_idd : bool; q_ops : list spec_op;
  q_tools : spec_tools;
  q_superres : bool; q_cdef : bool; q_restoration : bool; q_color : spec_color; q_grain : bool }.
Definition enc_seq (q : spec_seq) : list bool :=
  enc_f 3 (q_profile q) ++ [q_still q; q_reduced q] ++
  (if q_reduced q then enc_f 5 (match q_ops q with o :: _ => o_level o | [] => 0 end)
   else
     match q_timing q with
     | Some (u, ts, ticks) =>
         [true] ++ enc_f 32 u ++ enc_f 32 ts ++
         match ticks with Some k => [true] ++ enc_uvlc k | None => [false] end ++
         match q_model q with
         | Some (n, a, b, c) => [true] ++ enc_f 5 (Z.of_nat n) ++ enc_f 32 a ++ enc_f 5 b ++ enc_f 5 c
         | None => [false] end
     | None => [false] end ++
     [q_idd q] ++ enc_f 5 (Z.of_nat (length (q_ops q)) - 1) ++
     flat_map (enc_op (match q_timing q with Some _ => q_model q | None => None end) (q_idd q)) (q_ops q)) ++
  (if q_reduced q
   then enc_size (q_tools q) ++ [t_128 (q_tools q); t_filter_intra (q_tools q); t_intra_edge (q_tools q)]
   else enc_tools (q_tools q)) ++
  [q_superres q; q_cdef q; q_restoration q] ++ enc_color (q_profile q) (q_color q) ++ [q_grain q].
