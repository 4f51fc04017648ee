(** All default CDF tables of the code, each flattened to its list of CDFs. *)
From Coq Require Import String.
From Verif Require Import GoBase CdfTables SpecSymbol.
Local Open Scope string_scope.
(** Names as in internal/shared and internal/uncompressedheader/default_cdfs.go; see CdfTables.v for the lines. *)
Definition default_tables : list (string * list (list Z)) := [
  ("DEFAULT_INTER_TX_TYPE_SET2_CDF", [DEFAULT_INTER_TX_TYPE_SET2_CDF]);
  ("DEFAULT_INTER_TX_TYPE_SET1_CDF", DEFAULT_INTER_TX_TYPE_SET1_CDF);
  ("DEFAULT_RESTORATION_TYPE_CDF", [DEFAULT_RESTORATION_TYPE_CDF]);
  ("DEFAULT_USE_SGRPROJ_CDF", [DEFAULT_USE_SGRPROJ_CDF]);
  ("DEFAULT_USE_WIENER_CDF", [DEFAULT_USE_WIENER_CDF]);
  ("DEFAULT_CFL_ALPHA_CDF", DEFAULT_CFL_ALPHA_CDF);
  ("DEFAULT_WEDGE_INDEX_CDF", DEFAULT_WEDGE_INDEX_CDF);
  ("DEFAULT_INTER_INTRA_MODE_CDF", DEFAULT_INTER_INTRA_MODE_CDF);
  ("DEFAULT_COMPOUND_TYPE_CDF", DEFAULT_COMPOUND_TYPE_CDF);
  ("DEFAULT_COMPOUND_IDX_CDF", DEFAULT_COMPOUND_IDX_CDF);
  ("DEFAULT_COMP_GROUP_IDX_CDF", DEFAULT_COMP_GROUP_IDX_CDF);
  ("DEFAULT_WEDGE_INTER_INTRA_CDF", DEFAULT_WEDGE_INTER_INTRA_CDF);
  ("DEFAULT_COMP_REF_TYPE_CDF", DEFAULT_COMP_REF_TYPE_CDF);
  ("DEFAULT_UNI_COMP_REF_CDF", concat (DEFAULT_UNI_COMP_REF_CDF));
  ("DEFAULT_CFL_SIGN_CDF", [DEFAULT_CFL_SIGN_CDF]);
  ("Default_Comp_Ref_Type_Cdf", Default_Comp_Ref_Type_Cdf);
  ("DEFAULT_INTER_INTRA_CDF", DEFAULT_INTER_INTRA_CDF);
  ("DEFAULT_USE_OBMC_CDF", DEFAULT_USE_OBMC_CDF);
  ("DEFAULT_INTER_TX_TYPE_SET3_CDF", DEFAULT_INTER_TX_TYPE_SET3_CDF);
  ("DEFAULT_INTRA_TX_TYPE_SET2_CDF", concat (DEFAULT_INTRA_TX_TYPE_SET2_CDF));
  ("DEFAULT_INTRA_TX_TYPE_SET1_CDF", concat (DEFAULT_INTRA_TX_TYPE_SET1_CDF));
  ("DEFAULT_DELTA_LF_CDF", [DEFAULT_DELTA_LF_CDF]);
  ("DEFAULT_DELTA_Q_CDF", [DEFAULT_DELTA_Q_CDF]);
  ("DEFAULT_PALETTE_SIZE_8_UV_COLOR_CDF", DEFAULT_PALETTE_SIZE_8_UV_COLOR_CDF);
  ("DEFAULT_PALETTE_SIZE_8_Y_COLOR_CDF", DEFAULT_PALETTE_SIZE_8_Y_COLOR_CDF);
  ("DEFAULT_PALETTE_SIZE_7_UV_COLOR_CDF", DEFAULT_PALETTE_SIZE_7_UV_COLOR_CDF);
  ("DEFAULT_PALETTE_SIZE_7_Y_COLOR_CDF", DEFAULT_PALETTE_SIZE_7_Y_COLOR_CDF);
  ("DEFAULT_PALETTE_SIZE_6_UV_COLOR_CDF", DEFAULT_PALETTE_SIZE_6_UV_COLOR_CDF);
  ("DEFAULT_PALETTE_SIZE_6_Y_COLOR_CDF", DEFAULT_PALETTE_SIZE_6_Y_COLOR_CDF);
  ("DEFAULT_PALETTE_SIZE_5_UV_COLOR_CDF", DEFAULT_PALETTE_SIZE_5_UV_COLOR_CDF);
  ("DEFAULT_PALETTE_SIZE_5_Y_COLOR_CDF", DEFAULT_PALETTE_SIZE_5_Y_COLOR_CDF);
  ("DEFAULT_PALETTE_SIZE_4_UV_COLOR_CDF", DEFAULT_PALETTE_SIZE_4_UV_COLOR_CDF);
  ("DEFAULT_PALETTE_SIZE_4_Y_COLOR_CDF", DEFAULT_PALETTE_SIZE_4_Y_COLOR_CDF);
  ("DEFAULT_PALETTE_SIZE_3_UV_COLOR_CDF", DEFAULT_PALETTE_SIZE_3_UV_COLOR_CDF);
  ("DEFAULT_PALETTE_SIZE_3_Y_COLOR_CDF", DEFAULT_PALETTE_SIZE_3_Y_COLOR_CDF);
  ("DEFAULT_PALETTE_SIZE_2_UV_COLOR_CDF", DEFAULT_PALETTE_SIZE_2_UV_COLOR_CDF);
  ("DEFAULT_PALETTE_SIZE_2_Y_COLOR_CDF", DEFAULT_PALETTE_SIZE_2_Y_COLOR_CDF);
  ("DEFAULT_PALETTE_UV_SIZE_CDF", DEFAULT_PALETTE_UV_SIZE_CDF);
  ("DEFAULT_PALETTE_Y_SIZE_CDF", DEFAULT_PALETTE_Y_SIZE_CDF);
  ("DEFAULT_PALETTE_UV_MODE_CDF", DEFAULT_PALETTE_UV_MODE_CDF);
  ("DEFAULT_PALETTE_Y_MODE_CDF", concat (DEFAULT_PALETTE_Y_MODE_CDF));
  ("DEFAULT_MV_HP_CDF", [DEFAULT_MV_HP_CDF]);
  ("DEFAULT_MV_BIT_CDF", DEFAULT_MV_BIT_CDF);
  ("DEFAULT_MV_SIGN_CDF", [DEFAULT_MV_SIGN_CDF]);
  ("DEFAULT_MV_CLASS0_HP_CDF", [DEFAULT_MV_CLASS0_HP_CDF]);
  ("DEFAULT_MV_CLASS0_FR_CDF", concat (DEFAULT_MV_CLASS0_FR_CDF));
  ("DEFAULT_MV_FR_CDF", DEFAULT_MV_FR_CDF);
  ("DEFAULT_MV_CLASS0_BIT_CDF", [DEFAULT_MV_CLASS0_BIT_CDF]);
  ("DEFAULT_MV_CLASS_CDF", DEFAULT_MV_CLASS_CDF);
  ("DEFAULT_MV_JOINT_CDF", [DEFAULT_MV_JOINT_CDF]);
  ("DEFAULT_SINGLE_REF_CDF", concat (DEFAULT_SINGLE_REF_CDF));
  ("DEFAULT_COMP_BWD_REF_CDF", concat (DEFAULT_COMP_BWD_REF_CDF));
  ("DEFAULT_COMP_REF_CDF", concat (DEFAULT_COMP_REF_CDF));
  ("DEFAULT_SKIP_CDF", DEFAULT_SKIP_CDF);
  ("DEFAULT_SKIP_MODE_CDF", DEFAULT_SKIP_MODE_CDF);
  ("DEFAULT_COMP_MODE_CDF", DEFAULT_COMP_MODE_CDF);
  ("DEFAULT_IS_INTER_CDF", DEFAULT_IS_INTER_CDF);
  ("DEFAULT_DRL_MODE_CDF", DEFAULT_DRL_MODE_CDF);
  ("DEFAULT_COMPOUND_MODE_CDF", DEFAULT_COMPOUND_MODE_CDF);
  ("DFEAULT_ZERO_MV_CDF", DFEAULT_ZERO_MV_CDF);
  ("DEFAULT_NEW_MV_CDF", DEFAULT_NEW_MV_CDF);
  ("DEFAULT_MOTION_MODE_CDF", DEFAULT_MOTION_MODE_CDF);
  ("DEFAULT_INTERP_FILTER_CDF", DEFAULT_INTERP_FILTER_CDF);
  ("DEFAULT_FILTER_INTRA_MODE_CDF", [DEFAULT_FILTER_INTRA_MODE_CDF]);
  ("DEFAULT_FILTER_INTRA_CDF", DEFAULT_FILTER_INTRA_CDF);
  ("DEFAULT_TXFM_SPLIT_CDF", DEFAULT_TXFM_SPLIT_CDF);
  ("DEFAULT_TX_64X64_CDF", DEFAULT_TX_64X64_CDF);
  ("DEFAULT_TX_32X32_CDF", DEFAULT_TX_32X32_CDF);
  ("DEFAULT_TX_16X16_CDF", DEFAULT_TX_16X16_CDF);
  ("DEFAULT_TX_8X8_CDF", DEFAULT_TX_8X8_CDF);
  ("DEFAULT_SEGMENT_ID_PREDICTED_CDF", DEFAULT_SEGMENT_ID_PREDICTED_CDF);
  ("DEFAULT_SEGMENT_ID_CDF", DEFAULT_SEGMENT_ID_CDF);
  ("DEFAULT_PARTITION_W128_CDF", DEFAULT_PARTITION_W128_CDF);
  ("DEFAULT_PARTITION_W64_CDF", DEFAULT_PARTITION_W64_CDF);
  ("DEFAULT_PARTITION_W32_CDF", DEFAULT_PARTITION_W32_CDF);
  ("DEFAULT_PARTITION_W16_CDF", DEFAULT_PARTITION_W16_CDF);
  ("DEFAULT_PARTITION_W8_CDF", DEFAULT_PARTITION_W8_CDF);
  ("DEFAULT_INTRABC_CDF", [DEFAULT_INTRABC_CDF]);
  ("DEFAULT_ANGLE_DELTA_CDF", DEFAULT_ANGLE_DELTA_CDF);
  ("DEFAULT_UV_MODE_CFL_ALLOWED_CDF", DEFAULT_UV_MODE_CFL_ALLOWED_CDF);
  ("DEFAULT_Y_MODE_CDF", DEFAULT_Y_MODE_CDF);
  ("DEFAULT_UV_MODE_CFL_NOT_ALLOWED_CDF", DEFAULT_UV_MODE_CFL_NOT_ALLOWED_CDF);
  ("DEFAULT_INTRA_FRAME_Y_MODE_CDF", concat (DEFAULT_INTRA_FRAME_Y_MODE_CDF));
  ("DEFAULT_TXB_SKIP_CDF", concat (concat (DEFAULT_TXB_SKIP_CDF)));
  ("DEFAULT_EOB_PT_16_CDF", concat (concat (DEFAULT_EOB_PT_16_CDF)));
  ("DEFAULT_EOB_PT_32_CDF", concat (concat (DEFAULT_EOB_PT_32_CDF)));
  ("DEFAULT_EOB_PT_64_CDF", concat (concat (DEFAULT_EOB_PT_64_CDF)));
  ("DEFAULT_EOB_PT_128_CDF", concat (concat (DEFAULT_EOB_PT_128_CDF)));
  ("DEFAULT_EOB_PT_256_CDF", concat (concat (DEFAULT_EOB_PT_256_CDF)));
  ("DEFAULT_EOB_PT_512_CDF", concat (DEFAULT_EOB_PT_512_CDF));
  ("DEFAULT_EOB_PT_1024_CDF", concat (DEFAULT_EOB_PT_1024_CDF));
  ("DEFAULT_EOB_EXTRA_CDF", concat (concat (concat (DEFAULT_EOB_EXTRA_CDF))));
  ("DEFAULT_DC_SIGN_CDF", concat (concat (DEFAULT_DC_SIGN_CDF)));
  ("DEFAULT_COEFF_BASE_EOB_CDF", concat (concat (concat (DEFAULT_COEFF_BASE_EOB_CDF))));
  ("DEFAULT_COEFF_BASE_CDF", concat (concat (concat (DEFAULT_COEFF_BASE_CDF))));
  ("DEFAULT_COEFF_BR_CDF", concat (concat (concat (DEFAULT_COEFF_BR_CDF))))].
Fixpoint increasingb (c : list Z) (prev : Z) : bool :=
  match c with [] => false | [_] => false | [last; k] => (prev <=? last)%Z && (last =? 32768)%Z && (0 <=? k)%Z && (k <=? 32)%Z | x :: c' => (prev <=? x)%Z && increasingb c' x end.
Definition valid_cdfb (c : list Z) : bool := (2 <=? Z.of_nat (length c))%Z && (Z.of_nat (length c) <=? 17)%Z && increasingb c 1.
Local Close Scope string_scope.
Lemma increasingb_spec c : forall prev, increasingb c prev = true ->
  2 <= nsyms c + 1 /\ prev <= at_ c 0 /\ (forall i, 0 <= i -> i + 1 < nsyms c -> at_ c i <= at_ c (i + 1)) /\ at_ c (nsyms c - 1) = 32768 /\ 0 <= at_ c (nsyms c) <= 32.
Proof.
  induction c as [|x c IH]; intros prev H; [discriminate|]. destruct c as [|y c]; [discriminate|]. destruct c as [|z c].
  - cbn [increasingb] in H. apply andb_prop in H. destruct H as [H H4]. apply andb_prop in H. destruct H as [H H3]. apply andb_prop in H. destruct H as [H1 H2].
    apply Z.leb_le in H1, H3, H4. apply Z.eqb_eq in H2. change (nsyms [x; y]) with 1. change (at_ [x; y] 0) with x. change (at_ [x; y] (1 - 1)) with x. change (at_ [x; y] 1) with y.
    split; [lia|]. split; [lia|]. split; [intros i A B; lia|]. split; [exact H2|lia].
  - change (increasingb (x :: y :: z :: c) prev) with ((prev <=? x) && increasingb (y :: z :: c) x) in H. apply andb_prop in H. destruct H as [H1 H]. apply Z.leb_le in H1.
    apply IH in H. destruct H as (A & B & C & D & E).
    assert (N : nsyms (x :: y :: z :: c) = nsyms (y :: z :: c) + 1) by (unfold nsyms; cbn [length]; lia).
    assert (S : forall i, 0 <= i -> at_ (x :: y :: z :: c) (i + 1) = at_ (y :: z :: c) i).
    { intros i Hi. unfold at_. replace (Z.to_nat (i + 1)) with (Datatypes.S (Z.to_nat i)) by lia. reflexivity. }
    assert (P : 1 <= nsyms (y :: z :: c)) by lia.
    split; [lia|]. split; [exact H1|]. split.
    + intros i Hi Hn. destruct (Z.eq_dec i 0) as [->|Hz].
      * rewrite S by lia. exact B.
      * rewrite S by lia. replace i with (i - 1 + 1) at 1 by lia. rewrite S by lia. replace (at_ (y :: z :: c) i) with (at_ (y :: z :: c) (i - 1 + 1)) by (f_equal; lia). apply C; lia.
    + rewrite N. replace (nsyms (y :: z :: c) + 1 - 1) with (nsyms (y :: z :: c) - 1 + 1) by lia. rewrite !S by lia. auto.
Qed.
Lemma valid_cdfb_spec c : valid_cdfb c = true -> valid_cdf c.
Proof.
  unfold valid_cdfb. intros H. apply andb_prop in H. destruct H as [H K]. apply andb_prop in H. destruct H as [H1 H2]. apply Z.leb_le in H1, H2.
  apply increasingb_spec in K. destruct K as (_ & A & B & C & D). unfold valid_cdf. split; [unfold nsyms; lia|]. auto.
Qed.
Lemma forallb_Forall {A} (f : A -> bool) (P : A -> Prop) l : (forall x, f x = true -> P x) -> forallb f l = true -> Forall P l.
Proof. intros H. rewrite forallb_forall, Forall_forall. intros K x Hx. auto. Qed.
