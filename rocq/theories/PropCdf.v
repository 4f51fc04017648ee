(** C64: the default CDF tables. *)
From Coq Require Import String.
From Verif Require Import GoBase Bitstream BitstreamProofs Util UtilProofs Symbol SpecSymbol SymbolProofs PropSymbol CdfTables CdfDefaults.

(** True part: all CDFs of 94 of the 96 tables are valid: at most 16 symbols, increasing, ending with 32768, counter in range. *)
Theorem C64_default_tables_valid_partial : forall name cdfs, In (name, cdfs) default_tables ->
  name <> "DEFAULT_SKIP_MODE_CDF"%string -> name <> "DEFAULT_SEGMENT_ID_PREDICTED_CDF"%string -> Forall valid_cdf cdfs.
Proof.
  intros name cdfs H N1 N2.
  assert (A : forallb (fun p => (fst p =? "DEFAULT_SKIP_MODE_CDF")%string || (fst p =? "DEFAULT_SEGMENT_ID_PREDICTED_CDF")%string || forallb valid_cdfb (snd p)) default_tables = true)
    by (vm_compute; reflexivity).
  rewrite forallb_forall in A. specialize (A _ H). cbn [fst snd] in A.
  apply String.eqb_neq in N1, N2. rewrite N1, N2 in A. apply (forallb_Forall valid_cdfb); [apply valid_cdfb_spec|exact A].
Qed.
Print Assumptions C64_default_tables_valid_partial.

(** Refuted: reading skip_mode or seg_id_predicted with the default tables panics whatever the tile data. *)
Theorem C64_segment_id_predicted_refuted : forall cdf dis d, In cdf DEFAULT_SEGMENT_ID_PREDICTED_CDF -> ReadSymbol dis cdf d = Panic.
Proof. intros cdf dis d H. assert (cdf = [16384; 32678; 0]) as -> by (cbn in H; intuition congruence). reflexivity. Qed.
Print Assumptions C64_segment_id_predicted_refuted.
Theorem C64_skip_mode_refuted : forall cdf dis d e, in_tile d e -> In cdf DEFAULT_SKIP_MODE_CDF -> ReadSymbol dis cdf d = Panic.
Proof.
  intros cdf dis d e (HR & HV & _) H.
  assert (K : exists c k, cdf = [c; 32768; 0] /\ shr (32768 - c) 6 = - k /\ 1024 <= k <= 2 ^ 30).
  { cbn in H. destruct H as [<-|[<-|[<-|[]]]]; (eexists; eexists (- shr _ 6); split; [reflexivity|]; split; [rewrite Z.opp_involutive; reflexivity|]); vm_compute; split; discriminate. }
  destruct K as (c & k & -> & Hk & Hkr). unfold ReadSymbol. change (zlen [c; 32768; 0] - 1) with 2. change (2 <? 1) with false. cbv iota.
  rewrite (bind_ok (lift (idx [c; 32768; 0] (2 - 1))) _ d 32768 d eq_refl). change (negb (32768 =? 32768)) with false. cbv iota.
  rewrite (bind_ok get _ d d d eq_refl). cbn [length sym_loop]. change (-1 + 1) with 0. change (idx [c; 32768; 0] 0) with (Ok c). cbn [rbind].
  rewrite Hk. set (cur := shr _ 1 + _).
  assert (B : 128 <= shr (SymbolRange d) 8 <= 255).
  { unfold shr. rewrite Z.shiftr_div_pow2 by lia. change (2 ^ 8) with 256. split; [apply Z.div_le_lower_bound; lia|]. assert (SymbolRange d / 256 < 256) by (apply Z.div_lt_upper_bound; lia). lia. }
  assert (C : - 2 ^ 40 <= cur <= - 65536 + 8).
  { unfold cur. set (q := shr (SymbolRange d) 8) in *. change (4 * (2 - 0 - 1)) with 4. unfold shr. rewrite Z.shiftr_div_pow2 by lia. change (2 ^ 1) with 2. change (2 ^ 30) with 1073741824 in *. change (2 ^ 40) with 1099511627776.
    pose proof (Z.div_mod (q * - k) 2 ltac:(lia)). pose proof (Z.mod_pos_bound (q * - k) 2 ltac:(lia)). nia. }
  destruct (Z.leb_spec cur (SymbolValue d)); [|lia]. rewrite (bind_ok (lift (Ok (0, SymbolRange d, cur))) _ d _ d eq_refl).
  rewrite FloorLog2_pos by (change (2 ^ 63) with 9223372036854775808; change (2 ^ 40) with 1099511627776 in *; lia).
  rewrite (bind_ok (lift (Ok _)) _ d _ d eq_refl).
  assert (16 <= Z.log2 (SymbolRange d - cur)) by (apply Z.log2_le_pow2; [lia|change (2 ^ 16) with 65536; lia]).
  destruct (Z.ltb_spec (15 - Z.log2 (SymbolRange d - cur)) 0); [reflexivity|lia].
Qed.
Print Assumptions C64_skip_mode_refuted.
Example C64_case : In ("DEFAULT_Y_MODE_CDF"%string, DEFAULT_Y_MODE_CDF) default_tables /\ List.length default_tables = 96%nat /\ List.length (flat_map snd default_tables) = 4014%nat /\ DEFAULT_SKIP_MODE_CDF = [[3262132621; 32768; 0]; [2070820708; 32768; 0]; [81278127; 32768; 0]].
Proof. split; [|split; [|split]]; try (vm_compute; reflexivity). apply (nth_error_In default_tables 80). reflexivity. Qed.
