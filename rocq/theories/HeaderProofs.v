From Verif Require Import GoBase Bitstream SpecBits SpecStream BitstreamProofs Parses Header SpecSyntax.

Lemma parses_NewHeader forbidden ty ext has_size reserved :
  0 <= ty < 16 ->
  match ext with Some (t, s, r) => 0 <= t < 8 /\ 0 <= s < 4 /\ 0 <= r < 8 | None => True end ->
  parses NewHeader (enc_obu_header forbidden ty ext has_size reserved)
    (mkHeader forbidden ty (match ext with Some _ => true | None => false end) has_size reserved
       (match ext with Some (t, s, r) => mkExt t s r | None => mkExt 0 0 0 end)).
Proof.
  intros Hty Hext. unfold NewHeader, enc_obu_header.
  pbit. pf. pbit. pbit. pbit.
  destruct ext as [[[t s] r]|].
  - destruct Hext as (Ht & Hs & Hr).
    eapply parses_bind_end; [|apply parses_ret]. unfold NewExtensionHeader.
    pf. pf. eapply parses_bind_end; [|apply parses_ret].
    apply parses_F; [reflexivity|assumption|lia].
  - apply parses_ret.
Qed.
