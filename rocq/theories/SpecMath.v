(** Independent specifications of the small arithmetic functions (AV1 spec, section 4.7 and
    the process texts), used in the statements of C12-C20. *)
From Coq Require Import ZArith List Bool.
Open Scope Z_scope.

(** k is the least natural number satisfying P. *)
Definition is_least (P : Z -> Prop) (k : Z) : Prop := 0 <= k /\ P k /\ forall j, 0 <= j < k -> ~ P j.

(** r is x / 2^n rounded to the nearest integer, halves going up:
    r - 1/2 <= x/2^n < r + 1/2. *)
Definition nearest_half_up (x n r : Z) : Prop := 2 ^ n * (2 * r - 1) <= 2 * x < 2 ^ n * (2 * r + 1).

(** AV1 spec 4.7.2 / 5.11.9 neg_deinterleave. *)
Definition spec_neg_deinterleave (diff ref max : Z) : Z :=
  if ref =? 0 then diff
  else if max - 1 <=? ref then max - diff - 1
  else if 2 * ref <? max then
    if diff <=? 2 * ref then (if Z.odd diff then ref + (diff + 1) / 2 else ref - diff / 2) else diff
  else
    if diff <=? 2 * (max - ref - 1) then (if Z.odd diff then ref + (diff + 1) / 2 else ref - diff / 2)
    else max - (diff + 1).

(** Reversal of the low n bits. *)
Definition is_bit_reversal (n x r : Z) : Prop :=
  0 <= r < 2 ^ n /\ forall i, 0 <= i < n -> Z.testbit r i = Z.testbit x (n - 1 - i).
