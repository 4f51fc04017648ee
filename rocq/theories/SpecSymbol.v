(** Specification of the AV1 arithmetic decoder (spec 8.2), independent of the model. *)
From Coq Require Import ZArith List Bool Lia.
Import ListNotations.
Open Scope Z_scope.

(** A CDF over N symbols is N cumulative probabilities (scaled by 2^15) followed by an adaptation counter.
    [at_ c i] is entry i. *)
Definition at_ (c : list Z) (i : Z) : Z := nth (Z.to_nat i) c 0.
Definition nsyms (c : list Z) : Z := Z.of_nat (length c) - 1.

Definition valid_cdf (c : list Z) : Prop :=
  1 <= nsyms c <= 16 /\
  1 <= at_ c 0 /\
  (forall i, 0 <= i -> i + 1 < nsyms c -> at_ c i <= at_ c (i + 1)) /\
  at_ c (nsyms c - 1) = 32768 /\
  0 <= at_ c (nsyms c) <= 32.

(** Probability of symbol i. *)
Definition prob (c : list Z) (i : Z) : Z := if i =? 0 then at_ c 0 else at_ c i - at_ c (i - 1).

(** The decoder splits the range R into one interval per symbol, from the top down:
    symbol i occupies [bound i, bound (i-1)) where bound (-1) = R. *)
Definition bound (R : Z) (c : list Z) (i : Z) : Z :=
  if i <? 0 then R
  else (R / 256) * ((32768 - at_ c i) / 64) / 2 + 4 * (nsyms c - i - 1).

(** Adaptation (spec 8.2.6): probabilities move towards the decoded symbol t by 1/2^rate. *)
Definition rate (c : list Z) : Z :=
  3 + (if 15 <? at_ c (nsyms c) then 1 else 0) + (if 31 <? at_ c (nsyms c) then 1 else 0) + Z.min (Z.log2 (nsyms c)) 2.
Definition adapted (c : list Z) (t : Z) (c' : list Z) : Prop :=
  length c' = length c /\
  (forall i, 0 <= i < nsyms c - 1 ->
     at_ c' i = if i <? t then at_ c i - at_ c i / 2 ^ rate c
                else at_ c i + (32768 - at_ c i) / 2 ^ rate c) /\
  at_ c' (nsyms c - 1) = at_ c (nsyms c - 1) /\
  at_ c' (nsyms c) = Z.min 32 (at_ c (nsyms c) + 1).
