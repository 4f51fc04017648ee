(** What it means for a list of start positions to cut 0..total-1 into n consecutive pieces. *)
From Coq Require Import ZArith List.
Open Scope Z_scope.
Definition start (l : list Z) (j : Z) : Z := nth (Z.to_nat j) l 0.
(** Every position below total is in exactly one piece [start j, start (j+1)), 0 <= j < n; no piece is empty;
    all pieces start on a multiple of align. *)
Definition partitions (l : list Z) (n total align : Z) : Prop :=
  1 <= n /\ n < Z.of_nat (length l) /\ start l 0 = 0 /\ start l n = total /\
  (forall j, 0 <= j < n -> start l j < start l (j + 1) /\ start l j mod align = 0) /\
  (forall x, 0 <= x < total ->
     exists j, 0 <= j < n /\ start l j <= x < start l (j + 1) /\
     forall k, 0 <= k < n -> start l k <= x < start l (k + 1) -> k = j).
