(** Reading syntax elements: the arithmetic decoder together with the tile's CDF tables.
    Model of the calls symbol.ReadSymbol(state.Tile<name>[path], state, b, uh), literal.L(n, state, b, uh) and b.S() of internal/tilegroup.
    The functions of internal/tilegroup that read syntax elements are modelled as computations on this state; the fields of state and t they
    read are arguments and the fields they write are results.
    Simplification: variables that share one table (the loop filter deltas and the motion vector tables, see C81) are kept apart. *)
From Coq Require Import String.
From Verif Require Import GoBase Bitstream Symbol CdfMoves CdfMemory.
Local Open Scope Z_scope.
(** decoder registers; contents of the tile's CDF variables *)
Definition ES : Type := dec * (string -> tree).
(** symbol.go:14-72 with the CDF the slice expression selects; it adapts in place *)
Definition esym (dis : bool) (name : string) (path : list Z) : M ES Z := fun s =>
  let! c := tget (snd s name) path in
  let! r := ReadSymbol dis c (fst s) in
  let! t := tput (snd s name) path (snd (fst r)) in
  Ok (fst (fst r), (snd r, hset (snd s) name t)).
(** literal.go:11-18 *)
Definition elit (dis : bool) (n : Z) : M ES Z := fun s => let! r := L dis n (fst s) in Ok (fst r, (snd r, snd s)).
(** bitstream.go:133-136 S: panics (not implemented) *)
Definition bS : M ES Z := panic.
