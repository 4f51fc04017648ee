(** Model of internal/symbol/symbol.go, internal/literal/literal.go, and the parts of initSymbol and exitSymbol
    (internal/tilegroup/tile_group.go:472-479, 583-588) that drive the arithmetic decoder.

    A CDF is a Go slice that ReadSymbol updates in place; the model returns the updated slice.  (Which tables
    share a slice is modelled separately.)  Products are taken on unbounded integers: with the ranges that
    C27 establishes they stay below 2^32, so int64 arithmetic agrees. *)
From Verif Require Import GoBase Bitstream Util.

(** state/state.go: SymbolValue, SymbolRange, SymbolMaxBits, together with the bitstream *)
Record dec := mkDec { SymbolValue : Z; SymbolRange : Z; SymbolMaxBits : Z; Bits : bs }.
Definition D := M dec.

(** Run a bitstream reader. *)
Definition onbits {A} (m : BS A) : D A := fun d =>
  match m (Bits d) with
  | Ok (a, s) => Ok (a, mkDec (SymbolValue d) (SymbolRange d) (SymbolMaxBits d) s)
  | Panic => Panic
  | Hang => Hang
  end.

(** symbol.go:26-36, the search loop; [symbol] is the last index tried, [cur] the last bound.
    The index panics when it runs off the slice, so len+1 iterations are enough. *)
Fixpoint sym_loop (fuel : nat) (cdf : list Z) (N range value symbol cur : Z) : res (Z * Z * Z) :=
  match fuel with
  | O => Hang
  | S fu =>
      let symbol := symbol + 1 in
      let prev := cur in
      let! c := idx cdf symbol in
      let f := 32768 - c in
      let cur := shr (shr range 8 * shr f 6) 1 + 4 * (N - symbol - 1) in
      if cur <=? value then Ok (symbol, prev, cur) else sym_loop fu cdf N range value symbol cur
  end.

(** symbol.go:49-64, adaptation of the cdf *)
Definition adapt (cdf : list Z) (N symbol : Z) : res (list Z) :=
  let! cnt := idx cdf N in
  let! l := FloorLog2 N in
  let rate := 3 + int_of (15 <? cnt) + int_of (31 <? cnt) + Min l 2 in
  let! r := rfor_to 0 (N - 1) (fun i a =>
      let '(tmp, cdf) := a in
      let tmp := if i =? symbol then 32768 else tmp in
      let! c := idx cdf i in
      let! cdf := upd cdf i (if tmp <? c then c - shr (c - tmp) rate else c + shr (tmp - c) rate) in
      Ok (tmp, cdf)) (0, cdf) in
  let cdf := snd r in
  let! cnt := idx cdf N in
  upd cdf N (cnt + int_of (cnt <? 32)).

(** symbol.go:14-67 ReadSymbol.  A negative shift count panics in Go. *)
Definition ReadSymbol (disableCdfUpdate : bool) (cdf : list Z) : D (Z * list Z) :=
  let N := zlen cdf - 1 in
  if N <? 1 then panic
  else
    let* last := lift (idx cdf (N - 1)) in
    if negb (last =? 32768) then panic
    else
      let* d := get in
      let* r := lift (sym_loop (S (length cdf)) cdf N (SymbolRange d) (SymbolValue d) (-1) (SymbolRange d)) in
      let '(symbol, prev, cur) := r in
      let range1 := prev - cur in
      let value1 := SymbolValue d - cur in
      let* l := lift (FloorLog2 range1) in
      let bits := 15 - l in
      if bits <? 0 then panic
      else
        let range2 := shl range1 bits in
        let numBits := Min bits (Max 0 (SymbolMaxBits d)) in
        let* newData := onbits (F numBits) in
        let paddedData := shl newData (bits - numBits) in
        let value2 := Z.lxor paddedData (shl (value1 + 1) bits - 1) in
        modify (fun d' => mkDec value2 range2 (SymbolMaxBits d - bits) (Bits d')) ;;
        let* cdf' := if disableCdfUpdate then ret cdf else lift (adapt cdf N symbol) in
        ret (symbol, cdf').

(** literal.go:32-40 readBool; its cdf is a fresh slice every time *)
Definition readBool (disableCdfUpdate : bool) : D Z :=
  let* r := ReadSymbol disableCdfUpdate [16384; 32768; 0] in ret (fst r).

(** literal.go:11-18 L *)
Definition L (disableCdfUpdate : bool) (n : Z) : D Z :=
  for_to 0 n (fun _ x => let* b := readBool disableCdfUpdate in ret (i64 (2 * x + b))) 0.

(** literal.go:21-30 NS *)
Definition NS (disableCdfUpdate : bool) (n : Z) : D Z :=
  let* l := lift (FloorLog2 n) in
  let w := l + 1 in
  let m := shl 1 w - n in
  let* v := L disableCdfUpdate (w - 1) in
  if v <? m then ret v
  else let* extraBit := L disableCdfUpdate 1 in
       ret (shl v 1 - m + extraBit).

(** tile_group.go:472-479 initSymbol (the decoder registers; the copies of the CDF tables are in Cdfs.v) *)
Definition initSymbol (sz : Z) : D unit :=
  let numBits := Min (sz * 8) 15 in
  let* buf := onbits (F numBits) in
  let paddedBuf := shl buf (15 - numBits) in
  modify (fun d => mkDec (Z.lxor 32767 paddedBuf) 32768 (8 * sz - 15) (Bits d)).

(** tile_group.go:583-588 exitSymbol (the registers and the position) *)
Definition exitSymbol : D unit :=
  let* d := get in
  if SymbolMaxBits d <? -14 then panic
  else put (mkDec (SymbolValue d) (SymbolRange d) (SymbolMaxBits d)
              (set_pos (Bits d) (Position (Bits d) + Max 0 (SymbolMaxBits d)))).
