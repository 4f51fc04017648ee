# gov1 in Rocq: design, trusted base and coverage

gov1 is an AV1 decoder in Go that is still being written: many functions panic on every input or differ from the AV1
standard. The properties in `properties.jsonl` say what a user of a decoder relies on; where the code violates one, the
violation itself is a theorem (`_refuted`, for all inputs of the violating kind, with a concrete witness) and the largest
part of the property that does hold is another one (`_partial`).
@NPROPS@ properties: @NPROVED@ proved, @NPARTIAL@ partial; @NTHM@ theorems named in MANIFEST.json.

## 1. Layout
* `rocq/theories/*.v`: the development. Three kinds of files:
  * **model** (`Bitstream.v`, `Symbol.v`, `UncompressedHeader.v`, `Residual.v`, ...): one definition per Go function, same
    order of effects, a comment with file and lines at each definition and the simplification, if any;
  * **specification** (`Spec*.v`): written from the standard or from plain mathematics, never from the model: encoders of the
    syntax, arithmetic definitions, "programs" (trees of symbol and bit reads with the tables named), relations. They do not
    import the model files;
  * **proofs** (`*Proofs.v`, `*Sim.v`, ...) and **theorems** (`Prop*.v`). Each theorem `Cnn_...` is followed by an `Example`
    that meets its hypotheses with a concrete case and by `Print Assumptions`.
* `tools/`: generators of properties.jsonl, MANIFEST.json, DESIGN.md, and the mutation runner. They are not part of the proof.
* `seeded/LOG.jsonl`: one line per wrong program tried (section 5).

## 2. Trusted base
* Coq 8.16.1's kernel, including its `vm_compute` machine (used for finite table facts and for examples).
* No axioms. There are @NASSUM@ `Print Assumptions` commands, one after each theorem, and each prints
  `Closed under the global context`. Nothing is `Admitted`, there are no section-less variables, no functors or module
  types, no kernel checks switched off. `vcheck` lists axioms of the standard library (Reals, ssrunder, functional
  extensionality) because library files are loaded that contain them (`lia`/`lra`/ssreflect machinery); no theorem depends on
  any of them, as `Print Assumptions` shows.
* The transcription from Go to Gallina (section 3) and the reading of the standard in `Spec*.v`. Tables (CDFs, quantizers,
  scans, filters, constants) were copied mechanically from the sources; many are constrained by theorems (C64, C83, C97, ...).
* The sources were only read, as text. As pinned, `internal/uncompressedheader/uncompressed_header.go` imports
  `internal/tilegroup` (line 9) while tilegroup imports uncompressedheader: an import cycle, which the Go compiler rejects.
  The model gives each function the meaning it has by itself.

## 3. How Go is modelled (`GoBase.v`)
* A call ends in `Ok v`, `Panic` or `Hang`. `Hang` stands for a loop whose fuel ran out: theorems about termination say that
  `Hang` is not reached with the fuel the model supplies, theorems about divergence that it is reached for every fuel. Nothing in
  the repo recovers from panics, so the state after a panic is not represented.
* `M S A := S -> res (A * S)`: functions on a state. States contain only the fields the modelled function reads or writes.
* Slices and arrays are lists; an index below 0 or at or above the length panics, as do a nil slice (the empty list), `make`
  with a negative length and a shift by a negative count. Go arrays have their declared length.
* `int` is 64 bits. `util` and `bitstream` use explicit wrap-around (`i64`) where an argument can overflow; elsewhere `Z`
  is used, and the values are bounded by the proved ranges (samples, table entries, positions).
* Aliasing is modelled where it is observable: CDF tables (a heap of arrays with addresses, `CdfMemory.v`), transform
  permutations. At block level (`Elements.v`) each CDF variable has its own table: the sharing found in C81 is stated there and
  in C122, and the block level theorems are about variables that share with none.
* Symbol decoding at block level: `ElementsSim.v` relates a model function to a program of the specification: from every decoder state
  and all tables of the right shape, the function reads exactly the symbols of the program, with those tables, and returns
  the program's result (`agrees`, `follows_program`). C27-C30 tie symbols to the bits of the tile.

## 4. What is modelled and what is not
Modelled (files under /repo/internal): bitstream, util, header, sequenceheader, uncompressedheader (all but the parts named in
C94: temporal point info, frame ids beyond what C48/C59 need), tileinfo, obu, parser, symbol, literal, cdef, wedgemask (with slices that have room: Wedge.v);
tilegroup: tile_group.go, decode_partition.go, decode_block.go, intra_frame_mode_info.go, inter_frame_mode_info.go,
inter_block_mode_info.go, palette.go, palette_tokens.go, tx_size.go, assign_mv.go, find_mv_stack.go,
read_loop_restoration.go, residual.go, coeffs.go, reconstruct.go, transform.go, quantizer.go (tables), predict_intra.go,
predict_inter.go, compute_prediction.go, loop_filter_process.go, cdef.go, loop_restoration.go, decode_frame_wrapup.go,
output.go, syntax_element.go, util.go; cdf.go (tables, initialisation, copying).

Not modelled: logging and `cmd` (file reading, flags); memory and time; the text of panics; the parts of a function after a point
that is never passed (a `b.S()` or an index of a nil slice that always panics), which is stated where it happens and proved to
panic for all inputs; the contents of arrays declared but never read.

Function boundaries that stay parameters: `Obu.v`/`Parser.v` are about all payload parsers (records of functions) that satisfy the
stated reader laws; `Block.v` about all mode info functions; `Partition.v` about all block decoders. `properties.jsonl` and the
theorem statements say which.

## 5. Testing the theorems against wrong programs
`tools/mutations.py` lists edits of the model (a wrong boundary, a swapped argument, a dropped update, a missed case);
`tools/mutate.py` applies each to a scratch copy, rebuilds what depends on the edited file with the recorded claim as target, and
appends to `seeded/LOG.jsonl` the definition, the edit, the claim it breaks, the theorems that no longer build and those that were
tightened because they still did. @NMUT@ lines. Edits that leave the function extensionally the same are marked equivalent.
