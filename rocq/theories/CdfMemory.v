(** Which memory the CDF variables point to.  In the code every CDF variable is a slice (or an array of slices) and is assigned without copying, so all of them
    end up pointing into the package variables DEFAULT_...; ReadSymbol changes the slice it is given in place (symbol/symbol.go:48-66).
    Model: a heap (the contents of the default tables), and per area (current, tile, saved, the eight reference slots) a pointer per CDF variable.
    The lists of assignments are generated from the code (CdfMoves.v). *)
From Coq Require Import String.
From Verif Require Import GoBase Bitstream Util Symbol CdfTables CdfMoves.
Local Open Scope string_scope.

(** A slice: nil, or a sub-table of a default table. *)
Inductive ptr := Nil | At (table : string) (path : list Z).
Definition penv := key -> ptr.
Record mem := mkMem { mCur : penv; mTile : penv; mSaved : penv; mSlot : Z -> penv; mHeap : string -> tree }.

Fixpoint zs_eqb (a b : list Z) : bool := match a, b with [], [] => true | x :: a, y :: b => (x =? y)%Z && zs_eqb a b | _, _ => false end.
Definition key_eqb (a b : key) : bool := (fst a =? fst b)%string && zs_eqb (snd a) (snd b).
Definition pset (e : penv) (k : key) (p : ptr) : penv := fun k' => if key_eqb k k' then p else e k'.

(** Indexing nested slices down to a CDF, and writing it back. *)
Fixpoint tget (t : tree) (path : list Z) : res (list Z) :=
  match path, t with
  | [], Leaf c => Ok c
  | i :: path, Node l => let! s := idx l i in tget s path
  | _, _ => Panic
  end.
Fixpoint tput (t : tree) (path : list Z) (c : list Z) : res tree :=
  match path, t with
  | [], Leaf _ => Ok (Leaf c)
  | i :: path, Node l => let! s := idx l i in let! s := tput s path c in let! l := upd l i s in Ok (Node l)
  | _, _ => Panic
  end.

(** cdf.go:9-105 initNonCoeffCdfs *)
Definition initNonCoeff (e : penv) : penv := fold_left (fun e m => pset e (fst m) (At (snd m) [])) initNonCoeffMoves e.
(** cdf.go:110-118: the index of the coefficient tables *)
Definition coeffIdx (baseQIdx : Z) : Z := (if baseQIdx <=? 20 then 0 else if baseQIdx <=? 60 then 1 else if baseQIdx <=? 120 then 2 else 3)%Z.
(** cdf.go:108-134 initCoeffCdfs *)
Definition initCoeff (baseQIdx : Z) (e : penv) : penv := fold_left (fun e m => pset e (fst m) (At (snd m) [coeffIdx baseQIdx])) initCoeffMoves e.
Definition pick (cur tile saved : penv) (a : area) : penv := match a with Cur => cur | Tile => tile | Saved => saved end.
(** a list of assignments to the variables [e] of one area; the others are not changed by it *)
Definition moves (src : penv -> area -> penv) (l : list (key * (area * key))) (e : penv) : penv :=
  fold_left (fun e m => pset e (fst m) (src e (fst (snd m)) (snd (snd m)))) l e.
(** tile_group.go:479-585 initSymbol: the tile's variables; TileIntraFrameYModeCdf comes from its default table *)
Definition initSymbolP (m : mem) : penv :=
  moves (fun e a => pick (mCur m) e (mSaved m) a) initSymbolMoves (pset (mTile m) ("IntraFrameYModeCdf", []) (At "DEFAULT_INTRA_FRAME_Y_MODE_CDF" [])).
(** tile_group.go:594-690 exitSymbol: the saved variables *)
Definition exitSymbolP (m : mem) : penv := moves (fun e a => pick (mCur m) (mTile m) e a) exitSymbolMoves (mSaved m).
(** tile_group.go:371-468 frameEndUpdateCdf *)
Definition frameEndP (m : mem) : penv := moves (fun e a => pick e (mTile m) (mSaved m) a) frameEndMoves (mCur m).
(** cdf.go:137-238 SaveCdfs: a new memory area (all nil) *)
Definition saveP (m : mem) : penv := moves (fun e a => pick (mCur m) (mTile m) (mSaved m) a) saveMoves (fun _ => Nil).
(** cdf.go:240-340 LoadCdfs; Memory is an array of 8 areas *)
Definition loadP (m : mem) (slot : Z) : res penv :=
  if (0 <=? slot)%Z && (slot <? 8)%Z then Ok (moves (fun _ _ => mSlot m slot) loadMoves (mCur m)) else Panic.

(** What happens to the CDFs while a stream is decoded. *)
Inductive event :=
| FrameHeader (primaryRefNone : bool) (refSlot baseQIdx : Z) (* uncompressed_header.go:403-424 *)
| TileStart                                                  (* tile_group.go:323 *)
| ReadSym (k : key) (path : list Z) (disableCdfUpdate : bool) (d : dec)  (* symbol.ReadSymbol(state.Tile<k>[path], ...) *)
| TileEnd (save : bool)                                      (* tile_group.go:325; save: the condition of line 595 *)
| FrameEnd (update : bool)                                   (* tile_group.go:329-331 *)
| RefUpdate (slot : Z)                                       (* decode_frame_wrapup.go:166, for a refreshed slot *)
| ShowExisting (slot : Z).                                   (* decode_frame_wrapup.go:265 *)
(** The table a tile variable and a path lead to *)
Definition address (e : penv) (k : key) (path : list Z) : res (string * list Z) := match e k with Nil => Panic | At n p => Ok (n, p ++ path)%list end.
Definition lookup (m : mem) (k : key) (path : list Z) : res (list Z) := let! a := address (mTile m) k path in tget (mHeap m (fst a)) (snd a).
Definition hset (h : string -> tree) (n : string) (t : tree) : string -> tree := fun n' => if (n =? n')%string then t else h n'.
Definition step (ev : event) (m : mem) : res mem :=
  match ev with
  | FrameHeader true _ q => Ok (mkMem (initCoeff q (initNonCoeff (mCur m))) (mTile m) (mSaved m) (mSlot m) (mHeap m))
  | FrameHeader false s _ | ShowExisting s => let! c := loadP m s in Ok (mkMem c (mTile m) (mSaved m) (mSlot m) (mHeap m))
  | TileStart => Ok (mkMem (mCur m) (initSymbolP m) (mSaved m) (mSlot m) (mHeap m))
  | ReadSym k path dis d =>
      let! a := address (mTile m) k path in
      let! cdf := tget (mHeap m (fst a)) (snd a) in
      let! r := ReadSymbol dis cdf d in
      let! t := tput (mHeap m (fst a)) (snd a) (snd (fst r)) in
      Ok (mkMem (mCur m) (mTile m) (mSaved m) (mSlot m) (hset (mHeap m) (fst a) t))
  | TileEnd b => Ok (if b then mkMem (mCur m) (mTile m) (exitSymbolP m) (mSlot m) (mHeap m) else m)
  | FrameEnd b => Ok (if b then mkMem (frameEndP m) (mTile m) (mSaved m) (mSlot m) (mHeap m) else m)
  | RefUpdate s => if (0 <=? s)%Z && (s <? 8)%Z then Ok (mkMem (mCur m) (mTile m) (mSaved m) (fun s' => if (s =? s')%Z then saveP m else mSlot m s') (mHeap m)) else Panic
  end.
Fixpoint run (h : list event) (m : mem) : res mem := match h with [] => Ok m | ev :: h => let! m := step ev m in run h m end.
(** The contents of the package variables at program start; a name that is not a table leads nowhere. *)
Definition defaultHeap (n : string) : tree := match find (fun p => (fst p =? n)%string) defaultTrees with Some p => snd p | None => Leaf [] end.
Definition start : mem := mkMem (fun _ => Nil) (fun _ => Nil) (fun _ => Nil) (fun _ _ => Nil) defaultHeap.
