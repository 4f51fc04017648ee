(** Model of internal/tilegroup/palette.go:142-190 (getPaletteCache) and of internal/tilegroup/palette_tokens.go.
    paletteModeInfo (palette.go:14-140) is modelled in ModeInfo.v up to its first b.S(), which panics. *)
From Verif Require Import GoBase Constants Tables Bitstream Util.

(** tile_group.go:33-34, 51 *)
Definition PALETTE_COLORS : Z := 8.
Definition PALETTE_NUM_NEIGHBORS : Z := 3.
Definition Palette_Color_Hash_Multipliers : list Z := [1; 2; 2].

(** ** get_palette_cache *)
(** palette.go:164-167, 170-173, 184-187: a color is stored at the end of the cache unless it is the last one there; the state is n and the cache *)
Definition addColor (v : Z) (a : Z * list Z) : res (Z * list Z) :=
  let '(n, cache) := a in
  let store := let! cache' := upd cache n v in Ok (n + 1, cache') in
  if n =? 0 then store else let! l := idx cache (n - 1) in if negb (v =? l) then store else Ok a.
(** palette.go:159-179: for aboveIdx < aboveN && leftIdx < leftN.  Every round advances at least one index. *)
Fixpoint mergeColors (fuel : nat) (above left : Z -> res Z) (aboveN leftN aboveIdx leftIdx : Z) (a : Z * list Z) : res (Z * (Z * list Z)) :=
  if (aboveIdx <? aboveN) && (leftIdx <? leftN) then
    match fuel with
    | O => Hang
    | S fuel =>
        let! aboveC := above aboveIdx in
        let! leftC := left leftIdx in
        if leftC <? aboveC then
          let! a := addColor leftC a in mergeColors fuel above left aboveN leftN aboveIdx (leftIdx + 1) a
        else
          let! a := addColor aboveC a in
          mergeColors fuel above left aboveN leftN (aboveIdx + 1) (if leftC =? aboveC then leftIdx + 1 else leftIdx) a
    end
  else Ok (aboveIdx, a).
(** palette.go:143-190; the results are n and t.PaletteCache.  (sic: AvailU is not asked, and there is no loop over the colors left over on the left.) *)
Definition getPaletteCache (plane MiRow MiCol : Z) (availL : bool) (sizes : list (list (list Z))) (colors : list (list (list (list Z)))) (cache : list Z) : res (Z * list Z) :=
  let! aboveN := if bool_of (Z.rem (MiRow * 4) 64) then idx3 sizes plane (MiRow - 1) MiCol else Ok 0 in
  let! leftN := if availL then idx3 sizes plane MiRow (MiCol - 1) else Ok 0 in
  let above := fun i => let! l := idx3 colors plane (MiRow - 1) MiCol in idx l i in
  let left := fun i => let! l := idx3 colors plane MiRow (MiCol - 1) in idx l i in
  let! r := mergeColors (Z.to_nat aboveN + Z.to_nat leftN) above left aboveN leftN 0 0 (0, cache) in
  rfor_to (fst r) aboveN (fun i a => let! v := above i in addColor v a) (snd r).

(** ** palette_tokens *)
(** palette_tokens.go:78-126 getPaletteColorContext; the result is t.ColorOrder and t.ColorContextHash.  scores is a nil slice (line 80). *)
Definition getPaletteColorContext (colorMap : list (list Z)) (r c n : Z) (colorOrder : list Z) : res (list Z * Z) :=
  let! so := rfor_to 0 PALETTE_COLORS (fun i a => let! s := upd (fst a) i 0 in let! o := upd (snd a) i i in Ok (s, o)) ([], colorOrder) in
  let count := fun (cond : bool) y x w (s : list Z) => if cond then (let! k := idx2 colorMap y x in let! v := idx s k in upd s k (v + w)) else Ok s in
  let! s := count (0 <? c) r (c - 1) 2 (fst so) in
  let! s := count ((0 <? r) && (0 <? c)) (r - 1) (c - 1) 1 s in
  let! s := count (0 <? r) (r - 1) c 1 s in
  let! so := rfor_to 0 PALETTE_NUM_NEIGHBORS (fun i a =>
      let '(s, o) := a in
      let! m0 := idx s i in
      let! m := rfor_to (i + 1) n (fun j m => let! v := idx s j in if fst m <? v then Ok (v, j) else Ok m) (m0, i) in
      let maIdx := snd m in
      if negb (maIdx =? i) then
        let! maxScore := idx s maIdx in
        let! maxColor := idx o maIdx in
        let! so := rfor_to 0 (maIdx - i) (fun d a => let k := maIdx - d in
            let! v := idx (fst a) (k - 1) in let! s := upd (fst a) k v in let! w := idx (snd a) (k - 1) in let! o := upd (snd a) k w in Ok (s, o)) (s, o) in
        let! s := upd (fst so) i maxScore in
        let! o := upd (snd so) i maxColor in
        Ok (s, o)
      else Ok (s, o)) (s, snd so) in
  let! h := rfor_to 0 PALETTE_NUM_NEIGHBORS (fun i h => let! v := idx (fst so) i in let! w := idx Palette_Color_Hash_Multipliers i in Ok (h + v * w)) 0 in
  Ok (snd so, h).

(** The fields of TileGroup that paletteTokens writes *)
Record PalMaps := mkMaps { ColorMapY : list (list Z); ColorMapUV : list (list Z); ColorOrder : list Z; ColorContextHash : Z }.

(** palette_tokens.go:20-41 and 45-74: the tokens of one map m of n colors, for a block of bw x bh samples of which ow x oh are inside the frame.
    (For chroma the sizes are computed, lines 47-60, after the first token; they do not depend on it.)  b.S() is [S_]. *)
Definition mapTokens (S_ : BS Z) (n bw bh ow oh : Z) (m : list (list Z)) (order : list Z) (hash : Z) : BS (list (list Z) * (list Z * Z)) :=
  let* v := Ns n in
  let* m := lift (upd2 m 0 0 v) in
  let* r := for_to 1 (oh + ow - 1) (fun i r =>
      let hi := Min i (ow - 1) in
      for_to 0 (hi - Max 0 (i - oh + 1) + 1) (fun d r => let j := hi - d in
        let* c := lift (getPaletteColorContext (fst r) (i - j) j n (fst (snd r))) in
        let* t := S_ in
        let* v := lift (idx (fst c) t) in
        let* m := lift (upd2 (fst r) (i - j) j v) in
        ret (m, c)) r) (m, (order, hash)) in
  let* m := lift (rfor_to 0 oh (fun i m => rfor_to ow bw (fun j m => let! v := idx2 m i (ow - 1) in upd2 m i j v) m) (fst r)) in
  let* m := lift (rfor_to oh bh (fun i m => rfor_to 0 bw (fun j m => let! v := idx2 m (oh - 1) j in upd2 m i j v) m) m) in
  ret (m, snd r).
(** palette_tokens.go:12-76 paletteTokens *)
Definition paletteTokens (MiRows MiCols MiRow MiCol MiSize : Z) (subX subY : bool) (sizeY sizeUV : Z) (t : PalMaps) : BS PalMaps :=
  let* bh := lift (idx BLOCK_HEIGHT MiSize) in
  let* bw := lift (idx BLOCK_WIDTH MiSize) in
  let oh := Min bh ((MiRows - MiRow) * 4) in
  let ow := Min bw ((MiCols - MiCol) * 4) in
  let* t := if bool_of sizeY then (let* r := mapTokens S_stub sizeY bw bh ow oh (ColorMapY t) (ColorOrder t) (ColorContextHash t) in
      ret (mkMaps (fst r) (ColorMapUV t) (fst (snd r)) (snd (snd r)))) else ret t in
  if bool_of sizeUV then
    let bh := shr bh (int_of subY) in
    let bw := shr bw (int_of subX) in
    let oh := shr oh (int_of subX) (* sic *) in
    let ow := shr ow (int_of subX) in
    let '(bw, ow) := if bw <? 4 then (bw + 2, ow + 2) else (bw, ow) in
    let '(bh, oh) := if bh <? 4 then (bh + 2, oh + 2) else (bh, oh) in
    let* r := mapTokens S_stub sizeUV bw bh ow oh (ColorMapUV t) (ColorOrder t) (ColorContextHash t) in
    ret (mkMaps (ColorMapY t) (fst r) (fst (snd r)) (snd (snd r)))
  else ret t.
