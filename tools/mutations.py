# Seeded bugs: each edits one definition of the model the way a realistic bug would change the program.
M=[]
def m(file,d,old,new,claim,breaks,targets,count=1,**k):
    M.append(dict(id='M%03d'%(len(M)+1),file=file,def_=d,old=old,new=new,edit=f'{old.strip()}  =>  {new.strip()}',claim=claim,breaks=breaks.split(),targets=targets.split(),count=count,**k))
    M[-1]['def']=d
B='PropBitstream'
m('Bitstream','readBit','8 - Position s mod 8 - 1','8 - Position s mod 8','bits are read most significant first','C01 C02','PropBitstream')
m('Bitstream','F_loop','(Position s + 1)','(Position s + 2)','F(n) consumes n bits','C01 C02',B)
m('Bitstream','Uvlc','if 32 <=? lz','if 31 <=? lz','uvlc values up to 2^32-2 round trip','C0',B)
m('Bitstream','Uvlc','v + Z.shiftl 1 lz - 1','v + Z.shiftl 1 lz','uvlc round trip','C0',B)
m('Bitstream','Leb128_loop','(i * 7)','(i * 8)','leb128 round trip','C0',B)
m('Bitstream','Leb128_loop','Leb128Bytes s + 1','Leb128Bytes s','Leb128Bytes is the number of bytes read','C0',B)
m('Bitstream','Leb128','Leb128_loop 8 0 0','Leb128_loop 7 0 0','leb128 values take up to 8 bytes','C0',B)
m('Bitstream','TrailingBits','Z.to_nat (nbBits - 1)','Z.to_nat nbBits','trailing bits consume exactly nbBits','C0 C1',B)
m('Bitstream','ByteAlignment_loop','Z.land (Position s) 7','Z.land (Position s) 3','ByteAlignment ends on a byte boundary','C0 C1',B)
m('Bitstream','Su','value - 2 * signMask else','value - signMask else','su(n) round trip','C0 C1',B)
m('Bitstream','Ns','let m := shl 1 w - n in\n  let* v := F (w - 1) in','let m := shl 1 w - n in\n  let* v := F w in','ns(n) round trip','C0 C1',B)
m('Bitstream','Ns','if v <? m then ret v\n  else let* extraBit := F 1 in','if v <=? m then ret v\n  else let* extraBit := F 1 in','ns(n) round trip','C0 C1',B)
m('Bitstream','Le_loop','shl byte (i * 8)','shl byte (8 - i * 8)','le(n) round trip','C0 C1',B)
m('Bitstream','MoreDataInBitstream','Z.quot (Position s) 8 =? zlen (Data s)','Z.quot (Position s) 8 =? zlen (Data s) - 1','data left is seen until the last byte','C0 C1','PropBitstream',tightened=['C10_more_data'])
U='PropUtil'
m('Util','Min','if x <=? y then x else y','if y <=? x then x else y','Min is the smaller','C1',U,tightened=['C16_Min_Max_Abs'])
m('Util','Clip3','else if y <? z then y else z','else if y <? z then z else z','Clip3 clamps above','C1',U)
m('Util','Round2','shl 1 (n - 1)','shl 1 n','Round2 rounds to nearest','C1',U)
m('Util','InverseRecenter','i64 (r - shr (i64 (v + 1)) 1)','i64 (r - shr v 1)','InverseRecenter inverts recentring','C1 C2',U)
m('Util','TileLog2_loop','shl blkSize k <? target','shl blkSize k <=? target','TileLog2 is the least k','C1',U)
m('Util','CeilLog2','if x <? 2 then Ok 0','if x <? 3 then Ok 0','CeilLog2 is the ceiling of log2','C1',U)
m('Util','CeilLog2_loop','if p <? x then','if p <=? x then','CeilLog2 is the ceiling of log2','C1',U)
m('Util','Sort','(Z.to_nat (i2 + 1 - i1))','(Z.to_nat (i2 - i1))','Sort keeps all elements and sorts the range','C1 C2',U)
m('Util','HasNewmv','(mode =? NEAR_NEWMV) || ','','HasNewmv is true for exactly the NEWMV modes','C1 C2',U,tightened=['C16_HasNewmv'])
m('Util','Abs','if 0 <=? x then x else','if 1 <=? x then x else','(equivalent: Abs 0 = -0 = 0)','NONE',U)
m('Bitstream','FloorLog2_loop','Ok (s - 1)','Ok s','FloorLog2 is the floor of log2','C1',U)
m('Util','Round2Signed','let! r := Round2 (i64 (- x)) n in Ok (i64 (- r))','let! r := Round2 (i64 (- x)) n in Ok r','Round2Signed of a negative number is not positive','C1',U)
m('Util','NegDeinterleave','max - diff - 1','max - diff','NegDeinterleave stays below max','C1 C2',U)
m('Util','Brev','(numBits - 1 - i)','(numBits - i)','Brev stays in numBits bits','C1 C2',U)
S='PropSequence'
m('SequenceHeader','NewTimingInfo','F 32 in\n  let* equalPictureInterval','F 16 in\n  let* equalPictureInterval','sequence header fields round trip','C21 C22',S,tightened=['C22_accepted_syntax_partial'])
m('SequenceHeader','readBitDepth','if twelveBit then 12 else 10','if twelveBit then 10 else 12','bit depth follows high_bitdepth and twelve_bit','C21 C45 C22',S)
m('SequenceHeader','NewColorConfig','(cp =? 1) && (tc =? 13) && (mc =? 0)','(cp =? 1) && (tc =? 13)','colour config round trip','C21 C22 C45',S)
m('SequenceHeader','NewColorConfig','if monoChrome then 1 else 3','if monoChrome then 3 else 1','NumPlanes is 1 exactly for monochrome','C21 C22 C45',S)
m('SequenceHeader','sizeToolPart','let* delta := if idp then F 4 else ret 0 in\n  let* add := if idp then F 3','let* delta := if idp then F 3 else ret 0 in\n  let* add := if idp then F 4','sequence header round trip','C21 C22',S)
m('SequenceHeader','sizeToolPart','let* jnt := if oh then Fbool else ret false','let* jnt := Fbool','jnt_comp only with order hints','C21 C22 C45',S)
m('SequenceHeader','sizeToolPart','ret (x + 1)) else ret 0','ret x) else ret 0','order hint bits is the coded value plus one','C21 C22 C45',S)
m('SequenceHeader','NewSequenceHeader','(st_add st) (st_delta st)','(st_delta st) (st_add st)','frame id lengths are not swapped','C21 C22 C45',S,tightened=['C22_accepted_syntax_partial'])
m('SequenceHeader','NewSequenceHeader','superres cdef restoration cc grain','cdef superres restoration cc grain','superres and cdef flags not swapped','C21 C22',S,tightened=['C22_accepted_syntax_partial'])
O='PropObu'
m('Header','NewExtensionHeader','F 3 in let* s := F 2 in let* r := F 3','F 2 in let* s := F 3 in let* r := F 3','extension header layout','C23 C24',O)
m('Header','NewHeader','let* extensionFlag := Fbool in\n  let* hasSizeField := Fbool in','let* hasSizeField := Fbool in\n  let* extensionFlag := Fbool in','OBU header layout','C23 C24',O)
m('Obu','dropped','SpatialID (ExtHeader h) + 8','SpatialID (ExtHeader h) + 4','spatial layers are bits 8.. of the operating point','C24',O)
m('Obu','dropped','negb inTemporalLayer || negb inSpatialLayer','negb inTemporalLayer && negb inSpatialLayer','an OBU of a layer outside the operating point is dropped','C24',O)
m('Obu','dropped','negb (Type_ h =? OBU_TEMPORAL_DELIMITER) &&\n','','temporal delimiters are never dropped','C24',O)
m('Obu','NewObu','Position s + size * 8','Position s + size','a dropped OBU is skipped exactly','C2',O)
m('Obu','hasTrailingBits','negb (Type_ h =? OBU_FRAME)','negb (Type_ h =? OBU_PADDING)','no trailing bits are read after a frame OBU','C2',O)
m('Obu','payload','ret (mkObu size h sh uh (tg0 P), set_seen d false)','ret (mkObu size h sh uh (tg0 P), d)','a temporal delimiter makes the next frame header a new one','C2 C47',O)
m('Obu','newFrame','NewTileGroup P (sz - headerBytes)','NewTileGroup P sz','the tile group gets the rest of the frame OBU','C2',O,tightened=['C23_frame_obu_tile_group_size'])
m('Obu','paddingObu','Position s - 8','Position s - 0','padding OBU ends at its end','C2',O)
m('Parser','frameUnit_loop','(sz - Leb128Bytes s - obuLength)','(sz - obuLength)','frame unit sizes count the length fields','C25 C26',O)
m('Parser','temporalUnit','(sz - Leb128Bytes s - frameUnitSize)','(sz - frameUnitSize)','temporal unit sizes count the length fields','C25 C26',O)
m('Parser','keep','if Type_ (Hdr o) =? OBU_SEQUENCE_HEADER then ObuSH o else PSH p','ObuSH o','(equivalent if every other OBU carries the old sequence header)','C26',O)
m('Parser','keep','obus p ++ [o]','[o] ++ obus p','OBUs are reported in stream order','C25',O)
m('Parser','bitstream_loop','let* p1 := temporalUnit P f temporalUnitSize p in\n        bitstream_loop P f p1','let* p1 := temporalUnit P f temporalUnitSize p in\n        bitstream_loop P f p','OBUs of all temporal units are kept','C25 C26',O)
Y='PropSymbol'
m('Symbol','sym_loop','if cur <=? value then','if cur <? value then','the symbol is the one whose interval contains the value','C27 C28 C29 C30 C31',Y)
m('Symbol','sym_loop','4 * (N - symbol - 1)','4 * (N - symbol)','every symbol keeps at least 4 units of range and the last bound is 0','C27 C28 C29 C30 C31',Y)
m('Symbol','adapt','(15 <? cnt)','(16 <? cnt)','adaptation rate as specified','C27 C28 C29 C30 C31',Y)
m('Symbol','adapt','upd cdf N (cnt + int_of (cnt <? 32))','upd cdf N (cnt + 1)','adaptation counter stops at 32','C27 C28 C29 C30 C31',Y)
m('Symbol','adapt','c - shr (c - tmp) rate','c + shr (c - tmp) rate','adapted CDFs stay increasing','C27 C28 C29 C30 C31',Y)
m('Symbol','ReadSymbol','let value1 := SymbolValue d - cur','let value1 := SymbolValue d','the value is renormalised','C27 C28 C29 C30 C31',Y)
m('Symbol','ReadSymbol','Min bits (Max 0 (SymbolMaxBits d))','bits','no bits beyond the tile are read','C27 C28 C29 C30 C31',Y)
m('Symbol','ReadSymbol','(SymbolMaxBits d - bits)','(SymbolMaxBits d - numBits)','SymbolMaxBits counts down by the bits shifted in','C27 C28 C29 C30 C31',Y)
m('Symbol','ReadSymbol','if disableCdfUpdate then ret cdf else','if negb disableCdfUpdate then ret cdf else','disable_cdf_update keeps CDFs unchanged','C27 C28 C29 C30 C31',Y)
m('Symbol','initSymbol','(8 * sz - 15)','(8 * sz)','SymbolMaxBits starts at 8 * sz - 15','C27 C28 C29 C30 C31',Y)
m('Symbol','exitSymbol','(Position (Bits d) + Max 0 (SymbolMaxBits d))','(Position (Bits d) + SymbolMaxBits d)','position ends at the end of the tile','C27 C28 C29 C30 C31',Y)
m('Symbol','L','(2 * x + b)','(x + b)','L(n) is the n-bit number','C27 C28 C29 C30 C31',Y)
m('Symbol','NS','if v <? m then ret v','if v <=? m then ret v','NS(n) is below n','C27 C28 C29 C30 C31',Y)
T='PropTiles'
m('TileInfo','uniform_starts','(startSb + size)','(startSb + size + 1)','uniform tiles cover the frame','C32',T)
m('TileInfo','explicit_starts','sizeMinusOne + 1','sizeMinusOne + 2','explicit tiles stay inside the frame','C32',T)
m('TileInfo','NewTileInfo','let* cs := lift (upd (fst c) (snd c) MiCols) in','let cs := fst c in','the last tile ends at the frame edge','C32',T)
m('TileInfo','NewTileInfo','(n + 1) id','n id','tile size bytes in 1..4','C32',T)
m('TileInfo','NewTileInfo','let sbRows := shr (MiRows + 15) 4','let sbRows := shr MiRows 4','tiles cover all rows','C32',T)
H='PropHeader'
UH='UncompressedHeader'
m(UH,'superResParams','Z.quot denom 2','denom','the coded width is rounded to nearest','C3 C4 C5',H)
m(UH,'computeImageSize','(2 * shr (w + 7) 3, 2 * shr (h + 7) 3)','(2 * shr (w + 7) 3, 2 * shr (w + 7) 3)','MiRows covers the frame height','C3 C4 C5',H)
m(UH,'frameSize','ret (w + 1, h + 1)\n             else','ret (w, h)\n             else','coded sizes are minus one','C3 C4 C5',H)
m(UH,'renderSize','else ret (upscaledWidth, 0)','else ret (0, 0)','render width defaults to the upscaled width','C3 C4 C5',H)
m(UH,'readInterpolationFilter','if b then ret SWITCHABLE else F 2','if b then F 2 else ret SWITCHABLE','switchable flag','C3 C4 C5',H)
m(UH,'GetRelativeDist','Z.land (a - b) (m - 1) - Z.land (a - b) m','Z.land (a - b) (m - 1) + Z.land (a - b) m','relative distance is signed','C3 C4 C5',H)
m(UH,'readDeltaQ','if b then Su (1 + 6) else ret 0','if b then Su 6 else ret 0','delta q has 7 bits','C3 C4 C5',H)
m(UH,'quantizationParams','else ret (udc, uac, udc, uac)','else ret (udc, uac, 0, 0)','V uses the U deltas when not coded separately','C3 C4 C5',H)
m(UH,'quantizationParams','if negb separateUv then ret qu else F 4','if separateUv then ret qu else F 4','qmV is coded only with separate uv','C3 C4 C5',H)
m(UH,'readFeature','Clip3 (- limit) limit v','Clip3 0 limit v','signed features may be negative','C3 C4 C5',H)
m(UH,'readFeature','Su (1 + bitsToRead)','Su bitsToRead','signed feature width','C3 C4 C5',H)
m(UH,'scanFeatures','if SEG_LVL_REF_FRAME <=? j then 1 else fst acc','if SEG_LVL_REF_FRAME <? j then 1 else fst acc','SegIdPreSkip','C3 C4 C5 C6',H)
m(UH,'segmentationParams','ret (0, 0, 0, zeros8x8, zeros8x8)','ret (0, 0, 0, en, dat)','features are cleared when segmentation is off','C3 C4 C5 C6',H)
m(UH,'GetQIndex','Clip3 0 255 qindex','qindex','qindex stays in 0..255','C3 C4 C5 C6',H)
m(UH,'GetQIndex','let qindex := BaseQIdx q + data','let qindex := BaseQIdx q - data','segment offset is added','C3 C4 C5 C6',H)
m(UH,'deltaQParams','if 0 <? baseQIdx then Fbool','if 0 <=? baseQIdx then Fbool','delta_q only for non zero base','C3 C4 C5 C6',H)
m(UH,'deltaLfParams','if negb allowIntraBc then Fbool','if allowIntraBc then Fbool','delta lf not with intrabc','C3 C4 C5 C6',H)
m(UH,'losslessBlock','if ll then 15 else Qmy q','if ll then Qmy q else 15','qm level 15 for lossless segments','C3 C4 C5 C6',H)
m(UH,'losslessBlock','(if ll then CodedLossless acc else false)','(if ll then true else CodedLossless acc)','CodedLossless needs all segments lossless','C3 C4 C5 C6',H)
m(UH,'loopFilterParams','if codedLossless || allowIntraBc then','if codedLossless && allowIntraBc then','no loop filter for lossless or intrabc','C3 C4 C5 C6',H)
m(UH,'loopFilterParams','if bool_of l0 || bool_of l1 then','if bool_of l0 && bool_of l1 then','chroma levels coded when a luma level is non zero','C3 C4 C5 C6',H)
m(UH,'readDelta','lift (upd l i v)','lift (upd l 0 v)','delta i goes to entry i','C3 C4 C5 C6',H)
m(UH,'cdefParams','(d + 3) bits','d bits','damping is coded minus 3','C3 C4 C5 C6',H)
m(UH,'bump3','if x =? 3 then x + 1','if x =? 2 then x + 1','secondary strength 3 means 4','C3 C4 C5 C6',H)
m(UH,'cdefParams','Z.to_nat (shl 1 bits)','Z.to_nat bits','2^bits strengths','C3 C4 C5 C6',H)
m(UH,'lrParams','shr RESTORATION_TILESIZE_MAX (2 - sft)','shr RESTORATION_TILESIZE_MAX sft','restoration unit size','C3 C4 C5 C6',H)
m(UH,'lrParams','if subX && subY && chroma then F 1','if subX && chroma then F 1','lr_uv_shift only for 4:2:0','C3 C4 C5 C6',H)
m(UH,'readTxMode','if b then TX_MODE_SELECT else TX_MODE_LARGEST','if b then TX_MODE_LARGEST else TX_MODE_SELECT','tx mode select flag','C3 C4 C5 C6',H)
m(UH,'filmGrainParams','let numPosLuma := 2 * lag * (lag + 1)','let numPosLuma := 2 * lag * lag','number of AR coefficients','C3 C4 C5 C6',H)
m(UH,'filmGrainParams','if bool_of ny then numPosLuma + 1 else numPosLuma','numPosLuma','chroma has one more AR coefficient','C3 C4 C5 C6',H)
m(UH,'filmGrainParams','if negb present || (negb showFrame && negb showableFrame)','if negb present','grain only for shown or showable frames','C3 C4 C5 C6',H)
m(UH,'frameType','if show then ret (negb (ty =? 0)) else Fbool','if show then ret true else Fbool','a shown key frame is not showable again','C3 C4 C5 C6',H)
m(UH,'frameHead','if (ty =? 3) || (ty =? 0) || show then ret 255','if (ty =? 3) || ((ty =? 0) && show) then ret 255','(this is the specified condition: the code refreshes all on any shown frame)','C3 C4 C5 C6',H)
m(UH,'intraRefs','(UpscaledWidth fs =? FrameWidth fs)','true','intrabc only without superres','C3 C4 C5 C6',H)
m(UH,'frameBody','let all := CodedLossless ll && (FrameWidth fs =? UpscaledWidth fs)','let all := CodedLossless ll','AllLossless needs no superres','C3 C4 C5 C6',H)
m(UH,'afterHeader','(MiCols fs) (MiRows fs) (TileInfo_ fb)','(MiRows fs) (MiCols fs) (TileInfo_ fb)','state gets the frame size','C3 C4 C5 C6',H)
m(UH,'NewUncompressedHeader','frame (0, true, true, false, false, 0)','frame (0, true, true, true, false, 0)','reduced still picture headers are not showable','C3 C4 C5 C6',H)
P='PropPartition'
m('Partition','isInside','(c <? MiColEnd g)','(c <=? MiColEnd g)','availability stops at the tile edge','C37 C63',P)
m('Partition','partitionCtx','int_of left * 2 + int_of above','int_of above * 2 + int_of left','partition context','C37 C63',P)
m('Partition','choosePartition','let hasRows := r + half <? MiRows g in\n    let hasCols := c + half <? MiCols g in\n    if','let hasRows := r + half <=? MiRows g in\n    let hasCols := c + half <? MiCols g in\n    if','partition forced at the frame edge','C37 C63',P)
m('Partition','decodePartition','if p =? PARTITION_NONE then decodeBlock r c subSize','if p =? PARTITION_NONE then decodeBlock r c splitSize','NONE codes one block of the full size','C37 C63',P)
m('Partition','decodePartition','(if hasCols then decodeBlock r (c + half) subSize else ret tt)','decodeBlock r (c + half) subSize','no block outside the frame','C37 C63',P)
m('Partition','decodePartition','decodePartition fuel r (c + half) subSize ;;\n','','split codes four quarters','C37 C63',P)
m('Partition','decodePartition','decodeBlock r c subSize ;; decodeBlock (r + half) c splitSize ;; decodeBlock (r + half) (c + half) splitSize','decodeBlock r c subSize ;; decodeBlock (r + half) c splitSize ;; decodeBlock (r + half) c splitSize','HORZ_B covers the block','C37 C63',P)
m('Partition','decodePartition','if (MiRows g <=? r) || (MiCols g <=? c) then ret tt','if (MiRows g <? r) || (MiCols g <? c) then ret tt','nothing is decoded outside the frame','C37 C63',P)
m('Partition','sbCols','sbCols n r (c + sb4) sb4 sbSize','sbCols n r (c + sb4 + 1) sb4 sbSize','superblocks tile the tile','C37 C63',P)
m('Partition','clearContext','rfor_to 0 3 (clearOne i) acc','rfor_to 0 2 (clearOne i) acc','all planes cleared','C37 C63',P)

L='PropLoopFilter'
LF='LoopFilter'
m(LF,'filter4Clamp','(shl 1 (bd - 1) - 1)','(shl 1 (bd - 1))','filter values are clamped to the signed sample range','C38 C65 C66',L)
m(LF,'narrowFilter','let filter1 := shr (filter4Clamp bd (filter + 4)) 3','let filter1 := shr (filter4Clamp bd (filter + 3)) 3','narrow filter rounding','C38 C65 C66',L)
m(LF,'narrowFilter','upd3 f plane (y - dy) (x - dx) op0','upd3 f plane (y - dy) (x - dx) oq0','the sample before the edge moves up','C38 C65 C66',L)
m(LF,'narrowFilter','if negb (bool_of hevMask) then','if bool_of hevMask then','outer samples change only without high edge variance','C38 C65 C66',L)
m(LF,'filterMask','Abs (p0 - q0) * 2','Abs (p0 - q0)','edge strength test','C38 C65 C66',L)
m(LF,'filterMask','if 6 <=? filterLen then','if 7 <=? filterLen then','filterMask checks p2 and q2 for length 6','C38 C65 C66',L)
m(LF,'filterMask','let flatMask :=\n    if 8 <=? filterSize then','let flatMask :=\n    if 4 <=? filterSize then','flat mask only for size 8 on','C38 C65 C66',L)
m(LF,'sampleFiltering','if fMask =? 0 then Ok f','if fMask =? 1 then Ok f','only masked edges are filtered','C38 C65 C66',L)
m(LF,'sampleFiltering','(filterSize =? 4) || (flatMask =? 0)','(filterSize =? 4)','not flat: narrow filter','C38 C65 C66',L)
m(LF,'adaptiveFilterStrengthSelection','Clip3 0 MAX_LOOP_FILTER (deltaLF + l)','(deltaLF + l)','level in 0..63','C38 C65 C66',L)
m(LF,'adaptiveFilterStrengthSelection','let feature := SEG_LVL_ALT_LF_Y_V + i','let feature := SEG_LVL_ALT_LF_Y_V + plane','segment feature of the plane and direction','C38 C65 C66',L)
m(LF,'adaptiveFilterStrength','let blimit := 2 * (lvl + 2) + limit','let blimit := 2 * lvl + 2 + limit','block limit','C38 C65 C66',L)
m(LF,'lfFilterSize','if plane =? 0 then Ok (Min 16 baseSize) else Ok (Min 8 baseSize)','Ok (Min 16 baseSize)','chroma filters at most 8','C38 C65 C66',L)
m(LF,'loopFilterEdge','else if negb pass && (x =? 0) then false','else if pass && (x =? 0) then false','frame edges are not filtered','C38 C65 C66',L)
m(LF,'loopFilterEdge','let applyFilter := if negb isTxEdge then false else','let applyFilter :=','only transform edges are filtered','C38 C65 C66',L)
m(LF,'loopFilterEdge','if isBlockEdge || (skip =? 0) || isIntra then true else false','true','inner edges of skipped inter blocks are not filtered','C38 C65 C66',L)
m(LF,'loopFilter','rfor_to 0 2 (fun pass f','rfor_to 0 1 (fun pass f','both directions are filtered','C38 C65 C66',L)
C='PropCdef'
m('Cdef','constrain','Max 0 (damping - fl)','(damping - fl)','constrain never panics','C39 C67',C)
m('Cdef','constrain','if diff <? 0 then -1 else 1','1','constrain has the sign of the difference','C39 C67',C)
m('Cdef','constrain','Clip3 0 (Abs diff)','Clip3 0 threshold','constrain never exceeds the difference','C39 C67',C)
m('Cdef','isInsideFilterRegion','(candidateC <? cMiCols e)','(candidateC <=? cMiCols e)','samples outside the frame are not used','C39 C67',C)
m('Cdef','cdefTap','Max p mx, Min p mn','Max p mx, mn','output between the samples used','C39 C67',C)
m('Cdef','cdefSample','Ok (Clip3 mn mx (x + shr (8 + sum - int_of (sum <? 0)) 4))','Ok (x + shr (8 + sum - int_of (sum <? 0)) 4)','output stays in the range of the samples','C39 C67',C)
m('Cdef','cdefTapsK','let sign := 2 * s - 1','let sign := 1','both sides are used','C39 C67',C)
m('Cdef','cdefTapsK','(Z.land (dir + dirOff) 7)','dir','secondary taps at 45 degrees','C39 C67',C)
m('Cdef','cdefPixel','accum p 4 (7 + i - j) x','accum p 4 (i + j) x','line sums of direction 4','C39 C67',C)
m('Cdef','cdefPixel','shr s (cBitDepth e - 8) - 128','shr s (cBitDepth e - 8)','samples centred','C39 C67',C)
m('Cdef','cdefCosts','let! cost := mul cost 2 d8 in','','cost of direction 2 normalised','C39 C67',C)
m('Cdef','cdefBest','if bestCost <? c then','if bestCost <=? c then','first best direction','C39 C67',C)
m('Cdef','cdefBest','shr (bestCost - o) 10','shr (o - bestCost) 10','variance non negative','C39 C67',C)
m('Cdef','cdefBlock','if ix =? -1 then Ok g else','','index -1 means no filtering','C39 C67',C)
m('Cdef','cdefBlock','if skip then Ok g else','','skipped blocks are not filtered','C39 C67',C)
m('Cdef','cdefBlock','cdefFilter e f 2 r c','cdefFilter e f 1 r c','all planes are filtered','C39 C67',C)
m('Cdef','copyBlock','upd3 g plane y x v','upd3 g plane x y v','unfiltered samples are copied','C39 C67',C)
m('Cdef','cdefProcess','rfor_by 0 (cMiCols e) 2','rfor_by 0 (cMiCols e) 4','every 8x8 block is processed','C39 C67',C)
T='PropTransform'
m('Transform','swapT','upd T b tmp','upd T b vb','flag 1 swaps','C41 C68 C69 C70 C71',T)
m('Transform','rot','ta * c - tb * s','ta * c + tb * s','rotation','C41 C68 C69 C70 C71',T)
m('Transform','had','upd T b (Clip3 lo hi (x - y))','upd T b (Clip3 lo hi (y - x))','Hadamard rotation','C41 C68 C69 C70 C71',T)
m('Transform','had','upd T b (Clip3 lo hi (x - y))','upd T b (x - y)','values clamped to r bits','C41 C68 C69 C70 C71',T)
m('Transform','inverseWHT','let e := shr (a - d) 1','let e := shr (a + d) 1','WHT is invertible','C41 C68 C69 C70 C71',T)
m('Transform','inverseWHT','let! T := upd T 1 b in let! T := upd T 2 c in','let! T := upd T 1 c in let! T := upd T 2 b in','WHT output order','C41 C68 C69 C70 C71',T)
m('Transform','inverseIdentity4','Round2 (v * 5793) 12','Round2 (v * 5793) 11','identity4 scales by sqrt 2','C41 C68 C69 C70 C71',T)
m('Transform','inverseIdentity16','mapT 15 (fun','mapT 14 (fun','identity16 scales all 16','C41 C68 C69 C70 C71',T)
m('Transform','inverseIdentity','if n =? 3 then inverseIdentity8 T','if n =? 3 then inverseIdentity16 T','identity of 8 points','C41 C68 C69 C70 C71',T)
m('Transform','rowTransform','if lossless then inverseWHT 2 T','if lossless then inverseWHT 0 T','row WHT shift','C41 C68 C69 C70 C71',T)
m('Transform','colTransform','DCT_FLIPADST; V_DCT] txType then inverseDCT log2H','DCT_FLIPADST; H_DCT] txType then inverseDCT log2H','column transform of V_DCT','C41 C68 C69 C70 C71',T)
m('Transform','rowPass','(i <? 32) && (j <? 32)','(i <? 32) && (j <? 64)','coefficients beyond 32 are zero','C41 C68 C69 C70 C71',T)
m('Transform','rowPass','=? 1 then rfor_to 0 w','=? 2 then rfor_to 0 w','rectangular scaling for 2:1','C41 C68 C69 C70 C71',T)
m('Transform','dcQ','Definition dcQ (b bd : Z) : res Z := idx2 Dc_Qlookup (shr (bd - 8) 1)','Definition dcQ (b bd : Z) : res Z := idx2 Dc_Qlookup (bd - 8)','table of the bit depth','C41 C68 C69 C70 C71',T)
m('Transform','getDcQuant','if plane =? 1 then qUDc q else qVDc q','if plane =? 1 then qVDc q else qUDc q','plane delta','C41 C68 C69 C70 C71',T)
m('Transform','getAcQuant','if plane =? 1 then qUAc q else qVAc q','if plane =? 1 then qUDc q else qVAc q','plane delta','C41 C68 C69 C70 C71',T)
m('Transform','dqDenom','TX_64X16] txSz then 2','TX_64X16] txSz then 1','large transforms are scaled','C41 C68 C69 C70 C71',T)
m('Transform','dequantOne','if (i =? 0) && (j =? 0) then','if (i =? 0) then','only coefficient 0 uses the DC step','C41 C68 C69 C70 C71',T)
m('Transform','dequantOne','(shl 1 (7 + qBitDepth q) - 1)','(shl 1 (7 + qBitDepth q))','dequantised values fit','C41 C68 C69 C70 C71',T)
m('Transform','dequantOne','let sign := if dq <? 0 then -1 else 1','let sign := 1','sign kept','C41 C68 C69 C70 C71',T)
m('Transform','dequantOne','if l <? 15 then','if l <? 16 then','level 15 means no matrix','C41 C68 C69 C70 C71',T)
m('Transform','flipUD','[FLIPADST_DCT; FLIPADST_ADST; V_FLIPADST; FLIPADST_FLIPADST]','[FLIPADST_DCT; FLIPADST_ADST; H_FLIPADST; FLIPADST_FLIPADST]','flips','C41 C68 C69 C70 C71',T)
m('Transform','addResidual','(Clip1 (v + r) bd)','(v + r)','reconstructed samples fit the bit depth','C41 C68 C69 C70 C71',T)
V='PropMvStack'
K='C42 C72 C73 C74 C75'
m('MvStack','lowerComp','if 0 <? v then v - 1 else v + 1','if 0 <? v then v + 1 else v - 1','odd vectors move toward zero',K,V)
m('MvStack','lowerComp','shr (Abs v + 3) 3','shr (Abs v + 4) 3','integer vectors are rounded',K,V)
m('MvStack','lowerPrecision','if vHigh e then m else','','high precision keeps the vector',K,V)
m('MvStack','setupGlobalMv','if (ref =? INTRA_FRAME) || (typ =? IDENTITY) then','if (typ =? IDENTITY) then','intra blocks have the zero global vector',K,V)
m('MvStack','push1','(m, snd old) in let! W := upd (sWeight s) (sNum s) weight in Ok (set_stack s (sNum s + 1)','(m, snd old) in let! W := upd (sWeight s) (sNum s) weight in Ok (set_stack s (sNum s)','pushing counts',K,V)
m('MvStack','searchStack','| None => if sNum s <? MAX_REF_MV_STACK_SIZE then push1','| None => if true then push1','stack never overflows',K,V)
m('MvStack','searchStack','| Some i => addWeight i weight s','| Some i => addWeight 0 weight s','weights of equal candidates add up',K,V)
m('MvStack','searchStack','if HasNewmv candMode then set_new s (sNew s + 1) else s in\n  let s := set_found s 1','if HasNewmv candMode then set_new s (sNew s + 1) else s in\n  let s := set_found s 0','a match is recorded',K,V)
m('MvStack','compoundSearch','mv_eqb (fst c) (fst x) && mv_eqb (snd c) (snd x)','mv_eqb (fst c) (fst x)','both vectors compared',K,V)
m('MvStack','addRefMv','if i =? 0 then Ok s','if i =? 1 then Ok s','intra blocks give no candidate',K,V)
m('MvStack','scanRow','Min (Min bw4 (vMiCols e - vMiCol e)) 16','Min bw4 16','scan stays in the frame',K,V)
m('MvStack','scanLoop','if negb (isInside e mvRow mvCol) then Ok s\n      else\n        let! size','if false then Ok s\n      else\n        let! size','scan stays in the tile',K,V)
m('MvStack','scanPoint','if isInside e mvRow mvCol then let! r','if true then let! r','point scan stays in the tile',K,V)
m('MvStack','sortPass','if a <? b then','if b <? a then','sorted by falling weight',K,V)
m('MvStack','clampMvRow','(vMiRows e - bh4 - vMiRow e)','(vMiRows e - vMiRow e)','vectors stay near the frame',K,V)
m('MvStack','clampMvCol','vMiCol e * MI_SIZE * 8) - border','vMiCol e * MI_SIZE * 8) + border','vectors stay near the frame',K,V)
m('MvStack','contextAndClamping','(3 - Min numNew 1, 2 + sTotal s)','(3 - numNew, 2 + sTotal s)','contexts in range',K,V)
m('MvStack','contextAndClamping','if w1 <? REF_CAT_LEVEL then 1 else 0 else 2','if w1 <? REF_CAT_LEVEL then 1 else 0 else 3','drl contexts in 0..2',K,V)
m('MvStack','extraSearch','rfor_to (sNum s) 2','rfor_to (sNum s) 1','missing candidates are filled with the global vector',K,V)
m('MvStack','findMvStack','let! s := sorting 0 numNearest isCompound s in','','nearest candidates are sorted',K,V)
m('MvStack','findMvStack','if sNum s <? 2 then extraSearch','if sNum s <? 1 then extraSearch','at least two candidates',K,V)
m('MvStack','bonus','addWeight i REF_CAT_LEVEL s','addWeight i 0 s','nearest candidates get a bonus',K,V)

P='PropCoeffs'
K='C96 C97 C98 C99 C100 C101'
m('Coeffs','getTxSet','else if cReduced e then TX_SET_INTRA_2 else if sqr','else if cReduced e then TX_SET_INTRA_1 else if sqr','reduced sets of intra blocks',K,P)
m('Coeffs','getTxSet','else if sqr =? TX_16X16 then TX_SET_INTER_2','else if sqr =? TX_8X8 then TX_SET_INTER_2','sets of inter blocks',K,P)
m('Coeffs','getTxSet','if cReduced e || (up =? TX_32X32) then','if (up =? TX_32X32) then','reduced sets of inter blocks',K,P)
m('Coeffs','computeTxType','Ok (if (b : bool) then txType else DCT_DCT)','Ok txType','chroma types outside the set become DCT',K,P)
m('Coeffs','computeTxType','cLossless e || (TX_32X32 <? up)','(TX_32X32 <? up)','lossless blocks have DCT type',K,P)
m('Coeffs','computeTxType','idx2 types blockY blockX','idx2 types blockX blockY','luma type of the block',K,P)
m('Coeffs','getTxClass','(txType =? V_DCT) || (txType =? V_ADST)','(txType =? V_DCT)','classes of types',K,P)
m('Coeffs','getMrowScan','if t =? TX_8X16 then Mrow_Scan_8x16 else if t =? TX_16X8 then Mrow_Scan_16x8','if t =? TX_8X16 then Mrow_Scan_16x8 else if t =? TX_16X8 then Mrow_Scan_8x16','scans of vertical types',K,P)
m('Coeffs','getScan','if planeTxType =? IDTX then getDefaultScan txSz','if planeTxType =? IDTX then getMrowScan txSz','scan of identity type',K,P)
m('Coeffs','getScan','then getMrowScan txSz\n','then getMColScan txSz\n','scans of vertical types',K,P)
m('Coeffs','allZeroCtx','if Max top left <=? 3 then 4','if Max top left <? 3 then 4','all_zero context',K,P)
m('Coeffs','allZeroCtx','if w * h <? bw * bh then ctx + 3','if w * h <=? bw * bh then ctx + 3','all_zero context of chroma',K,P)
m('Coeffs','allZeroCtx','int_of (3 <? Max top left)','int_of (2 <? Max top left)','all_zero context',K,P)
m('Coeffs','maxX4','shr (cMiCols e) (int_of (cSubX e))','shr (cMiCols e) (int_of (cSubY e))','blocks beyond the frame do not count',K,P)
m('Coeffs','addSign','if v =? 1 then sign - 1','if v =? 1 then sign + 1','dc sign context',K,P)
m('Coeffs','dcSignCtx','if a <? 0 then 1 else if 0 <? a then 2','if a <? 0 then 2 else if 0 <? a then 1','dc sign context',K,P)
m('Coeffs','coeffBrCtx','if (row <? 2) && (col <? 2) then','if (row <? 2) || (col <? 2) then','br context',K,P)
m('Coeffs','coeffBrCtx','COEFF_BASE_RANGE + NUM_BASE_LEVELS + 1','COEFF_BASE_RANGE + NUM_BASE_LEVELS','br context',K,P)
m('Coeffs','coeffBrCtx','Min (shr (mag + 1) 1) 6','Min (shr mag 1) 6','br context',K,P)
m('Coeffs','coeffBrCtx','idx (cQuant s) (r * txw + c)','idx (cQuant s) (c * txw + r)','br context',K,P)
m('Coeffs','coeffBaseCtx','Z.quot (shl height bwl) 8','Z.quot (shl height bwl) 16','context of the last coefficient',K,P)
m('Coeffs','coeffBaseCtx','Min (Abs q) 3','Min (Abs q) 4','base context',K,P)
m('Coeffs','coeffBaseCtx','if txClass =? TX_CLASS_VERT then row else col','if txClass =? TX_CLASS_VERT then col else row','base context of 1D classes',K,P)
m('Coeffs','coeffBaseCtx','(r <? height) && (k <? width)','(r <? width) && (k <? height)','base context stays in the block',K,P)
m('Coeffs','eobPtCtx','TX_CLASS_2D then 0 else 1','TX_CLASS_2D then 1 else 0','eob_pt context',K,P)
m('Coeffs','transformType','if (0 <? set) && (0 <? qIndex) then','if (0 <? set) then','type is read only with a quantiser',K,P)
m('Coeffs','intraTxTypeSymbol','"IntraTxTypeSet2Cdf" [k; dir]','"IntraTxTypeSet2Cdf" [dir; k]','which cdf the type uses',K,P)
m('Coeffs','readTxType','if set =? TX_SET_INTER_1 then Tx_Type_Inter_Inv_Set1 else','if set =? TX_SET_INTER_1 then Tx_Type_Inter_Inv_Set2 else','decoded type',K,P)
m('Coeffs','readEobPt','if eobMultisize =? 4 then','if eobMultisize =? 7 then','which eob_pt element is read',K,P)
m('Coeffs','readEob','shl 1 (eobPt - 2) + 1','shl 1 (eobPt - 2)','number of coefficients',K,P)
m('Coeffs','readEob','for_to 1 (Max 0 (eobPt - 2))','for_to 0 (Max 0 (eobPt - 2))','eob_extra_bit count',K,P)
m('Coeffs','readEob','[txSzCtx; ptype; eobPt - 3]','[txSzCtx; ptype; eobPt - 2]','eob_extra context',K,P)
m('Coeffs','readBr','if v <? BR_CDF_SIZE - 1 then ret (level + v) else','if v <? BR_CDF_SIZE then ret (level + v) else','up to four increments',K,P)
m('Coeffs','readBr','Min txSzCtx TX_32X32','Min txSzCtx TX_16X16','coeff_br cdf',K,P)
m('Coeffs','readLevel','if NUM_BASE_LEVELS <? level then','if NUM_BASE_LEVELS <=? level then','when increments are read',K,P)
m('Coeffs','readLevel','if c =? eob - 1 then','if c =? eob then','the last coefficient is not zero',K,P)
m('Coeffs','golombLength','ret (length + 1) else','ret length else','golomb code',K,P)
m('Coeffs','golombData','Z.lor (shl x 1) b','Z.lor x (shl b 1)','golomb code',K,P)
m('Coeffs','readSign','if NUM_BASE_LEVELS + COEFF_BASE_RANGE <? q then','if NUM_BASE_LEVELS + COEFF_BASE_RANGE <=? q then','golomb is read for levels above 14',K,P)
m('Coeffs','readSign','if bool_of sign then 1 else 2 else snd acc','if bool_of sign then 2 else 1 else snd acc','dc category',K,P)
m('Coeffs','readSign','setQuant pos (if bool_of sign then - q else q)','setQuant pos q','sign of the first coefficient',K,P)
m('Coeffs','readBlock','(eob - 1 - k)) tt','k) tt','levels are read from the last coefficient',K,P)
m('Coeffs','readBlock','ret (Min 63 (fst r), snd r)','ret (fst r, snd r)','level context at most 63',K,P)
m('Coeffs','readBlock','(Min wl 5 + Min hl 5 - 4)','(wl + hl - 4)','eob size class',K,P)
m('Coeffs','leaveCtx','let! l := upd2 (fst a) plane (y4 + i) culLevel','let! l := upd2 (fst a) plane (x4 + i) culLevel','contexts of the block below',K,P)
m('Coeffs','leaveCtx','rfor_to 0 w4 (fun i a => let! l','rfor_to 0 (w4 - 1) (fun i a => let! l','contexts of the whole block',K,P)
m('Coeffs','coeffs','let txSzCtx := shr (sqr + up + 1) 1 in','let txSzCtx := shr (sqr + up) 1 in','transform size context',K,P)
m('Coeffs','coeffs','let ptype := int_of (0 <? plane) in','let ptype := plane in','plane type',K,P)
m('Coeffs','clearQuant','rfor_to 0 segEob (fun c q => upd q c 0)','rfor_to 1 segEob (fun c q => upd q c 0)','coefficients start at zero',K,P)
P='PropIntra'
K='C40 C76 C77 C78 C79'
m('Intra','paeth','if (pLeft <=? pTop) &&','if (pLeft <? pTop) &&','Paeth prefers left on ties',K,P)
m('Intra','dcIntra','shr (w + h) 1) (w + h)','shr w 1) (w + h)','DC is the rounded mean',K,P)
m('Intra','dcIntra','(Clip1 (shr (s + shr h 1) log2H) bd)','(Clip1 (shr (s + shr h 1) log2W) bd)','DC of the left column',K,P)
m('Intra','smoothIntra','(256 - wy) * l\' + wx * l +','(255 - wy) * l\' + wx * l +','smooth prediction',K,P)
m('Intra','smoothIntra','let! l := idx L i in let! a\' := idx A (w - 1) in\n      Round2 (wx * l + (256 - wx) * a\') 8','let! l := idx L i in let! a\' := idx A (h - 1) in\n      Round2 (wx * l + (256 - wx) * a\') 8','horizontal smooth prediction',K,P)
m('Intra','filterCorner','l * 5 + c * 6 + a * 5','l * 5 + c * 5 + a * 6','corner filter',K,P)
m('Intra','edgeStrength','if 56 <=? d then 1 else 0','if 40 <=? d then 1 else 0','filter strength',K,P)
m('Intra','upsampleSel','w + h <=? 16 else','w + h <? 16 else','edge upsampling',K,P)
m('Intra','dirDx','(180 - pAngle)','(pAngle - 90)','slope',K,P)
m('Intra','dirSample','if base <? maxBaseX then','if base <=? maxBaseX then','beyond the edge the last sample is used',K,P)
m('Intra','dirSample','let ix := (j + 1) * dy in','let ix := j * dy in','prediction from the left',K,P)
m('Intra','aboveSample','Ok (shl 1 (bd - 1) - 1)','Ok (shl 1 (bd - 1))','base value above',K,P)
m('Intra','aboveSample','Min maxX (x + 2 * w - 1)','Min maxX (x + w - 1)','above right samples',K,P)
m('Intra','corner','else if haveAbove then idx3 f plane yM1 x','else if haveAbove then Ok (shl 1 (bd - 1))','corner sample',K,P)
m('Intra','predictor','if (plane =? 0) && iUseFilterIntra e then','if iUseFilterIntra e then','filter intra is for luma',K,P)
m('Intra','isDirectionalMode','(mode <=? D67_PRED)','(mode <? D67_PRED)','directional modes',K,P)
m('Intra','predictIntra','let! f := fill (fun i j => idx2 p i j)','let! f := fill (fun i j => idx2 p j i)','prediction is stored row by row',K,P)
P='PropWrapup'
K='C43 C85 C86 C87 C88 C89 C90 C91'
m('Upscale','upSum','k - SUPERRES_FILTER_OFFSET','k','filter is centred',K,P)
m('Upscale','upSample','Ok (Clip1 v (uBitDepth e))','Ok v','samples fit',K,P)
m('Upscale','upPlane','let maxX := miW * MI_SIZE - 1 in','let maxX := miW * MI_SIZE in','stays in the frame',K,P)
m('Upscale','upPlane','let! planeH := Round2 (uFrameHeight e) subY in','let! planeH := Round2 (uFrameHeight e) subX in','all rows of the plane',K,P)
m('Restoration','getSourceSample','Max (sStartY s - 2) y','Max (sStartY s - 3) y','two rows above a stripe',K,P)
m('Restoration','boxCoeffs','if 255 <=? z then 256','if 256 <=? z then 256','box filter weights',K,P)
m('Restoration','boxWeight','if dx =? 0 then 6 else 5','if dx =? 0 then 5 else 6','box filter weights',K,P)
m('Restoration','selfGuidedFilter','w1 * u + w0 * a + w2 * b','w2 * u + w0 * a + w1 * b','weights of the two passes',K,P)
m('Restoration','selfGuidedFilter','(Clip1 t (rBitDepth e))','t','samples fit',K,P)
m('Restoration','loopRestoration','if negb (ty =? RESTORE_NONE) then','if (ty =? RESTORE_NONE) then','planes without restoration stay',K,P)
m('Restoration','loopRestoration','if negb (rUsesLr e) then Ok (rCdef e) else','if negb (rUsesLr e) then Ok (rCurr e) else','without restoration the cdef frame is the result',K,P)
m('Restoration','lrGeometry','let stripeNum := Z.quot (lumaY + 8) 64 in','let stripeNum := Z.quot lumaY 64 in','stripes are offset by 8',K,P)
m('Wrapup','refreshed','Z.land (shr flags i) 1 =? 1','Z.land (shr flags i) 1 =? 0','only refreshed slots change',K,P)
m('Wrapup','storePlane','let! v := idx3 lr plane y x in upd3 g plane y x v','let! v := idx3 lr plane y x in upd3 g plane x y v','stored frame',K,P)
m('Wrapup','refUpdateSlot','Ok (mkSlot 1 (iUpscaledWidth e)','Ok (mkSlot (sValid s) (iUpscaledWidth e)','slots become valid',K,P)
m('Wrapup','refUpdateSlot','(iRenderWidth e) (iRenderHeight e)','(iRenderHeight e) (iRenderWidth e)','saved render size',K,P)
m('Wrapup','refUpdateSlot','storeGm (iGm e) (sGm s)','storeGm (sGm s) (sGm s)','saved global motion',K,P)
m('Wrapup','outNew','outPlane (fun y x => idx3 lr 2 y x)','outPlane (fun y x => idx3 lr 1 y x)','V plane is shown',K,P)
m('Wrapup','outputProcess','if filmGrainPresent && applyGrain then Panic','if filmGrainPresent || applyGrain then Panic','grain is only refused when present',K,P)
m('Wrapup','decodeFrameWrapup','if wShowFrame w || wShowExisting w then','if wShowFrame w then','shown frames are output',K,P)
m('Wrapup','decodeFrameWrapup','(wSegUpdateMap w =? 0)','(wSegUpdateMap w =? 1)','segment map carried over',K,P)
m('Wrapup','filterFrame','let! cdef := cdefProcess (cenvOf w) curr cdef in','let! cdef := cdefProcess (cenvOf w) cdef cdef in','cdef reads the deblocked frame',K,P)

P='PropModeInfo'
K='C102 C103 C104 C105 C106 C107 C108 C109 C110'
m('ModeInfo','intraFrameYModeSymbol','[above; left]','[left; above]','contexts of the luma mode',K,P)
m('ModeInfo','intraFrameYModeSymbol','idx2 (bYModes e) (bMiRow e) (bMiCol e - 1)','idx2 (bYModes e) (bMiRow e) (bMiCol e)','left neighbour of the luma mode',K,P)
m('ModeInfo','prevSegIds','if bAvailU e && bAvailL e then','if bAvailU e || bAvailL e then','corner segment id needs both neighbours',K,P)
m('ModeInfo','predSegId','else if ul =? u then u else l','else if ul =? u then l else u','predicted segment id',K,P)
m('ModeInfo','segIdCtx','if (ul =? u) && (ul =? l) then 2','if (ul =? u) || (ul =? l) then 2','context of the segment id',K,P)
m('ModeInfo','readSegmentId','NegDeinterleave v pred (bLastActive e + 1)','NegDeinterleave v pred (bLastActive e)','number of segments',K,P)
m('ModeInfo','readSegmentId','if skip =? 1 then ret pred','if skip =? 0 then ret pred','skipped blocks take the predicted id',K,P)
m('ModeInfo','readSkip','let* s := if bSegPreSkip e =? 1 then','let* s := if bSegPreSkip e =? 0 then','the skip feature counts only with ids before skip',K,P)
m('ModeInfo','readSkip','[a + l]','[a + a]','context of skip',K,P)
m('ModeInfo','intraSegmentId','if bSegEnabled e then readSegmentId e skip else ret 0','if bSegEnabled e then readSegmentId e 0 else ret 0','no id is read for skipped blocks',K,P)
m('ModeInfo','readCdef','if bool_of skip || bCodedLossless e','if bCodedLossless e','skipped blocks have no cdef index',K,P)
m('ModeInfo','readCdef','elit (bDisable e) (bCdefBits e)','elit (bDisable e) (bCdefBits e + 1)','bits of the cdef index',K,P)
m('ModeInfo','readCdef','if old =? -1 then','if old =? 0 then','the cdef index is read once',K,P)
m('ModeInfo','sbSkipped','if bUse128 e then BLOCK_128X128 else BLOCK_64X64','if bUse128 e then BLOCK_64X64 else BLOCK_128X128','whole skipped superblocks have no deltas',K,P)
m('ModeInfo','readDelta','ret (x + shl 1 n + 1)','ret (x + shl 1 n)','escaped magnitudes',K,P)
m('ModeInfo','readDelta','let n := n + 1 in','','length of escaped magnitudes',K,P)
m('ModeInfo','readDelta','(if bool_of s then - a else a)','(if bool_of s then a else - a)','sign of deltas',K,P)
m('ModeInfo','readDeltaQIndex','Clip3 1 255','Clip3 0 255','the index stays at least 1',K,P)
m('ModeInfo','readDeltaQIndex','shl d (bQRes e)','d','delta resolution',K,P)
m('ModeInfo','readDeltaLf','if 1 <? bNumPlanes e then FRAME_LF_COUNT else FRAME_LF_COUNT - 2','if 1 <? bNumPlanes e then FRAME_LF_COUNT - 2 else FRAME_LF_COUNT','number of loop filter deltas',K,P)
m('ModeInfo','readDeltaLf','"DeltaLFMultiCdf" [i]','"DeltaLFMultiCdf" [0]','table per level',K,P)
m('ModeInfo','readDeltaLf','readDeltas && bLfPresent e','readDeltas','deltas only if present',K,P)
m('ModeInfo','intraAngleInfo','if (BLOCK_8X8 <=? bMiSize e) && isDirectionalMode mode','if (BLOCK_8X8 <? bMiSize e) && isDirectionalMode mode','8x8 blocks have angles',K,P)
m('ModeInfo','intraAngleInfo','ret (v - MAX_ANGLE_DELTA)','ret v','angle deltas are centred',K,P)
m('ModeInfo','cflAlpha','[(sign - 1) * 3 + other]','[(other - 1) * 3 + sign]','context of alphas',K,P)
m('ModeInfo','cflAlpha','then - (1 + a) else 1 + a','then - a else a','alphas start at 1',K,P)
m('ModeInfo','readCflAlphas','let signU := Z.quot (signs + 1) 3 in','let signU := Z.quot signs 3 in','sign of the first alpha',K,P)
m('ModeInfo','readCflAlphas','let* v := cflAlpha dis signV signU in','let* v := cflAlpha dis signU signV in','second alpha',K,P)
m('ModeInfo','uvModeSymbol','(Max w h <? 32)','(Max w h <? 64)','cfl limit',K,P)
m('ModeInfo','uvModeSymbol','Ok (b =? BLOCK_4X4)','Ok (negb (b =? BLOCK_4X4))','lossless cfl',K,P)
m('ModeInfo','paletteModeInfo','[w + h - 2; a + l]','[w + h - 1; a + l]','context of the palette flag',K,P)
m('ModeInfo','filterIntraModeInfo','if Max w h <=? 32','if Max w h <? 32','filter intra limit',K,P)
m('ModeInfo','intraChroma','if m =? UV_CFL_PRED','if ymode =? UV_CFL_PRED','alphas follow a chroma from luma mode',K,P)
m('ModeInfo','intraFrameModeInfo','if negb (bool_of (bSegPreSkip e)) then intraSegmentId e skip','if bool_of (bSegPreSkip e) then intraSegmentId e skip','the segment id is read once',K,P)
m('ModeInfo','intraFrameModeInfo','if bHasChroma e then','if negb (bHasChroma e) then','chroma modes only for blocks with chroma',K,P)
m('ModeInfo','intraFrameModeInfo','(w <=? 64) && (h <=? 64)','(w <? 64) && (h <? 64)','palette limit',K,P)
m('ModeInfo','intraFrameModeInfo','let* ref := lift (upd ref 0 NONE) in','','reference frames',K,P)
P='PropTxSize'
K='C111 C112 C113'
m('TxSize','getAboveTxWidth','if bool_of s then let! i := idx2 (wIsInters e) (row - 1) col in Ok (bool_of i) else Ok false','Ok (bool_of s)','width above',K,P)
m('TxSize','getAboveTxWidth','(row - 1) col in idx Tx_Width t','(row - 1) col in idx Tx_Height t','width above',K,P)
m('TxSize','getLeftTxHeight','if row =? wMiCol e then','if col =? wMiCol e then','(repairs the code)',K,P)
m('TxSize','aboveWidth','in idx BLOCK_WIDTH b','in idx BLOCK_HEIGHT b','width above',K,P)
m('TxSize','leftHeight','else if wAvailU e then getLeftTxHeight','else if wAvailL e then getLeftTxHeight','(repairs the code)',K,P)
m('TxSize','txDepthSymbol','int_of (mw <=? aw)','int_of (mw <? aw)','context of the depth',K,P)
m('TxSize','txDepthSymbol','int_of (mh <=? lh)','int_of (mh <=? aw)','context of the depth',K,P)
m('TxSize','txDepthSymbol','if maxDepth =? 4 then','if maxDepth =? 5 then','table of the depth',K,P)
m('TxSize','readTxSize','if wLossless e then ret TX_4X4','if wLossless e then ret TX_8X8','lossless blocks use 4x4',K,P)
m('TxSize','readTxSize','if (BLOCK_4X4 <? wMiSize e) &&','if (BLOCK_4X4 <=? wMiSize e) &&','4x4 blocks read no depth',K,P)
m('TxSize','readTxSize','rfor_to 0 d','rfor_to 0 (d + 1)','number of splits',K,P)
m('TxSize','readBlockTxSize','(wMiCol e) (wMiCol e + bw4) tx','(wMiCol e) (wMiCol e + bh4) tx','the size is recorded over the block',K,P)
m('TxSize','readBlockTxSize','negb (bool_of (wSkip e)) || bool_of (wIsInter e)','negb (bool_of (wSkip e)) || negb (bool_of (wIsInter e))','(repairs the code)',K,P)
m('TxSize','readBlockTxSize','bool_of (wIsInter e) && negb (bool_of (wSkip e)) &&','bool_of (wIsInter e) &&','skipped blocks have no tree',K,P)
P='PropBlock'
K='C114 C115 C116 C117 C118'
m('Block','placeBlock','(bh4 =? 1) && subY && (Z.land r 1 =? 0)','(bh4 =? 1) && subY && (Z.land r 1 =? 1)','odd rows have chroma',K,P)
m('Block','placeBlock','1 <? planes','true','monochrome',K,P)
m('Block','placeBlock','if subY && (bh4 =? 1) then isInside g (r - 2) c else u','u','chroma row above',K,P)
m('Block','placeBlock','isInside g r (c - 2)','isInside g (r - 2) c','chroma column to the left',K,P)
m('Block','storeBefore','(r0 =? INTRA_FRAME) && chroma','(r0 =? INTRA_FRAME) || chroma','chroma modes of blocks with chroma',K,P)
m('Block','storeBefore','let! f := idx (vRefFrame v) k in upd3 g y x k f','let! f := idx (vRefFrame v) 0 in upd3 g y x k f','both reference frames',K,P)
m('Block','storeBefore','upd2 (rCompoundIdxs a) y x (vCompoundIdx v)','upd2 (rCompoundIdxs a) y x (vCompGroupIdx v)','compound index',K,P)
m('Block','storesBefore','storeBefore v chroma stIsInter (r + y) (c + x) a','storeBefore v chroma stIsInter (r + x) (c + y) a','rows and columns',K,P)
m('Block','storeAfter','upd2 (rSkips a) y x (vSkip v)','upd2 (rSkips a) y x (vSkipMode v)','skip flags',K,P)
m('Block','storeAfter','upd3 p0 1 y x (vPaletteSizeUV v)','upd3 p0 1 y x (vPaletteSizeY v)','palette sizes',K,P)
m('Block','storeAfter','rfor_to 0 FRAME_LF_COUNT','rfor_to 0 (FRAME_LF_COUNT - 1)','all loop filter deltas',K,P)
m('Block','storesAfter','rfor_to 0 bh4 (fun y a => rfor_to 0 bw4 (fun x a => storeBefore','rfor_to 1 bh4 (fun y a => rfor_to 0 bw4 (fun x a => storeBefore','first row',K,P)
m('Block','resetBlockContext','(shr (miCol + bw4) sx)','(shr (miCol + bw4 - 1) sx)','contexts of the whole block',K,P)
m('Block','resetBlockContext','let sy := if 0 <? plane then int_of subY else 0 in','let sy := if 0 <? plane then int_of subX else 0 in','vertical subsampling',K,P)
m('Block','resetBlockContext','let! a := upd2 (xLL t) plane i 0 in let! b := upd2 (xLD t) plane i 0 in','let! a := upd2 (xLL t) plane i 0 in let! b := Ok (xLD t) in','left DC contexts',K,P)
m('Block','decodeBlock','if bool_of stSkip then','if bool_of (vSkip v) then','(repairs the code)',K,P)

K='C122 C123 C124 C125';P='PropMvRead'
m('MvRead','readMvBits','[i] in readMvBits dis n (i + 1)','[i + 1] in readMvBits dis n (i + 1)','each integer bit has its own table',K,P)
m('MvRead','readMvBits','(shl mvBit 1)','(shl mvBit i)','(repairs the code)',K,P)
m('MvRead','readMvClass0','if int then ret 3 else esym dis "MvClass0FrCdf"','if negb int then ret 3 else esym dis "MvClass0FrCdf"','no fraction is read for integer vectors',K,P)
m('MvRead','readMvClass0','"MvClass0FrCdf" [comp; mvClass0Bit]','"MvClass0FrCdf" [mvClass0Bit; comp]','the fraction table is that of component and integer bit',K,P)
m('MvRead','readMvClass0','"MvClass0HpCdf" [] else ret 1','"MvClass0HpCdf" [] else ret 0','without high precision the last bit is 1',K,P)
m('MvRead','readMvClass0','mvClass0Hp + 1)','mvClass0Hp)','magnitudes start at 1',K,P)
m('MvRead','readMvLong','shl CLASS0_SIZE (mvClass + 2)','shl CLASS0_SIZE (mvClass + 1)','class c starts at 2^(c+3)',K,P)
m('MvRead','readMvLong','esym dis "MvFrCdf" [comp]','esym dis "MvClass0FrCdf" [comp; 0]','the fraction of long components has its own table',K,P)
m('MvRead','readMvLong','(Z.to_nat mvClass) 0 0','(Z.to_nat (mvClass - 1)) 0 0','class c has c integer bits',K,P)
m('MvRead','readMvComponent','then - mag else mag','then mag else - mag','sign 1 is negative',K,P)
m('MvRead','readMvComponent','"MvClassCdf" [comp]','"MvClassCdf" [1 - comp]','each component has its class table',K,P)
m('MvRead','readMv','(mvJoint =? MV_JOINT_HZVNZ) ||','(mvJoint =? MV_JOINT_HNZVZ) ||','the joint says which components are coded',K,P)
m('MvRead','readMv','snd pred + d1','snd pred - d1','the difference is added',K,P)
m('MvRead','readMv','(fst pred + d0, snd pred + d1)','(fst pred + d1, snd pred + d0)','component 0 is the row',K,P)
m('MvRead','getMode','(ymode =? NEW_NEARESTMV) || (ymode =? NEW_NEARMV) then NEWMV','(ymode =? NEAREST_NEWMV) || (ymode =? NEW_NEARMV) then NEWMV','the first vector of NEW_NEARESTMV is new',K,P)
m('MvRead','getMode','(ymode =? NEW_NEARESTMV) then NEARMV','(ymode =? NEW_NEARESTMV) then NEARESTMV','(repairs the code)',K,P)
m('MvRead','getMode','if ymode <? NEAREST_NEARESTMV then ymode','if ymode <? NEWMV then ymode','single modes are their own',K,P)
m('MvRead','intrabcPred','then Ok (0, - (sbSize4 * MI_SIZE + INTRABC_DELAY_PIXELS) * 8)','then Ok (0, - (sbSize4 * MI_SIZE) * 8)','the first row starts 256 samples further left',K,P)
m('MvRead','intrabcPred','Ok (1, snd p)','Ok (- (sbSize4 * MI_SIZE * 8), 0)','(repairs the code)',K,P)
m('MvRead','intrabcPred','aMiRow e - sbSize4 <? aRowStart e','aMiRow e - sbSize4 <=? aRowStart e','first row of superblocks of the tile',K,P)
m('MvRead','intrabcPred','let! s1 := idx (aStack e) 1 in Ok (fst s1)','let! s1 := idx (aStack e) 1 in Ok (snd s1)','the second candidate of list 0',K,P)
m('MvRead','assignOne','(aNum e <=? 1)','(aNum e <=? 0)','a new vector uses the first candidate if only one was found',K,P)
m('MvRead','assignOne','if compMode =? NEARESTMV then 0 else aRefMvIdx e','if compMode =? NEARMV then 0 else aRefMvIdx e','nearest is the first candidate',K,P)
m('MvRead','assignOne','else ret (pm, put2 i (sel i pm) (snd g))','else ret (pm, put2 i (sel 0 pm) (snd g))','the second vector is predicted from the second list',K,P)
m('MvRead','assignOne','Ok (put2 i (sel i (aGlobal e)) (fst g))','Ok (put2 i (sel 0 (aGlobal e)) (fst g))','global motion of each reference',K,P)
m('MvRead','assignMv','for_to 0 (1 + isCompound)','for_to 0 1','compound blocks have two vectors',K,P)
K='C126 C127 C128 C129';P='PropLrRead'
m('LrRead','subexpLoop','then let* v := elit dis 1 in ret (v + mk)\n      else','then let* v := elit dis 1 in ret v\n      else','the value of the last round is counted from mk (unreachable with the parameters in use)',K,P)
m('LrRead','subexpLoop','numSyms <=? - mk + 3 * a','numSyms <=? mk + 3 * a','(repairs the code) last round',K,P)
m('LrRead','subexpLoop','(i + 1) (mk + a)','(i + 1) mk','each round starts after the values of the last',K,P)
m('LrRead','subexpLoop','else let* v := elit dis b2 in ret (v + mk)','else let* v := elit dis b2 in ret v','the value counts from the start of the round',K,P)
m('LrRead','subexpLoop','if bool_of more then subexpLoop','if negb (bool_of more) then subexpLoop','1 means go on',K,P)
m('LrRead','subexpLoop','else let* v := elit dis b2','else let* v := elit dis (b2 + 1)','a round has b2 bits',K,P)
m('LrRead','decodeUnsignedSubexpWithRefBool','if shl r 1 <=? mx','if shl r 1 <? mx - 2','the side of the reference is chosen at the middle',K,P)
m('LrRead','decodeUnsignedSubexpWithRefBool','mx - 1 - InverseRecenter (mx - 1 - r) v','mx - InverseRecenter (mx - 1 - r) v','recentred from the upper end',K,P)
m('LrRead','decodeSignedSubexpWithRefBool','(high - low) k (r - low) in ret (x + low)','(high - low) k r in ret (x + low)','reference relative to low',K,P)
m('LrRead','decodeSignedSubexpWithRefBool','ret (x + low)','ret x','low is added back',K,P)
m('LrRead','readLrType','else esym (lDis e) "RestorationTypeCdf" []','else bS','switchable planes read a symbol',K,P)
m('LrRead','readXqd','idx p (i * 2)','idx p i','the radius of filter i is entry 2i',K,P)
m('LrRead','readXqd','if i =? 1 then let* r','if i =? 0 then let* r','the second weight follows from the first',K,P)
m('LrRead','readXqd','Clip3 min max (shl 1 SGRPROJ_BITS - r)','Clip3 min max (shl 1 SGRPROJ_BITS + r)','weights sum to 128',K,P)
m('LrRead','readXqd','upd4 (lXqd g) plane row col i v','upd4 (lXqd g) plane row col 0 v','weight i is stored at i',K,P)
m('LrRead','readXqd','upd2 (lRefX g) plane i v','upd2 (lRefX g) 0 i v','prediction of the plane',K,P)
m('LrRead','readXqd','decodeSignedSubexpWithRefBool (lDis e) min (max + 1) SGRPROJ','decodeSignedSubexpWithRefBool (lDis e) min max SGRPROJ','the range includes max',K,P)
m('LrRead','readLrUnit','upd3 (lType g) plane row col ty','upd3 (lType g) 0 row col ty','type of the plane',K,P)
m('LrRead','readLrUnit','upd3 (lSet g) plane row col set','upd3 (lSet g) plane row col 0','the set is stored',K,P)
m('LrRead','readLrUnit','for_to 0 2 (fun i g => readXqd','for_to 0 1 (fun i g => readXqd','two weights',K,P)
m('LrRead','lrUnits','unitSize - 1) unitSize, Min unitRows','unitSize) unitSize, Min unitRows','rounded up',K,P)
m('LrRead','lrUnits','Z.quot ((r + h) * shr MI_SIZE subY','Z.quot ((r + w) * shr MI_SIZE subX','height of the superblock',K,P)
m('LrRead','lrUnits','if lSuper e then shr MI_SIZE subX * lDenom e else','if lSuper e then shr MI_SIZE subX * SUPERRES_NUM else','superresolution scales columns',K,P)
m('LrRead','lrUnits','if lSuper e then unitSize * SUPERRES_NUM else unitSize','unitSize','in eighths',K,P)
m('LrRead','lrUnits','let! pw := Round2 (lWidth e) subX','let! pw := Round2 (lHeight e) subX','width of the plane',K,P)
m('LrRead','lrUnits','let subY := if lSubY e then 1 else 0','let subY := if lSubX e then 1 else 0','vertical subsampling',K,P)
m('LrRead','lrUnits','let subY := if lSubY e then 1 else 0','let subY := if (plane =? 0) then 0 else if lSubY e then 1 else 0','(repairs the code) luma is not subsampled',K,P)
m('LrRead','readLr','if lIntraBc e then ret g','if negb (lIntraBc e) then ret g','no restoration with intra block copy',K,P)
P='PropResidual'
m('Residual','findTxSize','findFrom (Z.to_nat TX_SIZES_ALL) 0','findFrom (Z.to_nat TX_SIZES_ALL - 1) 1','starts at the first size','C135',P)
m('Residual','getTxSize','(w =? 64) || (h =? 64)','(w =? 64) && (h =? 64)','64x16 is limited too','C135',P)
m('Residual','getTxSize','if w =? 16 then Ok TX_16X32 else if h =? 16 then Ok TX_32X16','if h =? 16 then Ok TX_16X32 else if w =? 16 then Ok TX_32X16','orientation','C135',P)
m('Residual','getTxSize','if plane =? 0 then Ok txSz','if plane =? 1 then Ok txSz','luma keeps its size','C135',P)
m('Residual','getTxSize','let! uvTx := idx Max_Tx_Size_Rect b in','let! uvTx := idx Max_Tx_Size_Rect miSize in','size of the chroma block','C135',P)
m('Residual','transformTree','(maxX <=? startX) || (maxY <=? startY) then Ok a','(maxX <? startX) || (maxY <? startY) then Ok a','parts at the edge are outside','C131',P)
m('Residual','transformTree','idx2 (rInterTx e) (shr startY MI_SIZE_LOG2) (shr startX MI_SIZE_LOG2)','idx2 (rInterTx e) (shr startX MI_SIZE_LOG2) (shr startY MI_SIZE_LOG2)','row and column','C131',P)
m('Residual','transformTree','(w <=? lumaW) && (h <=? lumaH)','(w <=? lumaW) || (h <=? lumaH)','fits in both directions','C131',P)
m('Residual','transformTree','transformTree fuel e (startX + Z.quot w 2) startY (Z.quot w 2) h a','transformTree fuel e startX (startY + Z.quot w 2) (Z.quot w 2) h a','halves side by side','C131',P)
m('Residual','transformTree','else if h <? w then','else if w <? h then','the longer side is halved','C131',P)
m('Residual','transformTree','let! a := transformTree fuel e (startX + Z.quot w 2) startY (Z.quot w 2) (Z.quot h 2) a in\n            let! a := transformTree fuel e startX (startY + Z.quot h 2) (Z.quot w 2) (Z.quot h 2) a in','let! a := transformTree fuel e startX (startY + Z.quot h 2) (Z.quot w 2) (Z.quot h 2) a in\n            let! a := transformTree fuel e (startX + Z.quot w 2) startY (Z.quot w 2) (Z.quot h 2) a in','raster order of quarters','C131',P)
m('Residual','transformTree','tb 0 startX startY t 0 0 a','tb 0 startX startY lumaTx 0 0 a','the size of the part','C131',P)
m('Residual','residualPlane','if rLossless e then Ok TX_4X4','if rLossless e then Ok (rTx e)','lossless uses 4x4','C130',P)
m('Residual','residualPlane','let stepX := shr tw 2','let stepX := shr th 2','step is the width','C130',P)
m('Residual','residualPlane','rInter e && negb (rLossless e) && (plane =? 0)','rInter e && (plane =? 0)','lossless has no tree','C130',P)
m('Residual','residualPlane','(plane =? 0) then transformTree','(plane <? 3) then transformTree','only luma has a tree','C131',P)
m('Residual','residualPlane','let subY := if 0 <? plane then int_of (rSubY e) else 0 in\n    let baseX','let subY := int_of (rSubY e) in\n    let baseX','luma is not subsampled','C130',P)
m('Residual','residualPlane','let baseYBlock := shr (rRow e) subY * MI_SIZE','let baseYBlock := shr (rRow e) subX * MI_SIZE + 4','position of the block','C130',P)
m('Residual','residualPlane','tb plane baseXBlock baseYBlock','tb plane baseYBlock baseXBlock','x before y','C130',P)
m('Residual','residual','(1 + int_of (rChroma e) * 2)','(1 + int_of (rChroma e))','two chroma planes','C130',P)
m('Residual','residual','rfor_to 0 heightChunks (fun chunkY a => rfor_to 0 widthChunks (fun chunkX a =>','rfor_to 1 heightChunks (fun chunkY a => rfor_to 0 widthChunks (fun chunkX a =>','the first chunk','C130',P)
m('Residual','residual','let! bw := idx (repeat 0 64) (rSize e) in','let! bw := idx (repeat 128 64) (rSize e) in','chunks of small blocks','C130',P)
m('Residual','predictBlock','(plane =? 0) && bool_of (tPalY q) || negb (plane =? 0) && bool_of (tPalUV q)','bool_of (tPalY q) || bool_of (tPalUV q)','palette of the plane','C132',P)
m('Residual','predictBlock','else if isCfl then DC_PRED else tUV q','else tUV q','chroma from luma starts from DC','C132',P)
m('Residual','predictBlock','(condL || (0 <? x))','(condL || (0 <=? x))','left edge of the block','C132',P)
m('Residual','predictBlock','let condU := if plane =? 0 then tUC q else tU q','let condU := if plane =? 0 then tLC q else tL q','above','C132',P)
m('Residual','predictBlock','idxb3 (tsDec s) plane y2 x1','idxb3 (tsDec s) plane y1 x1','above right','C132',P)
m('Residual','predictBlock','let y1 := shr sbRow subY + stepY','let y1 := shr sbRow subY + stepX','below left','C132',P)
m('Residual','predictBlock','if isCfl then cfl plane','if negb isCfl then cfl plane','luma is added for CFL only','C132',P)
m('Residual','predictBlock','(startX + stepX * 4) (startY + stepY * 4)','(stepX * 4) (stepY * 4)','extent of luma','C132',P)
m('Residual','transformBlock','let startY := baseY + 4 * y in','let startY := baseY + 4 * x in','offset','C132',P)
m('Residual','transformBlock','if (maxX <=? startX) || (maxY <=? startY) then Ok s','if (maxX <=? startX) && (maxY <=? startY) then Ok s','outside the frame','C132',P)
m('Residual','transformBlock','if tSkip q then Ok (tsA s) else','if negb (tSkip q) then Ok (tsA s) else','skipped blocks have no coefficients','C132',P)
m('Residual','transformBlock','if 0 <? fst r then recon','if 1 <? fst r then recon','one coefficient is enough','C132',P)
m('Residual','transformBlock','upd3 (tsLf s) plane (shr row subY + i) (shr col subX + j) txSz','upd3 (tsLf s) plane (shr row subY + i) (shr col subX) txSz','every column is recorded','C132',P)
m('Residual','transformBlock','(shr sbRow subY + i) (shr sbCol subX + j) true','(shr row subY + i) (shr col subX + j) true','position in the superblock','C132',P)
m('Residual','transformBlock','if rInter e then Ok s else predictBlock','if negb (rInter e) then Ok s else predictBlock','inter blocks are predicted elsewhere','C132',P)
m('Residual','transformBlock','let sbMask := if t128 q then 21 else 15','let sbMask := if t128 q then 31 else 7','superblock of 64','C132',P)
m('Residual','palettePrediction','idx2 map (y * 4 + i) (x * 4 + j)','idx2 map i j','position in the block','C134',P)
m('Residual','palettePrediction','0 h 0 w f','0 w 0 h f','height and width','C134',P)
m('Residual','palettePrediction','(fun i => startY + i) (fun j => startX + j)','(fun i => startX + i) (fun j => startY + j)','position','C134',P)
m('Residual','palettePrediction','let map := if plane =? 0 then colorMap else []','let map := colorMap','(repairs part of the code) chroma uses the empty map','C134',P)
m('Residual','lumaAt','Min (shl (startY + i) subY) (maxH - shl 1 subY)','shl (startY + i) subY','luma ends at the coded part','C133',P)
m('Residual','lumaAt','rfor_to 0 (subX + 1)','rfor_to 0 subX','two samples in a row','C133',P)
m('Residual','lumaAt','shl t (3 - subX - subY)','shl t 3','scaled to 8 times the average','C133',P)
m('Residual','lumaTable','snd acc + v','v','total','C133',P)
m('Residual','predictChromaFromLuma','if plane =? 0 then alphaU else alphaV','if plane =? 1 then alphaU else alphaV','(repairs the code) alpha of the plane','C133',P)
m('Residual','predictChromaFromLuma','upd3 f plane (startY + i) (startX + j) (Clip1','upd3 f plane (startY + i) (startX + j + 1) (Clip1','position','C133',P)
m('Residual','clearCols','(if (y <? 0) && (x <? w4) then true','(if (x <? w4) then true','flags set','C136',P)
m('Residual','clearRows','clearRows fuel (fst r + 1)','clearRows fuel (y + 1)','(repairs part of the code) the loop variable is not overwritten','C136',P)
m('Residual','clearBlockDecodedFlags','updb3 d plane (shr sbSize4 subY) (zlen l - 1) false','updb3 d plane (shr sbSize4 subY) 0 false','last column','C136',P)
m('Residual','clearBlockDecodedFlags','updb3 d plane (shr sbSize4 subY) (zlen l - 1) false','updb3 d 0 (shr sbSize4 subY) (zlen l - 1) false','of the plane','C136',P)
m('Residual','clearForSuperblock','if use128 then BLOCK_128X128 else BLOCK_64X64','if use128 then 32 else 16','(repairs part of the code) width in units of 4','C136',P)
P='PropPredictInter'; I='PredictInter'
m(I,'roundVariables','if isCompound then 7 else 11','if isCompound then 11 else 7','gain of the filters','C137',P)
m(I,'roundVariables','let r0 := if bitDepth =? 12 then r0 + 2 else r0 in','let r0 := if bitDepth =? 12 then r0 + 1 else r0 in','gain in 12 bit','C137',P)
m(I,'roundVariables','then r1 - 2 else r1 in','then r1 else r1 in','gain in 12 bit','C137',P)
m(I,'checkScale','negb (rw <=? 2 * pFW e)','negb (rw <? 2 * pFW e)','twice as large is allowed','C138',P)
m(I,'checkScale','negb (pFH e <=? 16 * rh)','negb (pFH e <=? 8 * rh)','sixteen times smaller is allowed','C138',P)
m(I,'checkScale','else if negb (pFW e <=? 16 * rw) then Panic else','else','smaller references are refused','C138',P)
m(I,'scaleOf','+ Z.quot cur 2) cur)','+ cur) cur)','rounded ratio','C139',P)
m(I,'isScaled','negb (xScale =? noScale) || negb (yScale =? noScale)','negb (xScale =? noScale) && negb (yScale =? noScale)','either side','C138',P)
m(I,'isScaled','idx (pIdx e) (refFrame - LAST_FRAME)','idx (pIdx e) refFrame','reference of the frame','C138',P,count=2)
m(I,'motionVectorScaling','let origX := x * 16 + shr (2 * snd mv) (subx e plane)','let origX := x * 16 + shr (2 * fst mv) (subx e plane)','horizontal component','C139',P)
m(I,'motionVectorScaling','let origY := y * 16 + shr (2 * fst mv) (suby e plane)','let origY := y * 16 + shr (2 * fst mv) (subx e plane)','vertical subsampling','C139',P)
m(I,'motionVectorScaling','Ok (sx + off, sy + off, stepX, stepY)','Ok (sy + off, sx + off, stepX, stepY)','order of the results','C139',P)
m(I,'motionVectorScaling','let baseY := origY * yScale','let baseY := origY * xScale','scale of the side','C139',P)
m(I,'shortFilter','if side <=? 4 then','if side <? 4 then','short filter for four samples','C140',P)
m(I,'shortFilter','else if filter =? EIGHTTAP_SMOOTH then 5','else if filter =? EIGHTTAP_SMOOTH then 4','smooth short filter','C140',P)
m(I,'interH','(shr y 10 + r - 3)','(shr y 10 + r)','three rows above','C140',P)
m(I,'interH','(shr p 10 + t - 3)','(shr p 10 + t - 4)','taps are centred','C140',P)
m(I,'interH','Clip3 0 lastY','Clip3 1 lastY','clamped to the picture','C140',P,count=2)
m(I,'interV','Z.land y 1023 + yStep * r','Z.land y 1023 + yStep * c','row','C140',P)
m(I,'interV','idx2 inter (shr p 10 + t) c','idx2 inter (shr p 10) c','taps over the rows','C140',P)
m(I,'taps','rfor_to 0 8','rfor_to 0 7','eight taps','C137 C140',P,count=2)
m(I,'blockInter','(shortFilter w f1)','(shortFilter h f1)','width for the horizontal filter','C140',P)
m(I,'blockInter','let! f0 := idx3 (pFilters e) candRow candCol 0 in','let! f0 := idx3 (pFilters e) candRow candCol 1 in','vertical filter','C140',P)
m(I,'blockInter','SCALE_SUBPEL_BITS + 8 in','SCALE_SUBPEL_BITS + 7 in','rows for the taps','C140',P)
m(I,'resolveDivisor','if d <? 0 then - k else k','k','sign','C141',P)
m(I,'resolveDivisor','n + DIV_LUT_PREC_BITS','n + DIV_LUT_PREC_BITS + 1','(repairs the code) shift','C141',P)
m(I,'resolveDivisor','Abs d - shl 1 n','Abs d','fraction','C141',P)
m(I,'reduceParam','shl r WARP_PARAM_REDUCE_BITS','r','scaled back','C142',P)
m(I,'setupShear','4 * Abs alpha + 7 * Abs beta','4 * Abs alpha + 4 * Abs beta','limit of the horizontal shear','C142',P)
m(I,'setupShear','&& negb (shl 1 WARPEDMODEL_PREC_BITS <=? 4 * Abs gamma','|| negb (shl 1 WARPEDMODEL_PREC_BITS <=? 4 * Abs gamma','both limits','C142',P)
m(I,'setupShear','let beta0 := Clip3 (-32768) 32767 p3 in','let beta0 := Clip3 (-32768) 32767 p4 in','beta from the third parameter','C142',P)
m(I,'setupShear','(p2 - shl 1 WARPEDMODEL_PREC_BITS)','(p2)','alpha relative to one','C142',P)
m(I,'useWarpOf','if (w <? 8) || (h <? 8) then Ok 0','if (w <=? 8) || (h <=? 8) then Ok 0','8x8 blocks are warped','C143',P)
m(I,'useWarpOf','negb s && globalValid','s && globalValid','scaled references are not warped','C143',P)
m(I,'predictInter','let isCompound := INTRA_FRAME <? second in','let isCompound := INTRA_FRAME <=? second in','inter-intra is not compound','C143 C145',P)
m(I,'predictInter','idx3 (pRefFrames e) candRow candCol 1 in','idx3 (pRefFrames e) candRow candCol 0 in','second reference','C143',P)
m(I,'predictInter','else if kCompound k =? COMPOUND_DIFFWTD then maskWrites w h','','kinds that are refused','C143',P)
m(I,'predictInter','(kCompound k =? COMPOUND_WEDGE) && (plane =? 0)','(kCompound k =? COMPOUND_WEDGE) && (plane =? 1)','wedges are set up in luma','C143',P)
m(I,'predictInter','let! v := idx2 preds i j in upd3 f plane (y + i) (x + i) (Clip1 v (pBd e))','let! v := idx2 preds i j in upd3 f plane (y + i) (x + j) (Clip1 v (pBd e))','(repairs part of the code) column','C145',P)
m(I,'predictInter','let! v := idx2 preds i j in upd3 f plane (y + i) (x + i) (Clip1 v (pBd e))','let! v := idx2 preds i j in upd3 f plane (y + i + 1) (x + i) (Clip1 v (pBd e))','row','C145',P)
m(I,'overlapBlending','m * c + (64 - m) * o','m * o + (64 - m) * c','weight of the block itself','C144',P)
m(I,'overlapBlending','if negb pass then idx mask i else idx mask j','if pass then idx mask i else idx mask j','row or column','C144',P)
m(I,'overlapBlending','(64 - m) * o) 6','(64 - m) * o + 32) 6','rounding','C144',P)
m(I,'overlapBlending','upd3 f plane (predY + i) (predX + j) v','upd3 f plane (predY + j) (predX + i) v','position','C144',P)
m(I,'overlapLeft','overlapOne e r0 r1 plane (kCol k) y4 predW predH candRow candCol false','overlapOne e r0 r1 plane (kCol k) y4 predW predH candRow candCol true','(repairs the code) weights by column','C144',P)
m('Util','GetObmcMask','else if length =? 8 then Obmc_Mask_8','else if length =? 8 then Obmc_Mask_16','mask of the length','C144',P)
P='PropComputePrediction'
m(I,'computePlane','let baseX := shr (kCol k) subX * MI_SIZE in','let baseX := kCol k * MI_SIZE in','position in the plane','C146',P)
m(I,'computePlane','let candRow := shl (shr (kRow k) subY) subY in','let candRow := kRow k in','even unit','C146',P)
m(I,'computePlane','(cRef1 q =? INTRA_FRAME)','(cRef1 q =? LAST_FRAME)','inter-intra','C146',P)
m(I,'computePlane','let predW := if some : bool then num4x4W * 4 else shr bw subX in','let predW := if some : bool then num4x4W * 4 else bw in','width in the plane','C146',P)
m(I,'computePlane','let predH := if some then num4x4H * 4','let predH := if some then num4x4H','height in samples','C146',P)
m(I,'computePlane','let candCol := if some then kCol k else candCol in','','own vector','C146',P)
m(I,'computePlane','if rf =? INTRA_FRAME then true else s','if rf =? INTRA_FRAME then true else false','any unit','C146',P)
m(I,'computePlane','rfor_to 0 (shl num4x4W subX)','rfor_to 0 num4x4W','all units','C146',P)
m(I,'computePlane','shr subBlockMiRow subY - 1','shr subBlockMiRow subY','row above','C146',P)
m(I,'computePrediction','1 + int_of (cChroma q) * 2','1 + int_of (cChroma q)','three planes','C146',P)
m(I,'stepLoop','stepLoop fuel (i + st) n st f a','stepLoop fuel (i + 1) n st f a','step','C146',P)
I='InterMode';P='PropInterMode PropInterSeg PropInterBlock'
m(I,'neighbours','idx3 (nRefs e) (bMiRow b - 1) (bMiCol b) 0','idx3 (nRefs e) (bMiRow b) (bMiCol b) 0','neighbour above','C147',P)
m(I,'neighbours','idx3 (nRefs e) (bMiRow b) (bMiCol b - 1) 1 else Ok NONE','idx3 (nRefs e) (bMiRow b) (bMiCol b - 1) 0 else Ok NONE','second reference of the left neighbour','C147',P)
m(I,'leftIntra','nbL0 n <=? INTRA_FRAME','nbL0 n <? INTRA_FRAME','intra neighbours','C149',P)
m(I,'countRefs','if nbA1 n =? frameType','if nbA0 n =? frameType + 1','both references count','C147',P)
m(I,'countRefs','if bAvailL (nB e) then let c := if nbL0 n','if bAvailU (nB e) then let c := if nbL0 n','left neighbour counts if available','C147',P)
m(I,'refCountCtx','if counts0 <? counts1 then 0','if counts0 <=? counts1 then 0','context','C147',P)
m(I,'fwdCount','+ countRefs e n LAST3_FRAME + countRefs e n GOLDEN_FRAME','+ countRefs e n LAST3_FRAME','forward references','C147',P,count=1)
m(I,'bwdCount','+ countRefs e n ALTREF_FRAME','','backward references','C147',P)
m(I,'singleRefP3Symbol','(countRefs e n LAST3_FRAME + countRefs e n GOLDEN_FRAME); 2]','(countRefs e n LAST3_FRAME + countRefs e n GOLDEN_FRAME); 3]','table of the third flag','C147',P)
m(I,'singleRefP6Symbol','(countRefs e n ALTREF2_FRAME); 5]','(countRefs e n ALTREF_FRAME); 5]','context of the sixth flag','C147',P)
m(I,'readSingleRef','if bool_of p6 then ALTREF2_FRAME else BWDREF_FRAME','if bool_of p6 then BWDREF_FRAME else ALTREF2_FRAME','reference read','C147',P)
m(I,'readSingleRef','if bool_of p4 then LAST2_FRAME else LAST_FRAME','if bool_of p4 then LAST_FRAME else LAST2_FRAME','reference read','C147 C155',P)
m(I,'readRefFrames','(2 <=? Min bw4 bh4)','(3 <=? Min bw4 bh4)','blocks with comp_mode','C147',P)
m(I,'readRefFrames','idx2 (nFeatureData e) seg SEG_LVL_REF_FRAME) in ret (a, NONE)','idx2 (nFeatureData e) SEG_LVL_REF_FRAME seg) in ret (a, NONE)','reference of the segment','C147',P)
m(I,'readRefFrames','idx (nSkipFrame e) 1','idx (nSkipFrame e) 0','references of skip mode','C147',P)
m(I,'getSegmentId','Min (nCols e - bMiCol b) bw4','Min (nCols e - bMiCol b) bh4','only inside the block','C148',P)
m(I,'getSegmentId','Min seg v','Max seg v','least segment','C148',P)
m(I,'getSegmentId','(bMiRow b + y) (bMiCol b + x) in Ok','(bMiRow b + x) (bMiCol b + y) in Ok','positions of the map','C148',P)
m(I,'segPredContext','upd c (bMiCol b + i) v) ctx','upd c (bMiCol b) v) ctx','all columns are cleared','C148',P)
m(I,'interSegmentId','else ret (predicted, ctx)','else ret (0, ctx)','predicted segment','C148',P)
m(I,'interSegmentId','else if nTemporal e =? 1 then panic','else if nTemporal e =? 0 then panic','reading without temporal update','C148',P)
m(I,'readSkipMode','(w <? 8) || (h <? 8)','(w <? 8) || (w <? 8)','sizes with skip mode','C149',P)
m(I,'readSkipMode','negb (bool_of (nSkipPresent e))','bool_of (nSkipPresent e)','skip mode of the frame','C149 C155',P)
m(I,'isInterCtx','if leftIntra n && aboveIntra n then 3','if leftIntra n && aboveIntra n then 2','context','C149 C155',P)
m(I,'isInterCtx','if bAvailU b then 2 * int_of (aboveIntra n)','if bAvailU b then int_of (aboveIntra n)','context','C149 C155',P)
m(I,'readIsInter','ret (int_of (negb (v =? INTRA_FRAME)))','ret (int_of (v =? INTRA_FRAME))','reference of the segment','C149',P)
m(I,'SIZE_GROUP','[0; 0; 0; 1; 1; 1; 2; 2; 2; 3; 3; 3; 3; 3; 3; 3; 0; 0; 1; 1; 2; 2]','[0; 0; 0; 1; 1; 1; 2; 2; 2; 3; 3; 3; 3; 3; 3; 3; 0; 0; 1; 1; 2; 3]','class of sizes','C150',P)
m(I,'uvModeInter','(Max w h <=? 32)','(Max w h <? 32)','limit of chroma from luma','C150',P)
m(I,'uvModeInter','Ok (b =? BLOCK_4X4)','Ok (b =? 1)','chroma from luma in lossless blocks','C150',P)
m(I,'interChroma','intraAngleInfo e m in ret','intraAngleInfo e 0 in ret','chroma angle','C150',P)
m(I,'intraBlockModeInfo','let* yang := intraAngleInfo e ymode in','let* yang := ret 0 in','luma angle','C150 C155',P)
m(I,'readInterMode','if newMv =? 0 then ret NEWMV','if newMv =? 1 then ret NEWMV','mode','C151 C155',P)
m(I,'readInterMode','"ZeroMvCdf" [zeroCtx]','"ZeroMvCdf" [newCtx]','context','C151 C155',P)
m(I,'readInterMode','if zeroMv =? 0 then ret GLOBALMV','if zeroMv =? 0 then ret NEARESTMV','mode','C151 C155',P)
m(I,'readInterMode','if (g : bool) then ret GLOBALMV','if (g : bool) then ret NEARESTMV','segments with global motion','C151',P)
m(I,'drlLoop','if i + 1 <? found then panic','if i <? found then panic','candidates','C151',P)
m(I,'readDrl','drlLoop found 1 1','drlLoop found 1 0','index of near candidates','C151',P)
m(I,'addSample','if r0 =? 0 then Ok s','if r0 =? 0 then Ok (fst s + 1, snd s + 1)','samples','C152',P)
m(I,'addSample','(mvRow <? nRowEnd e)','(mvRow <? nColStart e)','inside the tile','C152',P)
m(I,'samplesAbove','Ok (0, 0, true, true)','Ok (1, 0, true, true)','samples','C152',P)
m(I,'readMotionMode','if Min w h <? 8 then','if Min w h <? 16 then','small blocks are simple','C152',P)
m(I,'readMotionMode','else if negb (nSwitchable e) then ret SIMPLE','else if nSwitchable e then ret SIMPLE','frames without motion modes','C152 C155',P)
m(I,'readMotionMode','Ok (TRANSLATION <? t)','Ok (t <? TRANSLATION)','global warps','C152',P)
m(I,'needsInterpFilter','Ok (t =? TRANSLATION)','Ok (t <? TRANSLATION)','filter is coded','C153',P)
m(I,'needsInterpFilter','bool_of skipMode || (motion =? LOCALWARP)','bool_of skipMode','warped blocks','C153',P)
m(I,'readInterpFilter','ret EIGHTTAP','ret 1','regular filter','C153',P)
m(I,'readInterpFilter','else for_to 0 2 (fun dir','else for_to 0 1 (fun dir','both directions','C153 C155',P)
m(I,'readInterpFilter','if negb (nDual e) then let* v','if nDual e then let* v','both directions','C153',P)
m(I,'readCompoundType','if nMasked e then panic else if nJnt e','if nMasked e && nJnt e then panic else if nJnt e','which compound blocks can be read','C154',P)
m(I,'readCompoundType','if bool_of wedge then COMPOUND_WEDGE else COMPOUND_INTRA','if bool_of wedge then COMPOUND_INTRA else COMPOUND_WEDGE','type of inter-intra','C154',P)
m(I,'readInterIntraMode','if bool_of skipMode && nIiEnabled','if negb (bool_of skipMode) && nIiEnabled','when inter-intra is read','C154 C155',P)
m(I,'interBlockModeInfo','readDrl ymode found','readDrl ymode newCtx','candidates','C155',P)
m(I,'interBlockModeInfo','ret (mkInterInfo ref ymode i mv ii','ret (mkInterInfo ref ymode 0 mv ii','index stored','C155',P)
m(I,'interFrameModeInfo','readCdef (nB e) skip g','readCdef (nB e) skipMode g','skipped blocks have no CDEF index','C155',P)
m(I,'interFrameModeInfo','readDeltaLf (nB e) skip readDeltas lf','readDeltaLf (nB e) 0 readDeltas lf','skipped superblocks','C155',P)
m(I,'interFrameModeInfo','if bool_of isInter then let* i := interBlock','if negb (bool_of isInter) then let* i := interBlock','inter flag','C155',P)
T_='TileGroup'
P='PropTileGroup PropDecoder'
m(T_,'goappend','if zlen (elems s) <? capa s then capa s','if zlen (elems s) <? capa s + 1 then capa s','the fourth superblock','C157',P)
m(T_,'ClearCdef','growTo (Z.to_nat (c + 1)) (c + 1) 0 row','growTo (Z.to_nat c) c 0 row','indices of a superblock','C157',P)
m(T_,'resetAt','upd (elems row) c (-1)','upd (elems row) c 0','index is reset to -1','C157',P)
m(T_,'CdefSize4','Z := 0','Z := 16','128x128 superblocks (fixed)','C157',P)
m(T_,'ClearCdef','resetAt r c (mkSlice rows (capa g))','resetAt c r (mkSlice rows (capa g))','which index is reset','C157',P)
m(T_,'zeroDeltaLF','rfor_to 0 FRAME_LF_COUNT','rfor_to 1 FRAME_LF_COUNT','all deltas start at zero','C159',P)
m(T_,'initRefs','rfor_to 0 2 (fun pass','rfor_to 0 1 (fun pass','both passes','C159',P)
m(T_,'initRefs','upd2 (fst a) plane pass m','upd2 (fst a) plane 0 m','restoration references','C159',P)
m(T_,'startSuperblock','(yDeltaQ e) cdef decoded','(xReadDeltas x) cdef decoded','delta flag from the header','C159',P)
m(T_,'startTile','above (xLeft x) dlf','(xAbove x) (xLeft x) dlf','above context is cleared','C159',P)
m(T_,'startRow','(xAbove x) left (xDeltaLF x)','(xAbove x) (xLeft x) (xDeltaLF x)','left context is cleared','C159',P)
m(T_,'decodeTile','ctxop (startTile g) ;;','ret tt ;;','start of a tile','C158 C159',P)
m(T_,'startTile','clearContext (MiCols g)','clearContext (MiColEnd g - MiColStart g)','size of the contexts','C158 C159',P)
m(T_,'groupHeader','if (NumTiles =? 1) || negb present then','if (NumTiles =? 1) || present then','which tiles are in the group','C156',P)
m(T_,'groupHeader','ret (0, NumTiles - 1)','ret (0, NumTiles)','which tiles are in the group','C156',P)
m(T_,'groupHeader','let bits := TileColsLog2 t + TileRowsLog2 t in','let bits := TileColsLog2 t in','bits of a tile number','C156',P)
m(T_,'groupHeader','ByteAlignment ;; ret r','ret r','alignment','C156',P)
m(T_,'oneTile','Z.quot k (TileCols t)','Z.quot k (TileRows t)','rectangle of a tile','C156',P)
m(T_,'oneTile','let tileSize := m + 1 in','let tileSize := m in','bytes of a tile','C156',P)
m(T_,'oneTile','sz - (tileSize + TileSizeBytes t)','sz - tileSize','bytes of the last tile','C156',P)
m(T_,'oneTile','if k =? tgEnd then ret (sz, sz)','if k =? tgEnd - 1 then ret (sz, sz)','the last tile has no size','C156',P)
m(T_,'oneTile','r0 r1 c0 c1) baseQ','c0 c1 r0 r1) baseQ','rectangle of a tile','C156',P)
m(T_,'oneTile','r0 r1 c0 c1) baseQ','r0 r1 c0 c1) (0 * baseQ + gQIndex g)','base quantizer index','C156',P)
m(T_,'oneTile','  onDec exitSymbol ;;','  ret tt ;;','padding is skipped','C156',P)
m(T_,'oneTile','restop (saveCdfs k) ;;','restop (saveCdfs 0) ;;','tile whose tables are saved','C156',P)
m(T_,'tileLoop','tileLoop n tgEnd (k + 1) sz','tileLoop n tgEnd k sz','order of the tiles','C156',P)
m(T_,'buildTileGroup','Z.to_nat (tgEnd - tgStart + 1)','Z.to_nat (tgEnd - tgStart)','every tile is decoded','C156 C158',P)
m(T_,'buildTileGroup','(sz - headerBytes)','sz','bytes of the last tile','C156',P)
m(T_,'buildTileGroup','if tgEnd =? TileCols t * TileRows t - 1 then','if tgEnd =? TileCols t * TileRows t then','frame is completed','C156',P)
D_='Decoder'
m(D_,'NewTileGroupOf','(mkGrid (St_MiRows h) (St_MiCols h) 0 0 0 0)','(mkGrid (St_MiCols h) (St_MiRows h) 0 0 0 0)','size of the frame','C158','PropDecoder')
m(D_,'NewTileGroupOf','if fin then false else SeenFrameHeader d','SeenFrameHeader d','frame is completed','C158','PropDecoder')
m(D_,'NewHeaderOf','mkDState (OperatingPointIdc d) (SeenFrameHeader d) (mkDecState h (','mkDState (OperatingPointIdc d) (SeenFrameHeader d) (mkDecState (sHeader (other d)) (','header of the frame is used','C158','PropDecoder')
P='PropTerminates'
m('Residual','clearRows','(fst r + 1) hy hx','(fst r) hy hx','the loop over rows stops','C160',P)
m('Residual','clearCols','clearCols fuel (x + 1) hx','clearCols fuel x hx','the loop over columns stops','C160',P)
m('Partition','sbCols','(c + sb4)','c','the loop over superblocks stops','C160',P)
m('Partition','sbRows','(r + sb4)','r','the loop over rows of superblocks stops','C160',P)
m('TileGroup','growTo','(goappend s x)','s','the loop that grows stops','C160',P)
m('TileGroup','growTo','capa s <? n','zlen (elems s) <? capa s + n','the loop that grows stops','C160',P)
m('Obu','padding_loop','if negb (b =? 0) then padding_loop f','if negb (b =? 0) || true then padding_loop f','terminates','C160','ObuProofs PropTerminates')
m('Obu','payload','let* r := NewTileGroup P size uh sh d in','modify (fun s => set_pos s (Position s - 1)) ;; let* r := NewTileGroup P size uh sh d in','never moves back','C160','ObuProofs PropTerminates')
m('TileGroup','oneTile','onDec (initSymbol tileSize) ;;','onDec (modify (fun d => mkDec (SymbolValue d) 0 (8 * tileSize) (Bits d))) ;;','registers in range','C160',P)
m('Symbol','initSymbol','Min (sz * 8) 15','sz * 8','at most 15 bits are read at the start','C161','PropSymbolAny')
m('Symbol','ReadSymbol','Min bits (Max 0 (SymbolMaxBits d))','Min bits (SymbolMaxBits d)','no bits after the end','C161','PropSymbolAny')
m('Symbol','ReadSymbol','let paddedData := shl newData (bits - numBits) in','let paddedData := shl newData bits in','registers in range','C161','PropSymbolAny')
m('Symbol','ReadSymbol','if bits <? 0 then panic','if (bits <? 0) || (SymbolMaxBits d <? bits) then panic','reading beyond the end of a tile gives zeros','C161','PropSymbolAny')
m('Symbol','initSymbol','(15 - numBits)','(16 - numBits)','registers in range','C161','PropSymbolAny')
P='PropPalette'
m('Palette','addColor','if negb (v =? l) then store','if negb (v =? l) || true then store','no duplicates','C162',P)
m('Palette','mergeColors','if leftC <? aboveC then','if aboveC <? leftC then','ascending','C162',P)
m('Palette','mergeColors','(if leftC =? aboveC then leftIdx + 1 else leftIdx)','(leftIdx + 1)','all colors of the left that are small enough','C162',P)
m('Palette','mergeColors','let! a := addColor leftC a in','let! a := addColor aboveC a in','colors of the left are stored','C162',P)
m('Palette','getPaletteCache','(Z.rem (MiRow * 4) 64)','(Z.rem (MiRow * 4) 128)','colors above only within the superblock row','C162',P)
m('Palette','getPaletteCache','rfor_to (fst r) aboveN','rfor_to (fst r + 1) aboveN','all colors above','C162',P)
m('Palette','getPaletteCache','let left := fun i => let! l := idx3 colors plane MiRow (MiCol - 1)','let left := fun i => let! l := idx3 colors plane (MiRow - 1) (MiCol - 1)','colors of the block to the left','C162',P)
m('Palette','getPaletteCache','(0, cache) in','(1, cache) in','only colors of the neighbours','C162',P)
m('Palette','addColor','upd cache n v in Ok (n + 1, cache\')','upd cache n v in Ok (n, cache\')','every color is counted','C162',P)
m('Palette','getPaletteColorContext','let! s := upd (fst a) i 0 in let! o := upd (snd a) i i in Ok (s, o)) ([], colorOrder) in','let! s := upd (fst a) i 0 in let! o := upd (snd a) i i in Ok (s, o)) (repeat 0 8, colorOrder) in','the score table is nil','C163',P)
m('Palette','paletteTokens','if bool_of sizeUV then','if bool_of sizeY then','a chroma palette is read','C163',P)
m('Palette','mapTokens','for_to 1 (oh + ow - 1)','for_to 1 (oh + ow - 7)','every diagonal is read','C163',P)
P='PropMasks'
m('Masks','differenceMask','38 + Z.quot diff 16','38 - Z.quot diff 16','difference weights','C164',P)
m('Masks','differenceMask','(BitDepth - 8 + post)','post','difference scaled by bit depth','C164',P)
m('Masks','differenceMask','upd2 m i j (64 - c) else upd2 m i j c','upd2 m i j c else upd2 m i j (64 - c)','mask_type swaps the sides','C164',P)
m('Masks','differenceMask','Clip3 0 64','Clip3 0 63','weights up to 64','C164',P)
m('Masks','intraMask','Z.quot MAX_SB_SIZE (Max h w)','Z.quot MAX_SB_SIZE w','weights scaled to the longer side','C164',P)
m('Masks','intraMask','(Min i j * sizeScale)','(Max i j * sizeScale)','smooth weights','C164',P)
m('Masks','intraMask','if InterIntraMode =? II_V_PRED then idx Ii_Weights_1d (i *','if InterIntraMode =? II_V_PRED then idx Ii_Weights_1d (j *','vertical weights','C164',P)
m('Masks','maskAt','let! a := idx2 mask y (2 * x) in','let! a := idx2 mask y x in','weights averaged horizontally','C165',P)
m('Masks','maskAt','Round2 (a + b + c + d) 2','Round2 (a + b + c + d) 1','mean of four weights','C165',P)
m('Masks','maskBlend','Round2 (m * p + (64 - m) * pred1) (6 + post)','Round2 (m * pred1 + (64 - m) * p) (6 + post)','first prediction gets m parts','C165',P)
m('Masks','maskBlend','Round2 (m * p + (64 - m) * pred1) (6 + post)','Round2 (m * p + (64 - m) * pred1) (7 + post)','the mean is of 64 parts','C165',P)
m('Masks','maskBlend','let sx := if plane =? 0 then 0','let sx := if plane =? 1 then 0','subsampling of the plane','C165',P)
m('Masks','maskBlend','let! pred1 := idx3 f plane (y + dstY) (x + dstX) in','let! pred1 := idx3 f plane (y + dstY) dstX in','the intra prediction of the same sample','C165',P)
m('Masks','quantEntry','d1 * c1 <? d0 * c0 else','d0 * c0 <? d1 * c1 else','class of the ratio','C166',P)
m('Masks','quantWeights','int_of (d0 <=? d1)','int_of (d0 <? d1)','equal distances favour the second','C166',P)
m('Masks','quantWeights','let! f := idx2 Quant_Dist_Lookup i order in\n  let! b := idx2 Quant_Dist_Lookup i (1 - order)','let! f := idx2 Quant_Dist_Lookup i (1 - order) in\n  let! b := idx2 Quant_Dist_Lookup i order','nearer reference heavier','C166',P)
m('Masks','distanceWeightsOf','upd d refList (Clip3 0','upd d (1 - refList) (Clip3 0','distance of each reference','C166',P)
m('Masks','distanceWeightsOf','MAX_FRAME_DISTANCE','30','distances to 31','C166',P)
P='PropBlock'
m('Block','storeBefore','(1 + int_of (INTRA_FRAME <? r1))','1','both vectors are recorded','C116',P)
m('Block','storeBefore','(1 + int_of (INTRA_FRAME <? r1))','2','no second vector without second reference','C116',P)
m('Block','storeBefore','let! m := idx (vMv v) k in','let! m := idx (vMv v) 0 in','the vector of each reference','C116',P)
P='PropTransform'
m('Transform','inverseIdentity8','v * 2','v * 4','identity 8 doubles','C70',P)
m('Transform','inverseIdentity32','v * 4','v * 2','identity 32 quadruples','C70',P)
m('Transform','flipLR','DCT_FLIPADST; ADST_FLIPADST;','DCT_FLIPADST;','every left-right flipped type is flipped','C71',P)
m('Transform','reconstruct','(shl 1 log2W) (shl 1 log2H)','(shl 1 log2H) (shl 1 log2W)','only samples of the block change','C71',P)
m('Transform','rowPass','if (i <? 32) && (j <? 32)','if (i <? 32) && (j <? 16)','every coefficient of the row','C70',P)
m('Transform','rowPass','v * 2896','v * 2897','rectangular blocks are scaled by 1/sqrt 2','C70',P)
m('Transform','colPass','upd2 R i j v','upd2 R j i v','column pass stores columns','C70',P)
m('Transform','dequantize','Min 32 (shl 1 log2H)','Min 32 (shl 1 log2W)','every coefficient is dequantized','C68',P)
P='PropCdef PropPipeline'
m('Cdef','cdefGetAt','y0 + i + sign * d0','y0 + i - sign * d0','taps on the line of the direction','C39',P)
m('Cdef','cdefGetAt','shr (shl y subY) MI_SIZE_LOG2','shr y MI_SIZE_LOG2','taps in the frame are used','C39',P)
m('Cdef','cdefGetAt','idx3 f plane y x in Ok (Some v)','idx3 f plane x y in Ok (Some v)','the tap is the sample at its position','C39',P)
m('Cdef','cdefFilter','shr (c * MI_SIZE) subX','shr (c * MI_SIZE) subY','block position is subsampled','C39',P)
m('Cdef','cdefFilter','let h := shr 8 subY','let h := shr 8 subX','all samples of the block','C39',P)
m('Cdef','cdefFilter','upd3 g plane (y0 + i) (x0 + j) v','upd3 g plane (y0 + j) (x0 + i) v','each sample gets its filtered value','C39',P)
P='PropCdef'
m('Cdef','cdefPixel','accum p 3 (3 + i - Z.quot j 2)','accum p 3 (3 + i - Z.quot j 4)','lines of direction 3','C67',P)
m('Cdef','cdefPixel','accum p 5 (3 - Z.quot i 2 + j)','accum p 5 (3 - Z.quot j 2 + i)','lines of direction 5','C67',P)
m('Cdef','cdefPixel','shr s (cBitDepth e - 8) - 128','shr s (cBitDepth e - 8)','samples are centred','C67',P)
m('Cdef','cdefDirection','cdefPartials e f (shl c MI_SIZE_LOG2) (shl r MI_SIZE_LOG2)','cdefPartials e f (shl r MI_SIZE_LOG2) (shl c MI_SIZE_LOG2)','direction of the block','C67',P)
P='PropIntra PropIntraMore'
m('Intra','sumTo','Ok (s + v)','Ok (s + v + 1)','DC is the mean','C40',P)
m('Intra','smWeights','if log2 =? 3 then Sm_Weights_Tx_8x8','if log2 =? 3 then Sm_Weights_Tx_4x4','weights of the size','C40',P)
m('Intra','isSmooth','idx2 (iYModes e) row col','idx2 (iYModes e) col row','mode of the neighbour','C119',P)
m('Intra','isSmooth','(mode =? SMOOTH_PRED) || (mode =? SMOOTH_V_PRED)','(mode =? SMOOTH_PRED)','smooth neighbours select the filter','C119',P)
m('Intra','getFilterType','(iMiRow e - 1 -','(iMiRow e - 2 -','neighbour above','C119',P)
m('Intra','edgeFilter','if strength =? 0','if strength =? 1','strength 0 does not filter','C119',P)
m('Intra','directionalEdges','(24 <=? w + h)','(16 <=? w + h)','corner filter of large blocks','C119',P)
m('Intra','interp','u * (32 - shift) + v * shift','v * (32 - shift) + u * shift','linear interpolation','C78',P)
m('Intra','dirDy','Dr_Intra_Derivative (270 - pAngle)','Dr_Intra_Derivative (pAngle - 180)','slope of the angle','C78',P)
m('Intra','beforeX','idx row (x - 1)','idx row x','column left of the block','C77',P)
m('Intra','fillAbove','(w + h - 1)','(w + h)','w+h-1 samples are filled','C77',P)
m('Intra','fillLeft','shl 1 (bd - 1) + 1','shl 1 (bd - 1)','grey plus one','C77',P)
m('Intra','fillLeft','Min maxY (y + h - 1)','Min maxY (y + 2 * h - 1)','the last decoded row','C77',P)
m('Intra','prepareEdges','let! L := upd L (zlen L - 1) c in','let! L := upd L 0 c in','corner in both buffers','C77',P)
m('Intra','maxXof','(iMiCols e * MI_SIZE) (int_of (iSubX e))','(iMiCols e * MI_SIZE) (int_of (iSubY e))','frame edge','C77',P)
m('Intra','maxYof','else iMiRows e * MI_SIZE - 1','else iMiRows e * MI_SIZE','frame edge','C77',P)
P='PropBox'
m('Restoration','boxSums','(a + c * c, b + c)','(a + c, b + c)','sum of squares','C120',P)
m('Restoration','boxSums','rfor_to (- r) (r + 1) (fun dy','rfor_to (- r) r (fun dy','the whole window','C120',P)
m('Restoration','boxTables','(x + j) (y + i) r','(x + i) (y + j) r','window around the sample','C120',P)
m('Restoration','boxTables','(boxAt i) (boxAt j) b2','(boxAt j) (boxAt i) b2','coefficients kept per position','C120',P)
m('Restoration','boxWeighted','boxWeight pass i dy dx','boxWeight pass i dx dy','weights','C120',P)
m('Restoration','boxFilter','bool_of (Z.land i 1) then 4 else 5','bool_of (Z.land i 1) then 5 else 4','scale of odd rows','C120',P)
m('Restoration','boxFilter','Round2 (a * c + b)','Round2 (b * c + a)','filtered sample','C120',P)
m('Restoration','boxFilter','Z.quot n2e 2) n2e','Z.quot n2e 2) n','noise parameter','C120',P)
P='PropWrapup PropPipeline'
m('Restoration','wienerCoefficient','upd filter (6 - 1) c','upd filter (6 - i) c','taps as in the code','C89',P)
m('Restoration','loopRestoreBlock','if ty =? RESTORE_WIENER','if ty =? RESTORE_SWITCHABLE','a Wiener block is Wiener filtered','C89',P)
m('Restoration','loopRestoreBlock','(bUnitRow b) (bUnitCol b) in\n','(bUnitCol b) (bUnitRow b) in\n','the unit of the block','C88',P)
m('Wrapup','storeGm','rfor_to LAST_FRAME (ALTREF_FRAME + 1)','rfor_to LAST_FRAME ALTREF_FRAME','every global motion is stored','C43',P)
m('Wrapup','setHint','(sBitDepth s) h (sOrderHints s)','(sBitDepth s) (sOrderHint s) (sOrderHints s)','the order hint is stored','C43',P)
m('Wrapup','refHints','if refreshed flags i then','if refreshed flags (i + 1) then','only refreshed slots','C43',P)
m('Wrapup','refUpdate','upd l i s\' in','upd l 0 s\' in','refreshed slots only','C43',P)
m('Wrapup','outExisting','idx3 (sStore s) 1 x y','idx3 (sStore s) 1 y x','shown as the code does','C91',P)
m('Wrapup','storeGrid','idx2 src row col','idx2 src col row','saved data','C85',P)
P='PropWrapup'
m('Upscale','upStep','Z.quot uw 2','uw','rounded step','C87',P)
m('Upscale','upInitial','Z.quot err 2','err','centred','C87',P)
m('Upscale','upSrcX','initialSubpelX + x * stepX','initialSubpelX + (x + 1) * stepX','aligned','C87',P)
P='PropPredictInter PropComputePrediction'
m('PredictInter','subx','int_of (pSubX e)','int_of (pSubY e)','subsampling','C138',P)
m('PredictInter','suby','if plane =? 0 then 0','if plane =? 1 then 0','subsampling','C138',P)
m('PredictInter','overlapOne','shr (x4 * 4) (subx e plane)','shr (x4 * 4) (suby e plane)','overlapped position','C143',P)
m('PredictInter','overlapAbove','Min w (shr (step4 * MI_SIZE)','Min h (shr (step4 * MI_SIZE)','overlapped width','C143',P)
m('PredictInter','overlapAbove','let candRow := kRow k - 1','let candRow := kRow k','neighbour above','C143',P)
m('PredictInter','overlapAbove','if INTRA_FRAME <? rf','if INTRA_FRAME <=? rf','inter neighbours only','C143',P)
m('PredictInter','predictOne','idx3 (pRefFrames e) candRow candCol refList','idx3 (pRefFrames e) candRow candCol 0','reference of the list','C141',P)
P='PropMvStack PropMvStackMore'
m('MvStack','scanCol','Min (Min bh4 (vMiRows e - vMiRow e)) 16','Min (Min bh4 (vMiCols e - vMiCol e)) 16','rows beside the block','C95',P)
m('MvStack','scanCol','1 - Z.land (vMiRow e) 1','Z.land (vMiRow e) 1','rows beside the block','C95',P)
m('MvStack','temporalSample','addWeight 0 2 s','addWeight 0 640 s','temporal candidates weigh 2','C95',P,count=2)
m('MvStack','temporalSample','sNum s <? MAX_REF_MV_STACK_SIZE','sNum s <=? MAX_REF_MV_STACK_SIZE','at most eight candidates','C75',P,count=2)
m('MvStack','sortLoop','sortLoop n\' start ne isCompound st W','sortLoop n\' start (ne - 1) isCompound st W','sorted','C42',P)
m('MvStack','addExtra','if sNum s =? 0 then push1','if sNum s =? 8 then push1','at most eight candidates','C75',P)
m('MvStack','clampMv','MV_BORDER + bh * 8','MV_BORDER + bw * 8','own height beyond the frame','C73',P)
m('MvStack','clampMv','clampMvCol e (snd m)','clampMvCol e (fst m)','nearest vector','C73',P)
m('MvStack','push2','(sNum s + 1)','(sNum s)','counted','C74',P)
m('MvStack','findMv2','&& mv_eqb (snd m) (snd x)','','equal in both vectors','C95',P)
m('MvStack','addWeight','(w + weight)','weight','weights are summed','C74',P)
P='PropFrameHeader'
m('UncompressedHeader','readSegFeatures','times 8 (let* r := for_to 0 SEG_LVL_MAX','times 7 (let* r := for_to 0 SEG_LVL_MAX','all eight segments','C50',P)
m('UncompressedHeader','readCdefStrength','ret (up, bump3 us)','ret (up, us)','strength 3 means 4','C51',P)
m('UncompressedHeader','readCdefStrength','if 1 <? numPlanes then let* up','if 3 <? numPlanes then let* up','chroma strengths','C51',P)
m('UncompressedHeader','frameReferenceMode','if frameIsIntra then ret false','if frameIsIntra then Fbool','reference mode of intra frames not coded','C94',P)
m('UncompressedHeader','skipModeParams','if frameIsIntra || referenceSelect || en','if frameIsIntra || referenceSelect || negb en','skip mode','C57 C94',P)
m('UncompressedHeader','readGmType','ret (if bool_of isTranslation then TRANSLATION else AFFINE)','ret (if bool_of isTranslation then AFFINE else TRANSLATION)','type as coded','C58',P)
m('UncompressedHeader','globalMotionParams','if frameIsIntra then ret','if negb frameIsIntra then ret','intra frames have no global motion','C58',P)
m('UncompressedHeader','globalMotionParams','times 7 readGmType','times 6 readGmType','seven references','C58',P)
m('UncompressedHeader','bufferRemoval','present := Fbool','present := ret true','buffer removal flag','C48 C94',P)
m('UncompressedHeader','interRefs','times 7 (let* _first := F 3 in F 3)','times 7 (F 3)','syntax of inter frames','C48 C57',P)
m('SequenceHeader','operatingPoint','if 7 <? l then F 1','if 8 <? l then F 1','tier is coded above level 7','C22','PropSequence')
m('SequenceHeader','operatingPoint','upd (op_level o) i l','upd (op_level o) 0 l','level of each point','C22','PropSequence')
m('SequenceHeader','operatingPoint','ret (mkOpState idc level tier dmp iddp (op_idd o))','ret (mkOpState idc level tier dmp (op_iddp o) (op_idd o))','presence flags','C22','PropSequence')
m('SequenceHeader','timingPart','for_to 0 (cnt + 1) (operatingPoint','for_to 0 cnt (operatingPoint','all points are read','C22','PropSequence')
m('SequenceHeader','timingPart','let* c := F 5 in let* d := F 5','let* d := F 5 in let* c := F 5','model fields not swapped','C22','PropSequence')
P='PropLoopFilter PropLoopFilterEdges'
m('LoopFilter','wideSum','Clip3 (- (n + 1)) n','Clip3 (- n) n','taps of the filter','C38',P)
m('LoopFilter','wideSum','then 2 else 1','then 1 else 2','average','C38',P)
m('LoopFilter','wideFilter','if log2Size =? 4 then 6 else if plane =? 0 then 3 else 2','if log2Size =? 4 then 6 else if plane =? 0 then 2 else 3','weights sum to the scale','C38',P)
m('LoopFilter','wideFilter','upd3 f plane (y + i * dy) (x + i * dx) v','upd3 f plane (y + i * dx) (x + i * dy) v','samples across the edge','C92',P)
P='PropCoeffs'
m('Coeffs','isTxTypeInSet','Tx_Type_In_Set_Inter else Tx_Type_In_Set_Intra','Tx_Type_In_Set_Intra else Tx_Type_In_Set_Inter','legal types','C98',P)
m('Coeffs','getMColScan','if t =? TX_4X8 then Mcol_Scan_4x8','if t =? TX_4X8 then Mcol_Scan_8x4','order','C97',P)
m('Coeffs','getDefaultScan','if t =? TX_16X32 then Default_Scan_16x32','if t =? TX_16X32 then Default_Scan_32x16','order','C97',P)
m('Coeffs','maxY4','shr (cMiRows e) (int_of (cSubY e))','shr (cMiRows e) (int_of (cSubX e))','rows in the frame','C96',P)
m('Coeffs','fillTypes','upd2 t (y4 + j) (x4 + i) v','upd2 t (y4 + i) (x4 + j) v','types recorded','C98',P)
P='PropInterMode PropInterSeg PropInterBlock'
m('InterMode','aboveIntra','nbA0 n <=? INTRA_FRAME','nbA0 n <? INTRA_FRAME','intra neighbour','C147',P)
m('InterMode','singleRefP1Symbol','fwdCount e n) (bwdCount','bwdCount e n) (fwdCount','context','C147',P)
m('InterMode','singleRefP2Symbol','countRefs e n ALTREF2_FRAME); 1]','countRefs e n ALTREF2_FRAME); 0]','context','C147',P)
m('InterMode','hasNearmv','|| (m =? NEW_NEARMV)','','modes with NEARMV','C151',P)
m('InterMode','samplesLeft','if rowOffset <? 0 then false','if rowOffset <? 0 then doTopLeft','samples','C152',P)
m('InterMode','samplesLeft','addSample e ref0 0 (-1) s','addSample e ref0 (-1) 0 s','samples','C152',P)
m('InterMode','findWarpSamples','(fst s =? 0) && (0 <? snd s) then (1','(fst s =? 0) && (0 <? snd s) then (0','samples','C152',P)
m('InterMode','findWarpSamples','addSample e ref0 (-1) w4 s','addSample e ref0 (-1) h4 s','samples','C152',P)
P='PropModeInfo'
m('ModeInfo','cdefInner','upd2 g i c v','upd2 g c i v','cdef index of the area','C105',P)
m('ModeInfo','cdefOuter','(fst r + 16)','(fst r + 8)','as the code','C105',P)
P='PropTxSize'
m('TxSize','readVarTxSize','(depth =? 2) then ret 0','(depth =? 3) then ret 0','at most two splits','C113',P)
m('TxSize','readVarTxSize','(wMiRows e <=? row)','(wMiRows e <? row)','blocks in the frame','C113',P)
m('TxSize','readVarTxSize','(h4 / (sh / 4))','(h4 / (sw / 4))','all parts','C113',P)
P='PropWedge'
m('Wedge','masterSteep','let shift := shift - 1 in','let shift := shift - 2 in','the edge moves half a column per row','C167',P)
m('Wedge','masterSteep','WEDGE_OBLIQUE63 (i + 1) j v','WEDGE_OBLIQUE63 i j v','odd rows','C167',P)
m('Wedge','masterSteep','idx Wedge_Master_Oblique_Odd','idx Wedge_Master_Oblique_Even','ramp of odd rows','C167',P)
m('Wedge','masterSteep','Z.quot MASK_MASTER_SIZE 4','Z.quot MASK_MASTER_SIZE 2','the edge goes through the centre','C167',P)
m('Wedge','masterTurned','WEDGE_OBLIQUE27 j i msk','WEDGE_OBLIQUE27 i j msk','mirrored','C167',P)
m('Wedge','masterTurned','WEDGE_OBLIQUE117 i (MASK_MASTER_SIZE - 1 - j) (64 - msk)','WEDGE_OBLIQUE117 i (MASK_MASTER_SIZE - 1 - j) msk','mirrored and complemented','C167',P)
m('Wedge','masterTurned','WEDGE_OBLIQUE153 (MASK_MASTER_SIZE - 1 - j) i','WEDGE_OBLIQUE153 (MASK_MASTER_SIZE - j) i','mirrored','C167',P)
m('Wedge','blockShape','if w4 <? h4 then 0','if h4 <? w4 then 0','wedges of tall blocks','C167',P)
m('Wedge','wedgeOne','shr (xo * w) 3','shr (xo * h) 3','centred at the point','C167',P)
m('Wedge','wedgeOne','(xoff + i)','(xoff + i + 1)','first row','C167',P)
m('Wedge','wedgeOne','avg <? 32','avg <? 40','sign','C167',P)
m('Wedge','wedgeOne','(int_of (negb flipSign)) wedge','(int_of flipSign) wedge','both signs','C167',P)
m('Wedge','wedgeTable','rfor_to BLOCK_8X8 BLOCK_SIZES','rfor_to BLOCK_8X8 BLOCK_32X32','all block sizes','C167',P)
m('Wedge','wedgeTable','rfor_to 0 WEDGE_TYPES','rfor_to 1 WEDGE_TYPES','all wedges','C167',P)
m('Wedge','Wedge_Codebook','[WEDGE_OBLIQUE63; 2; 4]; [WEDGE_OBLIQUE63; 6; 4]; [WEDGE_OBLIQUE117; 2; 4]; [WEDGE_OBLIQUE117; 6; 4]]].','[WEDGE_OBLIQUE63; 2; 4]; [WEDGE_OBLIQUE63; 6; 4]; [WEDGE_OBLIQUE117; 6; 4]; [WEDGE_OBLIQUE117; 2; 4]]].','standard wedges','C167',P)
TS='PropTileSyntax'
m('TileInfo','NewTileInfo','Max (Z.quot area widest) 1','Max (Z.quot area widest) 2','the height of a tile is limited by its area','C168',TS)
m('TileInfo','NewTileInfo','shr (sbRows * sbCols) (minLog2Tiles + 1)','shr (sbRows * sbCols) minLog2Tiles','the height of a tile is limited by its area','C168',TS)
m('TileInfo','NewTileInfo','let* id := F (TileRowsLog2 t + TileColsLog2 t) in','let* id := F (TileRowsLog2 t) in','the tile for the CDF update','C168',TS)
m('TileInfo','NewTileInfo','let* rowsLog2 := lift (TileLog2 1 ri) in','let* rowsLog2 := lift (TileLog2 1 ci) in','the number of rows','C168',TS)
m('TileInfo','NewTileInfo','let* rs := lift (upd ra ri MiRows) in','let* rs := lift (upd ra ri MiCols) in','the last row of tiles ends with the frame','C168',TS)
m('TileInfo','explicit_starts','Ns (Min (sb - startSb) maxSize)','Ns maxSize','sizes are coded among the values possible','C168',TS)
m('TileInfo','explicit_starts','(Max sizeSb widest)','(Max sizeMinusOne widest)','the height of a tile is limited by its area','C168',TS)
RT={'M108':('C93','PropPartitionCtx',['C93_available']),'M109':('C93','PropPartitionCtx',['C93_partition_symbol']),
    'M130':('C92','PropLoopFilterEdges',['C92_filter_size_vertical']),'M132':('C92','PropLoopFilterEdges',['C92_edge_partial']),
    'M133':('C92','PropLoopFilterEdges',['C92_edge_partial']),'M134':('C92','PropLoopFilterEdges',['C92_order_partial'])}
for k in 'M098 M102 M106 M107'.split(): RT[k]=('C94','PropFrameHeader',['C94_intra_header_partial'])
for k,t in {'M184':'C95_pair_weights','M186':'C95_row_window','M193':'C95_drl','M194':'C95_padding','M197':'C95_bonus_partial'}.items(): RT[k]=('C95','PropMvStackMore',[t])
for k,t in {'M252':'C119_corner','M253':'C119_strength_partial','M262':'C119_modes','M263':'C119_modes'}.items(): RT[k]=('C119','PropIntraMore',[t])
for k in ('M269','M270'): RT[k]=('C120','PropBox',['C120_box_filter_partial'])
for k,t in {'M283':'C121_repeated_frame','M284':'C121_new_frame','M285':'C121_new_frame'}.items(): RT[k]=('C121','PropPipeline',[t])
for k,b,f,t in (('M672 M673 M674','C169','PropEdgeType','C169_smooth_partial'),('M675 M676','C119','PropEdgeType','C119_unfiltered_partial'),('M681','C77','PropEdgeType','C77_no_neighbours_refuted'),
    ('M684 M685','C77','PropEdgeType','C77_outside_unused'),('M694','C89','PropFollowup','C89_taps_refuted'),('M709','C144','PropFollowup','C144_above_extent'),
    ('M710 M711','C144','PropFollowup','C144_intra_neighbours'),('M715','C95','PropFollowup','C95_temporal_refuted')):
    for q in k.split(): RT[q]=(b,f,[t])
for k,b,t in (('M729','C58','C58_types_coded_partial'),('M751','C151','C151_one_candidate'),('M752 M753 M755','C152','C152_places_refuted')):
    for q in k.split(): RT[q]=(b,'PropFollowup2',[t])
EQ={'M728':'equivalent: the header has this flag false, and then no reference is before or after the frame: skip mode is absent either way (C57_skip_mode_never_present_refuted)',
    'M735':'equivalent: only headers with one operating point are accepted','M736':'equivalent: that flag is false before it is read, and a true one ends the decoder',
    'M739':'equivalent: the wide filter always ends the decoder (C38_wide_filter_refuted)','M740':'equivalent: the wide filter always ends the decoder (C38_wide_filter_refuted)','M742':'equivalent: the wide filter always ends the decoder (C38_wide_filter_refuted)',
    'M754':'equivalent: no sample is ever found (C152_no_samples_refuted)','M760':'equivalent: a tree of transform sizes always ends the decoder (C113_tree_refuted)',
    'M654':'equivalent: every sample of the block is replaced by 2 whatever the flip (C71_samples_refuted)','M716':'equivalent: this branch is only reached with no candidate (C95_temporal_refuted)','M722':'equivalent: the result of this search is discarded (C95_temporal_refuted)',
    'M205':'equivalent: the two scans are the same list','M249':'equivalent: Clip1 ignores its argument (C40_dc_left_only_refuted)',
    'M258':'equivalent: fillLeft overwrites the same entries of AboveRow','M271':'equivalent: Clip1 ignores its argument (C89_values_refuted)'}
BR={'M702':'C43','M706':'C139','M707':'C140','M708':'C144','M712':'C143','M748':'C149'}
for x in M:
    if x['id'] in BR: x['breaks'].append(BR[x['id']])
for x in M:
    if x['id'] in RT:
        b,t,n=RT[x['id']]; x['breaks'].append(b); x['targets'].append(t); x['tightened']=n
for x in M:
    if x['id'] in EQ: x['claim']='('+EQ[x['id']]+')'
