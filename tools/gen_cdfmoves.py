"""Generates rocq/theories/CdfMoves.v: the CDF pointer assignments of the code, statement by statement, loops and arrays expanded."""
import re
R='/repo/internal/'
U='uncompressedheader/cdf.go'; T='tilegroup/tile_group.go'
def fn(path,name):
    src=open(R+path).read().split('\n')
    for i,l in enumerate(src):
        if re.match(r'func .*\b%s\('%name,l):
            j=i
            while src[j]!='}': j+=1
            return i+1,j+1,src[i+1:j]
# array fields: dimensions of the fixed-size part
dims={}
for l in open(R+'state/state.go'):
    m=re.match(r'\s*(\w+Cdf)\s+((?:\[[\w.]*\])*)int',l)
    if m:
        d=[]
        for x in re.findall(r'\[([\w.]*)\]',m.group(2)):
            if x=='': break
            d.append({'shared.MV_CONTEXTS':2,'shared.FRAME_LF_COUNT':4,'2':2}[x])
        dims[m.group(1)]=d
def expand(d):
    out=[[]]
    for n in d: out=[o+[i] for o in out for i in range(n)]
    return out
def base(f):
    for p in ('Tile','Saved'):
        if f.startswith(p): return p,f[len(p):]
    return 'Cur',f
def key(f,ix): return '("%s", [%s])'%(f,'; '.join(map(str,ix)))
def stmts(lines):
    for l in lines:
        m=re.match(r'\s*(\S+Cdf)((?:\[\w+\])*) = (\S+)$',l)
        if m: yield m.group(1),re.findall(r'\[(\w+)\]',m.group(2)),m.group(3)
out=['(** GENERATED by tools/gen_cdfmoves.py from internal/uncompressedheader/cdf.go and internal/tilegroup/tile_group.go: the assignments','    between CDF variables, in the order of the code.  Each loop is unrolled and each array of slices is copied element by element. *)',
'From Coq Require Import String.','From Verif Require Import GoBase CdfTables.','Local Open Scope string_scope.','',
'(** A CDF variable (the name without Tile/Saved and, for arrays of slices, the array indices). *)','Definition key : Type := string * list Z.','(** where a source lives *)','Inductive area := Cur | Tile | Saved.','']
def defs(name,fnm,doc):
    a,b,ls=fn(U,fnm); r=[]
    mv=[]
    for lhs,ix,rhs in stmts(ls):
        f=lhs.split('.')[1]; m=re.match(r'(\w+)(\[idx\])?$',rhs)
        n=len(ix) ; d=dims[f]
        if 'i' in ix or 'comp' in ix: assert len(ix)==len(d),(f,ix,d)
        for e in expand(d): r.append('  (%s, "%s")'%(key(f,e),m.group(1)))
    out.append('(** %s:%d-%d %s%s *)'%('internal/'+U,a,b,fnm,doc))
    out.append('Definition %s : list (key * string) := [\n%s].\n'%(name,';\n'.join(r)))
defs('initNonCoeffMoves','initNonCoeffCdfs','')
defs('initCoeffMoves','initCoeffCdfs',' (each table at the index of the base quantizer)')
def moves(name,path,fnm,doc):
    a,b,ls=fn(path,fnm); r=[]
    for lhs,ix,rhs in stmts(ls):
        assert not ix
        l=lhs.split('.')[1]; x=rhs.split('.')
        if x[1].startswith('DEFAULT'): continue
        if fnm in('SaveCdfs','LoadCdfs'): la,lk='',l; ra,rk='Cur',x[1]
        else: la,lk=base(l); ra,rk=base(x[1])
        for e in expand(dims[l]): r.append('  (%s, (%s, %s))'%(key(lk,e),ra,key(rk,e)))
    out.append('(** internal/%s:%d-%d %s%s *)'%(path,a,b,fnm,doc))
    out.append('Definition %s : list (key * (area * key)) := [\n%s].\n'%(name,';\n'.join(r)))
moves('initSymbolMoves',T,'initSymbol',': Tile variables from the current ones (TileIntraFrameYModeCdf, set from its default table, is handled in CdfMemory.v)')
moves('exitSymbolMoves',T,'exitSymbol',': Saved variables')
moves('frameEndMoves',T,'frameEndUpdateCdf',': current variables')
moves('saveMoves',U,'SaveCdfs',': the memory area of a slot from the current variables')
moves('loadMoves',U,'LoadCdfs',': current variables from the memory area of a slot (the source area Cur stands for that memory area)')
# default trees
out+=['(** Nested slices. *)','Inductive tree := Leaf (cdf : list Z) | Node (sub : list tree).','Definition t2 (l : list (list Z)) := Node (map Leaf l).','Definition t3 l := Node (map t2 l).','Definition t4 l := Node (map t3 l).','Definition t5 l := Node (map t4 l).']
names=set(re.findall(r'"((?:DEFAULT|DFEAULT)_\w+)"','\n'.join(out)))|{'DEFAULT_INTRA_FRAME_Y_MODE_CDF'}
r=[]
cdft=open('/verif/rocq/theories/CdfTables.v').read()
for n in sorted(names):
    m=re.search(r'Definition %s : ((?:list \(?)*list Z\)*)'%n,cdft) or re.search(r'Definition %s : (.*?) :='%n,cdft)
    depth=m.group(1).count('list')
    r.append('  ("%s", %s)'%(n,['','Leaf','t2','t3','t4','t5'][depth]+' '+n))
out.append('(** The initial contents of the default tables (package variables). *)\nDefinition defaultTrees : list (string * tree) := [\n%s].'%';\n'.join(r))
open('/verif/rocq/theories/CdfMoves.v','w').write('\n'.join(out)+'\n')
print(len(names))
