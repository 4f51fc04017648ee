#!/usr/bin/env python3
"""Mutation testing of the model.  usage: mutate.py [-j N] [ids...]   (mutations in tools/mutations.py)
For each mutation: copy the compiled development to a scratch directory outside /verif, edit one definition, recompile the
files between the edited one and the targets.  A proof that breaks is cut there (in the scratch copy only) so that the
remaining theorems are still checked; a theorem counts as failed when its own proof breaks or Print Assumptions shows that it
rests on one that broke.  Appends one line per mutation to seeded/LOG.jsonl."""
import sys,os,re,json,subprocess,shutil,time
from concurrent.futures import ThreadPoolExecutor
sys.path.insert(0,os.path.dirname(__file__))
import mutations
SRC='/verif/rocq'
def deps():
    d={}
    for l in open(SRC+'/.Makefile.d'):
        m=re.match(r'theories/(\w+)\.vo .*?: (.*)',l)
        if m and m.group(1) not in d:
            d[m.group(1)]=[os.path.basename(x)[:-3] for x in m.group(2).split() if x.endswith('.vo') and x.startswith('theories/')]
    return d
D=deps()
def clos(f,seen=None):
    seen=set() if seen is None else seen
    for g in D[f]:
        if g not in seen: seen.add(g); clos(g,seen)
    return seen
order=[]
def topo(f):
    if f in order: return
    for g in D[f]: topo(g)
    order.append(f)
for f in D: topo(f)
HEAD=re.compile(r'^[ \t]*(?:Local |Global )?(Lemma|Theorem|Example|Corollary|Definition|Fixpoint|Record|Inductive|Ltac|Notation|Section|End|Arguments|Instance)\s+([\w\']+)?',re.M)
def compile_(dir,f,fails):
    p=f'{dir}/theories/{f}.v'
    for _ in range(60):
        try:
            r=subprocess.run(['coqc','-time','-Q','theories','Verif',f'theories/{f}.v'],cwd=dir,capture_output=True,text=True,timeout=TMO)
            out=r.stdout; err=r.stderr; code=r.returncode
        except subprocess.TimeoutExpired as e:
            out=(e.stdout or b'').decode() if isinstance(e.stdout,bytes) else (e.stdout or ''); err='TIMEOUT'; code=1
        s=open(p).read()
        if code==0: return out
        m=re.search(r'line (\d+), characters (\d+)-',err)
        if m and err!='TIMEOUT':
            ls=s.split('\n'); pos=sum(len(x)+1 for x in ls[:int(m.group(1))-1])+int(m.group(2))
        else:
            cs=re.findall(r'^Chars (\d+) - (\d+)',out,re.M)
            if not cs: fails.append((f,'?','nothing compiled: '+err[-200:])); return None
            pos=int(cs[-1][1])+1
        hs=[h for h in HEAD.finditer(s) if h.start()<=pos]
        h=hs[-1]
        name=h.group(2)
        i=s.find('Proof',h.start())
        q=re.compile(r'\b(Qed|Defined)\.').search(s,i) if i>=0 else None
        if h.group(1) not in('Lemma','Theorem','Example','Corollary') or i<0 or pos<i or q is None or q.end()<pos-1:
            fails.append((f,name,'statement/definition: '+err.strip()[-300:])); return None
        fails.append((f,name,'timeout' if err=='TIMEOUT' else err.strip().split('\n')[-1][-200:]))
        # cut the proof, keep line structure irrelevant
        s=s[:i]+'Admitted.'+s[q.end():]
        open(p,'w').write(s)
    return None
TMO=500
BASE=os.environ.get('MUTBASE','/tmp/mutbase')
def run(m):
    t0=time.time()
    dir=f'/tmp/mut/{m["id"]}'
    shutil.rmtree(dir,ignore_errors=True); os.makedirs('/tmp/mut',exist_ok=True)
    shutil.copytree(BASE,dir)
    p=f'{dir}/theories/{m["file"]}.v'; s=open(p).read()
    if s.count(m['old'])==m.get('count',1): s=s.replace(m['old'],m['new'])
    else:  # edit only inside the definition
        r=re.search(r'^\s*(?:Definition|Fixpoint) %s\b.*?\.\s*$'%re.escape(m['def']),s,re.M|re.S); d=r.group(0)
        assert d.count(m['old'])==m.get('count',1),(m['id'],d.count(m['old']))
        s=s[:r.start()]+d.replace(m['old'],m['new'])+s[r.end():]
    open(p,'w').write(s)
    need=set(m['targets'])
    for t in m['targets']: need|=clos(t)
    need=[f for f in order if f in need and (f==m['file'] or m['file'] in clos(f))]
    fails=[];broken=set();failed_thms=[];checked=[]
    for f in need:
        if any(g in broken for g in D[f]):
            broken.add(f); fails.append((f,'*','needs a broken file')); continue
        out=compile_(dir,f,fails)
        if out is None: broken.add(f); continue
        s=open(f'{dir}/theories/{f}.v').read()
        names=re.findall(r'^\s*Print Assumptions (\w+)\.',s,re.M)
        parts=re.split(r'(?m)^(Closed under the global context|Axioms:)\s*$',out)
        st=parts[1::2]
        for n,x in zip(names,st):
            checked.append(n)
            if x=='Axioms:': failed_thms.append(n)
    shutil.rmtree(dir,ignore_errors=True)
    own=[n for _,n,_ in fails if n and re.match(r'C\d\d',n)]
    res=dict(m=m['id'],fails=fails,failed=sorted(set(failed_thms+own)),checked=len(checked),broken=sorted(broken),secs=round(time.time()-t0))
    return m,res
if __name__=='__main__':
    a=sys.argv[1:]; j=3
    if a[:1]==['-j']: j=int(a[1]); a=a[2:]
    done=set()
    L='/verif/seeded/LOG.jsonl'
    if os.path.exists(L): done={json.loads(l)['id'] for l in open(L)}
    ms=[m for m in mutations.M if (m['id'] in a if a else m['id'] not in done)]
    subprocess.run(f'rm -rf {BASE}; mkdir -p {BASE}; cp -a /verif/rocq/theories {BASE}/',shell=True,check=True)
    with ThreadPoolExecutor(j) as ex:
        for m,r in ex.map(run,ms):
            want=m['breaks']
            hit=[t for t in r['failed'] if any(t.startswith(w) for w in want)]
            v='caught' if hit or any(any((n or '').startswith(w) for w in want) for _,n,_ in r['fails']) else ('file broken' if r['broken'] else 'SURVIVED')
            print(m['id'],v,r['secs'],'s; failed:',r['failed'],'; lemmas:',[(f,n) for f,n,_ in r['fails']][:12],flush=True)
            e=dict(id=m['id'],definition=m['file']+'.v: '+m['def'],edit=m['edit'],claim_broken=m['claim'],theorems_failed=r['failed'],first_broken_proofs=[f'{f}.{n}' for f,n,_ in r['fails']][:12],verdict=v,theorems_tightened=m.get('tightened',[]))
            lines=[json.loads(l) for l in open(L)] if os.path.exists(L) else []
            lines=[x for x in lines if x['id']!=m['id']]+[e]
            open(L,'w').write(''.join(json.dumps(x)+'\n' for x in lines))
