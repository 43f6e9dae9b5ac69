#!/usr/bin/env python3
"""Run wrong programs against the theorems, in a scratch copy outside /verif.
usage: mutate.py MUTANTS.py [first [last]]     (appends to /verif/seeded/LOG.jsonl)
MUTANTS.py defines M = [(file, definition, old, new, claim, [property ids])]; the ids ["*"] stand for any
property theorem that is not a refutation.
A proof that no longer goes through is replaced by Admitted in the scratch copy so that
the remaining files are still checked; the failing statements are then traced to the
property theorems that use them."""
import sys,os,re,subprocess,json,shutil,glob,importlib.util
SRC='/verif/rocq'; D=os.environ.get('MUTDIR','/tmp/mut'); BASE=D+'base'; W=D+'work'; LOG='/verif/seeded/LOG.jsonl'
KW=re.compile(r'^\s*(?:#\[[^\]]*\]\s*)?(?:Local |Global )?(Lemma|Theorem|Corollary|Example|Fact|Remark|Instance)\s+([\w\']+)',re.M)
def sh(c,t=None):
    return subprocess.run(['bash','-c',c],capture_output=True,text=True,errors='replace',timeout=t)
def base():
    if os.path.exists(BASE): sh('rm -rf '+BASE)
    sh(f'cp -a {SRC} {BASE}')
    r=sh(f'cd {BASE} && coq_makefile -f _CoqProject -o Makefile && make -j4 2>&1 | tail -3'); print(r.stdout[-200:])
NODE=re.compile(r'^\s*(?:#\[[^\]]*\]\s*)?(?:Local |Global )?(Lemma|Theorem|Corollary|Example|Fact|Remark|Instance|Definition|Fixpoint|Ltac|Record|Inductive)\s+([\w\']+)',re.M)
def statements(txt):
    return [(m.start(),m.group(1),m.group(2)) for m in KW.finditer(txt)]
def strip(t):
    out=[];d=0;i=0
    while i<len(t):
        if t.startswith('(*',i): d+=1;i+=2
        elif t.startswith('*)',i) and d: d-=1;i+=2
        else:
            if not d: out.append(t[i])
            i+=1
    return ''.join(out)
def graph(d):
    text={}
    kind={}
    for f in glob.glob(d+'/theories/*.v'):
        t=strip(open(f).read()); st=[(m.start(),m.group(1),m.group(2)) for m in NODE.finditer(t)]
        for i,(a,k,n) in enumerate(st):
            b=st[i+1][0] if i+1<len(st) else len(t)
            text[n]=text.get(n,set())|set(re.findall(r"[\w']+",t[a:b])); kind[n]=k
    names=set(text)
    return {n:(s&names)-{n} for n,s in text.items()},kind
def main():
    spec=importlib.util.spec_from_file_location('m',sys.argv[1]); mod=importlib.util.module_from_spec(spec); spec.loader.exec_module(mod)
    first=int(sys.argv[2]) if len(sys.argv)>2 else 0
    last=int(sys.argv[3]) if len(sys.argv)>3 else len(mod.M)
    base(); g,kind=graph(BASE)
    props=[n for n in g if re.match(r'C\d\d+_',n) and kind[n]=='Theorem']
    clos={}
    for p in props:
        seen=set(); st=[p]
        while st:
            x=st.pop()
            if x in seen: continue
            seen.add(x); st+=list(g[x])
        clos[p]=seen
    for i in range(first,last):
        file,defn,old,new,claim,ids=mod.M[i]
        sh(f'rm -rf {W}; cp -a {BASE} {W}')
        p=f'{W}/theories/{file}'; t=open(p).read()
        if t.count(old)<1: print(i,'PATTERN NOT FOUND',file,defn); continue
        k=0
        if isinstance(new,tuple): new,k=new
        parts=t.split(old); t=old.join(parts[:k+1])+new+old.join(parts[k+1:]); open(p,'w').write(t)
        failed=[]; note=''; mk='nice make' if ids==['*'] else 'nice make -k'
        for rnd in range(14):
            try: r=sh(f'cd {W} && ulimit -v 7000000; {mk} -j3 COQC="timeout 1200 coqc" 2>&1 | grep -av Closed',6000)
            except subprocess.TimeoutExpired: note='build timed out'; break
            out=r.stdout
            errs=re.findall(r'File "\./(theories/\w+\.v)", line (\d+), characters [\d-]+:\s*\n(?:Error|In environment|.*\n?Error)',out)
            errs=[(f,int(l)) for f,l in re.findall(r'File "\./(theories/\w+\.v)", line (\d+), characters [\d-]+:\nError',out)]
            if not errs:
                to=re.findall(r'(theories/\w+)\.vo\] (?:Error (\d+)|Killed)',out)
                if to: note='stuck: '+str(to)
                break
            stop=False
            for f,l in errs:
                q=f'{W}/{f}'; t=open(q).read(); off=len('\n'.join(t.split('\n')[:l]))
                st=[s for s in statements(t) if s[0]<=off]
                if not st: note=f'error outside a proof in {f}:{l}'; stop=True; continue
                a,kd,n=st[-1]
                m=re.compile(r'\b(Qed|Defined|Admitted)\.').search(t,a)
                pr=re.compile(r'\bProof\b[^.]*\.').search(t,a)
                if not m or m.end()<off-2 and t.count('\n',0,m.end())+1<l or not pr or pr.start()>m.start():
                    note=f'error outside a proof in {f}:{l} after {n}'; stop=True; failed.append(n) if 0 else None; continue
                if l < t.count('\n',0,pr.start())+1 : note=f'statement of {n} no longer typechecks'; stop=True; failed.append(n); continue
                failed.append(n); t=t[:pr.start()]+'Proof. Admitted.'+t[m.end():]; open(q,'w').write(t)
            if stop: break
            hitn={re.match(r'(C\d+)_',x).group(1) for x in props if any(y in clos[x] for y in failed)}
            if ids==['*']: hitn={x for x in props if not x.endswith('_refuted') and any(y in clos[x] for y in failed)}
            if ids==['*'] and hitn or ids and set(ids)<=hitn: note='stopped once the expected theorems had failed; others may fail too'; break
        thms=sorted(x for x in props if any(y in clos[x] for y in failed))
        hit=sorted(set(re.match(r'(C\d+)_',x).group(1) for x in thms))
        ex=[x for x in failed if kind.get(x)=='Example']
        miss=[c for c in ids if c not in hit]
        if ids==['*']:
            miss=[] if any(not x.endswith('_refuted') for x in thms) else ['*']; ids=hit
        if miss: open(f'/tmp/missed_{i}_{defn}.out','w').write(out)
        eo,en=old.strip(),new.strip()
        if len(eo)>200:
            x=0
            while x<min(len(eo),len(en)) and eo[x]==en[x]: x+=1
            y=0
            while y<min(len(eo),len(en))-x and eo[-1-y]==en[-1-y]: y+=1
            x=max(0,x-40); y=max(0,y-40); eo=eo[x:len(eo)-y]; en=en[x:len(en)-y]
        rec=dict(file=file,definition=defn,edit=f'{eo}  ==>  {en}',breaks=ids,claim=claim,
            failed_lemmas=[x for x in failed if x not in ex],failed_examples=ex,theorems_failed=thms,theorems_tightened=[],note=note)
        print(i,file,defn,'->',('MISSED '+','.join(miss)) if miss else 'ok',note,'|',','.join(hit),'|',failed[:6],flush=True)
        if miss and note.startswith('error outside a proof'): continue
        open(LOG,'a').write(json.dumps(rec)+'\n')
main()
