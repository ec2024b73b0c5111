#!/usr/bin/env python3
"""Mutation test of the theorems.  usage: mutate.py mutations.json [-j N] [-n]
mutations.json: list of {file, definition, old, new, edit, claim [, tightened, expect]}.
For each mutation: copy /verif/rocq (compiled) to a scratch directory outside /verif, replace
[old] (must occur once) by [new], recompile the files that depend on it.  A proof that no longer
checks is replaced by Admitted (in the scratch copy only), so that Print Assumptions in the
*Theorems.v files tells exactly which theorems no longer hold.  Appends to seeded/LOG.jsonl."""
import json,sys,subprocess,shutil,re,os,time
from concurrent.futures import ThreadPoolExecutor
SRC=os.environ.get('SRC','/verif/rocq'); BASE='/tmp/w/mut'
muts=json.load(open(sys.argv[1]))
J=int(sys.argv[sys.argv.index('-j')+1]) if '-j' in sys.argv else 3
LOG='-n' not in sys.argv
TMO=int(os.environ.get('TMO','300'))
STD={'ClassicalDedekindReals.sig_not_dec','ClassicalDedekindReals.sig_forall_dec','FunctionalExtensionality.functional_extensionality_dep','Classical_Prop.classic'}
files=[l.strip()[len('theories/'):] for l in open(SRC+'/_CoqProject') if l.strip().endswith('.v')]
deps={}
for f in files:
    t=open(f'{SRC}/theories/{f}').read()
    d=set()
    for m in re.finditer(r'From Verif Require (?:Import|Export)\s+([\w\s]+)\.',t):
        d|={x+'.v' for x in m.group(1).split()}
    deps[f]=d
def dependents(f0):
    aff={f0}; order=[f0]
    ch=True
    while ch:
        ch=False
        for f in files:
            if f not in aff and deps[f]&aff: aff.add(f); ch=True
    # topological order
    out=[]; done=set(files)-aff; todo=[f for f in files if f in aff]
    while todo:
        for f in todo:
            if deps[f]<=done|set(): out.append(f); done.add(f); todo.remove(f); break
        else: raise Exception('cycle %s'%todo)
    return out
START=re.compile(r'^\s*(?:Local\s+|Global\s+)?(Theorem|Lemma|Example|Corollary|Remark|Fact|Definition|Fixpoint|Instance|Program)\s+(\w+)')
def admit(path,line):
    ls=open(path).read().split('\n')
    i=line-1
    k=i
    while k>=0 and not START.match(ls[k]): k-=1
    if k<0: return None
    name=START.match(ls[k]).group(2)
    txt='\n'.join(ls[k:])
    m=re.search(r'\bProof( using[^.]*)?\.',txt)
    e=re.search(r'\b(Qed|Defined|Admitted)\.',txt)
    if not m or not e or m.start()>e.start(): return None
    if e.group(1)=='Admitted': return None
    mid=txt[m.start():e.end()]
    pad='\n'*mid.count('\n')
    txt=txt[:m.start()]+'Proof. Admitted.'+pad+txt[e.end():]
    open(path,'w').write('\n'.join(ls[:k])+('\n' if k else '')+txt)
    return name
def run(args):
    idx,m=args
    D=f'{BASE}{idx%64}_{os.getpid()}'
    shutil.rmtree(D,ignore_errors=True); shutil.copytree(SRC,D)
    p=f'{D}/theories/{m["file"]}'
    s=open(p).read()
    if s.count(m['old'])!=1:
        shutil.rmtree(D); return m,None,f'BAD MUTATION {m["definition"]} {s.count(m["old"])}'
    open(p,'w').write(s.replace(m['old'],m['new']))
    failed=[]; thms=[]; kept=[]; note=''
    for f in dependents(m['file']):
        q=f'{D}/theories/{f}'
        while True:
            try: r=subprocess.run(['coqc','-time','-Q','.','Verif',f],cwd=D+'/theories',capture_output=True,text=True,timeout=TMO)
            except subprocess.TimeoutExpired as e:
                # a proof that does not end: replaced by Admitted as one that fails
                out=e.stdout or b''; out=out.decode() if isinstance(out,bytes) else out
                at=re.findall(r'^Chars \d+ - (\d+) \[',out,re.M)
                line=open(q,'rb').read()[:int(at[-1])].count(b'\n')+2 if at else 1
                nm=admit(q,line)
                if nm is None: note+=f' timeout in {f}'; r=None; break
                failed.append(f'{f}:{nm} (does not end)'); continue
            r.stdout=re.sub(r'^Chars \d+ - \d+ \[.*\n','',r.stdout,flags=re.M)
            if r.returncode==0: break
            g=re.search(r'line (\d+), characters (\d+)-(\d+):\s*\n\s*Error',r.stderr)
            if not g: g=re.search(r'line (\d+), characters',r.stderr)
            nm=admit(q,int(g.group(1))) if g else None
            if nm is None:
                note+=f' cannot continue in {f}: '+r.stderr[-300:]; r=None; break
            failed.append(f'{f}:{nm}')
        if r is None: break
        if f.endswith('Theorems.v'):
            names=re.findall(r'^Print Assumptions\s+(\w+)',open(q).read(),re.M)
            chunks=re.split(r'(?=^Closed under the global context|^Axioms:)',r.stdout,flags=re.M)
            chunks=[c for c in chunks if c.startswith(('Closed','Axioms:'))]
            assert len(chunks)==len(names),(f,len(chunks),len(names))
            for n,c in zip(names,chunks):
                ax=set(re.findall(r'^(\S+)\s*:',c,re.M))-{'Axioms'} if c.startswith('Axioms') else set()
                ax|=set(re.findall(r'^([\w.]+)$',c,re.M))
                (thms if ax-STD else kept).append(n)
    shutil.rmtree(D,ignore_errors=True)
    rec={'definition':m['definition'],'file':m['file'],'edit':m['edit'],'claim':m['claim'],'theorems_failed':thms,'theorems_still_proved':kept,'failing_lemmas':failed,'theorems_tightened':m.get('tightened',[])}
    if m.get('comment'): rec['comment']=m['comment']
    if note: rec['note']=note
    return m,rec,None
def start(i):
    time.sleep(0)
with ThreadPoolExecutor(J) as ex:
    for m,rec,err in ex.map(run,enumerate(muts)):
        if err: print(err); continue
        exp=m.get('expect')
        hit=[t for t in rec['theorems_failed'] if re.match(exp,t)] if exp else rec['theorems_failed']
        print(('KILLED ' if hit else 'SURVIVED '),rec['definition'],'|',rec['edit'],'|',rec['theorems_failed'],rec.get('note',''),flush=True)
        if not hit: print('    failing:',rec['failing_lemmas'])
        if LOG and 'note' not in rec: open('/verif/seeded/LOG.jsonl','a').write(json.dumps(rec)+'\n')
