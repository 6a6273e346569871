#!/usr/bin/env python3
"""Seeded-bug runner.  usage: seed.py mutations.json
Each mutation: {"def":..., "file":"X_model.v", "old":..., "new":..., "edit":..., "claim":...}
Works on a copy of rocq/ in /tmp/mut; lemmas whose proof breaks are replaced by Admitted in
the copy so that every failing lemma is found; the property theorems that then rest on an
admitted lemma (or fail themselves) are the ones that caught the bug."""
import json, os, re, shutil, subprocess, sys, datetime
ROOT='/verif'
W=os.environ.get('MUTW','/tmp/mut')
def sh(c, t=3000):
    return subprocess.run(c, shell=True, capture_output=True, text=True, timeout=t)
HEAD=re.compile(r'^\s*(?:#\[[^\]]*\]\s*)?(?:Local |Global )?(?:Lemma|Theorem|Corollary|Example|Fact|Remark|Instance|Goal)\s+([\w\']+)?')
def admit(path, line):
    L=open(path).read().split('\n')
    i=line-1
    while i>=0 and not HEAD.match(L[i]): i-=1
    if i<0: return None
    name=HEAD.match(L[i]).group(1)
    j=i
    while j<len(L) and not re.search(r'\b(Qed|Defined)\.', L[j]): j+=1
    if j < line-1 or j >= len(L): return None
    k=i
    while k<=j and not re.search(r'\bProof\b', L[k]): k+=1
    if k>j: return None
    pre=L[k][:L[k].index('Proof')]
    L[k]=pre+'Admitted.'
    for x in range(k+1,j+1): L[x]=''
    open(path,'w').write('\n'.join(L))
    return name
BASE=os.environ.get('MUTBASE','/tmp/mutbase')
def base():
    """built snapshot of HEAD"""
    h=sh(f'git -C {ROOT} rev-parse HEAD').stdout.strip()
    if os.path.exists(f'{BASE}/{h}'): return
    sh(f'mkdir -p {BASE} && git -C {ROOT} archive HEAD rocq | tar -x -m -C {BASE}')
    r=sh(f'cd {BASE}/rocq && coq_makefile -f _CoqProject -o Makefile && make -j4 2>&1')
    assert r.returncode==0, r.stdout[-2000:]
    open(f'{BASE}/{h}','w').close()
def edit(s, mut):
    m=re.search(r'^[ ]*(?:Fixpoint|Definition|Inductive)\s+'+re.escape(mut['def'])+r'\b', s, re.M)
    assert m, mut['def']
    e=re.search(r'\n[ ]*(?:\(\*\*|Fixpoint|Definition|Inductive|Record|End|Section)', s[m.end():])
    end=m.end()+(e.start() if e else len(s))
    body=s[m.start():end]
    assert body.count(mut['old'])==1, (mut['def'], mut['old'], body.count(mut['old']))
    return s[:m.start()]+body.replace(mut['old'],mut['new'])+s[end:]
def run(mut):
    sh(f'rm -rf {W}; mkdir -p {W}; cp -a {BASE}/rocq {W}/rocq')
    p=f'{W}/rocq/theories/'+mut['file']
    t=edit(open(p).read(), mut)
    open(p,'w').write(t)
    failed=[]; note=''
    out=''
    for _ in range(120):
        r=sh(f'cd {W}/rocq && timeout 700 make -k -j4 2>&1')
        out+=r.stdout
        if r.returncode==0: break
        errs=re.findall(r'File "\./(theories/[\w]+\.v)", line (\d+), characters [\d-]+:\nError', r.stdout)
        if not errs: note='no located error: '+r.stdout[-300:]; break
        prog=False
        for f,l in errs:
            n=admit(f'{W}/rocq/{f}', int(l))
            if n: failed.append(f'{f[9:-2]}.{n}'); prog=True
            else: note+=f'error outside proof {f}:{l}; '
        if not prog: break
    # theorems resting on admitted lemmas
    hit=set(x.split('.')[1] for x in failed if x.startswith('Prop_'))
    props=[f for f in sorted(os.listdir(f'{W}/rocq/theories')) if f.startswith('Prop_') and f.endswith('.v')]
    for f in props:
        vo=f'{W}/rocq/theories/{f}o'
        if not os.path.exists(vo): note+=f'{f} not built; '; continue
        if not failed: continue
        b=f'{BASE}/rocq/theories/{f}o'
        if os.path.exists(b) and os.path.getmtime(b)==os.path.getmtime(vo): continue
        names=re.findall(r'^Theorem\s+(\w+)', open(f'{W}/rocq/theories/{f}').read(), re.M)
        q=f'{W}/q.v'
        open(q,'w').write(f'From Verif Require Import {f[:-2]}.\n'+''.join(f'Print Assumptions {n}.\n' for n in names))
        o=sh(f'cd {W}/rocq && timeout 400 coqc -Q theories Verif {q} 2>&1').stdout
        blocks=re.split(r'(?=^Closed under|^Axioms:)', o, flags=re.M)
        blocks=[b for b in blocks if b.startswith('Closed') or b.startswith('Axioms')]
        adm=set(x.split('.')[1] for x in failed)
        for n,b in zip(names,blocks):
            if b.startswith('Axioms') and any(re.search(r'\b'+re.escape(a)+r'\b', b) for a in adm): hit.add(n)
    return failed, sorted(hit), note
def main():
    muts=json.load(open(sys.argv[1]))
    base()
    for m in muts: edit(open(f"{BASE}/rocq/theories/{m['file']}").read(), m)
    log=open(f'{ROOT}/seeded/LOG.jsonl','a') if '--dry' not in sys.argv else None
    for m in muts:
        failed,hit,note=run(m)
        if 'error outside proof' in note and not failed:
            print('ILLTYPED',m['def'],'|',m['edit'],'|',note,flush=True); continue
        e={'definition':f"{m['file']}: {m['def']}",'edit':m['edit'],'claim_broken':m['claim'],
           'theorems_failed':hit,'lemmas_failed':failed,'theorems_tightened':m.get('tightened',[])}
        if note: e['note']=note
        if m.get('note'): e['note']=(e.get('note','')+' '+m['note']).strip()
        print(('CAUGHT ' if hit else 'SURVIVED ')+m['def'],'|',m['edit'],'|',hit,note,flush=True)
        if log: log.write(json.dumps(e)+'\n'); log.flush()
if __name__ == "__main__":
    main()
