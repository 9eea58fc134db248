# usage: mutlog.py results.jsonl ; writes /verif/seeded/LOG.jsonl from mutation results.
# For each failing lemma the property theorems (Cnn...) whose proofs use it, directly or through other lemmas, are listed too.
import json,re,glob,sys,collections
defs={};uses={}
for f in glob.glob('/verif/rocq/theories/*.v'):
    mod=f.split('/')[-1][:-2]
    t=re.sub(r'\(\*.*?\*\)','',open(f).read(),flags=re.S)
    parts=re.split(r'^\s*(?:#\[[^\]]*\]\s*)?(?:Local |Global )?(?=(?:Lemma|Theorem|Corollary|Definition|Fixpoint|Example|Fact|Ltac|Instance|Let|Record|Inductive)\s)',t,flags=re.M)
    for b in parts:
        m=re.match(r'(?:Lemma|Theorem|Corollary|Definition|Fixpoint|Example|Fact|Ltac|Instance|Let|Record|Inductive)\s+([A-Za-z0-9_\']+)',b)
        if m: defs.setdefault(m.group(1),[]).append(mod); uses.setdefault(m.group(1),set()).update(re.findall(r"[A-Za-z_][A-Za-z0-9_']*",b))
rev=collections.defaultdict(set)
for n,u in uses.items():
    for x in u:
        if x in uses and x!=n: rev[x].add(n)
def down(n):
    seen={n};st=[n]
    while st:
        x=st.pop()
        for y in rev[x]:
            if y not in seen: seen.add(y);st.append(y)
    return sorted(x for x in seen if re.match(r'C\d\d',x))
out=[]
for fn in sys.argv[1:]:
    for l in open(fn):
        r=json.loads(l)
        failed=[]
        for x in r['failed']:
            failed.append(x)
            for y in down(x.split('.')[1]):
                if y not in failed: failed.append(y)
        out.append(dict(definition=r['file'][:-2]+'.'+r['definition'],edit=r['edit'],claim=r['claim'],theorems_failed=failed,theorems_tightened=r.get('tightened',[])))
open('/verif/seeded/LOG.jsonl','w').write(''.join(json.dumps(o)+'\n' for o in out))
print(len(out),[ (o['definition'],o['edit']) for o in out if not o['theorems_failed']])
print([ (o['definition'],o['theorems_failed']) for o in out if not any(re.match(r'C\d\d',x) for x in o['theorems_failed'])])
