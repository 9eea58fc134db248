#!/usr/bin/env python3
"""Generates AsymCases.v: for each strong correction and each pair (limit, more degenerate limit) the certificate that the
difference of the two formulas is O(e) when the masses approach each other."""
import re,os
D=os.path.join(os.path.dirname(os.path.abspath(__file__)),'..','rocq','theories')
src=open(os.path.join(D,'ThreshViews.v')).read()
views={m[0]:(bool(m[1]),m[2].split()) for m in re.findall(r'^Definition (\w+) (\(Li2 : R -> R\) )?\(([\w ]+) : R\) : R :=',src,re.M)}
views['vev_QU']=(False,['mQ32','Xt2'])
alias={'vev':{'QM':'G','UM':'G','QUM':'QU','D':'QU'},'yta':{'D':'QUM'},'lat':{'QM':'G','UM':'G','QUM':'QU','D':'QU'},'lata':{'D':'QUM'},'lata2':{'D':'QUM'}}
get=lambda b,l: alias.get(b,{}).get(l,l)
cases=[('GQU','G','QU',['K0','KE','K1','K2'],['K0','K0','K1','K2']),('GQM','G','QM',['K0','K1','KE','K2'],['K0','K1','K0','K2']),
 ('GUM','G','UM',['K1','K0','KE','K2'],['K1','K0','K0','K2']),('QU','QU','QUM',['K0','K0','KE','K1'],['K0','K0','K0','K1']),
 ('QM','QM','QUM',['K0','KE','K0','K1'],['K0','K0','K0','K1']),('UM','UM','QUM',['K0','KE','KE','K1'],['K0','K0','K0','K1']),
 ('D','QUM','D',['K0','K0','K0','KE'],['K0','K0','K0','K0']),
 ('GQUa','G','QU',['K0','KE','K1','K1'],['K0','K0','K1','K1']),('GQUb','G','QU',['K0','KE','K1','K0'],['K0','K0','K1','K0']),
 ('GQMa','G','QM',['K0','K1','KE','K1'],['K0','K1','K0','K1']),('GUMa','G','UM',['K1','K0','KE','K1'],['K1','K0','K0','K1'])]
N={'vev':[3,1,1,1,3,3,1],'yta':[1,2,2,2,2,2,1],'lat':[3,1,1,1,3,3,1],'yta2':[2,4,4,4,4,4,1],'lata':[4,2,2,2,5,5,1],'lata2':[4,3,3,3,6,6,1],'xtt':[5,4,4,4,7,7,1]}
val={'K0':'q','KE':'(q * (1 + e))','K1':'(q * x1)','K2':'(q * x2)'}
idx={'mQ32':0,'mU32':1,'m32':2,'msq2':3,'mQ3':4,'mU3':5,'m3':6,'msq':7}
oth={'Xt':'X','Xt2':'X','Xt4':'X4','Xt5':'X5','Xt6':'X6','z3':'z','lmQ3MR':'lam'}
def call(v,ks):
    li,args=views[v]
    def a(x):
        if x in oth: return oth[x]
        i=idx[x]; k=val[ks[i%4]]
        return k if i>=4 else f'({k} * {k})'
    return v+(' L' if li else '')+' '+' '.join(a(x) for x in args)
out=['''(** * Limits of the strong corrections for coinciding masses: certificates
    GENERATED by tools/gen_asym.py *)
From Coq Require Import Reals Lra List ZArith Bool.
From Verif Require Import Num HierFormulas DilogSpec ThreshViews Defined AsymPoly AsymNF AsymNFok AsymReif.
Import ListNotations.
Open Scope R_scope.
''']
for c,g,s,kg,ks in cases: out.append(f"Definition cfg_{c} : list kind := [{';'.join(kg+ks)}].\n")
out.append('''Section Cases.
  Context (L : R -> R) (q x1 x2 X lam z X4 X5 X6 : R) (HL : is_ReLi2 L) (Hq : 0 < q) (H1 : 0 < x1) (H2 : 0 < x2) (N1 : x1 <> 1) (N2 : x2 <> 1) (N12 : x1 <> x2).
  Lemma use n cfg a b (f g : R -> R) : chk n = true -> limit_check n cfg (Defined.ES a b) = true ->
    (forall e, f e = evL L (vals cfg q x1 x2 X lam z X4 X5 X6 e) a) -> (forall e, g e = evL L (vals cfg q x1 x2 X lam z X4 X5 X6 e) b) -> bigO 1 (fun e => f e - g e).
  Proof.
    intros C V Hf Hg. eapply bigO_ext; [|apply (limit_check_ok n cfg L q x1 x2 X lam z X4 X5 X6 HL Hq H1 H2 N1 N2 N12 C _ V)].
    intros e. unfold val. cbn [evL nsub NumR]. rewrite <- Hf, <- Hg. reflexivity.
  Qed.
''')
for f in N:
    for (c,g,s,kg,ks),n in zip(cases,N[f]+[N[f][0],N[f][0],N[f][1],N[f][2]]):
        G=f'{f}_{get(f,g)}'; S=f'{f}_{get(f,s)}'
        out.append(f'''  Lemma c_{f}_{c}_check : limit_check {n} cfg_{c} (Defined.ES (proj1_sig r_{G}) (proj1_sig r_{S}s)) = true. Proof. vm_compute. reflexivity. Qed.
  Lemma c_{f}_{c} : bigO 1 (fun e => {call(G,kg)} - {call(S,ks)}).
  Proof. refine (use {n} cfg_{c} _ _ (fun e => {call(G,kg)}) (fun e => {call(S,ks)}) _ c_{f}_{c}_check _ _); [vm_compute; reflexivity|intros e; exact (proj2_sig r_{G} L {' '.join(f'({val[k]} * {val[k]})' for k in kg+ks)} {' '.join(val[k] for k in kg+ks)} X lam z X4 X5 X6)|intros e; exact (proj2_sig r_{S}s L {' '.join(f'({val[k]} * {val[k]})' for k in kg+ks)} {' '.join(val[k] for k in kg+ks)} X lam z X4 X5 X6)]. Qed.
''')
out.append('End Cases.\n')
open(os.path.join(D,'AsymCases.v'),'w').write(''.join(out))
