# Generates rocq/theories/XtCases.v: the polynomial form of the conversion for each mass limit
import re
src=open('/verif/rocq/theories/ThreshViews.v').read()
par={}
for m in re.finditer(r"Definition (\w+) ((?:\([^)]*\) )+): R :=\n(.*?)\.\n\nLemma", src, re.S):
    ps=[]
    for g in re.findall(r"\(([^:)]*):([^)]*)\)",m.group(2)): ps+=g[0].split()
    par[m.group(1)]=ps
ren=dict(mQ32='(a22 (mq2 p))',mU32='(a22 (mu2 p))',m32='(pow2 (MG p))',mQ3='(sqrt (a22 (mq2 p)))',mU3='(sqrt (a22 (mu2 p)))',m3='(sqrt (pow2 (MG p)))',msq2='(tc_msq2 c)',msq='(sqrt (tc_msq2 c))',lmQ3MR='(LQ p o)',Li2='dilog')
sub={'yta':dict(D='QUM'),'lat':dict(QM='G',UM='G',QUM='QU',D='QU'),'lata':dict(D='QUM'),'lata2':dict(D='QUM')}
lname={'G':'GENERAL','QU':'MQ3_EQ_MU3','QM':'MQ3_EQ_M3','UM':'MU3_EQ_M3','QUM':'MQ3_EQ_MU3_EQ_M3','D':'DEGENERATE'}
# hypotheses of the case in terms of squared masses
hyp={'G':['mQ <> mU','mG <> mQ','mG <> mU'],'QU':['mU = mQ','mG <> mQ'],'QM':['mG = mQ','mQ <> mU','mS <> mQ'],'UM':['mG = mU','mQ <> mU','mS <> mU'],'QUM':['mU = mQ','mG = mQ','mS <> mQ'],'D':['mU = mQ','mG = mQ','mS = mQ']}
roots={'G':'q u m s','QU':'q m s','QM':'q u s','UM':'q u s','QUM':'q s','D':'q'}
lan={'G':[('s','m'),('u','q')],'QU':[('s','m')],'QM':[('u','q'),('q','s')],'UM':[('q','u'),('u','s')],'QUM':[('q','s')],'D':[]}
out='''(** * The DR'-to-MSbar conversion as a polynomial in Xt, for each mass limit
    GENERATED by tools/gen_xt3.py; only used in proofs. *)
From Coq Require Import Reals Lra Lia List ZArith Bool String.
From Verif Require Import Num NumFacts Except Params HierFormulas Dilog LoopFun Thresh ThreshTwo Threshold ThreshSpec ThreshProofs PotSpec PropPot2 ThreshViews XtCoef XtIdent XtProofs.
Import ListNotations.
Open Scope R_scope.

Lemma root x : 0 < x -> exists q, 0 < q /\\ x = q * q /\\ sqrt x = q.
Proof. intros H. exists (sqrt x). split; [apply sqrt_lt_R0; exact H|]. split; [symmetry; apply sqrt_sqrt; lra|reflexivity]. Qed.
Lemma g3_value (c : TC R) o : phys_tc c -> let p := tc_p c in
  getDeltaG3Alphas p (tc_msq2 c) o = g3v (LQ p o) (ln (a22 (mq2 p))) (ln (a22 (mu2 p))) (ln (pow2 (MG p))) (ln (tc_msq2 c)).
Proof.
  intros [(Hm & HQ & _ & _ & _ & _ & HG & HS & _) Hs] p. destruct (Hm (mq2 p)) as (_ & _ & H1); [left; reflexivity|]. destruct (Hm (mu2 p)) as (_ & _ & H2); [right; right; left; reflexivity|].
  fold p in HQ, HG, HS. unfold getDeltaG3Alphas, LQ, g3v, pow2. unR. assert (0 < v0 (MSt p) * v0 (MSt p)) by nra. assert (0 < MG p * MG p) by nra.
  rewrite !(ln_quot _ (v0 (MSt p) * v0 (MSt p))) by assumption. field.
Qed.
Lemma sq_ne a b : a * a <> b * b -> a <> b. Proof. intros H E. apply H. rewrite E. reflexivity. Qed.
Lemma sq_eq a b : 0 < a -> 0 < b -> a * a = b * b -> a = b. Proof. intros Ha Hb E. assert (F : (a - b) * (a + b) = 0) by lra. apply Rmult_integral in F. destruct F; lra. Qed.
Definition free_of_two (l : list R) : Prop := forall a b, In a l -> In b l -> a <> 2 * b.

'''
DEG=dict(yta=2,yta2=3,lat=5,lata=6)
F=dict(mQ='(a22 (mq2 p))',mU='(a22 (mu2 p))',mG='(pow2 (MG p))',mS='(tc_msq2 c)')
VS=['Xt','Xt4','Xt5','Xt6','Xt','z3']
def nm(v,l): return v+'_'+sub.get(v,{}).get(l,l)
def args(n): return " ".join(ren[x] for x in par[n] if x not in VS)
for l in lname:
    fs=[]
    for v in ('yta','yta2','lat','lata'):
        for i in range(DEG[v]): fs.append("(fun o => %s_%d %s)"%(nm(v,l),i,args(nm(v,l))))
    fs.append("(fun o => g3v (LQ p o) (ln (a22 (mq2 p))) (ln (a22 (mu2 p))) (ln (pow2 (MG p))) (ln (tc_msq2 c)))")
    xs=["(fun o => xtt_%s_%d %s)"%(l,k,args('xtt_'+l)) for k in(4,5,6)]
    hs=" ".join("(H%d : %s)"%(i,re.sub(r"\bm[QUGS]\b",lambda m:F[m.group(0)],h)) for i,h in enumerate(hyp[l]))
    out+="Section Case_%s.\n  Context (c : TC R) (HP : phys_tc c) (HL : massLimit3LThreshold (tc_p c) = %s).\n  Let p := tc_p c.\n  Context %s\n    (HT : free_of_two [a22 (mq2 p); a22 (mu2 p); pow2 (MG p); tc_msq2 c]).\n"%(l,lname[l],hs)
    out+="  Definition co_%s (o : Z) : nat -> R := coefs %s.\n"%(l,"\n    ".join("(%s o)"%f for f in fs))
    out+="  Lemma pos_%s : 0 < a22 (mq2 p) /\\ 0 < a22 (mu2 p) /\\ 0 < MG p /\\ 0 < tc_msq2 c.\n  Proof. destruct HP as [(Hm & _ & _ & _ & _ & _ & HG & _) Hs]. repeat split; try assumption; apply Hm; simpl; tauto. Qed.\n"%l
    for k in(4,5,6):
        out+="  Lemma id_%s_%d (o : Z) : %s o = k%d %s.\n"%("case_"+l,k,xs[k-4],k,"\n    ".join("(%s o)"%f for f in fs))
        out+='''  Proof.
    clear HL. cbv beta. generalize (LQ p o) as L. intros L. destruct pos_%s as (P1 & P2 & P3 & P4). clear HP.
    destruct (root _ P1) as (q & Pq & Eq & Sq). destruct (root _ P2) as (u & Pu & Eu & Su). destruct (root _ P4) as (s & Ps & Es & Ss).
    set (m := MG p) in *. assert (Sm : sqrt (pow2 m) = m) by (unfold pow2; unR; apply sqrt_square; lra). assert (Em : pow2 m = m * m) by reflexivity.
    rewrite ?Sq, ?Su, ?Ss, ?Sm, ?Eq, ?Eu, ?Es, ?Em. rewrite ?Eq, ?Eu, ?Es, ?Em in *. clear Sq Su Ss Sm Eq Eu Es Em P1 P2 P4. clearbody m p.
'''%l
        # equalities
        e=[]
        V=dict(mQ='q',mU='u',mG='m',mS='s')
        for i,h in enumerate(hyp[l]):
            a,op,b=h.split()
            a,b=V[a],V[b]
            if op=='=': e.append("    apply sq_eq in H%d; [|assumption|assumption]. subst %s.\n"%(i,a))
            else: e.append("    apply sq_ne in H%d.\n"%i)
        out+="".join(e)
        n=sum('<>' in h for h in hyp[l])
        hasli='Li2' in par['xtt_'+l] or 'Li2' in par['yta2_'+l]
        out+="    apply id_%s_%d; try assumption; %s.\n  Qed.\n"%(l,k,"try (apply landen_sq; try assumption; apply HT; simpl; tauto)" if lan[l] else "idtac")
    out+="  Lemma case_%s A Ab Atau : result (with_trilinears c A Ab Atau) co_%s (calcXt (tc_p (with_trilinears c A Ab Atau))).\n  Proof.\n"%(l,l)
    out+="    set (c' := with_trilinears c A Ab Atau). set (X := calcXt (tc_p c')).\n    apply (assemble c' X %s\n    %s); intros o; change (massLimit3LThreshold (tc_p c')) with (massLimit3LThreshold p); unfold p at 1; try rewrite HL.\n"%("\n    ".join(fs),"\n    ".join(xs))
    out+="    - eexists. exact (%s_eq (tc_p c') (tc_msq2 c) _ o).\n"%nm('lata2',l)
    out+="    - exact (g3_value c o HP).\n"
    for v in('yta','yta2','lat','lata'):
        n=nm(v,l)
        a=" ".join('X' if x=='Xt' else ren[x] for x in par[n])
        # the _eq lemma: number of args
        ml='(tc_msq2 c) ' if v=='yta2' else ''
        out+="    - exact (eq_trans (%s_eq (tc_p c') %so) (f_equal Ok (%s_poly %s))).\n"%(n,ml,n,a)
    for k in(4,5,6):
        n='xtt_'+l
        a=" ".join({'Xt4':'X^4' if k==4 else '0','Xt5':'X^5' if k==5 else '0','Xt6':'X^6' if k==6 else '0'}.get(x) and "(%s)"%{'Xt4':'X^4' if k==4 else '0','Xt5':'X^5' if k==5 else '0','Xt6':'X^6' if k==6 else '0'}[x] or ren[x] for x in par[n])
        out+="    - refine (eq_trans (%s_eq (tc_p c') (tc_msq2 c) %d o) _). simpl negb. cbv iota. rewrite p%d. exact (f_equal Ok (%s_poly %s)).\n"%(n,k,k,n,a)
    for k in(4,5,6): out+="    - exact (id_case_%s_%d o).\n"%(l,k)
    out+="  Qed.\nEnd Case_%s.\n\n"%l
open('/verif/rocq/theories/XtCases.v','w').write(out)
