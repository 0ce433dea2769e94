#!/usr/bin/env python3
"""Writes rocq/theories/Primality.v: Pocklington certificates (base 2) for the two BLS12-381 moduli."""
q=4002409555221667393417789825735904156556882819939007885332058136124031650490837864442687629129015664037894272559787
r=52435875175126190479447740508185965837690552500527637822603658699938581184513
P1=15778400344354997994418419698270088123916926905054652752758194827714659
P2=1125266252156850182658904441386709967
P3=3819663927398918131021
certs=[(13090036741,[(421987,1)]),(P3,[(13090036741,1),(755057,1)]),(P2,[(P3,1)]),(P1,[(P2,1)]),('q',[(P1,1)]),
 (2653753,[(110573,1)]),(63690073,[(2653753,1)]),(254760293,[(63690073,1)]),(52437899,[(609743,1)]),
 (2529403,[(18329,1)]),('r',[(254760293,2),(906349,2),(52437899,1),(2529403,1)])]
def chain(n,e):
    x=1;out=[]
    for b in bin(e)[2:]:
        b=int(b); y=x*x*(2 if b else 1); k=y//n; out.append("(%s,0x%x)"%("true" if b else "false",k)); x=y-k*n
    return x,"["+";".join(out)+"]"
o=[]
o.append('''(** Generated by tools/gen_primality.py.
    The BLS12-381 base-field modulus q and group order r are prime. Checked with Pocklington certificates. *)
Require Import ZArith Lia Bool List Znumtheory.
From Verif Require Import NumTheory.
Import ListNotations.
Open Scope Z_scope.

(** The two moduli, written in decimal. (fq.go:26 and fr.go:16 give them as decimal strings.) *)
Definition q : Z := %d.
Definition r : Z := %d.

Ltac trial := apply trial_prime_spec; vm_cast_no_check (eq_refl true).
'''%(q,r))
small=sorted({p for _,l in certs for p,_ in l if p<10**6})
for p in small: o.append("Lemma prime_%d : prime %d. Proof. trial. Qed.\n"%(p,p))
for n,l in certs:
    N={'q':q,'r':r}.get(n,n)
    x,main=chain(N,N-1); assert x==1
    cs=[]
    for p,e in l:
        y,ch=chain(N,(N-1)//p); z=pow(y-1,-1,N); k=((y-1)*z-1)//N
        cs.append("(%d,%d,%s,0x%x,0x%x)"%(p,e,ch,z,k))
    F=1
    for p,e in l: F*=p**e
    assert F*F>N and (N-1)%F==0
    o.append("Definition main_%s : list (bool * Z) := %s.\n"%(n,main))
    o.append("Definition cert_%s : list pcert := [%s].\n"%(n,";\n  ".join(cs)))
    o.append("%s prime_%s : prime %s.\nProof.\n  apply (pocklington _ main_%s cert_%s); [reflexivity| |vm_cast_no_check (eq_refl true)].\n  repeat (apply Forall_cons; [|]); try apply Forall_nil.\n%sQed.\n"%("Theorem" if n in('q','r') else "Lemma",n,n,n,n,"".join("  - apply prime_%d.\n"%p for p,_ in l)))
open('/verif/rocq/theories/Primality.v','w').write("\n".join(o))
