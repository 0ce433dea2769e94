#!/usr/bin/env python3
"""Writes rocq/theories/PrimCof.v: the prime factors of the two cofactors (Pocklington certificates, base 2, and trial division)."""
M=402096035359507321594726366720466575392706800671181159425656785868777272553337714697862511267018014931937703598282857976535744623203249
P381=4638704574076146691498289350639807119782054683906549022985642612861209609656189848749536921852444848596916990932297
P224=26935696298915610574513298451669528361624243820491956655650666425177
P146=81162125843606155545104998607900118769099783
P75=19931107752921199754119
a,b,c,d=22294303974184787197,1857858664515398933,512088937297519,12192593745179
certs=[(d,[(1367711,1),(541,1)]),(c,[(d,1)]),(b,[(c,1)]),(a,[(b,1)]),(P75,[(a,1)]),(P146,[(P75,1)]),(P224,[(P146,1)]),(P381,[(P224,1)]),('M2',[(P381,1)])]
o=[]
o.append('''(** Generated by tools/gen_primality2.py.
    Primality of the prime factors of the orders of the two curve groups (other than r). *)
Require Import ZArith Lia Bool List Znumtheory Uint63.
From Verif Require Import NumTheory Primality UNat PockU.
Import ListNotations.
Open Scope Z_scope.

(** the large prime factor of the G2 cofactor *)
Definition M2 : Z := %d.
'''%M)
for p in (3,11,13,23,541,2713,10177,11953,262069,859267,1367711): o.append("Lemma prime_%d : prime %d. Proof. trial. Qed.\n"%(p,p))
for n,l in certs:
    N={'M2':M}.get(n,n)
    k=(2*N).bit_length()//28+1
    R=1<<(28*k); ninv=(-pow(N,-1,1<<28))%(1<<28); Ri=pow(R%N,-1,N)
    assert pow(2,N-1,N)==1 and 2*N<R and k<=24
    cs=[]
    for p,e in l:
        y=pow(2,(N-1)//p,N); z=pow(y-1,-1,N); c=((y-1)*z-1)//N
        cs.append("(%d,%d,%d,%d)"%(p,e,z,c))
    F=1
    for p,e in l: F*=p**e
    assert F*F>N and (N-1)%F==0
    o.append("Lemma prime_%s : prime %s.\nProof.\n  apply (upock_prime _ %d %d%%uint63 %d [%s]).\n  - repeat (apply Forall_cons; [|]); try apply Forall_nil.\n%s  - vm_cast_no_check (eq_refl true).\nQed.\n"%(n,n,k,ninv,Ri,";\n    ".join(cs),"".join("    + apply prime_%d.\n"%p for p,_ in l)))
open('/verif/rocq/theories/PrimCof.v','w').write("\n".join(o))
