#!/usr/bin/env python3
"""Writes the constants of rocq/theories/TwoPow.v (kq, t2, t2_chain) to standard output."""
q=4002409555221667393417789825735904156556882819939007885332058136124031650490837864442687629129015664037894272559787
k=((q-1)//6-1)//2
x=1;out=[]
for b in bin(k)[2:]:
    y=x*x*(2 if b=='1' else 1); out.append("(%s,0x%x)"%("true" if b=='1' else "false",y//q)); x=y%q
print(hex(k)); print(hex(x)); print("["+";".join(out)+"]")
