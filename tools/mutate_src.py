#!/usr/bin/env python3
"""Wrong Go programs against the lemmas of the Src*.v files (which must have been built).
For each function, one random edit of its Go text (in a copy under /tmp) is parsed by gen_srccode.py; the file that proves the
function's lemma is then compiled against the edited syntax tree. Results go to /tmp/pa/done.jsonl. SEED picks other edits."""
import os,re,subprocess,shutil,json,sys,time,random
V='/verif/rocq/theories'
base=open(V+'/SrcCode.v').read()
pat=r'(?ms)^\(\*\* (\S+?):(\d+)-(\d+) \*\)\nDefinition (src_\w+) : func := (.*?\]\.)\n(?=\(\*\*|Definition|\Z)'
items=re.findall(pat,base)
B={n:d for _,_,_,n,d in items}
files=['SrcTower','SrcLoops','SrcLoops2','SrcCurve','SrcBytes','SrcPairing','SrcPairing2','SrcPairing3','SrcHash','SrcBls','SrcBls2','SrcRepr','SrcRepr2','SrcFq','SrcFq2']
txt={g:open(V+'/'+g+'.v').read() for g in files}
SW=[('AddAssign','SubAssign'),('SubAssign','AddAssign'),('MulAssign','AddAssign'),('SquareAssign','DoubleAssign'),('DoubleAssign','SquareAssign'),('.c0','.c1'),('.c1','.c0'),('.c2','.c0'),('.x','.y'),('.y','.x'),('.z','.x'),(' == ',' != '),(' != ',' == '),('true','false'),('false','true'),(' < ',' <= '),(' >= ',' > '),(' > ',' >= '),(' && ',' || '),(' + ',' - '),(' - ',' + '),(' << ',' >> '),('[0]','[1]'),('[1]','[0]'),('[2]','[1]'),('[3]','[2]'),('[5]','[4]'),('carry)','0)'),('Zero','One'),('One','Zero'),('!','')]
rng=random.Random(int(os.environ.get('SEED','1')))
def muts(lines):
    out=[]
    for i,l in enumerate(lines):
        s=l.strip()
        if s.startswith('//') or not s: continue
        for a,b in SW:
            for m in re.finditer(re.escape(a),l):
                if a=='!' and l[m.end():m.end()+1]=='=': continue
                out.append((i,l,l[:m.start()]+b+l[m.end():]))
        if re.match(r'^[\w.\[\]*]+\(.*\)$',s) or re.match(r'^[\w.\[\], ]+ [|&+-]?= ',s): out.append((i,l,None))
    return out
q=['-Q',V,'Verif','-Q','/tmp/pa','Mut']
os.makedirs('/tmp/pa',exist_ok=True)
shutil.rmtree('/tmp/repo_auto',ignore_errors=True); shutil.copytree('/repo','/tmp/repo_auto')
for f,a,b,n,d in items:
    hits=[g for g in files if re.search(r'\b%s\b'%n,txt[g])]
    if not hits: continue
    p='/repo/'+f
    if not os.path.exists(p): print('nofile',f); continue
    T=open(p).read().split('\n'); a=int(a);b=int(b)
    ms=muts(T[a:b-1]) if b>a else []
    rng.shuffle(ms)
    done=False
    for i,o,nw in ms[:6]:
        L=list(T)
        if nw is None: del L[a+i]
        else: L[a+i]=nw
        open('/tmp/repo_auto/'+f,'w').write('\n'.join(L))
        r=subprocess.run(['python3','/verif/tools/gen_srccode.py'],env=dict(os.environ,SRC_REPO='/tmp/repo_auto'),capture_output=True,text=True)
        D={x[3]:x[4] for x in re.findall(pat,r.stdout)}
        ch=[x for x in D if D[x]!=B.get(x)]
        if ch!=[n]: continue
        open('/tmp/pa/SrcMut.v','w').write('Require Import ZArith String List.\nFrom Verif Require Import SrcAst.\nImport ListNotations.\nOpen Scope string_scope. Open Scope Z_scope.\nDefinition %s : func := %s\n'%(n,D[n]))
        r=subprocess.run(['timeout','60','coqc']+q+['/tmp/pa/SrcMut.v'],capture_output=True,text=True)
        if r.returncode: continue
        done=True
        res=[]
        for g in hits:
            s=re.sub(r'(?m)^(From Verif Require Import [^\n]*SrcCode[^\n]*\.)$',r'\1\nFrom Mut Require Import SrcMut.',txt[g],1)
            open('/tmp/pa/T.v','w').write(s); t0=time.time()
            r=subprocess.run(['timeout','200','coqc']+q+['/tmp/pa/T.v'],capture_output=True,text=True)
            if r.returncode==0: res.append([g,'PASSED','']); continue
            m=re.search(r'line (\d+)',r.stderr); lem=''
            if m: lem=[x for x in s.split('\n')[:int(m.group(1))] if re.match(r'\s*(Lemma|Theorem|Example) ',x)][-1].split()[1]
            res.append([g,'TIMEOUT' if r.returncode==124 else 'failed',lem,round(time.time()-t0)])
        out=dict(file=f,line=a+i+1,defn=n,old=o.strip(),new=(nw or '').strip(),res=res)
        open('/tmp/pa/done.jsonl','a').write(json.dumps(out)+'\n')
        break
    open('/tmp/repo_auto/'+f,'w').write('\n'.join(T))
    if not done: open('/tmp/pa/done.jsonl','a').write(json.dumps(dict(defn=n,skip=len(ms)))+'\n')
print('END')
