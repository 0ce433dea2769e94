import sys,re
DEBUG=len(sys.argv)>1 and sys.argv[1]=='d'
T='/verif/rocq/theories/'
names=[]
for f in ['ModelRepr','ModelFq','ModelFr','ModelTower','ModelCurve','ModelPairing','ModelHash','ModelBls']:
    for m in re.finditer(r'^\s*(?:Definition|Fixpoint) ([A-Za-z0-9_\']+)',open(T+f+'.v').read(),re.M):
        names.append(m.group(1))
names=[n for n in names if n not in ('rw0','rw1','rwA','rwB','rwC','rwD','rwE','rwF','rwG','rwH','rwI','rwJ','rwK')]
BASE="ExpLoop bits_loop o_add o_sub o_mul o_sq o_dbl o_neg o_inv o_iszero o_equals o_cmp o_sqrt o_zero o_one b_ops b_raw b_of b_exp b_repr b_legendre"
W="snoc upd wsub iadd isub wlo whi wadd wmul wshl wshr wor wand Add64 Sub64 Mul64 bitlen LeadingZeros64"
Z="Z.eqb Z.ltb Z.leb Z.land Z.lor Z.testbit Z.modulo Z.div Nat.add lnth inr nth loopB rangeB mkbytes mkslices big_Mod byte_hi byte_lo loopT rangeT"
def wrap(l,w=150):
    out='';line='  '
    for x in l:
        if len(line)+len(x)>w: out+=line+'\n'; line='  '
        line+=x+' '
    return out+line.rstrip()
allnames=(BASE+' '+W+' '+Z).split()+names
seen=set(); allnames=[x for x in allnames if not(x in seen or seen.add(x))]
tac=r'''(** Tactics for running source text on values that are not known: every function of the model is an atom; after the normal form the
    two sides differ at most by the tests still to be decided. *)
Require Import ZArith Bool String List.
From Verif Require Import Words ModelRepr ModelFq ModelFr ModelOps ModelTower ModelCurve ModelPairing ModelHash ModelBls SrcAst SrcSem SrcCode SrcCall.
Import ListNotations.
Open Scope Z_scope.

Ltac src_split := repeat (reflexivity || match goal with |- context [match ?b with _ => _ end] =>
  lazymatch b with context [match _ with _ => _ end] => fail | _ => destruct b end end).
Ltac src_cbv := cbv -[
%s].
(** with the bytes of numbers and the ranges over known lists in the open *)
Ltac src_cbvb := cbv -[
%s].
(** with constant indices of small lists in the open *)
Ltac src_cbvl := cbv -[
%s].
(** with the lengths of slices and copy as atoms *)
Ltac src_cbvs := cbv -[
%s].
(** with the numbers of type int in the open; those of type uint64 are atoms *)
Ltac src_cbvw := cbv -[
%s].
(** with all numbers and known lists in the open, for runs on constants *)
Ltac src_cbvh := cbv -[
%s].
Ltac src := src_cbv; src_split.
Ltac src_lhs := etransitivity; [src_cbv; reflexivity|].
(** the operations of FQ2 in code written for any field *)
Ltac src2 := cbn [o_add o_sub o_mul o_sq o_dbl o_neg o_inv o_iszero o_equals o_cmp o_sqrt o_zero o_one FQ2O]; src.

(** Cutting a run: the statements up to a place, and the rest as a continuation. The two sides are convertible; only the kernel checks it. *)
Lemma use_K {A} (P : A -> Prop) (k : A) : (forall K, K = k -> P K) -> P k.
Proof. intros H. exact (H k eq_refl). Qed.
Fixpoint pos_for (ss : list stmt) : nat := match ss with SFor _ _ _ _ :: _ => 0 | _ :: r => S (pos_for r) | [] => 0 end%%nat.
Fixpoint pos_range (ss : list stmt) : nat := match ss with SRange _ _ _ _ :: _ => 0 | _ :: r => S (pos_range r) | [] => 0 end%%nat.
Ltac to_exec := match goal with |- exec _ _ _ _ _ _ _ _ _ _ _ _ _ = _ => idtac
  | |- ?l = ?r => let l' := eval hnf in l in change (l' = r) end.
(** up to the first `for` (`range`), of which H says what it does *)
Ltac run_loop H := to_exec;
  match goal with |- exec ?li ?z ?g ?c ?L ?R ?d ?b ?e ?kn ?kr ?kb ?kc = ?rhs =>
    let j := eval cbv in (pos_for b) in let rest := eval cbv in (skipn (S j) b) in let d' := eval cbv in (d - S j)%%nat in
    let h := constr:(H (fun en => exec li z g c L R d' rest (pop en) kn kr kb kc) kr) in
    match type of h with _ = ?m => refine (@eq_trans _ _ m rhs _ _); [exact_no_check h|] end end; cbv beta.
Ltac run_range H := to_exec;
  match goal with |- exec ?li ?z ?g ?c ?L ?R ?d ?b ?e ?kn ?kr ?kb ?kc = ?rhs =>
    let j := eval cbv in (pos_range b) in let rest := eval cbv in (skipn (S j) b) in let d' := eval cbv in (d - S j)%%nat in
    let h := constr:(H (fun en => exec li z g c L R d' rest en kn kr kb kc) kr) in
    match type of h with _ = ?m => refine (@eq_trans _ _ m rhs _ _); [exact_no_check h|] end end; cbv beta.
(** the first statement alone; what follows is the variable K *)
Ltac step_open K HK := to_exec;
  match goal with |- exec ?li ?z ?g ?c ?L ?R ?d ?b ?e ?kn ?kr ?kb ?kc = ?rhs =>
    let b' := eval hnf in b in
    match b' with ?s :: ?ss => let n := eval cbv in (d - 1)%%nat in
      refine (@eq_trans _ _ _ rhs (exec_cons li z g c L R n s ss e kn kr kb kc) _);
      refine (use_K (fun K => exec1 li z g c L R n s e K kr kb kc = rhs) (fun en => exec li z g c L R n ss en kn kr kb kc) _); intros K HK end end.
Ltac step_close K HK := rewrite HK; clear K HK; cbv beta.
(** a statement after which only K is left *)
Ltac step := let K := fresh "K" in let HK := fresh "HK" in step_open K HK; src_lhs; step_close K HK.
(** the loop of which H says what it does *)
Ltac step_loop H := let K := fresh "K" in let HK := fresh "HK" in step_open K HK;
  match goal with |- exec1 ?li ?z ?g ?c ?L ?R ?d ?b ?e ?kn ?kr ?kb ?kc = ?rhs =>
    let h := constr:(H (fun en => kn (pop en)) kr) in
    match type of h with _ = ?m => refine (@eq_trans _ _ m rhs _ _); [exact_no_check h|] end end; cbv beta; step_close K HK.
Ltac step_range H := let K := fresh "K" in let HK := fresh "HK" in step_open K HK;
  match goal with |- exec1 ?li ?z ?g ?c ?L ?R ?d ?b ?e ?kn ?kr ?kb ?kc = ?rhs =>
    let h := constr:(H kn kr) in
    match type of h with _ = ?m => refine (@eq_trans _ _ m rhs _ _); [exact_no_check h|] end end; cbv beta; step_close K HK.
(** the first j statements; the rest is K *)
Ltac cut_at j K HK := to_exec;
  match goal with |- exec ?li ?z ?g ?c ?L ?R ?d ?b ?e ?kn ?kr ?kb ?kc = ?rhs =>
    let pre := eval cbv in (firstn j b) in let rest := eval cbv in (skipn j b) in let d' := eval cbv in (d - j)%%nat in
    refine (@eq_trans _ _ (exec li z g c L R d pre e (fun en => exec li z g c L R d' rest en kn kr kb kc) kr kb kc) rhs _ _);
    [match goal with |- _ = ?y => exact_no_check (eq_refl y) end|];
    refine (use_K (fun K => exec li z g c L R d pre e K kr kb kc = rhs) _ _); intros K HK end.
(** the branch of an `if` without initialisation that stands first *)
Ltac into_if br := to_exec;
  match goal with |- exec ?li ?z ?g ?c ?L ?R ?d (SIf [] ?co ?t ?el :: ?rest) ?e ?kn ?kr ?kb ?kc = ?rhs =>
    let s := (lazymatch br with true => t | false => el end) in let d' := eval cbv in (Nat.pred d) in
    refine (@eq_trans _ _ (exec li z g c L R d' s ([] :: [] :: e) (fun en => exec li z g c L R d' rest (pop (pop en)) kn kr kb kc) kr
       (fun en => kb (pop (pop en))) (fun en => kc (pop (pop en)))) rhs _ _);
    [match goal with |- _ = ?y => exact_no_check (eq_refl y) end|] end.

(** The first `for` of a function. *)
Definition for1 (f : func) : option expr * list stmt * list stmt :=
  match find (fun s => match s with SFor _ _ _ _ => true | _ => false end) (f_body f) with
  | Some (SFor _ c post body) => (c, post, body)
  | _ => (None, [], [])
  end.
Definition fcond f := fst (fst (for1 f)). Definition fpost f := snd (fst (for1 f)). Definition fbody f := snd (for1 f).
'''%(wrap(allnames),wrap([x for x in allnames if x not in ('Nat.add','lnth','nth','inr','rangeB','isub','iadd','FQRepr_Bytes','FRRepr_Bytes','be_put64','upd0','byte0','FQRepr_slice','FRRepr_slice')]),wrap([x for x in allnames if x not in ('lnth','Nat.add')]),wrap(allnames+'length go_copy Z.of_nat Z.to_nat less'.split()),wrap([x for x in allnames if x not in 'Z.eqb Z.ltb Z.leb iadd isub lnth nth inr upd Nat.add loopT rangeT'.split()]+'weqb wltb wleb'.split()),wrap([x for x in allnames if x not in 'Z.eqb Z.ltb Z.leb iadd isub lnth nth inr upd Nat.add loopT rangeT Z.modulo horner of_pair xNum11_repr xDen11_repr yNum11_repr yDen11_repr xNum3_repr xDen3_repr yNum3_repr yDen3_repr'.split()]))
tac+=r'''
(** Renaming a variable, for a call whose argument is its receiver. *)
Fixpoint ren (a b : string) (x : expr) : expr :=
  match x with
  | EV y => EV (if String.eqb y a then b else y)
  | ESel e f => ESel (ren a b e) f
  | EIdx e i => EIdx (ren a b e) (ren a b i)
  | ESlice e lo hi => ESlice (ren a b e) (option_map (ren a b) lo) (option_map (ren a b) hi)
  | EBin op e f => EBin op (ren a b e) (ren a b f)
  | EUn op e => EUn op (ren a b e)
  | ECall f args => ECall f (map (ren a b) args)
  | ECallSpread f args => ECallSpread f (map (ren a b) args)
  | EMeth e m args => EMeth (ren a b e) m (map (ren a b) args)
  | EComp t fs => EComp t (map (fun kv => (fst kv, ren a b (snd kv))) fs)
  | _ => x
  end.
(** for bodies without nested blocks *)
Definition ren_stmt (a b : string) (s : stmt) : stmt :=
  match s with
  | SDef xs es => SDef xs (map (ren a b) es)
  | SAssign ls es => SAssign (map (ren a b) ls) (map (ren a b) es)
  | SOp op l e => SOp op (ren a b l) (ren a b e)
  | SExpr e => SExpr (ren a b e)
  | SRet es => SRet (map (ren a b) es)
  | _ => SBreak
  end.
Definition alias (a b : string) (f : func) : func :=
  mkFunc (filter (fun p => negb (String.eqb (fst p) a)) (f_params f)) (f_results f) (map (ren_stmt a b) (f_body f)).
'''
open('SrcTac.v','w').write(tac)
HEAD=r'''(** %s *)
Require Import ZArith Bool String List Lia.
From Verif Require Import Words ModelRepr ModelFq ModelFr ModelOps ModelTower ModelCurve ModelPairing ModelHash ModelBls SrcAst SrcSem SrcCode SrcCall SrcTac.
Import ListNotations.
Open Scope Z_scope.

Section S.
Context {F : Type} (B : BOps F).
'''
inj={'2':'V2','6':'V6','c':'V12','F':'VF','A':'VA1','P':'VP1','Q':'VA2','R':'VP2','r':'VR','s':'VRr','b':'VB','z':'VBig','y':'VBy'}
class Fl:
    def __init__(s,title): s.o=HEAD%title
    def lem(s,name,args,params,results,unf='',tac='src',pre=''):
        vs=[a.split(':')[0] for a in args]
        vals='; '.join('%s %s'%(inj[a.split(':')[1]],a.split(':')[0]) for a in args)
        st='n %s : runB B n src_%s [%s] = Done [%s] %s.\n'%(' '.join(vs),name,vals,params,('(%s)' if results.startswith('orerr') else '[%s]')%results)
        u=('unfold %s. '%unf) if unf else ''
        if DEBUG: s.o+='Lemma src_%s_ok %sProof. intros. %s%s first [solve [%s] | idtac "FAIL %s"; %s; idtac]. all: match goal with |- ?g => idtac g | _ => idtac end. Abort.\n'%(name,st,pre,u,tac,name,tac)
        else: s.o+='Lemma src_%s_ok %sProof. intros. %s%s%s. Qed.\n'%(name,st,pre,u,tac)
    def mut(s,n,args,extra='',model=None,O='B',unf=None,tac='src'):
        a=' '.join(x.split(':')[0] for x in args)
        m=model or n
        s.lem(n,args,'%s (%s %s %s)%s'%(inj[args[0].split(':')[1]],m,O,a,('; '+extra) if extra else ''),'',unf or m,tac)
    def inv(s,n,l):
        s.lem(n,['f:'+l],'%s (fst (%s B f))'%(inj[l],n),'VB (snd (%s B f))'%n,n)
    def get(s,n,args,res,par='',model=None,O='B',unf=None,tac='src'):
        a=' '.join(x.split(':')[0] for x in args)
        m=model or n
        s.lem(n,args,par,'%s (%s %s %s)'%(res,m,O,a),unf or m,tac)
    def write(s,f): open(f,'w').write(s.o+'End S.\n')
t=Fl('The functions of fq2.go, fq6.go and fq12.go without loops, run from their source text, compute the model.')
f2=['f:2']; fg2=['f:2','g:2']
t.lem('NewFQ2',['x:F','y:F'],'','V2 (mkFQ2 x y)')
t.get('FQ2_Cmp',fg2,'VI')
t.mut('FQ2_MultiplyByNonresidueAssign',f2)
t.get('FQ2_Norm',f2,'VF','V2 f')
t.get('FQ2_IsZero',f2,'VB')
for n in ['SquareAssign','DoubleAssign','NegAssign']: t.mut('FQ2_'+n,f2)
for n in ['AddAssign','SubAssign','MulAssign']: t.mut('FQ2_'+n,fg2)
t.inv('FQ2_InverseAssign','2')
t.get('FQ2_Equals',fg2,'VB')
t.lem('FQ2_Sqrt',f2,'','V2 (fst (FQ2_Sqrt B f)); VB (snd (FQ2_Sqrt B f))','FQ2_Sqrt, FQ2_empty')
t.lem('FQ2_Copy',f2,'V2 f','V2 f')
t.get('FQ2_Parity',f2,'VB')
t.lem('FQ2_Legendre',f2,'','leg (FQ2_Legendre B f)','FQ2_Legendre')
t.mut('FQ2_DivAssign',fg2)
f6=['f:6']; fg6=['f:6','g:6']
t.lem('NewFQ6',['x:2','y:2','z:2'],'','V6 (mkFQ6 x y z)')
t.lem('FQ6_Copy',f6,'','V6 f')
t.mut('FQ6_MulByNonresidueAssign',f6)
t.mut('FQ6_MulBy1Assign',['f:6','c1:2'])
t.mut('FQ6_MulBy01Assign',['f:6','c0:2','c1:2'])
t.get('FQ6_Equals',fg6,'VB','V6 g')
t.get('FQ6_IsZero',f6,'VB')
for n in ['DoubleAssign','NegAssign','SquareAssign']: t.mut('FQ6_'+n,f6)
for n in ['AddAssign','SubAssign','MulAssign']: t.mut('FQ6_'+n,fg6,'V6 g')
t.inv('FQ6_InverseAssign','6')
fc=['f:c']; fgc=['f:c','g:c']
t.lem('NewFQ12',['x:6','y:6'],'VMoved; VMoved','V12 (mkFQ12 x y)')
t.lem('FQ12_Copy',fc,'','V12 f')
for n in ['ConjugateAssign','DoubleAssign','NegAssign','SquareAssign']: t.mut('FQ12_'+n,fc)
t.mut('FQ12_MulBy014Assign',['f:c','c0:2','c1:2','c4:2'])
for n in ['AddAssign','SubAssign','MulAssign']: t.mut('FQ12_'+n,fgc,'V12 g')
t.get('FQ12_Equals',fgc,'VB','V12 g')
t.get('FQ12_IsZero',fc,'VB','V12 f')
t.inv('FQ12_InverseAssign','c')
t.write('SrcTower.v')

c=Fl('The functions of g1.go and g2.go without loops, run from their source text, compute the model.')
for G,A,P,F,O,tac,NZ in [('G1','A','P','F','(b_ops B)','src','Affine_IsZero'),('G2','Q','R','2','(FQ2O B)','src2','Affine_IsZero')]:
    g=['g:'+A]; gp=['g:'+P]
    a=G+'Affine_'; p=G+'Projective_'
    c.lem('New%sAffine'%G,['x:'+F,'y:'+F],'','%s (NewAffine x y)'%inj[A],'NewAffine')
    c.lem(a+'Copy',g,'','%s g'%inj[A])
    c.lem(a+'IsZero',g,'','VB (Affine_IsZero g)','Affine_IsZero')
    c.mut(a+'NegAssign',g,model='Affine_NegAssign',O=O,tac=tac)
    c.get(a+'ToProjective',g,inj[P],model='Affine_ToProjective',O=O,tac=tac)
    c.get(a+'IsOnCurve',g,'VB',model=G+'_IsOnCurve',unf=G+'_IsOnCurve, IsOnCurve',tac=tac)
    X=['x:'+F,'greatest:b']
    c.lem('Get%sPointFromX'%G,X,'','orerr %s (Get%sPointFromX B x greatest)'%(inj[A],G),'Get%sPointFromX, GetPointFromX'%G,tac)
    c.get(a+'IsInCorrectSubgroupAssumingOnCurve',g,'VB',model=G+'_IsInCorrectSubgroupAssumingOnCurve')
    c.get(a+'ScaleByCofactor',g,inj[P],model=G+'_ScaleByCofactor')
    c.get(a+'Equals',['g:'+A,'h:'+A],'VB',par='%s h'%inj[A],model=a+'Equals',O=O,tac=tac)
    c.lem('Decompress%s'%G,['b:y'],'','orerr %s (Decompress%s B b)'%(inj[A],G),'Decompress%s'%G)
    c.lem('New%sProjective'%G,['x:'+F,'y:'+F,'z:'+F],'','%s (mkProj x y z)'%inj[P])
    c.lem(p+'Copy',gp,'','%s g'%inj[P])
    if G=='G1': c.mut(p+'NegAssign',gp,model='Proj_NegAssign',O=O,tac=tac)
    c.get(p+'IsZero',gp,'VB',model='Proj_IsZero',O=O,tac=tac)
    c.get(p+('Equal' if G=='G1' else 'Equals'),['g:'+P,'h:'+P],'VB',par='%s h'%inj[P],model='Proj_Equal',O=O,tac=tac)
    c.get(p+'ToAffine',gp,inj[A],model=G+'_ToAffine',O=O,unf=G+'_ToAffine, ToAffine_div',tac=tac)
    c.get(p+'Double',gp,inj[P],model='Double',O=O,tac=tac)
    c.get(p+'Add',['g:'+P,'h:'+P],inj[P],par='%s h'%inj[P],model='Add',O=O,tac=tac)
    c.get(p+'AddAffine',['g:'+P,'h:'+A],inj[P],par='%s h'%inj[A],model='AddAffine',O=O,tac=tac)
c.write('SrcCurve.v')
