HEAD=open('SrcLoops.v').read().split('Section S.')[0]
HEAD=HEAD[:HEAD.index('(** The loop of a multiplication')]+r'''(** The loop of a multiplication from turn i on. *)
Definition mul_from {P} (bl : Z) (bit : Z -> option bool) (double addg : P -> P) (i : Z) (k : nat) (res : P) : P :=
  fold_left (fun res i => let o := bit (bl - Z.of_nat i - 1) in let res := double res in match o with Some true => addg res | _ => res end)
    (seq (Z.to_nat i) k) res.
Lemma mul_from_S {P} bl bit (double addg : P -> P) i k res : 0 <= i -> mul_from bl bit double addg i (S k) res =
  mul_from bl bit double addg (i + 1) k (match bit (bl - i - 1) with Some true => addg (double res) | _ => double res end).
Proof.
  intros H. unfold mul_from. cbn [seq fold_left]. rewrite Z2Nat.id by exact H.
  replace (Z.to_nat (i + 1)) with (S (Z.to_nat i)) by lia. reflexivity.
Qed.
Lemma wsub_bit bl i : 0 <= i < bl -> bl < 2 ^ 32 -> wsub (wsub bl i) 1 = bl - i - 1.
Proof. intros H H'. unfold wsub. rewrite (wlo_small (bl - i)), wlo_small by (unfold isW; lia). reflexivity. Qed.
Lemma wadd_1 bl i : 0 <= i < bl -> bl < 2 ^ 32 -> wadd i 1 = i + 1.
Proof. intros H H'. unfold wadd. rewrite wlo_small; unfold isW; lia. Qed.
Lemma ltb_yes i bl : i < bl -> (i <? bl) = true. Proof. apply Z.ltb_lt. Qed.
Lemma ltb_no i : (i <? i) = false. Proof. apply Z.ltb_irrefl. Qed.

(** The bits below the length can be read. *)
Lemma BitLen6 b : wf6 b -> 0 <= FQRepr_BitLen b <= 384.
Proof.
  intros H. rewrite FQRepr_BitLen_spec by exact H. pose proof (eval6_bound b H). unfold bitlen.
  destruct (Z.eqb_spec (eval6 b) 0); [lia|]. pose proof (Z.log2_nonneg (eval6 b)).
  assert (Z.log2 (eval6 b) < 384) by (apply Z.log2_lt_pow2; lia). lia.
Qed.
Lemma BitLen4 b : wf4 b -> 0 <= FRRepr_BitLen b <= 256.
Proof.
  intros H. rewrite FRRepr_BitLen_spec by exact H. pose proof (eval4_bound b H). unfold bitlen.
  destruct (Z.eqb_spec (eval4 b) 0); [lia|]. pose proof (Z.log2_nonneg (eval4 b)).
  assert (Z.log2 (eval4 b) < 256) by (apply Z.log2_lt_pow2; lia). lia.
Qed.
Lemma Bit6 b j : 0 <= j < 384 -> exists t, FQRepr_Bit b j = Some t.
Proof.
  intros H. unfold FQRepr_Bit. destruct (nth_error (FQRepr_slice b) (Z.to_nat (j / 64))) eqn:E; [eauto|].
  apply nth_error_None in E. cbn in E. exfalso.
  assert (j / 64 < 6) by (apply Z.div_lt_upper_bound; lia). lia.
Qed.
Lemma Bit4 b j : 0 <= j < 256 -> exists t, FRRepr_Bit b j = Some t.
Proof.
  intros H. unfold FRRepr_Bit. destruct (nth_error (FRRepr_slice b) (Z.to_nat (j / 64))) eqn:E; [eauto|].
  apply nth_error_None in E. cbn in E. exfalso.
  assert (j / 64 < 4) by (apply Z.div_lt_upper_bound; lia). lia.
Qed.


Section S.
Context {F : Type} (B : BOps F).
'''
HEAD=HEAD.replace("SrcTac.","SrcTac ReprProofs ReprProofs2.")
o=HEAD
for G,O,A,P in [('G1','(b_ops B)','VA1','VP1'),('G2','(FQ2O B)','VA2','VP2')]:
  for cls,add,inj,model in [('Affine','AddAffine',A,'Affine'),('Projective','Add',P,'Proj')]:
    for fn,R,bl,bit,wf,n,bn in [('Mul','VR','FQRepr_BitLen','FQRepr_Bit','wf6','Bit6',384),('MulFR','VRr','FRRepr_BitLen','FRRepr_Bit','wf4','Bit4',256)]:
      name='%s%s_%s'%(G,cls,fn)
      env=lambda i,res:'[[("i", VU 64 %s)]; [("res", %s %s); ("g", %s g); ("b", %s b)]]%%string'%(i,P,res,inj,R)
      mf='(mul_from (%s b) (%s b) (Double %s) (fun res => %s %s res g) %%s %%s %%s)'%(bl,bit,O,add,O)
      o+='''Lemma %s_loop : forall g b, let bl := %s b in bl < 2 ^ 32 -> (forall j, 0 <= j < bl -> exists t, %s b j = Some t) ->
  forall k m i res kn kr, 0 <= i -> bl = i + Z.of_nat k ->
  loopB B (k + S m) (fcond src_%s) (fpost src_%s) (fbody src_%s)
    %s kn kr =
  kn %s.
Proof.
  intros g b. cbv zeta. intros Hbl Hbit. induction k; intros m i res kn kr Hi Hk.
  - cbn [Nat.add]. rewrite loopB_S. src_lhs. replace i with (BL b) by lia. rewrite ltb_no. reflexivity.
  - change (S k + S m)%%nat with (S (k + S m)). rewrite loopB_S, mul_from_S by exact Hi.
    destruct (Hbit (BL b - i - 1)) as [t Et]; [lia|]. rewrite Et.
    src_lhs. rewrite ltb_yes by lia. rewrite wsub_bit by lia. rewrite Et. rewrite (wadd_1 (BL b)) by lia.
    destruct t; apply IHk; lia.
Qed.
'''%(name,bl,bit,name,name,name,env('i','res'),env('bl',mf%('i','k','res')))
      o=o.replace('BL b',bl+' b')
      par='' if fn=='Mul' else 'VRr b'
      bitsof='(Z.to_nat (%s b))'%bl
      o+='''Lemma %s_run LOOP RANGE g b : 
  (forall kn kr, LOOP (fcond src_%s) (fpost src_%s) (fbody src_%s)
    %s kn kr =
   kn %s) ->
  runB_with B LOOP RANGE src_%s [%s g; %s b] = Done [%s] [%s (%s_%s %s g b)].
Proof. intros H. run_loop H. src. Qed.
'''%(name,name,name,name,env('0','(ProjectiveZero %s)'%O),env('(%s b)'%bl,mf%('0',bitsof,'(ProjectiveZero %s)'%O)),name,inj,R,par,P,model,fn,O)
      o+='''Lemma src_%s_ok n g b : %s b -> runB B (%d + n) src_%s [%s g; %s b] = Done [%s] [%s (%s_%s %s g b)].
Proof.
  intros W. pose proof (BitLen%s b W). apply %s_run. intros.
  replace (%d + n)%%nat with (%s + S (%d - %s + n))%%nat by lia.
  apply %s_loop; try lia. intros; apply %s; lia.
Qed.
'''%(name,wf,bn+1,name,inj,R,par,P,model,fn,O,n[3],name,bn+1,bitsof,bn,bitsof,name,n)
o+='End S.\n'
open('SrcLoops.v','w').write(o)
