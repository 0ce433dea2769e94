(** hash.go and the hashing functions of g1.go and g2.go, run from their source text. *)
Require Import ZArith Bool String List Lia.
From Verif Require Import Words ModelRepr ModelFq ModelFr ModelOps ModelTower ModelCurve ModelPairing ModelHash ModelBls ReprProofs2 SrcAst SrcSem SrcCode SrcCall SrcTac.
Import ListNotations.
Open Scope Z_scope.
Local Open Scope string_scope.

Section S.
Context (sha : list Z -> list Z) {F : Type} (B : BOps F).
Notation V := (V F).
Notation res := ((list (nat * V) * list V -> outcome F) -> outcome F).

(** A hash.Hash of sha256.New holds what has been written to it. *)
Definition hashV (l : list Z) : V := VS "hash" [("buf", VBy l)].
Definition pH (v : V) := match v with VS _ [(_, VBy l)] => Some l | _ => None end.
Definition pV (v : V) : option V := Some v.
Definition p16 (v : V) := match v with VU 16 z => Some z | _ => None end.
Definition p8 (v : V) := match v with VU 8 z => Some z | VI z => Some z | _ => None end.
Definition pF' (v : V) := match v with VF x => Some (Some x) | VN => Some None | _ => None end.
Definition p2' (v : V) := match v with V2 x => Some (Some x) | VN => Some None | _ => None end.
Definition fromBigQ (z : Z) : res := fun k => match FQReprFromBigInt z with
  | Some (Some r) => k ([], [VR r; VN])
  | Some None => k ([], [VR (mkFQRepr 0 0 0 0 0 0); VErr])
  | None => Panic end.
Definition fromBigR (z : Z) : res := fun k => match FRReprFromBigInt z with
  | Some (Some r) => k ([], [VRr r; VN])
  | Some None => k ([], [VN; VErr])
  | None => Panic end.
Definition t_hash : table := [
  ("sha256.New", f0 (ret (hashV [])));
  ("hash.Write", f2 pH pBy (fun h b => mut (hashV (h ++ b)%list)));
  ("hash.Sum", f2 pH pV (fun h v => match v with VN => ret (VBy (sha h)) | _ => stuck end));
  ("binary.BigEndian.PutUint16", f3 pV pBy p16 (fun _ b v k => match b with [_; _] => k ([(1%nat, VBy [byte_hi v; byte_lo v])], []) | _ => Stuck end));
  ("new", f1 pV (fun v => match v with VStr t => if String.eqb t "big.Int" then ret (VBig 0) else stuck | _ => stuck end));
  ("big.Int.SetBytes", f2 pBig pBy (fun _ b => mutret (VBig (big_SetBytes b)) [VBig (big_SetBytes b)]));
  ("big.Int.Mod=", f3 pBig pBig pBig (fun x _ m => mut (VBig (big_Mod x m))));
  ("FQRepr.ToBig", f1 pR (fun r => ret (VBig (FQRepr_ToBig r))));
  ("FRRepr.ToBig", f1 pRr (fun r => ret (VBig (FRRepr_ToBig r))));
  ("FQReprFromBigInt", f1 pBig fromBigQ);
  ("FRReprFromBigInt", f1 pBig fromBigR);
  ("FRReprToFR", f1 pRr (fun r => ret_ornil VFR (FRReprToFR r)));
  ("FR.MulBytes", f2 pFR pBy (fun x b => ret (VFR (FR_MulBytes x b))));
  ("FQ2.MulBits", f2 p2 pBig (fun x b => ret (V2 (FQ2_MulBits B x b))));
  ("hp", f2 pBy p8 (fun m c => ret (VF (hp sha B m c))));
  ("hp2", f2 pBy p8 (fun m c => ret (V2 (hp2 sha B m c))));
  ("signFQ", f1 pF (fun x => ret (VF (signFQ B x))));
  ("signFQ2", f1 p2 (fun x => ret (VI (signFQ2 B x))));
  ("optimizedSWUMapHelper", f1 pF (fun x => orpanic VA1 (optimizedSWUMapHelper B x)));
  ("OptimizedSWU2MapHelper", f1 p2 (fun x k => match OptimizedSWU2MapHelper B x with Some (Some p) => ret (VA2 p) k | Some None => ret VN k | None => Panic end));
  ("iso11", f1 pA1 (fun p => ret (VA1 (iso11 B p))));
  ("iso3", fun vs => match vs with [VA2 p] => ret (VA2 (iso3 B p)) | [VN] => fun _ => Panic | _ => stuck end);
  ("ClearH", f1 pA1 (fun p => ret (VA1 (ClearH B p))));
  ("psi", f1 pA2 (fun p => ret (VA2 (psi B p))));
  ("clearH2", f1 pA2 (fun p => ret (VA2 (clearH2 B p))));
  ("optimizedSWUMap", f2 pF pF' (fun x y => orpanic VA1 (optimizedSWUMap B x y)));
  ("optimizedSWUMap2", f2 p2 p2' (fun x y => orpanic VA2 (optimizedSWUMap2 B x y)));
  ("hashFunc", f1 pBy (fun b => ret (VBy (sha b))));
  ("G2Projective.AddAffine", fun vs => match vs with [VP2 p; VA2 q] => ret (VP2 (AddAffine (FQ2O B) p q)) | [VP2 _; VN] => fun _ => Panic | _ => stuck end)].
Notation runH := (runT B t_hash).

Lemma src_psi_ok n g : runH n src_psi [VA2 g] = Done [VA2 g] [VA2 (psi B g)].
Proof. unfold psi. src. Qed.
Lemma src_ClearH_ok n p : runH n src_ClearH [VA1 p] = Done [VA1 p] [VA1 (ClearH B p)].
Proof. unfold ClearH. src. Qed.
Lemma src_clearH2_ok n p : runH n src_clearH2 [VA2 p] = Done [VA2 p] [VA2 (clearH2 B p)].
Proof. unfold clearH2. src. Qed.
Lemma src_signFQ_ok n f : runH n src_signFQ [VF f] = Done [] [VF (signFQ B f)].
Proof. unfold signFQ. src. Qed.
Lemma src_signFQ2_ok n f : runH n src_signFQ2 [V2 f] = Done [] [VI (signFQ2 B f)].
Proof. unfold signFQ2. src. Qed.
Lemma src_hashFunc_ok n b : runH n src_hashFunc [VBy b] = Done [VBy b] [VBy (sha b)].
Proof. src. Qed.
Lemma src_HashFR_ok n h : runH n src_HashFR [hashV h] = Done [] [VFR (HashFR (sha h))].
Proof. unfold HashFR. src. Qed.
Definition nilor {A} (inj : A -> V) (o : option A) : V := match o with Some a => inj a | None => VN end.
Definition orpan {A} (inj : A -> V) (ps : list V) (o : option A) : outcome F := match o with Some a => Done ps [inj a] | None => Panic end.
Lemma src_optimizedSWUMapHelper_ok n t : runH n src_optimizedSWUMapHelper [VF t] = orpan VA1 [] (optimizedSWUMapHelper B t).
Proof. unfold orpan, optimizedSWUMapHelper, DivAssign1. src. Qed.
Lemma src_OptimizedSWU2MapHelper_ok n t : runH n src_OptimizedSWU2MapHelper [V2 t] = orpan (nilor VA2) [] (OptimizedSWU2MapHelper B t).
Proof. unfold orpan, nilor, OptimizedSWU2MapHelper. src. Qed.
Lemma src_optimizedSWUMap_ok n t1 t2 : runH n src_optimizedSWUMap [VF t1; nilor VF t2] = orpan VA1 [VF t1; nilor VF t2] (optimizedSWUMap B t1 t2).
Proof. unfold orpan, nilor, optimizedSWUMap. destruct t2; src. Qed.
Lemma src_optimizedSWUMap2_ok n t1 t2 : runH n src_optimizedSWUMap2 [V2 t1; nilor V2 t2] = orpan VA2 [V2 t1; nilor V2 t2] (optimizedSWUMap2 B t1 t2).
Proof. unfold orpan, nilor, optimizedSWUMap2. destruct t2; src. Qed.
Lemma src_HashG1_ok n m : runH n src_HashG1 [VBy m] = orpan VA1 [VBy m] (HashG1 sha B m).
Proof. unfold orpan, HashG1. src. Qed.
Lemma src_HashG2_ok n m : runH n src_HashG2 [VBy m] = orpan VA2 [VBy m] (HashG2 sha B m).
Proof. unfold orpan, HashG2. src. Qed.
Lemma src_SWEncodeG2_ok n t : runH n src_SWEncodeG2 [V2 t] = Done [] [nilor VA2 (SWEncodeG2 B t)].
Proof. unfold nilor, SWEncodeG2. src. Qed.
Lemma src_HashFQ2_ok n h : runH n src_HashFQ2 [hashV h] = Done [] [V2 (FQ2_MulBits B (FQ2One B) (big_SetBytes (sha h)))].
Proof. src. Qed.

(** The loops of hp and hp2 run over constants. *)
Lemma big_q : FQRepr_ToBig QFieldModulus = q_big.
Proof. reflexivity. Qed.
Lemma big_r : FRRepr_ToBig RFieldModulus = r_big.
Proof. reflexivity. Qed.
Lemma FQReprFromBigInt_total z : exists o, FQReprFromBigInt z = Some o.
Proof.
  destruct (Z.lt_ge_cases z 0) as [H|H]; [rewrite FQReprFromBigInt_err by auto; eauto|].
  destruct (Z.lt_ge_cases z (2 ^ 384)) as [K|K]; [|rewrite FQReprFromBigInt_err by auto; eauto].
  destruct (FQReprFromBigInt_ok z (conj H K)) as (f & E & _). eauto.
Qed.
Ltac from_big := repeat match goal with |- context [FQReprFromBigInt ?z] =>
  let o := fresh "o" in let E := fresh "E" in destruct (FQReprFromBigInt_total z) as [o E]; rewrite E; clear E; destruct o end; reflexivity.
Lemma src_hp_ok n m c : 0 <= c < 256 -> runH (S (S (S n))) src_hp [VBy m; VU 8 c] = Done [VBy m] [VF (hp sha B m c)].
Proof.
  intros Hc. unfold hp, FQRepr_const. change Z.modulo with big_Mod. rewrite <- big_q.
  cbv zeta. rewrite !app_assoc. replace (sha m ++ [c])%list with (sha m ++ [byte_lo c])%list by (unfold byte_lo; rewrite Z.mod_small by assumption; reflexivity).
  src_cbvh. change (byte_lo 1) with 1. change (byte_lo 2) with 2. from_big.
Qed.
Lemma src_hp2_ok n m c : 0 <= c < 256 -> runH (S (S (S (S (S n))))) src_hp2 [VBy m; VU 8 c] = Done [VBy m] [V2 (hp2 sha B m c)].
Proof.
  intros Hc. unfold hp2, FQRepr_const. change Z.modulo with big_Mod. rewrite <- big_q.
  cbv zeta. cbv beta. rewrite !app_assoc. replace (sha m ++ [c])%list with (sha m ++ [byte_lo c])%list by (unfold byte_lo; rewrite Z.mod_small by assumption; reflexivity).
  src_cbvh. change (byte_lo 1) with 1. change (byte_lo 2) with 2. from_big.
Qed.
Lemma src_HashSecretKey_ok n b : runH (S (S (S n))) src_HashSecretKey [VBy b] = Done [] [nilor VFR (HashSecretKey sha b)].
Proof.
  unfold HashSecretKey, FRRepr_const. change Z.modulo with big_Mod. rewrite <- big_r.
  cbv zeta. rewrite !app_assoc.
  src_cbvh. change (byte_lo 1) with 1. change (byte_lo 2) with 2.
  match goal with |- context [FRReprFromBigInt ?z] => destruct (FRReprFromBigInt_ok z) as (f & E & _) end.
  { rewrite big_r. unfold big_Mod. match goal with |- 0 <= ?a mod r_big < _ => pose proof (Z.mod_pos_bound a r_big eq_refl) end.
    assert (r_big < 2 ^ 256) by reflexivity. lia. }
  rewrite E. destruct (FRReprToFR f); reflexivity.
Qed.
Lemma src_iso11_ok n p : runH (Nat.add 20 n) src_iso11 [VA1 p] = Done [VA1 p] [VA1 (iso11 B p)].
Proof. unfold iso11, DivAssign1. src_cbvh. reflexivity. Qed.
Lemma src_iso3_ok n p : runH (Nat.add 20 n) src_iso3 [VA2 p] = Done [VA2 p] [VA2 (iso3 B p)].
Proof. unfold iso3. src_cbvh. reflexivity. Qed.

(** The search of HashG2WithDomain: a turn of the loop, then all turns. *)
Definition hd_env (x0 : FQ2 F) (a b : FQRepr) (zi zr : Z) (bi br m d : list Z) : list (string * V) :=
  [("x0", V2 x0); ("xImFQ", VR a); ("xReFQ", VR b); ("xIm", VBig zi); ("xRe", VBig zr); ("xImBytes", VBy bi); ("xReBytes", VBy br); ("messageHash", VBy m); ("domain", VBy d)].
Notation hd_loop k := (loopT B t_hash k (fcond src_HashG2WithDomain) (fpost src_HashG2WithDomain) (fbody src_HashG2WithDomain)).
Lemma hd_turn k x0 a b zi zr bi br m d K KR :
  hd_loop (S k) [[]; hd_env x0 a b zi zr bi br m d] K KR =
  (let gx := FQ2_AddAssign B (FQ2_MulAssign B (FQ2_SquareAssign B x0) x0) (BCoeffFQ2 B) in
   let y := fst (FQ2_Sqrt B gx) in
   if snd (FQ2_Sqrt B gx) then
     (let y' := if negb (FQ2_Parity B y) then FQ2_NegAssign B y else y in
      KR [VP2 (G2_ScaleByCofactor B (NewAffine x0 y'))]
         [[]; []; [("found", VB true); ("y0", V2 y'); ("gx0", V2 gx)]; []; hd_env x0 a b zi zr bi br m d])
   else hd_loop k [[]; hd_env (FQ2_AddAssign B x0 (FQ2One B)) a b zi zr bi br m d] K KR).
Proof. rewrite loopT_S. src_cbv. src_split. Qed.
Lemma hd_all k : forall x0 a b zi zr bi br m d K KR p,
  HashG2WithDomain_loop B k x0 = Some p ->
  (forall x y g, KR [VP2 p] [[]; []; [("found", VB true); ("y0", V2 y); ("gx0", V2 g)]; []; hd_env x a b zi zr bi br m d] = Done [] [VP2 p]) ->
  hd_loop k [[]; hd_env x0 a b zi zr bi br m d] K KR = Done [] [VP2 p].
Proof.
  induction k as [|k IH]; intros x0 a b zi zr bi br m d K KR p H HK; [discriminate H|].
  rewrite hd_turn. cbv zeta. cbn [HashG2WithDomain_loop] in H. revert H.
  destruct (FQ2_Sqrt B _) as [y []] eqn:E; cbn [fst snd]; intros H; [injection H as <-|apply IH; assumption].
  apply HK.
Qed.
Lemma src_HashG2WithDomain_ok n m d p : HashG2WithDomain_fuel sha B n m d = Some p -> runH n src_HashG2WithDomain [VBy m; VBy d] = Done [] [VP2 p].
Proof.
  unfold HashG2WithDomain_fuel, HashG2WithDomain_start, FQRepr_const. cbv zeta. rewrite !app_assoc. intros H.
  destruct (FQReprFromBigInt_total (big_SetBytes (sha ((m ++ d) ++ [1])%list))) as [ore Ere].
  destruct (FQReprFromBigInt_total (big_SetBytes (sha ((m ++ d) ++ [2])%list))) as [oim Eim].
  rewrite Ere, Eim in H. to_exec. do 13 step.
  match goal with |- context [FQReprFromBigInt ?z] => replace (FQReprFromBigInt z) with (Some ore) by (rewrite <- Ere; reflexivity) end.
  destruct ore as [ro|]; step;
  (match goal with |- context [FQReprFromBigInt ?z] => replace (FQReprFromBigInt z) with (Some oim) by (rewrite <- Eim; reflexivity) end; destruct oim as [io|]; step;
   step_open K HK; refine (hd_all n _ _ _ _ _ _ _ _ _ (fun en => K (pop en)) _ p H _); intros; reflexivity).
Qed.
End S.
