(** FQ12 in memory, continued: Frobenius, inverse, copies, exponentiation, the Miller loop, the final exponentiation, histories. *)
Require Import ZArith Bool List Arith Lia.
From Verif Require Import Words ModelRepr ModelFq ModelOps ModelTower ModelCurve ModelPairing ModelQ12Heap Q12HeapProofs.
Import ListNotations.
Local Open Scope nat_scope.

Section M.
Context {F : Type} (B : BOps F).
Notation mem := (Mem F). Notation WF := (WF B). Notation Upd := (Upd B). Notation New := (New B).
Notation mul6 := (FQ6_MulAssign B). Notation add6 := (FQ6_AddAssign B). Notation sub6 := (FQ6_SubAssign B).

Lemma c6_d0 (m : mem) p v k : c6 (set_d0 m p v) k = if k =? p then mkFQ6 v (d1 (c6 m p)) (d2 (c6 m p)) else c6 m k.
Proof. reflexivity. Qed.
Lemma c6_d1 (m : mem) p v k : c6 (set_d1 m p v) k = if k =? p then mkFQ6 (d0 (c6 m p)) v (d2 (c6 m p)) else c6 m k.
Proof. reflexivity. Qed.
Lemma c6_d2 (m : mem) p v k : c6 (set_d2 m p v) k = if k =? p then mkFQ6 (d0 (c6 m p)) (d1 (c6 m p)) v else c6 m k.
Proof. reflexivity. Qed.
Lemma frob_eq (m : mem) x k : m12_FrobeniusMapAssign B m x k =
  (let m := m6_do (fun a => FQ6_FrobeniusMapAssign B a k) m (fst (c12 m x)) in
   let m := m6_do (fun a => FQ6_FrobeniusMapAssign B a k) m (snd (c12 m x)) in
   let kk := nth (Z.to_nat (k mod 12)) (frobeniusCoeffFQ12c1 B) (FQ2Zero B) in
   let p := snd (c12 m x) in
   let m := set_d0 m p (FQ2_MulAssign B (d0 (c6 m p)) kk) in
   let m := set_d1 m p (FQ2_MulAssign B (d1 (c6 m p)) kk) in
   set_d2 m p (FQ2_MulAssign B (d2 (c6 m p)) kk)).
Proof. reflexivity. Qed.
Lemma frob_ok m x k : WF m -> live m x -> Upd m (m12_FrobeniusMapAssign B m x k) x (FQ12_FrobeniusMapAssign B (val12 m x) k).
Proof.
  intros W L. destruct (wf_own B m W x L) as (N & A & A'). rewrite frob_eq. cbv zeta.
  eapply upd_ok; [exact W|exact L|..]; try reflexivity.
  - intros p Hp Pa Pb. rewrite ?c12_do, ?c6_d2, ?c6_d1, ?c6_d0. unfold fc0, fc1 in *. eqbs. rewrite ?c6_do. eqbs. reflexivity.
  - exact N.
  - left. reflexivity.
  - right. left. reflexivity.
  - unfold val12, fc0, fc1 in *. change (c12 (set_d2 ?m ?p ?v)) with (c12 m). 
    change (c12 (set_d1 ?m ?p ?v)) with (c12 m).
    change (c12 (set_d0 ?m ?p ?v)) with (c12 m).
    rewrite !c12_do. set (a := fst (c12 m x)) in *. set (b := snd (c12 m x)) in *.
    rewrite ?c6_d2, ?c6_d1, ?c6_d0. eqbs. rewrite ?c6_do. eqbs. cbn [d0 d1 d2]. reflexivity.
Qed.
Lemma inv_ok m x : WF m -> live m x -> Upd m (fst (m12_InverseAssign B m x)) x (fst (FQ12_InverseAssign B (val12 m x))) /\ snd (m12_InverseAssign B m x) = snd (FQ12_InverseAssign B (val12 m x)).
Proof.
  intros W L. set (c0s := sub6 (FQ6_SquareAssign B (c6 m (fc0 m x))) (FQ6_MulByNonresidueAssign B (FQ6_SquareAssign B (c6 m (fc1 m x))))).
  unfold m12_InverseAssign. destruct (wf_own B m W x L) as (N & A & A'). unfold fc0, fc1 in N, A, A', c0s. rewrite ?cp_eq. exe.
  set (a := fst (c12 m x)) in *. set (b := snd (c12 m x)) in *.
  match goal with |- context[snd (FQ6_InverseAssign B ?t)] => assert (t = c0s) as E by (rd; reflexivity); rewrite E; clear E end.
  unfold FQ12_InverseAssign, val12, fc0, fc1. fold a. fold b. cbn [e0 e1]. fold c0s.
  destruct (FQ6_InverseAssign B c0s) as [ci []] eqn:Ei; cbn [negb fst snd]; (split; [|reflexivity]).
  - subst a b. call W L a b. fold c0s. rewrite Ei. reflexivity.
  - subst a b. call W L a b. reflexivity.
Qed.

(** ** new objects *)
Lemma new_ok (m : mem) v w : WF m -> let m1 := fst (m12_New m v) in val12 m1 (n12 m) = w -> New m m1 (n12 m) w.
Proof.
  intros W m1 V. pose proof (wf_n6 B m W) as G6. pose proof (wf_n12 B m W) as G12.
  assert (forall z, z < n12 m -> fc0 m1 z = fc0 m z /\ fc1 m1 z = fc1 m z) as Cz.
  { intros z Hz. unfold fc0, fc1, m1, m12_New, new6, new12, put. cbn [fst snd c12 n12]. eqbs. auto. }
  assert (fc0 m1 (n12 m) = n6 m /\ fc1 m1 (n12 m) = S (n6 m)) as [N0 N1].
  { unfold fc0, fc1, m1, m12_New, new6, new12, put. cbn [fst snd c12 n12 n6]. rewrite Nat.eqb_refl. auto. }
  assert (forall p, p < n6 m -> c6 m1 p = c6 m p) as C6.
  { intros p Hp. unfold m1, m12_New, new6, new12, put. cbn [fst snd c6 n6]. eqbs. reflexivity. }
  assert (n12 m1 = S (n12 m)) as E12 by reflexivity. assert (n6 m1 = S (S (n6 m))) as E6 by reflexivity.
  assert (forall z, z < n12 m -> fc0 m z < n6 m /\ fc1 m z < n6 m) as Dz.
  { intros [|[|z]] Hz.
    - unfold fc0, fc1. rewrite (wf_z B m W). cbn. lia.
    - unfold fc0, fc1. rewrite (wf_o B m W). cbn. lia.
    - assert (live m (S (S z))) as Lz by (unfold live; lia). pose proof (wf_own B m W _ Lz). lia. }
  assert (forall z, z < n12 m -> c12 m1 z = c12 m z) as C12.
  { intros z Hz. unfold m1, m12_New, new6, new12, put. cbn [fst snd c12 n12]. eqbs. reflexivity. }
  clearbody m1. split.
  - split; rewrite ?E12, ?E6; try lia.
    + rewrite C12 by lia. apply (wf_z B m W).
    + rewrite C12 by lia. apply (wf_o B m W).
    + rewrite C6 by lia. apply (wf_vz B m W).
    + rewrite C6 by lia. apply (wf_vo B m W).
    + intros z [L1 L2]. rewrite E12 in L2. destruct (Nat.eq_dec z (n12 m)) as [->|Nz]; [lia|].
      assert (live m z) as Lz by (unfold live; lia). destruct (Cz z) as [-> ->]; [lia|]. pose proof (wf_own B m W z Lz). lia.
    + intros y z [L1 L2] [K1 K2] Nyz. rewrite E12 in L2, K2.
      destruct (Nat.eq_dec y (n12 m)) as [->|Ny]; [|destruct (Nat.eq_dec z (n12 m)) as [->|Nz]].
      * destruct (Cz z) as [-> ->]; [lia|]. destruct (Dz z); lia.
      * destruct (Cz y) as [-> ->]; [lia|]. destruct (Dz y); lia.
      * destruct (Cz y) as [-> ->]; [lia|]. destruct (Cz z) as [-> ->]; [lia|]. apply (wf_sep B m W); unfold live; lia.
  - rewrite E12. lia.
  - exact V.
  - intros z Hz. unfold val12. destruct (Cz z Hz) as [-> ->]. destruct (Dz z Hz). rewrite !C6 by lia. reflexivity.
Qed.
Lemma new_value (m : mem) v : val12 (fst (m12_New m v)) (n12 m) = v.
Proof.
  unfold val12, fc0, fc1, m12_New, new6, new12, put. cbn [fst snd c12 n12 n6 c6]. eqbs. cbn [fst snd]. eqbs. destruct v. reflexivity.
Qed.
Lemma New_ok m v : WF m -> New m (fst (m12_New m v)) (snd (m12_New m v)) v.
Proof. intros W. apply (new_ok m v v W). apply new_value. Qed.
#[local] Transparent m6_Copy.
Lemma copy_new (m : mem) x : fc1 m x < n6 m -> m12_Copy m x = m12_New m (val12 m x).
Proof.
  intros H. assert (put (c6 m) (n6 m) (c6 m (fc0 m x)) (fc1 m x) = c6 m (fc1 m x)) as E by (unfold put; eqbs; reflexivity).
  unfold m12_Copy, m12_New, val12. cbn [e0 e1]. rewrite <- E. reflexivity.
Qed.
Lemma halves m x : WF m -> x < n12 m -> fc0 m x < n6 m /\ fc1 m x < n6 m.
Proof.
  intros W H. pose proof (wf_n6 B m W). destruct x as [|[|x]].
  - unfold fc0, fc1. rewrite (wf_z B m W). cbn. lia.
  - unfold fc0, fc1. rewrite (wf_o B m W). cbn. lia.
  - assert (live m (S (S x))) as Lz by (unfold live; lia). pose proof (wf_own B m W _ Lz). lia.
Qed.
Lemma copy_ok m x : WF m -> x < n12 m -> New m (fst (m12_Copy m x)) (snd (m12_Copy m x)) (val12 m x).
Proof. intros W H. rewrite copy_new by apply (halves m x W H). apply New_ok, W. Qed.

(** ** putting calls together *)
Lemma new_live m m' x v : WF m -> New m m' x v -> live m' x.
Proof. intros W K. destruct (w_live B _ _ _ _ K). pose proof (wf_n12 B m W). unfold live. lia. Qed.
Lemma new_upd m m1 m2 x v v' : New m m1 x v -> Upd m1 m2 x v' -> New m m2 x v'.
Proof.
  intros [W L V Fr] [W' N' V' Fr']. split; [exact W'|rewrite N'; exact L|exact V'|]. intros z Hz. rewrite Fr' by lia. apply Fr, Hz.
Qed.

(** ** Exp *)
Lemma loop_ok fuel : forall m n fi res, WF m -> live m fi -> live m res -> fi <> res ->
  let m' := m_ExpLoop (m12_MulAssign B) fuel m n fi res in
  WF m' /\ n12 m' = n12 m /\ val12 m' res = ExpLoop (FQ12_MulAssign B) (fun a => FQ12_MulAssign B a a) fuel n (val12 m fi) (val12 m res) /\
  (forall z, z < n12 m -> z <> fi -> z <> res -> val12 m' z = val12 m z).
Proof.
  induction fuel as [|fuel IH]; intros m n fi res W Lf Lr N; cbn [m_ExpLoop ExpLoop]; [auto|].
  destruct (negb (FQRepr_Cmp n bigZero =? 0)%Z); [|auto].
  set (m1 := if negb (isEven n) then m12_MulAssign B m res fi else m).
  assert (WF m1 /\ n12 m1 = n12 m /\ val12 m1 res = (if negb (isEven n) then FQ12_MulAssign B (val12 m res) (val12 m fi) else val12 m res) /\
          (forall z, z < n12 m -> z <> res -> val12 m1 z = val12 m z)) as (W1 & N1 & V1 & F1).
  { unfold m1. destruct (negb (isEven n)); [|auto]. destruct (mul_ok B m res fi W Lr (proj2 Lf)). auto. }
  clearbody m1. assert (live m1 fi) as Lf1 by (unfold live in *; lia). assert (live m1 res) as Lr1 by (unfold live in *; lia).
  destruct (mul_ok B m1 fi fi W1 Lf1 (proj2 Lf1)) as [W2 N2 V2 F2].
  set (m2 := m12_MulAssign B m1 fi fi) in *. clearbody m2.
  assert (live m2 fi) as Lf2 by (unfold live in *; lia). assert (live m2 res) as Lr2 by (unfold live in *; lia).
  destruct (IH m2 (FQRepr_Rsh n 1) fi res W2 Lf2 Lr2 N) as (W3 & N3 & V3 & F3).
  split; [exact W3|]. split; [lia|]. unfold live in *. split.
  - rewrite V3, V2, (F2 res), V1, (F1 fi) by lia. reflexivity.
  - intros z Hz Nf Nr. rewrite F3, F2, F1 by lia. reflexivity.
Qed.
Lemma exp_ok m x n : WF m -> x < n12 m -> New m (fst (m12_Exp B m x n)) (snd (m12_Exp B m x n)) (FQ12_Exp B (val12 m x) n).
Proof.
  intros W Hx. unfold m12_Exp, FQ12_Exp. pose proof (wf_n12 B m W) as G.
  pose proof (copy_ok m pFQ12One W ltac:(unfold pFQ12One; lia)) as K. rewrite (val_one B m W) in K. destruct (m12_Copy m pFQ12One) as [m1 res]. cbn [fst snd] in K.
  destruct K as [W1 L1 V1 F1]. assert (x < n12 m1) as Hx1 by lia.
  pose proof (copy_ok m1 x W1 Hx1) as K. destruct (m12_Copy m1 x) as [m2 fi]. cbn [fst snd] in K |- *. destruct K as [W2 L2 V2 F2].
  destruct (loop_ok 385 m2 n fi res W2 ltac:(unfold live; lia) ltac:(unfold live; lia) ltac:(lia)) as (W3 & N3 & V3 & F3).
  split; [exact W3|lia| |].
  - rewrite V3, V2, F1, F2, V1 by lia. reflexivity.
  - intros z Hz. rewrite F3, F2, F1 by lia. reflexivity.
Qed.
Lemma expx_ok m x n : WF m -> x < n12 m -> New m (fst (m_ExpByX B m x n)) (snd (m_ExpByX B m x n)) (ExpByX B (val12 m x) n).
Proof.
  intros W Hx. unfold m_ExpByX, ExpByX. pose proof (exp_ok m x n W Hx) as K. destruct (m12_Exp B m x n) as [m1 newf]. cbn [fst snd] in *.
  cbn [blsIsNegative]. eapply new_upd; [exact K|]. pose proof (conj_ok B m1 newf (w_wf B _ _ _ _ K) (new_live _ _ _ _ W K)) as U. rewrite (w_val B _ _ _ _ K) in U. exact U.
Qed.

(** ** MillerLoop *)
Lemma ell_ok m f cs p : WF m -> live m f -> Upd m (m_ell B m f cs p) f (ell B (val12 m f) cs p).
Proof. intros W L. destruct cs as [[k0 k1] k2]. unfold m_ell, ell. apply mul014_ok; assumption. Qed.
(** two option results agree *)
Definition agree (m : mem) (f : nat) (o : option (mem * list (pairingItem (F := F)))) (o' : option (FQ12 F * list (pairingItem (F := F)))) : Prop :=
  match o, o' with
  | Some (m', ps), Some (v, ps') => Upd m m' f v /\ ps = ps'
  | None, None => True
  | _, _ => False
  end.
Lemma upd_refl m f : WF m -> Upd m m f (val12 m f).
Proof. intros W. split; auto. Qed.
Lemma upd_trans m m1 m2 f v v' : Upd m m1 f v -> Upd m1 m2 f v' -> Upd m m2 f v'.
Proof. intros [W N V Fr] [W' N' V' Fr']. split; [exact W'|lia|exact V'|]. intros z Hz Nz. rewrite Fr' by lia. apply Fr; assumption. Qed.
Lemma upd_live m m1 f v : live m f -> Upd m m1 f v -> live m1 f.
Proof. intros L U. unfold live in *. rewrite (u_n B _ _ _ _ U). exact L. Qed.
Lemma agree_trans m m1 f v o o' : Upd m m1 f v -> agree m1 f o o' -> agree m f o o'.
Proof.
  intros U. destruct o as [[m' ps]|], o' as [[w ps']|]; cbn [agree]; auto. intros [U' E]. split; [eapply upd_trans; eassumption|exact E].
Qed.
Lemma ell_all_ok f ps : forall m, WF m -> live m f -> agree m f (m_ell_all B m f ps) (ell_all B (val12 m f) ps).
Proof.
  induction ps as [|pr ps IH]; intros m W L; cbn [m_ell_all ell_all].
  - cbn [agree]. split; [apply upd_refl, W|reflexivity].
  - destruct (nth_error (pi_q pr) (pi_i pr)) as [cs|]; [|exact I].
    pose proof (ell_ok m f cs (pi_p pr) W L) as U. specialize (IH _ (u_wf B _ _ _ _ U) (upd_live _ _ _ _ L U)). rewrite (u_val B _ _ _ _ U) in IH.
    apply (agree_trans _ _ _ _ _ _ U) in IH.
    destruct (m_ell_all B (m_ell B m f cs (pi_p pr)) f ps) as [[m' r]|], (ell_all B (ell B (val12 m f) cs (pi_p pr)) ps) as [[w r']|]; cbn [agree] in *; auto.
    destruct IH as [U' ->]. auto.
Qed.
Lemma blsX_loop_sim {S1 S2} (R : S1 -> S2 -> Prop) b1 b2 s1 s2 : (forall set s1 s2, R s1 s2 -> R (b1 set s1) (b2 set s2)) -> R s1 s2 -> R (blsX_loop b1 s1) (blsX_loop b2 s2).
Proof.
  intros Hb H. unfold blsX_loop. set (l := seq _ _). clearbody l.
  enough (forall l st1 st2, fst st1 = fst st2 -> R (snd st1) (snd st2) ->
    R (snd (fold_left (fun st i => let '(foundOne, s) := st in
      let set := match FQRepr_Bit blsXRsh1 (FQRepr_BitLen blsXRsh1 - Z.of_nat i) with Some true => true | _ => false end in
      if negb foundOne then (set, s) else (foundOne, b1 set s)) l st1))
      (snd (fold_left (fun st i => let '(foundOne, s) := st in
      let set := match FQRepr_Bit blsXRsh1 (FQRepr_BitLen blsXRsh1 - Z.of_nat i) with Some true => true | _ => false end in
      if negb foundOne then (set, s) else (foundOne, b2 set s)) l st2))) as K by (apply (K l (false, s1) (false, s2)); [reflexivity|exact H]).
  clear l H s1 s2. induction l as [|i l IH]; intros [f1 s1] [f2 s2] E H; cbn [fold_left fst snd] in *; [exact H|]. subst f2.
  apply IH; destruct f1; cbn [negb fst snd]; auto.
Qed.
Definition same_result (m : mem) (o : option (mem * nat)) (o' : option (FQ12 F)) : Prop :=
  match o, o' with Some (m', f), Some v => New m m' f v | None, None => True | _, _ => False end.
Lemma miller_ok m items : WF m -> same_result m (m_MillerLoop B m items) (MillerLoop B items).
Proof.
  intros W. unfold m_MillerLoop, MillerLoop. set (pairs := map _ items). clearbody pairs. pose proof (wf_n12 B m W) as G.
  pose proof (copy_ok m pFQ12One W ltac:(unfold pFQ12One; lia)) as K. rewrite (val_one B m W) in K. destruct (m12_Copy m pFQ12One) as [m1 f]. cbn [fst snd] in K.
  pose proof (new_live _ _ _ _ W K) as L1. pose proof (w_wf B _ _ _ _ K) as W1.
  match goal with |- same_result _ (match blsX_loop ?b1 ?s1 with _ => _ end) (match blsX_loop ?b2 ?s2 with _ => _ end) =>
    pose proof (blsX_loop_sim (agree m1 f) b1 b2 s1 s2) as Q; set (L1' := blsX_loop b1 s1) in *; set (L2' := blsX_loop b2 s2) in * end.
  assert (agree m1 f L1' L2') as A.
  { apply Q; clear Q L1' L2'.
    - intros set [[m' ps]|] [[v ps']|] A; cbn [agree] in A; try contradiction; [|exact I]. destruct A as [U ->].
      pose proof (ell_all_ok f ps' m' (u_wf B _ _ _ _ U) (upd_live _ _ _ _ L1 U)) as A. rewrite (u_val B _ _ _ _ U) in A. apply (agree_trans _ _ _ _ _ _ U) in A. clear U.
      destruct (m_ell_all B _ f ps') as [[m2 r]|], (ell_all B v ps') as [[w r']|]; cbn [agree] in A; try contradiction; [|exact I]. destruct A as [U ->].
      assert (agree m1 f (if set then m_ell_all B m2 f r' else Some (m2, r')) (if set then ell_all B w r' else Some (w, r'))) as A'.
      { destruct set; [|split; [exact U|reflexivity]].
        pose proof (ell_all_ok f r' m2 (u_wf B _ _ _ _ U) (upd_live _ _ _ _ L1 U)) as A. rewrite (u_val B _ _ _ _ U) in A. apply (agree_trans _ _ _ _ _ _ U) in A. exact A. }
      destruct (if set then m_ell_all B m2 f r' else Some (m2, r')) as [[m3 q]|], (if set then ell_all B w r' else Some (w, r')) as [[x q']|]; cbn [agree] in A'; try contradiction; [|exact I].
      destruct A' as [U' ->]. split; [|reflexivity]. eapply upd_trans; [exact U'|]. pose proof (sq_ok B m3 f (u_wf B _ _ _ _ U') (upd_live _ _ _ _ L1 U')) as S'. rewrite (u_val B _ _ _ _ U') in S'. exact S'.
    - split; [|reflexivity]. pose proof (upd_refl m1 f W1) as U. rewrite (w_val B _ _ _ _ K) in U. exact U. }
  clear Q. clearbody L1' L2'. destruct L1' as [[m' ps]|], L2' as [[v ps']|]; cbn [agree] in A; try contradiction; [|exact I]. destruct A as [U ->].
  pose proof (ell_all_ok f ps' m' (u_wf B _ _ _ _ U) (upd_live _ _ _ _ L1 U)) as A. rewrite (u_val B _ _ _ _ U) in A. apply (agree_trans _ _ _ _ _ _ U) in A.
  destruct (m_ell_all B _ f ps') as [[m2 r]|], (ell_all B v ps') as [[w r']|]; cbn [agree] in A; try contradiction; [|exact I]. destruct A as [U2 ->].
  cbn [blsIsNegative same_result]. eapply new_upd; [exact K|]. eapply upd_trans; [exact U2|].
  pose proof (conj_ok B m2 f (u_wf B _ _ _ _ U2) (upd_live _ _ _ _ L1 U2)) as S'. rewrite (u_val B _ _ _ _ U2) in S'. exact S'.
Qed.

End M.
