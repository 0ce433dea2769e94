(** SecretKey.GetFRElement (g1pubs/bls.go:103-105, g2pubs/bls.go) returns the pointer stored in the key. *)
Require Import ZArith Lia Bool List.
From Verif Require Import Words ModelRepr ReprProofs ModelFr FrProofs ModelFrHeap FrHeapProofs.
Import ListNotations.
Open Scope Z_scope.

(** KeyFromFQRepr of 5 is FR object 2; GetFRElement gives object 2; DoubleAssign on it makes the key 10 *)
Lemma key_leak : exists n : FRRepr, wf4 n /\ eval4 n = 5 /\
  (let h := run heap0 [CNew n; CFRReprToFR 5] in calls_ok heap0 [CNew n; CFRReprToFR 5; CDouble 2] /\ rval (rd h 2) = 5 /\ rval (rd (run h [CDouble 2]) 2) = 10).
Proof.
  exists (NewFRRepr 5). split; [apply wf4_intro; unfold isW; lia|]. split; [reflexivity|].
  cbv zeta. split; [vm_compute; repeat split; lia|]. split; vm_compute; reflexivity.
Qed.

(** Writes of a call: the FRRepr object it stores into and the FR object whose field it changes. *)
Definition touches (f a : nat) (c : call) : bool :=
  match c with
  | CAdd g _ | CMul g _ | CSub g _ | CNeg g | CDouble g | CSquare g => Nat.eqb g f
  | CFRReprToFR o => Nat.eqb o a
  | _ => false
  end.
(** FR object f is the only one that points to FRRepr a *)
Definition owns (h : heap) (f a : nat) : Prop := (f < nfrs h)%nat /\ (5 <= a < nreprs h)%nat /\ frn h f = a /\ forall g, (g < nfrs h)%nat -> g <> f -> frn h g <> a.

Lemma upd_other {A} (m : nat -> A) a v b : b <> a -> upd m a v b = m b.
Proof. intros N. unfold upd. destruct (Nat.eqb_spec b a); [contradiction|reflexivity]. Qed.
Lemma upd_self {A} (m : nat -> A) a v : upd m a v a = v.
Proof. unfold upd. rewrite Nat.eqb_refl. reflexivity. Qed.
Lemma owns_wr h f a b v : owns h f a -> b <> a -> owns (wr h b v) f a /\ rd (wr h b v) f = rd h f.
Proof. intros O N. destruct O as (L & A & E & U). split; [unfold owns, wr; cbn; auto|]. unfold rd, wr. cbn. rewrite E, upd_other by congruence. reflexivity. Qed.
Lemma owns_newRepr h f a v : owns h f a -> owns (fst (newRepr h v)) f a /\ rd (fst (newRepr h v)) f = rd h f.
Proof. intros (L & A & E & U). split; [unfold owns, newRepr; cbn; repeat split; auto; lia|]. unfold rd, newRepr. cbn. rewrite E, upd_other by lia. reflexivity. Qed.
Lemma owns_newFR h f a b : owns h f a -> b <> a -> owns (fst (newFR h b)) f a /\ rd (fst (newFR h b)) f = rd h f.
Proof.
  intros (L & A & E & U) N. split.
  - unfold owns, newFR. cbn. split; [lia|]. split; [exact A|]. rewrite upd_other by lia. split; [exact E|]. intros g Lg Ng. destruct (Nat.eq_dec g (nfrs h)) as [->|D]; [rewrite upd_self; exact N|rewrite upd_other by exact D; apply U; lia].
  - unfold rd, newFR. cbn. rewrite upd_other by lia. reflexivity.
Qed.
Lemma owns_fresh h f a v : owns h f a -> owns (fst (fresh h v)) f a /\ rd (fst (fresh h v)) f = rd h f.
Proof.
  intros O. unfold fresh. destruct (owns_newRepr h f a (fr_n v) O) as [O1 R1]. destruct (newRepr h (fr_n v)) as [h1 b] eqn:E. cbn [fst] in *.
  assert (b <> a) as N by (unfold newRepr in E; injection E as _ <-; destruct O as (_ & A & _); lia). destruct (owns_newFR h1 f a b O1 N) as [O2 R2]. split; [exact O2|congruence].
Qed.
Lemma withFR_fst p : fst (withFR p) = fst p. Proof. destruct p. reflexivity. Qed.
Lemma owns_conv h f a o : owns h f a -> o <> a -> owns (fst (hFRReprToFR h o)) f a /\ rd (fst (hFRReprToFR h o)) f = rd h f.
Proof.
  intros O N. unfold hFRReprToFR. destruct (_ <? 0); [|auto]. set (v := fr_n _). destruct (owns_wr h f a o v O N) as [O1 R1]. destruct (owns_newFR _ f a o O1 N) as [O2 R2].
  destruct (newFR (wr h o v) o) as [h2 g]. cbn [fst] in *. split; [exact O2|congruence].
Qed.
Lemma owns_step h f a c : owns h f a -> call_ok h c -> touches f a c = false -> owns (fst (step h c)) f a /\ rd (fst (step h c)) f = rd h f.
Proof.
  intros O K T. pose proof O as (Lf & La & Ef & U).
  assert (forall g v, user_fr h g -> Nat.eqb g f = false -> owns (wr h (frn h g) v) f a /\ rd (wr h (frn h g) v) f = rd h f) as WR.
  { intros g v [_ Lg] N. apply Nat.eqb_neq in N. apply owns_wr; [exact O|]. apply U; [exact Lg|exact N]. }
  destruct c; cbn [step touches call_ok fst] in *; rewrite ?withFR_fst; try (apply owns_fresh; exact O); try (split; [exact O|reflexivity]); try (apply WR; [apply K|exact T]).
  - pose proof (owns_newRepr h f a v O) as H. destruct (newRepr h v) as [h1 b]. exact H.
  - pose proof (owns_conv h f a o O (proj1 (Nat.eqb_neq _ _) T)) as H. destruct (hFRReprToFR h o) as [h1 [g|]]; exact H.
  - destruct (negb (hIsZero h (rd h f0))); [|auto]. set (v := FRRepr_SubNoBorrow _ _). destruct (owns_newRepr h f a v O) as [(L1 & A1 & E1 & U1) R1].
    unfold newRepr in *. cbn in *. apply Nat.eqb_neq in T. split.
    + unfold owns. cbn. split; [exact L1|]. split; [exact A1|]. rewrite upd_other by congruence. split; [exact E1|]. intros g Lg Ng. destruct (Nat.eq_dec g f0) as [->|D]; [rewrite upd_self; lia|rewrite upd_other by exact D; apply U1; assumption].
    + rewrite <- R1. unfold rd. cbn. rewrite (upd_other _ f0) by congruence. reflexivity.
  - destruct (hIsZero h (rd h f0)); [auto|]. destruct (FR_Inverse (rd h f0)); [rewrite withFR_fst; apply owns_fresh; exact O|auto].
  - pose proof (owns_conv h f a aFrOne O) as H. destruct (hFRReprToFR h aFrOne) as [h1 [g|]]; apply H; unfold aFrOne; lia.
  - pose proof (owns_newRepr h f a (FR_ToRepr (rd h f0)) O) as H. destruct (newRepr h (FR_ToRepr (rd h f0))) as [h1 b]. exact H.
Qed.
Theorem owns_run cs : forall h f a, owns h f a -> calls_ok h cs -> forallb (fun c => negb (touches f a c)) cs = true -> rd (run h cs) f = rd h f.
Proof.
  induction cs as [|c cs IH]; intros h f a O K T; cbn [run]; [reflexivity|]. destruct K as [K1 K2]. cbn [forallb] in T. apply andb_prop in T. destruct T as [T1 T2]. apply negb_true_iff in T1.
  destruct (owns_step h f a c O K1 T1) as [O' R]. rewrite (IH _ f a O' K2 T2). exact R.
Qed.
(** every FR object points to an allocated FRRepr *)
Definition vheap (h : heap) : Prop := (5 <= nreprs h)%nat /\ forall g, (g < nfrs h)%nat -> (frn h g < nreprs h)%nat.
Lemma vheap0 : vheap heap0.
Proof. split; [vm_compute; lia|]. intros g H. change (nfrs heap0) with 2%nat in H. change (nreprs heap0) with 5%nat. destruct g as [|[|g]]; [vm_compute; lia|vm_compute; lia|lia]. Qed.
Lemma v_newRepr h v : vheap h -> vheap (fst (newRepr h v)).
Proof. intros [A B]. split; cbn; [lia|]. intros g H. specialize (B g H). lia. Qed.
Lemma v_newFR h b : vheap h -> (b < nreprs h)%nat -> vheap (fst (newFR h b)).
Proof. intros [A B] L. split; cbn; [exact A|]. intros g H. unfold upd. destruct (Nat.eqb_spec g (nfrs h)); [exact L|]. apply B. lia. Qed.
Lemma v_fresh h v : vheap h -> vheap (fst (fresh h v)).
Proof. intros V. exact (v_newFR (fst (newRepr h (fr_n v))) (nreprs h) (v_newRepr h _ V) (Nat.lt_succ_diag_r _)). Qed.
Lemma v_conv h o : vheap h -> (o < nreprs h)%nat -> vheap (fst (hFRReprToFR h o)).
Proof. intros V L. unfold hFRReprToFR. destruct (_ <? 0); [|exact V]. exact (v_newFR (wr h o _) o V L). Qed.
Lemma v_step h c : vheap h -> call_ok h c -> vheap (fst (step h c)).
Proof.
  intros V K. destruct c; cbn [step call_ok fst] in *; rewrite ?withFR_fst; try (apply v_fresh; exact V); try exact V.
  - pose proof (v_newRepr h v V) as H. destruct (newRepr h v). exact H.
  - pose proof (v_conv h o V (proj2 K)) as H. destruct (hFRReprToFR h o) as [h1 [g|]]; exact H.
  - destruct (negb (hIsZero h (rd h f))); [|exact V]. destruct V as [A B]. split; cbn; [lia|]. intros g H. unfold upd. destruct (Nat.eqb g f); [lia|]. specialize (B g H). lia.
  - destruct (hIsZero h (rd h f)); [exact V|]. destruct (FR_Inverse (rd h f)); [rewrite withFR_fst; apply v_fresh; exact V|exact V].
  - pose proof (v_conv h aFrOne V) as H. destruct (hFRReprToFR h aFrOne) as [h1 [g|]]; apply H; unfold aFrOne; destruct V; lia.
  - pose proof (v_newRepr h (FR_ToRepr (rd h f)) V) as H. destruct (newRepr h _). exact H.
Qed.
Lemma v_run cs : forall h, vheap h -> calls_ok h cs -> vheap (run h cs).
Proof. induction cs as [|c cs IH]; intros h V K; [exact V|]. destruct K as [K1 K2]. apply IH; [apply v_step; assumption|exact K2]. Qed.
Lemma run_app cs cs' : forall h, run h (cs ++ cs') = run (run h cs) cs'.
Proof. induction cs as [|c cs IH]; intros h; cbn [run app]; auto. Qed.
Lemma calls_ok_app cs cs' : forall h, calls_ok h (cs ++ cs') -> calls_ok h cs /\ calls_ok (run h cs) cs'.
Proof. induction cs as [|c cs IH]; intros h; cbn [app calls_ok run]; [auto|]. intros [A B]. destruct (IH _ B). auto. Qed.
(** after any history [cs], a key made from a new FRRepr (DeserializeSecretKey, or KeyFromFQRepr when the FRRepr is not used again)
    keeps its value as long as its FR element and its FRRepr are not written to by the caller *)
Theorem key_stable cs v cs' f : calls_ok heap0 (cs ++ [CNew v; CFRReprToFR (nreprs (run heap0 cs))] ++ cs') ->
  let h := run heap0 cs in let a := nreprs h in
  snd (step (run h [CNew v]) (CFRReprToFR a)) = RFR f -> forallb (fun c => negb (touches f a c)) cs' = true ->
  rd (run heap0 (cs ++ [CNew v; CFRReprToFR a] ++ cs')) f = rd (run heap0 (cs ++ [CNew v; CFRReprToFR a])) f.
Proof.
  intros K h a S T. apply calls_ok_app in K. destruct K as [K1 K]. fold h in K. fold a in K. apply calls_ok_app in K. destruct K as [K2 K3].
  rewrite !run_app. fold h. set (h2 := run h [CNew v; CFRReprToFR a]) in *.
  refine (owns_run cs' h2 f a _ K3 T). clear K3 T. pose proof (v_run cs heap0 vheap0 K1) as V. fold h in V. destruct K2 as (_ & K2 & _). subst h2. cbn [run]. set (h1 := fst (step h (CNew v))) in *.
  assert (vheap h1) as V1 by exact (v_newRepr h v V). change (run h [CNew v]) with h1 in S. cbn [step] in S |- *. unfold hFRReprToFR in *.
  destruct (FRRepr_Cmp (reprs h1 a) (reprs h1 aRFieldModulus) <? 0); [|discriminate S]. cbn [newFR snd fst] in S |- *. injection S as <-.
  unfold owns. cbn [nfrs nreprs frn wr]. split; [apply Nat.lt_succ_diag_r|]. split; [split; [exact (proj1 V)|apply Nat.lt_succ_diag_r]|]. split; [apply upd_self|].
  intros g Lg Ng. rewrite upd_other by exact Ng. change (frn h1 g) with (frn h g). pose proof (proj2 V g) as B. change (nfrs h1) with (nfrs h) in *. unfold a. lia.
Qed.
(** the hypotheses are met *)
Example key_stable_ex : let cs' := [CToRepr 2; CCopy 2; CDouble 3; CNeg 3; CFRReprToFR 6] in
  calls_ok heap0 ([] ++ [CNew (NewFRRepr 5); CFRReprToFR (nreprs (run heap0 []))] ++ cs') /\
  snd (step (run (run heap0 []) [CNew (NewFRRepr 5)]) (CFRReprToFR (nreprs (run heap0 [])))) = RFR 2 /\ forallb (fun c => negb (touches 2 5 c)) cs' = true.
Proof. split; [vm_compute; repeat (apply Logic.conj); lia || exact I|]. split; vm_compute; reflexivity. Qed.
