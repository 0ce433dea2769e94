(** Shared state in fr.go: which calls keep the package variables intact. *)
Require Import ZArith Bool List Arith Lia.
From Verif Require Import Words ModelRepr ReprProofs ReprProofs2 ModelFq ModelFr ModelFrHeap Primality FrProofs.
Import ListNotations.
Open Scope Z_scope.

(** Everything a caller can hold lies outside the package variables. *)
Definition hinv (h : heap) : Prop :=
  (5 <= nreprs h)%nat /\ (2 <= nfrs h)%nat /\ (forall f, user_fr h f -> user_repr h (frn h f)).

Lemma heap0_inv : hinv heap0.
Proof. split; [vm_compute; lia|]. split; [vm_compute; lia|]. intros f [H1 H2]. vm_compute in H2. lia. Qed.

Lemma wr_ok h a v : hinv h -> user_repr h a -> hinv (wr h a v) /\ globals (wr h a v) = globals h.
Proof.
  intros (H1 & H2 & H3) Ha. split; [split; [exact H1|split; [exact H2|exact H3]]|].
  unfold globals, wr, upd. cbn [reprs frn map]. unfold user_repr in Ha.
  assert (forall x, (x < 5)%nat -> Nat.eqb x a = false) as E by (intros x Hx; apply Nat.eqb_neq; lia).
  rewrite !E by (unfold aRFieldModulus, aFRR2, aFrOne, aFrZero, aRMinus1Over2; lia). reflexivity.
Qed.
Lemma newRepr_ok h v : hinv h -> hinv (fst (newRepr h v)) /\ globals (fst (newRepr h v)) = globals h.
Proof.
  intros (H1 & H2 & H3). split.
  - split; [cbn; lia|]. split; [exact H2|]. intros f Hf. specialize (H3 f Hf). unfold user_repr in *. cbn in *. lia.
  - unfold globals, newRepr, upd. cbn [fst reprs frn map].
    assert (forall x, (x < 5)%nat -> Nat.eqb x (nreprs h) = false) as E by (intros x Hx; apply Nat.eqb_neq; lia).
    rewrite !E by (unfold aRFieldModulus, aFRR2, aFrOne, aFrZero, aRMinus1Over2; lia). reflexivity.
Qed.
Lemma newFR_ok h a : hinv h -> user_repr h a -> hinv (fst (newFR h a)) /\ globals (fst (newFR h a)) = globals h.
Proof.
  intros (H1 & H2 & H3) Ha. split.
  - split; [exact H1|]. split; [cbn; lia|]. intros f Hf. unfold user_fr, user_repr, newFR, upd in *. cbn [fst frn nfrs nreprs] in *.
    destruct (Nat.eqb_spec f (nfrs h)); [exact Ha|apply H3; lia].
  - unfold globals, newFR, upd. cbn [fst reprs frn map].
    assert (forall x, (x < 2)%nat -> Nat.eqb x (nfrs h) = false) as E by (intros x Hx; apply Nat.eqb_neq; lia).
    rewrite !E by (unfold oBigOneFR, oBigZeroFR; lia). reflexivity.
Qed.
Lemma fresh_ok h v : hinv h -> hinv (fst (fresh h v)) /\ globals (fst (fresh h v)) = globals h.
Proof.
  intros H. unfold fresh. destruct (newRepr_ok h (fr_n v) H) as [I1 G1].
  assert (user_repr (fst (newRepr h (fr_n v))) (nreprs h)) as U by (destruct H as (H1 & _); unfold user_repr; cbn; lia).
  destruct (newFR_ok _ (nreprs h) I1 U) as [I2 G2]. cbn [newRepr fst] in *. split; [exact I2|congruence].
Qed.
Lemma withFR_ok p : hinv (fst p) -> hinv (fst (withFR p)).
Proof. destruct p. exact (fun H => H). Qed.
Lemma withFR_g p : globals (fst (withFR p)) = globals (fst p).
Proof. destruct p. reflexivity. Qed.

Lemma hFRReprToFR_ok h o : hinv h -> user_repr h o -> hinv (fst (hFRReprToFR h o)) /\ globals (fst (hFRReprToFR h o)) = globals h.
Proof.
  intros H U. unfold hFRReprToFR. destruct (_ <? 0); [|split; [exact H|reflexivity]].
  match goal with |- context [wr h o ?x] => destruct (wr_ok h o x H U) as [I1 G1]; set (h1 := wr h o x) in * end.
  assert (user_repr h1 o) as U1 by exact U. destruct (newFR_ok h1 o I1 U1) as [I2 G2].
  cbn [newFR fst] in *. split; [exact I2|congruence].
Qed.

Lemma step_ok h c : hinv h -> call_ok h c -> is_sqrt c = false ->
  hinv (fst (step h c)) /\ globals (fst (step h c)) = globals h.
Proof.
  intros H Hc Hs. pose proof H as (H1 & H2 & H3).
  assert (forall f, user_fr h f -> user_repr h (frn h f)) as U by exact H3.
  destruct c; cbn [is_sqrt] in Hs; try discriminate; cbn [call_ok] in Hc; cbn [step];
    try (rewrite withFR_g; split; [apply withFR_ok|]; apply fresh_ok; assumption);
    try (split; [exact H|reflexivity]);
    try (apply (wr_ok _ _ _ H); apply U; tauto).
  - apply (newRepr_ok h v H).
  - destruct (hFRReprToFR_ok h o H Hc) as [I G]. destruct (hFRReprToFR h o). split; assumption.
  - destruct (negb _); [|split; [exact H|reflexivity]].
    match goal with |- context [newRepr h ?x] => destruct (newRepr_ok h x H) as [I1 G1]; set (v := x) in * end.
    cbn [newRepr fst reprs frn nreprs nfrs] in *. split.
    + split; [cbn; lia|]. split; [exact H2|]. intros g Hg. unfold user_fr, user_repr, upd in *. cbn [frn nfrs nreprs] in *.
      destruct (Nat.eqb_spec g f); [lia|]. specialize (H3 g Hg). lia.
    + rewrite <- G1. unfold globals. cbn [reprs frn map]. f_equal. unfold upd, oBigOneFR, oBigZeroFR, user_fr in *.
      assert (forall x, (x < 2)%nat -> Nat.eqb x f = false) as E by (intros x Hx; apply Nat.eqb_neq; lia).
      rewrite !E by lia. reflexivity.
  - destruct (hIsZero _ _); [split; [exact H|reflexivity]|]. destruct (FR_Inverse _); [|split; [exact H|reflexivity]].
    rewrite withFR_g; split; [apply withFR_ok|]; apply fresh_ok; assumption.
  - apply (newRepr_ok h _ H).
Qed.

(** Any sequence of calls without Sqrt leaves every package variable as it was. *)
Theorem run_globals cs : forall h, hinv h -> calls_ok h cs -> forallb (fun c => negb (is_sqrt c)) cs = true ->
  globals (run h cs) = globals h.
Proof.
  induction cs as [|c cs IH]; intros h H Hok Hs; cbn [run]; [reflexivity|].
  cbn [calls_ok] in Hok. destruct Hok as [Hc Hok]. cbn [forallb] in Hs. apply andb_true_iff in Hs. destruct Hs as [Hs1 Hs2].
  destruct (step_ok h c H Hc ltac:(destruct (is_sqrt c); [discriminate|reflexivity])) as [I G]. rewrite <- G. apply IH; assumption.
Qed.

(** With Sqrt: bigOneFR is overwritten and x^0 no longer is one. *)
Definition sqrt_history : list call := [CNew (NewFRRepr 5); CFRReprToFR 5; CSqrt 2].
Lemma sqrt_history_ok : calls_ok heap0 sqrt_history.
Proof. vm_compute. repeat split; repeat constructor. Qed.
Lemma sqrt_history_globals : globals (run heap0 sqrt_history) <> globals heap0.
Proof. vm_compute. discriminate. Qed.
(** In the state after the history, Legendre classifies 4 = 2^2 as a non-residue; before, correctly. *)
Definition legendre_of_4 (h : heap) : result := snd (step (run h [CNew (NewFRRepr 4); CFRReprToFR (nreprs h)]) (CLegendre (nfrs h))).
Definition exp_zero_of (h : heap) : list Z :=
  let h1 := run h [CNew (NewFRRepr 4); CFRReprToFR (nreprs h); CNew (NewFRRepr 0)] in
  let h2 := fst (step h1 (CExp (nfrs h) (S (nreprs h)))) in FR_Bytes (rd h2 (nfrs h1)).
Lemma exp_zero_before : be_value (exp_zero_of heap0) = 1.
Proof. vm_compute. reflexivity. Qed.
Lemma exp_zero_after : be_value (exp_zero_of (run heap0 sqrt_history)) <> 1.
Proof. vm_compute. discriminate. Qed.

(** FRReprToFR twice on the same FRRepr: the caller's number is changed by the first call, and both results share
    one object, so both end up different from the number that was converted. *)
Definition convert_twice : list call := [CNew (NewFRRepr 5); CFRReprToFR 5; CFRReprToFR 5].
Lemma convert_once_value : let h := run heap0 [CNew (NewFRRepr 5); CFRReprToFR 5] in
  rval (rd h 2) = 5 /\ reprs h 5 <> NewFRRepr 5.
Proof. vm_compute. split; [reflexivity|discriminate]. Qed.
Lemma convert_twice_values : let h := run heap0 convert_twice in rval (rd h 2) <> 5 /\ rval (rd h 3) <> 5.
Proof. vm_compute. split; discriminate. Qed.

(** What the caller's FRRepr holds afterwards, in general: n * 2^256 mod r. *)
Lemma FRReprToFR_overwrites h o f : reprs h aRFieldModulus = RFieldModulus -> reprs h aFRR2 = FRR2 -> wf4 (reprs h o) ->
  snd (hFRReprToFR h o) = Some f ->
  frn (fst (hFRReprToFR h o)) f = o /\ rcanon (rd (fst (hFRReprToFR h o)) f) /\ rval (rd (fst (hFRReprToFR h o)) f) = eval4 (reprs h o) /\
  eval4 (reprs (fst (hFRReprToFR h o)) o) = (eval4 (reprs h o) * 2 ^ 256) mod r.
Proof.
  intros E1 E2 Hw. unfold hFRReprToFR. rewrite E1, E2. 
  destruct (FRRepr_Cmp (reprs h o) RFieldModulus <? 0) eqn:E; [|discriminate]. cbn [newFR fst snd].
  intros X. injection X as <-. unfold rd, wr, upd; cbn [frn reprs]. rewrite !Nat.eqb_refl.
  assert (FR_IsValid (mkFR (reprs h o)) = true) as V by exact E.
  apply FR_IsValid_spec in V; [|exact Hw]. cbn [fr_n] in V.
  destruct (FRReprToFR_valid (reprs h o) Hw V) as (g & Eg & C & Vg).
  unfold FRReprToFR in Eg. change (FR_IsValid (mkFR (reprs h o))) with (FRRepr_Cmp (reprs h o) RFieldModulus <? 0) in Eg. rewrite E in Eg.
  assert (g = FR_MulAssign (mkFR (reprs h o)) (mkFR FRR2)) as E3 by congruence. clear Eg.
  rewrite <- E3. destruct g as [n]. cbn [fr_n]. split; [reflexivity|]. split; [exact C|]. split; [exact Vg|].
  rewrite <- RR_pow. rewrite <- Vg. exact (rval_eval _ C).
Qed.
