(** What callers can do to the package's points at infinity through the pointers they are given. *)
Require Import ZArith Lia Bool List.
From Verif Require Import Words ModelRepr ModelFq ModelFr ModelOps ModelTower ModelCurve CurveLimb ModelPtHeap.
Import ListNotations.
Open Scope Z_scope.

Section P.
  Context {F : Type} (O : Ops F) (toAffine : Proj F -> Affine F) (setRaw : Affine F -> list Z -> Affine F).
  Lemma set_cell_other (l : list (Affine F)) p a k d : k <> p -> nth k (set_cell l p a) d = nth k l d.
  Proof. revert p k. induction l as [|x l IH]; intros [|p] [|k] H; cbn [set_cell nth]; try reflexivity; [contradiction|]. apply IH. congruence. Qed.
  Lemma set_cell_length (l : list (Affine F)) p a : length (set_cell l p a) = length l.
  Proof. revert p. induction l as [|x l IH]; intros [|p]; cbn; auto. Qed.
  Lemma set_cell_same (l : list (Affine F)) p d : set_cell l p (nth p l d) = l.
  Proof. revert p. induction l as [|x l IH]; intros [|p]; cbn [set_cell nth]; try reflexivity. rewrite IH. reflexivity. Qed.
  Definition inv0 (s : @PState F) : Prop := (0 < length (cells s))%nat /\ cell O s 0 = AffineZero O /\ ~ In 0%nat (held s).
  Lemma give_inv s a : inv0 s -> inv0 (give s a).
  Proof.
    intros (L & C & N). unfold inv0, give, cell. cbn [cells held]. rewrite app_length, app_nth1 by exact L. split; [lia|]. split; [exact C|]. intros [E|I]; [lia|exact (N I)].
  Qed.
  Lemma step_inv s c : inv0 s -> pok s c -> inv0 (pstep O toAffine setRaw false s c).
  Proof.
    intros I. destruct c as [P|p|p|p b]; cbn [pstep pok].
    - intros _. destruct (Proj_IsZero O P); apply give_inv, I.
    - intros _. apply give_inv, I.
    - intros Hp. destruct I as (L & C & N). unfold inv0, cell. cbn [cells held]. rewrite set_cell_length, set_cell_other by (intros <-; contradiction). auto.
    - intros Hp. destruct I as (L & C & N). unfold inv0, cell. cbn [cells held]. rewrite set_cell_length, set_cell_other by (intros <-; contradiction). auto.
  Qed.
  Lemma run_inv l : forall s, inv0 s -> pok_all O toAffine setRaw false s l -> inv0 (prun O toAffine setRaw false s l).
  Proof. induction l as [|c l IH]; intros s I; cbn [pok_all prun]; [auto|]. intros [H H']. apply IH; [apply step_inv; assumption|exact H']. Qed.
  (** when ToAffine copies: the package variable never changes *)
  Theorem copy_safe l : pok_all O toAffine setRaw false (pinit O) l -> cell O (prun O toAffine setRaw false (pinit O) l) 0 = AffineZero O.
  Proof. intros H. apply (run_inv l (pinit O)); [|exact H]. split; [cbn; lia|]. split; [reflexivity|]. intros []. Qed.
  (** when ToAffine shares: it does not change as long as nobody calls SetRawBytes *)
  Definition is_raw (c : pcall F) : bool := match c with PSetRaw _ _ => true | _ => false end.
  Definition inv1 (s : @PState F) : Prop := (0 < length (cells s))%nat /\ cell O s 0 = AffineZero O.
  Theorem share_safe l : forallb (fun c => negb (is_raw c)) l = true -> cell O (prun O toAffine setRaw true (pinit O) l) 0 = AffineZero O.
  Proof.
    assert (forall l s, inv1 s -> forallb (fun c => negb (is_raw c)) l = true -> inv1 (prun O toAffine setRaw true s l)) as K.
    { clear l. induction l as [|c l IH]; intros s I H; cbn [prun]; [exact I|]. cbn [forallb] in H. apply andb_true_iff in H. destruct H as [Hc H]. apply IH; [|exact H]. clear IH H.
      assert (forall a, inv1 (give s a)) as G. { intros a. destruct I as (L & C). unfold inv1, give, cell. cbn [cells]. rewrite app_length, app_nth1 by exact L. split; [lia|exact C]. }
      destruct c as [P|p|p|p b]; cbn [pstep]; [destruct (Proj_IsZero O P); [exact I|apply G]|apply G| |discriminate Hc].
      destruct I as (L & C). unfold inv1, cell in *. cbn [cells]. rewrite set_cell_length. split; [exact L|]. destruct p as [|p]; [|rewrite set_cell_other by discriminate; exact C].
      rewrite C. change (Affine_NegAssign O (AffineZero O)) with (AffineZero O). rewrite <- C at 1. rewrite set_cell_same. exact C. }
    intros H. apply (K l (pinit O)); [|exact H]. split; [cbn; lia|reflexivity].
  Qed.
End P.
(** G2: the uncompressed form of the identity, before and after a caller wrote through the pointer ToAffine returned *)
Definition g2_identity_bytes (s : @PState (FQ2 FQ)) : list Z :=
  let s' := pstep FqO2 (G2_ToAffine FqO2) (G2_SetRawBytes FqB) true s (PToAffine (ProjectiveZero FqO2)) in
  G2_SerializeBytes FqB (cell FqO2 s' (hd 0%nat (held s'))).
Theorem share_refuted : exists l, pok_all FqO2 (G2_ToAffine FqO2) (G2_SetRawBytes FqB) true (pinit FqO2) l /\
  cell FqO2 (prun FqO2 (G2_ToAffine FqO2) (G2_SetRawBytes FqB) true (pinit FqO2) l) 0 <> AffineZero FqO2 /\
  g2_identity_bytes (prun FqO2 (G2_ToAffine FqO2) (G2_SetRawBytes FqB) true (pinit FqO2) l) <> g2_identity_bytes (pinit FqO2).
Proof.
  exists [PToAffine (ProjectiveZero FqO2); PSetRaw 0%nat (repeat 0 192)].
  split; [cbn [pok_all pok]; split; [exact Logic.I|]; split; [left; reflexivity|exact Logic.I]|].
  assert (g2_identity_bytes (prun FqO2 (G2_ToAffine FqO2) (G2_SetRawBytes FqB) true (pinit FqO2) [PToAffine (ProjectiveZero FqO2); PSetRaw 0%nat (repeat 0 192)]) = repeat 0 192 /\ g2_identity_bytes (pinit FqO2) = repeat 0 143 ++ [1] ++ repeat 0 48) as [E E'] by (vm_compute; split; reflexivity).
  split.
  - intros H. apply (f_equal ay) in H. vm_compute in H. discriminate H.
  - rewrite E, E'. vm_compute. discriminate.
Qed.
(** the hypotheses are met: a G1 history that negates and overwrites the points it was given *)
Example g1_history : pok_all FqO (G1_ToAffine FqO) (G1_SetRawBytes FqB) false (pinit FqO) [PToAffine (ProjectiveZero FqO); PSetRaw 1%nat (repeat 0 96); PCopy 1%nat; PNeg 2%nat].
Proof. vm_compute. tauto. Qed.
