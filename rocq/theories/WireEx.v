(** Concrete cases for Properties_Wire. *)
Require Import ZArith Lia Bool List Permutation Sorted Znumtheory.
From Verif Require Import Words ModelRepr ReprProofs ReprProofs2 ModelFq ModelFr ModelOps ModelTower ModelCurve ModelPairing ModelHash ModelBls Primality Fp FpOps FqProofs FqRel FrProofs OpsRel OpsRel2 FqTransfer Ext Fld AbGrp EcGroup EcJac EcMul Curves CurveLimb CurveMisc Codec BlsProofs BlsProofs3 BlsProofs4 ClearCof PairTor VerifyProofs CountFacts HashEx HonestEx Sha256 KnownAnswer KnownHonest WireProofs RogueProofs ModelSlice SliceProofs.
Import CurveLimb ListNotations.
Open Scope Z_scope.

Lemma wire_vocabulary :
  (forall b, canonical_enc2 b <-> be_value (wand (byte0 b) 31 :: firstn 47 (skipn 1 b)) < q /\ be_value (skipn 48 b) < q) /\
  (forall X P, rogue1 X P = g1pubs_AggregatePublicKeys FqB [X; Proj_NegAssign FqO P]) /\ (forall X P, rogue2 X P = g2pubs_AggregatePublicKeys FqB [X; Proj_NegAssign FqO2 P]) /\
  (forall M o, contents M o = map (fun p => nth p (bufs M) []) (array M o)) /\
  (forall M M', extends M M' <-> (exists b, bufs M' = bufs M ++ b) /\ (exists a, arrays M' = arrays M ++ a)) /\
  (forall M, wfM M <-> Forall (Forall (fun p => (p < length (bufs M))%nat)) (arrays M)) /\
  (forall l, sorted_bytes l <-> StronglySorted (fun a b => bytes_Compare b a <> -1) l).
Proof. split; [reflexivity|]. split; [reflexivity|]. split; [reflexivity|]. split; [reflexivity|]. split; [reflexivity|]. split; reflexivity. Qed.
Lemma firstn_app_exact {A} n (l1 l2 : list A) : length l1 = n -> firstn n (l1 ++ l2) = l1.
Proof. intros <-. rewrite firstn_app, Nat.sub_diag, firstn_all. cbn [firstn]. apply app_nil_r. Qed.
(** what CompressG2 writes is canonical *)
Lemma compress2_canonical P : canonA2 P -> canonical_enc2 (CompressG2 FqB P).
Proof.
  intros C. rewrite (compress2_val P C). destruct (valA2 P) as [x y i] eqn:E. destruct i.
  - unfold CompressG2. cbn [Affine_IsZero ainf]. split; apply Z.ltb_lt; vm_compute; reflexivity.
  - destruct (xbytes_head (c1 x)) as (h & t & EX & Hh & Ht & Lt). rewrite (compress2_fin x y h t EX). unfold canonical_enc2.
    destruct (flag_write h (bigger2 y) Hh) as (_ & _ & _ & _ & W). cbn [byte0]. change (skipn 1 (flagged (bigger2 y) h :: t ++ xbytes (c0 x))) with (t ++ xbytes (c0 x)).
    pose proof (xbytes_spec (c1 x)) as (_ & _ & V1 & _). pose proof (xbytes_spec (c0 x)) as (L0 & _ & V0 & _).
    rewrite (firstn_app_exact 47) by exact Lt. change (flagged (bigger2 y) h :: t ++ xbytes (c0 x)) with ((flagged (bigger2 y) h :: t) ++ xbytes (c0 x)).
    rewrite (skipn_app_exact 48) by (cbn [length]; rewrite Lt; reflexivity). rewrite W, <- EX, V1, V0. split; apply (zof_bound q prime_q).
Qed.
Lemma wire_example1 k : rcanon k -> rval k <> 0 -> exists h P S, HashG2 sha256 FqB msg_signed = Some h /\ hok2 h /\ g1pubs_PrivToPub FqB (Some k) = Some P /\ g1pubs_Sign sha256 FqB msg_signed (Some k) = Some S /\
  length (g1pubs_Signature_Serialize FqB S) = 96%nat /\ Forall isByte (g1pubs_Signature_Serialize FqB S) /\ canonical_enc2 (g1pubs_Signature_Serialize FqB S).
Proof.
  intros C N. destruct sha256_good2 as (h & H & K). destruct (honest1_some sha256 msg_signed h k H K C N) as (P & S & (_ & _ & _ & EP & ES) & V).
  exists h, P, S. split; [exact H|]. split; [exact K|]. split; [exact EP|]. split; [exact ES|].
  destruct (honest_sig1 sha256 msg_signed h k S H K C ES) as ([CS _] & _ & _). destruct (G2_toaffine S CS) as [CA _]. destruct (compress2_bytes _ CA) as [L B].
  split; [exact L|]. split; [exact B|]. exact (compress2_canonical _ CA).
Qed.
Lemma wire_example2 k : rcanon k -> rval k <> 0 -> exists h P S, HashG1 sha256 FqB msg_signed = Some h /\ hok1 h /\ g2pubs_PrivToPub FqB (Some k) = Some P /\ g2pubs_Sign sha256 FqB msg_signed (Some k) = Some S /\
  length (g2pubs_Signature_Serialize FqB S) = 48%nat /\ Forall isByte (g2pubs_Signature_Serialize FqB S).
Proof.
  intros C N. destruct sha256_good1 as (h & H & K). destruct (honest2_some sha256 msg_signed h k H K C N) as (P & S & (_ & _ & _ & EP & ES) & V).
  exists h, P, S. split; [exact H|]. split; [exact K|]. split; [exact EP|]. split; [exact ES|].
  destruct (honest_sig2 sha256 msg_signed h k S H K C ES) as ([CS _] & _ & _). destruct (G1_toaffine S CS) as [CA _]. exact (compress1_bytes _ CA).
Qed.
(** the key 2 *)
Lemma two_ok : exists k, rcanon k /\ rval k = 2.
Proof. assert (wf4 (NewFRRepr 2)) as W by (unfold wf4, FRRepr_slice, NewFRRepr; cbn; repeat (apply Forall_cons || apply Forall_nil); unfold isW; lia). assert (eval4 (NewFRRepr 2) < r) as L by reflexivity. destruct (FRReprToFR_valid (NewFRRepr 2) W L) as (k & _ & C & V). exists k. split; [exact C|exact V]. Qed.
Lemma self_add {G : AbGrp} (x : G) : x = gA x x -> x = gO.
Proof. intros E. symmetry. apply (gA_cancel_l x). rewrite gA_comm, gA_0_l. exact E. Qed.
Lemma ne21 : mul1 1 gp1 <> mul1 2 gp1.
Proof.
  intros E. assert (mul1 1 gp1 = Inf) as Z.
  { change 2 with (1 + 1) in E. rewrite (mul1_add gp1 1 1 G1one_on) in E. revert E. rewrite !gp1_gen, !mul1_gm, !plus1_gA. intros E. apply (ec_eq E1) in E.
    exact (f_equal (epr E1) (@self_add (EC E1) _ E)). }
  apply (one1_mul 1) in Z. apply Z.divide_pos_le in Z; [|reflexivity]. apply Z. reflexivity.
Qed.
Lemma ne22 : mul2 1 gp2 <> mul2 2 gp2.
Proof.
  intros E. assert (mul2 1 gp2 = Inf) as Z.
  { change 2 with (1 + 1) in E. rewrite (mul2_add gp2 1 1 G2one_on) in E. revert E. rewrite !gp2_gen, !mul2_gm, !plus2_gA. intros E. apply (ec_eq E2) in E.
    exact (f_equal (epr E2) (@self_add (EC E2) _ E)). }
  apply (one2_mul 1) in Z. apply Z.divide_pos_le in Z; [|reflexivity]. apply Z. reflexivity.
Qed.
Lemma rogue_example : exists x X X', rcanon x /\ rval x <> 0 /\ g1pubs_PrivToPub FqB (Some x) = Some X /\ g2pubs_PrivToPub FqB (Some x) = Some X' /\
  tor1 (G1ProjectiveOne FqB) /\ jac1 (G1ProjectiveOne FqB) <> jac1 X /\ tor2 (G2ProjectiveOne FqB) /\ jac2 (G2ProjectiveOne FqB) <> jac2 X'.
Proof.
  destruct two_ok as (two_key & C & V). destruct (pub_spec1 two_key C) as (X & EX & _ & JX & _). destruct (pub_spec2 two_key C) as (X' & EX' & _ & JX' & _). rewrite V in JX, JX'.
  exists two_key, X, X'. split; [exact C|]. split; [rewrite V; discriminate|]. split; [exact EX|]. split; [exact EX'|]. split; [exact one1_tor|]. split; [|split; [exact one2_tor|]].
  - intros E. exact (ne21 (eq_trans (eq_sym (proj2 key_one1)) (eq_trans E JX))).
  - intros E. exact (ne22 (eq_trans (eq_sym (proj2 key_one2)) (eq_trans E JX'))).
Qed.
