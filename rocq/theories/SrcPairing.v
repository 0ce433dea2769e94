(** pairing.go and the preparation of g2.go, run from their source text. *)
Require Import ZArith Bool String List Lia.
From Verif Require Import Words ModelRepr ModelFq ModelFr ModelOps ModelTower ModelCurve ModelPairing ModelHash ModelBls SrcAst SrcSem SrcCode SrcCall SrcTac.
Import ListNotations.
Open Scope Z_scope.
Section S.
Context {F : Type} (B : BOps F).
Lemma src_G2Prepared_IsZero_ok n q : runB B n src_G2Prepared_IsZero [prepV q] = Done [] [VB (pinf q)].
Proof. src. Qed.
Lemma src_FinalExponentiation_ok n r : runB B n src_FinalExponentiation [V12 r] =
  Done [V12 r] [match FinalExponentiation B r with Some f => V12 f | None => VN end].
Proof. unfold FinalExponentiation, ExpByX. src. Qed.
Lemma src_Pairing_ok n p q : runB B n src_Pairing [VP1 p; VP2 q] =
  match MillerLoop B [(G1_ToAffine (b_ops B) p, G2AffineToPrepared B (G2_ToAffine (FQ2O B) q))] with
  | Some f => Done [VP1 p; VP2 q] [match FinalExponentiation B f with Some e => V12 e | None => VN end]
  | None => Panic
  end.
Proof. src. Qed.
Lemma src_CompareTwoPairings_ok n P1 Q1 P2 Q2 : runB B n src_CompareTwoPairings [VP1 P1; VP2 Q1; VP1 P2; VP2 Q2] =
  match CompareTwoPairings B P1 Q1 P2 Q2 with
  | Some b => Done [VP1 P1; VP2 Q1; VP1 P2; VP2 Q2] [VB b]
  | None => Panic
  end.
Proof. unfold CompareTwoPairings. src. Qed.
End S.
