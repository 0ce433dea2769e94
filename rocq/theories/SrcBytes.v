(** The encodings of g1.go and g2.go, run from their source text. *)
Require Import ZArith Bool String List Lia.
From Verif Require Import Words ModelRepr ModelFq ModelFr ModelOps ModelTower ModelCurve ModelPairing ModelHash ModelBls SrcAst SrcSem SrcCode SrcCall SrcTac.
Import ListNotations.
Open Scope Z_scope.
Section S.
Context {F : Type} (B : BOps F).
Lemma src_G1Affine_SerializeBytes_ok n g : runB B n src_G1Affine_SerializeBytes [VA1 g] = Done [VA1 g] [VBy (G1_SerializeBytes B g)].
Proof. unfold G1_SerializeBytes. src_cbvb. reflexivity. Qed.
Lemma src_G1Affine_SetRawBytes_ok n g b : length b = 96%nat -> runB B n src_G1Affine_SetRawBytes [VA1 g; VBy b] = Done [VA1 (G1_SetRawBytes B g b)] [].
Proof. intros L. do 96 (destruct b as [|? b]; [discriminate L|]). destruct b; [|discriminate L]. unfold G1_SetRawBytes. src_cbvb. reflexivity. Qed.
Lemma src_DecompressG1Unchecked_ok n b : length b = 48%nat -> runB B (S n) src_DecompressG1Unchecked [VBy b] = Done [] (orerr VA1 (DecompressG1Unchecked B b)).
Proof. intros L. do 48 (destruct b as [|? b]; [discriminate L|]). destruct b; [|discriminate L]. unfold DecompressG1Unchecked. src_cbvb. src_split. Qed.
Lemma src_CompressG1_ok n g : runB B n src_CompressG1 [VA1 g] = Done [VA1 g] [VBy (CompressG1 B g)].
Proof. unfold CompressG1. src_cbvb. src_split. Qed.
Lemma src_G2Affine_SerializeBytes_ok n g : runB B n src_G2Affine_SerializeBytes [VA2 g] = Done [VA2 g] [VBy (G2_SerializeBytes B g)].
Proof. unfold G2_SerializeBytes. src_cbvb. reflexivity. Qed.
Lemma src_G2Affine_SetRawBytes_ok n g b : length b = 192%nat -> runB B n src_G2Affine_SetRawBytes [VA2 g; VBy b] = Done [VA2 (G2_SetRawBytes B g b)] [VN].
Proof. intros L. do 192 (destruct b as [|? b]; [discriminate L|]). destruct b; [|discriminate L]. unfold G2_SetRawBytes. src_cbvb. reflexivity. Qed.
Lemma src_DecompressG2Unchecked_ok n b : length b = 96%nat -> runB B (S n) src_DecompressG2Unchecked [VBy b] = Done [] (orerr VA2 (DecompressG2Unchecked B b)).
Proof. intros L. do 96 (destruct b as [|? b]; [discriminate L|]). destruct b; [|discriminate L]. unfold DecompressG2Unchecked. src_cbvb. src_split. Qed.
Lemma src_CompressG2_ok n g : runB B n src_CompressG2 [VA2 g] = Done [VA2 g] [VBy (CompressG2 B g)].
Proof. unfold CompressG2. src_cbvb. src_split. Qed.
End S.
