(** The conditions of the lines above hold for values of use: exponents of full width, encodings of the right length; and a run can be
    carried out. *)
Example C81_conditions : wf6 QFieldModulus /\ wf4 RFieldModulus /\ length (CompressG1 FqB (AffineZero (b_ops FqB))) = 48%nat.
Proof. exact (conj QFieldModulus_wf (conj RFieldModulus_wf eq_refl)). Qed.
Example C81_run : runB FqB 1 src_CompressG1 [VA1 (AffineZero (b_ops FqB))] = Done [VA1 (AffineZero (b_ops FqB))] [VBy (192 :: repeat 0 47)].
Proof. reflexivity. Qed.
Example C81_run_stuck : runB FqB 1 src_FQ2_FrobeniusMapAssign [V2 (mkFQ2 FQZero FQZero); VB true] = Stuck.
Proof. reflexivity. Qed.
(** with a toy hash function: one byte, the length of the message *)
Example C81_hash_run : runT FqB (t_hash (fun l => [Z.of_nat (length l)]) FqB) 9 src_hp [VBy [7; 7]; VU 8 1] =
  Done [VBy [7; 7]] [VF (FQReprToFQ (NewFQRepr 1028))] /\ 0 <= 1 < 256.
Proof. split; [vm_compute; reflexivity|split; [discriminate|reflexivity]]. Qed.
(** and below the towers: conditions that hold, and runs on limbs *)
Example C81_limb_conditions : isW 127 /\ canon FQOne /\ rcanon bigOneFR.
Proof. split; [split; [discriminate|reflexivity]|]. split; [apply FQOne_canon|apply bigOneFR_canon]. Qed.
Example C81_limb_run : runL 15 src_FQRepr_Rsh [VR (mkFQRepr 0 0 5 0 0 0); VU 64 127] = Done [VR (mkFQRepr 10 0 0 0 0 0)] [].
Proof. vm_compute. reflexivity. Qed.
Example C81_limb_run_panic : runL 1 src_FQRepr_Bit [VR (mkFQRepr 0 0 5 0 0 0); VU 64 384] = Panic.
Proof. reflexivity. Qed.
Example C81_limb_run_text : runL 1 src_FQReprFromString [VStr "12"%string; VU 64 10] = Done [] [VR (mkFQRepr 12 0 0 0 0 0); VN].
Proof. vm_compute. reflexivity. Qed.
