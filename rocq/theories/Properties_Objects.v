(** Properties C74 and C75: the assembly generator; keys and signatures as objects in memory.
    - [v]: an allocation of physical registers to the virtual registers of the generator.
    - [oinit], [orun], [ook_all]: histories of calls in which callers use only objects and pointers they hold (ModelObjHeap);
      [value s o]: the point of object o; [receiver c]: the receiver if c is Aggregate.
    - [heap0], [run], [calls_ok], [rd]: histories of calls on FR elements (ModelFrHeap); [touches f a c]: c writes to FR object f or
      to FRRepr object a. *)
Require Import ZArith Lia Bool List.
From Verif Require Import Words ModelRepr ReprProofs ModelFq ModelFr ModelOps ModelTower ModelCurve CurveLimb FrProofs ModelAsm AsmProg ModelAsmGen AsmGenProofs ModelObjHeap ObjHeapProofs ModelFrHeap KeyHeapProofs.
Import ListNotations.
Open Scope Z_scope.

(** * C74: the assembly file is what asm/asm.go emits *)
Theorem C74_words : (exists v, gen_MACWithCarry v = f_body asm_MACWithCarry) /\ (exists v, gen_SubWithBorrow v = f_body asm_SubWithBorrow) /\ (exists v, gen_AddWithCarry v = f_body asm_AddWithCarry).
Proof. exact (conj emit_MACWithCarry (conj emit_SubWithBorrow emit_AddWithCarry)). Qed.
Theorem C74_MultiplyFQRepr : exists v, gen_MultiplyFQRepr v 144 96 = f_body asm_MultiplyFQRepr.
Proof. exact emit_MultiplyFQRepr. Qed.
Theorem C74_MontReduce : (exists v, gen_MontReduce v 48 0 96 = f_body asm_MontReduce) /\ f_frame asm_MontReduce = 8 * 12.
Proof. exact (conj emit_MontReduce eq_refl). Qed.
Theorem C74_AddNoCarry_SubNoBorrow : (exists v, gen_AddNoCarry v = f_body asm_AddNoCarry) /\ (exists v, gen_SubNoBorrow v = f_body asm_SubNoBorrow).
Proof. exact (conj emit_AddNoCarry emit_SubNoBorrow). Qed.

(** * C75: values of keys and signatures *)
Theorem C75_g1pubs_PublicKey_g2pubs_Signature l l' k : ook_all FqO true oinit (l ++ l') -> (k < length (objects (orun FqO true oinit l)))%nat -> Forall (fun c => receiver c <> Some k) l' ->
  value FqO (orun FqO true oinit (l ++ l')) k = value FqO (orun FqO true oinit l) k.
Proof. exact (objects_stable FqO l l' k). Qed.
Theorem C75_g2pubs_PublicKey_g1pubs_Signature l l' k : ook_all FqO2 true oinit (l ++ l') -> (k < length (objects (orun FqO2 true oinit l)))%nat -> Forall (fun c => receiver c <> Some k) l' ->
  value FqO2 (orun FqO2 true oinit (l ++ l')) k = value FqO2 (orun FqO2 true oinit l) k.
Proof. exact (objects_stable FqO2 l l' k). Qed.
Theorem C75_results_G1 l : ook_all FqO true oinit l -> let s := orun FqO true oinit l in let n := length (objects s) in
  (forall P, value FqO (ostep FqO true s (ONew P)) n = P) /\
  (forall o, (o < n)%nat -> value FqO (ostep FqO true s (OCopy o)) n = value FqO s o) /\
  (forall o o', (o < n)%nat -> value FqO (ostep FqO true s (OAggregate o o')) o = Add FqO (value FqO s o) (value FqO s o')) /\
  (forall os, Forall (fun o => (o < n)%nat) os -> value FqO (ostep FqO true s (OAggregateAll os)) n = fold_left (Add FqO) (map (value FqO s) os) (ProjectiveZero FqO)).
Proof. exact (object_results FqO l). Qed.
Theorem C75_results_G2 l : ook_all FqO2 true oinit l -> let s := orun FqO2 true oinit l in let n := length (objects s) in
  (forall P, value FqO2 (ostep FqO2 true s (ONew P)) n = P) /\
  (forall o, (o < n)%nat -> value FqO2 (ostep FqO2 true s (OCopy o)) n = value FqO2 s o) /\
  (forall o o', (o < n)%nat -> value FqO2 (ostep FqO2 true s (OAggregate o o')) o = Add FqO2 (value FqO2 s o) (value FqO2 s o')) /\
  (forall os, Forall (fun o => (o < n)%nat) os -> value FqO2 (ostep FqO2 true s (OAggregateAll os)) n = fold_left (Add FqO2) (map (value FqO2 s) os) (ProjectiveZero FqO2)).
Proof. exact (object_results FqO2 l). Qed.
Example C75_nonvacuous : ook_all FqO true oinit obj_history /\ value FqO (orun FqO true oinit obj_history) 0%nat = G1ProjectiveOne FqB /\
  value FqO (orun FqO true oinit obj_history) 1%nat <> G1ProjectiveOne FqB /\ point FqO (orun FqO true oinit obj_history) 2%nat <> G1ProjectiveOne FqB.
Proof. exact obj_history_ok. Qed.
(** a GetPoint that returned the stored pointer would break it *)
Example C75_GetPoint_must_copy : exists l l' : list (ocall FQ), ook_all FqO false oinit (l ++ l') /\ Forall (fun c => receiver c <> Some 0%nat) l' /\
  value FqO (orun FqO false oinit (l ++ l')) 0%nat <> value FqO (orun FqO false oinit l) 0%nat.
Proof. exact getpoint_without_copy_refuted. Qed.
(** secret keys: GetFRElement returns the stored pointer (FR object 2 below) *)
Theorem C75_SecretKey_refuted : exists n : FRRepr, wf4 n /\ eval4 n = 5 /\
  (let h := run heap0 [CNew n; CFRReprToFR 5] in calls_ok heap0 [CNew n; CFRReprToFR 5; CDouble 2] /\ rval (rd h 2) = 5 /\ rval (rd (run h [CDouble 2]) 2) = 10).
Proof. exact key_leak. Qed.
Theorem C75_SecretKey_partial cs v cs' f : calls_ok heap0 (cs ++ [CNew v; CFRReprToFR (nreprs (run heap0 cs))] ++ cs') ->
  let h := run heap0 cs in let a := nreprs h in
  snd (step (run h [CNew v]) (CFRReprToFR a)) = RFR f -> forallb (fun c => negb (touches f a c)) cs' = true ->
  rd (run heap0 (cs ++ [CNew v; CFRReprToFR a] ++ cs')) f = rd (run heap0 (cs ++ [CNew v; CFRReprToFR a])) f.
Proof. exact (key_stable cs v cs' f). Qed.
Example C75_SecretKey_nonvacuous : let cs' := [CToRepr 2; CCopy 2; CDouble 3; CNeg 3; CFRReprToFR 6] in
  calls_ok heap0 ([] ++ [CNew (NewFRRepr 5); CFRReprToFR (nreprs (run heap0 []))] ++ cs') /\
  snd (step (run (run heap0 []) [CNew (NewFRRepr 5)]) (CFRReprToFR (nreprs (run heap0 [])))) = RFR 2 /\ forallb (fun c => negb (touches 2 5 c)) cs' = true.
Proof. exact key_stable_ex. Qed.

Print Assumptions C74_words.
Print Assumptions C74_MultiplyFQRepr.
Print Assumptions C74_MontReduce.
Print Assumptions C74_AddNoCarry_SubNoBorrow.
Print Assumptions C75_g1pubs_PublicKey_g2pubs_Signature.
Print Assumptions C75_g2pubs_PublicKey_g1pubs_Signature.
Print Assumptions C75_results_G1.
Print Assumptions C75_results_G2.
Print Assumptions C75_nonvacuous.
Print Assumptions C75_GetPoint_must_copy.
Print Assumptions C75_SecretKey_refuted.
Print Assumptions C75_SecretKey_partial.
Print Assumptions C75_SecretKey_nonvacuous.
