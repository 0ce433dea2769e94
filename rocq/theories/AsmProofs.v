(** The assembly functions compute what the portable functions compute.
    MultiplyFQRepr and MontReduce are cut into groups of instructions ([mac]); each group is shown to act on the machine state like one
    call of a portable primitive, after which assembly and portable code are the same term. *)
Require Import ZArith Lia Bool List.
From Verif Require Import Words ModelRepr ReprProofs ModelFq ModelAsm AsmProg.
Import ListNotations.
Open Scope Z_scope.

(** ** Groups *)
Inductive opn := OReg (r : reg) | OImm (z : Z) | OFP (n : nat) | OSP (n : nat).
Definition opx (o : opn) : operand := match o with OReg r => Reg r | OImm z => Imm z | OFP n => FPm (8 * Z.of_nat n) | OSP n => SPm (8 * Z.of_nat n) end.
Inductive mac :=
| Mov (src dst : opn)
| Zero (r : reg)
| Mac (b c k : reg)            (* (AX, DX) := c + AX * b + k *)
| MacS (b c k : reg)           (* the same, factors in the other order *)
| MulLo (b : reg)              (* AX := low word of b * AX *)
| Add3 (m : nat).              (* (AX, BX) := frame slot m + CX + SI *)
Definition expand (m : mac) : list instr :=
  match m with
  | Mov a b => [MOVQ (opx a) (opx b)]
  | Zero r => [XORQ (Reg r) (Reg r)]
  | Mac b c k | MacS b c k => [MULQ (Reg b); ADDQ (Reg c) (Reg AX); ADCQ (Imm 0) (Reg DX); ADDQ (Reg k) (Reg AX); ADCQ (Imm 0) (Reg DX)]
  | MulLo b => [MULQ (Reg b)]
  | Add3 m => [XORQ (Reg BX) (Reg BX); MOVQ (SPm (8 * Z.of_nat m)) (Reg AX); ADDQ (Reg SI) (Reg AX); ADCQ (Imm 0) (Reg BX); ADDQ (Reg CX) (Reg AX); ADCQ (Imm 0) (Reg BX)]
  end.
Definition free (r : reg) : bool := match r with AX | DX => false | _ => true end.
Definition mok (m : mac) : bool :=
  match m with
  | Mov (OImm z) _ => (0 <=? z) && (z <? W)
  | Mac _ c k | MacS _ c k => free c && free k
  | _ => true
  end.
Definition rdn (o : opn) (s : state) : option Z :=
  match o with OReg r => Some (getr r (rg s)) | OImm z => Some z | OFP n => nth_error (fp s) n | OSP n => nth_error (sp s) n end.
Definition wrn (o : opn) (v : Z) (s : state) : option state :=
  match o with
  | OReg r => Some (mkSt (setr r v (rg s)) (cf s) (fp s) (sp s))
  | OImm _ => None
  | OFP n => match put n v (fp s) with Some l => Some (mkSt (rg s) (cf s) l (sp s)) | None => None end
  | OSP n => match put n v (sp s) with Some l => Some (mkSt (rg s) (cf s) (fp s) l) | None => None end
  end.
(** continuation-passing, so that normalisation keeps the calls of the primitives shared *)
Definition mstep {R} (m : mac) (s : state) (K : state -> option R) : option R :=
  let g := rg s in
  match m with
  | Mov a b => match rdn a s with Some v => match wrn b v s with Some s' => K s' | None => None end | None => None end
  | Zero r => K (mkSt (setr r 0 g) (Some false) (fp s) (sp s))
  | Mac b c k => let '(lo, hi) := MACWithCarry (getr c g) (getr AX g) (getr b g) (getr k g) in K (mkSt (setr AX lo (setr DX hi g)) (Some false) (fp s) (sp s))
  | MacS b c k => let '(lo, hi) := MACWithCarry (getr c g) (getr b g) (getr AX g) (getr k g) in K (mkSt (setr AX lo (setr DX hi g)) (Some false) (fp s) (sp s))
  | MulLo b => K (mkSt (setr AX (wmul (getr b g) (getr AX g)) (setr DX (whi (getr AX g * getr b g)) g)) (Some (negb (whi (getr AX g * getr b g) =? 0))) (fp s) (sp s))
  | Add3 m => match nth_error (sp s) m with
      | Some v => let '(lo, c) := AddWithCarry v (getr CX g) (getr SI g) in K (mkSt (setr AX lo (setr BX c g)) (Some false) (fp s) (sp s))
      | None => None end
  end.
Fixpoint mexec {R} (l : list mac) (s : state) (K : state -> option R) : option R :=
  match l with [] => K s | m :: t => mstep m s (fun s' => mexec t s' K) end.

(** ** Each group acts like its expansion *)
Fixpoint runl (l : list instr) (s : state) : option state :=
  match l with [] => Some s | i :: t => match step i s with Some s' => runl t s' | None => None end end.
Lemma runl_app l l' s : runl (l ++ l') s = match runl l s with Some s' => runl l' s' | None => None end.
Proof. revert s. induction l as [|i l IH]; intros s; [reflexivity|]. cbn. destruct (step i s); [apply IH|reflexivity]. Qed.
Lemma exec_runl l s : Forall (fun i => i <> RET) l -> exec (l ++ [RET]) s = runl l s.
Proof.
  revert s. induction l as [|i l IH]; intros s F; [reflexivity|]. inversion F as [|? ? N F']; subst. cbn [app runl]. 
  transitivity (match step i s with Some s' => exec (l ++ [RET]) s' | None => None end).
  - destruct i; try reflexivity. destruct N. reflexivity.
  - destruct (step i s); [apply IH; exact F'|reflexivity].
Qed.

Lemma getr_setr r v g r' : getr r' (setr r v g) = if match r, r' with
  | AX, AX | BX, BX | CX, CX | DX, DX | BP, BP | SI, SI | DI, DI | R8, R8 | R9, R9 | R10, R10 | R11, R11 | R12, R12 | R13, R13 | R14, R14 | R15, R15 => true | _, _ => false end then v else getr r' g.
Proof. destruct g, r, r'; reflexivity. Qed.
Lemma wf_setr r v g : isW v -> wfregs g -> wfregs (setr r v g).
Proof. intros V H r'. rewrite getr_setr. match goal with |- isW (if ?b then _ else _) => destruct b end; [exact V|apply H]. Qed.
Lemma put_wf n v l l' : isW v -> Forall isW l -> put n v l = Some l' -> Forall isW l'.
Proof.
  intros V. revert l l'. induction n as [|n IH]; intros [|x l] l' F E; try discriminate E; inversion F; subst.
  - cbn in E. inversion E; subst. constructor; assumption.
  - cbn in E. destruct (put n v l) as [t|] eqn:P; [|discriminate E]. inversion E; subst. constructor; [assumption|]. exact (IH l t H2 P).
Qed.
Lemma slot_n n : slot (8 * Z.of_nat n) = Some n.
Proof.
  unfold slot. replace (8 * Z.of_nat n mod 8) with 0 by (rewrite Z.mul_comm, Z.mod_mul by lia; reflexivity). destruct (Z.leb_spec 0 (8 * Z.of_nat n)); [|lia]. cbn [Z.eqb andb].
  rewrite Z.mul_comm, Z.div_mul, Nat2Z.id by lia. reflexivity.
Qed.
Lemma rd_opx o s : match o with OImm z => (0 <=? z) && (z <? W) = true | _ => True end -> rd (opx o) s = rdn o s.
Proof.
  destruct o as [r|z|n|n]; cbn [opx rd rdn]; intros H; unfold load; rewrite ?slot_n; try reflexivity.
  f_equal. apply wlo_small. apply andb_prop in H. split; [apply Z.leb_le|apply Z.ltb_lt]; apply H.
Qed.
Lemma wr_opx o v s : wr (opx o) v s = wrn o v s.
Proof. destruct o as [r|z|n|n]; cbn [opx wr wrn]; unfold store; rewrite ?slot_n; reflexivity. Qed.
Lemma rdn_wf o s v : wfst s -> match o with OImm z => (0 <=? z) && (z <? W) = true | _ => True end -> rdn o s = Some v -> isW v.
Proof.
  intros (G & F & S) H. destruct o as [r|z|n|n]; cbn; intros E.
  - inversion E. apply G.
  - inversion E; subst. apply andb_prop in H. split; [apply Z.leb_le|apply Z.ltb_lt]; apply H.
  - apply nth_error_In in E. rewrite Forall_forall in F. exact (F v E).
  - apply nth_error_In in E. rewrite Forall_forall in S. exact (S v E).
Qed.
Lemma wrn_wf o v s s' : wfst s -> isW v -> wrn o v s = Some s' -> wfst s'.
Proof.
  intros (G & F & S) V. destruct o as [r|z|n|n]; cbn; intros E.
  - inversion E; subst. split; [apply wf_setr; assumption|split; assumption].
  - discriminate E.
  - destruct (put n v (fp s)) eqn:P; [|discriminate E]. inversion E; subst. split; [assumption|split; [exact (put_wf _ _ _ _ V F P)|assumption]].
  - destruct (put n v (sp s)) eqn:P; [|discriminate E]. inversion E; subst. split; [assumption|split; [assumption|exact (put_wf _ _ _ _ V S P)]].
Qed.

Lemma carry_b a b : isW a -> isW b -> Z.b2z (W <=? a + b) = whi (a + b).
Proof.
  intros A B. rewrite whi_div. unfold isW in *. destruct (Z.leb_spec W (a + b)); cbn.
  - apply Z.div_unique with (a + b - W); lia.
  - symmetry. apply Z.div_small. lia.
Qed.
Lemma wlo0 : wlo 0 = 0. Proof. reflexivity. Qed.
(** the four additions after a multiplication *)
Lemma mac_core a b c k : isW a -> isW b -> isW c -> isW k ->
  let p := b * c in let s1 := wlo p + a in let s2 := wlo s1 + k in let d1 := whi p + Z.b2z (W <=? s1) in let d2 := wlo d1 + Z.b2z (W <=? s2) in
  MACWithCarry a b c k = (wlo s2, wlo d2) /\ (W <=? d2) = false.
Proof.
  intros A B C K p s1 s2 d1 d2. assert (isW (whi p)) as HP. { unfold p. rewrite whi_div. unfold isW in *. split; [apply Z.div_pos; nia|apply Z.div_lt_upper_bound; nia]. }
  assert (Z.b2z (W <=? s1) = whi s1) as E1 by (apply carry_b; [apply wlo_isW|exact A]). assert (Z.b2z (W <=? s2) = whi s2) as E2 by (apply carry_b; [apply wlo_isW|exact K]).
  assert (MACWithCarry a b c k = (wlo s2, wlo d2)) as E.
  { unfold MACWithCarry, Mul64, Add64. cbv zeta. fold p. rewrite !Z.add_0_r. fold s1. fold s2. unfold wadd, d2, d1. rewrite E1, E2, ?Z.add_0_r. reflexivity. }
  split; [exact E|]. destruct (MACWithCarry_spec a b c k _ _ A B C K E) as (O1 & O2 & O3). 
  assert (wlo s2 + W * (whi p + whi s1 + whi s2) = a + b * c + k) as T. { pose proof (wlo_whi p). pose proof (wlo_whi s1). pose proof (wlo_whi s2). assert (s2 = wlo s1 + k) by reflexivity. assert (s1 = wlo p + a) by reflexivity. fold p. lia. }
  assert (whi p + whi s1 + whi s2 = wlo d2) as T2 by lia. rewrite <- T2 in O2.
  assert (0 <= whi s1 /\ 0 <= whi s2) as [? ?] by (rewrite <- E1, <- E2; destruct (W <=? s1), (W <=? s2); cbn; lia).
  apply Z.leb_gt. unfold d2, d1. rewrite E1, E2. rewrite (wlo_small (whi p + whi s1)); unfold isW in *; lia.
Qed.
Lemma mac_comm a b c k : MACWithCarry a b c k = MACWithCarry a c b k.
Proof. unfold MACWithCarry, Mul64. rewrite (Z.mul_comm b c). reflexivity. Qed.
Lemma add_comm3 a b c : isW a -> isW b -> isW c -> AddWithCarry a b c = AddWithCarry a c b.
Proof.
  intros A B C. destruct (AddWithCarry_spec' a b c A B C) as (s & k & -> & S & K & E). destruct (AddWithCarry_spec' a c b A C B) as (s' & k' & -> & S' & K' & E').
  unfold isW in *. assert (k = k') by lia. f_equal; lia.
Qed.
Lemma add_core a b c : isW a -> isW b -> isW c ->
  let s1 := a + b in let s2 := wlo s1 + c in let d1 := 0 + 0 + Z.b2z (W <=? s1) in let d2 := wlo d1 + 0 + Z.b2z (W <=? s2) in
  AddWithCarry a b c = (wlo s2, wlo d2) /\ (W <=? d2) = false.
Proof.
  intros A B C s1 s2 d1 d2. assert (Z.b2z (W <=? s1) = whi s1) as E1 by (apply carry_b; assumption). assert (Z.b2z (W <=? s2) = whi s2) as E2 by (apply carry_b; [apply wlo_isW|exact C]).
  assert (isW (whi s1)) as I1 by (rewrite <- E1; unfold isW; destruct (_ <=? _); cbn; lia).
  split.
  - unfold AddWithCarry, Add64. cbv zeta. rewrite !Z.add_0_r. fold s1. fold s2. unfold wadd, d2, d1. rewrite E1, E2, !Z.add_0_l, !Z.add_0_r. rewrite (wlo_small (whi s1)) by exact I1. reflexivity.
  - apply Z.leb_gt. unfold d2, d1. rewrite Z.add_0_r, Z.add_0_l, (wlo_small _ (eq_ind_r isW I1 E1)). destruct (W <=? s1), (W <=? s2); cbn; lia.
Qed.

Lemma some_eq {A} (x y : A) : Some x = Some y -> y = x. Proof. congruence. Qed.
Lemma get_free r x y g : free r = true -> getr r (setr AX x (setr DX y g)) = getr r g. Proof. destruct r; intros H; try discriminate H; destruct g; reflexivity. Qed.
Lemma set_norm x y x' y' g : setr DX y (setr AX x (setr AX x' (setr DX y' g))) = setr AX x (setr DX y g). Proof. destruct g; reflexivity. Qed.
Lemma set_normA x x' y' g : setr AX x (setr AX x' (setr DX y' g)) = setr AX x (setr DX y' g). Proof. destruct g; reflexivity. Qed.
Lemma get_A x g : getr AX (setr AX x g) = x. Proof. destruct g; reflexivity. Qed.
Lemma get_D x y g : getr DX (setr AX x (setr DX y g)) = y. Proof. destruct g; reflexivity. Qed.
Lemma set_normD x y y' g : setr DX y (setr AX x (setr DX y' g)) = setr AX x (setr DX y g). Proof. destruct g; reflexivity. Qed.
Lemma mac_run b c k s : free c && free k = true -> (W <=? wlo (whi (getr AX (rg s) * getr b (rg s)) + Z.b2z (W <=? wlo (getr AX (rg s) * getr b (rg s)) + getr c (rg s))) + Z.b2z (W <=? wlo (wlo (getr AX (rg s) * getr b (rg s)) + getr c (rg s)) + getr k (rg s))) = false ->
  runl (expand (Mac b c k)) s = let p := getr AX (rg s) * getr b (rg s) in let s1 := wlo p + getr c (rg s) in let s2 := wlo s1 + getr k (rg s) in let d1 := whi p + Z.b2z (W <=? s1) in let d2 := wlo d1 + Z.b2z (W <=? s2) in
    Some (mkSt (setr AX (wlo s2) (setr DX (wlo d2) (rg s))) (Some false) (fp s) (sp s)).
Proof.
  intros M. apply andb_prop in M. destruct M as [M1 M2]. destruct s as [g f fl ml]. cbn [rg fp sp]. set (p := getr AX g * getr b g). cbv zeta. intros E.
  cbn [expand runl step rd]. change (rAX g) with (getr AX g). cbn [rg fp sp cf]. change (rAX g * getr b g) with p.
  unfold add_op at 1. cbn [rd rg wr setcf cf fp sp]. rewrite (get_free c _ _ g M1), get_A, set_normA. cbn [Z.b2z]. rewrite Z.add_0_r.
  unfold add_op at 1. cbn [rd rg wr setcf cf fp sp]. rewrite get_D, set_normD, wlo0, Z.add_0_r.
  unfold add_op at 1. cbn [rd rg wr setcf cf fp sp]. rewrite (get_free k _ _ g M2), get_A, set_normA. cbn [Z.b2z]. rewrite Z.add_0_r.
  unfold add_op at 1. cbn [rd rg wr setcf cf fp sp]. rewrite get_D, set_normD, wlo0, Z.add_0_r, E. reflexivity.
Qed.
Lemma mstep_ok m s : mok m = true -> wfst s -> runl (expand m) s = mstep m s Some /\ forall s', mstep m s Some = Some s' -> wfst s'.
Proof.
  intros M WF. pose proof WF as (G & F & S). destruct m as [a b|r|b c k|b c k|b|m].
  - assert (match a with OImm z => (0 <=? z) && (z <? W) = true | _ => True end) as HA by (destruct a; auto). cbn [expand runl step mstep]. rewrite (rd_opx a s HA). destruct (rdn a s) as [v|] eqn:E; [|split; [reflexivity|discriminate]].
    rewrite wr_opx. split; [destruct (wrn b v s); reflexivity|]. intros s'. destruct (wrn b v s) as [t|] eqn:E'; [|discriminate]. intros X. apply some_eq in X; subst s'. exact (wrn_wf b v s t WF (rdn_wf a s v WF HA E) E').
  - cbn [expand runl step mstep]. unfold log_op, rd, wr, setcf. cbn [rg fp sp cf]. rewrite Z.lxor_nilpotent. split; [reflexivity|]. intros s' X. apply some_eq in X; subst s'. split; [|split; assumption]. cbn [rg]. apply wf_setr; [exact isW_0|exact G].
  - pose proof (mac_core (getr c (rg s)) (getr AX (rg s)) (getr b (rg s)) (getr k (rg s)) (G c) (G AX) (G b) (G k)) as [E1 E2]. cbv zeta in E1, E2. cbn [mstep]. cbv zeta. rewrite E1. split.
    + exact (mac_run b c k s M E2).
    + intros s' X. apply some_eq in X; subst s'. split; [|split; assumption]. cbn [rg]. apply wf_setr; [apply wlo_isW|]. apply wf_setr; [apply wlo_isW|exact G].
  - pose proof (mac_core (getr c (rg s)) (getr AX (rg s)) (getr b (rg s)) (getr k (rg s)) (G c) (G AX) (G b) (G k)) as [E1 E2]. cbv zeta in E1, E2. cbn [mstep]. cbv zeta. rewrite mac_comm, E1. split.
    + exact (mac_run b c k s M E2).
    + intros s' X. apply some_eq in X; subst s'. split; [|split; assumption]. cbn [rg]. apply wf_setr; [apply wlo_isW|]. apply wf_setr; [apply wlo_isW|exact G].
  - cbn [expand runl step mstep rd]. cbv zeta. change (rAX (rg s)) with (getr AX (rg s)). split.
    + unfold wmul. rewrite (Z.mul_comm (getr b (rg s))). reflexivity.
    + intros s' X. apply some_eq in X; subst s'. split; [|split; assumption]. cbn [rg]. apply wf_setr; [apply wlo_isW|]. apply wf_setr; [|exact G].
      pose proof (G AX). pose proof (G b). rewrite whi_div. unfold isW in *. split; [apply Z.div_pos; nia|apply Z.div_lt_upper_bound; nia].
  - cbn [expand mstep]. cbv zeta. set (g := rg s) in *. set (s0 := mkSt (setr BX 0 g) (Some false) (fp s) (sp s)).
    assert (step (XORQ (Reg BX) (Reg BX)) s = Some s0) as E0. { unfold step, log_op, rd, wr, setcf. cbn [rg fp sp cf]. rewrite Z.lxor_nilpotent. reflexivity. }
    cbn [runl]. rewrite E0. assert (step (MOVQ (SPm (8 * Z.of_nat m)) (Reg AX)) s0 = match nth_error (sp s) m with Some v => Some (mkSt (setr AX v (setr BX 0 g)) (Some false) (fp s) (sp s)) | None => None end) as E1.
    { cbn [step rd]. unfold load. rewrite slot_n. reflexivity. }
    rewrite E1. destruct (nth_error (sp s) m) as [v|] eqn:EV; [|split; [reflexivity|discriminate]].
    assert (isW v) as V by (rewrite Forall_forall in S; exact (S v (nth_error_In _ _ EV))).
    pose proof (add_core v (getr SI g) (getr CX g) V (G SI) (G CX)) as [A1 A2]. cbv zeta in A1, A2. rewrite (add_comm3 v (getr CX g) (getr SI g) V (G CX) (G SI)), A1. split.
    + clearbody g. clear - A2. destruct g. cbn in A2 |- *. rewrite ?Z.add_0_r in *. rewrite A2. reflexivity.
    + intros s' X. apply some_eq in X; subst s'. split; [|split; assumption]. cbn [rg]. apply wf_setr; [apply wlo_isW|]. apply wf_setr; [apply wlo_isW|exact G].
Qed.

Lemma mstep_K {R} m s (K : state -> option R) : mstep m s K = match mstep m s Some with Some s' => K s' | None => None end.
Proof.
  destruct m as [a b|r|b c k|b c k|b|m]; cbn [mstep]; cbv zeta.
  - destruct (rdn a s) as [v|]; [|reflexivity]. destruct (wrn b v s); reflexivity.
  - reflexivity.
  - destruct (MACWithCarry _ _ _ _) as [lo hi]; reflexivity.
  - destruct (MACWithCarry _ _ _ _) as [lo hi]; reflexivity.
  - reflexivity.
  - destruct (nth_error (sp s) m); [|reflexivity]. destruct (AddWithCarry _ _ _) as [lo hi]; reflexivity.
Qed.
Lemma mexec_ok l s : forallb mok l = true -> wfst s -> runl (flat_map expand l) s = mexec l s Some /\ forall s', mexec l s Some = Some s' -> wfst s'.
Proof.
  revert s. induction l as [|m l IH]; intros s M WF; [split; [reflexivity|]; intros s' E; inversion E; subst; exact WF|].
  cbn [forallb] in M. apply andb_prop in M. destruct M as [M1 M2]. destruct (mstep_ok m s M1 WF) as [H1 H2]. cbn [flat_map mexec]. rewrite runl_app, H1, (mstep_K m s (fun s' => mexec l s' Some)).
  destruct (mstep m s Some) as [t|]; [|split; [reflexivity|discriminate]]. exact (IH t M2 (H2 t eq_refl)).
Qed.

(** ** The programs as groups *)
Definition opg (o : operand) : opn := match o with Reg r => OReg r | Imm z => OImm z | FPm off => OFP (Z.to_nat (off / 8)) | SPm off => OSP (Z.to_nat (off / 8)) end.
Fixpoint group (sw : bool) (l : list instr) : list mac :=
  match l with
  | MULQ (Reg b) :: t =>
      match t with
      | ADDQ (Reg c) (Reg AX) :: ADCQ _ _ :: ADDQ (Reg k) (Reg AX) :: ADCQ _ _ :: t' => (if sw then MacS b c k else Mac b c k) :: group sw t'
      | _ => MulLo b :: group sw t
      end
  | XORQ (Reg r) _ :: t =>
      match t with
      | MOVQ (SPm off) (Reg AX) :: ADDQ _ _ :: ADCQ _ _ :: ADDQ _ _ :: ADCQ _ _ :: t' => Add3 (Z.to_nat (off / 8)) :: group sw t'
      | _ => Zero r :: group sw t
      end
  | MOVQ a b :: t => Mov (opg a) (opg b) :: group sw t
  | _ => []
  end.
Definition noret (l : list instr) : bool := forallb (fun i => match i with RET => false | _ => true end) l.
Lemma noret_ok l : noret l = true -> Forall (fun i => i <> RET) l.
Proof. unfold noret. rewrite forallb_forall. intros H. apply Forall_forall. intros i I E. specialize (H i I). subst i. discriminate H. Qed.
Lemma run_groups f l s : flat_map expand l ++ [RET] = f_body f -> noret (flat_map expand l) && forallb mok l = true -> wfst s -> run f s = mexec l s Some.
Proof. intros E H WF. apply andb_prop in H. destruct H as [H1 H2]. unfold run. rewrite <- E, exec_runl by (apply noret_ok; exact H1). exact (proj1 (mexec_ok l s H2 WF)). Qed.

Definition g_mul : list mac := Eval vm_compute in group false (f_body asm_MultiplyFQRepr).
Definition g_red : list mac := Eval vm_compute in group true (f_body asm_MontReduce).
Lemma g_mul_ok : flat_map expand g_mul ++ [RET] = f_body asm_MultiplyFQRepr. Proof. vm_compute. reflexivity. Qed.
Lemma g_red_ok : flat_map expand g_red ++ [RET] = f_body asm_MontReduce. Proof. vm_compute. reflexivity. Qed.

(** words of a limb array *)
Definition limbs (x : FQRepr) : list Z := [w0 x; w1 x; w2 x; w3 x; w4 x; w5 x].
Ltac norm := cbv [mexec mstep rdn wrn getr setr rg cf fp sp rAX rBX rCX rDX rBP rSI rDI rR8 rR9 rR10 rR11 rR12 rR13 rR14 rR15 nth_error put g_mul g_red MultiplyFQRepr MontReduce QFieldModulus montInvFQ limbs w0 w1 w2 w3 w4 w5 app option_map fst snd].
Lemma mexec_K {R} l s (K : state -> option R) : mexec l s K = match mexec l s Some with Some s' => K s' | None => None end.
Proof.
  revert s. induction l as [|m l IH]; intros s; [reflexivity|]. cbn [mexec]. rewrite (mstep_K m s (fun s' => mexec l s' K)), (mstep_K m s (fun s' => mexec l s' Some)). destruct (mstep m s Some) as [t|]; [apply IH|reflexivity].
Qed.
Lemma opt_fp {R} l s (v : R) K : (forall s', K s' = Some (fp s')) -> option_map fp (mexec l s Some) = mexec l s K.
Proof. intros H. rewrite (mexec_K l s K). destruct (mexec l s Some) as [t|]; cbn; [rewrite H|]; reflexivity. Qed.
Ltac macs := repeat (match goal with |- match MACWithCarry ?a ?b ?c ?d with _ => _ end = _ => destruct (MACWithCarry a b c d) as [? ?] | |- match AddWithCarry ?a ?b ?c with _ => _ end = _ => destruct (AddWithCarry a b c) as [? ?] end; cbv beta iota).
Theorem asm_MultiplyFQRepr_ok s a b out : wfst s -> fp s = limbs a ++ limbs b ++ out -> length out = 12%nat ->
  option_map fp (run asm_MultiplyFQRepr s) = let '(hi, lo) := MultiplyFQRepr a b in Some (limbs a ++ limbs b ++ limbs hi ++ limbs lo).
Proof.
  intros WF E L. rewrite (run_groups _ _ s g_mul_ok ltac:(vm_compute; reflexivity) WF), (opt_fp g_mul s s (fun s => Some (fp s)) (fun _ => eq_refl)).
  do 12 (destruct out as [|? out]; [discriminate L|]). destruct out; [|discriminate L]. clear L WF. destruct s as [[] c f m]. cbn [fp] in E. subst f. destruct a, b.
  norm. macs. reflexivity.
Qed.
Theorem asm_MontReduce_ok s hi lo out : wfst s -> fp s = limbs hi ++ limbs lo ++ out -> length out = 6%nat -> length (sp s) = 12%nat ->
  option_map fp (run asm_MontReduce s) = Some (limbs hi ++ limbs lo ++ limbs (MontReduce hi lo)).
Proof.
  intros WF E L LS. rewrite (run_groups _ _ s g_red_ok ltac:(vm_compute; reflexivity) WF), (opt_fp g_red s s (fun s => Some (fp s)) (fun _ => eq_refl)).
  do 6 (destruct out as [|? out]; [discriminate L|]). destruct out; [|discriminate L]. destruct s as [[] c f m]. cbn [fp sp] in E, LS. do 12 (destruct m as [|? m]; [discriminate LS|]). destruct m; [|discriminate LS]. clear L LS WF. subst f. destruct hi, lo.
  norm. macs. reflexivity.
Qed.
(** ** The short functions, executed directly *)
Ltac slots := repeat match goal with |- context [slot ?o] => let v := eval vm_compute in (slot o) in change (slot o) with v end.
Ltac direct := cbv beta iota zeta delta [run exec f_body step add_op sub_op log_op rd wr load store setcf getr setr rg cf fp sp rAX rBX rCX rDX rBP rSI rDI rR8 rR9 rR10 rR11 rR12 rR13 rR14 rR15
  asm_MACWithCarry asm_SubWithBorrow asm_AddWithCarry asm_AddNoCarry asm_SubNoBorrow];
  slots; cbv beta iota delta [put nth_error option_map fp app limbs w0 w1 w2 w3 w4 w5]; slots; cbv beta iota delta [put nth_error fp].
Theorem asm_MACWithCarry_ok s a b c carry o1 o2 : wfst s -> fp s = [a; b; c; carry; o1; o2] ->
  option_map fp (run asm_MACWithCarry s) = let '(lo, hi) := MACWithCarry a b c carry in Some [a; b; c; carry; lo; hi].
Proof.
  intros (_ & F & _) E. rewrite E in F. destruct s as [[] f fl ml]. cbn [fp] in E. subst fl. repeat match goal with H : Forall isW (_ :: _) |- _ => inversion H; clear H; subst end.
  destruct (mac_core a c b carry) as [M _]; try assumption. cbv zeta in M. rewrite mac_comm, M. direct. rewrite ?wlo0, ?Z.add_0_r. cbn [Z.b2z]. rewrite ?Z.add_0_r. reflexivity.
Qed.
Theorem asm_AddWithCarry_ok s a b carry o1 o2 : wfst s -> fp s = [a; b; carry; o1; o2] ->
  option_map fp (run asm_AddWithCarry s) = let '(out, c) := AddWithCarry a b carry in Some [a; b; carry; out; c].
Proof.
  intros (_ & F & _) E. rewrite E in F. destruct s as [[] f fl ml]. cbn [fp] in E. subst fl. repeat match goal with H : Forall isW (_ :: _) |- _ => inversion H; clear H; subst end.
  destruct (add_core a b carry) as [M _]; try assumption. cbv zeta in M. rewrite M. direct. rewrite ?Z.lxor_nilpotent, ?wlo0. cbn [Z.b2z]. rewrite ?Z.add_0_r. reflexivity.
Qed.
(** math/bits.Sub64 documents borrow as 0 or 1; for other values the two versions differ *)
Theorem asm_SubWithBorrow_ok s a b borrow o1 o2 : wfst s -> fp s = [a; b; borrow; o1; o2] -> 0 <= borrow <= 1 ->
  option_map fp (run asm_SubWithBorrow s) = let '(out, c) := SubWithBorrow a b borrow in Some [a; b; borrow; out; c].
Proof.
  intros (_ & F & _) E HB. rewrite E in F. destruct s as [[] f fl ml]. cbn [fp] in E. subst fl. repeat match goal with H : Forall isW (_ :: _) |- _ => inversion H; clear H; subst end.
  direct. rewrite !Z.lxor_nilpotent. change (0 mod 256) with 0. cbn [Z.b2z]. rewrite !Z.sub_0_r. unfold SubWithBorrow, Sub64. cbv zeta.
  assert (wlo (wlo (a - b) - borrow) = wlo (a - b - borrow)) as ->. { rewrite !wlo_mod. rewrite Zminus_mod_idemp_l. reflexivity. }
  assert (Z.lor (0 + Z.b2z (wlo (a - b) - borrow <? 0)) (0 + Z.b2z (a - b <? 0)) = if a - b - borrow <? 0 then 1 else 0) as ->; [|reflexivity].
  rewrite wlo_mod. unfold isW in *. assert ((a - b) mod W = if a - b <? 0 then a - b + W else a - b) as ->.
  { destruct (Z.ltb_spec (a - b) 0); [symmetry; apply Z.mod_unique with (-1); lia|apply Z.mod_small; lia]. }
  destruct (Z.ltb_spec (a - b) 0), (Z.ltb_spec (a - b - borrow) 0); try lia; cbn [Z.b2z];
  try match goal with |- context [?x <? 0] => destruct (Z.ltb_spec x 0) end; cbn; try reflexivity; lia.
Qed.
Lemma addc a b (c : bool) : isW a -> isW b -> AddWithCarry a b (Z.b2z c) = (wlo (b + a + Z.b2z c), Z.b2z (W <=? b + a + Z.b2z c)).
Proof.
  intros A B. destruct (AddWithCarry_spec' a b (Z.b2z c)) as (s & k & -> & S & K & E); try assumption; [unfold isW; destruct c; cbn; lia|].
  assert (k = Z.b2z (W <=? b + a + Z.b2z c)) as HK. { unfold isW in *. destruct c; cbn [Z.b2z] in *; match goal with |- context [W <=? ?x] => destruct (Z.leb_spec W x) end; cbn; lia. }
  rewrite <- HK. f_equal. symmetry. apply wlo_unique with k; [exact S|lia].
Qed.
Lemma subb a b (c : bool) : SubWithBorrow a b (Z.b2z c) = (wlo (a - b - Z.b2z c), Z.b2z (a - b - Z.b2z c <? 0)).
Proof. reflexivity. Qed.
Theorem asm_AddNoCarry_ok s a b out : wfst s -> fp s = limbs a ++ limbs b ++ out -> length out = 6%nat ->
  option_map fp (run asm_AddNoCarry s) = Some (limbs a ++ limbs b ++ limbs (AddNoCarry a b)).
Proof.
  intros (_ & F & _) E L. rewrite E in F. do 6 (destruct out as [|? out]; [discriminate L|]). destruct out; [|discriminate L]. destruct s as [[] f fl ml]. cbn [fp] in E. subst fl. destruct a as [a0 a1 a2 a3 a4 a5], b as [b0 b1 b2 b3 b4 b5].
  cbn [limbs app w0 w1 w2 w3 w4 w5] in F. repeat match goal with H : Forall isW (_ :: _) |- _ => inversion H; clear H; subst end.
  direct. unfold AddNoCarry. change (AddWithCarry a0 b0 0) with (AddWithCarry a0 b0 (Z.b2z false)). repeat (rewrite addc by assumption; cbv beta iota). reflexivity.
Qed.
Theorem asm_SubNoBorrow_ok s a b out : wfst s -> fp s = limbs a ++ limbs b ++ out -> length out = 6%nat ->
  option_map fp (run asm_SubNoBorrow s) = Some (limbs a ++ limbs b ++ limbs (SubNoBorrow a b)).
Proof.
  intros (_ & F & _) E L. do 6 (destruct out as [|? out]; [discriminate L|]). destruct out; [|discriminate L]. destruct s as [[] f fl ml]. cbn [fp] in E. subst fl. destruct a as [a0 a1 a2 a3 a4 a5], b as [b0 b1 b2 b3 b4 b5].
  direct. unfold SubNoBorrow. reflexivity.
Qed.
(** ** The frame pointer register *)
Definition touches (i : instr) : bool :=
  match i with
  | MOVQ _ (Reg BP) | ADDQ _ (Reg BP) | ADCQ _ (Reg BP) | SUBQ _ (Reg BP) | SBBQ _ (Reg BP) | XORQ _ (Reg BP) | ORQ _ (Reg BP) | SETCS BP => true
  | _ => false
  end.
Lemma set_BP r v g : r <> BP -> rBP (setr r v g) = rBP g. Proof. destruct g, r; intros H; try reflexivity. destruct H. reflexivity. Qed.
Lemma wr_BP o v s s' : o <> Reg BP -> wr o v s = Some s' -> rBP (rg s') = rBP (rg s).
Proof.
  destruct o as [r|z|n|n]; cbn [wr]; intros N E.
  - apply some_eq in E. subst s'. apply set_BP. intros ->. apply N. reflexivity.
  - discriminate E.
  - destruct (store n v (fp s)); [|discriminate E]. apply some_eq in E. subst s'. reflexivity.
  - destruct (store n v (sp s)); [|discriminate E]. apply some_eq in E. subst s'. reflexivity.
Qed.
Lemma step_BP i s s' : touches i = false -> step i s = Some s' -> rBP (rg s') = rBP (rg s).
Proof.
  assert (forall A (o : option A) (f : A -> option state), match o with Some x => f x | None => None end = Some s' -> exists x, f x = Some s') as D by (intros A [x|] f H; [exists x; exact H|discriminate H]).
  destruct i as [a o|a o|a o|a o|a o|a|a o|a o|r|]; cbn [touches step]; intros T E;
  try (assert (o <> Reg BP) as N by (intros ->; discriminate T)); unfold add_op, sub_op, log_op in E;
  repeat (apply D in E; destruct E as [? E]); try (destruct (cf s); [|discriminate E]); repeat (apply D in E; destruct E as [? E]).
  1-5,7-8: apply wr_BP in E; [exact E|exact N].
  - apply some_eq in E. subst s'. cbn [rg]. rewrite !set_BP by discriminate. reflexivity.
  - apply some_eq in E. subst s'. cbn [rg]. apply set_BP. intros ->. discriminate T.
  - apply some_eq in E. subst s'. reflexivity.
Qed.
Lemma exec_BP l s s' : forallb (fun i => negb (touches i)) l = true -> exec l s = Some s' -> rBP (rg s') = rBP (rg s).
Proof.
  revert s. induction l as [|i l IH]; intros s F E; [discriminate E|]. cbn [forallb] in F. apply andb_prop in F. destruct F as [F1 F2]. apply negb_true_iff in F1.
  assert (i = RET /\ s' = s \/ exists t, step i s = Some t /\ exec l t = Some s') as [[-> ->]|(t & S & X)].
  { destruct i; try (right; cbn [exec] in E; match type of E with match ?o with _ => _ end = _ => destruct o as [t|]; [exists t; auto|discriminate E] end). left. cbn [exec] in E. apply some_eq in E. auto. }
  - reflexivity.
  - rewrite (IH t F2 X). exact (step_BP i s t F1 S).
Qed.
Theorem asm_keeps_BP f s s' : In f [asm_MACWithCarry; asm_SubWithBorrow; asm_AddWithCarry] -> run f s = Some s' -> rBP (rg s') = rBP (rg s).
Proof. intros [<-|[<-|[<-|[]]]]; apply exec_BP; vm_compute; reflexivity. Qed.
Definition zeros (n : nat) : list Z := repeat 0 n.
Definition bp1 (n : nat) : state := mkSt (mkRegs 0 0 0 0 1 0 0 0 0 0 0 0 0 0 0) None (zeros n) [].
Theorem asm_clobbers_BP f : In f [asm_MultiplyFQRepr; asm_AddNoCarry; asm_SubNoBorrow] -> f_frame f = 0 /\ exists s s', wfst s /\ entry f s /\ run f s = Some s' /\ rBP (rg s') <> rBP (rg s).
Proof.
  assert (forall n, wfst (bp1 n)) as WF. { intros n. split; [intros []; unfold isW; cbn; lia|]. split; [|constructor]. apply Forall_forall. intros x H. apply repeat_spec in H. subst x. unfold isW; lia. }
  intros [<-|[<-|[<-|[]]]]; (split; [reflexivity|]). 
  - exists (bp1 24), (match run asm_MultiplyFQRepr (bp1 24) with Some s => s | None => bp1 0 end). split; [apply WF|]. split; [split; reflexivity|]. split; [vm_compute; reflexivity|]. vm_compute. discriminate.
  - exists (bp1 18), (match run asm_AddNoCarry (bp1 18) with Some s => s | None => bp1 0 end). split; [apply WF|]. split; [split; reflexivity|]. split; [vm_compute; reflexivity|]. vm_compute. discriminate.
  - exists (bp1 18), (match run asm_SubNoBorrow (bp1 18) with Some s => s | None => bp1 0 end). split; [apply WF|]. split; [split; reflexivity|]. split; [vm_compute; reflexivity|]. vm_compute. discriminate.
Qed.
(** concrete runs: all operands 2^64 - 1, the result area and the frame full of ones at entry *)
Definition ex_st (n m : nat) (l : list Z) : state := mkSt (mkRegs 7 7 7 7 7 7 7 7 7 7 7 7 7 7 7) None (l ++ repeat 1 n) (repeat 1 m).
Example asm_runs : let x := W - 1 in let f := repeat x 6 in
  option_map fp (run asm_MACWithCarry (ex_st 2 0 [x; x; x; x])) = Some [x; x; x; x; x; x] /\
  option_map fp (run asm_AddWithCarry (ex_st 2 0 [x; x; x])) = Some [x; x; x; x - 2; 2] /\
  option_map fp (run asm_SubWithBorrow (ex_st 2 0 [0; x; 1])) = Some [0; x; 1; 0; 1] /\
  option_map fp (run asm_MultiplyFQRepr (ex_st 12 0 (f ++ f))) = Some (f ++ f ++ [x - 1; x; x; x; x; x] ++ [1; 0; 0; 0; 0; 0]) /\
  option_map fp (run asm_AddNoCarry (ex_st 6 0 (f ++ f))) = Some (f ++ f ++ [x - 1; x; x; x; x; x]) /\
  option_map fp (run asm_SubNoBorrow (ex_st 6 0 (repeat 0 6 ++ f))) = Some (repeat 0 6 ++ f ++ [1; 0; 0; 0; 0; 0]) /\
  run asm_MontReduce (ex_st 6 12 (f ++ f)) <> None /\ run asm_MontReduce (ex_st 6 11 (f ++ f)) = None.
Proof. vm_compute. repeat split; try reflexivity. discriminate. Qed.
Lemma clobber_MultiplyFQRepr : exists s s', wfst s /\ entry asm_MultiplyFQRepr s /\ f_frame asm_MultiplyFQRepr = 0 /\ run asm_MultiplyFQRepr s = Some s' /\ rBP (rg s') <> rBP (rg s).
Proof. destruct (asm_clobbers_BP asm_MultiplyFQRepr) as (F & s & s' & H1 & H2 & H3 & H4); [cbn; auto|]. exists s, s'. auto. Qed.
Lemma clobber_AddNoCarry : exists s s', wfst s /\ entry asm_AddNoCarry s /\ f_frame asm_AddNoCarry = 0 /\ run asm_AddNoCarry s = Some s' /\ rBP (rg s') <> rBP (rg s).
Proof. destruct (asm_clobbers_BP asm_AddNoCarry) as (F & s & s' & H1 & H2 & H3 & H4); [cbn; auto|]. exists s, s'. auto. Qed.
Lemma clobber_SubNoBorrow : exists s s', wfst s /\ entry asm_SubNoBorrow s /\ f_frame asm_SubNoBorrow = 0 /\ run asm_SubNoBorrow s = Some s' /\ rBP (rg s') <> rBP (rg s).
Proof. destruct (asm_clobbers_BP asm_SubNoBorrow) as (F & s & s' & H1 & H2 & H3 & H4); [cbn; auto|]. exists s, s'. auto. Qed.
