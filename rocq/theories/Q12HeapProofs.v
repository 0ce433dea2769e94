(** The methods of FQ12 on memory: they compute what the value-level model computes and write only to their receiver. *)
Require Import ZArith Bool List Arith Lia.
From Verif Require Import Words ModelRepr ModelFq ModelOps ModelTower ModelCurve ModelPairing ModelQ12Heap.
Import ListNotations.
Local Open Scope nat_scope.

Section P.
Context {F : Type} (B : BOps F).
Notation mem := (Mem F).
Notation mul6 := (FQ6_MulAssign B). Notation add6 := (FQ6_AddAssign B). Notation sub6 := (FQ6_SubAssign B).

(** ** what the FQ6 methods do to memory *)
Lemma c6_add (m : mem) p q k : c6 (m6_AddAssign B m p q) k = if k =? p then add6 (c6 m p) (c6 m q) else c6 m k.
Proof.
  unfold m6_AddAssign, set_d0, set_d1, set_d2, set6, put. cbn [c6]. rewrite !Nat.eqb_refl.
  destruct (k =? p); [|reflexivity]. unfold FQ6_AddAssign. destruct (Nat.eqb_spec q p) as [->|]; cbn [d0 d1 d2]; reflexivity.
Qed.
Lemma c6_sub (m : mem) p q k : c6 (m6_SubAssign B m p q) k = if k =? p then sub6 (c6 m p) (c6 m q) else c6 m k.
Proof.
  unfold m6_SubAssign, set_d0, set_d1, set_d2, set6, put. cbn [c6]. rewrite !Nat.eqb_refl.
  destruct (k =? p); [|reflexivity]. unfold FQ6_SubAssign. destruct (Nat.eqb_spec q p) as [->|]; cbn [d0 d1 d2]; reflexivity.
Qed.
(** MulAssign, one assignment at a time *)
Lemma sd0 (m : mem) p v x0 x1 x2 : c6 m p = mkFQ6 x0 x1 x2 -> c6 (set_d0 m p v) p = mkFQ6 v x1 x2.
Proof. intros H. unfold set_d0, set6, put. cbn [c6]. rewrite Nat.eqb_refl, H. reflexivity. Qed.
Lemma sd1 (m : mem) p v x0 x1 x2 : c6 m p = mkFQ6 x0 x1 x2 -> c6 (set_d1 m p v) p = mkFQ6 x0 v x2.
Proof. intros H. unfold set_d1, set6, put. cbn [c6]. rewrite Nat.eqb_refl, H. reflexivity. Qed.
Lemma sd2 (m : mem) p v x0 x1 x2 : c6 m p = mkFQ6 x0 x1 x2 -> c6 (set_d2 m p v) p = mkFQ6 x0 x1 v.
Proof. intros H. unfold set_d2, set6, put. cbn [c6]. rewrite Nat.eqb_refl, H. reflexivity. Qed.
Lemma sd0o (m : mem) p v k : k <> p -> c6 (set_d0 m p v) k = c6 m k.
Proof. intros H. unfold set_d0, set6, put. cbn [c6]. rewrite (proj2 (Nat.eqb_neq k p) H). reflexivity. Qed.
Lemma sd1o (m : mem) p v k : k <> p -> c6 (set_d1 m p v) k = c6 m k.
Proof. intros H. unfold set_d1, set6, put. cbn [c6]. rewrite (proj2 (Nat.eqb_neq k p) H). reflexivity. Qed.
Lemma sd2o (m : mem) p v k : k <> p -> c6 (set_d2 m p v) k = c6 m k.
Proof. intros H. unfold set_d2, set6, put. cbn [c6]. rewrite (proj2 (Nat.eqb_neq k p) H). reflexivity. Qed.
Ltac same_cell H L M := match type of H with c6 ?m ?p = mkFQ6 ?x0 ?x1 ?x2 => match eval unfold M in M with _ m p ?v => let E := fresh "E" in pose proof (L m p v x0 x1 x2 H : c6 M p = _) as E end end.
Ltac other_cell H N L M := match type of H with c6 ?m ?k = _ => match eval unfold M in M with _ m ?p ?v => let E := fresh "E" in pose proof (eq_trans (L m p v k N) H : c6 M k = _) as E end end.
Ltac facts M m p L Lo :=
  repeat match goal with
  | H : c6 m p = mkFQ6 _ _ _ |- _ => same_cell H L M; revert H
  | H : c6 m ?k = _, N : ?k <> p |- _ => other_cell H N Lo M; revert H
  end; intros.
Ltac one_let :=
  lazymatch goal with |- c6 (let x := ?v in @?b x) ?k = ?r =>
    let y := fresh "v" in pose (y := v); change (c6 (b y) k = r); cbv beta;
    lazymatch v with
    | set_d2 ?m ?p _ => facts y m p sd2 sd2o; clearbody y
    | set_d1 ?m ?p _ => facts y m p sd1 sd1o; clearbody y
    | _ => idtac
    end end.
Ltac lets_done := repeat match goal with v := _ : FQ2 F |- _ => subst v end; repeat match goal with H : c6 _ _ = mkFQ6 _ _ _ |- _ => rewrite H in *; clear H end.
Lemma c6_mul_ne (m : mem) p q : q <> p -> c6 (m6_MulAssign B m p q) p = mul6 (c6 m p) (c6 m q).
Proof.
  intros N. destruct (c6 m p) as [x0 x1 x2] eqn:Ep. destruct (c6 m q) as [y0 y1 y2] eqn:Eq.
  cbv beta delta [m6_MulAssign]. repeat one_let. erewrite sd0 by eassumption. lets_done. reflexivity.
Qed.
Lemma c6_mul_eq (m : mem) p : c6 (m6_MulAssign B m p p) p = FQ6_MulAssign_aliased B (c6 m p).
Proof.
  destruct (c6 m p) as [x0 x1 x2] eqn:Ep.
  cbv beta delta [m6_MulAssign]. repeat one_let. erewrite sd0 by eassumption. lets_done. reflexivity.
Qed.
Lemma c6_mul_o (m : mem) p q k : k <> p -> c6 (m6_MulAssign B m p q) k = c6 m k.
Proof.
  intros N. cbv beta delta [m6_MulAssign]. remember (c6 m k) as w eqn:E. symmetry in E.
  repeat one_let. rewrite sd0o by exact N. assumption.
Qed.
Lemma c6_mul (m : mem) p q k : c6 (m6_MulAssign B m p q) k =
  if k =? p then (if q =? p then FQ6_MulAssign_aliased B (c6 m p) else mul6 (c6 m p) (c6 m q)) else c6 m k.
Proof.
  destruct (Nat.eqb_spec k p) as [->|N]; [|apply c6_mul_o, N]. destruct (Nat.eqb_spec q p) as [->|N]; [apply c6_mul_eq|apply c6_mul_ne, N].
Qed.
Lemma mul_same (m : mem) p q : n6 (m6_MulAssign B m p q) = n6 m /\ c12 (m6_MulAssign B m p q) = c12 m /\ n12 (m6_MulAssign B m p q) = n12 m.
Proof. repeat split. Qed.
Lemma c6_do f (m : mem) p k : c6 (m6_do f m p) k = if k =? p then f (c6 m p) else c6 m k.
Proof. reflexivity. Qed.

(** ** separation *)
Definition live (m : mem) x := 2 <= x < n12 m.
Record WF (m : mem) : Prop := {
  wf_n6 : 2 <= n6 m; wf_n12 : 2 <= n12 m;
  wf_z : c12 m 0 = (0, 0); wf_o : c12 m 1 = (1, 0);
  wf_vz : c6 m 0 = FQ6Zero B; wf_vo : c6 m 1 = FQ6One B;
  wf_own : forall x, live m x -> fc0 m x <> fc1 m x /\ 2 <= fc0 m x < n6 m /\ 2 <= fc1 m x < n6 m;
  wf_sep : forall x y, live m x -> live m y -> x <> y -> fc0 m x <> fc0 m y /\ fc0 m x <> fc1 m y /\ fc1 m x <> fc1 m y }.
Lemma WF_mem0 : WF (mem0 B).
Proof. split; try reflexivity; try (cbn; lia); intros x; unfold live; cbn; lia. Qed.
Lemma val_zero m : WF m -> val12 m pFQ12Zero = FQ12Zero B.
Proof. intros W. unfold val12, fc0, fc1, pFQ12Zero. rewrite (wf_z m W). cbn [fst snd]. rewrite (wf_vz m W). reflexivity. Qed.
Lemma val_one m : WF m -> val12 m pFQ12One = FQ12One B.
Proof. intros W. unfold val12, fc0, fc1, pFQ12One. rewrite (wf_o m W). cbn [fst snd]. rewrite (wf_vz m W), (wf_vo m W). reflexivity. Qed.
(** an argument: the receiver itself or an object that shares nothing with it *)
Lemma arg_cases m x y : WF m -> live m x -> y < n12 m ->
  (y = x) \/ (fc0 m y < n6 m /\ fc1 m y < n6 m /\ fc0 m y <> fc0 m x /\ fc0 m y <> fc1 m x /\ fc1 m y <> fc0 m x /\ fc1 m y <> fc1 m x).
Proof.
  intros W Lx Hy. destruct (Nat.eq_dec y x) as [->|N]; [left; reflexivity|right].
  pose proof (wf_own m W x Lx) as (N0 & A & A'). pose proof (wf_n6 m W).
  destruct y as [|[|y]].
  - assert (fc0 m 0 = 0 /\ fc1 m 0 = 0) by (unfold fc0, fc1; rewrite (wf_z m W); auto). lia.
  - assert (fc0 m 1 = 1 /\ fc1 m 1 = 0) by (unfold fc0, fc1; rewrite (wf_o m W); auto). lia.
  - assert (live m (S (S y))) as Ly by (unfold live; lia).
    pose proof (wf_own m W _ Ly) as (N1 & D & D'). pose proof (wf_sep m W _ _ Ly Lx N). pose proof (wf_sep m W _ _ Lx Ly (not_eq_sym N)). lia.
Qed.

(** [m'] is [m] after a call that writes to x only and leaves v there *)
Record Upd (m m' : mem) (x : nat) (v : FQ12 F) : Prop := {
  u_wf : WF m'; u_n : n12 m' = n12 m; u_val : val12 m' x = v;
  u_frame : forall z, z < n12 m -> z <> x -> val12 m' z = val12 m z }.
(** [m'] is [m] after a call that returns a new object x and leaves v there *)
Record New (m m' : mem) (x : nat) (v : FQ12 F) : Prop := {
  w_wf : WF m'; w_live : n12 m <= x < n12 m'; w_val : val12 m' x = v;
  w_frame : forall z, z < n12 m -> val12 m' z = val12 m z }.

Definition mine (m m' : mem) x p := p = fc0 m x \/ p = fc1 m x \/ n6 m <= p < n6 m'.
Lemma upd_ok m m' x v : WF m -> live m x -> n12 m' = n12 m -> n6 m <= n6 m' -> (forall z, z <> x -> c12 m' z = c12 m z) ->
  (forall p, p < n6 m -> p <> fc0 m x -> p <> fc1 m x -> c6 m' p = c6 m p) ->
  fc0 m' x <> fc1 m' x -> mine m m' x (fc0 m' x) -> mine m m' x (fc1 m' x) -> val12 m' x = v -> Upd m m' x v.
Proof.
  intros W L N12 N6 C12 C6 ND M0 M1 V. pose proof (wf_own m W x L) as (NDm & A & A'). unfold mine in *. pose proof (wf_n6 m W) as G.
  assert (forall z, z < n12 m -> z <> x -> fc0 m' z = fc0 m z /\ fc1 m' z = fc1 m z) as Cz.
  { intros z _ Nz. unfold fc0, fc1. rewrite (C12 z Nz). auto. }
  assert (forall z, z < n12 m -> z <> x -> fc0 m z < n6 m /\ fc1 m z < n6 m /\ fc0 m z <> fc0 m x /\ fc0 m z <> fc1 m x /\ fc1 m z <> fc0 m x /\ fc1 m z <> fc1 m x) as Dz.
  { intros z Hz Nz. destruct (arg_cases m x z W L Hz) as [?|K]; [contradiction|exact K]. }
  assert (forall p, p < n6 m -> p <> fc0 m x -> p <> fc1 m x -> c6 m' p = c6 m p) as C6' by exact C6.
  unfold live in *. split.
  - split; rewrite ?N12; try (pose proof (wf_n12 m W); lia).
    + rewrite C12 by lia. exact (wf_z m W).
    + rewrite C12 by lia. exact (wf_o m W).
    + rewrite C6 by lia. exact (wf_vz m W).
    + rewrite C6 by lia. exact (wf_vo m W).
    + intros z. unfold live. rewrite N12. intros Lz. destruct (Nat.eq_dec z x) as [->|Nz].
      * split; [exact ND|]. lia.
      * destruct (Cz z (proj2 Lz) Nz) as [-> ->]. pose proof (wf_own m W z Lz). lia.
    + intros y z. unfold live. rewrite N12. intros Ly Lz Nyz.
      destruct (Nat.eq_dec y x) as [->|Ny]; [|destruct (Nat.eq_dec z x) as [->|Nz]].
      * destruct (Cz z (proj2 Lz) (not_eq_sym Nyz)) as [-> ->]. pose proof (Dz z (proj2 Lz) (not_eq_sym Nyz)). lia.
      * destruct (Cz y (proj2 Ly) Ny) as [-> ->]. pose proof (Dz y (proj2 Ly) Ny). lia.
      * destruct (Cz y (proj2 Ly) Ny) as [-> ->]. destruct (Cz z (proj2 Lz) Nz) as [-> ->]. exact (wf_sep m W y z Ly Lz Nyz).
  - exact N12.
  - exact V.
  - intros z Hz Nz. unfold val12. destruct (Cz z Hz Nz) as [-> ->]. pose proof (Dz z Hz Nz). rewrite !C6 by lia. reflexivity.
Qed.

(** ** the methods *)
Lemma n6_add (m : mem) p q : n6 (m6_AddAssign B m p q) = n6 m. Proof. reflexivity. Qed.
Lemma n6_sub (m : mem) p q : n6 (m6_SubAssign B m p q) = n6 m. Proof. reflexivity. Qed.
Lemma n6_mul (m : mem) p q : n6 (m6_MulAssign B m p q) = n6 m. Proof. reflexivity. Qed.
Lemma n6_do f (m : mem) p : n6 (m6_do f m p) = n6 m. Proof. reflexivity. Qed.
Lemma c12_add (m : mem) p q : c12 (m6_AddAssign B m p q) = c12 m. Proof. reflexivity. Qed.
Lemma c12_sub (m : mem) p q : c12 (m6_SubAssign B m p q) = c12 m. Proof. reflexivity. Qed.
Lemma c12_mul (m : mem) p q : c12 (m6_MulAssign B m p q) = c12 m. Proof. reflexivity. Qed.
Lemma c12_do f (m : mem) p : c12 (m6_do f m p) = c12 m. Proof. reflexivity. Qed.
Lemma n12_add (m : mem) p q : n12 (m6_AddAssign B m p q) = n12 m. Proof. reflexivity. Qed.
Lemma n12_sub (m : mem) p q : n12 (m6_SubAssign B m p q) = n12 m. Proof. reflexivity. Qed.
Lemma n12_mul (m : mem) p q : n12 (m6_MulAssign B m p q) = n12 m. Proof. reflexivity. Qed.
Lemma n12_do f (m : mem) p : n12 (m6_do f m p) = n12 m. Proof. reflexivity. Qed.
(** Copy, by its effect *)
Definition cp (m : mem) p : mem := fst (m6_Copy m p).
Lemma cp_eq (m : mem) p : m6_Copy m p = (cp m p, n6 m). Proof. reflexivity. Qed.
Lemma c6_cp (m : mem) p k : c6 (cp m p) k = if k =? n6 m then c6 m p else c6 m k. Proof. reflexivity. Qed.
Lemma n6_cp (m : mem) p : n6 (cp m p) = S (n6 m). Proof. reflexivity. Qed.
Lemma c12_cp (m : mem) p : c12 (cp m p) = c12 m. Proof. reflexivity. Qed.
Lemma n12_cp (m : mem) p : n12 (cp m p) = n12 m. Proof. reflexivity. Qed.
Lemma c6_s0 (m : mem) x p : c6 (set_fc0 m x p) = c6 m. Proof. reflexivity. Qed.
Lemma c6_s1 (m : mem) x p : c6 (set_fc1 m x p) = c6 m. Proof. reflexivity. Qed.
Lemma n6_s0 (m : mem) x p : n6 (set_fc0 m x p) = n6 m. Proof. reflexivity. Qed.
Lemma n6_s1 (m : mem) x p : n6 (set_fc1 m x p) = n6 m. Proof. reflexivity. Qed.
Lemma n12_s0 (m : mem) x p : n12 (set_fc0 m x p) = n12 m. Proof. reflexivity. Qed.
Lemma n12_s1 (m : mem) x p : n12 (set_fc1 m x p) = n12 m. Proof. reflexivity. Qed.
Lemma c12_s0 (m : mem) x p z : c12 (set_fc0 m x p) z = if z =? x then (p, snd (c12 m x)) else c12 m z. Proof. reflexivity. Qed.
Lemma c12_s1 (m : mem) x p z : c12 (set_fc1 m x p) z = if z =? x then (fst (c12 m x), p) else c12 m z. Proof. reflexivity. Qed.
End P.
Ltac eqbs := repeat match goal with |- context[?a =? ?b] => first [rewrite (proj2 (Nat.eqb_eq a b)) by lia | rewrite (proj2 (Nat.eqb_neq a b)) by lia] end.
#[global] Opaque m6_AddAssign m6_SubAssign m6_MulAssign m6_do cp set_fc0 set_fc1 m6_Copy.
Ltac exe := unfold fc0, fc1;
  repeat (rewrite ?c12_add, ?c12_sub, ?c12_mul, ?c12_do, ?c12_cp, ?c12_s0, ?c12_s1, ?n12_add, ?n12_sub, ?n12_mul, ?n12_do, ?n12_cp, ?n12_s0, ?n12_s1,
    ?n6_add, ?n6_sub, ?n6_mul, ?n6_do, ?n6_cp, ?n6_s0, ?n6_s1, ?c6_s0, ?c6_s1, ?Nat.eqb_refl; cbn [fst snd]).
Ltac n6s := rewrite ?n6_add, ?n6_sub, ?n6_mul, ?n6_do, ?n6_cp, ?n6_s0, ?n6_s1; repeat (rewrite n6_cp; rewrite ?n6_add, ?n6_sub, ?n6_mul, ?n6_do, ?n6_s0, ?n6_s1).
Ltac rd := repeat (first [rewrite c6_add | rewrite c6_sub | rewrite c6_mul | rewrite c6_do | rewrite c6_s0 | rewrite c6_s1 | rewrite c6_cp; n6s]; eqbs).
(** a call on x, whose halves are a and b *)
Ltac call W L a b :=
  match type of L with live ?m ?x =>
    let N := fresh in let A := fresh in let A' := fresh in
    destruct (wf_own _ m W x L) as (N & A & A'); pose proof L as [? ?];
    rewrite ?cp_eq; exe; set (a := fst (c12 m x)) in *; set (b := snd (c12 m x)) in *;
    unfold fc0, fc1 in N, A, A'; fold a in N, A; fold b in N, A';
    eapply upd_ok; [exact W|exact L|..]; unfold val12, mine;
    [ exe; reflexivity | exe; lia | intros z Hz; exe; eqbs; reflexivity
    | unfold fc0, fc1; fold a; fold b; intros p Hp Pa Pb; rd; reflexivity
    | exe; fold a; fold b; lia | exe; fold a; fold b; lia | exe; fold a; fold b; lia
    | exe; fold a; fold b; rd ] end.

Section M.
Context {F : Type} (B : BOps F).
Notation mem := (Mem F). Notation WF := (WF B). Notation Upd := (Upd B). Notation New := (New B).
Notation mul6 := (FQ6_MulAssign B). Notation add6 := (FQ6_AddAssign B). Notation sub6 := (FQ6_SubAssign B).
Lemma conj_ok m x : WF m -> live m x -> Upd m (m12_ConjugateAssign B m x) x (FQ12_ConjugateAssign B (val12 m x)).
Proof. intros W L. unfold m12_ConjugateAssign. call W L a b. reflexivity. Qed.
Lemma dbl_ok m x : WF m -> live m x -> Upd m (m12_DoubleAssign B m x) x (FQ12_DoubleAssign B (val12 m x)).
Proof. intros W L. unfold m12_DoubleAssign. call W L a b. reflexivity. Qed.
Lemma neg_ok m x : WF m -> live m x -> Upd m (m12_NegAssign B m x) x (FQ12_NegAssign B (val12 m x)).
Proof. intros W L. unfold m12_NegAssign. call W L a b. reflexivity. Qed.
Lemma sq_ok m x : WF m -> live m x -> Upd m (m12_SquareAssign B m x) x (FQ12_SquareAssign B (val12 m x)).
Proof. intros W L. unfold m12_SquareAssign. call W L a b. reflexivity. Qed.
Lemma mul014_ok m x k0 k1 k4 : WF m -> live m x -> Upd m (m12_MulBy014Assign B m x k0 k1 k4) x (FQ12_MulBy014Assign B (val12 m x) k0 k1 k4).
Proof. intros W L. unfold m12_MulBy014Assign. call W L a b. reflexivity. Qed.
Lemma mul_self_ok m x : WF m -> live m x -> Upd m (m12_MulAssign B m x x) x (FQ12_MulAssign B (val12 m x) (val12 m x)).
Proof. intros W L. unfold m12_MulAssign. call W L a b. reflexivity. Qed.
Lemma mul_ok m x y : WF m -> live m x -> y < n12 m -> Upd m (m12_MulAssign B m x y) x (FQ12_MulAssign B (val12 m x) (val12 m y)).
Proof.
  intros W L Hy. destruct (arg_cases B m x y W L Hy) as [->|K]; [apply mul_self_ok; assumption|].
  unfold m12_MulAssign. unfold fc0, fc1 in K. set (a' := fst (c12 m y)) in *. set (b' := snd (c12 m y)) in *. call W L a b. reflexivity.
Qed.
Lemma add_self_ok m x : WF m -> live m x -> Upd m (m12_AddAssign B m x x) x (FQ12_AddAssign B (val12 m x) (val12 m x)).
Proof. intros W L. unfold m12_AddAssign. call W L a b. reflexivity. Qed.
Lemma add_ok m x y : WF m -> live m x -> y < n12 m -> Upd m (m12_AddAssign B m x y) x (FQ12_AddAssign B (val12 m x) (val12 m y)).
Proof.
  intros W L Hy. destruct (arg_cases B m x y W L Hy) as [->|K]; [apply add_self_ok; assumption|].
  unfold m12_AddAssign. unfold fc0, fc1 in K. set (a' := fst (c12 m y)) in *. set (b' := snd (c12 m y)) in *. call W L a b. reflexivity.
Qed.
Lemma sub_self_ok m x : WF m -> live m x -> Upd m (m12_SubAssign B m x x) x (FQ12_SubAssign B (val12 m x) (val12 m x)).
Proof. intros W L. unfold m12_SubAssign. call W L a b. reflexivity. Qed.
Lemma sub_ok m x y : WF m -> live m x -> y < n12 m -> Upd m (m12_SubAssign B m x y) x (FQ12_SubAssign B (val12 m x) (val12 m y)).
Proof.
  intros W L Hy. destruct (arg_cases B m x y W L Hy) as [->|K]; [apply sub_self_ok; assumption|].
  unfold m12_SubAssign. unfold fc0, fc1 in K. set (a' := fst (c12 m y)) in *. set (b' := snd (c12 m y)) in *. call W L a b. reflexivity.
Qed.
End M.
