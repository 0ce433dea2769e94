(** The coordinate ring K[x,y]/(y^2 - x^3 - b), its norm and its ideals. *)
Require Import ZArith Lia Bool List Ring Field Setoid Morphisms.
From Verif Require Import Fp Fld Poly.
Import ListNotations.

Section Coord.
Context (K : Fld) (b : K).
Add Field KF2 : (fTh K).
Add Ring PR2 : (pring K) (setoid (peq_equiv K) (pring_ext K)).
Notation poly := (list (fT K)).
Definition cw : poly := [b; 0%F; 0%F; 1%F].
Definition R : Type := (poly * poly)%type.
Implicit Types u v r s t : R.
Implicit Types x y c k e : K.
Record req u v : Prop := mkreq { req1 : peq (fst u) (fst v); req2 : peq (snd u) (snd v) }.
Definition r0 : R := ([], []).
Definition rC (c : K) : R := (pC c, []).
Definition r1 : R := rC 1%F.
Definition rX : R := (pX, []).
Definition rY : R := ([], pC 1%F).
Definition radd u v : R := (padd (fst u) (fst v), padd (snd u) (snd v)).
Definition rsub u v : R := (psub (fst u) (fst v), psub (snd u) (snd v)).
Definition ropp u : R := (popp (fst u), popp (snd u)).
Definition rmul u v : R := (padd (pmul (fst u) (fst v)) (pmul cw (pmul (snd u) (snd v))), padd (pmul (fst u) (snd v)) (pmul (snd u) (fst v))).
Definition nrm u : poly := psub (pmul (fst u) (fst u)) (pmul cw (pmul (snd u) (snd u))).
Definition conj u : R := (fst u, popp (snd u)).

#[global] Instance req_equiv : Equivalence req.
Proof.
  constructor; [intros u; constructor; reflexivity|intros u v []; constructor; symmetry; assumption|].
  intros u v r [] []; constructor; etransitivity; eassumption.
Qed.
#[global] Instance radd_proper : Proper (req ==> req ==> req) radd.
Proof. intros u u' [A B] v v' [C D]. constructor; cbn; rewrite ?A, ?B, ?C, ?D; reflexivity. Qed.
#[global] Instance rsub_proper : Proper (req ==> req ==> req) rsub.
Proof. intros u u' [A B] v v' [C D]. constructor; cbn; rewrite ?A, ?B, ?C, ?D; reflexivity. Qed.
#[global] Instance ropp_proper : Proper (req ==> req) ropp.
Proof. intros u u' [A B]. constructor; cbn; rewrite ?A, ?B; reflexivity. Qed.
#[global] Instance rmul_proper : Proper (req ==> req ==> req) rmul.
Proof. intros u u' [A B] v v' [C D]. constructor; cbn [rmul fst snd]; rewrite ?A, ?B, ?C, ?D; reflexivity. Qed.
#[global] Instance nrm_proper : Proper (req ==> peq) nrm.
Proof. intros u u' [A B]. unfold nrm. rewrite A, B. reflexivity. Qed.
#[global] Instance conj_proper : Proper (req ==> req) conj.
Proof. intros u u' [A B]. constructor; cbn; rewrite ?A, ?B; reflexivity. Qed.
Lemma rring : ring_theory r0 r1 radd rmul rsub ropp req.
Proof.
  constructor; intros; constructor; unfold radd, rmul, rsub, ropp, r0, r1, rC; cbn [fst snd]; ring.
Qed.
Lemma rring_ext : ring_eq_ext radd rmul ropp req.
Proof. constructor; [exact radd_proper|exact rmul_proper|exact ropp_proper]. Qed.
Add Ring RR2 : rring (setoid req_equiv rring_ext).

Lemma pC_mul (x y : K) : peq (pC (x * y)%F) (pmul (pC x) (pC y)).
Proof. constructor. intros [|[|n]]; cbn; ring. Qed.
Lemma rC_mul x y : req (rC (x * y)%F) (rmul (rC x) (rC y)).
Proof. constructor; [cbn [rC rmul fst snd]; rewrite pC_mul|cbn [rC rmul fst snd]]; ring. Qed.
Lemma rC_add x y : req (rC (x + y)%F) (radd (rC x) (rC y)). Proof. constructor; cbn; [constructor; intros [|n]; reflexivity|reflexivity]. Qed.
Lemma rC_opp x : req (rC (- x)%F) (ropp (rC x)). Proof. constructor; cbn; reflexivity. Qed.
Lemma rC_sub x y : req (rC (x - y)%F) (rsub (rC x) (rC y)).
Proof. constructor; cbn; [constructor; intros [|n]; cbn; [ring|destruct n; reflexivity]|reflexivity]. Qed.
Lemma rC_0 : req (rC 0%F) r0. Proof. constructor; [constructor; intros [|[|n]]; reflexivity|reflexivity]. Qed.
Lemma rC_1 : req (rC 1%F) r1. Proof. reflexivity. Qed.
Lemma cw_eq : peq cw (padd (pmul pX (pmul pX pX)) (pC b)).
Proof. constructor. intros [|[|[|[|[|n]]]]]; cbn; ring. Qed.
Lemma rY_sq : req (rmul rY rY) (radd (rmul rX (rmul rX rX)) (rC b)).
Proof. constructor; cbn [rY rX rmul radd rC fst snd]; [rewrite cw_eq|]; change (pC 1%F) with (pC (1%F : K)); ring. Qed.

Lemma nrm_mul u v : peq (nrm (rmul u v)) (pmul (nrm u) (nrm v)).
Proof. unfold nrm, rmul. cbn [fst snd]. ring. Qed.
Lemma nrm_1 : peq (nrm r1) (pC 1%F). Proof. unfold nrm, r1, rC. cbn [fst snd]. ring. Qed.
Lemma nrm_conj u : req (rmul u (conj u)) (nrm u, []).
Proof. constructor; unfold nrm, conj, rmul; cbn [fst snd]; ring. Qed.

Lemma lead_cw : lead cw 3 1%F.
Proof. split; [reflexivity|]. split; [apply fld_1_ne_0|]. intros [|[|[|[|m]]]] H; try lia. cbn. destruct m; reflexivity. Qed.
Lemma lead_pC c : c <> 0%F -> lead (pC c) 0 c.
Proof. intros H. split; [reflexivity|]. split; [exact H|]. intros [|[|m]] Hm; try lia; reflexivity. Qed.
Lemma lead_0 (p : poly) c : lead p 0 c -> peq p (pC c).
Proof. intros (A & _ & C). constructor. intros [|n]; [exact A|]. rewrite C by lia. destruct n; reflexivity. Qed.

Theorem nrm_cases r : req r r0 \/ exists n c, lead (nrm r) n c /\ n <> 1%nat /\
  (n = 0%nat -> exists k, k <> 0%F /\ req r (rC k)) /\
  (n = 2%nat -> exists k e, k <> 0%F /\ req r (rmul (rC k) (rsub rX (rC e)))).
Proof.
  destruct r as [f g]. destruct (lead_exists K g) as [G|(m & d & G)].
  - destruct (lead_exists K f) as [F|(n & c & F)]; [left; constructor; assumption|]. right.
    exists (n + n)%nat, (c * c)%F. split; [|split; [lia|split; intros E]].
    + eapply lead_proper; [|apply (lead_mul K _ _ _ _ _ _ F F)]. unfold nrm. cbn [fst snd]. rewrite G. ring.
    + exists c. split; [apply F|]. constructor; cbn; [apply lead_0; replace O with n by lia; exact F|exact G].
    + assert (n = 1%nat) as -> by lia. destruct F as (F1 & F2 & F3). exists c, (- (coef f 0 / c))%F. split; [exact F2|].
      constructor; cbn [rC rX rsub rmul fst snd].
      * constructor. intros [|[|k]].
        -- cbn. field. exact F2.
        -- rewrite F1. cbn. ring.
        -- rewrite F3 by lia. destruct k as [|[|[|[|k]]]]; cbn; ring.
      * rewrite G. ring.
  - right.
    assert (lead (pmul cw (pmul g g)) (3 + (m + m)) (1 * (d * d))%F) as LG by (apply lead_mul; [apply lead_cw|apply lead_mul; exact G]).
    destruct (lead_exists K f) as [F|(n & c & F)].
    + exists (3 + (m + m))%nat, (- (1 * (d * d)))%F. split; [|split; [lia|split; lia]].
      unfold nrm. cbn [fst snd]. apply lead_sub_lt; [|exact LG]. intros k _. 
      transitivity (coef (@nil K) k); [|apply coef_nil]. apply coef_proper; [|reflexivity]. rewrite F. ring.
    + pose proof (lead_mul K _ _ _ _ _ _ F F) as LF. destruct (Nat.lt_ge_cases (n + n) (3 + (m + m))) as [L|L].
      * exists (3 + (m + m))%nat, (- (1 * (d * d)))%F. split; [|split; [lia|split; lia]].
        unfold nrm. cbn [fst snd]. apply lead_sub_lt; [|exact LG]. intros k Hk. apply LF. lia.
      * exists (n + n)%nat, (c * c)%F. split; [|split; [lia|split; lia]].
        unfold nrm. cbn [fst snd]. apply lead_sub_gt; [exact LF|]. intros k Hk. apply LG. lia.
Qed.
Lemma nrm_nz r : ~ req r r0 -> ~ peq (nrm r) [].
Proof. intros H. destruct (nrm_cases r) as [|(n & c & L & _)]; [contradiction|]. exact (lead_nz _ _ _ _ L). Qed.
Lemma rmul_nz u v : ~ req u r0 -> ~ req v r0 -> ~ req (rmul u v) r0.
Proof.
  intros H H' E. apply (pmul_nz K (nrm u) (nrm v)); [apply nrm_nz, H|apply nrm_nz, H'|]. rewrite <- nrm_mul, E. unfold nrm, r0. cbn [fst snd]. ring.
Qed.
Lemma rdec u : req u r0 \/ ~ req u r0.
Proof. destruct (nrm_cases u) as [|(n & c & L & _)]; [left; assumption|]. right. intros E. apply (lead_nz _ _ _ _ L). rewrite E. unfold nrm, r0; cbn [fst snd]. ring. Qed.
Lemma rcancel u v t : ~ req u r0 -> req (rmul u v) (rmul u t) -> req v t.
Proof.
  intros H E. assert (req (rmul u (rsub v t)) r0) as E'. { transitivity (rsub (rmul u v) (rmul u t)); [ring|rewrite E; ring]. }
  destruct (rdec (rsub v t)) as [Z|Z]; [|exfalso; exact (rmul_nz _ _ H Z E')].
  transitivity (radd t (rsub v t)); [ring|rewrite Z; ring].
Qed.

(** Evaluation at a point of the curve *)
Definition ev (x y : K) u : K := (peval (fst u) x + peval (snd u) x * y)%F.
#[global] Instance ev_proper x y : Proper (req ==> eq) (ev x y).
Proof. intros u v [A B]. unfold ev. rewrite A, B. reflexivity. Qed.
Definition oncurve (x y : K) : Prop := (y * y = x * x * x + b)%F.
Lemma ev_add x y u v : ev x y (radd u v) = (ev x y u + ev x y v)%F.
Proof. unfold ev. cbn [radd fst snd]. rewrite !peval_add. ring. Qed.
Lemma ev_sub x y u v : ev x y (rsub u v) = (ev x y u - ev x y v)%F.
Proof. unfold ev. cbn [rsub fst snd]. rewrite !peval_sub. ring. Qed.
Lemma ev_mul x y u v : oncurve x y -> ev x y (rmul u v) = (ev x y u * ev x y v)%F.
Proof.
  intros H. unfold ev. cbn [rmul fst snd]. rewrite !peval_add, !peval_mul, cw_eq, peval_add, !peval_mul, peval_X, peval_C.
  rewrite (Rmul_assoc (fRing K)). replace (x * x * x + b)%F with (y * y)%F by exact H. unfold oncurve in H.
  transitivity (peval (fst u) x * peval (fst v) x + (x * (x * x) + b) * (peval (snd u) x * peval (snd v) x) + (peval (fst u) x * peval (snd v) x + peval (snd u) x * peval (fst v) x) * y)%F; [ring [H]|].
  ring [H].
Qed.
Lemma ev_C x y c : ev x y (rC c) = c. Proof. unfold ev, rC, pC. cbn. ring. Qed.
Lemma ev_X x y : ev x y rX = x. Proof. unfold ev, rX, pX. cbn. ring. Qed.
Lemma ev_Y x y : ev x y rY = y. Proof. unfold ev, rY, pC. cbn. ring. Qed.
End Coord.
