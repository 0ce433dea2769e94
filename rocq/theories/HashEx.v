(** Concrete runs of the hash functions: two equal digests give a point off the curve, two different ones a point of the subgroup. *)
Require Import ZArith Lia Bool List Ring Field.
From Verif Require Import Words ModelRepr ReprProofs ReprProofs2 ModelFq ModelOps ModelTower ModelCurve ModelHash NumTheory Primality FqProofs FqProofs2 FqRel Fp FpOps FqMisc OpsRel OpsRel2 FqTransfer Ext TowerProofs TowerLimb Fld EcGroup AbGrp EcMul EcJac Curves CurveLimb UNat UInst PolyEval IsoProofs SwuProofs ClearCof CountFacts HashProofs.
Import CurveLimb ListNotations.
Open Scope Z_scope.

(** ** The SWU point is determined by the specification *)
Lemma is_x0_1_fun t x x' : is_x0_1 t x -> is_x0_1 t x' -> x = x'.
Proof.
  intros [[E H]|[N H]] [[E' H']|[N' H']]; try contradiction.
  - apply (fld_cancel FldQ (fopp A1')); [exact (fld_opp_ne FldQ _ A1'_ne)|exact (eq_trans H (eq_sym H'))].
  - apply (fld_cancel FldQ (fmul A1' (D1 t))); [exact (fld_mul_ne FldQ _ _ A1'_ne N)|exact (eq_trans H (eq_sym H'))].
Qed.
Lemma is_x0_2_fun t x x' : is_x0_2 t x -> is_x0_2 t x' -> x = x'.
Proof.
  intros [[E H]|[N H]] [[E' H']|[N' H']]; try contradiction.
  - apply (fld_cancel FldQ2 (k2_mul k2_xi A2')); [exact (k2_mul_ne _ _ k2_xi_ne A2'_ne)|exact (eq_trans H (eq_sym H'))].
  - apply (fld_cancel FldQ2 (k2_mul A2' (D2 t))); [exact (k2_mul_ne _ _ A2'_ne N)|exact (eq_trans H (eq_sym H'))].
Qed.
Lemma swu_fun1 t P x y : swu_spec1 t P -> is_x0_1 t x -> fmul y y = aux1 x -> y <> f0 q -> big1 y = big1 t -> P = mkAff x y false.
Proof.
  intros (I & Y & S & x0 & HX & C) H Hy N B. assert (x0 = x) as -> by exact (is_x0_1_fun t x0 x HX H).
  destruct C as [[_ EX]|[NS _]]; [|destruct NS; exists y; exact Hy]. destruct P as [px py pi]. cbn [ax ay ainf] in *. subst px pi.
  destruct (fld_sq_eq FldQ py y) as [E|E]; [exact (eq_trans Y (eq_sym Hy))|congruence|]. destruct S as [S|S].
  - destruct N. rewrite S in Y. apply (fld_sq_0 FldQ). transitivity (aux1 x); [exact Hy|]. rewrite <- Y. apply zof_inj. reflexivity.
  - exfalso. assert (py = fopp y) as E' by exact E. rewrite E', big1_opp, <- B in S by exact N. destruct (big1 y); discriminate S.
Qed.
Lemma swu_fun2 t P x y : swu_spec2 t P -> is_x0_2 t x -> k2_mul y y = aux2 x -> y <> k2_0 -> big2 y = big2 t -> P = mkAff x y false.
Proof.
  intros (I & Y & S & x0 & HX & C) H Hy N B. assert (x0 = x) as -> by exact (is_x0_2_fun t x0 x HX H).
  destruct C as [[_ EX]|[NS _]]; [|destruct NS; exists y; exact Hy]. destruct P as [px py pi]. cbn [ax ay ainf] in *. subst px pi.
  destruct (fld_sq_eq FldQ2 py y) as [E|E]; [exact (eq_trans Y (eq_sym Hy))|congruence|]. destruct S as [S|S].
  - destruct N. rewrite S in Y. apply (fld_sq_0 FldQ2). transitivity (aux2 x); [exact Hy|]. rewrite <- Y. apply k2_zof; reflexivity.
  - exfalso. assert (py = k2_opp y) as E' by exact E. rewrite E', big2_opp, <- B in S by exact N. destruct (big2 y); discriminate S.
Qed.
(** ** Two hash functions *)
Definition sha_zero (l : list Z) : list Z := repeat 0 32.
Definition sha_two (l : list Z) : list Z := repeat 0 31 ++ [if (nth 32 l 0 =? 1) && (nth 33 l 0 =? 1) && (nth 34 l 0 =? 2) then 2 else 0].
Lemma sha_zero_ok : sha_ok sha_zero.
Proof. intros l. split; [|reflexivity]. apply Forall_forall. intros x H. apply repeat_spec in H. subst x. split; [discriminate|reflexivity]. Qed.
Lemma sha_two_ok : sha_ok sha_two.
Proof.
  intros l. split; [|reflexivity]. unfold sha_two. apply Forall_app. split.
  - apply Forall_forall. intros x H. apply repeat_spec in H. subst x. split; [discriminate|reflexivity].
  - constructor; [|constructor]. destruct (_ && _); split; try discriminate; reflexivity.
Qed.
Definition x1_0 : Z := 1165829013300031051498189320085913366300917435352691079268722832469236884678791583237077507172460989948189414825084.
Definition y1_0 : Z := 871758841483786938873659002409391877749983255326526485338662303027873938968731138252536095670636634267002373469323.
Definition x1_2 : Z := 3931254467889478568068231647250342251197249101591420592762488492591027725395916124801959052189509848469134714433699.
Definition y1_2 : Z := 98087273735878604228365185027475149688998279856524388776614121568657613363525038504460480515499109833848206794535.
Definition x2_0 : FQ2 Z := mkFQ2 0 1267429692486861341248966778149702982909679559647352497021818409772610022655431990406851082557521626945333186310595.
Definition y2_0 : FQ2 Z := mkFQ2 383773747854595461160700995142748055661458646897476161436296929434259544592884238262364734197571554480852151945325 504384313542786111884702805381675027639119391260010659320252229218584134492322826397398758247924293541725203369542.
Definition x2_2 : FQ2 Z := mkFQ2 2993672187645474798328753365591082783766123735238932727240238605881389527196399053079083429917637732451107911182926 3892180592877656025164108825453949885578537774796378704750250437456388095888905236265455073489385252965305924199659.
Definition y2_2 : FQ2 Z := mkFQ2 2015566264024372831307147964567185115173913851384308760841478331545403340640071522082544399791691132148931314626062 1454455122628261247880902616261247373656148415926569265867404549445773399454086327485534899356936497459060864289514.
Definition k2q (a : FQ2 Z) : K2 := mkFQ2 (z2q (c0 a)) (z2q (c1 a)).
Definition u2q (a : FQ2 Z) : FQ2 UL := mkFQ2 (ofm (c0 a)) (ofm (c1 a)).
Lemma Ru2q a : R2 RU (u2q a) (k2q a). Proof. split; apply RU_ofm. Qed.
Ltac zc := apply zof_inj; vm_compute; reflexivity.
Ltac kc := apply k2_zof; vm_compute; reflexivity.
Lemma zne (a b : Fq) : (zof a =? zof b) = false -> a <> b. Proof. intros H ->. rewrite Z.eqb_refl in H. discriminate H. Qed.
Lemma kne0 (a b : K2) : (zof (c0 a) =? zof (c0 b)) = false -> a <> b. Proof. intros H ->. rewrite Z.eqb_refl in H. discriminate H. Qed.
(** the equations that make (x, y) the point of the SWU map, as a test that runs on any implementation of the field *)
Section Chk.
  Context {F : Type} (o : Ops F).
  Definition d1c (t : F) : F := o_sub o (o_mul o (o_mul o t t) (o_mul o t t)) (o_mul o t t).
  Definition d2c (xi t : F) : F := o_add o (o_mul o (o_mul o xi xi) (o_mul o (o_mul o t t) (o_mul o t t))) (o_mul o xi (o_mul o t t)).
  Definition chk (A B D x y : F) : bool :=
    negb (o_iszero o D) && o_equals o (o_mul o (o_mul o A D) x) (o_mul o (o_neg o B) (o_add o D (o_one o))) &&
    o_equals o (o_mul o y y) (o_add o (o_add o (o_mul o (o_mul o x x) x) (o_mul o A x)) B) && negb (o_iszero o y).
End Chk.
Section RelChk.
  Context {F F' : Type} (o : Ops F) (o' : Ops F') (R : F -> F' -> Prop) (H : RelO o o' R).
  Lemma rel_d1c t t' : R t t' -> R (d1c o t) (d1c o' t').
  Proof. intros T. unfold d1c. repeat first [apply (ro_sub _ _ _ H)|apply (ro_mul _ _ _ H)|exact T]. Qed.
  Lemma rel_d2c xi xi' t t' : R xi xi' -> R t t' -> R (d2c o xi t) (d2c o' xi' t').
  Proof. intros X T. unfold d2c. repeat first [apply (ro_add _ _ _ H)|apply (ro_mul _ _ _ H)|exact T|exact X]. Qed.
  Lemma rel_chk A A' B B' D D' x x' y y' : R A A' -> R B B' -> R D D' -> R x x' -> R y y' -> chk o A B D x y = chk o' A' B' D' x' y'.
  Proof.
    intros HA HB HD HX HY. unfold chk. rewrite (ro_iszero _ _ _ H _ _ HD), (ro_iszero _ _ _ H _ _ HY).
    rewrite (ro_equals _ _ _ H _ (o_mul o' (o_mul o' A' D') x') _ (o_mul o' (o_neg o' B') (o_add o' D' (o_one o'))))
      by repeat first [apply (ro_add _ _ _ H)|apply (ro_mul _ _ _ H)|apply (ro_neg _ _ _ H)|apply (ro_one _ _ _ H)|assumption].
    rewrite (ro_equals _ _ _ H _ (o_mul o' y' y') _ (o_add o' (o_add o' (o_mul o' (o_mul o' x' x') x') (o_mul o' A' x')) B'))
      by repeat first [apply (ro_add _ _ _ H)|apply (ro_mul _ _ _ H)|assumption]. reflexivity.
  Qed.
End RelChk.
Lemma chk1_spec t x y : chk FpO A1' B1' (d1c FpO t) x y = true -> is_x0_1 t x /\ fmul y y = aux1 x /\ y <> f0 q.
Proof.
  unfold chk, d1c, is_x0_1, D1, aux1. generalize A1', B1'. intros A B. cbn [FpO o_iszero o_equals o_mul o_sub o_add o_neg o_one]. intros E.
  apply andb_true_iff in E. destruct E as [E N]. apply andb_true_iff in E. destruct E as [E Y]. apply andb_true_iff in E. destruct E as [D X].
  apply feqb_spec in X, Y. apply negb_true_iff in D, N. split; [right; split; [|exact X]|split; [exact Y|]].
  - intros Z. apply feqb_spec in Z. congruence.
  - intros Z. apply feqb_spec in Z. congruence.
Qed.
Lemma chk2_spec t x y : chk (FQ2O FpB) A2' B2' (d2c (FQ2O FpB) k2_xi t) x y = true -> is_x0_2 t x /\ k2_mul y y = aux2 x /\ y <> k2_0.
Proof.
  unfold chk, d2c. cbn [FQ2O o_iszero o_equals o_mul o_add o_neg o_one]. rewrite !m2_mul, !m2_add, !m2_neg. intros E.
  apply andb_true_iff in E. destruct E as [E N]. apply andb_true_iff in E. destruct E as [E Y]. apply andb_true_iff in E. destruct E as [D X].
  apply m2_equals in X, Y. apply negb_true_iff in D, N. split; [right; split; [|exact X]|split; [exact Y|]].
  - intros Z. apply m2_iszero in Z. unfold D2 in Z. congruence.
  - intros Z. apply m2_iszero in Z. congruence.
Qed.
Lemma pt1_of t x y : chk UO (ellPA UB) (ellPB UB) (d1c UO (ofm t)) (ofm x) (ofm y) = true -> big1 (z2q y) = big1 (z2q t) ->
  forall P, swu_spec1 (z2q t) P -> P = mkAff (z2q x) (z2q y) false.
Proof.
  intros E Bg P S.
  rewrite (rel_chk UO FpO RU RelO_U _ A1' _ B1' _ (d1c FpO (z2q t)) _ (z2q x) _ (z2q y) (rel_ellPA UB FpB RU) (rel_ellPB UB FpB RU) (rel_d1c UO FpO RU RelO_U _ _ (RU_ofm _)) (RU_ofm _) (RU_ofm _)) in E.
  destruct (chk1_spec _ _ _ E) as (X & Y & N). exact (swu_fun1 _ _ _ _ S X Y N Bg).
Qed.
Lemma pt2_of t x y : chk (FQ2O UB) (ell2pA UB) (ell2pB UB) (d2c (FQ2O UB) (mkFQ2 (ofm 1) (ofm 1)) (u2q t)) (u2q x) (u2q y) = true -> big2 (k2q y) = big2 (k2q t) ->
  forall P, swu_spec2 (k2q t) P -> P = mkAff (k2q x) (k2q y) false.
Proof.
  intros E Bg P S. pose proof (rel_FQ2O UB FpB RU) as HO.
  assert (R2 RU (mkFQ2 (ofm 1) (ofm 1)) k2_xi) as RX by (split; apply (RU_ofm 1)).
  rewrite (rel_chk (FQ2O UB) (FQ2O FpB) (R2 RU) HO _ A2' _ B2' _ (d2c (FQ2O FpB) k2_xi (k2q t)) _ (k2q x) _ (k2q y) (rel_ell2pA UB FpB RU) (rel_ell2pB UB FpB RU) (rel_d2c _ _ _ HO _ _ _ _ RX (Ru2q _)) (Ru2q _) (Ru2q _)) in E.
  destruct (chk2_spec _ _ _ E) as (X & Y & N). exact (swu_fun2 _ _ _ _ S X Y N Bg).
Qed.
Lemma pt1_0 P : swu_spec1 (z2q 0) P -> P = mkAff (z2q x1_0) (z2q y1_0) false.
Proof. intros S. apply (swu_fun1 _ _ _ _ S); [left; split; zc|zc|apply zne; vm_compute; reflexivity|vm_compute; reflexivity]. Qed.
Lemma chk_1_2 : chk UO (ellPA UB) (ellPB UB) (d1c UO (ofm 2)) (ofm x1_2) (ofm y1_2) = true.
Proof. vm_cast_no_check (eq_refl true). Qed.
Lemma pt1_2 P : swu_spec1 (z2q 2) P -> P = mkAff (z2q x1_2) (z2q y1_2) false.
Proof. apply (pt1_of 2 x1_2 y1_2 chk_1_2). vm_compute. reflexivity. Qed.
Lemma pt2_0 P : swu_spec2 (k2q (mkFQ2 0 0)) P -> P = mkAff (k2q x2_0) (k2q y2_0) false.
Proof. intros S. apply (swu_fun2 _ _ _ _ S); [left; split; kc|kc|apply kne0; vm_compute; reflexivity|vm_compute; reflexivity]. Qed.
Lemma chk_2_2 : chk (FQ2O UB) (ell2pA UB) (ell2pB UB) (d2c (FQ2O UB) (mkFQ2 (ofm 1) (ofm 1)) (u2q (mkFQ2 2 0))) (u2q x2_2) (u2q y2_2) = true.
Proof. vm_cast_no_check (eq_refl true). Qed.
Lemma pt2_2 P : swu_spec2 (k2q (mkFQ2 2 0)) P -> P = mkAff (k2q x2_2) (k2q y2_2) false.
Proof. apply (pt2_of (mkFQ2 2 0) x2_2 y2_2 chk_2_2). vm_compute. reflexivity. Qed.
(** ** The code after the SWU maps *)
Definition post1 {F} (B : BOps F) (P Q : Affine F) : Affine F := ClearH B (iso11 B (G1_ToAffine (b_ops B) (AddAffine (b_ops B) (Affine_ToProjective (b_ops B) P) Q))).
Definition post2 {F} (B : BOps F) (P Q : Affine (FQ2 F)) : Affine (FQ2 F) := clearH2 B (iso3 B (G2_ToAffine (FQ2O B) (AddAffine (FQ2O B) (Affine_ToProjective (FQ2O B) P) Q))).
Lemma rel_post1 {F F'} (B : BOps F) (B' : BOps F') R {HB : RelB B B' R} P P' Q Q' : RA R P P' -> RA R Q Q' -> RA R (post1 B P Q) (post1 B' P' Q').
Proof.
  intros HP HQ. pose proof (rb_ops _ _ _ HB) as HO. unfold post1. apply rel_ClearH, rel_iso11; [exact HB..|]. apply (rel_G1_ToAffine _ _ _ HO), (rel_AddAffine _ _ _ HO); [apply (rel_Affine_ToProjective _ _ _ HO); exact HP|exact HQ].
Qed.
Lemma rel_post2 {F F'} (B : BOps F) (B' : BOps F') R {HB : RelB B B' R} P P' Q Q' : RA (R2 R) P P' -> RA (R2 R) Q Q' -> RA (R2 R) (post2 B P Q) (post2 B' P' Q').
Proof.
  intros HP HQ. pose proof (rel_FQ2O B B' R) as HO. unfold post2. apply rel_clearH2, rel_iso3; [exact HB..|]. apply (rel_G2_ToAffine _ _ _ HO), (rel_AddAffine _ _ _ HO); [apply (rel_Affine_ToProjective _ _ _ HO); exact HP|exact HQ].
Qed.
Definition U1 (x y : Z) : Affine UL := mkAff (ofm x) (ofm y) false.
Definition U2 (x y : FQ2 Z) : Affine (FQ2 UL) := mkAff (u2q x) (u2q y) false.
Lemma bad1_eval : G1_IsOnCurve UB (post1 UB (U1 x1_0 y1_0) (U1 x1_0 y1_0)) = false.
Proof. vm_cast_no_check (eq_refl false). Qed.
Lemma good1_eval : Affine_IsZero (post1 UB (U1 x1_0 y1_0) (U1 x1_2 y1_2)) = false.
Proof. vm_cast_no_check (eq_refl false). Qed.
Lemma bad2_eval : G2_IsOnCurve UB (post2 UB (U2 x2_0 y2_0) (U2 x2_0 y2_0)) = false.
Proof. vm_cast_no_check (eq_refl false). Qed.
Lemma good2_eval : Affine_IsZero (post2 UB (U2 x2_0 y2_0) (U2 x2_2 y2_2)) = false.
Proof. vm_cast_no_check (eq_refl false). Qed.
Definition sum1 {F} (B : BOps F) (P Q : Affine F) : Affine F := G1_ToAffine (b_ops B) (AddAffine (b_ops B) (Affine_ToProjective (b_ops B) P) Q).
Lemma rel_sum1 {F F'} (B : BOps F) (B' : BOps F') R {HB : RelB B B' R} P P' Q Q' : RA R P P' -> RA R Q Q' -> RA R (sum1 B P Q) (sum1 B' P' Q').
Proof.
  intros HP HQ. pose proof (rb_ops _ _ _ HB) as HO. unfold sum1. apply (rel_G1_ToAffine _ _ _ HO), (rel_AddAffine _ _ _ HO); [apply (rel_Affine_ToProjective _ _ _ HO); exact HP|exact HQ].
Qed.
Definition kfree {F} (B : BOps F) (l : list F) (P : Affine F) : bool := forallb (fun k => negb (o_equals (b_ops B) k (ax P))) l.
Lemma rel_kfree {F F'} (B : BOps F) (B' : BOps F') R {HB : RelB B B' R} l l' P P' : Forall2 R l l' -> RA R P P' -> kfree B l P = kfree B' l' P'.
Proof. intros H HP. induction H as [|a a' l l' Ha Hl IH]; [reflexivity|]. cbn [kfree forallb]. unfold kfree in IH. rewrite IH, (ro_equals _ _ _ (rb_ops _ _ _ HB) _ _ _ _ Ha (proj1 HP)). reflexivity. Qed.
Lemma kfree_eval : kfree UB (map ofm kernel11) (sum1 UB (U1 x1_0 y1_0) (U1 x1_2 y1_2)) = true.
Proof. vm_cast_no_check (eq_refl true). Qed.
Lemma kfree_in l (P : Affine Fq) : kfree FpB l P = true -> ~ In (ax P) l.
Proof.
  intros H I. unfold kfree in H. rewrite forallb_forall in H. specialize (H _ I). apply negb_true_iff in H. cbn [b_ops FpB o_equals FpO] in H. rewrite feqb_refl in H. discriminate H.
Qed.
(** ** Results *)
Definition V1 (x y : Z) : Affine Fq := mkAff (z2q x) (z2q y) false.
Definition V2 (x y : FQ2 Z) : Affine K2 := mkAff (k2q x) (k2q y) false.
Lemma RUV1 x y : RA RU (U1 x y) (V1 x y). Proof. split; [apply RU_ofm|]. split; [apply RU_ofm|reflexivity]. Qed.
Lemma RUV2 x y : RA (R2 RU) (U2 x y) (V2 x y). Proof. split; [apply Ru2q|]. split; [apply Ru2q|reflexivity]. Qed.
Lemma swu_at1 sha m ctr z x y : digest sha (1 :: m) ctr 1 = z -> (forall P, swu_spec1 (z2q z) P -> P = V1 x y) ->
  exists P, optimizedSWUMapHelper FqB (t1_of sha m ctr) = Some P /\ RA RFq P (V1 x y).
Proof.
  intros D H. destruct (hp_limb sha (1 :: m) ctr) as [C V]. destruct (swu1_limb (t1_of sha m ctr) C) as (P & E & CP & S & _). exists P. split; [exact E|].
  apply RA1_val. split; [exact CP|]. symmetry. apply H. unfold t1_of in S. rewrite V, D in S. exact S.
Qed.
Lemma swu_at2 sha m ctr z z' x y : digest sha (1 :: m) ctr 1 = z -> digest sha (1 :: m) ctr 2 = z' -> (forall P, swu_spec2 (k2q (mkFQ2 z z')) P -> P = V2 x y) ->
  exists P, OptimizedSWU2MapHelper FqB (t2_of sha m ctr) = Some (Some P) /\ RA (R2 RFq) P (V2 x y).
Proof.
  intros D D' H. destruct (hp2_limb sha (1 :: m) ctr) as [C V]. destruct (swu2_limb (t2_of sha m ctr) C) as (P & E & CP & S & _). exists P. split; [exact E|].
  apply RA2_val. split; [exact CP|]. symmetry. apply H. unfold t2_of in S. rewrite V, D, D' in S. exact S.
Qed.
Theorem HashG1_bad : exists sha m h, sha_ok sha /\ HashG1 sha FqB m = Some h /\ canonA1 h /\ ~ on1 (aff1 h).
Proof.
  destruct (swu_at1 sha_zero [] 0 0 x1_0 y1_0 eq_refl pt1_0) as (P & EP & RP). destruct (swu_at1 sha_zero [] 1 0 x1_0 y1_0 eq_refl pt1_0) as (Q & EQ & RQ).
  exists sha_zero, [], (post1 FqB P Q). split; [exact sha_zero_ok|]. split; [exact (HashG1_form sha_zero [] P Q EP EQ)|].
  pose proof (rel_post1 FqB FpB RFq _ _ _ _ RP RQ) as R1. pose proof (rel_post1 UB FpB RU _ _ _ _ (RUV1 x1_0 y1_0) (RUV1 x1_0 y1_0)) as R2.
  pose proof (proj1 (proj1 (RA1_val _ _) R1)) as C. split; [exact C|]. intros O.
  pose proof (proj2 (G1_oncurve _ C) O) as T. rewrite (rel_G1_IsOnCurve FqB FpB RFq _ _ R1), <- (rel_G1_IsOnCurve UB FpB RU _ _ R2) in T. rewrite bad1_eval in T. discriminate T.
Qed.
Theorem HashG2_bad : exists sha m h, sha_ok sha /\ HashG2 sha FqB m = Some h /\ canonA2 h /\ ~ on2 (aff2 h).
Proof.
  destruct (swu_at2 sha_zero [] 0 0 0 x2_0 y2_0 eq_refl eq_refl pt2_0) as (P & EP & RP). destruct (swu_at2 sha_zero [] 1 0 0 x2_0 y2_0 eq_refl eq_refl pt2_0) as (Q & EQ & RQ).
  exists sha_zero, [], (post2 FqB P Q). split; [exact sha_zero_ok|]. split; [exact (HashG2_form sha_zero [] P Q EP EQ)|].
  pose proof (rel_post2 FqB FpB RFq _ _ _ _ RP RQ) as R1. pose proof (rel_post2 UB FpB RU _ _ _ _ (RUV2 x2_0 y2_0) (RUV2 x2_0 y2_0)) as R2.
  pose proof (proj1 (proj1 (RA2_val _ _) R1)) as C. split; [exact C|]. intros O.
  pose proof (proj2 (G2_oncurve _ C) O) as T. rewrite (rel_G2_IsOnCurve FqB FpB RFq _ _ R1), <- (rel_G2_IsOnCurve UB FpB RU _ _ R2) in T. rewrite bad2_eval in T. discriminate T.
Qed.
Lemma aff_fin1 (h : Affine FQ) : Affine_IsZero h = false -> aff1 h <> Inf.
Proof. unfold aff1, aff, repa, Affine_IsZero. cbn [ainf vA]. intros ->. discriminate. Qed.
Lemma aff_fin2 (h : Affine (FQ2 FQ)) : Affine_IsZero h = false -> aff2 h <> Inf.
Proof. unfold aff2, aff, repa, Affine_IsZero. cbn [ainf vA]. intros ->. discriminate. Qed.
Lemma RA_pt1 P x y : RA RFq P (V1 x y) -> aff1 P = Pt (z2q x) (z2q y).
Proof. intros R. apply RA1_val in R. destruct R as [_ V]. change (aff1 P) with (repa FldQ (valA1 P)). rewrite <- V. reflexivity. Qed.
Lemma RA_pt2 P x y : RA (R2 RFq) P (V2 x y) -> aff2 P = Pt (k2q x) (k2q y).
Proof. intros R. apply RA2_val in R. destruct R as [_ V]. change (aff2 P) with (repa FldQ2 (valA2 P)). rewrite <- V. reflexivity. Qed.
Theorem HashG1_good m : exists P Q h, optimizedSWUMapHelper FqB (t1_of sha_two m 0) = Some P /\ optimizedSWUMapHelper FqB (t1_of sha_two m 1) = Some Q /\
  xdiff1 (aff1 P) (aff1 Q) /\ ~ in_kernel1 (plus1 (aff1 P) (aff1 Q)) /\ HashG1 sha_two FqB m = Some h /\ aff1 h <> Inf.
Proof.
  destruct (swu_at1 sha_two m 0 0 x1_0 y1_0 eq_refl pt1_0) as (P & EP & RP). destruct (swu_at1 sha_two m 1 2 x1_2 y1_2 eq_refl pt1_2) as (Q & EQ & RQ).
  exists P, Q, (post1 FqB P Q). split; [exact EP|]. split; [exact EQ|]. split; [|split; [|split]].
  - rewrite (RA_pt1 _ _ _ RP), (RA_pt1 _ _ _ RQ). apply zne. vm_compute. reflexivity.
  - destruct (sum1_limb P Q (proj1 (proj1 (RA1_val _ _) RP)) (proj1 (proj1 (RA1_val _ _) RQ))) as [CS JS]. rewrite <- JS. change (G1_ToAffine FqO (AddAffine FqO (Affine_ToProjective FqO P) Q)) with (sum1 FqB P Q).
    pose proof (rel_sum1 FqB FpB RFq _ _ _ _ RP RQ) as R1. pose proof (rel_sum1 UB FpB RU _ _ _ _ (RUV1 x1_0 y1_0) (RUV1 x1_2 y1_2)) as R2. apply RA1_val in R1. destruct R1 as [_ V].
    change (aff1 (sum1 FqB P Q)) with (repa FldQ (valA1 (sum1 FqB P Q))). rewrite <- V. unfold repa, in_kernel1. destruct (ainf _); [intros []|]. apply kfree_in.
    rewrite <- (rel_kfree UB FpB RU _ _ _ _ (RU_list kernel11) R2). exact kfree_eval.
  - exact (HashG1_form sha_two m P Q EP EQ).
  - apply aff_fin1. pose proof (rel_post1 FqB FpB RFq _ _ _ _ RP RQ) as R1. pose proof (rel_post1 UB FpB RU _ _ _ _ (RUV1 x1_0 y1_0) (RUV1 x1_2 y1_2)) as R2.
    rewrite (rel_Affine_IsZero _ _ _ _ _ R1), <- (rel_Affine_IsZero _ _ _ _ _ R2). exact good1_eval.
Qed.
Theorem HashG2_good m : exists P Q h, OptimizedSWU2MapHelper FqB (t2_of sha_two m 0) = Some (Some P) /\ OptimizedSWU2MapHelper FqB (t2_of sha_two m 1) = Some (Some Q) /\
  xdiff2 (aff2 P) (aff2 Q) /\ HashG2 sha_two FqB m = Some h /\ aff2 h <> Inf.
Proof.
  destruct (swu_at2 sha_two m 0 0 0 x2_0 y2_0 eq_refl eq_refl pt2_0) as (P & EP & RP). destruct (swu_at2 sha_two m 1 2 0 x2_2 y2_2 eq_refl eq_refl pt2_2) as (Q & EQ & RQ).
  exists P, Q, (post2 FqB P Q). split; [exact EP|]. split; [exact EQ|]. split; [|split].
  - rewrite (RA_pt2 _ _ _ RP), (RA_pt2 _ _ _ RQ). apply kne0. vm_compute. reflexivity.
  - exact (HashG2_form sha_two m P Q EP EQ).
  - apply aff_fin2. pose proof (rel_post2 FqB FpB RFq _ _ _ _ RP RQ) as R1. pose proof (rel_post2 UB FpB RU _ _ _ _ (RUV2 x2_0 y2_0) (RUV2 x2_2 y2_2)) as R2.
    rewrite (rel_Affine_IsZero _ _ _ _ _ R1), <- (rel_Affine_IsZero _ _ _ _ _ R2). exact good2_eval.
Qed.
