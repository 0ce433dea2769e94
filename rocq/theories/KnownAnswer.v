(** The expected values written in the repository's own tests, computed by the model.  Each example names the Go test
    the numbers come from; the functions are the limb-level code ([FqB]) and the hash is SHA-256 ([sha256]).
    - [fq z]: FQReprToFQ of the integer z; [fq2 a b]: the FQ2 with those coefficients; [repr6]: an FQRepr literal. *)
Require Import ZArith Lia Bool List.
From Verif Require Import Words ModelRepr ReprProofs ReprProofs2 ModelFq ModelFr ModelOps ModelTower ModelCurve ModelPairing ModelHash ModelBls Primality Fp FpOps FqProofs FqRel OpsRel OpsRel2 FqTransfer Ext UInst PairGen PairGen2 Sha256.
Import ListNotations.
Open Scope Z_scope.

Definition fq (z : Z) : FQ := FQReprToFQ (FQRepr_const z).
Definition fq2 (a b : Z) : FQ2 FQ := mkFQ2 (fq a) (fq b).
Definition fql (a b c d e f : Z) : FQ := FQReprToFQ (mkFQRepr a b c d e f).

(** primitivefuncs_test.go TestSubWithCarry *)
Example kat_SubWithBorrow :
  SubWithBorrow 0 3 0 = (18446744073709551613, 1) /\
  SubWithBorrow 0 2 0 = (18446744073709551614, 1) /\
  SubWithBorrow 0 2 1 = (18446744073709551613, 1) /\
  SubWithBorrow 2 0 0 = (2, 0) /\
  SubWithBorrow 2 0 1 = (1, 0) /\
  SubWithBorrow 2 1 0 = (1, 0) /\
  SubWithBorrow 2 1 1 = (0, 0) /\
  SubWithBorrow 0 0 1 = (18446744073709551615, 1).
Proof. vm_compute. repeat split. Qed.
(** primitivefuncs_test.go TestAddWithCarry *)
Example kat_AddWithCarry :
  AddWithCarry 1 1 0 = (2, 0) /\
  AddWithCarry 1 0 0 = (1, 0) /\
  AddWithCarry 0 1 0 = (1, 0) /\
  AddWithCarry 1 1 1 = (3, 0) /\
  AddWithCarry 18446744073709551615 1 0 = (0, 1) /\
  AddWithCarry 18446744073709551615 0 1 = (0, 1) /\
  AddWithCarry 0 0 0 = (0, 0) /\
  AddWithCarry 0 4043378133346814763 0 = (4043378133346814763, 0).
Proof. vm_compute. repeat split. Qed.
(** primitivefuncs_test.go TestMACWithCarry *)
Example kat_MACWithCarry :
  MACWithCarry 0 1 1 0 = (1, 0) /\
  MACWithCarry 0 4294967296 4294967296 0 = (0, 1) /\
  MACWithCarry 0 4294967296 4294967296 1 = (1, 1) /\
  MACWithCarry 5 4294967296 4294967296 1 = (6, 1).
Proof. vm_compute. repeat split. Qed.
(** primitivefuncs_test.go TestMultiplyFQReprOverflow *)
Example kat_MultiplyFQRepr :
  let (hi, lo) := MultiplyFQRepr (mkFQRepr 4276637899304358534 4043378133346814763 8835052805473178628 2680116066972705497 18387885609531466875 90398708109242637) (mkFQRepr 6568974633585825615 15677163513955518067 16490785605261833339 9784757811163378176 10803760609847905278 1860524254683672351) in FQRepr_ToBig lo = 11236684981931288970748045803123803013547375290961326241645975575468319186166860317135684626985730476857897168732506 /\ FQRepr_ToBig hi = 19474954426416495774628754584220018623553762741680760536161274135926885656938068449644545696043757020826963123558.
Proof. vm_compute. split; reflexivity. Qed.
(** fqrepr_test.go TestMontReduce *)
Example kat_MontReduce :
  MontReduce (mkFQRepr 1839480447532984087 3926924786351924057 16772763484671214791 603559161728877186 17550439636508622399 43104129123962762) (mkFQRepr 3464588527451676294 7118675286620626963 8738819137066355118 12891471781342038311 14889512650477226038 12078494706333498109) = mkFQRepr 13451288730302620273 10097742279870053774 15949884091978425806 5885175747529691540 1016841820992199104 845620083434234474.
Proof. vm_compute. reflexivity. Qed.
(** fqrepr_test.go TestRsh, TestLsh *)
Example kat_shifts :
  FQRepr_Rsh (NewFQRepr 100) 1 = NewFQRepr 50 /\
  FQRepr_Rsh (FQRepr_const 10000000000000000000000000) 1 = FQRepr_const 5000000000000000000000000 /\
  FQRepr_Lsh (NewFQRepr 100) 1 = NewFQRepr 200 /\
  FQRepr_Lsh (FQRepr_const 10000000000000000000000000) 1 = FQRepr_const 20000000000000000000000000.
Proof. repeat split; vm_compute; reflexivity. Qed.
(** bititerator_test.go TestBitIterator: the bits delivered before the iterator reports that it is done *)
Fixpoint drain (n : nat) (bi : BitIterator) : list bool * bool :=
  let '((b, d), bi') := BitIterator_Next bi in
  match n with O => ([], d) | S n => if d then ([], true) else let '(l, e) := drain n bi' in (b :: l, e) end.
(** every bit in order, then done *)
Example kat_BitIterator :
  drain 128 (NewBitIterator [0xa953d79b83f6ab59; 0x6dea2059e200bd39]) = (map (fun b => b =? 1) [0; 1; 1; 0; 1; 1; 0; 1; 1; 1; 1; 0; 1; 0; 1; 0; 0; 0; 1; 0; 0; 0; 0; 0; 0; 1; 0; 1; 1; 0; 0; 1; 1; 1; 1; 0; 0; 0; 1; 0; 0; 0; 0; 0; 0; 0; 0; 0; 1; 0; 1; 1; 1; 1; 0; 1; 0; 0; 1; 1; 1; 0; 0; 1; 1; 0; 1; 0; 1; 0; 0; 1; 0; 1; 0; 1; 0; 0; 1; 1; 1; 1; 0; 1; 0; 1; 1; 1; 1; 0; 0; 1; 1; 0; 1; 1; 1; 0; 0; 0; 0; 0; 1; 1; 1; 1; 1; 1; 0; 1; 1; 0; 1; 0; 1; 0; 1; 0; 1; 1; 0; 1; 0; 1; 1; 0; 0; 1], true).
Proof. vm_compute. reflexivity. Qed.
(** fq_test.go TestInverse *)
Example kat_FQ_Inverse :
  let f := fq 0x08aad39fba5b1d27bd5706262b1e2ee6c3da7dff5974ecbb0bee2bd75d4bc10973d8e59fd31f225247a335deb379592c in FQ_Equals (FQ_MulAssign f (fst (FQ_Inverse f))) FQOne = true.
Proof. vm_compute. reflexivity. Qed.
(** ** Computed on the machine-integer instance [UB] and carried to the limbs *)
Lemma ku u x f z : RU u x -> RFq f x -> toq u = z -> f = fq z.
Proof. intros H G E. apply (RFq_inj _ _ x G). rewrite <- E, (toq_ok u x H). exact (RFq_fq_of x). Qed.
Lemma ku2 u x f a b : R2 RU u x -> R2 RFq f x -> toq (c0 u) = a -> toq (c1 u) = b -> f = fq2 a b.
Proof. intros [H H'] [G G'] E E'. destruct f as [f f']. unfold fq2. f_equal; [exact (ku _ _ _ _ H G E)|exact (ku _ _ _ _ H' G' E')]. Qed.
Definition uz2 (u : FQ2 UL) : Z * Z := (toq (c0 u), toq (c1 u)).
Lemma ku2' u x f p : R2 RU u x -> R2 RFq f x -> uz2 u = p -> f = fq2 (fst p) (snd p).
Proof. intros H G <-. exact (ku2 _ _ _ _ _ H G eq_refl eq_refl). Qed.

Definition iq2 {F} (i : Z -> F) (a b : Z) : FQ2 F := mkFQ2 (i a) (i b).
Definition inQ (z : Z) : bool := (0 <=? z) && (z <? q).
Definition okI {F} (R : F -> Fq -> Prop) (i : Z -> F) : Prop := forall z, inQ z = true -> R (i z) (z2q z).
Lemma okI_fq : okI RFq fq.
Proof. intros z H. unfold inQ in H. apply andb_true_iff in H. rewrite Z.leb_le, Z.ltb_lt in H. pose proof (RFq_fq_of (z2q z)) as G. unfold fq_of in G. unfold z2q in G at 1. rewrite zof_zp, Z.mod_small in G by lia. exact G. Qed.
Lemma okI_u : okI RU ofm.
Proof. intros z H. unfold inQ in H. apply andb_true_iff in H. rewrite Z.leb_le, Z.ltb_lt in H. apply RU_ofm; lia. Qed.
Lemma rel_iq2 {F} (R : F -> Fq -> Prop) i a b : okI R i -> inQ a && inQ b = true -> R2 R (iq2 i a b) (iq2 z2q a b).
Proof. rewrite andb_true_iff. intros H [Ha Hb]. split; apply H; assumption. Qed.
Lemma kc (f : forall F, BOps F -> (Z -> F) -> FQ2 F) p : (forall F (B : BOps F) R i (HB : RelB B FpB R), okI R i -> R2 R (f F B i) (f _ FpB z2q)) ->
  uz2 (f _ UB ofm) = p -> f _ FqB fq = fq2 (fst p) (snd p).
Proof. intros H E. exact (ku2' _ _ _ _ (H _ UB RU _ _ okI_u) (H _ FqB RFq _ _ okI_fq) E). Qed.
Ltac bq := first [assumption | apply rel_iq2; first [assumption | vm_compute; reflexivity]].

(** fq2_test.go TestFQ2Squaring *)
Example kat_FQ2_Square :
  FQ2_SquareAssign FqB (fq2 1 1) = fq2 0 2 /\
  FQ2_SquareAssign FqB (fq2 0 1) = fq2 4002409555221667393417789825735904156556882819939007885332058136124031650490837864442687629129015664037894272559786 0 /\
  FQ2_SquareAssign FqB (fq2 0x7080c5fa1d8e04241b76dcc1c3fbe5ef7f295a94e58ae7c90e34aab6fb6a6bd4eef5c946536f6029c2c6309bbf8b598 0x10d1615e75250a21fc58a7b7be815407bfb99020604137a0dac5a4c911a4353e6ad3291177c8c7e538f473b3c870a4ab) = fq2 0x7eac81369c433614cf17b5893c3d327cb674157618da1760dc46ab8fad67ae0b9f2a66eae1073baf262c28c538bcf68 0x1542a61c8a8db994739c983042779a6538d0d7275a9689e1e75138bce4cec7aaa23eb7e12dd54d98c1579cf58e980cf8.
Proof.
  repeat apply conj.
  - apply (kc (fun F B i => FQ2_SquareAssign B (iq2 i 1 1)) (0, 2)); [intros F B R i HB Hi; apply rel_FQ2_SquareAssign; bq|vm_compute; reflexivity].
  - apply (kc (fun F B i => FQ2_SquareAssign B (iq2 i 0 1)) (4002409555221667393417789825735904156556882819939007885332058136124031650490837864442687629129015664037894272559786, 0)); [intros F B R i HB Hi; apply rel_FQ2_SquareAssign; bq|vm_compute; reflexivity].
  - apply (kc (fun F B i => FQ2_SquareAssign B (iq2 i 0x7080c5fa1d8e04241b76dcc1c3fbe5ef7f295a94e58ae7c90e34aab6fb6a6bd4eef5c946536f6029c2c6309bbf8b598 0x10d1615e75250a21fc58a7b7be815407bfb99020604137a0dac5a4c911a4353e6ad3291177c8c7e538f473b3c870a4ab)) (0x7eac81369c433614cf17b5893c3d327cb674157618da1760dc46ab8fad67ae0b9f2a66eae1073baf262c28c538bcf68, 0x1542a61c8a8db994739c983042779a6538d0d7275a9689e1e75138bce4cec7aaa23eb7e12dd54d98c1579cf58e980cf8)); [intros F B R i HB Hi; apply rel_FQ2_SquareAssign; bq|vm_compute; reflexivity].
Qed.
(** fq2_test.go TestFQ2Mul *)
Example kat_FQ2_Mul :
  FQ2_MulAssign FqB (fq2 787155314249811040945591987890197698923521563000754191852630526325910580973833767165585004431929413598958418534147 3701300508704531706796752084315366662585685126320813849768310480839238335689933757701592694115590705658584012352975) (fq2 428812050294605776242613635112226565923171104978712194146076278968219164256021918826122932548851868482795586147198 3983398787459011889399209724009438146317670502764434060579092960070359230210191684510008045453936255762435213464276) = fq2 3589136112018482378111625145859346905296349062557304864057134187313531783880863512355763193523645312504462844151780 297668880544309439220785639618566999376775158493905442186353189401526493115249312794616596981510685741636811493754.
Proof.
  repeat apply conj.
  - apply (kc (fun F B i => FQ2_MulAssign B (iq2 i 787155314249811040945591987890197698923521563000754191852630526325910580973833767165585004431929413598958418534147 3701300508704531706796752084315366662585685126320813849768310480839238335689933757701592694115590705658584012352975) (iq2 i 428812050294605776242613635112226565923171104978712194146076278968219164256021918826122932548851868482795586147198 3983398787459011889399209724009438146317670502764434060579092960070359230210191684510008045453936255762435213464276)) (3589136112018482378111625145859346905296349062557304864057134187313531783880863512355763193523645312504462844151780, 297668880544309439220785639618566999376775158493905442186353189401526493115249312794616596981510685741636811493754)); [intros F B R i HB Hi; apply rel_FQ2_MulAssign; bq|vm_compute; reflexivity].
Qed.
(** fq2_test.go TestFQ2Inverse *)
Example kat_FQ2_Inverse :
  fst (FQ2_InverseAssign FqB (fq2 787155314249811040945591987890197698923521563000754191852630526325910580973833767165585004431929413598958418534147 3701300508704531706796752084315366662585685126320813849768310480839238335689933757701592694115590705658584012352975)) = fq2 2973628342543885151746258559273164780300946315949957485732289400047711856966246507651218645021769655299729012680084 2498621830671500058873354492670308521035465162737562150317014095994530700756690595853342128497677859200322409409716.
Proof.
  repeat apply conj.
  - apply (kc (fun F B i => fst (FQ2_InverseAssign B (iq2 i 787155314249811040945591987890197698923521563000754191852630526325910580973833767165585004431929413598958418534147 3701300508704531706796752084315366662585685126320813849768310480839238335689933757701592694115590705658584012352975))) (2973628342543885151746258559273164780300946315949957485732289400047711856966246507651218645021769655299729012680084, 2498621830671500058873354492670308521035465162737562150317014095994530700756690595853342128497677859200322409409716)); [intros F B R i HB Hi; refine (proj1 (rel_FQ2_InverseAssign _ _ _ _ _ _)); bq|vm_compute; reflexivity].
Qed.
(** and zero has no inverse *)
Example kat_FQ2_Inverse_zero : snd (FQ2_InverseAssign FqB (FQ2Zero FqB)) = false.
Proof. vm_compute. reflexivity. Qed.
(** fq2_test.go TestFQ2Addition *)
Example kat_FQ2_Addition :
  FQ2_AddAssign FqB (fq2 149598838772691373030373252224260385709104435267292980765191905060056642409050296541472646296924142271996639838151 181009733668961021523236619221743585335449215747654796739195280796206588018924306389615593874039575085936328761563) (fq2 3048378325167389389927636537438764659078261027448144976696012669013445082263630955837031612987742627153430205370098 2745732935355827219217491212445536316258315122004495924168966599922007114897473294472413581011479900113332636006841) = fq2 3197977163940080762958009789663025044787365462715437957461204574073501724672681252378504259284666769425426845208249 2926742669024788240740727831667279901593764337752150720908161880718213702916397600862029174885519475199268964768404.
Proof.
  repeat apply conj.
  - apply (kc (fun F B i => FQ2_AddAssign B (iq2 i 149598838772691373030373252224260385709104435267292980765191905060056642409050296541472646296924142271996639838151 181009733668961021523236619221743585335449215747654796739195280796206588018924306389615593874039575085936328761563) (iq2 i 3048378325167389389927636537438764659078261027448144976696012669013445082263630955837031612987742627153430205370098 2745732935355827219217491212445536316258315122004495924168966599922007114897473294472413581011479900113332636006841)) (3197977163940080762958009789663025044787365462715437957461204574073501724672681252378504259284666769425426845208249, 2926742669024788240740727831667279901593764337752150720908161880718213702916397600862029174885519475199268964768404)); [intros F B R i HB Hi; apply rel_FQ2_AddAssign; bq|vm_compute; reflexivity].
Qed.
(** fq2_test.go TestFQ2Subtraction *)
Example kat_FQ2_Subtraction :
  FQ2_SubAssign FqB (fq2 149598838772691373030373252224260385709104435267292980765191905060056642409050296541472646296924142271996639838151 181009733668961021523236619221743585335449215747654796739195280796206588018924306389615593874039575085936328761563) (fq2 3048378325167389389927636537438764659078261027448144976696012669013445082263630955837031612987742627153430205370098 2745732935355827219217491212445536316258315122004495924168966599922007114897473294472413581011479900113332636006841) = fq2 1103630068826969376520526540521399883187726227758155889401237372170643210636257205147128662438197179156460707027840 1437686353534801195723535232512111425634016913682166757902286816998231123612288876359889641991575339010497965314509.
Proof.
  repeat apply conj.
  - apply (kc (fun F B i => FQ2_SubAssign B (iq2 i 149598838772691373030373252224260385709104435267292980765191905060056642409050296541472646296924142271996639838151 181009733668961021523236619221743585335449215747654796739195280796206588018924306389615593874039575085936328761563) (iq2 i 3048378325167389389927636537438764659078261027448144976696012669013445082263630955837031612987742627153430205370098 2745732935355827219217491212445536316258315122004495924168966599922007114897473294472413581011479900113332636006841)) (1103630068826969376520526540521399883187726227758155889401237372170643210636257205147128662438197179156460707027840, 1437686353534801195723535232512111425634016913682166757902286816998231123612288876359889641991575339010497965314509)); [intros F B R i HB Hi; apply rel_FQ2_SubAssign; bq|vm_compute; reflexivity].
Qed.
(** fq2_test.go TestFQ2Negation *)
Example kat_FQ2_Negation :
  FQ2_NegAssign FqB (fq2 149598838772691373030373252224260385709104435267292980765191905060056642409050296541472646296924142271996639838151 181009733668961021523236619221743585335449215747654796739195280796206588018924306389615593874039575085936328761563) = fq2 3852810716448976020387416573511643770847778384671714904566866231063975008081787567901214982832091521765897632721636 3821399821552706371894553206514160571221433604191353088592862855327825062471913558053072035254976088951957943798224.
Proof.
  repeat apply conj.
  - apply (kc (fun F B i => FQ2_NegAssign B (iq2 i 149598838772691373030373252224260385709104435267292980765191905060056642409050296541472646296924142271996639838151 181009733668961021523236619221743585335449215747654796739195280796206588018924306389615593874039575085936328761563)) (3852810716448976020387416573511643770847778384671714904566866231063975008081787567901214982832091521765897632721636, 3821399821552706371894553206514160571221433604191353088592862855327825062471913558053072035254976088951957943798224)); [intros F B R i HB Hi; apply rel_FQ2_NegAssign; bq|vm_compute; reflexivity].
Qed.
(** fq2_test.go TestFQ2Doubling *)
Example kat_FQ2_Doubling :
  FQ2_DoubleAssign FqB (fq2 149598838772691373030373252224260385709104435267292980765191905060056642409050296541472646296924142271996639838151 181009733668961021523236619221743585335449215747654796739195280796206588018924306389615593874039575085936328761563) = fq2 299197677545382746060746504448520771418208870534585961530383810120113284818100593082945292593848284543993279676302 362019467337922043046473238443487170670898431495309593478390561592413176037848612779231187748079150171872657523126.
Proof.
  repeat apply conj.
  - apply (kc (fun F B i => FQ2_DoubleAssign B (iq2 i 149598838772691373030373252224260385709104435267292980765191905060056642409050296541472646296924142271996639838151 181009733668961021523236619221743585335449215747654796739195280796206588018924306389615593874039575085936328761563)) (299197677545382746060746504448520771418208870534585961530383810120113284818100593082945292593848284543993279676302, 362019467337922043046473238443487170670898431495309593478390561592413176037848612779231187748079150171872657523126)); [intros F B R i HB Hi; apply rel_FQ2_DoubleAssign; bq|vm_compute; reflexivity].
Qed.
(** fq2_test.go TestFQ2FrobeniusMap *)
Example kat_FQ2_Frobenius :
  FQ2_FrobeniusMapAssign FqB (fq2 149598838772691373030373252224260385709104435267292980765191905060056642409050296541472646296924142271996639838151 181009733668961021523236619221743585335449215747654796739195280796206588018924306389615593874039575085936328761563) 0 = fq2 149598838772691373030373252224260385709104435267292980765191905060056642409050296541472646296924142271996639838151 181009733668961021523236619221743585335449215747654796739195280796206588018924306389615593874039575085936328761563 /\
  FQ2_FrobeniusMapAssign FqB (fq2 149598838772691373030373252224260385709104435267292980765191905060056642409050296541472646296924142271996639838151 181009733668961021523236619221743585335449215747654796739195280796206588018924306389615593874039575085936328761563) 1 = fq2 149598838772691373030373252224260385709104435267292980765191905060056642409050296541472646296924142271996639838151 3821399821552706371894553206514160571221433604191353088592862855327825062471913558053072035254976088951957943798224 /\
  FQ2_FrobeniusMapAssign FqB (fq2 149598838772691373030373252224260385709104435267292980765191905060056642409050296541472646296924142271996639838151 3821399821552706371894553206514160571221433604191353088592862855327825062471913558053072035254976088951957943798224) 1 = fq2 149598838772691373030373252224260385709104435267292980765191905060056642409050296541472646296924142271996639838151 181009733668961021523236619221743585335449215747654796739195280796206588018924306389615593874039575085936328761563 /\
  FQ2_FrobeniusMapAssign FqB (fq2 149598838772691373030373252224260385709104435267292980765191905060056642409050296541472646296924142271996639838151 181009733668961021523236619221743585335449215747654796739195280796206588018924306389615593874039575085936328761563) 2 = fq2 149598838772691373030373252224260385709104435267292980765191905060056642409050296541472646296924142271996639838151 181009733668961021523236619221743585335449215747654796739195280796206588018924306389615593874039575085936328761563.
Proof.
  repeat apply conj.
  - apply (kc (fun F B i => FQ2_FrobeniusMapAssign B (iq2 i 149598838772691373030373252224260385709104435267292980765191905060056642409050296541472646296924142271996639838151 181009733668961021523236619221743585335449215747654796739195280796206588018924306389615593874039575085936328761563) 0) (149598838772691373030373252224260385709104435267292980765191905060056642409050296541472646296924142271996639838151, 181009733668961021523236619221743585335449215747654796739195280796206588018924306389615593874039575085936328761563)); [intros F B R i HB Hi; apply rel_FQ2_FrobeniusMapAssign; bq|vm_compute; reflexivity].
  - apply (kc (fun F B i => FQ2_FrobeniusMapAssign B (iq2 i 149598838772691373030373252224260385709104435267292980765191905060056642409050296541472646296924142271996639838151 181009733668961021523236619221743585335449215747654796739195280796206588018924306389615593874039575085936328761563) 1) (149598838772691373030373252224260385709104435267292980765191905060056642409050296541472646296924142271996639838151, 3821399821552706371894553206514160571221433604191353088592862855327825062471913558053072035254976088951957943798224)); [intros F B R i HB Hi; apply rel_FQ2_FrobeniusMapAssign; bq|vm_compute; reflexivity].
  - apply (kc (fun F B i => FQ2_FrobeniusMapAssign B (iq2 i 149598838772691373030373252224260385709104435267292980765191905060056642409050296541472646296924142271996639838151 3821399821552706371894553206514160571221433604191353088592862855327825062471913558053072035254976088951957943798224) 1) (149598838772691373030373252224260385709104435267292980765191905060056642409050296541472646296924142271996639838151, 181009733668961021523236619221743585335449215747654796739195280796206588018924306389615593874039575085936328761563)); [intros F B R i HB Hi; apply rel_FQ2_FrobeniusMapAssign; bq|vm_compute; reflexivity].
  - apply (kc (fun F B i => FQ2_FrobeniusMapAssign B (iq2 i 149598838772691373030373252224260385709104435267292980765191905060056642409050296541472646296924142271996639838151 181009733668961021523236619221743585335449215747654796739195280796206588018924306389615593874039575085936328761563) 2) (149598838772691373030373252224260385709104435267292980765191905060056642409050296541472646296924142271996639838151, 181009733668961021523236619221743585335449215747654796739195280796206588018924306389615593874039575085936328761563)); [intros F B R i HB Hi; apply rel_FQ2_FrobeniusMapAssign; bq|vm_compute; reflexivity].
Qed.
(** fq2_test.go TestFQ2Ordering *)
Example kat_FQ2_Cmp :
  FQ2_Cmp FqB (fq2 0 0) (fq2 0 0) = 0 /\
  (FQ2_Cmp FqB (fq2 0 0) (fq2 1 0) <? 0) = true /\
  FQ2_Cmp FqB (fq2 1 0) (fq2 1 0) = 0 /\
  (FQ2_Cmp FqB (fq2 1 0) (fq2 1 1) <? 0) = true /\
  (FQ2_Cmp FqB (fq2 2 0) (fq2 1 1) <? 0) = true /\
  (0 <? FQ2_Cmp FqB (fq2 2 1) (fq2 1 1)) = true /\
  FQ2_Cmp FqB (fq2 2 1) (fq2 2 1) = 0.
Proof. repeat split; vm_compute; reflexivity. Qed.
Lemma HashG1_kat sha m x y : option_map (fun h => (toq (ax h), toq (ay h), ainf h)) (HashG1 sha UB m) = Some (x, y, false) -> HashG1 sha FqB m = Some (mkAff (fq x) (fq y) false).
Proof.
  intros E. pose proof (rel_HashG1 UB FpB RU sha m) as H. pose proof (rel_HashG1 FqB FpB RFq sha m) as G.
  destruct (HashG1 sha UB m) as [u|]; [|discriminate E]. destruct (HashG1 sha FpB m) as [h|]; [|contradiction H]. destruct (HashG1 sha FqB m) as [f|]; [|contradiction G].
  destruct H as (H1 & H2 & H3), G as (G1 & G2 & G3). cbn [option_map] in E. injection E as E1 E2 E3. destruct f as [fx fy fi]. cbn [ax ay ainf] in *.
  rewrite (ku _ _ _ _ H1 G1 E1), (ku _ _ _ _ H2 G2 E2), G3, <- H3, E3. reflexivity.
Qed.
Lemma HashG2_kat sha m x y : option_map (fun h => (uz2 (ax h), uz2 (ay h), ainf h)) (HashG2 sha UB m) = Some (x, y, false) ->
  HashG2 sha FqB m = Some (mkAff (fq2 (fst x) (snd x)) (fq2 (fst y) (snd y)) false).
Proof.
  intros E. pose proof (rel_HashG2 UB FpB RU sha m) as H. pose proof (rel_HashG2 FqB FpB RFq sha m) as G.
  destruct (HashG2 sha UB m) as [u|]; [|discriminate E]. destruct (HashG2 sha FpB m) as [h|]; [|contradiction H]. destruct (HashG2 sha FqB m) as [f|]; [|contradiction G].
  destruct H as (H1 & H2 & H3), G as (G1 & G2 & G3). cbn [option_map] in E. assert (uz2 (ax u) = x /\ uz2 (ay u) = y /\ ainf u = false) as (E1 & E2 & E3) by (injection E; auto).
  destruct f as [fx fy fi]. cbn [ax ay ainf] in *. rewrite (ku2' _ _ _ _ H1 G1 E1), (ku2' _ _ _ _ H2 G2 E2), G3, <- H3, E3. reflexivity.
Qed.
Lemma HashG2WithDomain_kat sha fuel m d l : sha_ok sha -> option_map (fun h => CompressG2 UB (G2_ToAffine (FQ2O UB) h)) (HashG2WithDomain_fuel sha UB fuel m d) = Some l ->
  option_map (fun h => CompressG2 FqB (G2_ToAffine (FQ2O FqB) h)) (HashG2WithDomain_fuel sha FqB fuel m d) = Some l.
Proof.
  intros S E. pose proof (rel_HashG2WithDomain_fuel UB FpB RU sha fuel m d S) as H. pose proof (rel_HashG2WithDomain_fuel FqB FpB RFq sha fuel m d S) as G.
  destruct (HashG2WithDomain_fuel sha UB fuel m d) as [u|]; [|discriminate E]. destruct (HashG2WithDomain_fuel sha FpB fuel m d) as [h|]; [|contradiction H]. destruct (HashG2WithDomain_fuel sha FqB fuel m d) as [f|]; [|contradiction G].
  cbn [option_map optR] in *. rewrite <- E. f_equal. transitivity (CompressG2 FpB (G2_ToAffine (FQ2O FpB) h)).
  - apply (rel_CompressG2 FqB FpB RFq), (rel_G2_ToAffine _ _ _ (rel_FQ2O FqB FpB RFq)). exact G.
  - symmetry. apply (rel_CompressG2 UB FpB RU), (rel_G2_ToAffine _ _ _ (rel_FQ2O UB FpB RU)). exact H.
Qed.

(** the bytes of "the message to be signed" *)
Definition msg_signed : list Z := [116; 104; 101; 32; 109; 101; 115; 115; 97; 103; 101; 32; 116; 111; 32; 98; 101; 32; 115; 105; 103; 110; 101; 100].
(** hash_test.go TestHashG1 *)
Theorem kat_HashG1 : HashG1 sha256 FqB msg_signed = Some (mkAff (fq 0x157b33991dfbf91105d15160da770421049539e3708dbe7d0fac0bcdcf70cde4e0ba392e05d248ebeea681629653501e)
  (fq 0x186b975a6b00f9ed4f4415de4a7df651ed0d1ac4a2e50d145028b596b6493ec4ec6a3259d4897676c2c2c67af5f581d5) false).
Proof. apply HashG1_kat. vm_compute. reflexivity. Qed.
(** hash_test.go TestHashG2; the Go test compares with G2Affine.Equals, which accepts any two finite points (C27) *)
Theorem kat_HashG2 : HashG2 sha256 FqB msg_signed = Some (mkAff
  (fq2 0xcac64370233bfc0a5cb46981969ef1aec583bb661084c7940581cda548f5bf015c74bf23ccdb87816a3cd96ebdb2bfd
       0x11f6e0fdfbc31b55c04cda9c896099c9f135c2eb2c504cfe0b98e98ef0e511583a9b1eb47b4c19904d820c2eab6608a9)
  (fq2 0x19ffc47d113a320834d1b3979a932c1224195be2cd83b7cd70e1800b56d9a8b94a3ce0e303cdda31e191ecc48223906f
       0xc75d7aae0477efd4219f9d01950fa9e83378162d7befe1e9df0e506503f04d7a49250d6a85f09dffa245a8fe583d3fd) false).
Proof.
  apply (HashG2_kat sha256 msg_signed
    (0xcac64370233bfc0a5cb46981969ef1aec583bb661084c7940581cda548f5bf015c74bf23ccdb87816a3cd96ebdb2bfd, 0x11f6e0fdfbc31b55c04cda9c896099c9f135c2eb2c504cfe0b98e98ef0e511583a9b1eb47b4c19904d820c2eab6608a9)
    (0x19ffc47d113a320834d1b3979a932c1224195be2cd83b7cd70e1800b56d9a8b94a3ce0e303cdda31e191ecc48223906f, 0xc75d7aae0477efd4219f9d01950fa9e83378162d7befe1e9df0e506503f04d7a49250d6a85f09dffa245a8fe583d3fd)).
  vm_compute. reflexivity.
Qed.
(** hash_test.go TestHashG2WithDomain *)
Theorem kat_HashG2WithDomain : option_map (fun h => CompressG2 FqB (G2_ToAffine (FQ2O FqB) h)) (HashG2WithDomain_fuel sha256 FqB 50 (repeat 0 32) (repeat 0 8)) =
  Some [166; 239; 41; 231; 36; 30; 26; 28; 198; 15; 238; 50; 142; 50; 144; 192; 35; 213; 90; 103; 1; 219; 80; 14; 239; 171; 127; 145; 57; 26; 139; 135; 38; 253; 0; 36; 18; 30; 100; 99; 114; 129; 249; 7; 19; 127; 226; 104; 24; 123; 75; 172; 163; 99; 136; 233; 97; 148; 183; 58; 125; 83; 47; 110; 234; 107; 192; 152; 119; 141; 191; 211; 64; 69; 132; 97; 59; 91; 169; 218; 151; 213; 96; 46; 49; 253; 190; 146; 112; 184; 99; 135; 101; 41; 178; 84].
Proof. apply HashG2WithDomain_kat; [exact sha256_ok|]. vm_compute. reflexivity. Qed.
(** g1pubs/bls_test.go and g2pubs/bls_test.go TestDeriveSecretKey *)
Theorem kat_DeriveSecretKey : DeriveSecretKey sha256 [49; 49; 50; 50; 51; 51; 52; 52; 53; 53; 54; 54; 55; 55; 56; 56; 57; 57; 48; 48; 49; 49; 50; 50; 51; 51; 52; 52; 53; 53; 54; 54] =
  FRReprToFR (FRRepr_const 0x414e2c2a330cf94edb70e1c88efa851e80fe5eb14ff08fe5b7e588b4fe9899e4).
Proof. vm_compute. reflexivity. Qed.
(** pairing_test.go TestResultAgainstRelic *)
Lemma ku6 u x f a b c : R6 RU u x -> R6 RFq f x -> uz2 (d0 u) = a -> uz2 (d1 u) = b -> uz2 (d2 u) = c -> f = mkFQ6 (fq2 (fst a) (snd a)) (fq2 (fst b) (snd b)) (fq2 (fst c) (snd c)).
Proof. intros (H0 & H1 & H2) (G0 & G1 & G2) E0 E1 E2. destruct f as [f0 f1 f2]. f_equal; [exact (ku2' _ _ _ _ H0 G0 E0)|exact (ku2' _ _ _ _ H1 G1 E1)|exact (ku2' _ _ _ _ H2 G2 E2)]. Qed.
Lemma Pairing_kat a b c d e f : uz2 (d0 (e0 u_e)) = a -> uz2 (d1 (e0 u_e)) = b -> uz2 (d2 (e0 u_e)) = c -> uz2 (d0 (e1 u_e)) = d -> uz2 (d1 (e1 u_e)) = e -> uz2 (d2 (e1 u_e)) = f ->
  Pairing FqB (G1ProjectiveOne FqB) (G2ProjectiveOne FqB) =
    Some (mkFQ12 (mkFQ6 (fq2 (fst a) (snd a)) (fq2 (fst b) (snd b)) (fq2 (fst c) (snd c))) (mkFQ6 (fq2 (fst d) (snd d)) (fq2 (fst e) (snd e)) (fq2 (fst f) (snd f)))).
Proof.
  intros Ea Eb Ec Ed Ee Ef. pose proof Pairing_one_rel as H.
  pose proof (rel_Pairing FqB FpB RFq _ _ _ _ (rel_G1ProjectiveOne FqB FpB RFq) (rel_G2ProjectiveOne FqB FpB RFq)) as G.
  destruct (Pairing FpB (G1ProjectiveOne FpB) (G2ProjectiveOne FpB)) as [h|]; [|contradiction H].
  destruct (Pairing FqB (G1ProjectiveOne FqB) (G2ProjectiveOne FqB)) as [[g0 g1]|]; [|contradiction G].
  destruct H as [H0 H1], G as [G0 G1]. cbn [e0 e1] in G0, G1. do 2 f_equal; [exact (ku6 _ _ _ _ _ _ H0 G0 Ea Eb Ec)|exact (ku6 _ _ _ _ _ _ H1 G1 Ed Ee Ef)].
Qed.
Theorem kat_Pairing : Pairing FqB (G1ProjectiveOne FqB) (G2ProjectiveOne FqB) = Some (mkFQ12
  (mkFQ6 (fq2 2819105605953691245277803056322684086884703000473961065716485506033588504203831029066448642358042597501014294104502 1323968232986996742571315206151405965104242542339680722164220900812303524334628370163366153839984196298685227734799) (fq2 2987335049721312504428602988447616328830341722376962214011674875969052835043875658579425548512925634040144704192135 3879723582452552452538684314479081967502111497413076598816163759028842927668327542875108457755966417881797966271311) (fq2 261508182517997003171385743374653339186059518494239543139839025878870012614975302676296704930880982238308326681253 231488992246460459663813598342448669854473942105054381511346786719005883340876032043606739070883099647773793170614))
  (mkFQ6 (fq2 3993582095516422658773669068931361134188738159766715576187490305611759126554796569868053818105850661142222948198557 1074773511698422344502264006159859710502164045911412750831641680783012525555872467108249271286757399121183508900634) (fq2 2727588299083545686739024317998512740561167011046940249988557419323068809019137624943703910267790601287073339193943 493643299814437640914745677854369670041080344349607504656543355799077485536288866009245028091988146107059514546594) (fq2 734401332196641441839439105942623141234148957972407782257355060229193854324927417865401895596108124443575283868655 2348330098288556420918672502923664952620152483128593484301759394583320358354186482723629999370241674973832318248497))).
Proof.
  refine (Pairing_kat (2819105605953691245277803056322684086884703000473961065716485506033588504203831029066448642358042597501014294104502, 1323968232986996742571315206151405965104242542339680722164220900812303524334628370163366153839984196298685227734799) (2987335049721312504428602988447616328830341722376962214011674875969052835043875658579425548512925634040144704192135, 3879723582452552452538684314479081967502111497413076598816163759028842927668327542875108457755966417881797966271311) (261508182517997003171385743374653339186059518494239543139839025878870012614975302676296704930880982238308326681253, 231488992246460459663813598342448669854473942105054381511346786719005883340876032043606739070883099647773793170614) (3993582095516422658773669068931361134188738159766715576187490305611759126554796569868053818105850661142222948198557, 1074773511698422344502264006159859710502164045911412750831641680783012525555872467108249271286757399121183508900634) (2727588299083545686739024317998512740561167011046940249988557419323068809019137624943703910267790601287073339193943, 493643299814437640914745677854369670041080344349607504656543355799077485536288866009245028091988146107059514546594) (734401332196641441839439105942623141234148957972407782257355060229193854324927417865401895596108124443575283868655, 2348330098288556420918672502923664952620152483128593484301759394583320358354186482723629999370241674973832318248497) _ _ _ _ _ _); vm_compute; reflexivity.
Qed.
(** g1_test.go TestG1DoublingCorrectness *)
Example kat_G1_Double :
  G1Affine_Equals FqO (G1_ToAffine FqO (Double FqO (mkProj (fql 0x47fd1f891d6e8bbf 0x79a3b0448f31a2aa 0x81f3339e5f9968f 0x485e77d50a5df10d 0x4c6fcac4b55fd479 0x86ed4d9906fb064) (fql 0xd25ee6461538c65 0x9f3bbb2ecd3719b9 0xa06fd3f1e540910d 0xcefca68333c35288 0x570c8005f8573fa6 0x152ca696fe034442) FQOne))) (NewAffine (fql 0xf939ddfe0ead7018 0x3b03942e732aecb 0xce0e9c38fdb11851 0x4b914c16687dcde0 0x66c8baf177d20533 0xaf960cff3d83833) (fql 0x3f0675695f5177a8 0x2b6d82ae178a1ba0 0x9096380dd8e51b11 0x1771a65b60572f4e 0x8b547c1313b27555 0x135075589a687b1e)) = true.
Proof. vm_compute. reflexivity. Qed.
(** g1_test.go TestG1AdditionCorrectness *)
Example kat_G1_Add :
  G1Affine_Equals FqO (G1_ToAffine FqO (Add FqO (mkProj (fql 0x47fd1f891d6e8bbf 0x79a3b0448f31a2aa 0x81f3339e5f9968f 0x485e77d50a5df10d 0x4c6fcac4b55fd479 0x86ed4d9906fb064) (fql 0xd25ee6461538c65 0x9f3bbb2ecd3719b9 0xa06fd3f1e540910d 0xcefca68333c35288 0x570c8005f8573fa6 0x152ca696fe034442) FQOne) (mkProj (fql 0xeec78f3096213cbf 0xa12beb1fea1056e6 0xc286c0211c40dd54 0x5f44314ec5e3fb03 0x24e8538737c6e675 0x8abd623a594fba8) (fql 0x6b0528f088bb7044 0x2fdeb5c82917ff9e 0x9a5181f2fac226ad 0xd65104c6f95a872a 0x1f2998a5a9c61253 0xe74846154a9e44) FQOne))) (NewAffine (fql 0x6dd3098f22235df 0xe865d221c8090260 0xeb96bb99fa50779f 0xc4f9a52a428e23bb 0xd178b28dd4f407ef 0x17fb8905e9183c69) (fql 0xd0de9d65292b7710 0xf6a05f2bcf1d9ca7 0x1040e27012f20b64 0xeec8d1a5b7466c58 0x4bc362649dce6376 0x430cbdc5455b00a)) = true.
Proof. vm_compute. reflexivity. Qed.
(** g1pubs/bls_test.go and g2pubs/bls_test.go TestPubkeyDeserializeInvalid *)
Lemma invalid1 l : Forall isByte l -> length l = 48%nat -> DecompressG1 UB l = None -> g1pubs_DeserializePublicKey FqB l = None.
Proof. intros Hb Hl E. unfold g1pubs_DeserializePublicKey. pose proof (rel_DecompressG1 UB FpB RU l Hb Hl) as H. pose proof (rel_DecompressG1 FqB FpB RFq l Hb Hl) as G. rewrite E in H. destruct (DecompressG1 FpB l); [contradiction H|]. destruct (DecompressG1 FqB l); [contradiction G|reflexivity]. Qed.
Lemma invalid2 l : Forall isByte l -> length l = 96%nat -> DecompressG2 UB l = None -> g2pubs_DeserializePublicKey FqB l = None.
Proof. intros Hb Hl E. unfold g2pubs_DeserializePublicKey. pose proof (rel_DecompressG2 UB FpB RU l Hb Hl) as H. pose proof (rel_DecompressG2 FqB FpB RFq l Hb Hl) as G. rewrite E in H. destruct (DecompressG2 FpB l); [contradiction H|]. destruct (DecompressG2 FqB l); [contradiction G|reflexivity]. Qed.
Theorem kat_invalid_keys :
  g1pubs_DeserializePublicKey FqB [181; 164; 78; 152; 212; 80; 242; 102; 86; 123; 224; 216; 46; 96; 217; 101; 170; 135; 3; 247; 58; 154; 113; 170; 3; 185; 130; 21; 68; 79; 120; 29; 0; 0; 0; 0; 0; 0; 0; 0; 0; 0; 0; 0; 0; 0; 0; 0] = None /\
  g2pubs_DeserializePublicKey FqB [181; 164; 78; 152; 228; 80; 242; 102; 86; 123; 224; 216; 46; 96; 217; 101; 170; 135; 3; 247; 58; 154; 113; 170; 3; 185; 130; 21; 68; 79; 120; 29; 0; 0; 0; 0; 0; 0; 0; 0; 0; 0; 0; 0; 0; 0; 0; 0; 181; 164; 78; 152; 212; 80; 242; 102; 86; 123; 224; 216; 46; 96; 217; 101; 170; 135; 3; 247; 58; 154; 113; 170; 3; 185; 130; 21; 68; 79; 120; 29; 0; 0; 0; 0; 0; 0; 0; 0; 0; 0; 0; 0; 0; 0; 0; 0] = None.
Proof. split; [apply invalid1|apply invalid2]; [repeat constructor; unfold isByte; lia|reflexivity|vm_compute; reflexivity|repeat constructor; unfold isByte; lia|reflexivity|vm_compute; reflexivity]. Qed.
(** fq2_test.go TestFQ2Sqrt and TestFQ2Legendre *)
Lemma Sqrt_kat a b x y : (let '(u, ok) := FQ2_Sqrt UB (iq2 ofm a b) in (uz2 u, ok)) = ((x, y), true) ->
  inQ a && inQ b = true -> FQ2_Sqrt FqB (fq2 a b) = (fq2 x y, true).
Proof.
  intros E W.
  pose proof (rel_FQ2_Sqrt UB FpB RU _ _ (rel_iq2 RU _ _ _ okI_u W)) as H. pose proof (rel_FQ2_Sqrt FqB FpB RFq _ _ (rel_iq2 RFq _ _ _ okI_fq W)) as G. change (iq2 fq a b) with (fq2 a b) in G.
  destruct (FQ2_Sqrt UB _) as [u ok]. destruct (FQ2_Sqrt FpB _) as [h ok']. destruct (FQ2_Sqrt FqB (fq2 a b)) as [f ok'']. destruct H as [H H'], G as [G G']. cbn [fst snd] in *.
  assert (uz2 u = (x, y) /\ ok = true) as [E1 E2] by (injection E; intros; subst; split; [unfold uz2; congruence|reflexivity]).
  rewrite (ku2' _ _ _ _ H G E1), G', <- H', E2. reflexivity.
Qed.
Theorem kat_FQ2_Sqrt :
  FQ2_Sqrt FqB (fq2 1199141494453035944462437764039889211157529566989597369793908631238550963749870321413115974274142904836460239708711 2275726519012059234888434151906712303065680739818771469342471201468687921783347469538129328635084833206431018046147) =
    (fq2 2610880034315515246135455194558180576521075490930523809216746350127301781195091608845140759868139294094360490170565 1361064970384811010963395494397997021963412519774828006120608106648478662746078959841022528364671568910239381710674, true) /\
  FQ2_Sqrt FqB (fq2 4002409555221667393417789825735904156556882819939007885332058136124031650490837864442687629129015661931409599199851 0) =
    (fq2 0 4002409555221667393417789825735904156556882819939007885332058136124031650490837864442687629129015664037894226663331, true).
Proof. split; apply Sqrt_kat; vm_compute; reflexivity. Qed.
