(** Generated by tools/gen_primality2.py.
    Primality of the prime factors of the orders of the two curve groups (other than r). *)
Require Import ZArith Lia Bool List Znumtheory Uint63.
From Verif Require Import NumTheory Primality UNat PockU.
Import ListNotations.
Open Scope Z_scope.

(** the large prime factor of the G2 cofactor *)
Definition M2 : Z := 402096035359507321594726366720466575392706800671181159425656785868777272553337714697862511267018014931937703598282857976535744623203249.

Lemma prime_3 : prime 3. Proof. trial. Qed.

Lemma prime_11 : prime 11. Proof. trial. Qed.

Lemma prime_13 : prime 13. Proof. trial. Qed.

Lemma prime_23 : prime 23. Proof. trial. Qed.

Lemma prime_541 : prime 541. Proof. trial. Qed.

Lemma prime_2713 : prime 2713. Proof. trial. Qed.

Lemma prime_10177 : prime 10177. Proof. trial. Qed.

Lemma prime_11953 : prime 11953. Proof. trial. Qed.

Lemma prime_262069 : prime 262069. Proof. trial. Qed.

Lemma prime_859267 : prime 859267. Proof. trial. Qed.

Lemma prime_1367711 : prime 1367711. Proof. trial. Qed.

Lemma prime_12192593745179 : prime 12192593745179.
Proof.
  apply (upock_prime _ 2 178438893%uint63 4780301330876 [(1367711,1,8192456486458,3894598672363);
    (541,1,9009397696044,656019246541)]).
  - repeat (apply Forall_cons; [|]); try apply Forall_nil.
    + apply prime_1367711.
    + apply prime_541.
  - vm_cast_no_check (eq_refl true).
Qed.

Lemma prime_512088937297519 : prime 512088937297519.
Proof.
  apply (upock_prime _ 2 481137%uint63 318694337893841 [(12192593745179,1,194591274223640,1671236014601)]).
  - repeat (apply Forall_cons; [|]); try apply Forall_nil.
    + apply prime_12192593745179.
  - vm_cast_no_check (eq_refl true).
Qed.

Lemma prime_1857858664515398933 : prime 1857858664515398933.
Proof.
  apply (upock_prime _ 3 169838019%uint63 843126191973313917 [(512088937297519,1,1236402836366665646,242715108498670789)]).
  - repeat (apply Forall_cons; [|]); try apply Forall_nil.
    + apply prime_512088937297519.
  - vm_cast_no_check (eq_refl true).
Qed.

Lemma prime_22294303974184787197 : prime 22294303974184787197.
Proof.
  apply (upock_prime _ 3 57089963%uint63 13057279889408103236 [(1857858664515398933,1,7523987324132692529,1382)]).
  - repeat (apply Forall_cons; [|]); try apply Forall_nil.
    + apply prime_1857858664515398933.
  - vm_cast_no_check (eq_refl true).
Qed.

Lemma prime_19931107752921199754119 : prime 19931107752921199754119.
Proof.
  apply (upock_prime _ 3 39740873%uint63 6251071538990848541393 [(22294303974184787197,1,9302164181215546643137,1720031852190352550918)]).
  - repeat (apply Forall_cons; [|]); try apply Forall_nil.
    + apply prime_22294303974184787197.
  - vm_cast_no_check (eq_refl true).
Qed.

Lemma prime_81162125843606155545104998607900118769099783 : prime 81162125843606155545104998607900118769099783.
Proof.
  apply (upock_prime _ 6 113522249%uint63 7529431777198160002789794747748686464050845 [(19931107752921199754119,1,17761861072643055516775716555374632761099671,8297851723650343362939944844604774231393420)]).
  - repeat (apply Forall_cons; [|]); try apply Forall_nil.
    + apply prime_19931107752921199754119.
  - vm_cast_no_check (eq_refl true).
Qed.

Lemma prime_26935696298915610574513298451669528361624243820491956655650666425177 : prime 26935696298915610574513298451669528361624243820491956655650666425177.
Proof.
  apply (upock_prime _ 9 129241879%uint63 20026922397111458645239674855964264057419816264481682065864206867629 [(81162125843606155545104998607900118769099783,1,343018900097218335727188288694046116764152099260135964239395187015,82732287457528176083163708104897758152934207321955484304120903437)]).
  - repeat (apply Forall_cons; [|]); try apply Forall_nil.
    + apply prime_81162125843606155545104998607900118769099783.
  - vm_cast_no_check (eq_refl true).
Qed.

Lemma prime_4638704574076146691498289350639807119782054683906549022985642612861209609656189848749536921852444848596916990932297 : prime 4638704574076146691498289350639807119782054683906549022985642612861209609656189848749536921852444848596916990932297.
Proof.
  apply (upock_prime _ 14 198275847%uint63 3748758570855385131223181448819430085637947567663978072658565447227925783186343161832428433684579518928658505372755 [(26935696298915610574513298451669528361624243820491956655650666425177,1,301179848101838158637429221577536891252586276265428575942064732005081606677345289555941200827058757267344231180072,57502527054838020269106976559681710678919672986558618138974031450701229006864073851626303472351614709051792057679)]).
  - repeat (apply Forall_cons; [|]); try apply Forall_nil.
    + apply prime_26935696298915610574513298451669528361624243820491956655650666425177.
  - vm_cast_no_check (eq_refl true).
Qed.

Lemma prime_M2 : prime M2.
Proof.
  apply (upock_prime _ 17 117992111%uint63 159434506332687235846608993159318192061771059424928362067276060732670244801015078553147387797488789490426868053977071697935615031394127 [(4638704574076146691498289350639807119782054683906549022985642612861209609656189848749536921852444848596916990932297,1,319784230445419903509767207952060705769347233125295332290745112750552601258167418384123844594125382842167442337474935395548518455133488,14939213854468705455855564636588888651515482539440038834772064184923203767593361364512923538794145533859135754173203890142669752320879)]).
  - repeat (apply Forall_cons; [|]); try apply Forall_nil.
    + apply prime_4638704574076146691498289350639807119782054683906549022985642612861209609656189848749536921852444848596916990932297.
  - vm_cast_no_check (eq_refl true).
Qed.
