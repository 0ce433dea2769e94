(** Explicit generators of the two curve groups.  Every point of E1 (E2) is an integer combination of the standard generator
    and of the points below; hence the number of points, the structure of the r-torsion and the effect of cofactor clearing. *)
Require Import ZArith Lia Bool List Znumtheory.
From Verif Require Import Words ModelRepr ReprProofs ModelFq ModelOps ModelTower ModelCurve NumTheory Primality PrimCof Fp FpOps FqProofs FqRel OpsRel OpsRel2 Ext TowerProofs TowerLimb Fld EcIdeal EcGroup AbGrp EcMul EcJac Curves CurveLimb CurveMisc LineIdeal Cocycle Recip BilinBase Bilin UNat UInst GenFacts Span EcCount GenCheck.
Import ListNotations.
Open Scope Z_scope.

Definition zcube : Z := 0x5f19672fdf76ce51ba69c6076a0f77eaddb3a93be6f89688de17d813620a00022e01fffffffefffe.
Record zitem (A : Type) := mkZ { z_p : Z; z_k : Z; z_g : A; z_h : option A }.
Arguments mkZ {A}. Arguments z_p {A}. Arguments z_k {A}. Arguments z_g {A}. Arguments z_h {A}.
Definition toitem {A F} (f : A -> Affine F) (t : zitem A) : item F := mkItem (z_p t) (z_k t) (f (z_g t)) (option_map f (z_h t)).
Definition data1 : list (zitem (Z * Z)) := [
  mkZ 3 0 (0x0, 0x1a0111ea397fe69a4b1ba7b6434bacd764774b84f38512bf6730d2a0f6b0f6241eabfffeb153ffffb9feffffffffaaa9) None;
  mkZ 11 0 (0x19b3e2c8c6bbf59d3c326b531fc1e639d29200c28624ac604f251a12908c9b7f735318617f625954cc71cdf03229b1ef, 0x15d1455562b9a28d0f11a69ecd34f5a8ade01df410168a09cf16ccfbcbfc69403c7c5771a05d217a122b795529939e03) (Some (0x6914847d77f917fd0ac677482a9f498a7b6d992989ca59e97d710a22b32b8163022e26af8105dd326a0a89611072b54, 0x15d1455562b9a28d0f11a69ecd34f5a8ade01df410168a09cf16ccfbcbfc69403c7c5771a05d217a122b795529939e03));
  mkZ 10177 4773 (0x193b2cc2a8a222518a034a317b5739ccd4a649411687902474b6c8856f35d618539e97dafa1784403ae4bcd37562c234, 0x10e65a0c79bf17f8e54b43641b540c359525582f787dde24bcaa974ffd96252dfbc15b5c35b6662339ba7b300e597853) (Some (0xa01ad0b0da5ce0eb4be4a1876054dc2bb4a6acb83f49a2dbc1b5488021372ff5249716299b916f8d78e61968ecbd762, 0x10e65a0c79bf17f8e54b43641b540c359525582f787dde24bcaa974ffd96252dfbc15b5c35b6662339ba7b300e597853));
  mkZ 859267 119571 (0x1310f8ec33fd928f6e1574118fda4984a98fc50e5a9d7f131f342d969864bf3812fc1fa57714de7d4c72990b03b5cac7, 0xb71f75142efeb6f73b4e070b254981942311d4464cea42763ea870c91cc82f96d425da39dad33bb87fe9cf643733ec4) (Some (0x134ba0c684aa4fe367df72cc3402dbcc253aba2154dd7ea96d85ef0a88257e864afebe0857b531f6b1d45d5c0bc26315, 0xb71f75142efeb6f73b4e070b254981942311d4464cea42763ea870c91cc82f96d425da39dad33bb87fe9cf643733ec4));
  mkZ 52437899 0 (0x136e825e6cd75a2167f0c44cfadea0ecc43c0be6a51219b5d2c4ae3bd6c77607ea2e1cc2b828fe316f8237382eab63a6, 0x92cc98c21bebc35377c61ebc25f470249cb52810f866f196c07e08efed10dc1509a6c101865e4dbb0bc6cf14b22ac7e) (Some (0x62941155ab7f5b25f46dfb944e7a775bc2f8dd1cb68af333513876c913ce82019a5bdb202a070d3a48bb6093b39caa5, 0x92cc98c21bebc35377c61ebc25f470249cb52810f866f196c07e08efed10dc1509a6c101865e4dbb0bc6cf14b22ac7e))].
Definition data2 : list (zitem ((Z * Z) * (Z * Z))) := [
  mkZ 13 3 ((0x43ff79d06a80add8340a1a548d700c5ffeef5b14a3e246834d320e323d9fcc76bae16f9f2763ab556905843518bc0c2, 0x32762e5199990da7d4ebc6409c2fdae09b25206fa89dded0a23c05406588284278c22ea15e6d03cee69a68b7d4704a4), (0x124826af2beaf60db9ac4620693ac38a55719350dad13f08b0e0a5ddd205f1aab715e3713587964674fd1ac05439a9b8, 0x11d5e237ada20ba34847ca12ae89cf77657a59351cd49236559eba3edcd8229a145a9178d5148b683b4a82fe9b605e8d)) (Some ((0x166514f2c5e208f1facafc08fbc23f6d73899ad2852f52e795727fd31d4dc50f9e476e305a35ce566a49ec74f175c4d8, 0xf21f9ccb75445a9b9edac9ae089c22a872c36aec7bd29c28bd5c74354047e319cd0a6a972239706623ec8bace11e8c7), (0x124826af2beaf60db9ac4620693ac38a55719350dad13f08b0e0a5ddd205f1aab715e3713587964674fd1ac05439a9b8, 0x11d5e237ada20ba34847ca12ae89cf77657a59351cd49236559eba3edcd8229a145a9178d5148b683b4a82fe9b605e8d)));
  mkZ 23 0 ((0x503fbc16c24192886d4bb5c5f791e3c3448dc4e19f0ca8d0bcd6cf6cbe9ccd602478cafaf1d7847458df499807d8ae2, 0x1c8529db7e45f16111c0c95106d37fb89a90afb348c9082db6d49fc34ee0077501c7ac278ed112708313a28768cc52c), (0x18d4bf43f412f6116fb88fdc1d0d907f61675321fc947e19353a18591cb5b55f6bd540bb5b94911d74180b2ffa499b5, 0x510c5b662ad5800e6fcd3bd9206d16611efdf3962673114529041539c9836f34d7cd96cd00dab271abda7b18515a00)) (Some ((0x10d5bd39a3abde3cf2ce3a6cfc49caf6f272b9d5b1e077ca0625070e6214b654b223d83e34a67c883b286234be74df46, 0x49f47840f85144cc02b4c1dfa2172e15e99adf073a46e8e88b7f2a60a469eab061ff876f0ffb808bbd608d415978d78), (0x18d4bf43f412f6116fb88fdc1d0d907f61675321fc947e19353a18591cb5b55f6bd540bb5b94911d74180b2ffa499b5, 0x510c5b662ad5800e6fcd3bd9206d16611efdf3962673114529041539c9836f34d7cd96cd00dab271abda7b18515a00)));
  mkZ 2713 0 ((0xee179345ff775f765953a590c8f3745ecd0ba60010710de6f190322af3dfe1b045246e5d06659cbec34d3a3e94ad785, 0x3fe6d181aad01920fb81d303f5e2b3fbbaab7a1b6596151ef6951e5905537f0734e060cfa03caa38b47456faa438aa6), (0xf832eca0a05fc224b04b97b7ea72417e4c3da5cb63c0d0ed7c907513e8d5a69f50e90f346e5ea8c3d95c77107a1e726, 0xd5c939fb06640a2834976d1a5cb6935601b048b60c78057c71374347507efbfe0ab4a56feddabadfcc748277319345e)) None;
  mkZ 11953 0 ((0x131c61c18d028c6288a8cdaa6b4b2b492aa06c85da88fd4893aae40ab1be2994e9ec1360fb3e49720752bdf0b644d8ff, 0x18c9647206004bac70be168b636322b20cfaded211833a8fe3859f23a5200bb8d5c4ef9cf2f7bced6aefa748d59ad44a), (0x6acc00a7280141e830c56d0ac9062264f82ac65404bc6e9e929da8938240b7ba966826e828d9aae2fcb262106550406, 0x3b79d2663f153ebe52729d022f91e077b84bf3095f3fa04db75c180cca33964ea1ac199ef949e3fa96f3893115bc38b)) None;
  mkZ 262069 0 ((0x1411897d7e25d488bccb28adc0a40ab64b0a29c723a62454c6c4543b3a9cd1670f666e9c3a2bb8de87cc042279b21bf1, 0xb613c71e679fcba121b03a3f58d8031f6c9962218b90020fe6a88f55b898951ee4bb9c36166b2b74f21c60f2681c5f5), (0xadd3e7240d3e58cb7a51ef9dbb33bf21855996b506ab1f71c4c70220093856ce3024c0a61c11ae5a8d0a2413819a993, 0x12a3986894967664951eb72f9b393a00648fe5f0d4a7e6472339fea822fac8bd3ad4d28fae161c502a102456061af6e4)) None;
  mkZ M2 0 ((0x7341f793cf00eb3653c71452f9a0c8fa53fa544dcdc31b6e02004dfb5f003687bc575c57f6675f3047e45e4401c2074, 0xb47a53b816dc15f34ab0d1793e81aab0bbdb40ca1bf0245e4e8a3ea5e8d755ce7dbc0856c1cab50310ca9483126f8c2), (0x12267f214dff9776d556751a956c91699fa9bc20e92da7d3b8dd0d0c477a2f330cf0b339964eb4f87ec31599140f9ef7, 0x143139e0fa576eba6e0b1cc07bb67af942077e389c612b0a4e6604dba870279a8be0bcc2c24315a4ec55fb81678b080a)) None].

Definition mk1 {F} (f : Z -> F) (c : Z * Z) : Affine F := mkAff (f (fst c)) (f (snd c)) false.
Definition mk2 {F} (f : Z -> F) (c : (Z * Z) * (Z * Z)) : Affine (FQ2 F) :=
  let '((a, b), (c, d)) := c in mkAff (mkFQ2 (f a) (f b)) (mkFQ2 (f c) (f d)) false.
Definition items1 {F} (B : BOps F) (f : Z -> F) : list (item F) := mkItem r 0 (G1AffineOne B) None :: map (toitem (mk1 f)) data1.
Definition items2 {F} (B : BOps F) (f : Z -> F) : list (item (FQ2 F)) := mkItem r 0 (G2AffineOne B) None :: map (toitem (mk2 f)) data2.
Lemma rel_items {F F' A} (R : F -> F' -> Prop) (f : A -> Affine F) (f' : A -> Affine F') l : (forall a, RA R (f a) (f' a)) -> Forall2 (Ritem R) (map (toitem f) l) (map (toitem f') l).
Proof. intros H. induction l as [|t l IH]; constructor; [|exact IH]. split; [reflexivity|]. split; [reflexivity|]. split; [apply H|]. cbn [toitem i_h]. destruct (z_h t); cbn [option_map]; [apply H|exact I]. Qed.
Lemma rel_mk1 c : RA RU (mk1 ofm c) (mk1 z2q c).
Proof. split; [apply RU_ofm|]. split; [apply RU_ofm|reflexivity]. Qed.
Lemma rel_mk2 c : RA (R2 RU) (mk2 ofm c) (mk2 z2q c).
Proof. destruct c as [[a b] [c d]]. split; [split; apply RU_ofm|]. split; [split; apply RU_ofm|reflexivity]. Qed.
Lemma rel_items1 : Forall2 (Ritem RU) (items1 UB ofm) (items1 FpB z2q).
Proof. constructor; [|apply rel_items, rel_mk1]. split; [reflexivity|]. split; [reflexivity|]. split; [exact (rel_G1AffineOne UB FpB RU)|exact I]. Qed.
Lemma rel_items2 : Forall2 (Ritem (R2 RU)) (items2 UB ofm) (items2 FpB z2q).
Proof. constructor; [|apply rel_items, rel_mk2]. split; [reflexivity|]. split; [reflexivity|]. split; [exact (rel_G2AffineOne UB FpB RU)|exact I]. Qed.
Definition zeta1 : Fq := z2q zcube.
Definition zeta2 : K2 := mkFQ2 (z2q zcube) (z2q 0).
Lemma check1 : chk_all FpO b1 zeta1 (items1 FpB z2q) = true.
Proof. rewrite <- (r_all UO FpO RU RelO_U (ofm 4) b1 (ofm zcube) zeta1 _ _ (RU_ofm 4) (RU_ofm zcube) rel_items1). vm_cast_no_check (eq_refl true). Qed.
Lemma check2 : chk_all (FQ2O FpB) b2 zeta2 (items2 FpB z2q) = true.
Proof.
  rewrite <- (r_all (FQ2O UB) (FQ2O FpB) (R2 RU) (rel_FQ2O UB FpB RU) (mkFQ2 (ofm 4) (ofm 4)) b2 (mkFQ2 (ofm zcube) (ofm 0)) zeta2 _ _ (Logic.conj (RU_ofm 4) (RU_ofm 4)) (Logic.conj (RU_ofm zcube) (RU_ofm 0)) rel_items2).
  vm_cast_no_check (eq_refl true).
Qed.
