(** Generated by tools/gen_primality.py.
    The BLS12-381 base-field modulus q and group order r are prime. Checked with Pocklington certificates. *)
Require Import ZArith Lia Bool List Znumtheory.
From Verif Require Import NumTheory.
Import ListNotations.
Open Scope Z_scope.

(** The two moduli, written in decimal. (fq.go:26 and fr.go:16 give them as decimal strings.) *)
Definition q : Z := 4002409555221667393417789825735904156556882819939007885332058136124031650490837864442687629129015664037894272559787.
Definition r : Z := 52435875175126190479447740508185965837690552500527637822603658699938581184513.

Ltac trial := apply trial_prime_spec; vm_cast_no_check (eq_refl true).

Lemma prime_18329 : prime 18329. Proof. trial. Qed.

Lemma prime_110573 : prime 110573. Proof. trial. Qed.

Lemma prime_421987 : prime 421987. Proof. trial. Qed.

Lemma prime_609743 : prime 609743. Proof. trial. Qed.

Lemma prime_755057 : prime 755057. Proof. trial. Qed.

Lemma prime_906349 : prime 906349. Proof. trial. Qed.

Definition main_13090036741 : list (bool * Z) := [(true,0x0);(true,0x0);(false,0x0);(false,0x0);(false,0x0);(false,0x53fe);(true,0x604a64887);(true,0x3bf57795f);(false,0x106b20262);(false,0x5a4ad7ea);(false,0x706e2b27);(false,0x2cee5d86);(true,0x2091aad83);(true,0x1bbef445);(true,0x30c3a4f30);(false,0x1b033bfa8);(true,0x1590ba);(false,0x11917462c);(false,0x28105904f);(false,0x8f3247d);(false,0x93e271a);(true,0x68d91f5c);(true,0x21c527c08);(true,0x7e5f5af1);(false,0x10caeb4b);(false,0xe941c1c6);(false,0x2e1c6a90);(false,0x19922cab2);(false,0xe2b7bff4);(false,0x37a5b855);(false,0x1d5c49d);(true,0x2747037ce);(false,0x388c91a0);(false,0x30c3a1c03)].

Definition cert_13090036741 : list pcert := [(421987,1,[(true,0x0);(true,0x0);(true,0x0);(true,0x0);(false,0x0);(false,0x53fefe5);(true,0x536de0e09);(false,0x1f079d830);(false,0x138d50500);(true,0x2624e3a8);(false,0x2b94e6cd);(true,0x29392b47c);(true,0x4db0d6);(false,0x278eecf56);(false,0x23c0ac5a)],0x236bdc0c9,0x1a2f3a348)].

Lemma prime_13090036741 : prime 13090036741.
Proof.
  apply (pocklington _ main_13090036741 cert_13090036741); [reflexivity| |vm_cast_no_check (eq_refl true)].
  repeat (apply Forall_cons; [|]); try apply Forall_nil.
  - apply prime_421987.
Qed.

Definition main_3819663927398918131021 : list (bool * Z) := [(true,0x0);(true,0x0);(false,0x0);(false,0x0);(true,0x0);(true,0x0);(true,0x9e4012c2);(true,0x59a44f3d9215b2c1e);(false,0x69a42fdef874b5d7df);(false,0x7882b910a4a7bf3);(false,0xc74b7e06e19d7adea0);(true,0x15844971f1eb6c8b0cb);(false,0x3b76c0a4e6962441b0);(false,0x14bdf4b55210d84e85);(false,0x9d3170a625ac59088);(false,0x18f2bc97bb16b54e07);(false,0x1cdc02944434e96c4c);(true,0x10a76086488e3306187);(true,0x1327335b5cab39c5656);(true,0xce1477668ea19de87f);(true,0xb01cc0b5a3a8aced8);(true,0x16c6a54ec5623aba755);(false,0x9485ccc62abd9e0732);(false,0xad5d7a0f082b210e7);(false,0x95053b7dff1ed7059);(true,0xf5bb4fcabcb20dc178);(false,0x10cc104b58210adb19);(false,0xcdaf231f3e857d30eb);(true,0x779e7535768ec6acc7);(false,0x2db0ffd8fbf1da240e);(false,0x403075b06a6c635be6);(false,0xcda4a7a74482913f98);(true,0x330d5b12c4c9a9c777);(false,0x152ac31c5d06d622d4);(false,0x290c42d80bcec96f5f);(false,0x6720d05c53524e28e7);(false,0x5d0e2209061e8d2bfb);(true,0x8587a87547ec715cce);(false,0x4bf56e0927219f93fa);(true,0x6ea66cedebcaca414);(true,0x216d813e28608edb83);(true,0x16f2658a3d295c8d07a);(false,0xb0c9436d31cf372619);(false,0x1f7e68b8cd77018aa6);(false,0x17cd81dcb3400ca02c);(false,0x187c84080f240331b);(false,0xc0f8ef7e405ed15b6b);(true,0x1edf778708fe00787e);(true,0x52161ec1f38c0539d8);(true,0xd3678431def9979faf);(true,0xac962b33041ef738da);(true,0x445f4ab21854986e32);(false,0xeda89da752df36bae);(true,0x8dcd27175380c1b63);(true,0x333a73c426e91987b7);(false,0x5e6751a36c7618fe6);(false,0x58dc0105d24a3b71d5);(false,0x2b08c3a9798eab54b1);(false,0x158cb384046df4d81d);(false,0x609f17a7eec7198fb5);(true,0xa8bf6d1a153e9876d);(true,0x83e94835f7870ee525);(false,0x9010b0a73f37efea51);(true,0x56a83f4ce05d84706);(false,0xb88f17cda3d83041ea);(true,0x495ddd84889dcf634f);(false,0x9df6abc08049fec66);(false,0x81478b31739337376e);(true,0x192fedf4123df19dad0);(true,0x6340bdcfe1a3dc9b99);(false,0xc6817b9fc347b93731);(false,0xcf107c4885c1f60d4b)].

Definition cert_3819663927398918131021 : list pcert := [(13090036741,1,[(true,0x0);(false,0x0);(false,0x0);(false,0x0);(false,0x0);(true,0x0);(true,0x0);(true,0x9e4012c21dc6ada6);(true,0xafe1fd404f0e5a0bb9);(true,0xdd22a64c74b675af4b);(true,0x16b60e212b009cc81f);(false,0x7ff76f1da9d6593af2);(false,0xb77f0d91c6beda6);(false,0x36d123b3188d4a8ab3);(false,0x5963b011acddf81e2e);(true,0xe524ca238326142e1a);(false,0x9fcac01b7fadeb2c06);(false,0x871ba6c003ba6e93cb);(true,0x128cbf9b3896b4b31cd);(true,0x5f3cb7e6b826e6c6af);(false,0x97560575fdf7e5f5cf);(false,0xa698605020107c97);(false,0x76bc3711117713b8ac);(false,0xc54c904faa1b2b4129);(true,0x614633062698113a61);(true,0x5e1a79c17fcd5ab69c);(false,0x46a82b548cc00f4a2e);(false,0x1d01155062f7bfb464);(true,0x569f2892cbe8b6a073);(false,0x86f6014552e61208ca);(true,0x836e6456cf26a1ada0);(true,0x12a32cda93309fd15d4);(true,0x4d47190b9860964a);(false,0x45f9c4b9cd580f);(true,0x69d8ab06062f68ca5);(true,0x2fffda40158a88060f);(true,0xf6e1ddec16998bd5cd);(false,0x20c5c1d3e6716bdd79);(false,0x23696c1f8b8fdd07fa)],0x1abb4004218126e644,0xfa72ea8a46cc013ff);
  (755057,1,[(true,0x0);(false,0x0);(false,0x0);(false,0x0);(true,0x0);(true,0x0);(true,0x0);(true,0x9e4012c21dc6ada6a6);(true,0x11fdfd1c9039c4273b9);(true,0x9a4d7f96b583e80f16);(false,0xc3331115b2b8b32e85);(false,0x24d6e6ea1c3a92ee4);(false,0x9df097ddd9a76b0033);(true,0x173e7bfb53efe2d2a4);(true,0x7f1ed4eba4b0c870f1);(true,0x8df9eed3ef590a3416);(false,0x3b7176b7f09c38f968);(true,0x84a0c8393c177225eb);(true,0xf9f5ad20ac9742ef08);(false,0x26d271b8e3e1b08923);(true,0x59954b08e24b4623af);(true,0x71f5b4852c8c66449);(true,0xcc469ce82ce1da88f);(true,0x3a7d0392f36b430b4);(true,0x2ecac03d19b3764848);(true,0x12f3c6174801487559e);(false,0x518c407d0bfb8826ed);(true,0x24bf47eadb7f30a534);(false,0x5487dcda6c689ee880);(true,0xaf6da5684a1ec95e79);(false,0x340f46aa55506795b);(false,0x62561b6c0f68373006);(true,0x14b9b8b672976257cb4);(false,0x96f2028b288831328e);(false,0x109869eb3cd81270a1);(true,0x181dccc88b4a6950b);(false,0x64f51a6e50e34fc7b);(true,0x1233ce816635ff132dc);(false,0x1e4fc7514ceb3e4892);(false,0x247f5b6cfe85bfc9b4);(false,0x5c2deb82d486b4596f);(true,0xb492598b2cdc01f24b);(true,0x172a39f9cd52fc222ee);(false,0x74f007fa30b6fd992a);(false,0x4f2558eeb5f669e0);(false,0x19576957a55097a06d);(false,0x54044698f7d86cc111);(false,0x9f17af6270810dce15);(false,0x16503ff3d0cd52f149);(true,0x11ec5172d5445da24b8);(true,0x41c7d4219cfcd60f5a);(false,0x2a3da76b3e7d410ca7);(false,0x2e6870d952ba958d79)],0x5f4261546c7d8e660a,0x4c9ed51289858ac761)].

Lemma prime_3819663927398918131021 : prime 3819663927398918131021.
Proof.
  apply (pocklington _ main_3819663927398918131021 cert_3819663927398918131021); [reflexivity| |vm_cast_no_check (eq_refl true)].
  repeat (apply Forall_cons; [|]); try apply Forall_nil.
  - apply prime_13090036741.
  - apply prime_755057.
Qed.

Definition main_1125266252156850182658904441386709967 : list (bool * Z) := [(true,0x0);(true,0x0);(false,0x0);(true,0x0);(true,0x0);(false,0x0);(false,0x0);(false,0x12e66d246e5a83224a3e1642f);(true,0x162a3c52e4964bb5b332c58f38d1571);(false,0x80fba87c939c87ad701f1baeedd6ad);(true,0x1018e5e4b7ff91b7693d97cb45a3);(true,0xc128c52c64b821b1c8b046f5753c1c);(false,0xd4322b7b5584a06275266177c1eeca);(true,0x4180b05795b235bb9a0bbfbaf91fd9);(true,0x3c6ffb95319545894d8b859bea37f3);(true,0x119a6d9aa7813aa7b91980f58540136);(true,0x5dc7ed91d4aaf92d3d68408f47607);(true,0x329009b57f741e45b91118430bedab);(true,0x93a360ee85dabb3a5620b54bc9c7a);(false,0x78eb8d40146ac74150723ed6b3f5ee);(true,0x102cc6923b73fa129e6ae3ebcbdcdd8);(false,0xd8b5054215a369e21e684fe204d4f4);(false,0x16b05a0ae9519b395e1c1270577c0);(false,0x733085a7f43a3fc7c846f5c5c8ffc0);(true,0x4cc01e9175d1ee341ff4f8ef506fd8);(true,0x1a896766cbb2965c3fa9b871e355c0);(false,0x992e7f458f05ede3e4e3455dee0447);(true,0x142b76af0a8ded2c9747180be6b550);(true,0x195901b1b67713ba6af09861e05dc94);(true,0x55bbedab40a3e422afa8f742c4dfe6);(true,0x27a42bbdaa7fa9cdf0124a8ef24f52);(false,0x1396cc661c5892d5fbd1042e13a4e0);(false,0x3a9ca9b553215d7122b3c21bf19263);(true,0x14af4b6541d9609a1c2fa26b7193f39);(true,0xffc00f8a50043f09c6c4ae1e8eb951);(false,0x4a418563767462bc91c1618d8da519);(false,0x1dd2fe12ea50cce00615cc1628c846);(false,0x973185c9c3a9d813a551cdfd71ef59);(false,0x78770ac47f60e0b2665ea01e9a953d);(false,0x232d108c283dbdb4db6719629821e3);(false,0x207336ddfce380eaa1d8b9a9316558);(true,0xfa3dad2abf7175dd16de26ab9e4388);(false,0x311a4ab92dbf0ffa7b2a1fa51cc2fc);(true,0x1a22cd1308f2c4316557a052b626b);(true,0x29db12f4c6867eed55880578609b);(false,0x34b1197277627eae20dcb761af9f64);(true,0xfe7d6be40f8c5d1b15258c59f532e0);(false,0x9f364b473a292eac64cef00c69b1b5);(false,0x79b55e829058ea6544ef0c70bc31c0);(true,0x18eccbcecc613dcc00fc1ced5ef1191);(true,0x10ca92fd96cbd4e5902e322592f5d59);(false,0x655055645ae10b191fcb7898fcba1d);(false,0x34567b5687fac7b683b1a164efda52);(false,0x474b07cfd3f4e3f8334d3c7cff8874);(false,0x334615ea2b804439d2514fb9678);(false,0x102bf2772ca52694e2a5a3ad68b4b);(false,0xcb182c99bd4b11e3a80d31f01da669);(true,0x9d7f356f887a4b2268fa1e0fc8e8e7);(true,0x26c471ce76c47a450a9a80eb227853);(false,0x61105822f0b78f1557535b81ae4d24);(false,0x6b9b2099ea44497eee47bd3debd135);(false,0x7b70b81c4add973356d588e6c41c28);(false,0xbf92f649ee84e234400658052b660c);(true,0x529e6e79d4bcc1d0ce91e4a33bd6a6);(false,0x3a5bce0ae440fb5ff34f0e9198dd8);(false,0x10d5db0594d49d10f7f3ad442c25e4);(false,0xd3202110a9c4aa6ae596f62aa195e);(false,0xacc335937432e9fcc6fed2008cb33a);(false,0x299f820f4a35d19a062757dabdb078);(false,0x163c54c9fef42380cf02b677d05c55);(false,0x99da8e4e4bc17e0a1c8fd71af024cc);(true,0x2e0c3cd7b48573c5c01e89eae49f);(false,0x93c4d5f77a35e04410a800c00849);(false,0x7ab16b7928e238de3b470c9db289);(true,0x9cd0fd44055527e1e7c76e2f6f1dd8);(false,0x7078b8bf77c13ba5df618cff4a9723);(true,0x20aba4ec0b68fb3d3afdfb0299162f);(false,0x7d24039e7ca2014564c08cd3cc6d5e);(false,0xa685d83a959977131b4cc47a96);(true,0x7953f42ed59a5334da89e6653fbd33);(true,0xc994ed1c98eecf248d5426012bdb27);(true,0x11bec2aadb8e755ae471fa36027e555);(true,0xc592c7eaefae673350f0b9859d7fe2);(false,0x8d09faaacc0a3f194ae5831ff0aa00);(true,0xbe452ccd2f04161fcf77003362a515);(false,0xcb0d30569cf34469810763a04513c6);(true,0xe21d124599a5635720298c16967888);(false,0x45f55c718cd5c61c71903fa0e3acf3);(false,0x7ea054ac904b52956858a131e0);(true,0xea086c528d4de2282f7d8c04859617);(false,0x9b2541206cdd2ad8492b6203a130b4);(true,0xd33f7bbd9db3f7ec9b1dcca4bdedca);(true,0xe99c49c97c3a618ebe03e812346db7);(true,0xfe58af85296c2a6c872962740816cf);(true,0xc71ee9e14f70e554fe0c72681caf6);(false,0x32a6fd19fe6553c7a6143354b5beec);(false,0x6e80c21bcc8a78be88ef7570ab833);(false,0xd88845b944abb3fc33f4f61234bcba);(true,0xadfa6050c63329ffd046613996943c);(false,0xa04e6e97a2d3e2bdc0968b8d90140f);(false,0x9e0ed4f488f5ddefad7aaeae8dfeb3);(false,0x1f5c91f76f5470ca48a5875fff207);(false,0xa923ae1b9c497a64619d0451cf38a6);(false,0x13be858164c4d0908174ea38e5d7cd);(false,0xd011c1ff257348beacf9c00d3e95b6);(false,0xa274cd16d61cdaf2834ea2e9df69c5);(true,0xd3d1f6be4ce6d45367cfbdca4537f);(true,0xc815fb56b3d98d08a39652c7e2d80b);(false,0x5f6cda0ca7beaa88bc45ef9f929e7);(false,0xaa6aeab5216c7116c980b4ad32c06);(true,0x5e506034b389491b52a290cbbf610e);(true,0xfe70b90aaa7493790d0750681ddd6f);(true,0x4a36362c7853bce233dd6b34d23dfa);(true,0x18cfcec0131f138d5e01ff1711d5306);(false,0x3b1251ce5cd607a480a0fc09566dec);(false,0xc8c9cb13dd734099e7984c8f702714);(true,0x2d2b4d51c413c100e66460b8f8c3da);(true,0x3a40dd74d97b250b829883a6c98074);(true,0x82896657346b8de746cd9d11488ab1);(false,0x0)].

Definition cert_1125266252156850182658904441386709967 : list pcert := [(3819663927398918131021,1,[(true,0x0);(false,0x0);(false,0x0);(false,0x0);(false,0x0);(true,0x0);(false,0x0);(true,0x25cc);(true,0x13b21b7ed80f52947e674ad6603a0a6);(true,0xb0ae76890ae9290b28b8690ea994b5);(true,0xbc69057d429390b882b52cc3d3bfc8);(true,0x958f272de14e32d5d8abcdf0f203);(false,0x1f247a9ac390d983020c4e08a4196);(true,0xf4b1f3ec464c16cd6da07f2628880a);(true,0x23f83a5740cc409ec689d8d41082eb);(true,0x1a33342479d412c12135c90c1f6bef9);(true,0x1cb8951536256593742e294ede8ae);(false,0x4e00e8210e9ad274c03c16c4b2474d);(true,0x9bc4eed91bcf4218323f5dde32150a);(true,0x62a5ddb3a4a724e18e547f02f83547);(true,0x6d6c58a4f9f01081bcce786bd30dc6);(true,0xebc72a1f5594d7401f349c06eb79c3);(true,0x24d39f51e6367f29ff9b6682179bf6);(true,0x1671f3fb6583e1d62b6ec6b75b63560);(true,0x126d9bb6aa7e73630ba98c6d2182f);(false,0x3f242449b7f09c74444a40153b19ac);(false,0x1071b8dcdc522046854e8e4502b68a);(true,0x1722bc4226139a4809aa36362e1205);(false,0x2b6d33fbc1dc5ce5468026e627750);(true,0x36e7080ea6977f38cce39d5c12df2);(false,0x365c4e6fe4af2028c04eacf0cf9189);(false,0x2d61beb23f7b8fd6cd50c0de76762);(true,0x2358eea450c81de3877890b8a2ec9b);(false,0x2f15d72138e4f327d12cce37f8d60a);(true,0xe797c87a4ce5d1d1a44eb8d9c2ab8e);(true,0xb840447906e7201efddc688a2b9b8e);(true,0x6610e240dc8c28443b796f2c657361);(false,0x104d25e08045e5adc9b3cbbf0d46);(true,0x3210d8f9e0ec63ad56ffca5326ead2);(false,0xc2962a5ae3a6c26e6d8e362abd8094);(false,0x27f9b72fb4f85b6cee2ec13d002aba);(false,0x57c4a21a351ffc6473bb45bd88c9d);(false,0x3ed6f94068fecca577d091286c4949);(false,0x2174a2f9d59b24d7f28d2e9e837559);(false,0x4cf4bf92e7ed60be43b4e8edbcf89b);(false,0xcf30332c6c137b5d61583893ba7796);(true,0x8db9b99547d74e4a607a0d37516cb);(true,0x3d0e7c0318f83057ec300c2a736587);(false,0x7bc28105ae65c051c46fd0604cadfe)],0x4618e94721d98517e2a19f6390d71b,0x23737e39823b37898135f550787757)].

Lemma prime_1125266252156850182658904441386709967 : prime 1125266252156850182658904441386709967.
Proof.
  apply (pocklington _ main_1125266252156850182658904441386709967 cert_1125266252156850182658904441386709967); [reflexivity| |vm_cast_no_check (eq_refl true)].
  repeat (apply Forall_cons; [|]); try apply Forall_nil.
  - apply prime_3819663927398918131021.
Qed.

Definition main_15778400344354997994418419698270088123916926905054652752758194827714659 : list (bool * Z) := [(true,0x0);(false,0x0);(false,0x0);(true,0x0);(false,0x0);(false,0x0);(true,0x0);(false,0x0);(false,0x6ffa95a96c05dad);(true,0x1a69cc00255521181807142c8a43c3035a5303e2c53b05920df5fafd7c1);(false,0x1251cf36bca0bb05832ea5a259431ef90641b74e940ab80f95027f82);(true,0x455424e1ba5f4836b4c298cc99e860ec4fc4a73dcde31be695b6aac95c5);(false,0x1b098980166a91e96591befd61665e441222e351dc896725ff1a91cda97);(false,0x1fca0484567a008b840423f7c8cafeb2a85b37d9def2efebb83ad8eb3c1);(false,0x17054dbb0a3e0b37d18265d3af378b8042e7d49e1209e6d0f089f599d95);(false,0x20d3a20ce3e63920cbaddbd6a23f7935e4d512a4e79edbdf2b9e4e8bfae);(false,0x17bf72f415f41b0f0e846b720dcc5f229129476a63df3cce6e8053b1f19);(false,0x9f6d697a69f99c57ef306a14f7cd9d13c827e8ce4590d60697adb12cde);(true,0x187c402ce6683a42c126b8b0eaebaae923e8037d16fe7042ae8cdc3cd6d);(true,0x1ba720f915ea22f739791374479b0e167f979491e5f8a5ff793f02e1014);(false,0x66f5d0d6467604e4a936f84fa3f4c1dce9a56091e6c7eb24212bd455b5);(true,0x1ab6fa30aa6e3d30b297a9ff5a3bfe32ff2f055784c84f23db72dc29cc3);(true,0x9204f6b957955bf2d323e18e9211a3017eb9014a692540b66a1ecdad8);(true,0x379ff205e072870473ea77fba429ca920cd9481c7143bbdebd2ecdc7fbe);(true,0xc6696dcf4c157bf894e7ecf3c73e82c5a52af73b1af3ec273170aa9b37);(false,0xfdb16b241b0132ea55432a6998e2fa3a0120b4c407685f5facd8d228);(true,0x32c5729f97e4249111d3ac860a028f61f931818b7bb6f6cfcd537572280);(false,0x8f654f3951770db4e3bc47d2a831ffcf78c40d21d0ba1d98b966dab3cf);(false,0x8baa63a825f1617e009b2a562d84cd6fa3f01214ac1c2417443778d090);(true,0x248c183d83310028f1d6afa3a9849f7fcba4f1bc1fcdb9f370d8a6dab5a);(false,0xc08e3b1bf801767972037b699bd75eaf76185cfeb04a0b565e32fe2939);(false,0x575804e2892f5e1ef0d1eff4639424b629b7dd9f22014b773262b0918);(false,0x1570594080a87dd2cf33b047e0a8f869103e3f60c9f4d733c930d6456);(false,0x1d341541aa0e3b87aaf7381067db361cbd7ab229cf8b0b5c338d462e2);(false,0x2e72cd9c6258e81fba14bee920476e4e9a7ac9a24ae3d3b0a23b79bd21);(true,0x112522352d13956591f0672898b129cc803259fc07ee4467efae4075ac);(false,0xa3aeb19ebff370466c182a4a393eced54c51031edb2736891b14740d7d);(true,0x13d8d8cf6f1bfa89cd84438eade403d0e7e38727e68d35794a10cd06592);(false,0xfe339e5a04a7b4cdf3882561fdf0cd36ff9e89dd7f2e0f7872d376e1ce);(false,0x150b6ae2a37f839f82e4fdb2a93606f26d092de518d6b7cc87d19dec64d);(false,0x8b12863aec0de2c3ac32fb7d5f1004fc886be3fe107c6a69b2f4dc21f);(false,0x18106bc2d33ab026c365af901676c3e36242d48ac35daeb46f9ad001e91);(false,0xff4a1d44b5046de70aee205a4606d316d96c764990dc82838848a4128);(false,0x3d0e1f7014c7d4887d7303fc6a0e6371b2304f85881d75da7aaf9ac008);(true,0x40bbe3ac03e078dafac792c7002731ba963472b154e86163d1d518a2e6);(false,0x79af784c72845eb98d65232d6d9ea7f80869470e60faad40246034b8a9);(false,0x845d9d9b214ae49a1c126c402be4203519a332a32c3f768f0e5c6273ae);(true,0x31379a393acbeed433a0c8d08c7b638606d5cebb2dce2af40600be8bf34);(false,0x283d7a939168c0c09e688ea32274744653bc045a034b764ccd8446a2d5);(true,0x5444c2205e8cdfe943e20e5f14dce448e3395fbe35d779db42798c6b35);(false,0x1b2f339d82d167c1802bda57be7bdae1d5bd70d8760a5b3ce700aae1a1);(false,0xabf5eef21e7331ac7058381accbb96bf75893d96152968b28ebad4ad60);(false,0xf39adb0a8c423d3d46c2d715794d1c1385ef7d05d144d065123970721d);(false,0x60e74e1dcd75ef0315c7157d3558e9a0b22137775f934e2e0f6de2610f);(true,0xa182af073eca6ab277d361308d81b560cd5a09d1499c49acc8e644c10);(false,0x194bf2f8c793c5e54b0554fafce8ec9e3d2795dddb2cb86b6bf6694c74);(true,0x3d92d6e7282f8fdfd07647dcf1e37bf91c3b0b4d015f1322de6d8c21ec);(false,0xa7d5f376ee65c3df63312df7c54e9c56848f8f88afeecdd7c866db53b);(false,0x18631a2111f43fc2de52e7c48f580d76a66b297b715579bc6ad97343725);(false,0x1513817fe86196df98c92fe077efdc6964698daaf6c682d208d0e3f1045);(true,0x252d688baa5ebbc14fae06b1f820b07d00b73f64751d3afa943cd12246);(true,0x4049bd50ebb30eacb147e4ed82c096b047c922b558b591a57e38a5b8d64);(false,0x1c897c67704e8bf781f841db1d2c765c3cd2fcaa8cf130578c2bfcc8a43);(true,0x4bb4ba633a83b1d47d9914fdf2cf0b4a8f7e375765468a4b9afac44933);(true,0x2571940967a3a5894106a54f7e644e13c440eae5d4167462d1a7a99dcb2);(false,0x20090bff34f034b4ef396ef48547c328c17483d57de5931694400e538b9);(false,0x14f4cfc1eaa3ebd372f02255eab78355dd1744ab71d246efd66a78e8c37);(true,0x1ccd50922994716de3074e53768eb1363da62e5789f05aeeea2e8fe8363);(true,0x2c5f5b2d339e92a843eb532e5dbaece0213fe166b306c61b6120437a0b1);(false,0xc706f1e2ddc90355b580e04a58a4420f6207e04a90f8a532de06410e);(true,0xc0097c367fd8d0a2ffc32fb5c4b6e80aa70b6d07ff4dc32649859b2f5);(false,0x143273e7218d5511c79c4ac2de4c316ee0523dd5af7822f0051bcd518ac);(true,0x376f09c5ad076288cee5072c4e97b8410525f14fd3ea17af4e7080a3a9);(false,0x301c16da263492718e711f8b49a6a21c5f528139363ef3d2a526332243);(false,0x141194058ad2fc96bc14dcdae84c0175828bf8a47edc58751d55ba42e1);(false,0x15c90d12eac57a1893021026d4f30a6230f11f92e77bf0c9fa13baf38cc);(false,0xcea8f2da61b38d3ef868bc7aee5e1acb56fb98ae63161887f5d32f90c3);(false,0x1da9b04ab0f72f1965f924eacd9f592fbea65cca078199dd1d51115458b);(true,0x3639eab4f45bc766e33fc22d7a9ff9b1340db56cca06ede0eb4ed5338d);(false,0x2b5a64778bdaca04dded393d064e99dbd6bf490a956bb13f56d3ae7270);(false,0x2c7f8b25052d5543c60f17ae82f0518cfb402306f811fde917286556d1);(true,0x46aaa6a088fa3d5e3ead16f34585680436e68bef18c9bc8c4cc4c34169d);(false,0x3aa97f46f075e76a18f25a2837b3f607fb20763fc4ef1541f1348a177);(false,0x2520c05d4890e93910ff97b5fa3f16a28c7a60e9b2c33c11ae1e40c1d);(false,0xa7f6342bb0405928182c2d1226971a64df17a3076bacddf79e4356a84d);(true,0x28c7c48157d91de4868b2eb431fbf25e0729d9ce2acc364ab519ecf45af);(true,0xb0d83c222e7502b97b3067a9ec070352342ac0e3752c49791bf0ff9791);(false,0x1977073cca2fbe6de2d03de8fab6cc90b19231139940e9569fbfa2ac494);(false,0x3d9a28e85c9d18fe9544b62b8594f5731974c0296017248ea0fee189df);(false,0x802da2da6b4424be0ef9cbfe6bed69748a35395579236a326827af3be4);(false,0x17136eeff84249b42d8d60571bebe348fdeb0b5c4453b48759d0a29289d);(true,0x3df02ce68d0aeb82bf433e185411baa43401c3d3726db01601162773f8d);(false,0x1155ff3d82cb00ea8ce6d1daf2a6857b3436723f0c0bba4abbd7443b00);(true,0x1732049216bc483aaa0db31924a38f0ebd7b6b0756dbcfdfcdca812f75c);(false,0x72064d6a88f0ebdbd206cea21fdf6249c2c17e0d68b4a652597b2341f9);(false,0x39859634947f4b8e0777b2ea9b937deae6cc6973e56bfed330c2582ac8);(false,0x12ce26856201adc53c7a4bb8937e5b800b0824d941d64bac73bd794bc96);(true,0x2cd028423090101301ebe18bbf3c341f7fa1a92b885d67181ae435d51d8);(true,0x2cfad7cf2b83d82405154f34b62de6ce526350f46235cebc9741c69338c);(false,0x192a81ef9d9651cf6b354d14e9b02a2017453632a951486e68ffc323430);(true,0x4afd08155b805fba564482dbff2ef96c9a852c12f81d06c08be27252aa);(false,0x38a284c251d636e66cf92c52cab58796adc14db5e435ea6ffa2e3f8c27);(true,0xa1e1a04d2935831f7a417824303de149371c3693cc26f5c7e991b2e115);(false,0x7604d7ae1240acc26c170bc7e42798f3285b0728c53ac1781cbb430791);(false,0x195d9a019ce36e59d87cc4053f17c7c6797c970561e02657ca0ceb16dac);(true,0xc617d89658210430a64257d0a6318d6f07b8eb9f74b8ccbeed1b4d9bcf);(true,0x16cd7cc7a84624a9b3fd7b0d701ef0b1f2302af87a96716a1be561b425);(false,0x241d9c2eed55e47307eb6f0dd3416c7635250fa2528738b144630e1c3d5);(true,0x3d88dc0d895f8bfbd0dd4dd00e92330ade72efdfb1f1c510f79b3ee25e);(false,0x3896ba6ef5071b23d864ee6dab88e55c913ad1fb0d67973ea1d8402819);(true,0x8c3d1b3a214da9fe74ca8e6dc91339ad56dc3c78e2b6edfffbec42f44);(false,0x11a49cde6eaf1d5eb4e255402096c667a2dd82fcb8660489f9f93477c29);(false,0x131bd8a9555c80ae5d35635c1ed50cac58d15b40ce37ab9ff704e35634);(true,0x2ffa08b619277487e40600a9d09c1e1d7b306da73f0d453ff01d0293fe1);(true,0x6e012204d1bd87f8790683eab768ca073a2d68ddcd9ef689a79a46a158);(false,0xac1f149372e411b92d9f7b5ee00d13e6509b0598dacbf3a859894e0315);(true,0x2e1bcf73ddc7593f673335201c0e66305adf9ac7f00282aae5976e7f502);(true,0xb6aa35be136a9a66b7bbccfdaf0e35f1b758b01e7df7adcd1a8ade9fc3);(false,0x5254aabc2a26e95866f80dffe833309b19c4249fe2979f8c5002183f50);(false,0x1b4943a18d0d810552400ee64ab149ff0caa4c1824fe179646972cd203a);(false,0x45666a22da57e03406d8877e411824ba0d8601ac9038a9c9d54833adeb);(true,0x6320072011f60b6f7bc06d5b56353e9688ed1ae3ff8b75d80cf7fb516f);(true,0x27e18843276fa61693ff9d7fd59ff424e1258164716bcb0626b44e6e4f8);(true,0x33964987eceade8779b7ebe3d58d8b30523896a19fa50df33c02f6cc42c);(false,0x1155368f987c27806b2c6fe004317a073c031a551cb327cad8e75ad26f4);(false,0x2182e49d7bc36d7688058820f992dec5942c695d2003eb6d171b1c84124);(false,0x8334ff9a7433cf0ba39a2d0e87c60609064dcf4a2904fd8f77a16739fb);(false,0x42c1279697373ab89eba3331e20dbe7e81dcec5d115ff6aafaba2d8615);(false,0x3c424b311e88fc1fb4c5dabd0d12cf7c190cd656c27cdf82555cafcc39);(false,0x13fca4b1935865bb78ad80578da5f051c5b77b2ca2016e21726a4319b85);(true,0x3f51305f5119cb6ddc241051680a26fa3160f3dec53ae570d8fe811191b);(false,0xe8bca372cd905d52b167d2d7e1b31f7991ff7d969b56c0f05e13038aaa);(true,0x1d378ddfe2e102088aa2d9c1711e6a5a322643b91255613a04be9396d57);(true,0x3007ae905044c6ad14eae42a070caacaeb7dd8b90be44fa083e5b87276d);(false,0x16f819b01d663937aa6f72d5c734a51113c74ed03236eb5809c8f9f852);(true,0x1bc7997716ac199d4f20c3f68a11e9556f97db79e0e0dd78fae7f78ae8);(true,0x3ecab1dd275170e0e90036b3c57cbaa59f5f4deb5f783f90b37566f7f10);(false,0x34343593f9458c867777a2de2f64382d1aea50dceb2aab30c51f42dc93);(true,0x7e89b30d16fb7a023631c384eebbc7b429a652043cf904605752e3c1);(true,0x296a335cf856ccbffc13560badf38a0185666fde3ba04a05b9a0c4cd9c);(true,0x2c70a2e73aff734f311e3a2aae74795ee8e97b7fcccba296f3a5894bd22);(false,0x1e1868306a9b97677ba0775f1a2d8d262d9179f2faf0c340551c9d17775);(true,0x188b51895dda5e6f5f117453e98dfe52b764a5a3caacf125946539d0bc7);(false,0x7dc0aaaa8f5839fbf44771c7cd4662b9fd92553965c7b86240f4a72389);(true,0x9f6d4de607b94fc07233bfff1b3dc9b9ee216534d5b0cacdf68cc6400);(true,0x4a9410d900a7785471a9d948abf5ad7d211188f42e12d42dbc3c3218b7);(true,0x22d334e933f5d4f568cb620790b64fd3580b1c1fbba601491e1c4befa03);(true,0x3a221743ae45b918a137bb46b0a7ba0f66ccd33409863a2a7f92c853c);(false,0x16d1ea588fe68cd074cb54deafdf725e3d482f6d2d58eb95f7c17694f2f);(true,0xa869b86acbed7f8b85661392fd3daed9dfc0a0260cb687209d79831d);(false,0x4a2c87030a74567bca918b9e7ef9fb9d863003a73aae5e3234a3173d09);(true,0x2f814e165ec12170ab1266b6ebaa8316c2a631ced42e98463d5a9eabafe);(false,0x36a5d37f2e6c8581d486e1e7905938d9f0ccd34d89f215321c57e20efa);(true,0x26a0827d8987c92b90db28761f716dc7cc094c6c3a67602ad0352a19f57);(false,0x18df5d1d3c440ddbe21a942d1440028fac1852092eb6265189a1ea112e);(true,0x1cbdd5a846efaaaab3b3ea43a21644925164e2c7cec944bffaa383452c2);(true,0x14af129bc79d87fe1da7075598e55b980d6486a616b68d7498541b691d7);(false,0x6b9710c7e241d2c666e8553f5edb59fe6a305ba03bfe3eda21a50a33b);(false,0xbddb19fd856075f8887b70d78c8349b6ec2de0763dd8ab8032917d6317);(false,0x1db36ec625e0b3f0b9edbf57a1aa893e50834525ea69b3b4b109c155445);(false,0x9bf6a8f110faa73f03f04735e06785de0ad31b7c36383b24d33e092f19);(true,0x4583b0f0a117457695ef0581bef998f5a97e24f2e712cdae5866e84a060);(true,0x3df54695238add1e1e9aa6605122f56e3281402d6074af7ec9e9e707114);(false,0x20a98c1d124b1207e220848f8c76ab349f45ab3ceb47caecedc9064e980);(false,0x7f6febaf4c42dee27689551137ba70b8a1700f8517b1f93173db7758a9);(true,0x46e668e767084d8e5e759c414dc97b71d2146a0670e125a8b73fb4fe55);(false,0x255a3de8f7ec811a2702bab25644d4fd8618e72c3ee2c63055daa0cf8);(true,0xed9288fbee0f81af92a065c25ddc09d7c8569733c879501ca8bfb03e);(false,0x42a21dba4f0a82b6cbe104e29b1402e763e847bab8b02747eabbb49634);(true,0x2069a806a98cba2e591211f3b684ef1a4c36f33ea5ab8ef05a7ba446ba6);(true,0x2c36e9bd1f52a9104b997e57bc4db38af8f71bcafe86faf96a0b19b2512);(true,0x3309f57fc4e48d4d2c5b68b9ece168c5a9aa55fe3262c764b27d03588e);(true,0x8a32edf8778d9ecd14306c180020e1329f1b516f17bb274376e1bd50fd);(true,0x3c3be32cb2bbd859b69640bb9b8f6e16ea2c9905f65b7bde913fd61521e);(false,0x147ef52515e4620e31c657a2123a94595698d09f37fcce4ebc15332fee4);(false,0xf52818a3bc551b20672c9628e208564678604a1fa3f95c10dd629c982);(true,0x12e05f15526fea9ba8b93da37664588d0862483061f9ed3bfa3f1df69f8);(true,0x1121f2326a3020555885fcd27ce85e95351f99558328ca00f85a3cbac76);(true,0x3dbbca17b845c6408058566671a7f7694fd1a1a1a2854547931b6efd1ce);(false,0xa52d98c6a867949a4ccba1b660d149df348b669e00129a65aa2983a13a);(true,0x12d3159670915427b237eea6815251753a48dea5434a06f9d66eafdc56a);(true,0xe99081a70ea610ab49d0940822c75b58ed4e54eb9a7ff7505b1e32cd36);(false,0x425ca29392eda5e83f21d6ee52c6eeb409b8c2088247f6e014e2eec39);(false,0x6c564577a1b50a6f5f79a555006012eccb49c361aec05f5157529134d0);(false,0x34d348b604f8b71d844dd23099ede45c2b662da0c3685b44fca9b23099);(false,0xadcf66fbfceec4ea34d4bd906c97f8f23518b62fe3b8338ecda46861b1);(false,0x123814c056f0cbe3df0116594b1424e79436e0214ec80a5c2d9539505e);(false,0x874c2df6982a1e8531236a9ece4ffce9f87d2306fbcd632751a0985ae);(false,0x198e59722b202eaf495ab59e64962e9d84f7bf3a3e1e8b9d3dd15578e24);(true,0x2195b2733fac9811f8a3615a20c28ec3258a2d5b0d85cfe4253437d8095);(false,0x8cf0a5b36b5825738cad7c9e7bef538ebc15add7b0ef7189e907c7075);(true,0x7187147bd7a1d7bdc66a2ba20286df11e019e620601b5886a27c8b775a);(true,0x1ab3e8761b85cd6bf718db5db4e60a21e485f549f1f8ac47e52dd3345);(true,0x454dfebe3da6c5b9376f62f547166c30486c34a4a5e4eb2d4f065316c14);(true,0x349bd03014c1a8dd725fd1ab80b19d41c33250e1b8eb7e65fbbd120829e);(false,0xccbe43d976b77cd2cc3986f37fdfd266a95d3ccbf4a25fbcdbbc90853);(true,0x38408e86608f869e7dd0401ce0755eeddd45c21b0075fc2985176758b23);(true,0x32ec6732725c3ecd6e551dea94c48d7ace4d19379894ff524931fb66841);(true,0x1941c5a921db2c6f20b470fdc52f389827399ed6bb4808a1cc1700caf82);(false,0x15c3fd6613ff929c55ec6242b10d7c9901f0c427960729d454237642e3c);(true,0xf290731e9f5be64b724b5ddcd2abdab7f0084d51c1a995045d06af914b);(false,0xad33d82bfddd3255f9a55747568f1b637e307bba478754c36b10b1860a);(true,0xa18fc3f2f003a3466d73caa207d0cfe3408b7f4eef6ad11f5bac9dd86e);(false,0x608f91ab83a452f50e4f2d719073bb5e4373fa51ca8b13ccb8da9baaea);(true,0x11af72190f345cd2e2f9d3dc3dc7398313f4a4d544eaa0c21fee73f8ac1);(false,0xd55cf85b95918efe43bf27cb902a8b42fde005452e892d9d59f5d8e470);(false,0x15f68d4945f8ebfe288d65edc351ef29f63a78c56f02acec933768a0b5a);(true,0x2fdc5e2794fa9714489b3af747cbcb1e8270b919b9b31f471f98f113ccd);(false,0x124713dd9661ae9d93d5d742f25208242887f0ccbfc2e568e9139a31c46);(true,0x1b781e7da21e34e5efc52c085e6346dd928204fdb8c20a86b07c01c2e43);(true,0x399ebc5c12c16721804635f265cc8c8063919ba5b238c00a8122534bba7);(true,0x3f0610d5102d66721d8fb267ec6b468dc1ac72c5815c4c6d480e723833d);(true,0x2154413d1799034b724f25a3ac79e1097df65b2b970597fbdbd849fc177);(false,0xcf1dcf5cf5de7f564a61f84cb9d8bef4797f3d1f6f2ca8fce72d3dcb0);(true,0x229041fb67bad247c67eab144a27ba3b24d5b2622c62979831f75a2e582);(false,0xa015437db1adeca3734d1a21e615d74f75a68f0150520a61c523312c);(false,0x79e9c29ef648ba05f022aa8d4a77684945db426526e69875d411eaa7d7);(false,0x59ba2f7d0cb3146153585dc52b7f62b0d72926d3e3c9c58be99746b287);(false,0x1767443cd22cff1df1e8a67ccf6a7107cdb32039e99799c5b8e47702036);(true,0x155e5e423b5782cc0c937a3124ab5910c50722ddbab0b41a694f3cbec9d);(true,0x3909775359ac5dc3fdaae7f50d749414d92083f92bafc02f629d84d6e02);(false,0x111062bd5976d8a043ac7f343930de1afd6cf8abf7ebeb99295e7f58eea);(false,0x16ead18b8eb0d80c84252ad2fa2c7a32ffc521cf5a7ee0e37cb5b4b6a61);(false,0x217f3f846cbd10060901ef3b5d9b1ca287fe698153f0cdfde72fecbba70);(false,0x1175566209b20b929a849c5cbd342bb9d178314c77989303f9299460e33);(false,0x1420424078726165649981e8da5496cb8b16d500d02400707b10e273a8);(false,0x24c827221fc2516be742418a6b5cd16e84e12ae7d4f3071507a315dce9);(true,0x448275951f97d950047dfde5e55c1fc6ddab35040a70d88925a52d01bc3);(true,0x47c96c0cf3377e7b6a791992450dc0e23cfc17e8b8b2bac188cc39af387);(false,0x1b4df17db6c6cda4964b5e3bbb09d6855a494bb60dbdc5cfbea8836798b);(false,0x61d09fa3e351ef1794664ed44f953c07bf0a63dccb814ead0d586e438);(false,0xa030cbefcbf5dd5dec75ec7ffe9c88d69ce7956cb0a666e9ef6d852fa7);(true,0x2996ea71c2cb03a4042d843e49f3cb8258ff4a37182a2b29f171dc770b0);(false,0x24940de9050250a366a091851a9a9b1c0b6ebd56195f3b017baa5e86061)].

Definition cert_15778400344354997994418419698270088123916926905054652752758194827714659 : list pcert := [(1125266252156850182658904441386709967,1,[(true,0x0);(false,0x0);(true,0x0);(false,0x0);(true,0x0);(true,0x0);(false,0x0);(false,0x0);(true,0xdff52b52d80bb5b33a5e1b0dac6f);(true,0x2bcb2ddbc74fda972a8dc690bdef5a63970a92d892dcf7f40d2ccf582bb);(false,0x884bd95d88e07a2ce4816d0ed96441c6693447595a1ab65afa1de6fc2a);(true,0x288a196e398f349f97c1e8f4d37d3b18c48b5bcf5fa84f626e9dd0e7a26);(false,0x19420a2e1de55ca49a2e3daf2c96a4ede84f5d812e62c6e3d25d1048e10);(true,0x129d17355b9dc49546b9c9b2dc7a471c7f5eafbdf26eb54a1e4f8cddc5b);(false,0x6389eff212d3a2b06061b708ae505f156c7348195b96bb466133180cb);(true,0xacdc90930fff962b89f7d81702a21d5ff18570250bc6120b18f3284d5d);(false,0x286155e82af1255da20e928000ee8a8164a9b0c5ffb186fc6e1280d8b4);(true,0x1ce160a994993301ca6066ba3b8160bff69f4008eedf9ff3f45b0538a);(true,0x20c9c065d8ab7c933fab2806c00378c71b465b3a945e69a05dfcfb645f);(false,0x120911430cc451e537e235faf7f39e47b432576748e05ee99fa6be17217);(false,0xba689b4b24b6d1bed52a129673613a244eb7ef292f34adcccfc0c21ee9);(true,0x4aebad59d6234e390175cab9c61e8d2e57d6fccbc2eb3a1152addf362a);(false,0x20c9fb98619b2d458067339ecc6bd88e4eaefafd2fde7679243aaddec60);(true,0x79903fc1c3c27d2d095e9d27019e40ae80164fff6360682d2c65712be2);(true,0x1fffa1453205c45b12c80b48452f36d271053384b325062debd3e5286);(true,0x12c3977e7df76e489bff2a5ed8374d0051d77d60f02ab1e1967dbba4154);(false,0x33eac89a39674d1fb02a2b24424601fe92b85f32910e9a027a992b6274);(false,0x119c583c8d8d50ac148eeb477db1f4790d00d1180559ee8d8f7055e89b6);(true,0xfb29f4ee7f7e65369cdfa863abac7e44c0bdd407a207844cf4cb71e55);(false,0x1b232f5e2a84389b0c8bd9212493a55aabcf487e16c6d981be277d07c5);(false,0x412c565ae773154185e55300e08092622acf4d831df918e78ae201d3b);(false,0x6d0806a3004c30ee613eaef77295ea88b00367c0d7a11054aa4989fd18);(false,0x543e6306ffde1b23eb49be3daaa993f94c17592357683d30a12259ca7a);(false,0x28cf00521a51bc96ab215eb6cc9aaecd47a9460505f90ae4d5db95edc);(false,0x18ad360e5b53ddb04ef355c319ba23c75b09a6d99798c078303372f33b9);(false,0x1d38e518bc8b58c28f0ffb979f3c00985932cb049a22066e28d371d79);(true,0x38fe1343c9f6d5211cfbccfed6fc0b9b572a7f5a102c5e42cf79a1254ba);(true,0x18df4ea174d8ff9bdccaed74cecfb20c6f4ffe127998febd4ba532f62);(false,0x9dcb4b1b8cd596e7f57bd99f3d293119a66ed3049d95840939f397686);(true,0x1b44b4ed00e78ff3f91c7f6cb2f01876a5132f1f1bd9f29d7744e787930);(true,0x122a25e36086819d5442d3aa3b53a4c1e7cfa8d2914f7d47923439abbfe);(true,0x43b27eccaad01e2bf26c711ab2b68b9819274cb2d26730a824837188e89);(false,0x405e448928a39b0c1dcdf115d4e0f56173318a850b16f404bd25834d5);(true,0x703d766c30f10c84c229306081426b4a474fb9feeb676c88abf103a890);(true,0x31bcb9f72b9af663ef305ed47132db07f17312887a45f67f8d5c3cf38c3);(false,0x124d892f29991095cb20aa17e000edcfef5392d3902c6ccd4304032fe94);(false,0xc02ab9a6a79ed7fe24803da8d7c28f35c1b82e94e986803ef1c0cf5223);(false,0xc7ec9ea08c5db1bae6d1965a5fd30dc07be42176ee970ea5f74f9ab6a2);(true,0x11e05418da4866773ff70a2bb6ec3fc7f2cf0b462c59ea4d9b0da6c42);(false,0x4e1abae26a778729761a3c569b086dd855699b7f5c08042f745c976ce2);(false,0x10782ebb0c87d2ae7f8b8d8d14f0495b95ca8014fae9a95a84482a456e5);(true,0x296cd626a563af4fecc87078392391bda0a0c6aa2eb691b521a426d56);(true,0x32f9af5e57485188bc803c75fc98b7ac0d4e38fe7f63bb2002d38e20241);(false,0x2ad5011a55df9ee120845d4f9d1580bfd4df8c679f833a3b051033bbbb);(true,0x3e7b8ec01dab085838b37a5d9701e4ab81a7d688251f1cd0919fb54000);(false,0x7e9c23b53bbaad24ef37f8f5026884fcf1a1a7b4b76bc286e5fbb511);(true,0x2ca61b2eebaab0fdea4ad03a378df773cbb6bb6d70d130bb85320858ef7);(false,0x7e0509bdff13f53ab5a4d4008822eb5f7d36c2646565c839e98940f0f3);(false,0x4f3b91f4aa20e20cbfdc2e7a26cb9a5150f0b2ffbff9bbdffc174358c);(true,0x3066f695219f6bf4e84702d6639077ade69010440713e7171277288622d);(false,0x204d96d3db6d2d490d094d58c305d5c3c1b6ec6751f0330fef2c695fab);(false,0x1df8548c91a7b7c3d59c576252dc83adcb3437b8367576aeafacc495dc7);(true,0x47d43a899364d99bdd6070045d671f15f83e2302ee63530ad2b60ddf84b);(true,0x84f9e97b69b60255875a7e3cdebcdc82c006279406c9736e74b657);(true,0xe93a307ea0f715d4c51d67da4984270fb00d0691211d29d1efaeb5bcfd);(false,0x77ca699fec9a9096c3853e804ca722b1440b3ed614b38ec2fd2b08471e);(false,0x1204bfe064da834daffc11aa23b27b2f5823ad6a6e3fb0f3251bfdaced0);(false,0x3810dea8fa66d898d6fd1447e9cccebd6bd3a4b8b396fcaea21f1c784c);(true,0x3a2e42f5e779779bcf1081d055e27f41fb84524f23ff4651f30724a651f);(false,0x2282c6ccdeda3bc5e08f0718d3586097d785adc2c50f17164b046143f);(false,0x1e37367cfac55d540ad6bde6cd09e5efe5f83fce89261fd064b4c944209);(true,0x2514fc147818dd8670765f78b138e43cfbd698f506cb0df271084156548);(false,0x1631a71f08f54b8676db988fe174e22b60d050a9bda71010ad0d75e540c);(false,0x53fde56fe03080a1beeb72f838329fdd48ee176a3a86aa811f3b14638a);(true,0x2e7fa388f72d78b440f2a10fa9d28cbf0e40013ffc282b848320fb3b9c8);(true,0x1dfc44c339200fa7fc4e276ea48959f347cd92fd95dd47d2fa90e6ed7fe);(true,0x173984832cdf65d13ffcdd7aec19cca628aadcbc00f0f538c0d7f2581e);(false,0x2650b4af464177fdd75bcde725be84a658098e1b5dc2ef6b2dd93a61bf);(true,0x10ee9d3ef521146c4ea6894326a3236b1d4fe2dbffd2d5f2efe72357d07);(false,0x8a016088fe692ec94c949bede7ba934de3fbd63c5666aee804f849e19a);(true,0x22096a4ac1512108ead8f576dc17685ad6b8e9bf43932337fac44334);(true,0x207f649e65248bdebeb2283674b6a6669f85fed849233d2f28244c2717f);(false,0x293ff676fceb9bc4d095b400983766614872db8861224a33c8ace4ca43);(false,0x16368219c3c83bcef973bfc670a6ffc385957ebf86b76686473dcf98484);(true,0x48b76994bb2fceadd09b39a57ad0c515e5f59ea0cd308bb0fb3fe525202);(true,0x226b2513895fd90caf01ca49205d34340673d6eb93a7719081f213a3731);(false,0xe349f0b93d74099aa1c274f298f6ee7eb719e8514ab5f9b1be16f305bd);(false,0x30964164f3e8e9b78273b5a2307c256a52df82fc3792e6d3b36c1637dd);(true,0x123c420f6599a50b2ce066d195d08736b7e39efa5f0921b5bfe95a168e);(true,0x3ebae8da733b9d347c18e99243665e3b82b8b275b6dcd0c9d12a8fa40c7);(false,0xa0fa934dd992c397ec7baea9d03b6a2b5765fd7f1ef61bc9297f02edcb);(true,0x2970e985e47e206bfd85f851405b6bd3ad6578d06e377a956f0ae38dc74);(false,0x6ad8af9586f24c2cc8a10a8d92e2b63a234f066a7b47875551e5a2a785);(true,0xd39dcc77e11572793a273f62f3e2872ffcf4acbc0bc30ae688e555d78c);(false,0x2decdbf891879ced4e4ad90e21aac0200673b613e6cafd408f39cb17c7);(true,0x2663c74900cc39bb68e898a7850a8eea26a276cd32b40b13fec6f39d77);(false,0x12e9b924353ebf0ecc6b9c097f9e51fae85f5a6a6772f25de63feda395e);(false,0x630027b8aa0e015c1e4892823829818b28f2a4a141280e61334096553f);(true,0xf76e1f457ee858ae37a487dd6d73103f2d1cca04302f5bb98f32570faa);(false,0x2e9d45cb55cc5ccf1834d6b32c049bc89efd0b78f86042b54e3ed22ea);(true,0x2dc9a0cc3781bc428409b20497633867fe23177a7aad5176268c0221885);(true,0x2d7015881bfd3df5719ff54c46d5b66d5398cc911c45d047b18e367d1e);(false,0xcd73ff84c0b32c81bf010fd23ce6b6b3d0285965144d91ddcb0db80ab6);(true,0x48884532c0bdb364386abdf1c6a2099726aad12bfb66cf0479a99b54501);(true,0x40bbf33ae07c0622d7167a07e7d74b82a450c049924370d9186a5a84cef);(true,0x24b8fd9ca8ee4444ff493b454085690187172c90badf2de58887235e499);(true,0x62d4c46c43eb39bc1c8ecbd61249d99af71d2eac8998e92a9321e52753);(true,0x1dfd3a2d6811f6e8b2cf3235c2245701e2e607a793ba9c6f99843449889);(true,0x340dfaa0410c5fbe4c2f9ce37c3aa635c6e4f17657909e7d69e09dca8d);(true,0x9de0d434b5dc359e736a23bc7ead056e0be7e73323fe3ba8e4e98824a8);(true,0x193263f8e9fe838ec13cdcf8a3e6f228d9a4316acbbcdf5825bce1da497);(true,0x9ddb691801e5b2a2ea08164f3cef9e2cd5949d6c2f77fe7ef82cc832cc);(true,0x2f8fb3c2922af10dd2b04085e8377f357e53c4e426598e6006a02a56fbf);(false,0x22d0cf14f286f95192ca0dcc4ed1b1725bcdfae59a1ab5bc6f657146fbc)],0x13231869e640a03fc01ef44470b8c6b9bf5592ca869bb1a049fbe64eb6a,0xb583f3ee3ab1c590308bd9da0b5ccc231732523191e42a5fadcfcd9ed)].

Lemma prime_15778400344354997994418419698270088123916926905054652752758194827714659 : prime 15778400344354997994418419698270088123916926905054652752758194827714659.
Proof.
  apply (pocklington _ main_15778400344354997994418419698270088123916926905054652752758194827714659 cert_15778400344354997994418419698270088123916926905054652752758194827714659); [reflexivity| |vm_cast_no_check (eq_refl true)].
  repeat (apply Forall_cons; [|]); try apply Forall_nil.
  - apply prime_1125266252156850182658904441386709967.
Qed.

Definition main_q : list (bool * Z) := [(true,0x0);(true,0x0);(false,0x0);(true,0x0);(false,0x0);(false,0x0);(false,0x0);(false,0x0);(false,0x9d835d2f3);(false,0x109cf75b53f032e042b77a5b591423e8baf840ba0eff3318f9ac171dbcf9994f0e7298981d6147a1f6915ae1660822f0);(false,0x2bfb22c5aab2e7dcbf639fc8ca98e40872cdade7e37f1636056a83f987d00593beee640968433f1206f5216b091c6c7);(false,0x14641846942ce539cad41a206d667e207a5c47fcc56b85eb8af5f1bb9d86c69dd71d49de8f26dcd0f79e11f8c6f36e69);(true,0x2a592e4568b51ae3749778f4859947aeed5987d6c142fd0b284838b929ddb842ebf0f1e0f134f3789b0758a77cd2511d);(false,0xad36eddf06ce55ab498daaa1ca999a17958f44fc3ccf2bf5ad350b1b90d695c193fee196e7e6c3e53b657916d88bd0);(false,0x22ec6e72044cf80a3a75cae0e0a7adf76d78a4afa58bd72fe357ff9599b4b7220880925b3efb6759152d5f7b554a6c4);(false,0x178909600d041565e05ad56283511a425e15f3d050ff782203797ecfaf741317ffad38609f555a8754ef2de482856964);(true,0x1d36d03913d74444850a835ec188e5d5425db6371fdc48004b9ca5a93137b7e3ecf92b1fc539fac917c198a40be18ae7);(false,0x108e7097ef0524d98638e8a6c197fc55961f1b358a04b9c50e276110ee52a7a11ef7d0027581ab6fa09712c7a3dca77d);(false,0xfe902a7e3ce2ca819c99e3504dd17ac5171849a95cb45067ed2c3b517b3de650e637e75ade0fc65b30a5c1cc12d8f3e);(false,0xa29b8d62cac14c1908d31b1036455638d21738ae7fb5f4d0ef960a7fa35e7ff3c162858e9e10880930c63cdf0f202d0);(true,0x2f7be8e2ed42e960640e21f6e9df39ff0d9ab3f687e5be8647e4988b0ef2bcb41fa2c3a51fef64e09b13ee6733ad75cf);(true,0x1757f0431406849a095f1886c6bcc4d7fc360e14cad2f12460ea21518904a5c53d64f274992133e38f3263e11c8858ea);(true,0xc74f5fe9afd68cfde8452cba7c7f00f409f5d4a2fe4cecb5564476c1b2e519a51f6adc2cf1c373e5cccce5ef6c5fcb3);(true,0x39a75cf86975c33fd07ff6228723a506136502c97243376d21b14d4f5c8741480a2f56e4cbd3d457f3e4e41ed1a6aca);(false,0xc346168ae5e2f751baa84b752cb90fb4838d365322cb2296a54358776c76a870015cd536e4a39a7b32b6305d9ad0ed9);(true,0xb42a55030432b145596d4f944b81da51d4198c2f51dbff5854a4cb2a361d69f565612b7dea595afd1c6148079c5c0c1);(false,0x113e4edfbbc28e1e3d9672e8dd67b56ff424f59de1fc2e5abf6fc746f70362f6a9bc95e32d8c7778cd44646fb9849a7);(true,0x11d00dfef211e7ea968e729a9b221d8ae7802979643ddf1b296330d18878743412fcb663f168d12620a584a4d5826941);(false,0xe7a4b58d572a62e36877e8c938e7098afd6e2075f9b86aa8d132df81cd116343753a10213cfa848e90ca331caaf68c5);(false,0x17f01785b63c8ac0efc3760b5054678ddc8e7f29ef027fa2eb6ee9a0898e8aabc2eceec33cb438a329aa34427d95beb1);(false,0xeac9ad7073bad741b37b04eb9c2b67ff9c3de040d29f09bee65bce83abb493f65b6f5b95056d48a9a1deb9bb7916ef2);(true,0x274e5ab0f06096aac4bc565a28401ea5b0ced55015fc8b18429e0f66b84503c47e86fe96e6f1425c0fda001778f04eb6);(true,0xda4d0a1885b4622a1ef47c9fd649539519234e94bbb5e3685cde1991f00b15981ed9bfe10833a95739825ab54e2de3);(true,0x27475fbcfd3334b9f298b617b9c712cc3c3d720c26145745eed98ebfcfd46dd164416cdf281dced1253a26c1fcd27f2b);(false,0x4b9904d9d55f152d86e49ea075bbe2eae46a7c74ef2530550267786d0cd735cd0179cb26e8776141f8cef94fa0ae713);(false,0x46b162ae4f2edca8d897cefae9fa5998c15c5191699e7a2ac792350bc52f92d356b8a453dca39ed43bc923e582943a);(true,0x23d39c1ad45dbd66c1937f9a1c9b3d7e780f15303e619ec9df7fcf1a759384863b14e308d0a6192eb822a11ea958c4fd);(false,0x11ea41657e144f429ffec028043335986d6d47d3f1fa074bc23115dfc064d58c98ec41e5552a693e4b3cbbd912587844);(true,0x6a3a7599d54b62b49886f90c5a9267dc668de5879547a9ed9707239d614362179bfc77de169e59fff2662eac786f2dd);(true,0x15bd15bbde5a65ede00b57b332603f2ba27387c1734caf3f72de54faf8a623969d7245dfdc93007b0fa8d0b7c4e29be5);(true,0x132c9ad1b9c0ca4ada063e5e2e13a19f0ed0ed4ca5d4acca6c1217f1623dc4a787df80e3e4051268d91cf9b1198e3d92);(true,0x14bc0410791badc7d78a97220120b3be464d31b5ae10efc138610f4c3444e5c35f46b5a9b2340ede930e074c74f4f02c);(true,0x7b8931a2b8f738982efd3c77050a727fa0e0f35a1fccb6033deb1eb17110127a482074b7c0d9eb6b99c969b2b70825e);(true,0x1cc8b4b1459897af22bc516e5cb354245024e26986e25f5e90620cc9cf0f3a0b87e81eea07237879ded6e46472dae16c);(true,0x1014c6e124155f8ec5116b741d9a7a27297ee429c0cf331c7ea6ad63307a08de7c4f7a72b938275dd2b22a3b5e6e3e9e);(true,0x7b5cabc5112c781e7320481426413730b0bfd96b4a772283c6338e775b10e0720ae8eba0e689cd604a6d49782c09c3a);(true,0x2cea998112d97ad442479b991d1275cfccdc22c00e04a760585e796b018114c5977f1f8f8d306335769f73a63f3bcab9);(true,0x458ff391939c4f7d381a7a80ad73967952a67ea394b0c98ab77f34c15114648df42b84db39acc1c8f73b267ba8e26b0);(false,0xcb10446c72c778548cd44e189b32b9c50e2de1e6ebf85f16186436a4ef3dee97f5260a008d2b755a06a5acf12d0e45);(false,0x7f6e456025d82d2aad96fd61fba101c45a3926b41dfbb18e20f8b4e982175ed33e8acdaaa3cc1cb113c63925fd6c01);(true,0x5730aa9cd30706b1315a6778588d7fe101fd95e70159ea6d504739af287a41119c5638143dcb5f2570cc0ecc185437e);(true,0x1e9415c4a90a8779b0e0cb51ed01362f8bba28e5c50eb9b6fe5a49f6a9f975b8343856baa30fc0801f11dc1327ae9727);(false,0xc71545084a93630d6ce119fc11e06406ea407b5995281f727e1896d5a8f3b9c79494e7a9d43444fe9f01b9904256b72);(true,0x9a88a556aee95af6f87571703f24dd948c8d2a75d93f21a30a56ef15df413553d3d0e8b4b631b5d626eec4be1f2dc96);(false,0x17e28a4bd485e3491f0ac1c18cb90e595f6aad490f01f2265a52269086731c2706dbd6419963681ca6556be945e6821);(false,0x34889c35c82e124c25e6c93d5c1c6264fef84dab962217735c317fdf104c34509506b3cf6790edd5546938fae30196e);(true,0x9b7ede3906643308c5766a44d0b72aed77398e07e68e514b32d35af6cb808330f8f30ebe065f348578d556e4f29d046);(true,0xff160fa08217c694650dc0bf094083172e524997fbee96b51f6928c4168dd9d3b0bdc9fd68a9f6f4abcd4022272971e);(false,0xd04fdd4c3035e8dd71940af9d35aa8af722ca0a7b8e8cd761b17ef8355008081015ead4b290231d3e785dcba3f4ffe1);(true,0x325c7d50a5fbc12194c89657b0c9ea96686a2ada7a599afb9de575ed902a1f29e5439c925e80bde31fa8d02f1c347390);(false,0x4a6e0d355f81f06fe0e0a5e609d8df5cb57ed6db2357be5ac27a2f97a7d3ca52ab16e05815b61ab13e6d9a834154226);(false,0x133e5a77389caab6f04facffc5e42de30a995246a2323d655048858909d3b7fc898c817b9096b23ffcbca00a0a954e8b);(true,0x2a8a2ca79d76c69d073fe9a9c4c92e7388ea2c519d83012c0a65e2004f4146e2441769fb5a4dafacd921ef05711c57dc);(false,0x1461124adbcfd49d7473a624c93723dcd4ca0378b3cd2715cd18792d7859ef5148c03206adf0217a32b0eb719a4bcd1b);(false,0xf1370beec50c3e774a275ebdf79a9987f3d6078e1c31c29962e2d3e2f8e11bdeefbbbe130a9d83127a720e8952100ee);(true,0x3f1aa8e9e06e3394105758ac1d038da8253d058727ef3602a248db7bf75313ce2c76f5ce414d1288b94091571737639);(false,0xc2ba94817d0cbdc010cd96b8df6fb96b05a8e0495b5239bc0e29e69f434fcc5f6c81332dd50793f072fee44b82539a0);(true,0x3345754826e19493bcce5ece9e287c04be2ffd631c816e07e58c44fb93657901e6ce97ea9eb25f6d4000e7a979f5425a);(true,0x209b04de95d985bc357f6da6ab04485498619da3d95788f22c14f50eaf10892c1b64e37c7ce72650a90933ca4f7c870d);(false,0x3d80121e1ae19f749e1c705db0e439fe4d33e01d071d8b5604e0341fb3d312333841f7023c1492b51eb9bee83981b);(false,0xebb5ea2d1c019b16aa3bea66de0cbc3f0ffa2f99956152964244599a4e88aabe13c321243c881b18de601cd0c49b840);(false,0xaad2edab3e78f719540fb2bb72079361313eb14df06d2920f401a23442252b248809c05344e90b90109b2f6b8cd71e8);(true,0xbaef85b83ea9b34de72904c592a055060fd21fb84c8dc735798777053c8b0a27049ff13454d250f13c3a15243a5783);(true,0x2bbe0bca2b3960216d7f34fd03d7e10ec7b7886c8cd42ee809979b7afa52063ab895ac1e0b27ec337ad6aef1e4978f85);(false,0x91eeddb63b5351c9194ff541990b7fe8c389f07047443cccf33cc9a4d106788a7de570a8db55df415339305e3a9332a);(true,0xf5010087a477caac9088112fd64bb31ae853dd761fb92b1b861a632472b39f517965ac075a1b29f6fa1ea93e76e9333);(true,0x78ddbd155aaf3a18b2f5cf96ddcfdf73727ca0e01c6c8575f50e114d8d9c0f3b107468f50499a2474f02b284660fb4c);(true,0x30ab311ae985fec9c3d5bec8ee0f2bd56944ddf09a06b80fb1f74f39416699d83e8a527e923e87a22cb47e54ad45706d);(false,0x5ad6e2680d42f9e10b36b17c074c256387a57a2a80e68717bc9410f037b22de5523bf5e88b0f019e1e3b47e4cb55473);(true,0x73095d9af0ccdeaa3969d9f8c6f99a8288ac562ef737bdb3b967e5b44eb4324a798f690ebff2e49f027b8fd6a890029);(false,0x3c46e409000ef91843892d11f68ae23161aeceff63c6b870d8d8472d37251ecd418522174060d463d1e8f7b919b0b5);(false,0xb67ba4b014214def39e1a4128b76d58897cd45c2046a5c43926f2729c1fbe84065ac40772e8cda696cff094f0dafb);(true,0x11174695545b3d55f586bfbfc7076c2cb1c9752d9ce4e1357b83ee86835b5e2e41052b57a2daec882dbfe86a4be457b7);(true,0x321e14e86d50759db38f6957a3dab1af70d570c718bc4a24c2c6671de44417195fb1a7826a7281a6c6eec6628a65613e);(true,0x717dfc3d4a107a90e7ba6107e393857833885e2f96667e40e6e4d89a5e424e64ef0bd7f4bd5380cfa1dd805cb4c96c4);(true,0x645657673fc19bffe388f12e781fb68d4af1dd90fd16e556319df253eb2c452dec9a38ab747a78833e56b4aaa2f241);(false,0x1944521afdc7b8016f99c4dff3a02b3ea35b6bf0b67bd32ea4e084dbbda42024d382c5629ac8aa5aab24ba9cfdafd3d4);(true,0x4fffd7b16819f58b3524ce8b43a883a878e3259bf5ac4e3b9f900bba51fe4017c3264f2cbdda139a2221288393f9a0e);(true,0x223c674646939dd6683f434b56d2099f15bea638b9fc6e0778430cef080a8ec06255699455a426f17295be84d676c295);(false,0x18a460f05364a03f40c0fbdae55060ed08209f6e7213d14230cc8755465d8c7f7e8acb907ae9c4389041640e26afd98e);(true,0x72f92dddd169560a8a8da76eacbc57e481c4a012c7d19ad0354b3e82541e7269e608a703ca26048d5919163e3877be5);(true,0x1fa6e8bbd54ce10a4ab913efc12587f200c2e327a1285e80e2cb536503327b91b3afe9cc3b3ff954e0c780965debf3a);(false,0x6846a0f8c535da62068c4de8b1967d8addabc0523d0e1e0311f94ee00566b9e3128b7129655bc789973b1ca82e428d3);(false,0x4937c485e9dcdd706b73fc71a0302e13c8340c2fdd42e48e5777d0b376ddadf09f342297dba3e9898505cf0dd528a86);(true,0xb12cf9155118d75a6b15c6b50c0a1042c8b5fb2ca211f1c26bc22369c4858dd599de3c722ddfcc9553af26c581864a0);(false,0xf3e2f1f6cbb36aa8f76c75670ce2b47ea067089bca7053311778adb29c8611e6ac2e1e29bc6e911e920ad4d5ec1f0d8);(false,0x23f7a387fc40d730ee50082a67d1cbfc48e96a8b89b6b998b487f8492ab0fad3a820cd8f6209ac6ae1e785d3b0db5);(false,0x103b30c6b53327515fd5c8bcb6e09caf6c9e4166526f3917758e9ede2e8ab1d8e6af555459bac4d36fe428fb7d27e26d);(false,0x2b43cf4f3979a01c793752a1d7057f8a94a7321628cab3802bc17c4b411979fbbd9ae06d2ae7c667d34f380776e6f57);(true,0xcb8646c5540f18455e083ac49b76eb51eda3fd3311bf21cf287e237b48415452bc7bde29b33b3b4b5bdebc7596c4b15);(true,0x1260e453b5f3a4acd5767699110be8198f6f2459bd7aa64192284987b7f1d1233387f548ee84af380c2eac83ff6952f4);(false,0x34688243c811bb94a17f2f3d8d388c188758ece33e33c613eea3131e748fc067ff70b90d2ae15b2dcb27fe596fa62fe);(true,0x54c0109a45619b3c1000d91346f1f389d3001dd7d9d34b6f0c79c8550e954581f1c4500fe27cf0c3bb3c32ebd44db8d);(false,0x5ed925526959f855f2db32cfe03a3e3cb70ed11ada8360888ca94e88550699b5f80de9140af3855cd0603eaf99c9597);(false,0x716643ecdf9a400a3181fdebd7c1ea3710e9649f2b6666e256b45b9860ac4b052ba3c30780f63a56ae5ef854cbe2815);(true,0x5db42d3d986550329c76bd734d10ac2965600a62d02630136e3a9ae931c964eb8fd80956b2ba8c0501997972c5b5593);(false,0x7f00959138d7fd80c1653c6ff147a54562aef30db3fd7e8fe468c958013236e349b31cd914fcf05c716e4046b92da0);(true,0x6acc7230d59f95a5d5c2716c9615e10d4656e543670e81b47cad69b9ff8678af39d3fa42dea7c0f3ee38448acfc9cb0);(true,0x3d4850024fb420e62ee44bece43514a9b21964f88742a93779bcbbaabe1b57a7e221e7acaf8be5a152ac6856af6717c);(true,0x104f5ff9b0d08f6cf1a78173c7c396edacefcdd6fef06fa9d6e16ce73c79ac0d7e735894b4242bf429f12dc3b4a66cd);(false,0x30c3b896b89ffe508b7e29d0e83de33afc3ab9a65bd3fb2b1996e6920c2b8b57d0d61ce4ec897e1b3835879c67f9fe8);(true,0x9b676166b62c7a35a9789271b1dc3515d5b3c57eb1faafa68293d23253c32aede415f56bcdd20b758c579e7c612b7b2);(false,0x77e0c34dfa83fa32848a37dd54565c8d263c1652ca423db70d36cb68a34c2aa469a9b2fadd4988ed64e4b880d3ebfaf);(true,0x1591a267fd14e2ebbe7966548b7a3090a9ceff35c2f9db41778d7c1380b0f2248a17bbaea91cda97547cb766cafb9f2d);(true,0x1965806248058f032ead444fab6022a9c5e37a2a2cee65b5ac1172756ba5d9c56d4a6c88cc58dd1b455c3ad5615b348);(false,0xa3ef1a6f847e90e1ea31f1770195bd34a439969bb5ba5aa9e60c01c5f4b6a465da8965f94e9150f9a481cd0fbc674);(false,0x756f7075fee1f371eea11d8bb369c79a8962a4d366f7f34987b9c1020dc7eff73563e313c0d2cbedbb01df5754d1a04);(true,0x2d9401e9e2f1ddc1f6476ff04a251cd5ed46784cd8d61b2c302ed4759d16681ade749b69e97d6052ddcf9b0511bef1);(true,0x11db005a5a31a29370aecf75ae13566fda2fd71eb262b4afbc1d8a4c23036a05ecb77c229a2efbc83b88a1693b17aa03);(false,0x8ef0c69e5c4f55fd3bf79fd448f175f34054be08c22187b1d75c79b7aaed53b0dc27b12d4e09a035bb441d04d34ec65);(true,0xd8e146d4db6a8cfe21b4050a271dbbd71044154cea847757b2ae504fbf39db15a50e499177975efa77e866537538796);(false,0xf89a61d4109bfb5a98247af373528b9e32c3cc0d249ae498ce056d4ee7f95dcd096adc5aa2038ed670657899cd4dff);(true,0x2665a4a448a7eda5a319d8a3d88b142ab84d63aa29ed864cd005b6ac560d82f46167d13ed7133bf4e58ca6bd8331596);(true,0xc13b1835b9b8c79a0cc606fe10b67f382bd0500651728cd68f62b16c77e0c0b2e2fdfb1d2a93dcd2d86eba940e7d78a);(true,0x536f21eba94738d5b31d3612dd7f9f140160f3a5a5bfb6e3ed85087c9cf18eeb3cc70cfb55fe8fc03acded53630fe32);(false,0x5687d7048a015b06d268091cf8c2ed298faf9bc150bafbaaa650f8de1557faec351005776acdce5592d907419824872);(true,0xd05b60651ef03398528df21f50fd3b72b49851d291136f45507a1945dc7d5d4cebc0d16e41c73da36b5f64cdcea04b6);(true,0x75a90572c8f2083905773978cba0b436cf9c6c74e45f0ca0623e14fadc77e008a9420c7a3962c742e3db29e84d6a489);(false,0xd9f18ee0bcf86c683ac76ed77fd824e1158e4c32c9826503b38ffc6d44dc0ee82ff15fd7507f26728cb82e1ed31f930);(false,0x409b12a7c8d510ea5f45dfdf2e350daee98983f2a820ea175c74c4db2de60edb46d48ae167dfca47b545c888b2a8826);(true,0xc3719c371cdb7733463f6d8581657c8a1850aa62c9032df94b42ec3b6791191057eea816465759709e95a212e86706);(false,0x479154b830f165544a7ff48c169684faf17794fc7998debb09da372ed61bbf3e2ebc47d1d349a5c4f286217436af831);(false,0xb9b69ba64f5ad39393897f5e1fb2db0033f6e77251f0b260b5849e213446b4dbe9ce32d9edc9fcdbb520bfcb24ed31b);(false,0xddce09c972b224ac312ecadff519cd51518465423369c913c0a4188211720d288112409c0fc8ef3978934758dd32738);(true,0x137ebf089cc39bb5efa9d507ef81f43e82f59e317b3dfab0b45480f12f3073c34a2c8e86b0d823be0e8e839f73236b3f);(true,0x13194a7ec9d8bef60e52663fac65670b8ecd3c68b4e699be15c510e537261f62dc2dbbf48dbef31641b6aed9754d254);(true,0x323fa2e6e29a2d801f7de6f5a17cb835584ecf696846a98667ebb5c3d3b8acd64dadf07822f6d0a790d134e0034fcf0);(false,0x1176984aaacd7fee588c1c0dc59fcfd93c4124cbaaeb2ad9716b90df2c7bf233e1b73a2899ec834aaaecf7301a400639);(true,0x1e809f318aacdd36194ada95e84380683fa3b74c7581fbc1d7e68cefd3caa9df57a6b02046195b8669c61c3b65ab0dca);(true,0x211eaa4e8486723b842d9dc0489ebfd0d19ef77f11965afb3fee3719e1932ade2e8c759b234632baf94c46379e312f58);(true,0x145e6ad56552b37308d93231fe12042ce8b26312e421b4361978db9874f57783dc5bc9e6f322f66367d4c5c4321f01d);(false,0x8748fa031677b097bda2d60f11fc91ad2a7049a7cd33516f2e79b583316e2b4dbcb18036653c8d160c7cbbb826d331);(true,0x115b2dd49b6e92e4fe54d23a48eba317465d524809fb712cb251ca4b7d8668ab12aca6a2dd0001514bc6b6af5f869ee7);(false,0x24a98f7b3d4795b7c43e64a59a576c30d5cd556b5c6e1001e23fb0b676bea9e6e1fbadd3473c5918d79de797d613e9e);(false,0x15bbeedfc39d1c6ec2d4d3bd31419839d8543b20dec1c53bc3f53c7f9dca5a539034e8247c0609ac7d6209b73b37fc4);(true,0x109748bba938b50f5f5a93acb29edf5f94a609417f1de897a05e1f8962621d7b1e4a66c4cdb3e3245c0a8aa89b4b566d);(false,0xb917ad55928bc456bdd4d081330c68266a19ee4d61c65b81c419ceb900c56bbbf3c1b17ac77fad20926444afc6102fe);(true,0xc56039eb9b92ebe7148006f67bd65ca20826c63d334ca71886f0956f2f76f9fbb7dc3b3f86b03e8fffc4a8301a52d8);(true,0x13e0f61afb8e078c7a7ef1920d86c9fb7e5c8ae3b95486b415ea1cf066422c070f0f40c733f16e86892d8d91b4b2fe0a);(true,0x175df0ca2ad34335e0d01b6f58a7c53bf46f2646318712a47387836bad94db225924e8a25cbba775e2cb3b74130730fd);(false,0xfdea108721e06490233bf9e1d119bb1bbabbbff4c45101fa3f775127add9d3b464fb472f6378f5743b9f6af66046bcf);(false,0x16c517464c72cc4c6d9f90c49b72d709ed07de5d10ce9f5a162c049813d5c74012ee8c816a2a719ee2ff4926153325c8);(false,0x378d904c2b0f8754983dbcf3ffc6e90e2a1aa402a437aab24f149dae380ea48e162aa2f05e5ff2d0bc03e7b114a2b77);(false,0x24d54f1672d998ff259f554ee16b598448343ebcc6bec95a6df4662e60662dbee60265ffd90494f40fbe6d7256df29);(true,0x3240d054c97041105e714869f9de026a0021693da62377ca44978298832e02888bf2e0c6f1e16431e8c35a729d34c49);(false,0x145b5fd24e179cecd1cb9ee3378b20446a0279eab2cdce4158ec49ab87b251c264c42e24eda0b5b5506a4b94890157d);(false,0xf72759ee03cbeda4d56170196ffe877008dee4d101a79766435b4bd52ae202a590a6cc1426b095a154e48af002e7197);(true,0x1e3805f45def210c297b09abbf0ec28211e4ee0f1a9589fcb0a5f3ba1e3c7e513daf079433ec0e2e2fb9c9248080);(true,0x1948d56e25d448cae01ebe72aab81dfa9cf1c51a7153cdcc2ff10cdf561a061c67b147c492d394dfb1307f5877e8aa42);(true,0x44fbcd8e3f15e91274571f60e7257db3ade81d0fb1e797b85c9af802e3c7bb200f0e84ffdc495bc2fe3a4acdd264817);(true,0x753380059e3dd1ecd5429a257e4577598c24dc448c0c3ff74e1d805a5d518f0c57e516e18183da45f70b7ddc4f3cd79);(false,0x199d0298d71cf5f414880e0ede9451e3243e1f83e4d7bdd3352898c1833f2ba2ce670ae78b653c4f09776502796177);(false,0x4d4bc0149ca4aa9c5920af0226f9570aacea5beb179dedf7880860a60a2fcc4d238d88700703d68ece983a128f0ed);(true,0x1234673c582c964d263761e221d661d4b07c43a35204290d35d3240d85835c5ca20050439b381ed56c74829cb3f318f3);(true,0x17027ca7c3a2caf9dca948d6e37d5c43023a5cd10ab116433ef0fbd2fffb1fe746291bba5a6c6d1fe24d0acc68d600);(true,0x77c2b03dd4888c65f72ce1858f3f63ac2d1a1ff2df50d1f279fbe5ccd7351e17968d7bab92968b5cbb2879377b0e194);(false,0x108217903f6acaa5ac91bcce15a51ec55ef5b1f764f0ca14d1c786db1b8bbaa09769689d3fac945b8c8a0a3fbec33c22);(false,0xc81f63ab54887de5bfed92e6df11508122dda1d205ba143f1205521ed4b5479704b33737019c9e6d171661d23e8bba9);(false,0x522375daa1ec859c2102fe8b77cd6ffc43cd5235ade3fdc17dbf43dca532e9d593b26ed90bba444c50ba6c115cc5ded);(false,0x1b830ba779e2e2df060768e18b7a6c4d5696f5aaabf5ce3c2bd77277413962292d22db65220777281d01b92493e34ad);(true,0x1633669eca9abdee91fb85f3c96875f4b165b923afddb522eaf92ec51777c262fe0bb4d754930c118dc5fb4633a124c4);(false,0xcd9a5b96d6bf9c6fe2dbb1fd218076b2110d1f89fae545ec79c9114b9533cd03f9bd34afeabb1e3de6b3a75028e32a8);(true,0xbf44e2cf88f0ac5b03ac2951a40eb93633dcd2d95102f1f6a00ba28ddacc7d52c9262e98b698ea9ff64019d6dda627d);(false,0x2602ab13a41d19e88f101fa19843b62ad63316fcee3f796dcd0ac396127ed4a9b60a0f7f8fbdd0ec25183aff013093);(false,0xbef7b0bfa5e8336e4d01726cf8bd86ffe3b1117b15b0fe88d4dd98aff90d8373e61555964619ec837583de075913e0b);(false,0x920390fb6786ae27902bdd0b80bc364fd43f8c2fe69c6b1fbe943f185175227e67edeee91c46264de9929722ddcd3e);(true,0x33e0ed48940c3cfdde8eaaa16c54db64d562f0558d47632c23edda4463cdd9a184db85f54861e9aeb56a8402ed620533);(false,0x16f68c612e08e5c804b5ce3cc88b69590d6850b40170e2dbf3e14f6a94da676a138453ed4ca75b8fdf7ace9ebcd8ead);(false,0x18d3b94ce98066f9673655cf025ddd7aa45e780f7e547c3d06f23800a31d0cd9721bf0f3958b8a9c20c2136e387cf048);(true,0x11691b372ad48afac617d6403495c0076ac2599ff71db3a203050db73338171db5125c03473a04e5de1284050e299ed);(false,0xe8ea1fd998e271bd5db7edd53301c7121c19b501df21634b9966c91a52ea16b477578b9a251ca7497d4b86b07a4d0d2);(true,0x208ba1686ee1cc0e02a2c07280ebb87a71d92e433190a42c9cba46b831fe54a59726f3089471861d1a8e04253f3f7757);(false,0x411a788630ecedec3a4d855e6474916dfa0e892a31f1575ef79d97da6ca46160be5b854167d5ae78df0218dfc067c35);(true,0x5cf351dffcc538f9d594b28297e3bdecf72eff88c05eb8618729199ebaf8d7c90df4790a43106471865893f831a588d);(true,0x103c348d4fe1bc06b2049dc8aa7272edaa1a54bc46676379955cc86846836634f58c1d1c57b8943bec88c8d02f2f72f8);(true,0x22147e513dc82f418a8eb92b0986517eaac79646b40c627a6efe761b93d2cc2f344197bc73028463c1407374ca3f337);(true,0x2eb6e1014255e9b52cf0930b5a9e844b4beb9a8d23a6d5ce763bbfc31d0710d28e234642d453bdf209e5ec7678003);(true,0xab42f656042ebe33f9fe8e10cc26ab69d81180a308b304074fce067637abc78a73f5569bd208056706a831c142c70fa);(true,0x12ebda70d464172125d3a34da9bfccf9bb66cb4f611f1f33e89a52bf4851fe54291805b786ac0db05dd1fd1c23d7c4d7);(false,0xc2f13c8c0fd578d00fe0590bd4cf418e7be6d0fac8987a7e24f156f0fc282e14e8830e2ee831ba407a9ca589cde3bd7);(true,0x8add55f262e9932ad66d2efcafd6464af017922304c38881dad271d6be74f859000bb4e5c9cc9c7ba2a646cf15244f);(true,0x317d04057d7b787094bc3bebf100a2af7d5dd836c0850bc3c294c9f7b6d1f7a32689c63c435b5b61f840c86f66c6af7);(false,0x12f0747731e496d2d89bef168fbf797f8f1e3d3b9a4bb017bdb733489fb6791c2790cd2d2111fc5e8a72c95836875af7);(false,0x6047e3a1d5699a3254bb422284388edf9e6d42b79a22ee44f335773da1a30fb8004ef1672ecc96a32ff229f0dbc1624);(true,0x16f87931c7df1176ddad8fa591ea6cd6ac6699ea46a8af41ecc1731cd93e45cd5229d87c6faad79bce1fc1f15e9c2450);(true,0xbb3016f08e00ea0da5cc2b9bd7debe70557d9af72bf1d2d4b5493c0fdb1c5b4e70edff72c5752da42a6956430b657bd);(true,0x117e56231d1942ac14306fc36ee6e27434dca08eb7a5f63deee4f877e5e3128cbb44dc46647cc0bf2df20fabb1c33ab3);(false,0x21e4b4d1b4c8eff32cd6e24d43c08b87ac116eb31abe58c2378af1a673d6e62edea4803973f10856230d200f8dafe5d);(false,0x43a183b74706ad62ce463e513eda92217eb3aef3e5a495961556988e264d0d96b3e6895c2daf12c207a7c8d01393002);(true,0x1264778fa1c47d38680b9d08dc7b094b56e0e45046bf53f1224fc1ff5f04b20447817cb21dbf634d7048e455d9e34426);(true,0x14a8fc112376748fd7915eb66561ef5aa82c7d1b79a83db9154a7508e8b7372efa5a267725162a631f2e2f689385853);(false,0x5f5252380d821e23a34dc9d97fa0cf7238763d5d3144af785c8d191c6bf901c56b365ebc3a6536de0c8c7431ee4777e);(false,0x360dd61f86e72978ab66c59143c69d9ce63af241fd23f3ceb4acedc4aca1c2724af7299a8b8b5a9afb242f0709cdd7d);(false,0xfe6b51d092245f69d71dc171b637426922c49b70f1bf77a3a1a67a87bf446cbbee3c9be3828b2a9babe6c9de48d9);(false,0xb019e2f16b6e1d72e72c07143574da35c81238ca9a69124bf84a323b7801cd8619351c21f2e0684ab3372b58329c19);(true,0x14f76488a349d10b7197a79c0cb9ff2717c0e6f38ce30c0695187848cec1064507d106bb738bdb3ed838b53403f6c3f8);(true,0xdca5ec7a775de99504d76a54b7f52b66888021982d5a79810a75714f97a0ced8d43ad8af48e43fcadc0da581ec17e40);(false,0x150d972ebba4cb0c59c7be4c53790cbb6de33a4b9fb010cdd107c72bac88b00476a954feea8004d4525952eb397a064d);(true,0x61e616f6a22232a5f51b056e8a09e401ea1f2cdbd65000bc7341599ce01c8ff7f0ee083ec7024cf4f3d7bcb4f8f0a28);(false,0xaa9395ad96ab765f52c563087fff5e372a52c040adf795e91850ba95cec4f9ccbe7cdebd057622dad9c3f2c328fc96a);(false,0x10a8de2417dd0290859f5bd1471a9af435711f56a2cbf8802a14df1a913b0ecdf1b93e7f545f752d610f6dd939140172);(true,0x1e82ffe628e811ae640c3a4c5078dbb77f6f0996105b006a6516f5b09c535ec4af93d9c51dae1ea8317abdf536079595);(false,0x1601cff4dcc5e2194348d4d1eb522ad5e3b79fb357260d2b48a35168241e0e43de1b975fa6837b6b01e1e90b1b076);(true,0x18114bccff022a4eef91babfb2e45f6ba96b655d71598c86c0b0d850cb9e5e94c763e0c635d05034bd662f29b2d5c8ed);(false,0x58ee114beb165929d581f5581eda207c98dfe2b808570059f9f866cad1c03090bdbdcd2c58851f00d6495dc3fa2bd3c);(true,0x88ea6174321fec5c99ad0f16a3ac6bca59cc8e940f8f6503ec7f3dfed44391081f8ea42b4b4d52caa7d066b08a235f1);(false,0x9ea319464987e036246a70a9f87dfe356d0438a802f79b75a7c4429defd9bbd814e0bd2101410ff9ffc674d74422388);(false,0x193c1d93cf856c2d255a568387f6fd8dce4eb1a06ac3d5e7af64b1fb8c38a369730516d04faf500809b03dc77eee8b58);(false,0xcc87a59746a32ae04193375714c32518776e9109181b81b3979f27c26594c42b58edc066497f610ce496e9dab5f74d9);(false,0x8e2f7b58365576155ca7daec224f13942d2440aaa969a7de73d90fd3eaa594764df029f882ece3e91942ee06c256651);(false,0x3846d00f5f1295ce521e093f10e1be13e7115c0fc19a05a13f7156ca84fc17e5e7a01d7cb9573f7ed949c9a21a5f9c);(true,0x4f62c9133d58f952bfe872fff8a582c949f0b32905baeac9e90e78234d3cf3d677bd1a88d0ca8011f8c6a25e25f4c6);(true,0x167901141af99cb3934607ab465671e1c94c757b2ae1d5ea7fee9c7492a1aafe797a133daafe838d212817f22df8e496);(true,0x14eec4af6e4d16e9cef64cdd1a3711637503ea813f7f2691c3bfca5e91615f0436f8b6db87b951e3ae5612b3ec523d7c);(true,0x9c3428ebd4f993146132a5d94f34b2984d31d3c19cda1faeb20967c769ebb4cafac2f21f140c7808e746bf80f6d82b);(false,0x9cecbe4180dc344b986985a972f59d4bec74300298d25fc076a5a09ae5f5fdf329760573a33bcaa777e5cc8de109980);(true,0x29cdf92d72f653fc60bf2d4730724fb42fb8a5af40e8db358ff52eb70c10a666b08f1f5da6fea25565604ed4b5fb1d18);(true,0xbe313a1f6ab1be719146647b01c1dffccfe7824b6d37e02f43e8b94db6b776c882672f349773fd778c61fa2ff77a22b);(false,0x8bc275638d335b8b39c337b599f00920e9c8fd984673e207da23971762d9da37473565c796eedfe794829c765618e0);(true,0x91406d4e348ceda2dc2e300cec409923ecbaa80776bc4545ebc102e111bf27a78424bdf49ceb2d2f44f903cefd2035a);(false,0x9e8e984e9b5e4ffb005d94e1a82c3e05ee0aa9861b4bd293fbf87082f239a8240016adff11d837f64741251e2542618);(true,0xc7f7b223e927961253f23dbbd9d5879b992ba0dacb2b21e8e82a7d659cafe2352e30beb217f551ff9602bc73678c7);(true,0xf252ed247f3fd7022bd7f3f3315582dcebc5987e47a27fb318a495e8bc00dcd804e5931736bdf91dae08deb9ce6fe5);(false,0x24e063932523bff175762396ca7fb9c34dd53b934fd3a4955b3742e6fa2546026d5b3458c8b4f039d5d9555af107be5);(false,0x3ccc2ba575aeb6a7d6365e1b136786d0708c05060d87e42d5aec2a89cfc1be792678553238df2580936c96be2fa9d);(false,0x11698b654ff9251404567be626f88ca0950fca9715588968188baa97b44961a2172e4ce9c43e596f7ec75c14afe6446d);(false,0x2a8f9de337243dff47d67b7f1c820d8c775e8a5f109dc9bab6aeb523ac08b0aeab2d7a6ff54c8d6a095adbccae58bb1);(true,0x35a2f01cccd42202272b8ac49797da63648012ccae70f02495be6c7cdd3af2867fbd95a70da3c8ad5d1d58a59f13402);(true,0x7920f04ba82dd6b73e82be731fd0a1433427d77fc66a59da5c4dbf4f0b9b3c77bf6e507c1a91fdd59d68d4c60ff8a13);(true,0x98c958239dd91fa7806d95b4a7913796d536289eeec69fd7e8f1495899b6ddad3a6a1981433b1ea879c6998e45cae22);(true,0x5e94a37155d6ca8acf5beb6b5b8e8dae3dc7fda8bd8d35c47c2aa564684f1ddf03f6a043b66da0b7d9ed1413d79b995);(false,0x5a0669bb07f79165943fcbc8bac79e4a223b85ca1f2d0e463883471f59c26381f63afe06803b9dbf067afbf921fc85);(true,0x3251fa0097901444fc24112185dcb779a8a30251d542633403fd02ae973d0d52eff09c1994dd3823e5323ef1ebff75af);(true,0x692da6f067422612077cf1cfe9eac82c8b5cf0b97c3ec96c29ab86bb8a7f7d5586fc24ef5016844322b4b976bfc224d);(false,0xfddc720e2e394f0f6553aefff6d847339079342ea98ca1a38f488fc23e4cf83a20b5d349211079fb3b6ada8d6620dde);(false,0xf8197c936b921596f01b4d3886dedd6498ad812e495aaea8b4ca4fc5d51b0a87f4a691c0d83ecca30de0b29b1dfb164);(false,0x47b5afb7c3334687e884563f38215f1df9cf1111bc093890e1d8aa541e86da4d663f83cbf64f1d2fc9c7d42dff1d345);(true,0x20f1efcd7b01bb2b33a03504ecbcef2474b9a67e9cf89006ba3e5ceee59ad0e82adb3dd365b00ae9ce43425b85d1a0);(false,0x14aa7336f84df7d14dcf796b0f11c454759161d94f0b76577678955d427623861c66c1304570cb75c30c83b13d9d2ec2);(false,0x502e294bc07773bc55c55b23958d2e3f337a8b10bd28cbdf8999123807553b2d821f316cce868d82c36ee4032385e3);(true,0xf7d5667a6112c6fadffc5bc8e5d17d3f66b157808f841e1794fbb462f55b96bd49971b0af4ca7b6860c87c7bb2cb7f);(false,0x29ad869e29de614cd65039413e1b10ae975c9470527ebda884a60013464b893a7ed94030322b9227c8b682b362ae2d0);(false,0xf5e00981c90e1265a6e63168bf99ae9a32e022bfd007d83eb223addcac0a522fb1316bcab29558d1b93f25370e608fc);(false,0x992031d01afca4ab0b1c7ee62c2dc971dc1c47a426aef769ef35a7c3497c5468b05824ee1a39483e4af87c4d65a6457);(false,0x4c37bee551c876b6de1264b9cdc4e18f20530986a9fee99004b0ff4c078b6e540525a9217874e747e43f930a9bf121a);(false,0xc0a4a51aef4bcbd97e2495438fc3396a0c42983d13c53465b8415ea217d52d22724d7499b9f2d93df58bb4b102d94a2);(true,0x4187c80f6753aa7440c29d1d3fc4b3adde987e142ee5863b2c30b198074c5bad86c9f7301b5596ca7095c51a53cb75e);(true,0x9e92386781c8c0d65af7e2e368d39ec8cd5ceb8f6e0adea06c56ae36a634a3b7ef89bf85215cc366266d1af6f83998);(true,0x322628262f4ba5343e3a10be8969f5ad11f7e80bad76662263c96b9206baaad1647b1c3daed90a120e22d2d0e5aa3166);(true,0x6d449eca193fe42d6f679bf53412aba7fc1ae197ef48acc89e2babe79b9e8bc0e63a985b6eff0e6bb162e97db9f8542);(false,0x1a51153404756f162b83393cf3e66183c45d713c58f2dacab534b7bd6aef1b3f024354fef5e171cf800502a562b4c2);(true,0x31d674067f21e794ebd3de3385f280398818dea4b241ce9523b4fa280ba331cf1111d5e3ebd577b68ed8df3847a2c469);(false,0x2d7dfc3c12b303ca81e692ae16a673cedccd92b9d293643b5db3771e7a24a24de703f6f3a026300a8658f28674d869);(true,0x277b306f127d1554b5186d69a78df01f51ade74754972078c152b177a1aa55cffaccb015b8118d56c4a11e749763b03);(false,0x11e407358e2bad66ca8d47368acff06fcaad357e0a2385f66743821b846f92141f90427e42ff40ef417afea377fc5d3b);(true,0x5984a456a0c906b7ad7ba6493d9d8a7e143200ccde6f2a02aea92a8e7f43ce6c2bd8b9aca4ba9061b153bb5fc9ae423);(false,0x162fd2a84abacc981acc5cffe4912767b5783ee05e1ec6b87c8b9f2a5a3bfbdd8e03a8a5f6c81a33940eaf2902d5d9);(true,0x3393a53e59fdf995733af95bad477e5d45d2b5315fcc3af3a8f68221f820d4214f9318ba9860c219cb84105b8cabb0c5);(true,0x9f1dd478425695d1322db79e3c3f8f4daca99ba0153a0bfb0ba87f295dc66bf1892b4f83fce1f6945a41d8fbec8138);(true,0x1af8f689deb9b3cdab547b3e77b2623f1f1929db2bb32271e39a1126d7c5cc9d481d55662696b9dbe82c48952cbb335e);(true,0x225414a7704836e2abe354e55f01d6b8465f7277155fa8dd8d439f1de9af2db0b678e38854103711316b7b25ae702d18);(true,0x2a2d16a6086112830f72ba2fcf7d6d9882c467c3bab8fb1cbcdfeaab167ee8f01e5ee68dee3044a797d6517eeea8243a);(true,0x82b162063a734e7e6bf1972791ab640148bb493e6a01937c4d9b4d48692157f44b7b4f7265b5b486255e89d5f3c24bc);(true,0x3fafdc20b2dda84e11dbb5a654ae33ec8192b258df611afb7a62b3fe6bf29f83cc72dc10078761685ffd4b604a39c9b);(true,0x28615417044269da58fb464a5ba9a61b5177df605b7217c5dc3eb59f6122423d9217a426ea47b5d0b809b97591376233);(true,0x5dff31d83060c81df3a9cd456189efed0021af06ae290cc4a1ec220762c809fb10840f6c8b318a708996c9d8401b3c8);(true,0x4f3b33d687aa913f8f68b5b0199eb2a99d3bd2a5c7baf6f23ecc5cc9cb1ed5cd25ea99e9f9f2069813a1d471eea98a);(true,0x4706d9f1ed212c3ccb894db0324a78c7458137127168b3ddd5d365b39ada1438e51c44fd60c2f74e6bc7a5eab7a1cfd);(true,0x1cbb1a6d374b0151404500c788ad7c49d2315590b85be4f9f60a46ad37022b376872c7d094934fe15f002a90007dd4a8);(true,0x7fde64a51429c33ebda9f5cbc8ed6274e0d45b8ff20dc4a5ec0abb6dcae875834f7b2c6631953e0fffdc13ba6ab1fc);(true,0x778436abfe336e69c6c3d3e90591c64469ce9d3c18966803336c6da06f6233e492ce83a87148682f1574650e567d8c);(true,0x2a024f1b095eb1a975e6c86fb93563a80c5c5f60ad66fe012c30cca4b3827a7f5591323e654559e69ff8d4d59d608669);(true,0x688568acc65d11505a67872876f3535f22a226106b63be0349a221c01903c50de97d102c54416d7fccb1f35e8f3cce);(true,0x2e853ad115ee7385ffb06e1db6a0357112854b17eedc34d5d2c1e8fdd150d916895838eff200363e14472fd8c65a3cbf);(false,0x8329afc7a0bdfaa10b2541af9d911d498221a396593f291ca6a8ded034196c06d1f5642cc1cf64bb10224c328af522c);(true,0x25cf179f468a370745279a4b507208bd9b5f17ce2b585e88de61aa7fbb691670d26a6f111aebe5dc127c8812d55f9223);(false,0x14727194a40e9c1b04a72abdb589f4c283fbfe88f1d351e06268fd4c8e1e17ac7acac4e4c4da71f5fa3b5f1b91951d20);(true,0x2a82957dd32c11dc7e2bd8d6c5a8796215d38d53743ee9d724a31b4ec8c67939b8b613aa696b61dca9f209e4b4b67a19);(true,0x281d241b352cc53f9df58362a6a99fc2e7dd161a564b1f8926e3d338447164b38b3e804e43394b5b948917053d1db929);(false,0xbe5fb64f9c28aeeeaa3c212c6f94ff410e9ab9f4670a8d9422241259e79dfca4cda3eb9cb008613fd768467ef0ba40c);(false,0x5645541ce3bdc717395eb190ae4c3f163cd756e7aaaa5fc11b247a886e60b1457402f9e4468e84d9011e02136736e18);(false,0x1153d6ced9482fcd10738bd3ac47d4b1e8ee47266fe95935f6264947cc39f306e9d53fa08e1ba0b474a74e2cd95ef4fa);(true,0x10edcee4ae832a60b42242b68bb959646ff6838291a1451962089d2ff07e86bb4b5064c546db9eb98b0d0b1600dde247);(false,0x428d962a0c8c4817b938d3b54726a70e105974958ebee02c54f6ea6670112cdc6f2a0f8126f55a2f30aa8f44e0a686);(true,0x40c38ea20010b7f36eecde5eec13d165a7b2d88f7d5c6bd9514d3ad1a2be431b0c8c699f48dedfa0f075965580c330b);(false,0xe2c63d56f79f67b444ee8bc3043087a6d2b28203e04a4480220857aca6a716fb7894e23c278adf772c8adef24f3c039);(true,0x2965faaac319f8c40681e148ee93a8c5c93d886d71f833b47d79aa931fd2332f85c118eeab06b113900b8633e966d28f);(false,0x15f0a72f0b84740052677db3f22bd2881f02f3c1f381477f4677a092be8191c81b7e54a18d6fb1780c042a9a5972277a);(false,0x133437be3247da814a6398e157be6afd1d5ef3dd482aed00452c3518d1e8f0d4b2b2e6f874e851b5439cf7d414a32116);(true,0x22dfed390ac5a55f0ea69f50906b99ef2a49aea38da441798903dcf08fc12ea2cb249c8456dcd4222b5480c8db9a7217);(true,0x787b881da0be06655879e53876f2bd6223668c948378fc1c162728014aed9725a6e48384d09bc4a33427db1ba4a99d);(true,0x290995b1bfa6d122605141f1e4e7c41f0b6a89aaef25342358ce497ff6699ee0657e59d5198b6c2a1405cc1c57f9f944);(true,0x258a5de0a489360db0d7581b18ab4374fdf68e07c794836bb486247c47bac057b821c3891cdc923da2fa3fe87061a966);(true,0x12567852eee7e0a5924d76262a547fca362ed24cbdcd3472ac9d0f31351049d23a6395ee472b69acd822dae32783c13);(true,0x1d694841f99d212aec29487905d292a6ea039de041d6e9c8a279b1457a1b985510c6dfd797e648cee20f26b48569932c);(true,0x7310bd9abfa8c6dfefc223c3a7c55e82a9c8db143fc2b784c4fec1ac084d6e40550b3452a439111f7c024b75282a4f2);(true,0x1691e6f939813501ba89abbd8b5fffbc4a4af506f47d447d2b39015a3e5fe6a5a8df5532c6c274f42188be38f19e072);(true,0x18f78208e51ee615682841bb7eebf9e2f22ed977edd3ad283a86c4bb183d3d166c4bdef1e3e772d7f78b1e0ba789100);(true,0x2d7ad8f881d779c3707508143b51bd9cf60889da7ac59f02e1da3dbdfecad8bd841d42950fb244f4893543ec46e09941);(true,0x85b8b6c01d9fb18492af72d66d8fbafa7b64d32c822717cee4d6b85f3f0d327347ccadda742acd031121441a5ceb6);(true,0x2e66c5ab6b9ba20d53eff39cf892dd69a287c64040b2e07d745345fb8207e22729d63ec6073225d413f886f2f9644ad3);(true,0x9e918bd3349b10073cff390cbbec1a85fa7b66a71202d74435d2d40925b89ee8baaa508d4be45ea4e89337f3687d98f);(true,0xf3d2842902da1f08a1936316d4f32dd4f8d51b23ecf56f6d4ac4f52205c495d2a2259127fad5f4fb22d21c2592bb8b);(true,0x6e682803972af69aee8f63b4da7f62b7b5d30e12dff58975200f209eb2c889b7073db98d33141e7fbc74b988dd0691f);(true,0x14622216a3ad1472f0d75f88dcc768a625a8a8c7b4f610b6194e70cc04607acbf2fb2639a7905a183ecb72478a7269e);(true,0xf6d6d7e45d969e1a6548df97d52cae64889a76385fdb8bbc1075f5a58a00e44da59ad03cea1c7ef118a36268f9a5a);(true,0x173de26661773e5ee58ad5f448ab4b0c65771cb8df3118cd1593184ff78990effb1834e469e05d8a0224665785ac12ba);(true,0x240719a96c1bbcf69a501e0a53294ee8e837c691c2c768ecaad6330ca8b97f6ab7d325c61b395ee381dd4e0797ae1c44);(false,0x4af7bb166008676bc5000e793588a6817a890935d7ce6945b93100f8adbcb19d1cff978031fc867285d89af5d9d026d);(true,0x2a1f4fb74a59a38443f100aeb1e17b02e5af7ce29060135732257ceb4fe714490dbccda08cb5c1824bbb083addff54d4);(true,0x1f8a3ffcb1cc9b21a9b80b6adf39b51d406035e72676b43953d776cd7f5434a788fe5a7e97cf792cb956f73a779cc14b);(true,0x320f484409fce4e82ab8595128cfda4f47c60c2ac7a19f8761acc3bd857d7f628a6193ee37b60cb288f737fee9a1a86c);(false,0x113b2878b34c26c26c00eb55c6d7d5461fe697acc61107b34513fa73dbbfb6744f9fec807a6861c99aec218cf352684b);(false,0x18895988c978b1a141330ad485b84c3eb2cccfc41ec7bfd4dbb7b6b5d82823a83c37478e094ca9a3030ceee4dd5a3357);(true,0x9bbc85fe5690f8f5c386659eaf527042a745189faa74e4c3946d49e8cec035e523feb90364b937518540ef8764ddeb);(true,0x2200d5b35a13cab3ae217bf2da3e492ac923030cfd4280cce679b9a262e19a956dabe34a0b886286550dae7e6809fcdb);(true,0x2b87401cb0b4009973b0da762bc9efcb256a8733ba30a726c2a0b1f21cf59e459cdb289cb62f420971d6dee08076c7ac);(true,0x145c4312d78d3d1f602e9be40c81f7cc198b939261276d4f850b7a308082bed7691a59c3fce3b61dd923b5309b50f91);(true,0x127fca25216e90b1e071f37c6d56bbc7e9cb4180ec6af7e9c3359c43c8875deabae497f2bbc4bebde9700551c545134a);(true,0xd496b879b2ec4f7ba86b5b08b2d7d33298b10c374a82b8a9129da1a942f5a37320f3089e7b84e4686deb082d612aca9);(true,0x1f25dd86ad2914a58c430113676fe58e168f8a52e5009ad9d7b780a172dba3048c2a628e17ecff1ee02f8ddfd9274);(true,0x1395aa17f9f754de22669717236e2b53c8a25c5e4745bc444cfa4301aeb755a12fc5229415b385718ab4f218db77be02);(false,0x5dac0b88e09d40d0a3a22c8ceb7d2d6dea4e6be22b0a377b9e4ec9518db9198a1a8442c2de2b492e20baf508c5df4dc);(true,0x190912feba91469510ed9df157f0e2b4a82ee6767781fe5d8ccd2ad09a11cb1db3f441cbc98ef1e2d7f3bfad35f2678d);(true,0x3fd4b831eec255f12f444f314a57d1128693b4a0f2906e45d3cd4aeb80d2f3cdde5f6a731f61c824fffbf3236c937c9);(true,0x18a7a4a7341183a161abfaf1e874465d3fb02bfb0f66ab409be3da586735d45bb020879e2019116f1146705f0f425e);(true,0x31752a839e97d9dced7f61bed46b29c4154addacc983a284779abab6eeda00cec9f27560d9b41323f24aeab566712153);(true,0x3df4093adf9d3caed964d39442833c43ae90d49544336e4370233594f12a1381bfc6aaf7f3d51153c943d794afe9832);(true,0x1e84ae92304376410468ce158be625946b19b3a0f76b67e375ecb2c3315fe3b0a799395e0c946bd677ff90a7c342735);(true,0x2d7f110f2b1fc4b65c676e60fa4756eb5878b391ed68013c0f1392a0474fb76b3af96879aa0da8722e0251fdca4be0e2);(true,0xedb40914d725f80af9152b5f7ca960bec688cb1b241f5b4923a16bcaa85737b1876740758a2d30f80d1afd9ea9e25e);(true,0x13d125d697c248a846f7bdcaca168e4f16f841ff3b07040d7d2103b568da5ad15fd05f869a32b69f78e78b79f81dab89);(true,0x5db80ea81b71d9efec33f0be45ed3435775d5371f6f26f0c29ca7f6be218611670e63cb1bd6119ab2fb661d6f7b28cc);(true,0x9141a4355a6d880c0d52481468baaece85a9ff52fe431de4590a421c7ddc37d32273079d9ecf727ceaabdf9c413af42);(true,0x2c5cb32f057f158113ab65f7f4210da9606ff99aa392c22287ec5d2e40ee317d130125d4446614da8712faf46265b193);(true,0x154c75142459df908f4b0c512bb394a32a5dc2470b2b6990b056a9b82ed63c5799de58520774b0d88c4cf85669e9ba);(true,0x326330c9f535c92b3ccef21ac2192e0039ed9efbf2770030ebc01b62cba3876da912df0f0ccd855069d75b2a3e61d6ab);(true,0xbc26d38961589579d5286844e88d06083a41756131c7e66abdae56d196f873f904ff605288ea8c4c79533caa1fab7e);(true,0xa2dbed7f72a5a9a50d8c88124f305c562ff83f25d598931cd481dccfff2f1e1723107a5658929fa20d457e2f6fec271);(true,0x8325701c95128f764e05e3111ad0b865637a5b44d6e786a288e23a02750b1ae5ff47fa939c7f381f4d3ca607f5568bf);(true,0xffeba637c79214be7fe39e9b871ca41d4de33604c161b23b6608da52742f38ffd83edf866f70401e823d5fbf1533ee3);(true,0x23c4c624324f0c323cb666ca79ddec19e608e2da1ed5cf2675129402e928ba917dadd053f33492eb99efb6f9977c499c);(true,0xc5e96d2316cf76a2039a3c07a69a19b798d583b879595efff73db40ac7ffbd646dbfbf9e2b04669b0942e45e07c3342);(true,0x1bcabc4bee642cff28b91b40d057fd4ee9340c8861f413179ac60c62e1a80df0a9ceacbb04755e9b480a681cd8518196);(true,0x5d523b45c0e542441c7de7fdf1e846dae90256eb7f368e7036d058149ed6397a80ed768700383101805cd649436b85);(true,0x4e15e5e29f562d7cccba777419d2f81ffbf20924228d10bc5088e09f8f0cc3b42958d2c0f5b4fa7d5721d7c8984d089);(true,0x4e92c79a7613a9a1eb6cfcb1f12e1b0940a161591c9405f2973684b2fd65e619fb66e362c1284deea43b138b52d6b35);(true,0x27e6c7b7c2f627c5fa44d9ce026db5f2aecb1ee04a02d9dfd506b688e81bfeba81a79a507d979aaf3fcc9f9f32a08c59);(true,0x1c1311db2de828c2e955180a3c045f45092458ade50165a349235b73dd753ba825a1db9576ec2c1ab389a973a70b8ce0);(true,0x23bcd6e6c3b7f86b55b5e4719acbb9e3b222c8f0e2c666c7db1f58fd927c6dc2ca1e47c3d1b68958020af116997a130d);(true,0x591585a03a612432cb797ae9625faae8a92e7f91b5cf68ad5e7ad4cb3b3f9218bea36f8618c4fc9c3a454f8055b82a7);(true,0x214990444f60a1e2e1f33c8286225b50991a4361b2bc979d4648ba028a5158b177eff416a4a2c7817b900a2a786297c4);(true,0x2449d2ef9d5d4c01b73f97d68009484342c28acfee532e3a6d6f0508ea1cba9caefa752cfa789cdca55d8cd46f76e566);(true,0x2d87ab734a3d8b19fd51db6947337f630329c57c175052edc4ea54cb8a765ccf5c2b099d9ba008c59f3158075441fda8);(true,0x174776912a34b0d276fc0201b265d175de4a50a9e8dcc30c425c8ce3e4d7a7c005fbddfbf4256eb89d8608dcd130aac);(true,0x19e891059267f9063b84fb7cb2bb4d16ec5050a5728bfb637db0d28274b320a038c069742695765ad6411b1246adf48a);(false,0x13454de6d11e70932102c307ca8dfab73fc607b03b5969a348545bd012416ba6ff295a421bf57491e02ff7118fe59c50);(true,0x9b4d73e08d3243a82cd1d29bf8000955e459949b8651cdbb93581affa68715103cccad347671ecfd2bb073a1ed54c38);(false,0x161c58fd45b100883dc4009d0887fc6a610cc7731f8f872b5b686fdb8ecad0956823cad8b53a6f49328847f45e1f980d);(true,0x2e895eb76ba0bc3fd973073ef7045fdc3460488f20e5e9ec30e4b370b0de8d53d531ea139b7ad302d04b8061791c02d);(false,0x13cd1a25e013b47bb503df66ed0d7d5278faae940f37c5bf201f24a1593c844848ad82c96deefa4044813e3e50c6ddf);(true,0x11000a6b09cc486c38cdd2e4714441e21dde90f50b655a4cecda1a14ff2de55df5dc270e1f3620c88396348828cea9ff);(false,0x26fe8122b09531f0b8658a558abebcbd67983979e3eda4a808b2539e7e0f330ee281b595563e97c3f8c2c99d93759a3);(true,0xd0fa3b9c96876217dd50ac60fbb990f1d7ffb6e4a2c8c39c7bca5f4ade1dcbcb49e364b78f260669158e3001d247c06);(false,0x1338a18842c2988bbef95c5ac60bd9116c8df541a1b65d5722e04f286f25545140873ddbe79c367a3928d860216587aa);(true,0x14353a85eabc6d3cfcc8d35a68b0f6b87faa1f1e06ca9a07a3a7f01340519f5740f65b02f8b383c0a26fe8967d61b2);(false,0x1186418c7eab2c96e966eabee0a922414f4b9df178ee68c7b02af1bde1744269756efa4b50ec467526e88aae9c4c6ca5);(true,0xa0ce22e1221b56cae2019acf226503b42e1a43a34585432d9a0c3c86cb504c049427ff31629e963fac4a53322cae7f4);(false,0x7f5740361095410f0fbe6e4cd5cb45397cf1aa3190df76886e366ff750c91b58232c11a5e2fdfa49cf81d0c6b2982c6);(true,0x1cb57fe6fb366ebe55bd55812423ec51ebe734773f506fba394453d96b87bd846476dedf0cfd58cc5168924035d3371a);(false,0x1a0111ea397fe69a4b1ba7b6434bacd764774b84f38512bf6730d2a0f6b0f6241eabfffeb153ffffb9feffffffffaaa9)].

Definition cert_q : list pcert := [(15778400344354997994418419698270088123916926905054652752758194827714659,1,[(true,0x0);(false,0x0);(true,0x0);(true,0x0);(false,0x0);(true,0x0);(false,0x0);(true,0x0);(true,0x0);(true,0x4ec1ae979e64f22e714080d8663d35d148dc13a0ffb5054a5efa3b8f01433bce9ccb8b3d02c78e03d89f103);(true,0x31e0648cb63a3fdced09b11d9f65d7bdd7c2278eb62cb675ad970d08a5b09c7cda4b0f45bf30cd566f6f7819eddab941);(true,0x2345fc2b08f551010d230ffb048c1af1ec0f312286bc5af5d39f00bb6ef3a9273df7f100cd36ca50a2e7c8bdd36e86b8);(true,0x17535989199fa646635a636fcde7548a7b3ba47317a2186822460a48f94d20f8d2110db3912ced2d3c8521a2645dd643);(true,0x21a9db8744543601d44bd83503ea3dbf85bea90502d47bdaa3c645a038147c871b2da8255876d43594a6c2a118451144);(true,0x1bfb8f1ecd98141bdc6b5ad2ac7906f2a718de37510e321e90ba9c7a3323c1ee0b5ebfe825ee225347a1abc27b76361);(false,0x6a35036545c57b7e59d0fa6b793b9fb3a24efebea4942fe495e9df031343c4fa7ec150baf3b6df3299003fb973a3d5c);(true,0x1a987cb73b94b131d2f8f59393f3cc69851d95b5026a235e825515b28c1001900f13ed298c18f0d0772ecbc4fac240de);(false,0x199c3e270b4989fbf022d30c3b2e8a3e6346990ef24dd256a3a420866fe3294f66db7b19c6b5833f0042a8b0a92d1ef);(true,0x1c7bc951304fd698988d636402ea1d2c46bd3ebd98a80802fa6bdba1436e6c9ae46f74563670c2d6d0689b6452cd23ef);(true,0x12145721a751ac73fff0102bd0f1810f2dc034488b3ecb18666e857e4e6d3748cedbb25ad290bf571526cad0b4effcfb);(false,0x4a82e76c0123d772cf056d966534724e8589bbc114546b8744600a81aed2ec8de4bce84f9e9a698d113e515c5d3f7ed);(false,0x9a5c1c4ab889ca4156835966a3f3094ea5a13b94916746ba8dc445dd638b2da3958afde74fd2afdf1c176ec3b7bb4d5);(false,0x42bb69318e2948a5820ebdaeed46cb1a3ba78f4e0479e6fec7707ed4efb62b7a2c2f5c8a12eb3dd06a7941f9dfba08);(false,0x74c36f221d621cd163cf2dd9515bfb63fdf79c30780de8a6b95e54d72b6a54454b8d6db3b387c16bec8182ff220019b);(false,0x1305f4c2096ccf369db67fa24171fa893fc476bf78b49328e06fb8a0539f102011abae4eee53a81cf28316cc613f2cc5);(false,0x61f82c759fc008469c103cfb670f8fb90a1d213bb6123adec994fa3a655fee910da2fea3963bcb8c401e1a757499514);(true,0x2373ec18d12deb43a0433a3ef2a3df7b2c9b8f3d170f7c378ef594bc0b8f04f1c251bfe3a25f8c026198a46cf0d10e47);(true,0x13f7c4e178c0c16c5faa6f661570ae360ea0c54cc20f1630a160aa3b1fd7cb8b08a78940fa2b0fa7dbc5a8545efefd49);(true,0x270c686d0344917af07dcf822b36c39be670490f50b4f0ac39ec39964433a0479a0e671dde0fcef27ce7e74bc9fa478c);(true,0x2d6a5ab770d9488d8eb322d3e4ea7e08ae6bed10a2fe0aa66c3b897830336a6b6365298b0637538395574b5242e3fa5);(true,0x2895d551639c4e061ecf1073d79447c9822f83f794478d0cbdb595ee25669a0ba57b350c4eb529b33a73634235e59d45);(false,0x175feab2e7026a193bb28c2ed81b917d765302b0296ccf55be6b524b230fead01a0e2409780e3b90f9fdacf1316fc270);(false,0x2af59f7c1cb6d930f6e69507ffa9a462b5e6c1529ae8ee39168c22f98108341b67ec16827390e24e9ca80920266725e);(false,0x17e51898c9715395c8226339ded8f4b9324a808cd823fd69b56160546c46e352f037b9e407327051a8ca706f88a1dd6c);(true,0x29dd9b87e2a20d037ad5ecc2fab04e53c60c5f014582e5813cbeede533bd87d3d05d86c21a269883dfd50f64e2cf02);(false,0x2065861628db9d76284c876cb008a9a30d921bd79be319548153cbb35e45e17953f2ecf0d3f43b61bd77c344ea2c66);(true,0x2efc77a2b1cac3eebd35aacb950fb78ed737dd137f5eb0da2c72fa356400fa5fe1b6536d57ee162fb00bbc2c0ba70193);(true,0xc16daf69f590901fb10573fab0077347cd3ef1e1cc6f7691e63e21c8244c018de533b2b100da88439aebdc39a475614);(false,0x1062c98318f633c6a88c4768c19b1c832fb74c9a1518cc29db3f56a3ad28b83d6bff3546a5ee3261c53ab9a4e81a06);(false,0x1683e57b985738fbb4fa40100292330cfe15692107baf7b495d1b5ad90b6bcc58f1b7b6edac2ff462a84db81594a3198);(false,0x8a08b944cbd4a4773a6c4cc4ba6fe5fef9f4167688de28d5e24c4018289e1e58ede8b77ef03382869177074eca0ed2);(true,0x56fc48a725b929eb06b4b729c69f2fd62fc1828dea096d2d966ba84aae422c5e3af8d8766cae6e5bc02f2552a7f59f1);(false,0x63dbd9194799540a033dfd606255eabaef2c2c44e41b5fc660cdffd18b7700915ae4cbdb72fbd17338dc97cd723c63);(true,0x17fd87562809a8c70a007c9664ca326ebbf13080d14c50b6ab93615be1a1758383c202920684f6d441e5b5c09ad3ab8a);(true,0x51e083af2e20e244f2ff996c0493a9f04b85eaa7e0d453e307044e753427fbfa007c957f5fe48d5ece1af371c5d6712);(true,0xf6149bc66315b16ace9549e7084584215bf3cf8968ea5362864eea4ae0d662929d6a253756ec13a767e14a4293974c);(false,0x1099833adc25de3daa4226983e28399bf3b25b7704e4e4b046773db260fd6f5787a2d2c358cf7b775abff7319b48993f);(false,0x25b26f38981b9fe3678b9334d18508358c532add18aeabc05367fdfea042d53fe153eb6a0b26b482e58c25b8930063b);(true,0x1ab46dddd8f3c478311a0b2368a4bd7565f329e56e33b53d799ded81e0b3a7bb98fde07de4caa6e00d76ba82ea69f399);(true,0x68b62a5e6ce215e554ed06e2525c07de9a6f693702fe62ece784e977072ba6d3d93e1b3dddef11f1eea1ebf58796a);(true,0xb59838f085504e4408bd6e54907a4c54031374d20c851a2400c53742d8f9e8c8621ebf31ccd86f9e7fca8e59a54f548);(false,0x79693235c33681f046f3f907373dffe81a250186d32f8a82d9a3728eda01f66d040c0bd1811c72d43997039dd0b31b4);(true,0x247de0669190e8bebab85e0cd18a3464c6ea8ea19e9b9c42d93f782207597875841e920589873dcb7b4087b05e694da7);(true,0x161142dc473986f33819cbb6d91a1feeb6742d082c11fb6afa01d554f6748ef7a4e3f9dbb3cf573ab9a32850d7cc77b3);(false,0x2dff30e720a1f7a3220a1a7e98d44c8b733b31bf258253356b43a75be4f01c79a09a81794323aa834d1d0b6e8e49c33);(false,0x28ad4e032b03f78a55f8f541be26c6c57381b3c09387035442271581d819fd6e14e38e5ef325c3d620f522fe8bea1);(true,0x2ff2624c06d965477a72feb27d6a25533e767e957c64fda9c11370a7097c6ec6054b17ddba2582547baccd8ba52c72d3);(false,0x550d2b3e4d0f2bf8bd9083f732255739ae655e548f02eff4d91e55db65544fd22c9f8f6de9e033fb8264b8ff39242b);(true,0x1e84a9bac95acef502aba10ec87c8b6cb19be426f129bfb0c16098fca3d28e0e6bf1cf60bb63257202a4607c4b6d8d18);(false,0x38bde3fb90ddec382f6ba651d8a77deb2ab080a66c10b90be38893e39eda3e134bb9405f6be0996840f1958ada55fd);(true,0x2a38446ba75406ebe0f354c585e68cc2248a68b8170b3ddbe2a97303249b821d86ef35c8d6b713ed4efd213a531911c0);(false,0x16582202c1373928b6be41c4c058d3f4e06ca1c97ee160a8e40f3e5696ae74921df9fef253b6fe29a887c8af2a87186e);(true,0x1f63efa70fe75032b9c7fc9d689613822e650c768b9abbb116aa6a0b2290b7d9afc7ffc6336573bf9c96002cfe5f56fd);(false,0x24b491fb55c9da2ed16277eb3fc7a8c0f767ebc6382589549ad90d91eb5d9bf628f6e2bfb613e7af7c91bf49cfad0f);(true,0xe7c223234f6b72157713da7da51162085b4835e7bcbe1ea34c9e33378f55f1fda3acec90f6b9c38d15ff37e5cbbde96);(true,0x248943c576ffc68e7842ef7b2c11f5dcd52c16f0035e711014d137f47a790b1fe42b6addf2595c3c570d62ddefad2c89);(false,0x7638a78f31402f0da035aa2fce67fd524448a8e7d27172816295bc6d6bdca7fd7e18ac15dd9d0a4fb3f28e7677ff0e0);(true,0x48d449eea35f50d390d3d071902cf5451d372397563efd1cf337d0343531935c2833f77fbaa19df8774214e415c836d);(true,0x2a563dc2f02e41a20f8f59b31c70ba33feae1f727bcebbdefd30f35d0624514168d7e16faaf2aa4816521dbca40758ce);(true,0x1bef5b28bbd3eb64ea549edd235d0a16fc3271489fbdfb5d23bfd2068e6276c8ae6d0933641061255a36ee4da5f3c569);(false,0x50a64ab345ea58516fa5e17909fc3882a328efb529b5cc02416349b99f53caa1bf3684b81e354b2f117a5b6b8a3aa3e);(true,0x3e03f2414adc6245fef6cd02fa9d02ed67fd459e7aa2f22965576d39cddffe108c8631eecb43c0363db27e6bbffa98e);(true,0x22da0209dc58ca1c507f83271325ea50dbc15e51eae107b55ab472c28e1725cad8c322653fb706ca607f01385b66fa9);(false,0xb5c75fccb8c97dd71624a7bf43ea9b8d5629dc39935a27f4a88bc6d43d98427d0a94c38f9711263748796d5886a4c);(true,0x79e0a65e8f5b1462989258d3bbfd79d65bf6959ec35bc3d4b2748596de5a01c0a43b23480bd4a516e6e38df7629224);(true,0xc9c2f373809bcf14948214710ee653a1038b0bd4b8d8f37460296fc4e9f0f2127ce8a26c101d59b179d725ba28d365d);(true,0x37644b3979ea23bd7ce0fee8d4f8d5e579d45e6e9d5d73b07d594220c43ad8eb02c026d90600c87f58eea4fe5d72c4);(false,0xc01cd5d077abe7cb0c03da9d3c1716eb1500fceb1efd495b775b1d0ab5036cbc37549a3ff9d093dfa000e353ffaa8fc);(false,0x1c9e55e8e8c8097b9f4a6705db22da219a6088a95fe81edff75bd105a33c88a806b37c566bc57bccde9f61daceb95a9);(false,0x147a083d90fccef8bf51785cc3314ed20504e8b16db7287a8d4b8c8d854d830e1f7eabbd5c63e467b2614ae78a578bc);(true,0xebf19df0f7dbc497543bad6a69fdb6e63f11361cb621570742852adf8e6a86ac9d31ad23980ee74141cf8f591c7f815);(false,0xb7d0a0acda38dec73caf5f29bdbc9bed0d799a4d2c92492f88dd72810b8c8446eeb5a0d19c737ee0525436bdf76fb1e);(false,0x16b7f6782c9a0ce359a2977d125f756f7ef86a90e762e063164cb84b6a74d59d7b21f9f5392dba1c7f0b36f1649310);(true,0x519f84eebc8543e052b13fe0759022a40b47cdb99ca1662f8ab3818a22aaee9d6a60993cc67d93c0c6bac35e1611e72);(false,0x14ce34b60b0f7e8c53ca9dd31570b9a1b90018ba2f55094f5f6195437dd747fed61747fdb88a45e50fdbf91a8ea73e3);(false,0x157650005513df76b33ec084480b52e329e09611b9b5c13086290c846b5061cd2342ea5e05756fbca04d2563ce6f7019);(true,0x19190adeeb698f85a1dd961d76d228ec73d4a555fb307177af70f09ba91c0305ef9237288d75a93f69b36b635b2a2f35);(false,0x82a223a73d2704b52716ea72ec9ce4103f29e14e513f2c689969e24b963a232f54c5b6349a953e9ab39ba61143cbab);(false,0x53debfe3f76f832c475d0bb19101fbfee268c73d8b33e26c5fb30f29b3095bda4529c20673beda79ee401fc12af8c2);(true,0x2a7a29a282efe77915999788b55be8a11f7822e1d7e956a17cb1c22a9a2f770da6adacecf52c7bdbbd33bdd38c5edad2);(false,0x65c42248afc8da8c492ad48ae53baf45f7c4ccba5590e10e3d3f7991601225c57de4eba23f8a323d3ba83e2d3bb9e23);(true,0x9e9fabff55378b2b556e029fb2165f9936129c7850e7d8a8114aee00d5af1d6f52d0a5532c605fd361030a304617b);(false,0x7a4889c50cee535f35d14a4dc12840b1036f8a69f13dda4c96b4e94e0be952e4cf64d55966e174bdffe243dbfdf317);(true,0x7233e0e2d299e06f5e92e29e26691117fcc17fbd86a2da6f2ca79021db000540edee10787cd5583075837956874d57c);(true,0x325cb0b6ee823cb1e605b24117de2d2bcb451fb25758b10d93c76177d1b800271a54420f1faad6e11eeb71b1bd72fd0);(false,0x1310b42d038a7eb7e7ef11c91e7f436c8f8027c0d9bc166d5fe1c57bc9607a754a217243aaeac48e9a7e3e80a97390e9);(true,0x23b9f71e96a03ca7377231851162e0f744cca82a72ee7176eb7eec1307ce7df0c0f36b5cde4aa8b164123384dd61588);(true,0x173572c4114b3f6f0be905c5a3bfd4298a9997a87fedd7ab5b9290fa6396387ee90b6c42263c026f5633e0e2f7c3b474);(false,0x3c5542d168ca29d5ea419c50ed4afae30a9ccb3430ae85f24960f0a9e59e8b17ddf52cc4c7cfbe058840c8dfdb35daf);(true,0x2cb44ac2d054b29bf0ec237d8be3021117c5deec7b15d0cd06a7602e44fa5ce73dc03a1c4b0ecbc52c2b72f251480a98);(false,0x247f5de698d14d9c27fc646ffcd8834b3c6afd0c565548de10a5eecdcc5843dec8aa877f9281683c67f3abb464ba045);(false,0x1512ea2e02c9a4e285bd2dea9bd9381d93d061b9cd0c0987e25038ec14e2a91588bc4fa07fd0712e7aeefea16bfeb7c5);(false,0x7d8a8c8409b6743ffc96e22049af0c11f99d46267bf60431292f03f3638c55dc2a76b39262a3a8a704ea438f67f1269);(false,0x34b46b3620ef38d6981c292e4fce9b986cb88819add4740556ca1ecf26c36163224c7a9056950f02da3bee8735d9b);(false,0x73cd9bf357fe20f33e15af345a4ec3b4c8ef7f73cca51747cd47d5e9e2fa4cd4578bedc6478619f1b5c4ec28f022ef0);(true,0x3f0c726dd3ede10d45b7cdefcbc7df721a4e065026cda677e63d8fb1fb9ce853b451cbe623e5226d1d7cb508f105197);(true,0x2743d57b6b9cd71d3088542c2cf600f9244508e063e1c79d7a68cc131ea0bc3f1c1b70f9beca93658a72690ec8c3b3);(false,0x67e77397e928c80f65592a34bd5891e9cb23624dd9dea6b216fd029bcd3b6de1a0ef0b3e1792a1f5d92f8636958a2d);(false,0x186e24a8162a1500aae299994e5299c5265ffcf18857436f721e21cd4913bfa03f2e142c74355e6b4b24cc10bb287153);(false,0x13bb8694cd7cf5adc1d705189cb0132de6b4875476586e1cd5008efe091322162b55d6dba14a1244905a18507ee19cb1);(true,0xb89bb441b099476f86686fc9d8daea95fbef4fbd479cda2d4ddb84cc06fae6db30c3b0317a3183022829517d7cdd7c8);(false,0xb45412169b25e16c59766e8d35d77af0fb93cf83b05607abf164d3668de638defb35ae710946b8a9e109818474badf1);(true,0x35b42965b72a3800d4830d410d2678593b2e164d3843823c6b33c105d8fdd464e664b5fe3a6ba6f2fec878716ef635d);(false,0x3904ac0147f7e672e825d07b261a8d9087a95d0cb00a68cca0e58935a9eb3223407166a620c1cad8728554d33fe20fb);(true,0x1452cafdbaf4f7605e51d90687f3ed9b2dc193430566a915a177d70cdb176ea81d2f6a7875ee2ca8c5f54b9647d13104);(false,0x9dad2bd62bbf5b5d3b92e37325c974bbde018342226cb115564ed0f3ef12a5e8bc5218c384afdf1cdc3d259740eaeb0);(false,0x43fb62179d3db8eb2a0bc41705429d3e9876f52a81d4c26c5a0cf5ada9be6e56b163fea0066782fb56be7a2ce4615);(false,0x6a76bd88c8c24e34bb5184230531cdcfefd4459b82065ec1508a28124c9013abab8a9b50b420fc314aa8b412495349d);(false,0x1441aa74105955229f02e4e46a844fe697a898948aa2fb7931dad69a196768219992eaca3372bbe8136593abb20dc02f);(true,0xa4515861f00ce9c7bd9223e68a0bc87fb6e8ebad4e4445fd73da8d209f904d2946d42181b2730974b3cd5155011ec53);(false,0x11bb6167d81f7b9c4b6fbc240901967f3535a2a3cbadc5a80ff3c146e1602cd7d523341b8d21aa3982a24fb133fa744f);(false,0x7dc6447d2d2ebde013a4f4cafde63ab4b12b545c123cb04d41f01e5ae56756e13e1b6ed4c4afc2d5c423c0b94957e11);(true,0x31ee766a1260fe406535ab6feceb6b91e89d3fa879ba389a41008e87337d2076c526922dad3ca2d43727efa5d4b245b);(false,0x1083bc5798d7de4e4e32df0daac27b20f673e8adea83609de9aaac90e589fcf34b336125d4032d9222882aaf7ffac6b2);(false,0x1fa4d4c5a2a458e28fe48fa9bcde614a352ad15aa89d3e8e8a777069817fd5b00963446496f095d3d4c3300ef5a46a9);(false,0x1317c1e66791c08f3c92dc8769bef88e5f530dd1163e15f656540f2ac82aad03823af1667aa82afa61a98a03c35921e1);(false,0x17464a428c2c4469cfbcce25da718ff5d19c5e110951a6b122271d5e651c07a48e1655f15d72af3127f6a9a2186c46f6);(true,0x16ffe2691ad193a84fdad3c274bc677e14a9538164385309ac71b0a81fdfad37c081182097c02171f2ac3729f45eee8);(true,0x736ae6a85d67ceac113fb9e29e7e7f00bfb939fe6313109ba565e3bafd12dd68f997fdc7337518219f1e60a7208f219);(false,0x3d3663cbca05a22c19b8ceadc8515002fbb4b15a1b9ce8fe82d51af996e9ba24c7c995b3944c6bc52ed6056b0a0dec);(false,0x1ed9bc36fedb2b86c78d351286489e851f721d0c66c7d7aebe3764d76f5a15abe1490d06057daedbd5e90baced034e7);(false,0x49600a2c3996f173af83b81c835df571d12f1a330fca1773432e395854ac37ac7771b93710541897eeff12c9a0af9f);(true,0x6444c410fe268c02f72b261ae8a99d1782383644c2cd8b06f94366c9170882ac0da1dfafd52209324aab1980f813531);(true,0x3dbd1b694a9ab33357a717beb29b2bf79a29e72bc42695954d55b71847f92b0aaf2f62c4f3ef1fa948456be460874be);(true,0x1ea44f2169431b4c71cd23f8c135c60a53a295199943d0d61769b1d4565efd310a9ad11420742ac0ca4a291b40253f18);(false,0x616a31a03953377f90cfbc6c15c7b4acb4e744e40b5421f4919eb8b6ab027b5f2d5d1302f39d27da1ea91787bf7db86);(true,0xa0244a8cbc5c37e0270289b85e62dd0976e8c9b890ca984445e20a2837f50c185d9a600479eeea2d86d67e365bca73);(false,0x16a7eaca42a45b247cfb3dd5360c1735d2555619eac127ff9c79496dadfd02093fcd64176060dd50d0f060f0ae998ff0);(false,0xe635bdc2f8b89b0de351b23d4e9f910bced4ee769eac8c3c1c52708100781b997be8c8b4e991857214f6ef96cbf86f8);(true,0x32d1f7684114a0e6892c05f7488da1379fdaa374679f4facb171b88af00d03791d0465c2b9f8b68315d76f5a4d238346);(true,0xe206a0b68d8ff5a05b66e52340b1ef534eb0fea2ee76c405d5ee21c93a10ecd0759da63e281170055b56d04d0b214c9);(true,0xa3a86a8d8f604be2268043f6976716042539eb6f21239b76249f632546c16a7d19e4dd26c010f6686bf8fb349568e1d);(false,0xe509264c92ca16e89f4a73c654ac119cc2dcd86c5a1eb11d36c6ee42c74f2f31f70a4187192c2dcaaf60a828dc49eec);(false,0x83d548e377bd07c8973ebe821e1a8cda16545b9c98574015bf80ec5f6ba70cef917d2b2cd062a75dffd3e89f0bbd26a);(true,0xce1b6d447d9a40d6ab6818c6271b2155cf5dfb69a6f59205276cf75c042ac2588bf262be7a4ded0913c9f6b44b87c47);(true,0x2f34fb354e24dddb4fde727bee930a90ce25ec5a9415643b4dd354d6939222c145b3adfae658ce6a6c05e6acd500f75e);(true,0x2351dfb095ffbf7d8dda6834e14f0ea16d44a149397fbbfd1a75a189793671ef2ab80292ed997d240b044289efc8546c);(false,0x36a5bcf1646d0a601415a4ba55d09b1b62f22d5c141a307f84d5664e54bcfe04036b282c7fadc4e4a6a0b328b3832ae)],0xe36640170ae2a0bd61b1989c446ff5bcf09a9f7648366e54e2c9dc0c9249c919fa70a72bf97a0cff23109f18a40020f,0xdb2cc8ab345f5f9f844cd6bebdb60570733df0a116df1953faa8ecfb00779523105e6b7c079a89a60dc70de9e65156e)].

Theorem prime_q : prime q.
Proof.
  apply (pocklington _ main_q cert_q); [reflexivity| |vm_cast_no_check (eq_refl true)].
  repeat (apply Forall_cons; [|]); try apply Forall_nil.
  - apply prime_15778400344354997994418419698270088123916926905054652752758194827714659.
Qed.

Definition main_2653753 : list (bool * Z) := [(true,0x0);(false,0x0);(true,0x0);(false,0x0);(false,0x0);(false,0x65273);(false,0x302a0);(true,0x3efd7e);(true,0x25feb7);(true,0x247db1);(true,0x159487);(true,0x6cdff);(true,0xfa4d6);(false,0x1c9bef);(false,0x66291);(false,0x25031c);(true,0x97329);(true,0x2dec2d);(true,0xa1874);(false,0x37f2c);(false,0x287e37);(false,0x0)].

Definition cert_2653753 : list pcert := [(110573,1,[(true,0x0);(true,0x0);(false,0x0);(false,0x0);(false,0x6)],0x28a90,0xd187)].

Lemma prime_2653753 : prime 2653753.
Proof.
  apply (pocklington _ main_2653753 cert_2653753); [reflexivity| |vm_cast_no_check (eq_refl true)].
  repeat (apply Forall_cons; [|]); try apply Forall_nil.
  - apply prime_110573.
Qed.

Definition main_63690073 : list (bool * Z) := [(true,0x0);(true,0x0);(true,0x0);(true,0x0);(false,0x10);(false,0x2ccdbc1);(true,0x25c77e3);(false,0x5d7590);(true,0x2d2a04c);(true,0x576c660);(true,0x5cdaefd);(true,0x1da145);(false,0x19d14b3);(true,0x2974d9d);(false,0x2022fe);(true,0x4075394);(false,0x68f11f);(true,0x375f6e);(false,0x3ecbf7);(true,0xadf2);(false,0x21cf046);(true,0x66c4e94);(true,0x6798937);(false,0x0);(false,0x0);(false,0x0)].

Definition cert_63690073 : list pcert := [(2653753,1,[(true,0x0);(true,0x0);(false,0x0);(false,0x0);(false,0x0)],0x215c667,0x8c9b58)].

Lemma prime_63690073 : prime 63690073.
Proof.
  apply (pocklington _ main_63690073 cert_63690073); [reflexivity| |vm_cast_no_check (eq_refl true)].
  repeat (apply Forall_cons; [|]); try apply Forall_nil.
  - apply prime_2653753.
Qed.

Definition main_254760293 : list (bool * Z) := [(true,0x0);(true,0x0);(true,0x0);(true,0x0);(false,0x4);(false,0xb336ee);(true,0xbe2d32a);(false,0x102b619);(true,0x1087fc5d);(true,0x1803c930);(true,0xb007146);(true,0x7b280ae);(false,0x42a65a8);(true,0xf676cf7);(false,0x497a822);(true,0xbb92145);(false,0x53c5c9);(true,0x455bc6d);(false,0x5948288);(true,0xa3b5bac);(false,0x99c785b);(true,0xf758105);(true,0xdec4810);(false,0x5b99fbe);(false,0x29f0e6e);(true,0x170d50ca);(false,0x85ee580);(false,0xf2f5563)].

Definition cert_254760293 : list pcert := [(63690073,1,[(true,0x0);(false,0x0);(false,0x0)],0xd2905be,0xd)].

Lemma prime_254760293 : prime 254760293.
Proof.
  apply (pocklington _ main_254760293 cert_254760293); [reflexivity| |vm_cast_no_check (eq_refl true)].
  repeat (apply Forall_cons; [|]); try apply Forall_nil.
  - apply prime_63690073.
Qed.

Definition main_52437899 : list (bool * Z) := [(true,0x0);(true,0x0);(false,0x0);(false,0x0);(true,0x0);(false,0x1479f86);(false,0x18de8a);(false,0x17a35d1);(false,0x101a0f3);(false,0x84bf4);(false,0x66e218);(false,0x1470756);(true,0x5a31336);(false,0x1f13417);(false,0xe32e03);(false,0xa21c2);(true,0xb07fd);(true,0xd024d);(true,0x1665335);(false,0x2d3c0f0);(false,0x5f5290);(false,0x140c0ac);(true,0x428e957);(false,0x12b7c);(true,0x169db78);(false,0x3202389)].

Definition cert_52437899 : list pcert := [(609743,1,[(true,0x0);(false,0x0);(true,0x0);(false,0x0);(true,0x0);(true,0x28f3f);(false,0x1dcea)],0x111ef7f,0x8d39df)].

Lemma prime_52437899 : prime 52437899.
Proof.
  apply (pocklington _ main_52437899 cert_52437899); [reflexivity| |vm_cast_no_check (eq_refl true)].
  repeat (apply Forall_cons; [|]); try apply Forall_nil.
  - apply prime_609743.
Qed.

Definition main_2529403 : list (bool * Z) := [(true,0x0);(false,0x0);(false,0x0);(true,0x0);(true,0x0);(false,0x1a881);(true,0x1bb6);(false,0x19c220);(false,0xfecb0);(true,0x102dcc);(true,0x303793);(false,0x173fb7);(false,0x176db9);(false,0x108710);(false,0x1c1202);(true,0x11919b);(true,0x272d1);(true,0x210);(true,0x47d6c);(false,0x6ea9c);(true,0x68f12);(false,0x269879)].

Definition cert_2529403 : list pcert := [(18329,1,[(true,0x0);(false,0x0);(false,0x0);(false,0x0);(true,0x0);(false,0x1a88);(true,0x5314);(false,0x15e52a)],0x11d463,0xa2d66)].

Lemma prime_2529403 : prime 2529403.
Proof.
  apply (pocklington _ main_2529403 cert_2529403); [reflexivity| |vm_cast_no_check (eq_refl true)].
  repeat (apply Forall_cons; [|]); try apply Forall_nil.
  - apply prime_18329.
Qed.

Definition main_r : list (bool * Z) := [(true,0x0);(true,0x0);(true,0x0);(false,0x0);(false,0x0);(true,0x0);(true,0x0);(true,0x0);(true,0x11aa84a76ff6f1bbe1c5aee5b83f04769b2821f5a5f25d6b8a139);(true,0x7e61867b3a0514fbddf97c1529e73da8d0be73580e99e5fc7830bebf21a40fa4);(false,0x571e506750de93e7da61080c539b1200026d850b3588fa56fef34f966fb2ea0d);(true,0x5be6b0a2935e8a5eb3e84326768c7841463312a406d232c608aaa0a093f3d231);(true,0x14b78d38b33072229b3e76d2920022de1cb39858f0459370c44fb2fc288e0028);(false,0x436a5a464874ed47aaafc4abb0df09ec1bf18d204333921755e07d6c5d76e379);(true,0x350e7d8e769f5ebf743f7ddc54b8e4c31f115e5515d688c1de7d33f147eb0f04);(true,0xf6b6c860f2a8faadb9623cd4366a7e7e78b63a8d5da6b13a3d9fbf9c8d591d);(false,0x11c26de2c2dd166c0b4143a7e1846c97f4301dfab2fd501fe4672315a4f3a55);(true,0x54d560f6162cc4197d504300fbafe92f4fcc168b20e187a8462c4288dc14cf46);(false,0x4a32e0fd8a66ad2920c95cc001e626af8db486499a325043a7a43db29c44cf8d);(false,0x70b86e18f750e10bc303a91e21e3d2b1a726a53adca64132c4c6484534d2350);(true,0x69f945721dd2e7ac81143b184073cefe23af6218a109c573c3d0b1aeb3acbbda);(true,0x177a5433e4a4801a2a2c7aa7b073d1f9706559bd16892638f14d89615a4b9377);(true,0xf7d55be84daf020d0b953f5ba2629d874fa4b3e4050178bb682debbe6d0196c);(false,0x1e26d35dfcee68907ba4aaefd52a8d3d50715fa192f53eaae6d5c9496313f13);(true,0xd233380b5dfaef90880a4d427986b89d3955f0b6883d066f86a17cc9ee41a1b1);(false,0x10a0a6d3dc2346c1d730e3ae9b155f1e173f1fe457c9880fa6a84ee20d1b579c);(true,0x4ccdbb25633a4249d9a91bef4264c7eb0a134ceea5e17e05181577bda925f3b1);(false,0x456a7eb1951ceaaaf39a7bffe69573053393d48a289ca286452e36710c6cb691);(false,0xe61370df93bf2256bda317d33bc8f659800b63dec254783fb3e54ba837340f);(true,0x60fd52ecf1638ca97d10624539624252d5f323e53ae12cfcad46c949ab42b455);(true,0x1ae22bf5c8937a9c942464732ba277c5af56357ead68e922ce4fdf8fd50a13);(false,0x47dc8701f14b23e5c9c7c31b46d1d59b7ed3a105fc5a5d8b92183ba1e8c8277);(false,0x5780968da10d28843e209a9a54418350cab94e2b4b5e884310a12639b485f23);(true,0xaaf64c55be1a04db3b3a2890ba9fdb5592a3393531c75f6cace76d881b0bc67f);(false,0x11af806223853ffa2f6ffef3052475e36bca93dde3db56d7a6854abba827f0f9);(true,0x32d7034c4c4ac822be063cb57e961fab39a231297baf39182e68032c4fdcde66);(false,0x5cb10f49aca5b04f13eb6a3a22d713b329919d77c238edddcc30cb2785470dda);(false,0x14fbc429970ad55c2327a8434d97d9a60ecca0257fed40c448877e7c82bc6526);(true,0x265ae7848c31800cd3560556d729fd6c469bb79910f04d9ace65dda783cb58a2);(true,0x1bd23dbd0006fc50c4c5ffea0d534c2d6c6703c3b12a319f2013fa15fe4358f);(false,0x1eff5caf7cde7ec774c1c9faf3fc056c73da2456ef36c9516755b9fd8595b419);(false,0x2cb00ba0e0e44a3ae04da60d341db0b4b2808f34c151b70dc2bedbcf4441e064);(true,0x5559636cf8391ae78b02f7d92f05b8f0d929e3496799bd1ed26f8552d6ab430e);(true,0x14d7a722a0ae3f2640a322e4708b0c6ac1e4e83401b6765d46e10361598b12dd);(true,0x8e56dd29f668ea6b2422a89e5b929bcbba86bbc85a2afe0cb790b39277607fa);(false,0x312990d74fd206b812f4057ac01beebf0c81c56539791d401978b8abea3c0971);(true,0x69f37fa125061c508d1209c5d7a770fe29755439c03eaaca7e397783d0388a2f);(false,0x1d6c76856cf2450a4634253059acb1df2d7f085138f80253a89b811f88b955b5);(true,0x201ce778c08904bc0d07aa6932146a262c990d66b7eeca83739c5f1abba752f);(true,0x55d3f9e4393cc554f23a8ccab5b4469e9ad8a6b902f165d385aa7ebcec7ed4c1);(true,0x3a6aa937ae16b4350eaaf544b0cee7b7e04d17443e2ebc9f88620121c798b256);(true,0x335d765a2640616403a9a06c7fe1565f194ab5e1fe0eed52ea7290473deb9a2);(true,0x67b1d0db7966b47572a032641f7b34a371b4e1c65cd9cbf944c21a19ed8e8052);(false,0x1f3e337d8d3763ebcd6be52218d02416790d30ea69445894ba9f3e69ea40905b);(true,0x7ebe9c39a693c7220e6a39ab7c62d8614bdc0c17efe8115e160b280cdbdb3e17);(false,0x6e844a312d73b7802efc1f7e1597c3e7ce08792fb2b6c493b549b4ef56a3c0);(true,0xc6d5362fef60213cf7d2f9b3a35192621825c63f51b53ff174179bc249d94438);(false,0xe7188fa3150eede61a34dfc85b0c9a4b26c8037f02432652bb72b4af0a0a4e2);(false,0x3e75c74f6c71e5f635dea1d8f256d713768ea002fedf09bd99a54bba7d066eb5);(true,0x3740a618f39bd65a18e2302ba59fd9776d8bcb315d11217313e237cf541a6e23);(false,0x5fc8cdc6bb648e78d68892ac8ab277409b7dce9b697d03cad29fd527fe306cc6);(false,0x8f4bff20c578a751067008625234e41ac1de3472f10a380a754db4237e338ab);(false,0xfeab7145ff4b413357b03aed05d015e19a9d580a54d94af32b68e9df42d4d5);(false,0x71c480fcd9cc4b1e418d486be124a9253987804232509fe8871a07fed67ed18d);(false,0xad68e6f245e27da5d14a16a95aa17311d93d11eacbb79beaca00e829c7d03b);(true,0x6f09b672077ce4c92823320ca7bd2ac77f0269e29cc7b68dd8039ffbb8fe0cd3);(true,0x263c6426aef12592b133f2d4dabce188d0eacd5349a859e6cb4b057c32ef353);(false,0x538d62faf8020115e93f36542fe936e31ee28fdc012adecb562cb5145d5faf58);(false,0x2a52ef904f0ce65c63d4b6635aa6d972459bea0bd69ff7fd29e8e9836067e4);(true,0x4d41d739e701b56b83d222f0ec8e67b97b11e8d9172048a343e259936d543001);(true,0x3baede9ed3982474e78b42e646e4b40c69afe8102767a3dd1166dcf46b1672d5);(false,0x19990c6d9ec9785cf5db849062350cd47e7cf250dcb905b6c5b0e0757e6a3ac8);(false,0xcd23b424215ada185c91e49f78d5044d9f2281e76ae0203651f1c916dc87029);(true,0xffeb0213ccec233a81246d7885391092082a0bee092a47a4bd402ac9b430057);(true,0x10af6fd476d47012e0be0585ccb956ff1e52ad6108a985699fbe06c5c9e8757d);(true,0x23d2d108f5d774b8639a564b0b7514286a6cdd858a49d54c5b1e2cb769770300);(false,0x6b2f5bd4189cd8e933ef6e1b37525eee965585b2b7bf5bc8713cda90290681a0);(false,0xae15d886d71f9c095ea2a14eb51d5bc91e04ad54dc076577c5135145b584b32);(true,0x7a97da78a4136c4035dfeac932ca96fa4c25885daa839660351a7499734b8a2);(true,0x3b8c6d22fd82ddb340c38a1745e7b16933982c99685be80f9fa7e17fe76e36f8);(true,0x1a89adc18a96d37f2d04fed781c775c53d29b4163ba7aac3b31ce3b65a4e0bc3);(false,0x39b4f181c2ea6dc4b831a7798b114f83c695018057705aedceeb58e1a0e7d507);(true,0xa70c0e4e48101989cb6b3af3b69830974ccd15521e1a67525a911fd0b42b1f0);(true,0x81cfecba884841c660d5da9aef582a109129794d671c02fb03741ba9dc73f075);(false,0x4f20f62ce43bea62a52b3642d8203deb7afb310b9e375aa1c524d8358d78dfe1);(false,0xdd9c3ea37bf3bea57be8d2ae2f5af87ff8665b2152850f1800bd3789fec6648);(false,0x1f1c4d2bc819730b0d50a83b8825c11cafafe38fabcb9c495d6e9bc5ce302017);(false,0x517f935470cf5d0119fe12957f0de4fc925ace48a60937dffee893e3e7279a76);(false,0x586bdd196c1c891affecde4375a0737f6753d0d18c07137f33dbaa43467dc60c);(false,0x6c475fcf159efd6defa4b58246c1c183a5c5a5ab5c0291923ffe6f781c31ea3);(false,0x397524dddf2d696340848d9d3584b6ae58836f374e2d251e2a01dfa00e4aab33);(true,0x2ef60f8e0cd8ddbc980fc806021d3e8d5f39497ce58c2bf0944e2bcb6047ce);(false,0x23b252906c2a8072e7fee20696e30c02ea2d7f76c7b18c7e20455750b5213f0f);(false,0x657607b7fd5a91b82aa0f4076e868a0d7b5e63ed1a3678f3c9cd3d5e785dac);(false,0x6b256b42ba0f4cc851cf40787f91e65f41c8e271536b9071e9e45cd153ea93a);(false,0x71d710bdb1abe5da5f1b6f7e22351cb28f1028580750a6e1924dc52eab4078f6);(false,0x73aa73acd4b2d23b73b7357df29a025acede6ed86e80a8dac7320a6075ac07a2);(false,0x1a1bab162bac6b9a7e1055b01ef09c07ed7d3026795c809836eb5daaa53bd40);(false,0x5676ee9d549bb198b6972e5019634a2437d63ee21eb1758ec11a293610b5202e);(true,0x19c2213254b2cecdf69a2bbc0e8444f2597f50097436a7bacd096c53f8e9ccd6);(false,0xe03f9130692644b64ff72e6d8d222e91fd4b6c28390700ac43e289a79f13b0);(false,0x28132677f7bd13ea69374027d69850e30ff3b318d882561f8f001211ff4fbd1b);(true,0xdf8ca28fabb8813211a0b6c8650376eb46d894c7e7f3eddacce6545d6d7d69fb);(true,0x87ffa5c9b79063f6997ac7bb2ecea8994a20e86225c8857451db1d18f69815d7);(false,0x19dcc4dbeafffc2509840ae22dac2969b6320b494be50f023e4c5c9952ff3d1f);(true,0x20affd4f4c478a63c77a00e546918f045a952e686bd2218e3666ce3a1cb362c4);(false,0x1e01b8131996fc5a4ea6a4ca94ab7864591640706d73eaf448d70dd97bd7c92);(false,0x3292f58acfb869bc70d4abf7fa483851cbec955863862ef6af24c9e4da6447cb);(false,0x4a88a5faa87064d484489cae61abb73a6525499a4898666193a597c208a8c31e);(false,0x183adc92cbf1659c9ab9129ba9a23916264038dc7d16f749b92d3292fb66b53);(true,0x7d6b7f8db7f630e2dc116bb19171bb1e75e47d0c46b4d6c8740feff9c2d566e);(true,0x3036d167c60f5f8eedc7c534342a711434bab691a6f0973482c362f6ef410a21);(true,0x6390437f0118dbfb0cbd0aa9d47ac5fc4375264e3cf6ede9a1e77db2d49e6e6b);(false,0x7b162cb2cce5b1dfe81cab6be7066503fa028ab4eac779100da5748c506183d);(true,0xccf7e532a382df180f2eb9cf52bea066fe7801569a8124b3b52fee7ae94b818);(true,0xde387aff33ac920d40ab72341dbc61fed391a0581dd14a8b30d934f22725b687);(false,0x3f9ffd4ee630988340af1c4b8e1fabb7aa101d63bed198957f0cc628c0176f82);(false,0x16d19ed2c125b3f03789f997be1efcce2d3f6dbdf1adee199ef45d1a6df72721);(false,0x30e624d3af6c7a92aa845d31c06a23566b50eec72a25a9a6e1193dc48bc206b3);(false,0x412e3d33e2acfdd4ee0282e70e6615e69342bf04e7877ef134e2c035960dc2eb);(false,0x2e78a4ad547567a13c548cd6d9271b40575046a93dbe486426b1626527a765e8);(false,0xe7152240e27d4c7a23240b62ec5fc791ec71c0002659febb22646bf0260e643);(false,0x6ccbc4e06b36ef9499c203208137c8d8279f9c04d1ec01846a57268039b5835b);(false,0x163ee99a443b65ee581e4c8dc0d7935fa818126f28915aaee23c20a612d3e5b7);(true,0x64a532a1239344b92a1f825cebd28c1425034d27bef762c43a910efa4ea28721);(false,0x3d1a747e4da7589a88f29741870f59f62acfba7332c5cdc9f6573f8b59a8e9b6);(true,0x16a44900245ced1138a81658a86a2aa31d7f4c9b1badc59b31816e834edc18ab);(false,0xa4198936d017bfcb4be911e07506a9a7bbf5307796983d2894146241ef2065e);(true,0x83ec4c28f05ee12272a3ba103a6ba659e026f2adc9420936051cf45690a93e2a);(false,0x366b13306ba508c721e6ec4f291e9608e387b0a3f40fcaaa80b658f1bd0528b1);(true,0x20d869522f84d894ccab70e62ca7808932dac6d9bb6c587a19bae2e5cc41477d);(false,0xabc5f5f1194b88ad4f5376a6c8601290e76cde21389e4d346e8564a160adda1);(false,0x592d0808d0bd36db4300cf9798aa5d04603f0913e43fc5c25502ff782a02fe55);(true,0x102d44f81a1612fa31a5229f02ad83000ae0e6a010260bf2e43843ce0a1e56f4);(true,0x72a6a3ccdbc54b464286672170c0c056b4afe74c5f173d2a5579868375f154f6);(true,0x348f1789586fe85c1891629522075b8fe51fa7922dd7f36d3d05d7d5524c499);(false,0x4a77af2f6d8049070bc3577890c7e8414fb3d1d00a604367dacabff3815b7235);(true,0xfc27e813957aa50f1cd6a4e77963f7b83d0ace14dc31dfa47d613500aa5071e);(true,0x51cf61de58fa761095015b0098674f5912e3a496e2cb28907cceaa08d4a1e552);(true,0x2a5bab1ab64bf792fdd4dd3f2fa4909ad4d5cc6ad760640053a82c25fb5f8426);(true,0xa991fbe0d111ada936c137f1306b4425096b83ca6f82f01f432e9b7420896b10);(false,0x589d017ca261b5513d569b57f5673b572475e8fbdca90804def6bbc3eab4b49);(true,0x39b4247d3d0578ea64e8a5343c19e49566d6a8f46e8aa33894c295cfd4db1274);(true,0xd736f0d0117e05eb731e62eb58be919f469e3ba1ac320064feaa156ba791dbbe);(false,0x210794bb4077539c0456d0f7672955c775974d1beb95e0e168a0bada31ec02df);(true,0x6ec2f55bb80d768f2b87fd8f4e490cd85ede7416f0b2df283d313ab7787c39da);(false,0x144f3c17b5054f46a71b5f52237457d88de47ff07b4461773bf621c2a04b931e);(false,0x4b759d0455bac8546f849b0c0b2cd2b38193dd6128f879170f5f96c24a84814b);(true,0x576eab8284540dde6712157535dae4a96318b294d16adbefc4ec715fe3773973);(false,0x3d93ad130919cc451bdd70df5beb12a664dc19d6a3d2431eb9c2989f5a7a6934);(false,0x623d1b934824f863fe4aa25de49b85158ebccdaaa8dcf1dd921b63765df8874);(false,0x17ddaf629bfe3df54c4a1842e61428e4f59b6ae02e2d7a0a7d6d0c2db267211);(false,0x6ed2b6973cb4dbd25bc3ea0f8bcf42815c5e312f72ef1d9a5a0421ec336ce0f0);(false,0x501a2bb3e9eae409ab2eb0e27931a12615f4b485c2c2aff6dc429d1b464c509a);(false,0x62f8493b6638b9020f7817584ad4aea20d01604ed3d7b4b5ae9c66207c5e1b10);(false,0x5145a0862148440334af534d7be6c54b5ff741a71b870c4dc3f13edb269bf87e);(false,0x4eecf3fa64b495a4eab41c7b8b050699057f426ffff2d678f912d37433f2f37a);(true,0x1b8e8931041e4c83a34bfff6b3a6e7f5329d5603a6692ea0d7f053282e721d0);(false,0x131616a2b360cb72184ff6638abdf492a098cc322c3897502f48eff0c7339ea2);(true,0xc33e57d8dc8ffd0236ffefe92fa0d2585feb7ab7f74df43ef33036fb23e5fc32);(true,0x175a7873101a6d935396b0f1036ad64c7f42e856cf747b195d8c5a2df7a54706);(true,0x179166b009c7f06823ec88780082feff1c6e80afbb14292b3e15af4ef718445);(true,0xa98751f12bca285d58382a7540de791d778756706e017b4dc50c272b77a76566);(true,0xa7ceff7c029f7b5c2994b4bf31472054925109b964beaa21ca09fc526a223635);(true,0x3d218a29293d25bd8a14a4c1ce048ebc4d8744c641e6087f095a0bb317d7a29e);(true,0x272924848f12c85603fca00fcc1d6c32ba1618b7967801adecc1fb5f452f804d);(true,0xdbcd643141d644931963704fc6bcc3d59a51509cf15d96d05a5003c17450e719);(true,0xc21a137ab79873a8adb4ab6f3d36697f94390290b957dc836a8ad6251402b20b);(true,0x67b9d6cdcf920b29a00e5307e4827f9a63bdc3c135578c387ec8e573d0f72cd3);(true,0x7d5be5f6dda3f0c468550b5200bbe3ee03b47dcc3f58f3b5b69cda591127d8);(true,0x58190f694be93d159d85c03565a1ce4d559f2910ac72a9556238c6b56fbd8355);(true,0x7d829ad78f5b8986e20cb4e9544170216ac211c664cb31a4e0856d39fe486a7d);(true,0x685b8e133f1b778b2a2106cf3556007760a720ef868c88146cf2083cbcec7278);(true,0x1ecdb8fa1cf3c78197c2e096751e899ea637fac5bc7147785603784df5be2c39);(false,0x44d3b0ee7f9cb7f43297077a08220963b34cc41cc1807fbfd1e7dc577582a6d9);(false,0x3fc89580dfe11311b1140b5f8e0fc192e1dfef93dc446bdcbec581302a1913);(true,0xce7326b3d051e1c9c754ec80814f1add6cbe774443ea9cf51683ab8353ef7230);(false,0xf899c0a5523bbfdb153a24d54355b7650a0ac56ac15abdf3281d9a7f85d9608);(true,0xb748c53238e5360c4ab639766aff9c056e628bbee48f0fb8d8bedd2481ee99d1);(true,0x3a61f4a2bd2a69eb5201553328ad73937052cf408219a680aed51dfcf3929a3b);(false,0x555453aaadda9f640a6580c49ecdb1617681b3ee5db09573f2803f02cd6a1bb1);(true,0x496ee38f66d076ed35a4a5d249c9a0f89190859da43ccf077773985163aaf656);(true,0x44069216084e4cb81bbd59d4f748bbeebf76d226e432d0119a597c48e6deb68f);(true,0x4abb005c5760cb03bfe3afdcab77ace57c878dbbad11964249038cc91c677aee);(true,0xf23bf1cf46ba214fb75faedfce6c1545f27551d26b5f35e80f9218abe528610);(true,0x2b432dbedda9fdbd9b462b01a486b9d0785f8f7ddc6c595e1eec96db1f17ece0);(true,0x22416ad398736332e0f6ade58d7957db4b6c8f0c02c15493bde5741b637af212);(true,0x265b4e9f3be9fd5ac30ec096d27048b721ba72159c3b49dfbc364ad3b56a5827);(true,0x19b6e8dc1597f84ec08880806fa94d9ff91ac42004cb776e6c35047981b02600);(true,0x91f5edec2a5ad30f1de64e8c78633998098cc51166e46df62785ee8288a9b);(false,0x19983550183849f1ede615ecf94d300cdc8e7892e42d42e5a42f7c962401025);(true,0x5320439b1f7c121fc2a395435dffd327b368cee45edec13c65365f8786bcc76e);(true,0x8fd2eecd2445f38d48c95277954de942ae4935e4a8159601ab593967163f3350);(true,0x63af8d628dc8a2d5d941174886f48801b76bba143017851db42f0cf2b3e2002);(true,0xe6e913a8f6fc3722d647802626401eb2c130e6374616d01a68ce0060917af288);(true,0x6473b6ae0433d9d45ce6ec7e29eae33e03cc6235d43c1b21fa58635354007a7e);(true,0x4e52d050c6117a4c315c4a75b0d60be36c9c31014abcabf4633c6795412741c5);(true,0x40667823699aebb1b240e7f78c2c32bf831cf8edb47ea6769550209b73eb1123);(true,0x3234ccc6d3ab14a57a55b64622e58ec7c20ce2311aeafe7b0c06170f4df6060d);(true,0x8d2d3a1ad389f2e21b29045428672dff8e2245a71c22e13ba8b86ccce6110125);(true,0x15aae8f046b4a7dcb4d60635d8c51186d18c061312a1c8fe6654b93c85f3bb4d);(true,0x88d9e95922343d35b176d81b1239df1485b1d844f08b02a3d9dfca90d8ed9bb9);(true,0xb2341960fe8a1bc2156328843a54d8d7bc0f01c0c35c0de0e7c490369cb5eca);(true,0x889a73c30ca054de0042cea4377da672631e7b3cc07037f9017b7e6927f32367);(true,0x542620bb6979e947e477c3585dec5ae89e31cefdeb453a9d969e67a71895752f);(true,0x89eb35425c1da43edb119e8d1b86f839eb2b517d45fa78ea689e0632c95ba085);(true,0xba92200fbe4953503d697ac90393fb79bf7094b9b102f38f81049230944a8e24);(true,0xcf6c1ec214f9a6920b73bcec8cae7e389c0f861ef8957e589e7bd38827ceff);(true,0x91126580570c1726604d45acbc9c76c170c18fd0c7d705f73a950561a0a75227);(true,0xe1d8e95808a9dd151ad9412032de7873b8e14e6d1b124da7d941e49dbdf77de2);(true,0x292f90227c188b1c42afe72084efb6460e097d2be8a2082e494e24095773f9ef);(true,0x9c118406f329c87ecd75a753fa9c9356868d187dc238b775fe5fa330510e7e4);(true,0xf21e5d05504329c05bf5fe4a669e45124ab4aa786f11448c14564456d05c2);(true,0x52e3844be221f81e0a0b8fe1e5e5e3dc7304e38641ccbd1f17ac49d8e2eb8f55);(true,0x479af7058ecc1157614964aa9a2593a782b14fd78d4b13fbfd3ad7c7c2e395cf);(true,0x392d3feaa7659eb77210e8ac82c4da900ffdc3a29e8efbd5ed54c81b983e14c5);(true,0x89089926fca977be8f129c71830314adb8af635d4c4663bb118d0523eaaee4b2);(true,0x866f26dab375df99173dd4fe1c2bfaea50e89f7bf784b43c286083ed635e2ed7);(true,0x74f54f96b4effd372ae488b286d4fea31b2971be31178f5ae840c1ffc1a2b6a2);(true,0x4f8738c4e469c18d66062a2b0ca25a511e86f3f58898205cd991f82b16299154);(true,0x186bc8ea422498d50827dd2bf84caecc4acb2f41b1921c199194b88a6ea256f4);(true,0x369dc02d4172d76ae0e1249f778b2d74a6f69412faea521e3da5c82092bbde7e);(true,0x1695c4283755983bbcc3bf285d66dc78786cc869729c0d525752ee48e6e5a10);(false,0x1804b223e03d268b9a4c72bf8f92eb10cee55029190665e11eea37dbd9cd007);(false,0x27b99bf92190fddc3fa7e35e5d366e4c93f708c7e12efe692bc2ab8ce407f55f);(false,0x137d54a44d6a9a9d2d82b904e6b26e0a9efa89d27b25e61811e82e705a394108);(false,0x1df8c58ee24e5fc645be3513f3c10c2d5e9c9e24d89fc35abd095a4591de3663);(false,0x4be418fe59b4b18dd02f605c47358e8c990d97a724bea6e5e29bb37861b0a8);(false,0xfccfcd6eae887e4308426fc5d49dbbd56610a24712017228343d0c1080c2098);(false,0xc99e2902204e1fc79804c22d6fec4abe19614906e496aa5baddc7be99292582);(false,0x536823e747352b0666deb3d0651df806481ec099babf909a645b70c9b778d56);(false,0x3717d56fe72445d319f6851e0226940e5d3d76e7dfde841e67470c6b7dc2c9d8);(false,0x26f3fdc0dd0d2a0af7995779fbe0e25e7446e72ea68ea97a8c728a175e45ecff);(false,0x3e7e084fc62525f4186518dbbd0387413133aae0b10835d3e3b31061cb56a1cf);(false,0x304f11d50f8077f5f68c898814ec4441adb53980e9360ec84a9fd4168584da0c);(false,0x158b385c4ad25f81371f85e9621a1a9028534479ed47bb7bd5eca1bca07808bb);(false,0x170032417988598ee9fb79cb3d876242a3033a7674a140730c7cdc6da3b88fdb);(false,0x5332debd92e4e879039297e8b40ff5d8394f5e5830f5d9ea7a322c63f7aa1f66);(false,0x4c9a0799fa6550973dd432257682aa208188350c313b8cb8fc249da86d809697);(false,0x5e15ae490d3fab5f8af05c82c95f571a82195f1b56cbf4447d5467e0c0464017);(false,0x5fa13a3a47ef0de21c4b82c6b8b522cc1c7af72b51abef653698ab04902251ca);(false,0x11a534151a433b5a7baa85a6d6cc58484bd857bd5430178d6d7c3e4d4eb3fd2a);(false,0x12b4c953d67afb9fb13c8807aa3a8418232d37c8f8233b62803e995d71ee8fab);(false,0x4427b8c80e75c59e372e8fcd07efacaaf3e2ca8e9d4a45618b70e48213370b6);(false,0x169fd9aa90c902fd72a47c449f470c86336ce0fe615ae3c1954362ec1a5f1e52);(false,0x690556d44fd73497d6a7493fac8022ec04e99122f39ef4c4c658e110adb4e08e);(false,0x6b20ba7895ff3c0c1a9d5d7ed8c072c21d3f22d8eca4dba3e0379adb746a8df0);(false,0x3e6bbf7373cbb53747b6642a0b671bd9618adb23cc6c143674f76f78158fac62);(false,0x32e37b372393396b537da44da4044f0e0cc5dd3f86147801490a36f7818c843);(false,0x73eda753299d7d4718963e6b1d9bce6427fd47ff13fa0000fffe000000000001);(false,0x73eda753299d7d483339d80809a1d80553bda402fffe5bfefffffffeffffffff);(false,0x0);(false,0x0);(false,0x0);(false,0x0)].

Definition cert_r : list pcert := [(254760293,2,[(true,0x0);(true,0x0);(true,0x0);(true,0x0);(false,0x0);(true,0x0);(false,0x0);(false,0x0);(false,0x2355094edfede377c38b5dcb707e08ed365043eb4be4bad7142737a020c);(true,0xa25ba0ff98900d7a28979cc5650ff40da8cfb1fd8d7787543012e97ba088e0);(false,0x31758a2cda3df87a6728e90af5286b7aa9ca45a3f4a4d3e26622d89666f2bfab);(false,0xfb61d002b94514f26ac74dffd373480d89bcb8b382108a7b9e7bbd13c1584ce);(true,0x3edc1e371d877e8be231aa774930a52e1b5f659bce8dcf3964e1511efc72b51a);(true,0x28666f678a9a70a9810ee69c595759a164cef41dd6738aae2787654ab4d9b483);(false,0x2a7e311004ed0656ec2d92dabef0abf4c125948053ba6c76b735179e9b6e6f49);(true,0x8b390e4e4b4bb8cf937e9b85f29d3e0ea68f68cf2ee0ac870ef904ad83cfc4c);(false,0x6b88a329b68e1fd25dc6e0971e6b1bed04839aa8407d85244b6e407b30911230);(true,0x3b8d472a905494d9aa450e7500d0bc26fb2374df1fc48e2571290f8e93877406);(true,0x3d2f33afe675ab25ca847174752e0f03086dcfe2e27d9fbf74c2eb9cc99be67e);(false,0x6c70c667e6d459922a020c554bb6b2dfdc3974059c3fabc25a42b76689ec7);(true,0x521ae0d51789e5a0d9a4d860dd8e57776f5c54d9f2a9e238c7f800c595728007);(false,0x1cf05927ed60e81a2aa69ad5a4ed97570611e0696bc242ccd14febd0189b62b4);(false,0x32ff4c2a5fe6d0e963c1a9aac03f5db5365d76fd698996347d58149db5edbbe3);(true,0xbaab353a39b575a6f33ca389cbba1207c989534e9a9195c693668d9ed1082a7c);(true,0x758510714c7c8e857f749c98031fcf54191609757b6bb662baf6add5dfe3dfb4);(true,0x35f4ede12e7dd59d2ab045fda62dfd51be82414bd83907b4b042e67f8ac29c77);(true,0x90d2655b08a221701a31103865961e037f1c44a91b71de5669a3cb60d8245ea0);(true,0xd0827714fecc15b3d2e0906a2581e2004510cd2744add574c924d544ffb41dbf);(true,0x1e78f0a41a07b3a5a477f038764f243e5e64d1d20e5f0b5006fcd2502ddcd6d4);(true,0xa48115e5707dd8392b30f48baf598eb9ada767de1cd73dabf73231a28bafaa15);(false,0x1b9c5849dec394c0d18e46cb587bd33c5a5114be639b2a18c34f199d05edaa19);(true,0xd69d7df3dcbf6753f707059dba46e6648ad0cada11a827350946043232a2d48b);(false,0x2d4965db6bfbaa7cd821f46cf8bb5babc3ebc387a16f49721b9ab0898021231c);(true,0x5a007a5e027cc1d0034e65202e67b86dfae64ad10130943e42b8ac7b708d20e2);(true,0x97e2bb1c767402aaa5e8d3fbf5f11d089e74db9bb0dee172ca77f0a4721963e);(false,0x5ecd5fcb03e976adb4700a84ab2184cc7ee17fe728953da7ec387d92e6d9166);(false,0x1ceb59caabf5587ee2ace60aebd9e7ccfe565c14c07b65746fd119b7c27fe5);(true,0x1226099eab7f9a6f589e7c16e537cf359d41bec58caf44a1972cc5f1293249d);(false,0x5271dfa9c0cb9719dd84dcff5c09f8b141d07f3863e6e5cfa032e54f00418a91);(true,0x17871ac882e4470b020b704542325476e4e0f0e1820555485ead2859dcfb4955);(false,0x1037e69bcbb176d3cc47b107f074c5f8fbd3b0e3522aa1f41ea6bee4f339e95);(true,0xd38de4aa2834c34451e80d23268fb0cb10578d724ac9f289db3daa7cd6c7dc61);(true,0xba9544ac294046dd0e229f0197f3817d8e2e9a7dcb50f362e61379c6f1bf49d9);(true,0x829bdffbcdf9f67bbc9e64b0f27a1c232b54a47ac573d67cdd6085899a430e2e);(true,0x3f7ad5a41a3956298dc36fccf3d6a93eef8a64b2c2caf6e26a71157d89ff5360);(false,0x48a40099601b13d733671d106df5b2cbcf6e494ab0c59062bce5f90e8ace1c9a);(false,0x69e94db54e823a32b7e7892861f572315ad167d43710ade0efe0daa6a5e78847);(true,0x828ee2daf91da35ad5b2ddf9803aee22635af5ce0139dd3f1f68a4968e21d69);(false,0x656be802d40d22fca9c5fcf6a0ca7697c59d2f0515a0449e8a59b8ff8e4cdebc);(false,0x626e8bd653760649ba08bc598be11a024b9a271e5e358aa6f22097a673753729);(true,0x2957dda98e37abd5843f7c36e0868721718c2025c2cfc18a1d3d5c1ee38551d6);(true,0x60a74ef368dc7b0a5d2980d4597462053777f705c8b08390ac8c7ed1722d8556);(true,0xddc8ad17a13d50e4dfb5a13e7931720283a39f76117bbdb9cb148937924038e1);(true,0x1499577f63dd0c879de7b9d7effbc6babd0488b9df5307b3874999abb0b71b9);(true,0x535459c83c790ee4ed2de8293b9d0b618b498d3585c2bfd5f4da9a4f077af014);(true,0x10bebc14807ad35f6aa5cae8d4dc424f401ab6e83c82d76fa7ef131b473f332);(true,0x183fe85175b2b166908d4a3c48b6f5f487cf12c180dfae5ba6985ecfdc64c73d);(false,0x1469bb12c9a6adb2a2718a84a64c7300a267c63cbd6723625c97b3341b0e6299);(true,0x7dd3cf326752442d00a8cb6834b12c05b5ae1c0b6da4a59f65cab4a738ea7879);(true,0xdaca4318c9f364ab68545ef321bd641b1a37f886927378ac34b8e892ebc425e6);(true,0x59d39a894b8bf5cd46939d2400a318f3e839a789b7703b69e0185efaef6cff3d);(true,0x406d30ae2d088c2ceb47434681daa4b57e859c457cdb27c7369fd728907ac31f);(false,0x29741916f546f477d470306f609132c55e70e151bae977088ee3b7b132c462bd);(false,0x5c57894580152623d0f4fc894bdef7df2f58dcebed330472066be72c773a3c);(false,0x2ee6f26cecc976e46fb76c479927ef6e16f1386cc3acbbe741a9a18f2939ff);(true,0xd9c3bf12a33991fb18eb9a8c1113b025809262bace4b28faf3c114092b47c8e4);(false,0x674c1c2486be3d291f2c67df12846f98502ed5b5f43b291cc253a546261d196d);(false,0x6b9a8ee0f1f38709bc23619adec8404f560b258be213c22ff3270c3901a72064);(false,0x5f8c32c352b732e63b02be8a438a5fd4fa08931726cde25ddd921a36f487fc70);(false,0xc6d135fe7f8fdb962c18683be70a24d626c0f3866bf547f73318b3eadc362a4);(false,0x15fc4bdcc897841db2b99f0a9e31c8b49126890aecf02aabde1488ac220523);(true,0x560afdc8b3e7812db521576dc4b9ff3e50e0f5370200b7a83877e03c017b7505);(true,0x26e29f963768c202546d3ba2ab4c9ac3d2be1133568f82987240aab02b6d4d7);(false,0x2256a207e5e1c4dfde43475df1f23b523dd83b4246a0516b935812bd87f04f8b);(false,0x301a081bee750065622e6ac09adf9a07460f36ee0116cc402b4a9784f7f609c0);(true,0x6fdd67c8205dd03efedaa5b2f4d5092b3475a7a5bb6accc3a5d105134a5c1b32);(false,0x18c351c1263d5688285cf3b1d42b1e38e0e531a0f489b97381d026cddadccf07);(false,0x10f2b22d45e8cfc088d9fc1131f2d3c4f10ca67924265838983461e9f6277a59);(false,0x34a2fb33abf0ae988a0bd5b7570894ccade8109a64c2bd0526771f4f76f5950f);(true,0x581d1e195c70123bf6a111b030933ca0f2bed275ab8779c3ad400d2f8db6ba57);(true,0xbbdd263ab1d2b7381e324ed3d61686ecfdc619c60cbcfdd8681e474cbe26e2cd);(false,0x17c00b217ca84362e361c77b0479c127a31f233f64538612111988acda0b7197);(true,0x6cea3f87fe2e73a3e8d3d4b2030f2ac42553d78a1631576d39f7fb3f18989581);(true,0x9d2fff457ae924295fcffacdfaba7b7c1b1ff721be89fb0822967f3e2186144);(true,0xd6fa25b0c7c9087de4b21908c2b1629cbf2d05a0ea3836bd1c7adc0c39e57820);(true,0xae8717c154f619f66a75810e6588fa5d18d1cc3a8202facb83368ee445255580);(true,0x13cef36b11063fd81142a4d9cb7c14de7c006c5c47a115dbce7c30d25232a378);(true,0x4e8af49b41313ed85e1cec2b7eb0775d41f3d7c8fccbab0233645f71f566e491);(false,0x3950073a5216ea8d608508f3212a665546a435fdb8c48a6e3c4e08ad37bb3d22);(false,0x277e9db1c14e2a277ba222764fb01629ffafe4424f369e16dae8e177cb767b2a);(true,0x5bd2db29118bafea0ed7a02aeb237eb3f5040c11a5e084afca0904f423a9881);(false,0x5afb73e7f5deadc456a1b1293a974482964132e179bc2cc621bebb1012b532d);(true,0x14d14e19615e35462b2f012b734b74887eeb17be4523f310369d8d7fc1f04112);(true,0x80e76d1387b099a905ac4a084d2254b9043dd7d8d3625ed1ce620f2db0f8f);(false,0xcd0dd263f108ad9fdbd227041e492465f3d9a94d79e7bf8bfec5114a2cb7d5e);(true,0x654f98810383051f16a30b9953a6d67b45baba2a518ea7935e5c7c901baa14a2);(false,0x36c2feef430c2dfc7150c4a9ae270ba7bf5c7e5e4dedfd508b797579ec456bae);(false,0x51a477ebfe15d9df85c96f9b0d91e39c4d15051188a3417401e99ddcb3345fef);(true,0x186891d42b221cc028e006d2eb045b85f18e93ea941b03395fb6ae0c45fa88aa);(false,0x32b1c691a3e5c511f57c9832243b004cd232912f79b848440ae3c5e2111dfa59);(false,0x43f82ea4aca82a3ae9108b410dfa813bc036222976c2bbc45b4371d0a77579fd);(false,0x640491d4b11a7e7799730bb62f9c0276fbb17e4974c23d8358dc7dd79420ce80);(false,0x5635e46b1652be2ff0abbd0955d7b2c3748e9827ad4f73098a5b63a61061fda);(true,0x11b4c987cf439008a3090b9e288f9b86456c62c8e4909f809fb2076eedad09f0);(false,0x3491c2b89e32cb81aa940a35eb58c5740a120c2359d5eb8843456e54c4304e0d);(false,0x420b0542d56fb87586cbaeb2c8924fd04fe7ec35b6f36cf722e287c482701d76);(false,0x37178a650ff9db043c7f2072d504143decb96a76ccf2a0a54a859bc3b2d3bd36);(true,0xbcd89f646991322a6c0d1c87ba0daec43f62c1dc509c2f39e61968d9867399);(true,0x1928b53e9d24f8a7fe07d9d3f02daf50fade62303ad7947eb43f99938b855771);(true,0xb4b266dffda4fe86e6835907ced0f815669918970805d753b4b70c5674f2801e);(false,0x8002350777a40c96e2e28cdf9998b9ed5c8faa2c15f139baf803bd88227c9c6);(true,0x1182f3f617c6fde428f7e2bb608da928dc1b9947600e0e0e46ceddc146c10f22);(true,0x1d6389a9eb878b521709403dd9982a207e6b1fcafecbb592a10af3fa163535b0);(false,0x42a6177663ba4494a9fc4b0f53102a736ecf69434859c7b11c83ffa8a91e0a4e);(true,0x751fe3284f2bd1f13708e19a065444af3aac3d2355886f5de04da0a2b65c8f14);(true,0x2b79d5f488a60def88d9d90998a488680a06dff4c327d204efe955669b6f4f3d);(false,0x2a91108833ec4609e7f050b1b4315de7ef111049363e89f49c897dca4d385ac6);(true,0x8ceb2267094cf5512456a91eafc8e78c7e19f6fa189518d1b7db61795f99679e);(true,0xc279a50426887e1476407348c87b8b1a53343398635bc4b409e7b53a8e18a5e3);(true,0x1d5fc9a2de96e8e8dd503c4d0037b6258302298e4a4de9d8eeb287e8a5eda65);(false,0x3d3b300a29efa180bf9fa97bbddb974287af93f8edbb99fe850dd7d7ad5657da);(true,0xe940a348b8beba353eb81378c8bf321d15a289dd7752cd9745305d9c0bd2f74);(true,0x2b18a8a5402d704d3302c2e25f6ddecf862fc93cd18fd0e2576b6df5d2c2d19);(false,0x7451f38771f534fdf64900af3d6ae9a7d08599a841ca8efeffc5cc579bd5d1);(false,0x3e7c32e1026317a9570b7aa8aaf70fae699e9f474f05c0ee21820cf971c782);(true,0x86e6002f570d9c47bf24029776f8535cff2b132da1213106bbcd2a4008d2f018);(true,0xa92b538328ed5b05b8f2dfc8b10b5bcd1f37f14f53627b8abc562ef875f42055);(true,0x3dc005fa107fe360ae4cf10ba247f5303e7df656b156df0dd628c9f639e96a16);(false,0x3b21a842d91daa6b7a75ade52675190c28fcf41b5d2a03f83d0441b85ead08df);(true,0xda438669e7ff929b61eb65a7aa3c9d9ab005cca2cdb17e875d20f1b05dd51d0e);(true,0x712d34f5bb6cc5d3e36dd292fc29111f273fd2208b4bef344c311397facfc988);(true,0xb8903669ff0b90ba03d79b6f5db2383a09ef2d87bbe054522585784533bbecc6);(false,0x47283929bcaa19b9bd564e2636123e22eb448b16ec76df3f5fdd87eaf2d543e1);(true,0xc7de43ed28fdc3ad591fc0984e9b1faaea4a6161d48cfc43e4127587bd3b0b8);(false,0x6a36dcd54ee562b42f5de351494cf82f6a8bdd6e32f7fc67225fdfc7ff37bb54);(false,0x58c145463dacf369c1e37c3c238efa65f61bd2ed69eb2a03739d8e44a79bd8c2);(true,0x89477bb70245d06c93a1f588d078f92ebee595fb176297b4a0406d8166e79b24);(true,0x6fea35c790f0975c4c422efc87c0f2bd1b37e988c5e90c95da46af6aeb89367b);(true,0x729bce5c1c1ee71e876cc6570ffb230526e809b281e02d6b67fc0dc3bedb769b);(true,0x5b0c6daf8d6750843971a7d29dd7404df1012c71fa0ded253cb1db285b9d5);(false,0x84d8f911b301b331913ce3cffe11a5a17748e336cbdc615cc0eb912969e3940);(true,0x369f19a702acaec9a36d5b0250ccf2d6894029119079b18062387dec6f275b);(true,0x6b2067eba6e42169a4f50b6252a9b0e45bea2fadc3a3fc6de5e80765dcdf07e);(true,0x3ed07d8fcf568e84fe940f855a984fcbab9d21a4c471410cdf4086a5bf754494);(true,0x67b279d9ac6212ec7fd1de48e13b8643d4998cf855f61669ea7863466592bc9);(true,0x2315a9c995a9b4acf8df3084685e8df2d74291ab324e3b608b58a6f8c90aa879);(false,0x3bcbf62499b24d8619d34cefbec40514c17acfe73dea3b44e00fa6cacf64e80e);(true,0xb99ba68203e53791a3a3afa436fbdb2f92fd494c8381bb3de2ff273f5f03b);(false,0x4b886ab8c65dd2470831afae44d77370159be5c38f36c89518f277f07b2b665c);(false,0x19807af75761e586802f39eaf590b89600eb5b79b2105c0c4dff0ad28386126c);(true,0x6d81f5afdde3a015e7faaf660d6b0b8a0f28b90352ee3563a5f186d959d19d2e);(false,0x27daa22794e201537df4c770b4604833c683381862c46e4b99e5798b473f1de);(true,0x1d15bd2268244fe3380736ed94bc57ced1417dec140e4e8edeb1865d4ca04d4c);(false,0x5049727e36c7e333a55a809ca37f76897987ba2f5ca9e4b5c9ac7763c77b166e);(true,0x70a21ec8daa664f700b7520914c72c597527838ee0fb1bd012411f3ba9187580);(true,0xa43672a652dfd2b8cf18fb2078bcd6c17811efea8deb59afc3168e85e2143e);(true,0x243c8277c550b905698fcd92045eb97c563fa0bf81f5be7fc20925e86046c9c2);(true,0x1ee38699d172fa1ee229ba5d454c25544b115401c7463d3ffdebac7e71f9b83);(true,0x46a41515c597b10201af5d39cfcb190817976d2c523b52187ca3d0fdcfa7caf9);(true,0x8dd1b2d544123a09329d119c6db510de07f4557b70a6b1b3d92e95e6b5ead20d);(true,0x1ac76bfbad1c100af95af83d92a7a4cb5273ca0544b48d2597b8dcef63109a36);(true,0x133a8d1800a24f73f45c54e1d3a6ab8fb32ea8120688c7f872b0d2f22cbbf851);(true,0x2a12f1114c757e6913c13e45c4320388634661f2abb2e6ef7ff52316944355e);(true,0x742174843b8b2d5595462257566cb43f284d064d103a785c1f641cfdcaa5b627);(true,0x10fac5a2299529f20f5012680d03de2a2fc301e109944e5d25d4202a4ec91eb1);(true,0x45a84a2742254c433bf55c3546973d1872e5e516e0030bfd8d606da2d8c66808);(true,0x648a825df5dc61fe5c8cdab6db3f2dcd390db678163d989e4e64234cb8d7a9d0);(true,0xa34edc8cb4def6d6422ebb728b0171e842064f8cd42a715bd8850362d4e0384a);(true,0x779be32196af9aa88d68d62d396324ab37c1573cd2b759b6f5326108f447c09);(true,0x906fae265a3fe5c3d185f1bef3ae736130ecf594510bfeb18257080e3c1db5e);(true,0x58bd627745dc58a3536c30f4880d95d8fd0e6f7a2f3f442cce4b80411dac2e7);(true,0xe2752ab1c552484432c18b7b3347895d0ee67286b5bd0786bea7755e6259d663);(true,0xc57fc91d2a17822a5e1ed0d2c6ba9bd26fd3454671292ad525bc7714e5664199);(true,0x5ffeceb440666098d2cf697769da2097b650068fe2821e88aecd6d50fdcd5b2);(true,0xe0eb67bbf880e50e2f0cf48e4572d4038908e3a4b45d9aecc7eb2514ecd6018);(false,0x3a913cedc1642ecbe12cd4de2578d38a263269f12deb60f20672360ed37f7a8c);(false,0x3cd302877eb8af6d6fba769d74e36ff6d5191c1fe381111a4a04da2bfc3a347a);(true,0x2907110dc35ea23a01008ccc742ccf6ba451c093084106c18b9f3480846dc6e8);(false,0x11852966565cff3589a459c37f0f74461a637cb0dd57886c2233d741a66af68a);(false,0x57bf7358b562a78698b72fb6155ee7569db46cd162fd6c389c44a9abc712cd5f);(false,0x4a92aa894505a3ae0035fc3fca5114141866632b4b22db0c961ca2d5cd2a8aea);(true,0x62ee015f6d949682b513d5607b5bf4220c7eda2d732938eccc3b0a6fe4e662e7);(false,0x544ec0866df04665ee02674eb310d0951fe945429434a0d0ee8f5cbe34e366f3);(true,0x504a8d91ebdb58e11702d16841e114013a2997e0ab84aa355e4ad2155d9ce8ce);(false,0xf441494debd15c83e82b0c100f5a91941d92b4cbea173f47badc8e9041fcf58);(true,0xbd787ad5403ea441c9c20b087d541d09d9abc54b2452dcdf79b809fefb4f9ad9);(true,0x53ef6988f6b216a9b37a85813285806181fd1823adb829f5374fe5eda72814d8);(true,0x445cc278c4ff4a02e95bccd1e7d876c39173fc80125bc2ccfcc13bc569fceec);(false,0x2cf8dd21de8f6b2a518a68935d6f26afbc18eee653b841ff7f302c31a036eea1);(false,0x152e45478b3bff75a2d9912350f1556689b79297f8684076a479658157022972);(true,0x4a0a7002d0480f376f7431f3e045268451544766e1dd9356d9b3130e8688715);(false,0x1fc8ed58fab779ac8533cb7687ef108e8758d4f3d89ab1a9ae8f5ca27c9e7bea);(false,0x83d63abd4d732775b7a862996899ca1c0882c65774a029946bf091d6799ba95);(true,0x471ef9902c38f9a2f4312e24b11f1f27377316a600e9e021c3db8110a9e77d9);(true,0xc7ca2e1becdb896061c3c0bb927120b6eda679b9c4fc8d06369bb2778757da59);(false,0x138b223180796beb1b75634027d65ef50216b13eff05adf4780139bfe1bc8f1);(false,0x5752bf8d8d838b097789ea321eef8b2d33b40339fd3936f0421c166c7ddc9);(false,0x311982d07775043eef684968244dab3309effa086c0a4f7dff404bb133038);(false,0x3d8ab3051ecd6dbb8d9fefc621f9907eb880dbb20f2f84d8d6780bfb8837de10);(false,0x3c30cb146e4b155618db355ecb598bcfb18195ef4c6e8dcf6ccb2559f3775d07);(false,0x4a218e2bf54cb1c996cbd2297fd6ea0590944ba8863f015c1926b854c579dd);(false,0xe34e2766503c84614ed38948309acfd13a776d16ccf08a081e3ec3605fef);(false,0x49500e4df5c4d6d38019a8c47fcc322271df697409702a7e37d696eab00ddbd3);(false,0x1908cbd8e341ebb192b08eaf66ea8cb38761a71c423ae9e7d6c1b22be8329951);(false,0x376022ca187b9ad0b463dccb8fd44ac48848ec412708b31b5fafeb1830ebf03b);(false,0x130b3ab2d3224323e002e8474ac6d32d43d0ebb5b6036c06fb16c4163f7b24);(false,0x147fd230427a16b21ac55c3b26f2a57782fd3c9890a3f045763126ecc14c8ff);(false,0x18865ebd6d48cdc5e96d84aa75b6bb8abe060cad7001c04d2740f41c93f25a41);(false,0xa831ee14e9a128ccf67f8ab043924fbc64e05dbbae93eba313873d21777e0be);(false,0x44add42b277c13844b5f11ab73871a71775b2daa21976f71a21811255996eb09);(false,0xc705e21c0702157f4bedb0a73f1ab70e5b6c196a8f909c5d2b7c75226666a1);(false,0x63509c697ddb410cc3e3f45ca7cf010479dec8ecfc674535e42adb1c9474d6d2);(false,0x2255fdc3b2441d94d88407e01d1e90fb06220761aef258aeb3379724ee9346e);(false,0xbd9ab9d0434f214980b7776477d74177fc2da573b70a334b73222e12bc8972);(false,0x2fdc3a7d8749218ebd1f471f3da6761da2361eece30276fb4ddaea2b4f5da2f8);(false,0x39a013ada402936eae78de610c95f5f222619c6b38fbf44b68e77dd3b273b8f9);(false,0x294c97b679a11214670dc10310d46142b879aa0cff7c106af4038bbad98dda2c);(false,0x15ce30d2c6eed1c4ecfb2bac1ef456514631fd6b05539ad60b9a2618dce9bbdf);(false,0xf21583ce4b33e0ac85bc82ed859e611409a9acad8f32f835ddd17b366f7ea1c);(false,0x426af02ec634b722b18234e48185beafafc7d3db37f0088226bc4bb32bcc4fd5);(false,0x15c8e7585e23e989aad082aca184f00b7828f615b4b05af8b55f63937e886a3);(false,0x681f22b6e66329307b148eff4f6ff825619845432f0b7db24709a0861965221f);(false,0x6085a241cf6b6802e1bd46c440e4febc1fdd676d66ea949e3d37fc7cdff29831);(false,0x453cb312785545b78033453bbe340ca8a9c6e967a41570227bb53b46e006c7da);(false,0x64522bc093e355566769aac64c67028428285acccc571f66cc2fbe0adfe23c63);(false,0x98af8beccf48d4c48d3960d37191c2bac9b659aa3f6d5064968a05457df8d46);(false,0x18fc8f814dc10e847d65083f9fdf87f13e974143e10d5491ee337e7e7e2dba42)],0x2e723e55e64f04d85e40b5d8581d642146f56ae8f5d676d57a03f4e038f60e91,0x29e3c2355a184da0a9239c6d0c737d605452dfcd91f57e6c28f0aa8340f46550);
  (906349,2,[(true,0x0);(false,0x0);(false,0x0);(false,0x0);(false,0x0);(true,0x0);(true,0x0);(false,0x0);(false,0x2355);(false,0x273c1fde4eb6ef9c0ac2b8f858395e9440d658585c9540fd2bb32a97f0704c);(false,0x4b42c5c11ba133574b5d6393c7889f5e7ea1be2453cc94a661d848bf228e21a6);(true,0x5adf3d0bfbbd10b37b73fb328e09a068493bfffee899e6a7f0802ddbffbf8c82);(true,0xbdb5112d17d53acb95c1c2c4588a5a99ef9383b8f08ca33428124df03ee2bdb9);(true,0x7f9c451fb7efeccd2f3a492b2be0b3fa353d9c38767bfdc12275d5de48e9b7ba);(true,0x5d4ba24dedc54468247af175e0912a00411cf89cb25241f9977b0bd47e72cf06);(false,0x23698940b8c7433a7927c7ed44de7d3d8fe3dfff55eeefb1bb08fabb2c90e565);(true,0xb50c5cf451bf1610a2ee78973a09ff985c11ac3e5515e48e413618c0d28191bc);(true,0x22b146eb16fd5c60f3bb36f834e6f24f866ab0030af511362a7471503e22a218);(false,0x4ba4423afab1574f5332b14c5774ba3ddb3c9a41d6b3bd39e6962cee926b19c);(false,0x329b4a4ab289de54dc1b7292d62419ba6b1520f48bd18e4a312de24b02e41cfc);(false,0x3f48b76c29ef010f61fd04642974d064ed63990dea53036f91258b19786f3ab);(false,0x35d2b8a2a0127cce6e28417dca0a66f9e8c37a59aa6254f702143d5358ca70c7);(true,0x606533596b420ed3f008489b9e0434360c608f0c0e8945d26988c8aa87f030aa);(false,0x170554a74db2ea4b5304d1ad135777f48d58dd97b0577ce4be72aabaec17234);(true,0x96359e65248cd359713b4c36d2ed5a7574c47e807702f9e9b8811ac7ccbc3bc);(false,0x86d7b8597388976924fd65dede75945427255afc60c40de4714c4212d55);(false,0xac6cc3d585dc4cd74f2e31befebdc8a64c36d89a7614f742a2c6dc02918c82);(false,0x10cdd7ce1b68d629f1fbf739268c524eaae716bb595b05acf4b015e8764329c);(true,0x46a0ce2d280e54d9e10f85c3cfe568098445ccb79bb9b5641aef18d519c1c0ad);(false,0x1f5265b76ee89724cf2ff8202d94cde0e94416af82cf312ce9365d3f64dba7c);(false,0x2dd9767c24599fd86f744bf8a451a7cd72d4c61e37f74c4ac3e0665bb159783);(true,0x5b9bdb919ba8047d9a4b045b0020e4a8a58d863f8c30c872e081dac28a440ea4);(true,0xa4a3fe2e2424c9263bbc47deb8821b2b929179c8d17955a378d814647dd39db3);(true,0x13f0815457d6994383e71a2d47a023cdd1f1dfc5166f166de70fdf9cb094873e);(false,0x12bf4612c2d53f82f0852ab53ad4bdfdbc5b8a72d4eab7478d045ffb0ab6e925);(true,0x18479d085eef1f0f1ed4fd6f155fb65b50806c94c83cead0559bec5fbd988f23);(false,0xfcba2585ed47c0a8ca54a23f14b012b1b432c0b6f07ba1c48e9435b3a90f951);(false,0x44a64a48767d3511d41c8d8fb84b19e2aa53e565ff1758ef458efc64383f5d1);(false,0x602fc8a125d5e9f1144823419691f29800267e58488aebf55b9895c5ee3a95a7);(true,0x4bbf0183299ce1ece5f6949b17503c11f18af91e80a59eea5e9ad65a5872c7bf);(true,0x3d44ce4a7b00a422e31d9d52ccdc688ee021e95b914c78fd959d4f8be713be88);(false,0x2e1af81c11f7e20a4f1f433f8cafff8752ff423373756378d6af0ac8d1e137cb);(false,0xdbeefbb5914ed79cc5a5f0c00bd4ed96f06ff841f7937fc26582b9b9a9d153f);(false,0xb4a4bfe0d5ef422e539b5a0f1260734ff9be2e8a05b64878b96958c969a4132);(false,0x14e1d09d692f1a316877628ca861fdda058b9c88aee5ce263dfba37de57ade5d);(false,0x698687b71a27b0e98bdcf0893b5aad71b0be35061152ed9a7f9194aae848a0e1);(true,0x9add73729451fb9ea7170b0a6d17dc38a5bedf4a85afbd907a78ee218a716994);(true,0xdae4ec596296c975f9138a3575559ac169311475f3bb58fb6edb9ae59a430377);(false,0x10d595d16ea5680d773ceba988fafa5c9f6df94fc15d91ad306d9e2f923be291);(false,0x15fe3f6cc9e4d47fd46b91a6db6f3d59dbe0a07874d805f07fe5f0097ea3b97);(true,0xd6fbc53917d548c4c53bea6a09d5051f341420bfbc8ab7176af60c7cb64971a7);(false,0xb813de9a91c0ab9f4d3fe87c5219f84b60e76f65eeeb8a74aaa80d9bd52036);(false,0x43ddf41caed08d4a22b92a51c1eb3a375c3771b577e7208484a551537cfff911);(true,0x451d1f339a2bd76b30fcbec32e3d3157c7c42a8075f867a7dfda358d7c744d08);(true,0x4346fa69409d58adf7059b369f771ab14e16150bd0b6015727ac6c2db1ab8e0f);(true,0x2246349dbd10b4441fc20eb0865b6eb161882ac29dcb44d1b6f55a0dee73ac74);(true,0x7d35725b5205f093934ac0ce34e97155cc797b6b44dd393ba6a279c16a53f8c8);(false,0x583dd82fbb896e0a79c1fd3c0c5434414895dc1e1bf571977c247d9d4f49f1ea);(false,0x1575c71c89f11d725e7d48b53485dd62d918fad856520ff5497ff7ba0b690181);(true,0x98a520a49363493d58cb08acaff418254524dc4e917feea586daa5fe1266c351);(true,0x54d472bb4cb4a6784d3174b84f7d065df059a9802bfb156abf5bf8932513f56c);(false,0x81dfd660e788823a92c565fdbd304989a13e59fa5509b9f07bc102266696753);(true,0xfca5cb5990999580fb0aab3788de8aa1f71d7856044a5f1ecdd7606d24ad702);(false,0x3b0bac7cef654cfed1f74636d8e54e9f12402e9637c1c94f2ef120cdf04a8e9);(true,0x48645afd2d47ce4481f09cd8311a842caf6ed7b46c077a4fd03f825582bb15c3);(true,0x65fcff59bf8fe7f6668888c948ec9222a15216f2cc3c41febc84d84cd7485eea);(true,0x49c52fcdf740e39be5cfad90a8f82d9eb02a70986de39c0a103f4dc4d57a410c);(true,0x973829323dce1fcb03b96424ea799e67f9caf28d61847ac2d1fefc7c44c68aff);(true,0xec11d018de80ab242a45ea7bab4acd295220fb3d139afc284937940a3898d81);(true,0xd962d9de6577a0530b3098e56540643b5978b3a5b88e88db2a06bc2982fbfd86);(true,0x7d045c87d20e39d1086961aab26f011c602a6e9ce16f6cbb484f60ca7e7bc26f);(true,0xbdec31671529bf7886bf75a88500d91993615e238511465da4c8ad7a48e48fc9);(true,0x2f565d583ff75f40808140c1c4b8c703b6998239db6b5485dbbf9139f7a37);(false,0x6c39092d877decde90a443a05cd49912853158b27bab47a28ef41f45031c94a5);(false,0x35ca93c820296575cd955d550d02cd02bc868a590e1deaecfb806bf8dc008268);(true,0xab36ab7a16d6a2d166fb918d90826181af84401e07e434516da70c19000a8a81);(true,0x303c4c8553baeefe0383066f47c9338a7eb23bc21de80f763b3f473a906d160a);(true,0x2b4f11194b5088e37d355f54fe0ab70443084d2de44df480fbd871d000242d13);(false,0x1870fc0e97b310be2ebc1950738b362ce9e5a2cb81e317eeb2979ff551b8b099);(false,0xb65efc0215beab8ba66b4c83331afba4ddad22ba79ee05aff0642e57819274);(false,0x55a354d265b63516ee2dcb304f12c1ecb2e93392e2686c104a0e5f2d2a3a495d);(true,0x98a62090af241a6ecdee2bf3df363bb9fb02958ea9fa9f8d7445846ef196c61d);(true,0xa8412f000ead37ac3232dafbe40bce1bbfb0d786b9ab70d65bb94ca4654eaac0);(false,0x156f8677ca94da5ecdb43154a6e3e623245a3f82f2e2e9f51ce9ae5e0b50ce44);(false,0x32cfc2ed70e5d591deb2613cf2a5eca06371fda4348ba9ce23bc56150934bafe);(true,0x2c4ae0ec05838574cfba131a7e6c60fe5d1079d5fee6aa35d182b5054fa0596);(false,0x8e4c4334a3af0812f0b3b227e3a9ab892ec7d5b9d2116ffa8703fe31454defc);(true,0x600538f64ded3c21c01528285304bb7d3a04db8182afe901141b3baf16168d8);(false,0x1ee77470cf3659c7b021f03b9eb297267cbd0e767ee9ce569bfdb2ca511563df);(true,0x9088cb23dcc32179fa772a3233f8091ccef9d6770cb885daa6d7a5abe17f567);(true,0xd0dc75bdc55c8a3e054e6e73a45c553cf72074122394319917e850b5404340e);(true,0x7249f100d201f8a9ffc8c4e26e0092eb384a630bd1e339513f962466be2a0ac0);(false,0x31770ea73751774b0dcca829fe966e893f4312c6472f5fa418285d900a9c7f91);(true,0x8fb877bb2f857e97f183f628be1538c9c2fdb0aabc9fad9486dbf282cbc1f5c8);(false,0x53745f5c9bbbc74c6adf050c70eb61c66ab70a479972f6f17317b0895b4b7850);(false,0x6398a58943a804990dc9565eb075c3b142755606cc8d54cddb641c28c79a40bd);(false,0x54256bd71180ff1577ab284ae518f1b9952b6e6153fae09b75a94ae574e62a9f);(false,0x1423906ecd4a3974a5f943e6ffc0c7b71a6ece00bfbdca3dd668c57459ac0a5);(false,0x84ea25579b7acf066908c1aaea7e08a564d5ff5c24c89a3b687a7b692fc65ec);(true,0xe7ad1e92587c9c82638db27a544ab51595d2794cde1125b52cfec3ca61a30fb7);(true,0x175f4a6a49f2f94a190c7af2ad449bbf67a05d02a540ceb7584ceb6426e5d3ab);(false,0x55c8fb70e8ae34e9d36269be3047fe3c22de5d481c231ac178dbaf6c85a0bf4);(false,0x8269c98c7462164052086361146dad86790f49093681df7da5daf914653fde2);(false,0x723cff6a597a2a70e09bade362433e59defb1b91007ddc641367a7c0ddf7b05);(true,0x21d1c8144ff9fc5ed30824e0c75626ef05f63ebd827db741e81a3b02f0084a26);(true,0xcdf108f52e058ad877a5d410c52597f8c647ed13cc4cc0e7f706b823a6f9be1);(false,0x9eb0220e3d29e9fc3adfcb3b8c6f878c1d355f8bf5684e2d70d33070db291);(true,0x29625660696e6754fe138a9c1dfcb9d748e752ab68041f9cc051b3a7a6b22af3);(true,0x1de97213828c2df81b6c8fc61ceacc85faa1fc9dea52a217b9340e9ee9113f4e);(false,0x108be5fc84e79e43033959a8b2e22394c4a2edb275663a3de34271b737a4e82b);(true,0xd4da9414c0c7d425f83c7d04fe44b0245ccf203a6cf0f24497b1306bbf804186);(false,0x13530561979ac416b841f59af2191ed6d98873461fdf2b0e26741fe6811c42c5);(true,0xb143e4ba77ec799d0f77f519bc07f51999100a588c2757d3ad9331778a80b5b2);(false,0x7b21bc15936f5ea1ce0b779e69fa2a02720f2407cf6aba759320a4a81ed095d);(false,0x78f9abe4c710713e4310bbb4fb446a99183c79a8b9d09b2b5a06f25899bc8c8);(true,0x1257cea63cf9b04b79c3309501bb9d64b1b978dc32f43fa2ffdbfcc74ce4e539);(true,0xe10b1dc420e2e15c845d07f863a82209d679afc4fac69a4f97876d9cc14ad247);(false,0x673cd56ef31cf68d74023039cdae82eaa855ce20d89f8a8f908656685d98bc0a);(true,0x261f6dfc389f4475c10bc76aa672f1286073afc253cdc43536609f5e7d458967);(true,0x59c4b3d51675d5fc0e28980bc3664283a5e34875265fac69860258546c654dec);(false,0x4b8f57c52bc00f9aeccabc0b08f8a7757c3adcffb084812a0b87e36dc79bdc80);(true,0xb01ca81fe3893a316c33504003c16073c818175dc20d71cfd638d5609c85e75);(false,0x17fbb362f5223fa3d20878f58ecd82c5366f087f079ea75f9be0725a60f24cc);(false,0x44bafb8eb9f07df666c9fac5f01f7fe5b7f8d95c36304a4aa521815e9f029eb);(true,0x289fa588497e37c9c316df18e59cf8c3420b33df4f42e185cb51a65a981cc879);(false,0x138ddf0af6e00a94168bb548c481a84148847fc20fd7860885ec3dde4832efb9);(false,0x16f7631284ee71a11d59a7e42ca5ef447cdf7b19a902f4d178c5ef4de5347e7f);(false,0x113b5d32db6b96c434b05ebad462b6ca0f6720bcd5f5881c6125364608261702);(false,0x3ccd58841c0c3d8325512453ffe7d92af3a9af7b81ac2203ae71a4e67b88c14);(false,0x69239c27a4cf5ef5c20421a98d28761e1b71704b847988cc78e0056bf7bf1a55);(false,0x5cc6f8777c8809d9adaccb6fe346d2fae2e7384115bbb735d8d71c6f5efe8cb5);(true,0xcbd0c8fadd3620ea8ab05a20555ff65765176c985e1d2085ae6c959cad53630c);(true,0x7a13eb07e7bd814073b4e942d40813cd0d241cb8c8b698b5efa2a0127cb93f);(false,0x64789ced8fdc8b11f1e26a4c080963dacc8ffaf709529bc158ec54185eaeaf7a);(true,0x2aff5692019305a4618ef2d0ce7e85358a7d40440a2d614d19c9fc5f6ed51e2e);(true,0x110b72b3ff2efa6ca4aa4cb42d41bfab7ca896328ae4b5f6139f79dc1c16ebd1);(true,0xa6f1bd90f7887e631cab6d1ef25fc4c1bf7f4bcb056a6c972832db46fd637577);(false,0x300f365398f3b6ff2d3e6b61293d3b0dfdd3cfa6cd999bc8b3c67d9641f2c8);(true,0x16e8af911eeec6a32ed88f33d2538a4d6b77e415365a927d6e97ffc80ca3aa25);(false,0x73dbf72afa4df6a5cfebe35d3e7d991ea56dccfff4ce8d8e0d4520f0a5c48713);(false,0x12bd4fc9d8cda40cfacea1a20195b1456c8bd2aaaf6e193f52ac0c01482a43);(false,0x27ef2d16f44461bf6af8e9b8d609ec7089f4d9734df12b79269e63e0ee825c5);(true,0x23ea14a5525e0dfaa3cc4b1feeb584f4c7ab9e5c7686255adb06eec56d146390);(false,0x406b36953a59ee0db5d55ee4218a4fd67aa56791030e84810b60c8679c2a33ee);(true,0x2c7112cc00a990f0197fdc90dcc649105177ca053725077511806f9e2f84572);(false,0x9b658fef2a40b955112bd50ad9d098f845701a6bafd99d342d9bde7349afb4);(true,0x647920362777fa8eb5f6271191dcbedd28de04891022dbd32c69764595b793b6);(true,0x131c3f2f62d2450c58e6e429c5e73358ee66f5a43cf7ec1b1d0bba4c30e947df);(true,0x4bc2cb9ed8b2a8ea7693f1aa13ec563474403a39427d3e7f766be7baf2ba);(true,0xeab013eb99348f528a750d489163d9c30c8440036b31033ace361d879e00a2d);(true,0x3eb730a440e360f5fbbf3126b2472032f5ab5be4b2e4dc83aa4315d1e3eb1ff6);(true,0x737ef089ede4b11094bac9a9d89531207cdbbf899897681ebeeef61927f1f709);(false,0x477bc8907d42eba72a6963b30dfa42c3f5c9d3a6ebf05185f53145d196117a27);(false,0x1a4291b26520b6cfb1337e2805d38bbca85ed2d8a42857498cb61271eaf6ba0e);(true,0xbb26e2335eb22986812d178717ace35938ac3ef2dbdc88769ab1f8c5989f6);(true,0x6927f8a73e24181c4169a639d69d61e41b8374500db02abec02a39898477f905);(false,0x38b711fe71c26517a854208c8d533200846c7b76f77e78ef911c3534b370ba81);(false,0x39bd3e4cde85262f82a75c3399999f51b4a5b9ab8130eabc5ae352c44e7a2f);(true,0xda0fdc2a556efff9e439ad3df106ba02784c0f303692280937c9da6ab105e1b9);(false,0x4fad7e78c9aada84625e471c519f7b01e9c5b0aba20b8283049d6196491db92);(false,0x6145e7aae1eec908bd337dbd5488f8d6c2d4a0e0681cb6211e8b5420a5873bed);(true,0x265dc7072d907cfd454315002d525071f3d3b6e18d49df25aedbe49f93a8d14c);(false,0x19df4bf57b32075320190a8a0d872a8fc45b728856df3f6f917fe9ba2d1b4389);(true,0xbbf6bdbe7c7597bfece2b6efee139eb170fc98f9a51c3a9efee74359af689d5);(true,0x9cd612041695da8b79c2b2b4ddf57f47ce9de8c72071d68ef4446aa408d240d8);(true,0x8c8d6f238a2cba4bafe11b35e6cead72cbb63bd9032d2fa78582960172053a83);(true,0x351d2ed8a4a383dbe91e342c328c4f391f6589a9a4a7da99208396f6f210e023);(true,0x723da4e9674e3be12f68046a7f44d1738a081b2f441507904d6a25941855fc);(true,0x364bfac8aa0d8704a81ed6c21cfb0ccc7712426dde8c62f00f4e703c67a4f3e8);(true,0x68a733e148f5309ba2a8b474683d2aea0e8fe84a963208888e3abba297c91fd);(true,0xae80bc916c371a0aae51bf0b07ba0393a2d38722e43fc4ca67a5cf063a0bb7a7);(true,0xa25f25f8a669ff1659067a31a1b6a49b04ec555161ca42ce6dd9fbef3831b5);(true,0x8109e9be3c3dfa34cee4be829cd9fd630ed0bb09f861aef1db51ed2ee24fdcc);(true,0x20e4af8e2b9e402138adec112ba779309e9293c768d8690f5b41ca08292f258);(true,0x9572b9e3cd20b9b6f2309d8798252fdec81c295924f6d251179fef07862a7bf);(true,0x39f021c9049c934fd883f197ba6f0a7982d71989c85f4265acf7e09c565d0e3d);(false,0x2955543d06488ccf703eca0826d95811037768f8103f25185e977949894392f);(false,0x3c2dec347159eb0e13e96cd3a6664d90f48115eb4ae1522bf6e5b04b8266176f);(false,0xcc7ef58ac628869fd213bb0fb6c1200095b28985606b9cad038124cc3047e92);(false,0x22eebc2f320139392c2c4207c0885bbac9ddbd83ad5cd2e169de8412d1558e8);(true,0x89bbe670ede0f3f7d7c23a536cde54ce2a14145b043b466d8f132d61a3a6b9bc);(true,0x36b421d6bafde99eddd1bd03310cae1b4727517fbad49d4a0a0f242a17e975ae);(false,0x8287db7d4b0755bc8e7040a340c70133ea79c1d40f2caf517a3fe850119b07e);(true,0x167bf3fcc90dac6d3758e2ed0d490cd8d49723d1611de5caad743c16cd0827c);(false,0x134ad1d8eec8b48ca9d9f17a30886214fed60e0957967b9a2031f18a0ff13cd);(false,0x87049dc6299bc7205f1345b0145445d3bcd13492bd3c8ee385d0997737b70cf);(false,0x29c9d488098f35c857e842a91de5bb70ad896a7ba0fc3a6fa6a7047145ca2b7f);(false,0x1ca0565b76e9ccc685bf4bba4205e506dda79676c2dc87ac0859d0659927f0f8);(true,0x844c2f4ffadfe56358d96d4756e30e2855776802f4d93de4c4b66ac4f07687d0);(false,0x4bd4d81636195b8e78d1b3a93b323338d36374572743954aaac8341fa81cab5);(true,0x937886308ec345a0e948671ee9dcc41fe8f66a1b5f7753ea7ed933510d627b0);(false,0xfab9d19cf17ef0d8b29035e1aeffb29e9f7f1d8170bee4e29e3364619df499b);(true,0x9efc9af6f1cfaa9a789aad2036cbfdc81ad5fa931ef0f3d9d6952d8f2ceae72a);(false,0x657e5403aff64944cb3baf6066ba445a936e1bdb24392f7d58e8d38582facab4);(true,0xd89b4c56ff97a0f30d4987e0ef406f3a4227a1decbc571e7aff091bce8e8047e);(false,0xb810f146e0b6494bc86490c8ce5bb64e48b10c0ce468bf88b8d0336f61aba);(true,0xdf13d6c692165369befea26512cf005a8a16891b2b38c713ce1a95040b7c22af);(false,0x2fa4737b12b7d0082786c8591c798a89f33368107820506e193eb50789cbcd71);(false,0x54a9de49c72fc1c7a4aea3a4c685932f07d9894a8d0919c98a2dc93ad27fe1a4);(true,0x6fb3f424ed8fceef35860e8e19bda74d926b5058928f79178e9a9d380566e35);(true,0x488cc26429e35549ce094c4e4d8b193dfe25a8dbbdc6a89f4da51769a4473ca8);(false,0x587115039685273c0b94ecfffa269fb3b6d68042bfef92551afe6afcf873e8b);(true,0x541f586d44ac72a36fcdb8e3ea0a4bbf25c19aa1896ffa416c7bdd11c26a5c03);(true,0x22f9d7dbebbc16c6a60ce73b580971f6e4b917b7e832c36c0deaf78c4251e0ef);(false,0x6132231c9c601750204877f17aaf9ec49b3adf68d543191f4b060499533f76ce);(false,0xcc9b05c143ce6a1886760ea0959b3840598d4cabebee3fa27c469dc13d9261f);(false,0x35bb03842963eabd9084ad8cfa290018e1bb108b2b498dbaafd85a94e16d71);(false,0x1b4e8f41c8c05ae53d0e29b26b8ab509ad3f644f02074967aadfd14a9661fc75);(false,0x1a20364d792dd317a327064d13d5160ab2de4b6843639a6245d250f6404a7);(false,0x47ebeabd7057e7a91b2c83a8d4669ca5b9b200af808c227c3e04f584c7a13afd);(false,0x25057c0d86fc9eda6de29d8cfa05cb1d70913f9f711022f42177a04dab42c1c);(false,0x6e7db1a3cce907331c2b7964913550dfe09d9b9cb57fcffa748712ac5f075e89);(false,0x25220ab1910ce2955668c1a1b9d8d537b5ccba178bfa4c5334b2a8627e0e7705);(false,0x6db2e36469bede40a7638691671c9c184bb7a1fbf77307e065340f75b8df7d6b);(false,0x7323bd3aa1b5b24639ad1537029bab34e75a6bc6d1bf0b048803df6e5aa308c1);(false,0xb679b6372ac4cc1d28358a9fb7a6a95f10098e087ec4eff51a8320bb375528d);(false,0x2a0b7062074f3a70f63efcb12765cf4c6a37600a3529856f6d316dec5d81dff2);(false,0x1afc3b10d3fb524aca5ac7cf4895aed3ec561f3e484501e209e88a23a6487b83);(false,0x36d6cb7467db4a985743e2fe6bbe6915c3908f8aa2b1b92124882290a1043d25);(false,0x10a17c6a8054e530becf40ed2e99303797db7e9ce70c87ae3c86881d5aa5e019);(false,0x1534b06958118d4534b26f637cffe592127027eee79a92847fc9da5f6cf41c3b);(false,0x4d8b14dfca9aaab14fe8223d96e52df4f89c0bab0114d64c21d6dfca18e351c9);(false,0x2f195b09464caef87a3709606fd9062087ee67ed1028798e35646fbd38c09c8b);(false,0x23e6d2bdf4302a6294030e7bae7e22944b5ee3a3a425be1361591c4ebd487b18);(false,0x87fe82b95193747f68617fdce63c83c3c12bd12ffde6d1fcafc035b08aedf64);(false,0x26044865b9b4180a25f3ed6b04007e1e35c029efc61919d31dabd32fdd990692);(false,0x4e86e66e6392f7a781699004b70b72507171e97a77a7659b31f8f3e61483ad0);(false,0x4f84f29dd69b698d9ae9ef9731b416f59c00192b68d2e374c96e68f459230f30);(false,0x4a4a48b3caa0cf424e035a6ae74aa5f9b2f61911ddd06d8155be68c3e1b80a);(false,0x3e3077ba737094c14a20458d54edc72598dd6b9c8d3cf1ee22251cc20e04c8e3);(false,0x183b33b3aad47a3f597f435d9f43e7ed0579e8f448279197e16fbf47de9e);(false,0x7fcf0bbc418ccb8bfe5c647979109a6d0047539bf30357558cba3429e8b97c);(false,0xd2714bfe3a3e7367e17dc0f56f9f12d99119a9dc204043c5781c8569d7773b3);(false,0x2c2381f73737540e83d85affbf0efc9a1c5778ed5a03eb6d2e37e95e98217085);(false,0xdd13fc58bcef8075dc40e14c58acab63ecb7c1a4f6b760bd32f3a2e728accc);(false,0x2743e63545b3a04d9223b5f07e5eca437057c18452c53ad6a689976782b92fc2)],0x3a3ca559121d8684c0e3ebf8e785809ac72e0e8d5dbcff1af65b37206312eb01,0x118395a8d0a78702fffb908349fbc0e25b1b8ae630139d5b437cb53d9efe914c);
  (52437899,1,[(true,0x0);(false,0x0);(false,0x0);(true,0x0);(false,0x0);(true,0x0);(false,0x0);(false,0x0);(false,0x2355094edfe);(true,0xaeb33b0a2cd63e05ebbd26251f2fdbe92384c0772f8253c0273bd5c4a10046ff);(false,0x5224e32a3e86100094e3a94bca8ae3cfa6f58f9cb2e1e4bb78b396485ab7fb);(true,0x4b99edfc93079afbbd4a45b35f1b53aff07b437f7240adc33a9542ef8a14c249);(true,0x802d8f3301c73ed72b70f6702e3f1b622982042d1c2a563494fda39312d4c91);(true,0x266f01396b59e93940390eb968e6f2198a5b02fed7997085e214f835ea7c94);(false,0x1746729784c997c51156e3d7d795cd74637e8e48221cf669e95cf77851d9f82c);(false,0x177b1bf62b72ec1a2298cb596e9709b355314c8d1315fd01501c1eb1d7280ec2);(true,0x672cb21769525751a07be1ab0fd5b4fce3d5d2e7f14b441a1fabdc03434ba90);(true,0xb6f4f1da5da2472a9870f467eb1de8934ccb6acae63d88554525a83ac4fbe56f);(false,0x2d1675978b68a2d452660e2ae5be471eba5659b083412ea205b616cd4aac563);(false,0x5e2993cbebafcefca522256ed71dcb63193e39241ca9325ab73cf03b4518d336);(true,0x4d422a88907e763b2e853a796263a24eaaa682a9a4208783f79e1cbee924f01d);(true,0x9d614f951307fb93039abf18f58ec08b32192fd7d4862728732fe3d273a872e8);(true,0x6788efbeadd5ec8499692c334b135346d78b17175157e3d106abea9c754d2cfa);(false,0x3acf877cfe47f47088cb6dd4a8a8a5d2c1f544ad8a82b8f452122e88f9ed0e39);(false,0x2252ac94125271489e8e44f14ef4d120b76eb05ce5ae8b7b95fd492c660ef947);(false,0x5decc24c5d93d7789a3c42886bbdb1823e90dec64da432d0f289740b476cf59);(false,0x8621efedc4eaa0c16549c72572f43fdf9f79fab42ede090cc7851878ddc7d8d);(true,0x7252fb88e097659ffaf8619a976994eaea7252353777a127122f06225c6718);(true,0x25c91fee9fcc3fed41f098919394ad39d72fba16ea8b49f3dc7ac1543b71af35);(false,0x554b8a42d5d3d470359f0129802dfe31f84cbc7217523274554bfbfea7d4aaf6);(false,0x203d3018ad1c5ce8374c7de264e1ee405042f8b83dd45463306ec89472ef9b1);(false,0x5c9bd73f9c52b8a734da6ffbf8bac704e224d5c5d5c36ad96f22fedee4452fbc);(true,0x51648aed2ef1723ba41dda86db193e32e4bdf9e4dad712c53c5ca5203cb1f208);(true,0x2c6367fc6c83438357399953bf5e06bda448da01cda0b3486421871c944ad301);(true,0x824c22d976f185088d78b1ca3c9535113c941012eea94910a4a29b7065c46463);(true,0x89d93ecb0d5ebfaa1206381a14e6dd33bdab9389087d5b1d6f912faa6b583f3b);(true,0x26d4bcd8a31fbe85402d4888f1b88f56c5a073dc53527aace294a50919afe24);(true,0xbc50b789e9dfc5c2b6aa21b47889e424731e9258a9600ab439cd5ddbad12ebb8);(false,0x23c5ce845d3e0b41c55da32bc14d7b1a0b821c3e74f0849140546d0e3dc10e4c);(false,0x2bad8d145ef542a0a24cd58e7367946926fa3a624b3cbc89acb0b7ed18d3f9f7);(true,0xc6d4415b5390026ae7e4a58bd74796219f201bcce06982a2778ba2db1584194);(false,0x3392d50b0f82cf804dce5c2e856c80421286b1e18e65689498a68a239b75bc7f);(false,0x3f9742703a2b0aedfd6e53548020e4c1b491e1739091ca737444a3d84cbc17c1);(false,0x42d20fe9261fd5db997462e420428d4106ddbfd3e9d478df655b096073271998);(false,0xe65e6454457de82cbff59336cee0fcd8ec16af2ee34de4db3b784329f50506f);(true,0x6ce5546944d42eb6c7a71864b431f8be2c0a500203618135801265f472a255ed);(true,0xc9a7f420ecf95ccaf8beec12867b694540c9db95e53d54eeb750f669490c6a1);(false,0x13496ed4c82a694a324d6ae3a8cff33a10983263c67a57192a77b685bd7d2168);(false,0x40b436690bc20faf97710c5bad82e46a0aa247404ddb1b3f4204e987322bb6a9);(true,0x26d7880446c0929a3a718add1a19ffc2687ba1dc9cab215eabf2ef23957fc0e9);(false,0x1368c1d3a46ba2a1525a1ba7995ab92953f65869ac4f948223bf05235486c30e);(true,0x4b4b1a5ebb4dc50cf2c2941f82fdaa37df2db75f0256d46c4013ccd159e39d81);(true,0x9e33b0a6567256217561e57493468c6a4b77c9bbbc126a954143ae6b509ed165);(false,0x42490a8a17355963dee54db21bbf0438fde9fcda1a0e62ad0b5f756798571dd);(true,0x1365bac979e3ef53ca27e59541aec290923aa07e86c68a5a526c9cb67087a2bd);(true,0xb256e659af7620063b0148071b1e2128a7295237e4b65180facece3341acd407);(false,0x62475cf1865e3cb72ede7089646ab92680a6176b005d2b7cf9f063106b9575cc);(true,0x3f54c29296cd4d5d06e035e8e0bfcc290c9b5dd651759e4376a7e9cb682b2c39);(true,0x395184120da88e728522058018fb01239c4319e12a5282e95e1e82227bda3797);(false,0x375e48e0caaa4f8baf669f55b4c08ae4671e86b651993401d10442085987a47);(true,0xc27b1b5c28b34571149f022e26812b2af19d7945d14adb430511ade528218ee);(false,0x31304c96ae0b985772147ed76111349a669282579d4cb218ab1c413f19d9a77);(false,0xc4a46fab7dcfb799ed0cd83186a545f55b8fdf6a99721c628ed70f06f9a4979);(false,0x15165b8178d267082898f7810338a03ed3ce1fe185b5650dee9b82a6f22d2ec6);(false,0xa189561f9564cab8a1aafbc5791a2f3880dc581d9580e489d934aa46b4863e2);(false,0x6cae20aa54e39f3dfc58009d883f93bf202ec125ef3b0c1a15fe6776a5791015);(false,0x285c59ccb00bfdd77eee4a3a8c305514e735fcfb9e3cd1751161c6e3cb071993);(true,0x76d25af87dc6f686a4a0b5f287e19d24bdd326a40b111624ff7ef50177c6b5b3);(true,0x6f0c6f3a8d82002c01cd92612d3c9fe63e73a4d223340b4b2c08683ad9fc81c3);(true,0x14143535ee36bb15ed5beaf9c3fd8c6edd70ff2303f09dcc215ba06ec8806b80);(false,0x1fda2085fd230939210df88ec04411c1bcd6f9fef19c1e801aede078c7b610b);(false,0x2e3d59b8090555ce153e012cdabd5479f2d70f5a4ce8d9049c2ffe6efa902498);(true,0xe6e01a3114ce989da322da6769c02dcb7fc7b3bf7a7220dcc3532b9571bb9da);(true,0x7db3d86ca1b03b333a4f3df8dfab0d42d95dedbc7ceadf3bbaf49765f3a2d8);(false,0x160f65ed99d504f3edebab07d2a54a015deb7a062c1659de0c82004ea50d2bd5);(false,0x63268d79ff10aad72eca95a7f03b6889c36380a2feb70cb5c3f1899c004cc316);(true,0xdfee07499369669e58c899b5314d31b2499c32a30d24637c8432f7578d85fec5);(true,0xe5a607f0b608d506f4e1939d9c22e5f6a73836193626536d9c3d140f83c1bd49);(true,0x536ba13f8378601d7a77bd4d9ff8124b359e1d5a569a0d6651d8432332a3ac5);(true,0x3f1d1e7073f1cc1707eb2fa97d239d6399f8b28b380ab2775adde70c21ecf0ab);(true,0x9cb5aaba4a15d8f4c092b730222b5a05795909e6b9999acde8bb0a1f00e68991);(true,0x1ebd70ab863eea8d67bd54f603f160b9d72bf3eb40ffb28b2b67c237004e35ea);(true,0xd077ef013b5b9dc4f0ac28008cde89f5400e8eb748fa39e0452dca3651376bf1);(true,0xc0e974048b896bfd0e00a2921a31e10da097acc51c9e05b8ef9501aadab9938d);(true,0x2c811301b1f5acd91eba6150a3ecafa93b4cdb51f837684717ea80725206b40d);(false,0x3b7f2e7277053b8f8733441c7e74361a4e5800a1f49064c2c0de769de051450);(false,0x1ce9c44a76ab63cff9ebb7e913b30002d9df3f1b1c5befc343b721707ba9c);(false,0x497dae3b3e8740cc0c5c1da41048252995e4b517564c46276ca7a1f335dd80b);(false,0x159876a62033edf31060180009a2d6d406081b963f6c90185cd2f5077ad1a7b);(true,0xc178d8f7463d9d482c35bb26f7ca5a63d90b1e084d01acdc8ed3d04ea469789);(false,0x59337fca13d69d5f2a2c2a9c7a94cf2c95f9a8dda622fcb70f8662a8ffdd6881);(true,0xa3556b3993dc41a1e814163e24fc81b2f817d9f68beaa84908808cebe2b9217e);(false,0x31b0f8e537df9a8f9e1ca32d4e4c97399c2748e53d07a9709e29c4e3b9ca7db7);(true,0xe5ab96f7fb06af7d23bf41685c5a9bbb4dfaa71f85fe9893cfe378fe15a31d58);(false,0x1a9ed3bb391a9133ddab8a8d5df54d80f508647dcab6aa5c441fc0cfdeeb4b9e);(true,0x623c1bb069d68d0d2b2161d8fb10cd4f4089813e1125098a5ff781a1c8870f4d);(true,0x35e817a81d85b90cce29ef524c3010e1aa6a496d6ebfa04197899c6a3a77ba8f);(true,0x5163ceeccc8c18d52fd13d9a61647832f017cf73ae2de06ce347f951881edf36);(false,0xf3ad644a47d2ce643206e214502c62f6b443520ac69384868206105764790f);(true,0xacb8c2febc17f8d7ef34ced2cecfad4048cb65033f6d334e06a68c83d593e978);(true,0x7ecdfe895387c66269a35abf5dc50cb6da7758457f85aff7b064c3d00d9d04a7);(false,0x3b8afe4d2e0c00436e57ec18d008e48e3310109613c61eb55f440b7f24b0216d);(false,0x7938dc5bda62a2a543672c652a1070a854a9f76ce98d04f8ba9cb6610ef6f);(true,0x473bfba929a955bff5147d7ed2a36f0b399f03d0268027f4cbfe7feb6b8f797a);(false,0x43785db3a3e34dc94ed9c7f53b5319e3e7eef2ebca37f26ea10fbf41a993fa1d);(true,0x4aa29f95822c5718624ed82906be9943357a01778039819c1cb9af6bd212f75);(false,0x6fd0d9b19654f1cd31713bebc9a05657dc65003c7aaa96a353f3f78a1369669f);(false,0x4544ccf97f8937e8b38feca9062f4491763d2070f7671c995e3e5106b56424f2);(false,0x17f200cc448bf9f15965c2f9cb71bf0b0f2ed3dd95ab3bd75fee8b780c2ab9);(false,0x3355257b62df0f94db3a54470c837d49bae127395471c65386cd6268bb70ed3);(true,0xc65717fd090363bb2dc9d01e5c11222bb17c38542592f74123b7a81e9668f48);(true,0x1cf07385e5288da618ed1c6c8c9a3901d119b6717a13236b69f70405c56e7637);(true,0x2674ac38e8c944ad7906f4b5cd776a02656097ec5f4ba3f7c21d9cc4108f20b);(true,0x862aabf96d046ef11320238d9ad590bf4b904bc7958bc6d77cdf69622b11dca);(false,0x1607e3ce75d1909e84efbbf49233bcb7345a7935fdaec6e2aedcb4c4c12698bc);(true,0x81055c667cb9aa8461636643a5c90ebbb89823a57150cffc4d10542ad2175059);(true,0x5d6f07328ef52403f6e6984737addae4e5b93d551ec594199d97f22b64ef64a2);(false,0x1fcbe94c64b835d487647fc1ec109ffa968b64345562bfccfd01a734708bfa28);(true,0xdb58d6535a33745359c7dc242ce3cfc23bd35b184ee35269165d6884db1f4f8);(true,0x50e8214be020c67ebd4beb20679455427314b4863c5ebc30510ced7d954e1fd3);(true,0x17b91911b7840b8d449b8ca2e9057e42b8dd2dc862fc7c7f64ee615e70d6adf8);(true,0x548dac1580752ff0f31f7234aa67af46742a14356e6359a9bd97b1d8d9fdfcf9);(false,0x52a114c104462938f461d4f35ba43288a829b570efeff5de4a74dc61b72be43a);(false,0xb9e5818c9c70f81f1decf88581c9f3bef550e5a7b916bc79b9ff448529d6cb1);(true,0x18a98d2c55b172a95a8d25b0a07103b6372d8da08999f300964671d27ead8de7);(false,0x31b5d1a4cb053a61363147d6aaec7f52a1c9d58f8c8241e8e9e1b605360427e);(false,0x4dde562546ac108db8584764cd7e1887a6aa2b63a26a1f8bc5d7c6302aefa69);(true,0x8e86665c31c6644e1f26bd86fdf0357c2374a01918ed838249b97d37be1a4b9f);(true,0xbf388e3989593a174f7ea0416cb87dbf606812e0f6b158a916813e3c7ea707fb);(false,0x3874fcd25a13011781f0b9316da8415b8c1016912d3522b272adfd7561c8704);(true,0x9183f727170edec3ae13af59a9dd2800bee6b312d2fdde9ab7d2ddbac5710004);(true,0xaf871a39a629a63df34a4b8818ab9c737010506db5fd79f1b36c6aa73fd5dc2);(true,0x5422a5d186e91a31f4ce436fc7dcb6e03485acc62940a115e941bdcb55df5c0d);(false,0xd7f182d4ffdc83a31900c3b8493d17098de334e76ef5ca348334452a9c789);(true,0x55fa099f60b1b759be7a10065832fa829cc8a0a061dba8612da8449f5ef2f12);(true,0x701555833db4da8520ac7f6bec1c3c57c6dddbdac97dc71bd980bcef9a3a7799);(true,0x65a62896b9c4c597457e77480a8b8a165505e328aa3862a237c70b7fcdd1b0f);(false,0xa529b20b0a4ebe67c3c6941f7f2e99a7d5883fba29c3add7a901ac479f63d90);(false,0x21b2e719e06bfaa903e0622f74be5d7fe38bdedab3bf7f5db8f5b43e81faf7c6);(false,0x60fc2014ce52c2ac9fd7cebc4df11b0d2fae1c9791d7bd5c53f74635e13f0497);(true,0xacfcac843a8b5607c836e13e16b588fad660fc2f1853c0ce1ac7a93ab6368e56);(false,0x2130fc69b5e5ceb64aebf08c78fc6170f2f992af1511c091709a3363738519f0);(false,0xc766eaea21d1dda06baf925e67ab01d8fac1284ddb0683bddc76721847cb334);(false,0xa32df18e0334895a4ddf22828d6aa07223967d70f44d9b595d6cd9097dc3933);(true,0xba960147021650e09d0b53c31ba909f50e88f08bf89c7f6f770db79df6bb8ebe);(true,0xa72751219cfe079767e07e42680bea457099482537158e42796bf93014d330a);(false,0x6d32d0667dcbd363d97b4469941cf6d477c0ccbb5d7f1c0dade254bf175d3d4);(false,0x645cdefe8800c722dabad802cc3c11e8cab42c724b1b11ea0039a415d18014db);(false,0x3c41e7c03b4dafc3a0cb531183c7f6cef26b504eb35870a96f736ebe2aee106);(false,0x2a56be13c0ac1419f9d3aef7454db9c25e545bae3bc10391737079d8b1de186b);(true,0xe4b79e7db99ca5f6c34dab9adf66b8320951e75274ebe6f13e4b5e80189019cd);(true,0xa5707ea55a60fe02af81a58a94232d0e968523c51f5d0757f65b817b9a2b1bc2);(true,0xcca42ef495e9e2950276e0091ef4afb113ff93214a61142a779dc43f5178d480);(false,0x1c5298e6207d0d55ed268f43b13e9b0a3879121fb2d4fd052791d009199ba313);(true,0x73bee0f64c83b6350da36580d745c147e77531c7847aa2ca19c7b149e8f18dde);(false,0x4b10af08adaff09bd3249dd7a5aac9e5b5a48e3ab41db421c4b09b6645d24d20);(true,0x11b2af6e98909ce0d5fa4205ab3e59cd7aefee27d69b94e328db72a6823a48be);(true,0x5d735bef6252f3749b52f8a5172931acef835607801731e6c8dd000500830003);(true,0x9236af3865f8399c76bd48dbca9cdca91000384135fd779d2c87ff7ae09a16c3);(true,0x58690eb5289cb775985ce83d80e6b20de00cca7d103696ecf3d0a81fc33c19b);(true,0x7d57f17554ae6f3d6932ac01b527b6d9d448eff988b36d1be259dba4bf44cb2);(true,0xb5b7c23eb3a3c68118c6648fe1749980548ee803ca3f4ca9da1b2e1e61338b4c);(true,0x30efdc3f5b3af3b5a6a6868d31d77d856478bade52ecb2fe14b699eec8314dc6);(true,0x1403458d0c1f8443c2be3acb1f85b0ace9334261f69066c93730d69824aa267);(true,0x89039f1ceef666d614ca8ae177fb287e38ad4f134d484fb05370a81dcd166ccf);(true,0x40257b76bab85278c10fdc688c5f972654c35d0d6ed786493125b2dfd26c7e06);(true,0x192951aedf21dfa8764c1d1facc8932313998e16708b44420f4b2de1bb2e0c16);(false,0x335b240c01544f66977ccce34f5445b9eceb4b8fca1576e8110bae171cba3c4);(true,0x419b2529070de59684a9cb971ad3cfe35e5fff1c3461892cec8226340e19ed65);(true,0x11afbdf98539e40b7cd7a8d89bcf1a24b58550b97cd333dbc606e5be2cf62f9e);(true,0xa4ce394116fc9d907d3c4334598b82303886caeca18010995092095c350102dc);(false,0x606bde03a2ec7b4489723023eb71795dff374c90edbf390c68f608bfb8022711);(true,0x4b86d95b8efe9b75094289d398fed5e2a983551c7e67ff99661b1255e37f06b3);(true,0x998b0541aad8d31012e6b6d95820421d9385cd2fc1dcee9e52f33e5eb28cb193);(true,0x1f09e9b9ea932f7f1ccfc42f0a00fd96028b62de81883aecae1939032773fd9);(false,0x3209dddd0ae2c8d8cdce0b825f8aa43c4c726a2e2cb6488dfd4c324aedbe41d5);(false,0x22cbc620280ae358eeba39c6dd926ce9d2c08e019625955fd3af7a44273b279a);(true,0xa82e7af6fd64e21bb23389bcdafa7fe375d55d3db8e223db49044483f227cb39);(true,0x4900bb4826dd7e581cd6de7c10d84e045697cf3f0e87cba6d02edc4361659db9);(false,0x5886c9b1d6870a526e8a895d7dc1f2ada128d8f073f5ce508f008cf1941d4e5b);(true,0xe6f77353f6bc27fccfe42c485f6c80c50fdf03333dd3a9a58de2ea30b06cff93);(false,0xace787fe8e9f5cce57696576f6314462bb56cf803501a70af8ae9fd6645512e);(false,0x9cfd437f997a4b66c98723d069723ba7959e2be05c222886d5a8a77c3776507);(false,0x62f543471bea8084f4cce9ce2148c6b6ba1fae12ef9f40c9cd6777e793b91213);(false,0x530f382329f2b09fb2ac99b57831ebfd14fdc36e1184de3e05130a5a0b62bd74);(true,0x5088dd4be9bf2640f341adb5463ac6d94cf9a6e695419dca7cca730f4e781f97);(false,0x1bba3420347baae6b9fce1be976b453abb032573f272ee716734bcf1479a48a1);(false,0x67dc45d147af5aabc4975ac1dcda1170c1d57109bb5a6a4d7c597d95759ddae1);(true,0x381ea9bfbc985b4ed869cbebf31fb7a8374d01ea6db2c04e3932bf54a99995f3);(true,0x7adc7f0707e1354ac3e1d4c8ab5458a1945a7cf739e7ff53005b7aeb93fa265);(true,0x3400fce4401ee96d2841518626c3cdb5d43a4eb0f58770bf02479e7f24147a73);(true,0x76a72e250fa41dbc10c30209ef460c55ac45433fa159a12c55ce5bdee3a2d10f);(false,0x104c8341b63611e732f95d30a0d44338bc8d49d406121f6bb7274ee62ff8f416);(true,0xd748b941930cd519d34e1ae85135b424e6ea129769ebb194598137c05b256e);(true,0x4f887648492bf200a7a72cf990b4fa468e5738b53b0c7f1580f6aa1dc24022fc);(true,0x2ac0d81351d7b1b3c13fb0f254782d89882edcb8278bcfeee31465794931920f);(false,0x3be3dfa882cff32133812bca24e40f7864802919c116657664dc05258ee47610);(true,0x3ff2a8cdb4dbfca8618b515a64f2a8c80dceffd4b0fea8d924d0fefef086b1ed);(false,0x4d6967ad9de9f0f5de4dc96f9ecc56d65287240062830c87fbc9d0236ad925f9);(false,0x28947bf8b743ef1abbc2ce301760555e916bf8f2e1942e599a2dbd3cb66574);(false,0x331d1fffc8958aeb4cf4997be081f500fda135ad35ef223bcb1086dbc376549);(false,0xa51e30df99c83bf836c5c117450124dcd320f82dc4c1d0578d19a86ebc74f7);(false,0x26df8e1fa4e22abdd839924314e021ff149a5fe33b5f8efc65d7c415f1cbeaa);(false,0x4a642dd5fd409c95476949aa5e043aaf46d5b42a7fb668305f2051e7582b261e);(false,0x292d391ad3b5aeb6c75e01da4038249bf35460bd545f33424728a7e9f5e11ebc);(false,0x21b54b4cf863bf9929c5e5a6c42f67d8d9d2eedf60c9caa5f0c47dfd2e74a0fc);(false,0x6dd874e50c922ac77d553be273fe0f1655d1f05e64cc598ead4fe5a62a76000);(false,0x13e609b3b0205e1276785c21c44e1354e0e7c8189d4a434205c52bed73a11045);(false,0x71f35b8e047221cd27c0891a545c48c17499f73211f1b7a243250832b5ee11e);(false,0x5631ab8c21303fdcbab14f90247b9fc99bfd95ac8d57ab4325b83e8aae4c37a4);(false,0x8b164fb9fd58852e090bbbc772a1c7fbd04234efa65a9765401923dcdaff0a2);(false,0x5b12d501a92851c1a0aae0cf28c477911631b36ccdeac275061b30038c5c635e);(false,0x1c1122b1abf4fbeb8dab0befab75dbb6dea5a99939afc48c0eca3a7c0fb823dc);(false,0x412473c4df3c6214da132df16ef2f03461e1ee17eee89b384a987f7a92f7c4c1);(false,0xeb15a8cafb70badfc96b616335bb32ec0b326bcebbaec01e6129576ff2b29a4);(false,0x4d9ef5920a719f3f2b601961961c9b2993bc97b19fee90b534af821f72053bb);(false,0x100c3c1f8aaa7b42d9ad8544151cfbb4dfc5249fdba80691b59db7d29815a35d);(false,0x174e13fee0fa2f55c4002695ead5908d93d0f9bee45b060fa6bc7a9c8690bf7c);(false,0x106de1fda6cc4f51747291220a0f5510d7027fa7260b65b618230d55a09b6a8);(false,0x3a349c60c25f3f4ba962cf27caef8b07de996b0378553d1d73698e806c7abc9d);(false,0x99fab68e70684eece9ea5bccb11ebacfcb4dc9bec7f937702b7f707e0f2242a);(false,0xd1ab9e3079a21786553fbc202a0fc88eac335ec92b1f0d3aac871480d577a80);(false,0xba1c3a1383d5a67fd37d63d888a9b0a46f570743b563677fd1f54715cc1b89b);(false,0x6bf0b4479e81f096df2ac0710c476e2481bad52204b78fc8a88d54c5f5b2e522);(false,0x3a462e4d47a8098a2cce5637dff24eb3215459b74d182833cc0dd15e58e46ae4);(false,0xacd125bc03e33cc829a4bfe634d2b5eae22d8caa711b56414697c43d047f84);(false,0x1736593d210b71e1d8cd3c0c59de3874ec1b8527bc54b5be4d34dba9e11719a8);(false,0x8eb3348bfbd11841a9adbae3e5c171edadac2c8de2d8b472e2567c5080e4813);(false,0xfff01dcdecf3642e152bdfd1afca01dbe24967f3a073ab4fb9a532ef5e2c2);(false,0xc8668e0c13af3941bfed947c172cf6c9da5adeb299ae42f123aa79946c34940)],0x3bc149430689a606018b37aa909ddbd3ff7d585502b9d411bc8a3a43b8188b42,0x2e6ea48104a20ef14cb53e71fed6783710d7c3032003add7403903e21d6ff15f);
  (2529403,1,[(true,0x0);(true,0x0);(false,0x0);(false,0x0);(false,0x0);(false,0x0);(false,0x0);(false,0x0);(false,0x2355094edfede377c38b5dcb707e08ed3);(false,0x120cfd46c5d560f1ad41ace41ed53fd9eda0b3e491190f81aa6c98d487534e3a);(true,0xd160cd3fa3ef9e83d5f7c8bf1bc57f35a76cabf5833e4143fb3f69df45ae611a);(true,0x75cde4ff81a042bf424fef18b5e8443ed33d1f71b697aefdb40f6519dec81556);(true,0x2ccd2ee6195970134e0d1f3b3bbf45549bab80d4e9fc48b5983988cc808c44a);(true,0x81dcbd5d2142101a1b067044cce1c6f4bd4b4fefbffad036aac58ef6818c535a);(false,0x1638de4765e968bb85a973990fef306b2c2398b01e994d5e2908633e8b1b9b9e);(false,0x39663e6bc638861aeedc880609f79ffed4e2e45674770b7458b956d92dbb9902);(false,0x2627f250be75a5cbfb5d6f1f27604a63b3fdc68dff94510d7a7741e113cf9a21);(false,0x567f792998f4537753862c48357a4b755736545e0f2ac4615df3c1cded7deabb);(false,0x3051b1d01707223e00aabb00edfdea85664bf7c3899ccd6211658440e66a3e1e);(false,0x75198140af04ba278d6c6dca061e498c7de6abf704eeeac81f608a6e3aab288);(true,0x8fd99d8214e2540224586dd88a6c433c3a45311ea2523b19b7503e73ef8440d0);(true,0x5efe54c90b80c20947613d02dfd4b842130721bdb64bacd5f93c5a50b0bb54ce);(false,0x37b8b416d45f6af28981aefd98d1667047ed941f001beb91fe29085b16e29da5);(false,0x7f12ff43374635e4e49baa2c84e41aacce8efae80f0346e0ad62b87f1e328e1);(false,0x2e1fdd98625d0132a7449ee89f3c25a4eed2b498fee90597ba940b1a88f3ac);(false,0x18b076fcda5491a374c29bc0539482987ad98195efb2950a2daa35620a6e2d2);(true,0x1cbc36d6367fce09e36589dc2a89094b3a2fa4c0794ab4f751c3c8f801e49c6b);(true,0x3b6031ce9a1196731de85b4791af5b92dc9b48458c736fd721ee0218477cdb6a);(true,0x2626c5be2c6f4b0ea407617a1d2dc14a649c044127f6b2abd4232502f16e22f1);(false,0x12b6f9dd0294d36aa5e8d736aaa5023edc10252c172dc6f22764d39206e24bb8);(true,0x797908088b367159ef80cf2c3d973b366234a09efdf383be92b30ba20db79ed7);(false,0x683b8d0bf0bc775b16bd45633911907c68de4a86c9539d75621e03a01b0d4354);(false,0x22a77f28f95cb1c34ede9a473bac9eb6064cc97db102ffcb1cfb096df3c3);(true,0x2c2416157f1b494744de27f3666b6d18b1796ae432253c712b285909bce4abd4);(true,0xbf1971754103d300507cfef54c7c9bba442b2aec72733c005c96db44edc381aa);(true,0x4a4bbb708c7d9c3e9f07f5441ab1d2e5a7f4c2f80d62de71fdef2d44e710f5d);(true,0x89225eb3bcef4433076b9ae279261038d14a991fc7c44446f3b46d6a4336f809);(false,0x32bebf9f0f07c46906e155be21c75d9fe7e6377eabcd0d2cc233ed8268053e9b);(false,0x12f8770628dc1778d898a5231b327237c4c8377811c0939898182a296d45652e);(false,0x3ba652b2c72a7074a0a7f153f2e85e55dd084eded0eece2087e35365442fdcba);(false,0xad3a249b9abf54619f34d8508d3b910cf1a79f318c5fc13d2ebfbc4ecbce512);(false,0x186a24c5f36bd645c41972dbc8e8a0c443d904ec3a425d67ab57efd3c274d2a);(false,0x5460d9d67c6f21f10848502fc3cbe43448e1d62b873c2be5974458492cf5bf09);(false,0x561ea0bd570b5cfa38a72b1c58df9c5cc748b379bb00bc7386be275605019b5);(false,0x75434596bb24b8db1fe56d3b10c7ef68551de43bb950f776d7a9a36ef97f1f);(false,0x7d73e801fceab7bb3bced97a7e4ff39ad62f3a22d074d4a948eeab10cf2769b);(false,0x155c1495c6915bd7bcbbdb4792e2d9c2d000a11424cc15df28a4b40ca4f287bf);(false,0x37de88c83b286b7a9792a75588c3db606ff8d2564c77121ed42af87fa075bac2);(false,0x5dd3c5d7e124dbaa580e08a963563b3f54fe1f1e43a9cf4f0eff3837046b180d);(false,0x51d901327b8ccce570b9719df57e900d71b6ec5706c593349717429995f09231);(true,0x61bb2c73685b29cc73ac62fa382e2f9415e3e3be065ea9e94cc276ee072935f);(true,0x19b547d8ae42bf0b740633d006efe3169d0b1b666aa62873c5e058704f62a778);(false,0x57c4890ed3f8a25fc1ffc99a0e65dac21a9690cd910e7b74712314c1b6ddfe76);(false,0x6930c6c4b05e1f5fb4ba3b5376bb20465226bb6c96ff702ab3d8dc7ed9b24541);(true,0x5ae4cca356ca927b8c23ec1eaae2c8fe5475214100387154131d2e81d07fe300);(false,0x1071c614bcdae448898541aca35e3dc41b6f3fd3de08959a97f3ac0c4ac781d);(true,0x5f2b69ce9ff50cee3af7f8522167fc929a7068bc1fdbe7f2ac592472cbfa106e);(true,0x4094a69677c48e26286466eec0e85929b8e2bab2f0f256c927395cf750c3028);(false,0x424ac76472d76bd64ee0fdb957ce84888d1ff46663b9917868f5824713a4c943);(true,0x3f0da8f72472c82f792a670f435277338b72f4631ec00f6c8b6e623fd279430);(false,0x69064d1302cb53aea76eaed4c77a3ebd4678b7c459d7bcde416b0093c4f73130);(true,0xacda6eda3343736285fbfaba99a32f30cb1d19e9326fd6d9f781c861476f1f51);(true,0x1c80767aaa6e1075c6eefec9ada95e410a548bfbe35118d2956fa73ece9fb01e);(false,0x5d0cac978f47f4ca4361ee341736fac0373a033bf1b495cae8cc86e467c9817f);(false,0x3f0ec69b53ca094f0e4a5c3d144f5edebdacd6201a071e422df2e1f8e91f758a);(false,0x3245a8523976797f09b329e4166ccda5b509411fa64d727518966ce6a6c17cf);(false,0x1cc4e2682b5bd5df789f8bebb0d6cfcebe8e18b2e11945f57d4fc1fea744f91);(false,0x4f617e1a38cba3b88908a2f198e97dc280bcc7a4a925daeca03861d827a17c14);(true,0x3cb5b0b6a6eae453de6dc4afa319af34bfe07254af9c137834747537e2479868);(false,0x682f0e6e0849df16e80f6061fe841af5a6dfbebbbdc32606d06ecf1d146405d7);(false,0x3d55ba528be2ffea04356c65bcfff96a9fc55279493451b18a9413b13281d112);(false,0x1affc4fd72c36d7ec9ba8a8e3adab0c67d19f169c97e67544b93af38cb0724e0);(true,0x2ecb30e05abb613986e0462ee216f135174868f3eea70a0d113e62180373de68);(false,0x3a7b289bc9cc433e9d381b372c24a2366f5379e723a1008fced4aea4c211d6c3);(true,0xa1848a8b28e75301752bc9ef15aa145ea865eb191890b6cb01c789f1e21efc8);(true,0x9a51d68c5531f4904e850ac08cb79b95bb83b97e189d1e2b95ee5648fa8e5c9d);(true,0x223b1dab63a65d31b62907a88677b00e89c5642db7f4de59dd5645f59d5a4a0);(true,0x1a9e1edcf364ae719f7b674e0e27626cb0e9c61d5bcbfc0b69abaa592b90f633);(true,0x614db018c6bdbaaf8ef2937b2b692d84ec86432b0027e25add2be29056b7dda5);(true,0x78bf0a20c3c9d92dee2220dd59d93d6c0cd4c8f9827c011c319a516a50efbd);(true,0x1c3d4c6dba63a81d322b2405ea384bf130dc68e1eb65e360f0984f086520916);(false,0x6b9bd45e7557c1fdb31efb1587b6d59ff4afbe9cae1175748b2f9b89ba221bf);(false,0x354f242f7bd936811253de8b82d865058a822f1276446d1f430765ce2f78d0c9);(false,0x40256d22838dc2eb465f65b06549236c3e9cc9a803045217588e8c1911fd75bc);(false,0x67a78faa67df5bb545b076745fbabaaef838a4cfa847cdbec97d5093ed5ea527);(true,0x425d3943ab39cf931ca8164e7fbeed66d78527213f77f32abd4990c53ab29684);(true,0x66ee576bf28f49cdea947e9b30653e711a63fc77c71fdc9dae91ea144b0107f5);(true,0x502fb588d6d0f3327c11a2544deb943433dc7c0acbb24e4b7ecbd1785d086976);(false,0x28bb4b510bc78d8dd998d28f18207ea6398eb752d5b075724eb27ad16ef416f1);(true,0x63727310cd3a02ce58263bf198b183b77d5cc55ad52c341ec2c3b125e1da98c7);(false,0x3fafb058ba9689d012ae2365ce82a033efee861c5b7ef5553b324652ee94ef9);(false,0x3cf3370ec803d6202bd844b181a88d8001becb7621c01cc07c5d954f065d0356);(true,0x2296cded35d19e9c09af1f1ac4681b8411710ac35315b3db0ac66b4fa1bd25cb);(true,0x364fc3ddd59f426817d5471eed7fe0a6f0a155c960e97bf9cdc6da8c4345fe8f);(true,0x17d5fb1ea9ba652b9c7d10aa2ec8b1a0254e3252130c3ef4ab179c5dd699d07b);(false,0x4e7a90a59cebc5003ea29eb6cdef2d1874b01a516c26912c4053fb3116747b44);(false,0x2886fe2d70b10d0394b9a8a402c7832cd9a58e657810bd45eb01dd2a68b6633e);(true,0x979a845a3e57d38fda0e46275db29fe6fd54c90046d88f1d697b9ccf3e0a1399);(true,0x6a23b1b716e98e0865df8c8638fbfe052ffdc640c881b623951fc06f6eb2c2ff);(true,0x6f4172c7d97e71326d9d2d46dc1c6c959f328a8b541b7b17a2263a6b1dd0929c);(false,0x2124c4de877967a6605dad03fa09358350170966fe206e41ca77c8badb2ac234);(true,0x2f443c1d89063a58c5499429d449d8d301e64cf137a17950b160d7e8257d7ed2);(true,0xbbd9c5fb386a5688b9c9e9418548016a7401ff6ce8eae726ce4ca3e1bfb41652);(true,0x702100d76d8b4c60b7675d860249dfe8402641793b7bcf967c2b3010206a0eab);(true,0xe535fa49741ab0e3a598af50d67f83d3e999ebbc4d4c9520963cc927fbb2afa7);(true,0xea8f35ce8b06eb818d9f694676ce9200bd36bd4af0ae3d96df5dfa781d06358);(true,0x17c250f4803cd6ea8c2498981d62da10d308c1eae0fc3361dbdca0972bfef3ce);(true,0x2f055b4a0dcf4becaa2be9c42681fe3011eb60ab1b5752215c3f318737a71416);(false,0x72af57d16f8fa4feafab09e3a6c12d4afeb540d5f6b9a71ba31df9a99d92fc38);(true,0x608bdd4eaf83eea9f7c4dde86ecf1e02d709370ec3d964189f8b3c2019970566);(true,0x813c7dd82cfb024675b8c53c12d5e419e691bca3eeb5a71c2318698b8bd24ffb);(false,0x2ccb75946d6e0c4e4c49cbe0e5020934fb34e9b930574e133b799be738215d78);(false,0x54cc8fcace9a9d00f11a3505e96922c5d8c5ab7d83153ff43974163f73e3cc80);(false,0x37909b1d879050f7e1dab09fec58d27969d565eff802877257b2a63462e7312);(false,0x7075a11a21acce2c2b9df3f99f7229444bdfab296ef11f4aa15d566316cb4449);(true,0x95c6cd7ba964711c41fb0a361c07c4538142c33bca9c5241311775403f1a89b8);(true,0xcba27e8629b05a1d6996c655c41d7f9bc58620a5a9c2a48039298970ca84ecd5);(true,0x1ed279a8b3c3ba60a73303a084caf381e005fdf761496e38d04ed174fd77de75);(false,0x1203a959693667dfae83d76f2d0d2dcad8f5cb0299e60fa6c8d39608cceedd40);(false,0xd7e213ec5fd40ae41c0d2a2fa7c497cf7d3d3cc219c4c1ff1f4b20f65a363e1);(true,0xc6735f7dcce8f4f75f28fff477f81fb3adbcf19faf2e1ef0144985dfb0cbb39);(false,0x61b9ef2ac00ef3b9d614299615c9493028410606d9d10d5efea074572bf44a19);(false,0x50a0c1a7047747b27daa98e809e05a3274bf174e8fe05373889443f30e7f07ac);(false,0x2ca08f0548998bbe1fa3a0e60be4df8ec504fdeb6d7dd39a9a3f5bfa3a1c4cd);(true,0x247ab13ed8cafd2597c23edf16d82c71726adb0721929699c688ec5631de1ef);(true,0xee20c3e2f71cab496e0fbd8e86741149a47e6355ac6816cf33e09938a15f742);(true,0x71d3c892bdbaf89d5a5d6f8a08a350c01b279e1a72479c14cc632d7c35f65af0);(false,0x360b6b440470ad97e01c3a33d5d955ffbc6d23fcd4a9e7a50dc9a5de8bad681e);(false,0x2d45427a4b5f047a20b3f0bbdf6664624b9e9287ca4f403546f00629bafb757a);(true,0xa20fef9a59a5107a6b05fe459077b396145225ca12a256a4ba0395ddbe51c04f);(false,0x33df7c21a94de6b4c1c6a893762221314f26d9ce4ad7f84f7331a6a27e0d76e6);(true,0x98fa2f2e1bdb408a6193a63baec97523330290a109ba77794e2640cc875a75fe);(false,0x6def38e7c83a5b5468ffd808542d3bcf4e1302e390d1cb71ebc1aeeaf1875878);(true,0x1fc768433e21ff8e2c55b82cad55e9c27cc39360350e15ebf89214560f5f3f2b);(false,0x711f61d7fb0e49a18619826727567154c2795d7bdab9f5d7f99914f7a7d7ff7c);(true,0x5a0a8aa1eecf96c663a3bdf0aca7e50db5047fbbf4f8847d35619ab717cd411c);(true,0x25b0139b71bc5bcec93a8e02c0478ebdc38e8417fdd34e8a16d5f2da0a00cc8);(false,0x90ade328ad4ef40d71094223f1d87d62ff3b20650c5770c6a105e33f3d41134);(false,0x3bc4edc7ec22abec19a64cd94483d0dbb1bf2edcaf22ebbebc66da4ca66f68a1);(true,0x166d9e011d23d786626497f9dfce72d00d816c459caf86f9d9edec21478f0562);(false,0x68f631293c7613869c2b214a8ae120b44336ea0397a0572752c0064386ea937);(true,0xbd410baefe67028fc7e7626a89151c9a6eb11b539af45cff91008caec883ea9c);(false,0x3f230752ec60b7c87be5db5422a9dd76ca15d9c7957d02566ab699acab52153e);(true,0x9e8964347b5831d10067222dfe4aecc88fc1e4f641ad8802589d1b4d9b5d7cf7);(true,0x15055b5564652348ffd66be3dcf52642825b5424d008881b2930e68f6ade67ef);(false,0x5ca8b6c9a5ab61ea398cf8ceb7b6aa5badc6eb9ac38e1c7d1037b0d10ceeee50);(false,0x2199fb67e545576a94d87f3700ac67e69bb2cad6a4130bf5abd9f3117b602334);(true,0xbb51c00b86048de7a95984e1e5e4215ada28e9575c7e1b0f87b418043fad0e6);(true,0xbcb8e5ae0490826e5e467dcd4c2323d8d68a6dbaeece76749470c14b117fe12);(false,0x610172b187d08284fd78cb67af2469aed3183bac3e804c58dc465d1bc1a4d0d0);(true,0x1b0b3670a5201f70245f2c7873abd13a5573d9ff60c23c8200321e426439b0a0);(true,0x2d2530ea8bf05870ba9eacdf215398156eed242ce5067e62c4f59ef252014373);(false,0x24bdb8b25050ee50d3ae103d90f31e83d8c74c8c16090949fae4663897194f15);(true,0x3772fa3f1206cc8eccaf2869cdc440ffd0bbd7c0f0d18c578966f60ff0fa4290);(false,0xaea82f4e766aa1707f117ec8820ad2a6b368172e578f5113f6cafe039300a28);(false,0x5cb36cf2cafe5c804b090aad985bd7f4cf34661232914ad4a1f2908b0642c16d);(true,0x240a3c70aba2bf40569a127ec3b651f82cfe121fb302bdd0688e449b0fc3cde9);(true,0x1d6b14c5b92949c74085a71c323127cb39870ea6a45495afbb2532a45b01e25);(true,0x2908ec1350aa0c384303603d3e93f594f1aae2dded3035ff29b911fffac519);(false,0x35e215e44ae3a0d80e455c7edf64adc88d8ba0469040b254b313ffd9501e49);(true,0x921539ad580ea8748aaac2ac73a146eb9b856c8daf0f6ec73a3037d14cbd753a);(false,0x9d53dbbd167375e80cc40208528a1a03e212dd6f5b4a089da6983f2c2655102);(false,0x2c0dc2f6e9feafe5dfaafa5d4c1f7e7adc2b69da4e802809ae47150d5a3c2a8);(false,0x63d378facfdfbb4f5ec9268831b983ce0a1def09d60ceb5151b627cb065ee6c7);(false,0x63d9c4f6c9da838d0341c886c6894730b3e99403aefbacc41eb53492b6516095);(true,0x1b8e8d52667affe460967558d55026950446753bb08e3fe3d0cc14fe0ee5275a);(false,0x50ab56547980d6fb5d989e4f662c31cf0ddccc91697a27c6d4923e279240c111);(true,0x7729d138b922a94e551fb8f79bae3d080e9ae5e6e0639b6e948b9a44e7ee40c4);(false,0x45d176cb26bb577902a526ede6f971a46e60f6c3f87abdde5acc7f391337367d);(false,0x404aa4bb2f5ad07c9d7ce8020c64c0ff7c57add85cb16bc049e9af0018cd403);(false,0x1a86d67954c09c1b2c30eaa19647bfd6f1b55134bc76325248a822f094ba00b6);(true,0x750d3d3d32d36180937419e3f5af363b27d90d0c00e3203552f9ac4c98c72a62);(true,0xaad274900ed75c7f98cb872d026518207d06226242c904a1cb80ae9b1162db9b);(false,0x37038b1d3cee3d8230eaa44607cd40cf43bcaf3346363565a6faf562365fc8fd);(false,0x2203fb0843709a4597555e82ee90ee2b6f70f2176c99ba8fe029656edd3f857c);(true,0x8776f7a4233cc5048aed78d3ae6c98259669bdebb8fd3d7dbdcfe65555d1ad14);(true,0x3605b2ce3efda6644120446fc10441b77535e070c1ac3d83a019495f6fcff300);(true,0x3ebc5f76da87742fde0d0d9d523adf1b0f5a7f41b894c089dfd8812825700085);(false,0x6389c6dab50ec1665ea0d53515667dc651f4ee10ba92020908eb6c474d06307d);(true,0x3b18a67c05468ece94216f7c9d9e69cce133022204acac3b8e4d02f8669aff4b);(false,0x4c5e6d2d837b1faf086f8b5441b0fdf9ff2874061f881e00cb55419802028672);(true,0x994d24a4ceff9dfcd2c3c9bf8834cd676a9295cc4baff61e0bbf53ca1a4ae1f);(false,0xa4bba7bcc334eed91e8ec2df559a4f874a8237083910626627cb889f28b3968);(true,0x5410231244fbb3c8a5010a13bf42738769ff685248c845d9c16555b8fd2b96c5);(true,0x331a238217d467c63644b1353ce77daa82ccea8af55347893ac8e00289bc75b);(false,0x41ee447a77cede1175b78dcf1b2275a56b058c2745d1d7b8a73d109ff97cd25e);(false,0x45d29461057408a273478d8d3726c2eab00b6fc51e9bb80ac2a38421308e2001);(true,0x52d71313ebe2d1d86b9f34df8fe0f7e739dca748990b32804be13e13524ee563);(true,0x41d935ace2065c27448f655880e8f8ae649b3c68c56ad887d876648029950bbc);(true,0xc5a14f61d210daa4e5acc614f749473dfa9e05bf43253ec1460dd7c185d9825);(true,0x413217f91df006a13e2db91bd174c65d1867a6724c5737884ff1f859ad188d3a);(false,0x55940dfb48acb63d36bbb05066a5f3d87b2530ab11a3bfbee79fd27f73532a83);(false,0x24bbb5c0607f3828ee3751d684d165a0b6a387a12f9461bf078e24174894dd49);(true,0xfb0eab7bc2a19172be109928f7716c742983f453a52f38f56f9f483b8a30b82);(false,0x457ac97ada3d86e9c8603165eaa233dcd25b82635df51d97d3a647e2f8ff960c);(true,0xa372a42fd13d7942fc1189f5a11ad0caf6dcef5929eb05b4d7cabf40f4deebaa);(false,0x912f0d1531fd1bab969976d294664445ccc107ed3c2c0bebd4171792dc01291);(false,0x1f474d088df49af45cf699b6327781ef7ef38e7be4bf4705e9fa04623b8119);(true,0xa08d519485d436483b263044bfef4eb2189eeb199c49139bb737e90254a24cf8);(true,0x823e741c9fe2582b3352aa7272e805f3fd338b9b3de12a03fc90497ac9db02e);(false,0x5c7de6e17c83dabd6dccb486cadcbef3b675030e48a3fcd3b9669329927b6244);(true,0x1d2bc2f9d663b5849bef876023994f260496762115d739dcc6e25041156237c);(false,0x5b9e14f6aa44744e2d31f504b22a59c9cb323d03eff14eea3737c00a65a2674f);(false,0x3820b2be18037ebd87f0d654ecf2a172a5ae2337c6a3e9ceca016bda203afd8e);(false,0x1462f778254c2addd518bf25ceadc64e9a46fd799db5d10d8b6b298a52c39938);(false,0x4346c60758b604467790958c4b209a769e85ce33cabe54fa2f8d0b496194b4b0);(false,0x454c18b539016d9b7fecf71cd20898585d20fcbadff3de79a06515dc9d04036);(false,0x51c64bcb8df3ea54172da686b828d57430d5bf351050220d69e791c7d5717952);(false,0x24e6cf6b8b12fa5923cb51094ef7fcfb95cae775eb77ae6df03a2c29cdb4e57a);(false,0x16ab24d0a5e15d53c63f93939d0e97d0afbf66c9ca5b83db9b9cc25d286e8d6);(false,0x206254eb49f6b5ab3e24b6aa8e9912530ccb12fee75374e5883468609052bfab);(false,0x124d769af39078ee430c0a9b75483fad46cfbabf7251c68aedd62a36d4fb323);(false,0x21aa3f921afd8221d4d369691af3d29a22f4f05c222e01530c2fc2f0f170b366);(false,0x27a4ddbd23f5f95842939388a29629987446c027df0940ebeb72b6d39550b15);(false,0x129702a76b21376a74cba025de604d2046e6ce040a64bd5f46554f19875494b5);(false,0x73b62b369ab2f09dad5e3c149d3390fbb49b4de2f3fade55fc90f5f9849d684e);(false,0x5007d8e8e5482ac7070a5329d2d5538199c3d899651c13330e67653e7bf7a57e);(false,0x83c1b0f99c13555c281931c73b940564b0223e7aa1b3bc6b8b603153b7e053f);(false,0x3c8cc33890de899e6e016d730fb8bec18d8ed3c78c0b3f467fd6acba6463f562);(false,0x263858699b891f35208c27636e2e12007139970b86fc3f758ea8f1ab51ec51f4);(false,0xd32d804e7ba8c1b4087fb344bd280b0a740f8158ee881f490e3e8360bf47b);(false,0x5f8a462e98ac8940e393de194dbb22203267234ec70b8ebe724dc792d14ddf67);(false,0x121395edf4b8d879d841b0ebea9415be78bd65474c772d526416e820e665a5f);(false,0x65435ed8c1fe707e6a9ecea6a5b44201ec7a793d19bbe8772bf26e9c6e5528f9);(false,0x2e5cc2c9e924b7d24aadc3c2544bb5f284bfa8cdd4e196035112ba626b2a9c7);(false,0x687cbdc38004d2e48a553d7b2d5083a1dbe5ee4a01a5e50d7fc71c19a96a7bbc);(false,0x57b95cec6d6e0c036990c454efc3442467bda66320438511c8ca61658ebd477);(false,0x1df5c846ee06558b13339cdc77184881c94149e037062eb4876143b90ab82b19);(false,0x6634f70eaeff381cadc7442467bf1ba961bc1ff7fafaeb2dc255e00965057514);(false,0x2961a5f1b322ad3bf6c74ec49ccd34e30eeb9bc46699864c43573d389890c9f);(false,0x8ad4db8822d5cb861e99a0bdaa90df7ba6fed5df214337a12eb60b73128bb1);(false,0xebf5cc124e1ea2fdffe9cba186cc22195bda559daa0bc5c6a80f00d0ed753d);(false,0x6d2726ad4f24441fbe80e37bbe172348a39c8b88cb9b827036c4d3e24a39682);(false,0x5e0203f58635c9e96b7c9069eb55377ff2d2629ef5e51f58b27d06979be1ac7b)],0x2340c4019e2b68e71247aba3b846048f53e286bc8e9197b64baa675a78b2cee9,0x1fa36d258111ce5bbd2e089b9ef6f8753e4f98d34af568caee01a8cbc7f0c987)].

Theorem prime_r : prime r.
Proof.
  apply (pocklington _ main_r cert_r); [reflexivity| |vm_cast_no_check (eq_refl true)].
  repeat (apply Forall_cons; [|]); try apply Forall_nil.
  - apply prime_254760293.
  - apply prime_906349.
  - apply prime_52437899.
  - apply prime_2529403.
Qed.
