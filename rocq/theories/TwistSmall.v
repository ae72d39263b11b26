(** Points of the twist of orders 13, 23, 2713, 11953 and 262069 and how psi
    acts on them, and the cofactor formula at the point of order qTW.  The
    tables of slopes are generated; [slopeOk] checks them. *)
From Coq Require Import ZArith List Bool Lia Uint63.
From Verif Require Import Params ZMod RingPow FastMod FastParams Emulated Tower FieldFacts TowerFacts FastTower Primes2 CurveSpec G2 G2Spec EcGroup G2Mul G2Cof G2Chain G2Psi G2Clear G2Order G2Slope HashWitPts TwistPt TwGroup.
Import ListNotations.
Open Scope Z_scope.

Lemma small_kill gx gy n tab l (H : g2on (wP gx gy)) : slopeOk gx gy gx n tab = true -> slopeEnd tab 1 = l - 1 -> e2Z gy = E2_Neg (e2Z n) -> tm l (tof _ H) = tO.
Proof.
  intros C E N. apply tm_inf. cbn [tv tof proj1_sig]. replace l with (l - 1 + 1) by lia.
  refine (g2_mul_add _ _ _ _ _ _ H (slope_ok gx gy gx n tab _ H C E) (g2_mul_1 _) _). unfold wP. now apply add_opp.
Qed.
Lemma small_mul gx gy x y tab k (H : g2on (wP gx gy)) (H' : g2on (wP x y)) : slopeOk gx gy x y tab = true -> slopeEnd tab 1 = k -> tm k (tof _ H) = tof _ H'.
Proof. intros C E. apply tm_eq. exact (slope_ok gx gy x y tab k H C E). Qed.
Lemma small_psi gx gy px py tab k (H : g2on (wP gx gy)) : slopeOk gx gy px py tab = true -> slopeEnd tab 1 = k -> psiP (wP gx gy) = wP px py -> tpsi (tof _ H) = tm k (tof _ H).
Proof. intros C E P. symmetry. apply tm_eq. cbn [tv tof tpsi proj1_sig]. rewrite P. exact (slope_ok gx gy px py tab k H C E). Qed.

Definition u13_x : Z2 := (0x109965b41eafc380c9cafca101976929bd74ecdb031d1dd345e76d904fd528d70f882714e49a4a10efefb2aadfd0b1ba, 0x1155337267dcdc648fb817356e8e9e26e0c729e5543bc72a0424741f956d341eb560f91e5c8ff5ed896391e6a2e9b028).
Definition u13_y : Z2 := (0x543e67672eb5509d15fb31eb5502159357939c6a62946f86185a04d699aba5436f3cd0fbd6ae67aa8a2915d24f1addd, 0xa276dd850c9782aa3dac353c4693b172d308b69a78f715797b66cc35f7fdb30d9d4c7e58efba01a914a327493298af8).
Definition u13_n : Z2 := (0x14bd2b73c694919079bbf4978dfb8b7e2efe11be4d5bcbc705ab32538d163bcfe7b832eef3e91985115c6ea2db0dfcce, 0xfd9a411e8b66e6fa740e4627ee271c03746c01b4bf5a167cf7a65dd97311af344d7381922585fe528b4cd8b6cd61fb3).
Definition u13_tk : list sstep := [
  sd 0x173d0c04da32d2316962fed7d53e224834ea3331bc500588993f1fe902bf4e37a694c63a224344e4034f009fe1590882 0xf8339f4aaa417aa49706009357510a4a358819b64dea5588fb10d4753780b37e91a3d10d6dde5a227a49d99b43f7052;
  sa 0xbf28bc22ba433f7e80383919d4fd48aad295c39eb8a9cc81db6c1201dc86a093d112efb43e9e465182d6aa489b04f53 0x1482fe3d9eb2ed6ebc325f3f7f428b2b12c3f0a9f3193fc51128acc55fba3d424d43a7b3ad0fd5e011469e33c35ce9cc;
  sd 0x8c79b44e890593a5646984d8ad7a718811bb618d22a77590424303b1fb1a06bb49ea8b9c5de22b0ef4908f223091d00 0xfd83f8b19648549e51362d787bc515a471152f51c0444dd01255a5e81287764f6e0b97e474de2dddc1bc8d3e412aebb;
  sd 0x8fadf51860add7be691a16b9341eccef3528b1ca838724bfaa166dc24da20b03f9ad9af5eef48cd769e870d52ee02f0 0x111cfa150cc3323edbcba69b9d42255a93c72b22d494051a3c7f49a03121beefd5e9556d06d71e593066adbec2fd498a].
Lemma u13_on : g2on (wP u13_x u13_y).
Proof. unfold wP, g2on, g2a, g2b. cbn [on_curve]. cbv beta delta [e2Z u13_x u13_y]. cbn [fst snd]. fast_e2. Qed.
Definition u13 : Tw := tof (wP u13_x u13_y) u13_on.
Lemma u13_ny : e2Z u13_y = E2_Neg (e2Z u13_n).
Proof. unfold E2_Neg. cbv beta delta [e2Z u13_y u13_n]. cbn [fst snd A0 A1]. fast_e2. Qed.
Lemma u13_kill : tm 13 u13 = tO.
Proof. apply (small_kill u13_x u13_y u13_n u13_tk); [vm_cast_no_check (eq_refl true) | reflexivity | exact u13_ny]. Qed.
Definition u13_px : Z2 := (0x132fd2a503aad25a2c12cfba968208420e4a749b71dcb48b6515af61a89d5dcdc1daa58556d93de6425b5dc0351589dc, 0xff113772534c26a8378a6bb6158bf58832f3ae67c3859016b02f7c1102f63c37e2822ad624249273048e65941967f4a).
Definition u13_py : Z2 := (0x978b9d0052b314f7bb6728f5cdc90cbf423dc475b438ce7c2641d77d6789e6776977c21998601cabd8107b09df94de6, 0xf0eead2eb956009d867800ae975d1e0d41d978b05c9bbfcfd6e2cb9bb1ae0573acb5f63f7a624c6eb27f0ef18fea21d).
Definition u13_tp : list sstep := [
  sd 0x173d0c04da32d2316962fed7d53e224834ea3331bc500588993f1fe902bf4e37a694c63a224344e4034f009fe1590882 0xf8339f4aaa417aa49706009357510a4a358819b64dea5588fb10d4753780b37e91a3d10d6dde5a227a49d99b43f7052;
  sa 0xbf28bc22ba433f7e80383919d4fd48aad295c39eb8a9cc81db6c1201dc86a093d112efb43e9e465182d6aa489b04f53 0x1482fe3d9eb2ed6ebc325f3f7f428b2b12c3f0a9f3193fc51128acc55fba3d424d43a7b3ad0fd5e011469e33c35ce9cc;
  sd 0x8c79b44e890593a5646984d8ad7a718811bb618d22a77590424303b1fb1a06bb49ea8b9c5de22b0ef4908f223091d00 0xfd83f8b19648549e51362d787bc515a471152f51c0444dd01255a5e81287764f6e0b97e474de2dddc1bc8d3e412aebb;
  sa 0x8fadf51860add7be691a16b9341eccef3528b1ca838724bfaa166dc24da20b03f9ad9af5eef48cd769e870d52ee02f0 0x111cfa150cc3323edbcba69b9d42255a93c72b22d494051a3c7f49a03121beefd5e9556d06d71e593066adbec2fd498a].
Lemma u13_pc : psiP (wP u13_x u13_y) = wP u13_px u13_py.
Proof. unfold wP. cbn [psiP]. apply third2_ext; [unfold psi_u | unfold psi_v]; cbv beta delta [e2Z u13_x u13_y u13_px u13_py]; cbn [fst snd]; fast_e2. Qed.
Lemma u13_psi : tpsi u13 = tm 7 u13.
Proof. apply (small_psi u13_x u13_y u13_px u13_py u13_tp); [vm_cast_no_check (eq_refl true) | reflexivity | exact u13_pc]. Qed.

Definition v13_x : Z2 := (0xcf8145ba956c8c3ef89134bf689bad435e9632916907ba1f1cc6d3a66f36fdbef8d788a2108a72a88e477cfd96de773, 0xfa5d80363bc7c260dc63b0c9c5ba3995a5b27b6cd04238bc31f7c3f8d8235aa899bf24854e31b1c212ac64eafa07180).
Definition v13_y : Z2 := (0x1624ab4fc89d47e1ad13a76cec1ac5c455ae5f28eb7f5335261b313bca9679a3c62058eee47e3cc9274bc3da05f3cfcc, 0x973b1660ee35a340247c83b7bb5daaf5ee2e0ca729ebed3900a3c2d83fd2b50fc0879e4286d2b8b8e2a6f4a2156fcc0).
Definition v13_n : Z2 := (0x3dc669a70e29eb89e0800495730e7130ec8ec5c0805bf8a4115a1652c1a7c80588ba70fccd5c33692b33c25fa0bdadf, 0x108d60842a9c8c6648d3df7ac795d22805946aba80e653ebd726967372b3cad322a3861a88e6d4742bd490b5dea8adeb).
Definition v13_tk : list sstep := [
  sd 0xdcd5240305d7baf08d324eb60b777adffdfc694b7623920f56c6129df93fc784bbaa6a05070db009bacf4f761d0e1eb 0x5a32d127d826c91c7027e34bb934cc8812bb56c3cd094dcbfa34164ab9035d977d6422bd2bbf971fbeb73ed023c38ab;
  sa 0x1278ffcb3dc16defb0d2d8eddac3bc51ee5cf90b5d9c9999e18da5cff21631ca1f1c282209b151c059d9823019104eb4 0x6235181c68511ceeee4b2205a94f1b4395b7fe60643ec4032ad1e856be07febcc646c7a6c9905f832a432d20df7d5bf;
  sd 0x4e45367a6c36c4419c74c24980d3d591bd6f9a55fd5d3a27091f99bce1ed94394b551d05c7bc96ec37e11dc296cc881 0x12ac19514daa835995e1da81f5f9d1cba2ccbeb46a662888b613e50f98139aaf6210fdb6be021dbc2346f9b2f673c975;
  sd 0x9754acdd786ab9f836794925880fdd3ded92d4640d875f82a271e945d888c8c1be76b32d996cf54c5ca7de03c2b567a 0x20d1f10657770cf3e18a8ea297c393007a69abed77b3f170ccb240997f42c04bd53f7c33972dc4ec7f0a5dafaafc4f3].
Lemma v13_on : g2on (wP v13_x v13_y).
Proof. unfold wP, g2on, g2a, g2b. cbn [on_curve]. cbv beta delta [e2Z v13_x v13_y]. cbn [fst snd]. fast_e2. Qed.
Definition v13 : Tw := tof (wP v13_x v13_y) v13_on.
Lemma v13_ny : e2Z v13_y = E2_Neg (e2Z v13_n).
Proof. unfold E2_Neg. cbv beta delta [e2Z v13_y v13_n]. cbn [fst snd A0 A1]. fast_e2. Qed.
Lemma v13_kill : tm 13 v13 = tO.
Proof. apply (small_kill v13_x v13_y v13_n v13_tk); [vm_cast_no_check (eq_refl true) | reflexivity | exact v13_ny]. Qed.
Definition v13_px : Z2 := (0xa763e6f9d1d219830b99ecb5ab35f632a1078b58c8c94b2c95d01e1bb15b7514558c8e2597b161a6face76e8bea8e7f, 0x173d5f9820e82157d0e18f0a4dca4ec16dd284072c91cf54e4709050b922a5c1cfd00cdce25e5b8fd0c2ee22816a2d1b).
Definition v13_py : Z2 := (0x186da343084ae579b454c64874e83c0d62feb08cba84cd5aca3c8098aca0c7d6e12e7aeb2f2fa7108f601dc6a8c016ad, 0x195942da05c513ffa3efb576a9cf295241adc3f8099bc2b85e4b30862abc25096080b4eaa33477b6048f73e813947f0d).
Definition v13_tp : list sstep := [
  sd 0xdcd5240305d7baf08d324eb60b777adffdfc694b7623920f56c6129df93fc784bbaa6a05070db009bacf4f761d0e1eb 0x5a32d127d826c91c7027e34bb934cc8812bb56c3cd094dcbfa34164ab9035d977d6422bd2bbf971fbeb73ed023c38ab;
  sd 0x4abad8b0d63f240a7ffb4027a0c44a3ee7d3276a63a6078ec2144a612823551d3618181b94076bfbe2c8d38b73f6cc9 0x80246f4902a53d27e233eb9f01a4ebb82fca79c97357637309dd20c0504a12548e2a4e99dd0c8636b8bee50bbb9d14;
  sa 0x6d18c16828b9f3902e611ee88064aa78495d4720ac5d0751515eb5f270ca175b10ce5268e6fea84292311ec7ea8c304 0xdb77f940271f5d77c38dd636bf4fd87f578dd454a041208e5b54fda537507bcd1d61f5b2ba000363dcd25fff1bb97c;
  sd 0xbe01991549548ba1fb45f2170be6a5f9720ebc80c723c4e50e86f6686a634462f63134a1e7cb9eb3607f4e70c94e768 0x1773ce6a8b05d08de520cae07acdcebba4a0e64c52967c44e75bd1769e6c800d0cc9ddecde04172abb559b3ff99448a4;
  sa 0x1278ffcb3dc16defb0d2d8eddac3bc51ee5cf90b5d9c9999e18da5cff21631ca1f1c282209b151c059d9823019104eb4 0x6235181c68511ceeee4b2205a94f1b4395b7fe60643ec4032ad1e856be07febcc646c7a6c9905f832a432d20df7d5bf].
Lemma v13_pc : psiP (wP v13_x v13_y) = wP v13_px v13_py.
Proof. unfold wP. cbn [psiP]. apply third2_ext; [unfold psi_u | unfold psi_v]; cbv beta delta [e2Z v13_x v13_y v13_px v13_py]; cbn [fst snd]; fast_e2. Qed.
Lemma v13_psi : tpsi v13 = tm 11 v13.
Proof. apply (small_psi v13_x v13_y v13_px v13_py v13_tp); [vm_cast_no_check (eq_refl true) | reflexivity | exact v13_pc]. Qed.

Definition w2713_x : Z2 := (0xee179345ff775f765953a590c8f3745ecd0ba60010710de6f190322af3dfe1b045246e5d06659cbec34d3a3e94ad785, 0x3fe6d181aad01920fb81d303f5e2b3fbbaab7a1b6596151ef6951e5905537f0734e060cfa03caa38b47456faa438aa6).
Definition w2713_y : Z2 := (0xa7de3202f79ea780016ee3ac4a488bf7fb371283d4905b08f67cb4fb8239bba299d6f0b6a6e15737c69388ef85dc385, 0xca47e4a8919a5f7c7d230e49d8043a2045c46f992bd9267a01d5e6c81a906643e00b5a7b2765451bd37b7d88ce6764d).
Definition w2713_n : Z2 := (0xf832eca0a05fc224b04b97b7ea72417e4c3da5cb63c0d0ed7c907513e8d5a69f50e90f346e5ea8c3d95c77107a1e726, 0xd5c939fb06640a2834976d1a5cb6935601b048b60c78057c71374347507efbfe0ab4a56feddabadfcc748277319345e).
Definition w2713_tk : list sstep := [
  sd 0xd78d4bbfcf0032eb57dbc7681b45264a0c1626cd01961d5a50f7e0c2b47146e255b931564450769041698a28ebf3e02 0x1047de96d735f7d396eb3be1616c67b59404bbe7cb3f71739a3779202a863d5cd72062401690f70ead502613fe0e1ad8;
  sd 0x19e7a11e6e64f38c5860656e42d6e87b1b2475e972335a34be3df85cab15af7de2579791de060dc410a8c614e3434c0d 0x9835be3f2c65b9718de8cdc4242c1c538ce61104c51952143d9213bf9a3a2c81c5b6d4f82c57d3d2ff97433ed11e105;
  sa 0x10a8e59a8102ac62e4d693e9d465282e11d4f9ae1d4f31db4338b342f5d053ef3d9a433db2494f321c042a9afbc8de25 0x1592d40ab452306f94959387a994f71db7275ca8fcf2654b3f2b9741f599a3d35bb9f5be5ca67811640a3d01924c7543;
  sd 0x5fdf451020beacef7fb05b86c5cfd109d33dd6a52f36aac7ef7ecf54133727e31c3d0126f6d32b0c967ca6c6d06e2b 0x10e4bcf287182b33c2dd310ae703b629ac9acf644eb0cf91af73d3aedcc2a27e7050d04fd54ab2dd428f1db8cc148959;
  sd 0x536c93f82956f629bcebac1f22e95087e126c3940e2baa155df6381cd4bed760c4c2d35295bb8395eb966942b56e2b7 0x1074ff572f3f95eca400261cbd7129201225a0c3bab8cb5951dc4e04093f0522f9b9767fdae8c871ec3ba31f74db26d9;
  sa 0xadf1dbc424e1586c13c8c569cdc1bb4f9943e4befd6747a1c170bb6d2e9b688a01558b600cf16c896084a11ebacd270 0x3d5a707c3743541030af58658095b634d5b75dd12b56badb2c864deb123ce4c27b7e0c13e6bcbda4762d55ba93d89c3;
  sd 0x1a4caf28a32cec2d32968ea38cd4b72efcf41dca5c9873cb5c808ba611aafdcef9ca03779a53bea221f2d43d95defeb 0x965b02517e3b1e7a185ca09d4a136e626397f5bdba5c47716cdf2068ebf327ea5bc9d5c66fe181fa9fcdfeb1c8d1232;
  sd 0x1426847365b418e42e87069def31475bc9a100c7b6733233ccd88c7898f0f309bdd94178f4ebc35a36670d103000528a 0x12c1928abaa58b46a6ae18586ec31d3f6b437dbdf9294623140d754ac62080d1ad670e0fdd65d0c4fde8b8800e5afa55;
  sd 0x17cbd273152295934918efb3578d59d22f21b69abc6706cdf1af92c4d60cb4f3192a6c36e0cd2cc3e1495def31f2cb26 0xb67533f9599c4871ee3775d175c03ffc7f03eebbe62a1301acbd1c900a1208a6b672285c417015442e891c6679e9df7;
  sa 0x4dbb78b8f78e23d9920abce235b9a730832ff28364c04530e7f3a269fcdc24f0fa2ab974262640272bfdaff99c9268f 0x18883f65c78488adc80dc31701a4c4c9f5821efa0fe5f6a79744b8ffeb7f29d5892b31003263bd0149ab2072ca5e8bae;
  sd 0x130c7514fe39c48ff446d3eb5717cb62153120cd56d6cc7ac000de7eb4baec25321a39eeed8aa65a6764b97ebba67998 0x1401479a7e66d254f6465fa6b7e2a01b522910b11186f906a085dda53bb30a95dc6766943e718285c39f484673b9af6;
  sa 0x102ee02c3ce6b4af261186fb408692058ffa434294a432de9314e6a3c1181e5e71b969ec46d72d5ff6b19aedc984c81c 0x17797f4b76fff245b003c07dba604c39932f47ae143b14600fb7c783e1921d4024f40d223c9dc7602456bd3ece890a44;
  sd 0x34ffd1f23a9410f9221e07cee07e0fe2a6353b53ca492b15bfeeb7f614b6b70fb5ad97ec41b4b76a8d68ae0120db0df 0x18a340f45e5c8dba071831493dd985cb48440867d77fc090af407fd55f27da015796ea71c81d9d61d54b46ce44fda9c8;
  sd 0x169b56953c9010a81c4a85631d111c64d36d92428cd5acfd2018587da940a65c681c8cf98e9c763d6499a5ab692ff6c6 0x16739feac34c17f4b23f9c09658a9dd58742b240304a98b7ce40e173ea506c73838c526a5e5bd2f73ac5e5a984231ca7;
  sd 0x1252ded0d5b5c49dc07fd0e3dc5592da9bca9076f9c5b798c61552c06383dcd06ddebce402e63392aa929a76e2fdaf02 0xef84eb3c2262ac511825393847368b93240adc6a17d2629f77a84a63186c66c8d94cae4325b4143cf9e9fbf0e070f8c].
Lemma w2713_on : g2on (wP w2713_x w2713_y).
Proof. unfold wP, g2on, g2a, g2b. cbn [on_curve]. cbv beta delta [e2Z w2713_x w2713_y]. cbn [fst snd]. fast_e2. Qed.
Definition w2713 : Tw := tof (wP w2713_x w2713_y) w2713_on.
Lemma w2713_ny : e2Z w2713_y = E2_Neg (e2Z w2713_n).
Proof. unfold E2_Neg. cbv beta delta [e2Z w2713_y w2713_n]. cbn [fst snd A0 A1]. fast_e2. Qed.
Lemma w2713_kill : tm 2713 w2713 = tO.
Proof. apply (small_kill w2713_x w2713_y w2713_n w2713_tk); [vm_cast_no_check (eq_refl true) | reflexivity | exact w2713_ny]. Qed.
Definition w2713_px : Z2 := (0x5816734f25a711109c0c9e215433a41c88d88fa48ce1ab97565b146c1208d7d720cd30483036d675781da061d361cac, 0x802e38d62628b7dff221d7426ee6764891374e05811f8cd812adb5c7a1630a9fa7d59660f6be1497fb720119d8e6150).
Definition w2713_py : Z2 := (0xca42929e95eceee29db180f1296a5eae99cccf975d2b4affd95603b45f03201e787f74d803bfa22ae1ec5032e4380d3, 0x145387b27b1aa87230cb467601a9d48086a87f4acafc61003e0c2011170fe471e12d6c40da943540d5a1762a05e8e25b).
Definition w2713_tp : list sstep := [
  sd 0xd78d4bbfcf0032eb57dbc7681b45264a0c1626cd01961d5a50f7e0c2b47146e255b931564450769041698a28ebf3e02 0x1047de96d735f7d396eb3be1616c67b59404bbe7cb3f71739a3779202a863d5cd72062401690f70ead502613fe0e1ad8;
  sa 0x13163f4af01038df2041199fc84f961882805016d26d89be4c62f305607b79030aaf5d0e2cc2b8c9a0ecfb3d2bd132ca 0x873b32906da21dcc65b7324d54042d7ba83b4a937ccc03e9572027ea1e1ac5e924932b32fcce59b31882922cc6b0136;
  sd 0xb3fbd79e368d952f7cb022df6a5c4acc82c7ce09e10a7c6b2932e34ff180fef7ffc1d438f9043c941dc924fd3760414 0x520df26a44f7f141794324c7acad8cfa9d9c077881ec4f4e9c765fcc5d54a0d641bf95f6a28fcbbdad95affc264fd55;
  sa 0x149a77bb36f1dde1a5ce89b0ef8f2d1d84add1445fbee61260524c1928eee485d9fe5990d948933cb862bdb7075c0c33 0xa6c4d938d61d39380f778687e2c7c750cdb1fe870cf041ee2043608c8eadf108b6e19bc5d38b72fe91987910857284e;
  sd 0x178996b32558f77b5349522285bafda701e8f6067d735c9827f56c4657d27a594ed3e644d7f5b0b2c6d29c805e62922 0x1525a557ac504fae4c0073d13da03ab3578205f12b3219ed98965a5912d931c2510bcaba543aa279d66c65c06d215b23;
  sa 0x6c36c2742bf679a8ff6fa578d3d6dc49709a4382db45fe2ff55e75a732e5a6fd688f33ad116d3f6852f7df29b744c20 0x146c14b37f3454f2cdb8ab3a7e6936d2a4e63f1668a0c32c57ccd82757f1b5917eddecdf0468f3d11b7df4d30e279d2c;
  sd 0x6878a3210e9c9430ed1251d6fa823282231b91aa5377f3d060d01d31aaa8205ec352504b01a4337f497b7787cde3e0e 0x47116c5bd8fb1683824d46a9f2eb5b4d769af4b8857695e3dac6e92fc64b6cbd17bef01fb8e8c8bd09ffedd3d3ef5d3;
  sa 0x16eee46c6a780d33a64ce16e14101172d034ae5f192fdb64231a620ea88abdef00b5e71acd03e60d5d0ca69dc0de56bd 0x14745aacfaa285b01ac6d322247915eca16047484514cb48f7c4482793f0ebe90ed46c451788e000ba1374d2fb253327;
  sd 0x16aa99cfa8f480254813c5e2c1b6053ab29f82b69d395914a07254cd2e6d5714bb84690c23066a711c3cd19fd1d846a6 0x145719b9941bcc22c8790168a0c241d929b86a37aad532b0f93880d955f329ae65b906b2f8c2969450b0a58dee067bf1;
  sa 0xa377892d5ed4f00378fc7f6089c47956e820733da5a649bcb7fa6cd5611e618015560f23c87d44a943bd11172138435 0x137f6ad0dd61ab907edee6a593e05d85cf689022bafa84c2d2f35ab91fe184efd66b2f0881d2ee7627c40ac28b86fe12;
  sd 0x152a0a645b002d804a6ecfbaeb2036f665640da47d06595d16aab1f3466c0c5c0be647f68180a8dd847b3da1c5df2ef4 0x169f69181669157f6ae9036b2c014eb75b07d374b811122ddd8450c9fdf9f8f8b335c79c4650906fe42ec5da4f2494dd;
  sd 0x95e7002b5218ec58b10776bfd2c7c16cc9862680f6ffc3f74cf6555afed4ffe29d92cc2bd42188c5d71aca6f130cdb3 0x18d39a0a866cb3447d2ef88ca5dac4a4ef0362df566c36b3eab40f221a3e6e8ba7f8c6bbfa442cb17f33b1109a420bbe;
  sd 0x195ec33a8de13e7baf514ea64a093aab0defc7434052277acad7b153f82a7cac34b08602e5a4b0f32e0c20f693577542 0xa512a98e6539cd409bd95de1bfabeea593872400e708a67f6335c3001570630aa620e193bb3ac1f5710a64a272ad232;
  sd 0xe87ec710e8a154acc863675bc0961949e6bf5eeae265dea70320cb534a16fb087276565125ac819dc107c6c1b716e5d 0xd4477999bd6ad119a353c27ebf94a7b1dfa7c1ec454cf4df240d1113a6df619614e59809386acb8d10a48a4adb47b2;
  sd 0x15c188c6285796b03dc8d4495b090d049c1e59e55147a42704352a3a914067ba5e5625ab77ccb7c3b83ae2017f5ba68d 0x17fbf7a93bba545b4007e1e7bac546393e268c826afb70a97a2c2cb9d5838379f451ebe1e410aaf5678cee1649ba6226;
  sa 0xf076df14c81fead509b64465d05870994a69a46293868908454c0b8c2043c435305820a43fb658f5edbeb21538d2372 0x1a9390cbe36de6f60839e4b3edc39e8139523693f06b57f35a2542cde8a74f314b588fa2928266c6c0a3b2eb896387d].
Lemma w2713_pc : psiP (wP w2713_x w2713_y) = wP w2713_px w2713_py.
Proof. unfold wP. cbn [psiP]. apply third2_ext; [unfold psi_u | unfold psi_v]; cbv beta delta [e2Z w2713_x w2713_y w2713_px w2713_py]; cbn [fst snd]; fast_e2. Qed.
Lemma w2713_psi : tpsi w2713 = tm 2017 w2713.
Proof. apply (small_psi w2713_x w2713_y w2713_px w2713_py w2713_tp); [vm_cast_no_check (eq_refl true) | reflexivity | exact w2713_pc]. Qed.

Definition w11953_x : Z2 := (0x131c61c18d028c6288a8cdaa6b4b2b492aa06c85da88fd4893aae40ab1be2994e9ec1360fb3e49720752bdf0b644d8ff, 0x18c9647206004bac70be168b636322b20cfaded211833a8fe3859f23a5200bb8d5c4ef9cf2f7bced6aefa748d59ad44a).
Definition w11953_y : Z2 := (0x135451dfc6ffd27bc80f50e596bb4ab114f49f1fb3394bd57e06f817be8ceaa875457d902ec665518a33d9def9aaa6a5, 0x164974c3d58e92ae65f47de620528ecfe8f28c545d9118ba8bbb11202a0dbcbf34913e64c1bf61c0108fc76ceea3e720).
Definition w11953_n : Z2 := (0x6acc00a7280141e830c56d0ac9062264f82ac65404bc6e9e929da8938240b7ba966826e828d9aae2fcb262106550406, 0x3b79d2663f153ebe52729d022f91e077b84bf3095f3fa04db75c180cca33964ea1ac199ef949e3fa96f3893115bc38b).
Definition w11953_tk : list sstep := [
  sd 0xbdedff124fb25f325338e5611580852db403b37238de5bf86ecdb85775f518be8327bb420dface8ea418d256d728b3e 0x1262f99c8111295eba2385dc0e924d447bd8e81060d82082b81304a06d542d5ff7e26324877b80723e2ddb73c26f55b6;
  sd 0xb6e85132ae8ce48c074a27bb905bdf7f0dbb5f10e03c8abffab00efeab1ed7c1e430136d2b3dec1339be46470fa03a1 0x175e77ad6e165e155be446cb0168d9fe73c5d496c108ae441c6eb40e45af30b26efe2b9dadfed2d71b19566c6f03a142;
  sa 0x19e60cee8a76beab785adab55bacf74f7336ff8d9d45f8485b691c57746d35876837840db2a3a5ccb1432a798e2b448 0x10f65730eec69649ec014b388b0fd71de0206323f82d0561f47af8d2a978ca2a514dd56351c3c3ac3f739b3b06b6d9d1;
  sd 0x80ff983915390daede90e506097d2958f8b7ed42b8f8bb7c006e5eeffdd65fd56a6b3754c0119b20ad2bc37f5338187 0x7a2364bfcd6c04c3de891cc876898f8e7276a956473fcd2244d4f658e6bb606657d2358b6d54bdd0731644a96c0c0ac;
  sa 0x63681d956847b67ff675d979fef6649787bb01e44fdf666ae9a4c74e696b658977f1578f3508b295628b05381ea2b2a 0x81caa1bc9409bd5d3dda3756cbc7ba883ad3cb69caa7615da7744d2e17da4994e6d52a32bc2401ba8b2202fa9eca18c;
  sd 0x3c5a97e7e4523aa302d4c88dfe8d7536d61ad7b4253c4632664091096be144253dcd79ccbd0a99dd81f10d8bd442ff2 0xcef7a05d5919626ac7d88bcb073b0b0888141ba535f2df2c769d2b58c2d4e91945138f2839facf0edd0c7eea50ab2f9;
  sa 0xa3aee2ee789edae04c26ca7ccbcad6ae2073a5008e6a553cf6a3aa4fb3ef666c6d35f8a23df4216ad9d0e6e3374ea60 0x862985fe46f581c8b46d31d38fd67cdcdb769fca9dc0af4caff36e0c9ed093b7b1b1e576cc708b01155f56e562e6c28;
  sd 0xea2083a5e1f1aaef2752549f360646de961ea2647c3567cec7002cd878cab07a7dd5e331b9faf71231c5f0d65f77cb6 0x16d00becafd56d4b53cf5090fec47d027cfae419c928fe1220ae798ae8ecbc1fc66731727f6515ed8643ac580853e975;
  sd 0x541fbc0a9ca8375b162cb5f7ac9824d78dba6e1be8525729e13fa9b9da525b426c78e80aeb134138512e686199b308 0xb40aa89bcb2476445b21cb62587f16f2ce46ad7e5113bed039962d4d54a1188b9d70c2e192d00d96d8d57f60cb18050;
  sa 0x163a3a6803efff9c040df4b5fd64a524337b2dc9309886b59289228bd2681197d6dd2f6f07a997eeb4654cd785573f89 0xf4710c0eba40d4a02015a6384bfd7ee61d1228c8a4a208b291d54835a9a5d3d8676c4740fea0a22e91e333f5dc395a1;
  sd 0x37f9407d7cf3458a8ad0e352541440137592c9d9708d909ca4684f02d70aff4c8c6162635464b50d7eebff1b167a2b6 0x167cf5bea31ac2c0b78d4d92e677f7c11c02ef08d8993ecb1bd389207666c6bb579d0d105a574f1b16341936b0176bc3;
  sd 0x4ff4975392879d1bbda4236ad943c4f5505008482babc48128e2b271b7dec6cfff92367d6ca747e866f61b2fb5e39cd 0x477b45ac492772d6aae1a809c02f5f1e727b694f4589e849ee978253a790c97a50caac54fe20b29ce9d8e33cb13f069;
  sa 0x19f36e9a5f5385a824d468a2564d79182122f340ca9b6844b3e0ab24645dfd902415d12602761319fb5875348e634c12 0xde89d55e360577d687f98e4c31898a8fa310d6e747ff210ca54a3707455bd26a4eed89125109bc8dd753f3cda0c1192;
  sd 0x14348edcc58eb508b504a274f80a2a35a751692fbbf2c35a7327ae478fd67eda27a440c3ec396d378145d205f801b489 0x10496c0f91d1e0042f06649bfd618b192cb13e86c0551806b21b1e43dde2a375dd843ad510dd0dfada9cbe26d43d55ef;
  sa 0xb1b0175a3c7db77bc2ca2421181182436727718624526457287bbfbeabdbc0ead9f9aae7e516e4a48adac06fe25c9f4 0x12e6f459292a5a0eb7ddcda2c6f7fc13b38535f87550205c503e04bcff46c27834f07cd6051e0ed4cfc195020db085e9;
  sd 0x903ec06d6c6c5ec0e64ee0918e89ff58e14d162ac0a64b97abca9909f8a405b8b1038ce8e52538b1d0721220ff94bf 0x6f21409006e352d9aeedbcef162b46656917e21e48914b1c1947c371e7981f75b642c8a5617c094fcd49a29b9695433;
  sd 0x451ee48f2ce5c9a3856b36eccec0ff21ef18fbf904b5523d4248259dbe87fb5f81f8ad5f1d1982b630d1a568c144cc6 0x29f09d22cecea6b3936ebe333be839f8d4344bf1674da3b5cecda502b998a98c2c8ed5ecba49085c4c6880a583782be;
  sd 0xb5dd4d784b86551032569aeb2a7c69a5214abed32781c9d8152e81e0fac0f67ec2ad6ddc71ede2e02f1d9abf87183ee 0x148be890bde586b0053c0149de6329cf04461abde88006baf2407d508b19e9703e77ba9109e1b9d2f9b284751054e2c6;
  sd 0xbc7e6e18db04ff717feaab695e1398b9e28e9f994e22503d0656385132c3ce37b1dd6eeffa2d7ba191ea0102bc54be0 0xfb2df7ce8bc1196aed6c2712dfda0fc6e1eface0b6246503efc73f2d2b0f37059bb89ff6755accd7d2fcc35892eadea].
Lemma w11953_on : g2on (wP w11953_x w11953_y).
Proof. unfold wP, g2on, g2a, g2b. cbn [on_curve]. cbv beta delta [e2Z w11953_x w11953_y]. cbn [fst snd]. fast_e2. Qed.
Definition w11953 : Tw := tof (wP w11953_x w11953_y) w11953_on.
Lemma w11953_ny : e2Z w11953_y = E2_Neg (e2Z w11953_n).
Proof. unfold E2_Neg. cbv beta delta [e2Z w11953_y w11953_n]. cbn [fst snd A0 A1]. fast_e2. Qed.
Lemma w11953_kill : tm 11953 w11953 = tO.
Proof. apply (small_kill w11953_x w11953_y w11953_n w11953_tk); [vm_cast_no_check (eq_refl true) | reflexivity | exact w11953_ny]. Qed.
Definition w11953_px : Z2 := (0xc7fa49cc2697c44af51b3ce8c0842c5342ee8b1dd215b49b3c87300d477dce2ebe0ec0b7f67e8cc3f81c20105617499, 0x168336a6fff14456a72463769495439ad66a53516cd48cb8247a98da949979f0ff16feb714e9920276353cc553ac1cc).
Definition w11953_py : Z2 := (0x73e3a70c425e1107f33f2aed17f8a97840d48354a0206a5015910da8bd97050752c8decec0ef8a5b49bdea699a08d86, 0x1797d683b39094c7c63f6679226f12cb765aa7ced39cc47ffa23a8195dc94408452dfa644fff94fc96a0783375f77253).
Definition w11953_tp : list sstep := [
  sd 0xbdedff124fb25f325338e5611580852db403b37238de5bf86ecdb85775f518be8327bb420dface8ea418d256d728b3e 0x1262f99c8111295eba2385dc0e924d447bd8e81060d82082b81304a06d542d5ff7e26324877b80723e2ddb73c26f55b6;
  sa 0x183b7f3c932dfb500dc3c1c1d389c2e7c7de34e4a4a2a6b677b91aa6a689ad888657795b9e1648a61a11badee8392e89 0xc77bfc061a43d6aa66749f43c06ce575401d5ed5b76dfea5fae989be4522704d7df70c4b6b64e69f54453110ea71eb6;
  sd 0x1071cade5a6ef53b6f8da5c2dfa9f1f6d98a1938922740a8276f0d10f1131834103adf6b06770992144f9cede32953cd 0x246134a7504ef3b4d737c4395246baeec34db3d0a17e13e88aa94cd97348f91d33c94c66d4bb216b50f99651c5984cd;
  sa 0x17b0c8c7dd0106f6d025d7bdbee28ec5857de1f9ab8555a7cd00715deb407df1e3fec2b0b7e4ec791068021dc10ca4e0 0x5f5d7d851552dc975b9dc89bfbf0ecaa822dcc1c52aab0e6b68862d5d2279d2db9c8fafc7091d6f45887d6b1c3e3253;
  sd 0x205a22c3fdaebedfde4bdce5b6b34623a314ddf8aa4ca98895d60f5ec5248588572773c604a0adce9a1b7693d106477 0xb9108493a7524d6cb9845476dd5ddfc0646d01dd151fda9e2ebc9d72aab85ef4fe0d9879a1158841e838c54cc196667;
  sd 0x154211940f7d039f6cdc8837eeefaea0ef77c8f7ff5b6aa6afe7ee7b87a6675057c72f21f7c6c5679909235a92fb3674 0x127f6f7ef9b336702e0b5054edcec3e23dc438ca91e5efc982e4fb84a5e2eb9d487906c955bcc1a5bfa2ef344b35a1fd;
  sd 0x153b5236d3aefc771614af60c2c35e9056eedf3c249a4e7f1dfc316c35550bad2262e75e9c9655cdda4778871c1c2715 0x14142fbf402147a9b1b3ac5f44b9085af38eaca3c0a30d31aa2380dddb40fb1ad71d9c50fb2250d1e9552433e089bdf2;
  sd 0xb743cb3999f85f7b9fec364f1d6e3b46d5e1cd20baeaea75a6ad181006c2eb06d849a2a03085e6864a6cac3528e63ca 0xa5178bcb3f67a4d04e649de3a8a6674ac98422ec33a67581d6bbbc6512388f78a1c39a270d4feb1dcbd690934f4ce5f;
  sd 0x11706fbb62316bd3731084b605bcc0176a2ac1d35f7bcd8cd76b03e2dce6a0a49bff381d06e87130df3b4a2829a4b0d7 0x19ca5400f13f174970d9e625ade0261a124ee8d1c067837a3f005a8e1b9b4773b0b18e202332b936c756f6714620aa86;
  sa 0x96bf1ab6851b6346f0d9ac297c9fc6337d578d1b7fc814eb7d7d30b92e22851bfca8671189b1c95249e1859bc29c859 0x19712cb502fe0e5ad5700ac867e059920037379be4b6513f699a4dce0a520127041b7a7257b01d828945f0b410d3a024;
  sd 0x33d71233fce8c20a904781c3d0be0a8156f60d3a35be4f78a9ae562dfbeeeb76d7d2a287e7858190c91cd45ef090c89 0x2a333bb3064ff7a668bc22ce49e834803904921684ac5ee444409309981a3e4eae68a41b2a6e5d32577e0cf0c499a88;
  sd 0x452e2479cbb4880914a44091deedd51f3bd32117e439e0db501e3f1292f85d8fb0206c0b2327546146a728986d18c79 0x58a5b1d7031017ca08df97bc77292d38bc75dcbe712327ed247ccc3746a9b397714a25bb3a59b4ada31bdbeeb360136;
  sa 0x14126a366d1c3b1c0bfc31fe37614b0fb948e1b536878a87685b827a4ba994b55c82fbacae4fa9de166291e6d4bf66b9 0x79a68de1abe693ca4c9c0e08a6571e013cdfb336ec759bc17a3599bdc8a0c499a894ed977ae08c99db364927e11ced5;
  sd 0xa64234b0d4703b870dee39254b2693204670dc21483a932f7071163abb3dad8f7d50d178cac58240ece3faff1b2c9da 0xf7058af232f664953cd739652a648cd94aa2917595fe5166157c52d88ba76caf05209a987f62a33690ba95cff03c8cf;
  sd 0xdf039965f005441a167e199c691450cecff29ad1b30128f8e77ed7b54bbf6bef7db107bcd9bc9cd5e798c8f0b6528dc 0x90575021c120cc6279984be6256755f91c42bcda320669cb029d13263157fe13b4fdf34a6392494292fed0905637ac9;
  sa 0xbe697d0dd3e006ebaa47fa7f33bd4052de08830e53eb3912d15becf551d3dfeefacbaed911ac42a3fb6a61fee6bc846 0x18036dcd407bb62eae8d11a3012963660fc612c0738c727cd300dd29e64dc4888ec0ce1e9ab1502112763cfb999b3fc5].
Lemma w11953_pc : psiP (wP w11953_x w11953_y) = wP w11953_px w11953_py.
Proof. unfold wP. cbn [psiP]. apply third2_ext; [unfold psi_u | unfold psi_v]; cbv beta delta [e2Z w11953_x w11953_y w11953_px w11953_py]; cbn [fst snd]; fast_e2. Qed.
Lemma w11953_psi : tpsi w11953 = tm 3605 w11953.
Proof. apply (small_psi w11953_x w11953_y w11953_px w11953_py w11953_tp); [vm_cast_no_check (eq_refl true) | reflexivity | exact w11953_pc]. Qed.

Definition w262069_x : Z2 := (0x1411897d7e25d488bccb28adc0a40ab64b0a29c723a62454c6c4543b3a9cd1670f666e9c3a2bb8de87cc042279b21bf1, 0xb613c71e679fcba121b03a3f58d8031f6c9962218b90020fe6a88f55b898951ee4bb9c36166b2b74f21c60f2681c5f5).
Definition w262069_y : Z2 := (0xf23d377f8ac010d937688bc679870e54c21b219a31a60c84ae4627ef61d70b73ba9b3f44f92e51a112e5dbec7e60118, 0x75d7981a4e97035b5fcf086a81272d6ffe765941edd2c7843f6d3f8d3b62d66e3d72d6f033de3af8feedba9f9e4b3c7).
Definition w262069_n : Z2 := (0xadd3e7240d3e58cb7a51ef9dbb33bf21855996b506ab1f71c4c70220093856ce3024c0a61c11ae5a8d0a2413819a993, 0x12a3986894967664951eb72f9b393a00648fe5f0d4a7e6472339fea822fac8bd3ad4d28fae161c502a102456061af6e4).
Definition w262069_tk : list sstep := [
  sd 0x41b9b014befdd468f282aaa4d1d1a7528564ff42ea49127d998b716a837caead9a106a06afb62cf0bde61b147bbfaf3 0xcf61bf687c512547ff77c54b9fa3eb0bc2ff4fcd68a90b54ce53601025c65d0fbe3cab17f22e3743a6d256619fb0644;
  sa 0xf5efac7fbcae82f295a1e7bee233ed8f85c78f02865716b2722a18dd29f7d2c122dee6ad2eeb605747c641a838ae6a0 0x1957db457ee36d8099efa6067302de22bd39ae28a461a9f2c4972e2fb9e34ef3dbb2f02da93dab0e636fd4f13fc9131e;
  sd 0x187d40c1676efa68293a717a70dcb4bc972c5a300f9e58d71c9fdf573939d30292d34c217134c587bb334681139433f0 0xd5ca3b070094da0c84f0f6c56cdef3ed5e1e5c68e452479ffba6e7c4f96d753198abff9b5f3f42b70e8fb1d23f0b10e;
  sa 0x88abb8c176beb94c608428163b8f98c6a59989fd94c1db928dc9e55f87079668f17193048f3695d4c4aa50bb2a2cb19 0xff30f625b805085f2444af0d57d148ede619dbee2b429a5250802bb02e40ce784ae86b6fe03e27490ddd466ff7a64f;
  sd 0x1fc620766d86179132aabdd7b069c5315a6a51eb08b82605c7a6d2c92c35b08a85537482ff7e0d9d79a06e9f24483ae 0x1d2575522d00da184aec615a77b8b59b1177fdf360e28938328251b26c6e834e734f4f69291bab918db1ae2204c8da6;
  sa 0x155224969244f5bc4b63234d9e5210c24ba1ddaab81b362a90a3f08731e20d86380cce5cfb953df5db5c2a8073a47dd7 0xc336c20ee33d60d82998953b742abe42b486c918a10d867ea411bcb8397d13ac3c02e71f6a2a9b70d881e43e858caf5;
  sd 0x11a416e6b0c045919568a93f76ec8649ae296783db0f7e86dce47cc96c0071a790a86dea1561fc83bc69cb45472787b4 0x190066a8762556bad7ba4488ab03cae0fa80814e68ed645af4df7040d80b7349cd90ddead820a1301f0ed0e0eec26424;
  sa 0x11095555c7d91d2b823148dbf57da17ec0addea2a635eabc26de705897f66043057467eb1ab7a82f94c3b2e9ee26df86 0x11dd29fcca9443a583f512d56476e52296b9f5ddf2194acd5fb821dacddb870fd1ac8f5e26302c20d877d2fa7f93b680;
  sd 0x8e7cd2045d07964349466c6abad7ace3d60465ccdf263117d69c660388e6ac2654b39648d522e05b2df35a7fa1bb7e2 0x101d3d780b04661f2f903b43a51e51ba163c8ed735a59fd8bf9b2d1b5d04e501bcff8d744946fb166fd0df53b0840eb0;
  sa 0x52d924c66407c501b0639e760f6a17ef1f021bd4b4fa5af1d9d1a92021469cc65637c7a7a285c46ce4d21a7a91084ab 0x671197252e1a60098ff11c33775bd6c73589d17e2161c8d4943f151f8bed37c989cdd1a635222c567a654100eb584e5;
  sd 0x14fb2f762fa48d21895a23ee65d7fbd6b0906ea0011fdfcdd63d8f4e00ce05ee832382519843219696fccf19641c822a 0xdc6083d8b71b3f4a88018a5bf9d5509dfb4a68add104b69c8218cfec4ca24281a2d2b23ff035c553b3f7480e6418c64;
  sa 0x997736ceb031aa53909f8564b701f2368a8424aaee41ec81b4d37866a3245e8b69d021cb1a848c94ba8c41533ad8732 0x1943d3b12dbd4d18491d36afb3d9df51858d24ae506ac029297aea190e72e5e4e702cc3cbf7f39eb0e43cac0e3873310;
  sd 0x74ce72e268c1f44338639e61735d8e00a236fd6b8a207f92f127aee9355bb85ebf03657ab9c968c697156672338800c 0x45ab675e1806c9bcc848ddf273b223196d2a18b54aa7e7857182b50e83b01b3784cde5457fb80af59c03818a87ab194;
  sa 0x15031f737481c5ce727abc9ad9a354f636f22cb96dfe6b9eab529fc121f6b915ce067347a227999110dd06a294f87dcb 0x95864bf74efb033fa825c14711f94c94687acfe03d1ca3b654b3897d5be48d0edebdaf72cb0ff299b71c112eb01c715;
  sd 0xb7f723b1bc112caa50b381595037ec1c9bcfa0db72ff14c170899e2ea818cfb7c16ab233b0ef25298b40d4fd5d8b1ad 0xd6d76a2e3147f00a50aeda5233d97036f5f35e28685f758b0fc4482e402ec5277e686a2bb77254811b3057f81e1984;
  sa 0x974093c4bac74c71c00a111c9d4ea636e36d4fe14ad89005f3158e0d97f94e2ef4d7a7caccab18f7f0eae46a829398 0x5965ba43b70c2d0b08464898b69aa74905257cb6fe4c484e24ceeb76288ac06683e0326b3c5030c1677cd31c4d8d528;
  sd 0x1098573025ed76e2e37b7fdcbc1921dbc7ab02751877cbfb7b82df9c2ed5791291eb42219d84b4e20bf8db843adfd6d0 0x1e97719f58fb3a6f94ebd41075c39ec74e5c73e98362c1a7f7dad5d02120ca969386e40cc758030e652b5d37bc9b6d5;
  sa 0xada5c9261f04aebacc43b9a78037481a7e4ca3a0a5bc89975d315cb585a7ef66a893c8f460d0deb590269ac63d62fc3 0xc79bd5140a0f39c93df3bf04352ce9b3c66ad8fb39dda8b57e94b3c6bfcd2ba08969584bc243721f2b23b648c8ae6da;
  sd 0x3afccf1f661ef0a5225b81a28d6084519ccfea0e235436b870beb1f68319c5b4c31c33d3835f6f02df1b540e3b9500 0x6afbda843c1b795a00051102022cdebade3a8755a6eda1eb91fd2b24eae95044508b89bce1376465b0e75c1cc2bb99f;
  sa 0x848685011a4e019c5cf2bfd644eb5aa571e82cd9124b4f87b958fb6a350995613d20922cf42c6c23d861ba86399342a 0x135b6bf56da654dea45b66f4526ce6bb2c2961458e1159f45867cf3b12ab1bb5e43f2dea32bafe0c33a5563dc85c03c;
  sd 0x3126649ae1e014b3c6b44e97720c1d719b897c4967dcdd1470dc80f57c7f721a0d72a64a983e5fc68ac74b2ccfa5b8d 0x13e6443ba887e06661d0f290d087d55195bf7ed5deb1151e665a447c38e70c12a4adb40fb3e2514970b946981b4ac712;
  sd 0x1026614aaeeba34a2eeca780f81ed97240a06f3bca2f8668af345e1c5a2a72e00be2d6f3a345c4778234f33d47b223fc 0x140ee1fb002c4c80f2a07660dcfbdedf817df6e3eb06fd82b9e94b6041423c2588ca612d73fbc8cda9c9b4e823db4d50;
  sa 0x97333c86f5b758b819cefb468533c642d60891c064f72b4da83d3709690ed71cbe9c28abade803f3f2113b902857882 0x18370df4c9fb159e015424ff34e60cfd81b658f8b83aedf15160de511588fda1b9d9362f8d15b5d82e1a33da4860c9df;
  sd 0x11bbb025365c8e1a91285fcddf2f8e6eb89334408a1c4650c3423ffc793e82c8463f54cf9e4c9de76de1fdba3bf59de7 0x135d013d8b2e862d249b2815232902f420e8a78db9af9136a07f12ae2b2d3eb92507faa29a9951642ddc95e9b2757936;
  sa 0x15f90afc16548220deda0618382c834d2ee3f595dc474b5825f95b695230a6cb89890aead09613c96f64528581f29839 0x138435ec73f4155760eb2718d2db3df549e3ba0b79e78d049768c4c1ecb1c4498af94b51a696c26481a51f6d8cebea13;
  sd 0x10dbcf2746c25cec15e8fffdaf15bc7de248f43b6c08fd5cbf549770c06cc2db4cedddefa5e5465d2c17c23b8136ee25 0x56fd95c349f48d81775363db5e7a3aff60b73aa981710784df1412f7fe629c79dcf3c75f987250e8b50a58fda203721;
  sd 0x97897a2853dc77da42b49855f2cc3a6b71af13e3646ee76ccbb9ad3d954e24f38636c7734232d29c2b717d4c42acc0d 0xa0436407dce201f7a6c8b5e7189b343b9f56ab24111146a50972cec797ff2e1f16b6d58d7fe6ce6f74a5ba4457a5cc6;
  sa 0x6c62ba75f49d196374e8e455b577e304ebd359bc8344369d4898c8daa60d48dd69785ed57b33f657abb44a28cd995e8 0x78bc905fab4a30b22aee2e71ae20427a6c2e5f3fd33bb2ce862576aa46c1ea3d90f8c7a8c5c264bc0cd7db0df891f0a;
  sd 0x5fad4ed7d99f8f92d4744d83052a3cd1cd7d6cd47028cfb3f7aa6590539983369f7884484d3fe3d0ff4d668bc114795 0x99c1b865bc79a4a90efdf10d7b3a347816c220091e5ef7a22a0507e899d5e7e92d548a8cc7aff1acf4e355c9869086a;
  sd 0xf2609369361d41b74ae9ebe79d897cc6d26b26adb58f55f0172cff0f3d27772c23e3424513ccbe69666144ba895adc3 0xac6c2fb63f00c63a170ab26a7db03f8d5f2e46a4349578527d4d5d02f7b526631ff57271a03bea94b7e36661cd5339e].
Lemma w262069_on : g2on (wP w262069_x w262069_y).
Proof. unfold wP, g2on, g2a, g2b. cbn [on_curve]. cbv beta delta [e2Z w262069_x w262069_y]. cbn [fst snd]. fast_e2. Qed.
Definition w262069 : Tw := tof (wP w262069_x w262069_y) w262069_on.
Lemma w262069_ny : e2Z w262069_y = E2_Neg (e2Z w262069_n).
Proof. unfold E2_Neg. cbv beta delta [e2Z w262069_y w262069_n]. cbn [fst snd A0 A1]. fast_e2. Qed.
Lemma w262069_kill : tm 262069 w262069 = tO.
Proof. apply (small_kill w262069_x w262069_y w262069_n w262069_tk); [vm_cast_no_check (eq_refl true) | reflexivity | exact w262069_ny]. Qed.
Definition w262069_px : Z2 := (0x1e59165139ca2543a9d5634ef723efc1b59d83eb88e5823658b96bb9a93d3dae5ed25f17180fdf0227952f52c0ef7d9, 0xe4cb461a5b7ec7f74ce58d580b81899f73a6c4612cec73bff8c2c0d40175cc322cd7c17e08fda6e67104877ede5bb9b).
Definition w262069_py : Z2 := (0x173e7e2b59a278c34767ff7bce3c31df91e1c8b84fb2815d4c46a38f6122bea6604db48b544595da05072f5472e49887, 0x14fb7c251df84dd618b55fcb965eb63d94b826e02c4d1c0ab4fd2cc9906a6b70db85a4f2668a1a09154bc21d5a04c40b).
Definition w262069_tp : list sstep := [
  sd 0x41b9b014befdd468f282aaa4d1d1a7528564ff42ea49127d998b716a837caead9a106a06afb62cf0bde61b147bbfaf3 0xcf61bf687c512547ff77c54b9fa3eb0bc2ff4fcd68a90b54ce53601025c65d0fbe3cab17f22e3743a6d256619fb0644;
  sd 0x2e94002ffeacccb0ea995aef58d8ea5ec850207257876c6b0a5f8d12879ed622290cd29f38434bc60b87ff912173283 0xb3f312cf1f71be5de3e270f09043047de5c104f76a473b27240af0bb229482afedb23c4db876222e6a28b42b370dce6;
  sa 0x145d7a9aed5a056e2f9d7c9e066b0fb5e8a3dfe53662986feb69bfa621af886bdde8283b630ebb7552b9b998f56dbaa 0xa96539c99286cec4ee07e1b447ca0145c92208f6af52e995a1ce4afca8c9dbb6abb981f109406280b86e7bb2a95cfe0;
  sd 0xafb235f3492f8047f1fb0db14c5752fa92b5c3c895f4ebef5ab2a9a1534924e9cabfab4c14c69b2d6ba8102a55a5a04 0x10e0b1ffd4ecb6dbab37ba4e127c2aaa98509a91fd77a9198e7093664facdf4c8cd630b6a950f869437f41348b3f8da9;
  sd 0x14cda13206379546b76f61049ff073b2d408a68d486fd99363d055d139393fa25215fa36c85ecc15f77ef31642f90376 0x1312eb3c93a710cac9e357fa9e1e62583373d3d6c887865d23f5f41ab146ba062055d89cf27b4f9456b5b383b858e06b;
  sa 0x19252ac5e06ac8ecc81dd59cb70506f95d6ee21cb08e2af921e06b895d47d5b8702596469d6f5d022321bf629c9c7643 0xdefc6659b6ee21e455fa5b4faf5d47bc420b5a217ab3ed0b930c1d478d3fab25823144b0ab8389e845425feac83e9b0;
  sd 0xa9883460408efca100ec52e6f61d87bf5c9990a2f6a1264587188b606fa69020b88e708b0dc13e50f88b59b8fcc1c08 0x10b86ca5cf4e1db7526dbd68db13937d971d0b33798db0594ce89a3a7709f8448c628c5df49cf889ea217bbd3711bf2d;
  sa 0xc7f11012587776fc981c8eda8bfaab80b0ae970bbd867c34f9a525cf01ca76e5df8c5edbd1b5c3d5a99dafa71e7eb1 0x102bbe0423dbba2a58b38720957eb4ad86097191650346eb8d036e111e56af473d7c6832f8b0c96ae3f77b41d2cea723;
  sd 0xa48522f8613789147d1e1b9c50c1de12963bb32b75b1651eaddc863b1b74f76f4f2ba5abbd187c4e4e91f46e6563366 0xddff27788d3848e11e6bd212c060f4483ef600eeffa7af6a06a21d789db33450d84587ea8aa1184ac1611d12b8b033a;
  sd 0x120cbee4063854124b80cced611da89cdc321bf113da3d36d157f9e09d956b58e9919c0570d55b090e5ff37c123a233c 0x16bbc71d737134df8e076dab0cfbc53dddc3dcb43a29fd271b768507ec0fc1778c2403541cbf0e4c94c9ca58cd73ae5f;
  sd 0x3b7f2bbef394ab78521068a44cf85eeafbe2bdb57b0b3dbf7964d3a3357cf269fc56fdd6e4df74d27e2914d074a3f33 0x6cc310fb2b17d9cd0963a9e0569841fcff069140f2946ab891834f418d1d75e6200b06e3920b40ba823401cc8791740;
  sd 0xe4e72c747610a874bd48ef60ce4fa4d2d36c4cc8a0857876b8b5a054312b9c27abfd211caaeb8a0ff309bd8b0a33d8e 0x189945f93946a1abf8d56bc37df05154c532069a7426a342fee6ea3ed6a9235b413b955110aca44bd6ed3360133ec1d5;
  sd 0x68f9b8847e55e3bf807def14e52ff987da240501ff2b59cd3d6db4de9a0ac1a4f992d5fb9668e72cc507df14674ac81 0x1072c3dc89be5672a1298f43885be5f70009281bcfa60792ce47dd5094567b643d3a808879d4ba40f6673261cd2b4846;
  sd 0x13c1666ed345747465f8a30108241d9f699770d41de83a008c032d6e6bc8bd7794b7b9db74b4bc538ace0f673c499afe 0x13a2f39e9f90cadcf1d95261f1efdaa58bada853e00d4d825c95211062fca2cf8ca8a93450955f0157e704ec5497c8d9;
  sd 0x1864e6be4c4a224bbb5565a610918a5a939fec0eb57bddb29540fc53316e182547c7b3acfae93f62b4f94a066945a2e3 0x1431f2cfcf11c39ffa58ac08d3eb3c7a251c63ed7edb7b89e770b5bace5e7f768c246dd3cafcfc24597d3389044b1d2;
  sd 0x312e3c906e566eae0657d0925c3db48602b9f8dc55e72945bb2f857f8329d3706ae403c434419a3d06b36e478d460fd 0x9073231542609103c8c1572155cc9ba532745a21d7713e4ad8c339582fbe39d8372ebfa93dbfe728dab01c572ad1308;
  sd 0xcaa161a50824f3e9ad4a3f08e69b05d9c1f9b29e231ceb07a98dcc7c0e9e4fc2ed1942968ef9d243348b5a80c32f1b7 0xe1589d137ee2c7a18672e5baa9a426c8d337c4fbb0e7a26451e5e37ba028391f934930a27c8f801bc66ba714fdbd846;
  sd 0xf7ed7ee86476c2b14a8e30b2c34e570301bbf65555cb62958cc6517278e24aa4a5724efc54a13c8f9142b16508660cc 0x6bc83a1a7942b0cdf89bbc7754e4a49ce7ad5636c30051ab54dc675158a626ee28bdd05e3a45d4bddf71ed46f38b1af;
  sa 0x2656608c48f9911ce931fc4a60a0320baab3776e2613f03f86f2f7610c94f55e6fe894fc72a564995085b4d005769fe 0xe690f9feae0d7338f6e1efdd990389002dafd31d0934b8638b4e66cafda44ee6f4e72f1fc1be0ddef5bb87acc91c733;
  sd 0x6f9887ffb9e229e05206a6ccb737fa8855d739132431a528ef93a765811a88420c3242a535afec9a23cec561d831526 0x41fa74eec6dad0d719a31a6f4eebdf499090f347dfb8c0edf4c9a36afcb737e977b850324c48dd84b5f06a0d1d1b506].
Lemma w262069_pc : psiP (wP w262069_x w262069_y) = wP w262069_px w262069_py.
Proof. unfold wP. cbn [psiP]. apply third2_ext; [unfold psi_u | unfold psi_v]; cbv beta delta [e2Z w262069_x w262069_y w262069_px w262069_py]; cbn [fst snd]; fast_e2. Qed.
Lemma w262069_psi : tpsi w262069 = tm 88066 w262069.
Proof. apply (small_psi w262069_x w262069_y w262069_px w262069_py w262069_tp); [vm_cast_no_check (eq_refl true) | reflexivity | exact w262069_pc]. Qed.

Definition a23_x : Z2 := (0x70c018ab1a7930bd96e669ac021cbdbb56d938fb0cc39b4bb90a5c0b78125bdd9815c121481d483aa149b75fdb6e992, 0x8f087e1d214fe3beb893456c3d525f01273abac1c1691b76651a257e9e005b7574e43af3bfdd4760e4fcc63c070f143).
Definition a23_y : Z2 := (0x8aab8474957dda9dd2b7d15fd8350101d95935efc79fcdebb02acdfdb475461921c365f63d84a80c75329bdd3733d01, 0x1613b9d7ad87a79bc360e9f74abf78539051a5898b4318c75cc7e2edeb5c815ceb19524be1ba82e8c350feae061cca24).
Definition a23_n : Z2 := (0x115659a2f02808f06df02aa045c85cc746e1b825f70b15e0ac2e25c11b69a1c28c8fc99f4d7bb57ef2abd6422c8c6daa, 0x3ed58128bf83efe87babdbef88c3483d425a5fb6841f9f80a68efb30b5474c73392adb2cf997d16f6ae0151f9e2e087).
Definition a23_tk : list sstep := [
  sd 0x12c37b2007d50affc52848f7e43b351fb4d6ba6f0a82cccb2b38950a52322a144a5bf6bd2d11579855a88b5574d35633 0x6e84bb510e8c1a134bdf80b468565caa892e75d3227dd3556f3fc2537a3e7b26ba84e2b1f213dcec643a082395cc57f;
  sd 0x3e47840e7d886f863246d4f83ab827174aff9d66a5aba92f41b4aa0b743df9b948fea57a541b7766b367badce369ee9 0xda4959f823f1de3080e64f751ee49a8096b68e03c5f378e1eb413bfcbbb2062212af615c8c63da883d76acaf32fe6f0;
  sa 0xd139ed154c258499b8a8222dc490ac6fbba5fc5f52f0003e823adcfe94b3b221e4c0cc9189c7f0d0a607ad3daace731 0x156cef4d445e4418d082e6f6d4258e00a93ad5ae25b6de60ce706c92384ccac6cdbc5e9354a19623d7f00a693b0aefcf;
  sd 0x10b274f10541e3e2c8abb5a87a4c6bde55780f1ab25ff564133f1109b32567286a34ae2f096616be14f1ac74b4b2b492 0x5dd8cb97e90c9d2ee09c1369ca8292a5560bf1c42dcd49922dee57014bde29da0b83ca40ac18905ec820a6790f8275c;
  sa 0x15071c68b5df24d94d1767fe5342e2a5a8d5b1f64e0feab2dc129c367c9a2cd3681c4ff8e1a86eade3a741237f06e800 0xa96f6131c49650b3030b82f000cb040c742c6c7c567e1d684b341c1ccc9ce3671b3bda87748108612c377f6146ba6e7;
  sd 0x1f36c5bbc17a065f728d1416449b4ac031ada75a742977053b171b0cf5d0b24588c296e091a2e36f8b76e9f99d15743 0x12b5d762f8843a80d0c57d2424c6d21c5a9b8fbbae330eef0d9f1e74254c7d9f7e0b9f727426c87477f2f70b2dc7d57b].
Lemma a23_on : g2on (wP a23_x a23_y).
Proof. unfold wP, g2on, g2a, g2b. cbn [on_curve]. cbv beta delta [e2Z a23_x a23_y]. cbn [fst snd]. fast_e2. Qed.
Definition a23 : Tw := tof (wP a23_x a23_y) a23_on.
Lemma a23_ny : e2Z a23_y = E2_Neg (e2Z a23_n).
Proof. unfold E2_Neg. cbv beta delta [e2Z a23_y a23_n]. cbn [fst snd A0 A1]. fast_e2. Qed.
Lemma a23_kill : tm 23 a23 = tO.
Proof. apply (small_kill a23_x a23_y a23_n a23_tk); [vm_cast_no_check (eq_refl true) | reflexivity | exact a23_ny]. Qed.
Definition a23_px : Z2 := (0x194394d228666a88b894d7612b4db91026b9b18788e7aeccc068fed2edc936f8eae29807ed040898864589f2da9d5be7, 0x17413584e1d1867737fd1bc655bd984d9b3d33ee6171e5a8f7d870ef524d7e9065e18a430ef6984977a8156389d02e35).
Definition a23_py : Z2 := (0x13b19c4a02438fca4d68aca5297402991e3c69724489384682b1800f378d9bd21e06fd80b9c94afbd4c98c870e57868c, 0x363b18a61a5d5bd4d9bd82354e7345f4f71007fc7e74a8a8c28bb3f63766056632dc7aebe66b88aa14636823201e191).
Definition a23_qx : Z2 := (0x103533fa3029f36b5e8eb52b959bcc71e5cfa05eb0a5abf43c47cb2e9acc58d28c602e30fa74c3c5cd9379ed8c1944a3, 0x10530cf056516c4ccd0ba30a67789320144605db6cd11d155a175c7b03e9314193945458b106342277f5bd8f1a2c6aa4).
Definition a23_qy : Z2 := (0x115659a2f02808f06df02aa045c85cc746e1b825f70b15e0ac2e25c11b69a1c28c8fc99f4d7bb57ef2abd6422c8c6daa, 0x3ed58128bf83efe87babdbef88c3483d425a5fb6841f9f80a68efb30b5474c73392adb2cf997d16f6ae0151f9e2e087).
Definition a23_sx : Z2 := (0x596635a130e26860f90f52ce31a73c247832e7896a4b8f8b837ece20f90bfcdac968a693adf8b919813d59e77067fd6, 0x8f9f3b393225bb4b0b6377c0288cf5f7fe74f14659c6907c8f011be24a14cba010f55afb044164a27c553435ced0032).
Definition a23_sy : Z2 := (0x1486d4fa687008dcb79d81ead769c940dda15d78f3fb2d79a2a9a772654e3141ca1ab9356f5f67296f4663b6f62deca3, 0xf875938c3e67369901381e19b62b76f5b8cc4094122d02d69d71bb2f37b68125107cc2d7ec395e6ba0835c4fe95de81).
Definition a23_l : Z2 := (0x3e4cff770b29e197408b191f992aa894a48cd54f76d605c59ff8a0eeb980729e7cbe601c46382dcd63f606bee73dc99, 0x18e4a8667741d7abc6848c48b66f2ad40514e377b43a694b923a29a244c6d31b1cfa52cc4f5d66f25050b01f902f6808).
Lemma a23_pc : psiP (wP a23_x a23_y) = wP a23_px a23_py.
Proof. unfold wP. cbn [psiP]. apply third2_ext; [unfold psi_u | unfold psi_v]; cbv beta delta [e2Z a23_x a23_y a23_px a23_py]; cbn [fst snd]; fast_e2. Qed.
Lemma b23_pc : psiP (wP a23_px a23_py) = wP a23_qx a23_qy.
Proof. unfold wP. cbn [psiP]. apply third2_ext; [unfold psi_u | unfold psi_v]; cbv beta delta [e2Z a23_px a23_py a23_qx a23_qy]; cbn [fst snd]; fast_e2. Qed.
Definition a23_t16 : list sstep := [
  sd 0x892db5147505cbe058f17a2329f974dcc870276491c7c36e51c6f0467b23b2199090c076c29c700de55e5ecae43b488 0x46c9b71f87b6b059b0eff0f94c9b5d375b3fc7aac437bc75c3dd8feeb20773b08ec8f4722cc97845da8e3e0e53a57e8;
  sd 0xf08cd855f42c598b7c6564b7ed72dc4e6c7dab764b83f192ebb1e309112796bb10356b8c72dcbb2899a9040d3790f96 0x61633006fd77a299376f423eec75481cf096a8f18f5bb0afcf911ca7e1d353e18b6c9abfbb45be825fea05c0c4281f6;
  sd 0x13980caab9796a6d8b11a56e9197252a2e3c1f270c5df358d96e07a83e683af611d08a3e6b48003283eb1848e026b374 0xa71dfc3ec57dbec00127b42c7d734ddd67c6cea0a6096617d2abb34c375fbeaa197a2a8ce817cecc7835c7ff6df9e4b;
  sd 0xc019642e07442923698a6f5522b74214fadd5c1612916357d6bc0893f61bdb4e29ff90836e6305b56319ecddda38ee5 0x48ae96862cc58cc90e25d637efef56831fd0401b3efe014a6edbbb4a5ad047fee74f3af0ac1ca954ebb52ef169c6fef].
Lemma b23_on : g2on (wP a23_px a23_py).
Proof. unfold wP, g2on, g2a, g2b. cbn [on_curve]. cbv beta delta [e2Z a23_px a23_py]. cbn [fst snd]. fast_e2. Qed.
Lemma c23_on : g2on (wP a23_qx a23_qy).
Proof. unfold wP, g2on, g2a, g2b. cbn [on_curve]. cbv beta delta [e2Z a23_qx a23_qy]. cbn [fst snd]. fast_e2. Qed.
Lemma s23_on : g2on (wP a23_sx a23_sy).
Proof. unfold wP, g2on, g2a, g2b. cbn [on_curve]. cbv beta delta [e2Z a23_sx a23_sy]. cbn [fst snd]. fast_e2. Qed.
Lemma a23_add : g2add (wP a23_qx a23_qy) (wP a23_x a23_y) (wP a23_sx a23_sy).
Proof. apply (wadd a23_l); cbv beta delta [e2Z a23_l a23_x a23_y a23_qx a23_qy a23_sx a23_sy]; cbn [fst snd]; fast_e2. Qed.
Lemma a23_psi : tadd (tpsi (tpsi a23)) a23 = tm 16 (tpsi a23).
Proof.
  assert (E1 : tpsi a23 = tof _ b23_on) by (apply tv_inj; exact a23_pc).
  assert (E2 : tpsi (tof _ b23_on) = tof _ c23_on) by (apply tv_inj; exact b23_pc).
  rewrite E1, E2. rewrite (small_mul a23_px a23_py a23_sx a23_sy a23_t16 16 b23_on s23_on); [|vm_cast_no_check (eq_refl true) | reflexivity].
  apply tv_inj. symmetry. apply tadd_fun. exact a23_add.
Qed.

Definition tB_x : Z2 := (0xa2f4ab756b79316cd6f05d982d21d74b413228624c7ccc2115553895a38b398fb155bd06cffd919e3ec2bda7cd89410, 0x111d6512f6f9bf091dac6ad0a800f9965c4e546e4702ab857257ac45d37b4669eb486b2e4d793a8a57338c7ce506cc0a).
Definition tB_y : Z2 := (0x1f4a3d288caad8f028f0e0ddda27179e95c337bc5847c59063d8fadbfb7d07266190545143ce2f9e95d46f707915593, 0x20fab5c868060408cc4329341a672096ef1a875b90be8987d3943e90bf5a967f4840097f4a72f5389c3bd56a46119a9).
Definition tC_x : Z2 := (0x394ab8f9937a591cb8570d6f70a6cd91cc68052df3855165801e9f0b4c1b1758a33a2f777241307e880b8bc73f49207, 0x188ef4c0f274592fe3fe52d98273f7178565f46c08db5ad6fd1566e60aa04e2ae74fee3dd8c15c0024af08b8a77cf3b0).
Definition tC_y : Z2 := (0xbbd3f6c3ec008517c2a74651d9dd9d35fea93ad1d50f93b560bea7cf168f021f0fa17f83b686d44e7aaf9c4a75a356c, 0x105ddf229215331497b0eb139e1e7e0e6064748b190dda05a2b566ca74fd06fbedd6bc3af4f5af6823840b096b291ba4).
Definition tD_x : Z2 := (0x7feb8282c39423bff57dca31d58c5dd06f688bfe55a2abca14bf8909f759ce1503d28e31c13741565bab17a95126414, 0x846f26370f99430bdc8d03aa193580a3dc5b74590192706b27d9aca2a497371155b2a443fb01ceb351a1d7289459866).
Definition tD_y : Z2 := (0xb91c5f34c40ca089d78ad4b5ced4db02d5e19ca19b7282e4e39284c77fad272c47a77c03505e2ddc9b3886979b60eea, 0xd1ec371c3f1622c28880a3e5cc318c7e5085f816b42d514bed5ed5d4c1db2016e978be6b1a4b431068bae449e4750cc).
Definition tN_y : Z2 := (0x12267f214dff9776d556751a956c91699fa9bc20e92da7d3b8dd0d0c477a2f330cf0b339964eb4f87ec31599140f9ef7, 0x143139e0fa576eba6e0b1cc07bb67af942077e389c612b0a4e6604dba870279a8be0bcc2c24315a4ec55fb81678b080a).
Definition tU_l : Z2 := (0x7d53dce95564fe8b82425c7b966d79f151cad895423a81777972378a962a92c86771b3ca1a6b6a575c7e7927a301629, 0x10d621dc19954e79e1940d8b82a6c165176d79263cb87d8ac60b2ec324a6d1964b58e9db899b537d1a29303d3c0b20e6).
Definition tU_x : Z2 := (0xc4c6afad6aec756fbe1bbdca28466cbef3e8c04b494174de880d81a7eb1458b1ac7bf8c57c440c2871ce87f840a0d72, 0x16364b92638c3098ff05d00c2bededcb9811e51fbdc86699dcaa478e8436074573bf301d6c71d652b6098bff49382bf2).
Definition tU_y : Z2 := (0x19687bf50a2213b655b56c5e51755af8715c4c9be4c94c3efaf4355b02aa61ae3048a2f461cb75e653e0fa053e93cf41, 0x10f97dfcc9777eb1ba0cfba894126840ae676838531cd754fa024f0108d527c475146a8af142170d20221cb6a971ac3e).
Definition tV_l : Z2 := (0x7ddf46b88e31f4f0e0fb06acfecb1d4f10d5a7531382befe0979230d880ce54d44fd6b1285af6f7287151a0c503055e, 0xf8416e2b34514e22aed268d0e3d6498cd66727acbc1b54b6d9af5e50d92296ebc72399694021b1f2f2fb2b519c039cd).
Definition tV_x : Z2 := (0x1230e1ebaed94291422ef11874cb1a58214f77cef2e3b5b67551c301279149e1c6b213f0d145647722239110d335f99b, 0x3470d5598904305b4830e3953c8e643a14696bf5b2a4c0b71e0937a888e085f7a6bdff196c6c9aa37bcb45d33552cc1).
Definition tV_y : Z2 := (0x1168094cf52a8666293f6a294f8819f995aae2d243c49a0bf5ebafbad62f3d7e68305e3301d665c606a78c6754fa977e, 0xcdb49f2d3e6cb92402874fb3f904a2cf066a3681161b041a7bed264c663b5f7dd4ca78d7a731092ec8c710512ed000c).
Definition tE_x : Z2 := (0x1360074497f0b10accb6f70bf8b64dab0d3b0507eefb74c4c559437d1438af2efce2df7b7abc17bb0611264ee7b9bb5e, 0x198e07cd13ffa4acc65435193bc96d75493b312593e47167ba24e4b9596954f4536bfaed2d5a320def861b18503041b6).
Definition tE_y : Z2 := (0xe6f4bf6ed3f1c91ada2fa6ae65e5f27371931bad9cdea9118f7aa547eb623b15a31883e7c4e1d21f04b779686499bc1, 0xce24e78758e846e22939d77e688940f7f6eec0388423daaa85ae543aa934422b0147417ffaf4bceb37351bb61b859df).
Definition tB_t : list sstep := [
  sd 0xe3cb54e4375c341bfa62f75af351735536f23654fd676af114f485623f91c32c0393b97375ec6b42acc1b966089115 0x1224893e3bec5de3900c049f865151fb34bfc1ad0d7bb12e3ef401361a0b0c8ce74c9bfcd9f5cfc19b1d1a23fb906ffd;
  sa 0xfe1d0934a3467ae2aad10e7866668ee486170b4b9b4b60de660bbf1c033bf792371c847b7f7db1076726d83985bbc1d 0x12b60155f025a1f780b61836f6d3000cfbcbcb98c117194d3eab27d9d68f1ba7e15baf32eba48e0b565c7caa95b3b7ad;
  sd 0x147d86d8f6d7cf9725e14282d4600bd41bb1b18b4440c1504ac79a96aa986be801929778428f05b0ff57e394438c2c5f 0x79ae45d5b737c7ad44651c38ec218470d5969e6a201ebc98f29178d5c9b6d4172dc403db76379cfd7f1f7d7de8333cc;
  sd 0x67e0224bab202fad42e06d91a12a2dd1114514f367c87458764fc0325d8636b062c0ad50f44b98d87fd1dd15e1e3751 0x242e6a42388cb04e85a4e52115575142011f02206b8fa0d8c6091825d2a475aee986f368e52ef24c367a1c37fdde634;
  sa 0x1711abaccb366dbddfcc46985959ffc71ee7a6ee55ba9d5919df29c53e1196aace850825b29890f02d194b2db52e5075 0xe0fdc43905f452ee503ddfb37ef6789b3239c5ffc4d2bc8b734d280158fd383316461af948c692e1acfdceade6a027d;
  sd 0xf747d4894320f60774a5ff00cd2db518b3256a3888f67e641be514df0f90b6e99a17d9da382a341034b2a7228dffed7 0x759b48ce27147890dd69afbe7334727ca381ae578f6ec2e410996d8d05c8f4f9f218cbf4723ee24dcebd4af135ad8e;
  sd 0x230018b48ff6644586d8bf4f5bac9f0d718237ac6a514802859229853f99d176c3223b7af6b75b4412bb46d6f393528 0x5e0610171d3e028e9e319778ea4231df588338727bebb61776cb7360e554018ab0792ad3bdbcef1250378e27e72ba59;
  sd 0x428b80dc2285679c0286c738c4acec67938091401aefad96861b70334a0fcb02e57987627c8354d4b1efa1ba25981df 0x153c18387cc4da4cccb92e7c237497ea710fc0a5ec2a9c9c20fd60b6d8fe3553edc534983b1b05dc9c46aa1b8183e378;
  sa 0x811d69073afbeb3fad5ab47bdbfc95ee9f95be67115b5a2f2e3058f76f3af82ba325c9e1c8feb410e9e575c796fe080 0xfa8e96872950354666308ad0863e59a332b80b2acf0dd64db2d9372e51a0bf20a8a4cb319c0bd048a1a67c11953ead3;
  sd 0x82390cd91f032716f6c4d3697e6244bc04280439f8567d1aa9afce06d06c7cd1868178995e627745c76887643cad4d9 0xc954a1534078b3123ffb84c735fd1d446e7723a7343bc905b5a758bd40823485faadd5b64856679a7b9cb0962be36d2;
  sd 0x2f6de80ca8cc901f437fc9171392ccdeb9106ddd8df9a4051f455075c67c8f2eb4e00148571f729c6bf63595001477d 0x18c5c904a1e19b27322e61ebb311ca604c2f4733ddc92172ed8e12749bef518b8c0e51fa5db14993798ff9575bff48b7;
  sd 0x1501c8d6f4918f4986dcae8ca57ebd1a2e4f8f1c24a2063976f624da8d838dbdc278fb16e84f11bf6143ff754b6c408 0x14410067c015baf976e2841452fa63be683dbbb3d40061c575fcbcd001d521c590421d65754530274f1c28c113ea0a54;
  sd 0xa828f4d31a1a2a805183af3fe674d2ec07d05908a0ac8b7b34dd6621d1fb27855fe0a2e36e524f6369d71b4a220c93e 0x136aca412c4e18324e3d93541405c24944d19f51020393f3b27e4e6695e8a02c8917d26097c6450cd526362c441a42dc;
  sd 0xc51761974c14e942815fe4ab0fe4b69cad5b070cb9101dcd284e3d38af4a68aa1fd623cb9b39a5642f5885a4f3adbf1 0x117e43b3f85c01b2aa75fca006a9de6a83ed0b226ad6115c8d6e9f763027ee46319fb44972fe531e32f24afdb7b00fd2;
  sd 0x17692b6ea290c4ebad23fffcf51463642c017032f5247587e04335b1ded8b47b324e897bced98fee42fd6b38c2f6402f 0x110ffc10fbdf54506101eca20f404db1616d24c91cde8fa6b23db99b7458066197794f651ec56cfa1e09e46afcdd031c;
  sd 0x90040012aac943ee20e58ad84353d4f36a5d51885c85306ca5a19faa73e8464cc037ab5e9c05dfbe1db7db390532b31 0x18e149ccb68e370a5a86323da12929f237affeb1d4ded3ed79d6d39510fa69f617bf7a568a0d9eef633f6b50afb92700;
  sd 0x748b539ba5aea78ee472b675f3ebfe6bd74d1b87b7ecf967c5986fbada3faa20b92857bfcaa6634662a929449b8f8e8 0xe40da2f28bdfbe48e79cb2662f855b0fbbc19e6dbd983c34bde26db12734bfc334f400286272b42db86d0422a01cb72;
  sd 0xed3c70e157361324d4736e7b2fa2d87795cebe35b692aa6afc0a806f12431b1fea58d4d9dfca0f3be7186f68656274 0x33fd9e7f133a75353bbdce3742756e9fb4d3b8ab7a3dc878b9673bc62e630a7f53cb20e2d6f9de4bb7e8bdda59aa281;
  sa 0x5856d412ad754f53bc04a1df71e97fbf909f2089808aa01e006b972019534c9904bb3fab7892165ec7e937be18c39df 0x2973a4c9ee37245e253eeff528aa7fd6a09e4b1404a553f9f12599f12a0f6b6253135bb0734c627b618508cbe6f3666;
  sd 0xe1ba3684b7f8cda23d7d2954229f9dccf2832cfc8e64d25bb1a42a842214f5b5d633c671d6fd009f5501476d710711 0x1594aac5765d98f46a8e211781bb463b89acc97b0eb83e1ed5c3fc4ccdbdbe3743577748e40a6cea5d4719157157eae0;
  sd 0x4ccfdd6319fe7b633f2d69a8894bae70a54be2d972ac0d95f6c39c4c13b2af93f2ac894cda3f16e1e57d18974bbdcf9 0x380ce34defdb84870555700aadcd2232c221eedbd84da17c549ff891b736dc550d659a544f41d040d44b0bf3e663e81;
  sd 0x62e97a196df4301eea2ba233d5920e831e2e30ca98eb8ffeeeda80eb40939f3b92f7fcd749c7bbbc8e39d0fe625d18e 0x14bcf78ce866dc29a40ebb7f507d6ea039d85d2921bde37bda6593624ccba309c462e19a04a603824ed6f19a2dd798c0;
  sd 0x8850ba5b0ad883048bbd8dfdbcba8cd675bd874ce520976cc4dcbbf8c10cdfc9809c81a154af7a5d658d09944900fe2 0x3012a6907c0b8542d30d1c5f998d7d9a1d85070a2f5bc80b9fc2bba3a188efd06b9baa3226a2cdb9c9fcfb70a8cf052;
  sd 0x2d302783605eede2b10e626d7564f897417acff0b41b04cfaac8f258add8a50de77a69d31817bbff0b0286c52eb8b9a 0x39394e0ee74094868a4ec781d84c28b9da11ce4f94b68a6f925726e1d168c87672c1d41504c13c797051e3463552d0c;
  sd 0x6f8d4496db4b3cf753f29755c1026d7c0c93414c0cbb5ebbae1749aa7dde05b3e4f5a0a693ad09bfe7fe7a13fd3c2fe 0x14ceed921cc698a3fa9f24ff8107bbeb7a06a33bf60bb04807ed07f4cc5fdda0e025035ebf3499cee928440cf772f2a1;
  sd 0x2d640b00641e80adaf4fbf6fd3bdf1d2516d48219c0b5c89bf99255f4450ac9405957dd0197416b5c71294788d9a341 0xf2b337f0ba526dcfc45b0c205da0f7d5e98e15d5f01e8ac07d5861fe1c84e7790eb4de675714107c72a7fea12815aa8;
  sd 0x9245f72ce2ee4f7d7c38a367a3352da14c22196d500ae8755f3504422ecb5149161dddf6f12402c1973ec618b84ef6c 0x8bda965712e5b09452febe451ac78d338094d8cf1deeb5976f164a8d33995117adec188a3a5f3c52b979a346f51f82d;
  sd 0x17414d97b6bc418ebb27bdcdd89743d5fc47d9deca2344aa8e8f644d72421c36ef92d4d4956750fd6e644d2f49d55af8 0xe2b5b5c51fbfa827c63d804a1ca2d55d441a0046475181fe801408d2d5a0729247f75f4cd4c57cea9db90ef99f8e89d;
  sd 0xba537a2e5060763bf07a7045cd1ee8ee2063bb3c1144706d82d106e680a84618d4c0114393a4c48889691c7ae69191d 0x10fdbe87199098be3d13f4639adbbfcc7eef0a0dea412c480b1e3e12f74c19a1abdc89d31e49f8ccda1671284a618df6;
  sd 0x18ed2a9794a7c12c3ea689ee46b7d56f13857ba5dd434482f44f46fb793e512451c3b05ee263e41998a92bc0df653c61 0xc67c475c73e8c524e3c4c5882f8b8f740d8c415fae3565a0ab22ad2bb5b49c5cdee9e76d18027bfdeab952befab290e;
  sd 0xdabd6fa6a8c42dbe8b675ca406bf69901dbcdd800ca86edee06e0288d58a714f5a36b31a1bb42061ea16e4c0c239f30 0xce4736a96b58bc82bbb1a4a4cd679b48402bc3beeb7470d5115266f723ff1adad18937363ff93080cc12a0cd1b6be80;
  sd 0xd30a9217010095215916045f9b08c51a173afdcf52b3967112ff3bdf6b0f4b9f01615242d2d83b563eae8b16eb59d4c 0x155c20c70581c9dd06d23d038aea6d8ae993fcc894ad69c30de9296ae12e1e9d8a4125c9e2b56f22507be790d002ea11;
  sd 0x13be2cecfb2250036a5a916ec4a218bda5f96a3be6334805cb7dcdfd20429612e4386b0e56f1e41f3dc3d90c870a2110 0x82ce3b6c764d6faaecd661d583694c583fbb0203037043d6eacaca7d12d44ee4394f22f1cb5d9b8a93b30de9333cb7d;
  sd 0x168db60fb3c3aa1c11b64fe9cfbc74a0e623ce49879e3d362b33033ecbbb3dc467ab5d3262c3d1fbca0a35a291ea3dd 0x8f39c7d532867ea25dc7c898fba62397a2ee281a9d035e3c193298a6941a43a7a9f0d3d6d38946ac297e9747351b0da;
  sd 0x18a9bfbdb1571a19a47eef6da5cb0fc04fef87eea5209860c0045a92fbb7dd6b98c3fde38c80baaac28f0d666fe5d8e5 0x183a6dca1ac38cf47a4b4398c4778c262b1c6299dae2e2d2c5a84c1e2b04bbf920704ab9d0934968a8afda80634cccbb;
  sd 0xd967725d82cd83593d35cab502c8adacbaa42d858777a4ae8e88f90fd79c2ea7a7d715454774c146ec89e4c8653da29 0xd7f8a97382c1eb595c98e94c12c438c4c46020e09e68b2f82252cc05eeed0a8a487498faa16be9296e839747ac53c79;
  sd 0x5e0c461b0842033c511137b7b2f92116ccfa7108650fec6abc13ec9d8c850731a6b044bb428ed590978aede328719f8 0x12806d1779deb4195e437f9e50e728d68f5a7309689a9ec31c86b56e03e1ee694400b3f523f49c36a77827b1d186cca6;
  sd 0x374fb4b3bc6a51d6ff53240c19294f9409a9609225aafcc6befd1fe922e5d700c8a2d7a7d15831447c377f3dd54bce 0x13e1a4a0214e215882ff0594f2704925feb59990338c8f9b0e569334392eb2f2cb1384e03555a5b813a044d01c0c9229;
  sd 0x17dc41238731806c46a792b569d8de90e4ce040a5011597d57288d6dee53dcff81cbc5d058e89099a8f0ab5fca5320d8 0xda3de2dff850d41a3b4a8f896975f503c429c985cf7ad9f0bef5e9cfcb4263a36499d443cdebc8c9db8675d433c4d80;
  sd 0x739b049f94d0d7c752e62e8527622f888fc67f2bcda1cad84418f0b9fa64c91275c92ee0b8a34ce1a5047dbfd0bdf87 0x80ed77bacf95aee6087dfeba96f9300a454e78670cc915bc96ce9cdb12b35dc07b9293041c64bcd66e3dae22b64240f;
  sd 0x10e57895998e169e5c3bbce8c87e22aaf0f8e1a0280b6bee15e1f4950c05265c7899cae1fbf6a9cf8f15c7d2f5a3f99d 0xa6cdbc88bb0ed8798c0f9c277377983bccad492e063b737df06270ddc678142e2df5004d4d7cb3f25805c2c41f27a9;
  sd 0x1bfda6471055a97d5793a533d0e1102bbecfb052141bf3903ef37cbe3405d304d0e49feb96df4ceb10da78220e92cf 0x12139540e2e1e34798588547b4cb7e55d58f275e81a788c13cab977b0c9d4708c51d92a4c529d220497345358d6c5b7;
  sd 0x948134f36bbaaaedb35004971dcb39f2981482881cfbfb9c0d119487363f3bf8ebc828c47268bcd6f6a21ee2bab1e08 0xfd7cc3066b1d9729cf41ece226487762474238099bb5b27af3e0263563708cb93b3dbcd7bc3ba55c16740432b1fc188;
  sd 0x17954877f3433ab94baedd0716dfb23e79eebed61047c7fb314c3d1c4fac44c4eed7bdbab464685c781dca644c415043 0x23a21ee02f54a5a8e5b13e1a79a9c965a4661efb87d9ebe4ba9fc467979148b6da00e48e58d90f8c9a942d12b999c90;
  sd 0x1301144a664660f3542daf7d287f46a653bdb645d2e384142b5e54bfda9be067c6183eea20973f51553e3973ce9029f3 0x87dabaa8050fa695342de7f0ccc6765f02c6cbcea3968d6bbc9a1ed3c2d1656c890a48ad5d44e1d9e299d4f3c426f16;
  sd 0x14d6936a435eb9aceed04f70240a1268dfca479837eb96d46e77c5f558c7f95368d50f70d04f45abd9d45e4ece334b0a 0x3a6c2baa3023a0f503072b81669b229fbce320a0dd86881e796be1269dd9cb3a551d7e777dcf8b559aa40e142d9e094;
  sd 0xb53f4c29b8edf88bcc2ca7a8325a7b4eb0d539a24faeb2c68c2ac2d317e88d78f3a475de3e005a4445ea77fd61d4c2b 0x6ea8bd18df12e19f50ea3f2c98b69c6762e570acac7b4613c23aa5f350d5e77388b69f06f055503b66bbde87993ad5f;
  sd 0x1611b0272c20ef796faf6fa0465febb6491dc68606737f211807862c42aeec0f4b31c1ffd3a2267bdb5f5570fcc08608 0xa44ae3f1e839fb56ad56655a28e876db885e3ea81fb73e81d7b874ad979681d0bc3156f0ad9c6bb8a252a84d5bdd7c;
  sd 0x37269a37516cd8d2738a4abd4f6933395e73beb75ce8fbfbc7da1e2290eb3b1ed411346723cf1fe4dc80b77cbce08c8 0x18064193bd5c63f7ae841febf0cf6103b1a4f4327be19077c3fe782bfea46c251b4425136acaea10b7ba38331eacbead;
  sd 0x167dad0292eaeb8b7bfbf7f594dfdae918d273ec9d064f8b69264bfe400137089275e516ce692de03b2d1d05b252a9bc 0x204c363bc6116bc66d5779464257656f12fb7a53fe69a7181eb2a5a60d65e5f8ece1e49085bab2733c6df56148430ce;
  sd 0x15582dcfef632a6e453bb142a3263c3ef20a0c658ea62e0543de15274e08b0a95c9310aae879e5ea2f8feab0a27c2f29 0x825311e623473c5e8d95025bcb4cb3fe2deff189bfa7b3281989e3d874ad388e4ac64a677598f4461123aa6c2c26625;
  sa 0x12e9aa3e08dcaf4c00bd5de78fac7e18859a8fabe8ba0f5f4a3fdf20fbba6e4df349ab7ddfb6e8448bbb2f34394110b 0x197dad7baf5b5648e67207b3149a738a83d88c5f59bb389b56debd3016b612a663ad218546ef122ee918c24875a12c23;
  sd 0x14ef058063797b6c4ca2dd1e05bcefeb32daf1e5a1c87b9ea228f92552075ae8d9f724a45dc0a6bfccf9e670e1c436cb 0x19187ffb49180dc8fb12724cf8e50ca67a958efdf340f657a1421926783aca1416b8b93807919a291660426df8384fb8;
  sd 0xad450882d8256ff79f08a7be9cb459b8770bf7c21f975cf9746c92fd7a98e4b5b567eca6073d8c4362197f86c1fe732 0x38c25bff107b4c5c5e453690a088f2492f1da5ed9c12cedcfbe6ae0745ee2a722d81c5d36b2c581b0ed4a56adb7d47a;
  sd 0x155b1a7fa190d2b67a481f2c1fd8e7cb6e1c2fe68d1587af4708fba44e417c81cf1c9070b62958d816a07e52b02ef5a5 0x12e52d526ea57b592bef6253634e7687f64cd167c303a5150485eb49b4a0671344c6d61a4e9a45c6806e796704511051;
  sd 0x6c9e22ba801a37b86bd1b1e1673b92b9e758f248984c7f049393466de192b700dc5ad0b3857538335f88fad8f27a418 0xcfc56a0551d16186d8cc685ed59aa2e96487477db634aa7653d92a9de59d5d0f2cd76d447f89c829c57fd61e4dc8ec0;
  sd 0x7b966aadf58d75520244954468ede5ee5ebeb16952e3d260217771c6b8b4b7baac736188bc106ac2a9eb94828454048 0x16d3f88ce622c0ce19d4f5377e538ecfe01d2ea3aa084216b09bee092dfafe64806f391227a663a504bf39e27d098a7c;
  sd 0xa8ab7756d9aff3357369ed2f087144c387f63de56cb22a3b0c380660eb1772bde343ce2cdc0e1fa5d2003576109b9d 0xdf63f7e87d536e5309ca27d9369d261f4cc28504519f33500c9cadad387bbc90ebb7eb2fc8cad098a6f86f9cb45aaf;
  sd 0x19bcc53b28951cb50499fe2fa446ed47fa5c7f66656c8bc74667b7900dab5745fd8fe07fc4851f6cb1529568a95eb4f3 0xa3036a523ae510312210fca13829afa6aefdf474c0a7bafd5991727e78ca5ba0e488f0e7572cabc27c71e262b205ee2;
  sd 0x87a3b9b6dc7aec04cc860c15d6a555cde83adb07b493f9ca355081a88a213adfc9c1df0b677c9a98c9a18ff2f2e3d50 0x11f69d9ed29dac5ba5fc7bb44360afd72c62f73b90219238878b8d77e56790832ed1abcd11fd191e7bed8f8bd4a51c8;
  sd 0x10d112d975bfbfb00d977ed8b70fef33aeafabbabf855ffe4290d5ca88b9b727d06ebcb32c4973878c54062bb6bb4157 0x135de7c5271f8ae9206229fc81e4ac6ccd60a76103970d4a4275391695ad6f7f61263df1d45284d2928719e16f707af5;
  sd 0x1367827ab41bc04a5108d5eef12d667706913b7bde334a5d267effc501a99e5505d08c1e1d5ac3161636ca4e97d2ebaa 0xbbe486187ed930fe8884802363f77985e2ee49531ba2b45bda04b286ed7bb99c9830740cf27deab81bfa76806aa3f6c;
  sd 0x9173f11ae951cff91380d0653186553a3eab9295ebfe16597f5486792179e763903cae9fb8985ba39a1782c7cfe965b 0xea0292f4d7169d3067fbbe320fbff1dab11339bfcafe3a2ebd800d9b342d206d6b1f0d069bb3803a66e4cd33d3f796e;
  sd 0x12012afcecf2101a85b8012246d8f4c524f0a750a82c871ffea5202c0228c474efb77190742b4034f932667deefd4936 0x1449eea4543191161ed87574f557730cd5480fb5ccd1014b08b28120fff6902d5b1f162b3e9552a904a3183c8cff73d3;
  sd 0x148065d7af32c38e586b4ac50f701770a028af5cdaa7f35a4225fbeb8b8d43d4d3eb7f46df53baced786df25fbbed9f8 0x1054f05b932104049d5f1f4973874c9a929619a46e520de6a43c16fdbc09a0091ce127360cc51fc9de155dfe31fc70fc;
  sd 0x14f8dd1afb7540505f94efa6d7bb584fdd543ef8412a26946eade040c3a53db43b2be32d04884db9c9687333c014c43c 0x4b2533a9dff2b72846570929d89ca37b7a591e634984dab244b03444257fa55d845ba6f3d6639ac3033d194b5926deb;
  sd 0xe52ca7df7d3bb78e84931b0f4f7f8c8ea1431ef021a6f8c47f83980134746ef540cb969abf28fc5ffc2b8936b0392b7 0x65a8fe3ec8b2fdf2d4eedd7439cd028c6198da38c5ac510f836898793646fbe1bc1cc4aee39beba25c93b5263bf1b;
  sd 0xb2f3be841a800d0362970993ea58f74aacb771ed6d660757650f5181a0199e94bd6abcba55a776510c699a632738106 0x15ccae15b425b715c2692e3086767a118fe8eb55e9ab3e2bab4e4ad864ec1239a4d8914ebdf03709ae2d50834daff036;
  sa 0x1166911f9bbfd84cc32c18fcb9879670643a9816ec0f9eeaf9ab7e1e3baf80bf0873b7613bc1655287ab7e366f910708 0xb2dfd60d3a6ac613fc56a7522fb56317fee98085e8df45f444a921b68ea7a955dd2dbe751d8d275ce353d0c74deaf7a].
Definition tC_t : list sstep := [
  sd 0xe5b90bc7544398741521e4d59b566439bb24e7e5ad6f38d6b46532b716871f37b420750ea8ad12ccdb100c02f783835 0x129520f9c4ea25e5f957baeb74c7fc0237d64af8c8be576d36f78a7e52287306222ae83db5aeb75614f15a886478de2e;
  sa 0x109b59fd6a0653c5956b2216e6da99600ea7d1903236d66106c6de4e9151c4c7556e5eaa1f83973ec4195d451f4d3294 0xff4cbb4c9647d62069f6a0ab7d2107249d4f762e00a2e7257b1a85a078e785e7342ace74b7cb866ebfc9713fddcc3c5;
  sd 0x69427463098d244cf34a0b1edb4178101f647ba5aadbdd2d8e369846c62664a5b4006caf83bbd35ae534dd575549e28 0x266ea7ca4e4b4f73b6598e3b5a1e9fad27936db626082e3eb56b7d9af9b406dd6e3b020c87d815a18353d1302522f54;
  sd 0xdfa248936c74555e262b7d538af6165c7b9afce925896d91497d0c9e8fd6c9e34c294d556dde7cdc2504498911345ce 0x521ee6afa900a0c5f12e63250f38b8808d0ed3378f11249931cd218fbc9980815a22c8510dc6b75d1174df350376b87;
  sa 0x11e94396a33eb3786c98ce130af396ea7752d8f1f38e9738e42ef19f086c93097740bfccad9c765567812ab0d175c8ef 0x182ff5e6a7dab2b4d7fa97451d5d382c79ab023f8c69345611fd2b6eec636cb7fde1b5dbe1892529fb4c8496bd260bee;
  sd 0x140a5a70d8b04f8b17e131ad1e1da2e6ca755ca7aff9ce734b7c8ea3b72f01595f0b9b07d4166c4653425a1d01030917 0x151f1efca08b15681f764a5af3059466770f36c7cad1442e521a208544e6de792b849d9f2a5aed32229b9cc5749c4148;
  sd 0x148d1b138dd4b6bce5f4f499aa68f2023a5890a57ed07b61f6ed5e10e18eb65dc85c6591c547b9a22931274aeef5b68 0x18e228ad7bf88280cf6f9e716c1e9885da4b73200b9682f1a8e43ee6cfa7bd81e9f6f9f3604f0e432efca591a6429e53;
  sd 0x187bebc3190941bb8957c5d66525145648fcc80664bdbb9604a2f59ca35679759e51c67164a2e2352598c897c49caebc 0x91c703075ede31cd2efeaad671616c5004b4036df99406ff2e67787db4821781333d5f568ff1d1974b942d431373d96;
  sa 0x42b29c2f258892745ee109d1dce17d31fc995ed10f703deffb2850a79d6dd6c216215c0a9aba898a483499d320b784 0xaa44c768d3a6be60317db3114db394f79f0c3a7f6442473d5b7f5dd174df8e154b9877eb616cbf0f1e2df23a16af529;
  sd 0x720b876fa1a7677c77a51beee343a7d3ef1e513996976ad10736c1228fbb52230df6533b30b1486dd56a04f8cc78fcb 0x12a409eb8c0e839a2e113c3f43470ebd1f8bb31e7e65ab0f0c289d4b624892d82f7e1c2b280efd995b234ff5b87f0e1b;
  sd 0x32be6ababb70f7c642c0364b24b35b9f91a2700ef1efb23058c9b441fee67deff3c1c038606475ab5d600e0a28739f5 0x7f1a52748bb894ecfbbd997d9c713d841660df39719228166f2c8984583fd1968031e32ec2e7595664ce89577ce6446;
  sd 0x155df590221f7b93b966b5fc1d3c84306e4a46e3a702f73eda90440e1e31b8be9aed4792ce6d88dafc7223c1792ecef1 0xfcc8110d67f8e2c582e853b0655bd4711db04c73e068f3ac2530886cbb97eaa7d8f19c982461eb0d00acacb0b1ead59;
  sd 0xeb6214fad46dc7166eb766d11f8b75bd0541e1e24087b31aed4cb72b121f630064379fba7e285c495601eef9fd0365 0xbd4aed085cfdff36288872995a6aa4592f8011222a17de7ff468cc2349064b48bde82d9854a0b665aa2c58f98b132bc;
  sd 0x146d23aef7fc360ce3db947970bc46632f6fb16ab504b861001488fc75c17fe21bffad0cb366728f348669e1582356ec 0x59220a0fb05cbcb770b8fce139e3495bdc16401c65c1d588c53e48042f61ad25ff657522164f0400ffbe7eb0bb7d4fa;
  sd 0x134d55aac0ac69d092146608c0e70706e9c5c166f302b5cb6d9ed43a2dc5ade919cad1fedd79195453936110be606c6d 0x131f2e44fa053a12a0bea29cd72249824dea641410b4a5699db99e77c0155ee69d43ee8d8aa0b69205476c4be252a35b;
  sd 0x12fccbeb6f85deb6edc925251fd5ee873d9a96355ab79e5b51e2225930e61c73dc85bfca2f1b1fc362ac3a8765637585 0x85f26ed2da5603a2955949a4a47d23bd34845e09f14414c0c3347cc930c867c22c446e177d8305e511135efb12dbc30;
  sd 0x130a96cfff7fe4a3e5ad9745851c5b82d3118e46f2ef24ab2b0b76a52632778985f80566581cb397248b3db791aa5c24 0xc5265154e596249966a7dd36c9739ed9d1883ecf08db877b0bdc4b9e82d5b6130ea271e8a14604a2ffa66fec886803e;
  sd 0x277409f4084b20205c4d098dc9cdfbeb0ed44d5a8efb6b4cc463b31b1bb713207d1c0800c7188cf4f8a818689f6b4c4 0x15057be3680d83240c367403a854fbc754f065049b95597a58a5b9d9279f2b57bc622ff10c8fbb537f66371842e629e;
  sa 0x994b039ddb592549d5f7d7ee804185d13cee5401a28cb6880c43561bf4d48e202f81ebf90665f678f424709e8deb7d7 0x52ad855ef9e88f16cf81ef19f11ee37eb065d6f08d4eb4f6658f3cd909a5d4fcfc303a028ac06cc4f747feb037eafc9;
  sd 0x2f4065db46bd841bf0eafaa2f3eb1fd237b72b15a651fdcc56f9cfbf865c76d97f10b4c46567e9d7ebf2d2c3eb6057f 0x925559a659223ff3d79d0513e2122cd1976a97478ef4dce9462c109f78f51a3490b13b820c5b16814967c391d1421b5;
  sd 0x149456fe06559f18fed819fada3d1e8b206ca640517673246dfba81e6a131e577c33a7c6a6e850a35d33a0c854504be5 0x170c3b30b2b462f8135f933d8552ef3a226b43287ecfe2ef4101e4779e8e937a1fb1267ca598ef7fb9ed9f2a2312c61;
  sd 0x22d74d85315b86d014b1c6fedf1c65d292beff8105dfc5408f1e956a06cbcdcfd50da5322b8224115b1b0cd3b697 0x13af87e00f6d8565f4ae77a49dbeacd7771fc9c0e0dc7bf4d18a83d170b43d2d15187bd8d3a7058f6bf253d01575619f;
  sd 0x3c0aca1459f499539c36348e15349ce879615bd55d665e8c9e9b08ba0891f97964f2bad29ec73c11dd0f53c97589a02 0x19b78edb899b550634a2576f1b9e64a0061425529e4a044e8f21b7721f17cfec772af1a9a2b5885c702de064d651c24a;
  sd 0x12cfcef9423d3553dc5279acaf724d905efaa14d82cc43d3438b0fa7988b1d5169a82c564afe6708e61f59b7937fe461 0x159193f88173a3212041ddb513f7afcf52bab84febf9de95e3f5c71fb010d00c4343007b53d74546b39b0641f7440d63;
  sd 0x16efa54d825c5d4e177d8dc973307cc6834f076b75cabf7e37529a9b8c91a885b67cf4d39be301eebe4b5048499dbeaf 0x21d8ed00869eb43fcb59d867ab3f76d3ab198349980a04f86089b10679405559a42c8969780b721aed3d85ca5477068;
  sd 0xd7d0589c6aa6d5cb696469d999b6e711d9a4a2b52f9e270462a904663d08b52ae3c43b20b6fffcee8c938c70c6efdf4 0x1668162c911e7909d79f75281217b064b0fc5f02fa7542107a1035988268eafa3fc95e7074dd9749076e780ef7b1cc0c;
  sd 0x172986a7ce6cd6b77e6a22dc07266aa5180e98bf663b1a24e7b8561ea0b73ee945af8681733d80fcf18db7dbf6c98e9a 0x1858c01d52801859db8c44a15b26c7f1d1872cdd351a318a4bf1d59d457ea5caedd4a7c6f4b3d46f01d86e798bb3e0cd;
  sd 0x4c16c15755fb647d95acbf1b15d9fa486900cef527aab3a3471ff5cc0f62071030883561b2dfe16f0c81ca7250af318 0x12bf37e4836f3e219e3437d01126a98b0e808b16532f9f67fd2f65b20541b6f260fbb88c4f70f42e201879ac5488e45d;
  sd 0xde2e7be972b425155ec10faca27c0b14647045b5fc950133d4727aa802cd9a273ba7e18d168170cfcf59bfce536bceb 0x20230a8c303fe3eeeb5ce57112805e5ff49fd49a9adfb14d48abb7625e286d8815ee15ff5ab1d58a7537639ba5a4221;
  sd 0xa6c135e9b4abbf89e4b55d3160fa1d164363dec1b691af45de6cdc340e4113b726dccd8ea95bdfa836956a25e4bb5eb 0x94d83e4e3efd59fffad95d4c5ecbc10cccbde3e176b677ace7ed217f4970c53f0daf74a6f16ad53ab96f7bad78592cb;
  sd 0xdf89953d7031834bc0b62ff030939d667a2a1cfcc0dbd33db11f76b4d54768e5d9ca2254fd5cc5628a9a9427fec1b13 0xbd26e220e014ca90db5d05072430b136a94228fe637e3562f01567c9272f23727b72f7428ac625e082e93b026fab248;
  sd 0x187c95571901e6b28680e00c9dba49f70c5893f71f4b73040a9bf5d02f34384596566d751fb8d0185b7503b9eefc0e42 0xa6a67c09afb02543018be09905e81754862023094abbc80050a896b1cb53b2f0b51b94932ac46c3cc7e6dd19eb79242;
  sd 0xff5936997c2e2723dbe0a9eab652a573dc33920cf538957566418ff70620f0a3ac091e3809a5aa5ed48f844813f8a17 0x187c789eef8d1acb91ca8af80277d5aeac5ebcbe0da648d94eb585b9810977e3c2f32e26afe1c13546c71840ab9a544;
  sd 0x13ae4289b9dc18917783a64589a6450aa082643cb7333e49de4fe67d4297e7e4887a9e72fbe0f1ac3192109474eabf61 0x5eefc9a52d148684c68e38f98436910fd2c78fd0e8255378152dfc0574346946304129b60e7d53a9b6c733efd2b48e7;
  sd 0xccc0f4daef886a8ea56b9fe7108dc4a066f1b6f47979c06b814302d92003e615103e0a79f36708afac7829e7e12d761 0x10e01322d587f2f71e54aa9ef99e97aa4c3f52a0c1b96298f57cbd211a6983e8ff830d26924d4a313821c14eb1cb359e;
  sd 0x14690c13f85b0c84f42fe1d78b01b0833828a34fda7cb073d6e0d6e8e9b7d1bc7728925e555e3e0a01d74a52496d7ccd 0x7caa2e132a5729d03abdbd8373c29d041454f46dd8582d519f99ec05935a5832c1d875ac7adbdb6db793be4cdd3b2f0;
  sd 0x6d05715fd9347fa8ac85798e3c515cee3563093dd5deb647461539800c3dcd72afd8669ad8033cc6aa21cf921e27239 0x19ea4d30ddf0c616c7306b6ee45f70aa7d640e6bccb584715e3a6fc9897a3e292f5bad7e015c4f4ffc8fb775daab8343;
  sd 0x4d897fea4d7f429f22e5f565be266e87668044f8f6a9775c69306b11a93dcfd003bdeed126fd6a148a9ff836a508e9d 0x41375dc90f54a4e76bebe89a8d4adf320980879e6f37deccbf5fc06435d96ef9c48f35173554d448fada413fc62c902;
  sd 0x117d1678ff99f17c833e2bc1a40be24ed3b796892421e0f85b7201be61e8e2bbcc4de8e72fbfe0171aebd498851b8fdd 0x113908d173e14a621222370f2228c6ffff06d93ade39e0141afbf1b7593741c396a5dd31ee09fc6bf4d8ac046761a022;
  sd 0x9dd00f6ad4180ba532d6bfef5ea1cc51bd05ee21ad12751eab75a53bf1a83ed3a0978c73f6537a4becce318bdeaf21 0x16d6fa93b4ad6f0736d086a2990accb2ce801553bc57e675319b9adc7b12a416e4a4e1d2447838c790fb844f0fdcd57;
  sd 0x1894f3fd59117d7fdfd8117c4ed06e3438ae0ef48571d4ca15372b5f8231d3a36dd0545ba364920c66bc4ee6dbb4cc34 0xa71a18215e721b6bcbbca361981a9bcc407098b47a69744eafac23592148f59d243f7ecfc89b9c2a7befe7ac256ca1b;
  sd 0x4404b8cf59259fafb831baa800e4d80f0b03a62e9c0063bd38d94775f94f78632bc0dfdcc2aa4c00959b3ec49572b40 0x17ddb2bcf6c27f8c977ce278adf23f884ef89cdba5064f04af3879869b8f2d9400c156dfd8a4d4cf5fa77e735827223c;
  sd 0x152ec2f2713cefcc61faa81fd788b4eaf716550f791be46d6c9283acebbd2e3b43e5bd65af48e9c314bd07dbbf3723c8 0x57551c168b353508252bc0d5c5f8934326acb7672ee0998911e7e6542fcfcbeb2309d85aad9e6ceb810b678aae53513;
  sd 0xfca5ebbff7859f6246a753b7e3b624961da945823ba73c96ec3a93f6189f9a70192849c88de88a57bc750f3f1d7422e 0x17de7d9b5280976797f08798132266c013da57318646b6a5b7024f490c3d6b7a5e037616083b7d95d4a8db0f5d8827f6;
  sd 0x111559280aaa1fada81fd9fcc819c5fca0165d5b8a93eb045011b57b023abb4df999a5446fc55ea3ca76f008d25c0d9a 0x10ececade0e46064ba1eec52311c90b07a252180af3f3de2676a29a7231895f6cf0874bdc5a461a93d4bd0019eb74aab;
  sd 0xccb9c5533304e78f2f8f370d006095e4c03c5293f398adcf1804e81f90d95596a9f4cd6a2cf4923c77f5976cd60f820 0x177f00c29d44eb070220c7bee13ada87c831f6aabc9ede586aa65a2d14583e204d361e958002a9f78f99e92c768fcec0;
  sd 0x2d290779e9928074c7643439e5167fa489cdf309d13e4988755af40d0c9bc8eed0c6c44c4239fabe3dd2b7d5e75e794 0xfade40d3aa602d3ba1af9929da4b28250363b6710cc0a5dfa7a88d8a509ea9573023804773d03a0d8a0516252cd81c2;
  sd 0x15fbf3b04bd036844c608d33163cb225b0281a1b34f51d4216ece7f0e62eb598c96c4b54311afd6cd8055a82acb98032 0x160def112dbfa7c123057aa41eba2c5e37724b4560275e2d8932794a0d03f2685db9007c2311ca1f747a33e9042b4b07;
  sd 0x17aee51e17749e4ca15da40b8b53bcf752bcbd621ed4594f77065025d6e6e613daee103436ec3c87feea3ba816135dfe 0x13c53717bfde4def7a3a1cc2a04780e96f93a82c95d24fbaad8b068dfda7d7c13516dd4aa8ff1ec866f41fe1534e6b6d;
  sd 0x4867c367cbd344771d3eefb97b82d99b87fc871a0d3ae2f2a949f929b37feb671717333e35bdf626e92d5f29611a734 0x827368c82b3267b826f21606d1cc14f6db2350333eefd6b0ac71ad9ff0152ac27974bb50c270c7c074608580cd4ea93;
  sd 0x707880c40e0473b89d7c6ebc2f3ecb3cdd0aa5910d69b979ef45777e1caccf48ff9a4869c148e68d0eeb48a8b138800 0xf24c2d3ea29c5d5e94a2e2ab1fb4378f09605823de90dad47c9b2214619c1dcdb212a0d7fab4157ff2235923f54813d;
  sa 0x11302c825a9052b449fdcba5788ef7605c536d5d7e64b7de2fafaaaaba9db79ca172bb1eba10163a116c4ddf8e6a5255 0xb5967fc6cd9218dab4229661c325c9cb357e01d1bcfd79aa2279b86789d97daba03ba701e435fc3c9e6b8435828e39d;
  sd 0xf6998788c409f451e3e32405b4f371e87a4f6dc0c5a630426ee8f4a279c88613e235348d715a11f285fbf3cd5324341 0x14b0649d4dd6e9e6fdfaf3fb7f662163d0ce0bb65eea159ab6df613a400a6ed7e73b268aadde2746acf9cea437dde1cd;
  sd 0x19cbfe7127faf31db26b57318414f007825a1e89fc13727310c918bc68d511455c5669d9f2fac08801b2005672ef1a65 0x90d3d6b952c11db6f00a796d4375b6da4d8a21769f83ec9e8aaa65a92eeb956fa70dca256e9cedb52e97d13e5cac65c;
  sd 0xda52a0e185534607812459a65ad4bb346d9a5925b1fb85b1458c8a38559540a9fb5a3c836e5d0c8d13040ae13adfe15 0x1188aa4af910799298e1e767ac34733e8df45da39ca10d16d2e72dfc1a936c8a56616ce0c454c515229d0eae51c57676;
  sd 0x54456b1d21f7f5c46c46eb59d384935883992396daebe57e8133d083a00f9fb5cd736e1b8dfeb0e716665d3152d86a0 0x745f2cfcacdf1498bf687b3c756cf1698424a89cc0f0a866138e3e57eddfea226cd383f40db0cd64481f89b9ec89843;
  sd 0x184e215eef6768363da0dc51596e4b74f5bcc017b0a223955a5f873f3f6927bead8f9ffb22ee156edc8986a46c8dba71 0xd70e1fc77b63127dd44e99299025ab6370bf879f7b9facf29614595abe6d5a12c0fa81b4687c2462a0dbb5d7fe970ff;
  sd 0x1376ab636b8352b0a18d28e0be1d4166b38afabba59b6b29e3c515b1a7d12ff91cebcccc95a9c37b4056757a2504304a 0x27a1f50d43c7297da4c3baf0ea2c46bc3457a23faafd1b6cc27ec0c88515cb5e0beb39d0d301310fafbc719e1701d92;
  sd 0x10990aea1ecf35e4a31c3135f582e2651dd5cb49dd6c54875c6523e88ac688366a2d92096d86c9e37b5b5d5d7242dc9c 0xcdb943ba9cde700e19890a15d70e508f4a96775d690de97da8d8de1eda3bf82a9f33cd2ef500313a913f502c7ec1893;
  sd 0x11a4663019db3f22094774cafbbef49c4ad4c8c5b42d5dac525f7815a543de70eb1a0386db2a99b5e514ec3df0c57b7d 0xe43cb825481215668e358da470fc9cf7823441a508d94e82bc38cbd83c78349ae0af67f50d73dfd09844aec82c4c18f;
  sd 0xc3131a7ff2451084c69328c090288b2db26608135a1232f90d2ea07492c17b0ed2de973b9ef4a716770125577701b3a 0xdec1a6dfeddcc974a4d6013278ec1f4768a3b8a60fae264ec60138c3a6edc05c33ad7d1b6d5477fa6ef24df37121c99;
  sd 0x180e6caf09505b9429794ffe785bcc2e8a604603556c8afb53e46289f164efd16022e744a83cc65b2cd571d47e281ff7 0x9db4d327f8afbdd5014a2234c064694c92f6c49613a6d5daab0c4964fa5e9705a7b0311547da390394170bdd4c64355;
  sd 0x101b4e282039acc3da89b21345ecc2081f9f892e7ef371a021bca5d0e4db170ed5d192947f2a96874958fdf87327cfbb 0x3390dc928e47eb94dd2df6736a7696cf60c36dd827b7d77f86d677ecb21a5f82d58f768c63829afa77bc311188ef0b7;
  sd 0x15c2358673146cd4c5401cca70f84e8be402d58162ca697f7b9e45b39838e7335b900b17ac76d2f007f0e7e03e2d71be 0x15cc7bf933ea3ba409e899b7d7735691bf45894aa24526be6be8d143fb375359c14e719b225c72b268a4f7f5d7139734;
  sd 0x11670bb7ead45cc177f07bc4296560d2c8bd9fe02cbb1aca866df1e7a1f5f2543f9af7e2a4f0d07b7eabefbd5b6139d8 0x18b37bd8e278295378a9764074f686d8ba7ad24dd6a17d722a9c64f6522563e72161801ab5e44d9a5397b5bfd499fb40;
  sd 0xa2ce4cb051e7576ad31315172489118c2d7ffbcb4cb290d74b8a9f8f87da4142ab74b8b23c5cb39c0ac5e0aab7009ad 0x105795a46c3a9fed3c1479eb8451e08d4615eada50c93a48f68a32a1b9c1a9316f0b59ad612d0c1f7a301fec18501228;
  sd 0x4ad933ced85c7f1abe33407b4ce2fc8de92363dbeab6b0049f71ace8bd6e5cb7271ab152a1904819bd818eeaf1435e7 0xfc710dcb2c61312cd672e859f5a1f81c5626a70d08eb8624b08634770b1cfcb7f915cfc31adce58fc28edfa4bcfb15d;
  sd 0xe9b656a4dcb7b3fbbe499bbf8133f5871ab85d5cdfc61a9c03c2593a30ba004bdff540304fd20fe893ec0e99745d5e1 0x16babe7e3ebb4d14cf9591ab4c605bf2b02e8b562689d988837a82535010209ce44fdc80346a380afe5a7aa1c533096e].
Definition tD_t : list sstep := [
  sd 0xe3cb54e4375c341bfa62f75af351735536f23654fd676af114f485623f91c32c0393b97375ec6b42acc1b966089115 0x1224893e3bec5de3900c049f865151fb34bfc1ad0d7bb12e3ef401361a0b0c8ce74c9bfcd9f5cfc19b1d1a23fb906ffd].
Lemma tB_on : g2on (wP tB_x tB_y).
Proof. unfold wP, g2on, g2a, g2b. cbn [on_curve]. cbv beta delta [e2Z tB_x tB_y]. cbn [fst snd]. fast_e2. Qed.
Lemma tC_on : g2on (wP tC_x tC_y).
Proof. unfold wP, g2on, g2a, g2b. cbn [on_curve]. cbv beta delta [e2Z tC_x tC_y]. cbn [fst snd]. fast_e2. Qed.
Lemma tD_on : g2on (wP tD_x tD_y).
Proof. unfold wP, g2on, g2a, g2b. cbn [on_curve]. cbv beta delta [e2Z tD_x tD_y]. cbn [fst snd]. fast_e2. Qed.
Lemma tU_on : g2on (wP tU_x tU_y).
Proof. unfold wP, g2on, g2a, g2b. cbn [on_curve]. cbv beta delta [e2Z tU_x tU_y]. cbn [fst snd]. fast_e2. Qed.
Lemma tV_on : g2on (wP tV_x tV_y).
Proof. unfold wP, g2on, g2a, g2b. cbn [on_curve]. cbv beta delta [e2Z tV_x tV_y]. cbn [fst snd]. fast_e2. Qed.
Lemma tE_on : g2on (wP tE_x tE_y).
Proof. unfold wP, g2on, g2a, g2b. cbn [on_curve]. cbv beta delta [e2Z tE_x tE_y]. cbn [fst snd]. fast_e2. Qed.
Lemma tV_pc : psiP (wP tB_x tB_y) = wP tV_x tV_y.
Proof. unfold wP. cbn [psiP]. apply third2_ext; [unfold psi_u | unfold psi_v]; cbv beta delta [e2Z tB_x tB_y tV_x tV_y]; cbn [fst snd]; fast_e2. Qed.
Lemma tE_pc : psiP (psiP (wP tD_x tD_y)) = wP tE_x tE_y.
Proof. unfold wP. rewrite psiP_psi. apply third2_ext; [unfold E2_MulByElement, thirdRootOneG1 | unfold E2_Neg]; cbv beta delta [e2Z tD_x tD_y tE_x tE_y]; cbn [fst snd A0 A1]; fast_e2. Qed.
Lemma tN_eq : g2neg Stw = wP sxZ tN_y.
Proof. unfold Stw, wP, g2neg. cbn [pneg]. apply third2_ext; [reflexivity|]. unfold E2_Neg. cbv beta delta [e2Z syZ tN_y]. cbn [fst snd A0 A1]. fast_e2. Qed.
Lemma tU_add : g2add (wP tC_x tC_y) (wP sxZ tN_y) (wP tU_x tU_y).
Proof. apply (wadd tU_l); cbv beta delta [e2Z tU_l tC_x tC_y sxZ tN_y tU_x tU_y]; cbn [fst snd]; fast_e2. Qed.
Lemma tV_add : g2add (wP tU_x tU_y) (wP tE_x tE_y) (wP tV_x tV_y).
Proof. apply (wadd tV_l); cbv beta delta [e2Z tV_l tU_x tU_y tE_x tE_y tV_x tV_y]; cbn [fst snd]; fast_e2. Qed.
Definition tS : Tw := tof Stw Stw_on.
Lemma tS_kill : tm qTW tS = tO.
Proof. apply tm_inf. exact Stw_order. Qed.
Theorem tS_clear : tcl tS = tO.
Proof.
  assert (HB : tm (- (blsX - 1)) tS = tof _ tB_on) by (apply (small_mul sxZ syZ tB_x tB_y tB_t); [vm_cast_no_check (eq_refl true) | vm_cast_no_check (eq_refl (- (blsX - 1)))]).
  assert (HC : tm (- blsX) (tof _ tB_on) = tof _ tC_on) by (apply (small_mul tB_x tB_y tC_x tC_y tC_t); [vm_cast_no_check (eq_refl true) | vm_cast_no_check (eq_refl (- blsX))]).
  assert (HD : tm 2 tS = tof _ tD_on) by (apply (small_mul sxZ syZ tD_x tD_y tD_t); [vm_cast_no_check (eq_refl true) | reflexivity]).
  assert (HU : tadd (tof _ tC_on) (topp tS) = tof _ tU_on) by (apply tv_inj; symmetry; apply tadd_fun; rewrite topp_v; change (tv tS) with Stw; rewrite tN_eq; exact tU_add).
  assert (HE : tpsi (tpsi (tof _ tD_on)) = tof _ tE_on) by (apply tv_inj; exact tE_pc).
  assert (HV : tadd (tof _ tU_on) (tof _ tE_on) = tof _ tV_on) by (apply tv_inj; symmetry; apply tadd_fun; exact tV_add).
  assert (HP : tpsi (tof _ tB_on) = tof _ tV_on) by (apply tv_inj; exact tV_pc).
  unfold tcl. rewrite HD, HE.
  replace (tm (blsX - 1) tS) with (topp (tof _ tB_on)) by (rewrite <- HB, tm_neg; apply topp_opp).
  replace (tm (blsX * blsX - blsX - 1) tS) with (tof _ tU_on).
  - rewrite tpsi_opp, HP, tassoc, (tcomm (topp _)), <- tassoc, HV. apply tadd_opp.
  - rewrite <- HU, <- HC, <- HB, <- tm_mul. rewrite <- (tm_1 tS) at 2. rewrite <- tm_neg, <- tm_add. f_equal.
Qed.
