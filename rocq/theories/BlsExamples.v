(** Concrete public keys used by the examples: n*G1 for n = 1..10, as limbs. *)
From Coq Require Import ZArith List Bool Lia.
From Verif Require Import Params ZMod RingPow Circuit Api Emulated FastMod FastParams Tower FieldFacts FastTower Pairing CurveSpec Bls BlsSpec.
Import ListNotations.
Open Scope Z_scope.

Definition frs (l : list Z) : list Fr := map (ofZ rBN) l.
Definition digits (l : list Z) : Z := fold_right (fun d acc => d + 2 ^ 64 * acc) 0 l.
Definition digits_ok (l : list Z) : bool :=
  Nat.eqb (length l) 6 && forallb (fun d => (0 <=? d) && (d <? 2 ^ 64)) l && (digits l <? 2 ^ 381).
Lemma frs_vals l : forallb (fun d => (0 <=? d) && (d <? 2 ^ 64)) l = true -> map fval (frs l) = l.
Proof.
  assert (R : 2 ^ 64 < rBN) by reflexivity.
  unfold frs. induction l as [|d l IH]; [reflexivity|]. cbn [forallb map]. rewrite !andb_true_iff, Z.leb_le, Z.ltb_lt. intros [H1 H2].
  f_equal; [apply fval_ofZ_small; lia | now apply IH].
Qed.
Lemma digits_int (l : list Fr) : limbs_int l = digits (map fval l).
Proof. induction l as [|x l IH]; [reflexivity|]. unfold limbs_int, digits in *. cbn [map fold_right]. now rewrite IH. Qed.
Lemma digits_wf l : digits_ok l = true -> limbs_wf (frs l) /\ limbs_int (frs l) = digits l.
Proof.
  unfold digits_ok. rewrite !andb_true_iff, Nat.eqb_eq, Z.ltb_lt. intros [[H1 H2] H3].
  assert (E : limbs_int (frs l) = digits l) by (rewrite digits_int, frs_vals by exact H2; reflexivity).
  split; [|exact E]. split; [unfold frs; now rewrite map_length|]. split; [|now rewrite E].
  apply Forall_forall. intros x Hx. unfold frs in Hx. apply in_map_iff in Hx. destruct Hx as (d & <- & Hd).
  assert (R : 2 ^ 64 < rBN) by reflexivity.
  pose proof (proj1 (forallb_forall _ _) H2 d Hd) as B. apply andb_true_iff in B. rewrite Z.leb_le, Z.ltb_lt in B.
  rewrite fval_ofZ_small; lia.
Qed.
(** a key given by its limbs, with the integers they encode *)
Record exkey : Set := mkEx { exX : Z; exY : Z; exLX : list Z; exLY : list Z }.
Definition ex_ok (e : exkey) : bool :=
  digits_ok (exLX e) && digits_ok (exLY e) && (digits (exLX e) =? exX e) && (digits (exLY e) =? exY e).
Definition keyE (e : exkey) : G1Key := mkKey (frs (exLX e)) (frs (exLY e)).
Lemma keyE_ok e : ex_ok e = true -> key_wf (keyE e) /\ key_x (keyE e) = fpZ (exX e) /\ key_y (keyE e) = fpZ (exY e).
Proof.
  unfold ex_ok. rewrite !andb_true_iff, !Z.eqb_eq. intros [[[H1 H2] H3] H4].
  destruct (digits_wf _ H1) as [W1 E1]. destruct (digits_wf _ H2) as [W2 E2].
  split; [split; [exact W1 | exact W2]|]. unfold key_x, key_y, keyE, fpZ. cbn [kX kY]. now rewrite E1, E2, H3, H4.
Qed.
Definition exs : list exkey := [
  mkEx 0x17f1d3a73197d7942695638c4fa9ac0fc3688c4f9774b905a14e3a3f171bac586c55e83ff97a1aeffb3af00adb22c6bb
   0x8b3f481e3aaa0f1a09e30ed741d8ae4fcf5e095d5d00af600db18cb2c04b3edd03cc744a2888ae40caa232946c5e7e1
   [18103045581585958587; 7806400890582735599; 11623291730934869080; 14080658508445169925; 2780237799254240271; 1725392847304644500]
   [912580534683953121; 15005087156090211044; 61670280795567085; 18227722000993880822; 11573741888802228964; 627113611842199793];
  mkEx 0x572cbea904d67468808c8eb50a9450c9721db309128012543902d0ac358a62ae28f75bb8f1c7c42c39a8c5529bf0f4e
   0x166a9d8cabc673a322fda673779d8e3822ba3ecb8670e461f73bb9021d5fd76a4c56d9d4cd16bd1bba86881979749d28
   [14094732281209884494; 16325396622661680194; 4868440721437795882; 10890226375598801189; 9802305501968024844; 392600325838432070]
   [13440579780927069480; 5500823502876753179; 17815036169728022378; 2502381586812560481; 2521354381255609912; 1615276643868636067];
  mkEx 0x9ece308f9d1f0131765212deca99697b112d61f9be9a5f1f3780a51335b3ff981747a0b2ca2179b96d2c0c9024e5224
   0x32b80d3a6f5b09f8a84623389c5f80ca69a0cddabc3097f9d9c27310fd43be6e745256c634af45ca3473b0590ae30d1
   [10867960820358074916; 9328214916603189147; 17543783692292014073; 12759496125542147569; 1685790116647900823; 715196068535595027]
   [11765437446616920273; 16664767143606940764; 11356995451993996262; 12004921902918470015; 9981210647654168588; 228417852639916191];
  mkEx 0xc9b60d5afcbd5663a8a44b7c5a02f19e9a77ab0a35bd65809bb5c67ec582c897feb04decc694b13e08587f3ff9b5b60
   0x143be6d078c2b79a7d4f1d1b21486a030ec93f56aa54e1de880db5a66dd833a652a95bee27c824084006cb5644cbd43f
   [16178486718433549152; 9217466417302555411; 701255768402832521; 16836560631021426264; 4218259557071204121; 908426220738958694]
   [4613598439669486655; 5956393060601963528; 9803691690267521958; 1065452428307259870; 9029467780260850179; 1458012687438100378];
  mkEx 0x10e7791fb972fe014159aa33a98622da3cdc98ff707965e536d8636b5fcc5ac7a91a8c46e59a00dca575af0f18fb13dc
   0x16ba437edcc6551e30c10512367494bfb6b01cc6681e8a4c3cd2501832ab5c4abc40b4578b85cbaffbf0bcd70d67c6e2
   [11922628067911734236; 12185205977931972828; 3952017985837488839; 4385548360023107045; 4708982024256758490; 1218075401389276673]
   [18154217729759364834; 13565040365735889839; 4382653452244442186; 13164053349279894092; 3513094760106857663; 1637695626651522334];
  mkEx 0x6e82f6da4520f85c5d27d8f329eccfa05944fd1096b20734c894966d12a9e2a9a9744529d7212d33883113a0cadb909
   0x17d81038f7d60bee9110d9c0d6d1102fe2d998c957f28e31ec284cc04134df8e47e8f82ff3af2e60a6d9688a4563477c
   [4072117429091547401; 11139447324943717075; 5515019924636605994; 402034025967591539; 14254593824564104442; 497699906779221893]
   [12022755623321159548; 5181664256125251168; 17016935580630835086; 16346264313049288241; 10453094157387894831; 1718141094704057326];
  mkEx 0x1928f3beb93519eecf0145da903b40a4c97dca00b21f12ac0df3be9116ef2ef27b2ae6bcd4c5bc2d54ef5a70627efcb7
   0x108dadbaa4b636445639d5ae3089b3c43a8a1d47818edd1839d7383959a41c10fdc66849cfa1b08c5a11ec7e28981a1c
   [6120209857355119799; 8875159714384952365; 1005356672198061810; 14518982878049538732; 14916280245852782756; 1812966850493225454]
   [6490228564608686620; 18286418003209859212; 4167861799122902032; 4218216193939397912; 6213232105049666500; 1192800493461976644];
  mkEx 0x85ae765588126f5e860d019c0e26235f567a9c0c0b2d8ff30f3e8d436b1082596e5e7462d20f5be3764fd473e57f9cf
   0x19e7dfab8a794b6abb9f84e57739de172a63415273f460d1607fa6a74f0acd97d9671b801dd1fd4f18232dd1259359a1
   [3991593652187560399; 10873351163946792382; 3527418931309512741; 17683289107225303295; 16744612223592325685; 602047922669954805]
   [1739284257396971937; 15665520065901624655; 6953459587199192471; 3054356794675847377; 13519670727472176663; 1866706498423966570];
  mkEx 0x19cdf3807146e68e041314ca93e1fee0991224ec2a74beb2866816fd0826ce7b6263ee31e953a86d1b72cc2215a57793
   0x7481b1f261aabacf45c6e4fc278055441bfaf99f604d1f835c0752ac9742b4522c9f5c77db40989e7da608505d48616
   [1977867633133189011; 7089772136546674797; 9685016274679549563; 11029919034126941874; 293601261006225120; 1859409954155718286]
   [16706771892129007126; 2506804904764639625; 3873224506167536453; 4737698408809419256; 17608069931955914068; 524699177185881004];
  mkEx 0xf81da25ecf1c84b577fefbedd61077a81dc43b00304015b2b596ab67f00e41c86bb00ebd0f90d4b125eb0539891aeed
   0x11af629591ec86916d6ce37877b743fe209a3af61147996c1df7fd1c47b03181cd806fd31c3071b739e4deb234bd9e19
   [1323689213581962989; 9708354434550533451; 3123645148605506588; 9357428549012947291; 6305021606378932090; 1117414038988507211]
   [4171704011822308889; 14807958527295910327; 2159472844251083137; 2349254984153405804; 7884927154162975742; 1274345614106986129]
].
Definition exKeys : list G1Key := map keyE exs.
Lemma exs_ok : forallb ex_ok exs = true.
Proof. vm_compute. reflexivity. Qed.
Lemma exKeys_facts e : In e exs -> key_wf (keyE e) /\ key_x (keyE e) = fpZ (exX e) /\ key_y (keyE e) = fpZ (exY e).
Proof. intros H. apply keyE_ok. exact (proj1 (forallb_forall _ _) exs_ok e H). Qed.
Lemma exKeys_wf : Forall key_wf exKeys.
Proof. apply Forall_forall. intros k Hk. apply in_map_iff in Hk. destruct Hk as (e & <- & He). now apply exKeys_facts. Qed.
Definition lit (z : Z) : list Uint63.int := inM MPp (zmod pBLS z).
Definition curve_fast (e : exkey) : bool :=
  l1eq (mmul MPp (lit (exY e)) (lit (exY e)))
       (madd MPp (mmul MPp (mmul MPp (lit (exX e)) (lit (exX e))) (lit (exX e))) (lit 4)).
Lemma curve_fast_ok e : curve_fast e = true ->
  fmul (fpZ (exY e)) (fpZ (exY e)) = fadd (fmul (fmul (fpZ (exX e)) (fpZ (exX e))) (fpZ (exX e))) (fpZ 4).
Proof.
  intros H. pose proof (st_lit (exX e)) as SX. pose proof (st_lit (exY e)) as SY. pose proof (st_lit 4) as S4.
  exact (l1eq_ok _ _ _ _ (stP_mul _ _ _ _ SY SY) (stP_add _ _ _ _ (stP_mul _ _ _ _ (stP_mul _ _ _ _ SX SX) SX) S4) H).
Qed.
Lemma exKeys_curve : Forall (fun k => oncurve1 (key_point k)) exKeys.
Proof.
  assert (C : forallb curve_fast exs = true) by (vm_cast_no_check (eq_refl true)).
  apply Forall_forall. intros k Hk. apply in_map_iff in Hk. destruct Hk as (e & <- & He).
  destruct (exKeys_facts e He) as (_ & X & Y). unfold key_point, oncurve1, on_curve. rewrite X, Y.
  rewrite (curve_fast_ok e (proj1 (forallb_forall _ _) C e He)). generalize (fpZ (exX e)). unfold fpZ. intros x. ring.
Qed.

(** ** sums of such keys, with the slopes of the chords as certificates *)
Definition ptE (e : exkey) : Fp * Fp := (fpZ (exX e), fpZ (exY e)).
Definition chord_fast (l x1 y1 x2 y2 x3 y3 : Z) : bool :=
  negb (l1eq (lit x1) (lit x2)) &&
  l1eq (mmul MPp (lit l) (subP (lit x2) (lit x1))) (subP (lit y2) (lit y1)) &&
  l1eq (lit x3) (subP (subP (mmul MPp (lit l) (lit l)) (lit x1)) (lit x2)) &&
  l1eq (lit y3) (subP (mmul MPp (lit l) (subP (lit x1) (lit x3))) (lit y1)).
Lemma chord_fast_ok l x1 y1 x2 y2 x3 y3 : chord_fast l x1 y1 x2 y2 x3 y3 = true ->
  fpZ x1 <> fpZ x2 /\ add1 (Aff (fpZ x1) (fpZ y1)) (Aff (fpZ x2) (fpZ y2)) (Aff (fpZ x3) (fpZ y3)).
Proof.
  unfold chord_fast. rewrite !andb_true_iff, negb_true_iff. intros [[[H1 H2] H3] H4].
  pose proof (st_lit l) as L. pose proof (st_lit x1) as X1. pose proof (st_lit x2) as X2. pose proof (st_lit x3) as X3.
  pose proof (st_lit y1) as Y1. pose proof (st_lit y2) as Y2. pose proof (st_lit y3) as Y3.
  pose proof (l1neq_ok _ _ _ _ X1 X2 H1) as N.
  pose proof (l1eq_ok _ _ _ _ (stP_mul _ _ _ _ L (stP_subP _ _ _ _ X2 X1)) (stP_subP _ _ _ _ Y2 Y1) H2) as E2.
  pose proof (l1eq_ok _ _ _ _ X3 (stP_subP _ _ _ _ (stP_subP _ _ _ _ (stP_mul _ _ _ _ L L) X1) X2) H3) as E3.
  pose proof (l1eq_ok _ _ _ _ Y3 (stP_subP _ _ _ _ (stP_mul _ _ _ _ L (stP_subP _ _ _ _ X1 X3)) Y1) H4) as E4.
  split; [exact N|]. 
  replace (Aff (fpZ x3) (fpZ y3)) with (third Fp fmul fsub (fpZ l) (fpZ x1) (fpZ y1) (fpZ x2)).
  - exact (add_chord Fp fp0 fp1 fadd fmul fsub fopp fp0 _ _ _ _ _ N E2).
  - unfold third. rewrite <- E3. now rewrite <- E4.
Qed.
(** (slope, sum so far) for each key after the first *)
Fixpoint sum_fast (x y : Z) (l : list (Z * Z * (Z * Z * Z))) : bool :=
  match l with
  | [] => true
  | (x2, y2, (s, x3, y3)) :: t => chord_fast s x y x2 y2 x3 y3 && sum_fast x3 y3 t
  end.
Fixpoint last_sum (x y : Z) (l : list (Z * Z * (Z * Z * Z))) : Z * Z :=
  match l with [] => (x, y) | (_, (_, x3, y3)) :: t => last_sum x3 y3 t end.
Lemma sum_fast_ok l : forall pre x y, generic_sum pre (fpZ x, fpZ y) -> sum_fast x y l = true ->
  generic_sum (pre ++ map (fun e => (fpZ (fst (fst e)), fpZ (snd (fst e)))) l)
              (fpZ (fst (last_sum x y l)), fpZ (snd (last_sum x y l))).
Proof.
  induction l as [|[[x2 y2] [[s x3] y3]] l IH]; intros pre x y G H; cbn [map sum_fast last_sum fst snd] in *.
  - now rewrite app_nil_r.
  - apply andb_true_iff in H. destruct H as [H1 H2]. apply chord_fast_ok in H1. destruct H1 as [N A].
    change (?a :: ?t) with ([a] ++ t). rewrite app_assoc. apply IH; [|exact H2].
    exact (gs_snoc pre (fpZ x, fpZ y) (fpZ x2, fpZ y2) (fpZ x3, fpZ y3) G N A).
Qed.
Definition ex13 : list (Z * Z * (Z * Z * Z)) := [
  (0x9ece308f9d1f0131765212deca99697b112d61f9be9a5f1f3780a51335b3ff981747a0b2ca2179b96d2c0c9024e5224,
   0x32b80d3a6f5b09f8a84623389c5f80ca69a0cddabc3097f9d9c27310fd43be6e745256c634af45ca3473b0590ae30d1,
   (0x10db36e189f6976ccb0bb529b865fccdb7ad57af4f28401a6c29b9032e8ee350b6766bd8f3597104e35ab43cf4fa5802,
    0xc9b60d5afcbd5663a8a44b7c5a02f19e9a77ab0a35bd65809bb5c67ec582c897feb04decc694b13e08587f3ff9b5b60,
    0x143be6d078c2b79a7d4f1d1b21486a030ec93f56aa54e1de880db5a66dd833a652a95bee27c824084006cb5644cbd43f))].
(** ten keys 2,3,7,11,13,17,19,23,29,-123 times the generator: their sum is the generator *)
Definition witRows : list (Z * Z * (Z * Z * Z)) := [
  (0x9ece308f9d1f0131765212deca99697b112d61f9be9a5f1f3780a51335b3ff981747a0b2ca2179b96d2c0c9024e5224,
   0x32b80d3a6f5b09f8a84623389c5f80ca69a0cddabc3097f9d9c27310fd43be6e745256c634af45ca3473b0590ae30d1,
   (0x1456278c6405c98ae3e3c7685c3b893d3ba921f894e9deb9af0b2bc771b9650e5078d62fda1ddb0f671169689cf90f19,
    0x10e7791fb972fe014159aa33a98622da3cdc98ff707965e536d8636b5fcc5ac7a91a8c46e59a00dca575af0f18fb13dc,
    0x16ba437edcc6551e30c10512367494bfb6b01cc6681e8a4c3cd2501832ab5c4abc40b4578b85cbaffbf0bcd70d67c6e2));
  (0x1928f3beb93519eecf0145da903b40a4c97dca00b21f12ac0df3be9116ef2ef27b2ae6bcd4c5bc2d54ef5a70627efcb7,
   0x108dadbaa4b636445639d5ae3089b3c43a8a1d47818edd1839d7383959a41c10fdc66849cfa1b08c5a11ec7e28981a1c,
   (0xbd45e7840f6ed21935cf4fdebed7c069cf5fdd3f2545dbae41c3bde0ea91f546e1a55cc1f44cfa40e0f99fde87876f8,
    0x345dd80ffef0eaec8920e39ebb7f5e9ae9c1d6179e9129b705923df7830c67f3690cbc48649d4079eadf5397339580c,
    0x83d3baf25e42f2845d8fa594dda2e0f40a4d670dda40f30da0aff0d81c87ac3d687fe84eca72f34c7c755a045668cf1));
  (0xfd75ebcc0a21649e3177bcce15426da0e4f25d6828fbf4038d4d7ed3bd4421de3ef61d70f794687b12b2d571971a55,
   0x4523f5a3915fc57ee889cdb057e3e76109112d125217546ccfe26810c99b130d1b27820595ad61c7527dc5bbb132a90,
   (0xe7fad2ba2ff6f9a0111871a1e9a544b841816f3687f9284aa69494f20ce04ac65d2b18b6624aa5df5010a76dcc399d2,
    0xc8b694b04d98a749a0763c72fc020ef61b2bb3f63ebb182cb2e568f6a8b9ca3ae013ae78317599e7e7ba2a528ec754a,
    0x951b70c206350e1edc2aefdfaa95318368c151e01e468b9fb1cf7c3c6575e4f06c135715cc5e51e1b492d19adf9bee0));
  (0x51f8a0b82a6d86202a61cbc3b0f3db7d19650b914587bde4715ccd372e1e40cab95517779d840416e1679c84a6db24e,
   0xb6a63ac48b7d7666ccfcf1e7de0097c5e6e1aacd03507d23fb975d8daec42857b3a471bf3fc471425b63864e045f4df,
   (0x95fdfc27b396135f452e6faee35e865cd3141af977402b757aa27093278a34b1a30f27e4ce80aa19ef60028496e54cb,
    0x10c0c1f774e77d9fad044aa06009a15e33941477b4b9a79fa43f327608a0a54524b3fcef0a896cb0df790e9995b6ebf1,
    0x2d7490bdc335a19c4432743b36e91ebde89ef5898283126bca23c8d8faa0eb5f391af648539546992ffdf1ded996166));
  (0x1098f178f84fc753a76bb63709e9be91eec3ff5f7f3a5f4836f34fe8a1a6d6c5578d8fd820573cef3a01e2bfef3eaf3a,
   0xea923110b733b531006075f796cc9368f2477fe26020f465468efbb380ce1f8eebaf5c770f31d320f9bd378dc758436,
   (0x189a45dff62b1339cde87107961a97442dda6b2bc408413e562e71e8b71c2a051b62b83baf448056afa486ef9a6286ca,
    0x3798f4dcc27c08dcd23315bee084a9821f39eed4c35ef45ba5079de93e7cf49633eea6d0f30b20c252c941f615f6ccb,
    0x72b67a68971e6d64207a7ac48348be38eb39430475d18eb9ecaf31eade818aee907519a382eb2f05994a07ee6afabeb));
  (0x1271205227c7aa27f45f20b3ba380dfea8b51efae91fd32e552774c99e2a1237aa59c0c43f52aad99bba3783ea2f36a4,
   0x1407ffc2c1a2fe3b00d1f91e1f4febcda31004f7c301075c9031c55dd3dfa8104b156a6a3b7017fccd27f81c2af222ef,
   (0x115c9f905803b442b542f448ffc7fa75a85e1b244a52a0baa6a8489a2ed2357d4d0a19d55d2b12c4fa85a7176e567af7,
    0x6de7221af8fd5bb4ee28dad543997cde0c5cd7fa5ec9ad2b92284e63e107154cc24bf41e25153a2a20bcae3add50542,
    0x744cc4c04a2c93a2f4df31f5cf4ac01388c7cd13a56bf362c42726971c3c452afc88e36ab4989cfd5ac181448a7a69b));
  (0xc8b694b04d98a749a0763c72fc020ef61b2bb3f63ebb182cb2e568f6a8b9ca3ae013ae78317599e7e7ba2a528ec754a,
   0x951b70c206350e1edc2aefdfaa95318368c151e01e468b9fb1cf7c3c6575e4f06c135715cc5e51e1b492d19adf9bee0,
   (0xdb56c02065ad5d708ef19ec1eef904bbedb668fb7b4544ad5b032d4918623bc2d8499879e6bd3da2391ecda3ac139fa,
    0x8f5540a9977fd2ee7dea836ed3dafa5d0b1fc9c5d5f1689e91ec49cdef989976c51502c3764025ef8ff542ef3b170ea,
    0x104fa29610a920e85d626409693b968c3060ad3363829af72701fdce87810f8531e27848a830ea158944cfcee4770fc9));
  (0x515e7f61ca0470e165a44d247a23f17f24bf6e37185467bedb7981c1003ea70bbec875703f793dd8d11e56afa7f74ba,
   0x1dfd30b4605d102581cb1f55fbb833d4b3882935176c03dbecbb45e1c6b8adc3cc9632e0c9161c8ec23fd2582d9b8f0,
   (0x44528ad0fd79c0e0ca2b1c64e422a4e299fd2837a3bdfb2b455854087f4c6ac58b51e9b049265f7dbd6df89fce767f8,
    0x7d10210c48f84d67a8af3f894062397b22cb48fa3f0936c039400638908f5e976d9783295aad8af9ac602f6bf3b10a7,
    0x163cb12943ee61864c291969888b145e7ca15f33e1979d37103d01aaeada40e97873e3a629d16c81f4961602e07dc166));
  (0xec3e71a719a25208adc97106b122809210faf45a17db24f10ffb1ac014fac1ab95a4a1967e55b185d4df622685b9e8,
   0x9de5c133d2c13ed8f7502e176a13317fd24f4d7af1f654abe7099b87d402776dd2c3e288dad2c62f65b1b261a245044,
   (0x812a790538016ce39510f8c216783753ccea79f709a4dc59b0a1426df6fa9077165315dd03792ec75ec84680d94d447,
    0x17f1d3a73197d7942695638c4fa9ac0fc3688c4f9774b905a14e3a3f171bac586c55e83ff97a1aeffb3af00adb22c6bb,
    0x8b3f481e3aaa0f1a09e30ed741d8ae4fcf5e095d5d00af600db18cb2c04b3edd03cc744a2888ae40caa232946c5e7e1))].
Definition wits : list exkey := [
  mkEx 0x572cbea904d67468808c8eb50a9450c9721db309128012543902d0ac358a62ae28f75bb8f1c7c42c39a8c5529bf0f4e
   0x166a9d8cabc673a322fda673779d8e3822ba3ecb8670e461f73bb9021d5fd76a4c56d9d4cd16bd1bba86881979749d28
   [14094732281209884494; 16325396622661680194; 4868440721437795882; 10890226375598801189; 9802305501968024844; 392600325838432070]
   [13440579780927069480; 5500823502876753179; 17815036169728022378; 2502381586812560481; 2521354381255609912; 1615276643868636067];
  mkEx 0x9ece308f9d1f0131765212deca99697b112d61f9be9a5f1f3780a51335b3ff981747a0b2ca2179b96d2c0c9024e5224
   0x32b80d3a6f5b09f8a84623389c5f80ca69a0cddabc3097f9d9c27310fd43be6e745256c634af45ca3473b0590ae30d1
   [10867960820358074916; 9328214916603189147; 17543783692292014073; 12759496125542147569; 1685790116647900823; 715196068535595027]
   [11765437446616920273; 16664767143606940764; 11356995451993996262; 12004921902918470015; 9981210647654168588; 228417852639916191];
  mkEx 0x1928f3beb93519eecf0145da903b40a4c97dca00b21f12ac0df3be9116ef2ef27b2ae6bcd4c5bc2d54ef5a70627efcb7
   0x108dadbaa4b636445639d5ae3089b3c43a8a1d47818edd1839d7383959a41c10fdc66849cfa1b08c5a11ec7e28981a1c
   [6120209857355119799; 8875159714384952365; 1005356672198061810; 14518982878049538732; 14916280245852782756; 1812966850493225454]
   [6490228564608686620; 18286418003209859212; 4167861799122902032; 4218216193939397912; 6213232105049666500; 1192800493461976644];
  mkEx 0xfd75ebcc0a21649e3177bcce15426da0e4f25d6828fbf4038d4d7ed3bd4421de3ef61d70f794687b12b2d571971a55
   0x4523f5a3915fc57ee889cdb057e3e76109112d125217546ccfe26810c99b130d1b27820595ad61c7527dc5bbb132a90
   [8868347246049434197; 16014507931285820520; 255945960943600673; 11593657823751896052; 11399023784646492781; 71342824708776292]
   [8441958313068014224; 15110271780114847260; 14771286163525841200; 1193756065710306630; 17188160442363428470; 311380980979334231];
  mkEx 0x51f8a0b82a6d86202a61cbc3b0f3db7d19650b914587bde4715ccd372e1e40cab95517779d840416e1679c84a6db24e
   0xb6a63ac48b7d7666ccfcf1e7de0097c5e6e1aacd03507d23fb975d8daec42857b3a471bf3fc471425b63864e045f4df
   [7932661694808830542; 12363877925602738241; 5122225359741379596; 15102347156274052062; 190871628980108727; 369165476508915810]
   [2717421431075239135; 8879487800697440020; 4591830869327233669; 6804405416533231570; 7840713206143125884; 822579473554069350];
  mkEx 0x1098f178f84fc753a76bb63709e9be91eec3ff5f7f3a5f4836f34fe8a1a6d6c5578d8fd820573cef3a01e2bfef3eaf3a
   0xea923110b733b531006075f796cc9368f2477fe26020f465468efbb380ce1f8eebaf5c770f31d320f9bd378dc758436
   [4179871243157024570; 6308856811434228975; 3959596357951870661; 17204875787106934600; 12063936374347775633; 1195971202931214163]
   [1124725048007296054; 17202331963637308722; 6082374884142146040; 10314500980028346182; 1154618461107570998; 1056414143708609363];
  mkEx 0x1271205227c7aa27f45f20b3ba380dfea8b51efae91fd32e552774c99e2a1237aa59c0c43f52aad99bba3783ea2f36a4
   0x1407ffc2c1a2fe3b00d1f91e1f4febcda31004f7c301075c9031c55dd3dfa8104b156a6a3b7017fccd27f81c2af222ef
   [11221342461256218276; 12275054208483502809; 6136001426606395959; 12156656832158356270; 17608829024337399294; 1328878902277810727]
   [14783057101730226927; 5410347531851798524; 10390302822097725456; 11749896889984681820; 59102177902193613; 1443403417532956219];
  mkEx 0xc8b694b04d98a749a0763c72fc020ef61b2bb3f63ebb182cb2e568f6a8b9ca3ae013ae78317599e7e7ba2a528ec754a
   0x951b70c206350e1edc2aefdfaa95318368c151e01e468b9fb1cf7c3c6575e4f06c135715cc5e51e1b492d19adf9bee0
   [9114057101154219338; 12538367603587373470; 14640734612595907747; 7039895048467231106; 11098949513828638959; 903931921142745716]
   [1966152300640190176; 486728995736773918; 18094609823086108239; 3930539793412548793; 17132448338326147864; 671519082165784801];
  mkEx 0x515e7f61ca0470e165a44d247a23f17f24bf6e37185467bedb7981c1003ea70bbec875703f793dd8d11e56afa7f74ba
   0x1dfd30b4605d102581cb1f55fbb833d4b3882935176c03dbecbb45e1c6b8adc3cc9632e0c9161c8ec23fd2582d9b8f0
   [10165158081583871162; 13541346987394700253; 17129326954022169200; 17459319837154428539; 1610675486674009879; 366453988928800526]
   [17015722154686789872; 4380141162025017800; 13748280603775306460; 5420225720778932285; 6349145242116784957; 135058559217291522];
  mkEx 0xec3e71a719a25208adc97106b122809210faf45a17db24f10ffb1ac014fac1ab95a4a1967e55b185d4df622685b9e8
   0x9de5c133d2c13ed8f7502e176a13317fd24f4d7af1f654abe7099b87d402776dd2c3e288dad2c62f65b1b261a245044
   [9643578314753161704; 12363969365937116593; 17370378380101614273; 10525188256555326244; 625377410555126400; 66496752359416402]
   [17751812206672236612; 15937181525253893218; 13722637082252289910; 18240973597950567754; 10337171687080014615; 711107028871549933]].
Definition witKeys : list G1Key := map keyE wits.
Lemma wits_ok : forallb ex_ok wits = true.
Proof. vm_compute. reflexivity. Qed.
Lemma wit_facts e : In e wits -> key_wf (keyE e) /\ key_x (keyE e) = fpZ (exX e) /\ key_y (keyE e) = fpZ (exY e).
Proof. intros H. apply keyE_ok. exact (proj1 (forallb_forall _ _) wits_ok e H). Qed.
Lemma witKeys_wf : Forall key_wf witKeys.
Proof. apply Forall_forall. intros k Hk. apply in_map_iff in Hk. destruct Hk as (e & <- & He). now apply wit_facts. Qed.
Lemma witKeys_curve : Forall (fun k => oncurve1 (key_point k)) witKeys.
Proof.
  assert (C : forallb curve_fast wits = true) by (vm_cast_no_check (eq_refl true)).
  apply Forall_forall. intros k Hk. apply in_map_iff in Hk. destruct Hk as (e & <- & He).
  destruct (wit_facts e He) as (_ & X & Y). unfold key_point, oncurve1, on_curve. rewrite X, Y.
  rewrite (curve_fast_ok e (proj1 (forallb_forall _ _) C e He)). generalize (fpZ (exX e)). unfold fpZ. intros x. ring.
Qed.
Lemma map_key_xy l : forallb ex_ok l = true -> map key_xy (map keyE l) = map ptE l.
Proof.
  intros H. rewrite map_map. apply map_ext_in. intros e He. destruct (keyE_ok e (proj1 (forallb_forall _ _) H e He)) as (_ & X & Y).
  unfold key_xy, ptE. now rewrite X, Y.
Qed.
Definition g1genZ : Z * Z := (0x17f1d3a73197d7942695638c4fa9ac0fc3688c4f9774b905a14e3a3f171bac586c55e83ff97a1aeffb3af00adb22c6bb,
  0x8b3f481e3aaa0f1a09e30ed741d8ae4fcf5e095d5d00af600db18cb2c04b3edd03cc744a2888ae40caa232946c5e7e1).
Lemma wit_sum : generic_sum (map key_xy witKeys) (fpZ (fst g1genZ), fpZ (snd g1genZ)).
Proof.
  unfold witKeys. rewrite (map_key_xy _ wits_ok).
  assert (C : sum_fast (exX (hd (mkEx 0 0 [] []) wits)) (exY (hd (mkEx 0 0 [] []) wits)) witRows = true) by (vm_cast_no_check (eq_refl true)).
  exact (sum_fast_ok witRows [ptE (hd (mkEx 0 0 [] []) wits)] _ _ (gs_one _) C).
Qed.
Lemma ex13_sum : generic_sum (map key_xy [nth 0 exKeys zero_key; nth 2 exKeys zero_key])
  (fpZ (fst (last_sum 0 0 ex13)), fpZ (snd (last_sum 0 0 ex13))).
Proof.
  change [nth 0 exKeys zero_key; nth 2 exKeys zero_key] with (map keyE [nth 0 exs (mkEx 0 0 [] []); nth 2 exs (mkEx 0 0 [] [])]).
  rewrite map_key_xy by (vm_compute; reflexivity).
  assert (C : sum_fast (exX (hd (mkEx 0 0 [] []) exs)) (exY (hd (mkEx 0 0 [] []) exs)) ex13 = true) by (vm_cast_no_check (eq_refl true)).
  exact (sum_fast_ok ex13 [ptE (hd (mkEx 0 0 [] []) exs)] _ _ (gs_one _) C).
Qed.
