(** Secret keys of the ten example keys; the example witness of both circuits
    meets the hypotheses of the signature theorems. *)
From Coq Require Import ZArith NArith List Bool Lia Uint63.
From Verif Require Import Primes Params ZMod RingPow ZPow Circuit Api Emulated ApiFacts FieldFacts Tower TowerSpec TowerFacts TowerProofs Frobenius TorusFacts CycloFacts Pairing CurveSpec G2 PairSpec HashG2 G2Spec EcIdeal LfVieta EcPoly EcEval EcGroup LineFour G2Jac G2Psi G2Mul G2Cof G2Order MillerProofs FixedQ FixedLoop FinalExp FinalExpProofs FinalExpSpec PairProofs Bls BlsSpec SigSpec CircuitSpec CircuitProofs MillerTotal MillerNeg MillerLf Kappa PairAdd PairAdd2 G1Group PairMul PairSig G2Gen G2Refute HashWitPts HashWit MillerWit G1Order G2Cyclic PairNondeg BlsExamples BlsRefute Accept FastMod FastParams FastTower BlsProofs.
Import ListNotations.
Open Scope Z_scope.

Definition wTabs : list (Z * list sstep1) := [
  (2, [sd1 0x256addd10de5f1125dc01df7d60354f49e4cdf6d84cbf619723a3ca979025d49cc7536b86e8558e23d63cf91e1aeda5]);
  (3, [sd1 0x256addd10de5f1125dc01df7d60354f49e4cdf6d84cbf619723a3ca979025d49cc7536b86e8558e23d63cf91e1aeda5; sa1 0xca01508e09da63bddd07d68f0f5ab0663574e3f1943434405546e7593972a28bb131f34db86678cd2a6b7c494c00bc]);
  (7, [sd1 0x256addd10de5f1125dc01df7d60354f49e4cdf6d84cbf619723a3ca979025d49cc7536b86e8558e23d63cf91e1aeda5; sa1 0xca01508e09da63bddd07d68f0f5ab0663574e3f1943434405546e7593972a28bb131f34db86678cd2a6b7c494c00bc; sd1 0x19c6a9e3932cbf51d588fbcc9a29514243c18224f628796847f8d37c73774c9b12981e8adbe51f8de63a11800e3cd6f0; sa1 0x17a3f3bfcac45d43774343d5020b503433069c0eac332e69e616817e8fde35dfaeb93ca3af389b202b941085cee9a625]);
  (11, [sd1 0x256addd10de5f1125dc01df7d60354f49e4cdf6d84cbf619723a3ca979025d49cc7536b86e8558e23d63cf91e1aeda5; sd1 0xf4e8a55072212bf630cbb20ca15222ed3fdfe9c686fb4ed155b5c1ff038301ea5604a60ba2981ef8caee2c0202b6b19; sa1 0x5d19e87eaed912f3eb4141e2135c1becde098401e0e5e00da05168edabaa79236c9bdc26dacbf98a78cf224c619a4bc; sd1 0x58883901ceba95ba9a8a1397f7fa6d6c2833a4b650eb55e26139b5baa6eed70be93bddbb8c83cf31f21a049f8d4f7b0; sa1 0xec1b6a0a61328e4e19d40bf623e5b48bea9094a2f523a3363574f6af89f47be83ecf30890973291db27beb97818fb36]);
  (13, [sd1 0x256addd10de5f1125dc01df7d60354f49e4cdf6d84cbf619723a3ca979025d49cc7536b86e8558e23d63cf91e1aeda5; sa1 0xca01508e09da63bddd07d68f0f5ab0663574e3f1943434405546e7593972a28bb131f34db86678cd2a6b7c494c00bc; sd1 0x19c6a9e3932cbf51d588fbcc9a29514243c18224f628796847f8d37c73774c9b12981e8adbe51f8de63a11800e3cd6f0; sd1 0x33cbca6150a93a0100254e1ddaffcadfd37794d582faa8289befc1f4cdf04e0b0571822cda9bfcd335196effcd2a9df; sa1 0x1757f7c604379396fb0acbdb38f81318b6b2f0d280f3f116014f40c0c7067583b31699bc705732fdd22f079db7a68bd4]);
  (17, [sd1 0x256addd10de5f1125dc01df7d60354f49e4cdf6d84cbf619723a3ca979025d49cc7536b86e8558e23d63cf91e1aeda5; sd1 0xf4e8a55072212bf630cbb20ca15222ed3fdfe9c686fb4ed155b5c1ff038301ea5604a60ba2981ef8caee2c0202b6b19; sd1 0x58d43d9503f43db6a139e1ced96243bfc3533d72887ad6c1990531a27703843f5d5113d9719315e59063d8e3ebfbf82; sd1 0x143d76898b8842077c40739a3de11fa84f7e8eaa67aa8fff584f0f6f07b034ac8da0abaac5fb403e4bc8ea93c0ac382e; sa1 0x1597dc2f1722bf80fbfb35b4968424f291ee1a316fb113add6e9e6112dd15dbe3d08ecdeb37facbd93d2788ea8d4c6c]);
  (19, [sd1 0x256addd10de5f1125dc01df7d60354f49e4cdf6d84cbf619723a3ca979025d49cc7536b86e8558e23d63cf91e1aeda5; sd1 0xf4e8a55072212bf630cbb20ca15222ed3fdfe9c686fb4ed155b5c1ff038301ea5604a60ba2981ef8caee2c0202b6b19; sd1 0x58d43d9503f43db6a139e1ced96243bfc3533d72887ad6c1990531a27703843f5d5113d9719315e59063d8e3ebfbf82; sa1 0x141a0ce8c03b5dd91a829de2da5ef6f9fdaaf641206874d608e06b29656e65ae148f36aa3b6ed2170e64fc7e40568b5a; sd1 0x15e25fcc98059e84958615b352f31e897733cfbe47c66b1226b3efad8676400f2c416004b7644592895a8feeb45da48c; sa1 0xcc157fc156909a24ae2180245333a7b0d47557d441b0526d5266f3a05feb654dfd383224232870470cb8ac608b440f]);
  (23, [sd1 0x256addd10de5f1125dc01df7d60354f49e4cdf6d84cbf619723a3ca979025d49cc7536b86e8558e23d63cf91e1aeda5; sd1 0xf4e8a55072212bf630cbb20ca15222ed3fdfe9c686fb4ed155b5c1ff038301ea5604a60ba2981ef8caee2c0202b6b19; sa1 0x5d19e87eaed912f3eb4141e2135c1becde098401e0e5e00da05168edabaa79236c9bdc26dacbf98a78cf224c619a4bc; sd1 0x58883901ceba95ba9a8a1397f7fa6d6c2833a4b650eb55e26139b5baa6eed70be93bddbb8c83cf31f21a049f8d4f7b0; sa1 0xec1b6a0a61328e4e19d40bf623e5b48bea9094a2f523a3363574f6af89f47be83ecf30890973291db27beb97818fb36; sd1 0xc9dd404a1e0d07e433626df4d44eb9784c1fa3ce7d93083ac97aa0f69bf58aa446402a32f37f032861d0802d6a866ec; sa1 0x174a74d6070be76aecb7f34faa8d5584bc744813dd9fcd7717dc60720d7f263649920ac20b8a6061fa916188071f25b0]);
  (29, [sd1 0x256addd10de5f1125dc01df7d60354f49e4cdf6d84cbf619723a3ca979025d49cc7536b86e8558e23d63cf91e1aeda5; sa1 0xca01508e09da63bddd07d68f0f5ab0663574e3f1943434405546e7593972a28bb131f34db86678cd2a6b7c494c00bc; sd1 0x19c6a9e3932cbf51d588fbcc9a29514243c18224f628796847f8d37c73774c9b12981e8adbe51f8de63a11800e3cd6f0; sa1 0x17a3f3bfcac45d43774343d5020b503433069c0eac332e69e616817e8fde35dfaeb93ca3af389b202b941085cee9a625; sd1 0x6f0881b6ecc23052ae465001906677523bc2004da395389034c166958be0c0002f835174dc84fd233664b18d5a9bc7f; sd1 0x10b0ced413abd6b4535115c0e1ab4b05636d8771364fa66cf15e03688a016f09e7c79fcfa869dca4fa74c4cac1a8bf7; sa1 0xd77d78f72371ab1ddf2816b7736abd250c39804b10f5e1450b325ae03a642531cb7af16b6a82aa81451b9528b5ff6af]);
  (-123, [sd1 0x256addd10de5f1125dc01df7d60354f49e4cdf6d84cbf619723a3ca979025d49cc7536b86e8558e23d63cf91e1aeda5; sa1 0xca01508e09da63bddd07d68f0f5ab0663574e3f1943434405546e7593972a28bb131f34db86678cd2a6b7c494c00bc; sd1 0x19c6a9e3932cbf51d588fbcc9a29514243c18224f628796847f8d37c73774c9b12981e8adbe51f8de63a11800e3cd6f0; sa1 0x17a3f3bfcac45d43774343d5020b503433069c0eac332e69e616817e8fde35dfaeb93ca3af389b202b941085cee9a625; sd1 0x6f0881b6ecc23052ae465001906677523bc2004da395389034c166958be0c0002f835174dc84fd233664b18d5a9bc7f; sa1 0x14cf70553b39e181197af6f53a88b01192ed4aa65834cf316f471dc9dc99b396c0958ee0ec318ae2328f5773c6145124; sd1 0x1276b32b8cd4baabe4eb251063a0023f22dcba849bc1ddc69fd6a456c9a263dc27e5c5c3bffda2caea63dd6479aeb40b; sd1 0xc66ed734a0df05fc34d482c9724c3031eec6b8b1a38bcd3d4ee997098b88625ad58dd715810576f4c850dedc9e24f40; sa1 0x11e2aed70e561c07049d585ac842b13136ffc8d04d163cfaa07477b42ede953188489075afb3655dac6633f0fb0db258; sd1 0xe646c8d57747c60de7256665b557b90cf9f15f6ed010f25e0724d596e30f57b9697b6ff582b2a20c929e86152a80131; sa1 0x1187b9808706d14aa2db167419b14b566a8d7c8dd185692678ff0ed11fcbf0f6983f19ebd9a8cead8a231a2eea0de09b])].
Definition wTabOk (e : exkey) (t : Z * list sstep1) : bool :=
  (slopeEnd1 (snd t) 1 =? Z.abs (fst t)) && slopeOk1 (fst g1genZ) (snd g1genZ) (exX e) (if 0 <? fst t then exY e else pBLS - exY e) (snd t).
Lemma wTab_mul e t : wTabOk e t = true -> mul1 (g1aff G1gen) (fst t) (Aff (fpZ (exX e)) (fpZ (exY e))).
Proof.
  unfold wTabOk. rewrite andb_true_iff, Z.eqb_eq. intros (A & B).
  pose proof (slope_ok1 _ _ _ _ _ _ G1gen_on B A) as H. destruct (Z.ltb_spec 0 (fst t)) as [L|L].
  - rewrite Z.abs_eq in H by lia. exact H.
  - rewrite Z.abs_neq in H by lia. apply g1_mul_neg in H. rewrite Z.opp_involutive in H.
    replace (Aff (fpZ (exX e)) (fpZ (exY e))) with (neg1 (Aff (fpZ (exX e)) (fpZ (pBLS - exY e)))); [exact H|].
    unfold neg1, pneg. f_equal. apply fval_inj. unfold fpZ, fopp. rewrite !fval_ofZ. rewrite <- Z.sub_0_l, Zminus_mod_idemp_r.
    replace (0 - (pBLS - exY e)) with (exY e + (-1) * pBLS) by ring. rewrite Z.mod_add by discriminate. reflexivity.
Qed.
Lemma wTabs_ok : Forall2 (fun e t => wTabOk e t = true) wits wTabs.
Proof. unfold wits, wTabs. repeat (constructor; [vm_cast_no_check (eq_refl true)|]). constructor. Qed.
Definition witSks : list Z := [2; 3; 7; 11; 13; 17; 19; 23; 29; -123].
Theorem wit_secret : secret_keys witKeys witSks.
Proof.
  change witSks with (map fst wTabs). unfold secret_keys, witKeys.
  assert (G : forall l m, Forall2 (fun e t => wTabOk e t = true) l m -> (forall e, In e l -> key_x (keyE e) = fpZ (exX e) /\ key_y (keyE e) = fpZ (exY e)) ->
    Forall2 (fun k s => mul1 (g1aff G1gen) s (key_point k)) (map keyE l) (map fst m)).
  { induction 1 as [|e t l m H _ IH]; intros W; cbn [map]; constructor.
    - destruct (W e (or_introl eq_refl)) as (X & Y). unfold key_point. rewrite X, Y. exact (wTab_mul e t H).
    - apply IH. intros e' He. apply W. now right. }
  apply G; [exact wTabs_ok|]. intros e He. destruct (wit_facts e He) as (_ & X & Y). now split.
Qed.
Lemma wit_aggregates eng : aggregates eng ones10 witKeys wG.
Proof.
  split; [|right; exact ones10_1]. rewrite (signers_ones ones10 ones10_1 witKeys) by reflexivity. exact wit_sum.
Qed.
Lemma wit_signers : zsum (signers ones10 witSks) = 1.
Proof. rewrite (signers_ones ones10 ones10_1 witSks) by reflexivity. reflexivity. Qed.
(** an accepted witness with known secret keys *)
Theorem tx_witness eng : exists c, txWf c = true /\ aggregates eng (tx_BitList c) (tx_PublicKeys c) wG /\ secret_keys (tx_PublicKeys c) witSks /\
  in_G2 (aff2 (tx_Signature c)) /\ sat (txDefine eng c) tt.
Proof.
  destruct (tx_accepted eng wR (repeat (ofZ rBN 5) 10) (repeat (ofZ rBN 7) 32) eq_refl eq_refl) as (c & W & S & _ & _ & _ & Eb & Ek & Es).
  { apply Forall_forall. intros x Hx. apply repeat_spec in Hx. subst x. reflexivity. }
  exists c. rewrite Eb, Ek, Es. split; [exact W|]. split; [exact (wit_aggregates eng)|]. split; [exact wit_secret|]. split; [exact (proj2 (proj2 w_hash)) | exact S].
Qed.
(** the signature theorem applied: the example signature is 1 times its hash *)
Theorem check_witness : in_G2 (aff2 wR) /\ mul1 (g1aff G1gen) 1 (g1aff wG) /\ g2mul (aff2 wR) 1 (aff2 wR) /\ exists f, sat (MillerLoop [G1neg; wG] [wR; wR]) f /\ ~ easy_trivial f.
Proof.
  pose proof (proj2 (proj2 w_hash)) as HG. pose proof (g1_mul_1 (g1aff G1gen)) as M. pose proof (g2_mul_1 (aff2 wR)) as M2.
  split; [exact HG|]. split; [exact M|]. split; [exact M2|].
  exact (proj1 (sig_honest wG wR wR 1 HG M M2) w_check).
Qed.
Lemma order_of_mul P k R : oncurve1 P -> mul1 P rBLS Inf -> mul1 P k R -> mul1 R rBLS Inf.
Proof.
  intros HP HO H. pose proof (g1_mul_on _ _ _ HP H) as HR. destruct (g1_mul_ex R rBLS HR) as (S & HS). destruct (g1_mul_ex Inf k (Logic.I : oncurve1 Inf)) as (Y & HY).
  rewrite (g1_mul_Inf _ _ HY) in HY. pose proof (g1_mul_mul _ _ _ _ _ HP H HS) as A. pose proof (g1_mul_mul _ _ _ _ _ HP HO HY) as B. rewrite Z.mul_comm in B.
  rewrite (g1_mul_fun _ _ _ _ HP A B) in HS. exact HS.
Qed.
Theorem add_witness : exists P2 P3, oncurve1 (g1aff P2) /\ add1 (g1aff P2) (g1aff G1gen) (g1aff P3) /\ P3 <> P2 /\ mul1 (g1aff G1gen) 3 (g1aff P3).
Proof.
  pose proof wit_secret as W. unfold secret_keys, witSks, witKeys, wits in W. cbn [map] in W. inversion W as [|k2 s2 ? ? M2 W1]; subst. inversion W1 as [|k3 s3 ? ? M3 _]; subst. clear W W1.
  unfold key_point in M2, M3.
  match type of M2 with mul1 _ _ (Aff ?x ?y) => set (P2 := mkG1 x y); change (mul1 (g1aff G1gen) 2 (g1aff P2)) in M2 end.
  match type of M3 with mul1 _ _ (Aff ?x ?y) => set (P3 := mkG1 x y); change (mul1 (g1aff G1gen) 3 (g1aff P3)) in M3 end. clearbody P2 P3.
  exists P2, P3. split; [exact (g1_mul_on _ _ _ G1gen_on M2)|]. split.
  - destruct (g1_total (g1aff P2) (g1aff G1gen) (g1_mul_on _ _ _ G1gen_on M2) G1gen_on) as (S & HS).
    pose proof (g1_mul_add _ _ _ _ _ _ G1gen_on M2 (g1_mul_1 _) HS) as M. rewrite (g1_mul_fun _ _ _ _ G1gen_on M3 M). exact HS.
  - split; [|exact M3]. intros E. rewrite E in M3. apply g1_mul_neg in M2.
    pose proof (g1_mul_add _ _ _ _ _ _ G1gen_on M3 M2 (g1_add_neg _)) as M. change (3 + - (2)) with 1 in M. pose proof (g1_mul_fun _ _ _ _ G1gen_on M (g1_mul_1 _)) as X. discriminate X.
Qed.
Theorem cyclic_witness : g2on (aff2 wR) /\ g2mul (aff2 wR) rBLS Inf /\ aff2 wR <> aff2 G2gen /\ oncurve1 (g1aff G1gen) /\ mul1 (g1aff G1gen) rBLS Inf.
Proof.
  pose proof (proj2 (proj2 w_hash)) as HG. split; [exact (proj1 HG)|]. split; [exact (in_G2_order _ HG)|]. split; [|exact (conj G1gen_on G1gen_order)].
  intros E. apply (f_equal (fun P => match P with Inf => 0 | Aff x _ => fval (A0 x) end)) in E. revert E. vm_compute. discriminate.
Qed.
