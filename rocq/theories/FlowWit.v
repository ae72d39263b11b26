(** One run of each test flow, from the random values to the accepting circuit. *)
From Coq Require Import ZArith NArith List Bool Lia Field.
From Verif Require Import Params ZMod RingPow FastMod FastParams Circuit Api Emulated ApiFacts FieldFacts Tower TowerSpec TowerFacts TowerProofs FastTower Pairing CurveSpec HashField HashFieldSpec HashFieldProofs G2 PairSpec HashG2 G2Spec HashSpec
  G2Pred EcGroup G2Jac G2Mul G2Psi G2Cof G2Clear G2ClearFacts G2Order G2Chain G2Full HashSgn HashSqrt HashIso HashMap HashFinal HashWitPts HashWit MillerProofs MillerTotal MillerNeg MillerFast MillerWit FixedQ
  PairMul PairAdd PairSig G1Group G1Order Poseidon PoseidonEval Bls BlsSpec BlsExamples CircuitSpec SigSpec SigWit Helpers HelperProofs HostSpec HostFlow HostMath HostProofs FlowWitPts.
Import ListNotations.
Open Scope Z_scope.

(** ** the specification of the hash is a function *)
Lemma rfc_map_fun u P P' : u <> E2_Zero -> rfc_map u P -> rfc_map u P' -> P' = P.
Proof.
  intros N (x & y & (S & G) & M) (x' & y' & (S' & G') & M'). destruct (sswu_fun u x y x' y' N S S') as (-> & [->| ->]); [exact (iso_map_fun _ _ _ _ M' M)|].
  exfalso. rewrite (sgn0_neg y (iso_y_nz x y (sswu_on u x y S))) in G'. rewrite G in G'. now destruct (sgn0 y).
Qed.
Lemma rfc_map_on u P : rfc_map u P -> g2on P.
Proof. intros (x & y & S & M). exact (iso_on _ _ _ (sswu_on _ _ _ (proj1 S)) M). Qed.
Theorem rfc_hash_fun u0 u1 T T' : u0 <> E2_Zero -> u1 <> E2_Zero -> rfc_hash u0 u1 T -> rfc_hash u0 u1 T' -> T' = T.
Proof.
  intros N0 N1 (P0 & P1 & S & M0 & M1 & A & C) (P0' & P1' & S' & M0' & M1' & A' & C').
  pose proof (rfc_map_fun _ _ _ N0 M0 M0') as ->. pose proof (rfc_map_fun _ _ _ N1 M1 M1') as ->.
  pose proof (rfc_map_on _ _ M0) as O0. pose proof (rfc_map_on _ _ M1) as O1. pose proof (g2_func _ _ _ _ O0 O1 A A') as <-.
  exact (cleared_fun _ _ _ (g2_closed _ _ _ O0 O1 A) C' C).
Qed.

(** ** the message *)
Definition fMsg : list Z := helperMessage dc5.
Lemma fMsg_ok : bytes32 fMsg. Proof. apply message_bytes. vm_compute. reflexivity. Qed.
Lemma fMsg_field : hash_to_field pBLS fMsg dstHost 2 = Some [fu0; fu1].
Proof. vm_cast_no_check (eq_refl (Some [fu0; fu1])). Qed.
Local Ltac fmap := unfold iso_g, mn, md, mt, isoA, isoB, isoZ, E2_One, E2_Zero; fl; fast_e2.
Lemma fu0_nz : e2Z fu0 <> E2_Zero. Proof. unfold E2_Zero. fl. fast_e2. Qed.
Lemma fu1_nz : e2Z fu1 <> E2_Zero. Proof. unfold E2_Zero. fl. fast_e2. Qed.
Lemma f0_x1 : E2_Mul (e2Z fx0) (mm (e2Z fu0)) = mn (e2Z fu0). Proof. rewrite mm_sub. fmap. Qed.
Lemma f0_y : E2_Mul (e2Z fy0) (e2Z fy0) = iso_g (e2Z fx0). Proof. fmap. Qed.
Lemma f1_x1 : E2_Mul (e2Z fx1) (mm (e2Z fu1)) = mn (e2Z fu1). Proof. rewrite mm_sub. fmap. Qed.
Lemma f1_y : E2_Mul (e2Z fy1) (e2Z fy1) = iso_g (e2Z fx1). Proof. fmap. Qed.
Local Ltac fiso := unfold wP, iso_map, iso_x_num, iso_x_den, iso_y_num, iso_y_den; cbn [poly]; unfold E2_Zero; fl; split; [fast_e2|]; split; [fast_e2|]; split; fast_e2.
Lemma f0_iso : iso_map (e2Z fx0) (e2Z fy0) (wP fq0x fq0y). Proof. fiso. Qed.
Lemma f1_iso : iso_map (e2Z fx1) (e2Z fy1) (wP fq1x fq1y). Proof. fiso. Qed.
Lemma f_signs : sgn0 (e2Z fu0) = sgn0 (e2Z fy0) /\ sgn0 (e2Z fu1) = sgn0 (e2Z fy1). Proof. vm_compute. split; reflexivity. Qed.
Lemma f_real : A0 (e2Z fu0) <> fp0 /\ A0 (e2Z fu1) <> fp0 /\ A0 (e2Z fy0) <> fp0 /\ A0 (e2Z fy1) <> fp0.
Proof. repeat split; apply val_nz; vm_compute; reflexivity. Qed.
Definition fchk (o : option L12) : bool := match o with Some R => negb (l2eq (fst (fst (l12norm R))) l2zero) | None => false end.
Lemma fcheck_true : fchk (fmiller (l2Z fRx, l2Z fRy) wxyL wyiL fh0 fhs) = true.
Proof. vm_cast_no_check (eq_refl true). Qed.

(** ** the hash point *)
Definition fR : G2Affine := mkG2 (e2Z fRx) (e2Z fRy).
Lemma f_cleared : cleared (wP fSx fSy) (aff2 fR).
Proof.
  pose proof (g2_mul_neg _ _ _ fD_mul) as HD. rewrite Z.opp_involutive in HD.
  exists (wP fAx fAy), (g2neg (wP fDx fDy)), (wP fBx fBy), (wP fC0x fC0y), (psiP (wP fC0x fC0y)), (wP fCx fCy), (wP fUx fUy).
  split; [exact fA_mul|]. split; [exact HD|]. split; [apply psiP_spec; symmetry; exact fB_psi|]. split; [exact fC_mul|]. split; [apply psiP_spec; reflexivity|].
  split; [apply psiP_spec; symmetry; exact fC_psi|]. split; [exact fU_add | exact fR_add].
Qed.
Lemma fR_G2 : in_G2 (aff2 fR).
Proof. destruct (clear_in_G2 _ _ fS_on f_cleared) as [E|G]; [discriminate E | exact G]. Qed.
Lemma f0_sswu : sswu (e2Z fu0) (e2Z fx0) (e2Z fy0). Proof. split; [exact (xy_case1 _ _ _ fu0_nz f0_x1 f0_y) | exact (proj1 f_signs)]. Qed.
Lemma f1_sswu : sswu (e2Z fu1) (e2Z fx1) (e2Z fy1). Proof. split; [exact (xy_case1 _ _ _ fu1_nz f1_x1 f1_y) | exact (proj2 f_signs)]. Qed.
Lemma f0_map : rfc_map (e2Z fu0) (wP fq0x fq0y). Proof. exists (e2Z fx0), (e2Z fy0). exact (conj f0_sswu f0_iso). Qed.
Lemma f1_map : rfc_map (e2Z fu1) (wP fq1x fq1y). Proof. exists (e2Z fx1), (e2Z fy1). exact (conj f1_sswu f1_iso). Qed.
Theorem f_rfc : rfc_hash (e2Z fu0) (e2Z fu1) (aff2 fR).
Proof. exists (wP fq0x fq0y), (wP fq1x fq1y), (wP fSx fSy). exact (conj f0_map (conj f1_map (conj fS_add f_cleared))). Qed.
Theorem f_hash h : host_hash fMsg dstHost h <-> h = fR.
Proof.
  split.
  - intros (c0 & c1 & T & E & R & ->). rewrite fMsg_field in E. injection E as <- <-. change (pairE2 fu0) with (e2Z fu0) in R. change (pairE2 fu1) with (e2Z fu1) in R.
    rewrite (rfc_hash_fun _ _ _ _ fu0_nz fu1_nz f_rfc R). reflexivity.
  - intros ->. exists fu0, fu1, (aff2 fR). split; [exact fMsg_field|]. split; [exact f_rfc | reflexivity].
Qed.
Lemma sswu_A0 u x y : u <> E2_Zero -> sswu u x y -> A0 y <> fp0 -> forall x' y', sswu u x' y' -> A0 y' <> fp0.
Proof. intros N S H x' y' S'. destruct (sswu_fun u x y x' y' N (proj1 S) (proj1 S')) as (_ & [->| ->]); [exact H | now apply neg_A0']. Qed.
Theorem f_plain : plain_hash fMsg dstHost.
Proof.
  intros c0 c1 E. rewrite fMsg_field in E. injection E as <- <-. change (pairE2 fu0) with (e2Z fu0). change (pairE2 fu1) with (e2Z fu1).
  destruct f_real as (R0 & R1 & R2 & R3). split; [exact R0|]. split; [exact R1|]. split; [exact (sswu_A0 _ _ _ fu0_nz f0_sswu R2)|]. split; [exact (sswu_A0 _ _ _ fu1_nz f1_sswu R3)|].
  intros P0 P1 M0 M1 EP. rewrite (rfc_map_fun _ _ _ fu0_nz f0_map M0), (rfc_map_fun _ _ _ fu1_nz f1_map M1) in EP. exact (fq_diff EP).
Qed.
Lemma fR_nz : fR <> mkG2 E2_Zero E2_Zero.
Proof. intros E. apply (HostProofs.g2_y_nz _ _ (proj1 fR_G2)). apply (f_equal g2Y) in E. exact E. Qed.
Lemma fnorm_gen G q P lxy lyi yi g0 hs : g1Y P <> fp0 -> fmul yi (g1Y P) = fp1 -> standsG G q -> stands2 lxy (mkE2 (fmul (g1X P) yi) fp0) -> stands2 lyi (mkE2 yi fp0) ->
  fchk (fmiller G lxy lyi g0 hs) = true -> exists f, determ (MillerLoop [P] [q]) f /\ B0 (norm6 f) <> E2_Zero.
Proof.
  intros N I SG Sx Sy. destruct (fmiller G lxy lyi g0 hs) as [R|] eqn:E; [|discriminate]. unfold fchk. intros H. apply negb_true_iff in H.
  destruct (fmiller_val G q P lxy lyi yi g0 hs R N I SG Sx Sy E) as (f & D & S). exists f. split; [exact D|]. pose proof (st12_norm _ _ S) as S'. rewrite norm6_conj_inv in S'.
  exact (l2neq_ok _ _ _ _ (proj1 S') st2_zero H).
Qed.
Lemma fR_stands : standsG (l2Z fRx, l2Z fRy) fR. Proof. split; apply st2_Z. Qed.
Lemma f_miller : exists f, determ (MillerLoop [wG] [fR]) f /\ B0 (norm6 f) <> E2_Zero.
Proof. exact (fnorm_gen (l2Z fRx, l2Z fRy) fR wG wxyL wyiL wyi fh0 fhs wG_y wyi_ok fR_stands (st_real (fmul g1GenX wyi)) (st_real wyi) fcheck_true). Qed.
Theorem f_good : good_signers [1] fR fR.
Proof.
  split; [discriminate|]. split.
  { intros a s b E N. destruct a as [|x a]; [now destruct N|]. exfalso. injection E as _ E. destruct a; discriminate E. }
  exists wG. destruct f_miller as (f & D & NN).
  pose proof (g1_mul_1 (g1aff G1gen)) as M. pose proof (g2_mul_1 (aff2 fR)) as M2.
  assert (C : sat (PairingCheck [G1neg; wG] [fR; fR]) tt).
  { apply (check_neg wG fR f wG_y (proj1 fR_G2) (in_G2_above _ fR_G2) (run_sat _ _ (proj1 D))). intros (X & _). exact (NN X). }
  destruct (proj1 (sig_honest wG fR fR 1 fR_G2 M M2) C) as (F & F1 & F2). exists F. split; [exact M|]. split; [exact F1 | exact F2].
Qed.

(** ** the keys and the commitment *)
Definition dHost : HostG1 := mkHost (recompose64 dXl) (recompose64 dYl).
Lemma dHost_x : limbsOf (hX dHost) = dXl. Proof. vm_compute. reflexivity. Qed.
Lemma dHost_y : limbsOf (hY dHost) = dYl. Proof. vm_compute. reflexivity. Qed.
Lemma two_tab : wTabOk (hd (mkEx 0 0 [] []) wits) (hd (0, []) wTabs) = true. Proof. vm_cast_no_check (eq_refl true). Qed.
Lemma two_val : host1 (Aff (fpZ (exX (hd (mkEx 0 0 [] []) wits))) (fpZ (exY (hd (mkEx 0 0 [] []) wits)))) = dHost. Proof. vm_compute. reflexivity. Qed.
Lemma base_two v : base_mul 2 v -> v = dHost.
Proof.
  intros (P & M & ->). pose proof (g1_mul_fun _ _ _ _ G1gen_on M (wTab_mul _ _ two_tab)) as ->. exact two_val.
Qed.
Lemma base_ones n : forall pks, Forall2 base_mul (repeat 1 n) pks -> pks = repeat gHost n.
Proof. induction n as [|n IH]; cbn [repeat]; intros pks K; inversion K; subst; [reflexivity|]. f_equal; [now apply base_one | now apply IH]. Qed.
Theorem commit_dc5 hash : iden3_hash hash -> genCommitment hash (upd (repeat gHost 10) 3 dHost) (repeat 5 10) = Some dc5.
Proof.
  intros Hh. unfold genCommitment.
  assert (G : genOne hash gHost 5 = Some gk5).
  { unfold genOne. rewrite gHost_X, gHost_Y.
    rewrite (det_val hash gXl gcx Hh ltac:(cbn; lia) eq_refl eq_refl hash_gX). cbn [obind].
    rewrite (det_val hash gYl gcy Hh ltac:(cbn; lia) eq_refl eq_refl hash_gY). cbn [obind].
    exact (det_val hash [gcx; gcy; 5] gk5 Hh ltac:(cbn; lia) eq_refl eq_refl hash_gk). }
  assert (D : genOne hash dHost 5 = Some dk5).
  { unfold genOne. rewrite dHost_x, dHost_y.
    rewrite (det_val hash dXl dcx Hh ltac:(cbn; lia) eq_refl eq_refl hash_dX). cbn [obind].
    rewrite (det_val hash dYl dcy Hh ltac:(cbn; lia) eq_refl eq_refl hash_dY). cbn [obind].
    exact (det_val hash [dcx; dcy; 5] dk5 Hh ltac:(cbn; lia) eq_refl eq_refl hash_dk). }
  replace (omap _ (seq 0 10)) with (Some dks).
  - cbn [obind]. exact (det_val hash dks dc5 Hh ltac:(cbn; lia) eq_refl eq_refl hash_dc).
  - symmetry. cbn [seq omap nth repeat upd]. rewrite G. cbn [obind]. rewrite D. reflexivity.
Qed.

(** ** the two runs *)
Definition fBits : list Z := 1 :: repeat 0 9.
Lemma fvalues : test_values (repeat 1 10) fBits (repeat 5 10).
Proof.
  repeat (split; [reflexivity|]). split; [|split].
  - apply Forall_forall. intros y Y. apply repeat_spec in Y. subst y. split; [lia | reflexivity].
  - unfold fBits. constructor; [now right|]. apply Forall_forall. intros y Y. apply repeat_spec in Y. subst y. now left.
  - apply Forall_forall. intros y Y. apply repeat_spec in Y. subst y. split; [lia | reflexivity].
Qed.
Lemma sole_sig st l sw sig : map snd (taken st l) = [1] -> sign_loop st fR l (0, mkG2 E2_Zero E2_Zero) (sw, sig) -> sig = fR.
Proof.
  intros E L. destruct (sign_value st (aff2 fR) l (proj1 fR_G2) 0 0 Inf (sw, sig) (g2_mul_0 _) L) as (A & EA & MA & _). cbn [snd] in EA. rewrite E in MA.
  change (0 + zsum [1]) with 1 in MA. rewrite (g2_mul_fun _ _ _ _ (proj1 fR_G2) MA (g2_mul_1 _)) in EA. exact EA.
Qed.
Theorem f_tx hash : iden3_hash hash -> exists asg, test_tx hash (repeat 1 10) fBits (repeat 5 10) fMsg asg /\ run (txDefine TestEngine asg) = Some tt.
Proof.
  intros HI. destruct (tx_flow_total hash _ _ _ _ HI fvalues fMsg_ok) as (asg & T). exists asg. split; [exact T|].
  pose proof T as (pks & c & h & sw & sig & (K & _) & HH & LO & _ & EA). apply f_hash in HH. subst h.
  assert (ES : sig = fR) by (refine (sole_sig _ _ _ _ _ LO); reflexivity). subst sig.
  apply (tx_flow hash _ _ _ _ asg HI fvalues fMsg_ok f_plain T).
  - rewrite EA. exact fR_nz.
  - rewrite EA. cbn [tx_BitList tx_Signature tx_MessageHash]. replace (signers (bigIntToVariableArray fBits) (repeat 1 10)) with [1] by (vm_compute; reflexivity). exact f_good.
Qed.
Definition fChange : change := mkChange 3 2 5 0.
Lemma fchange_ok : Forall change_range [fChange] /\ Forall (change_fresh (repeat 1 10)) [fChange].
Proof.
  split; constructor; [|constructor| |constructor].
  - split; [split; [reflexivity | reflexivity]|]. split; [split; [discriminate | reflexivity] | now left].
  - intros I. apply repeat_spec in I. discriminate I.
Qed.
Theorem f_rotate hash : iden3_hash hash -> exists new newMsg asg, test_rotate hash (repeat 1 10) fBits (repeat 5 10) [fChange] new newMsg asg /\ run (rotateDefine TestEngine asg) = Some tt.
Proof.
  intros HI. destruct fchange_ok as [CR CF].
  destruct (rotate_flow_total hash _ _ _ [fChange] HI fvalues CR) as (pks & new & c2 & K & CL & EC & _ & T).
  { constructor; [intros [] | constructor]. }
  { constructor; [cbn; lia | constructor]. }
  apply base_ones in K. subst pks. inversion CL as [|m ch l s pk r NI LT BM CL']; subst. inversion CL'; subst. clear CL' NI LT.
  cbn [fChange chIndex chSecret chWeight chBit stSecrets stKeys stWeights stBits] in *. apply base_two in BM. subst pk.
  change (upd (repeat 5 10) 3 5) with (repeat 5 10) in EC. rewrite (commit_dc5 hash HI) in EC. injection EC as <-.
  destruct T as (newMsg & asg & T); [vm_compute; discriminate|]. eexists _, newMsg, asg. split; [exact T|].
  pose proof T as (pks & c & c2 & sw & sig & (K & _) & _ & EC & HH & LO & _ & _ & EA). cbn [stSecrets stKeys stWeights stBits] in *.
  change (upd (repeat 5 10) 3 5) with (repeat 5 10) in EC. rewrite (commit_dc5 hash HI) in EC. injection EC as <-.
  change (helperMessage dc5) with fMsg in *. apply f_hash in HH. subst newMsg.
  assert (ES : sig = fR) by (refine (sole_sig _ _ _ _ _ LO); reflexivity). subst sig.
  apply (rotate_flow hash _ _ _ _ _ fR asg HI fvalues CR CF T).
  - rewrite EA. cbn [ro_NewApkCommitmentBytes]. rewrite (bytes_back _ fMsg_ok). exact f_plain.
  - exact fR_nz.
  - rewrite EA. cbn [ro_BitList ro_Signature stSecrets]. replace (signers _ _) with [1] by (vm_compute; reflexivity). exact f_good.
Qed.
