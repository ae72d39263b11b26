(** Facts behind the host flow: multiples of the G1 generator, the honest run of
    the two-pair check, and existence of the RFC 9380 hash. *)
From Coq Require Import ZArith NArith List Bool Lia Znumtheory Field.
From Verif Require Import Primes Params ZMod Circuit Api Emulated ApiFacts FieldFacts Tower TowerSpec TowerFacts TowerProofs Pairing CurveSpec G2 PairSpec HashG2 G2Spec HashSpec G2Pred EcGroup G2Jac G2Psi G2Mul G2Cof G2Order G2Clear MillerProofs FixedQ FinalExp FinalExpProofs FinalExpSpec PairProofs Bls BlsSpec SigSpec CircuitSpec CircuitProofs MillerTotal G1Group G1Order G2Cyclic PairAdd PairMul PairSig PairNondeg HashSgn HashSqrt HashIso HashMap HashFinal HashWit G2Full HashFull HostSpec.
Import ListNotations.
Open Scope Z_scope.
Add Field FpFHM : Fp_ft.
Add Field E2FHM : E2_ft.

(** *** multiples of the generator of G1 *)
Notation mulG := (mul1 (g1aff G1gen)).
Lemma gen_nonzero k : ~ (rBLS | k) -> ~ mulG k Inf.
Proof.
  intros N H. destruct (rel_prime_bezout _ _ (prime_rel_prime _ rBLS_prime _ N)) as [u w E].
  assert (Z : forall c m, mulG m Inf -> mulG (c * m) Inf).
  { intros c m Hm. destruct (g1_mul_ex Inf c (Logic.I : oncurve1 Inf)) as (S & HS). rewrite (g1_mul_Inf _ _ HS) in HS.
    rewrite Z.mul_comm. exact (g1_mul_mul _ _ _ _ _ G1gen_on Hm HS). }
  pose proof (g1_mul_add _ _ _ _ _ _ G1gen_on (Z u _ G1gen_order) (Z w _ H) (g1_add_O Inf (Logic.I : oncurve1 Inf))) as X. rewrite E in X.
  pose proof (g1_mul_fun _ _ _ _ G1gen_on X (g1_mul_1 _)) as F. discriminate F.
Qed.
Lemma gen_small k : 0 < k < rBLS -> ~ mulG k Inf.
Proof. intros H. apply gen_nonzero. intros D. apply Z.divide_pos_le in D; lia. Qed.
Lemma gen_sub i j A : mulG i A -> mulG j A -> mulG (i - j) Inf.
Proof.
  intros Hi Hj. apply g1_mul_neg in Hj. replace (i - j) with (i + - j) by lia.
  exact (g1_mul_add _ _ _ _ _ _ G1gen_on Hi Hj (g1_add_neg A)).
Qed.
Lemma gen_inj i j A : 0 <= i < rBLS -> 0 <= j < rBLS -> mulG i A -> mulG j A -> i = j.
Proof.
  intros Ri Rj Hi Hj. destruct (Z.lt_trichotomy i j) as [L|[E|L]]; [exfalso| exact E | exfalso].
  - apply (gen_small (j - i)); [lia | exact (gen_sub _ _ _ Hj Hi)].
  - apply (gen_small (i - j)); [lia | exact (gen_sub _ _ _ Hi Hj)].
Qed.
Lemma same_x1 x y y' : oncurve1 (Aff x y) -> oncurve1 (Aff x y') -> y' = y \/ y' = fopp y.
Proof.
  unfold oncurve1. cbn [on_curve]. intros HP HQ. rewrite <- HP in HQ.
  assert (Z : fmul (fsub y' y) (fsub y' (fopp y)) = f0 pBLS). { transitivity (fsub (fmul y' y') (fmul y y)); [ring|]. rewrite HQ. ring. }
  apply Fp_integral in Z. destruct Z as [Z|Z]; [left | right].
  - transitivity (fadd (fsub y' y) y); [ring | rewrite Z; ring].
  - transitivity (fadd (fsub y' (fopp y)) (fopp y)); [ring | rewrite Z; ring].
Qed.
Lemma gen_x i j x y y' : 0 < i -> 0 < j -> i + j < rBLS -> mulG i (Aff x y) -> mulG j (Aff x y') -> i = j.
Proof.
  intros Pi Pj L Hi Hj. destruct (same_x1 x y y' (g1_mul_on _ _ _ G1gen_on Hi) (g1_mul_on _ _ _ G1gen_on Hj)) as [->| ->].
  - refine (gen_inj i j _ _ _ Hi Hj); lia.
  - exfalso. apply g1_mul_neg in Hj. unfold neg1 in Hj. cbn [pneg] in Hj. replace (fopp (fopp y)) with y in Hj by ring.
    apply (gen_small (i + j)); [lia|]. replace (i + j) with (i - - j) by lia. exact (gen_sub _ _ _ Hi Hj).
Qed.

(** *** sums of signers' keys *)
Lemma zsum_app a b : zsum (a ++ b) = zsum a + zsum b.
Proof. induction a as [|x a IH]; [reflexivity|]. cbn [app zsum fold_right]. fold (zsum (a ++ b)). rewrite IH. unfold zsum. cbn [fold_right]. lia. Qed.
Lemma zsum_pos a : Forall (fun s => 0 < s) a -> a <> [] -> 0 < zsum a.
Proof.
  intros F N. destruct a as [|x a]; [contradiction|]. clear N. apply Forall_cons_iff in F. destruct F as [P F].
  assert (0 <= zsum a). { clear P x. induction F as [|y l Py F IH]; [cbn; lia|]. unfold zsum in *. cbn [fold_right]. lia. }
  unfold zsum in *. cbn [fold_right]. lia.
Qed.
Lemma no_doubling_init l s : no_doubling (l ++ [s]) <-> no_doubling l /\ (l <> [] -> s <> zsum l).
Proof.
  split.
  - intros H. split.
    + intros a t b E N. apply (H a t (b ++ [s])); [|exact N]. rewrite E, <- app_assoc. reflexivity.
    + intros N. exact (H l s [] eq_refl N).
  - intros [H1 H2] a t b E N. destruct (list_eq_dec Z.eq_dec b []) as [->|NB]; [|destruct (exists_last NB) as (b' & z & ->)].
    + apply app_inj_tail in E. destruct E as [<- <-]. exact (H2 N).
    + rewrite app_comm_cons, app_assoc in E. apply app_inj_tail in E. destruct E as [E _]. exact (H1 a t b' E N).
Qed.
Definition keyAt (p : Fp * Fp) (k : Z) : Prop := mulG k (Aff (fst p) (snd p)).
Lemma Forall2_snoc_l {A B} (R : A -> B -> Prop) l p ks : Forall2 R (l ++ [p]) ks -> exists ks' k, ks = ks' ++ [k] /\ Forall2 R l ks' /\ R p k.
Proof.
  intros H. apply Forall2_app_inv_l in H. destruct H as (a & b & H1 & H2 & ->). inversion H2 as [|? k ? t H3 H4]; subst. inversion H4; subst.
  exists a, k. auto.
Qed.
Lemma nonneg_zsum a : Forall (fun s => 0 < s) a -> 0 <= zsum a.
Proof. intros F. destruct a as [|x a]; [cbn; lia|]. pose proof (zsum_pos (x :: a) F ltac:(discriminate)). lia. Qed.
Theorem generic_keys l ks : l <> [] -> Forall2 keyAt l ks -> Forall (fun k => 0 < k) ks -> zsum ks < rBLS ->
  ((exists r, generic_sum l r) <-> no_doubling ks).
Proof.
  revert ks. induction l as [|p l IH] using rev_ind; intros ks N K P B; [contradiction|]. clear N.
  destruct (Forall2_snoc_l _ _ _ _ K) as (ks' & k & -> & K' & Kp). clear K.
  apply Forall_app in P. destruct P as [P Pk]. apply Forall_inv in Pk. rewrite zsum_app in B. change (zsum [k]) with (k + 0) in B.
  rewrite no_doubling_init. destruct l as [|q l'].
  - inversion K'; subst. split.
    + intros _. split; [|intros E; now destruct E]. intros a s b E. destruct a; discriminate E.
    + intros _. exists p. constructor.
  - set (l := q :: l') in *. assert (NL : l <> []) by discriminate. clearbody l. clear q l'.
    assert (NK : ks' <> []) by (intros ->; inversion K'; subst; now destruct NL).
    specialize (IH ks' NL K' P ltac:(lia)). pose proof (zsum_pos ks' P NK) as ZP. split.
    + intros (r & H). inversion H as [? E|l0 s p0 r0 H1 H2 H3 E]; subst.
      { destruct l; [now destruct NL | destruct l; discriminate]. }
      apply app_inj_tail in E. destruct E as [-> ->]. split; [apply IH; now exists s|]. intros _ ->.
      pose proof (generic_scalar _ G1gen_on l s H1 ks' K') as M. unfold keyAt in Kp.
      pose proof (g1_mul_fun _ _ _ _ G1gen_on M Kp) as F. apply H2. now injection F.
    + intros [D1 D2]. destruct (proj2 IH D1) as (s & H1). pose proof (generic_scalar _ G1gen_on l s H1 ks' K') as M.
      assert (NX : fst s <> fst p).
      { intros E. unfold keyAt in Kp. rewrite <- E in Kp. apply (D2 NK). symmetry. refine (gen_x _ _ _ _ _ ZP Pk _ M Kp). lia. }
      destruct (g1_total _ _ (g1_mul_on _ _ _ G1gen_on M) (g1_mul_on _ _ _ G1gen_on Kp)) as (R & HR).
      destruct R as [|x y].
      * exfalso. pose proof (g1_mul_add _ _ _ _ _ _ G1gen_on M Kp HR) as Z. apply (gen_small _ ltac:(split; [|exact ltac:(rewrite Z.add_0_r in B; exact B)]; lia) Z).
      * exists (x, y). apply (gs_snoc _ s); [exact H1 | exact NX | exact HR].
Qed.

Lemma F2_two {A B} (R : A -> B -> Prop) a b c d : R a c -> R b d -> Forall2 R [a; b] [c; d].
Proof. intros H1 H2. constructor; [exact H1|]. constructor; [exact H2 | constructor]. Qed.
(** *** honest run of the check with two pairs *)
Theorem check_run K S H k : in_G2 (aff2 H) -> mulG k (g1aff K) -> g2mul (aff2 H) k (aff2 S) ->
  (run (PairingCheck [G1neg; K] [S; H]) = Some tt <-> exists f, sat (MillerLoop [G1neg; K] [S; H]) f /\ ~ easy_trivial f).
Proof.
  intros HH HK HS. pose proof (sig_honest K S H k HH HK HS) as SH. split; [intros R; exact (proj1 SH (run_sat _ _ R))|].
  intros (f & Hf & NE). pose proof (proj2 SH (ex_intro _ f (conj Hf NE))) as HC. apply pair_many_sat in HC; [|discriminate].
  destruct HC as (g & Hg & Fg & Eg).
  assert (GS : in_G2 (aff2 S)) by (apply (in_G2_mul _ _ _ HH HS); discriminate).
  apply two_miller in Hg. destruct Hg as (m1 & m2 & M1 & M2 & Eg').
  assert (Y1 : g1Y G1neg <> f0 pBLS) by (intros E; apply (f_equal fval) in E; vm_compute in E; discriminate E).
  assert (Y2 : g1Y K <> f0 pBLS).
  { exact (g1_y_nz _ _ (g1_mul_on _ _ _ G1gen_on HK)). }
  destruct (miller_total_G2 G1neg S Y1 GS) as (n1 & R1 & D1). destruct (miller_total_G2 K H Y2 HH) as (n2 & R2 & D2).
  rewrite (D1 _ M1) in *. rewrite (D2 _ M2) in *. clear D1 D2 M1 M2 m1 m2.
  assert (RM : run (MillerLoop [G1neg; K] [S; H]) = Some g).
  { apply (miller_run [G1neg; K] [S; H] g). split; [reflexivity|]. split; [discriminate|]. exists [n1; n2].
    cbn [combine]. split; [apply F2_two; cbn [fst snd]; [exact R1 | exact R2]|]. rewrite <- rep12_Prod. cbn [fold_right]. rewrite Eg'. f_equal. now rewrite E12_1_r. }
  destruct (safe_complete g (miller_neq0 _ _ _ (run_sat _ _ RM)) Eg) as (D & _). rewrite Fg in D.
  change (FinalExponentiation g) with (finalExponentiation g false) in D.
  unfold PairingCheck, Pair. cbv zeta. rewrite !run_bind, RM. cbn [length Nat.eqb]. rewrite run_bind, D. cbn [run].
  unfold E12_AssertIsEqual. rewrite (proj2 (E12_eqb_eq E12_One E12_One) eq_refl). reflexivity.
Qed.

(** *** the hash exists *)
Lemma odd_flip p a : Z.odd p = true -> 0 < a < p -> Z.odd ((- a) mod p) = negb (Z.odd a).
Proof.
  intros O R. replace ((- a) mod p) with (p - a).
  - rewrite Z.odd_sub, O. now destruct (Z.odd a).
  - apply (Zmod_unique _ _ (-1)); lia.
Qed.
Lemma opp_zero (x : Fp) : (fval (fopp x) =? 0) = (fval x =? 0).
Proof.
  rewrite fval_opp. destruct (Z.eqb_spec (fval x) 0) as [E|E]; [rewrite E; reflexivity|].
  pose proof (fval_pos x) as R. apply Z.eqb_neq. rewrite <- (Zmod_unique (- fval x) pBLS (-1) (pBLS - fval x)); lia.
Qed.
Lemma opp_odd (x : Fp) : (fval x =? 0) = false -> Z.odd (fval (fopp x)) = negb (Z.odd (fval x)).
Proof. intros E. apply Z.eqb_neq in E. rewrite fval_opp. apply odd_flip; [reflexivity|]. pose proof (fval_pos x). lia. Qed.
Lemma sgn0_neg y : y <> E2_Zero -> sgn0 (E2_Neg y) = negb (sgn0 y).
Proof.
  intros N. destruct y as [a b]. unfold sgn0, E2_Neg. cbn [A0 A1]. rewrite opp_zero.
  destruct (fval a =? 0) eqn:E.
  - assert (a = fp0) by (apply fval_inj; apply Z.eqb_eq in E; exact E). subst a.
    assert (NB : (fval b =? 0) = false). { apply Z.eqb_neq. intros E'. apply N. unfold E2_Zero. f_equal. apply fval_inj. exact E'. }
    rewrite (opp_odd b NB). change (Z.odd (fval (@fopp pBLS fp0))) with false. change (Z.odd (fval fp0)) with false. reflexivity.
  - rewrite (opp_odd a E). now destruct (Z.odd (fval a)).
Qed.
Lemma iso_y_nz x y : isoon (Aff x y) -> y <> E2_Zero.
Proof.
  intros I E. destruct (iso_total x y I) as (q & _ & M & O). pose proof (kmul_y (aff2 q) 1 q O (g2_mul_1 _)) as NY. apply NY.
  destruct M as (_ & D & _ & M). rewrite E in M.
  assert (Z : E2_Mul (g2Y q) (poly iso_y_den x) = E2_Zero) by (rewrite M; ring). clear M.
  revert D Z. generalize (g2Y q), (poly iso_y_den x). intros a d D Z. transitivity (E2_Mul (E2_Mul a d) (E2_inv d)); [field; exact D | rewrite Z; ring].
Qed.
Theorem sswu_total u : exists x y, sswu u x y.
Proof.
  destruct (E2_eqb u E2_Zero) eqn:E.
  - apply E2_eqb_eq in E. subst u. destruct map_zero_ex as (x & y & S & _). now exists x, y.
  - assert (N : u <> E2_Zero) by (intros ->; rewrite (proj2 (E2_eqb_eq _ _) eq_refl) in E; discriminate).
    destruct (map_honest u N) as (x & y & _ & S & _). destruct (bool_dec (sgn0 u) (sgn0 y)) as [B|B]; [exists x, y; now split|].
    exists x, (E2_Neg y). split.
    + destruct S as (a & b & S1 & S2 & S3 & S4 & S5). exists a, b. repeat (split; [assumption|]). rewrite <- S5. ring.
    + rewrite (sgn0_neg y (iso_y_nz x y (sswu_on u x y S))). destruct (sgn0 u), (sgn0 y); try reflexivity; now destruct B.
Qed.
Lemma rfc_map_total u : exists P, rfc_map u P /\ g2on P.
Proof.
  destruct (sswu_total u) as (x & y & S). destruct (iso_total x y (sswu_on _ _ _ (proj1 S))) as (q & _ & M & O).
  exists (aff2 q). split; [|exact O]. exists x, y. now split.
Qed.
Theorem rfc_total u0 u1 : exists T, rfc_hash u0 u1 T /\ (T = Inf \/ in_G2 T).
Proof.
  destruct (rfc_map_total u0) as (P0 & M0 & O0). destruct (rfc_map_total u1) as (P1 & M1 & O1).
  destruct (g2_total P0 P1 O0 O1) as (S & HS). pose proof (g2_closed _ _ _ O0 O1 HS) as OS.
  assert (X : exists T, cleared S T).
  { destruct (cleared_ex S OS) as (A & B0 & B & C0 & C1 & C & V & T & E1 & E2 & E3 & E4 & E5 & E6 & E7 & E8 & _). exists T, A, B0, B, C0, C1, C, V. auto 10. }
  destruct X as (T & HT). exists T. split; [exists P0, P1, S; auto|]. exact (clear_in_G2 S T OS HT).
Qed.
