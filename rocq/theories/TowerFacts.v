(** E2, E6, E12 are fields; Frobenius; agreement with the schoolbook spec. *)
From Coq Require Import ZArith List Bool Lia Ring Field Znumtheory.
From Verif Require Import Params ZMod RingPow Primes FastTower Circuit Api Emulated Tower FieldFacts TowerSpec.
Import ListNotations.
Open Scope Z_scope.

(** ** agreement with the specification *)
Definition rep2 (x : E2) : list Fp := [A0 x; A1 x].
Definition rep6 (x : E6) : list (list Fp) := [rep2 (B0 x); rep2 (B1 x); rep2 (B2 x)].
Definition rep12 (x : E12) : list (list (list Fp)) := [rep6 (C0 x); rep6 (C1 x)].
(** coefficients in the basis 1, w, ..., w^5 over Fp2 *)
Definition rep12w (x : E12) : list (list Fp) :=
  [rep2 (B0 (C0 x)); rep2 (B0 (C1 x)); rep2 (B1 (C0 x));
   rep2 (B1 (C1 x)); rep2 (B2 (C0 x)); rep2 (B2 (C1 x))].

Lemma cons_eq {A} (a b : A) l m : a = b -> l = m -> a :: l = b :: m.
Proof. congruence. Qed.

Ltac spec_eq := repeat (apply cons_eq); try reflexivity.
Ltac spec_eq2 := apply cons_eq; [|apply cons_eq; [|reflexivity]].
Ltac spec_eq3 := apply cons_eq; [|spec_eq2].
Ltac spec_eq6 := apply cons_eq; [|apply cons_eq; [|apply cons_eq; [|spec_eq3]]].

Lemma rep2_mul x y : rep2 (E2_Mul x y) = S2mul (rep2 x) (rep2 y).
Proof. unfold S2mul, rep2, quot_mul, coef, sumR; cbn -[fadd fmul fopp fsub f0 f1]. spec_eq; ring. Qed.
Lemma rep2_add x y : rep2 (E2_Add x y) = S2add (rep2 x) (rep2 y).
Proof. reflexivity. Qed.
Lemma rep2_sub x y : rep2 (E2_Sub x y) = S2sub (rep2 x) (rep2 y).
Proof. reflexivity. Qed.
Lemma rep2_zero : S2zero = rep2 E2_Zero. Proof. reflexivity. Qed.
Lemma rep2_xi : S2xi = rep2 E2_NonResidue. Proof. reflexivity. Qed.

Lemma rep6_mul x y : rep6 (E6_Mul x y) = S6mul (rep6 x) (rep6 y).
Proof.
  unfold S6mul, rep6, quot_mul, coef, sumR; cbn -[fadd fmul fopp fsub f0 f1 S2mul S2add S2zero S2xi rep2 E6_Mul].
  rewrite rep2_zero, rep2_xi, <- ?rep2_mul. rewrite <- ?rep2_mul. rewrite <- ?rep2_add.
  spec_eq3; f_equal; cbn [E6_Mul B0 B1 B2]; e2_norm; ring.
Qed.
Lemma rep6_add x y : rep6 (E6_Add x y) = S6add (rep6 x) (rep6 y).
Proof. reflexivity. Qed.
Lemma rep6_sub x y : rep6 (E6_Sub x y) = S6sub (rep6 x) (rep6 y).
Proof. reflexivity. Qed.
Lemma rep6_zero : S6zero = rep6 E6_Zero. Proof. reflexivity. Qed.
Lemma rep6_v : S6v = rep6 e6_v. Proof. reflexivity. Qed.

Lemma rep12_mul x y : rep12 (E12_Mul x y) = S12mul (rep12 x) (rep12 y).
Proof.
  unfold S12mul, rep12, quot_mul, coef, sumR; cbn -[S6mul S6add S6zero S6v rep6 E12_Mul].
  rewrite rep6_zero, rep6_v, <- ?rep6_mul. rewrite <- ?rep6_mul. rewrite <- ?rep6_add.
  spec_eq2; f_equal; cbn [E12_Mul C0 C1]; e6_norm; ring.
Qed.
Lemma rep12_add x y : rep12 (E12_Add x y) = S12add (rep12 x) (rep12 y).
Proof. reflexivity. Qed.
Lemma rep12_sub x y : rep12 (E12_Sub x y) = S12sub (rep12 x) (rep12 y).
Proof. reflexivity. Qed.
Lemma rep12w_mul x y : rep12w (E12_Mul x y) = S12wmul (rep12w x) (rep12w y).
Proof.
  unfold S12wmul, rep12w, quot_mul, coef, sumR;
    cbn -[fadd fmul fopp fsub f0 f1 S2mul S2add S2zero S2xi rep2 E12_Mul].
  rewrite rep2_zero, rep2_xi, <- ?rep2_mul. rewrite <- ?rep2_mul. rewrite <- ?rep2_add.
  spec_eq6; f_equal; cbn [E12_Mul C0 C1]; cbn [E6_Add E6_Sub E6_Mul E6_MulByNonResidue B0 B1 B2]; e2_norm; ring.
Qed.

Lemma rep2_inj x y : rep2 x = rep2 y -> x = y.
Proof. intros [= ? ?]; now apply E2_ext. Qed.
Lemma rep6_inj x y : rep6 x = rep6 y -> x = y.
Proof. intros [= ? ? ? ? ? ?]; apply E6_ext; now apply E2_ext. Qed.
Lemma rep12_inj x y : rep12 x = rep12 y -> x = y.
Proof. intros [= ? ? ? ? ? ? ? ? ? ? ? ?]; apply E12_ext; apply E6_ext; now apply E2_ext. Qed.

(** ** Fp facts *)
Lemma fp_integral (x y : Fp) : fmul x y = fp0 -> x = fp0 \/ y = fp0.
Proof. apply fm_integral, pBLS_prime. Qed.
Lemma fp_1_neq_0 : fp1 <> fp0. Proof. apply fm_1_neq_0, pBLS_prime. Qed.

(** exponent arithmetic on the prime: done with [N] so that nothing unfolds *)
Definition pN : N := Z.to_N pBLS.

(** facts about p used below; existential so that no later step computes with p *)
Lemma pN_form4 : exists k, (pN = 1 + 2 * (2 * k + 1))%N.
Proof. exists 1000602388805416848354447456433976039139220704984751971333014534031007912622709466110671907282253916009473568139946%N. reflexivity. Qed.
Lemma pN_pred : (pN - 1 = Z.to_N (pBLS - 1))%N.
Proof. vm_compute. reflexivity. Qed.
Lemma pN_pos : (1 < pN)%N.
Proof. vm_compute. reflexivity. Qed.

Lemma fpow_p (x : Fp) : fpow x pN = x.
Proof. apply fermat, pBLS_prime. Qed.
Lemma fpow_p1 (x : Fp) : x <> fp0 -> fpow x (pN - 1) = fp1.
Proof.
  intros H. rewrite pN_pred.
  now apply fermat1; [apply pBLS_prime|].
Qed.

Notation npow_addF := (npow_add _ _ _ _ _ _ Fm_rt).
Notation npow_mulF := (npow_mul _ _ _ _ _ _ Fm_rt).

Lemma fpow_opp1_odd k : fpow (fopp fp1) (2 * k + 1) = fopp fp1.
Proof.
  rewrite npow_addF, npow_mulF, npow_1.
  replace (npow (f1 pBLS) fmul (fopp fp1) 2) with fp1 by (cbn [npow ppow]; ring).
  rewrite (npow_1l _ _ _ _ _ _ Fm_rt). ring.
Qed.

(** -1 is not a square *)
Lemma minus1_nonsquare (a : Fp) : fmul a a <> fopp fp1.
Proof.
  intros H.
  assert (Ha : a <> fp0).
  { intros ->. assert (fp1 = fp0) as E; [|now apply fp_1_neq_0 in E].
    transitivity (fopp (fopp fp1)); [ring|]. rewrite <- H. ring. }
  pose proof (fpow_p1 a Ha) as F.
  destruct pN_form4 as [k Hk].
  replace (pN - 1)%N with (2 * (2 * k + 1))%N in F by lia. clear Hk.
  rewrite npow_mulF, npow_2, H in F.
  pose proof (fpow_opp1_odd k) as G. rewrite G in F.
  apply (f_equal fval) in F. vm_compute in F. discriminate.
Qed.

Lemma norm_zero (a b : Fp) : fadd (fmul a a) (fmul b b) = fp0 -> a = fp0 /\ b = fp0.
Proof.
  intros H. destruct (feq_dec b fp0) as [->|Hb].
  - split; [|reflexivity].
    assert (fmul a a = fp0) as E.
    { transitivity (fsub (fadd (fmul a a) (fmul fp0 fp0)) (fmul fp0 fp0)); [ring|]. rewrite H. ring. }
    apply fp_integral in E. destruct E; assumption.
  - exfalso. apply (minus1_nonsquare (fdiv a b)).
    assert (fmul a a = fopp (fmul b b)) as E.
    { transitivity (fsub (fadd (fmul a a) (fmul b b)) (fmul b b)); [ring|]. rewrite H. ring. }
    transitivity (fdiv (fmul a a) (fmul b b)); [field; exact Hb|]. rewrite E. field; exact Hb.
Qed.

(** ** E2 is a field *)
Lemma E2_neq0 x : x <> E2_Zero -> fadd (fmul (A0 x) (A0 x)) (fmul (A1 x) (A1 x)) <> fp0.
Proof.
  intros H E. apply norm_zero in E. destruct E. apply H. now apply E2_ext.
Qed.
Lemma E2_inv_l x : x <> E2_Zero -> E2_Mul (E2_inv x) x = E2_One.
Proof.
  intros H. apply E2_neq0 in H. unfold E2_inv.
  set (nn := fadd _ _) in *. pose proof (finv_l nn pBLS_prime H) as I.
  apply E2_ext; cbn [A0 A1 E2_Mul E2_One]; [|ring].
  transitivity (fmul (finv nn) nn); [unfold nn; ring | exact I].
Qed.
Lemma E2_1_neq_0 : E2_One <> E2_Zero.
Proof. intros E. apply (f_equal A0) in E. now apply fp_1_neq_0. Qed.
Definition E2_div x y := E2_Mul x (E2_inv y).
Lemma E2_ft : field_theory E2_Zero E2_One E2_Add E2_Mul E2_Sub E2_Neg E2_div E2_inv (@eq E2).
Proof.
  constructor; [apply E2_rt | apply E2_1_neq_0 | reflexivity | intros; now apply E2_inv_l].
Qed.
Add Field E2Field : E2_ft.

Lemma E2_inv_0 : E2_inv E2_Zero = E2_Zero.
Proof.
  unfold E2_inv. cbn [A0 A1 E2_Zero].
  replace (fadd (fmul fp0 fp0) (fmul fp0 fp0)) with (f0 pBLS) by (ring).
  rewrite finv_0 by (vm_compute; reflexivity). apply E2_ext; cbn [A0 A1 E2_Zero]; ring.
Qed.

Lemma E2_integral x y : E2_Mul x y = E2_Zero -> x = E2_Zero \/ y = E2_Zero.
Proof.
  intros H. destruct (E2_eq_dec x E2_Zero) as [|Hx]; [now left|right].
  transitivity (E2_Mul (E2_inv x) (E2_Mul x y)).
  - transitivity (E2_Mul (E2_Mul (E2_inv x) x) y); [rewrite E2_inv_l by assumption; ring | ring].
  - rewrite H; ring.
Qed.

(** *** characteristic and Frobenius *)
Notation npow_addE2 := (npow_add _ _ _ _ _ _ E2_rt).
Notation npow_mulE2 := (npow_mul _ _ _ _ _ _ E2_rt).
Notation npow_mulbE2 := (npow_mulb _ _ _ _ _ _ E2_rt).

Lemma e2_of_mul a b : e2_of (fmul a b) = E2_Mul (e2_of a) (e2_of b).
Proof. unfold e2_of; e2_ring. Qed.
Lemma e2_of_add a b : e2_of (fadd a b) = E2_Add (e2_of a) (e2_of b).
Proof. unfold e2_of; e2_ring. Qed.
Lemma e2_of_1 : e2_of fp1 = E2_One. Proof. reflexivity. Qed.
Lemma e2_of_0 : e2_of fp0 = E2_Zero. Proof. reflexivity. Qed.
Lemma e2_of_inj a b : e2_of a = e2_of b -> a = b. Proof. now intros [= ->]. Qed.
Lemma e2_of_pow a n : e2_of (fpow a n) = e2pow (e2_of a) n.
Proof.
  induction n as [|n IH] using N.peano_ind; [reflexivity|].
  rewrite (npow_succ _ _ _ _ _ _ Fm_rt), (npow_succ _ _ _ _ _ _ E2_rt).
  now rewrite e2_of_mul, IH.
Qed.
Lemma nm_e2 k : nm E2_Zero E2_Add k E2_One = e2_of (nm (f0 pBLS) fadd k (f1 pBLS)).
Proof. induction k as [|k IH]; [reflexivity|]. cbn [nm]. rewrite IH. unfold e2_of. e2_ring. Qed.
Lemma char_E2 : nm E2_Zero E2_Add (Z.to_nat pBLS) E2_One = E2_Zero.
Proof. rewrite nm_e2, char_Fm by reflexivity. reflexivity. Qed.

Definition e2_u : E2 := mkE2 fp0 fp1.
Lemma e2_u2 : E2_Mul e2_u e2_u = E2_Neg E2_One.
Proof. unfold e2_u; e2_ring. Qed.
Lemma e2pow_neg1_odd k : e2pow (E2_Neg E2_One) (2 * k + 1) = E2_Neg E2_One.
Proof.
  rewrite npow_addE2, npow_mulE2, npow_1.
  replace (npow E2_One E2_Mul (E2_Neg E2_One) 2) with E2_One by (cbn [npow ppow]; ring).
  rewrite (npow_1l _ _ _ _ _ _ E2_rt). ring.
Qed.
Lemma e2_u_p : e2pow e2_u pN = E2_Neg e2_u.
Proof.
  destruct pN_form4 as [k Hk]. rewrite Hk. clear Hk.
  rewrite npow_addE2, npow_mulE2, npow_2, npow_1, e2_u2.
  pose proof (e2pow_neg1_odd k) as G. rewrite G. ring.
Qed.

Lemma freshman_E2 a b : e2pow (E2_Add a b) pN = E2_Add (e2pow a pN) (e2pow b pN).
Proof. exact (freshman _ _ _ _ _ _ E2_rt pBLS pBLS_prime char_E2 a b). Qed.
Lemma e2pow_p x : e2pow x pN = E2_Conjugate x.
Proof.
  assert (x = E2_Add (e2_of (A0 x)) (E2_Mul (e2_of (A1 x)) e2_u)) as E by (unfold e2_of, e2_u; e2_ring).
  rewrite E at 1.
  rewrite freshman_E2. rewrite npow_mulbE2.
  rewrite <- !e2_of_pow, !fpow_p, e2_u_p. unfold e2_of, e2_u. e2_ring.
Qed.
Lemma E2_Conj_Conj x : E2_Conjugate (E2_Conjugate x) = x.
Proof. e2_ring. Qed.
Lemma e2pow_p2 x : e2pow x (pN * pN) = x.
Proof.
  rewrite npow_mulE2. rewrite e2pow_p.
  rewrite e2pow_p. apply E2_Conj_Conj.
Qed.
Lemma e2pow_order x : x <> E2_Zero -> e2pow x (pN * pN - 1) = E2_One.
Proof.
  intros H. pose proof (e2pow_p2 x) as F.
  pose proof pN_pos as PP.
  replace (pN * pN)%N with (N.succ (pN * pN - 1)) in F by nia.
  rewrite (npow_succ _ _ _ _ _ _ E2_rt) in F.
  generalize dependent (e2pow x (pN * pN - 1)). intros y F.
  transitivity (E2_Mul (E2_Mul (E2_inv x) x) y); [rewrite E2_inv_l by exact H; ring|].
  transitivity (E2_Mul (E2_inv x) (E2_Mul x y)); [ring|]. rewrite F. now apply E2_inv_l.
Qed.

(** norm E2 -> Fp *)
Definition e2norm (x : E2) : Fp := fadd (fmul (A0 x) (A0 x)) (fmul (A1 x) (A1 x)).
Lemma e2norm_mul x y : e2norm (E2_Mul x y) = fmul (e2norm x) (e2norm y).
Proof. unfold e2norm; cbn [E2_Mul A0 A1]; ring. Qed.
Lemma e2norm_pow x n : e2norm (e2pow x n) = fpow (e2norm x) n.
Proof.
  induction n as [|n IH] using N.peano_ind.
  - unfold e2norm; cbn -[fadd fmul fopp]. ring.
  - rewrite (npow_succ _ _ _ _ _ _ Fm_rt), (npow_succ _ _ _ _ _ _ E2_rt).
    now rewrite e2norm_mul, IH.
Qed.

(** 2 is neither a square nor a cube in Fp *)
Lemma two_sq : exists k, (pN - 1 = 2 * k)%N /\ fpow (fpZ 2) k <> fp1.
Proof.
  exists 2001204777610833696708894912867952078278441409969503942666029068062015825245418932221343814564507832018947136279893%N. split; [reflexivity|]. fast_fp.
Qed.
Lemma two_cube : exists k, (pN - 1 = 3 * k)%N /\ fpow (fpZ 2) k <> fp1.
Proof.
  exists 1334136518407222464472596608578634718852294273313002628444019378708010550163612621480895876376338554679298090853262%N. split; [reflexivity|]. fast_fp.
Qed.

Lemma e2norm_neq0 x : x <> E2_Zero -> e2norm x <> fp0.
Proof. apply E2_neq0. Qed.

Lemma xi_norm : e2norm E2_NonResidue = fpZ 2.
Proof. unfold e2norm; cbn [A0 A1 E2_NonResidue]. unfold fpZ. ring. Qed.

Lemma xi_noncube (t : E2) : E2_Mul t (E2_Mul t t) <> E2_NonResidue.
Proof.
  intros H.
  assert (Ht : t <> E2_Zero).
  { intros ->. apply (f_equal A0) in H. apply (f_equal fval) in H. vm_compute in H. discriminate. }
  apply e2norm_neq0 in Ht. destruct two_cube as (k & Hk & Hn). apply Hn. rewrite <- xi_norm, <- H, !e2norm_mul.
  set (n := e2norm t) in *.
  replace (fmul n (fmul n n)) with (fpow n 3) by (cbn [npow ppow]; reflexivity).
  rewrite <- npow_mulF, <- Hk.
  now apply fpow_p1.
Qed.
Lemma xi_nonsquare (t : E2) : E2_Mul t t <> E2_NonResidue.
Proof.
  intros H.
  assert (Ht : t <> E2_Zero).
  { intros ->. apply (f_equal A0) in H. apply (f_equal fval) in H. vm_compute in H. discriminate. }
  apply e2norm_neq0 in Ht. destruct two_sq as (k & Hk & Hn). apply Hn. rewrite <- xi_norm, <- H, !e2norm_mul.
  set (n := e2norm t) in *.
  replace (fmul n n) with (fpow n 2) by (cbn [npow ppow]; reflexivity).
  rewrite <- npow_mulF, <- Hk.
  now apply fpow_p1.
Qed.

(** ** E6 is a field *)
Notation xi := E2_NonResidue.
Definition e6norm (x : E6) : E2 :=
  let a := B0 x in let b := B1 x in let c := B2 x in
  E2_Sub (E2_Add (E2_Mul a (E2_Mul a a))
         (E2_Add (E2_Mul xi (E2_Mul b (E2_Mul b b)))
                 (E2_Mul (E2_Mul xi xi) (E2_Mul c (E2_Mul c c)))))
         (E2_Mul (E2_Add E2_One (E2_Add E2_One E2_One)) (E2_Mul xi (E2_Mul a (E2_Mul b c)))).
Lemma e6norm_mul x y : e6norm (E6_Mul x y) = E2_Mul (e6norm x) (e6norm y).
Proof. unfold e6norm; cbn [E6_Mul B0 B1 B2]; cbv zeta; e2_norm. ring. Qed.

Lemma cube_xi_zero (a b : E2) :
  E2_Add (E2_Mul a (E2_Mul a a)) (E2_Mul xi (E2_Mul b (E2_Mul b b))) = E2_Zero -> b = E2_Zero.
Proof.
  intros H. destruct (E2_eq_dec b E2_Zero) as [|Hb]; [assumption | exfalso].
  apply (xi_noncube (E2_Neg (E2_div a b))).
  assert (E2_Mul a (E2_Mul a a) = E2_Neg (E2_Mul xi (E2_Mul b (E2_Mul b b)))) as E.
  { transitivity (E2_Sub (E2_Add (E2_Mul a (E2_Mul a a)) (E2_Mul xi (E2_Mul b (E2_Mul b b))))
                         (E2_Mul xi (E2_Mul b (E2_Mul b b)))); [ring|]. rewrite H. ring. }
  transitivity (E2_Neg (E2_div (E2_Mul a (E2_Mul a a)) (E2_Mul b (E2_Mul b b)))); [field; exact Hb|].
  rewrite E. field; exact Hb.
Qed.

Lemma E2_cube_zero a : E2_Mul a (E2_Mul a a) = E2_Zero -> a = E2_Zero.
Proof. intros H. apply E2_integral in H. destruct H as [|H]; [assumption|]. apply E2_integral in H. tauto. Qed.

Lemma e6norm_zero x : e6norm x = E2_Zero -> x = E6_Zero.
Proof.
  intros H. destruct x as [a b c].
  (* the element times (b - c v) *)
  set (al := E2_Sub (E2_Mul a b) (E2_Mul xi (E2_Mul c c))).
  set (be := E2_Sub (E2_Mul b b) (E2_Mul a c)).
  assert (E : E2_Add (E2_Mul al (E2_Mul al al)) (E2_Mul xi (E2_Mul be (E2_Mul be be))) = E2_Zero).
  { transitivity (E2_Mul (e6norm (mkE6 a b c))
       (E2_Sub (E2_Mul b (E2_Mul b b)) (E2_Mul xi (E2_Mul c (E2_Mul c c))))).
    - unfold e6norm, al, be; cbn [B0 B1 B2]. ring.
    - rewrite H; ring. }
  pose proof (cube_xi_zero _ _ E) as Hbe.
  assert (Hal : al = E2_Zero).
  { apply E2_cube_zero. etransitivity; [|exact E]. rewrite Hbe. ring. }
  assert (Hc : c = E2_Zero).
  { destruct (E2_eq_dec c E2_Zero) as [|Hc]; [assumption | exfalso].
    apply (xi_noncube (E2_div b c)).
    assert (E1 : E2_Mul b b = E2_Mul a c).
    { transitivity (E2_Add be (E2_Mul a c)); [unfold be; ring | rewrite Hbe; ring]. }
    assert (E2' : E2_Mul a b = E2_Mul xi (E2_Mul c c)).
    { transitivity (E2_Add al (E2_Mul xi (E2_Mul c c))); [unfold al; ring | rewrite Hal; ring]. }
    transitivity (E2_div (E2_Mul b (E2_Mul b b)) (E2_Mul c (E2_Mul c c))); [field; exact Hc|].
    rewrite E1. transitivity (E2_div (E2_Mul a b) (E2_Mul c c)); [field; exact Hc|].
    rewrite E2'. field; exact Hc. }
  assert (Hb : b = E2_Zero).
  { assert (E2_Mul b b = E2_Zero) as E1.
    { transitivity (E2_Add be (E2_Mul a c)); [unfold be; ring | rewrite Hbe, Hc; ring]. }
    apply E2_integral in E1; tauto. }
  assert (Ha : a = E2_Zero).
  { rewrite Hb, Hc in H. unfold e6norm in H; cbn [B0 B1 B2] in H.
    apply E2_cube_zero. etransitivity; [|exact H]. ring. }
  now subst.
Qed.

Lemma E6_inv_l x : x <> E6_Zero -> E6_Mul (E6_inv x) x = E6_One.
Proof.
  intros H. assert (N : e6norm x <> E2_Zero) by (intros E; now apply H, e6norm_zero).
  unfold E6_inv; cbv zeta.
  set (t := E2_Add _ _) in |- *.
  assert (Et : t = e6norm x) by (unfold t, e6norm; e2_norm; ring).
  rewrite Et. pose proof (E2_inv_l _ N) as I. set (i := E2_inv (e6norm x)) in *.
  apply E6_ext; cbn [B0 B1 B2 E6_Mul E6_One]; e2_norm.
  - transitivity (E2_Mul i (e6norm x)); [unfold e6norm; ring | exact I].
  - ring.
  - ring.
Qed.
Lemma E6_1_neq_0 : E6_One <> E6_Zero.
Proof. intros E. apply (f_equal B0) in E. now apply E2_1_neq_0. Qed.
Definition E6_div x y := E6_Mul x (E6_inv y).
Lemma E6_ft : field_theory E6_Zero E6_One E6_Add E6_Mul E6_Sub E6_Neg E6_div E6_inv (@eq E6).
Proof.
  constructor; [apply E6_rt | apply E6_1_neq_0 | reflexivity | intros; now apply E6_inv_l].
Qed.
Add Field E6Field : E6_ft.

Lemma E6_integral x y : E6_Mul x y = E6_Zero -> x = E6_Zero \/ y = E6_Zero.
Proof.
  intros H. destruct (E6_eq_dec x E6_Zero) as [|Hx]; [now left|right].
  transitivity (E6_Mul (E6_inv x) (E6_Mul x y)).
  - transitivity (E6_Mul (E6_Mul (E6_inv x) x) y); [rewrite E6_inv_l by assumption; ring | ring].
  - rewrite H; ring.
Qed.

(** v is not a square in E6 *)
Lemma v_nonsquare (t : E6) : E6_Mul t t <> e6_v.
Proof.
  intros H. apply (xi_nonsquare (e6norm t)). rewrite <- e6norm_mul, H.
  unfold e6norm, e6_v; cbn [B0 B1 B2]. ring.
Qed.

(** ** E12 is a field *)
Definition e12norm (x : E12) : E6 := E6_Sub (E6_Mul (C0 x) (C0 x)) (E6_Mul e6_v (E6_Mul (C1 x) (C1 x))).
Lemma e12norm_zero x : e12norm x = E6_Zero -> x = E12_Zero.
Proof.
  destruct x as [a b]; unfold e12norm; cbn [C0 C1]. intros H.
  destruct (E6_eq_dec b E6_Zero) as [->|Hb].
  - assert (E6_Mul a a = E6_Zero) as E by (rewrite <- H; ring).
    apply E6_integral in E. assert (a = E6_Zero) as -> by tauto. reflexivity.
  - exfalso. apply (v_nonsquare (E6_div a b)).
    assert (E6_Mul a a = E6_Mul e6_v (E6_Mul b b)) as E.
    { transitivity (E6_Add (E6_Sub (E6_Mul a a) (E6_Mul e6_v (E6_Mul b b))) (E6_Mul e6_v (E6_Mul b b))); [ring|].
      rewrite H; ring. }
    transitivity (E6_div (E6_Mul a a) (E6_Mul b b)); [field; exact Hb|].
    rewrite E. field; exact Hb.
Qed.
Lemma E12_inv_l x : x <> E12_Zero -> E12_Mul (E12_inv x) x = E12_One.
Proof.
  intros H. assert (N : e12norm x <> E6_Zero) by (intros E; now apply H, e12norm_zero).
  unfold E12_inv; cbv zeta. set (t := E6_Sub _ _) in |- *.
  assert (Et : t = e12norm x) by (unfold t, e12norm; e6_norm; ring).
  rewrite Et. pose proof (E6_inv_l _ N) as I. set (i := E6_inv (e12norm x)) in *.
  apply E12_ext; cbn [C0 C1 E12_Mul E12_One]; e6_norm.
  - transitivity (E6_Mul i (e12norm x)); [unfold e12norm; ring | exact I].
  - ring.
Qed.
Lemma E12_1_neq_0 : E12_One <> E12_Zero.
Proof. intros E. apply (f_equal C0) in E. now apply E6_1_neq_0. Qed.
Definition E12_div x y := E12_Mul x (E12_inv y).
Lemma E12_ft : field_theory E12_Zero E12_One E12_Add E12_Mul E12_Sub E12_Neg E12_div E12_inv (@eq E12).
Proof.
  constructor; [apply E12_rt | apply E12_1_neq_0 | reflexivity | intros; now apply E12_inv_l].
Qed.
Add Field E12Field : E12_ft.
Lemma E12_integral x y : E12_Mul x y = E12_Zero -> x = E12_Zero \/ y = E12_Zero.
Proof.
  intros H. destruct (E12_eq_dec x E12_Zero) as [|Hx]; [now left|right].
  transitivity (E12_Mul (E12_inv x) (E12_Mul x y)).
  - transitivity (E12_Mul (E12_Mul (E12_inv x) x) y); [rewrite E12_inv_l by assumption; ring | ring].
  - rewrite H; ring.
Qed.
