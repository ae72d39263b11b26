(** Frobenius endomorphism of E12 and the non-residue constants. *)
From Coq Require Import ZArith List Bool Lia Ring Field Znumtheory.
From Verif Require Import Params ZMod RingPow Primes FastTower Circuit Api Emulated Tower FieldFacts TowerFacts.
Import ListNotations.
Open Scope Z_scope.

Notation npow_addE12 := (npow_add _ _ _ _ _ _ E12_rt).
Notation npow_mulE12 := (npow_mul _ _ _ _ _ _ E12_rt).
Notation npow_mulbE12 := (npow_mulb _ _ _ _ _ _ E12_rt).

(** embedding of E2 in E12 *)
Definition e12_of2 (a : E2) : E12 := mkE12 (mkE6 a E2_Zero E2_Zero) E6_Zero.

Ltac e12_full :=
  apply E12_ext; apply E6_ext;
  cbn [C0 C1 E12_Add E12_Mul E12_Sub E12_Neg E12_One E12_Zero E12_Square E12_Conjugate
       e12_of2 e12_of e6_of e12_w e6_v
       B0 B1 B2 E6_Add E6_Mul E6_Sub E6_Neg E6_One E6_Zero E6_Square E6_Double E6_MulByNonResidue];
  e2_norm; ring.

Lemma e12_of2_mul a b : e12_of2 (E2_Mul a b) = E12_Mul (e12_of2 a) (e12_of2 b).
Proof. e12_full. Qed.
Lemma e12_of2_add a b : e12_of2 (E2_Add a b) = E12_Add (e12_of2 a) (e12_of2 b).
Proof. e12_full. Qed.
Lemma e12_of2_pow a n : e12_of2 (e2pow a n) = e12pow (e12_of2 a) n.
Proof.
  induction n as [|n IH] using N.peano_ind; [reflexivity|].
  rewrite (npow_succ _ _ _ _ _ _ E2_rt), (npow_succ _ _ _ _ _ _ E12_rt).
  now rewrite e12_of2_mul, IH.
Qed.
Lemma nm_e12 k : nm E12_Zero E12_Add k E12_One = e12_of2 (nm E2_Zero E2_Add k E2_One).
Proof.
  induction k as [|k IH]; [reflexivity|]. cbn [nm]. rewrite IH, e12_of2_add. reflexivity.
Qed.
Lemma char_E12 : nm E12_Zero E12_Add (Z.to_nat pBLS) E12_One = E12_Zero.
Proof. rewrite nm_e12, char_E2. reflexivity. Qed.
Lemma freshman_E12 a b : e12pow (E12_Add a b) pN = E12_Add (e12pow a pN) (e12pow b pN).
Proof. exact (freshman _ _ _ _ _ _ E12_rt pBLS pBLS_prime char_E12 a b). Qed.

(** gamma = (1+u)^((p-1)/6) *)
Definition gam : E2 :=
  match E2_nonResidues 1 1 with Some g => g | None => E2_Zero end.

Lemma gam_spec : exists k, (pN = 1 + 6 * k)%N /\ e2pow E2_NonResidue k = gam.
Proof.
  exists 667068259203611232236298304289317359426147136656501314222009689354005275081806310740447938188169277339649045426631%N. split; [reflexivity|]. unfold gam. cbn [E2_nonResidues]. fast_e2.
Qed.

Lemma e12_w6 : e12pow e12_w 6 = e12_of2 E2_NonResidue.
Proof.
  transitivity (E12_Mul (E12_Mul e12_w e12_w) (E12_Mul (E12_Mul e12_w e12_w) (E12_Mul e12_w e12_w))).
  { cbn [npow ppow]. ring. }
  rewrite e12_w2.
  transitivity (e12_of (E6_Mul e6_v (E6_Mul e6_v e6_v))).
  { generalize e6_v. intros v. unfold e12_of. e12_ring. }
  rewrite e6_v3. reflexivity.
Qed.
Lemma e12_w_p : e12pow e12_w pN = E12_Mul (e12_of2 gam) e12_w.
Proof.
  destruct gam_spec as (k & Hk & Hg). rewrite Hk, <- Hg, e12_of2_pow. clear Hk Hg.
  rewrite npow_addE12, npow_mulE12, npow_1, e12_w6. ring.
Qed.

Definition frob12 (x : E12) : E12 :=
  let g2 := E2_Mul gam gam in let g3 := E2_Mul g2 gam in
  let g4 := E2_Mul g2 g2 in let g5 := E2_Mul g4 gam in
  mkE12 (mkE6 (E2_Conjugate (B0 (C0 x))) (E2_Mul g2 (E2_Conjugate (B1 (C0 x))))
              (E2_Mul g4 (E2_Conjugate (B2 (C0 x)))))
        (mkE6 (E2_Mul gam (E2_Conjugate (B0 (C1 x)))) (E2_Mul g3 (E2_Conjugate (B1 (C1 x))))
              (E2_Mul g5 (E2_Conjugate (B2 (C1 x))))).

Definition wsum (a0 a1 a2 a3 a4 a5 w : E12) : E12 :=
  E12_Add a0 (E12_Mul w (E12_Add a1 (E12_Mul w (E12_Add a2 (E12_Mul w
    (E12_Add a3 (E12_Mul w (E12_Add a4 (E12_Mul w a5))))))))).
(** multiplication by g w, g in E2 *)
Lemma gw_mul g a b c d e f :
  E12_Mul (E12_Mul (e12_of2 g) e12_w) (mkE12 (mkE6 a b c) (mkE6 d e f)) =
  mkE12 (mkE6 (E2_Mul g (E2_Mul E2_NonResidue f)) (E2_Mul g d) (E2_Mul g e))
        (mkE6 (E2_Mul g a) (E2_Mul g b) (E2_Mul g c)).
Proof.
  assert (E : E12_Mul (e12_of2 g) e12_w = mkE12 E6_Zero (mkE6 g E2_Zero E2_Zero)) by e12_full.
  rewrite E. e12_full.
Qed.
Lemma of2_add x a b c y : E12_Add (e12_of2 x) (mkE12 (mkE6 a b c) y) =
  mkE12 (mkE6 (E2_Add x a) b c) y.
Proof. destruct y as [? ? ?]. e12_full. Qed.
Lemma gw_mul2 g a : E12_Mul (E12_Mul (e12_of2 g) e12_w) (e12_of2 a) =
  mkE12 (mkE6 E2_Zero E2_Zero E2_Zero) (mkE6 (E2_Mul g a) E2_Zero E2_Zero).
Proof.
  assert (E : E12_Mul (e12_of2 g) e12_w = mkE12 E6_Zero (mkE6 g E2_Zero E2_Zero)) by e12_full.
  rewrite E. e12_full.
Qed.
Lemma mk12_eq a b c d e f a' b' c' d' e' f' :
  a = a' -> b = b' -> c = c' -> d = d' -> e = e' -> f = f' ->
  mkE12 (mkE6 a b c) (mkE6 d e f) = mkE12 (mkE6 a' b' c') (mkE6 d' e' f').
Proof. congruence. Qed.
Lemma wsum_gen a0 a1 a2 a3 a4 a5 g :
  wsum (e12_of2 a0) (e12_of2 a1) (e12_of2 a2) (e12_of2 a3) (e12_of2 a4) (e12_of2 a5)
       (E12_Mul (e12_of2 g) e12_w) =
  mkE12 (mkE6 a0 (E2_Mul (E2_Mul g g) a2) (E2_Mul (E2_Mul (E2_Mul g g) (E2_Mul g g)) a4))
        (mkE6 (E2_Mul g a1) (E2_Mul (E2_Mul (E2_Mul g g) g) a3)
              (E2_Mul (E2_Mul (E2_Mul (E2_Mul g g) (E2_Mul g g)) g) a5)).
Proof.
  unfold wsum. rewrite gw_mul2.
  repeat (rewrite of2_add, gw_mul).
  rewrite of2_add. apply mk12_eq; ring.
Qed.
Lemma wsum_eq x : x = wsum (e12_of2 (B0 (C0 x))) (e12_of2 (B0 (C1 x))) (e12_of2 (B1 (C0 x)))
  (e12_of2 (B1 (C1 x))) (e12_of2 (B2 (C0 x))) (e12_of2 (B2 (C1 x))) e12_w.
Proof.
  replace e12_w with (E12_Mul (e12_of2 E2_One) e12_w)
    by (change (e12_of2 E2_One) with E12_One; ring).
  rewrite wsum_gen. destruct x as [[a b c] [d e f]]. cbn [C0 C1 B0 B1 B2].
  apply mk12_eq; ring.
Qed.

Lemma wsum_p a0 a1 a2 a3 a4 a5 w : e12pow (wsum a0 a1 a2 a3 a4 a5 w) pN =
  wsum (e12pow a0 pN) (e12pow a1 pN) (e12pow a2 pN) (e12pow a3 pN) (e12pow a4 pN) (e12pow a5 pN)
       (e12pow w pN).
Proof.
  unfold wsum.
  repeat rewrite ?freshman_E12, ?npow_mulbE12. reflexivity.
Qed.

Opaque gam.
Lemma e12pow_p x : e12pow x pN = frob12 x.
Proof.
  rewrite (wsum_eq x) at 1. rewrite wsum_p, <- !e12_of2_pow, !e2pow_p, e12_w_p.
  apply wsum_gen.
Qed.
Transparent gam.

(** delta = gamma^(p+1) *)
Definition del : Fp := fpZ 793479390729215512621379701633421447060886740281060493010456487427281649075476305620758731620351.
Lemma gam_norm : E2_Mul gam (E2_Conjugate gam) = e2_of del.
Proof. unfold gam, del, e2_of. cbn [E2_nonResidues]. unfold E2_Conjugate. cbn [A0 A1]. fast_e2. Qed.
Lemma del_cubed : fmul del (fmul del del) = fopp fp1.
Proof. unfold del. fast_fp. Qed.

(** x^(p^2): coefficient of w^i times delta^i *)
Definition frobsq12 (x : E12) : E12 :=
  let d2 := fmul del del in let d3 := fmul d2 del in
  let d4 := fmul d2 d2 in let d5 := fmul d4 del in
  let m a d := E2_Mul (e2_of d) a in
  mkE12 (mkE6 (B0 (C0 x)) (m (B1 (C0 x)) d2) (m (B2 (C0 x)) d4))
        (mkE6 (m (B0 (C1 x)) del) (m (B1 (C1 x)) d3) (m (B2 (C1 x)) d5)).

Opaque del.
Lemma conj_gam_mul k a :
  E2_Mul (e2pow gam k) (E2_Conjugate (E2_Mul (e2pow gam k) (E2_Conjugate a))) = E2_Mul (e2_of (fpow del k)) a.
Proof.
  rewrite E2_Conj_mul, E2_Conj_Conj, e2_of_pow, <- gam_norm, npow_mulbE2.
  assert (E : E2_Conjugate (e2pow gam k) = e2pow (E2_Conjugate gam) k).
  { rewrite <- !e2pow_p, <- !npow_mulE2. f_equal. apply N.mul_comm. }
  rewrite E. ring.
Qed.
Opaque gam.
Lemma e12pow_p2 x : e12pow x (pN * pN) = frobsq12 x.
Proof.
  rewrite npow_mulE12, !e12pow_p. unfold frob12, frobsq12; cbv zeta.
  pose proof (conj_gam_mul 1) as G1. pose proof (conj_gam_mul 2) as G2.
  pose proof (conj_gam_mul 3) as G3. pose proof (conj_gam_mul 4) as G4.
  pose proof (conj_gam_mul 5) as G5.
  cbn [npow ppow] in *.
  assert (X : forall a b c, E2_Mul (E2_Mul a b) c = E2_Mul c (E2_Mul b a)) by (intros; ring).
  apply E12_ext; cbn [C0 C1]; apply E6_ext; cbn [B0 B1 B2].
  - apply E2_Conj_Conj.
  - apply G2.
  - apply G4.
  - apply G1.
  - replace (E2_Mul (E2_Mul gam gam) gam) with (E2_Mul gam (E2_Mul gam gam)) by ring.
    replace (fmul (fmul del del) del) with (fmul del (fmul del del)) by ring. apply G3.
  - replace (E2_Mul (E2_Mul (E2_Mul gam gam) (E2_Mul gam gam)) gam)
      with (E2_Mul gam (E2_Mul (E2_Mul gam gam) (E2_Mul gam gam))) by ring.
    replace (fmul (fmul (fmul del del) (fmul del del)) del) with (fmul del (fmul (fmul del del) (fmul del del))) by ring. apply G5.
Qed.

Lemma del3 : E2_Mul (e2_of del) (E2_Mul (e2_of del) (e2_of del)) = E2_Neg E2_One.
Proof. rewrite <- !e2_of_mul, del_cubed. unfold e2_of; e2_ring. Qed.

Lemma e12pow_p6 x : e12pow x (pN * pN * (pN * pN) * (pN * pN)) = E12_Conjugate x.
Proof.
  pose proof e12pow_p2 as P2. generalize dependent (pN * pN)%N. intros q P2.
  rewrite !npow_mulE12, !P2. clear P2 q.
  unfold frobsq12; cbv zeta. cbn [C0 C1 B0 B1 B2].
  rewrite !e2_of_mul.
  assert (D : forall a, E2_Mul (e2_of del) (E2_Mul (e2_of del) (E2_Mul (e2_of del) a)) = E2_Neg a).
  { intros a. transitivity (E2_Mul (E2_Mul (e2_of del) (E2_Mul (e2_of del) (e2_of del))) a); [ring|].
    rewrite del3. ring. }
  generalize dependent (e2_of del). intros d D.
  apply E12_ext; cbn [C0 C1 E12_Conjugate E6_Neg]; [|unfold E6_Neg]; apply E6_ext; cbn [B0 B1 B2].
  - reflexivity.
  - transitivity (E2_Mul d (E2_Mul d (E2_Mul d (E2_Mul d (E2_Mul d (E2_Mul d (B1 (C0 x)))))))); [ring|].
    rewrite !D. ring.
  - transitivity (E2_Mul d (E2_Mul d (E2_Mul d (E2_Mul d (E2_Mul d (E2_Mul d
       (E2_Mul d (E2_Mul d (E2_Mul d (E2_Mul d (E2_Mul d (E2_Mul d (B2 (C0 x)))))))))))))); [ring|].
    rewrite !D. ring.
  - rewrite D. reflexivity.
  - transitivity (E2_Mul d (E2_Mul d (E2_Mul d (E2_Mul d (E2_Mul d (E2_Mul d
       (E2_Mul d (E2_Mul d (E2_Mul d (B1 (C1 x))))))))))); [ring|].
    rewrite !D. ring.
  - transitivity (E2_Mul d (E2_Mul d (E2_Mul d (E2_Mul d (E2_Mul d (E2_Mul d
       (E2_Mul d (E2_Mul d (E2_Mul d (E2_Mul d (E2_Mul d (E2_Mul d
       (E2_Mul d (E2_Mul d (E2_Mul d (B2 (C1 x))))))))))))))))); [ring|].
    rewrite !D. ring.
Qed.
Transparent gam del.
