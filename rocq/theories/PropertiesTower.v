(** Property theorems C08-C15: extension-field and torus arithmetic. *)
From Coq Require Import ZArith List Bool.
From Verif Require Import Params ZMod RingPow Circuit Api Emulated Tower TowerSpec
  FieldFacts ApiFacts TowerFacts TowerProofs TorusFacts.
Import ListNotations.
Open Scope Z_scope.

(** C08 *)
Theorem C08_fp2_arith (x y : E2) (c : Fp) (k : Z) :
  rep2 (E2_Add x y) = S2add (rep2 x) (rep2 y) /\
  rep2 (E2_Sub x y) = S2sub (rep2 x) (rep2 y) /\
  rep2 (E2_Neg x) = S2sub S2zero (rep2 x) /\
  rep2 (E2_Mul x y) = S2mul (rep2 x) (rep2 y) /\
  rep2 (E2_Square x) = S2mul (rep2 x) (rep2 x) /\
  rep2 (E2_Double x) = S2add (rep2 x) (rep2 x) /\
  rep2 (E2_Conjugate x) = [coef fp0 (rep2 x) 0; fsub fp0 (coef fp0 (rep2 x) 1)] /\
  rep2 (E2_MulByElement x c) = S2mul (rep2 x) [c; fp0] /\
  rep2 (E2_MulByConstElement x k) = S2mul (rep2 x) [ofZ pBLS k; fp0] /\
  rep2 (E2_MulByNonResidue x) = S2mul S2xi (rep2 x) /\
  rep2 E2_One = S2one /\ rep2 E2_Zero = S2zero /\ rep2 E2_NonResidue = S2xi.
Proof. exact (fp2_arith x y c k). Qed.
Print Assumptions C08_fp2_arith.

Theorem C08_fp2_select (b : bool) (x y : E2) :
  determ (E2_Select (bF b) x y) (if b then x else y) /\
  (forall s z, sat (E2_Select s x y) z -> exists b, s = bF b /\ z = if b then x else y).
Proof. exact (conj (determ_E2_Select b x y) (fun s z => sat_E2_Select_inv s x y z)). Qed.
Print Assumptions C08_fp2_select.

Example C08_ex : rep2 (E2_Mul (mkE2 (fpZ 2) (fpZ 3)) (mkE2 (fpZ 5) (fpZ 7))) = [fpZ (-11); fpZ 29].
Proof. reflexivity. Qed.

(** C09 *)
Theorem C09_fp6_arith (x y : E6) (c : E2) :
  rep6 (E6_Add x y) = S6add (rep6 x) (rep6 y) /\
  rep6 (E6_Sub x y) = S6sub (rep6 x) (rep6 y) /\
  rep6 (E6_Neg x) = S6sub S6zero (rep6 x) /\
  rep6 (E6_Mul x y) = S6mul (rep6 x) (rep6 y) /\
  rep6 (E6_Square x) = S6mul (rep6 x) (rep6 x) /\
  rep6 (E6_Double x) = S6add (rep6 x) (rep6 x) /\
  rep6 (E6_MulByE2 x c) = S6mul (rep6 x) [rep2 c; S2zero; S2zero] /\
  rep6 (E6_MulByNonResidue x) = S6mul S6v (rep6 x) /\
  rep6 E6_One = S6one /\ rep6 E6_Zero = S6zero.
Proof. exact (fp6_arith x y c). Qed.
Print Assumptions C09_fp6_arith.

Example C09_ex (* v * v^2 = 1 + u *) :
  E6_Mul (mkE6 E2_Zero E2_One E2_Zero) (mkE6 E2_Zero E2_Zero E2_One) =
  mkE6 (mkE2 (fpZ 1) (fpZ 1)) E2_Zero E2_Zero.
Proof. apply E6_eqb_eq. vm_compute. reflexivity. Qed.

(** C10 *)
Theorem C10_fp12_arith (x y : E12) :
  rep12 (E12_Add x y) = S12add (rep12 x) (rep12 y) /\
  rep12 (E12_Sub x y) = S12sub (rep12 x) (rep12 y) /\
  rep12 (E12_Mul x y) = S12mul (rep12 x) (rep12 y) /\
  rep12 (E12_Square x) = S12mul (rep12 x) (rep12 x) /\
  rep12 (E12_Conjugate x) = [coef S6zero (rep12 x) 0; S6sub S6zero (coef S6zero (rep12 x) 1)] /\
  rep12w (E12_Mul x y) = S12wmul (rep12w x) (rep12w y) /\
  rep12 E12_One = S12one /\ rep12 E12_Zero = S12zero.
Proof. exact (fp12_arith x y). Qed.
Print Assumptions C10_fp12_arith.

Example C10_ex (* w * w = v *) :
  E12_Mul (mkE12 E6_Zero E6_One) (mkE12 E6_Zero E6_One) =
  mkE12 (mkE6 E2_Zero E2_One E2_Zero) E6_Zero.
Proof. apply E12_eqb_eq. vm_compute. reflexivity. Qed.

(** C11 *)
Theorem C11_sparse_mul6 (x : E6) (a b : E2) :
  rep6 (E6_MulBy0 x a) = S6mul (rep6 x) [rep2 a; S2zero; S2zero] /\
  rep6 (E6_MulBy01 x a b) = S6mul (rep6 x) [rep2 a; rep2 b; S2zero] /\
  rep6 (E6_MulBy12 x a b) = S6mul (rep6 x) [S2zero; rep2 a; rep2 b].
Proof. exact (sparse_mul6 x a b). Qed.
Print Assumptions C11_sparse_mul6.

Theorem C11_sparse_mul12 (z : E12) (c0 c1 d0 d1 : E2) (x : E2x5) :
  let S5 x := S01245 (rep2 (s0 x)) (rep2 (s1 x)) (rep2 (s2 x)) (rep2 (s3 x)) (rep2 (s4 x)) in
  rep12 (E12_MulBy014 z c0 c1) = S12mul (rep12 z) (S014 (rep2 c0) (rep2 c1)) /\
  S5 (E12_Mul014By014 d0 d1 c0 c1) = S12mul (S014 (rep2 d0) (rep2 d1)) (S014 (rep2 c0) (rep2 c1)) /\
  rep12 (E12_MulBy01245 z x) = S12mul (rep12 z) (S5 x).
Proof. exact (sparse_mul12 z c0 c1 d0 d1 x). Qed.
Print Assumptions C11_sparse_mul12.

Example C11_ex (* w * (2 + 3v + v w) = v^2 + (2 + 3v) w *) :
  E12_MulBy014 (mkE12 E6_Zero E6_One) (mkE2 (fpZ 2) fp0) (mkE2 (fpZ 3) fp0) =
  mkE12 (mkE6 E2_Zero E2_Zero E2_One) (mkE6 (mkE2 (fpZ 2) fp0) (mkE2 (fpZ 3) fp0) E2_Zero).
Proof. apply E12_eqb_eq. vm_compute. reflexivity. Qed.

(** C12 *)
Theorem C12_inverse (x : E2) (y : E6) (z : E12) :
  ((satisfiable (E2_Inverse x) <-> rep2 x <> S2zero) /\
   (forall i, sat (E2_Inverse x) i <-> S2mul (rep2 i) (rep2 x) = S2one) /\
   (rep2 x <> S2zero -> exists i, determ (E2_Inverse x) i)) /\
  ((satisfiable (E6_Inverse y) <-> rep6 y <> S6zero) /\
   (forall i, sat (E6_Inverse y) i <-> S6mul (rep6 i) (rep6 y) = S6one) /\
   (rep6 y <> S6zero -> exists i, determ (E6_Inverse y) i)) /\
  ((satisfiable (E12_Inverse z) <-> rep12 z <> S12zero) /\
   (forall i, sat (E12_Inverse z) i <-> S12mul (rep12 i) (rep12 z) = S12one) /\
   (rep12 z <> S12zero -> exists i, determ (E12_Inverse z) i)).
Proof. exact (conj (C12_E2 x) (conj (C12_E6 y) (C12_E12 z))). Qed.
Print Assumptions C12_inverse.

Example C12_ex (* (1+u)^-1 is accepted and is the only accepted value *) :
  exists i, run (E2_Inverse (mkE2 (fpZ 1) (fpZ 1))) = Some i /\ E2_Mul i (mkE2 (fpZ 1) (fpZ 1)) = E2_One.
Proof.
  eexists. split; [vm_compute; reflexivity|]. apply E2_eqb_eq. vm_compute. reflexivity.
Qed.

(** C13 *)
Theorem C13_div_unchecked (x y : E2) (x6 y6 : E6) (x12 y12 : E12) :
  ((forall z, sat (E2_DivUnchecked x y) z <-> S2mul (rep2 z) (rep2 y) = rep2 x) /\
   (rep2 y <> S2zero -> exists z, determ (E2_DivUnchecked x y) z) /\
   (rep2 y = S2zero -> rep2 x <> S2zero -> unsat (E2_DivUnchecked x y)) /\
   (rep2 y = S2zero -> rep2 x = S2zero -> forall z, sat (E2_DivUnchecked x y) z)) /\
  ((forall z, sat (E6_DivUnchecked x6 y6) z <-> S6mul (rep6 z) (rep6 y6) = rep6 x6) /\
   (rep6 y6 <> S6zero -> exists z, determ (E6_DivUnchecked x6 y6) z) /\
   (rep6 y6 = S6zero -> rep6 x6 <> S6zero -> unsat (E6_DivUnchecked x6 y6)) /\
   (rep6 y6 = S6zero -> rep6 x6 = S6zero -> forall z, sat (E6_DivUnchecked x6 y6) z)) /\
  ((forall z, sat (E12_DivUnchecked x12 y12) z <-> S12mul (rep12 z) (rep12 y12) = rep12 x12) /\
   (rep12 y12 <> S12zero -> exists z, determ (E12_DivUnchecked x12 y12) z) /\
   (rep12 y12 = S12zero -> rep12 x12 <> S12zero -> unsat (E12_DivUnchecked x12 y12)) /\
   (rep12 y12 = S12zero -> rep12 x12 = S12zero -> forall z, sat (E12_DivUnchecked x12 y12) z)).
Proof. exact (conj (C13_E2 x y) (conj (C13_E6 x6 y6) (C13_E12 x12 y12))). Qed.
Print Assumptions C13_div_unchecked.

Example C13_ex (* (-11+29u)/(5+7u) = 2+3u is computed and accepted; 1/0 is rejected *) :
  run (E2_DivUnchecked (mkE2 (fpZ (-11)) (fpZ 29)) (mkE2 (fpZ 5) (fpZ 7))) = Some (mkE2 (fpZ 2) (fpZ 3)) /\
  run (E2_DivUnchecked E2_One E2_Zero) = None.
Proof. vm_compute. split; reflexivity. Qed.

(** C14 *)
Theorem C14_nonresidue_constants (x : E2) :
  (rep2 (E2_MulByNonResidue1Power1 x) = S2mul (rep2 x) (Snr 1 1) /\
   rep2 (E2_MulByNonResidue1Power2 x) = S2mul (rep2 x) (Snr 1 2) /\
   rep2 (E2_MulByNonResidue1Power3 x) = S2mul (rep2 x) (Snr 1 3) /\
   rep2 (E2_MulByNonResidue1Power4 x) = S2mul (rep2 x) (Snr 1 4) /\
   rep2 (E2_MulByNonResidue1Power5 x) = S2mul (rep2 x) (Snr 1 5) /\
   rep2 (E2_MulByNonResidue2Power1 x) = S2mul (rep2 x) (Snr 2 1) /\
   rep2 (E2_MulByNonResidue2Power2 x) = S2mul (rep2 x) (Snr 2 2) /\
   rep2 (E2_MulByNonResidue2Power3 x) = S2mul (rep2 x) (Snr 2 3) /\
   rep2 (E2_MulByNonResidue2Power4 x) = S2mul (rep2 x) (Snr 2 4) /\
   rep2 (E2_MulByNonResidue2Power5 x) = S2mul (rep2 x) (Snr 2 5)) /\
  (forall X Y t, E2_nonResidues X Y = Some t -> (X = 1 \/ X = 2) /\ 1 <= Y <= 5 /\ rep2 t = Snr X Y).
Proof. exact (conj (nonresidue_mul x) nonresidue_table). Qed.
Print Assumptions C14_nonresidue_constants.

Example C14_ex : exists t, E2_nonResidues 1 3 = Some t /\ t <> E2_One.
Proof. eexists. split; [reflexivity|]. intros H. apply E2_eqb_eq in H. vm_compute in H. discriminate H. Qed.

(** C15 *)
Theorem C15_torus_group (y1 y2 y3 : E6) (m1 m2 m3 : E12) :
  Storus (rep6 y1) (rep12 m1) -> Storus (rep6 y2) (rep12 m2) -> Storus (rep6 y3) (rep12 m3) ->
  (sat (MulTorus y1 y2) y3 <-> rep12 m3 = S12mul (rep12 m1) (rep12 m2)) /\
  (sat (SquareTorus y1) y3 <-> rep12 m3 = S12mul (rep12 m1) (rep12 m1)) /\
  (InverseTorus y1 = y3 <-> S12mul (rep12 m3) (rep12 m1) = S12one) /\
  (FrobeniusTorus y1 = y3 <-> rep12 m3 = S12pow (rep12 m1) (Z.to_N pBLS)) /\
  (FrobeniusSquareTorus y1 = y3 <-> rep12 m3 = S12pow (rep12 m1) (Z.to_N (pBLS ^ 2))).
Proof. exact (torus_group y1 y2 y3 m1 m2 m3). Qed.
Print Assumptions C15_torus_group.

Theorem C15_compress_decompress (y : E6) (m : E12) :
  (rep6 y <> S6zero ->
   exists m, determ (DecompressTorus y) m /\ Storus (rep6 y) (rep12 m) /\ determ (CompressTorus m) y) /\
  (C1 m <> E6_Zero -> S12mul (rep12 m) (rep12 (E12_Conjugate m)) = S12one ->
   exists y, determ (CompressTorus m) y /\ Storus (rep6 y) (rep12 m) /\ determ (DecompressTorus y) m).
Proof. exact (conj (compress_decompress' y) (decompress_compress m)). Qed.
Print Assumptions C15_compress_decompress.

(** non-vacuity: 2 and 3 are torus coordinates of two elements and their torus
    product (6+v)/5 is accepted *)
Example C15_ex :
  let y1 := mkE6 (mkE2 (fpZ 2) fp0) E2_Zero E2_Zero in
  let y2 := mkE6 (mkE2 (fpZ 3) fp0) E2_Zero E2_Zero in
  exists y3 m1 m2 m3, sat (MulTorus y1 y2) y3 /\ E6_Mul y3 (mkE6 (mkE2 (fpZ 5) fp0) E2_Zero E2_Zero) = mkE6 (mkE2 (fpZ 6) fp0) E2_One E2_Zero /\
  Storus (rep6 y1) (rep12 m1) /\ Storus (rep6 y2) (rep12 m2) /\ Storus (rep6 y3) (rep12 m3).
Proof.
  cbv zeta. set (y1 := mkE6 _ _ _). set (y2 := mkE6 (mkE2 (fpZ 3) _) _ _).
  exists (E6_div (mkE6 (mkE2 (fpZ 6) fp0) E2_One E2_Zero) (mkE6 (mkE2 (fpZ 5) fp0) E2_Zero E2_Zero)).
  exists (tval y1), (tval y2).
  eexists. split; [|split; [|split; [|split]]]; [| |apply Storus_eq; reflexivity..].
  - apply sat_MulTorus_raw. apply E6_eqb_eq. vm_compute. reflexivity.
  - apply E6_eqb_eq. vm_compute. reflexivity.
Qed.
