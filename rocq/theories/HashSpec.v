(** RFC 9380: the 3-isogeny of appendix E.3 from E' to the BLS12-381 G2 curve,
    and hash_to_curve / encode_to_curve from the field elements on.
    Specification only: nothing here refers to the model in HashG2.v. *)
From Coq Require Import ZArith NArith List Bool.
From Verif Require Import Params ZMod Emulated Tower CurveSpec G2Spec.
Import ListNotations.
Open Scope Z_scope.

(** polynomials by their coefficients, constant term first *)
Fixpoint poly (l : list E2) (x : E2) : E2 :=
  match l with [] => E2_Zero | c :: l => E2_Add c (E2_Mul x (poly l x)) end.

(** RFC 9380, appendix E.3 *)
Definition iso_x_num : list E2 := [
  mkE2 (fpZ 0x5c759507e8e333ebb5b7a9a47d7ed8532c52d39fd3a042a88b58423c50ae15d5c2638e343d9c71c6238aaaaaaaa97d6) (fpZ 0x5c759507e8e333ebb5b7a9a47d7ed8532c52d39fd3a042a88b58423c50ae15d5c2638e343d9c71c6238aaaaaaaa97d6);
  mkE2 (fpZ 0x0) (fpZ 0x11560bf17baa99bc32126fced787c88f984f87adf7ae0c7f9a208c6b4f20a4181472aaa9cb8d555526a9ffffffffc71a);
  mkE2 (fpZ 0x11560bf17baa99bc32126fced787c88f984f87adf7ae0c7f9a208c6b4f20a4181472aaa9cb8d555526a9ffffffffc71e) (fpZ 0x8ab05f8bdd54cde190937e76bc3e447cc27c3d6fbd7063fcd104635a790520c0a395554e5c6aaaa9354ffffffffe38d);
  mkE2 (fpZ 0x171d6541fa38ccfaed6dea691f5fb614cb14b4e7f4e810aa22d6108f142b85757098e38d0f671c7188e2aaaaaaaa5ed1) (fpZ 0x0)].
Definition iso_x_den : list E2 := [
  mkE2 (fpZ 0x0) (fpZ 0x1a0111ea397fe69a4b1ba7b6434bacd764774b84f38512bf6730d2a0f6b0f6241eabfffeb153ffffb9feffffffffaa63);
  mkE2 (fpZ 0xc) (fpZ 0x1a0111ea397fe69a4b1ba7b6434bacd764774b84f38512bf6730d2a0f6b0f6241eabfffeb153ffffb9feffffffffaa9f);
  mkE2 (fpZ 1) (fpZ 0)].
Definition iso_y_num : list E2 := [
  mkE2 (fpZ 0x1530477c7ab4113b59a4c18b076d11930f7da5d4a07f649bf54439d87d27e500fc8c25ebf8c92f6812cfc71c71c6d706) (fpZ 0x1530477c7ab4113b59a4c18b076d11930f7da5d4a07f649bf54439d87d27e500fc8c25ebf8c92f6812cfc71c71c6d706);
  mkE2 (fpZ 0x0) (fpZ 0x5c759507e8e333ebb5b7a9a47d7ed8532c52d39fd3a042a88b58423c50ae15d5c2638e343d9c71c6238aaaaaaaa97be);
  mkE2 (fpZ 0x11560bf17baa99bc32126fced787c88f984f87adf7ae0c7f9a208c6b4f20a4181472aaa9cb8d555526a9ffffffffc71c) (fpZ 0x8ab05f8bdd54cde190937e76bc3e447cc27c3d6fbd7063fcd104635a790520c0a395554e5c6aaaa9354ffffffffe38f);
  mkE2 (fpZ 0x124c9ad43b6cf79bfbf7043de3811ad0761b0f37a1e26286b0e977c69aa274524e79097a56dc4bd9e1b371c71c718b10) (fpZ 0x0)].
Definition iso_y_den : list E2 := [
  mkE2 (fpZ 0x1a0111ea397fe69a4b1ba7b6434bacd764774b84f38512bf6730d2a0f6b0f6241eabfffeb153ffffb9feffffffffa8fb) (fpZ 0x1a0111ea397fe69a4b1ba7b6434bacd764774b84f38512bf6730d2a0f6b0f6241eabfffeb153ffffb9feffffffffa8fb);
  mkE2 (fpZ 0x0) (fpZ 0x1a0111ea397fe69a4b1ba7b6434bacd764774b84f38512bf6730d2a0f6b0f6241eabfffeb153ffffb9feffffffffa9d3);
  mkE2 (fpZ 0x12) (fpZ 0x1a0111ea397fe69a4b1ba7b6434bacd764774b84f38512bf6730d2a0f6b0f6241eabfffeb153ffffb9feffffffffaa99);
  mkE2 (fpZ 1) (fpZ 0)].

(** iso_map, with the exceptional case of section 4.1/6.6.3: a zero denominator
    gives the point at infinity *)
Definition iso_map (x y : E2) (P : point E2) : Prop :=
  match P with
  | Inf => poly iso_x_den x = E2_Zero \/ poly iso_y_den x = E2_Zero
  | Aff X Y => poly iso_x_den x <> E2_Zero /\ poly iso_y_den x <> E2_Zero /\
      E2_Mul X (poly iso_x_den x) = poly iso_x_num x /\ E2_Mul Y (poly iso_y_den x) = E2_Mul y (poly iso_y_num x)
  end.

(** section 3: map_to_curve, encode_to_curve and hash_to_curve on the output of
    hash_to_field; clear_cofactor is the formula of appendix G.3 *)
Definition rfc_map (u : E2) (P : point E2) : Prop := exists x y, sswu u x y /\ iso_map x y P.
Definition rfc_encode (u : E2) (R : point E2) : Prop := exists P, rfc_map u P /\ cleared P R.
Definition rfc_hash (u0 u1 : E2) (R : point E2) : Prop :=
  exists P0 P1 S, rfc_map u0 P0 /\ rfc_map u1 P1 /\ g2add P0 P1 S /\ cleared S R.
