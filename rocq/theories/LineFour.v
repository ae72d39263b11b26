(** Lines on the twist, evaluated over Fp12: the four-point identity. *)
From Coq Require Import ZArith List Permutation Ring Field.
From mathcomp Require ssreflect ssrfun eqtype choice seq ssrnat.
From Verif Require Import Params ZMod Emulated Tower FieldFacts TowerFacts Frobenius CurveSpec G2Spec EcIdeal EcPoly EcEval EcGroup.
Import ListNotations.
Add Ring E2RLF : E2_rt.
Add Ring E6RLF : E6_rt.
Add Ring E12RLF : E12_rt.

(** Fp12 in pairs of natural numbers *)
Definition E12_nats (x : E12) : list nat :=
  flat_map (fun z => [fst (E2_code z); snd (E2_code z)]) [B0 (C0 x); B1 (C0 x); B2 (C0 x); B0 (C1 x); B1 (C1 x); B2 (C1 x)].
Definition E12_ofnats (l : list nat) : E12 :=
  let e i := E2_decode (nth i l O, nth (S i) l O) in
  mkE12 (mkE6 (e 0%nat) (e 2%nat) (e 4%nat)) (mkE6 (e 6%nat) (e 8%nat) (e 10%nat)).
Lemma E12_natsK x : E12_ofnats (E12_nats x) = x.
Proof.
  destruct x as [[a b c] [d e f]]. unfold E12_ofnats, E12_nats. cbn [C0 C1 B0 B1 B2 flat_map app nth].
  assert (H : forall z, E2_decode (fst (E2_code z), snd (E2_code z)) = z) by (intros z; exact (E2_codeK z)).
  now rewrite !H.
Qed.
Definition E12_code (x : E12) : nat * nat := (@choice.pickle (choice.seq_countType choice.nat_countType) (E12_nats x), O).
Definition E12_decode (n : nat * nat) : E12 :=
  match @choice.unpickle (choice.seq_countType choice.nat_countType) (fst n) with Some l => E12_ofnats l | None => E12_Zero end.
Lemma E12_codeK x : E12_decode (E12_code x) = x.
Proof. unfold E12_decode, E12_code. cbn [fst]. rewrite choice.pickleK. apply E12_natsK. Qed.
Lemma E12_inv_0 : E12_inv E12_Zero = E12_Zero.
Proof.
  unfold E12_inv. cbv zeta. change (C0 E12_Zero) with E6_Zero. change (C1 E12_Zero) with E6_Zero. set (t := E6_inv _). clearbody t.
  change E12_Zero with (mkE12 E6_Zero E6_Zero). f_equal; ring.
Qed.

Notation islf := (is_lf E2 E2_Zero E2_One E2_Add E2_Mul E2_Sub E2_Neg g2a).
Notation lzeros := (zeros E2 E2_Zero E2_One E2_Add E2_Mul E2_Sub E2_Neg g2a g2b).
Notation lev12 := (lev E12_One E12_Add E12_Mul E12_Sub e12_of2).
Notation lpr12 := (lprodev E12_One E12_Add E12_Mul E12_Sub e12_of2).
(** the curve over Fp12 *)
Definition on12 (x y : E12) : Prop := E12_Mul y y = E12_Add (E12_Mul (E12_Mul x x) x) (e12_of2 g2b).
Lemma zeros12 fs zs gs ys : lzeros fs zs -> lzeros gs ys -> Permutation zs ys ->
  exists2 u : E2, u <> E2_Zero & forall x y, on12 x y -> lpr12 x y fs = E12_Mul (e12_of2 u) (lpr12 x y gs).
Proof.
  intros Hf Hg Hp.
  destruct (same_zeros_eval E2_ft E2_dec E2_codeK E2_inv_0 E12_ft E12_eq_dec E12_codeK E12_inv_0 (eq_refl : e12_of2 E2_One = E12_One) e12_of2_add e12_of2_mul (nonsing0 _ g2b_neq0) Hf Hg Hp) as [u Nu H].
  exists u; [exact Nu|]. intros x y E. apply H. unfold on12 in E. rewrite E. unfold g2a.
  change (e12_of2 E2_Zero) with E12_Zero. ring.
Qed.
Lemma lf_on A B C f : g2on A -> g2on B -> islf A B C f -> g2on C.
Proof. intros HA HB H. refine (g2_closed A B C HA HB _). exact (lf_add _ _ _ _ _ _ _ _ _ E2_ft _ _ _ _ _ H). Qed.
Ltac permsolve :=
  lazymatch goal with
  | |- Permutation [] [] => constructor
  | |- Permutation (?x :: ?l) ?m =>
      let rec split m := lazymatch m with x :: ?t => constr:((@nil (point E2), t)) | ?h :: ?t => let r := split t in lazymatch r with (?p, ?q) => constr:((h :: p, q)) end end in
      let r := split m in lazymatch r with (?p, ?q) => apply (Permutation_cons_app p q x); cbn [app]; permsolve end
  end.
(** for A_i + B_i = C_i, A1 + A2 = A, B1 + B2 = B and A + B = C1 + C2 = C *)
Theorem four_lines A1 B1 C1 f1 A2 B2 C2 f2 A B C f g1 g2 g3 :
  g2on A1 -> g2on B1 -> g2on A2 -> g2on B2 ->
  islf A1 B1 C1 f1 -> islf A2 B2 C2 f2 -> islf A B C f ->
  islf A1 A2 A g1 -> islf B1 B2 B g2 -> islf C1 C2 C g3 ->
  exists2 u : E2, u <> E2_Zero & forall x y, on12 x y ->
    lpr12 x y [f1; f2; g3; lvert E2 A; lvert E2 B] = E12_Mul (e12_of2 u) (lpr12 x y [g1; g2; f; lvert E2 C1; lvert E2 C2]).
Proof.
  intros HA1 HB1 HA2 HB2 F1 F2 F G1 G2 G3.
  pose proof (lf_on _ _ _ _ HA1 HB1 F1) as HC1. pose proof (lf_on _ _ _ _ HA2 HB2 F2) as HC2.
  pose proof (lf_on _ _ _ _ HA1 HA2 G1) as HA. pose proof (lf_on _ _ _ _ HB1 HB2 G2) as HB.
  set (neg := pneg E2 E2_Neg).
  apply (zeros12 _ [A1; B1; neg C1; A2; B2; neg C2; C1; C2; neg C; A; neg A; B; neg B] _ [A1; A2; neg A; B1; B2; neg B; A; B; neg C; C1; neg C1; C2; neg C2]).
  - apply z_lf; [exact HA1 | exact HB1 | exact F1|]. apply z_lf; [exact HA2 | exact HB2 | exact F2|]. apply z_lf; [exact HC1 | exact HC2 | exact G3|].
    apply z_vert; [exact HA|]. apply z_vert; [exact HB|]. constructor.
  - apply z_lf; [exact HA1 | exact HA2 | exact G1|]. apply z_lf; [exact HB1 | exact HB2 | exact G2|]. apply z_lf; [exact HA | exact HB | exact F|].
    apply z_vert; [exact HC1|]. apply z_vert; [exact HC2|]. constructor.
  - permsolve.
Qed.
