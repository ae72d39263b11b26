(** Additivity of the pairing in its second argument. *)
From Coq Require Import ZArith NArith List Bool Lia Field.
From Verif Require Import Primes Params ZMod RingPow ZPow Circuit Api Emulated ApiFacts FieldFacts Tower TowerSpec TowerFacts TowerProofs Frobenius TorusFacts CycloFacts Pairing CurveSpec G2 PairSpec HashG2 G2Spec EcIdeal LfVieta EcPoly EcEval EcGroup LineFour G2Jac G2Psi G2Mul G2Cof G2Order MillerProofs FixedQ FixedLoop FinalExp FinalExpProofs FinalExpSpec PairProofs BlsSpec MillerTotal MillerNeg MillerLf Kappa PairAdd.
Import ListNotations.
Open Scope Z_scope.
Add Field E2FPB : E2_ft.
Add Ring E6RPB : E6_rt.
Add Ring E12RPB : E12_rt.
Local Opaque gam.

(** (A1 + B1) + (A2 + B2) = (A1 + A2) + (B1 + B2) *)
Lemma g2_interchange A1 B1 C1 A2 B2 C2 A B C : g2on A1 -> g2on B1 -> g2on A2 -> g2on B2 -> g2add A1 B1 C1 -> g2add A2 B2 C2 -> g2add A1 A2 A -> g2add B1 B2 B -> g2add A B C -> g2add C1 C2 C.
Proof.
  intros a1 b1 a2 b2 H1 H2 HA HB HC. pose proof (g2_closed _ _ _ a1 a2 HA) as a. pose proof (g2_closed _ _ _ b1 b2 HB) as b. pose proof (g2_closed _ _ _ a1 b1 H1) as c1.
  (* A + (B1 + B2) = (A + B1) + B2 *)
  destruct (g2_assoc_ex' A B1 B2 B C a b1 b2 HB HC) as (D & HD & HD').
  pose proof (g2_comm _ _ _ HA) as HA'. destruct (g2_assoc_ex A2 A1 B1 A D a2 a1 b1 HA' HD) as (E & HE & HE').
  rewrite (g2_func _ _ _ _ a1 b1 HE H1) in HE'. (* A2 + C1 = D *) apply g2_comm in HE'.
  destruct (g2_assoc_ex C1 A2 B2 D C c1 a2 b2 HE' HD') as (G & HG & HG'). rewrite (g2_func _ _ _ _ a2 b2 HG H2) in HG'. exact HG'.
Qed.
Lemma isln_add A B C f : isln A B C f -> g2add A B C /\ g2on A /\ g2on B /\ g2on C.
Proof.
  intros (HA & HB & HF & _). split; [exact (lf_add _ _ _ _ _ _ _ _ _ E2_ft _ _ _ _ _ HF)|]. split; [exact HA|]. split; [exact HB|]. exact (lf_on _ _ _ _ HA HB HF).
Qed.

(** three loops side by side: Q1, Q2 and Q1 + Q2 *)
Notation pair2 := (point E2 * point E2)%type.
Notation line3 := (lfun E2 * lfun E2 * lfun E2)%type.
Definition isln3 (A B C : pair2) (f : line3) : Prop :=
  isln (fst A) (fst B) (fst C) (fst (fst f)) /\ isln (snd A) (snd B) (snd C) (snd (fst f)) /\
  exists a b c, isln a b c (snd f) /\ g2add (fst A) (snd A) a /\ g2add (fst B) (snd B) b /\ g2add (fst C) (snd C) c.
Fixpoint zip3 {V : Type} (a b c : list V) : list (V * V * V) :=
  match a, b, c with x :: a, y :: b, z :: c => (x, y, z) :: zip3 a b c | _, _, _ => [] end.
Fixpoint zip33 {V : Type} (a b c : list (list V)) : list (list (V * V * V)) :=
  match a, b, c with x :: a, y :: b, z :: c => zip3 x y z :: zip33 a b c | _, _, _ => [] end.
Lemma join1 A1 B1 C1 f1 A2 B2 C2 f2 A B C f : isln A1 B1 C1 f1 -> isln A2 B2 C2 f2 -> isln A B C f -> g2add A1 A2 A -> g2add B1 B2 B ->
  isln3 (A1, A2) (B1, B2) (C1, C2) (f1, f2, f) /\ g2add C1 C2 C.
Proof.
  intros F1 F2 F HA HB. destruct (isln_add _ _ _ _ F1) as (S1 & a1 & b1 & _). destruct (isln_add _ _ _ _ F2) as (S2 & a2 & b2 & _). destruct (isln_add _ _ _ _ F) as (S & _).
  pose proof (g2_interchange _ _ _ _ _ _ _ _ _ a1 b1 a2 b2 S1 S2 HA HB S) as G. split; [|exact G].
  unfold isln3. cbn [fst snd]. split; [exact F1|]. split; [exact F2|]. exists A, B, C. auto.
Qed.
Lemma join_step Q1 Q2 Q i T1 T2 T S1 S2 S fs1 fs2 fs : g2add Q1 Q2 Q -> g2add T1 T2 T -> pstep Q1 i T1 S1 fs1 -> pstep Q2 i T2 S2 fs2 -> pstep Q i T S fs ->
  gstep isln3 (Q1, Q2) i (T1, T2) (S1, S2) (zip3 fs1 fs2 fs) /\ g2add S1 S2 S.
Proof.
  intros HQ HT. unfold gstep. destruct (Z.eqb _ _).
  - intros (f1 & F1 & ->) (f2 & F2 & ->) (f & F & ->). destruct (join1 _ _ _ _ _ _ _ _ _ _ _ _ F1 F2 F HT HT) as (J & G). split; [|exact G]. exists (f1, f2, f). split; [exact J | reflexivity].
  - intros (M1 & f1 & g1 & F1 & G1 & ->) (M2 & f2 & g2 & F2 & G2 & ->) (M & f & g & F & G & ->).
    destruct (join1 _ _ _ _ _ _ _ _ _ _ _ _ F1 F2 F HT HQ) as (J & HM). destruct (join1 _ _ _ _ _ _ _ _ _ _ _ _ G1 G2 G HM HT) as (J' & HS). split; [|exact HS].
    exists (M1, M2), (f1, f2, f), (g1, g2, g). split; [exact J|]. split; [exact J' | reflexivity].
Qed.
Lemma join_trace Q1 Q2 Q L : g2add Q1 Q2 Q -> forall T1 T2 T fss1 fss2 fss T1' T2' T', g2add T1 T2 T -> ptrace Q1 L T1 fss1 T1' -> ptrace Q2 L T2 fss2 T2' -> ptrace Q L T fss T' ->
  gtrace isln3 (Q1, Q2) L (T1, T2) (zip33 fss1 fss2 fss) (T1', T2').
Proof.
  intros HQ. induction L as [|i L IH]; intros T1 T2 T [|fs1 fss1] [|fs2 fss2] [|fs fss] T1' T2' T' HT; cbn [gtrace zip33]; try (intros ? ? ?; exfalso; assumption).
  - intros -> -> _. reflexivity.
  - intros (S1 & P1 & R1) (S2 & P2 & R2) (S & P & R). destruct (join_step _ _ _ _ _ _ _ _ _ _ _ _ _ HQ HT P1 P2 P) as (J & HS).
    exists (S1, S2). split; [exact J|]. exact (IH _ _ _ _ _ _ _ _ _ HS R1 R2 R).
Qed.
Lemma join_lines Q1 Q2 Q f1 g1 fss1 T1 f2 g2 fss2 T2 f g fss T : g2add Q1 Q2 Q -> plines Q1 f1 g1 fss1 T1 -> plines Q2 f2 g2 fss2 T2 -> plines Q f g fss T ->
  glines isln3 (Q1, Q2) (f1, f2, f) (g1, g2, g) (zip33 fss1 fss2 fss) (T1, T2).
Proof.
  intros HQ (S1 & U1 & F1 & G1 & R1) (S2 & U2 & F2 & G2 & R2) (S & U & F & G & R).
  destruct (join1 _ _ _ _ _ _ _ _ _ _ _ _ F1 F2 F HQ HQ) as (J & HS). destruct (join1 _ _ _ _ _ _ _ _ _ _ _ _ G1 G2 G HS HQ) as (J' & HU).
  exists (S1, S2), (U1, U2). split; [exact J|]. split; [exact J'|]. exact (join_trace _ _ _ _ HQ _ _ _ _ _ _ _ _ _ HU R1 R2 R).
Qed.
(** the value of the joint loop is the product of the three values *)
Definition hjoin (h h' : lfun E2 -> E12) (f : line3) : E12 := E12_Mul (E12_Mul (h (fst (fst f))) (h (snd (fst f)))) (h' (snd f)).
Lemma hjoin_step h h' Q1 Q2 Q i T1 T2 T S1 S2 S fs1 fs2 fs : pstep Q1 i T1 S1 fs1 -> pstep Q2 i T2 S2 fs2 -> pstep Q i T S fs ->
  fold_right (fun v m => E12_Mul (hjoin h h' v) m) E12_One (zip3 fs1 fs2 fs) =
  E12_Mul (E12_Mul (fold_right (fun v m => E12_Mul (h v) m) E12_One fs1) (fold_right (fun v m => E12_Mul (h v) m) E12_One fs2)) (fold_right (fun v m => E12_Mul (h' v) m) E12_One fs).
Proof.
  unfold gstep. destruct (Z.eqb _ _).
  - intros (f1 & _ & ->) (f2 & _ & ->) (f & _ & ->). cbn [zip3 fold_right]. unfold hjoin. cbn [fst snd]. ring.
  - intros (M1 & f1 & g1 & _ & _ & ->) (M2 & f2 & g2 & _ & _ & ->) (M & f & g & _ & _ & ->). cbn [zip3 fold_right]. unfold hjoin. cbn [fst snd]. ring.
Qed.
Lemma shuf3 a b c x y z : E12_Mul (E12_Mul (E12_Mul (E12_Mul a b) c) (E12_Mul (E12_Mul a b) c)) (E12_Mul (E12_Mul x y) z) =
  E12_Mul (E12_Mul (E12_Mul (E12_Mul a a) x) (E12_Mul (E12_Mul b b) y)) (E12_Mul (E12_Mul c c) z).
Proof. ring. Qed.
Lemma hjoin_val h h' Q1 Q2 Q L : forall T1 T2 T fss1 fss2 fss T1' T2' T' r1 r2 r, ptrace Q1 L T1 fss1 T1' -> ptrace Q2 L T2 fss2 T2' -> ptrace Q L T fss T' ->
  hval (hjoin h h') (zip33 fss1 fss2 fss) (E12_Mul (E12_Mul r1 r2) r) = E12_Mul (E12_Mul (hval h fss1 r1) (hval h fss2 r2)) (hval h' fss r).
Proof.
  induction L as [|i L IH]; intros T1 T2 T [|fs1 fss1] [|fs2 fss2] [|fs fss] T1' T2' T' r1 r2 r; cbn [gtrace zip33]; try (intros ? ? ?; exfalso; assumption).
  { intros _ _ _. reflexivity. }
  intros (S1 & P1 & R1) (S2 & P2 & R2) (S & P & R). rewrite !hval_cons, (hjoin_step h h' _ _ _ _ _ _ _ _ _ _ _ _ _ P1 P2 P), shuf3.
  exact (IH _ _ _ _ _ _ _ _ _ _ _ _ R1 R2 R).
Qed.
Lemma hjoin_value h h' Q1 Q2 Q f1 g1 fss1 T1 f2 g2 fss2 T2 f g fss T : plines Q1 f1 g1 fss1 T1 -> plines Q2 f2 g2 fss2 T2 -> plines Q f g fss T ->
  hvalue (hjoin h h') (f1, f2, f) (g1, g2, g) (zip33 fss1 fss2 fss) = E12_Mul (E12_Mul (hvalue h f1 g1 fss1) (hvalue h f2 g2 fss2)) (hvalue h' f g fss).
Proof.
  intros (S1 & U1 & F1 & G1 & R1) (S2 & U2 & F2 & G2 & R2) (S & U & F & G & R). unfold hvalue.
  rewrite <- (hjoin_val h h' _ _ _ _ _ _ _ _ _ _ _ _ _ _ _ _ R1 R2 R).
  assert (E : E12_Mul (hjoin h h' (f1, f2, f)) (hjoin h h' (g1, g2, g)) = E12_Mul (E12_Mul (E12_Mul (h f1) (h g1)) (E12_Mul (h f2) (h g2))) (E12_Mul (h' f) (h' g))) by (unfold hjoin; cbn [fst snd]; ring).
  rewrite E. reflexivity.
Qed.

(** one step, from the four-line identity *)
Definition cv2 (x y : Fp) (A : pair2) (c : E12) : Prop := exists S f, g2on (fst A) /\ g2on (snd A) /\ islf (fst A) (snd A) S f /\ c = hP x y f.
Lemma cv2_neq0 x y A c : y <> fp0 -> cv2 x y A c -> c <> E12_Zero.
Proof. intros N (S & f & HA & HB & HF & ->). apply kap_neq0. exact (lev_neq0 x y _ _ _ _ N HA HB HF). Qed.
Lemma cv2_ex x y A B C f : isln3 A B C f -> exists c, cv2 x y C c.
Proof.
  intros (F1 & F2 & a & b & c & _ & _ & _ & HC). destruct (isln_add _ _ _ _ F1) as (_ & _ & _ & H1). destruct (isln_add _ _ _ _ F2) as (_ & _ & _ & H2).
  destruct (lf_ex _ _ _ _ _ _ _ _ _ E2_ft _ _ _ _ HC) as (g & G). exists (hP x y g). exists c, g. auto.
Qed.
Lemma kap5 a b c d e : a <> E12_Zero -> b <> E12_Zero -> c <> E12_Zero -> d <> E12_Zero -> e <> E12_Zero -> kap d = E12_One -> kap e = E12_One ->
  E12_Mul a (E12_Mul b (E12_Mul c (E12_Mul d (E12_Mul e E12_One)))) <> E12_Zero /\
  kap (E12_Mul a (E12_Mul b (E12_Mul c (E12_Mul d (E12_Mul e E12_One))))) = E12_Mul (E12_Mul (kap a) (kap b)) (kap c).
Proof.
  intros A B C D E KD KE. pose proof (nz_mul _ _ E E12_1_neq_0) as N1. pose proof (nz_mul _ _ D N1) as N2. pose proof (nz_mul _ _ C N2) as N3. pose proof (nz_mul _ _ B N3) as N4. split; [exact (nz_mul _ _ A N4)|].
  rewrite (kap_mul _ _ A N4), (kap_mul _ _ B N3), (kap_mul _ _ C N2), (kap_mul _ _ D N1), (kap_mul _ _ E E12_1_neq_0), kap_one, KD, KE. ring.
Qed.
Lemma tel_shuf f1 f2 f f' g3 a b : E12_Mul (E12_Mul f1 f2) g3 = E12_Mul (E12_Mul a b) f -> E12_Mul f f' = E12_One -> E12_Mul (E12_Mul (E12_Mul f1 f2) f') g3 = E12_Mul a b.
Proof. intros H I. transitivity (E12_Mul (E12_Mul (E12_Mul f1 f2) g3) f'); [ring|]. rewrite H. transitivity (E12_Mul (E12_Mul a b) (E12_Mul f f')); [ring | rewrite I; ring]. Qed.
Lemma tel_Q x y : oncurve1 (Aff x y) -> forall A B C f, isln3 A B C f -> forall a b c, cv2 x y A a -> cv2 x y B b -> cv2 x y C c ->
  E12_Mul (hjoin (hP x y) (hP x (fopp y)) f) c = E12_Mul a b.
Proof.
  intros HP [A1 A2] [B1 B2] [C1 C2] [[f1 f2] f]. unfold isln3, cv2, hjoin. cbn [fst snd].
  intros (F1 & F2 & A & B & C & F & SA & SB & SC) a b c (SA' & g1 & _ & _ & G1 & ->) (SB' & g2 & _ & _ & G2 & ->) (SC' & g3 & c1 & c2 & G3 & ->).
  destruct (isln_add _ _ _ _ F1) as (S1 & a1 & b1 & _). destruct (isln_add _ _ _ _ F2) as (S2 & a2 & b2 & _). destruct (isln_add _ _ _ _ F) as (S & HA & HB & HC).
  pose proof (lf_add _ _ _ _ _ _ _ _ _ E2_ft _ _ _ _ _ G1) as AG1. pose proof (lf_add _ _ _ _ _ _ _ _ _ E2_ft _ _ _ _ _ G2) as AG2. pose proof (lf_add _ _ _ _ _ _ _ _ _ E2_ft _ _ _ _ _ G3) as AG3.
  rewrite (g2_func _ _ _ _ a1 a2 AG1 SA) in G1. rewrite (g2_func _ _ _ _ b1 b2 AG2 SB) in G2. rewrite (g2_func _ _ _ _ c1 c2 AG3 SC) in G3.
  destruct F1 as (_ & _ & F1 & _). destruct F2 as (_ & _ & F2 & _). destruct F as (_ & _ & F & _).
  destruct (four_lines _ _ _ _ _ _ _ _ _ _ _ _ _ _ _ a1 b1 a2 b2 F1 F2 F G1 G2 G3) as [u Nu E].
  assert (O : on12 (w2e x) (w3e y)). { apply on12_w. unfold oncurve1 in HP. cbn [on_curve] in HP. rewrite HP. unfold fpZ. ring. }
  specialize (E _ _ O). pose proof (g1_y_nz _ _ HP) as Ny. unfold lprodev in E. cbn [fold_right] in E.
  destruct (lev_lvert x (w3e y) A HA) as (VA & KA). destruct (lev_lvert x (w3e y) B HB) as (VB & KB).
  destruct (lev_lvert x (w3e y) C1 c1) as (V1 & K1). destruct (lev_lvert x (w3e y) C2 c2) as (V2 & K2).
  pose proof (lev_neq0 x y _ _ _ _ Ny a1 b1 F1) as M1. pose proof (lev_neq0 x y _ _ _ _ Ny a2 b2 F2) as M2. pose proof (lev_neq0 x y _ _ _ _ Ny HA HB F) as M.
  pose proof (lev_neq0 x y _ _ _ _ Ny a1 a2 G1) as L1. pose proof (lev_neq0 x y _ _ _ _ Ny b1 b2 G2) as L2. pose proof (lev_neq0 x y _ _ _ _ Ny c1 c2 G3) as L3.
  destruct (kap5 _ _ _ _ _ M1 M2 L3 VA VB KA KB) as (_ & X1). destruct (kap5 _ _ _ _ _ L1 L2 M V1 V2 K1 K2) as (Z & X2).
  pose proof (kap_scale _ _ _ Nu Z (eq_sym E)) as X. rewrite X1, X2 in X.
  exact (tel_shuf _ _ _ _ _ _ _ (eq_sym X) (hP_inv x y _ _ _ _ Ny HA HB F)).
Qed.

(** the lines under the map - psi *)
Definition gi : E2 := E2_Mul psi_v (E2_Mul gam gam).
Lemma gi_facts : E2_Mul psi_u gi = psi_v /\ E2_Mul gi gi = psi_u /\ E2_Mul gi gam = E2_One.
Proof.
  destruct psi_gam as (V & W). pose proof psi_uv as UV. unfold gi. revert V W UV. generalize psi_u psi_v gam. clear. intros u v g V W UV. split; [|split].
  - transitivity (E2_Mul v (E2_Mul u (E2_Mul g g))); [ring | rewrite W; ring].
  - transitivity (E2_Mul (E2_Mul v v) (E2_Mul (E2_Mul g g) (E2_Mul g g))); [ring|]. rewrite UV. transitivity (E2_Mul u (E2_Mul (E2_Mul u (E2_Mul g g)) (E2_Mul u (E2_Mul g g)))); [ring | rewrite W; ring].
  - transitivity (E2_Mul v (E2_Mul (E2_Mul g g) g)); [ring | exact V].
Qed.
Definition npsi (P : point E2) : point E2 := g2neg (psiP P).
Definition npsi_lf (f : lfun E2) : lfun E2 :=
  match f with LOne => LOne | LVert x => LVert (E2_Mul (E2_Conjugate x) psi_u)
  | LLine l m => LLine (E2_Neg (E2_Mul gi (E2_Conjugate l))) (E2_Neg (E2_Mul psi_v (E2_Conjugate m))) end.
Lemma conj_add a b : E2_Conjugate (E2_Add a b) = E2_Add (E2_Conjugate a) (E2_Conjugate b).
Proof. unfold E2_Conjugate, E2_Add. cbn [A0 A1]. apply E2_ext; cbn [A0 A1]; ring. Qed.
Lemma conj_inj a b : E2_Conjugate a = E2_Conjugate b -> a = b.
Proof.
  assert (I : forall z, E2_Conjugate (E2_Conjugate z) = z) by (intros [z0 z1]; unfold E2_Conjugate; cbn [A0 A1]; apply E2_ext; cbn [A0 A1]; [reflexivity | ring]).
  intros H. rewrite <- (I a), H. apply I.
Qed.
Local Opaque E2_Conjugate E2_Mul E2_Add E2_Sub E2_Neg psi_u psi_v.
Lemma npsi_line l m x y : y = E2_Add (E2_Mul l x) m -> E2_Neg (E2_Mul (E2_Conjugate y) psi_v) =
  E2_Add (E2_Mul (E2_Neg (E2_Mul gi (E2_Conjugate l))) (E2_Mul (E2_Conjugate x) psi_u)) (E2_Neg (E2_Mul psi_v (E2_Conjugate m))).
Proof.
  intros ->. rewrite conj_add, conj_mul. destruct gi_facts as (G & _). rewrite <- G. ring.
Qed.
Lemma npsi_third l x1 y1 x2 : npsi (third E2 E2_Mul E2_Sub l x1 y1 x2) =
  third E2 E2_Mul E2_Sub (E2_Neg (E2_Mul gi (E2_Conjugate l))) (E2_Mul (E2_Conjugate x1) psi_u) (E2_Neg (E2_Mul (E2_Conjugate y1) psi_v)) (E2_Mul (E2_Conjugate x2) psi_u).
Proof.
  assert (S : forall a b, E2_Conjugate (E2_Sub a b) = E2_Sub (E2_Conjugate a) (E2_Conjugate b)).
  { intros a b. transitivity (E2_Conjugate (E2_Add a (E2_Neg b))); [f_equal; ring|]. rewrite conj_add, conj_neg. ring. }
  destruct gi_facts as (G & GG & _). unfold third, npsi, psiP, g2neg. cbv zeta. cbn [pneg].
  assert (C1 : E2_Conjugate (E2_Sub (E2_Sub (E2_Mul l l) x1) x2) = E2_Sub (E2_Sub (E2_Mul (E2_Conjugate l) (E2_Conjugate l)) (E2_Conjugate x1)) (E2_Conjugate x2)) by (rewrite (S (E2_Sub (E2_Mul l l) x1) x2), (S (E2_Mul l l) x1), (conj_mul l l); reflexivity).
  set (x3 := E2_Sub (E2_Sub (E2_Mul l l) x1) x2) in *.
  rewrite (S (E2_Mul l (E2_Sub x1 x3)) y1), (conj_mul l (E2_Sub x1 x3)), (S x1 x3), C1. clear C1 x3.
  generalize (E2_Conjugate l) (E2_Conjugate x1) (E2_Conjugate x2) (E2_Conjugate y1). intros l' a b c.
  assert (X : E2_Mul (E2_Sub (E2_Sub (E2_Mul l' l') a) b) psi_u = E2_Sub (E2_Sub (E2_Mul (E2_Neg (E2_Mul gi l')) (E2_Neg (E2_Mul gi l'))) (E2_Mul a psi_u)) (E2_Mul b psi_u)) by (rewrite <- GG; ring).
  rewrite <- X. apply aff_eq; [reflexivity|]. rewrite <- G. ring.
Qed.
Lemma npsi_islf A B C f : g2on A -> g2on B -> islf A B C f -> islf (npsi A) (npsi B) (npsi C) (npsi_lf f).
Proof.
  intros HA HB H. destruct gi_facts as (G & GG & _). destruct H as [ | x y | x y | x y y' E | x1 y1 x2 y2 l m N Y1 Y2 | x y l m N T Y].
  - apply lf_inf.
  - apply lf_infl.
  - apply lf_infr.
  - apply lf_opp. rewrite E, conj_neg. ring.
  - rewrite npsi_third. apply lf_chord; [|exact (npsi_line _ _ _ _ Y1) | exact (npsi_line _ _ _ _ Y2)].
    intros E. apply N. apply conj_inj. exact (cancel_r _ _ _ psi_u_nz E).
  - rewrite npsi_third. apply lf_tan; [ | |exact (npsi_line _ _ _ _ Y)].
    + intros D. apply double_zero in D. exact (g2_y_nz _ _ (g2_neg_on _ (psiP_on _ HA)) D).
    + apply (f_equal E2_Conjugate) in T. rewrite conj_mul, !conj_add, !conj_mul, !conj_add in T.
      assert (O : E2_Conjugate E2_One = E2_One) by (apply E2_ext; reflexivity). assert (Z : E2_Conjugate g2a = g2a) by (apply E2_ext; reflexivity). rewrite O, Z in T.
      revert T. generalize (E2_Conjugate l) (E2_Conjugate x) (E2_Conjugate y). intros l' a b T.
      transitivity (E2_Mul (E2_Mul psi_u psi_u) (E2_Mul l' (E2_Add b b))).
      * rewrite <- G. transitivity (E2_Mul (E2_Mul (E2_Mul gi gi) psi_u) (E2_Mul l' (E2_Add b b))); [ring | rewrite GG; ring].
      * rewrite T. unfold g2a. ring.
Qed.
Local Transparent E2_Conjugate E2_Mul E2_Add E2_Sub E2_Neg psi_u psi_v.
Lemma lev_npsi x y l m : E12_Mul (e12_of2 (E2_Mul (E2_Mul gam gam) gam)) (E12_Neg (E12_Conjugate (lev12 (w2e x) (w3e y) (npsi_lf (LLine l m))))) = frob12 (lev12 (w2e x) (w3e y) (LLine l m)).
Proof.
  assert (L : forall l m, lev12 (w2e x) (w3e y) (LLine l m) = mkE12 (mkE6 (E2_Neg m) (E2_Neg (E2_Mul l (e2_of x))) E2_Zero) (mkE6 E2_Zero (e2_of y) E2_Zero)).
  { intros a b. unfold lev, w2e, w3e. generalize (e2_of x) (e2_of y). intros X Y. e12_full. }
  unfold npsi_lf. rewrite !L. clear L. unfold E12_Neg, E12_Conjugate, E6_Neg. cbn [C0 C1 B0 B1 B2]. rewrite e12_of2_mulx. unfold frob12. cbv zeta. cbn [C0 C1 B0 B1 B2].
  rewrite (conj_neg m), (conj_neg (E2_Mul l (e2_of x))), (conj_mul l (e2_of x)), (conj_of x), (conj_of y), conj_zero.
  destruct psi_gam as (V & _). destruct gi_facts as (_ & _ & GG). revert V GG. generalize gam gi psi_v (e2_of x) (e2_of y) (E2_Conjugate l) (E2_Conjugate m). clear. intros g i v X Y l m V GG.
  apply E12_ext; cbn [C0 C1]; apply E6_ext; cbn [B0 B1 B2]; try ring.
  - transitivity (E2_Neg (E2_Mul m (E2_Mul v (E2_Mul (E2_Mul g g) g)))); [ring | rewrite V; ring].
  - transitivity (E2_Neg (E2_Mul (E2_Mul (E2_Mul g g) (E2_Mul l X)) (E2_Mul i g))); [ring | rewrite GG; ring].
Qed.
Lemma hP_vert x y A B C x1 : g2on A -> g2on B -> islf A B C (LVert x1) -> hP x y (LVert x1) = E12_One.
Proof.
  intros HA HB H. assert (N : x1 <> E2_Zero) by (inversion H; subst; [exact (g2b_x _ _ HB) | exact (g2b_x _ _ HA) | exact (g2b_x _ _ HA)]).
  apply kap_6; [exact (lev_vert_neq0 x _ x1 N)|]. unfold lev, w2e, e12_of2. cbn [C1 E12_Sub]. ring.
Qed.
Lemma conj_conj12 a : E12_Conjugate (E12_Conjugate a) = a.
Proof. destruct a as [a b]. unfold E12_Conjugate. cbn [C0 C1]. apply E12_ext; cbn [C0 C1]; [reflexivity | ring]. Qed.
Lemma neg_neq0 a : a <> E12_Zero -> E12_Neg a <> E12_Zero.
Proof. intros N E. apply N. transitivity (E12_Neg (E12_Neg a)); [ring | rewrite E; ring]. Qed.
Lemma hP_npsi x y A B C f : y <> fp0 -> g2on A -> g2on B -> islf A B C f -> E12_Mul (z12 (hP x y f) pBLS) (hP x y (npsi_lf f)) = E12_One.
Proof.
  intros N HA HB H. pose proof (npsi_islf _ _ _ _ HA HB H) as H'. pose proof (g2_neg_on _ (psiP_on _ HA)) as HA'. pose proof (g2_neg_on _ (psiP_on _ HB)) as HB'.
  destruct f as [|x1|l m].
  - assert (E : hP x y LOne = E12_One) by exact kap_one. cbn [npsi_lf]. rewrite E, zpow_one. ring.
  - rewrite (hP_vert x y _ _ _ _ HA HB H). cbn [npsi_lf] in *. rewrite (hP_vert x y _ _ _ _ HA' HB' H'), zpow_one. ring.
  - pose proof (lev_neq0 x y _ _ _ _ N HA HB H) as M. pose proof (lev_neq0 x y _ _ _ _ N HA' HB' H') as M'. pose proof (conj_neq0 _ M') as M''.
    unfold hP. rewrite <- (kap_frob _ M), <- (kap_scale _ _ _ gam3_neq0 (neg_neq0 _ M'') (lev_npsi x y l m)), (kap_neg _ M''), E12_comm. exact (kap_conj _ M').
Qed.
Theorem add_second P Q1 Q2 Q3 m1 m2 m3 : oncurve1 (g1aff P) -> in_G2 (aff2 Q1) -> in_G2 (aff2 Q2) -> in_G2 (aff2 Q3) -> g2add (aff2 Q1) (aff2 Q2) (aff2 Q3) ->
  sat (MillerLoop [P] [Q1]) m1 -> sat (MillerLoop [P] [Q2]) m2 -> sat (MillerLoop [P] [Q3]) m3 -> E12_Mul (kap m1) (kap m2) = kap m3.
Proof.
  intros HP G1 G2 G3 A S1 S2 S3. pose proof (g1_y_nz _ _ HP) as N. set (x := g1X P) in *. set (y := g1Y P) in *.
  destruct (miller_kap Q1 G1) as (f1 & g1 & fss1 & t1 & PL1 & KM1 & V1). destruct (miller_kap Q2 G2) as (f2 & g2 & fss2 & t2 & PL2 & KM2 & V2). destruct (miller_kap Q3 G3) as (f3 & g3 & fss3 & t3 & PL3 & KM3 & V3).
  destruct (V1 P N) as (k1 & D1 & _ & E1). destruct (V2 P N) as (k2 & D2 & _ & E2). destruct (V3 P N) as (k3 & D3 & _ & E3).
  apply (proj2 D1) in S1. apply (proj2 D2) in S2. apply (proj2 D3) in S3. subst m1 m2 m3.
  pose proof (end_neg _ _ G1 KM1) as T1. pose proof (end_neg _ _ G2 KM2) as T2. pose proof (proj1 G1) as H1. pose proof (proj1 G2) as H2.
  destruct (lf_ex _ _ _ _ _ _ _ _ _ E2_ft _ _ _ _ A) as (f & F).
  assert (T : hvalue (hjoin (hP x y) (hP x (fopp y))) (f1, f2, f3) (g1, g2, g3) (zip33 fss1 fss2 fss3) = E12_One).
  { pose proof (lev_neq0 x y _ _ _ _ N H1 H2 F) as M.
    apply (tel_end _ (hP x y f) (hP x y (npsi_lf f))); [exact (kap_neq0 _ M)| |exact (hP_npsi x y _ _ _ _ N H1 H2 F)|exact (kap_end _ M)].
    apply (telescope isln3 _ (cv2 x y) (cv2_ex x y) (fun A a => cv2_neq0 x y A a N) (tel_Q x y HP) (aff2 Q1, aff2 Q2) _ _ _ _ (aff2 t1, aff2 t2)).
    - exact (join_lines _ _ _ _ _ _ _ _ _ _ _ _ _ _ _ A PL1 PL2 PL3).
    - exists (aff2 Q3), f. cbn [fst snd]. auto.
    - exists (npsi (aff2 Q3)), (npsi_lf f). cbn [fst snd]. rewrite T1, T2. split; [exact (g2_neg_on _ (psiP_on _ H1))|]. split; [exact (g2_neg_on _ (psiP_on _ H2))|].
      split; [exact (npsi_islf _ _ _ _ H1 H2 F) | reflexivity]. }
  rewrite (hjoin_value _ _ _ _ _ _ _ _ _ _ _ _ _ _ _ _ _ PL1 PL2 PL3) in T.
  exact (inv4 _ _ _ _ _ _ _ E1 E2 E3 (hvalue_neg _ _ _ _ _ PL3 x y N) T).
Qed.
