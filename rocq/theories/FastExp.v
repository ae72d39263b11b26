(** Fast evaluation of the final exponentiation of a given element (proof
    infrastructure; no model definition depends on it). *)
From Coq Require Import ZArith NArith List Bool Lia Uint63.
From Verif Require Import Params ZMod RingPow ZPow FastMod FastParams Circuit Emulated Tower FieldFacts TowerFacts TowerProofs Frobenius TorusFacts CycloFacts FastTower G2Chain FinalExp FinalExpProofs FinalExpSpec MillerFast.
Import ListNotations.
Open Scope Z_scope.
Add Field E2FFE : E2_ft.
Add Ring E6RFE : E6_rt.
Add Ring E12RFE : E12_rt.

Definition l2sq (a : L2) : L2 := let t := mmul MPp (fst a) (snd a) in (mmul MPp (madd MPp (fst a) (snd a)) (subP (fst a) (snd a)), madd MPp t t).
Lemma st2_sq a x : stands2 a x -> stands2 (l2sq a) (E2_Square x).
Proof.
  intros [H1 H2]. rewrite E2_Square_eq.
  assert (E : E2_Mul x x = mkE2 (fmul (fadd (A0 x) (A1 x)) (fsub (A0 x) (A1 x))) (fadd (fmul (A0 x) (A1 x)) (fmul (A0 x) (A1 x)))).
  { apply E2_ext; cbn [A0 A1 E2_Mul]; ring. }
  rewrite E. split; cbn [A0 A1 l2sq fst snd].
  - apply stP_mul; [now apply stP_add | now apply stP_subP].
  - apply stP_add; now apply stP_mul.
Qed.
Definition l2red (a : L2) : L2 := (mmul MPp (fst a) oneMP, mmul MPp (snd a) oneMP).
Lemma st2_red a x : stands2 a x -> stands2 (l2red a) x.
Proof.
  intros [H1 H2]. replace x with (mkE2 (fmul (A0 x) (f1 pBLS)) (fmul (A1 x) (f1 pBLS))) by (apply E2_ext; cbn [A0 A1]; ring).
  split; cbn [A0 A1 l2red fst snd]; (apply stP_mul; [assumption | exact st_oneMP]).
Qed.
Definition l2cj (a : L2) : L2 := (fst a, subP (inM MPp 0) (snd a)).
Lemma st2_cj a x : stands2 a x -> stands2 (l2cj a) (E2_Conjugate x).
Proof. intros [H1 H2]. split; [exact H1|]. cbn [l2cj snd E2_Conjugate A1]. replace (fopp (A1 x)) with (fsub (f0 pBLS) (A1 x)) by ring. apply stP_subP; [apply st_zero | exact H2]. Qed.
Definition l6cj (a : L6) : L6 := l6sub (l2zero, l2zero, l2zero) a.
Lemma st6_cj a x : st6 a x -> st6 (l6cj a) (E6_Neg x).
Proof.
  intros H. replace (E6_Neg x) with (E6_Sub E6_Zero x) by ring. apply st6_sub; [|exact H]. split; [|split]; exact st2_zero.
Qed.
Definition l12cj (a : L12) : L12 := (fst a, l6cj (snd a)).
Lemma st12_cj a x : st12 a x -> st12 (l12cj a) (E12_Conjugate x).
Proof. intros [H1 H2]. split; [exact H1 | exact (st6_cj _ _ H2)]. Qed.
Definition l12mul (x y : L12) : L12 :=
  let b := l6mul (fst x) (fst y) in let c := l6mul (snd x) (snd y) in
  (l6add b (l6nr c), l6sub (l6sub (l6mul (l6add (fst x) (snd x)) (l6add (fst y) (snd y))) b) c).
Lemma st12_mul a b x y : st12 a x -> st12 b y -> st12 (l12mul a b) (E12_Mul x y).
Proof.
  intros [H1 H2] [H3 H4].
  assert (E : E12_Mul x y = mkE12 (E6_Add (E6_Mul (C0 x) (C0 y)) (E6_MulByNonResidue (E6_Mul (C1 x) (C1 y))))
     (E6_Sub (E6_Sub (E6_Mul (E6_Add (C0 x) (C1 x)) (E6_Add (C0 y) (C1 y))) (E6_Mul (C0 x) (C0 y))) (E6_Mul (C1 x) (C1 y)))).
  { unfold E12_Mul. cbv zeta. apply E12_ext; cbn [C0 C1]; [ring | reflexivity]. }
  rewrite E. pose proof (st6_mul _ _ _ _ H1 H3) as B. pose proof (st6_mul _ _ _ _ H2 H4) as C.
  split; cbn [fst snd C0 C1 l12mul]; [exact (st6_add _ _ _ _ B (st6_nr _ _ C))|].
  exact (st6_sub _ _ _ _ (st6_sub _ _ _ _ (st6_mul _ _ _ _ (st6_add _ _ _ _ H1 H2) (st6_add _ _ _ _ H3 H4)) B) C).
Qed.

Local Opaque E2_Mul E2_Add E2_Sub E2_Neg E2_MulByNonResidue E2_Conjugate E2_One E2_Zero l2mul l2add l2sub l2eq l2Z l2nr l2one l2zero l2sq l2cj l2red E2_Square.
Local Ltac sts := lazymatch goal with
  | |- stands2 (l2mul _ _) _ => eapply st2_mul; [sts | sts]
  | |- stands2 (l2add _ _) _ => eapply st2_add; [sts | sts]
  | |- stands2 (l2sub _ _) _ => eapply st2_sub; [sts | sts]
  | |- stands2 (l2nr _) _ => eapply st2_mulnr; sts
  | |- stands2 (l2red _) _ => eapply st2_red; sts
  | |- stands2 (l2sq _) _ => eapply st2_sq; sts
  | |- stands2 (l2cj _) _ => eapply st2_cj; sts
  | |- _ => assumption
  end.
Definition l2m3 (t x : L2) : L2 := let d := l2sub t x in l2add (l2add d d) t.
Definition l2p3 (t x : L2) : L2 := let d := l2red (l2add t x) in l2add (l2add d d) t.
Definition l12cyc (x : L12) : L12 :=
  let '((x0, x1, x2), (y0, y1, y2)) := x in
  let t0 := l2sq y1 in let t1 := l2sq x0 in
  let t6 := l2sub (l2sub (l2sq (l2add y1 x0)) t0) t1 in
  let t2 := l2sq x2 in let t3 := l2sq y0 in
  let t7 := l2sub (l2sub (l2sq (l2add x2 y0)) t2) t3 in
  let t4 := l2sq y2 in let t5 := l2sq x1 in
  let t8 := l2nr (l2sub (l2sub (l2sq (l2add y2 x1)) t4) t5) in
  ((l2m3 (l2add (l2nr t0) t1) x0, l2m3 (l2add (l2nr t2) t3) x1, l2m3 (l2add (l2nr t4) t5) x2),
   (l2p3 t8 y0, l2p3 t6 y1, l2p3 t7 y2)).
Lemma st12_cyc a x : st12 a x -> st12 (l12cyc a) (E12_CyclotomicSquare x).
Proof.
  destruct a as [[[a0 a1] a2] [[b0 b1] b2]]. intros [(? & ? & ?) (? & ? & ?)]. cbn [fst snd] in *. unfold E12_CyclotomicSquare. cbv zeta. rewrite !E2_Double_eq.
  unfold l12cyc, l2m3, l2p3. cbv zeta. split; cbn [fst snd C0 C1]; (split; [|split]); cbn [fst snd B0 B1 B2]; sts.
Qed.
(** Frobenius maps: constants as pairs of integers *)
Definition gE (i : Z) : E2 := match i with 1 => gam | 2 => E2_Mul gam gam | 3 => E2_Mul (E2_Mul gam gam) gam | 4 => E2_Mul (E2_Mul gam gam) (E2_Mul gam gam) | _ => E2_Mul (E2_Mul (E2_Mul gam gam) (E2_Mul gam gam)) gam end.
Lemma st2_val x : stands2 (l2Z (fval (A0 x), fval (A1 x))) x.
Proof. pose proof (st2_Z (fval (A0 x), fval (A1 x))) as H. unfold e2Z in H. cbn [fst snd] in H. unfold fpZ in H. rewrite !ofZ_fval in H. destruct x. exact H. Qed.
Definition lpow5 (g : L2) (i : Z) : L2 := match i with 1 => g | 2 => l2mul g g | 3 => l2mul (l2mul g g) g | 4 => l2mul (l2mul g g) (l2mul g g) | _ => l2mul (l2mul (l2mul g g) (l2mul g g)) g end.
Definition gL (i : Z) : L2 := lpow5 (l2Z (fval (A0 gam), fval (A1 gam))) i.
Lemma st_g i : stands2 (gL i) (gE i).
Proof. unfold gL, gE, lpow5. pose proof (st2_val gam). repeat match goal with |- context[match ?i with _ => _ end] => destruct i end; sts. Qed.
Definition l12frob (x : L12) : L12 :=
  let '((x0, x1, x2), (y0, y1, y2)) := x in
  ((l2cj x0, l2mul (gL 2) (l2cj x1), l2mul (gL 4) (l2cj x2)),
   (l2mul (gL 1) (l2cj y0), l2mul (gL 3) (l2cj y1), l2mul (gL 5) (l2cj y2))).
Lemma st12_frob a x : st12 a x -> st12 (l12frob a) (frob12 x).
Proof.
  destruct a as [[[a0 a1] a2] [[b0 b1] b2]]. intros [(? & ? & ?) (? & ? & ?)]. cbn [fst snd] in *. unfold frob12, l12frob. cbv zeta. split; cbn [fst snd C0 C1]; (split; [|split]); cbn [fst snd B0 B1 B2].
  - now apply st2_cj.
  - refine (st2_mul _ _ _ _ (st_g 2) (st2_cj _ _ _)); assumption.
  - refine (st2_mul _ _ _ _ (st_g 4) (st2_cj _ _ _)); assumption.
  - refine (st2_mul _ _ _ _ (st_g 1) (st2_cj _ _ _)); assumption.
  - refine (st2_mul _ _ _ _ (st_g 3) (st2_cj _ _ _)); assumption.
  - refine (st2_mul _ _ _ _ (st_g 5) (st2_cj _ _ _)); assumption.
Qed.
Definition dE (i : Z) : E2 := e2_of match i with 1 => del | 2 => fmul del del | 3 => fmul (fmul del del) del | 4 => fmul (fmul del del) (fmul del del) | _ => fmul (fmul (fmul del del) (fmul del del)) del end.
Definition dL (i : Z) : L2 := lpow5 (l2Z (fval (A0 (e2_of del)), fval (A1 (e2_of del)))) i.
Lemma e2_of_m a b : e2_of (fmul a b) = E2_Mul (e2_of a) (e2_of b).
Proof. apply e2_of_mul. Qed.
Lemma st_d i : stands2 (dL i) (dE i).
Proof. unfold dL, dE, lpow5. pose proof (st2_val (e2_of del)). repeat match goal with |- context[match ?i with _ => _ end] => destruct i end; rewrite ?e2_of_m; sts. Qed.
Definition l12frob2 (x : L12) : L12 :=
  let '((x0, x1, x2), (y0, y1, y2)) := x in
  ((x0, l2mul (dL 2) x1, l2mul (dL 4) x2), (l2mul (dL 1) y0, l2mul (dL 3) y1, l2mul (dL 5) y2)).
Lemma st12_frob2 a x : st12 a x -> st12 (l12frob2 a) (frobsq12 x).
Proof.
  destruct a as [[[a0 a1] a2] [[b0 b1] b2]]. intros [(? & ? & ?) (? & ? & ?)]. cbn [fst snd] in *. unfold frobsq12, l12frob2. cbv zeta. split; cbn [fst snd C0 C1]; (split; [|split]); cbn [fst snd B0 B1 B2].
  - assumption.
  - refine (st2_mul _ _ _ _ (st_d 2) _); assumption.
  - refine (st2_mul _ _ _ _ (st_d 4) _); assumption.
  - refine (st2_mul _ _ _ _ (st_d 1) _); assumption.
  - refine (st2_mul _ _ _ _ (st_d 3) _); assumption.
  - refine (st2_mul _ _ _ _ (st_d 5) _); assumption.
Qed.
(** powers by doubling and multiplying *)
Fixpoint l12pow (a acc : L12) (bs : list bool) : L12 :=
  match bs with [] => acc | b :: bs' => let s := l12cyc acc in l12pow a (if b then l12mul s a else s) bs' end.
Definition bitsVal (bs : list bool) : Z := fold_left (fun k (b : bool) => if b then 2 * k + 1 else 2 * k) bs 1.
Definition xBits : list bool := map (fun i => Z.testbit xabs i) [62;61;60;59;58;57;56;55;54;53;52;51;50;49;48;47;46;45;44;43;42;41;40;39;38;37;36;35;34;33;32;31;30;29;28;27;26;25;24;23;22;21;20;19;18;17;16;15;14;13;12;11;10;9;8;7;6;5;4;3;2;1;0].
Lemma xBits_val : bitsVal xBits = xabs. Proof. reflexivity. Qed.

Section Cyc.
Variable g : E12.
Hypothesis g0 : g <> E12_Zero.
Hypothesis gc : z12 g phi12 = E12_One.
(** a stands for g^k *)
Definition pw (a : L12) (k : Z) : Prop := st12 a (z12 g k).
Lemma pw_mul a b j k : pw a j -> pw b k -> pw (l12mul a b) (j + k).
Proof. intros H1 H2. unfold pw. rewrite zpow_addE12 by exact g0. now apply st12_mul. Qed.
Lemma pw_cyc a k : pw a k -> pw (l12cyc a) (2 * k).
Proof.
  intros H. unfold pw. replace (2 * k) with (k + k) by lia. rewrite zpow_addE12 by exact g0. rewrite <- cyclo_square; [now apply st12_cyc|].
  refine (proj1 (cyc_iff (z12 g k) (zpow_neq0E12 g k g0)) _). rewrite <- (zpow_mulE12 g k phi12 g0), Z.mul_comm, (zpow_mulE12 g phi12 k g0), gc. apply zpow_one.
Qed.
Lemma pw_frob a k : pw a k -> pw (l12frob a) (k * pBLS).
Proof. intros H. unfold pw. rewrite (zpow_mulE12 g k pBLS g0), z12_p, e12pow_p. now apply st12_frob. Qed.
Lemma pw_frob2 a k : pw a k -> pw (l12frob2 a) (k * (pBLS * pBLS)).
Proof. intros H. unfold pw. rewrite (zpow_mulE12 g k (pBLS * pBLS) g0), z12_p2. now apply st12_frob2. Qed.
Lemma phi_p6 : p6m1 + 2 = phi12 * (pBLS * pBLS + 1). Proof. unfold p6m1, phi12. generalize pBLS. intros p. ring. Qed.
Lemma pw_cj a k : pw a k -> pw (l12cj a) (- k).
Proof.
  intros H. unfold pw. replace (z12 g (- k)) with (E12_Conjugate (z12 g k)); [now apply st12_cj|].
  rewrite <- (z12_p6 (z12 g k) (zpow_neq0E12 g k g0)), <- (zpow_mulE12 g k p6m1 g0), <- (zpow_addE12 g (k * p6m1) k g0).
  pose proof phi_p6 as E. revert E. pose proof gc as G. revert G. generalize p6m1 phi12 (pBLS * pBLS + 1). intros m f q G E.
  assert (E' : k * m + k = f * (q * k) + - k) by (rewrite Z.mul_assoc, <- E; ring).
  rewrite E', (zpow_addE12 g _ (- k) g0), (zpow_mulE12 g f _ g0), G, zpow_one. ring.
Qed.
Lemma pw_pow a k bs : pw a k -> forall acc e, pw acc (k * e) -> pw (l12pow a acc bs) (k * fold_left (fun k (b : bool) => if b then 2 * k + 1 else 2 * k) bs e).
Proof.
  intros Ha. induction bs as [|b bs IH]; intros acc e H; cbn [l12pow fold_left]; [exact H|]. cbv zeta. apply IH. destruct b.
  - replace (k * (2 * e + 1)) with (2 * (k * e) + k) by ring. apply pw_mul; [now apply pw_cyc | exact Ha].
  - replace (k * (2 * e)) with (2 * (k * e)) by ring. now apply pw_cyc.
Qed.
Definition l12x (a : L12) : L12 := l12pow a a xBits.
Lemma pw_x a k : pw a k -> pw (l12x a) (k * xabs).
Proof. intros H. rewrite <- xBits_val. unfold l12x, bitsVal. generalize xBits. intros bs. refine (pw_pow a k bs H a 1 _). rewrite Z.mul_1_r. exact H. Qed.
(** the hard part *)
Definition l12hard (g : L12) : L12 :=
  let t1 := l12cj (l12mul (l12x g) g) in
  let t2 := l12cj (l12mul (l12x t1) t1) in
  let t3 := l12mul (l12cj (l12x t2)) (l12frob t2) in
  let t4 := l12mul (l12mul (l12x (l12x t3)) (l12frob2 t3)) (l12cj t3) in
  l12mul t4 (l12mul (l12cyc g) g).
Lemma pw_hard a : pw a 1 -> pw (l12hard a) hardE.
Proof.
  intros H. unfold l12hard. cbv zeta.
  pose proof (pw_cj _ _ (pw_mul _ _ _ _ (pw_x _ _ H) H)) as T1. set (t1 := l12cj (l12mul (l12x a) a)) in *.
  pose proof (pw_cj _ _ (pw_mul _ _ _ _ (pw_x _ _ T1) T1)) as T2. set (t2 := l12cj (l12mul (l12x t1) t1)) in *.
  pose proof (pw_mul _ _ _ _ (pw_cj _ _ (pw_x _ _ T2)) (pw_frob _ _ T2)) as T3. set (t3 := l12mul (l12cj (l12x t2)) (l12frob t2)) in *.
  pose proof (pw_mul _ _ _ _ (pw_mul _ _ _ _ (pw_x _ _ (pw_x _ _ T3)) (pw_frob2 _ _ T3)) (pw_cj _ _ T3)) as T4.
  pose proof (pw_mul _ _ _ _ T4 (pw_mul _ _ _ _ (pw_cyc _ _ H) H)) as T5.
  match type of T5 with pw _ ?k => replace hardE with k; [exact T5|] end.
  unfold hardE, xbls. generalize xabs pBLS. intros x p. ring.
Qed.
End Cyc.

(** the easy part with a supplied quotient, and the test *)
Definition Z12 : Set := (Z2 * Z2 * Z2) * (Z2 * Z2 * Z2).
Definition e6Z (z : Z2 * Z2 * Z2) : E6 := mkE6 (e2Z (fst (fst z))) (e2Z (snd (fst z))) (e2Z (snd z)).
Definition e12Z (z : Z12) : E12 := mkE12 (e6Z (fst z)) (e6Z (snd z)).
Definition l6Z (z : Z2 * Z2 * Z2) : L6 := (l2Z (fst (fst z)), l2Z (snd (fst z)), l2Z (snd z)).
Definition l12Z (z : Z12) : L12 := (l6Z (fst z), l6Z (snd z)).
Lemma st12_Z z : st12 (l12Z z) (e12Z z).
Proof. split; (split; [|split]); apply st2_Z. Qed.
Definition l6eq (a b : L6) : bool := l2eq (fst (fst a)) (fst (fst b)) && l2eq (snd (fst a)) (snd (fst b)) && l2eq (snd a) (snd b).
Definition l12eq (a b : L12) : bool := l6eq (fst a) (fst b) && l6eq (snd a) (snd b).
Lemma l6eq_ok a b x y : st6 a x -> st6 b y -> l6eq a b = true -> x = y.
Proof.
  intros (H1 & H2 & H3) (G1 & G2 & G3) E. unfold l6eq in E. rewrite !andb_true_iff in E. destruct E as ((E1 & E2) & E3).
  apply E6_ext; [exact (l2eq_ok _ _ _ _ H1 G1 E1) | exact (l2eq_ok _ _ _ _ H2 G2 E2) | exact (l2eq_ok _ _ _ _ H3 G3 E3)].
Qed.
Lemma l12eq_ok a b x y : st12 a x -> st12 b y -> l12eq a b = true -> x = y.
Proof.
  intros (H1 & H2) (G1 & G2) E. unfold l12eq in E. rewrite andb_true_iff in E. destruct E as (E1 & E2).
  apply E12_ext; [exact (l6eq_ok _ _ _ _ H1 G1 E1) | exact (l6eq_ok _ _ _ _ H2 G2 E2)].
Qed.
Definition finTest (u : L12) (aZ : Z12) : bool :=
  let a := l12Z aZ in
  l12eq (l12mul a u) (l12cj u) && negb (l2eq (fst (fst (snd (l12hard (l12mul (l12frob2 a) a))))) l2zero).
Theorem fin_test u x aZ : st12 u x -> x <> E12_Zero -> finTest u aZ = true -> z12 x (easyE * hardE) <> E12_One.
Proof.
  intros H N T. unfold finTest in T. cbv zeta in T. rewrite andb_true_iff, negb_true_iff in T. destruct T as (T1 & T2).
  pose proof (l12eq_ok _ _ _ _ (st12_mul _ _ _ _ (st12_Z aZ) H) (st12_cj _ _ H) T1) as E. rewrite <- z12_p6 in E by exact N. apply e12cancel in E; [|exact N].
  rewrite (zpow_mulE12 x easyE hardE N). set (g := z12 x easyE). assert (Gn : g <> E12_Zero) by exact (easy_neq0 x N).
  assert (Eg : E12_Mul (frobsq12 (e12Z aZ)) (e12Z aZ) = g).
  { rewrite E. unfold g. rewrite <- (z12_p2 (z12 x p6m1)). unfold easyE. generalize p6m1 (pBLS * pBLS). intros m q.
    rewrite <- (zpow_mulE12 x m q N), <- (zpow_addE12 x _ _ N). apply (f_equal (z12 x)). ring. }
  assert (P1 : pw g (l12mul (l12frob2 (l12Z aZ)) (l12Z aZ)) 1).
  { unfold pw. rewrite zpow_1, <- Eg. exact (st12_mul _ _ _ _ (st12_frob2 _ _ (st12_Z aZ)) (st12_Z aZ)). }
  pose proof (pw_hard g Gn (easy_cyc x N) _ P1) as PH. intros F. unfold pw in PH. rewrite F in PH.
  destruct PH as (_ & PH & _). exact (l2neq_ok _ _ _ _ PH st2_zero T2 eq_refl).
Qed.
