(** Fast evaluation of the Miller loop on a concrete point (proof
    infrastructure; no model definition depends on it).  The slopes are
    supplied and checked. *)
From Coq Require Import ZArith NArith List Bool Lia Ring Field Uint63.
From Verif Require Import Params ZMod RingPow FastMod FastParams Circuit Api Emulated Tower TowerSpec FieldFacts FastTower TowerFacts ApiFacts TowerProofs CurveSpec Pairing G2 G2Spec G2Jac MillerProofs FixedQ FixedLoop G2Chain HashFast MillerTotal MillerNeg.
Import ListNotations.
Open Scope Z_scope.
Add Field E2FMF : E2_ft.

(** ** limb-level Fp6 and Fp12 *)
Definition L6 : Set := (L2 * L2 * L2)%type.
Definition L12 : Set := (L6 * L6)%type.
Definition st6 (a : L6) (x : E6) : Prop := stands2 (fst (fst a)) (B0 x) /\ stands2 (snd (fst a)) (B1 x) /\ stands2 (snd a) (B2 x).
Definition st12 (a : L12) (x : E12) : Prop := st6 (fst a) (C0 x) /\ st6 (snd a) (C1 x).
Definition l2nr (a : L2) : L2 := (subP (fst a) (snd a), madd MPp (fst a) (snd a)).
Lemma st2_mulnr a x : stands2 a x -> stands2 (l2nr a) (E2_MulByNonResidue x).
Proof. intros [H1 H2]. split; cbn [l2nr fst snd E2_MulByNonResidue A0 A1]; [now apply stP_subP | now apply (st_add MPp MPp_ok)]. Qed.
Definition l6add (x y : L6) : L6 := (l2add (fst (fst x)) (fst (fst y)), l2add (snd (fst x)) (snd (fst y)), l2add (snd x) (snd y)).
Definition l6sub (x y : L6) : L6 := (l2sub (fst (fst x)) (fst (fst y)), l2sub (snd (fst x)) (snd (fst y)), l2sub (snd x) (snd y)).
Definition l6nr (x : L6) : L6 := (l2nr (snd x), fst (fst x), snd (fst x)).
Definition l6mul (x y : L6) : L6 :=
  let '(x0, x1, x2) := x in let '(y0, y1, y2) := y in
  let t0 := l2mul x0 y0 in let t1 := l2mul x1 y1 in let t2 := l2mul x2 y2 in
  (l2add (l2nr (l2sub (l2sub (l2mul (l2add x1 x2) (l2add y1 y2)) t1) t2)) t0,
   l2add (l2sub (l2sub (l2mul (l2add x0 x1) (l2add y0 y1)) t0) t1) (l2nr t2),
   l2add (l2sub (l2sub (l2mul (l2add y0 y2) (l2add x0 x2)) t0) t2) t1).
Definition l6mul01 (z : L6) (c0 c1 : L2) : L6 :=
  let '(z0, z1, z2) := z in
  let a := l2mul z0 c0 in let b := l2mul z1 c1 in
  (l2add (l2nr (l2sub (l2mul c1 (l2add z1 z2)) b)) a,
   l2sub (l2sub (l2mul (l2add c0 c1) (l2add z0 z1)) a) b,
   l2add (l2sub (l2mul c0 (l2add z0 z2)) a) b).
Definition l12sqr (x : L12) : L12 :=
  let c0 := l6sub (fst x) (snd x) in
  let c3 := l6sub (fst x) (l6nr (snd x)) in
  let c2 := l6mul (fst x) (snd x) in
  let c0 := l6add (l6mul c0 c3) c2 in
  (l6add c0 (l6nr c2), l6add c2 c2).
Definition l12line (z : L12) (c0 c1 : L2) : L12 :=
  let a := l6mul01 (fst z) c0 c1 in
  let b := l6nr (snd z) in
  let d := l2add c1 l2one in
  let zC1 := l6sub (l6sub (l6mul01 (l6add (snd z) (fst z)) c0 d) a) b in
  (l6add (l6nr b) a, zC1).
Definition l12norm (x : L12) : L6 := l6sub (l6mul (fst x) (fst x)) (l6nr (l6mul (snd x) (snd x))).

Local Opaque E2_Mul E2_Add E2_Sub E2_Neg E2_MulByNonResidue E2_Conjugate E2_One E2_Zero l2mul l2add l2sub l2eq l2Z l2nr l2neg l2conj l2one l2zero.
Local Ltac sts := lazymatch goal with
  | |- stands2 (l2mul _ _) _ => eapply st2_mul; [sts | sts]
  | |- stands2 (l2add _ _) _ => eapply st2_add; [sts | sts]
  | |- stands2 (l2sub _ _) _ => eapply st2_sub; [sts | sts]
  | |- stands2 (l2nr _) _ => eapply st2_mulnr; sts
  | |- stands2 (l2neg _) _ => eapply st2_neg; sts
  | |- stands2 l2one _ => exact st2_one
  | |- stands2 l2zero _ => exact st2_zero
  | |- _ => assumption
  end.
Lemma st6_add a b x y : st6 a x -> st6 b y -> st6 (l6add a b) (E6_Add x y).
Proof. intros (? & ? & ?) (? & ? & ?). unfold st6, l6add, E6_Add. cbn [fst snd B0 B1 B2]. split; [sts|]. split; sts. Qed.
Lemma st6_sub a b x y : st6 a x -> st6 b y -> st6 (l6sub a b) (E6_Sub x y).
Proof. intros (? & ? & ?) (? & ? & ?). unfold st6, l6sub, E6_Sub. cbn [fst snd B0 B1 B2]. split; [sts|]. split; sts. Qed.
Lemma st6_nr a x : st6 a x -> st6 (l6nr a) (E6_MulByNonResidue x).
Proof. intros (? & ? & ?). unfold st6, l6nr, E6_MulByNonResidue. cbv zeta. cbn [fst snd B0 B1 B2]. split; [sts|]. split; sts. Qed.
Lemma st6_mul a b x y : st6 a x -> st6 b y -> st6 (l6mul a b) (E6_Mul x y).
Proof.
  destruct a as [[a0 a1] a2], b as [[b0 b1] b2]. intros (? & ? & ?) (? & ? & ?). unfold st6, l6mul, E6_Mul. cbn [fst snd] in *. cbv zeta. cbn [fst snd B0 B1 B2]. split; [sts|]. split; sts.
Qed.
Lemma st6_mul01 a c0 c1 x y0 y1 : st6 a x -> stands2 c0 y0 -> stands2 c1 y1 -> st6 (l6mul01 a c0 c1) (E6_MulBy01 x y0 y1).
Proof.
  destruct a as [[a0 a1] a2]. intros (? & ? & ?) ? ?. unfold st6, l6mul01, E6_MulBy01. cbn [fst snd] in *. cbv zeta. cbn [fst snd B0 B1 B2]. split; [sts|]. split; sts.
Qed.
Lemma e6_add_neg x y : E6_Add x (E6_Neg y) = E6_Sub x y.
Proof. unfold E6_Add, E6_Neg, E6_Sub. cbn [B0 B1 B2]. apply E6_ext; cbn [B0 B1 B2]; ring. Qed.
Lemma e6_double x : E6_Double x = E6_Add x x.
Proof. unfold E6_Add, E6_Double. apply E6_ext; cbn [B0 B1 B2]; apply E2_Double_eq. Qed.
Lemma st12_sqr a x : st12 a x -> st12 (l12sqr a) (E12_Mul x x).
Proof.
  intros (H0 & H1). rewrite <- E12_Square_eq. unfold E12_Square. cbv zeta. rewrite e6_add_neg, e6_double. unfold st12, l12sqr. cbn [fst snd C0 C1].
  pose proof (st6_sub _ _ _ _ H0 H1) as S1. pose proof (st6_sub _ _ _ _ H0 (st6_nr _ _ H1)) as S2. pose proof (st6_mul _ _ _ _ H0 H1) as S3.
  pose proof (st6_add _ _ _ _ (st6_mul _ _ _ _ S1 S2) S3) as S4. split; [exact (st6_add _ _ _ _ S4 (st6_nr _ _ S3)) | exact (st6_add _ _ _ _ S3 S3)].
Qed.
Lemma st12_line a x c0 c1 l : st12 a x -> stands2 c0 (R1 l) -> stands2 c1 (R0 l) -> st12 (l12line a c0 c1) (E12_Mul x (lineE12 l)).
Proof.
  intros (H0 & H1) S0 S1. unfold lineE12. rewrite <- E12_MulBy014_eq. unfold E12_MulBy014. cbv zeta. unfold st12, l12line. cbn [fst snd C0 C1].
  change (mkE6 (E2_MulByNonResidue (B2 (C1 x))) (B0 (C1 x)) (B1 (C1 x))) with (E6_MulByNonResidue (C1 x)).
  pose proof (st6_mul01 _ _ _ _ _ _ H0 S0 S1) as A. pose proof (st6_nr _ _ H1) as B. pose proof (st2_add _ _ _ _ S1 st2_one) as D.
  split; [exact (st6_add _ _ _ _ (st6_nr _ _ B) A)|]. exact (st6_sub _ _ _ _ (st6_sub _ _ _ _ (st6_mul01 _ _ _ _ _ _ (st6_add _ _ _ _ H1 H0) S0 D) A) B).
Qed.
Lemma st12_norm a x : st12 a x -> st6 (l12norm a) (norm6 x).
Proof. intros (H0 & H1). unfold l12norm, norm6. exact (st6_sub _ _ _ _ (st6_mul _ _ _ _ H0 H0) (st6_nr _ _ (st6_mul _ _ _ _ H1 H1))). Qed.

(** ** point steps with supplied slopes: a flag, the next point and the lines *)
Definition stL (a : L2 * L2) (l : lineEvaluation) : Prop := stands2 (fst a) (R0 l) /\ stands2 (snd a) (R1 l).
Definition fline (l : L2) (T : LP) : L2 * L2 := (l2neg l, l2sub (l2mul l (fst T)) (snd T)).
Definition fD (l : L2) (T : LP) : bool * (LP * list (L2 * L2)) :=
  let '(x, y) := T in
  let y2 := l2add y y in let xx := l2mul x x in
  let X := l2sub (l2sub (l2mul l l) x) x in
  let Y := l2sub (l2mul l (l2sub x X)) y in
  (l2eq (l2mul l y2) (l2add (l2add xx xx) xx) && negb (l2eq y2 l2zero), ((X, Y), [fline l T])).
Definition fA (G : LP) (l l' : L2) (T : LP) : bool * (LP * list (L2 * L2)) :=
  let '(x, y) := T in
  let d := l2sub x (fst G) in
  let x3 := l2sub (l2sub (l2mul l l) x) (fst G) in
  let d' := l2sub x3 x in
  let m := l2neg (l2add l' l) in
  let X := l2sub (l2sub (l2mul l' l') x) x3 in
  let Y := l2sub (l2mul l' (l2sub x X)) y in
  (l2eq (l2mul l d) (l2sub y (snd G)) && negb (l2eq d l2zero) && l2eq (l2mul m d') (l2add y y) && negb (l2eq d' l2zero), ((X, Y), [fline l T; fline l' T])).
Definition fT (l l' : L2) (T : LP) : bool * (LP * list (L2 * L2)) :=
  let '(x, y) := T in
  let y2 := l2add y y in let xx := l2mul x x in
  let x2 := l2sub (l2sub (l2mul l l) x) x in
  let d' := l2sub x x2 in
  let m := l2add l' l in
  let X := l2sub (l2sub (l2mul l' l') x) x2 in
  let Y := l2sub (l2mul l' (l2sub x X)) y in
  (l2eq (l2mul l y2) (l2add (l2add xx xx) xx) && negb (l2eq y2 l2zero) && l2eq (l2mul m d') y2 && negb (l2eq d' l2zero), ((X, Y), [fline l T; fline l' T])).
Lemma fline_ok l T e t : stands2 l e -> standsG T t -> stL (fline l T) (mkLine (E2_Neg e) (E2_Sub (E2_Mul e (g2X t)) (g2Y t))).
Proof. intros S (Sx & Sy). unfold stL, fline. cbn [fst snd R0 R1]. split; sts. Qed.

Lemma fD_ok z T t : standsG T t -> fst (fD (l2Z z) T) = true -> exists t' l, determ (doubleStep t) (t', l) /\ standsG (fst (snd (fD (l2Z z) T))) t' /\ Forall2 stL (snd (snd (fD (l2Z z) T))) [l].
Proof.
  intros ST. pose proof ST as (Sx & Sy). pose proof (fline_ok _ _ _ _ (st2_Z z) ST) as SL. pose proof (st2_Z z) as Sl. destruct T as [x y]. unfold fD. cbv zeta. cbn [fst snd] in *. rewrite andb_true_iff, negb_true_iff. intros (B1 & B2).
  set (l := e2Z z) in *. clearbody l. set (lz := l2Z z) in *. clearbody lz.
  pose proof (st2_add _ _ _ _ Sy Sy) as Sy2.
  assert (K1 : E2_Mul l (E2_Add (g2Y t) (g2Y t)) = E2_Add (E2_Add (E2_Mul (g2X t) (g2X t)) (E2_Mul (g2X t) (g2X t))) (E2_Mul (g2X t) (g2X t))) by (refine (l2eq_ok _ _ _ _ _ _ B1); sts).
  pose proof (l2neq_ok _ _ _ _ Sy2 st2_zero B2) as K2.
  eexists (mkG2 _ _), _. split; [|split; [|exact (Forall2_cons _ _ SL (Forall2_nil _))]].
  - unfold doubleStep. eapply determ_bind.
    + apply (div_det _ _ l); rewrite E2_Double_eq; [exact K2|]. rewrite E2_MulByConstElement_eq, three_e2, E2_Square_eq, three_x. exact K1.
    + rewrite !E2_Square_eq. apply determ_ret.
  - split; cbn [fst snd g2X g2Y]; sts.
Qed.
Lemma fA_ok G q z z' T t : standsG G q -> standsG T t -> fst (fA G (l2Z z) (l2Z z') T) = true ->
  exists t' l1 l2, determ (doubleAndAddStep t q) (t', l1, l2) /\ standsG (fst (snd (fA G (l2Z z) (l2Z z') T))) t' /\ Forall2 stL (snd (snd (fA G (l2Z z) (l2Z z') T))) [l1; l2].
Proof.
  intros (Gx & Gy) ST. pose proof ST as (Sx & Sy). pose proof (fline_ok _ _ _ _ (st2_Z z) ST) as SL. pose proof (fline_ok _ _ _ _ (st2_Z z') ST) as SL'. pose proof (st2_Z z) as Sl. pose proof (st2_Z z') as Sl'.
  destruct T as [x y]. unfold fA. cbv zeta. cbn [fst snd] in *. rewrite !andb_true_iff, !negb_true_iff. intros (((B1 & B2) & B3) & B4).
  set (l := e2Z z) in *. clearbody l. set (lz := l2Z z) in *. clearbody lz. set (l' := e2Z z') in *. clearbody l'. set (lz' := l2Z z') in *. clearbody lz'.
  pose proof (st2_sub _ _ _ _ Sx Gx) as Sd.
  pose proof (st2_sub _ _ _ _ (st2_sub _ _ _ _ (st2_mul _ _ _ _ Sl Sl) Sx) Gx) as S3x.
  pose proof (st2_sub _ _ _ _ S3x Sx) as Sd'.
  pose proof (st2_neg _ _ (st2_add _ _ _ _ Sl' Sl)) as Sm.
  pose proof (st2_sub _ _ _ _ (st2_sub _ _ _ _ (st2_mul _ _ _ _ Sl' Sl') Sx) S3x) as SX.
  pose proof (st2_sub _ _ _ _ (st2_mul _ _ _ _ Sl' (st2_sub _ _ _ _ Sx SX)) Sy) as SY.
  pose proof (l2eq_ok _ _ _ _ (st2_mul _ _ _ _ Sl Sd) (st2_sub _ _ _ _ Sy Gy) B1) as K1.
  pose proof (l2neq_ok _ _ _ _ Sd st2_zero B2) as K2.
  pose proof (l2eq_ok _ _ _ _ (st2_mul _ _ _ _ Sm Sd') (st2_add _ _ _ _ Sy Sy) B3) as K3.
  pose proof (l2neq_ok _ _ _ _ Sd' st2_zero B4) as K4. clear B1 B2 B3 B4.
  eexists (mkG2 _ _), _, _. split; [|split; [split; [exact SX | exact SY]|exact (Forall2_cons _ _ SL (Forall2_cons _ _ SL' (Forall2_nil _)))]].
  unfold doubleAndAddStep. cbv zeta.
  eapply determ_bind; [apply (div_det _ _ l); [exact K2 | exact K1]|]. rewrite ?E2_Square_eq, ?E2_Double_eq.
  eapply determ_bind.
  { apply (div_det _ _ (E2_Neg (E2_Add l' l))); [exact K4 | exact K3]. }
  replace (E2_Neg (E2_Add (E2_Neg (E2_Add l' l)) l)) with l' by ring.
  rewrite ?E2_Square_eq. apply determ_ret.
Qed.
Lemma fT_ok z z' T t : standsG T t -> fst (fT (l2Z z) (l2Z z') T) = true ->
  exists t' l1 l2, determ (tripleStep t) (t', l1, l2) /\ standsG (fst (snd (fT (l2Z z) (l2Z z') T))) t' /\ Forall2 stL (snd (snd (fT (l2Z z) (l2Z z') T))) [l1; l2].
Proof.
  intros ST. pose proof ST as (Sx & Sy). pose proof (fline_ok _ _ _ _ (st2_Z z) ST) as SL. pose proof (fline_ok _ _ _ _ (st2_Z z') ST) as SL'. pose proof (st2_Z z) as Sl. pose proof (st2_Z z') as Sl'.
  destruct T as [x y]. unfold fT. cbv zeta. cbn [fst snd] in *. rewrite !andb_true_iff, !negb_true_iff. intros (((B1 & B2) & B3) & B4).
  set (l := e2Z z) in *. clearbody l. set (lz := l2Z z) in *. clearbody lz. set (l' := e2Z z') in *. clearbody l'. set (lz' := l2Z z') in *. clearbody lz'.
  pose proof (st2_sub _ _ _ _ (st2_sub _ _ _ _ (st2_mul _ _ _ _ Sl Sl) Sx) Sx) as S2x.
  pose proof (st2_sub _ _ _ _ Sx S2x) as Sd'.
  pose proof (st2_add _ _ _ _ Sl' Sl) as Sm.
  pose proof (st2_sub _ _ _ _ (st2_sub _ _ _ _ (st2_mul _ _ _ _ Sl' Sl') Sx) S2x) as SX.
  pose proof (st2_sub _ _ _ _ (st2_mul _ _ _ _ Sl' (st2_sub _ _ _ _ Sx SX)) Sy) as SY.
  pose proof (l2eq_ok _ _ _ _ (st2_mul _ _ _ _ Sl (st2_add _ _ _ _ Sy Sy))
     (st2_add _ _ _ _ (st2_add _ _ _ _ (st2_mul _ _ _ _ Sx Sx) (st2_mul _ _ _ _ Sx Sx)) (st2_mul _ _ _ _ Sx Sx)) B1) as K1.
  pose proof (l2neq_ok _ _ _ _ (st2_add _ _ _ _ Sy Sy) st2_zero B2) as K2.
  pose proof (l2eq_ok _ _ _ _ (st2_mul _ _ _ _ Sm Sd') (st2_add _ _ _ _ Sy Sy) B3) as K3.
  pose proof (l2neq_ok _ _ _ _ Sd' st2_zero B4) as K4. clear B1 B2 B3 B4.
  eexists (mkG2 _ _), _, _. split; [|split; [split; [exact SX | exact SY]|exact (Forall2_cons _ _ SL (Forall2_cons _ _ SL' (Forall2_nil _)))]].
  unfold tripleStep. cbv zeta. rewrite ?E2_Square_eq, ?E2_Double_eq, E2_MulByConstElement_eq, three_e2, three_x.
  eapply determ_bind; [apply (div_det _ _ l); [exact K2 | exact K1]|]. rewrite ?E2_Square_eq, ?E2_Double_eq.
  eapply determ_bind.
  { apply (div_det _ _ (E2_Add l' l)); [exact K4 | exact K3]. }
  replace (E2_Sub (E2_Add l' l) l) with l' by ring.
  match goal with |- context [E2_Sub (E2_Mul l' l') (E2_Add ?a ?b)] =>
    replace (E2_Sub (E2_Mul l' l') (E2_Add a b)) with (E2_Sub (E2_Sub (E2_Mul l' l') b) a) by ring end.
  apply determ_ret.
Qed.

(** ** the loop *)
Definition flprod (xy yi : L2) (ls : list (L2 * L2)) (F : L12) : L12 := fold_left (fun F l => l12line F (l2mul (snd l) yi) (l2mul (fst l) xy)) ls F.
Lemma byel_st a x c e : stands2 a x -> stands2 c (mkE2 e fp0) -> stands2 (l2mul a c) (E2_MulByElement x e).
Proof. intros H1 H2. rewrite byel_real. now apply st2_mul. Qed.
Add Ring E12RMF : E12_rt.
Lemma flprod_ok xy yi lxy lyi Ls ls : stands2 lxy (mkE2 xy fp0) -> stands2 lyi (mkE2 yi fp0) -> Forall2 stL Ls ls -> forall F f, st12 F f -> st12 (flprod lxy lyi Ls F) (E12_Mul f (lprod xy yi ls)).
Proof.
  intros Sx Sy H. induction H as [|L l Ls ls (H0 & H1) HL IH]; intros F f SF; cbn [flprod fold_left lprod fold_right].
  - replace (E12_Mul f E12_One) with f by ring. exact SF.
  - match goal with |- st12 _ (E12_Mul f (E12_Mul ?a ?b)) => replace (E12_Mul f (E12_Mul a b)) with (E12_Mul (E12_Mul f a) b) by ring end. apply IH. apply st12_line; [exact SF | |]; unfold evalLine; cbn [R0 R1]; now apply byel_st.
Qed.
Definition fstep (G : LP) (i : nat) (h : list Z2) (T : LP) : bool * (LP * list (L2 * L2)) :=
  if Z.eqb (nth i loopCounter 0) 0
  then match h with [z] => fD (l2Z z) T | _ => (false, (T, [])) end
  else match h with [z; z'] => fA G (l2Z z) (l2Z z') T | _ => (false, (T, [])) end.
Fixpoint floop (G : LP) (xy yi : L2) (L : list nat) (hs : list (list Z2)) (T : LP) (F : L12) : option L12 :=
  match L, hs with
  | [], [] => Some F
  | i :: L, h :: hs =>
      let '(b, (T', ls)) := fstep G i h T in
      if b then floop G xy yi L hs T' (flprod xy yi ls (l12sqr F)) else None
  | _, _ => None
  end.
Lemma fstep_ok G q i h T t : standsG G q -> standsG T t -> fst (fstep G i h T) = true ->
  exists t' ls, dstep q i t t' ls /\ standsG (fst (snd (fstep G i h T))) t' /\ Forall2 stL (snd (snd (fstep G i h T))) ls.
Proof.
  intros SG ST. unfold fstep, dstep. destruct (Z.eqb _ _).
  - destruct h as [|z [|]]; try discriminate. intros C. destruct (fD_ok z T t ST C) as (t' & l & D & S1 & S2). exists t', [l]. split; [exists l; auto|]. auto.
  - destruct h as [|z [|z' [|]]]; try discriminate. intros C. destruct (fA_ok G q z z' T t SG ST C) as (t' & l1 & l2 & D & S1 & S2). exists t', [l1; l2]. split; [exists l1, l2; auto|]. auto.
Qed.
Lemma floop_ok G q xy yi lxy lyi : standsG G q -> stands2 lxy (mkE2 xy fp0) -> stands2 lyi (mkE2 yi fp0) -> forall L hs T t F f R, standsG T t -> st12 F f ->
  floop G lxy lyi L hs T F = Some R -> exists lls, dtrace q L t lls /\ st12 R (mval xy yi lls f).
Proof.
  intros SG Sx Sy. induction L as [|i L IH]; intros [|h hs] T t F f R ST SF; cbn [floop]; try discriminate.
  - intros [= <-]. exists []. split; [exact I | exact SF].
  - pose proof (fstep_ok G q i h T t SG ST) as H. destruct (fstep G i h T) as [b [T' Ls]]. cbn [fst snd] in H. destruct b; [|discriminate]. intros C.
    destruct (H eq_refl) as (t' & ls & D & S1 & S2). pose proof (flprod_ok _ _ _ _ _ _ Sx Sy S2 _ _ (st12_sqr _ _ SF)) as SF'.
    destruct (IH hs T' t' _ _ R S1 SF' C) as (lls & DT & SR). exists (ls :: lls). split; [exists t'; auto | exact SR].
Qed.
Definition l12one : L12 := ((l2one, l2zero, l2zero), (l2zero, l2zero, l2zero)).
Lemma st12_one : st12 l12one E12_One.
Proof. unfold st12, st6, l12one, E12_One, E6_One, E6_Zero. cbn [fst snd C0 C1 B0 B1 B2]. exact (conj (conj st2_one (conj st2_zero st2_zero)) (conj st2_zero (conj st2_zero st2_zero))). Qed.
Definition fmiller (G : LP) (xy yi : L2) (h0 : Z2 * Z2) (hs : list (list Z2)) : option L12 :=
  let '(b, (T, ls)) := fT (l2Z (fst h0)) (l2Z (snd h0)) G in
  if b then floop G xy yi fixedRange hs T (flprod xy yi ls l12one) else None.
Add Ring E6RMF : E6_rt.
Lemma norm6_conj_inv f : norm6 (E12_Conjugate f) = norm6 f.
Proof. unfold norm6, E12_Conjugate. cbn [C0 C1]. f_equal. f_equal. ring. Qed.
Lemma conj_conj f : E12_Conjugate (E12_Conjugate f) = f.
Proof. destruct f as [a b]. unfold E12_Conjugate. cbn [C0 C1]. f_equal. ring. Qed.
Theorem fmiller_val G q P lxy lyi yi h0 hs R : g1Y P <> fp0 -> fmul yi (g1Y P) = fp1 -> standsG G q -> stands2 lxy (mkE2 (fmul (g1X P) yi) fp0) -> stands2 lyi (mkE2 yi fp0) ->
  fmiller G lxy lyi h0 hs = Some R -> exists f, determ (MillerLoop [P] [q]) f /\ st12 R (E12_Conjugate f).
Proof.
  intros N I SG Sx Sy. unfold fmiller. pose proof (fT_ok (fst h0) (snd h0) G q SG) as H. destruct (fT _ _ G) as [b [T Ls]]. cbn [fst snd] in H. destruct b; [|discriminate]. intros C.
  destruct (H eq_refl) as (t & l1 & l2 & D & S1 & S2). pose proof (flprod_ok _ _ _ _ _ _ Sx Sy S2 _ _ st12_one) as SF.
  destruct (floop_ok G q _ _ _ _ SG Sx Sy _ _ _ _ _ _ _ S1 SF C) as (lls & DT & SR).
  exists (mvalue P l1 l2 lls). split; [apply miller_lines; [exact N|]; exists t; auto|].
  unfold mvalue. cbv zeta. rewrite conj_conj.
  replace (finv (g1Y P)) with yi.
  - replace (E12_Mul E12_One (lprod (fmul (g1X P) yi) yi [l1; l2])) with (lprod (fmul (g1X P) yi) yi [l1; l2]) in SR by ring. exact SR.
  - pose proof (finv_l (g1Y P) Primes.pBLS_prime N) as J. transitivity (fmul yi (fmul (finv (g1Y P)) (g1Y P))); [rewrite J; unfold fp1; ring|].
    transitivity (fmul (fmul yi (g1Y P)) (finv (g1Y P))); [ring | rewrite I; unfold fp1; ring].
Qed.
Theorem fmiller_ok G q P lxy lyi yi h0 hs R : g1Y P <> fp0 -> fmul yi (g1Y P) = fp1 -> standsG G q -> stands2 lxy (mkE2 (fmul (g1X P) yi) fp0) -> stands2 lyi (mkE2 yi fp0) ->
  fmiller G lxy lyi h0 hs = Some R -> exists f, determ (MillerLoop [P] [q]) f /\ st6 (l12norm R) (norm6 f).
Proof.
  intros N I SG Sx Sy C. destruct (fmiller_val _ _ _ _ _ _ _ _ _ N I SG Sx Sy C) as (f & D & S). exists f. split; [exact D|].
  rewrite <- norm6_conj_inv. exact (st12_norm _ _ S).
Qed.
