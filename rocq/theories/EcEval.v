(** Two products of lines with the same zeros are equal up to a constant, at
    every point of the curve over an extension of the base field. *)
From Coq Require Import Ring Field List Permutation.
From mathcomp Require Import all_ssreflect ssralg poly.
From Verif Require Import CurveSpec EcIdeal EcPoly.
Import GRing.Theory.
Set Implicit Arguments.
Unset Strict Implicit.
Unset Printing Implicit Defensive.

Section Units.
Variable F : fieldType.
Variables a b : F.
Local Open Scope ring_scope.
Notation P := {poly F}.
Notation kmul := (kmul a b).
Lemma kmul1 z : kmul (k1 F) z = z.
Proof. by case: z => u v; rewrite /kmul /radd /rmul /k1 /p1 /p0 /= !mul1r !mul0r !addr0. Qed.
Lemma kmulC z w : kmul z w = kmul w z.
Proof. by case: z w => u v [u' v']; rewrite /kmul /radd /rmul /=; congr pair; [rewrite [u * _]mulrC [v * _]mulrC | rewrite addrC [v * _]mulrC [u * _]mulrC]. Qed.
Lemma size_le1 (u v : P) : u * v = 1 -> size u = 1%N.
Proof. by move=> E; have := congr1 (fun p : P => size p) E; rewrite size_poly1 => /eqP; rewrite size_mul_eq1 => /andP [/eqP ->]. Qed.
Lemma nrm0 z : nrm a b z = 0 -> kmul z (z.1, - z.2) = k0 F.
Proof.
case: z => u v; rewrite /nrm /kmul /radd /rmul /rsub /k0 /p0 /= => E; congr pair.
  by rewrite mulrN mulNr.
by rewrite mulrN addrC mulrC subrr.
Qed.
Lemma unit_const (g h : K F) : regular (K F) (k0 F) kmul h -> equ (K F) (k0 F) kmul (@ksub F) (g :: nil) (h :: nil) ->
  exists2 u : F, u != 0 & g = kmul (c u) h.
Proof.
move=> R [A B].
have KE (z w : K F) : ksub z w = k0 F -> z = w.
  case: z w => z1 z2 [w1 w2]; rewrite /ksub /rsub /k0 /p0 /= => -[/eqP E1 /eqP E2].
  by move: E1 E2; rewrite !subr_eq0 => /eqP -> /eqP ->.
have M (z w : K F) : mem (K F) (k0 F) kmul (@ksub F) (z :: nil) w -> exists k, w = kmul k z.
  by case=> k /= E; exists k; apply: KE.
have [k Ek] : exists k, g = kmul k h by apply/M/A/(mem_in _ _ _ _ _ _ _ (@KR F a b)); left.
have [k' Ek'] : exists k, h = kmul k g by apply/M/B/(mem_in _ _ _ _ _ _ _ (@KR F a b)); left.
have h0 : h != (k0 F).
  apply/eqP => Z; have := R (k1 F); rewrite kmulC kmul1 Z => /(_ erefl) []; rewrite /p1 /p0 => /eqP; by rewrite oner_eq0.
have nh : nrm a b h != 0.
  apply/eqP => /nrm0 Z; have := R _ Z => -[E1 /eqP]; rewrite oppr_eq0 => /eqP E2.
  by move/eqP: h0; apply; case: h E1 E2 {Ek Ek' R A B Z} => u v /= -> ->.
have U : nrm a b k' * nrm a b k = 1.
  have : nrm a b h = nrm a b k' * nrm a b k * nrm a b h by rewrite -mulrA -!nrmM -Ek -Ek'.
  by move/eqP; rewrite -[X in X == _]mul1r (inj_eq (mulIf nh)) => /eqP <-.
have S : size (nrm a b k) = 1%N by apply: (@size_le1 _ (nrm a b k')); rewrite mulrC.
have k2 : k.2 = 0.
  by apply/eqP/negPn/negP => nv; have := nrm_size a b nv; rewrite S.
have k11 : k.1 * k.1 = nrm a b k by rewrite /nrm /rsub /rmul k2 mul0r mul0r subr0.
have S1 : size k.1 = 1%N.
  have: size (k.1 * k.1) == 1%N by rewrite k11 S.
  by rewrite size_mul_eq1 => /andP [/eqP].
have [u nu Eu] : exists2 u : F, u != 0 & k.1 = u%:P.
  by move/eqP: S1 => /size_poly1P.
exists u => //; rewrite Ek; congr kmul; case: k k2 Eu {Ek U S k11 S1} => k1 k2 /= -> -> //.
Qed.
(** evaluation in an extension *)
Variable L : fieldType.
Variable phi : {rmorphism F -> L}.
Definition evL (x y : L) (z : K F) : L := (map_poly phi z.1).[x] + (map_poly phi z.2).[x] * y.
Definition onL (x y : L) : Prop := y * y = x * x * x + phi a * x + phi b.
Lemma evL_mul x y z w : onL x y -> evL x y (kmul z w) = evL x y z * evL x y w.
Proof.
move=> E; rewrite /evL /kmul /radd /rmul /= !rmorphD !rmorphM /= !hornerD !hornerM.
have -> : (map_poly phi (cub a b)).[x] = y * y.
  by rewrite E /cub !rmorphD rmorphM rmorphX /= map_polyX !map_polyC /= !hornerE.
rewrite !mulrDl !mulrDr -!mulrA.
by rewrite [y * (map_poly phi w.1).[x]]mulrC [y * ((map_poly phi w.2).[x] * y)]mulrCA addrACA [X in _ = _ + X]addrC.
Qed.
Lemma evL_c x y u : evL x y (c u) = phi u.
Proof. by rewrite /evL /c /= map_polyC /= hornerC rmorph0 horner0 mul0r addr0. Qed.
Lemma evL_1 x y : evL x y (k1 F) = 1.
Proof. by rewrite -(c1 F) evL_c rmorph1. Qed.
Lemma evL_vert x y x1 : evL x y (ksub (X F) (c x1)) = x - phi x1.
Proof. by rewrite /evL /ksub /rsub /X /c /= subr0 rmorphB /= map_polyX map_polyC /= hornerD hornerN hornerX hornerC rmorph0 horner0 mul0r addr0. Qed.
Lemma evL_chord x y l m : evL x y (ksub (Y F) (kadd (kmul (c l) (X F)) (c m))) = y - (phi l * x + phi m).
Proof.
rewrite /evL /ksub /rsub /kadd /kmul /radd /rmul /X /Y /c /= !mulr0 !mul0r !addr0 sub0r subr0.
by rewrite rmorphN rmorphD rmorphM /= map_polyX !map_polyC /= rmorph1 hornerN hornerD hornerM hornerX !hornerC mul1r addrC.
Qed.
End Units.

(** ** The same for fields given by their operations *)
Section Plain2.
Variable F : Type.
Variables (zero one : F) (add mul sub : F -> F -> F) (opp : F -> F) (div : F -> F -> F) (inv : F -> F).
Hypothesis FT : field_theory zero one add mul sub opp div inv eq.
Hypothesis Fdec : forall x y : F, {x = y} + {x <> y}.
Variables (code : F -> nat * nat) (decode : nat * nat -> F).
Hypothesis codeK : cancel code decode.
Hypothesis inv0 : inv zero = zero.
Variable L : Type.
Variables (zeroL oneL : L) (addL mulL subL : L -> L -> L) (oppL : L -> L) (divL : L -> L -> L) (invL : L -> L).
Hypothesis LT : field_theory zeroL oneL addL mulL subL oppL divL invL eq.
Hypothesis Ldec : forall x y : L, {x = y} + {x <> y}.
Variables (codeL : L -> nat * nat) (decodeL : nat * nat -> L).
Hypothesis codeLK : cancel codeL decodeL.
Hypothesis invL0 : invL zeroL = zeroL.
Variable phi : F -> L.
Hypothesis phi1 : phi one = oneL.
Hypothesis phiD : forall x y, phi (add x y) = addL (phi x) (phi y).
Hypothesis phiM : forall x y, phi (mul x y) = mulL (phi x) (phi y).
Let FF := F_fieldType FT Fdec codeK inv0.
Let LL := F_fieldType LT Ldec codeLK invL0.
Add Field FfieldE : FT.
Add Field LfieldE : LT.
Lemma phi0 : phi zero = zeroL.
Proof.
have H : addL (phi zero) (phi zero) = phi zero by rewrite -phiD; congr phi; ring.
transitivity (subL (addL (phi zero) (phi zero)) (phi zero)); first by ring.
by rewrite H; ring.
Qed.
Lemma phiN x : phi (opp x) = oppL (phi x).
Proof.
have H : addL (phi x) (phi (opp x)) = zeroL by rewrite -phiD -phi0; congr phi; ring.
transitivity (addL (addL (phi x) (phi (opp x))) (oppL (phi x))); first by ring.
by rewrite H; ring.
Qed.
Definition phiF : FF -> LL := phi.
Lemma phi_add : additive phiF.
Proof. by move=> x y; rewrite /phiF; apply: (@eq_trans _ _ (addL (phi x) (oppL (phi y)))) => //; rewrite -phiN -phiD. Qed.
Lemma phi_mult : multiplicative phiF.
Proof. by split=> [x y|]; [exact: phiM | exact: phi1]. Qed.
Definition phiR : {rmorphism FF -> LL} := RMorphism (GRing.RMorphism.Class phi_add phi_mult).
Variables a b : F.
Notation oncurve := (on_curve F add mul a b).
Hypothesis Hns : forall x y, oncurve (Aff x y) -> add y y <> zero \/ add (mul (add (add one one) one) (mul x x)) a <> zero.
Definition lev (x y : L) (f : lfun F) : L :=
  match f with LOne => oneL | LVert x1 => subL x (phi x1) | LLine l m => subL y (addL (mulL (phi l) x) (phi m)) end.
Definition lprodev (x y : L) (fs : list (lfun F)) : L := fold_right (fun f z => mulL (lev x y f) z) oneL fs.
Notation lzeros := (zeros F zero one add mul sub opp a b).
Let kk (f : lfun F) := kev F (K FF) (k1 FF) (@kadd FF) (@kmul FF a b) (@ksub FF) (@c FF) (X FF) (Y FF) f.
Lemma lev_kev x y f : lev x y f = @evL FF LL phiR x y (kk f).
Proof.
case: f => [|x1|l m]; rewrite /kk /lev /kev.
- by rewrite evL_1.
- by rewrite evL_vert (Rsub_def (F_R LT)).
- by rewrite /chord [RHS](@evL_chord FF a b LL phiR x y l m) (Rsub_def (F_R LT)).
Qed.
Lemma lprodev_kev x y fs : mulL y y = addL (addL (mulL (mulL x x) x) (mulL (phi a) x)) (phi b) ->
  lprodev x y fs = @evL FF LL phiR x y (kprod F (K FF) (k1 FF) (@kadd FF) (@kmul FF a b) (@ksub FF) (@c FF) (X FF) (Y FF) fs).
Proof.
move=> E; elim: fs => [|f fs IH] /=; first by rewrite evL_1.
rewrite [evL _ _ _ _](@evL_mul FF a b LL phiR x y) //; last first.
by rewrite IH lev_kev.
Qed.
Theorem same_zeros_eval fs zs gs ys : lzeros fs zs -> lzeros gs ys -> Permutation zs ys ->
  exists2 u : F, u <> zero & forall x y, mulL y y = addL (addL (mulL (mulL x x) x) (mulL (phi a) x)) (phi b) ->
    lprodev x y fs = mulL (phi u) (lprodev x y gs).
Proof.
move=> Hf Hg Hp.
have [A R] := @same_zeros F zero one add mul sub opp div inv FT a b (K FF) (k0 FF) (k1 FF) (@kadd FF) (@kmul FF a b) (@ksub FF) (@kopp FF) (@KR FF a b) (@c FF) (@c0 FF) (@c1 FF) (@cadd FF) (@cmul FF a b) (X FF) (Y FF) (@HXY FF a b) (@Hreg FF a b) Hns fs zs gs ys Hf Hg Hp.
have [u nu E] := @unit_const FF a b _ _ R A.
exists u; first by move/eqP: nu.
by move=> x y H; rewrite !lprodev_kev // E (@evL_mul FF a b LL phiR x y) // evL_c.
Qed.
End Plain2.
