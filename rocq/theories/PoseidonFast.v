(** Checking, on the fast residues of FastMod, that the optimised Poseidon
    tables satisfy the identities of PoseidonLin.  Used only inside proofs. *)
From Coq Require Import ZArith List Bool Lia Ring Uint63.
From Verif Require Import Params ZMod RingPow Emulated FieldFacts FastMod FastParams Fast10 PoseidonSpec PoseidonLin.
Import ListNotations.
Open Scope Z_scope.
Local Notation fr0 := (f0 rBN).
Local Notation fr1 := (f1 rBN).
Notation FV := (list V10).

(** ** vectors and matrices *)
Definition SV : FV -> list Fr -> Prop := Forall2 stR.
Definition SM : list FV -> list (list Fr) -> Prop := Forall2 SV.
Fixpoint Lvadd (u v : FV) : FV := match u, v with x :: u', y :: v' => addV x y :: Lvadd u' v' | _, _ => [] end.
Fixpoint Linner (u v : FV) : V10 :=
  match u, v with x :: u', y :: v' => mac10 x y (Linner u' v') | _, _ => zL end.
Definition Lmv (M : list FV) (v : FV) : FV := map (fun row => Linner row v) M.
Fixpoint Laxpy (k : V10) (u v : FV) : FV := match u, v with x :: u', y :: v' => mac10 k x y :: Laxpy k u' v' | _, _ => [] end.
Fixpoint Lvm (r : FV) (A : list FV) (n : nat) : FV :=
  match r, A with x :: r', row :: A' => Laxpy x row (Lvm r' A' n) | _, _ => repeat zL n end.
Definition Lmm (A B : list FV) (n : nat) : list FV := map (fun r => Lvm r B n) A.
Fixpoint Lmpow (A : list FV) (n : nat) (p : positive) : list FV :=
  match p with
  | xH => A
  | xO q => let B := Lmpow A n q in Lmm B B n
  | xI q => let B := Lmpow A n q in Lmm A (Lmm B B n) n
  end.
Fixpoint Leqv (u v : FV) : bool :=
  match u, v with
  | [], [] => true
  | x :: u', y :: v' => if meq x y then Leqv u' v' else false
  | _, _ => false
  end.
Fixpoint LeqM (u v : list FV) : bool :=
  match u, v with
  | [], [] => true
  | x :: u', y :: v' => if Leqv x y then LeqM u' v' else false
  | _, _ => false
  end.
Lemma SV_vadd a b u v : SV a u -> SV b v -> SV (Lvadd a b) (vadd u v).
Proof.
  intros H. revert b v. induction H as [|x y a u Hx H IH]; intros b v Hb; [constructor|].
  destruct Hb as [|z w b v Hz Hb]; cbn [Lvadd vadd]; [constructor|]. constructor; [now apply stR_add | now apply IH].
Qed.
Lemma SV_inner a b u v : SV a u -> SV b v -> stR (Linner a b) (inner u v).
Proof.
  intros H. revert b v. induction H as [|x y a u Hx H IH]; intros b v Hb; [apply stR_0|].
  destruct Hb as [|z w b v Hz Hb]; cbn [Linner inner]; [apply stR_0|]. apply stR_mac; [exact Hx | exact Hz | now apply IH].
Qed.
Lemma SV_mv A M a v : SM A M -> SV a v -> SV (Lmv A a) (mv M v).
Proof. intros H Hv. induction H; cbn [Lmv mv map]; constructor; [now apply SV_inner | exact IHForall2]. Qed.
Lemma SV_axpy k x : stR k x -> forall a b u v, SV a u -> SV b v -> SV (Laxpy k a b) (vadd (vscal x u) v).
Proof.
  intros Hk a b u v H. revert b v. induction H as [|y z a u Hy H IH]; intros b v Hb; [constructor|].
  destruct Hb as [|p q b v Hp Hb]; cbn [Laxpy vscal map vadd]; [constructor|]. constructor; [now apply stR_mac | now apply IH].
Qed.
Lemma SV_zero n : SV (repeat zL n) (vzero n).
Proof. induction n; cbn; constructor; [apply stR_0 | exact IHn]. Qed.
Lemma SV_vm a u A M n : SV a u -> SM A M -> SV (Lvm a A n) (vm u M n).
Proof.
  intros H. revert A M. induction H as [|x y a u Hx H IH]; intros A M HM; [apply SV_zero|].
  destruct HM as [|r q A M Hr HM]; cbn [Lvm vm]; [apply SV_zero|]. apply SV_axpy; [exact Hx | exact Hr | now apply IH].
Qed.
Lemma SM_mm A M B N n : SM A M -> SM B N -> SM (Lmm A B n) (mm M N n).
Proof. intros H HB. induction H; cbn [Lmm mm map]; constructor; [now apply SV_vm | exact IHForall2]. Qed.
Lemma SM_mpow A M n p : SM A M -> SM (Lmpow A n p) (mpow M n p).
Proof. intros H. induction p; cbn [Lmpow mpow]; auto using SM_mm. Qed.
Lemma Leqv_ok a b u v : SV a u -> SV b v -> Leqv a b = true -> u = v.
Proof.
  intros H. revert b v. induction H as [|x y a u Hx H IH]; intros b v Hb E; destruct Hb as [|z w b v Hz Hb]; cbn [Leqv] in E; try discriminate; [reflexivity|].
  destruct (meq x z) eqn:E1; [|discriminate]. f_equal; [exact (meq_ok _ _ _ _ Hx Hz E1) | exact (IH _ _ Hb E)].
Qed.
Lemma LeqM_ok A B M N : SM A M -> SM B N -> LeqM A B = true -> M = N.
Proof.
  intros H. revert B N. induction H as [|x y a u Hx H IH]; intros b v Hb E; destruct Hb as [|z w b v Hz Hb]; cbn [LeqM] in E; try discriminate; [reflexivity|].
  destruct (Leqv x z) eqn:E1; [|discriminate]. f_equal; [exact (Leqv_ok _ _ _ _ Hx Hz E1) | exact (IH _ _ Hb E)].
Qed.
Lemma SV_firstn k a u : SV a u -> SV (firstn k a) (firstn k u).
Proof. intros H. revert k. induction H; intros [|k]; cbn; constructor; auto. apply IHForall2. Qed.
Lemma F2_skipn {A B} (R : A -> B -> Prop) k a u : Forall2 R a u -> Forall2 R (skipn k a) (skipn k u).
Proof. intros H. revert k. induction H; intros [|k]; cbn; auto. Qed.
Lemma SV_slice i k a u : SV a u -> SV (slice a i k) (slice u i k).
Proof. intros H. unfold slice. apply SV_firstn. now apply F2_skipn. Qed.
Lemma SV_nth i a u : SV a u -> stR (nth i a zL) (nth i u fr0).
Proof. intros H. revert i. induction H; intros [|i]; cbn; auto using stR_0. Qed.
Definition Lin (l : list Z) : FV := map inV l.
Lemma SV_in l : forallb inR l = true -> SV (Lin l) (map (ofZ rBN) l).
Proof.
  induction l as [|z l IH]; intros H; [constructor|]. cbn [forallb] in H. apply andb_true_iff in H. destruct H as [H1 H2].
  cbn [Lin map]. constructor; [now apply stR_in | now apply IH].
Qed.
Lemma SM_in m : forallb (forallb inR) m = true -> SM (map Lin m) (map (map (ofZ rBN)) m).
Proof.
  induction m as [|z l IH]; intros H; [constructor|]. cbn [forallb] in H. apply andb_true_iff in H. destruct H as [H1 H2].
  cbn [map]. constructor; [now apply SV_in | now apply IH].
Qed.
Lemma F2_len {A B} (R : A -> B -> Prop) a b : Forall2 R a b -> length a = length b.
Proof. induction 1; cbn; auto. Qed.

(** ** the checks *)
Definition transp (t : nat) (m : list (list Z)) : list (list Z) :=
  map (fun i => map (fun row => nth i row 0) m) (seq 0 t).
Definition sqb (t : nat) (m : list (list Z)) : bool := Nat.eqb (length m) t && forallb (fun r => Nat.eqb (length r) t) m.

(** the drift of the moved partial-round constants *)
Fixpoint vsub (u v : list Fr) : list Fr := match u, v with x :: u', y :: v' => fsub x y :: vsub u' v' | _, _ => [] end.
Fixpoint Lvsub (u v : FV) : FV := match u, v with x :: u', y :: v' => subV x y :: Lvsub u' v' | _, _ => [] end.
Lemma SV_vsub a b u v : SV a u -> SV b v -> SV (Lvsub a b) (vsub u v).
Proof.
  intros H. revert b v. induction H as [|x y a u Hx H IH]; intros b v Hb; [constructor|].
  destruct Hb as [|z w b v Hz Hb]; cbn [Lvsub vsub]; [constructor|]. constructor; [now apply stR_sub | now apply IH].
Qed.
Lemma vsub_len u v : length u = length v -> length (vsub u v) = length u.
Proof. revert v; induction u as [|x u IH]; intros [|y v] H; cbn [vsub length] in *; try discriminate; [reflexivity|]. rewrite IH; lia. Qed.
Lemma vadd_vsub u v : length u = length v -> vadd v (vsub u v) = u.
Proof. revert v; induction u as [|x u IH]; intros [|y v] H; cbn [vsub vadd length] in *; try discriminate; [reflexivity|]. rewrite IH by lia. f_equal. ring. Qed.

(** d' such that M (x :: d) = a + (0 :: d'), if there is one *)
Definition Ldstep (y a : FV) : option FV :=
  match y, a with y0 :: ys, a0 :: al => if meq y0 a0 then Some (Lvsub ys al) else None | _, _ => None end.
Lemma Ldstep_ok y a d' u v : SV y u -> SV a v -> length u = length v -> Ldstep y a = Some d' ->
  exists e, SV d' e /\ u = vadd v (fr0 :: e) /\ S (length e) = length u.
Proof.
  intros Hy Ha L E. destruct Hy as [|y0 u0 ys us H0 Hy]; [discriminate|]. destruct Ha as [|a0 v0 al vs H1 Ha]; [discriminate|].
  cbn [Ldstep] in E. destruct (meq y0 a0) eqn:E1; [|discriminate]. injection E as <-.
  pose proof (meq_ok _ _ _ _ H0 H1 E1) as ->. injection L as L. exists (vsub us vs). split; [now apply SV_vsub|]. split.
  - cbn [vadd]. f_equal; [ring|]. symmetry. now apply vadd_vsub.
  - cbn [length]. now rewrite vsub_len.
Qed.
Fixpoint Ldrift (M : list FV) (c rc : FV) (t k : nat) (d : FV) {struct k} : bool :=
  match k with
  | O => Leqv d (repeat zL (t - 1))
  | S k' =>
    match c with
    | [] => false
    | x :: c' => match Ldstep (Lmv M (x :: d)) (firstn t rc) with
                 | Some d' => Ldrift M c' (skipn t rc) t k' d'
                 | None => false end
    end
  end.
Lemma slice_0 {A} (l : list A) k : slice l 0 k = firstn k l.
Proof. reflexivity. Qed.
Lemma skipn_skipn' {A} (l : list A) i j : skipn i (skipn j l) = skipn (i + j) l.
Proof. revert i l. induction j as [|j IH]; intros i l; [now rewrite Nat.add_0_r|]. destruct l as [|x l]; [now rewrite !skipn_nil|]. rewrite Nat.add_succ_r. cbn [skipn]. apply IH. Qed.
Lemma slice_skip {A} (l : list A) j i k : slice (skipn j l) i k = slice l (j + i) k.
Proof. unfold slice. rewrite skipn_skipn'. now rewrite (Nat.add_comm i j). Qed.
Lemma drift_ok LM M lc lrc t : SM LM M -> length M = t -> forall k c rc d ld, SV lc c -> SV lrc rc -> SV ld d ->
  length d = (t - 1)%nat -> (k * t <= length rc)%nat -> (1 <= t)%nat ->
  Ldrift LM lc lrc t k ld = true ->
  exists ds, length ds = S k /\ nth 0 ds [] = d /\ nth k ds [] = vzero (t - 1) /\
    (forall r, (r <= k)%nat -> length (nth r ds []) = (t - 1)%nat) /\
    forall r, (r < k)%nat -> mv M (nth r c fr0 :: nth r ds []) = vadd (slice rc (r * t) t) (fr0 :: nth (S r) ds []).
Proof.
  intros HM Mt k. revert lc lrc. induction k as [|k IH]; intros lc lrc c rc d ld Hc Hr Hd Ld Lk Ht E; cbn [Ldrift] in E.
  - exists [d]. pose proof (Leqv_ok _ _ _ _ Hd (SV_zero (t - 1)) E) as Ed. repeat split; auto.
    + intros r Hr'. assert (r = 0)%nat as -> by lia. exact Ld.
    + intros r Hr'. lia.
  - destruct Hc as [|x xc lc c Hx Hc]; [discriminate|].
    destruct (Ldstep _ _) as [d'|] eqn:Es; [|discriminate].
    destruct (Ldstep_ok _ _ _ (mv M (xc :: d)) (firstn t rc)
      (SV_mv _ _ (x :: ld) (xc :: d) HM (Forall2_cons _ _ Hx Hd)) (SV_firstn t _ _ Hr) ltac:(rewrite mv_len, firstn_length; lia) Es)
      as (e & He & Ee & Le).
    rewrite mv_len in Le.
    destruct (IH lc (skipn t lrc) c (skipn t rc) e d' Hc (F2_skipn _ _ _ _ Hr) He ltac:(lia) ltac:(rewrite skipn_length; lia) Ht E)
      as (ds & L & N0 & Nk & Ln & St).
    exists (d :: ds). split; [cbn [length]; lia|]. split; [reflexivity|]. split; [exact Nk|]. split.
    + intros [|r] Hr'; [exact Ld|]. apply Ln. lia.
    + intros [|r] Hr'.
      * cbn [nth]. rewrite N0. exact Ee.
      * cbn [nth]. rewrite St by lia. rewrite slice_skip. f_equal.
Qed.

(** rows and columns of the sparse layers, read off the flat table *)
Fixpoint Lrows (H : list FV) (t : nat) (rs : list FV) (mrow : FV) : bool :=
  match rs with
  | [] => true
  | r :: rs' => if Leqv (Lvm r H t) (hd mrow rs') then Lrows H t rs' mrow else false
  end.
Lemma rows_check LH H n lrs rs lm m : SM LH H -> Forall (fun r => length r = n) H -> SM lrs rs -> SV lm m ->
  Lrows LH n lrs lm = true ->
  forall r, (r < length rs)%nat -> forall v, length v = n -> inner (nth r rs []) (mv H v) = inner (nth (S r) (rs ++ [m]) []) v.
Proof.
  intros SH FH Hrs Hm. induction Hrs as [|l x lrs rs Hx Hrs IH]; intros E r Hr v Lv; [cbn in Hr; lia|].
  cbn [Lrows] in E. destruct (Leqv _ _) eqn:E1; [|discriminate].
  destruct r as [|r].
  - cbn [nth app]. rewrite <- (inner_vm x H n v FH).
    assert (Eq : vm x H n = hd m rs).
    { refine (Leqv_ok _ _ _ _ (SV_vm _ _ _ _ n Hx SH) _ E1). destruct Hrs; [exact Hm | assumption]. }
    rewrite Eq. destruct rs; reflexivity.
  - cbn [length] in Hr. cbn [nth app]. apply IH; [exact E | lia | exact Lv].
Qed.
Fixpoint Lcols (H : list FV) (cs : list FV) (mcol : FV) : bool :=
  match cs with
  | [] => true
  | c :: cs' =>
    match cs' with
    | [] => Leqv c mcol
    | c' :: _ => if Leqv c (Lmv H c') then Lcols H cs' mcol else false
    end
  end.
Lemma cols_check LH H lcs cs lm m : SM LH H -> SM lcs cs -> SV lm m -> Lcols LH lcs lm = true ->
  forall r, (r < length cs)%nat -> nth r cs [] = iter (length cs - 1 - r) (mv H) m.
Proof.
  intros SH Hcs Hm. induction Hcs as [|l x lcs cs Hx Hcs IH]; intros E r Hr; [cbn in Hr; lia|].
  cbn [Lcols] in E. destruct Hcs as [|l' x' lcs cs Hx' Hcs].
  - cbn [length] in *. assert (r = 0)%nat as -> by lia. exact (Leqv_ok _ _ _ _ Hx Hm E).
  - destruct (Leqv l (Lmv LH l')) eqn:E1; [|discriminate]. specialize (IH E).
    destruct r as [|r].
    + cbn [nth]. rewrite (Leqv_ok _ _ _ _ Hx (SV_mv _ _ _ _ SH Hx') E1).
      pose proof (IH 0%nat ltac:(cbn [length]; lia)) as I0. cbn [nth length] in I0 |- *. rewrite I0.
      replace (S (S (length cs)) - 1 - 0)%nat with (S (S (length cs) - 1 - 0)) by lia. reflexivity.
    + cbn [length] in *. change (nth (S r) (x :: x' :: cs) []) with (nth r (x' :: cs) []). rewrite IH by lia. f_equal; try lia.
Qed.
