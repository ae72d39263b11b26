(** The code of poseidonHash.go on vectors, and its equality with the textbook
    permutation for tables that pass the checks. *)
From Coq Require Import ZArith List Bool Lia Ring Uint63.
From Verif Require Import Params ZMod RingPow Emulated FieldFacts FastMod FastParams Fast10 PoseidonTables Poseidon PoseidonSpec PoseidonLin PoseidonFast.
Import ListNotations.
Open Scope Z_scope.
Local Notation fr0 := (f0 rBN).
Local Notation toF := (map (ofZ rBN)).

(** ** reading the tables *)
Lemma Sigma_pow5 x : Sigma x = pow5 x.
Proof. unfold Sigma, pow5. ring. Qed.
Lemma map_Sigma st : map Sigma st = map pow5 st.
Proof. apply map_ext. intros x. apply Sigma_pow5. Qed.
Lemma cst_nth c i : (i < length c)%nat -> cst c i = Some (nth i (toF c) fr0).
Proof.
  intros H. unfold cst. rewrite (nth_error_nth' c 0 H). cbn [obind]. f_equal.
  rewrite (nth_indep (toF c) fr0 (ofZ rBN 0)) by (rewrite map_length; exact H). now rewrite map_nth.
Qed.
Lemma slice_cons {A} (l : list A) i k d : (i < length l)%nat -> slice l i (S k) = nth i l d :: slice l (S i) k.
Proof.
  intros H. unfold slice. revert l H. induction i as [|i IH]; intros [|x l] H; cbn [length] in H; try lia; [reflexivity|].
  cbn [skipn nth]. apply IH. lia.
Qed.
Lemma omap_ark c r : forall st j, (j + r + length st <= length c)%nat ->
  omap (fun iv => obind (cst c (fst iv + r)) (fun k => Some (fadd (snd iv) k))) (combine (seq j (length st)) st) =
  Some (vadd st (slice (toF c) (j + r) (length st))).
Proof.
  induction st as [|x st IH]; intros j H; [reflexivity|].
  cbn [length seq combine omap fst snd] in *. rewrite cst_nth by lia. cbn [obind]. rewrite IH by lia. cbn [obind].
  rewrite (slice_cons _ _ _ fr0) by (rewrite map_length; lia). reflexivity.
Qed.
Lemma Ark_eq st c r : (r + length st <= length c)%nat -> Ark st c r = Some (vadd st (slice (toF c) r (length st))).
Proof. intros H. unfold Ark. now rewrite omap_ark by lia. Qed.
Lemma ofold_inner (f : nat -> option Fr) : forall st j a (ks : list Fr), length ks = length st ->
  (forall i, (i < length st)%nat -> f (j + i)%nat = Some (nth i ks fr0)) ->
  ofold (fun lc jv => obind (f (fst jv)) (fun k => Some (fadd lc (fmul k (snd jv))))) (combine (seq j (length st)) st) a =
  Some (fadd a (inner ks st)).
Proof.
  induction st as [|x st IH]; intros j a ks Lk Hf.
  - destruct ks; [|discriminate]. cbn [length seq combine ofold inner]. f_equal. ring.
  - destruct ks as [|k ks]; [discriminate|]. injection Lk as Lk. cbn [length seq combine ofold fst snd].
    pose proof (Hf 0%nat ltac:(cbn [length]; lia)) as H0. rewrite Nat.add_0_r in H0. rewrite H0. cbn [nth obind].
    rewrite (IH (S j) _ ks Lk).
    + f_equal. cbn [inner]. ring.
    + intros i Hi. replace (S j + i)%nat with (j + S i)%nat by lia. rewrite Hf by (cbn [length]; lia). reflexivity.
Qed.
Definition colF (m : list (list Z)) (i : nat) : list Fr := toF (map (fun row => nth i row 0) m).
Lemma mixCol_eq st m i : length m = length st -> Forall (fun r => (i < length r)%nat) m ->
  mixCol st m i = Some (inner (colF m i) st).
Proof.
  intros L F. unfold mixCol. rewrite (ofold_inner (fun j => cst2 m j i) st 0 fr0 (colF m i)).
  - f_equal. ring.
  - unfold colF. now rewrite !map_length.
  - intros j Hj. cbn [Nat.add]. unfold cst2. rewrite (nth_error_nth' m []) by lia. cbn [obind].
    assert (Hi : (i < length (nth j m []))%nat) by (apply (proj1 (Forall_forall _ _) F); apply nth_In; lia).
    unfold cst. rewrite (nth_error_nth' _ 0 Hi). cbn [obind]. f_equal. unfold colF. rewrite map_map.
    rewrite (nth_indep _ fr0 (ofZ rBN (nth i [] 0))) by (rewrite map_length; lia).
    now rewrite (map_nth (fun x => ofZ rBN (nth i x 0))).
Qed.
Lemma omap_some {A B} (f : A -> option B) (g : A -> B) l : (forall x, In x l -> f x = Some (g x)) -> omap f l = Some (map g l).
Proof.
  induction l as [|x l IH]; intros H; [reflexivity|]. cbn [omap map]. rewrite H by (left; reflexivity). cbn [obind].
  rewrite IH; [reflexivity|]. intros y Hy. apply H. now right.
Qed.
Definition square (t : nat) (m : list (list Z)) : Prop := length m = t /\ Forall (fun r => length r = t) m.
Lemma sqb_square t m : sqb t m = true -> square t m.
Proof.
  unfold sqb. rewrite andb_true_iff, Nat.eqb_eq, forallb_forall. intros [H1 H2]. split; [exact H1|].
  apply Forall_forall. intros x Hx. apply Nat.eqb_eq. now apply H2.
Qed.
Definition matF (t : nat) (m : list (list Z)) : list (list Fr) := map toF (transp t m).
Lemma matF_col t m : matF t m = map (colF m) (seq 0 t).
Proof. unfold matF, transp, colF. now rewrite map_map. Qed.
Lemma mixCol_sq t st m i : square t m -> length st = t -> (i < t)%nat -> mixCol st m i = Some (nth i (mv (matF t m) st) fr0).
Proof.
  intros [S1 S2] L Hi. rewrite mixCol_eq.
  - f_equal. rewrite matF_col. unfold mv. rewrite map_map.
    rewrite (nth_indep _ fr0 (inner (colF m 0) st)) by (rewrite map_length, seq_length; lia).
    rewrite (map_nth (fun x => inner (colF m x) st)). now rewrite seq_nth.
  - congruence.
  - eapply Forall_impl; [|exact S2]. cbv beta. intros r <-. exact Hi.
Qed.
Lemma Mix_eq t st m : square t m -> length st = t -> Mix st m = Some (mv (matF t m) st).
Proof.
  intros [S1 S2] L. unfold Mix. rewrite (omap_some _ (fun i => inner (colF m i) st)).
  - f_equal. rewrite matF_col, L. unfold mv. now rewrite map_map.
  - intros i Hi. apply in_seq in Hi. apply mixCol_eq; [congruence|]. eapply Forall_impl; [|exact S2]. cbv beta. intros r <-. lia.
Qed.
Lemma slice_nth {A} (l : list A) i k j d : (j < k)%nat -> (i + k <= length l)%nat -> nth j (slice l i k) d = nth (i + j) l d.
Proof.
  revert i j. induction k as [|k IH]; intros i j Hj Hl; [lia|]. rewrite (slice_cons _ _ _ d) by lia.
  destruct j as [|j]; [now rewrite Nat.add_0_r|]. cbn [nth]. rewrite IH by lia. f_equal. lia.
Qed.
Lemma sRow_eq st s r : ((length st * 2 - 1) * r + length st <= length s)%nat ->
  sRow st s r = Some (inner (slice (toF s) ((length st * 2 - 1) * r) (length st)) st).
Proof.
  intros H. unfold sRow. set (o := ((length st * 2 - 1) * r)%nat) in *.
  rewrite (ofold_inner (fun i => cst s (o + i)) st 0 fr0 (slice (toF s) o (length st))).
  - f_equal. ring.
  - apply slice_len. rewrite map_length. exact H.
  - intros i Hi. cbn [Nat.add]. rewrite cst_nth by lia. f_equal. symmetry. apply slice_nth; [exact Hi|]. rewrite map_length. exact H.
Qed.
Lemma omap_col s x0 o : forall rest j, (1 <= j)%nat -> (o + j - 1 + length rest <= length s)%nat ->
  omap (fun kv => obind (cst s (o + fst kv - 1)) (fun k => Some (fadd (snd kv) (fmul x0 k)))) (combine (seq j (length rest)) rest) =
  Some (vadd rest (vscal x0 (slice (toF s) (o + j - 1) (length rest)))).
Proof.
  induction rest as [|y rest IH]; intros j Hj H; [reflexivity|]. cbn [length seq combine omap fst snd] in *.
  rewrite cst_nth by lia. cbn [obind]. rewrite IH by lia. cbn [obind].
  rewrite (slice_cons _ (o + j - 1) _ fr0) by (rewrite map_length; lia). replace (S (o + j - 1)) with (o + S j - 1)%nat by lia. reflexivity.
Qed.
Lemma sCol_eq x0 rest s r : ((length (x0 :: rest) * 2 - 1) * r + length (x0 :: rest) + length rest <= length s)%nat ->
  sCol (x0 :: rest) s r = Some (vadd rest (vscal x0 (slice (toF s) ((length (x0 :: rest) * 2 - 1) * r + length (x0 :: rest)) (length rest)))).
Proof.
  intros H. unfold sCol. set (o := ((length (x0 :: rest) * 2 - 1) * r + length (x0 :: rest))%nat) in *.
  rewrite omap_col by lia. do 3 f_equal. f_equal. lia.
Qed.

(** ** the schedule of PoseidonEx on given tables *)
Definition core (t nRoundsP : nat) (c s : list Z) (m p : list (list Z)) (state : list Fr) (nOuts : nat) : option (list Fr) :=
  obind (Ark state c 0) (fun state =>
  obind (ofold (fun st r => fullRound c m st ((r + 1) * t)) (seq 0 (nRoundsF / 2 - 1)) state) (fun state =>
  let state := map Sigma state in
  obind (Ark state c (nRoundsF / 2 * t)) (fun state =>
  obind (Mix state p) (fun state =>
  obind (ofold (partialRound c s ((nRoundsF / 2 + 1) * t)) (seq 0 nRoundsP) state) (fun state =>
  obind (ofold (fun st r => fullRound c m st ((nRoundsF / 2 + 1) * t + nRoundsP + r * t))
               (seq 0 (nRoundsF / 2 - 1)) state) (fun state =>
  let state := map Sigma state in
  omap (MixLast state m) (seq 0 nOuts))))))).
Lemma PoseidonEx_core inputs x0 nOuts nP c s m p :
  nth_error nRoundsPC (length inputs - 1) = Some nP -> (1 <= length inputs)%nat ->
  POSEIDON_C (S (length inputs)) = Some c -> POSEIDON_S (S (length inputs)) = Some s ->
  POSEIDON_M (S (length inputs)) = Some m -> POSEIDON_P (S (length inputs)) = Some p ->
  PoseidonEx inputs x0 nOuts = core (S (length inputs)) nP c s m p (x0 :: inputs) nOuts.
Proof.
  intros E0 L E1 E2 E3 E4. unfold PoseidonEx. cbv zeta. rewrite Nat.add_1_r.
  replace (S (length inputs) <? 2)%nat with false by (symmetry; apply Nat.ltb_ge; lia).
  replace (S (length inputs) - 2)%nat with (length inputs - 1)%nat by lia.
  rewrite E0. cbn [obind]. rewrite E1. cbn [obind]. rewrite E2. cbn [obind]. rewrite E3. cbn [obind]. rewrite E4. cbn [obind]. reflexivity.
Qed.
Lemma ofold_inv {A S} (f : S -> A -> option S) (g : S -> A -> S) (P : S -> Prop) l s :
  (forall s x, P s -> In x l -> f s x = Some (g s x) /\ P (g s x)) -> P s ->
  ofold f l s = Some (fold_left g l s) /\ P (fold_left g l s).
Proof.
  revert s; induction l as [|x l IH]; intros s H Ps; [now split|]. cbn [ofold fold_left].
  destruct (H s x Ps (or_introl eq_refl)) as [E P']. rewrite E. cbn [obind]. apply IH; [|exact P'].
  intros s' y Ps' Hy. apply H; [exact Ps' | now right].
Qed.

Section Core.
Variables (n nP : nat) (c s : list Z) (m p : list (list Z)) (H : list (list Fr)) (m00 : Fr) (mrow mcol : list Fr).
Notation t := (S n).
Hypotheses (Lc : length c = (8 * t + nP)%nat) (Ls : length s = ((2 * t - 1) * nP)%nat) (Sm : square t m) (Sp : square t p).
Hypotheses (EM : matF t m = fullM H m00 mrow mcol) (Hl : length H = n) (Lr : length mrow = n) (Lmc : length mcol = n).
Definition rowsF : list (list Fr) := map (fun r => slice (toF s) ((2 * t - 1) * r + 1) n) (seq 0 nP).
Definition colsF : list (list Fr) := map (fun r => slice (toF s) ((2 * t - 1) * r + t) n) (seq 0 nP).
Hypothesis s00 : forall r, (r < nP)%nat -> nth ((2 * t - 1) * r) (toF s) fr0 = m00.
Notation CF := (cfull n (toF c) H m00 mrow mcol).
Notation CP := (cpart n (toF c) m00 rowsF colsF).
Lemma mvM_len v : length (mv (matF t m) v) = t.
Proof. rewrite mv_len, matF_col, map_length, seq_length. reflexivity. Qed.
Lemma cF_len : length (toF c) = (8 * t + nP)%nat.
Proof. now rewrite map_length. Qed.
Lemma ark_t st r : length st = t -> (r + t <= 8 * t + nP)%nat -> Ark st c r = Some (vadd st (slice (toF c) r t)).
Proof. intros L Hr. rewrite Ark_eq by (rewrite L, Lc; exact Hr). now rewrite L. Qed.
Lemma varkd st r : length st = t -> (r + t <= 8 * t + nP)%nat -> length (vadd st (slice (toF c) r t)) = t.
Proof. intros L Hr. rewrite vadd_len; [exact L|]. rewrite slice_len; [exact L|]. rewrite cF_len. exact Hr. Qed.
Lemma full_eq st r : length st = t -> (r + t <= 8 * t + nP)%nat -> fullRound c m st r = Some (CF st r) /\ length (CF st r) = t.
Proof.
  intros L Hr. unfold fullRound. cbv zeta. rewrite map_Sigma. rewrite ark_t by (rewrite ?map_length; assumption). cbn [obind].
  rewrite (Mix_eq t) by first [exact Sm | apply varkd; [now rewrite map_length | exact Hr]].
  unfold cfull. rewrite <- EM. split; [reflexivity | apply mvM_len].
Qed.
Lemma part_eq st r : length st = t -> (r < nP)%nat -> partialRound c s (5 * t) st r = Some (CP st r) /\ length (CP st r) = t.
Proof.
  intros L Hr. destruct st as [|x xs]; [discriminate L|]. injection L as L. unfold partialRound. cbv zeta.
  rewrite cst_nth by (rewrite Lc; lia). cbn [obind]. rewrite Sigma_pow5.
  set (st := fadd (pow5 x) (nth (5 * t + r) (toF c) fr0) :: xs).
  assert (Lt : length st = t) by (unfold st; cbn [length]; now rewrite L).
  assert (Off : ((2 * t - 1) * r + (2 * t - 1) <= (2 * t - 1) * nP)%nat) by nia.
  assert (O : ((length st * 2 - 1) * r = (2 * t - 1) * r)%nat) by (rewrite Lt; f_equal; lia).
  rewrite sRow_eq by (rewrite O, Ls, Lt; lia). cbn [obind]. unfold st. rewrite sCol_eq by (fold st; rewrite O, Ls, Lt, L; lia). cbn [obind]. fold st.
  rewrite O, Lt, L. unfold st. cbn [cpart sparse].
  assert (Nr : nth r rowsF [] = slice (toF s) ((2 * t - 1) * r + 1) n).
  { unfold rowsF. rewrite (nth_indep _ [] (slice (toF s) ((2 * t - 1) * 0 + 1) n)) by (rewrite map_length, seq_length; exact Hr).
    rewrite (map_nth (fun r => slice (toF s) ((2 * t - 1) * r + 1) n)). now rewrite seq_nth. }
  assert (Nc : nth r colsF [] = slice (toF s) ((2 * t - 1) * r + t) n).
  { unfold colsF. rewrite (nth_indep _ [] (slice (toF s) ((2 * t - 1) * 0 + t) n)) by (rewrite map_length, seq_length; exact Hr).
    rewrite (map_nth (fun r => slice (toF s) ((2 * t - 1) * r + t) n)). now rewrite seq_nth. }
  rewrite Nr, Nc. split.
  - rewrite (slice_cons _ _ n fr0) by (rewrite map_length, Ls; lia). cbn [inner]. rewrite s00 by exact Hr.
    replace (S ((2 * t - 1) * r)) with ((2 * t - 1) * r + 1)%nat by lia. reflexivity.
  - cbn [length]. rewrite vadd_len; [now rewrite L|]. rewrite vscal_len, slice_len; [exact L|]. rewrite map_length, Ls. lia.
Qed.
Lemma core_eq st : length st = t ->
  core t nP c s m p st 1 = Some [hd fr0 (csched n nP (toF c) H (matF t p) m00 mrow mcol rowsF colsF st)].
Proof.
  intros L. unfold core. cbv zeta. change (nRoundsF / 2 - 1)%nat with 3%nat. change (nRoundsF / 2 * t)%nat with (4 * t)%nat. change ((nRoundsF / 2 + 1) * t)%nat with (5 * t)%nat.
  rewrite ark_t by (try assumption; lia). cbn [obind].
  assert (L1 : length (vadd st (slice (toF c) 0 t)) = t) by (apply varkd; [exact L | lia]).
  destruct (ofold_inv (fun st r => fullRound c m st ((r + 1) * t)) (fun st r => CF st ((r + 1) * t)) (fun st => length st = t) (seq 0 3) (vadd st (slice (toF c) 0 t))) as [E2 L2];
    [intros st' r Hs Hr; apply in_seq in Hr; apply full_eq; [exact Hs | nia] | exact L1 |].
  rewrite E2. cbn [obind]. rewrite map_Sigma. rewrite ark_t by (rewrite ?map_length; try assumption; lia). cbn [obind].
  rewrite (Mix_eq t) by first [exact Sp | apply varkd; [now rewrite map_length | lia]]. cbn [obind].
  unfold csched. cbv zeta. set (st3 := mv (matF t p) _).
  assert (L3 : length st3 = t) by (unfold st3; rewrite mv_len, matF_col, map_length, seq_length; reflexivity).
  destruct (ofold_inv (partialRound c s (5 * t)) CP (fun st => length st = t) (seq 0 nP) st3) as [E4 L4];
    [intros st' r Hs Hr; apply in_seq in Hr; apply part_eq; [exact Hs | lia] | exact L3 |].
  rewrite E4. cbn [obind]. set (st4 := fold_left CP _ _) in *.
  destruct (ofold_inv (fun st r => fullRound c m st (5 * t + nP + r * t)) (fun st r => CF st (5 * t + nP + r * t)) (fun st => length st = t) (seq 0 3) st4) as [E5 L5];
    [intros st' r Hs Hr; apply in_seq in Hr; apply full_eq; [exact Hs | nia] | exact L4 |].
  rewrite E5. cbn [obind]. rewrite map_Sigma. cbn [seq omap]. unfold MixLast.
  rewrite (mixCol_sq t) by (try exact Sm; rewrite ?map_length; try assumption; lia). cbn [obind]. rewrite EM.
  reflexivity.
Qed.
End Core.

(** ** checking a set of tables *)
Definition tables_ok (t nP : nat) (rc c s : list Z) (m p : list (list Z)) : bool :=
  Nat.leb 2 t && Nat.leb 1 nP && Nat.eqb (length rc) ((8 + nP) * t) && Nat.eqb (length c) (8 * t + nP) &&
  Nat.eqb (length s) ((2 * t - 1) * nP) && sqb t m && sqb t p &&
  forallb inR rc && forallb inR c && forallb inR s && forallb (forallb inR) (transp t m) && forallb (forallb inR) (transp t p) &&
  let lc := Lin c in let lrc := Lin rc in let ls := Lin s in
  let lM := map Lin (transp t m) in let lP := map Lin (transp t p) in
  match lM with
  | [] => false
  | row0 :: low =>
    let m00 := hd zL row0 in let mrow := tl row0 in let mcol := map (hd zL) low in let H := map (@tl _) low in
    let rows := map (fun r => slice ls ((2 * t - 1) * r + 1) (t - 1)) (seq 0 nP) in
    let cols := map (fun r => slice ls ((2 * t - 1) * r + t) (t - 1)) (seq 0 nP) in
    Leqv (slice lc 0 t) (slice lrc (0 * t) t) &&
    forallb (fun r => Leqv (Lmv lM (slice lc ((r + 1) * t) t)) (slice lrc ((r + 1) * t) t)) (seq 0 3) &&
    match Ldstep (Lmv lM (slice lc (4 * t) t)) (slice lrc (4 * t) t) with
    | Some d => Ldrift lM (skipn (5 * t) lc) (skipn (5 * t) lrc) t nP d | None => false end &&
    forallb (fun r => Leqv (Lmv lM (slice lc (5 * t + nP + r * t) t)) (slice lrc ((5 + nP + r) * t) t)) (seq 0 3) &&
    forallb (fun r => meq (nth ((2 * t - 1) * r) ls zL) m00) (seq 0 nP) &&
    Lrows H (t - 1) rows mrow && Lcols H cols mcol &&
    LeqM lP (row0 :: Lmm (Lmpow H (t - 1) (Pos.of_nat nP)) low t)
  end.
Lemma SM_map {A} (f : A -> FV) (g : A -> list Fr) l : (forall x, SV (f x) (g x)) -> SM (map f l) (map g l).
Proof. intros Hf. induction l; cbn [map]; constructor; auto. Qed.
Lemma SM_tl l L : SM l L -> SM (map (@tl _) l) (map (@tl _) L).
Proof. induction 1 as [|x y l L Hx HL IH]; cbn [map]; constructor; auto. destruct Hx; [constructor | assumption]. Qed.
Lemma SV_hd l L : SM l L -> SV (map (hd zL) l) (map (hd fr0) L).
Proof. induction 1 as [|x y l L Hx HL IH]; cbn [map]; constructor; auto. destruct Hx; [apply stR_0 | assumption]. Qed.
Lemma fullM_parts (row0 : list Fr) low n : length row0 = S n -> Forall (fun r => length r = S n) low ->
  row0 :: low = fullM (map (@tl _) low) (hd fr0 row0) (tl row0) (map (hd fr0) low).
Proof.
  intros L F. unfold fullM. f_equal.
  - destruct row0; [discriminate L | reflexivity].
  - induction F as [|r low Hr F IH]; [reflexivity|]. cbn [map combine fst snd]. f_equal; [|exact IH]. destruct r; [discriminate Hr | reflexivity].
Qed.
Lemma map_tl_len (low : list (list Fr)) n : Forall (fun r => length r = S n) low -> Forall (fun r => length r = n) (map (@tl _) low).
Proof. intros F. induction F as [|r low Hr F IH]; constructor; [|exact IH]. destruct r; [discriminate Hr|]. now injection Hr. Qed.

Lemma nth_skip {A} (l : list A) j i d : nth i (skipn j l) d = nth (j + i) l d.
Proof. revert l; induction j as [|j IH]; intros [|x l]; cbn [skipn Nat.add nth]; auto. now destruct i. Qed.

Theorem tables_sound t nP rc c s m p : tables_ok t nP rc c s m p = true -> forall st, length st = t ->
  core t nP c s m p st 1 = Some [hd fr0 (permutation (toF rc) (matF t m) t nP st)].
Proof.
  unfold tables_ok. rewrite !andb_true_iff.
  intros ((((((((((((H1 & H1') & H2) & H3) & H4) & H5) & H6) & H7) & H8) & H9) & H10) & H11) & H12).
  apply Nat.leb_le in H1, H1'. apply Nat.eqb_eq in H2, H3, H4. apply sqb_square in H5, H6.
  destruct t as [|n]; [lia|]. set (t := S n) in *. cbv zeta in H12.
  pose proof (SV_in _ H7) as Src. pose proof (SV_in _ H8) as Sc. pose proof (SV_in _ H9) as Ss.
  pose proof (SM_in _ H10) as SMt. pose proof (SM_in _ H11) as SPt. fold (matF t m) in SMt. fold (matF t p) in SPt.
  assert (Rw : Forall (fun r : list Fr => length r = t) (matF t m)).
  { apply Forall_forall. intros r Hr. rewrite matF_col in Hr. apply in_map_iff in Hr. destruct Hr as (i & <- & _). unfold colF. rewrite !map_length. apply H5. }
  assert (Lm : length (matF t m) = t) by (rewrite matF_col, map_length, seq_length; reflexivity).
  destruct (matF t m) as [|row0 low] eqn:EM; [discriminate Lm|]. injection Lm as Lm.
  assert (R0 : length row0 = S n) by now inversion Rw. assert (Rl : Forall (fun r : list Fr => length r = S n) low) by now inversion Rw.
  revert H12 SMt. generalize (map Lin (transp t m)). intros lM H12 SMt.
  inversion SMt as [|lrow0 q llow q' S0 Sl E1 E2]. subst q q' lM. rewrite !andb_true_iff in H12.
  destruct H12 as (((((((I0 & I1) & ID) & I2) & I3) & IR) & IC) & IP).
  assert (SMl : SM (lrow0 :: llow) (row0 :: low)) by (constructor; assumption).
  rewrite forallb_forall in I1, I2, I3.
  pose proof (fullM_parts row0 low n R0 Rl) as EF.
  set (H := map (@tl _) low) in *. set (mrow := tl row0) in *. set (mcol := map (hd fr0) low) in *. set (m00 := hd fr0 row0) in *.
  assert (SH : SM (map (@tl _) llow) H) by now apply SM_tl.
  assert (Scol : SV (map (hd zL) llow) mcol) by now apply SV_hd.
  assert (S00 : stR (hd zL lrow0) m00) by (destruct S0; [apply stR_0 | assumption]).
  assert (Srow : SV (tl lrow0) mrow) by (destruct S0; [constructor | assumption]).
  assert (LH : length H = n) by (unfold H; now rewrite map_length).
  assert (Lrow : length mrow = n) by (unfold mrow; destruct row0; [discriminate R0 | now injection R0]).
  assert (Lcol : length mcol = n) by (unfold mcol; now rewrite map_length).
  assert (FH : Forall (fun r => length r = n) H) by now apply map_tl_len.
  assert (Hs00 : forall r, (r < nP)%nat -> nth ((2 * t - 1) * r) (toF s) fr0 = m00).
  { intros r Hr. exact (meq_ok _ _ _ _ (SV_nth _ _ _ Ss) S00 (I3 r (proj2 (in_seq _ _ _) (conj (Nat.le_0_l r) Hr)))). }
  intros st Lst.
  rewrite (core_eq n nP c s m p H m00 mrow mcol H3 H4 H5 H6) by (try assumption; exact (eq_trans EM EF)).
  do 2 f_equal. f_equal. rewrite EF.
  (* drift *)
  destruct (Ldstep _ _) as [ld|] eqn:Ed; [|discriminate ID].
  assert (LrcF : length (toF rc) = ((8 + nP) * t)%nat) by now rewrite map_length.
  destruct (Ldstep_ok _ _ _ _ _ (SV_mv _ _ _ _ SMl (SV_slice (4 * t) t _ _ Sc)) (SV_slice (4 * t) t _ _ Src)
    ltac:(rewrite mv_len, slice_len; [cbn [length]; lia | rewrite LrcF; lia]) Ed) as (d & Sd & Ed0 & Ld).
  rewrite mv_len in Ld. cbn [length] in Ld.
  destruct (drift_ok _ _ _ _ t SMl ltac:(cbn [length]; lia) nP _ _ d ld (F2_skipn _ (5 * t) _ _ Sc) (F2_skipn _ (5 * t) _ _ Src) Sd
    ltac:(lia) ltac:(rewrite skipn_length, LrcF; nia) ltac:(lia) ID) as (ds & Lds & N0 & Nk & Ln & St).
  assert (T1 : (t - 1 = n)%nat) by lia. rewrite T1 in *.
  apply (sched_eq n nP (toF rc) (toF c) H (matF t p) m00 mrow mcol (rowsF n nP s) (colsF n nP s) (fun r => nth r ds [])); try assumption.
  - unfold rowsF. now rewrite map_length, seq_length.
  - unfold colsF. now rewrite map_length, seq_length.
  - intros r Hr v Lv. refine (rows_check _ _ n _ _ _ _ SH FH _ Srow IR r _ v Lv).
    + apply SM_map. intros x. apply SV_slice. exact Ss.
    + unfold rowsF. rewrite map_length, seq_length. exact Hr.
  - intros r Hr. pose proof (cols_check _ _ _ (colsF n nP s) _ _ SH (SM_map _ _ _ (fun x => SV_slice _ n _ _ Ss)) Scol IC r) as C.
    unfold colsF at 1 3 in C. rewrite map_length, seq_length in C. exact (C Hr).
  - rewrite map_length. exact H3.
  - exact (Leqv_ok _ _ _ _ (SV_slice 0 t _ _ Sc) (SV_slice (0 * t) t _ _ Src) I0).
  - intros r Hr. rewrite <- EF.
    exact (Leqv_ok _ _ _ _ (SV_mv _ _ _ _ SMl (SV_slice _ t _ _ Sc)) (SV_slice _ t _ _ Src) (I1 r (proj2 (in_seq _ _ _) (conj (Nat.le_0_l r) Hr)))).
  - rewrite <- EF, N0. exact Ed0.
  - intros r Hr. rewrite <- EF. specialize (St r Hr). rewrite slice_skip in St. rewrite nth_skip in St.
    rewrite (Nat.mul_add_distr_r 5 r (S n)). exact St.
  - intros r Hr. rewrite <- EF.
    exact (Leqv_ok _ _ _ _ (SV_mv _ _ _ _ SMl (SV_slice _ t _ _ Sc)) (SV_slice _ t _ _ Src) (I2 r (proj2 (in_seq _ _ _) (conj (Nat.le_0_l r) Hr)))).
  - intros v Lv. rewrite (LeqM_ok _ _ _ _ SPt (Forall2_cons _ _ S0 (SM_mm _ _ _ _ t (SM_mpow _ _ n (Pos.of_nat nP) SH) Sl)) IP).
    rewrite <- EF. cbn [mv map PoseidonLin.Ld]. f_equal. fold (mv (mm (mpow H n (Pos.of_nat nP)) low t) v). rewrite mm_mv by exact Rl.
    rewrite mpow_mv by exact FH. rewrite Nat2Pos.id by lia. reflexivity.
Qed.
