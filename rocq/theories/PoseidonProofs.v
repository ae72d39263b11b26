(** Poseidon: the parameters generated by Grain are unique, the tables of the
    code are their optimised form, and the hash is the textbook hash. *)
From Coq Require Import ZArith List Bool Lia Ring Uint63.
From Verif Require Import Params ZMod RingPow Emulated FieldFacts FastMod FastParams Fast10 PoseidonTables Poseidon PoseidonSpec PoseidonLin PoseidonFast PoseidonCode PoseidonGrain.
Import ListNotations.
Open Scope Z_scope.
Local Notation fr0 := (f0 rBN).
Local Notation fr1 := (f1 rBN).
Local Notation toF := (map (ofZ rBN)).
Local Notation below := (fun z => z <? rBN).

(** ** prefixes *)
Lemma bits_msb_len n z : length (bits_msb n z) = n.
Proof. unfold bits_msb. now rewrite map_length, seq_length. Qed.
Lemma bits_msb_inj n u v : 0 <= u < 2 ^ Z.of_nat n -> 0 <= v < 2 ^ Z.of_nat n -> bits_msb n u = bits_msb n v -> u = v.
Proof.
  intros Hu Hv E. apply Z.bits_inj'. intros k Hk. destruct (Z.lt_ge_cases k (Z.of_nat n)) as [L|L].
  - assert (Hi : (n - 1 - Z.to_nat k < n)%nat) by lia.
    apply (f_equal (fun l => nth (n - 1 - Z.to_nat k) l false)) in E. unfold bits_msb in E.
    rewrite !(nth_indep _ false (Z.testbit u (Z.of_nat (n - 1 - 0)))) in E by (rewrite map_length, seq_length; exact Hi).
    rewrite (map_nth (fun i => Z.testbit u (Z.of_nat (n - 1 - i)))) in E.
    rewrite (nth_indep _ _ (Z.testbit v (Z.of_nat (n - 1 - 0)))) in E by (rewrite map_length, seq_length; exact Hi).
    rewrite (map_nth (fun i => Z.testbit v (Z.of_nat (n - 1 - i)))) in E.
    rewrite seq_nth in E by exact Hi. cbn [Nat.add] in E.
    replace (Z.of_nat (n - 1 - (n - 1 - Z.to_nat k))) with k in E by lia. exact E.
  - assert (H0 : forall w, 0 <= w < 2 ^ Z.of_nat n -> Z.testbit w k = false).
    { intros w Hw. destruct (Z.eq_dec w 0) as [->|N]; [apply Z.bits_0|]. apply Z.bits_above_log2; [lia|].
      apply Z.lt_le_trans with (Z.of_nat n); [|exact L]. apply Z.log2_lt_pow2; lia. }
    now rewrite !H0.
Qed.
Notation small := (fun v => 0 <= v < 2 ^ 254).
Lemma app_len_inv {A} (a b x y : list A) : length a = length b -> a ++ x = b ++ y -> a = b /\ x = y.
Proof.
  revert b; induction a as [|u a IH]; intros [|w b] L E; cbn [length app] in *; try discriminate; [now split|].
  injection E as -> E. destruct (IH b ltac:(lia) E) as [-> ->]. now split.
Qed.
Lemma blocks_prefix us : forall vs s, Forall small us -> Forall small vs ->
  concat (map (bits_msb 254) vs) = concat (map (bits_msb 254) us) ++ s -> (length us <= length vs)%nat -> exists ws, vs = us ++ ws.
Proof.
  induction us as [|u us IH]; intros vs s Fu Fv E L; [now exists vs|].
  destruct vs as [|v vs]; [cbn in L; lia|]. inversion Fu; subst. inversion Fv; subst.
  cbn [map concat] in E. rewrite <- app_assoc in E.
  apply app_len_inv in E; [|now rewrite !bits_msb_len]. destruct E as [E1 E].
  apply (bits_msb_inj 254) in E1; [|assumption|assumption]. subst v.
  destruct (IH vs s H2 H4 E) as [ws ->]; [cbn in L; lia|]. now exists ws.
Qed.
Lemma blocks_len vs : length (concat (map (bits_msb 254) vs)) = (254 * length vs)%nat.
Proof. induction vs as [|v vs IH]; [reflexivity|]. cbn [map concat length]. rewrite app_length, bits_msb_len, IH. lia. Qed.
Lemma grain_prefix t nP us vs : grain_numbers t nP us -> grain_numbers t nP vs -> (length us <= length vs)%nat -> exists ws, vs = us ++ ws.
Proof.
  intros (Fu & b & j & B & Su) (Fv & b' & j' & B' & Sv) L.
  pose proof (shrunk_ext b' b _ _ _ (grain_seq_unique t nP _ _ B' B) Sv) as Sv'.
  destruct (shrunk_prefix _ _ _ _ Su _ _ Sv') as [s E]; [rewrite !blocks_len; lia|].
  exact (blocks_prefix us vs s Fu Fv E L).
Qed.

(** the first block of numbers with a given count below the modulus, ending in one *)
Lemma cut_unique : forall (vs vs' : list Z) v v' us us' r r',
  vs ++ [v] ++ us ++ r = vs' ++ [v'] ++ us' ++ r' -> v < rBN -> v' < rBN ->
  length (filter below (vs ++ [v])) = length (filter below (vs' ++ [v'])) -> length us = length us' ->
  vs = vs' /\ v = v' /\ us = us'.
Proof.
  assert (Pos : forall (l : list Z) x, x < rBN -> (1 <= length (filter below (l ++ [x])))%nat).
  { intros l x Hx. rewrite filter_app, app_length. cbn [filter]. replace (x <? rBN) with true by (symmetry; now apply Z.ltb_lt). cbn [length]. lia. }
  induction vs as [|x vs IH]; intros vs' v v' us us' r r' E Hv Hv' L Lu.
  - destruct vs' as [|y vs'].
    + cbn [app] in E. injection E as -> E. apply app_len_inv in E; [|exact Lu]. now repeat split.
    + cbn [app] in E. injection E as <- E. cbn [app filter] in L. replace (v <? rBN) with true in L by (symmetry; now apply Z.ltb_lt).
      cbn [length] in L. pose proof (Pos vs' v' Hv'). lia.
  - destruct vs' as [|y vs'].
    + cbn [app] in E. injection E as -> E. cbn [app filter] in L. replace (v' <? rBN) with true in L by (symmetry; now apply Z.ltb_lt).
      cbn [length] in L. pose proof (Pos vs v Hv). lia.
    + cbn [app] in E. injection E as <- E. cbn [app filter] in L.
      destruct (IH vs' v v' us us' r r' E Hv Hv') as (-> & -> & ->); [destruct (x <? rBN); cbn [length] in L; lia | exact Lu | now repeat split].
Qed.
Lemma inv_unique (a b c : Fr) : fmul a c = fr1 -> fmul b c = fr1 -> a = b.
Proof.
  intros Ha Hb. transitivity (fmul a (fmul b c)); [rewrite Hb; ring|]. transitivity (fmul b (fmul a c)); [ring|]. rewrite Ha. ring.
Qed.
Lemma list_ext {A} (d : A) (l l' : list A) : length l = length l' -> (forall i, (i < length l)%nat -> nth i l d = nth i l' d) -> l = l'.
Proof. intros L H. apply (nth_ext l l' d d L). exact H. Qed.
Theorem grain_params_unique t nP rc M rc' M' : grain_params t nP rc M -> grain_params t nP rc' M' -> rc = rc' /\ M = M'.
Proof.
  intros (vs & v & us & xs & ys & G & Hv & Erc & Lrc & Lus & Exy & Lx & _ & LM & FM & Ca)
         (vs' & v' & us' & xs' & ys' & G' & Hv' & Erc' & Lrc' & Lus' & Exy' & Lx' & _ & LM' & FM' & Ca').
  assert (Ev : vs = vs' /\ v = v' /\ us = us').
  { assert (Lf : length (filter below (vs ++ [v])) = length (filter below (vs' ++ [v']))).
    { rewrite <- (map_length (ofZ rBN)), <- Erc, Lrc, <- Lrc', Erc'. apply map_length. }
    destruct (Nat.le_ge_cases (length (vs ++ [v] ++ us)) (length (vs' ++ [v'] ++ us'))) as [L|L].
    - destruct (grain_prefix _ _ _ _ G G' L) as [ws E]. apply (cut_unique vs vs' v v' us us' ws []); try assumption; [|congruence].
      rewrite app_nil_r, E, <- !app_assoc. reflexivity.
    - destruct (grain_prefix _ _ _ _ G' G L) as [ws E]. apply (cut_unique vs vs' v v' us us' [] ws); try assumption; [|congruence].
      rewrite app_nil_r, E, <- !app_assoc. reflexivity. }
  destruct Ev as (<- & <- & <-). split; [congruence|].
  assert (E2 : xs = xs' /\ ys = ys').
  { rewrite Exy in Exy'. apply app_len_inv in Exy'; [exact Exy' | congruence]. }
  destruct E2 as [<- <-].
  apply (list_ext [] M M'); [congruence|]. intros i Hi. rewrite LM in Hi.
  assert (R : length (nth i M []) = t) by (apply (proj1 (Forall_forall _ _) FM); apply nth_In; lia).
  assert (R' : length (nth i M' []) = t) by (apply (proj1 (Forall_forall _ _) FM'); apply nth_In; lia).
  apply (list_ext fr0); [congruence|]. intros j Hj. rewrite R in Hj.
  exact (inv_unique _ _ _ (Ca i j Hi Hj) (Ca' i j Hi Hj)).
Qed.

(** ** the checks for one width *)
Definition Lone : V10 := inV 1.
Lemma stR_1 : stR Lone fr1.
Proof. apply (stR_in 1). reflexivity. Qed.
Fixpoint Lrow1 (row : FV) (x : V10) (ys : FV) : bool :=
  match row, ys with
  | [], [] => true
  | m :: row', y :: ys' => if meq (mulV m (addV x y)) Lone then Lrow1 row' x ys' else false
  | _, _ => false
  end.
Fixpoint Lcauchy (M : list FV) (xs ys : FV) : bool :=
  match M, xs with
  | [], [] => true
  | row :: M', x :: xs' => if Lrow1 row x ys then Lcauchy M' xs' ys else false
  | _, _ => false
  end.
Lemma row1_ok lr r : SV lr r -> forall lx x lys ys, stR lx x -> SV lys ys -> Lrow1 lr lx lys = true ->
  length r = length ys /\ forall j, (j < length r)%nat -> fmul (nth j r fr0) (fadd x (nth j ys fr0)) = fr1.
Proof.
  induction 1 as [|m q lr r Hm Hr IH]; intros lx x lys ys Hx Hy E; destruct Hy as [|ly y lys ys Hy0 Hy]; cbn [Lrow1] in E; try discriminate.
  - split; [reflexivity|]. cbn [length]. lia.
  - destruct (meq _ _) eqn:E1; [|discriminate]. destruct (IH lx x lys ys Hx Hy E) as [L H]. split; [cbn; lia|].
    intros [|j] Hj; cbn [nth length] in *; [|apply H; lia].
    exact (meq_ok _ _ _ _ (stR_mul _ _ _ _ Hm (stR_add _ _ _ _ Hx Hy0)) stR_1 E1).
Qed.
Lemma cauchy_ok lM M : SM lM M -> forall lxs xs lys ys, SV lxs xs -> SV lys ys -> Lcauchy lM lxs lys = true ->
  length M = length xs /\ Forall (fun r => length r = length ys) M /\
  forall i j, (i < length M)%nat -> (j < length ys)%nat -> fmul (nth j (nth i M []) fr0) (fadd (nth i xs fr0) (nth j ys fr0)) = fr1.
Proof.
  induction 1 as [|lr r lM M Hr HM IH]; intros lxs xs lys ys Hx Hy E; destruct Hx as [|lx x lxs xs Hx0 Hx]; cbn [Lcauchy] in E; try discriminate.
  - repeat split; [constructor|]. cbn [length]. lia.
  - destruct (Lrow1 lr lx lys) eqn:E1; [|discriminate]. destruct (IH _ _ _ _ Hx Hy E) as (L & F & H).
    destruct (row1_ok _ _ Hr _ _ _ _ Hx0 Hy E1) as [L1 H1].
    split; [cbn; lia|]. split; [constructor; assumption|].
    intros [|i] j Hi Hj; cbn [nth length] in *; [apply H1; lia | apply H; lia].
Qed.
Fixpoint nodupb (l : list Z) : bool := match l with [] => true | x :: l' => if existsb (Z.eqb x) l' then false else nodupb l' end.
Lemma nodupb_ok l : nodupb l = true -> NoDup l.
Proof.
  induction l as [|x l IH]; intros H; [constructor|]. cbn [nodupb] in H. destruct (existsb (Z.eqb x) l) eqn:E; [discriminate|].
  constructor; [|now apply IH]. intros Hin. assert (existsb (Z.eqb x) l = true) by (apply existsb_exists; exists x; split; [exact Hin | apply Z.eqb_refl]). congruence.
Qed.
Definition width_ok (t nP k : nat) (N : positive) (c s : list Z) (m p : list (list Z)) : bool :=
  let nums := gnums t nP N in
  let vs := firstn k nums in
  match skipn k nums with
  | [] => false
  | v :: rest =>
    let us := firstn (t + t) rest in
    let rc := filter below (vs ++ [v]) in
    (v <? rBN) && Nat.eqb (length rc) ((8 + nP) * t) && Nat.eqb (length us) (t + t) &&
    nodupb (map (fun z => z mod rBN) us) && forallb inR us && tables_ok t nP rc c s m p &&
    let lu := Lin us in Lcauchy (map Lin (transp t m)) (firstn t lu) (skipn t lu)
  end.
Theorem width_sound t nP k N c s m p : width_ok t nP k N c s m p = true ->
  exists rc M, grain_params t nP rc M /\
    forall st, length st = t -> core t nP c s m p st 1 = Some [hd fr0 (permutation rc M t nP st)].
Proof.
  unfold width_ok. cbv zeta. set (nums := gnums t nP N).
  destruct (skipn k nums) as [|v rest] eqn:Es; [discriminate|]. rewrite !andb_true_iff.
  set (vs := firstn k nums). set (us := firstn (t + t) rest).
  intros ((((((H1 & H2) & H3) & H4) & H5) & H6) & H7). apply Z.ltb_lt in H1. apply Nat.eqb_eq in H2, H3.
  pose proof H6 as H6'. unfold tables_ok in H6'. rewrite !andb_true_iff in H6'. destruct H6' as (((_ & F10) & _) & _).
  exists (toF (filter below (vs ++ [v]))), (matF t m). split; [|exact (tables_sound _ _ _ _ _ _ _ H6)].
  destruct (cauchy_ok _ _ (SM_in _ F10) _ (firstn t (toF us)) _ (skipn t (toF us)) (SV_firstn _ _ _ (SV_in _ H5)) (F2_skipn _ _ _ _ (SV_in _ H5)) H7) as (C1 & C2 & C3).
  fold (matF t m) in *.
  assert (Lu : length (toF us) = (t + t)%nat) by now rewrite map_length.
  assert (Lx : length (firstn t (toF us)) = t) by (rewrite firstn_length; lia).
  assert (Ly : length (skipn t (toF us)) = t) by (rewrite skipn_length; lia).
  exists vs, v, us, (firstn t (toF us)), (skipn t (toF us)). split; [|repeat split]; try assumption.
  - (* numbers *)
    assert (P : exists ws, nums = (vs ++ [v] ++ us) ++ ws).
    { exists (skipn (t + t) rest). unfold vs, us. rewrite <- app_assoc. cbn [app]. rewrite firstn_skipn, <- Es. symmetry. apply firstn_skipn. }
    destruct P as [ws P]. destruct (gnums_ok t nP N _ (gbit_seq t nP)) as [Fn [j Sh]]. fold nums in Fn, Sh. rewrite P in Fn, Sh.
    apply Forall_app in Fn. split; [apply Fn|]. rewrite map_app, concat_app in Sh. destruct (shrunk_app _ _ _ _ _ Sh) as [j' Sh'].
    exists (gbit t nP), j'. split; [apply gbit_seq | exact Sh'].
  - now rewrite map_length.
  - symmetry. apply firstn_skipn.
  - rewrite firstn_skipn. apply nodupb_ok in H4. apply (NoDup_map_inv (@fval rBN)). rewrite map_map.
    erewrite map_ext; [exact H4|]. intros z. apply fval_ofZ.
  - congruence.
  - eapply Forall_impl; [|exact C2]. cbv beta. intros r Hr. congruence.
  - intros i j Hi Hj. apply C3; congruence || lia.
Qed.
