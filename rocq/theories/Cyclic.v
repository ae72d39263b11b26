(** A counting argument for cyclicity: a group with fewer than r^2 M elements,
    an element G of prime order r and an element S whose order is a multiple of
    M prime to r has only one subgroup of order r. *)
From Coq Require Import ZArith List Bool Lia Znumtheory.
Import ListNotations.
Open Scope Z_scope.

Lemma pigeon (R : Z -> Z -> Prop) n m : (forall i, 0 <= i < n -> exists c, 0 <= c < m /\ R i c) ->
  (forall i j c, 0 <= i < n -> 0 <= j < n -> R i c -> R j c -> i = j) -> 0 <= m -> n <= m.
Proof.
  intros HE HI Hm.
  assert (K : forall k : nat, Z.of_nat k <= n -> exists l, length l = k /\ NoDup l /\ forall c, In c l -> 0 <= c < m /\ exists i, 0 <= i < Z.of_nat k /\ R i c).
  { induction k as [|k IH]; intros Hk.
    - exists []. split; [reflexivity|]. split; [constructor|]. intros c [].
    - destruct IH as (l & L & ND & HL); [lia|]. destruct (HE (Z.of_nat k)) as (c & Hc & Rc); [lia|]. exists (c :: l). split; [cbn; congruence|]. split.
      + constructor; [|exact ND]. intros I. destruct (HL c I) as (_ & i & Hi & Ri). pose proof (HI i (Z.of_nat k) c ltac:(lia) ltac:(lia) Ri Rc). lia.
      + intros d [<-|I]; [split; [exact Hc|]; exists (Z.of_nat k); split; [lia | exact Rc]|]. destruct (HL d I) as (Hd & i & Hi & Ri). split; [exact Hd|]. exists i. split; [lia | exact Ri]. }
  destruct (Z.le_gt_cases n m) as [|G]; [assumption|exfalso].
  destruct (K (S (Z.to_nat m))) as (l & L & ND & HL); [lia|].
  pose proof (NoDup_incl_length ND (l' := map Z.of_nat (seq 0 (Z.to_nat m)))) as I. rewrite map_length, seq_length, L in I.
  assert (S (Z.to_nat m) <= Z.to_nat m)%nat; [|lia]. apply I. intros c Hc. destruct (HL c Hc) as (B & _). apply in_map_iff. exists (Z.to_nat c). split; [lia|]. apply in_seq. lia.
Qed.

Section Cyclic.
Variable X : Type.
Variables (on : X -> Prop) (add : X -> X -> X -> Prop) (neg : X -> X) (O : X) (mul : X -> Z -> X -> Prop).
Hypothesis dec : forall P Q : X, {P = Q} + {P <> Q}.
Hypothesis closed : forall P Q S, on P -> on Q -> add P Q S -> on S.
Hypothesis total : forall P Q, on P -> on Q -> exists S, add P Q S.
Hypothesis comm : forall P Q S, add P Q S -> add Q P S.
Hypothesis func : forall P Q S S', on P -> on Q -> add P Q S -> add P Q S' -> S = S'.
Hypothesis assoc : forall P Q R D E G G', on P -> on Q -> on R -> add P Q D -> add D R G -> add Q R E -> add P E G' -> G = G'.
Hypothesis add_O : forall P, on P -> add O P P.
Hypothesis cancel : forall P Q S, on P -> on Q -> add P Q S -> add S (neg Q) P.
Hypothesis neg_on : forall P, on P -> on (neg P).
Hypothesis mul_ex : forall P k, on P -> exists R, mul P k R.
Hypothesis mul_fun : forall P k R R', on P -> mul P k R -> mul P k R' -> R = R'.
Hypothesis mul_on : forall P k R, on P -> mul P k R -> on R.
Hypothesis mul_add : forall P i j A B C, on P -> mul P i A -> mul P j B -> add A B C -> mul P (i + j) C.
Hypothesis mul_mul : forall P i j A B, on P -> mul P i A -> mul A j B -> mul P (i * j) B.
Hypothesis mul_1 : forall P, mul P 1 P.
Hypothesis mul_0 : forall P, mul P 0 O.
Hypothesis mul_O : forall k R, mul O k R -> R = O.
Variables (code : X -> Z) (N : Z).
Hypothesis code_range : forall P, on P -> 0 <= code P < N.
Hypothesis code_inj : forall P Q, on P -> on Q -> code P = code Q -> P = Q.

Lemma on_O P : on P -> on O. Proof. intros H. exact (mul_on _ _ _ H (mul_0 P)). Qed.
Lemma mul_of_O P k : on P -> mul O k O. Proof. intros H. destruct (mul_ex O k (on_O P H)) as (R & HR). pose proof (mul_O _ _ HR). now subst R. Qed.
Lemma left_cancel P A B S : on P -> on A -> on B -> add P A S -> add P B S -> A = B.
Proof.
  intros HP HA HB H1 H2. pose proof (cancel _ _ _ HA HP (comm _ _ _ H1)) as E1. pose proof (cancel _ _ _ HB HP (comm _ _ _ H2)) as E2.
  exact (func _ _ _ _ (closed _ _ _ HP HA H1) (neg_on _ HP) E1 E2).
Qed.
Lemma mul_shift P i j A B C : on P -> mul P i A -> mul P j B -> mul P (i + j) C -> add A B C.
Proof. intros H HA HB HC. destruct (total A B (mul_on _ _ _ H HA) (mul_on _ _ _ H HB)) as (D & HD). now rewrite (mul_fun _ _ _ _ H HC (mul_add _ _ _ _ _ _ H HA HB HD)). Qed.
Lemma mul_comm P k l A B R : on P -> mul P k A -> mul A l R -> mul P l B -> mul B k R.
Proof.
  intros H HA HR HB. destruct (mul_ex B k (mul_on _ _ _ H HB)) as (R' & HR'). pose proof (mul_mul _ _ _ _ _ H HA HR) as E1. pose proof (mul_mul _ _ _ _ _ H HB HR') as E2.
  rewrite Z.mul_comm in E2. now rewrite (mul_fun _ _ _ _ H E1 E2).
Qed.

Lemma assoc_r P Q R D G E : on P -> on Q -> on R -> add P Q D -> add D R G -> add Q R E -> add P E G.
Proof. intros HP HQ HR H1 H2 H3. destruct (total P E HP (closed _ _ _ HQ HR H3)) as (G' & H). now rewrite (assoc _ _ _ _ _ _ _ HP HQ HR H1 H2 H3 H). Qed.
Lemma assoc_l P Q R D G E : on P -> on Q -> on R -> add Q R E -> add P E G -> add P Q D -> add D R G.
Proof. intros HP HQ HR H1 H2 H3. destruct (total D R (closed _ _ _ HP HQ H3) HR) as (G' & H). now rewrite <- (assoc _ _ _ _ _ _ _ HP HQ HR H3 H H1 H2). Qed.
Lemma interchange A B C D AB CD AC BD T : on A -> on B -> on C -> on D -> add A B AB -> add C D CD -> add A C AC -> add B D BD -> add AC BD T -> add AB CD T.
Proof.
  intros HA HB HC HD H1 H2 H3 H4 H5. pose proof (closed _ _ _ HC HD H2) as OCD. pose proof (closed _ _ _ HB HD H4) as OBD.
  destruct (total C BD HC OBD) as (Y & HY). pose proof (assoc_r _ _ _ _ _ _ HA HC OBD H3 H5 HY) as E1.
  destruct (total C B HC HB) as (Z & HZ). pose proof (assoc_l _ _ _ _ _ _ HC HB HD H4 HY HZ) as E2.
  pose proof (assoc_r _ _ _ _ _ _ HB HC HD (comm _ _ _ HZ) E2 H2) as E3. exact (assoc_l _ _ _ _ _ _ HA HB OCD E3 E1 H1).
Qed.
Lemma distr A B C : on A -> on B -> add A B C -> forall k, 0 <= k -> forall A' B' C', mul A k A' -> mul B k B' -> add A' B' C' -> mul C k C'.
Proof.
  intros HA HB HC k. pose proof (closed _ _ _ HA HB HC) as OC. revert k. apply (natlike_ind (fun k => forall A' B' C', mul A k A' -> mul B k B' -> add A' B' C' -> mul C k C')).
  - intros A' B' C' H1 H2 H. rewrite (mul_fun _ _ _ _ HA H1 (mul_0 A)), (mul_fun _ _ _ _ HB H2 (mul_0 B)) in H.
    pose proof (on_O _ HA) as I. rewrite (func _ _ _ _ I I H (add_O O I)). apply mul_0.
  - intros k Hk IH A' B' C' H1 H2 H.
    destruct (mul_ex A k HA) as (A1 & M1). destruct (mul_ex B k HB) as (B1 & M2).
    pose proof (mul_on _ _ _ HA M1) as a1. pose proof (mul_on _ _ _ HB M2) as b1.
    destruct (total _ _ a1 b1) as (C1 & S1). pose proof (IH _ _ _ M1 M2 S1) as MC.
    unfold Z.succ in *. refine (mul_add _ _ _ _ _ _ OC MC (mul_1 C) _).
    exact (interchange _ _ _ _ _ _ _ _ _ a1 b1 HA HB S1 HC (mul_shift _ _ _ _ _ _ HA M1 (mul_1 A) H1) (mul_shift _ _ _ _ _ _ HB M2 (mul_1 B) H2) H).
Qed.

Variables (r M : Z) (G S : X).
Hypothesis r_prime : prime r.
Hypothesis G_on : on G.
Hypothesis S_on : on S.
Hypothesis G_order : mul G r O.
Hypothesis G_neq : G <> O.
Hypothesis M_pos : 0 < M.
Hypothesis S_order : forall n, mul S (r * n) O -> (M | n).
Hypothesis count : N < r * r * M.

Lemma r_big : 1 < r. Proof. destruct r_prime. lia. Qed.
Lemma r_mul P k : on P -> mul P r O -> mul P (k * r) O.
Proof.
  intros H HO. destruct (mul_ex P (r * k) H) as (R & HR). rewrite Z.mul_comm.
  rewrite (mul_fun _ _ _ _ H HR (mul_mul _ _ _ _ _ H HO (mul_of_O _ k H))) in HR. exact HR.
Qed.
Lemma coprime d : 0 < Z.abs d < r -> exists u v, u * d + v * r = 1.
Proof.
  intros Hd. assert (RP : rel_prime d r). { apply rel_prime_sym. apply prime_rel_prime; [exact r_prime|]. intros [q E]. assert (q = 0 \/ 1 <= Z.abs q) as [->|L] by lia; nia. }
  destruct (rel_prime_bezout _ _ RP) as [u v E]. exists u, v. exact E.
Qed.
(** if dQ = Y with 0 < |d| < r and r Q = O then Q is a multiple of Y *)
Lemma divide Q d Y : on Q -> mul Q r O -> 0 < Z.abs d < r -> mul Q d Y -> exists u, mul Y u Q.
Proof.
  intros H HO Hd HY. destruct (coprime d Hd) as (u & v & E). exists u. destruct (mul_ex Y u (mul_on _ _ _ H HY)) as (R & HR).
  pose proof (mul_mul _ _ _ _ _ H HY HR) as E1. pose proof (r_mul Q v H HO) as E2.
  pose proof (mul_on _ _ _ H E1) as HRon. pose proof (mul_add _ _ _ _ _ _ H E1 E2 (comm _ _ _ (add_O R HRon))) as E3.
  replace (d * u + v * r) with 1 in E3 by lia. now rewrite <- (mul_fun _ _ _ _ H (mul_1 Q) E3) in HR.
Qed.
Lemma G_mult n : mul G n O -> (r | n).
Proof.
  intros H. pose proof r_big as B. pose proof (Z.mod_pos_bound n r ltac:(lia)) as HB. destruct (Z.eq_dec (n mod r) 0) as [E|E]; [now apply Z.mod_divide; [lia|]|exfalso].
  pose proof (r_mul G (- (n / r)) G_on G_order) as E1.
  pose proof (mul_add _ _ _ _ _ _ G_on H E1 (add_O O (on_O _ G_on))) as E2.
  replace (n + - (n / r) * r) with (n mod r) in E2 by (rewrite Z.mod_eq by lia; ring).
  destruct (divide G (n mod r) O G_on G_order ltac:(lia) E2) as (u & Hu). exact (G_neq (mul_O _ _ Hu)).
Qed.

Section Fix.
Variable Q : X.
Hypothesis Q_on : on Q.
Hypothesis Q_order : mul Q r O.
Hypothesis Q_not : forall k, ~ mul G k Q.
(** P = a G + b S + c Q *)
Definition comb (a b c : Z) (P : X) : Prop := exists A B C T, mul G a A /\ mul S b B /\ mul Q c C /\ add A C T /\ add B T P.
Lemma comb_ex a b c : exists P, comb a b c P /\ on P.
Proof.
  destruct (mul_ex G a G_on) as (A & HA). destruct (mul_ex S b S_on) as (B & HB). destruct (mul_ex Q c Q_on) as (C & HC).
  pose proof (mul_on _ _ _ G_on HA) as OA. pose proof (mul_on _ _ _ S_on HB) as OB. pose proof (mul_on _ _ _ Q_on HC) as OC.
  destruct (total A C OA OC) as (T & HT). pose proof (closed _ _ _ OA OC HT) as OT. destruct (total B T OB OT) as (P & HP).
  exists P. split; [|exact (closed _ _ _ OB OT HP)]. exists A, B, C, T. auto.
Qed.
(** r P = r b S *)
Lemma comb_r a b c P : comb a b c P -> exists Y, mul P r Y /\ mul S (r * b) Y.
Proof.
  intros (A & B & C & T & HA & HB & HC & HT & HP).
  pose proof (mul_on _ _ _ G_on HA) as OA. pose proof (mul_on _ _ _ S_on HB) as OB. pose proof (mul_on _ _ _ Q_on HC) as OC. pose proof (closed _ _ _ OA OC HT) as OT.
  pose proof (mul_comm _ _ _ _ _ _ G_on G_order (mul_of_O _ a G_on) HA) as RA. pose proof (mul_comm _ _ _ _ _ _ Q_on Q_order (mul_of_O _ c Q_on) HC) as RC.
  destruct (mul_ex B r OB) as (Y & RB). exists Y. split.
  - refine (distr _ _ _ OB OT HP r ltac:(pose proof r_big; lia) _ _ _ RB _ (comm _ _ _ (add_O Y (mul_on _ _ _ OB RB)))). exact (distr _ _ _ OA OC HT r ltac:(pose proof r_big; lia) _ _ _ RA RC (add_O O (on_O _ G_on))).
  - rewrite Z.mul_comm. exact (mul_mul _ _ _ _ _ S_on HB RB).
Qed.
Lemma comb_inj a b c a' b' c' P : 0 <= a < r -> 0 <= a' < r -> 0 <= b < M -> 0 <= b' < M -> 0 <= c < r -> 0 <= c' < r ->
  comb a b c P -> comb a' b' c' P -> a = a' /\ b = b' /\ c = c'.
Proof.
  intros Ba Ba' Bb Bb' Bc Bc' H1 H2.
  destruct (comb_r _ _ _ _ H1) as (Y & HY & SY). destruct (comb_r _ _ _ _ H2) as (Y' & HY' & SY').
  destruct H1 as (A & B & C & T & HA & HB & HC & HT & HP). destruct H2 as (A' & B' & C' & T' & HA' & HB' & HC' & HT' & HP').
  pose proof (mul_on _ _ _ G_on HA) as OA. pose proof (mul_on _ _ _ S_on HB) as OB. pose proof (mul_on _ _ _ Q_on HC) as OC. pose proof (closed _ _ _ OA OC HT) as OT.
  pose proof (mul_on _ _ _ G_on HA') as OA'. pose proof (mul_on _ _ _ S_on HB') as OB'. pose proof (mul_on _ _ _ Q_on HC') as OC'. pose proof (closed _ _ _ OA' OC' HT') as OT'.
  pose proof (closed _ _ _ OB OT HP) as OP.
  assert (YY : Y = Y') by exact (mul_fun _ _ _ _ OP HY HY'). subst Y'.
  assert (Eb : b = b').
  { destruct (mul_ex S (r * (b - b')) S_on) as (D & HD). pose proof (mul_on _ _ _ S_on HD) as OD. pose proof (mul_on _ _ _ S_on SY) as OY.
    assert (Z1 : D = O). { apply (left_cancel Y D O Y OY OD (on_O _ S_on)).
      - apply (mul_shift S (r * b') (r * (b - b')) Y D Y S_on SY' HD). replace (r * b' + r * (b - b')) with (r * b) by ring. exact SY.
      - apply comm. now apply add_O. }
    subst D. destruct (S_order _ HD) as [q Eq]. assert (q = 0 \/ 1 <= Z.abs q) as [->|L] by lia; nia. }
  subst b'. assert (B = B') by exact (mul_fun _ _ _ _ S_on HB HB'). subst B'.
  assert (TT : T = T') by exact (left_cancel _ _ _ _ OB OT OT' HP HP'). subst T'.
  destruct (mul_ex G (a - a') G_on) as (U & HU). destruct (mul_ex Q (c' - c) Q_on) as (V & HV).
  pose proof (mul_on _ _ _ G_on HU) as OU. pose proof (mul_on _ _ _ Q_on HV) as OV.
  assert (UV : U = V).
  { assert (HA1 : add A' U A). { apply (mul_shift G a' (a - a') _ _ _ G_on HA' HU). replace (a' + (a - a')) with a by ring. exact HA. }
    assert (HC1 : add C V C'). { apply (mul_shift Q c (c' - c) _ _ _ Q_on HC HV). replace (c + (c' - c)) with c' by ring. exact HC'. }
    destruct (total U C OU OC) as (W & HW). pose proof (closed _ _ _ OU OC HW) as OW.
    destruct (total A' W OA' OW) as (T2 & HT2). rewrite <- (assoc _ _ _ _ _ _ _ OA' OU OC HA1 HT HW HT2) in HT2.
    pose proof (left_cancel _ _ _ _ OA' OW OC' HT2 HT') as E. subst W. exact (left_cancel _ _ _ _ OC OU OV (comm _ _ _ HW) HC1). }
  subst V. destruct (Z.eq_dec c c') as [Ec|Ec].
  - subst c'. replace (c - c) with 0 in HV by ring. rewrite (mul_fun _ _ _ _ Q_on HV (mul_0 Q)) in HU. destruct (G_mult _ HU) as [q Eq]. assert (q = 0 \/ 1 <= Z.abs q) as [->|L] by lia; [lia|nia].
  - exfalso. destruct (divide Q (c' - c) U Q_on Q_order ltac:(lia) HV) as (u & Hu). exact (Q_not _ (mul_mul _ _ _ _ _ G_on HU Hu)).
Qed.
Lemma too_many : False.
Proof.
  pose proof r_big as Br. pose proof (code_range G G_on) as BN.
  enough (r * r * M <= N) by lia.
  apply (pigeon (fun i d => exists P, comb (i mod r) (i / r mod M) (i / r / M) P /\ on P /\ code P = d)); [| |lia].
  - intros i Hi. destruct (comb_ex (i mod r) (i / r mod M) (i / r / M)) as (P & HP & OP). exists (code P). split; [now apply code_range|]. exists P. auto.
  - intros i j d Hi Hj (P & HP & OP & EP) (P' & HP' & OP' & EP'). rewrite <- (code_inj P P' OP OP' ltac:(congruence)) in HP'.
    assert (D : forall k, 0 <= k < r * r * M -> 0 <= k / r / M < r). { intros k Hk. split; [apply Z.div_pos; [apply Z.div_pos; lia | lia]|]. apply Z.div_lt_upper_bound; [lia|]. apply Z.div_lt_upper_bound; [lia|]. lia. }
    pose proof (Z.mod_pos_bound i r ltac:(lia)) as D1. pose proof (Z.mod_pos_bound j r ltac:(lia)) as D2. pose proof (Z.mod_pos_bound (i / r) M ltac:(lia)) as D3. pose proof (Z.mod_pos_bound (j / r) M ltac:(lia)) as D4.
    destruct (comb_inj _ _ _ _ _ _ _ D1 D2 D3 D4 (D i Hi) (D j Hj) HP HP') as (E1 & E2 & E3).
    rewrite (Z.div_mod i r), (Z.div_mod j r) by lia. rewrite E1. rewrite (Z.div_mod (i / r) M), (Z.div_mod (j / r) M) by lia. now rewrite E2, E3.
Qed.
End Fix.

Lemma search Q : forall n : nat, (exists k, mul G k Q) \/ forall k, 0 <= k < Z.of_nat n -> ~ mul G k Q.
Proof.
  induction n as [|n [IH|IH]]; [right; lia | now left |]. destruct (mul_ex G (Z.of_nat n) G_on) as (R & HR). destruct (dec R Q) as [<-|D]; [left; eauto|right].
  intros k Hk HQ. destruct (Z.eq_dec k (Z.of_nat n)) as [->|]; [exact (D (mul_fun _ _ _ _ G_on HR HQ)) | exact (IH k ltac:(lia) HQ)].
Qed.
Theorem cyclic Q : on Q -> mul Q r O -> exists k, mul G k Q.
Proof.
  intros HQ HO. pose proof r_big as Br. destruct (search Q (Z.to_nat r)) as [|H]; [assumption|]. exfalso. apply (too_many Q HQ HO). intros k Hk.
  apply (H (k mod r)); [pose proof (Z.mod_pos_bound k r ltac:(lia)); lia|].
  pose proof (mul_add _ _ _ _ _ _ G_on Hk (r_mul G (- (k / r)) G_on G_order) (comm _ _ _ (add_O Q HQ))) as E.
  replace (k + - (k / r) * r) with (k mod r) in E by (rewrite Z.mod_eq by lia; ring). exact E.
Qed.
End Cyclic.
