(** Sequences of calls on one SHA-256 hasher, and what they must return. *)
From Coq Require Import ZArith List Bool Lia.
From Verif Require Import Params ZMod Circuit Api ApiFacts Sha256 Sha256Spec Sha256Words Sha256Proofs.
Import ListNotations.
Open Scope Z_scope.

(** one call on a hasher *)
Inductive call := CWrite (p : list Fr) | CSum | CReset.
(** the outputs of the [Sum] calls of a program using the hasher [d] *)
Fixpoint session (cs : list call) (d : digest) : Circ (list (list Fr)) :=
  match cs with
  | [] => Ret []
  | CWrite p :: r => d <- Write d p ;; session r d
  | CReset :: r => session r (Reset d)
  | CSum :: r => o <- Sum d ;; os <- session r d ;; Ret (o :: os)
  end.
(** the message absorbed so far, at every [Sum] *)
Fixpoint absorbed (cs : list call) (m : list Fr) : list (list Fr) :=
  match cs with
  | [] => []
  | CWrite p :: r => absorbed r (m ++ p)
  | CReset :: r => absorbed r []
  | CSum :: r => m :: absorbed r m
  end.
Definition written (cs : list call) : list Fr := flat_map (fun c => match c with CWrite p => p | _ => [] end) cs.
Definition digest_of (m : list Fr) : list Fr := map (ofZ rBN) (sha256 (map fval m)).

Lemma session_bytes cs : forall d o, sat (session cs d) o -> Forall byteF (written cs).
Proof.
  induction cs as [|[p| |] cs IH]; intros d o H; cbn [session written flat_map] in *; [constructor| | |].
  - apply sat_bind in H. destruct H as (d' & H1 & H2). apply Forall_app. split; [exact (Write_bytes _ _ _ H1) | exact (IH _ _ H2)].
  - apply sat_bind in H. destruct H as (o' & _ & H2). apply sat_bind in H2. destruct H2 as (os & H2 & _). exact (IH _ _ H2).
  - exact (IH _ _ H).
Qed.
Lemma session_det cs : forall d m, Inv d (map fval m) -> Forall byteF (written cs) ->
  8 * Z.of_nat (length m + length (written cs)) < 2 ^ 64 ->
  determ (session cs d) (map digest_of (absorbed cs m)).
Proof.
  induction cs as [|[p| |] cs IH]; intros d m HI F L; cbn [session absorbed map].
  - apply determ_ret.
  - cbn [written flat_map] in F, L. apply Forall_app in F. destruct F as (Fp & F).
    destruct (Write_ok d _ p HI Fp) as (d' & D & I'). eapply determ_bind; [exact D|].
    rewrite <- map_app in I'. apply IH; [exact I' | exact F|]. unfold written. rewrite app_length in *. lia.
  - eapply determ_bind.
    + apply checkSum_ok; [exact HI | rewrite map_length; unfold written in L; lia | exact (Inv_byte _ _ HI)].
    + eapply determ_bind; [apply IH; [exact HI | exact F | exact L]|]. apply determ_ret.
  - apply IH; [exact (Inv_Reset _ _ HI) | exact F | cbn [length]; unfold written in *; cbn [flat_map app] in L; lia].
Qed.
Theorem session_New_det cs : Forall byteF (written cs) -> 8 * Z.of_nat (length (written cs)) < 2 ^ 64 ->
  determ (session cs New) (map digest_of (absorbed cs [])).
Proof. intros F L. apply session_det; [exact Inv_New | exact F | exact L]. Qed.

Lemma sha_run p : Forall byteF p -> 8 * Z.of_nat (length p) < 2 ^ 64 ->
  run (d <- Write New p ;; Sum d) = Some (digest_of p).
Proof.
  intros F L. destruct (Write_ok New [] p Inv_New F) as (d & D & HI). cbn [app] in HI.
  refine (proj1 (determ_bind _ _ d _ D _)). apply checkSum_ok; [exact HI | now rewrite map_length | exact (Inv_byte _ _ HI)].
Qed.
Lemma sha_sat p out : sat (d <- Write New p ;; Sum d) out -> 8 * Z.of_nat (length p) < 2 ^ 64 ->
  Forall byteF p /\ out = digest_of p.
Proof.
  intros H L. assert (F : Forall byteF p). { apply sat_bind in H. destruct H as (d' & H1 & _). exact (Write_bytes _ _ _ H1). }
  split; [exact F|]. destruct (Write_ok New [] p Inv_New F) as (d & D & HI). cbn [app] in HI.
  refine (proj2 (determ_bind _ _ d _ D _) out H). apply checkSum_ok; [exact HI | now rewrite map_length | exact (Inv_byte _ _ HI)].
Qed.
Lemma session_run cs : Forall byteF (written cs) -> 8 * Z.of_nat (length (written cs)) < 2 ^ 64 ->
  run (session cs New) = Some (map digest_of (absorbed cs [])).
Proof. intros F L. exact (proj1 (session_New_det cs F L)). Qed.
Lemma session_sat cs outs : sat (session cs New) outs -> 8 * Z.of_nat (length (written cs)) < 2 ^ 64 ->
  Forall byteF (written cs) /\ outs = map digest_of (absorbed cs []).
Proof. intros H L. pose proof (session_bytes _ _ _ H) as F. split; [exact F|]. exact (proj2 (session_New_det cs F L) outs H). Qed.

(** *** word gadgets (C04) *)
Lemma bits_inj n a b : 0 <= a < 2 ^ Z.of_nat n -> 0 <= b < 2 ^ Z.of_nat n -> bitsF n a = bitsF n b -> a = b.
Proof.
  intros Ha Hb E. apply Z.bits_inj'. intros i Hi. destruct (Z_lt_ge_dec i (Z.of_nat n)) as [L|G].
  - assert (H : nth (Z.to_nat i) (bitsF n a) fr0 = nth (Z.to_nat i) (bitsF n b) fr0) by now rewrite E.
    rewrite !nth_bitsF, !Z2Nat.id in H by lia. destruct (Z.testbit a i), (Z.testbit b i); try reflexivity; vm_compute in H; discriminate.
  - rewrite !(high_bit (Z.of_nat n)) by lia. reflexivity.
Qed.
Lemma assertEq_sat n a b : 0 <= a < 2 ^ Z.of_nat n -> 0 <= b < 2 ^ Z.of_nat n ->
  forall u, sat (u_assertEq n (bitsF n a) (bitsF n b)) u <-> a = b.
Proof.
  intros Ha Hb u. split.
  - intros H. apply (bits_inj n); [exact Ha | exact Hb|]. apply bitsF_ext. intros i Hi.
    assert (E : feqb (nth (Z.to_nat i) (bitsF n a) fr0) (nth (Z.to_nat i) (bitsF n b) fr0) = true).
    { revert u H. unfold u_assertEq. assert (I : In (Z.to_nat i) (seq 0 n)) by (apply in_seq; lia).
      revert I. generalize (seq 0 n) as l. generalize tt. intros t l. revert t.
      induction l as [|j l IH]; intros t I u H; [destruct I|]; destruct I as [E|I]; cbn [mfold] in H; apply sat_bind in H; destruct H as (t' & H1 & H2).
      - subst j. now apply sat_assert in H1.
      - exact (IH t' I u H2). }
    apply feqb_eq in E. rewrite !nth_bitsF, !Z2Nat.id in E by lia.
    destruct (Z.testbit a i), (Z.testbit b i); try reflexivity; vm_compute in E; discriminate.
  - intros ->. destruct u. unfold u_assertEq. generalize (seq 0 n) as l. induction l as [|j l IH]; cbn [mfold]; [reflexivity|].
    apply sat_bind. exists tt. split; [|exact IH]. apply sat_assert. now apply feqb_eq.
Qed.
Lemma bitwise_sat n zs o :
  (sat (u_xor n (map (bitsF n) zs)) o <-> o = bitsF n (fold_left Z.lxor zs 0)) /\
  (sat (u_or n (map (bitsF n) zs)) o <-> o = bitsF n (fold_left Z.lor zs 0)) /\
  (sat (u_and n (map (bitsF n) zs)) o <-> o = bitsF n (fold_left Z.land zs (-1))).
Proof.
  split; [|split]; [exact (determ_sat _ _ (u_xor_det n zs) o) | exact (determ_sat _ _ (u_or_det n zs) o) | exact (determ_sat _ _ (u_and_det n zs) o)].
Qed.
Lemma shifts_spec n s z : (s <= n)%nat -> 0 <= z < 2 ^ Z.of_nat n ->
  u_rshift n (bitsF n z) s = bitsF n (z / 2 ^ Z.of_nat s) /\
  u_lshift n (bitsF n z) s = bitsF n ((z * 2 ^ Z.of_nat s) mod 2 ^ Z.of_nat n).
Proof.
  intros Hs Hz. rewrite u_rshift_eq, u_lshift_eq, bitsF_mod by assumption.
  now rewrite Z.shiftr_div_pow2, Z.shiftl_mul_pow2 by lia.
Qed.
Lemma rotate_spec n r z : 0 < r < Z.of_nat n -> 0 <= z < 2 ^ Z.of_nat n ->
  u_lrot n (bitsF n z) (- r) = bitsF n (z / 2 ^ r + (z mod 2 ^ r) * 2 ^ (Z.of_nat n - r)).
Proof.
  intros Hr Hz. rewrite u_lrot_eq by assumption. f_equal.
  rewrite Z.shiftr_div_pow2, Z.shiftl_mul_pow2 by lia. set (N := Z.of_nat n) in *.
  assert (P : 2 ^ N = 2 ^ r * 2 ^ (N - r)) by (rewrite <- Z.pow_add_r by lia; f_equal; lia).
  assert (Pr : 0 < 2 ^ r) by (apply Z.pow_pos_nonneg; lia). assert (Pn : 0 < 2 ^ (N - r)) by (apply Z.pow_pos_nonneg; lia).
  rewrite P, Z.mul_mod_distr_r by lia. rewrite Z.add_comm, Z.lor_comm.
  rewrite <- (Z.shiftl_mul_pow2 (z mod 2 ^ r) (N - r)) at 1 by lia. apply lor_disj; [lia|].
  split; [apply Z.div_pos; lia|]. apply Z.div_lt_upper_bound; lia.
Qed.
Lemma asUint_sat n x o : 2 ^ Z.of_nat n <= rBN ->
  sat (asUint n x) o <-> fval x < 2 ^ Z.of_nat n /\ o = bitsF n (fval x).
Proof.
  intros Hn. split.
  - intros H. destruct (Z_lt_ge_dec (fval x) (2 ^ Z.of_nat n)) as [L|G].
    + split; [exact L | exact (proj2 (determ_ToBinary n x Hn L) o H)].
    + exfalso. exact (unsat_ToBinary n x Hn ltac:(lia) o H).
  - intros (L & ->). apply run_sat. exact (proj1 (determ_ToBinary n x Hn L)).
Qed.
Lemma add_example :
  determ (u_add (bitsF 32 0xffffffff) (bitsF 32 0xffffffff) [bitsF 32 0xffffffff; bitsF 32 5]) (bitsF 32 2).
Proof.
  exact (u_add_det 0xffffffff 0xffffffff [0xffffffff; 5] ltac:(lia) ltac:(lia)
    ltac:(repeat first [apply Forall_nil | apply Forall_cons; [lia|]]) ltac:(cbn; lia)).
Qed.
Lemma not_a_byte : forall outs, ~ sat (session [CWrite [ofZ rBN 256]; CSum] New) outs.
Proof.
  intros outs H. apply session_bytes in H. cbn [written flat_map app] in H. apply Forall_inv in H. unfold byteF in H. vm_compute in H. discriminate.
Qed.
Transparent shaK K256 H256.
Lemma sha_constants :
  shaK = map (frac_root 3) primes64 /\
  map fromUint [wa shaInit; wb shaInit; wc shaInit; wd shaInit; we shaInit; wf shaInit; wg shaInit; wh shaInit]
  = map (ofZ rBN) (map (frac_root 2) (firstn 8 primes64)).
Proof.
  split; [exact K_ok|]. unfold shaInit, constUint, fromUint. cbn [map wa wb wc wd we wf wg wh].
  rewrite !FromBinary_bits_small by (change (2 ^ Z.of_nat 32) with (2 ^ 32); lia).
  change [ofZ rBN 0x6A09E667; ofZ rBN 0xBB67AE85; ofZ rBN 0x3C6EF372; ofZ rBN 0xA54FF53A; ofZ rBN 0x510E527F; ofZ rBN 0x9B05688C; ofZ rBN 0x1F83D9AB; ofZ rBN 0x5BE0CD19]
    with (map (ofZ rBN) [0x6A09E667; 0xBB67AE85; 0x3C6EF372; 0xA54FF53A; 0x510E527F; 0x9B05688C; 0x1F83D9AB; 0x5BE0CD19]).
  apply f_equal. vm_cast_no_check (@eq_refl (list Z) [0x6A09E667; 0xBB67AE85; 0x3C6EF372; 0xA54FF53A; 0x510E527F; 0x9B05688C; 0x1F83D9AB; 0x5BE0CD19]).
Qed.
Definition abc_digest : list Z :=
     [0xba;0x78;0x16;0xbf;0x8f;0x01;0xcf;0xea;0x41;0x41;0x40;0xde;0x5d;0xae;0x22;0x23;
      0xb0;0x03;0x61;0xa3;0x96;0x17;0x7a;0x9c;0xb4;0x10;0xff;0x61;0xf2;0x00;0x15;0xad].
Lemma abc_spec : sha256 [97; 98; 99] = abc_digest.
Proof. vm_cast_no_check (eq_refl abc_digest). Qed.
Lemma abc_run :
  run (d <- Write New (map (ofZ rBN) [97; 98; 99]) ;; Sum d) = Some (map (ofZ rBN) abc_digest).
Proof.
  rewrite sha_run.
  - unfold digest_of. rewrite <- abc_spec. reflexivity.
  - repeat first [apply Forall_nil | apply Forall_cons; [reflexivity|]].
  - reflexivity.
Qed.
