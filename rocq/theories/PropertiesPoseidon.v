(** Properties of the Poseidon gadget (C37-C39). *)
From Coq Require Import ZArith List.
From Verif Require Import Params ZMod Poseidon PoseidonSpec PoseidonHash PoseidonExample.
Import ListNotations.
Open Scope Z_scope.

(** C37: for every vector of 1..16 words the Grain parameters exist and the
    gadget is the textbook hash with those parameters *)
Theorem C37_poseidon_textbook : forall inputs : list Fr, (1 <= length inputs <= 16)%nat ->
  (exists rc M, grain_params (S (length inputs)) (partial_rounds (S (length inputs))) rc M) /\
  forall rc M, grain_params (S (length inputs)) (partial_rounds (S (length inputs))) rc M ->
    Poseidon inputs = Some (textbook_hash rc M inputs).
Proof. exact hash_textbook. Qed.
Print Assumptions C37_poseidon_textbook.
(** the published value for the inputs 1, 2 (circomlib test vector) *)
Example C37_vector : Poseidon (map (ofZ rBN) [1; 2]) =
  Some (ofZ rBN 0x115cc0f5e7d690413df64c6b9662e9cf2a3617f2743245519e19607a4417189a).
Proof. exact vector12. Qed.

(** C38 *)
Theorem C38_poseidon_arity : forall inputs : list Fr,
  Poseidon inputs <> None <-> (1 <= length inputs <= 16)%nat.
Proof. exact hash_arity. Qed.
Print Assumptions C38_poseidon_arity.
Example C38_empty : Poseidon [] = None. Proof. reflexivity. Qed.
Example C38_seventeen : Poseidon (repeat (f0 rBN) 17) = None. Proof. reflexivity. Qed.

(** C39: after any history, Sum returns the hash of everything written since
    the last Reset, and leaves that data in place *)
Theorem C39_hasher_session : forall (h : list hop) m vs, replay NewPoseidonHash h = Some (m, vs) ->
  forall v m', PSum m = Some (v, m') ->
    Poseidon (since_reset [] h) = Some v /\ ph_data m' = since_reset [] h /\
    replay NewPoseidonHash (h ++ [HSum]) = Some (m', vs ++ [v]).
Proof. exact session_sum. Qed.
Print Assumptions C39_hasher_session.
Theorem C39_hasher_defined : forall (h : list hop) m vs, replay NewPoseidonHash h = Some (m, vs) ->
  (PSum m <> None <-> (1 <= length (since_reset [] h) <= 16)%nat).
Proof. exact session_defined. Qed.
Print Assumptions C39_hasher_defined.
(** writes 1; reset; writes 1 then 2: the data is 1,2, and a Sum is possible *)
Example C39_history : let h := [HWrite [ofZ rBN 1]; HReset; HWrite [ofZ rBN 1]; HWrite [ofZ rBN 2]] in
  (exists m vs, replay NewPoseidonHash h = Some (m, vs) /\ PSum m <> None) /\
  since_reset [] h = [ofZ rBN 1; ofZ rBN 2].
Proof.
  split; [|reflexivity]. eexists. eexists. split; [reflexivity|].
  refine (proj2 (session_defined [HWrite [ofZ rBN 1]; HReset; HWrite [ofZ rBN 1]; HWrite [ofZ rBN 2]] _ _ eq_refl) _).
  cbn [since_reset app length]. split; repeat constructor.
Qed.
