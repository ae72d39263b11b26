(** Witnesses and examples for the parsers. *)
From Coq Require Import ZArith Ascii String List Lia.
From Verif Require Import PoseidonTables Poseidon Parse ParseSpec ParseText ParseProofs ParseTables.
Import ListNotations.
Open Scope Z_scope.

Lemma table_round_trip vss :
  vss <> [] -> Forall (fun vs => vs <> [] /\ Forall (fun v => 0 <= v) vs) vss ->
  exists s, table_text soft s vss /\ parseTwoDimensionArray s = Some vss.
Proof.
  intros N F. destruct (table_write vss N F) as [s H]. exists s. split; [exact H|now apply parseTwo_text].
Qed.

Lemma tables_parsed t :
  parseOneDimensionArray (lit (strPOSEIDON_C t)) = POSEIDON_C t /\
  parseTwoDimensionArray (lit (strPOSEIDON_M t)) = POSEIDON_M t /\
  parseTwoDimensionArray (lit (strPOSEIDON_P t)) = POSEIDON_P t.
Proof. exact (conj (parC t) (conj (parM t) (parP t))). Qed.

Definition tab : ascii := ascii_of_N 9.
Definition tabbed : bytes := str "[[0x1a]," ++ [tab] ++ str "[0x2B]]".

Lemma hex_1a : hex_of (str "1a") 26.
Proof. apply (hexNat_spec (str "1a") 26). reflexivity. Qed.
Lemma hex_2B : hex_of (str "2B") 43.
Proof. apply (hexNat_spec (str "2B") 43). reflexivity. Qed.

Lemma entry_plain (B : ascii -> Prop) s v : hex_of s v -> entry B (str "0x" ++ s) v.
Proof. intros H. exists [], s, []. repeat split; auto. now rewrite app_nil_r. Qed.
Lemma array_single (B : ascii -> Prop) b1 b2 s v :
  Forall B b1 -> Forall B b2 -> hex_of s v ->
  array_text B (b1 ++ str "[" ++ (str "0x" ++ s) ++ str "]" ++ b2) [v].
Proof.
  intros F1 F2 H. exists b1, (str "0x" ++ s), b2. repeat split; auto. apply sep_one. now apply entry_plain.
Qed.

Lemma tab_merges :
  exists s vss ws, table_text blank s vss /\ parseTwoDimensionArray s = Some ws /\ ws <> vss.
Proof.
  exists tabbed, [[26]; [43]], [[26; 43]]. split; [|split; [reflexivity|discriminate]].
  exists [], (str "[0x1a]," ++ [tab] ++ str "[0x2B]"), []. repeat split; auto.
  change (separated (array_text blank)
    (([] ++ str "[" ++ (str "0x" ++ str "1a") ++ str "]" ++ []) ++ str "," ++
     ([tab] ++ str "[" ++ (str "0x" ++ str "2B") ++ str "]" ++ [])) [[26]; [43]]).
  apply sep_cons; [|apply sep_one]; apply array_single; auto using hex_1a, hex_2B.
  constructor; [|constructor]. now apply isSpace_blank.
Qed.

(** the same table with a line feed in the place of the tab is read back *)
Example table_example : exists s,
  s = str "[[0x1a]," ++ [LF] ++ str "[0x2B]]" /\
  table_text soft s [[26]; [43]] /\ parseTwoDimensionArray s = Some [[26]; [43]].
Proof.
  eexists. split; [reflexivity|].
  assert (T : table_text soft (str "[[0x1a]," ++ [LF] ++ str "[0x2B]]") [[26]; [43]]).
  { exists [], (str "[0x1a]," ++ [LF] ++ str "[0x2B]"), []. repeat split; auto.
    change (separated (array_text soft)
      (([] ++ str "[" ++ (str "0x" ++ str "1a") ++ str "]" ++ []) ++ str "," ++
       ([LF] ++ str "[" ++ (str "0x" ++ str "2B") ++ str "]" ++ [])) [[26]; [43]]).
    apply sep_cons; [|apply sep_one]; apply array_single; auto using hex_1a, hex_2B.
    constructor; [|constructor]. now left. }
  split; [exact T|now apply parseTwo_text].
Qed.
(** a list with blanks *)
Example array_example :
  array_text blank (str "  [ 0x1a ] ") [26] /\ parseOneDimensionArray (str "  [ 0x1a ] ") = Some [26].
Proof.
  assert (B : Forall blank (str " ")) by (constructor; [now apply isSpace_blank|constructor]).
  assert (T : array_text blank (str "  [ 0x1a ] ") [26]).
  { exists (str "  "), (str " 0x1a "), (str " "). repeat split; auto.
    - constructor; [now apply isSpace_blank|exact B].
    - apply sep_one. exists (str " "), (str "1a"), (str " "). repeat split; auto using hex_1a. }
  split; [exact T|now apply parseOne_text].
Qed.
(** signs and missing prefixes are read as well, and brackets are ignored
    anywhere *)
Example loose_example : parseOneDimensionArray (str "0x-1[0, +ff, 7]") = Some [-16; 255; 7].
Proof. reflexivity. Qed.
(** panics *)
Example trailing_example : parseOneDimensionArray (str "[0x1,0x2, ]") = None.
Proof.
  apply (parseOne_trailing _ (str "0x1,0x2") (str " ")).
  - apply strip_erased. reflexivity.
  - constructor; [now apply isSpace_blank|constructor].
Qed.
Example underscore_example : parseOneDimensionArray (str "0x1_0") = None.
Proof. reflexivity. Qed.
Example two_prefixes_example : parseOneDimensionArray (str "0x0x1") = None.
Proof. reflexivity. Qed.
(** the sparse matrices of the two smallest widths *)
Example sparse_example :
  parseOneDimensionArray (lit txtS_2) = POSEIDON_S 2 /\ parseOneDimensionArray (lit txtS_3) = POSEIDON_S 3.
Proof. exact (conj parS_2 parS_3). Qed.
(** both sides of the table theorem at a width with and a width without a text *)
Example tables_example :
  parseTwoDimensionArray (lit (strPOSEIDON_M 2)) = Some tabM_2 /\
  parseTwoDimensionArray (lit (strPOSEIDON_M 18)) = None.
Proof. split; [exact (parM 2)|reflexivity]. Qed.
