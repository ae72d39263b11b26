(** C68: the text parsers of constants.go. *)
From Coq Require Import ZArith Ascii String List.
From Verif Require Import PoseidonTables Poseidon Parse ParseSpec ParseText ParseProofs ParseTables ParseWit.
Import ListNotations.
Open Scope Z_scope.

(** every list of numbers, in every layout: any blanks around the brackets and
    around the entries, digits in either case, leading zeros *)
Theorem C68_one_dimension :
  forall s vs, array_text blank s vs -> parseOneDimensionArray s = Some vs.
Proof. exact parseOne_text. Qed.
Print Assumptions C68_one_dimension.

(** every list of rows, with spaces and line feeds between its parts *)
Theorem C68_two_dimensions :
  forall s vss, table_text soft s vss -> parseTwoDimensionArray s = Some vss.
Proof. exact parseTwo_text. Qed.
Print Assumptions C68_two_dimensions.

(** every table of non-negative numbers with non-empty rows can be written
    so that it is read back *)
Theorem C68_every_table :
  forall vss, vss <> [] -> Forall (fun vs => vs <> [] /\ Forall (fun v => 0 <= v) vs) vss ->
  exists s, table_text soft s vss /\ parseTwoDimensionArray s = Some vss.
Proof. exact table_round_trip. Qed.
Print Assumptions C68_every_table.

(** the one-dimensional parser returns exactly on the texts that, brackets
    erased, are signed numbers separated by commas, and returns those numbers;
    on every other text it panics *)
Theorem C68_exact :
  forall s vs, parseOneDimensionArray s = Some vs <->
    exists t, erased s t /\ separated loose_entry t vs.
Proof. exact parseOne_iff. Qed.
Print Assumptions C68_exact.

(** no entry is lost or invented *)
Theorem C68_count :
  forall s vs, parseOneDimensionArray s = Some vs -> List.length vs = S (commas s).
Proof. exact parseOne_count. Qed.
Print Assumptions C68_count.

(** a comma after the last entry is a panic, not a shorter or longer table *)
Theorem C68_trailing_comma :
  forall s t b, erased s (t ++ str "," ++ b) -> Forall blank b -> parseOneDimensionArray s = None.
Proof. exact parseOne_trailing. Qed.
Print Assumptions C68_trailing_comma.

(** the round constants and the matrices of every width, from the texts in the
    source; a width without a text is a panic on both sides *)
Theorem C68_tables :
  forall t,
    parseOneDimensionArray (lit (strPOSEIDON_C t)) = POSEIDON_C t /\
    parseTwoDimensionArray (lit (strPOSEIDON_M t)) = POSEIDON_M t /\
    parseTwoDimensionArray (lit (strPOSEIDON_P t)) = POSEIDON_P t.
Proof. exact tables_parsed. Qed.
Print Assumptions C68_tables.

(** the two-dimensional parser does not treat all blanks alike: a tab between
    two rows merges them, silently *)
Theorem C68_blanks_refuted :
  exists s vss ws, table_text blank s vss /\ parseTwoDimensionArray s = Some ws /\ ws <> vss.
Proof. exact tab_merges. Qed.
Print Assumptions C68_blanks_refuted.

Example C68_one_ex : array_text blank (str "  [ 0x1a ] ") [26] /\ parseOneDimensionArray (str "  [ 0x1a ] ") = Some [26].
Proof. exact array_example. Qed.
Example C68_two_ex : exists s, s = str "[[0x1a]," ++ [LF] ++ str "[0x2B]]" /\
  table_text soft s [[26]; [43]] /\ parseTwoDimensionArray s = Some [[26]; [43]].
Proof. exact table_example. Qed.
Example C68_exact_ex : parseOneDimensionArray (str "0x-1[0, +ff, 7]") = Some [-16; 255; 7].
Proof. exact loose_example. Qed.
Example C68_trailing_ex : parseOneDimensionArray (str "[0x1,0x2, ]") = None.
Proof. exact trailing_example. Qed.
Example C68_panics_ex : parseOneDimensionArray (str "0x1_0") = None /\ parseOneDimensionArray (str "0x0x1") = None.
Proof. exact (conj underscore_example two_prefixes_example). Qed.
Example C68_sparse_ex : parseOneDimensionArray (lit txtS_2) = POSEIDON_S 2 /\ parseOneDimensionArray (lit txtS_3) = POSEIDON_S 3.
Proof. exact sparse_example. Qed.
Example C68_tables_ex : parseTwoDimensionArray (lit (strPOSEIDON_M 2)) = Some tabM_2 /\ parseTwoDimensionArray (lit (strPOSEIDON_M 18)) = None.
Proof. exact tables_example. Qed.
