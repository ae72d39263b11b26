(** What a written table is, independently of the parser: numbers in base 16,
    entries between blanks, entries separated by commas, rows in brackets. *)
From Coq Require Import ZArith Ascii String List Bool.
Import ListNotations.
Open Scope Z_scope.

Definition bytes : Type := list ascii.
Definition str (s : string) : bytes := list_ascii_of_string s.

(** the [d]-th character of one of the two alphabets *)
Definition hex_digit (c : ascii) (d : Z) : Prop :=
  0 <= d < 16 /\
  (nth_error (str "0123456789abcdef") (Z.to_nat d) = Some c \/
   nth_error (str "0123456789ABCDEF") (Z.to_nat d) = Some c).

(** [s] writes the number [v] in base 16, leading zeros allowed *)
Inductive hex_of : bytes -> Z -> Prop :=
| hex_one c d : hex_digit c d -> hex_of [c] d
| hex_snoc s v c d : hex_of s v -> hex_digit c d -> hex_of (s ++ [c]) (16 * v + d).

(** the six ASCII blanks: tab, line feed, vertical tab, form feed, carriage
    return and space *)
Definition blank (c : ascii) : Prop :=
  In c (map ascii_of_N [9; 10; 11; 12; 13; 32]%N).
(** line feed and space *)
Definition soft (c : ascii) : Prop := In c (map ascii_of_N [10; 32]%N).

(** an entry: blanks, 0x, digits, blanks; the parameter says which blanks *)
Definition entry (B : ascii -> Prop) (e : bytes) (v : Z) : Prop :=
  exists b1 s b2, Forall B b1 /\ Forall B b2 /\ hex_of s v /\
    e = b1 ++ str "0x" ++ s ++ b2.

(** what may stand in a list and still be read as a number: the prefix is
    optional and a sign is allowed after it *)
Definition loose_entry (e : bytes) (v : Z) : Prop :=
  exists b1 p g s b2 w,
    Forall blank b1 /\ Forall blank b2 /\ hex_of s w /\
    e = b1 ++ p ++ g ++ s ++ b2 /\
    (p = str "0x" \/ p = []) /\
    ((g = str "-" /\ v = - w) \/ ((g = str "+" \/ g = []) /\ v = w)).

(** one or more pieces separated by commas *)
Inductive separated {V} (E : bytes -> V -> Prop) : bytes -> list V -> Prop :=
| sep_one e v : E e v -> separated E e [v]
| sep_cons e v r vs : E e v -> separated E r vs -> separated E (e ++ str "," ++ r) (v :: vs).

(** something in brackets, with blanks around *)
Definition bracketed {V} (B : ascii -> Prop) (R : bytes -> V -> Prop) (s : bytes) (v : V) : Prop :=
  exists b1 r b2, Forall B b1 /\ Forall B b2 /\ R r v /\
    s = b1 ++ str "[" ++ r ++ str "]" ++ b2.

(** the text of a list of numbers *)
Definition array_text (B : ascii -> Prop) : bytes -> list Z -> Prop :=
  bracketed B (separated (entry B)).

(** the text of a list of rows; [B] inside, any blanks around *)
Definition table_text (B : ascii -> Prop) : bytes -> list (list Z) -> Prop :=
  bracketed blank (separated (array_text B)).

(** a text with its brackets erased *)
Inductive erased : bytes -> bytes -> Prop :=
| er_nil : erased [] []
| er_drop c s t : In c (str "[]") -> erased s t -> erased (c :: s) t
| er_keep c s t : ~ In c (str "[]") -> erased s t -> erased (c :: s) (c :: t).

(** the number of commas *)
Definition commas (s : bytes) : nat := count_occ ascii_dec s ","%char.
