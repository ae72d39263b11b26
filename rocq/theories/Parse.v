(** Model of the text parsers of /repo/spark/pairing_bls12381/constants.go
    (lines 12-40) and of the library calls they make.  A Go string is a list
    of bytes.  [None] = the Go code panics.

    Simplification: the bytes 0x80-0xff are treated as ordinary characters, so
    [isSpace] leaves out the two non-ASCII blanks U+0085 and U+00A0 (and the
    Unicode class Z) of unicode.IsSpace; constants.go is an ASCII file. *)
From Coq Require Import ZArith Ascii String List Bool.
From Verif Require Import Poseidon.
Import ListNotations.
Open Scope Z_scope.

Definition text : Type := list ascii.
(** a Go string literal *)
Definition lit (s : string) : text := list_ascii_of_string s.

(** strings.ReplaceAll(s, c, "") for a one-byte c (constants.go:13,14,32,33) *)
Definition removeAll (c : ascii) (s : text) : text :=
  filter (fun x => negb (Ascii.eqb x c)) s.

(** unicode.IsSpace on ASCII: tab, line feed, vertical tab, form feed,
    carriage return, space *)
Definition isSpace (c : ascii) : bool :=
  let n := Z.of_N (N_of_ascii c) in ((9 <=? n) && (n <=? 13)) || (n =? 32).

Fixpoint trimLeft (s : text) : text :=
  match s with
  | [] => []
  | c :: r => if isSpace c then trimLeft r else s
  end.

(** strings.TrimSpace (constants.go:15,20,31) *)
Definition trimSpace (s : text) : text := rev' (trimLeft (rev' (trimLeft s))).

(** strings.HasPrefix, with the remainder *)
Fixpoint cutPrefix (p s : text) : option text :=
  match p, s with
  | [], _ => Some s
  | a :: p', b :: s' => if Ascii.eqb a b then cutPrefix p' s' else None
  | _ :: _, [] => None
  end.

(** strings.TrimPrefix (constants.go:20) *)
Definition trimPrefix (p s : text) : text :=
  match cutPrefix p s with Some r => r | None => s end.

(** strings.Split(s, sep) for a non-empty sep (constants.go:16,34): the pieces
    between the leftmost non-overlapping occurrences of [sep].  [skip] counts
    the bytes of a separator already recognised that are still to be passed. *)
Fixpoint splitGo (sep s : text) (skip : nat) : list text :=
  match s with
  | [] => [[]]
  | c :: r =>
      match skip with
      | S k => splitGo sep r k
      | O =>
          match cutPrefix sep s with
          | Some _ => [] :: splitGo sep r (pred (List.length sep))
          | None =>
              match splitGo sep r O with
              | [] => [[c]]
              | w :: ws => (c :: w) :: ws
              end
          end
      end
  end.
Definition split (sep s : text) : list text := splitGo sep s O.

(** the digit values math/big accepts in base 16: 0-9, a-f, A-F
    (math/big/natconv.go, nat.scan; '_' is a separator only in base 0) *)
Definition hexDigit (c : ascii) : option Z :=
  let n := Z.of_N (N_of_ascii c) in
  if (48 <=? n) && (n <=? 57) then Some (n - 48)
  else if (97 <=? n) && (n <=? 102) then Some (n - 87)
  else if (65 <=? n) && (n <=? 70) then Some (n - 55)
  else None.

Fixpoint hexAcc (acc : Z) (s : text) : option Z :=
  match s with
  | [] => Some acc
  | c :: r => obind (hexDigit c) (fun d => hexAcc (16 * acc + d) r)
  end.

(** at least one digit ("number has no digits"), and the whole string *)
Definition hexNat (s : text) : option Z :=
  match s with [] => None | _ => hexAcc 0 s end.

(** new(big.Int).SetString(s, 16) (constants.go:21): an optional sign, then
    digits up to the end of the string *)
Definition setString16 (s : text) : option Z :=
  match s with
  | c :: r =>
      if Ascii.eqb c "-" then obind (hexNat r) (fun v => Some (- v))
      else if Ascii.eqb c "+" then hexNat r
      else hexNat s
  | [] => None
  end.

(** the body of the loop, constants.go:19-26 *)
Definition parseEntry (v : text) : option Z :=
  setString16 (trimPrefix (lit "0x") (trimSpace v)).

(** constants.go:12-28 *)
Definition parseOneDimensionArray (s : text) : option (list Z) :=
  let ss := removeAll "[" s in
  let ss := removeAll "]" ss in
  let ss := trimSpace ss in
  omap parseEntry (split (lit ",") ss).

Definition LF : ascii := ascii_of_N 10.

(** constants.go:30-40 *)
Definition parseTwoDimensionArray (s : text) : option (list (list Z)) :=
  let ss := trimSpace s in
  let ss := removeAll LF ss in
  let ss := removeAll " " ss in
  omap parseOneDimensionArray (split (lit "],[") ss).
