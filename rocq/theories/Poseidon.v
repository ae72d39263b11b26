(** Model of /repo/spark/pairing_bls12381/poseidonHash.go (all of it).  The
    gadget uses additions and multiplications of the native field only: no
    hints, no assertions.  [None] = the Go code panics (slice index out of
    range, or the parser of constants.go on an empty string). *)
From Coq Require Import ZArith List Bool.
From Verif Require Import Params ZMod PoseidonTables.
Import ListNotations.
Open Scope Z_scope.
Local Notation fr0 := (f0 rBN).

(** option monad for panics *)
Definition obind {A B} (o : option A) (f : A -> option B) : option B :=
  match o with Some a => f a | None => None end.
Fixpoint omap {A B} (f : A -> option B) (l : list A) : option (list B) :=
  match l with
  | [] => Some []
  | x :: t => obind (f x) (fun y => obind (omap f t) (fun ys => Some (y :: ys)))
  end.
Fixpoint ofold {A S} (f : S -> A -> option S) (l : list A) (s : S) : option S :=
  match l with [] => Some s | x :: t => obind (f s x) (ofold f t) end.

(** c[i], as a native field element ([api.Add]/[api.Mul] reduce constants) *)
Definition cst (c : list Z) (i : nat) : option Fr :=
  obind (nth_error c i) (fun z => Some (ofZ rBN z)).
(** m[j][i] *)
Definition cst2 (m : list (list Z)) (j i : nat) : option Fr :=
  obind (nth_error m j) (fun row => cst row i).

(** poseidonHash.go:10-14 *)
Definition Sigma (x : Fr) : Fr :=
  let in2 := fmul x x in
  let in4 := fmul in2 in2 in
  fmul in4 x.

(** poseidonHash.go:16-22 *)
Definition Ark (st : list Fr) (c : list Z) (r : nat) : option (list Fr) :=
  omap (fun iv => obind (cst c (fst iv + r)) (fun k => Some (fadd (snd iv) k)))
       (combine (seq 0 (length st)) st).

(** poseidonHash.go:28-31 and 40-42: lc = sum over j of m[j][i] * in[j] *)
Definition mixCol (st : list Fr) (m : list (list Z)) (i : nat) : option Fr :=
  ofold (fun lc jv => obind (cst2 m (fst jv) i) (fun k => Some (fadd lc (fmul k (snd jv)))))
        (combine (seq 0 (length st)) st) fr0.

(** poseidonHash.go:24-35 *)
Definition Mix (st : list Fr) (m : list (list Z)) : option (list Fr) :=
  omap (mixCol st m) (seq 0 (length st)).

(** poseidonHash.go:37-44 *)
Definition MixLast (st : list Fr) (m : list (list Z)) (s : nat) : option Fr := mixCol st m s.

(** s[(t*2-1)*r + i] * in[i], summed (poseidonHash.go:49-51 and 104-107) *)
Definition sRow (st : list Fr) (s : list Z) (r : nat) : option Fr :=
  ofold (fun lc iv => obind (cst s ((length st * 2 - 1) * r + fst iv)) (fun k => Some (fadd lc (fmul k (snd iv)))))
        (combine (seq 0 (length st)) st) fr0.

(** state[k] + state[0]*s[(t*2-1)*r+t+k-1] for k = 1..t-1 (poseidonHash.go:53-55 and 109-111) *)
Definition sCol (st : list Fr) (s : list Z) (r : nat) : option (list Fr) :=
  match st with
  | [] => None
  | x0 :: rest =>
    omap (fun kv => obind (cst s ((length st * 2 - 1) * r + length st + fst kv - 1))
                          (fun k => Some (fadd (snd kv) (fmul x0 k))))
         (combine (seq 1 (length rest)) rest)
  end.

(** poseidonHash.go:46-58 (not called by PoseidonEx, which inlines it) *)
Definition MixS (st : list Fr) (s : list Z) (r : nat) : option (list Fr) :=
  obind (sRow st s r) (fun lc => obind (sCol st s r) (fun out => Some (lc :: out))).

(** poseidonHash.go:66 *)
Definition nRoundsPC : list nat :=
  [56; 57; 56; 60; 60; 63; 64; 63; 60; 66; 60; 65; 70; 60; 64; 68]%nat.
(** poseidonHash.go:68 *)
Definition nRoundsF : nat := 8.

(** poseidonHash.go:85-91 and 116-122: one full round, constants at offset r *)
Definition fullRound (c : list Z) (m : list (list Z)) (st : list Fr) (r : nat) : option (list Fr) :=
  let st := map Sigma st in
  obind (Ark st c r) (fun st => Mix st m).

(** poseidonHash.go:99-114: one partial round; k is the offset in c *)
Definition partialRound (c s : list Z) (off : nat) (st : list Fr) (r : nat) : option (list Fr) :=
  match st with
  | [] => None
  | x0 :: rest =>
    let x0 := Sigma x0 in
    obind (cst c (off + r)) (fun k =>
    let st := fadd x0 k :: rest in
    obind (sRow st s r) (fun newState0 =>
    obind (sCol st s r) (fun rest => Some (newState0 :: rest))))
  end.

(** poseidonHash.go:60-133 *)
Definition PoseidonEx (inputs : list Fr) (initialState : Fr) (nOuts : nat) : option (list Fr) :=
  let nInputs := length inputs in
  let t := (nInputs + 1)%nat in
  (* nRoundsPC[t-2] *)
  obind (if Nat.ltb t 2 then None else nth_error nRoundsPC (t - 2)) (fun nRoundsP =>
  obind (POSEIDON_C t) (fun c =>
  obind (POSEIDON_S t) (fun s =>
  obind (POSEIDON_M t) (fun m =>
  obind (POSEIDON_P t) (fun p =>
  let state := initialState :: inputs in
  obind (Ark state c 0) (fun state =>
  obind (ofold (fun st r => fullRound c m st ((r + 1) * t)) (seq 0 (nRoundsF / 2 - 1)) state) (fun state =>
  let state := map Sigma state in
  obind (Ark state c (nRoundsF / 2 * t)) (fun state =>
  obind (Mix state p) (fun state =>
  obind (ofold (partialRound c s ((nRoundsF / 2 + 1) * t)) (seq 0 nRoundsP) state) (fun state =>
  obind (ofold (fun st r => fullRound c m st ((nRoundsF / 2 + 1) * t + nRoundsP + r * t))
               (seq 0 (nRoundsF / 2 - 1)) state) (fun state =>
  let state := map Sigma state in
  omap (MixLast state m) (seq 0 nOuts)))))))))))).

(** poseidonHash.go:135-138 *)
Definition Poseidon (inputs : list Fr) : option Fr :=
  obind (PoseidonEx inputs fr0 1) (fun out => nth_error out 0).

(** the fields [status] and [data] of Pairing used by the hasher
    (pairing.go, struct Pairing; poseidonHash.go:140-146) *)
Record PHasher : Set := mkPH { ph_status : Fr; ph_data : list Fr }.
Definition NewPoseidonHash : PHasher := mkPH fr0 [].
(** poseidonHash.go:148-151 *)
Definition PSum (m : PHasher) : option (Fr * PHasher) :=
  obind (Poseidon (ph_data m)) (fun h => Some (h, mkPH h (ph_data m))).
(** poseidonHash.go:153-155 *)
Definition PWrite (m : PHasher) (data : list Fr) : PHasher := mkPH (ph_status m) (ph_data m ++ data).
(** poseidonHash.go:157-160 *)
Definition PReset (m : PHasher) : PHasher := mkPH fr0 [].
