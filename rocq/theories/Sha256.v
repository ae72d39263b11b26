(** Model of /repo/spark/sha256 : bit-level words over the native field.

    An xuint8/xuint32/xuint64 is the list of its 8/32/64 frontend.Variables,
    least significant first (Go arrays have value semantics, so lists are a
    faithful representation).  Indexing is [nth]; every index used by the Go
    code is in range. *)
From Coq Require Import ZArith List Bool.
From Verif Require Import Params ZMod Circuit Api.
Import ListNotations.
Open Scope Z_scope.

Notation fr0 := (f0 rBN).
Notation fr1 := (f1 rBN).
Definition word := list Fr.

(** uint8api.go:35-41, uint32api.go:31-37, uint64api.go:35-41:
    [constUint8], [constUint32], [constUint64] *)
Definition constUint (n : nat) (a : Z) : word := bitsF n a.

(** uint8api.go:47-52, uint32api.go:39-44, uint64api.go:43-48:
    [asUint8], [asUint32], [asUint64] *)
Definition asUint (n : nat) (x : Fr) : Circ word := api_ToBinary n x.

(** uint8api.go:58-60, uint32api.go:46-48, uint64api.go:54-56: [fromUint8] ... *)
Definition fromUint (w : word) : Fr := api_FromBinary w.

(** the common shape of [and], [or], [xor]: res[i] starts at [init], then for
    every operand v, res[i] = op(res[i], v[i]) *)
Definition opBits (n : nat) (op : Fr -> Fr -> Circ Fr) (init : Fr) (ins : list word) : Circ word :=
  mmap (fun i => mfold (fun r v => op r (nth i v fr0)) ins init) (seq 0 n).

(** uint32api.go:50-61, uint8api.go:62-73, uint64api.go:58-69 *)
Definition u_and (n : nat) (ins : list word) : Circ word := opBits n api_And fr1 ins.
(** uint32api.go:63-74 *)
Definition u_or (n : nat) (ins : list word) : Circ word := opBits n api_Or fr0 ins.
(** uint32api.go:76-87, uint8api.go:79-90, uint64api.go:71-82 *)
Definition u_xor (n : nat) (ins : list word) : Circ word := opBits n api_Xor fr0 ins.

(** uint32api.go:89-95, uint8api.go:92-98, uint64api.go:84-90: [lrot].  Go's %
    truncates ([Z.rem]); a negative index would panic and is not reached, since
    |shift| <= n at every call site. *)
Definition u_lrot (n : nat) (w : word) (shift : Z) : word :=
  map (fun i => nth (Z.to_nat (Z.rem (Z.of_nat i - shift + Z.of_nat n) (Z.of_nat n))) w fr0) (seq 0 n).

(** uint32api.go:97-108, uint8api.go:100-111, uint64api.go:92-103: [not] *)
Definition u_not (n : nat) (w : word) : Circ word := mmap (fun i => api_Xor (nth i w fr0) fr1) (seq 0 n).

(** uint32api.go:110-119, uint64api.go:111-120: [rshift] *)
Definition u_rshift (n : nat) (w : word) (s : nat) : word :=
  map (fun i => nth (i + s) w fr0) (seq 0 (n - s)) ++ map (fun _ => fr0) (seq (n - s) s).

(** uint32api.go:121-130, uint64api.go:122-131: [lshift] *)
Definition u_lshift (n : nat) (w : word) (s : nat) : word :=
  map (fun _ => fr0) (seq 0 s) ++ map (fun i => nth (i - s) w fr0) (seq s (n - s)).

(** uint32api.go:132-144: [add]; the sum is decomposed on 33+len(in) bits and
    the low 32 are kept *)
Definition u_add (i1 i2 : word) (ins : list word) : Circ word :=
  let v := map fromUint ins in
  let sum := fold_left fadd v (fadd (fromUint i1) (fromUint i2)) in
  b <- api_ToBinary (33 + length ins) sum ;;
  Ret (firstn 32 b).

(** uint8api.go:113-117, uint32api.go:146-150, uint64api.go:105-109: [assertEq] *)
Definition u_assertEq (n : nat) (a b : word) : Circ unit :=
  mfold (fun _ i => api_AssertIsEqual (nth i a fr0) (nth i b fr0)) (seq 0 n) tt.

(** uint8api.go:119-128: [toUint32] *)
Definition toUint32 (a : word) : word :=
  map (fun i => nth i a fr0) (seq 0 8) ++ map (fun _ => fr0) (seq 8 24).
(** uint32api.go:152-158, uint64api.go:133-139: [toUnit8], [toxUnit8] *)
Definition toUint8 (w : word) : word := map (fun i => nth i w fr0) (seq 0 8).

(** bigEndian.go:26-37: [PutUint32], as the four bytes written *)
Definition PutUint32 (v : word) : list word :=
  [toUint8 (u_rshift 32 v 24); toUint8 (u_rshift 32 v 16); toUint8 (u_rshift 32 v 8); toUint8 v].
(** bigEndian.go:5-24: [PutUint64], as the eight bytes written *)
Definition PutUint64 (v : word) : list word :=
  [toUint8 (u_rshift 64 v 56); toUint8 (u_rshift 64 v 48); toUint8 (u_rshift 64 v 40);
   toUint8 (u_rshift 64 v 32); toUint8 (u_rshift 64 v 24); toUint8 (u_rshift 64 v 16);
   toUint8 (u_rshift 64 v 8); toUint8 v].

(** sha256block.go:7-72 *)
Definition shaK : list Z :=
  [1116352408; 1899447441; 3049323471; 3921009573; 961987163; 1508970993; 2453635748; 2870763221;
   3624381080; 310598401; 607225278; 1426881987; 1925078388; 2162078206; 2614888103; 3248222580;
   3835390401; 4022224774; 264347078; 604807628; 770255983; 1249150122; 1555081692; 1996064986;
   2554220882; 2821834349; 2952996808; 3210313671; 3336571891; 3584528711; 113926993; 338241895;
   666307205; 773529912; 1294757372; 1396182291; 1695183700; 1986661051; 2177026350; 2456956037;
   2730485921; 2820302411; 3259730800; 3345764771; 3516065817; 3600352804; 4094571909; 275423344;
   430227734; 506948616; 659060556; 883997877; 958139571; 1322822218; 1537002063; 1747873779;
   1955562222; 2024104815; 2227730452; 2361852424; 2428436474; 2756734187; 3204031479; 3329325298].

(** slice assignment s[i] = v *)
Fixpoint upd {A} (l : list A) (i : nat) (v : A) : list A :=
  match l, i with
  | nil, _ => nil
  | _ :: t, O => v :: t
  | x :: t, S j => x :: upd t j v
  end.

(** sha256block.go:86-96, body: message word i of the block p *)
Definition loadWord (p : list word) (w : list word) (i : nat) : Circ (list word) :=
  let j := (i * 4)%nat in
  let o1 := u_lshift 32 (toUint32 (nth j p [])) 24 in
  let o2 := u_lshift 32 (toUint32 (nth (j + 1) p [])) 16 in
  let o3 := u_lshift 32 (toUint32 (nth (j + 2) p [])) 8 in
  let o4 := toUint32 (nth (j + 3) p []) in
  wi <- u_or 32 [o1; o2; o3; o4] ;;
  Ret (upd w i wi).

(** sha256block.go:98-105, body: message schedule *)
Definition schedWord (w : list word) (i : nat) : Circ (list word) :=
  let v1 := nth (i - 2) w [] in
  t1 <- u_xor 32 [u_lrot 32 v1 (-17); u_lrot 32 v1 (-19); u_rshift 32 v1 10] ;;
  let v2 := nth (i - 15) w [] in
  t2 <- u_xor 32 [u_lrot 32 v2 (-7); u_lrot 32 v2 (-18); u_rshift 32 v2 3] ;;
  wi <- u_add t1 (nth (i - 7) w []) [t2; nth (i - 16) w []] ;;
  Ret (upd w i wi).

(** the eight working variables a..h (also used for h0..h7) *)
Record eight (A : Type) : Type := mk8 { wa : A; wb : A; wc : A; wd : A; we : A; wf : A; wg : A; wh : A }.
Arguments mk8 {A}. Arguments wa {A}. Arguments wb {A}. Arguments wc {A}. Arguments wd {A}.
Arguments we {A}. Arguments wf {A}. Arguments wg {A}. Arguments wh {A}.

(** sha256block.go:109-130, body: round i *)
Definition roundStep (w : list word) (s : eight word) (i : nat) : Circ (eight word) :=
  let '(mk8 a b c d e f g h) := s in
  x1 <- u_xor 32 [u_lrot 32 e (-6); u_lrot 32 e (-11); u_lrot 32 e (-25)] ;;
  ef <- u_and 32 [e; f] ;;
  ne <- u_not 32 e ;;
  ng <- u_and 32 [ne; g] ;;
  x2 <- u_xor 32 [ef; ng] ;;
  t1 <- u_add h x1 [x2; constUint 32 (nth i shaK 0); nth i w []] ;;
  y1 <- u_xor 32 [u_lrot 32 a (-2); u_lrot 32 a (-13); u_lrot 32 a (-22)] ;;
  ab <- u_and 32 [a; b] ;;
  ac <- u_and 32 [a; c] ;;
  bc <- u_and 32 [b; c] ;;
  y2 <- u_xor 32 [ab; ac; bc] ;;
  t2 <- u_add y1 y2 [] ;;
  e' <- u_add d t1 [] ;;
  a' <- u_add t1 t2 [] ;;
  Ret (mk8 a' a b c e' e f g).

(** sha256block.go:83-142, one iteration of the block loop *)
Definition oneBlock (st : list word * eight word) (p : list word) : Circ (list word * eight word) :=
  let '(w, s) := st in
  w <- mfold (loadWord p) (seq 0 16) w ;;
  w <- mfold schedWord (seq 16 48) w ;;
  r <- mfold (roundStep w) (seq 0 64) s ;;
  h0 <- u_add (wa s) (wa r) [] ;;
  h1 <- u_add (wb s) (wb r) [] ;;
  h2 <- u_add (wc s) (wc r) [] ;;
  h3 <- u_add (wd s) (wd r) [] ;;
  h4 <- u_add (we s) (we r) [] ;;
  h5 <- u_add (wf s) (wf r) [] ;;
  h6 <- u_add (wg s) (wg r) [] ;;
  h7 <- u_add (wh s) (wh r) [] ;;
  Ret (w, mk8 h0 h1 h2 h3 h4 h5 h6 h7).

(** sha256block.go:83-142: [for len(p) >= chunk]; [fuel] bounds the number of
    iterations and is taken larger than len(p) *)
Fixpoint blockLoop (fuel : nat) (st : list word * eight word) (p : list word) : Circ (list word * eight word) :=
  match fuel with
  | O => Ret st
  | S k =>
    if Nat.leb 64 (length p) then
      st <- oneBlock st (firstn 64 p) ;; blockLoop k st (skipn 64 p)
    else Ret st
  end.

(** sha256block.go:74-145 *)
Definition blockGeneric (h : eight word) (p : list word) : Circ (eight word) :=
  w <- mmap (fun _ => asUint 32 fr0) (seq 0 64) ;;
  ' (_, h) <- blockLoop (S (length p)) (w, h) p ;;
  Ret h.

(** sha256.go:25-32 (the fields id and api carry no data) *)
Record digest : Type := mkD { dH : eight word; dX : list word; dNx : nat; dLen : Z }.

(** sha256.go:14-23 *)
Definition shaInit : eight word :=
  mk8 (constUint 32 0x6A09E667) (constUint 32 0xBB67AE85) (constUint 32 0x3C6EF372) (constUint 32 0xA54FF53A)
      (constUint 32 0x510E527F) (constUint 32 0x9B05688C) (constUint 32 0x1F83D9AB) (constUint 32 0x5BE0CD19).

(** sha256.go:34-46: [Reset] (the buffer x is left as it is) *)
Definition Reset (d : digest) : digest := mkD shaInit (dX d) 0 0.

(** sha256.go:48-56: [New]; the unset buffer entries are nil variables *)
Definition New : digest := Reset (mkD (mk8 [] [] [] [] [] [] [] []) (repeat [] 64) 0 0).

(** Go [copy(x[at:], p)] on the 64-entry buffer; copies min(64-at, len p) entries *)
Definition copyAt (x : list word) (at_ : nat) (p : list word) : list word :=
  firstn at_ x ++ firstn (64 - at_) p ++ skipn (at_ + Nat.min (64 - at_) (length p)) x.

(** sha256.go:69-94: [write] (always returns len(p), nil) *)
Definition write (d : digest) (p : list word) : Circ digest :=
  let len := (dLen d + Z.of_nat (length p)) mod 2 ^ 64 in
  ' (h, x, nx, p) <-
    (if Nat.ltb 0 (dNx d) then
       let n := Nat.min (64 - dNx d) (length p) in
       let x := copyAt (dX d) (dNx d) p in
       let nx := (dNx d + n)%nat in
       if Nat.eqb nx 64 then
         h <- blockGeneric (dH d) x ;; Ret (h, x, 0%nat, skipn n p)
       else Ret (dH d, x, nx, skipn n p)
     else Ret (dH d, dX d, dNx d, p)) ;;
  ' (h, p) <-
    (if Nat.leb 64 (length p) then
       let n := (length p - length p mod 64)%nat in
       h <- blockGeneric h (firstn n p) ;; Ret (h, skipn n p)
     else Ret (h, p)) ;;
  if Nat.ltb 0 (length p) then
    Ret (mkD h (copyAt x 0 p) (Nat.min 64 (length p)) len)
  else Ret (mkD h x nx len).

(** sha256.go:58-67: [Write] *)
Definition Write (d : digest) (p : list Fr) : Circ digest :=
  ins <- mmap (asUint 8) p ;; write d ins.

(** sha256.go:104-148: [checkSum] on the copy of the digest *)
Definition checkSum (d : digest) : Circ (list Fr) :=
  let len := dLen d in
  let tmp := constUint 8 0x80 :: map (fun _ => constUint 8 0) (seq 1 63) in
  d <- (if len mod 64 <? 56 then write d (firstn (Z.to_nat (56 - len mod 64)) tmp)
        else write d (firstn (Z.to_nat (64 + 56 - len mod 64)) tmp)) ;;
  let len := (len * 8) mod 2 ^ 64 in
  v <- asUint 64 (ofZ rBN len) ;;
  let tmp := PutUint64 v ++ skipn 8 tmp in
  d <- write d (firstn 8 tmp) ;;
  assert (Nat.eqb (dNx d) 0) ;;;
  let h := dH d in
  let digest := PutUint32 (wa h) ++ PutUint32 (wb h) ++ PutUint32 (wc h) ++ PutUint32 (wd h)
             ++ PutUint32 (we h) ++ PutUint32 (wf h) ++ PutUint32 (wg h) ++ PutUint32 (wh h) in
  Ret (map fromUint digest).

(** sha256.go:96-102: [Sum] works on a copy ([d0 := *d]; all fields are values) *)
Definition Sum (d : digest) : Circ (list Fr) := checkSum d.
