(** Basic vocabulary of the model: machine integers, results, the state monad,
    checked arrays and slices.  Nothing here corresponds to a particular function of
    the crate; it fixes the meaning of the Rust constructs the other files use. *)
From Coq Require Import ZArith String List Bool.
Import ListNotations.
Local Open Scope Z_scope.

(** * Machine integers (release profile: arithmetic wraps) *)

(** [x as u8], [x as u16], ... of an integer of any width. *)
Definition u8 (x : Z) : Z := x mod 256.
Definition u16 (x : Z) : Z := x mod 65536.
Definition u32 (x : Z) : Z := x mod 4294967296.
Definition u64 (x : Z) : Z := x mod 18446744073709551616.
(** [x as i16], [x as i32]: two's complement. *)
Definition i16 (x : Z) : Z := (x + 32768) mod 65536 - 32768.
Definition i32 (x : Z) : Z := (x + 2147483648) mod 4294967296 - 2147483648.

(** Shifts ([>>] on signed integers is arithmetic). *)
Definition shl (x n : Z) : Z := x * 2 ^ n.
Definition shr (x n : Z) : Z := x / 2 ^ n.

(** * Results *)

(** src/errors.rs:16-43 [DecodeErrors].  The formatted [String] payloads are kept as a
    short fixed text plus the numbers that are formatted into it; [Unsupported] carries the
    marker number. *)
Inductive err : Type :=
| EFormat (msg : string) (args : list Z)
| EFormatStatic (msg : string)
| EIllegalMagicBytes (bytes : Z)
| EHuffmanDecode (msg : string) (args : list Z)
| EZeroError
| EDqtError (msg : string) (args : list Z)
| ESosError (msg : string) (args : list Z)
| ESofError (msg : string) (args : list Z)
| EUnsupported (scheme : Z)
| EMCUError (msg : string) (args : list Z)
| EExhaustedData
| ELargeDimensions (n : Z).

(** Outcome of a Rust call: a [Result], a panic, or (never, see C01) running out of the
    recursion bound the model attaches to loops. *)
Inductive res (A : Type) : Type :=
| Ok (a : A)
| Err (e : err)
| Panic (why : string)
| Fuel.
Arguments Ok {A} a.
Arguments Err {A} e.
Arguments Panic {A} why.
Arguments Fuel {A}.

Definition rbind {A B} (r : res A) (k : A -> res B) : res B :=
  match r with
  | Ok a => k a
  | Err e => Err e
  | Panic p => Panic p
  | Fuel => Fuel
  end.

Declare Scope res_scope.
Delimit Scope res_scope with res.
Notation "x <~ m ;; k" := (rbind m (fun x => k))
  (at level 61, m at next level, right associativity) : res_scope.
Notation "' p <~ m ;; k" := (rbind m (fun x => match x with p => k end))
  (at level 61, p pattern, m at next level, right associativity) : res_scope.

(** * State and errors

    [&mut self] methods returning [Result]: the state survives an error. *)
Definition M (S A : Type) : Type := S -> res A * S.

Definition ret {S A} (a : A) : M S A := fun s => (Ok a, s).
Definition bind {S A B} (m : M S A) (k : A -> M S B) : M S B :=
  fun s =>
    match m s with
    | (Ok a, s') => k a s'
    | (Err e, s') => (Err e, s')
    | (Panic p, s') => (Panic p, s')
    | (Fuel, s') => (Fuel, s')
    end.
Definition fail {S A} (e : err) : M S A := fun s => (Err e, s).
Definition panic {S A} (p : string) : M S A := fun s => (Panic p, s).
Definition outoffuel {S A} : M S A := fun s => (Fuel, s).
Definition get {S} : M S S := fun s => (Ok s, s).
Definition put {S} (s : S) : M S unit := fun _ => (Ok tt, s).
Definition modify {S} (f : S -> S) : M S unit := fun s => (Ok tt, f s).
Definition lift {S A} (r : res A) : M S A := fun s => (r, s).

Declare Scope m_scope.
Delimit Scope m_scope with m.
Notation "x <- m ;; k" := (bind m (fun x => k))
  (at level 61, m at next level, right associativity) : m_scope.
Notation "' p <- m ;; k" := (bind m (fun x => match x with p => k end))
  (at level 61, p pattern, m at next level, right associativity) : m_scope.
Notation "m ;;; k" := (bind m (fun _ => k))
  (at level 61, right associativity) : m_scope.

(** [for i in start..start+n { body(i)? }] *)
Fixpoint mfor {S} (n : nat) (i : Z) (body : Z -> M S unit) : M S unit :=
  match n with
  | O => ret tt
  | Datatypes.S n' => bind (body i) (fun _ => mfor n' (i + 1) body)
  end.

(** The same loop when the body may [break] (it returns [false]). *)
Fixpoint mfor_break {S} (n : nat) (i : Z) (body : Z -> M S bool) : M S unit :=
  match n with
  | O => ret tt
  | Datatypes.S n' =>
      bind (body i) (fun go => if (go : bool) then mfor_break n' (i + 1) body else ret tt)
  end.

(** * Arrays and slices *)

Definition zlen {A} (l : list A) : Z := Z.of_nat (length l).

(** [v.get(i)] *)
Definition zget {A} (l : list A) (i : Z) : option A :=
  if i <? 0 then None else nth_error l (Z.to_nat i).
(** [v[i]] *)
Definition at_ {A} (l : list A) (i : Z) : res A :=
  match zget l i with Some x => Ok x | None => Panic "index out of bounds" end.
(** [v[i]] for an index known to be in range (used on fixed-size tables only). *)
Definition zn (l : list Z) (i : Z) : Z := nth (Z.to_nat i) l 0.

Fixpoint nupd {A} (l : list A) (n : nat) (x : A) : list A :=
  match l, n with
  | [], _ => []
  | _ :: t, O => x :: t
  | h :: t, Datatypes.S n' => h :: nupd t n' x
  end.
(** [v[i] = x] *)
Definition zupd {A} (l : list A) (i : Z) (x : A) : res (list A) :=
  if (i <? 0) || (zlen l <=? i) then Panic "index out of bounds"
  else Ok (nupd l (Z.to_nat i) x).
(** [v[i] = x] for an index known to be in range. *)
Definition zset {A} (l : list A) (i : Z) (x : A) : list A := nupd l (Z.to_nat i) x.

(** [v.get(a..b)] *)
Definition slice {A} (l : list A) (a b : Z) : option (list A) :=
  if (0 <=? a) && (a <=? b) && (b <=? zlen l)
  then Some (firstn (Z.to_nat (b - a)) (skipn (Z.to_nat a) l)) else None.
(** [&v[a..b]] *)
Definition slice_ {A} (l : list A) (a b : Z) : res (list A) :=
  match slice l a b with Some s => Ok s | None => Panic "slice out of bounds" end.
(** Overwrite [l] from index [a] with [s] (callers check the range). *)
Definition splice {A} (l : list A) (a : Z) (s : list A) : list A :=
  firstn (Z.to_nat a) l ++ s ++ skipn (Z.to_nat a + length s) l.
(** [v[a..a+s.len()].copy_from_slice(s)] *)
Definition put_slice {A} (l : list A) (a : Z) (s : list A) : res (list A) :=
  match slice l a (a + zlen s) with
  | Some _ => Ok (splice l a s)
  | None => Panic "slice out of bounds"
  end.

Definition zrepeat {A} (x : A) (n : Z) : list A := repeat x (Z.to_nat n).
(** [0..n] *)
Definition zseq (n : Z) : list Z := map Z.of_nat (seq 0 (Z.to_nat n)).

(** [v.chunks_exact(k)] for [k > 0] *)
Fixpoint chunks_aux {A} (fuel k : nat) (l : list A) : list (list A) :=
  match fuel with
  | O => []
  | Datatypes.S f =>
      if (Nat.ltb (length l) k) then []
      else firstn k l :: chunks_aux f k (skipn k l)
  end.
Definition chunks_n {A} (k : nat) (l : list A) : list (list A) := chunks_aux (length l) k l.
(** [v.chunks_exact(k)]; panics for [k = 0]. *)
Definition chunks_exact {A} (k : Z) (l : list A) : res (list (list A)) :=
  if k <=? 0 then Panic "chunk size must be non-zero" else Ok (chunks_n (Z.to_nat k) l).

Fixpoint zip {A B} (l : list A) (m : list B) : list (A * B) :=
  match l, m with
  | a :: l', b :: m' => (a, b) :: zip l' m'
  | _, _ => []
  end.

(** Left fold with early exit. *)
Fixpoint rfold {A S} (f : S -> A -> res S) (l : list A) (s : S) : res S :=
  match l with
  | [] => Ok s
  | a :: l' => match f s a with
               | Ok s' => rfold f l' s'
               | Err e => Err e
               | Panic p => Panic p
               | Fuel => Fuel
               end
  end.

Fixpoint list_eqb (l m : list Z) : bool :=
  match l, m with
  | [], [] => true
  | a :: l', b :: m' => (a =? b) && list_eqb l' m'
  | _, _ => false
  end.
