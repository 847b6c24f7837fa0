(** Specification of JPEG Huffman codes, from ITU-T T.81 annex C.  Nothing here refers to the
    decoder.  A code is given by 16 counts (how many codewords of length 1, 2, ..., 16 bits)
    and the list of symbols in order of increasing code length. *)
From Coq Require Import ZArith List Bool.
Import ListNotations.
Local Open Scope Z_scope.

(** Number of codewords of length [l] *)
Definition count (counts : list Z) (l : nat) : Z := nth (pred l) counts 0.

(** C.2: the first codeword of length [l], read as a binary number: one more than the last
    of length [l-1], followed by a zero bit. *)
Fixpoint first_code (counts : list Z) (l : nat) : Z :=
  match l with
  | O => 0
  | S O => 0
  | S l' => 2 * (first_code counts l' + count counts l')
  end.

(** How many symbols have codewords shorter than [l] bits *)
Fixpoint shorter (counts : list Z) (l : nat) : Z :=
  match l with
  | O => 0
  | S O => 0
  | S l' => shorter counts l' + count counts l'
  end.

(** [codeword counts symbols l c s]: the [l]-bit number [c] is the codeword of symbol [s] *)
Definition codeword (counts symbols : list Z) (l : nat) (c s : Z) : Prop :=
  exists j, 0 <= j < count counts l /\ (1 <= l <= 16)%nat /\
            c = first_code counts l + j /\
            nth_error symbols (Z.to_nat (shorter counts l + j)) = Some s.

(** [n]-bit big-endian representation *)
Fixpoint bits_of (n : nat) (v : Z) : list bool :=
  match n with
  | O => []
  | S n' => Z.testbit v (Z.of_nat n') :: bits_of n' v
  end.
(** The number a bit string denotes *)
Definition value_of (bs : list bool) : Z :=
  fold_left (fun a (b : bool) => 2 * a + if b then 1 else 0) bs 0.

(** A DHT table definition: 16 byte-sized counts, at most 256 symbols in total, the symbols
    are bytes *)
Definition table_def (counts symbols : list Z) : Prop :=
  length counts = 16%nat /\ Forall (fun n => 0 <= n <= 255) counts /\
  Z.of_nat (length symbols) = fold_right Z.add 0 counts /\
  fold_right Z.add 0 counts <= 256 /\
  Forall (fun s => 0 <= s <= 255) symbols.

(** The Kraft sum, in units of 2^-16 *)
Fixpoint kraft_from (l : nat) (counts : list Z) : Z :=
  match counts with
  | [] => 0
  | n :: rest => n * 2 ^ (16 - Z.of_nat l) + kraft_from (S l) rest
  end.
Definition kraft (counts : list Z) : Z := kraft_from 1 counts.

(** [ws] is a prefix code with the given counts that does not use an all-ones codeword *)
Definition prefix_of (u v : list bool) : Prop := exists w, v = u ++ w.
Definition prefix_code (counts : list Z) (ws : list (list bool)) : Prop :=
  (forall i j u v, nth_error ws i = Some u -> nth_error ws j = Some v ->
                   prefix_of u v -> i = j) /\
  Forall (fun w => In false w /\ (length w <= 16)%nat) ws /\
  (forall l, (1 <= l <= 16)%nat ->
     Z.of_nat (length (filter (fun w => Nat.eqb (length w) l) ws)) = count counts l).
