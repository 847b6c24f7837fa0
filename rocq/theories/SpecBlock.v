(** The baseline encoder for one block (T.81 F.1.2).  Nothing here refers to the decoder. *)
From Coq Require Import ZArith List Bool.
From Verif Require Import SpecHuffman SpecExtend.
Import ListNotations.
Local Open Scope Z_scope.

(** All codewords of a code, as bit strings *)
Definition codebook (counts symbols : list Z) : list (Z * list bool) :=
  flat_map (fun l =>
    map (fun j => (nth (Z.to_nat (shorter counts l) + j) symbols 0,
                   bits_of l (first_code counts l + Z.of_nat j)))
        (seq 0 (Z.to_nat (count counts l))))
    (seq 1 16).

(** A Huffman code: the codeword of a symbol, if it has one *)
Definition code := Z -> option (list bool).
Definition code_of (counts symbols : list Z) : code :=
  fun v => option_map snd (find (fun p => fst p =? v) (codebook counts symbols)).

Definition cat_opt (a b : option (list bool)) : option (list bool) :=
  match a, b with Some x, Some y => Some (x ++ y) | _, _ => None end.

(** The additional bits of a value *)
Definition extra (v : Z) : list bool := bits_of (Z.to_nat (category v)) (additional v).

(** Figure F.2 / F.3: AC coefficients in zig-zag order, [run] zeros are pending *)
Fixpoint zrl (ac : code) (n : nat) : option (list bool) :=
  match n with O => Some [] | S n' => cat_opt (ac 240) (zrl ac n') end.
Fixpoint encode_ac (ac : code) (run : nat) (zz : list Z) : option (list bool) :=
  match zz with
  | [] => if Nat.eqb run 0 then Some [] else ac 0
  | v :: rest =>
      if v =? 0 then encode_ac ac (S run) rest
      else cat_opt (zrl ac (Nat.div run 16))
             (cat_opt (ac (16 * Z.of_nat (Nat.modulo run 16) + category v))
                (cat_opt (Some (extra v)) (encode_ac ac 0 rest)))
  end.

(** Figure F.1 / F.4: the block, coefficients in zig-zag order, [pred] is the DC coefficient
    of the previous block *)
Definition encode_block (dc ac : code) (pred : Z) (zz : list Z) : option (list bool) :=
  match zz with
  | [] => None
  | v :: rest =>
      cat_opt (dc (category (v - pred))) (cat_opt (Some (extra (v - pred))) (encode_ac ac 0 rest))
  end.

(** Coefficients baseline JPEG can represent (F.1.2.1.2, F.1.2.2.1, tables F.1 and F.2) *)
Definition baseline_block (pred : Z) (zz : list Z) : Prop :=
  length zz = 64%nat /\
  match zz with
  | [] => False
  | v :: rest => -32768 <= v <= 32767 /\ category (v - pred) <= 11 /\
                 Forall (fun a => category a <= 10) rest
  end.

(** Number of bits of a codeword *)
Definition code_len (c : code) (v : Z) : Z :=
  match c v with Some b => Z.of_nat (length b) | None => 0 end.

(** Blocks one after the other; the DC coefficient of each predicts the next *)
Fixpoint encode_blocks (dc ac : code) (pred : Z) (blocks : list (list Z)) : option (list bool) :=
  match blocks with
  | [] => Some []
  | zz :: rest => cat_opt (encode_block dc ac pred zz) (encode_blocks dc ac (hd 0 zz) rest)
  end.
(** A property of every block and its predictor *)
Fixpoint with_pred (P : Z -> list Z -> Prop) (pred : Z) (blocks : list (list Z)) : Prop :=
  match blocks with
  | [] => True
  | zz :: rest => P pred zz /\ with_pred P (hd 0 zz) rest
  end.
