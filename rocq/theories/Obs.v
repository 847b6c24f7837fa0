(** Observations on decoder states used to state theorems. *)
From Coq Require Import ZArith String List Bool.
From Verif Require Import Base Types Huffman State Bitstream SpecHuffman SpecBits.
Import ListNotations.
Local Open Scope Z_scope.

(** What it means for a decoding table to implement a code *)
Definition implements (t : hufftable) (counts symbols : list Z) : Prop :=
  forall s, 0 <= b_aligned s < 2 ^ 64 ->
    let r := decode_huff t (zn (h_lookup t) (peek_bits 9 s)) s in
    (forall l c v, codeword counts symbols l c v ->
       b_aligned s / 2 ^ (64 - Z.of_nat l) = c -> r = (Ok v, drop_bits (Z.of_nat l) s)) /\
    ((forall l c v, codeword counts symbols l c v ->
        b_aligned s / 2 ^ (64 - Z.of_nat l) <> c) -> exists e, r = (Err e, s)).

(** The slot of a destination *)
Definition slot (d : decoder) (ac : bool) (dest : Z) : option hufftable :=
  nth (Z.to_nat dest) (if ac then d_acts d else d_dcts d) None.

(** The quantization table of a destination *)
Definition qslot (d : decoder) (dest : Z) : option (list Z) := nth (Z.to_nat dest) (d_qt d) None.
(** The slots and everything else after a list of tables *)
Definition same_but_huff (d d' : decoder) : Prop :=
  set_d_dcts [] (set_d_acts [] d') = set_d_dcts [] (set_d_acts [] d).

Definition tables4 (d : decoder) : Prop := length (d_dcts d) = 4%nat /\ length (d_acts d) = 4%nat.

(** Sequences of reads carried out by the decoder's bit reader
    (src/bitstream.rs refill, get_bits, get_bit, peek_bits, drop_bits) *)
Definition run_op (o : rop) : M bst (list Z) :=
  match o with
  | RRefill => bind refill (fun _ => ret [])
  | RGet n => bind (get_bits (Z.of_nat n)) (fun v => ret [v])
  | RBit => bind get_bit (fun v => ret [v])
  | RPeek n => fun s => (Ok [peek_bits (Z.of_nat n) s], s)
  | RDrop n => fun s => (Ok [], drop_bits (Z.of_nat n) s)
  end.
Fixpoint run_ops (os : list rop) : M bst (list Z) :=
  match os with
  | [] => ret []
  | o :: rest => bind (run_op o) (fun a => bind (run_ops rest) (fun b => ret (a ++ b)%list))
  end.

(** Decode [n] blocks one after the other, as the MCU loop does for one component
    (src/mcu.rs:286-334) *)
Fixpoint run_blocks (dct act : hufftable) (n : nat) (pred : Z) (s : bst) : res (list (list Z)) :=
  match n with
  | O => Ok []
  | S n' =>
      match decode_mcu_block dct act (zrepeat 0 64) pred s with
      | (Ok b, s', pred') =>
          match run_blocks dct act n' pred' s' with Ok l => Ok (b :: l) | r => r end
      | (Err e, _, _) => Err e
      | (Panic p, _, _) => Panic p
      | (Fuel, _, _) => Fuel
      end
  end.

(** A block of 64 [i16] values *)
Definition block64 (b : list Z) : Prop := length b = 64%nat /\ Forall (fun x => -32768 <= x <= 32767) b.

(** A result that is a value satisfying [P] or an error: neither a panic nor fuel exhaustion *)
Definition decoded {A} (P : A -> Prop) (r : res A) : Prop :=
  match r with Ok a => P a | Err _ => True | Panic _ => False | Fuel => False end.
