(** The bits of an entropy-coded segment (T.81 B.1.1.5, F.1.2.3): a data byte FF is followed
    by a stuffed 00; any other FF xx is a marker and ends the segment.  Nothing here refers to
    the decoder. *)
From Coq Require Import ZArith List Bool.
From Verif Require Import SpecHuffman.
Import ListNotations.
Local Open Scope Z_scope.

(** What ends the segment: the end of the data, or a marker code and the bytes after it *)
Inductive ending : Type := AtEnd | AtMarker (code : Z) (rest : list Z).

(** [ff]: the previous byte was FF.  FF bytes may be repeated before a marker code (fill
    bytes, B.1.1.2).  An FF that ends the file counts as data. *)
Fixpoint entropy_from (ff : bool) (bytes : list Z) : list Z * ending :=
  match bytes with
  | [] => (if ff then [255] else [], AtEnd)
  | b :: t =>
      if ff then
        if b =? 255 then entropy_from true t
        else if b =? 0 then let '(e, x) := entropy_from false t in (255 :: e, x)
        else ([], AtMarker b t)
      else if b =? 255 then entropy_from true t
      else let '(e, x) := entropy_from false t in (b :: e, x)
  end.
Definition entropy (bytes : list Z) : list Z * ending := entropy_from false bytes.

(** Most significant bit first *)
Definition bits_of_bytes (bytes : list Z) : list bool := flat_map (bits_of 8) bytes.
(** The bits of the segment [bytes] starts with *)
Definition scan_bits (bytes : list Z) : list bool := bits_of_bytes (fst (entropy bytes)).

(** The encoder's side: insert the stuffed zero bytes *)
Definition stuff (data : list Z) : list Z :=
  flat_map (fun b => if b =? 255 then [255; 0] else [b]) data.

(** * Sequences of read operations *)
Inductive rop : Type :=
| RRefill               (* refill the window *)
| RGet (n : nat)        (* get_bits *)
| RBit                  (* get_bit *)
| RPeek (n : nat)       (* peek_bits, nothing consumed *)
| RDrop (n : nat).      (* drop_bits *)

(** The same operations on a list of bits: values seen and bits left *)
Definition spec_op (o : rop) (bs : list bool) : list Z * list bool :=
  match o with
  | RRefill => ([], bs)
  | RGet n => ([value_of (firstn n bs)], skipn n bs)
  | RBit => ([value_of (firstn 1 bs)], skipn 1 bs)
  | RPeek n => ([value_of (firstn n bs)], bs)
  | RDrop n => ([], skipn n bs)
  end.
Fixpoint spec_ops (os : list rop) (bs : list bool) : list Z * list bool :=
  match os with
  | [] => ([], bs)
  | o :: rest =>
      let '(a, bs1) := spec_op o bs in
      let '(b, bs2) := spec_ops rest bs1 in ((a ++ b)%list, bs2)
  end.

(** At most 32 bits are used between two refills, and the bits are there *)
Definition op_need (o : rop) : nat :=
  match o with RRefill => 0 | RGet n | RPeek n | RDrop n => n | RBit => 1 end.
Definition op_used (o : rop) : nat :=
  match o with RRefill | RPeek _ => 0 | RGet n | RDrop n => n | RBit => 1 end.
Fixpoint legal_ops (credit : nat) (avail : nat) (os : list rop) : Prop :=
  match os with
  | [] => True
  | o :: rest =>
      (op_need o <= credit)%nat /\ (op_need o <= avail)%nat /\
      legal_ops (match o with RRefill => 32 | _ => credit - op_used o end) (avail - op_used o) rest
  end.

(** F.1.2.3: bits are packed most significant first, the last byte is filled up with ones *)
Fixpoint pack_from (acc : list bool) (n : nat) (bs : list bool) : list Z :=
  match bs with
  | [] => match n with O => [] | S _ => [value_of (acc ++ repeat true (8 - n))] end
  | b :: rest =>
      match n with
      | 7%nat => value_of (acc ++ [b]) :: pack_from [] 0 rest
      | _ => pack_from (acc ++ [b]) (S n) rest
      end
  end.
Definition pack (bs : list bool) : list Z := pack_from [] 0 bs.
