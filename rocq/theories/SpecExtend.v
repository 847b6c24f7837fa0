(** Magnitude categories and additional bits (T.81 F.1.2.1, F.2.2.1).  Nothing here refers to
    the decoder. *)
From Coq Require Import ZArith.
Local Open Scope Z_scope.

(** Figure F.12: EXTEND(V, T) *)
Definition extend (v t : Z) : Z := if v <? 2 ^ (t - 1) then v - 2 ^ t + 1 else v.

(** Table F.1/F.2: the category of a value is the number of bits of its magnitude *)
Definition category (v : Z) : Z := if v =? 0 then 0 else Z.log2 (Z.abs v) + 1.
(** F.1.2.1.1: the additional bits, as a number of [category v] bits *)
Definition additional (v : Z) : Z := if v <? 0 then v + 2 ^ category v - 1 else v.
