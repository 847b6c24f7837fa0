(** Reference notions for the inverse DCT: a block of 64 coefficients is transformed into
    eight rows of eight samples. *)
From Coq Require Import ZArith List.
Import ListNotations.
Local Open Scope Z_scope.

(** The sample in row [r], column [c] *)
Definition sample (rows : list (list Z)) (r c : Z) : Z := nth (Z.to_nat c) (nth (Z.to_nat r) rows []) 0.
(** Limit to the range of 8-bit samples *)
Definition clamp255 (x : Z) : Z := Z.max 0 (Z.min 255 x).
