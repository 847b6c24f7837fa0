(** The inverse DCT of T.81 A.3.3 with level shift (A.3.1), in real numbers.  Nothing here
    refers to the decoder. *)
From Coq Require Import ZArith Reals.
Local Open Scope R_scope.

Definition weight (u : Z) : R := if (u =? 0)%Z then / sqrt 2 else 1.
(** [weight u * cos ((2 k + 1) u PI / 16)] *)
Definition basis (k u : Z) : R := weight u * cos (IZR ((2 * k + 1) * u) * PI / 16).
Definition sumR8 (f : Z -> R) : R := f 0%Z + f 1%Z + f 2%Z + f 3%Z + f 4%Z + f 5%Z + f 6%Z + f 7%Z.
(** The sample in row [r], column [c] of the block whose coefficient in row [v] (vertical
    frequency), column [u] (horizontal frequency) is [x v u] *)
Definition idct_exact (x : Z -> Z -> Z) (r c : Z) : R :=
  128 + / 4 * sumR8 (fun u => sumR8 (fun v => basis r v * basis c u * IZR (x v u))).
(** The nearest value in the range of 8-bit samples *)
Definition clampR (y : R) : R := Rmax 0 (Rmin 255 y).
(** The sum of the magnitudes of the coefficients *)
Definition magnitude (x : Z -> Z -> Z) : R := sumR8 (fun u => sumR8 (fun v => IZR (Z.abs (x v u)))).
