(** What a file says the pixels of a grayscale image are (T.81 A.2, A.3).  Nothing here refers
    to the decoder. *)
From Coq Require Import ZArith List Bool Reals.
From Verif Require Import SpecSegments SpecProg SpecDct.
Import ListNotations.
Local Open Scope Z_scope.

(** What is known of the coefficients of a block, in zig-zag order *)
Definition known_block (K : knowledge) (zz : list Z) : list Z :=
  map (fun k => K k (nth (Z.to_nat k) zz 0)) (map Z.of_nat (seq 0 64)).

(** The coefficients [zz] multiplied by the quantization table [qv], both in zig-zag order: row
    [v] (vertical frequency), column [u] *)
Definition dequantized (qv zz : list Z) (v u : Z) : Z :=
  let k := Z.to_nat (zigzag v u) in nth k zz 0 * nth k qv 0.
(** The block, of [n] in a row, that covers the sample in row [r], column [c] *)
Definition block_of {A} (n : Z) (blocks : list A) (d : A) (r c : Z) : A := nth (Z.to_nat (r / 8 * n + c / 8)) blocks d.
(** The sample there: inverse DCT, level shift, limits *)
Definition sample_exact (qv : list Z) (n : Z) (blocks : list (list Z)) (r c : Z) : R :=
  clampR (idct_exact (dequantized qv (block_of n blocks [] r c)) (r mod 8) (c mod 8)).

(** All AC coefficients are zero *)
Definition no_ac (zz : list Z) : Prop := forall k, (0 < k < 64)%nat -> nth k zz 0 = 0.
(** The dequantized coefficients are in the range of 8-bit images; the sample of a block
    without AC coefficients needs no limiting *)
Definition in_range (qv zz : list Z) : Prop :=
  (forall k, (k < 64)%nat -> -2048 <= nth k zz 0 * nth k qv 0 <= 2048) /\
  (no_ac zz -> -1024 <= nth 0 zz 0 * nth 0 qv 0 <= 1023).
(** One, or 0.621 plus one seven-thousandth of the sum of the magnitudes of the coefficients *)
Definition tolerance (qv zz : list Z) : R := Rmax 1 (0.621 + magnitude (dequantized qv zz) / 7000).

(** [px] are the [w * h] samples, line by line, up to the tolerance *)
Definition close_to (qv : list Z) (blocks : list (list Z)) (w h : Z) (px : list Z) : Prop :=
  Z.of_nat (length px) = w * h /\
  forall r c, 0 <= r < h -> 0 <= c < w ->
    let n := (w + 7) / 8 in
    let p := nth (Z.to_nat (r * w + c)) px 0 in
    0 <= p <= 255 /\
    (Rabs (IZR p - sample_exact qv n blocks r c) <= tolerance qv (block_of n blocks [] r c))%R.
