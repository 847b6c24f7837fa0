(** Reference notions for upsampling, colour conversion and the layout of the output. *)
From Coq Require Import ZArith List.
From Verif Require Import Base SpecIdct.
Import ListNotations.
Local Open Scope Z_scope.

(** libjpeg's ycc_rgb_convert (jdcolor.c): 16 fractional bits, FIX(x) = round(x * 65536) *)
Definition libjpeg_r (y cr : Z) : Z := clamp255 (y + (91881 * (cr - 128) + 32768) / 65536).
Definition libjpeg_g (y cb cr : Z) : Z :=
  clamp255 (y + (- 22554 * (cb - 128) - 46802 * (cr - 128) + 32768) / 65536).
Definition libjpeg_b (y cb : Z) : Z := clamp255 (y + (116130 * (cb - 128) + 32768) / 65536).

(** The linear formula of the crate's documentation (src/color_convert/scalar.rs and avx.rs):
    R = Y + 45 (Cr - 128) / 32, G = Y - (11 (Cb - 128) + 23 (Cr - 128)) / 32,
    B = Y + 113 (Cb - 128) / 64, limited to a byte. *)
Definition pixel_rgb (y cb cr : Z) : list Z :=
  [clamp255 (y + 45 * (cr - 128) / 32);
   clamp255 (y - (11 * (cb - 128) + 23 * (cr - 128)) / 32);
   clamp255 (y + 113 * (cb - 128) / 64)].

(** The bytes [l] overwritten from position [p] on by [s] *)
Definition written (l : list Z) (p : Z) (s : list Z) : list Z :=
  firstn (Z.to_nat p) l ++ s ++ skipn (Z.to_nat p + length s) l.
Definition room (l : list Z) (p n : Z) : Prop := 0 <= p /\ p + n <= Z.of_nat (length l).

(** Position of channel [k] of the pixel in row [r], column [c] of an image [w] pixels wide
    with [nc] channels *)
Definition at_pixel (w nc r c k : Z) : Z := (r * w + c) * nc + k.

(** The triangle filter: three quarters of the nearer sample, one quarter of the farther one *)
Definition triangle (near far : Z) : Z := (3 * near + far + 2) / 4.

(** [output] has become [out]: the first [R] rows of an image [w] pixels wide hold the pixels
    [px row column channel], and nothing else has changed *)
Definition placed (nc R w : Z) (px : Z -> Z -> Z -> Z) (output out : list Z) : Prop :=
  length out = length output /\
  (forall r c k, 0 <= r < R -> 0 <= c < w -> 0 <= k < nc -> zn out (at_pixel w nc r c k) = px r c k) /\
  (forall i, R * w * nc <= i -> zn out i = zn output i).
(** The same for the first [m] columns of each row only *)
Definition placed_left (nc R w m : Z) (px : Z -> Z -> Z -> Z) (output out : list Z) : Prop :=
  length out = length output /\
  (forall r c k, 0 <= r < R -> 0 <= c < m -> 0 <= k < nc -> zn out (at_pixel w nc r c k) = px r c k) /\
  (forall i, R * w * nc <= i -> zn out i = zn output i).

(** Horizontal upsampling of a row of [n] samples [x 0 .. x (n-1)] to twice as many: output
    [i] lies in the half of sample [i/2] that is nearer to the previous one (even [i]) or to
    the next one (odd [i]); the first and the last have no second neighbour. *)
Definition h_filter (n : Z) (x : Z -> Z) (i : Z) : Z :=
  if i =? 0 then x 0
  else if i =? 2 * n - 1 then x (n - 1)
  else if Z.odd i then triangle (x (i / 2)) (x (i / 2 + 1))
  else triangle (x (i / 2)) (x (i / 2 - 1)).

(** Vertical upsampling of eight rows to sixteen, in pairs: the rows [2 p] and [2 p + 1] are
    interpolated between row [p] and the row after it, except that the first and the last
    pair repeat a row. *)
Definition v_other (p : Z) : Z := if p =? 0 then 0 else if p =? 7 then 7 else p + 1.
Definition v_filter (S : Z) (x : Z -> Z) (row c : Z) : Z :=
  let p := row / 2 in
  let a := x (p * S + c) in
  let b := x (v_other p * S + c) in
  if Z.odd row then triangle b a else triangle a b.
