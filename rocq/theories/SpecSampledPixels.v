(** What a colour file with subsampled chroma says the pixels are (T.81 A.1.1, A.2, A.3).  The
    standard does not say how Cb and Cr are brought to the size of the image; here it is the
    triangle filter of libjpeg.  Nothing here refers to the decoder. *)
From Coq Require Import ZArith List Bool Reals.
From Verif Require Import Base SpecSegments SpecInter SpecScript SpecImage SpecDct SpecPixels SpecColourPixels SpecBaseScan SpecBasePixels.
Import ListNotations.
Local Open Scope Z_scope.

(** The size of component [k] in samples, where the first has [s] times the samples of the others
    in this direction (A.1.1) *)
Definition samples (s : Z) (k : nat) (w : Z) : Z := if (k =? 0)%nat then w else (w + s - 1) / s.
(** The three components of an image of [w] by [h] pixels with the sampling factors [hs] by [vs] *)
Definition sampled_planes (hs vs : Z) (ts : list quant_def) (w h : Z) (B : nat -> Z -> Z -> list Z) : list plane :=
  map (fun '(k, t) => mkPlane (qd_values t) (component_blocks ((samples hs k w + 7) / 8) ((samples vs k h + 7) / 8) (B k)))
    (combine (seq 0 (length ts)) ts).
(** The same coefficients, but the last blocks of the components [ks] (of Cb and Cr) are zero *)
Definition without_last_chroma (ks : list nat) (hs vs w h : Z) (B : nat -> Z -> Z -> list Z) : nat -> Z -> Z -> list Z :=
  without_last ks (samples hs 1 w) (samples vs 1 h) B.

(** [px], [n] bytes per pixel, holds Y in the first of them *)
Definition close_luma (n : Z) (ps : list plane) (w h : Z) (px : list Z) : Prop :=
  Z.of_nat (length px) = w * h * n /\
  forall r c, 0 <= r < h -> 0 <= c < w ->
    let p := nth (Z.to_nat ((r * w + c) * n)) px 0 in
    0 <= p <= 255 /\ (Rabs (IZR p - exact_at w (plane_at ps 0) r c) <= tolerance_at w (plane_at ps 0) r c)%R.

(** Twice as many columns: three quarters of the nearer sample and one quarter of the next *)
Definition neighbour (c : Z) : Z := if Z.odd c then c / 2 + 1 else c / 2 - 1.
Definition between (f : Z -> R) (c : Z) : R := ((3 * f (c / 2)%Z + f (neighbour c)) / 4)%R.
(** Cb or Cr of 4:2:2 at a pixel, and how far it may be off: rounding adds one half *)
Definition exact_422 (w : Z) (p : plane) (r c : Z) : R := between (exact_at (samples 2 1 w) p r) c.
Definition tolerance_422 (w : Z) (p : plane) (r c : Z) : R := (between (tolerance_at (samples 2 1 w) p r) c + / 2)%R.

(** [px] holds Cb and Cr of an image in 4:2:2 as second and third byte of the pixels, in all
    columns but the first and those that belong to the last five of the last MCU *)
Definition close_chroma_422 (ps : list plane) (w h : Z) (px : list Z) : Prop :=
  forall r c k, 0 <= r < h -> 0 < c < w -> c < 16 * ((w + 15) / 16) - 5 -> 0 < k < 3 ->
    let p := nth (Z.to_nat ((r * w + c) * 3 + k)) px 0 in
    0 <= p <= 255 /\ (Rabs (IZR p - exact_422 w (plane_at ps k) r c) <= tolerance_422 w (plane_at ps k) r c)%R.

(** [px], an image in 4:2:2, holds red, green and blue in the columns from the second up to [m] *)
Definition close_rgb_422 (m : Z) (ps : list plane) (w h : Z) (px : list Z) : Prop :=
  Z.of_nat (length px) = w * h * 3 /\
  forall r c k, 0 <= r < h -> 0 < c < m -> 0 <= k < 3 ->
    let p := nth (Z.to_nat ((r * w + c) * 3 + k)) px 0 in
    let y := plane_at ps 0 in let b := plane_at ps 1 in let d := plane_at ps 2 in
    0 <= p <= 255 /\
    (Rabs (IZR p - jfif k (exact_at w y r c) (exact_422 w b r c) (exact_422 w d r c)) <=
       jfif_tolerance k (tolerance_at w y r c) (tolerance_422 w b r c) (tolerance_422 w d r c))%R.
