(** Chroma with half the lines and half the columns of the image (4:2:0).  Nothing here refers to
    the decoder. *)
From Coq Require Import ZArith List Bool Reals.
From Verif Require Import Base SpecSegments SpecInter SpecScript SpecImage SpecDct SpecPixels SpecColourPixels SpecBaseScan SpecBasePixels SpecSampledPixels.
Import ListNotations.
Local Open Scope Z_scope.

(** The lines of chroma that are mixed for a line of the image, in groups of 32 lines: those of
    the same parity.  The first four lines and the last four repeat two lines of chroma. *)
Definition mixed_420 (f : Z -> R) (r : Z) : R :=
  let b := 16 * (r / 32) + r mod 2 in
  let i := r mod 32 / 4 in
  if i =? 0 then f b else if i =? 7 then f (b + 14)
  else if Z.odd (r / 2) then ((3 * f (b + 2 * i + 2)%Z + f (b + 2 * i)%Z) / 4)%R
  else ((3 * f (b + 2 * i)%Z + f (b + 2 * i + 2)%Z) / 4)%R.

(** Cb or Cr as shown at a pixel, and how far it may be off: rounding twice adds one *)
Definition mixed_at (w : Z) (p : plane) (r c : Z) : R := between (fun x => mixed_420 (fun y => exact_at (samples 2 1 w) p y x) r) c.
Definition mixed_tolerance (w : Z) (p : plane) (r c : Z) : R :=
  (between (fun x => mixed_420 (fun y => tolerance_at (samples 2 1 w) p y x) r) c + 1)%R.
(** The lines for which only lines of chroma inside the image are used *)
Definition mixed_line (h r : Z) : Prop := r + 5 < h \/ h mod 32 = 0.

(** [px] holds Cb and Cr as second and third byte of the pixels, mixed in this way, in all columns
    but the first and the last two of the last MCU *)
Definition chroma_mixed (ps : list plane) (w h : Z) (px : list Z) : Prop :=
  forall r c k, 0 <= r < h -> mixed_line h r -> 0 < c < w -> c < 16 * ((w + 15) / 16) - 2 -> 0 < k < 3 ->
    let p := nth (Z.to_nat ((r * w + c) * 3 + k)) px 0 in
    0 <= p <= 255 /\ (Rabs (IZR p - mixed_at w (plane_at ps k) r c) <= mixed_tolerance w (plane_at ps k) r c)%R.

(** [px] holds red, green and blue in the columns from the second up to [m] *)
Definition rgb_mixed (m : Z) (ps : list plane) (w h : Z) (px : list Z) : Prop :=
  Z.of_nat (length px) = w * h * 3 /\
  forall r c k, 0 <= r < h -> mixed_line h r -> 0 < c < m -> 0 <= k < 3 ->
    let p := nth (Z.to_nat ((r * w + c) * 3 + k)) px 0 in
    let y := plane_at ps 0 in let b := plane_at ps 1 in let d := plane_at ps 2 in
    0 <= p <= 255 /\
    (Rabs (IZR p - jfif k (exact_at w y r c) (mixed_at w b r c) (mixed_at w d r c)) <=
       jfif_tolerance k (tolerance_at w y r c) (mixed_tolerance w b r c) (mixed_tolerance w d r c))%R.

(** [px] holds Cb and Cr as libjpeg interpolates them inside the image, up to [slack] *)
Definition chroma_420 (slack : R) (ps : list plane) (w h : Z) (px : list Z) : Prop :=
  forall r c k, 0 < r < h - 1 -> 0 < c < w - 1 -> 0 < k < 3 ->
    let p := nth (Z.to_nat ((r * w + c) * 3 + k)) px 0 in
    (Rabs (IZR p - between (fun x => between (fun y => exact_at (samples 2 1 w) (plane_at ps k) y x) r) c) <=
       between (fun x => between (fun y => tolerance_at (samples 2 1 w) (plane_at ps k) y x) r) c + slack)%R.
