(** Chroma with half the lines of the image (4:4:0).  Nothing here refers to the decoder. *)
From Coq Require Import ZArith List Bool Reals.
From Verif Require Import Base SpecSegments SpecInter SpecScript SpecImage SpecDct SpecPixels SpecColourPixels SpecBaseScan SpecBasePixels SpecSampledPixels.
Import ListNotations.
Local Open Scope Z_scope.

(** What the triangle filter of libjpeg gives for line [r] from the lines [f] of a component; the
    first and the last line of the image have no second neighbour *)
Definition exact_440 (h : Z) (f : Z -> R) (r : Z) : R := if (r =? 0) || (r =? h - 1) then f (r / 2) else between f r.

(** The same one line too early, in each group of sixteen lines by itself: the first two lines
    and the last two repeat the first and the last line of chroma of the group *)
Definition early_440 (f : Z -> R) (r : Z) : R :=
  if r mod 16 <? 2 then f (8 * (r / 16)) else if 13 <? r mod 16 then f (8 * (r / 16) + 7) else between f (r + 1).

(** Cb or Cr shown one line too early at a pixel, and how far it may be off *)
Definition early_at (w : Z) (p : plane) (r c : Z) : R := early_440 (fun y => exact_at w p y c) r.
Definition early_tolerance (w : Z) (p : plane) (r c : Z) : R := (early_440 (fun y => tolerance_at w p y c) r + / 2)%R.
(** The lines that are interpolated from lines of chroma inside the image *)
Definition inner_line (h r : Z) : Prop := r + 2 < h \/ r mod 16 < 2 \/ 13 < r mod 16.

(** [px] holds Cb and Cr as second and third byte of the pixels, one line too early *)
Definition chroma_early (ps : list plane) (w h : Z) (px : list Z) : Prop :=
  forall r c k, 0 <= r < h -> inner_line h r -> 0 <= c < w -> 0 < k < 3 ->
    let p := nth (Z.to_nat ((r * w + c) * 3 + k)) px 0 in
    0 <= p <= 255 /\ (Rabs (IZR p - early_at w (plane_at ps k) r c) <= early_tolerance w (plane_at ps k) r c)%R.

(** [px] holds red, green and blue in the columns up to [m], with the chroma one line too early *)
Definition rgb_early (m : Z) (ps : list plane) (w h : Z) (px : list Z) : Prop :=
  Z.of_nat (length px) = w * h * 3 /\
  forall r c k, 0 <= r < h -> inner_line h r -> 0 <= c < m -> 0 <= k < 3 ->
    let p := nth (Z.to_nat ((r * w + c) * 3 + k)) px 0 in
    let y := plane_at ps 0 in let b := plane_at ps 1 in let d := plane_at ps 2 in
    0 <= p <= 255 /\
    (Rabs (IZR p - jfif k (exact_at w y r c) (early_at w b r c) (early_at w d r c)) <=
       jfif_tolerance k (tolerance_at w y r c) (early_tolerance w b r c) (early_tolerance w d r c))%R.

(** [px] holds Cb and Cr as libjpeg interpolates them, up to [slack] *)
Definition chroma_440 (slack : R) (ps : list plane) (w h : Z) (px : list Z) : Prop :=
  forall r c k, 0 <= r < h -> 0 <= c < w -> 0 < k < 3 ->
    let p := nth (Z.to_nat ((r * w + c) * 3 + k)) px 0 in
    (Rabs (IZR p - exact_440 h (fun y => exact_at w (plane_at ps k) y c) r) <=
       exact_440 h (fun y => tolerance_at w (plane_at ps k) y c) r + slack)%R.
