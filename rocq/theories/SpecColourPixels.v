(** What a file says the pixels of a colour image without subsampling are (T.81 A.2, A.3; the
    conversion to RGB is that of JFIF).  Nothing here refers to the decoder. *)
From Coq Require Import ZArith List Bool Reals.
From Verif Require Import SpecSegments SpecProg SpecScript SpecDct SpecPixels.
Import ListNotations.
Local Open Scope Z_scope.

(** A component: quantization table and coefficients *)
Record plane : Type := mkPlane { pl_qv : list Z; pl_blocks : list (list Z) }.
Definition no_plane : plane := mkPlane [] [].
Definition plane_at (ps : list plane) (k : Z) : plane := nth (Z.to_nat k) ps no_plane.
Definition plane_in_range (p : plane) : Prop := Forall (in_range (pl_qv p)) (pl_blocks p).

(** The exact sample of a component and how far the decoder may be from it *)
Definition exact_at (w : Z) (p : plane) (r c : Z) : R := sample_exact (pl_qv p) ((w + 7) / 8) (pl_blocks p) r c.
Definition tolerance_at (w : Z) (p : plane) (r c : Z) : R := tolerance (pl_qv p) (block_of ((w + 7) / 8) (pl_blocks p) [] r c).

(** [px] holds the samples of the three components, pixel by pixel *)
Definition close_to_ycc (ps : list plane) (w h : Z) (px : list Z) : Prop :=
  Z.of_nat (length px) = w * h * 3 /\
  forall r c k, 0 <= r < h -> 0 <= c < w -> 0 <= k < 3 ->
    let p := nth (Z.to_nat ((r * w + c) * 3 + k)) px 0 in
    0 <= p <= 255 /\ (Rabs (IZR p - exact_at w (plane_at ps k) r c) <= tolerance_at w (plane_at ps k) r c)%R.

(** Red, green and blue of a pixel according to JFIF *)
Definition jfif (k : Z) (y cb cr : R) : R :=
  clampR (match k with
          | 0 => y + 1.402 * (cr - 128)
          | 1 => y - 0.344136 * (cb - 128) - 0.714136 * (cr - 128)
          | _ => y + 1.772 * (cb - 128)
          end)%R.
(** How far the result may be off if the samples are off by [ty], [tb] and [tr] *)
Definition jfif_tolerance (k : Z) (ty tb tr : R) : R :=
  (2 + ty + match k with 0 => 1.402 * tr | 1 => 0.344136 * tb + 0.714136 * tr | _ => 1.772 * tb end)%R.

(** The first [m] columns of [px], an image of [w] by [h] pixels, hold red, green and blue *)
Definition close_to_rgb (m : Z) (ps : list plane) (w h : Z) (px : list Z) : Prop :=
  Z.of_nat (length px) = w * h * 3 /\
  forall r c k, 0 <= r < h -> 0 <= c < m -> 0 <= k < 3 ->
    let p := nth (Z.to_nat ((r * w + c) * 3 + k)) px 0 in
    let e i := exact_at w (plane_at ps i) r c in
    let t i := tolerance_at w (plane_at ps i) r c in
    0 <= p <= 255 /\ (Rabs (IZR p - jfif k (e 0%Z) (e 1%Z) (e 2%Z)) <= jfif_tolerance k (t 0%Z) (t 1%Z) (t 2%Z))%R.
