(** Vocabulary for C02 and C03: entropy-coded data without frame headers, and the output
    formats whose conversion is free of the panics of [C02_gray_refuted] and
    [C28_refuted]. *)
From Coq Require Import ZArith List Bool.
From Verif Require Import Base Types State.
Import ListNotations.
Local Open Scope Z_scope.

(** No byte FF is followed by C0 or C2, the second bytes of the markers SOF0 and SOF2 *)
Definition no_sof (rd : list Z) : Prop :=
  forall a m b, rd = (a ++ 255 :: m :: b)%list -> m <> 192 /\ m <> 194.

(** Output as grayscale wants a width that is a little less than a multiple of eight, or at
    least 57; output as RGB a kernel other than the SSE one, or a width of at least 22 *)
Definition format_ok (cpu : isa) (o : options) (cs : colorspace) (w : Z) : Prop :=
  match cs with
  | GRAYSCALE => 64 * ((w + 7) / 8) < 9 * w
  | YCbCr => True
  | RGB => cpu <> Sse41 \/ o_use_unsafe o = false \/ 22 <= w
  | _ => True
  end.

(** The same for sampling factors: the width the decoder rounds a line up to, and the lines of
    the image one job covers (8 times the product of the factors) *)
Definition padded (w hs : Z) : Z := 8 * hs * ((w + 8 * hs - 1) / (8 * hs)).
Definition format_fits (cpu : isa) (o : options) (cs : colorspace) (w padded lines : Z) : Prop :=
  match cs with
  | GRAYSCALE => lines * padded < (lines + 1) * w
  | YCbCr => True
  | RGB => cpu <> Sse41 \/ o_use_unsafe o = false \/ 22 <= w /\ padded <= w + 10
  | _ => True
  end.

(** The first component carries the largest sampling factors, and the other two are not
    marked as luminance *)
Definition luma_first (d : decoder) : Prop :=
  match d_comps d with
  | [c0; c1; c2] => c_h c0 = d_hmax d /\ c_v c0 = d_vmax d /\ c_cid c1 <> CY /\ c_cid c2 <> CY
  | _ => False
  end.

(** The lines the decoder writes for a baseline image sampled vertically fit into its buffer *)
Definition lines_fit (w h hs vs : Z) : Prop :=
  vs = 1 \/ (h + 8 * vs - 1) / (8 * vs) / hs * (8 * hs * vs) * w <= (w + 8) * (h + 8) + 128 * h.

(** A single component carries the largest sampling factors *)
Definition alone (d : decoder) : Prop :=
  match d_comps d with
  | [c] => c_h c = d_hmax d /\ c_v c = d_vmax d
  | _ => False
  end.
(** A progressive image of one component with the factors [hs] x [vs] is not so tall that its
    [64 * blocks] coefficients fill the area the decoder wants to convert at once, which
    is the square of 64 times the blocks of a row *)
Definition not_tall (w h hs vs : Z) : Prop :=
  let mx := (w + 8 * hs - 1) / (8 * hs) in
  let my := (h + 8 * vs - 1) / (8 * vs) in
  let row := 64 * mx * (if (hs =? 2) && (vs =? 1) then 2 else 1) in
  64 * (mx * hs * (my * vs)) < row * row.
