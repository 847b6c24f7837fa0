(** Theorems about colour conversion and the layout of the output (C27, C28, C31, C32, C33). *)
From Coq Require Import ZArith String List Bool Lia.
From Verif Require Import Base Types State Upsample Color Simd Worker Decoder SpecSegments SpecIdct SpecColor Session Files ExTools.
From Verif Require Import ColorFacts Placement.
Import ListNotations.
Local Open Scope Z_scope.

(** C27, for the value every routine stores for one pixel (C28 relates the SIMD ones to it).
    Red is even within 1. *)
Theorem C27_libjpeg : forall y cb cr, byte y -> byte cb -> byte cr ->
  exists r g b, cc_pixel y cb cr = [r; g; b] /\ byte r /\ byte g /\ byte b /\
    Z.abs (r - libjpeg_r y cr) <= 1 /\ Z.abs (g - libjpeg_g y cb cr) <= 2 /\ Z.abs (b - libjpeg_b y cb) <= 2.
Proof. exact C27_lemma. Qed.
Print Assumptions C27_libjpeg.

(** The bound is attained, and both ends of the range are. *)
Example C27_case :
  byte 10 /\ byte 253 /\ byte 6 /\
  cc_pixel 10 253 6 = [0; 55; 230] /\ libjpeg_b 10 253 = 232 /\
  cc_pixel 60 255 6 = [0; 105; 255] /\ libjpeg_g 60 255 6 = 103 /\
  cc_pixel 255 255 0 = [75; 255; 255] /\ libjpeg_r 255 0 = 76.
Proof. vm_compute. repeat split; discriminate. Qed.

(** C28, AVX2: same bytes, same position, same behaviour when the slice is too short. *)
Theorem C28_avx2 : forall y cb cr out pos,
  length y = 16%nat -> length cb = 16%nat -> length cr = 16%nat ->
  ycbcr_to_rgb_avx2 y cb cr out pos = ycbcr_to_rgb_16_scalar y cb cr out pos /\
  ycbcr_to_rgba_avx2 y cb cr out pos = ycbcr_to_rgba_16_scalar y cb cr out pos.
Proof.
  exact (fun y cb cr out pos Hy Hb Hr => conj (avx_rgb y cb cr out pos Hy Hb Hr) (avx_rgba y cb cr out pos Hy Hb Hr)).
Qed.
Print Assumptions C28_avx2.

(** The RGBX routine leaves its fourth register [x] undefined: R, G, B do not depend on it. *)
Theorem C28_rgbx : forall y cb cr x i k,
  length y = 16%nat -> length cb = 16%nat -> length cr = 16%nat -> length x = 16%nat ->
  0 <= i < 16 -> 0 <= k < 3 ->
  zn (rgba_avx2_regs y cb cr x) (4 * i + k) = zn (cc_pixel (zn y i) (zn cb i) (zn cr i)) k.
Proof. exact avx_rgbx. Qed.
Print Assumptions C28_rgbx.

(** C28, SSE4.1, when 64 bytes are left.  Missing: 48 to 63 bytes left, see [C28_refuted]. *)
Theorem C28_sse_partial : forall y cb cr out pos,
  length y = 16%nat -> length cb = 16%nat -> length cr = 16%nat -> room out pos 64 ->
  ycbcr_to_rgb_sse_16 y cb cr out pos = ycbcr_to_rgb_16_scalar y cb cr out pos /\
  ycbcr_to_rgba_sse_16 y cb cr out pos = ycbcr_to_rgba_16_scalar y cb cr out pos.
Proof.
  exact (fun y cb cr out pos Hy Hb Hr H => conj (sse_rgb y cb cr out pos Hy Hb Hr H) (sse_rgba y cb cr out pos Hy Hb Hr H)).
Qed.
Print Assumptions C28_sse_partial.

(** And the scalar routines write the 16 pixels at the position and nothing else. *)
Theorem C28_scalar : forall y cb cr out pos,
  length y = 16%nat -> length cb = 16%nat -> length cr = 16%nat ->
  (room out pos 48 -> ycbcr_to_rgb_16_scalar y cb cr out pos =
     Ok (written out pos (flat_map (fun i => cc_pixel (zn y i) (zn cb i) (zn cr i)) (zseq 16)), pos + 48)) /\
  (room out pos 64 -> ycbcr_to_rgba_16_scalar y cb cr out pos =
     Ok (written out pos (flat_map (fun i => cc_pixel (zn y i) (zn cb i) (zn cr i) ++ [255]) (zseq 16)), pos + 64)).
Proof. exact C28_scalar_lemma. Qed.
Print Assumptions C28_scalar.

Example C28_case :
  let y := zseq 16 in let cb := map (fun i => 300 * i - 2000) y in let cr := map (fun i => 40 - 7 * i) y in
  let out := repeat 9 70 in
  room out 5 64 /\
  (exists o, ycbcr_to_rgb_avx2 y cb cr out 5 = Ok (o, 53) /\ ycbcr_to_rgb_sse_16 y cb cr out 5 = Ok (o, 53) /\
     firstn 11 o = [9; 9; 9; 9; 9; 0; 255; 255; 0; 255; 0] /\ skipn 53 o = repeat 9 17) /\
  (exists o, ycbcr_to_rgba_avx2 y cb cr out 5 = Ok (o, 69) /\ ycbcr_to_rgba_sse_16 y cb cr out 5 = Ok (o, 69) /\
     firstn 11 o = [9; 9; 9; 9; 9; 0; 255; 255; 255; 0; 255] /\ skipn 69 o = [9]).
Proof.
  cbv zeta. split; [split; [lia|vm_compute; discriminate]|].
  split; eexists; (split; [vm_compute; reflexivity|]); vm_compute; repeat split.
Qed.

(** C28 fails for SSE4.1: the routine writes 48 bytes but panics unless 64 are left, so an
    8 x 8 colour image cannot be decoded on a machine without AVX2. *)
Theorem C28_refuted :
  (exists y cb cr out o, length y = 16%nat /\ length cb = 16%nat /\ length cr = 16%nat /\
     ycbcr_to_rgb_16_scalar y cb cr out 0 = Ok (o, 48) /\ panics (ycbcr_to_rgb_sse_16 y cb cr out 0)) /\
  (exists buf, Forall byte buf /\
     fst (decode_buffer (new_with_options Scalar default_options) buf) = Ok (repeat 128 192) /\
     panics (fst (decode_buffer (new_with_options Sse41 default_options) buf))).
Proof.
  split.
  - exists (repeat 0 16), (repeat 0 16), (repeat 0 16), (repeat 0 48). eexists.
    do 3 (split; [reflexivity|]). split; [vm_compute; reflexivity|exact I].
  - exists (colour_zero 8 8 17). split; [apply forallb_byte; vm_compute; reflexivity|].
    split; vm_compute; [reflexivity|exact I].
Qed.
Print Assumptions C28_refuted.

(** C31 is false: the decoder uses the RGB routine for RGBA as well, so that the fourth byte
    is the red of the next pixel. *)
Theorem C31_refuted : exists buf px, Forall byte buf /\
  fst (decode_buffer (new_with_options Avx2 (set_out_colorspace default_options RGBA)) buf) = Ok px /\
  length px = 256%nat /\ exists i, 0 <= i < 64 /\ zn px (4 * i + 3) = 128.
Proof.
  exists (colour_zero 8 8 17). eexists. split; [apply forallb_byte; vm_compute; reflexivity|].
  split; [vm_compute; reflexivity|]. split; [reflexivity|]. exists 0. split; [lia|reflexivity].
Qed.
Print Assumptions C31_refuted.

(** The four-channel routines, which the decoder never calls, do store 255.  Missing: their
    use by the decoder. *)
Theorem C31_routines_partial : forall y cb cr out pos i,
  length y = 16%nat -> length cb = 16%nat -> length cr = 16%nat -> room out pos 64 -> 0 <= i < 16 ->
  exists o, ycbcr_to_rgba_16_scalar y cb cr out pos = Ok (o, pos + 64) /\
    ycbcr_to_rgba_avx2 y cb cr out pos = Ok (o, pos + 64) /\
    ycbcr_to_rgba_sse_16 y cb cr out pos = Ok (o, pos + 64) /\
    zn o (pos + 4 * i + 3) = 255.
Proof. exact C31_lemma. Qed.
Print Assumptions C31_routines_partial.
Example C31_case : room (repeat 7 80) 3 64.
Proof. split; [lia|vm_compute; discriminate]. Qed.

(** C32, YCbCr: every layout of the planes a job can have ([R] rows of [S] samples). *)
Theorem C32_ycbcr : forall c0 c1 c2 width hs vs output S,
  0 < hs -> 0 < vs -> 0 < width <= S -> let R := 8 * (hs * vs) in
  zlen c0 = R * S -> zlen c1 = R * S -> zlen c2 = R * S -> R * width * 3 <= zlen output ->
  exists out, ycbcr_to_ycbcr c0 c1 c2 width hs vs output = Ok out /\
    placed 3 R width (fun r c k => u8 (zn (nth (Z.to_nat k) [c0; c1; c2] []) (r * S + c))) output out.
Proof. exact ycc_lemma. Qed.
Print Assumptions C32_ycbcr.

(** C32, grayscale.  Missing: images so narrow that the padding columns of the [R] rows
    together make up another row, see [C32_refuted]. *)
Theorem C32_gray_partial : forall y width output R S,
  0 < width <= S -> 0 < R -> zlen y = R * S -> R * S < (R + 1) * width -> R * width <= zlen output ->
  exists out, ycbcr_to_grayscale y width output = Ok out /\
    placed 1 R width (fun r c _ => u8 (zn y (r * S + c))) output out.
Proof. exact gray_lemma. Qed.
Print Assumptions C32_gray_partial.

Example C32_case :
  let y := map (fun i => i mod 256) (zseq 640) in
  8 * 80 < (8 + 1) * 75 /\
  (exists out, ycbcr_to_grayscale y 75 (repeat 0 600) = Ok out /\ zn out (at_pixel 75 1 7 74 0) = (7 * 80 + 74) mod 256) /\
  (exists out, ycbcr_to_ycbcr y y y 75 1 1 (repeat 0 1800) = Ok out /\ zn out (at_pixel 75 3 7 74 2) = (7 * 80 + 74) mod 256).
Proof.
  cbv zeta. split; [reflexivity|]. split; eexists; (split; [vm_compute; reflexivity|vm_compute; reflexivity]).
Qed.

(** For narrow images the routine finds more rows than there are and panics. *)
Theorem C32_refuted :
  (exists y, length y = 128%nat /\ panics (ycbcr_to_grayscale y 9 (repeat 0 72))) /\
  (exists buf, Forall byte buf /\ panics (fst (decode_buffer (new_with_options Avx2 default_options) buf)) /\
     buf = gray_zero 8 9).
Proof.
  split.
  - exists (repeat 0 128). split; [reflexivity|vm_compute; exact I].
  - eexists. split; [|split; [|reflexivity]]; [apply forallb_byte; vm_compute; reflexivity|vm_compute; exact I].
Qed.
Print Assumptions C32_refuted.

(** C33 for images of fewer than 16 columns. *)
Theorem C33_narrow_partial : forall cc c0 c1 c2 width hs vs output S,
  kernel_ok cc -> 0 < hs -> 0 < vs -> 0 < width < 16 -> width <= S <= 16 -> let R := 8 * (hs * vs) in
  zlen c0 = R * S -> zlen c1 = R * S -> zlen c2 = R * S -> R * width * 3 <= zlen output ->
  Forall byte c0 -> Forall byte c1 -> Forall byte c2 ->
  exists out, color_convert_ycbcr c0 c1 c2 width hs vs RGB cc output = Ok out /\
    placed 3 R width (fun r c k => nth (Z.to_nat k) (pixel_rgb (zn c0 (r * S + c)) (zn c1 (r * S + c)) (zn c2 (r * S + c))) 0) output out.
Proof. exact rgb_lemma. Qed.
Print Assumptions C33_narrow_partial.

(** C33 for the others: in every row the first [m] columns, that is all but the last 22 to 32
    or so; with the SSE kernel, which asks for 64 bytes where it writes 48, for rows that offer
    them.  Missing: the columns to the right of them, see [C33_refuted], and narrow rows with
    the SSE kernel, see [C28_refuted]. *)
Theorem C33_left_partial : forall cc c0 c1 c2 width hs vs output S m,
  (cc = CcScalar \/ cc = CcAvx2) \/ 64 <= width * 3 /\ 48 * (S / 16) - 32 <= width * 3 ->
  0 < hs -> 0 < vs -> 16 <= width <= S -> S < width + 16 ->
  m <= 16 * (S / 16 - 1) -> 3 * m <= 3 * width - 64 -> let R := 8 * (hs * vs) in
  zlen c0 = R * S -> zlen c1 = R * S -> zlen c2 = R * S -> R * width * 3 <= zlen output ->
  Forall byte c0 -> Forall byte c1 -> Forall byte c2 ->
  exists out, color_convert_ycbcr c0 c1 c2 width hs vs RGB cc output = Ok out /\
    placed_left 3 R width m
      (fun r c k => nth (Z.to_nat k) (pixel_rgb (zn c0 (r * S + c)) (zn c1 (r * S + c)) (zn c2 (r * S + c))) 0) output out.
Proof. exact rgb_wide_lemma. Qed.
Print Assumptions C33_left_partial.

Example C33_case :
  let c0 := map (fun i => i mod 256) (zseq 512) in let c1 := repeat 100 512 in let c2 := repeat 200 512 in
  (exists out, color_convert_ycbcr (firstn 64 c0) (firstn 64 c1) (firstn 64 c2) 7 1 1 RGB CcAvx2 (repeat 0 168) = Ok out /\
     firstn 3 (skipn (Z.to_nat (at_pixel 7 3 6 6 0)) out) = pixel_rgb 54 100 200) /\
  16 <= 16 * (64 / 16 - 1) /\ 3 * 16 <= 3 * 60 - 64 /\
  64 <= 60 * 3 /\ 48 * (64 / 16) - 32 <= 60 * 3 /\
  (exists out, color_convert_ycbcr c0 c1 c2 60 1 1 RGB CcSse (repeat 0 1440) = Ok out /\
     firstn 3 (skipn (Z.to_nat (at_pixel 60 3 6 15 0)) out) = pixel_rgb 143 100 200).
Proof.
  cbv zeta. split; [eexists; split; [vm_compute; reflexivity|reflexivity]|].
  do 4 (split; [discriminate|]). eexists; split; [vm_compute; reflexivity|reflexivity].
Qed.

(** The last sixteen columns go to the wrong place.  In an image without detail this leaves a
    black strip at the right edge. *)
Theorem C33_refuted :
  (exists c0 c1 c2 out, length c0 = 256%nat /\ Forall byte c0 /\
     color_convert_ycbcr c0 c1 c2 32 1 1 RGB CcScalar (repeat 0 768) = Ok out /\
     firstn 3 (skipn (Z.to_nat (at_pixel 32 3 0 20 0)) out) <> pixel_rgb (zn c0 20) (zn c1 20) (zn c2 20)) /\
  (exists buf px, Forall byte buf /\ buf = colour_zero 8 32 17 /\
     fst (decode_buffer (new_with_options Avx2 default_options) buf) = Ok px /\
     pixel_rgb 128 128 128 = [128; 128; 128] /\
     firstn 3 (skipn (Z.to_nat (at_pixel 32 3 0 30 0)) px) = [0; 0; 0]).
Proof.
  split.
  - exists (zseq 256), (repeat 128 256), (repeat 128 256). eexists. split; [reflexivity|].
    split; [apply forallb_byte; vm_compute; reflexivity|]. split; [vm_compute; reflexivity|]. vm_compute. discriminate.
  - eexists. eexists. split; [|split; [reflexivity|]]; [apply forallb_byte; vm_compute; reflexivity|].
    split; [vm_compute; reflexivity|]. split; vm_compute; reflexivity.
Qed.
Print Assumptions C33_refuted.
