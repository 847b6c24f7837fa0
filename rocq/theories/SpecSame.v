(** Files that hold the same image.  Nothing here refers to the decoder. *)
From Coq Require Import ZArith List Bool.
From Verif Require Import Base SpecHuffman SpecSegments SpecExtend SpecBits SpecBlock SpecProg SpecInter SpecScript SpecImage SpecBaseline SpecRestart SpecDct SpecPixels SpecColourPixels SpecBaseScan SpecBasePixels SpecSampledPixels.
Import ListNotations.
Local Open Scope Z_scope.

(** A file with the grayscale image of the coefficients [blocks] (row by row) and the quantization
    table [qv]: baseline, baseline with restart intervals, or progressive with at most [scans]
    scans.  The conditions on the codes are those of C35, C43 and C49. *)
Inductive gray_image (scans : Z) (qv : list Z) (w h : Z) (blocks : list (list Z)) : list Z -> Prop :=
| gray_baseline ps q t tss td ta bits sfx :
    baseline_gray ps q w h tss td ta blocks bits sfx -> last_quant (quants ps) q = Some t -> qd_values t = qv ->
    gray_image scans qv w h blocks (file 192 ps (Gray q) w h (baseline_items tss td ta bits) sfx)
| gray_restarts ps q t tss1 ri tss2 td ta zss bss sfx :
    restart_gray ps q w h tss1 ri tss2 td ta zss bss sfx -> short_closes (code_at (huffs ps ++ concat tss1 ++ concat tss2) true ta) zss ->
    concat zss = blocks -> last_quant (quants ps) q = Some t -> qd_values t = qv ->
    gray_image scans qv w h blocks (restart_file ps q w h tss1 ri tss2 td ta bss sfx)
| gray_progressive ps q t cd is K n sfx :
    progressive_image ps (Gray q) w h [cd] is [K] n sfx -> complete K -> short_end (image_geo (Gray q) w h) [cd] [] is -> n <= scans ->
    cd_blocks cd = blocks -> last_quant (quants ps) q = Some t -> qd_values t = qv ->
    gray_image scans qv w h blocks (file 194 ps (Gray q) w h is sfx).

(** The block in column [x], row [y] of component [k] has samples inside the image *)
Definition has_samples (hs vs w h : Z) (k : nat) (x y : Z) : Prop :=
  0 <= x < (samples hs k w + 7) / 8 /\ 0 <= y < (samples vs k h + 7) / 8.

(** A file with the colour image of the coefficients [B] and the quantization tables [qv], baseline
    or progressive.  The conditions on the codes are those of C51 to C53; the last block of a baseline
    file takes more than 64 bits (C36). *)
Inductive colour_image (scans hs vs : Z) (qv : nat -> list Z) (w h : Z) (B : nat -> Z -> Z -> list Z) : list Z -> Prop :=
| colour_baseline ps q q1 q2 t0 t1 t2 tss sel B' bits sfx :
    let l := Colour hs vs q q1 q2 in
    baseline_colour ps l w h tss sel B' bits sfx ->
    64 < last_bits (sel_codes (huffs ps ++ concat tss) sel) (image_blocks l w h B') 1 ->
    (forall k x y, (k < 3)%nat -> has_samples hs vs w h k x y -> B' k x y = B k x y) ->
    last_quant (quants ps) q = Some t0 -> last_quant (quants ps) q1 = Some t1 -> last_quant (quants ps) q2 = Some t2 ->
    qd_values t0 = qv 0%nat -> qd_values t1 = qv 1%nat -> qd_values t2 = qv 2%nat ->
    colour_image scans hs vs qv w h B (colour_file ps l w h tss sel bits sfx)
| colour_progressive ps q q1 q2 t0 t1 t2 cd0 cd1 cd2 is Ks n sfx :
    let l := Colour hs vs q q1 q2 in
    progressive_image ps l w h [cd0; cd1; cd2] is Ks n sfx -> Forall complete Ks -> short_end (image_geo l w h) [cd0; cd1; cd2] [] is -> n <= scans ->
    (forall k x y, (k < 3)%nat -> has_samples hs vs w h k x y ->
       nth (Z.to_nat (y * ((samples hs k w + 7) / 8) + x)) (cd_blocks (nth k [cd0; cd1; cd2] cd0)) [] = B k x y) ->
    last_quant (quants ps) q = Some t0 -> last_quant (quants ps) q1 = Some t1 -> last_quant (quants ps) q2 = Some t2 ->
    qd_values t0 = qv 0%nat -> qd_values t1 = qv 1%nat -> qd_values t2 = qv 2%nat ->
    colour_image scans hs vs qv w h B (file 194 ps l w h is sfx).

(** The sizes for which all rows of the image are decoded (C34, C02) *)
Definition whole_size (hs vs w h : Z) : Prop :=
  w <= 65527 /\ h <= 65527 /\ ((h + 8 * vs - 1) / (8 * vs)) mod hs = 0 /\
  8 * vs * ((h + 8 * vs - 1) / (8 * vs)) * w <= (w + 8) * (h + 8) + (if (hs =? 1) && (vs =? 1) then 0 else 128 * h).
(** The widths for which the luminance alone can be put out (C32) *)
Definition narrow_padding (hs vs w : Z) : Prop :=
  8 * (hs * vs) * (8 * ((w + 8 * hs - 1) / (8 * hs) * hs)) < (8 * (hs * vs) + 1) * w.
(** The columns and lines in which chroma is interpolated from samples of the image alone *)
Definition inside (hs vs w h r c : Z) : Prop :=
  (hs = 2 -> 0 < c < 16 * ((w + 15) / 16) - 5) /\ (vs = 2 -> r + 5 < h \/ h mod 32 = 0).
(** The columns up to [m] are where they belong in RGB output (C33) *)
Definition left_columns (hs w m : Z) : Prop :=
  w < 16 /\ m <= w /\ (hs = 2 -> m <= 11) \/
  16 <= w /\ m <= 16 * (8 * hs * ((w + 8 * hs - 1) / (8 * hs)) / 16 - 1) /\ 3 * m <= 3 * w - 64.

(** Byte [k] of a pixel with three bytes *)
Definition byte_at (w : Z) (px : list Z) (r c k : Z) : Z := nth (Z.to_nat ((r * w + c) * 3 + k)) px 0.
