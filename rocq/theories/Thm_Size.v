(** Theorems about the number of bytes a successful decode returns (C03; [C03_refuted] is in
    Thm_Scan.v). *)
From Coq Require Import ZArith String List Bool Lia.
From Verif Require Import Base Types State Decoder SpecSegments Session Files ExTools Sizes.
Import ListNotations.
Local Open Scope Z_scope.

(** C03, upper bound: whatever the file, the decoder's history and the options, the buffer
    never holds more bytes than the decoder reports. *)
Theorem C03_bound_partial cpu o cs buf px d' : Forall legal_call cs -> Forall byte buf ->
  decode_buffer (after cpu o cs) buf = (Ok px, d') ->
  zlen px <= width d' * height d' * num_components (get_output_colorspace d').
Proof. intros H1 H2 H3. exact (proj1 (C03_lemma cpu o cs buf px d' H1 H2 H3)). Qed.
Print Assumptions C03_bound_partial.

(** C03 for images of at most 65527 x 65527 pixels (the defaults allow 16384) which report the
    same information after [read_headers] and after decoding; progressive images always do.
    Missing: larger images and baseline images with a frame header inside the scan, for which
    the claim is false. *)
Theorem C03_partial cpu o cs buf px d' d1 : Forall legal_call cs -> Forall byte buf ->
  decode_buffer (after cpu o cs) buf = (Ok px, d') ->
  read_headers (after cpu o cs) buf = (Ok tt, d1) ->
  width d' <= 65527 -> height d' <= 65527 ->
  (get_info d1 = get_info d' \/ exists i, get_info d1 = Some i /\ i_sof i = ProgressiveDctHuffman) ->
  zlen px = width d' * height d' * num_components (get_output_colorspace d').
Proof. intros H1 H2 H3 H4 Hw Hh Hor. exact (proj2 (C03_lemma cpu o cs buf px d' H1 H2 H3) Hw Hh d1 H4 Hor). Qed.
Print Assumptions C03_partial.

(** A case: a reused decoder, RGBA output, an image whose sides are no multiples of 8 *)
Example C03_case :
  let cs := [CDecodeBuffer (colour_zero 16 16 17); CRgba] in let buf := colour_zero 19 21 17 in
  Forall legal_call cs /\ Forall byte buf /\
  exists px d' d1, decode_buffer (after Scalar default_options cs) buf = (Ok px, d') /\
    read_headers (after Scalar default_options cs) buf = (Ok tt, d1) /\
    width d' <= 65527 /\ height d' <= 65527 /\ get_info d1 = get_info d' /\ zlen px = 19 * 21 * 4.
Proof.
  cbv zeta. split; [constructor; [apply forallb_byte; vm_compute; reflexivity|constructor; [exact I|constructor]]|].
  split; [apply forallb_byte; vm_compute; reflexivity|]. do 3 eexists.
  split; [vm_compute; reflexivity|]. split; [vm_compute; reflexivity|]. vm_compute.
  repeat split; discriminate.
Qed.
