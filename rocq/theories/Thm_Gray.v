(** Theorems about the pixels of grayscale files (C49). *)
From Coq Require Import ZArith String List Bool Lia.
From Verif Require Import Base Types Huffman State Bitstream Headers Mcu McuProg Decoder.
From Verif Require Import SpecHuffman SpecSegments SpecExtend SpecBits SpecBlock SpecProg SpecScript SpecImage SpecDct SpecPixels.
From Verif Require Import Obs ObsProg ExTools Thm_ProgFile GrayReal.
Import ListNotations.
Local Open Scope Z_scope.

(** C49.  A grayscale progressive file whose scans send all bits of the coefficients is decoded,
    on every machine and with all options that admit it, to exactly [w * h] pixels close to the
    ones the standard prescribes.  Missing: what is missing in C38; widths with
    [9 * w <= 64 * ((w + 7) / 8)] (all of them below 57) and the sizes above 65527, for which the
    claim is false (C32, C02). *)
Theorem C49_partial : forall cpu o ps q t w h cd is K n sfx,
  progressive_image ps (Gray q) w h [cd] is [K] n sfx -> complete K -> short_end (image_geo (Gray q) w h) [cd] [] is ->
  w <= o_max_width o -> h <= o_max_height o -> n <= o_max_scans o ->
  last_quant (quants ps) q = Some t -> Forall (in_range (qd_values t)) (cd_blocks cd) ->
  w <= 65527 -> h <= 65527 -> 64 * ((w + 7) / 8) < 9 * w ->
  exists px, fst (decode_buffer (new_with_options cpu o) (file 194 ps (Gray q) w h is sfx)) = Ok px /\
    close_to (qd_values t) (cd_blocks cd) w h px.
Proof. exact gray_file_complete. Qed.
Print Assumptions C49_partial.

(** Files cut short after any scan: the pixels are those of what has been sent; or the decoder
    gives up after the first scan. *)
Theorem C49_known_partial : forall cpu o ps q t w h cd is K n sfx,
  progressive_image ps (Gray q) w h [cd] is [K] n sfx ->
  w <= o_max_width o -> h <= o_max_height o -> n <= o_max_scans o ->
  last_quant (quants ps) q = Some t ->
  Forall (fun zz => in_range (qd_values t) (known_block K zz)) (cd_blocks cd) ->
  w <= 65527 -> h <= 65527 -> 64 * ((w + 7) / 8) < 9 * w ->
  let r := fst (decode_buffer (new_with_options cpu o) (file 194 ps (Gray q) w h is sfx)) in
  (exists px, r = Ok px /\ close_to (qd_values t) (map (known_block K) (cd_blocks cd)) w h px) \/
  r = Err missing_marker /\ ~ short_end (image_geo (Gray q) w h) [cd] [] is.
Proof. exact gray_file. Qed.
Print Assumptions C49_known_partial.

(** The image of C38_case: 15 by 7 pixels, all quantizers 3 *)
Example C49_case :
  progressive_image ex_q (Gray 0) 15 7 [ex_cd] ex_is [ex_K] 4 [9; 9] /\ complete ex_K /\ short_end (image_geo (Gray 0) 15 7) [ex_cd] [] ex_is /\
  last_quant (quants ex_q) 0 = Some (mkQuantDef 0 (repeat 3 64)) /\
  Forall (in_range (repeat 3 64)) (cd_blocks ex_cd) /\ 64 * ((15 + 7) / 8) < 9 * 15 /\
  match fst (decode_buffer (new_with_options Scalar default_options) (file 194 ex_q (Gray 0) 15 7 ex_is [9; 9])) with
  | Ok px => length px = 105%nat /\ firstn 15 px = [129; 129; 130; 130; 131; 131; 132; 132; 127; 127; 127; 127; 127; 127; 127]
  | _ => False
  end.
Proof.
  destruct C38_case as (H1 & H2 & H3). split; [exact H1|]. split; [exact (Forall_inv H2)|]. split; [exact H3|].
  split; [reflexivity|]. split.
  - repeat constructor; intros; try (cbn; lia).
    all: do 64 (destruct k as [|k]; [cbn; lia|]); lia.
  - split; [lia|]. vm_compute. split; reflexivity.
Qed.

(** Without the condition on the width the claim is false: the same scans in an image of 9 by 7
    pixels make the decoder panic. *)
Theorem C49_refuted : exists o ps q t w h cd is K n sfx,
  progressive_image ps (Gray q) w h [cd] is [K] n sfx /\ complete K /\ short_end (image_geo (Gray q) w h) [cd] [] is /\
  w <= o_max_width o /\ h <= o_max_height o /\ n <= o_max_scans o /\
  last_quant (quants ps) q = Some t /\ Forall (in_range (qd_values t)) (cd_blocks cd) /\
  forall cpu, exists m, fst (decode_buffer (new_with_options cpu o) (file 194 ps (Gray q) w h is sfx)) = Panic m.
Proof.
  destruct C49_case as (H1 & H2 & H3 & H4 & H5 & _).
  exists default_options, ex_q, 0, (mkQuantDef 0 (repeat 3 64)), 9, 7, ex_cd, ex_is, ex_K, 4, [].
  split; [|split; [exact H2|split; [exact H3|split; [cbn; lia|split; [cbn; lia|split; [cbn; lia|split; [exact H4|split; [exact H5|]]]]]]]].
  - split; try apply H1; try lia.
    + split; [reflexivity|]. intros [|[|k]] cd; [intros [= <-]; repeat split|discriminate|discriminate].
    + apply forallb_byte. vm_compute. reflexivity.
  - intros []; (eexists; vm_compute; reflexivity).
Qed.
Print Assumptions C49_refuted.
