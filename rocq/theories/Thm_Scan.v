(** Theorems about scans, restart markers and reuse: refutations, and what remains true of
    restart markers (C03, C10, C34, C35, C36). *)
From Coq Require Import ZArith String List Bool Lia.
From Verif Require Import Base Types State Bitstream Headers Mcu Decoder SpecSegments SpecBits Session Files ExTools Obs.
From Verif Require Import ScanFacts.
Import ListNotations.
Local Open Scope Z_scope.

(** Files with one 4:4:4, 4:2:2 or 4:2:0 baseline scan.  The DC code has the symbols 0 (00) and
    3 (01), the AC code has EOB (0); [dc7] is a block with DC difference 7, [dc0] one with 0. *)
Definition dc0 : list bool := [false; false; false].
Definition dc7 : list bool := [false; true; true; true; true; false].
Definition colour_file (h w y : Z) (pre data : list Z) : list Z :=
  (soi ++ dqt 16 ++ sof 192 h w [(1, y); (2, 17); (3, 17)] ++ dht_dc (0 :: 2 :: repeat 0 14) [0; 3]
   ++ dht_ac one [0] ++ pre ++ sos [1; 2; 3] ++ data ++ eoi)%list.
Definition pixels (o : options) (buf : list Z) : res (list Z) :=
  fst (decode_buffer (new_with_options Scalar o) buf).
Definition ycc : options := set_out_colorspace default_options YCbCr.

(** C34 is false: of a 4:2:2 image with an odd number of block rows the last one is never
    decoded.  With eight rows that is the whole image: the two files encode different images
    and both come out black. *)
Theorem C34_refuted :
  exists data1 data2 px,
    data1 = scan (dc7 ++ dc7 ++ dc7 ++ dc7) /\ data2 = scan (dc0 ++ dc0 ++ dc0 ++ dc0) /\
    px = repeat 0 (8 * 16 * 3) /\
    pixels ycc (colour_file 8 16 33 [] data1) = Ok px /\
    pixels ycc (colour_file 8 16 33 [] data2) = Ok px.
Proof. do 3 eexists. repeat (split; [reflexivity|]). split; vm_compute; reflexivity. Qed.
Print Assumptions C34_refuted.

(** C36 is false: the chrominance of a 4:4:4 image is dropped as soon as the bit reader has
    seen EOI.  Both files begin with the same three blocks; in the first, EOI is near. *)
Theorem C36_refuted :
  exists px px',
    pixels ycc (colour_file 8 16 17 [] (scan (concat (repeat dc7 6)))) = Ok px /\
    pixels ycc (colour_file 8 64 17 [] (scan (concat (repeat dc7 24)))) = Ok px' /\
    firstn 3 px = [142; 128; 128] /\ firstn 3 px' = [142; 142; 142].
Proof. do 2 eexists. split; [vm_compute; reflexivity|]. split; [vm_compute; reflexivity|]. split; reflexivity. Qed.
Print Assumptions C36_refuted.

(** C35 is false for colour images: the interval is counted in blocks of single components.
    Every interval of this file holds the same MCU, but the MCUs after the first come out
    different. *)
Theorem C35_refuted :
  exists px,
    pixels ycc (colour_file 8 32 17 (dri 1)
      (scan (dc7 ++ dc7 ++ dc7) ++ [255; 208] ++ scan (dc7 ++ dc7 ++ dc7) ++ [255; 209]
       ++ scan (dc7 ++ dc7 ++ dc7) ++ [255; 210] ++ scan (dc7 ++ dc7 ++ dc7))) = Ok px /\
    firstn 3 px = [142; 142; 142] /\ firstn 3 (skipn 24 px) = [142; 128; 128] /\
    firstn 3 (skipn 48 px) = [156; 128; 128].
Proof. eexists. split; [vm_compute; reflexivity|]. vm_compute. repeat split. Qed.
Print Assumptions C35_refuted.

(** C35, what holds: when fewer than 32 bits are left before a restart marker and the interval
    ends after the next refill, decoding goes on with an empty bit buffer on the bytes right
    behind the marker and with predictors zero.  Missing: that intervals are counted in MCUs
    (see [C35_refuted]), and intervals whose last blocks need no refill. *)
Theorem C35_resync_partial : forall rd os s n rest d,
  Forall byte rd -> 0 <= n < 8 -> snd (entropy rd) = AtMarker (208 + n) rest ->
  legal_ops 0 (length (scan_bits rd)) os ->
  run_ops os (bst_new rd) = (Ok (fst (spec_ops os (scan_bits rd))), s) ->
  (length (snd (spec_ops os (scan_bits rd))) < 32)%nat ->
  d_todo d = 1 ->
  exists s' d', refill s = (Ok tt, s') /\ tick d s' = (Ok tt, d', bst_new rest) /\
    d_todo d' = d_ri d /\ Forall (fun c => c_pred c = 0) (d_comps d') /\
    length (d_comps d') = length (d_comps d) /\
    set_d_todo 0 (set_d_comps [] d') = set_d_todo 0 (set_d_comps [] d).
Proof. exact C35_resync_lemma. Qed.
Print Assumptions C35_resync_partial.

Example C35_case :
  let rd := [171; 255; 0; 18; 255; 211; 77; 78] in
  let os := [RRefill; RGet 20] in
  Forall byte rd /\ snd (entropy rd) = AtMarker (208 + 3) [77; 78] /\
  legal_ops 0 (length (scan_bits rd)) os /\
  (length (snd (spec_ops os (scan_bits rd))) < 32)%nat /\
  (exists s, run_ops os (bst_new rd) = (Ok [704497], s)) /\
  (** and a grayscale file with an interval of two blocks *)
  (exists px, pixels default_options (soi ++ dqt 16 ++ sof 192 8 64 [(1, 17)]
      ++ dht_dc (0 :: 2 :: repeat 0 14) [0; 3] ++ dht_ac one [0] ++ dri 2 ++ sos [1]
      ++ scan (dc7 ++ dc7) ++ [255; 208] ++ scan (dc7 ++ dc7) ++ [255; 209]
      ++ scan (dc7 ++ dc7) ++ [255; 210] ++ scan (dc7 ++ dc7) ++ eoi) = Ok px /\
    firstn 64 px = concat (repeat (repeat 142 8 ++ repeat 156 8) 4))%list.
Proof.
  cbv zeta. split; [repeat constructor; discriminate|]. split; [reflexivity|]. split; [cbn; lia|].
  split; [vm_compute; lia|]. split; [eexists; vm_compute; reflexivity|].
  eexists. split; vm_compute; reflexivity.
Qed.

(** C03 is false.  (a) A second frame header inside the scan changes what the decoder reports
    while the buffer keeps its size; (b) for heights of 65529 and more the allocation wraps. *)
Theorem C03_refuted :
  (exists buf px d, Forall byte buf /\
     decode_buffer (new_with_options Scalar default_options) buf = (Ok px, d) /\
     width d = 100 /\ height d = 100 /\ get_output_colorspace d = GRAYSCALE /\ zlen px = 384) /\
  (exists buf px d, Forall byte buf /\
     decode_buffer (new_with_options Scalar (set_max_height default_options 65535)) buf = (Ok px, d) /\
     width d = 16 /\ height d = 65529 /\ get_output_colorspace d = GRAYSCALE /\ zlen px = 24).
Proof.
  split.
  - exists (soi ++ dqt 1 ++ sof 192 8 16 [(1, 17)] ++ dqt 1 ++ dht_dc one [0] ++ dht_ac (1 :: 1 :: repeat 0 14) [0; 1]
            ++ sos [1] ++ scan ([false; false; false] ++ concat (repeat [true; false; true] 63))
            ++ sof 192 100 100 [(1, 17)] ++ eoi)%list.
    do 2 eexists. split; [apply forallb_byte; vm_compute; reflexivity|]. split; [vm_compute; reflexivity|].
    vm_compute. repeat split.
  - exists (soi ++ dqt 1 ++ sof 192 65529 16 [(1, 17)] ++ dht_tiny ++ sos [1] ++ eoi)%list.
    do 2 eexists. split; [apply forallb_byte; vm_compute; reflexivity|]. split; [vm_compute; reflexivity|].
    vm_compute. repeat split.
Qed.
Print Assumptions C03_refuted.

(** C10 is false: after a 4:2:0 image the sampling factors stay, and after a grayscale image the
    output stays grayscale. *)
Theorem C10_refuted :
  (exists buf1 buf2 px1 px2 e,
     pixels default_options buf1 = Ok px1 /\ pixels default_options buf2 = Ok px2 /\
     fst (decode_buffer (after Scalar default_options [CDecodeBuffer buf1]) buf2) = Err e) /\
  (exists buf1 buf2 px1 px2 px3,
     pixels default_options buf1 = Ok px1 /\ pixels default_options buf2 = Ok px2 /\
     fst (decode_buffer (after Scalar default_options [CDecodeBuffer buf1]) buf2) = Ok px3 /\ px3 <> px2).
Proof.
  split.
  - exists (colour_zero 32 32 34), (colour_zero 16 16 17). do 3 eexists.
    split; [vm_compute; reflexivity|]. split; vm_compute; reflexivity.
  - exists (gray_zero 16 16), (colour_zero 16 16 17). do 3 eexists.
    split; [vm_compute; reflexivity|]. split; [vm_compute; reflexivity|]. split; [vm_compute; reflexivity|].
    vm_compute. discriminate.
Qed.
Print Assumptions C10_refuted.
