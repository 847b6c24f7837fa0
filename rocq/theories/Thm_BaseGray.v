(** Theorems about baseline grayscale files, from the bytes to the pixels (C43). *)
From Coq Require Import ZArith String List Bool Lia.
From Verif Require Import Base Types Huffman State Bitstream Headers Mcu Decoder.
From Verif Require Import SpecHuffman SpecSegments SpecExtend SpecBits SpecBlock SpecScript SpecImage SpecBaseline SpecDct SpecPixels.
From Verif Require Import Obs ExTools BaseReal.
Import ListNotations.
Local Open Scope Z_scope.

(** C43.  A baseline grayscale file is decoded, on every machine and with all options that
    admit it, to exactly [w * h] pixels close to the ones the standard prescribes.  Missing:
    restart intervals (C35), fill bytes (C13), a coding of DC differences in more than 16 bits
    and codes excluded by [usable] (C21), widths with [9 * w <= 64 * ((w + 7) / 8)] (all of
    them below 57) and sizes above 65527, for which the claim is false (C32, C02). *)
Theorem C43_partial : forall cpu o ps q t w h tss td ta blocks bits sfx,
  baseline_gray ps q w h tss td ta blocks bits sfx ->
  w <= o_max_width o -> h <= o_max_height o -> last_quant (quants ps) q = Some t ->
  Forall (in_range (qd_values t)) blocks -> 64 * ((w + 7) / 8) < 9 * w ->
  exists px, fst (decode_buffer (new_with_options cpu o) (file 192 ps (Gray q) w h (baseline_items tss td ta bits) sfx)) = Ok px /\
    close_to (qd_values t) blocks w h px.
Proof. exact base_real. Qed.
Print Assumptions C43_partial.

(** 15 by 7 pixels, that is two blocks; the DC table is sent before the frame header, the AC
    table after it *)
Definition bg_dct : huff_def := mkHuffDef false 0 (1 :: 1 :: repeat 0 14) [3; 0].
Definition bg_act : huff_def := mkHuffDef true 1 (1 :: 1 :: 1 :: repeat 0 13) [0; 2; 1].
Definition bg_ps : list pre := [Huff [bg_dct]; Skip 225 [1; 2; 3]; Quant [mkQuantDef 2 (repeat 3 64)]].
Definition bg_blk : list (list Z) := [[5; -3; 1] ++ repeat 0 61; -2 :: repeat 0 63]%list.
Definition bg_code : list bool :=
  [false; true; false; true;   (* DC 5 *)
   true; false; false; false;  (* -3 *)
   true; true; false; true;    (* 1 *)
   false;                      (* end of block *)
   false; false; false; false; (* DC -2 - 5 *)
   false].

Lemma bg_dct_legal : huff_def_legal bg_dct.
Proof.
  unfold huff_def_legal. cbn [hf_dest hf_counts hf_symbols hf_ac bg_dct]. split; [lia|].
  assert (H : table_def (1 :: 1 :: repeat 0 14) [3; 0]) by (apply table_defb_ok; vm_compute; reflexivity).
  split; [exact H|]. split.
  - eexists. apply HuffmanPrefix.canonical_prefix_code with [3; 0]; [apply H|vm_compute; reflexivity].
  - intros _. repeat constructor; lia.
Qed.
Lemma bg_act_legal : huff_def_legal bg_act.
Proof.
  unfold huff_def_legal. cbn [hf_dest hf_counts hf_symbols hf_ac bg_act]. split; [lia|].
  assert (H : table_def (1 :: 1 :: 1 :: repeat 0 13) [0; 2; 1]) by (apply table_defb_ok; vm_compute; reflexivity).
  split; [exact H|]. split; [|discriminate].
  eexists. apply HuffmanPrefix.canonical_prefix_code with [0; 2; 1]; [apply H|vm_compute; reflexivity].
Qed.
Lemma bg_image w : 9 <= w <= 16 -> baseline_gray bg_ps 2 w 7 [[bg_act]] 0 1 bg_blk bg_code [9; 9].
Proof.
  intros Hw. split; try lia.
  - constructor; [split; [constructor; [apply bg_dct_legal|constructor]|vm_compute; discriminate]|].
    constructor; [split; [unfold SpecFile.skippable; lia|split; [apply forallb_byte; reflexivity|vm_compute; discriminate]]|].
    constructor; [|constructor]. split; [|vm_compute; discriminate]. constructor; [|constructor].
    split; [cbn; lia|]. split; [reflexivity|]. apply forallb_byte. reflexivity.
  - cbn. lia.
  - constructor; [discriminate|constructor].
  - constructor; [|constructor]. split; [constructor; [apply bg_act_legal|constructor]|vm_compute; discriminate].
  - eexists. split; [reflexivity|discriminate].
  - eexists. split; [reflexivity|]. intros _. cbn [hf_counts hf_symbols bg_act]. apply codes_long; vm_compute; reflexivity.
  - change (Z.of_nat (length bg_blk)) with 2. assert ((w + 7) / 8 = 2) as -> by (Z.div_mod_to_equations; lia). reflexivity.
  - reflexivity.
  - split; [|split; [|exact I]].
    + split; [split; [reflexivity|]|vm_compute; discriminate]. split; [lia|]. split; [vm_compute; discriminate|].
      repeat (constructor; [vm_compute; discriminate|]). constructor.
    + split; [split; [reflexivity|]|vm_compute; discriminate]. split; [lia|]. split; [vm_compute; discriminate|].
      repeat (constructor; [vm_compute; discriminate|]). constructor.
  - apply forallb_byte. reflexivity.
Qed.
Lemma bg_range : Forall (in_range (repeat 3 64)) bg_blk.
Proof.
  repeat constructor; intros; try (cbn; lia).
  all: do 64 (destruct k as [|k]; [cbn; lia|]); lia.
Qed.
Example C43_case :
  baseline_gray bg_ps 2 15 7 [[bg_act]] 0 1 bg_blk bg_code [9; 9] /\
  last_quant (quants bg_ps) 2 = Some (mkQuantDef 2 (repeat 3 64)) /\ Forall (in_range (repeat 3 64)) bg_blk /\
  64 * ((15 + 7) / 8) < 9 * 15 /\
  match fst (decode_buffer (new_with_options Scalar default_options)
          (file 192 bg_ps (Gray 2) 15 7 (baseline_items [[bg_act]] 0 1 bg_code) [9; 9])) with
  | Ok px => length px = 105%nat /\ firstn 15 px = [129; 129; 130; 130; 131; 131; 132; 132; 127; 127; 127; 127; 127; 127; 127]
  | _ => False
  end.
Proof.
  split; [apply bg_image; lia|]. split; [reflexivity|]. split; [exact bg_range|]. split; [lia|]. vm_compute. split; reflexivity.
Qed.

(** Without the condition on the width the claim is false: with 9 columns the decoder panics. *)
Theorem C43_refuted : exists o ps q t w h tss td ta blocks bits sfx,
  baseline_gray ps q w h tss td ta blocks bits sfx /\
  w <= o_max_width o /\ h <= o_max_height o /\ last_quant (quants ps) q = Some t /\
  Forall (in_range (qd_values t)) blocks /\
  forall cpu, exists m, fst (decode_buffer (new_with_options cpu o)
    (file 192 ps (Gray q) w h (baseline_items tss td ta bits) sfx)) = Panic m.
Proof.
  exists default_options, bg_ps, 2, (mkQuantDef 2 (repeat 3 64)), 9, 7, [[bg_act]], 0, 1, bg_blk, bg_code, [9; 9].
  split; [apply bg_image; lia|]. split; [cbn; lia|]. split; [cbn; lia|]. split; [reflexivity|]. split; [exact bg_range|].
  intros []; (eexists; vm_compute; reflexivity).
Qed.
Print Assumptions C43_refuted.
