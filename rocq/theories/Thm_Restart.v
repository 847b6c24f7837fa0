(** Theorems about baseline grayscale files with restart intervals, from the bytes to the
    pixels (C35). *)
From Coq Require Import ZArith String List Bool Lia.
From Verif Require Import Base Types Huffman State Bitstream Headers Mcu Decoder.
From Verif Require Import SpecHuffman SpecSegments SpecExtend SpecBits SpecBlock SpecScript SpecImage SpecBaseline SpecRestart SpecDct SpecPixels.
From Verif Require Import Obs ExTools RestartFile.
Import ListNotations.
Local Open Scope Z_scope.

(** C35.  A baseline grayscale file with a restart marker after every [ri] blocks is decoded, on
    every machine and with all options that admit it, to exactly [w * h] pixels close to the ones
    the standard prescribes for the coefficients of all its intervals.  Missing: colour files;
    intervals whose last symbol takes more than 24 bits ([short_closes]), for which the claim is
    false; and what is missing from C43. *)
Theorem C35_gray_partial : forall cpu o ps q t w h tss1 ri tss2 td ta zss bss sfx,
  restart_gray ps q w h tss1 ri tss2 td ta zss bss sfx ->
  short_closes (code_at (huffs ps ++ concat tss1 ++ concat tss2) true ta) zss ->
  w <= o_max_width o -> h <= o_max_height o -> last_quant (quants ps) q = Some t ->
  Forall (in_range (qd_values t)) (concat zss) -> 64 * ((w + 7) / 8) < 9 * w ->
  exists px, fst (decode_buffer (new_with_options cpu o) (restart_file ps q w h tss1 ri tss2 td ta bss sfx)) = Ok px /\
    close_to (qd_values t) (concat zss) w h px.
Proof. exact restart_real. Qed.
Print Assumptions C35_gray_partial.

(** 15 by 15 pixels, that is four blocks; the intervals have three blocks and one block *)
Definition rs_dct : huff_def := mkHuffDef false 0 (1 :: 1 :: repeat 0 14) [3; 0].
Definition rs_act : huff_def := mkHuffDef true 1 (1 :: 1 :: 1 :: repeat 0 13) [0; 2; 1].
Definition rs_ps : list pre := [Huff [rs_dct]; Quant [mkQuantDef 2 (repeat 3 64)]].
Definition rs_zss : list (list (list Z)) :=
  [[[5; -3; 1] ++ repeat 0 61; -2 :: repeat 0 63; -7 :: 3 :: repeat 0 62]; [4 :: repeat 0 63]]%list.
Definition rs_bss : list (list bool) :=
  [[false; true; false; true;   (* DC 5 *)
    true; false; false; false;  (* -3 *)
    true; true; false; true;    (* 1 *)
    false;                      (* end of block *)
    false; false; false; false; (* DC -2 - 5 *)
    false;
    false; false; true; false;  (* DC -7 + 2 *)
    true; false; true; true;    (* 3 *)
    false];
   [false; true; false; false;  (* DC 4 *)
    false]].
Lemma rs_dct_legal : huff_def_legal rs_dct.
Proof.
  unfold huff_def_legal. cbn [hf_dest hf_counts hf_symbols hf_ac rs_dct]. split; [lia|].
  assert (H : table_def (1 :: 1 :: repeat 0 14) [3; 0]) by (apply table_defb_ok; vm_compute; reflexivity).
  split; [exact H|]. split.
  - eexists. apply HuffmanPrefix.canonical_prefix_code with [3; 0]; [apply H|vm_compute; reflexivity].
  - intros _. repeat constructor; lia.
Qed.
Lemma rs_act_legal : huff_def_legal rs_act.
Proof.
  unfold huff_def_legal. cbn [hf_dest hf_counts hf_symbols hf_ac rs_act]. split; [lia|].
  assert (H : table_def (1 :: 1 :: 1 :: repeat 0 13) [0; 2; 1]) by (apply table_defb_ok; vm_compute; reflexivity).
  split; [exact H|]. split; [|discriminate].
  eexists. apply HuffmanPrefix.canonical_prefix_code with [0; 2; 1]; [apply H|vm_compute; reflexivity].
Qed.
Ltac rs_blocks := repeat first
  [ exact I
  | match goal with |- with_pred _ _ (_ :: _) => split end
  | split; [split; [reflexivity|]|vm_compute; discriminate]; split; [lia|]; split; [vm_compute; discriminate|];
    repeat (constructor; [vm_compute; discriminate|]); constructor ].
Lemma rs_image : restart_gray rs_ps 2 15 15 [[rs_act]] 3 [] 0 1 rs_zss rs_bss [9; 9].
Proof.
  split; try lia.
  - constructor; [split; [constructor; [apply rs_dct_legal|constructor]|vm_compute; discriminate]|].
    constructor; [|constructor]. split; [|vm_compute; discriminate]. constructor; [|constructor].
    split; [cbn; lia|]. split; [reflexivity|]. apply forallb_byte. reflexivity.
  - cbn. lia.
  - constructor; [discriminate|constructor].
  - constructor; [|constructor]. split; [constructor; [apply rs_act_legal|constructor]|vm_compute; discriminate].
  - constructor.
  - eexists. split; [reflexivity|discriminate].
  - eexists. split; [reflexivity|]. intros _. cbn [hf_counts hf_symbols rs_act]. apply codes_long; vm_compute; reflexivity.
  - reflexivity.
  - cbn. lia.
  - constructor; [reflexivity|]. constructor; [reflexivity|]. constructor.
  - constructor; [unfold rs_zss; rs_blocks|]. constructor; [rs_blocks|]. constructor.
  - apply forallb_byte. reflexivity.
Qed.
Lemma rs_range : Forall (in_range (repeat 3 64)) (concat rs_zss).
Proof.
  repeat constructor; intros; try (cbn; lia).
  all: do 64 (destruct k as [|k]; [cbn; lia|]); lia.
Qed.
Example C35_gray_case :
  restart_gray rs_ps 2 15 15 [[rs_act]] 3 [] 0 1 rs_zss rs_bss [9; 9] /\
  short_closes (code_at (huffs rs_ps ++ concat [[rs_act]] ++ concat []) true 1) rs_zss /\
  last_quant (quants rs_ps) 2 = Some (mkQuantDef 2 (repeat 3 64)) /\ Forall (in_range (repeat 3 64)) (concat rs_zss) /\
  64 * ((15 + 7) / 8) < 9 * 15 /\
  match fst (decode_buffer (new_with_options Scalar default_options) (restart_file rs_ps 2 15 15 [[rs_act]] 3 [] 0 1 rs_bss [9; 9])) with
  | Ok px => length px = 225%nat /\ firstn 15 px = [129; 129; 130; 130; 131; 131; 132; 132; 127; 127; 127; 127; 127; 127; 127] /\
             firstn 15 (skipn 120 px) = [127; 127; 126; 126; 125; 124; 124; 124; 129; 129; 129; 129; 129; 129; 129]
  | _ => False
  end.
Proof.
  split; [exact rs_image|]. split; [split; [vm_compute; discriminate|exact I]|]. split; [reflexivity|]. split; [exact rs_range|]. split; [lia|].
  vm_compute. repeat split; reflexivity.
Qed.

(** The same for blocks whose last symbol is long: the marker behind them is not seen in time *)
Definition rl_dct : huff_def := mkHuffDef false 0 (0 :: 1 :: 0 :: 1 :: repeat 0 12) [3; 0].
Definition rl_act : huff_def := mkHuffDef true 1 (1 :: repeat 0 7 ++ [1] ++ repeat 0 6 ++ [1])%list [0; 240; 234].
Definition rl_ps : list pre := [Huff [rl_dct]; Quant [mkQuantDef 2 (repeat 1 64)]].
Definition rl_zss : list (list (list Z)) := [[repeat 0 63 ++ [600]]; [5 :: repeat 0 63]]%list.
Definition rl_bss : list (list bool) :=
  map (fun zs => match encode_blocks (code_at [rl_dct; rl_act] false 0) (code_at [rl_dct; rl_act] true 1) 0 zs with Some b => b | None => [] end) rl_zss.
Lemma rl_dct_legal : huff_def_legal rl_dct.
Proof.
  unfold huff_def_legal. cbn [hf_dest hf_counts hf_symbols hf_ac rl_dct]. split; [lia|].
  assert (H : table_def (0 :: 1 :: 0 :: 1 :: repeat 0 12) [3; 0]) by (apply table_defb_ok; vm_compute; reflexivity).
  split; [exact H|]. split.
  - eexists. apply HuffmanPrefix.canonical_prefix_code with [3; 0]; [apply H|vm_compute; reflexivity].
  - intros _. repeat constructor; lia.
Qed.
Lemma rl_act_legal : huff_def_legal rl_act.
Proof.
  unfold huff_def_legal. cbn [hf_dest hf_counts hf_symbols hf_ac rl_act]. split; [lia|].
  assert (H : table_def (1 :: repeat 0 7 ++ [1] ++ repeat 0 6 ++ [1])%list [0; 240; 234]) by (apply table_defb_ok; vm_compute; reflexivity).
  split; [exact H|]. split; [|discriminate].
  eexists. apply HuffmanPrefix.canonical_prefix_code with [0; 240; 234]; [apply H|vm_compute; reflexivity].
Qed.
Lemma rl_image : restart_gray rl_ps 2 15 7 [[rl_act]] 1 [] 0 1 rl_zss rl_bss [].
Proof.
  split; try lia.
  - constructor; [split; [constructor; [apply rl_dct_legal|constructor]|vm_compute; discriminate]|].
    constructor; [|constructor]. split; [|vm_compute; discriminate]. constructor; [|constructor].
    split; [cbn; lia|]. split; [reflexivity|]. apply forallb_byte. reflexivity.
  - cbn. lia.
  - constructor; [discriminate|constructor].
  - constructor; [|constructor]. split; [constructor; [apply rl_act_legal|constructor]|vm_compute; discriminate].
  - constructor.
  - eexists. split; [reflexivity|discriminate].
  - eexists. split; [reflexivity|]. intros _. cbn [hf_counts hf_symbols rl_act]. apply codes_long; vm_compute; reflexivity.
  - reflexivity.
  - cbn. lia.
  - constructor; [vm_compute; reflexivity|]. constructor; [vm_compute; reflexivity|]. constructor.
  - constructor; [rs_blocks|]. constructor; [rs_blocks|]. constructor.
  - constructor.
Qed.
Lemma rl_range : Forall (in_range (repeat 1 64)) (concat rl_zss).
Proof.
  repeat constructor; intros; try (cbn; lia).
  all: do 64 (destruct k as [|k]; [cbn; lia|]); lia.
Qed.
(** Without the condition on the last symbols the claim is false: a correct file is rejected. *)
Theorem C35_gray_refuted : exists o ps q t w h tss1 ri tss2 td ta zss bss sfx,
  restart_gray ps q w h tss1 ri tss2 td ta zss bss sfx /\
  w <= o_max_width o /\ h <= o_max_height o /\ last_quant (quants ps) q = Some t /\
  Forall (in_range (qd_values t)) (concat zss) /\ 64 * ((w + 7) / 8) < 9 * w /\
  forall cpu, exists e, fst (decode_buffer (new_with_options cpu o) (restart_file ps q w h tss1 ri tss2 td ta bss sfx)) = Err e.
Proof.
  exists default_options, rl_ps, 2, (mkQuantDef 2 (repeat 1 64)), 15, 7, [[rl_act]], 1, [], 0, 1, rl_zss, rl_bss, [].
  split; [exact rl_image|]. split; [cbn; lia|]. split; [cbn; lia|]. split; [reflexivity|]. split; [exact rl_range|]. split; [lia|].
  intros []; (eexists; vm_compute; reflexivity).
Qed.
Print Assumptions C35_gray_refuted.
