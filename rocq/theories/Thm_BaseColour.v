(** Theorems about baseline colour files, from the bytes to the pixels (C51). *)
From Coq Require Import ZArith String List Bool Lia Reals Lra.
From Verif Require Import Base Types Huffman State Bitstream Headers Mcu Decoder.
From Verif Require Import SpecHuffman SpecSegments SpecExtend SpecBits SpecBlock SpecInter SpecScript SpecImage SpecBaseline SpecDct SpecPixels SpecColourPixels SpecBaseScan SpecBasePixels.
From Verif Require Import Obs ExTools BaseColourReal.
Import ListNotations.
Local Open Scope Z_scope.

(** C51 for output as YCbCr.  A baseline file without subsampling is decoded to three bytes per
    pixel, close to the samples of the standard, except that the last block of Cr, or of both Cb
    and Cr, may come out as zero; this happens only if they take at most 64 bits.  Missing: what
    is missing in C43 (apart from the widths), and files whose last four blocks take at most 64
    bits. *)
Theorem C51_ycc_partial : forall cpu o ps q q1 q2 w h tss sel B bits sfx t0 t1 t2,
  let l := Colour 1 1 q q1 q2 in
  let cd := sel_codes (huffs ps ++ concat tss) sel in
  baseline_colour ps l w h tss sel B bits sfx -> w <= o_max_width o -> h <= o_max_height o ->
  last_quant (quants ps) q = Some t0 -> last_quant (quants ps) q1 = Some t1 -> last_quant (quants ps) q2 = Some t2 ->
  64 < last_bits cd (image_blocks l w h B) 4 -> Forall plane_in_range (image_planes [t0; t1; t2] w h B) ->
  o_colorspace o = YCbCr ->
  exists ks px,
    (ks = [] \/ ks = [2] \/ ks = [1; 2])%nat /\ (ks <> [] -> last_bits cd (image_blocks l w h B) (length ks) <= 64) /\
    fst (decode_buffer (new_with_options cpu o) (colour_file ps l w h tss sel bits sfx)) = Ok px /\
    close_to_ycc (image_planes [t0; t1; t2] w h (without_last ks w h B)) w h px.
Proof. exact base_ycc. Qed.
Print Assumptions C51_ycc_partial.

(** C51 for output as RGB, for the columns of C50.  With the SSE conversion for
    widths of at least 22 (C28). *)
Theorem C51_rgb_partial : forall cpu o ps q q1 q2 w h tss sel B bits sfx t0 t1 t2,
  let l := Colour 1 1 q q1 q2 in
  let cd := sel_codes (huffs ps ++ concat tss) sel in
  baseline_colour ps l w h tss sel B bits sfx -> w <= o_max_width o -> h <= o_max_height o ->
  last_quant (quants ps) q = Some t0 -> last_quant (quants ps) q1 = Some t1 -> last_quant (quants ps) q2 = Some t2 ->
  64 < last_bits cd (image_blocks l w h B) 4 -> Forall plane_in_range (image_planes [t0; t1; t2] w h B) ->
  forall m, o_colorspace o = RGB -> cpu <> Sse41 \/ o_use_unsafe o = false \/ 22 <= w ->
  w < 16 /\ m <= w \/ 16 <= w /\ m <= 16 * (8 * ((w + 7) / 8) / 16 - 1) /\ 3 * m <= 3 * w - 64 ->
  exists ks px,
    (ks = [] \/ ks = [2] \/ ks = [1; 2])%nat /\ (ks <> [] -> last_bits cd (image_blocks l w h B) (length ks) <= 64) /\
    fst (decode_buffer (new_with_options cpu o) (colour_file ps l w h tss sel bits sfx)) = Ok px /\
    close_to_rgb m (image_planes [t0; t1; t2] w h (without_last ks w h B)) w h px.
Proof. exact base_rgb. Qed.
Print Assumptions C51_rgb_partial.

(** C51 for output as grayscale: all of the luminance, for the widths of C49 *)
Theorem C51_luma_partial : forall cpu o ps q q1 q2 w h tss sel B bits sfx t0 t1 t2,
  let l := Colour 1 1 q q1 q2 in
  let cd := sel_codes (huffs ps ++ concat tss) sel in
  baseline_colour ps l w h tss sel B bits sfx -> w <= o_max_width o -> h <= o_max_height o ->
  last_quant (quants ps) q = Some t0 -> last_quant (quants ps) q1 = Some t1 -> last_quant (quants ps) q2 = Some t2 ->
  64 < last_bits cd (image_blocks l w h B) 4 -> Forall plane_in_range (image_planes [t0; t1; t2] w h B) ->
  o_colorspace o = GRAYSCALE -> 64 * ((w + 7) / 8) < 9 * w ->
  exists px,
    fst (decode_buffer (new_with_options cpu o) (colour_file ps l w h tss sel bits sfx)) = Ok px /\
    close_to (qd_values t0) (component_blocks ((w + 7) / 8) ((h + 7) / 8) (B 0%nat)) w h px.
Proof. exact base_luma. Qed.
Print Assumptions C51_luma_partial.

(** An image of 15 by 7 pixels, two MCUs; the luminance has 30 AC coefficients per block *)
Definition bc_dct : huff_def := mkHuffDef false 0 (1 :: 1 :: repeat 0 14) [2; 0].
Definition bc_act : huff_def := mkHuffDef true 1 (1 :: 1 :: repeat 0 14) [1; 0].
Definition bc_ps : list pre := [Huff [bc_dct]; Quant [mkQuantDef 2 (repeat 90 64)]].
Definition bc_B (k : nat) (x y : Z) : list Z :=
  match k with 0%nat => 3 :: repeat (1 - 2 * x) 30 ++ repeat 0 33 | 1%nat => -2 :: repeat 0 63 | _ => 2 :: repeat 0 63 end.
Definition bc_sel : list (Z * Z) := [(0, 1); (0, 1); (0, 1)].
Definition bc_l : layout := Colour 1 1 2 2 2.
Definition bc_code : list bool :=
  match encode_units (sel_codes [bc_dct; bc_act] bc_sel) (fun _ => 0) (image_blocks bc_l 15 7 bc_B) with Some b => b | None => [] end.

Lemma bc_dct_legal : huff_def_legal bc_dct.
Proof.
  unfold huff_def_legal. cbn [hf_dest hf_counts hf_symbols hf_ac bc_dct]. split; [lia|].
  assert (H : table_def (1 :: 1 :: repeat 0 14) [2; 0]) by (apply table_defb_ok; vm_compute; reflexivity).
  split; [exact H|]. split.
  - eexists. apply HuffmanPrefix.canonical_prefix_code with [2; 0]; [apply H|vm_compute; reflexivity].
  - intros _. repeat constructor; lia.
Qed.
Lemma bc_act_legal : huff_def_legal bc_act.
Proof.
  unfold huff_def_legal. cbn [hf_dest hf_counts hf_symbols hf_ac bc_act]. split; [lia|].
  assert (H : table_def (1 :: 1 :: repeat 0 14) [1; 0]) by (apply table_defb_ok; vm_compute; reflexivity).
  split; [exact H|]. split; [|discriminate].
  eexists. apply HuffmanPrefix.canonical_prefix_code with [1; 0]; [apply H|vm_compute; reflexivity].
Qed.
Lemma bc_image : baseline_colour bc_ps bc_l 15 7 [[bc_act]] bc_sel bc_B bc_code [9; 9].
Proof.
  split; try lia.
  - constructor; [split; [constructor; [apply bc_dct_legal|constructor]|vm_compute; discriminate]|].
    constructor; [|constructor]. split; [|vm_compute; discriminate]. constructor; [|constructor].
    split; [cbn; lia|]. split; [reflexivity|]. apply forallb_byte. reflexivity.
  - eexists _, _, _, _, _. reflexivity.
  - cbn. lia.
  - repeat (constructor; [discriminate|]). constructor.
  - constructor; [|constructor]. split; [constructor; [apply bc_act_legal|constructor]|vm_compute; discriminate].
  - split; [reflexivity|].
    assert (H : usable (huffs bc_ps ++ concat [[bc_act]]) false 0 /\ usable (huffs bc_ps ++ concat [[bc_act]]) true 1).
    { split; (eexists; split; [reflexivity|]); [discriminate|]. intros _. cbn [hf_counts hf_symbols bc_act]. apply codes_long; vm_compute; reflexivity. }
    destruct H. repeat (constructor; [repeat split; (lia || assumption)|]). constructor.
  - vm_compute. reflexivity.
  - change (image_blocks bc_l 15 7 bc_B) with [(0%nat, bc_B 0 0 0); (1%nat, bc_B 1 0 0); (2%nat, bc_B 2 0 0); (0%nat, bc_B 0 1 0); (1%nat, bc_B 1 1 0); (2%nat, bc_B 2 1 0)].
    cbn [units_pred].
    repeat split; try (vm_compute; discriminate || reflexivity).
    all: repeat (apply Forall_cons; [vm_compute; discriminate|]); apply Forall_nil.
  - apply forallb_byte. reflexivity.
Qed.
Lemma bc_range : Forall plane_in_range (image_planes [mkQuantDef 2 (repeat 90 64); mkQuantDef 2 (repeat 90 64); mkQuantDef 2 (repeat 90 64)] 15 7 bc_B).
Proof.
  assert (H : forall b, In b [bc_B 0 0 0; bc_B 0 1 0; bc_B 1 0 0; bc_B 2 0 0] -> in_range (repeat 90 64) b).
  { intros b Hb. split.
    - intros k Hk. revert b Hb. assert (G : Forall (fun k => Forall (fun b => -2048 <= nth k b 0 * nth k (repeat 90 64) 0 <= 2048) [bc_B 0 0 0; bc_B 0 1 0; bc_B 1 0 0; bc_B 2 0 0]) (seq 0 64)).
      { apply Forall_forall. intros j _. do 64 (destruct j as [|j]; [repeat (apply Forall_cons; [vm_compute; split; discriminate|]); apply Forall_nil|]).
        repeat (apply Forall_cons; [cbn; destruct j; cbn; lia|]); apply Forall_nil. }
      rewrite Forall_forall in G. specialize (G k ltac:(apply in_seq; lia)). rewrite Forall_forall in G. exact G.
    - intros _. destruct Hb as [<-|[<-|[<-|[<-|[]]]]]; vm_compute; split; discriminate. }
  repeat (apply Forall_cons; [unfold plane_in_range; cbn [pl_qv pl_blocks qd_values];
    match goal with |- Forall _ (component_blocks _ _ ?b) => change (component_blocks ((15 + 7) / 8) ((7 + 7) / 8) b) with [b 0 0; b 1 0] end;
    repeat (apply Forall_cons; [apply H; cbn; auto|]); apply Forall_nil|]). apply Forall_nil.
Qed.
Definition bc_opt : options := set_out_colorspace default_options YCbCr.
Definition bc_px (cpu : isa) (o : options) : res (list Z) :=
  fst (decode_buffer (new_with_options cpu o) (colour_file bc_ps bc_l 15 7 [[bc_act]] bc_sel bc_code [9; 9])).
Definition bc_q : quant_def := mkQuantDef 2 (repeat 90 64).
Example C51_case :
  baseline_colour bc_ps bc_l 15 7 [[bc_act]] bc_sel bc_B bc_code [9; 9] /\
  last_quant (quants bc_ps) 2 = Some bc_q /\
  Forall plane_in_range (image_planes [bc_q; bc_q; bc_q] 15 7 bc_B) /\
  last_bits (sel_codes (huffs bc_ps ++ concat [[bc_act]]) bc_sel) (image_blocks bc_l 15 7 bc_B) 4 = 77 /\
  last_bits (sel_codes (huffs bc_ps ++ concat [[bc_act]]) bc_sel) (image_blocks bc_l 15 7 bc_B) 2 = 8 /\
  64 * ((15 + 7) / 8) < 9 * 15 /\
  match bc_px Scalar bc_opt, bc_px Avx2 (set_out_colorspace default_options RGB), bc_px Sse41 (set_out_colorspace default_options GRAYSCALE) with
  | Ok px, Ok px', Ok px'' =>
      (length px = 315%nat /\ firstn 27 px = [255; 105; 150; 197; 105; 150; 197; 105; 150; 183; 105; 150; 161; 105; 150; 182; 105; 150;
        184; 105; 150; 170; 105; 150; 0; 128; 128]) /\
      (length px' = 315%nat /\ firstn 6 px' = [255; 248; 214; 227; 190; 156]) /\
      (length px'' = 105%nat /\ firstn 15 px'' = [255; 197; 197; 183; 161; 182; 184; 170; 0; 126; 127; 140; 162; 142; 139])
  | _, _, _ => False
  end.
Proof.
  split; [exact bc_image|]. split; [reflexivity|]. split; [exact bc_range|]. split; [vm_compute; reflexivity|]. split; [vm_compute; reflexivity|].
  split; [reflexivity|]. vm_compute. repeat split.
Qed.

(** The exact value of the last sample of Cr is not 128 *)
Lemma bc_exact : ~ (Rabs (IZR 128 - exact_at 15 (plane_at (image_planes [bc_q; bc_q; bc_q] 15 7 bc_B) 2) 0 8) <=
  tolerance_at 15 (plane_at (image_planes [bc_q; bc_q; bc_q] 15 7 bc_B) 2) 0 8)%R.
Proof.
  intros H.
  assert (Hb : in_range (repeat 90 64) (bc_B 2 1 0)).
  { pose proof bc_range as G. apply Forall_inv_tail, Forall_inv_tail, Forall_inv in G. apply Forall_inv_tail, Forall_inv in G. exact G. }
  destruct (GrayReal.sample_close IdctScalar (repeat 90 64) (bc_B 2 1 0) 0 0) as [_ G]; try lia; try reflexivity; [apply forallb_byte; reflexivity|exact Hb|].
  change (exact_at 15 (plane_at (image_planes [bc_q; bc_q; bc_q] 15 7 bc_B) 2) 0 8) with (clampR (idct_exact (dequantized (repeat 90 64) (bc_B 2 1 0)) 0 0)) in H.
  change (tolerance_at 15 (plane_at (image_planes [bc_q; bc_q; bc_q] 15 7 bc_B) 2) 0 8) with (tolerance (repeat 90 64) (bc_B 2 1 0)) in H.
  assert (T : tolerance (repeat 90 64) (bc_B 2 1 0) = 1%R).
  { unfold tolerance. rewrite Rmax_left; [reflexivity|]. unfold magnitude, sumR8.
    repeat match goal with |- context [IZR (Z.abs ?z)] => let v := eval vm_compute in (Z.abs z) in change (IZR (Z.abs z)) with (IZR v) end. lra. }
  rewrite T in G, H. set (e := clampR _) in *. 
  match type of G with context [IZR ?p] => let v := eval vm_compute in p in replace p with v in G by (vm_compute; reflexivity) end.
  apply IdctReal.Rabs_le_inv in G. apply IdctReal.Rabs_le_inv in H. lra.
Qed.
Lemma bc_wrong cpu : exists px,
  fst (decode_buffer (new_with_options cpu bc_opt) (colour_file bc_ps (Colour 1 1 2 2 2) 15 7 [[bc_act]] bc_sel bc_code [9; 9])) = Ok px /\ nth 26 px 0 = 128.
Proof.
  assert (E : match fst (decode_buffer (new_with_options cpu bc_opt) (colour_file bc_ps (Colour 1 1 2 2 2) 15 7 [[bc_act]] bc_sel bc_code [9; 9])) with
    | Ok px => nth 26 px 0 = 128 | _ => False end) by (destruct cpu; vm_compute; reflexivity).
  destruct (fst _) as [px| | |]; [eauto|contradiction..].
Qed.
(** Without the exception the claim is false: the colour of the last block is lost. *)
Theorem C51_refuted : exists o ps q q1 q2 w h tss sel B bits sfx t0 t1 t2,
  let l := Colour 1 1 q q1 q2 in
  baseline_colour ps l w h tss sel B bits sfx /\ w <= o_max_width o /\ h <= o_max_height o /\
  last_quant (quants ps) q = Some t0 /\ last_quant (quants ps) q1 = Some t1 /\ last_quant (quants ps) q2 = Some t2 /\
  64 < last_bits (sel_codes (huffs ps ++ concat tss) sel) (image_blocks l w h B) 4 /\
  Forall plane_in_range (image_planes [t0; t1; t2] w h B) /\ o_colorspace o = YCbCr /\
  forall cpu, exists px, fst (decode_buffer (new_with_options cpu o) (colour_file ps l w h tss sel bits sfx)) = Ok px /\
    ~ close_to_ycc (image_planes [t0; t1; t2] w h B) w h px.
Proof.
  exists bc_opt, bc_ps, 2, 2, 2, 15, 7, [[bc_act]], bc_sel, bc_B, bc_code, [9; 9], bc_q, bc_q, bc_q. intros l.
  split; [exact bc_image|]. split; [cbn; lia|]. split; [cbn; lia|]. split; [reflexivity|]. split; [reflexivity|]. split; [reflexivity|].
  split; [vm_compute; reflexivity|]. split; [exact bc_range|]. split; [reflexivity|].
  intros cpu. destruct (bc_wrong cpu) as (px & E & N). exists px. split; [exact E|]. intros [_ H].
  destruct (H 0 8 2 ltac:(lia) ltac:(lia) ltac:(lia)) as [_ C]. change (Z.to_nat ((0 * 15 + 8) * 3 + 2)) with 26%nat in C. rewrite N in C.
  exact (bc_exact C).
Qed.
Print Assumptions C51_refuted.
