(** Theorems about baseline colour files with subsampled chroma, from the bytes to the pixels (C52). *)
From Coq Require Import ZArith String List Bool Lia Reals Lra.
From Verif Require Import Base Types Huffman State Bitstream Headers Mcu Decoder.
From Verif Require Import SpecHuffman SpecSegments SpecExtend SpecBits SpecBlock SpecInter SpecScript SpecImage SpecBaseline SpecDct SpecPixels SpecColourPixels SpecBaseScan SpecBasePixels SpecSampledPixels.
From Verif Require Import Obs ExTools BaseSampledReal.
Import ListNotations.
Local Open Scope Z_scope.

(** C52 for output as grayscale, for 4:4:4, 4:2:2, 4:4:0 and 4:2:0: all of the luminance.
    Missing: what is missing in C43 and C51; an odd number of rows of MCUs when the luminance has
    twice the columns of the chroma; wide flat images; widths where the padding is too large. *)
Theorem C52_luma_partial : forall cpu o ps hs vs q q1 q2 w h tss sel B bits sfx t0 t1 t2,
  let l := Colour hs vs q q1 q2 in
  let cd := sel_codes (huffs ps ++ concat tss) sel in
  let rows := (h + 8 * vs - 1) / (8 * vs) in
  baseline_colour ps l w h tss sel B bits sfx -> w <= o_max_width o -> h <= o_max_height o ->
  last_quant (quants ps) q = Some t0 -> last_quant (quants ps) q1 = Some t1 -> last_quant (quants ps) q2 = Some t2 ->
  64 < last_bits cd (image_blocks l w h B) (Z.to_nat (hs * vs) + 3) ->
  rows mod hs = 0 -> 8 * vs * rows * w <= (w + 8) * (h + 8) + (if (hs =? 1) && (vs =? 1) then 0 else 128 * h) ->
  Forall plane_in_range (sampled_planes hs vs [t0; t1; t2] w h B) ->
  o_colorspace o = GRAYSCALE -> 8 * (hs * vs) * (8 * ((w + 8 * hs - 1) / (8 * hs) * hs)) < (8 * (hs * vs) + 1) * w ->
  exists px,
    fst (decode_buffer (new_with_options cpu o) (colour_file ps l w h tss sel bits sfx)) = Ok px /\
    close_luma 1 (sampled_planes hs vs [t0; t1; t2] w h B) w h px.
Proof. exact sampled_luma. Qed.
Print Assumptions C52_luma_partial.

(** C52 for output as YCbCr: the luminance; and for 4:2:2 the chroma interpolated with the
    triangle filter, except in the first column and in the last columns of the last MCU, and
    except for the last blocks of Cb and Cr as in C51.  Missing also: the chroma of 4:4:0 and 4:2:0. *)
Theorem C52_ycc_partial : forall cpu o ps hs vs q q1 q2 w h tss sel B bits sfx t0 t1 t2,
  let l := Colour hs vs q q1 q2 in
  let cd := sel_codes (huffs ps ++ concat tss) sel in
  let rows := (h + 8 * vs - 1) / (8 * vs) in
  baseline_colour ps l w h tss sel B bits sfx -> w <= o_max_width o -> h <= o_max_height o ->
  last_quant (quants ps) q = Some t0 -> last_quant (quants ps) q1 = Some t1 -> last_quant (quants ps) q2 = Some t2 ->
  64 < last_bits cd (image_blocks l w h B) (Z.to_nat (hs * vs) + 3) ->
  rows mod hs = 0 -> 8 * vs * rows * w <= (w + 8) * (h + 8) + (if (hs =? 1) && (vs =? 1) then 0 else 128 * h) ->
  Forall plane_in_range (sampled_planes hs vs [t0; t1; t2] w h B) ->
  (hs, vs) <> (1, 1) -> o_colorspace o = YCbCr ->
  exists ks px,
    (ks = [] \/ ks = [2] \/ ks = [1; 2])%nat /\ (ks <> [] -> last_bits cd (image_blocks l w h B) (length ks) <= 64) /\
    fst (decode_buffer (new_with_options cpu o) (colour_file ps l w h tss sel bits sfx)) = Ok px /\
    close_luma 3 (sampled_planes hs vs [t0; t1; t2] w h B) w h px /\
    (vs = 1 -> close_chroma_422 (sampled_planes hs vs [t0; t1; t2] w h (without_last_chroma ks hs vs w h B)) w h px).
Proof. exact sampled_ycc. Qed.
Print Assumptions C52_ycc_partial.

(** C52 for output as RGB from 4:2:2, with the SSE conversion for widths of at least 22
    of which at most ten columns are padding (C28) *)
Theorem C52_rgb_partial : forall cpu o ps hs vs q q1 q2 w h tss sel B bits sfx t0 t1 t2,
  let l := Colour hs vs q q1 q2 in
  let cd := sel_codes (huffs ps ++ concat tss) sel in
  let rows := (h + 8 * vs - 1) / (8 * vs) in
  baseline_colour ps l w h tss sel B bits sfx -> w <= o_max_width o -> h <= o_max_height o ->
  last_quant (quants ps) q = Some t0 -> last_quant (quants ps) q1 = Some t1 -> last_quant (quants ps) q2 = Some t2 ->
  64 < last_bits cd (image_blocks l w h B) (Z.to_nat (hs * vs) + 3) ->
  rows mod hs = 0 -> 8 * vs * rows * w <= (w + 8) * (h + 8) + (if (hs =? 1) && (vs =? 1) then 0 else 128 * h) ->
  Forall plane_in_range (sampled_planes hs vs [t0; t1; t2] w h B) ->
  forall m, hs = 2 -> vs = 1 -> o_colorspace o = RGB -> cpu <> Sse41 \/ o_use_unsafe o = false \/ 22 <= w /\ 16 * ((w + 15) / 16) <= w + 10 ->
  w < 16 /\ m <= w /\ m <= 11 \/ 16 <= w /\ m <= 16 * ((w + 15) / 16 - 1) /\ 3 * m <= 3 * w - 64 ->
  exists ks px,
    (ks = [] \/ ks = [2] \/ ks = [1; 2])%nat /\ (ks <> [] -> last_bits cd (image_blocks l w h B) (length ks) <= 64) /\
    fst (decode_buffer (new_with_options cpu o) (colour_file ps l w h tss sel bits sfx)) = Ok px /\
    close_rgb_422 m (sampled_planes hs vs [t0; t1; t2] w h (without_last_chroma ks hs vs w h B)) w h px.
Proof. exact sampled_rgb. Qed.
Print Assumptions C52_rgb_partial.

(** Images with a gradient in Cb; the luminance has 30 AC coefficients per block *)
Definition sp_dct : huff_def := mkHuffDef false 0 (1 :: 1 :: 1 :: repeat 0 13) [2; 0; 1].
Definition sp_act : huff_def := mkHuffDef true 1 (1 :: 1 :: repeat 0 14) [1; 0].
Definition sp_q : quant_def := mkQuantDef 2 (repeat 90 64).
Definition sp_ps : list pre := [Huff [sp_dct]; Quant [sp_q]].
Definition sp_B (k : nat) (x y : Z) : list Z :=
  match k with 0%nat => 3 :: repeat (1 - 2 * (x mod 2)) 30 ++ repeat 0 33 | 1%nat => -2 :: 1 :: repeat 0 62 | _ => 2 :: repeat 0 63 end.
Definition sp_sel : list (Z * Z) := [(0, 1); (0, 1); (0, 1)].
Definition sp_l (hs vs : Z) : layout := Colour hs vs 2 2 2.
Definition sp_code (hs vs w h : Z) : list bool :=
  match encode_units (sel_codes [sp_dct; sp_act] sp_sel) (fun _ => 0) (image_blocks (sp_l hs vs) w h sp_B) with Some b => b | None => [] end.
Definition sp_file (hs vs w h : Z) : list Z := colour_file sp_ps (sp_l hs vs) w h [[sp_act]] sp_sel (sp_code hs vs w h) [9; 9].
Definition sp_px (hs vs w h : Z) (cpu : isa) (o : options) : res (list Z) := fst (decode_buffer (new_with_options cpu o) (sp_file hs vs w h)).
Definition sp_last (hs vs w h : Z) (n : nat) : Z :=
  last_bits (sel_codes (huffs sp_ps ++ concat [[sp_act]]) sp_sel) (image_blocks (sp_l hs vs) w h sp_B) n.

Lemma sp_dct_legal : huff_def_legal sp_dct.
Proof.
  unfold huff_def_legal. cbn [hf_dest hf_counts hf_symbols hf_ac sp_dct]. split; [lia|].
  assert (H : table_def (1 :: 1 :: 1 :: repeat 0 13) [2; 0; 1]) by (apply table_defb_ok; vm_compute; reflexivity).
  split; [exact H|]. split.
  - eexists. apply HuffmanPrefix.canonical_prefix_code with [2; 0; 1]; [apply H|vm_compute; reflexivity].
  - intros _. repeat constructor; lia.
Qed.
Lemma sp_act_legal : huff_def_legal sp_act.
Proof.
  unfold huff_def_legal. cbn [hf_dest hf_counts hf_symbols hf_ac sp_act]. split; [lia|].
  assert (H : table_def (1 :: 1 :: repeat 0 14) [1; 0]) by (apply table_defb_ok; vm_compute; reflexivity).
  split; [exact H|]. split; [|discriminate].
  eexists. apply HuffmanPrefix.canonical_prefix_code with [1; 0]; [apply H|vm_compute; reflexivity].
Qed.
Lemma sp_image hs vs w h : 0 < w <= 65527 -> 0 < h <= 65527 -> layout_ok (sp_l hs vs) ->
  encode_units (sel_codes (huffs sp_ps ++ concat [[sp_act]]) sp_sel) (fun _ => 0) (image_blocks (sp_l hs vs) w h sp_B) = Some (sp_code hs vs w h) ->
  units_pred (fun k p zz => baseline_block p zz /\ dc_short (fst (sel_codes (huffs sp_ps ++ concat [[sp_act]]) sp_sel k)) p zz)
    (fun _ => 0) (image_blocks (sp_l hs vs) w h sp_B) ->
  baseline_colour sp_ps (sp_l hs vs) w h [[sp_act]] sp_sel sp_B (sp_code hs vs w h) [9; 9].
Proof.
  intros Hw Hh Hl He Hb. split; try assumption.
  - constructor; [split; [constructor; [apply sp_dct_legal|constructor]|vm_compute; discriminate]|].
    constructor; [|constructor]. split; [|vm_compute; discriminate]. constructor; [|constructor].
    split; [cbn; lia|]. split; [reflexivity|]. apply forallb_byte. reflexivity.
  - eexists _, _, _, _, _. reflexivity.
  - repeat (constructor; [discriminate|]). constructor.
  - constructor; [|constructor]. split; [constructor; [apply sp_act_legal|constructor]|vm_compute; discriminate].
  - split; [reflexivity|].
    assert (H : usable (huffs sp_ps ++ concat [[sp_act]]) false 0 /\ usable (huffs sp_ps ++ concat [[sp_act]]) true 1).
    { split; (eexists; split; [reflexivity|]); [discriminate|]. intros _. cbn [hf_counts hf_symbols sp_act]. apply codes_long; vm_compute; reflexivity. }
    destruct H. repeat (constructor; [repeat split; (lia || assumption)|]). constructor.
  - apply forallb_byte. reflexivity.
Qed.
Ltac sp_blocks :=
  apply sp_image; [lia|lia|cbn; lia|vm_compute; reflexivity|];
  match goal with |- units_pred _ _ ?us => let v := eval vm_compute in us in change us with v end; cbn [units_pred];
  repeat split; try (vm_compute; discriminate || reflexivity);
  repeat (apply Forall_cons; [vm_compute; discriminate|]); apply Forall_nil.
Lemma sp_image_15 : baseline_colour sp_ps (sp_l 2 1) 15 9 [[sp_act]] sp_sel sp_B (sp_code 2 1 15 9) [9; 9].
Proof. sp_blocks. Qed.
Lemma sp_image_16 : baseline_colour sp_ps (sp_l 2 1) 16 9 [[sp_act]] sp_sel sp_B (sp_code 2 1 16 9) [9; 9].
Proof. sp_blocks. Qed.
Lemma sp_image_flat : baseline_colour sp_ps (sp_l 2 1) 15 8 [[sp_act]] sp_sel sp_B (sp_code 2 1 15 8) [9; 9].
Proof. sp_blocks. Qed.
Lemma sp_image_wide : baseline_colour sp_ps (sp_l 1 2) 29 1 [[sp_act]] sp_sel sp_B (sp_code 1 2 29 1) [9; 9].
Proof. sp_blocks. Qed.

Lemma sp_in_range k x y : in_range (qd_values sp_q) (sp_B k x y).
Proof.
  assert (H : forall b, In b [sp_B 0 0 0; sp_B 0 1 0; sp_B 1 0 0; sp_B 2 0 0] -> in_range (repeat 90 64) b).
  { intros b Hb. split.
    - intros j Hj. revert b Hb. assert (G : Forall (fun k => Forall (fun b => -2048 <= nth k b 0 * nth k (repeat 90 64) 0 <= 2048) [sp_B 0 0 0; sp_B 0 1 0; sp_B 1 0 0; sp_B 2 0 0]) (seq 0 64)).
      { apply Forall_forall. intros i _. do 64 (destruct i as [|i]; [repeat (apply Forall_cons; [vm_compute; split; discriminate|]); apply Forall_nil|]).
        repeat (apply Forall_cons; [cbn; destruct i; cbn; lia|]); apply Forall_nil. }
      rewrite Forall_forall in G. specialize (G j ltac:(apply in_seq; lia)). rewrite Forall_forall in G. exact G.
    - intros _. destruct Hb as [<-|[<-|[<-|[<-|[]]]]]; vm_compute; split; discriminate. }
  apply H. destruct k as [|[|k]]; [|cbn; auto..]. unfold sp_B. pose proof (Z.mod_pos_bound x 2 ltac:(lia)).
  assert (x mod 2 = 0 \/ x mod 2 = 1) as [-> | ->] by lia; [left|right; left]; reflexivity.
Qed.
Lemma sp_range hs vs w h : Forall plane_in_range (sampled_planes hs vs [sp_q; sp_q; sp_q] w h sp_B).
Proof.
  assert (H : forall n m k, plane_in_range (mkPlane (qd_values sp_q) (component_blocks n m (sp_B k)))).
  { intros n m k. unfold plane_in_range. cbn [pl_qv pl_blocks]. apply Forall_forall. intros b Hb. unfold component_blocks in Hb.
    apply in_flat_map in Hb. destruct Hb as (y & _ & Hb). apply in_map_iff in Hb. destruct Hb as (x & <- & _). apply sp_in_range. }
  unfold sampled_planes. cbn [length seq combine map]. repeat (apply Forall_cons; [apply H|]). apply Forall_nil.
Qed.
Definition sp_check (a b c : res (list Z)) : Prop :=
  match a, b, c with
  | Ok px, Ok px', Ok px'' =>
      (length px = 405%nat /\ firstn 27 px = [255; 121; 150; 197; 121; 150; 197; 120; 150; 183; 118; 150; 161; 115; 150; 182; 113; 150;
        184; 110; 150; 170; 107; 150; 0; 104; 150]) /\
      (length px' = 405%nat /\ firstn 6 px' = [255; 242; 242; 227; 184; 184]) /\
      (length px'' = 144%nat /\ firstn 16 px'' = [255; 197; 197; 183; 161; 182; 184; 170; 0; 126; 127; 140; 162; 142; 139; 154])
  | _, _, _ => False
  end.
Example C52_case :
  baseline_colour sp_ps (sp_l 2 1) 15 9 [[sp_act]] sp_sel sp_B (sp_code 2 1 15 9) [9; 9] /\
  baseline_colour sp_ps (sp_l 2 1) 16 9 [[sp_act]] sp_sel sp_B (sp_code 2 1 16 9) [9; 9] /\
  last_quant (quants sp_ps) 2 = Some sp_q /\
  (forall w, Forall plane_in_range (sampled_planes 2 1 [sp_q; sp_q; sp_q] w 9 sp_B)) /\
  sp_last 2 1 15 9 5 = 143 /\ sp_last 2 1 16 9 5 = 143 /\ sp_last 2 1 15 9 2 = 10 /\
  (9 + 8 * 1 - 1) / (8 * 1) mod 2 = 0 /\
  8 * 1 * ((9 + 8 * 1 - 1) / (8 * 1)) * 16 <= (16 + 8) * (9 + 8) + 128 * 9 /\
  8 * (2 * 1) * (8 * ((16 + 8 * 2 - 1) / (8 * 2) * 2)) < (8 * (2 * 1) + 1) * 16 /\
  sp_check (sp_px 2 1 15 9 Scalar (set_out_colorspace default_options YCbCr)) (sp_px 2 1 15 9 Avx2 (set_out_colorspace default_options RGB))
    (sp_px 2 1 16 9 Sse41 (set_out_colorspace default_options GRAYSCALE)).
Proof.
  split; [exact sp_image_15|]. split; [exact sp_image_16|]. split; [reflexivity|]. split; [intros; apply sp_range|]. split; [vm_compute; reflexivity|]. split; [vm_compute; reflexivity|].
  split; [vm_compute; reflexivity|]. split; [reflexivity|]. split; [vm_compute; discriminate|]. split; [reflexivity|]. vm_compute. repeat split.
Qed.

(** The exact value of the first sample of Y is not 0 *)
Lemma sp_exact w h : 0 < w -> 0 < h -> ~ (Rabs (IZR 0 - exact_at w (plane_at (sampled_planes 2 1 [sp_q; sp_q; sp_q] w h sp_B) 0) 0 0) <=
  tolerance_at w (plane_at (sampled_planes 2 1 [sp_q; sp_q; sp_q] w h sp_B) 0) 0 0)%R.
Proof.
  intros Hw Hh H.
  destruct (GrayReal.sample_close IdctScalar (repeat 90 64) (sp_B 0 0 0) 0 0) as [_ G]; try lia; try reflexivity; [apply forallb_byte; reflexivity|exact (sp_in_range 0 0 0)|].
  assert (Hb : block_of ((w + 7) / 8) (pl_blocks (plane_at (sampled_planes 2 1 [sp_q; sp_q; sp_q] w h sp_B) 0)) [] 0 0 = sp_B 0 0 0).
  { unfold block_of. change (pl_blocks _) with (component_blocks ((w + 7) / 8) ((h + 7) / 8) (sp_B 0)). unfold component_blocks.
    apply (BaseColourReal.nth_rows (sp_B 0) ((w + 7) / 8) ((h + 7) / 8) 0 0 []); split; try lia; apply Z.div_str_pos; lia. }
  unfold exact_at, tolerance_at, sample_exact in H. rewrite Hb in H. change (pl_qv _) with (repeat 90 64) in H.
  change (0 mod 8) with 0 in H. 
  assert (T : Rle (tolerance (repeat 90 64) (sp_B 0 0 0)) 2).
  { unfold tolerance. apply Rmax_lub; [lra|]. unfold magnitude, sumR8.
    repeat match goal with |- context [IZR (Z.abs ?z)] => let v := eval vm_compute in (Z.abs z) in change (IZR (Z.abs z)) with (IZR v) end. lra. }
  set (e := clampR _) in *. set (t := tolerance _ _) in *.
  match type of G with context [IZR ?p] => let v := eval vm_compute in p in replace p with v in G by (vm_compute; reflexivity) end.
  apply IdctReal.Rabs_le_inv in G. apply IdctReal.Rabs_le_inv in H. lra.
Qed.
Lemma sp_wrong cpu : exists px,
  fst (decode_buffer (new_with_options cpu (set_out_colorspace default_options YCbCr)) (sp_file 2 1 15 8)) = Ok px /\ nth 0 px 0 = 0.
Proof.
  assert (E : match fst (decode_buffer (new_with_options cpu (set_out_colorspace default_options YCbCr)) (sp_file 2 1 15 8)) with
    | Ok px => nth 0 px 0 = 0 | _ => False end) by (destruct cpu; vm_compute; reflexivity).
  destruct (fst _) as [px| | |]; [eauto|contradiction..].
Qed.
(** With an odd number of rows of MCUs the claim is false: an image in 4:2:2 of up to eight lines
    comes out black, without an error. *)
Theorem C52_rows_refuted : exists o ps hs vs q q1 q2 w h tss sel B bits sfx t0 t1 t2,
  let l := Colour hs vs q q1 q2 in
  let rows := (h + 8 * vs - 1) / (8 * vs) in
  baseline_colour ps l w h tss sel B bits sfx /\ w <= o_max_width o /\ h <= o_max_height o /\
  last_quant (quants ps) q = Some t0 /\ last_quant (quants ps) q1 = Some t1 /\ last_quant (quants ps) q2 = Some t2 /\
  8 * vs * rows * w <= (w + 8) * (h + 8) + (if (hs =? 1) && (vs =? 1) then 0 else 128 * h) /\
  Forall plane_in_range (sampled_planes hs vs [t0; t1; t2] w h B) /\ o_colorspace o = YCbCr /\
  forall cpu, exists px, fst (decode_buffer (new_with_options cpu o) (colour_file ps l w h tss sel bits sfx)) = Ok px /\
    ~ close_luma 3 (sampled_planes hs vs [t0; t1; t2] w h B) w h px.
Proof.
  exists (set_out_colorspace default_options YCbCr), sp_ps, 2, 1, 2, 2, 2, 15, 8, [[sp_act]], sp_sel, sp_B, (sp_code 2 1 15 8), [9; 9], sp_q, sp_q, sp_q. intros l rows.
  split; [exact sp_image_flat|]. split; [cbn; lia|]. split; [cbn; lia|]. split; [reflexivity|]. split; [reflexivity|]. split; [reflexivity|].
  split; [vm_compute; discriminate|]. split; [apply sp_range|]. split; [reflexivity|].
  intros cpu. destruct (sp_wrong cpu) as (px & E & N). exists px. split; [exact E|]. intros [_ H].
  destruct (H 0 0 (conj (Z.le_refl 0) (eq_refl : 0 < 8)) (conj (Z.le_refl 0) (eq_refl : 0 < 15))) as [_ C]. change (Z.to_nat ((0 * 15 + 0) * 3)) with 0%nat in C. rewrite N in C.
  exact (sp_exact 15 8 eq_refl eq_refl C).
Qed.
Print Assumptions C52_rows_refuted.

(** Wide flat images in 4:4:0 (and 4:2:0) make the decoder panic. *)
Theorem C52_wide_refuted : exists o ps hs vs q q1 q2 w h tss sel B bits sfx t0 t1 t2,
  let l := Colour hs vs q q1 q2 in
  let cd := sel_codes (huffs ps ++ concat tss) sel in
  let rows := (h + 8 * vs - 1) / (8 * vs) in
  baseline_colour ps l w h tss sel B bits sfx /\ w <= o_max_width o /\ h <= o_max_height o /\
  last_quant (quants ps) q = Some t0 /\ last_quant (quants ps) q1 = Some t1 /\ last_quant (quants ps) q2 = Some t2 /\
  64 < last_bits cd (image_blocks l w h B) (Z.to_nat (hs * vs) + 3) /\
  rows mod hs = 0 /\
  Forall plane_in_range (sampled_planes hs vs [t0; t1; t2] w h B) /\ o_colorspace o = YCbCr /\
  forall cpu, exists s, fst (decode_buffer (new_with_options cpu o) (colour_file ps l w h tss sel bits sfx)) = Panic s.
Proof.
  exists (set_out_colorspace default_options YCbCr), sp_ps, 1, 2, 2, 2, 2, 29, 1, [[sp_act]], sp_sel, sp_B, (sp_code 1 2 29 1), [9; 9], sp_q, sp_q, sp_q. intros l cd rows.
  split; [exact sp_image_wide|]. split; [cbn; lia|]. split; [cbn; lia|]. split; [reflexivity|]. split; [reflexivity|]. split; [reflexivity|].
  split; [vm_compute; reflexivity|]. split; [reflexivity|]. split; [apply sp_range|]. split; [reflexivity|].
  intros cpu. exists "called `Option::unwrap()` on a `None` value"%string. destruct cpu; vm_compute; reflexivity.
Qed.
Print Assumptions C52_wide_refuted.
