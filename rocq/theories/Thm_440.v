(** Theorems about the chroma of images in 4:4:0, from the bytes to the pixels (C52, C53). *)
From Coq Require Import ZArith String List Bool Lia Reals Lra.
From Verif Require Import Base Types Huffman State Bitstream Headers Mcu McuProg Decoder.
From Verif Require Import SpecHuffman SpecSegments SpecExtend SpecBits SpecBlock SpecProg SpecInter SpecScript SpecImage SpecBaseline SpecDct SpecPixels SpecColourPixels SpecBaseScan SpecBasePixels SpecSampledPixels SpecSampled440.
From Verif Require Import Obs ObsProg ExTools ProgImage Thm_ProgFile Thm_Colour Thm_ProgSampled Thm_Sampled Thm_Between Sampled440.
Import ListNotations.
Local Open Scope Z_scope.

(** C52 for 4:4:0 and output as YCbCr.  The chroma is interpolated with the triangle filter, but
    each line shows what belongs to the line below, and each group of sixteen lines is
    interpolated by itself.  Missing: the claim itself is false (C52_440_refuted); the last two
    lines of an image whose height is not a multiple of 16. *)
Theorem C52_440_ycc_partial : forall cpu o ps q q1 q2 w h tss sel B bits sfx t0 t1 t2,
  let l := Colour 1 2 q q1 q2 in
  let cd := sel_codes (huffs ps ++ concat tss) sel in
  baseline_colour ps l w h tss sel B bits sfx -> w <= o_max_width o -> h <= o_max_height o ->
  last_quant (quants ps) q = Some t0 -> last_quant (quants ps) q1 = Some t1 -> last_quant (quants ps) q2 = Some t2 ->
  64 < last_bits cd (image_blocks l w h B) 5 ->
  16 * ((h + 15) / 16) * w <= (w + 8) * (h + 8) + 128 * h ->
  Forall plane_in_range (sampled_planes 1 2 [t0; t1; t2] w h B) -> o_colorspace o = YCbCr ->
  exists ks px,
    (ks = [] \/ ks = [2] \/ ks = [1; 2])%nat /\ (ks <> [] -> last_bits cd (image_blocks l w h B) (length ks) <= 64) /\
    fst (decode_buffer (new_with_options cpu o) (colour_file ps l w h tss sel bits sfx)) = Ok px /\
    chroma_early (sampled_planes 1 2 [t0; t1; t2] w h (without_last_chroma ks 1 2 w h B)) w h px.
Proof. exact base_ycc_440. Qed.
Print Assumptions C52_440_ycc_partial.

(** The same for output as RGB, in the columns and on the machines of C51 *)
Theorem C52_440_rgb_partial : forall cpu o ps q q1 q2 w h tss sel B bits sfx t0 t1 t2,
  let l := Colour 1 2 q q1 q2 in
  let cd := sel_codes (huffs ps ++ concat tss) sel in
  baseline_colour ps l w h tss sel B bits sfx -> w <= o_max_width o -> h <= o_max_height o ->
  last_quant (quants ps) q = Some t0 -> last_quant (quants ps) q1 = Some t1 -> last_quant (quants ps) q2 = Some t2 ->
  64 < last_bits cd (image_blocks l w h B) 5 ->
  16 * ((h + 15) / 16) * w <= (w + 8) * (h + 8) + 128 * h ->
  Forall plane_in_range (sampled_planes 1 2 [t0; t1; t2] w h B) ->
  forall m, o_colorspace o = RGB -> cpu <> Sse41 \/ o_use_unsafe o = false \/ 22 <= w ->
  w < 16 /\ m <= w \/ 16 <= w /\ m <= 16 * (8 * ((w + 7) / 8) / 16 - 1) /\ 3 * m <= 3 * w - 64 ->
  exists ks px,
    (ks = [] \/ ks = [2] \/ ks = [1; 2])%nat /\ (ks <> [] -> last_bits cd (image_blocks l w h B) (length ks) <= 64) /\
    fst (decode_buffer (new_with_options cpu o) (colour_file ps l w h tss sel bits sfx)) = Ok px /\
    rgb_early m (sampled_planes 1 2 [t0; t1; t2] w h (without_last_chroma ks 1 2 w h B)) w h px.
Proof. exact base_rgb_440. Qed.
Print Assumptions C52_440_rgb_partial.

(** C53 for 4:4:0, output as YCbCr and as RGB *)
Theorem C53_440_ycc_partial : forall cpu o ps q q1 q2 w h t0 t1 t2 cd0 cd1 cd2 is Ks n sfx,
  let l := Colour 1 2 q q1 q2 in
  let pls := [mkPlane (qd_values t0) (cd_blocks cd0); mkPlane (qd_values t1) (cd_blocks cd1); mkPlane (qd_values t2) (cd_blocks cd2)] in
  progressive_image ps l w h [cd0; cd1; cd2] is Ks n sfx -> Forall complete Ks -> short_end (image_geo l w h) [cd0; cd1; cd2] [] is ->
  w <= o_max_width o -> h <= o_max_height o -> n <= o_max_scans o -> w <= 65527 -> h <= 65527 ->
  last_quant (quants ps) q = Some t0 -> last_quant (quants ps) q1 = Some t1 -> last_quant (quants ps) q2 = Some t2 ->
  16 * ((h + 15) / 16) * w <= (w + 8) * (h + 8) + 128 * h ->
  Forall plane_in_range pls -> o_colorspace o = YCbCr ->
  exists px, fst (decode_buffer (new_with_options cpu o) (file 194 ps l w h is sfx)) = Ok px /\
    close_luma 3 pls w h px /\ chroma_early pls w h px.
Proof. exact prog_ycc_440. Qed.
Print Assumptions C53_440_ycc_partial.

Theorem C53_440_rgb_partial : forall cpu o ps q q1 q2 w h t0 t1 t2 cd0 cd1 cd2 is Ks n sfx,
  let l := Colour 1 2 q q1 q2 in
  let pls := [mkPlane (qd_values t0) (cd_blocks cd0); mkPlane (qd_values t1) (cd_blocks cd1); mkPlane (qd_values t2) (cd_blocks cd2)] in
  progressive_image ps l w h [cd0; cd1; cd2] is Ks n sfx -> Forall complete Ks -> short_end (image_geo l w h) [cd0; cd1; cd2] [] is ->
  w <= o_max_width o -> h <= o_max_height o -> n <= o_max_scans o -> w <= 65527 -> h <= 65527 ->
  last_quant (quants ps) q = Some t0 -> last_quant (quants ps) q1 = Some t1 -> last_quant (quants ps) q2 = Some t2 ->
  16 * ((h + 15) / 16) * w <= (w + 8) * (h + 8) + 128 * h ->
  Forall plane_in_range pls ->
  forall m, o_colorspace o = RGB -> cpu <> Sse41 \/ o_use_unsafe o = false \/ 22 <= w ->
  w < 16 /\ m <= w \/ 16 <= w /\ m <= 16 * (8 * ((w + 7) / 8) / 16 - 1) /\ 3 * m <= 3 * w - 64 ->
  exists px, fst (decode_buffer (new_with_options cpu o) (file 194 ps l w h is sfx)) = Ok px /\ rgb_early m pls w h px.
Proof. exact prog_rgb_440. Qed.
Print Assumptions C53_440_rgb_partial.

(** An image of 9 by 32 pixels; Cb has a gradient above a flat block *)
Definition v_B (k : nat) (x y : Z) : list Z :=
  match k with
  | 0%nat => 3 :: repeat 1 30 ++ repeat 0 33
  | 1%nat => if y mod 2 =? 0 then [-2; -1; 1] ++ repeat 0 61 else 1 :: repeat 0 63
  | _ => 2 :: repeat 0 63
  end.
Definition v_code : list bool :=
  match encode_units (sel_codes [sp_dct; sp_act] sp_sel) (fun _ => 0) (image_blocks (sp_l 1 2) 9 32 v_B) with Some b => b | None => [] end.
Definition v_file : list Z := colour_file sp_ps (sp_l 1 2) 9 32 [[sp_act]] sp_sel v_code [9; 9].
Lemma v_image : baseline_colour sp_ps (sp_l 1 2) 9 32 [[sp_act]] sp_sel v_B v_code [9; 9].
Proof.
  destruct sp_image_wide as [I1 I2 I3 I4 _ _ I7 I8 _ _ I11]. split; try assumption; try lia.
  - vm_compute. reflexivity.
  - match goal with |- units_pred _ _ ?us => let v := eval vm_compute in us in change us with v end. cbn [units_pred].
    repeat split; try (vm_compute; discriminate || reflexivity);
    repeat (apply Forall_cons; [vm_compute; discriminate|]); apply Forall_nil.
Qed.
Definition v_px (cpu : isa) (cs : colorspace) : res (list Z) := fst (decode_buffer (new_with_options cpu (set_out_colorspace default_options cs)) v_file).
(** The column [c] of the component [k] *)
Definition column (w : Z) (c k : Z) (r : res (list Z)) : list Z :=
  match r with Ok px => map (fun r => nth (Z.to_nat ((Z.of_nat r * w + c) * 3 + k)) px 0) (seq 0 32) | _ => [] end.

(** A progressive image of 8 by 32 pixels *)
Definition w_cd (id : Z) (ds : list Z) : comp_data := mkCompData id 1 (Z.of_nat (length ds)) (map (fun d => d :: repeat 0 63) ds).
Definition w_cd0 : comp_data := w_cd 1 [0; 0; 0; 0].
Definition w_cd1 : comp_data := w_cd 2 [-2; 1].
Definition w_cd2 : comp_data := w_cd 3 [0; 0].
Definition w_is : list item :=
  [Tables [ex_dc; ex_ac]; Scan 1 0 0 0 0 0 0 z_dc; Scan 2 0 0 0 0 0 0 [false; false; true; false; true; true]; Scan 3 0 0 0 0 0 0 y_dc;
   Scan 1 0 0 1 63 0 0 z_ac; Scan 2 0 0 1 63 0 0 y_ac; Scan 3 0 0 1 63 0 0 y_ac].
Lemma w_script g : script g [w_cd0; w_cd1; w_cd2] [] [nothing; nothing; nothing] w_is [c_K; c_K; c_K] 6 16.
Proof.
  destruct ex_usable as [Ud Ua].
  apply sc_tables; [constructor; [apply ex_dc_legal|constructor; [apply ex_ac_legal|constructor]]|vm_compute; discriminate|].
  cbn [app].
  eapply (script_one _ _ _ _ 0 w_cd0 0 0 0 0 0 0 _ _ _ 5 12); [reflexivity| |
  eapply (script_one _ _ _ _ 1 w_cd1 0 0 0 0 0 0 _ _ _ 4 10); [reflexivity| |
  eapply (script_one _ _ _ _ 2 w_cd2 0 0 0 0 0 0 _ _ _ 3 8); [reflexivity| |
  eapply (script_one _ _ _ _ 0 w_cd0 0 0 1 63 0 0 _ _ _ 2 4); [reflexivity| |
  eapply (script_one _ _ _ _ 1 w_cd1 0 0 1 63 0 0 _ _ _ 1 2); [reflexivity| |
  eapply (script_one _ _ _ _ 2 w_cd2 0 0 1 63 0 0 _ _ _ 0 0); [reflexivity| |
  apply sc_end]]]]]].
  1-3: eexists _, _; (split; [reflexivity|]); (split; [reflexivity|]); (split; [lia|]); (split; [lia|]);
    (split; [exact c_next_dc|]); (split; [exact Ud|]); (split; [reflexivity|]); cbn; repeat split; discriminate.
  all: eexists _, _; (split; [reflexivity|]); (split; [reflexivity|]); (split; [lia|]); (split; [lia|]);
    (split; [exact c_next_ac|]); (split; [exact Ua|]).
  1: change (first_bands (code_at [ex_dc; ex_ac] true 0) (repeat 0 63 :: [repeat 0 63] ++ (repeat 0 63 :: [repeat 0 63] ++ []))
      (([true; false] ++ bits_of 1 0) ++ ([true; false] ++ bits_of 1 0) ++ []))%list;
    (apply fbs_band with (n := 1%nat); [|reflexivity|repeat constructor|
       apply fbs_band with (n := 1%nat); [|reflexivity|repeat constructor|constructor]]);
    exact (fb_eob _ 63 1 0 _ ltac:(lia) ltac:(lia) ltac:(lia) eq_refl).
  all: change (first_bands (code_at [ex_dc; ex_ac] true 0) (repeat 0 63 :: [repeat 0 63] ++ []) (([true; false] ++ bits_of 1 0) ++ []))%list;
    (apply fbs_band with (n := 1%nat); [|reflexivity|repeat constructor|constructor]);
    exact (fb_eob _ 63 1 0 _ ltac:(lia) ltac:(lia) ltac:(lia) eq_refl).
Qed.
Lemma w_image : progressive_image c_q (Colour 1 2 0 0 0) 8 32 [w_cd0; w_cd1; w_cd2] w_is [c_K; c_K; c_K] 6 [9].
Proof. ps_rest. exists 16. split; [apply w_script|lia]. Qed.
Definition w_px (cpu : isa) (cs : colorspace) : res (list Z) :=
  fst (decode_buffer (new_with_options cpu (set_out_colorspace default_options cs)) (file 194 c_q (Colour 1 2 0 0 0) 8 32 w_is [9])).
Lemma w_end : short_end (image_geo (Colour 1 2 0 0 0) 8 32) [w_cd0; w_cd1; w_cd2] [] w_is.
Proof.
  cbn [short_end w_is]. split; [reflexivity|]. split; [reflexivity|]. exists w_cd0. split; [now left|]. split; [reflexivity|]. vm_compute. discriminate.
Qed.

Example C52_440_case :
  baseline_colour sp_ps (sp_l 1 2) 9 32 [[sp_act]] sp_sel v_B v_code [9; 9] /\
  last_quant (quants sp_ps) 2 = Some sp_q /\
  last_bits (sel_codes [sp_dct; sp_act] sp_sel) (image_blocks (sp_l 1 2) 9 32 v_B) 5 = 140 /\
  last_bits (sel_codes [sp_dct; sp_act] sp_sel) (image_blocks (sp_l 1 2) 9 32 v_B) 2 = 8 /\
  16 * ((32 + 15) / 16) * 9 <= (9 + 8) * (32 + 8) + 128 * 32 /\
  Forall plane_in_range (sampled_planes 1 2 [sp_q; sp_q; sp_q] 9 32 v_B) /\
  column 9 0 1 (v_px Scalar YCbCr) = [105; 105; 102; 100; 98; 95; 92; 89; 86; 83; 80; 78; 76; 75; 74; 74] ++ repeat 139 16 /\
  column 9 8 1 (v_px Scalar YCbCr) = [105; 105; 102; 100; 98; 95; 92; 89; 86; 83; 80; 78; 76; 75; 74; 74] ++ repeat 128 16 /\
  firstn 16 (column 9 0 0 (v_px Avx2 RGB)) = [255; 255; 192; 213; 191; 202; 206; 212; 255; 255; 192; 213; 191; 202; 206; 212].
Proof.
  split; [exact v_image|]. split; [reflexivity|]. split; [vm_compute; reflexivity|]. split; [vm_compute; reflexivity|]. split; [vm_compute; discriminate|].
  split; [apply small_planes; vm_compute; reflexivity|]. split; [vm_compute; reflexivity|]. split; vm_compute; reflexivity.
Qed.
Definition w_pls : list plane := map (fun cd => mkPlane (repeat 90 64) (cd_blocks cd)) [w_cd0; w_cd1; w_cd2].
Example C53_440_case :
  progressive_image c_q (Colour 1 2 0 0 0) 8 32 [w_cd0; w_cd1; w_cd2] w_is [c_K; c_K; c_K] 6 [9] /\ Forall complete [c_K; c_K; c_K] /\
  short_end (image_geo (Colour 1 2 0 0 0) 8 32) [w_cd0; w_cd1; w_cd2] [] w_is /\
  last_quant (quants c_q) 0 = Some (mkQuantDef 0 (repeat 90 64)) /\
  16 * ((32 + 15) / 16) * 8 <= (8 + 8) * (32 + 8) + 128 * 32 /\ Forall plane_in_range w_pls /\
  column 8 0 1 (w_px Scalar YCbCr) = repeat 105 16 ++ repeat 139 16 /\
  column 8 0 2 (w_px Avx2 RGB) = repeat 87 16 ++ repeat 147 16.
Proof.
  split; [exact w_image|]. split; [repeat constructor; exact c_complete|]. split; [exact w_end|]. split; [reflexivity|]. split; [vm_compute; discriminate|].
  split; [apply small_planes; vm_compute; reflexivity|]. split; vm_compute; reflexivity.
Qed.

(** A sample known up to 1, from what the code computes for its block *)
Lemma sample_near w p r c blk v : pl_qv p = repeat 90 64 -> block_of ((w + 7) / 8) (pl_blocks p) [] r c = blk ->
  length blk = 64%nat -> in_range (repeat 90 64) blk -> Rle (magnitude (dequantized (repeat 90 64) blk)) 1000 ->
  SpecIdct.sample (Strip.kernel_of IdctScalar (natural (repeat 90 64)) (natural blk)) (r mod 8) (c mod 8) = v ->
  (IZR v - 1 <= exact_at w p r c <= IZR v + 1)%R /\ (tolerance_at w p r c <= 1)%R.
Proof.
  intros Hq Hb Hl Hr Hm Hv.
  assert (T : Rle (tolerance (repeat 90 64) blk) 1) by (unfold tolerance; apply Rmax_lub; lra).
  destruct (GrayReal.sample_close IdctScalar (repeat 90 64) blk (r mod 8) (c mod 8)) as [_ G]; try reflexivity; try assumption;
    try (apply Z.mod_pos_bound; reflexivity); [apply forallb_byte; reflexivity|].
  rewrite Hv in G. apply IdctReal.Rabs_le_inv in G. unfold exact_at, tolerance_at, sample_exact. rewrite Hq, Hb. split; lra.
Qed.
Ltac small_block := unfold magnitude, sumR8;
  repeat match goal with |- context [IZR (Z.abs ?z)] => let v := eval vm_compute in (Z.abs z) in change (IZR (Z.abs z)) with (IZR v) end; lra.
(** The line above the border between two groups of sixteen lines *)
Lemma border w ps px a b A B : pl_qv (plane_at ps 1) = repeat 90 64 ->
  block_of ((w + 7) / 8) (pl_blocks (plane_at ps 1)) [] 7 0 = a -> block_of ((w + 7) / 8) (pl_blocks (plane_at ps 1)) [] 8 0 = b ->
  (forall p, pl_qv p = repeat 90 64 -> block_of ((w + 7) / 8) (pl_blocks p) [] 7 0 = a -> (IZR A - 1 <= exact_at w p 7 0 <= IZR A + 1)%R /\ (tolerance_at w p 7 0 <= 1)%R) ->
  (forall p, pl_qv p = repeat 90 64 -> block_of ((w + 7) / 8) (pl_blocks p) [] 8 0 = b -> (IZR B - 1 <= exact_at w p 8 0 <= IZR B + 1)%R /\ (tolerance_at w p 8 0 <= 1)%R) ->
  0 < w -> (IZR A + 28 <= IZR B)%R -> nth (Z.to_nat ((15 * w + 0) * 3 + 1)) px 0 <= A -> ~ chroma_440 4 ps w 32 px.
Proof.
  intros Hq Ha Hb HA HB Hw Hd Hp C. apply IZR_le in Hp.
  specialize (C 15 0 1 ltac:(lia) ltac:(lia) ltac:(lia)). cbv zeta in C.
  destruct (HA _ Hq Ha) as [EA TA]. destruct (HB _ Hq Hb) as [EB TB].
  unfold exact_440 in C. change ((15 =? 0) || (15 =? 32 - 1)) with false in C. cbv iota in C. unfold SpecSampledPixels.between in C.
  change (15 / 2) with 7 in C. change (neighbour 15) with 8 in C. apply IdctReal.Rabs_le_inv in C. lra.
Qed.

Lemma v_wrong cpu : exists px,
  fst (decode_buffer (new_with_options cpu (set_out_colorspace default_options YCbCr)) v_file) = Ok px /\ nth (Z.to_nat ((15 * 9 + 0) * 3 + 1)) px 0 = 74.
Proof.
  assert (E : match fst (decode_buffer (new_with_options cpu (set_out_colorspace default_options YCbCr)) v_file) with Ok px => nth (Z.to_nat ((15 * 9 + 0) * 3 + 1)) px 0 = 74 | _ => False end) by (destruct cpu; vm_compute; reflexivity).
  destruct (fst _) as [px| | |]; [eauto|contradiction..].
Qed.
Lemma w_wrong cpu : exists px,
  fst (decode_buffer (new_with_options cpu (set_out_colorspace default_options YCbCr)) (file 194 c_q (Colour 1 2 0 0 0) 8 32 w_is [9])) = Ok px /\
  nth (Z.to_nat ((15 * 8 + 0) * 3 + 1)) px 0 <= 105.
Proof.
  assert (E : match fst (decode_buffer (new_with_options cpu (set_out_colorspace default_options YCbCr)) (file 194 c_q (Colour 1 2 0 0 0) 8 32 w_is [9])) with Ok px => nth (Z.to_nat ((15 * 8 + 0) * 3 + 1)) px 0 <= 105 | _ => False end) by (destruct cpu; vm_compute; discriminate).
  destruct (fst _) as [px| | |]; [eauto|contradiction..].
Qed.

(** The claim is false for 4:4:0: the chroma is not interpolated across the border between two
    groups of sixteen lines, and is one line too early in between. *)
Theorem C52_440_refuted : exists o ps q q1 q2 w h tss sel B bits sfx t0 t1 t2,
  let l := Colour 1 2 q q1 q2 in
  let cd := sel_codes (huffs ps ++ concat tss) sel in
  baseline_colour ps l w h tss sel B bits sfx /\ w <= o_max_width o /\ h <= o_max_height o /\
  last_quant (quants ps) q = Some t0 /\ last_quant (quants ps) q1 = Some t1 /\ last_quant (quants ps) q2 = Some t2 /\
  64 < last_bits cd (image_blocks l w h B) 5 /\
  16 * ((h + 15) / 16) * w <= (w + 8) * (h + 8) + 128 * h /\
  Forall plane_in_range (sampled_planes 1 2 [t0; t1; t2] w h B) /\ o_colorspace o = YCbCr /\
  forall cpu, exists px, fst (decode_buffer (new_with_options cpu o) (colour_file ps l w h tss sel bits sfx)) = Ok px /\
    ~ chroma_440 4 (sampled_planes 1 2 [t0; t1; t2] w h B) w h px.
Proof.
  exists (set_out_colorspace default_options YCbCr), sp_ps, 2, 2, 2, 9, 32, [[sp_act]], sp_sel, v_B, v_code, [9; 9], sp_q, sp_q, sp_q. intros l cd.
  split; [exact v_image|]. split; [cbn; lia|]. split; [cbn; lia|]. split; [reflexivity|]. split; [reflexivity|]. split; [reflexivity|].
  split; [vm_compute; reflexivity|]. split; [vm_compute; discriminate|]. split; [apply small_planes; vm_compute; reflexivity|]. split; [reflexivity|].
  intros cpu. destruct (v_wrong cpu) as (px & EF & E). exists px. split; [exact EF|]. clear EF.
  apply (border 9 _ px ([-2; -1; 1] ++ repeat 0 61) (1 :: repeat 0 63) 74 139); [vm_compute; reflexivity|vm_compute; reflexivity|vm_compute; reflexivity| | |reflexivity| |].
  - intros p Hq Hb. eapply sample_near; [exact Hq|exact Hb|reflexivity|apply small_in_range; vm_compute; reflexivity|small_block|vm_compute; reflexivity].
  - intros p Hq Hb. eapply sample_near; [exact Hq|exact Hb|reflexivity|apply small_in_range; vm_compute; reflexivity|small_block|vm_compute; reflexivity].
  - lra.
  - rewrite E. discriminate.
Qed.
Print Assumptions C52_440_refuted.

Theorem C53_440_refuted : exists o ps q q1 q2 w h t0 t1 t2 cd0 cd1 cd2 is Ks n sfx,
  let l := Colour 1 2 q q1 q2 in
  let pls := [mkPlane (qd_values t0) (cd_blocks cd0); mkPlane (qd_values t1) (cd_blocks cd1); mkPlane (qd_values t2) (cd_blocks cd2)] in
  progressive_image ps l w h [cd0; cd1; cd2] is Ks n sfx /\ Forall complete Ks /\ short_end (image_geo l w h) [cd0; cd1; cd2] [] is /\
  w <= o_max_width o /\ h <= o_max_height o /\ n <= o_max_scans o /\
  last_quant (quants ps) q = Some t0 /\ last_quant (quants ps) q1 = Some t1 /\ last_quant (quants ps) q2 = Some t2 /\
  16 * ((h + 15) / 16) * w <= (w + 8) * (h + 8) + 128 * h /\
  Forall plane_in_range pls /\ o_colorspace o = YCbCr /\
  forall cpu, exists px, fst (decode_buffer (new_with_options cpu o) (file 194 ps l w h is sfx)) = Ok px /\ ~ chroma_440 4 pls w h px.
Proof.
  exists (set_out_colorspace default_options YCbCr), c_q, 0, 0, 0, 8, 32, (mkQuantDef 0 (repeat 90 64)), (mkQuantDef 0 (repeat 90 64)), (mkQuantDef 0 (repeat 90 64)),
    w_cd0, w_cd1, w_cd2, w_is, [c_K; c_K; c_K], 6, [9]. intros l pls.
  split; [exact w_image|]. split; [repeat constructor; exact c_complete|]. split; [exact w_end|].
  split; [cbn; lia|]. split; [cbn; lia|]. split; [cbn; lia|]. split; [reflexivity|]. split; [reflexivity|]. split; [reflexivity|].
  split; [vm_compute; discriminate|]. split; [apply small_planes; vm_compute; reflexivity|]. split; [reflexivity|].
  intros cpu. destruct (w_wrong cpu) as (px & EF & E). exists px. split; [exact EF|]. clear EF.
  apply (border 8 _ px (-2 :: repeat 0 63) (1 :: repeat 0 63) 105 139); [vm_compute; reflexivity|vm_compute; reflexivity|vm_compute; reflexivity| | |reflexivity| |].
  - intros p Hq Hb. eapply sample_near; [exact Hq|exact Hb|reflexivity|apply small_in_range; vm_compute; reflexivity|small_block|vm_compute; reflexivity].
  - intros p Hq Hb. eapply sample_near; [exact Hq|exact Hb|reflexivity|apply small_in_range; vm_compute; reflexivity|small_block|vm_compute; reflexivity].
  - lra.
  - exact E.
Qed.
Print Assumptions C53_440_refuted.
