(** Theorems about the chroma of images in 4:2:0, from the bytes to the pixels (C52, C53). *)
From Coq Require Import ZArith String List Bool Lia Reals Lra.
From Verif Require Import Base Types Huffman State Bitstream Headers Mcu McuProg Decoder.
From Verif Require Import SpecHuffman SpecSegments SpecExtend SpecBits SpecBlock SpecProg SpecInter SpecScript SpecImage SpecBaseline SpecDct SpecPixels SpecColourPixels SpecBaseScan SpecBasePixels SpecSampledPixels SpecSampled420.
From Verif Require Import Obs ObsProg ExTools ProgImage Thm_ProgFile Thm_Colour Thm_ProgSampled Thm_Sampled Thm_Between Thm_440 Sampled420.
Import ListNotations.
Local Open Scope Z_scope.

(** C52 for 4:2:0 and output as YCbCr.  In each group of 32 lines the chroma of a line is mixed
    from two lines of chroma of the same parity, two lines apart.  Missing: the claim itself is
    false (C52_420_refuted); the last five lines of an image whose height is not a multiple of 32,
    the first column, the last two columns of the last MCU, and images wider than 48 on machines
    with AVX2. *)
Theorem C52_420_ycc_partial : forall cpu o ps q q1 q2 w h tss sel B bits sfx t0 t1 t2,
  let l := Colour 2 2 q q1 q2 in
  let cd := sel_codes (huffs ps ++ concat tss) sel in
  baseline_colour ps l w h tss sel B bits sfx -> w <= o_max_width o -> h <= o_max_height o ->
  last_quant (quants ps) q = Some t0 -> last_quant (quants ps) q1 = Some t1 -> last_quant (quants ps) q2 = Some t2 ->
  64 < last_bits cd (image_blocks l w h B) 7 ->
  ((h + 15) / 16) mod 2 = 0 -> 16 * ((h + 15) / 16) * w <= (w + 8) * (h + 8) + 128 * h -> cpu <> Avx2 \/ o_use_unsafe o = false \/ w <= 48 ->
  Forall plane_in_range (sampled_planes 2 2 [t0; t1; t2] w h B) -> o_colorspace o = YCbCr ->
  exists ks px,
    (ks = [] \/ ks = [2] \/ ks = [1; 2])%nat /\ (ks <> [] -> last_bits cd (image_blocks l w h B) (length ks) <= 64) /\
    fst (decode_buffer (new_with_options cpu o) (colour_file ps l w h tss sel bits sfx)) = Ok px /\
    chroma_mixed (sampled_planes 2 2 [t0; t1; t2] w h (without_last_chroma ks 2 2 w h B)) w h px.
Proof. exact base_ycc_420. Qed.
Print Assumptions C52_420_ycc_partial.

(** The same for output as RGB, in the columns and on the machines of C51 *)
Theorem C52_420_rgb_partial : forall cpu o ps q q1 q2 w h tss sel B bits sfx t0 t1 t2,
  let l := Colour 2 2 q q1 q2 in
  let cd := sel_codes (huffs ps ++ concat tss) sel in
  baseline_colour ps l w h tss sel B bits sfx -> w <= o_max_width o -> h <= o_max_height o ->
  last_quant (quants ps) q = Some t0 -> last_quant (quants ps) q1 = Some t1 -> last_quant (quants ps) q2 = Some t2 ->
  64 < last_bits cd (image_blocks l w h B) 7 ->
  ((h + 15) / 16) mod 2 = 0 -> 16 * ((h + 15) / 16) * w <= (w + 8) * (h + 8) + 128 * h -> cpu <> Avx2 \/ o_use_unsafe o = false \/ w <= 48 ->
  Forall plane_in_range (sampled_planes 2 2 [t0; t1; t2] w h B) ->
  forall m, o_colorspace o = RGB -> cpu <> Sse41 \/ o_use_unsafe o = false \/ 22 <= w /\ 16 * ((w + 15) / 16) <= w + 10 ->
  w < 16 /\ m <= w /\ m <= 14 \/ 16 <= w /\ m <= 16 * ((w + 15) / 16 - 1) /\ 3 * m <= 3 * w - 64 ->
  exists ks px,
    (ks = [] \/ ks = [2] \/ ks = [1; 2])%nat /\ (ks <> [] -> last_bits cd (image_blocks l w h B) (length ks) <= 64) /\
    fst (decode_buffer (new_with_options cpu o) (colour_file ps l w h tss sel bits sfx)) = Ok px /\
    rgb_mixed m (sampled_planes 2 2 [t0; t1; t2] w h (without_last_chroma ks 2 2 w h B)) w h px.
Proof. exact base_rgb_420. Qed.
Print Assumptions C52_420_rgb_partial.

(** C53 for 4:2:0, output as YCbCr and as RGB *)
Theorem C53_420_ycc_partial : forall cpu o ps q q1 q2 w h t0 t1 t2 cd0 cd1 cd2 is Ks n sfx,
  let l := Colour 2 2 q q1 q2 in
  let pls := [mkPlane (qd_values t0) (cd_blocks cd0); mkPlane (qd_values t1) (cd_blocks cd1); mkPlane (qd_values t2) (cd_blocks cd2)] in
  progressive_image ps l w h [cd0; cd1; cd2] is Ks n sfx -> Forall complete Ks -> short_end (image_geo l w h) [cd0; cd1; cd2] [] is ->
  w <= o_max_width o -> h <= o_max_height o -> n <= o_max_scans o -> w <= 65527 -> h <= 65527 ->
  last_quant (quants ps) q = Some t0 -> last_quant (quants ps) q1 = Some t1 -> last_quant (quants ps) q2 = Some t2 ->
  ((h + 15) / 16) mod 2 = 0 -> 16 * ((h + 15) / 16) * w <= (w + 8) * (h + 8) + 128 * h -> cpu <> Avx2 \/ o_use_unsafe o = false \/ w <= 48 ->
  Forall plane_in_range pls -> o_colorspace o = YCbCr ->
  exists px, fst (decode_buffer (new_with_options cpu o) (file 194 ps l w h is sfx)) = Ok px /\
    close_luma 3 pls w h px /\ chroma_mixed pls w h px.
Proof. exact prog_ycc_420. Qed.
Print Assumptions C53_420_ycc_partial.

Theorem C53_420_rgb_partial : forall cpu o ps q q1 q2 w h t0 t1 t2 cd0 cd1 cd2 is Ks n sfx,
  let l := Colour 2 2 q q1 q2 in
  let pls := [mkPlane (qd_values t0) (cd_blocks cd0); mkPlane (qd_values t1) (cd_blocks cd1); mkPlane (qd_values t2) (cd_blocks cd2)] in
  progressive_image ps l w h [cd0; cd1; cd2] is Ks n sfx -> Forall complete Ks -> short_end (image_geo l w h) [cd0; cd1; cd2] [] is ->
  w <= o_max_width o -> h <= o_max_height o -> n <= o_max_scans o -> w <= 65527 -> h <= 65527 ->
  last_quant (quants ps) q = Some t0 -> last_quant (quants ps) q1 = Some t1 -> last_quant (quants ps) q2 = Some t2 ->
  ((h + 15) / 16) mod 2 = 0 -> 16 * ((h + 15) / 16) * w <= (w + 8) * (h + 8) + 128 * h -> cpu <> Avx2 \/ o_use_unsafe o = false \/ w <= 48 ->
  Forall plane_in_range pls ->
  forall m, o_colorspace o = RGB -> cpu <> Sse41 \/ o_use_unsafe o = false \/ 22 <= w /\ 16 * ((w + 15) / 16) <= w + 10 ->
  w < 16 /\ m <= w /\ m <= 14 \/ 16 <= w /\ m <= 16 * ((w + 15) / 16 - 1) /\ 3 * m <= 3 * w - 64 ->
  exists px, fst (decode_buffer (new_with_options cpu o) (file 194 ps l w h is sfx)) = Ok px /\ rgb_mixed m pls w h px.
Proof. exact prog_rgb_420. Qed.
Print Assumptions C53_420_rgb_partial.

(** An image of 32 by 32 pixels; Cb is darker in the upper half *)
Definition u_B (k : nat) (x y : Z) : list Z :=
  match k with
  | 0%nat => 3 :: repeat 1 30 ++ repeat 0 33
  | 1%nat => if y mod 2 =? 0 then -2 :: repeat 0 63 else 1 :: repeat 0 63
  | _ => 2 :: repeat 0 63
  end.
Definition u_code : list bool :=
  match encode_units (sel_codes [sp_dct; sp_act] sp_sel) (fun _ => 0) (image_blocks (sp_l 2 2) 32 32 u_B) with Some b => b | None => [] end.
Definition u_file : list Z := colour_file sp_ps (sp_l 2 2) 32 32 [[sp_act]] sp_sel u_code [9; 9].
Lemma u_image : baseline_colour sp_ps (sp_l 2 2) 32 32 [[sp_act]] sp_sel u_B u_code [9; 9].
Proof.
  destruct sp_image_wide as [I1 I2 I3 I4 _ _ I7 I8 _ _ I11]. split; try assumption; try lia.
  - now exists 2, 2, 2, 2, 2.
  - vm_compute. intuition discriminate.
  - vm_compute. reflexivity.
  - match goal with |- units_pred _ _ ?us => let v := eval vm_compute in us in change us with v end. cbn [units_pred].
    repeat split; try (vm_compute; discriminate || reflexivity);
    repeat (apply Forall_cons; [vm_compute; discriminate|]); apply Forall_nil.
Qed.
Definition u_px (cpu : isa) (cs : colorspace) : res (list Z) := fst (decode_buffer (new_with_options cpu (set_out_colorspace default_options cs)) u_file).

(** A progressive image of 8 by 32 pixels *)
Lemma x_image : progressive_image c_q (Colour 2 2 0 0 0) 8 32 [w_cd0; w_cd1; w_cd2] w_is [c_K; c_K; c_K] 6 [9].
Proof. ps_rest. exists 16. split; [apply w_script|lia]. Qed.
Definition x_px (cpu : isa) (cs : colorspace) : res (list Z) :=
  fst (decode_buffer (new_with_options cpu (set_out_colorspace default_options cs)) (file 194 c_q (Colour 2 2 0 0 0) 8 32 w_is [9])).
Lemma x_end : short_end (image_geo (Colour 2 2 0 0 0) 8 32) [w_cd0; w_cd1; w_cd2] [] w_is.
Proof.
  cbn [short_end w_is]. split; [reflexivity|]. split; [reflexivity|]. exists w_cd0. split; [now left|]. split; [reflexivity|]. vm_compute. discriminate.
Qed.

Example C52_420_case :
  baseline_colour sp_ps (sp_l 2 2) 32 32 [[sp_act]] sp_sel u_B u_code [9; 9] /\
  last_quant (quants sp_ps) 2 = Some sp_q /\
  last_bits (sel_codes [sp_dct; sp_act] sp_sel) (image_blocks (sp_l 2 2) 32 32 u_B) 7 = 268 /\
  last_bits (sel_codes [sp_dct; sp_act] sp_sel) (image_blocks (sp_l 2 2) 32 32 u_B) 2 = 8 /\
  ((32 + 15) / 16) mod 2 = 0 /\ 16 * ((32 + 15) / 16) * 32 <= (32 + 8) * (32 + 8) + 128 * 32 /\
  Forall plane_in_range (sampled_planes 2 2 [sp_q; sp_q; sp_q] 32 32 u_B) /\
  10 <= 16 * ((32 + 15) / 16 - 1) /\ 3 * 10 <= 3 * 32 - 64 /\
  column 32 1 1 (u_px Avx2 YCbCr) = repeat 105 12 ++ [114; 114; 131; 131] ++ repeat 139 16 /\
  column 32 1 2 (u_px Scalar YCbCr) = repeat 150 32 /\
  firstn 16 (column 32 9 2 (u_px Avx2 RGB)) = [156; 0; 28; 114; 107; 113; 100; 92; 156; 0; 28; 114; 123; 129; 146; 138].
Proof.
  split; [exact u_image|]. split; [reflexivity|]. split; [vm_compute; reflexivity|]. split; [vm_compute; reflexivity|]. split; [reflexivity|]. split; [vm_compute; discriminate|].
  split; [apply small_planes; vm_compute; reflexivity|]. split; [vm_compute; discriminate|]. split; [vm_compute; discriminate|].
  split; [vm_compute; reflexivity|]. split; vm_compute; reflexivity.
Qed.
Example C53_420_case :
  progressive_image c_q (Colour 2 2 0 0 0) 8 32 [w_cd0; w_cd1; w_cd2] w_is [c_K; c_K; c_K] 6 [9] /\ Forall complete [c_K; c_K; c_K] /\
  short_end (image_geo (Colour 2 2 0 0 0) 8 32) [w_cd0; w_cd1; w_cd2] [] w_is /\
  last_quant (quants c_q) 0 = Some (mkQuantDef 0 (repeat 90 64)) /\
  ((32 + 15) / 16) mod 2 = 0 /\ 16 * ((32 + 15) / 16) * 8 <= (8 + 8) * (32 + 8) + 128 * 32 /\ Forall plane_in_range w_pls /\
  column 8 1 1 (x_px Scalar YCbCr) = repeat 105 12 ++ [114; 114; 131; 131] ++ repeat 139 16 /\
  column 8 1 2 (x_px Avx2 RGB) = repeat 87 12 ++ [103; 103; 133; 133] ++ repeat 147 16.
Proof.
  split; [exact x_image|]. split; [repeat constructor; exact c_complete|]. split; [exact x_end|]. split; [reflexivity|]. split; [reflexivity|]. split; [vm_compute; discriminate|].
  split; [apply small_planes; vm_compute; reflexivity|]. split; vm_compute; reflexivity.
Qed.

(** The line above the border between two rows of MCUs: libjpeg mixes the lines 7 and 8 of the
    chroma as three to one *)
Lemma border_420 w ps px a b A B : pl_qv (plane_at ps 1) = repeat 90 64 ->
  (forall x, 0 <= x < 2 -> block_of ((samples 2 1 w + 7) / 8) (pl_blocks (plane_at ps 1)) [] 7 x = a) ->
  (forall x, 0 <= x < 2 -> block_of ((samples 2 1 w + 7) / 8) (pl_blocks (plane_at ps 1)) [] 8 x = b) ->
  (forall n p x, 0 <= x < 2 -> pl_qv p = repeat 90 64 -> block_of ((n + 7) / 8) (pl_blocks p) [] 7 x = a -> (IZR A - 1 <= exact_at n p 7 x <= IZR A + 1)%R /\ (tolerance_at n p 7 x <= 1)%R) ->
  (forall n p x, 0 <= x < 2 -> pl_qv p = repeat 90 64 -> block_of ((n + 7) / 8) (pl_blocks p) [] 8 x = b -> (IZR B - 1 <= exact_at n p 8 x <= IZR B + 1)%R /\ (tolerance_at n p 8 x <= 1)%R) ->
  2 < w -> IZR B = (IZR A + 34)%R -> nth (Z.to_nat ((15 * w + 1) * 3 + 1)) px 0 = A + 26 -> ~ chroma_420 4 ps w 32 px.
Proof.
  intros Hq Ha Hb HA HB Hw Hd Hp C.
  specialize (C 15 1 1 ltac:(lia) ltac:(lia) ltac:(lia)). cbv zeta in C. rewrite Hp, plus_IZR in C.
  unfold SpecSampledPixels.between in C. change (15 / 2) with 7 in C. change (neighbour 15) with 8 in C. change (1 / 2) with 0 in C. change (neighbour 1) with 1 in C.
  destruct (HA _ _ 0 ltac:(lia) Hq (Ha 0 ltac:(lia))) as [EA0 TA0]. destruct (HA _ _ 1 ltac:(lia) Hq (Ha 1 ltac:(lia))) as [EA1 TA1].
  destruct (HB _ _ 0 ltac:(lia) Hq (Hb 0 ltac:(lia))) as [EB0 TB0]. destruct (HB _ _ 1 ltac:(lia) Hq (Hb 1 ltac:(lia))) as [EB1 TB1].
  apply IdctReal.Rabs_le_inv in C. lra.
Qed.
Lemma u_wrong cpu : exists px,
  fst (decode_buffer (new_with_options cpu (set_out_colorspace default_options YCbCr)) u_file) = Ok px /\ nth (Z.to_nat ((15 * 32 + 1) * 3 + 1)) px 0 = 131.
Proof.
  assert (E : match fst (decode_buffer (new_with_options cpu (set_out_colorspace default_options YCbCr)) u_file) with Ok px => nth (Z.to_nat ((15 * 32 + 1) * 3 + 1)) px 0 = 131 | _ => False end) by (destruct cpu; vm_compute; reflexivity).
  destruct (fst _) as [px| | |]; [eauto|contradiction..].
Qed.
Lemma x_wrong cpu : exists px,
  fst (decode_buffer (new_with_options cpu (set_out_colorspace default_options YCbCr)) (file 194 c_q (Colour 2 2 0 0 0) 8 32 w_is [9])) = Ok px /\
  nth (Z.to_nat ((15 * 8 + 1) * 3 + 1)) px 0 = 131.
Proof.
  assert (E : match fst (decode_buffer (new_with_options cpu (set_out_colorspace default_options YCbCr)) (file 194 c_q (Colour 2 2 0 0 0) 8 32 w_is [9])) with Ok px => nth (Z.to_nat ((15 * 8 + 1) * 3 + 1)) px 0 = 131 | _ => False end) by (destruct cpu; vm_compute; reflexivity).
  destruct (fst _) as [px| | |]; [eauto|contradiction..].
Qed.
Ltac flat_block := intros n p x Hx Hq Hb; assert (Hx' : x = 0 \/ x = 1) by lia; destruct Hx'; subst x;
  (eapply sample_near; [exact Hq|exact Hb|reflexivity|apply small_in_range; vm_compute; reflexivity|small_block|vm_compute; reflexivity]).
Ltac two_columns := intros x Hx; assert (Hx' : x = 0 \/ x = 1) by lia; destruct Hx'; subst x; vm_compute; reflexivity.

(** The claim is false for 4:2:0: the lines of chroma that are mixed are not the two nearest ones. *)
Theorem C52_420_refuted : exists o ps q q1 q2 w h tss sel B bits sfx t0 t1 t2,
  let l := Colour 2 2 q q1 q2 in
  let cd := sel_codes (huffs ps ++ concat tss) sel in
  baseline_colour ps l w h tss sel B bits sfx /\ w <= o_max_width o /\ h <= o_max_height o /\
  last_quant (quants ps) q = Some t0 /\ last_quant (quants ps) q1 = Some t1 /\ last_quant (quants ps) q2 = Some t2 /\
  64 < last_bits cd (image_blocks l w h B) 7 /\
  ((h + 15) / 16) mod 2 = 0 /\ 16 * ((h + 15) / 16) * w <= (w + 8) * (h + 8) + 128 * h /\
  Forall plane_in_range (sampled_planes 2 2 [t0; t1; t2] w h B) /\ o_colorspace o = YCbCr /\
  forall cpu, exists px, fst (decode_buffer (new_with_options cpu o) (colour_file ps l w h tss sel bits sfx)) = Ok px /\
    ~ chroma_420 4 (sampled_planes 2 2 [t0; t1; t2] w h B) w h px.
Proof.
  exists (set_out_colorspace default_options YCbCr), sp_ps, 2, 2, 2, 32, 32, [[sp_act]], sp_sel, u_B, u_code, [9; 9], sp_q, sp_q, sp_q. intros l cd.
  split; [exact u_image|]. split; [cbn; lia|]. split; [cbn; lia|]. split; [reflexivity|]. split; [reflexivity|]. split; [reflexivity|].
  split; [vm_compute; reflexivity|]. split; [reflexivity|]. split; [vm_compute; discriminate|]. split; [apply small_planes; vm_compute; reflexivity|]. split; [reflexivity|].
  intros cpu. destruct (u_wrong cpu) as (px & EF & E). exists px. split; [exact EF|]. clear EF.
  apply (border_420 32 _ px (-2 :: repeat 0 63) (1 :: repeat 0 63) 105 139); [vm_compute; reflexivity|two_columns|two_columns|flat_block|flat_block|reflexivity|lra|exact E].
Qed.
Print Assumptions C52_420_refuted.

Theorem C53_420_refuted : exists o ps q q1 q2 w h t0 t1 t2 cd0 cd1 cd2 is Ks n sfx,
  let l := Colour 2 2 q q1 q2 in
  let pls := [mkPlane (qd_values t0) (cd_blocks cd0); mkPlane (qd_values t1) (cd_blocks cd1); mkPlane (qd_values t2) (cd_blocks cd2)] in
  progressive_image ps l w h [cd0; cd1; cd2] is Ks n sfx /\ Forall complete Ks /\ short_end (image_geo l w h) [cd0; cd1; cd2] [] is /\
  w <= o_max_width o /\ h <= o_max_height o /\ n <= o_max_scans o /\
  last_quant (quants ps) q = Some t0 /\ last_quant (quants ps) q1 = Some t1 /\ last_quant (quants ps) q2 = Some t2 /\
  ((h + 15) / 16) mod 2 = 0 /\ 16 * ((h + 15) / 16) * w <= (w + 8) * (h + 8) + 128 * h /\
  Forall plane_in_range pls /\ o_colorspace o = YCbCr /\
  forall cpu, exists px, fst (decode_buffer (new_with_options cpu o) (file 194 ps l w h is sfx)) = Ok px /\ ~ chroma_420 4 pls w h px.
Proof.
  exists (set_out_colorspace default_options YCbCr), c_q, 0, 0, 0, 8, 32, (mkQuantDef 0 (repeat 90 64)), (mkQuantDef 0 (repeat 90 64)), (mkQuantDef 0 (repeat 90 64)),
    w_cd0, w_cd1, w_cd2, w_is, [c_K; c_K; c_K], 6, [9]. intros l pls.
  split; [exact x_image|]. split; [repeat constructor; exact c_complete|]. split; [exact x_end|].
  split; [cbn; lia|]. split; [cbn; lia|]. split; [cbn; lia|]. split; [reflexivity|]. split; [reflexivity|]. split; [reflexivity|].
  split; [reflexivity|]. split; [vm_compute; discriminate|]. split; [apply small_planes; vm_compute; reflexivity|]. split; [reflexivity|].
  intros cpu. destruct (x_wrong cpu) as (px & EF & E). exists px. split; [exact EF|]. clear EF.
  apply (border_420 8 _ px (-2 :: repeat 0 63) (1 :: repeat 0 63) 105 139); [vm_compute; reflexivity|two_columns|two_columns|flat_block|flat_block|reflexivity|lra|exact E].
Qed.
Print Assumptions C53_420_refuted.
