(** Theorems about images that can be had in more than one way: in several output formats, from
    several files, or as part of another image (C62 to C65). *)
From Coq Require Import ZArith String List Bool Lia Reals.
From Coq Require Import ZifyBool ZifyNat ZifyN.
From Verif Require Import Base Types Huffman State Bitstream Headers Idct Color Simd Worker Mcu McuProg Decoder.
From Verif Require Import SpecHuffman SpecSegments SpecExtend SpecBits SpecBlock SpecProg SpecInter SpecScript SpecImage SpecIdct SpecColor SpecDct SpecPixels SpecColourPixels.
From Verif Require Import SpecBaseline SpecRestart SpecBaseScan SpecBasePixels SpecSampledPixels SpecSame Session SafeTools Files.
From Verif Require Import Thm_ProgFile Thm_BaseGray Thm_Gray Thm_Colour Thm_BaseColour Thm_Sampled Thm_ProgSampled Thm_Between Thm_440.
From Verif Require Exact ProgImage.
Import ProgImage.
Import ListNotations.
Local Open Scope Z_scope.
Ltac Zify.zify_post_hook ::= Z.div_mod_to_equations.

(** C62: grayscale output is the luminance of YCbCr output, byte for byte, whatever the sampling
    factors and the coding.  Missing: widths with much padding, see [C62_refuted], sizes for
    which rows are lost (C34), and baseline files that end in a short block (C36). *)
Theorem C62_partial : forall cpu o scans hs vs qv w h B f,
  colour_image scans hs vs qv w h B f -> whole_size hs vs w h -> narrow_padding hs vs w ->
  scans <= o_max_scans o -> w <= o_max_width o -> h <= o_max_height o ->
  exists pg py,
    fst (decode_buffer (new_with_options cpu (set_out_colorspace o GRAYSCALE)) f) = Ok pg /\
    fst (decode_buffer (new_with_options cpu (set_out_colorspace o YCbCr)) f) = Ok py /\
    Z.of_nat (length pg) = w * h /\ Z.of_nat (length py) = w * h * 3 /\
    forall i, 0 <= i < w * h -> nth (Z.to_nat i) pg 0 = nth (Z.to_nat (3 * i)) py 0.
Proof. exact (fun cpu o scans hs vs qv w h B f H Hs Hp L1 L2 L3 => Exact.gray_is_luma cpu scans hs vs w h Hs o qv B f H (conj L1 (conj L2 L3)) Hp). Qed.
Print Assumptions C62_partial.

(** C63: RGB output is the conversion of YCbCr output, pixel by pixel.  Missing: the last
    columns, see [C63_refuted], the edges of subsampled chroma, the AVX2 routine for 4:2:0, the
    SSE routine for narrow images, and the conditions of C62. *)
Theorem C63_partial : forall cpu o scans hs vs qv w h B f m,
  colour_image scans hs vs qv w h B f -> whole_size hs vs w h ->
  scans <= o_max_scans o -> w <= o_max_width o -> h <= o_max_height o ->
  (hs = 2 -> vs = 2 -> cpu <> Avx2 \/ o_use_unsafe o = false \/ w <= 48) ->
  (cpu <> Sse41 \/ o_use_unsafe o = false \/ 22 <= w /\ 8 * hs * ((w + 8 * hs - 1) / (8 * hs)) <= w + 10) ->
  left_columns hs w m ->
  (forall k x y, (k < 3)%nat -> has_samples hs vs w h k x y -> in_range (qv k) (B k x y)) ->
  exists pr py,
    fst (decode_buffer (new_with_options cpu (set_out_colorspace o RGB)) f) = Ok pr /\
    fst (decode_buffer (new_with_options cpu (set_out_colorspace o YCbCr)) f) = Ok py /\
    Z.of_nat (length pr) = w * h * 3 /\ Z.of_nat (length py) = w * h * 3 /\
    forall r c, 0 <= r < h -> 0 <= c < m -> inside hs vs w h r c ->
      [byte_at w pr r c 0; byte_at w pr r c 1; byte_at w pr r c 2] =
      pixel_rgb (byte_at w py r c 0) (byte_at w py r c 1) (byte_at w py r c 2).
Proof. exact (fun cpu o scans hs vs qv w h B f m H Hs L1 L2 L3 Hp Hk Hm Hr => Exact.rgb_is_ycc cpu scans hs vs w h Hs o qv B f m H (conj L1 (conj L2 L3)) Hp Hk Hm Hr). Qed.
Print Assumptions C63_partial.

(** C64: files that hold the same coefficients and quantizers give the same pixels, whatever
    their coding: baseline, with restart intervals or progressive, with any Huffman tables and
    scripts.  Missing: baseline colour files that end in a short block, see [C64_refuted];
    narrow images; the edges of subsampled chroma, where the padding shows. *)
Theorem C64_gray_partial : forall cpu o scans qv w h blocks f f',
  gray_image scans qv w h blocks f -> gray_image scans qv w h blocks f' ->
  scans <= o_max_scans o -> w <= o_max_width o -> h <= o_max_height o -> w <= 65527 -> h <= 65527 ->
  64 * ((w + 7) / 8) < 9 * w ->
  exists px,
    fst (decode_buffer (new_with_options cpu o) f) = Ok px /\
    fst (decode_buffer (new_with_options cpu o) f') = Ok px /\ Z.of_nat (length px) = w * h.
Proof. exact Exact.gray_same. Qed.
Print Assumptions C64_gray_partial.

Theorem C64_luma_partial : forall cpu o scans hs vs qv w h B f f',
  colour_image scans hs vs qv w h B f -> colour_image scans hs vs qv w h B f' ->
  whole_size hs vs w h -> narrow_padding hs vs w ->
  scans <= o_max_scans o -> w <= o_max_width o -> h <= o_max_height o -> o_colorspace o = GRAYSCALE ->
  exists px,
    fst (decode_buffer (new_with_options cpu o) f) = Ok px /\
    fst (decode_buffer (new_with_options cpu o) f') = Ok px /\ Z.of_nat (length px) = w * h.
Proof. exact (fun cpu o scans hs vs qv w h B f f' H1 H2 Hs Hp L1 L2 L3 Ho => Exact.same_luma cpu scans hs vs w h Hs o qv B f f' H1 H2 (conj L1 (conj L2 L3)) Ho Hp). Qed.
Print Assumptions C64_luma_partial.

Theorem C64_ycc_partial : forall cpu o scans hs vs qv w h B f f',
  colour_image scans hs vs qv w h B f -> colour_image scans hs vs qv w h B f' -> whole_size hs vs w h ->
  scans <= o_max_scans o -> w <= o_max_width o -> h <= o_max_height o -> o_colorspace o = YCbCr ->
  exists px px',
    fst (decode_buffer (new_with_options cpu o) f) = Ok px /\
    fst (decode_buffer (new_with_options cpu o) f') = Ok px' /\
    Z.of_nat (length px) = w * h * 3 /\ Z.of_nat (length px') = w * h * 3 /\
    (forall r c, 0 <= r < h -> 0 <= c < w -> byte_at w px r c 0 = byte_at w px' r c 0) /\
    ((hs = 2 -> vs = 2 -> cpu <> Avx2 \/ o_use_unsafe o = false \/ w <= 48) ->
     forall r c k, 0 <= r < h -> 0 <= c < w -> 0 <= k < 3 -> inside hs vs w h r c -> byte_at w px r c k = byte_at w px' r c k) /\
    (hs = 1 -> vs = 1 -> px = px').
Proof. exact (fun cpu o scans hs vs qv w h B f f' H1 H2 Hs L1 L2 L3 Ho => Exact.same_ycc cpu scans hs vs w h Hs o qv B f f' H1 H2 (conj L1 (conj L2 L3)) Ho). Qed.
Print Assumptions C64_ycc_partial.

Theorem C64_rgb_partial : forall cpu o scans hs vs qv w h B f f' m,
  colour_image scans hs vs qv w h B f -> colour_image scans hs vs qv w h B f' -> whole_size hs vs w h ->
  scans <= o_max_scans o -> w <= o_max_width o -> h <= o_max_height o -> o_colorspace o = RGB ->
  (hs = 2 -> vs = 2 -> cpu <> Avx2 \/ o_use_unsafe o = false \/ w <= 48) ->
  (cpu <> Sse41 \/ o_use_unsafe o = false \/ 22 <= w /\ 8 * hs * ((w + 8 * hs - 1) / (8 * hs)) <= w + 10) ->
  left_columns hs w m ->
  exists px px',
    fst (decode_buffer (new_with_options cpu o) f) = Ok px /\
    fst (decode_buffer (new_with_options cpu o) f') = Ok px' /\
    Z.of_nat (length px) = w * h * 3 /\ Z.of_nat (length px') = w * h * 3 /\
    (forall r c k, 0 <= r < h -> 0 <= c < m -> 0 <= k < 3 -> inside hs vs w h r c -> byte_at w px r c k = byte_at w px' r c k).
Proof. exact (fun cpu o scans hs vs qv w h B f f' m H1 H2 Hs L1 L2 L3 Ho Hp Hk Hm => Exact.same_rgb cpu scans hs vs w h Hs o qv B f f' m H1 H2 (conj L1 (conj L2 L3)) Ho Hp Hk Hm). Qed.
Print Assumptions C64_rgb_partial.

(** C65: a pixel depends only on its block, the quantizers and its place in the block; so blocks
    can be moved between images.  Grayscale images: *)
Theorem C65_gray_partial : forall cpu o scans qv w h blocks f w' h' blocks' f',
  gray_image scans qv w h blocks f -> gray_image scans qv w' h' blocks' f' -> scans <= o_max_scans o ->
  w <= o_max_width o -> h <= o_max_height o -> w <= 65527 -> h <= 65527 -> 64 * ((w + 7) / 8) < 9 * w ->
  w' <= o_max_width o -> h' <= o_max_height o -> w' <= 65527 -> h' <= 65527 -> 64 * ((w' + 7) / 8) < 9 * w' ->
  exists px px',
    fst (decode_buffer (new_with_options cpu o) f) = Ok px /\ fst (decode_buffer (new_with_options cpu o) f') = Ok px' /\
    forall r c r' c', 0 <= r < h -> 0 <= c < w -> 0 <= r' < h' -> 0 <= c' < w' -> r mod 8 = r' mod 8 -> c mod 8 = c' mod 8 ->
      block_of ((w + 7) / 8) blocks [] r c = block_of ((w' + 7) / 8) blocks' [] r' c' ->
      nth (Z.to_nat (r * w + c)) px 0 = nth (Z.to_nat (r' * w' + c')) px' 0.
Proof. exact Exact.gray_local. Qed.
Print Assumptions C65_gray_partial.

(** The luminance of colour images, whatever their sampling factors *)
Theorem C65_luma_partial : forall cpu o scans hs vs qv w h B f hs' vs' qv' w' h' B' f',
  colour_image scans hs vs qv w h B f -> colour_image scans hs' vs' qv' w' h' B' f' -> qv 0%nat = qv' 0%nat ->
  whole_size hs vs w h -> whole_size hs' vs' w' h' ->
  scans <= o_max_scans o /\ w <= o_max_width o /\ h <= o_max_height o ->
  scans <= o_max_scans o /\ w' <= o_max_width o /\ h' <= o_max_height o -> o_colorspace o = YCbCr ->
  exists px px',
    fst (decode_buffer (new_with_options cpu o) f) = Ok px /\ fst (decode_buffer (new_with_options cpu o) f') = Ok px' /\
    forall r c r' c', 0 <= r < h -> 0 <= c < w -> 0 <= r' < h' -> 0 <= c' < w' -> r mod 8 = r' mod 8 -> c mod 8 = c' mod 8 ->
      B 0%nat (c / 8) (r / 8) = B' 0%nat (c' / 8) (r' / 8) -> byte_at w px r c 0 = byte_at w' px' r' c' 0.
Proof. exact Exact.luma_local. Qed.
Print Assumptions C65_luma_partial.

(** All components of colour images without subsampling *)
Theorem C65_colour_partial : forall cpu o scans qv w h B f w' h' B' f',
  colour_image scans 1 1 qv w h B f -> colour_image scans 1 1 qv w' h' B' f' ->
  whole_size 1 1 w h -> whole_size 1 1 w' h' ->
  scans <= o_max_scans o /\ w <= o_max_width o /\ h <= o_max_height o ->
  scans <= o_max_scans o /\ w' <= o_max_width o /\ h' <= o_max_height o -> o_colorspace o = YCbCr ->
  exists px px',
    fst (decode_buffer (new_with_options cpu o) f) = Ok px /\ fst (decode_buffer (new_with_options cpu o) f') = Ok px' /\
    forall r c r' c' k, 0 <= r < h -> 0 <= c < w -> 0 <= r' < h' -> 0 <= c' < w' -> r mod 8 = r' mod 8 -> c mod 8 = c' mod 8 -> 0 <= k < 3 ->
      B (Z.to_nat k) (c / 8) (r / 8) = B' (Z.to_nat k) (c' / 8) (r' / 8) -> byte_at w px r c k = byte_at w' px' r' c' k.
Proof. exact Exact.colour_local. Qed.
Print Assumptions C65_colour_partial.

(** * A baseline and a progressive file for one image in 4:2:0, up to 16 by 32 pixels *)
Definition m_dc (d : Z) : list Z := d :: repeat 0 63.
Definition m_cd0 : comp_data := mkCompData 1 2 4 (map m_dc [3; 3; 3; 3; 0; 0; 0; 0]).
Definition m_cd1 : comp_data := mkCompData 2 1 2 (map m_dc [-2; 1]).
Definition m_cd2 : comp_data := mkCompData 3 1 2 (repeat (0 :: repeat 1 63) 2).
Definition m_B (k : nat) (x y : Z) : list Z :=
  match k with
  | 0%nat => m_dc (if y <? 2 then 3 else 0)
  | 1%nat => m_dc (if y =? 0 then -2 else 1)
  | _ => 0 :: repeat 1 63
  end.
Definition m_is : list item :=
  [Tables [ex_dc; ex_ac];
   Scan 1 0 0 0 0 0 0 [false; true; true; true; false; true; false; true; false; false; false; false; true; false; true; false; true; false];
   Scan 2 0 0 0 0 0 0 [false; false; true; false; true; true]; Scan 3 0 0 0 0 0 0 y_dc;
   Scan 1 0 0 1 63 0 0 (concat (repeat [true; false; false] 4)); Scan 2 0 0 1 63 0 0 y_ac; Scan 3 0 0 1 63 0 0 (concat (repeat [false; true] 126))].
Definition m_prog (w : Z) : list Z := file 194 c_q (Colour 2 2 0 0 0) w 32 m_is [9].
Definition m_code : list bool :=
  match encode_units (sel_codes [sp_dct; sp_act] sp_sel) (fun _ => 0) (image_blocks (sp_l 2 2) 16 32 m_B) with Some b => b | None => [] end.
Definition m_base (w : Z) : list Z := colour_file sp_ps (sp_l 2 2) w 32 [[sp_act]] sp_sel m_code [9; 9].
Lemma ones_band ac n : ac 1 = Some [false] -> first_band ac (repeat 1 n) 0 (concat (repeat [false; true] n)).
Proof.
  intros H. induction n as [|n IH]; [constructor|]. cbn [repeat concat app].
  change (1 :: repeat 1 n) with (repeat 0 0 ++ 1 :: repeat 1 n)%list. change (false :: true :: concat (repeat [false; true] n)) with ([false] ++ extra 1 ++ concat (repeat [false; true] n))%list.
  apply fb_coef; [lia|discriminate|exact H|exact IH].
Qed.
Lemma m_script g : script g [m_cd0; m_cd1; m_cd2] [] [nothing; nothing; nothing] m_is [c_K; c_K; c_K] 6 24.
Proof.
  destruct ex_usable as [Ud Ua].
  apply sc_tables; [constructor; [apply ex_dc_legal|constructor; [apply ex_ac_legal|constructor]]|vm_compute; discriminate|].
  cbn [app].
  eapply (script_one _ _ _ _ 0 m_cd0 0 0 0 0 0 0 _ _ _ 5 16); [reflexivity| |
  eapply (script_one _ _ _ _ 1 m_cd1 0 0 0 0 0 0 _ _ _ 4 14); [reflexivity| |
  eapply (script_one _ _ _ _ 2 m_cd2 0 0 0 0 0 0 _ _ _ 3 12); [reflexivity| |
  eapply (script_one _ _ _ _ 0 m_cd0 0 0 1 63 0 0 _ _ _ 2 4); [reflexivity| |
  eapply (script_one _ _ _ _ 1 m_cd1 0 0 1 63 0 0 _ _ _ 1 2); [reflexivity| |
  eapply (script_one _ _ _ _ 2 m_cd2 0 0 1 63 0 0 _ _ _ 0 0); [reflexivity| |
  apply sc_end]]]]]].
  1-3: eexists _, _; (split; [reflexivity|]); (split; [reflexivity|]); (split; [lia|]); (split; [lia|]);
    (split; [exact c_next_dc|]); (split; [exact Ud|]); (split; [reflexivity|]); cbn; repeat split; discriminate.
  all: eexists _, _; (split; [reflexivity|]); (split; [reflexivity|]); (split; [lia|]); (split; [lia|]);
    (split; [exact c_next_ac|]); (split; [exact Ua|]).
  - change (first_bands (code_at [ex_dc; ex_ac] true 0) (repeat 0 63 :: [repeat 0 63] ++ (repeat 0 63 :: [repeat 0 63] ++ (repeat 0 63 :: [repeat 0 63] ++ (repeat 0 63 :: [repeat 0 63] ++ []))))
      (([true; false] ++ bits_of 1 0) ++ ([true; false] ++ bits_of 1 0) ++ ([true; false] ++ bits_of 1 0) ++ ([true; false] ++ bits_of 1 0) ++ []))%list.
    do 4 (apply fbs_band with (n := 1%nat); [exact (fb_eob _ 63 1 0 _ ltac:(lia) ltac:(lia) ltac:(lia) eq_refl)|reflexivity|repeat constructor|]). constructor.
  - change (first_bands (code_at [ex_dc; ex_ac] true 0) (repeat 0 63 :: [repeat 0 63] ++ []) (([true; false] ++ bits_of 1 0) ++ []))%list.
    apply fbs_band with (n := 1%nat); [|reflexivity|repeat constructor|constructor].
    exact (fb_eob _ 63 1 0 _ ltac:(lia) ltac:(lia) ltac:(lia) eq_refl).
  - change (first_bands (code_at [ex_dc; ex_ac] true 0) (repeat 1 63 :: [] ++ (repeat 1 63 :: [] ++ [])) (concat (repeat [false; true] 63) ++ concat (repeat [false; true] 63) ++ []))%list.
    do 2 (apply fbs_band with (n := 0%nat); [apply ones_band; reflexivity|reflexivity|constructor|]). constructor.
Qed.
Lemma m_prog_image w : 15 <= w <= 16 -> progressive_image c_q (Colour 2 2 0 0 0) w 32 [m_cd0; m_cd1; m_cd2] m_is [c_K; c_K; c_K] 6 [9].
Proof.
  intros Hw. assert (w = 15 \/ w = 16) as C by lia.
  destruct C as [-> | ->]; ps_rest; exists 24; (split; [apply m_script|lia]).
Qed.
Lemma m_base_image w : 15 <= w <= 16 -> baseline_colour sp_ps (sp_l 2 2) w 32 [[sp_act]] sp_sel m_B m_code [9; 9].
Proof.
  intros Hw. assert (E : image_blocks (sp_l 2 2) w 32 m_B = image_blocks (sp_l 2 2) 16 32 m_B).
  { assert (w = 15 \/ w = 16) as C by lia.
    destruct C as [-> | ->]; reflexivity. }
  destruct sp_image_wide as [I1 I2 I3 I4 _ _ I7 I8 _ _ I11]. split; try assumption; try lia.
  - now exists 2, 2, 2, 2, 2.
  - cbn. lia.
  - rewrite E. vm_compute. reflexivity.
  - rewrite E. match goal with |- units_pred _ _ ?us => let v := eval vm_compute in us in change us with v end. cbn [units_pred].
    repeat split; try (vm_compute; discriminate || reflexivity);
    repeat (apply Forall_cons; [vm_compute; discriminate|]); apply Forall_nil.
Qed.
Lemma m_end w : short_end (image_geo (Colour 2 2 0 0 0) w 32) [m_cd0; m_cd1; m_cd2] [] m_is.
Proof. cbn [short_end m_is]. split; [reflexivity|]. split; [reflexivity|]. exists m_cd0. split; [now left|]. split; [reflexivity|]. vm_compute. discriminate. Qed.
Definition m_qv (_ : nat) : list Z := repeat 90 64.
Lemma m_prog_same w : 15 <= w <= 16 -> colour_image 6 2 2 m_qv w 32 m_B (m_prog w).
Proof.
  intros Hw. unfold m_prog.
  apply (colour_progressive 6 2 2 m_qv w 32 m_B c_q 0 0 0 (mkQuantDef 0 (repeat 90 64)) (mkQuantDef 0 (repeat 90 64)) (mkQuantDef 0 (repeat 90 64)) m_cd0 m_cd1 m_cd2 m_is [c_K; c_K; c_K] 6 [9]);
    try reflexivity; [now apply m_prog_image|exact (Forall_cons _ c_complete (Forall_cons _ c_complete (Forall_cons _ c_complete (Forall_nil _))))|apply m_end|].
  intros k x y Hk [Hx Hy]. unfold samples in *.
  destruct k as [|[|[|k]]]; [| | |lia]; cbn [Nat.eqb] in *.
  - replace ((w + 7) / 8) with 2 in * by lia. change ((32 + 7) / 8) with 4 in Hy.
    assert (x = 0 \/ x = 1) as [-> | ->] by lia; assert (y = 0 \/ y = 1 \/ y = 2 \/ y = 3) as [-> |[-> |[-> | ->]]] by lia; reflexivity.
  - replace (((w + 2 - 1) / 2 + 7) / 8) with 1 in * by lia. change (((32 + 2 - 1) / 2 + 7) / 8) with 2 in Hy.
    assert (x = 0) as -> by lia; assert (y = 0 \/ y = 1) as [-> | ->] by lia; reflexivity.
  - replace (((w + 2 - 1) / 2 + 7) / 8) with 1 in * by lia. change (((32 + 2 - 1) / 2 + 7) / 8) with 2 in Hy.
    assert (x = 0) as -> by lia; assert (y = 0 \/ y = 1) as [-> | ->] by lia; reflexivity.
Qed.
Lemma m_base_same w : 15 <= w <= 16 -> colour_image 6 2 2 m_qv w 32 m_B (m_base w).
Proof.
  intros Hw. unfold m_base.
  apply (colour_baseline 6 2 2 m_qv w 32 m_B sp_ps 2 2 2 sp_q sp_q sp_q [[sp_act]] sp_sel m_B m_code [9; 9]); try reflexivity; [now apply m_base_image|].
  assert (w = 15 \/ w = 16) as C by lia.
  destruct C as [-> | ->]; vm_compute; reflexivity.
Qed.

Lemma m_in_range k x y : in_range (m_qv k) (m_B k x y).
Proof. destruct k as [|[|k]]; unfold m_B; [destruct (y <? 2)|destruct (y =? 0)|]; apply small_in_range; vm_compute; reflexivity. Qed.

(** Samples at three places of a result: two rows of luma, one pixel of chroma *)
Definition spots (w : Z) (r : res (list Z)) : list (list Z) :=
  match r with Ok px => map (fun rc => map (byte_at w px (fst rc) (snd rc)) [0; 1; 2]) [(2, 3); (17, 3); (17, 10)] | _ => [] end.
Definition m_px (cpu : isa) (cs : colorspace) (f : list Z) : res (list Z) := fst (decode_buffer (new_with_options cpu (set_out_colorspace default_options cs)) f).

Example C62_case :
  colour_image 6 2 2 m_qv 16 32 m_B (m_base 16) /\ whole_size 2 2 16 32 /\ narrow_padding 2 2 16 /\
  match m_px Avx2 GRAYSCALE (m_base 16) with Ok px => map (fun i => nth (Z.to_nat i) px 0) [35; 275; 282] | _ => [] end = [161; 128; 128] /\
  spots 16 (m_px Sse41 YCbCr (m_base 16)) = [[161; 105; 63]; [128; 139; 138]; [128; 139; 115]].
Proof.
  split; [apply m_base_same; lia|]. split; [unfold whole_size; vm_compute; intuition discriminate|]. split; [reflexivity|]. split; vm_compute; reflexivity.
Qed.
Example C63_case :
  colour_image 6 2 2 m_qv 15 32 m_B (m_base 15) /\ whole_size 2 2 15 32 /\ left_columns 2 15 11 /\
  (forall k x y, (k < 3)%nat -> has_samples 2 2 15 32 k x y -> in_range (m_qv k) (m_B k x y)) /\
  inside 2 2 15 32 17 10 /\
  spots 15 (m_px Avx2 YCbCr (m_base 15)) = [[161; 105; 63]; [128; 139; 138]; [128; 139; 115]] /\
  spots 15 (m_px Avx2 RGB (m_base 15)) = [[69; 216; 120]; [142; 118; 147]; [109; 134; 147]].
Proof.
  split; [apply m_base_same; lia|]. split; [unfold whole_size; vm_compute; intuition discriminate|]. split; [unfold left_columns; lia|].
  split; [intros; apply m_in_range|]. split; [unfold inside; split; intros _; lia|]. split; vm_compute; reflexivity.
Qed.
Example C64_gray_case :
  gray_image 4 (repeat 3 64) 15 7 bg_blk (file 192 bg_ps (Gray 2) 15 7 (baseline_items [[bg_act]] 0 1 bg_code) [9; 9]) /\
  gray_image 4 (repeat 3 64) 15 7 bg_blk (file 194 ex_q (Gray 0) 15 7 ex_is [9; 9]) /\ 64 * ((15 + 7) / 8) < 9 * 15.
Proof.
  destruct C49_case as (H1 & H2 & H3 & _).
  split; [|split; [|reflexivity]].
  - apply (gray_baseline _ _ _ _ _ bg_ps 2 (mkQuantDef 2 (repeat 3 64))); [apply bg_image; lia|reflexivity|reflexivity].
  - apply (gray_progressive _ _ _ _ _ ex_q 0 (mkQuantDef 0 (repeat 3 64)) ex_cd ex_is ex_K 4 [9; 9]); try assumption; try reflexivity; lia.
Qed.
Example C64_colour_case :
  colour_image 6 2 2 m_qv 16 32 m_B (m_base 16) /\ colour_image 6 2 2 m_qv 16 32 m_B (m_prog 16) /\
  colour_image 6 2 2 m_qv 15 32 m_B (m_base 15) /\ colour_image 6 2 2 m_qv 15 32 m_B (m_prog 15) /\
  whole_size 2 2 16 32 /\ narrow_padding 2 2 16 /\ whole_size 2 2 15 32 /\ left_columns 2 15 11 /\
  spots 15 (m_px Scalar YCbCr (m_prog 15)) = [[161; 105; 63]; [128; 139; 138]; [128; 139; 115]] /\
  spots 15 (m_px Scalar RGB (m_prog 15)) = [[69; 216; 120]; [142; 118; 147]; [109; 134; 147]].
Proof.
  split; [apply m_base_same; lia|]. split; [apply m_prog_same; lia|]. split; [apply m_base_same; lia|]. split; [apply m_prog_same; lia|].
  split; [unfold whole_size; vm_compute; intuition discriminate|]. split; [reflexivity|].
  split; [unfold whole_size; vm_compute; intuition discriminate|]. split; [unfold left_columns; lia|]. split; vm_compute; reflexivity.
Qed.

(** The progressive image of C50_case, 10 pixels wide and 12 pixels wide *)
Definition s_B (k : nat) (x y : Z) : list Z := nth (Z.to_nat x) (cd_blocks (nth k [c_cd0; c_cd1; c_cd2] c_cd0)) [].
Lemma s_prog w : w = 10 \/ w = 12 -> colour_image 4 1 1 m_qv w 7 s_B (file 194 c_q (Colour 1 1 0 0 0) w 7 c_is [9; 9]).
Proof.
  intros Hw. destruct C50_case as (_ & H2 & H3 & H4 & _).
  assert (Hi : progressive_image c_q (Colour 1 1 0 0 0) w 7 [c_cd0; c_cd1; c_cd2] c_is [c_K; c_K; c_K] 4 [9; 9]).
  { destruct Hw as [-> | ->]; [exact c_image|].
    destruct c_image as [I1 I2 I3 _ _ I6 I7 I8 I9 I10 I11]. split; try assumption; try lia; try reflexivity.
    split; [reflexivity|]; intros [|[|[|k]]] cd; try (intros [= <-]; repeat split); destruct k; discriminate. }
  apply (colour_progressive 4 1 1 m_qv w 7 s_B c_q 0 0 0 (mkQuantDef 0 (repeat 90 64)) (mkQuantDef 0 (repeat 90 64)) (mkQuantDef 0 (repeat 90 64)) c_cd0 c_cd1 c_cd2 c_is [c_K; c_K; c_K] 4 [9; 9]);
    try reflexivity; [exact Hi|exact H2|destruct Hw as [-> | ->]; exact H3|].
  intros k x y Hk [Hx Hy]. unfold samples in *. unfold s_B. destruct Hw as [-> | ->].
  all: destruct k as [|[|[|k]]]; [| | |lia]; assert (y = 0) as -> by (cbn [Nat.eqb] in Hy; clear - Hy; lia); reflexivity.
Qed.
Definition one_byte (w r c k : Z) (p : res (list Z)) : Z := match p with Ok px => byte_at w px r c k | _ => -1 end.
Example C65_case :
  gray_image 4 (repeat 3 64) 16 7 bg_blk (file 192 bg_ps (Gray 2) 16 7 (baseline_items [[bg_act]] 0 1 bg_code) [9; 9]) /\
  gray_image 4 (repeat 3 64) 15 7 bg_blk (file 194 ex_q (Gray 0) 15 7 ex_is [9; 9]) /\
  block_of ((16 + 7) / 8) bg_blk [] 3 14 = block_of ((15 + 7) / 8) bg_blk [] 3 14 /\
  colour_image 6 2 2 m_qv 16 32 m_B (m_base 16) /\ colour_image 6 2 2 m_qv 15 32 m_B (m_prog 15) /\
  m_B 0%nat (3 / 8) (2 / 8) = m_B 0%nat (11 / 8) (10 / 8) /\
  colour_image 4 1 1 m_qv 10 7 s_B (file 194 c_q (Colour 1 1 0 0 0) 10 7 c_is [9; 9]) /\
  colour_image 4 1 1 m_qv 12 7 s_B (file 194 c_q (Colour 1 1 0 0 0) 12 7 c_is [9; 9]) /\
  whole_size 1 1 10 7 /\ whole_size 1 1 12 7 /\
  s_B 1%nat (2 / 8) (3 / 8) = s_B 1%nat (10 / 8) (3 / 8) /\
  one_byte 10 3 2 1 (m_px Scalar YCbCr (file 194 c_q (Colour 1 1 0 0 0) 10 7 c_is [9; 9])) = 105 /\
  one_byte 12 3 10 1 (m_px Scalar YCbCr (file 194 c_q (Colour 1 1 0 0 0) 12 7 c_is [9; 9])) = 105.
Proof.
  split; [|split; [exact (proj1 (proj2 C64_gray_case))|]].
  - apply (gray_baseline _ _ _ _ _ bg_ps 2 (mkQuantDef 2 (repeat 3 64))); [apply bg_image; lia|reflexivity|reflexivity].
  - split; [reflexivity|]. split; [apply m_base_same; lia|]. split; [apply m_prog_same; lia|]. split; [reflexivity|].
    split; [apply s_prog; now left|]. split; [apply s_prog; now right|].
    split; [unfold whole_size; vm_compute; intuition discriminate|]. split; [unfold whole_size; vm_compute; intuition discriminate|].
    split; [reflexivity|]. split; vm_compute; reflexivity.
Qed.

(** C62 without the condition on the width: 15 by 32 pixels can be had as YCbCr, but the decoder
    panics if grayscale is asked for. *)
Theorem C62_refuted : exists o scans hs vs qv w h B f,
  colour_image scans hs vs qv w h B f /\ whole_size hs vs w h /\
  scans <= o_max_scans o /\ w <= o_max_width o /\ h <= o_max_height o /\
  forall cpu,
    (exists m, fst (decode_buffer (new_with_options cpu (set_out_colorspace o GRAYSCALE)) f) = Panic m) /\
    (exists py, fst (decode_buffer (new_with_options cpu (set_out_colorspace o YCbCr)) f) = Ok py).
Proof.
  exists default_options, 6, 2, 2, m_qv, 15, 32, m_B, (m_base 15).
  split; [apply m_base_same; lia|]. split; [unfold whole_size; vm_compute; intuition discriminate|]. split; [cbn; lia|]. split; [cbn; lia|]. split; [cbn; lia|].
  intros cpu. split.
  - assert (E : match fst (decode_buffer (new_with_options cpu (set_out_colorspace default_options GRAYSCALE)) (m_base 15)) with Panic _ => True | _ => False end)
      by (destruct cpu; vm_compute; exact I).
    destruct (fst _) as [px|e|m|]; [contradiction|contradiction|eauto|contradiction].
  - assert (E : match fst (decode_buffer (new_with_options cpu (set_out_colorspace default_options YCbCr)) (m_base 15)) with Ok _ => True | _ => False end)
      by (destruct cpu; vm_compute; exact I).
    destruct (fst _) as [px|e|m|]; [eauto|contradiction..].
Qed.
Print Assumptions C62_refuted.

(** C63 without the condition on the columns: in an image of 32 by 8 pixels without subsampling
    the pixel in row 0, column 30 is gray in YCbCr and black in RGB. *)
Theorem C63_refuted : exists o q scans hs vs w h is Ks n,
  progressive_image q (Colour hs vs 0 0 0) w h [z_cd 1; z_cd 2; z_cd 3] is Ks n [] /\ Forall complete Ks /\ n <= scans /\ whole_size hs vs w h /\
  scans <= o_max_scans o /\ w <= o_max_width o /\ h <= o_max_height o /\
  forall cpu, cpu <> Sse41 -> exists pr py,
    fst (decode_buffer (new_with_options cpu (set_out_colorspace o RGB)) (file 194 q (Colour hs vs 0 0 0) w h is [])) = Ok pr /\
    fst (decode_buffer (new_with_options cpu (set_out_colorspace o YCbCr)) (file 194 q (Colour hs vs 0 0 0) w h is [])) = Ok py /\
    [byte_at w pr 0 30 0; byte_at w pr 0 30 1; byte_at w pr 0 30 2] = [0; 0; 0] /\
    pixel_rgb (byte_at w py 0 30 0) (byte_at w py 0 30 1) (byte_at w py 0 30 2) = [128; 128; 128].
Proof.
  exists default_options, c_q, 6, 1, 1, 32, 8, z_is, [c_K; c_K; c_K], 6.
  split; [exact z_image|]. split; [exact (Forall_cons _ c_complete (Forall_cons _ c_complete (Forall_cons _ c_complete (Forall_nil _))))|].
  split; [lia|]. split; [unfold whole_size; vm_compute; intuition discriminate|]. split; [cbn; lia|]. split; [cbn; lia|]. split; [cbn; lia|].
  intros [] Hc; [|now contradiction Hc|].
  all: eexists _, _; split; [vm_compute; reflexivity|split; [vm_compute; reflexivity|split; vm_compute; reflexivity]].
Qed.
Print Assumptions C63_refuted.

(** C64 without the condition on the last block: the image of C50_case as a baseline file.  The
    two files hold the same coefficients, but already the second block of luma and all of chroma
    are different. *)
Definition s_code : list bool :=
  match encode_units (sel_codes [bc_dct; bc_act] bc_sel) (fun _ => 0) (image_blocks bc_l 10 7 s_B) with Some b => b | None => [] end.
Lemma s_base : baseline_colour bc_ps bc_l 10 7 [[bc_act]] bc_sel s_B s_code [9; 9].
Proof.
  destruct bc_image as [I1 I2 I3 I4 _ _ I7 I8 _ _ I11]. split; try assumption; try lia.
  - vm_compute. reflexivity.
  - match goal with |- units_pred _ _ ?us => let v := eval vm_compute in us in change us with v end. cbn [units_pred].
    repeat split; try (vm_compute; discriminate || reflexivity);
    repeat (apply Forall_cons; [vm_compute; discriminate|]); apply Forall_nil.
Qed.
Lemma s_pick (r r' : res (list Z)) :
  match r, r' with
  | Ok px, Ok px' => map (byte_at 10 px 0 8) [0; 1; 2] = [128; 105; 150] /\ map (byte_at 10 px' 0 8) [0; 1; 2] = [139; 128; 128]
  | _, _ => False
  end -> exists px px', r = Ok px /\ r' = Ok px' /\
    byte_at 10 px 0 8 0 <> byte_at 10 px' 0 8 0 /\ byte_at 10 px 0 8 1 <> byte_at 10 px' 0 8 1 /\ byte_at 10 px 0 8 2 <> byte_at 10 px' 0 8 2.
Proof.
  destruct r as [px|e|m|]; [|contradiction..]. destruct r' as [px'|e|m|]; [|contradiction..].
  cbn [map]. intros E. exists px, px'. split; [reflexivity|]. split; [reflexivity|]. destruct E as [[= -> -> ->] [= -> -> ->]]. split; [discriminate|]. split; discriminate.
Qed.
Theorem C64_refuted : exists o scans qv w h B f ps q tss sel bits sfx t,
  colour_image scans 1 1 qv w h B f /\
  baseline_colour ps (Colour 1 1 q q q) w h tss sel B bits sfx /\ last_quant (quants ps) q = Some t /\ (forall k, qd_values t = qv k) /\
  whole_size 1 1 w h /\ scans <= o_max_scans o /\ w <= o_max_width o /\ h <= o_max_height o /\ o_colorspace o = YCbCr /\
  forall cpu, exists px px',
    fst (decode_buffer (new_with_options cpu o) f) = Ok px /\
    fst (decode_buffer (new_with_options cpu o) (colour_file ps (Colour 1 1 q q q) w h tss sel bits sfx)) = Ok px' /\
    byte_at w px 0 8 0 <> byte_at w px' 0 8 0 /\ byte_at w px 0 8 1 <> byte_at w px' 0 8 1 /\ byte_at w px 0 8 2 <> byte_at w px' 0 8 2.
Proof.
  exists (set_out_colorspace default_options YCbCr), 4, m_qv, 10, 7, s_B, (file 194 c_q (Colour 1 1 0 0 0) 10 7 c_is [9; 9]), bc_ps, 2, [[bc_act]], bc_sel, s_code, [9; 9], bc_q.
  split; [apply s_prog; now left|]. split; [exact s_base|]. split; [reflexivity|]. split; [reflexivity|].
  split; [unfold whole_size; vm_compute; intuition discriminate|]. split; [cbn; lia|]. split; [cbn; lia|]. split; [cbn; lia|]. split; [reflexivity|].
  intros cpu.
  apply s_pick. destruct cpu; vm_compute; split; reflexivity.
Qed.
Print Assumptions C64_refuted.
