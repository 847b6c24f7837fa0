(** Theorems about the pixels of colour progressive files with subsampled chroma (C53). *)
From Coq Require Import ZArith String List Bool Lia Reals Lra.
From Verif Require Import Base Types Huffman State Bitstream Headers Mcu McuProg Decoder.
From Verif Require Import SpecHuffman SpecSegments SpecExtend SpecBits SpecBlock SpecProg SpecInter SpecScript SpecImage SpecDct SpecPixels SpecColourPixels SpecSampledPixels.
From Verif Require Import Obs ObsProg ExTools ProgImage Thm_ProgFile Thm_Colour ProgSampledReal.
Import ListNotations.
Local Open Scope Z_scope.

(** C53 for output as grayscale, for 4:4:4, 4:2:2, 4:4:0 and 4:2:0: all of the luminance.
    Missing: what is missing in C38; an odd number of rows of MCUs when the luminance has twice
    the columns of the chroma; wide flat images; widths where the padding is too large. *)
Theorem C53_luma_partial : forall cpu o ps hs vs q q1 q2 w h t0 t1 t2 cd0 cd1 cd2 is Ks n sfx,
  let l := Colour hs vs q q1 q2 in
  let rows := (h + 8 * vs - 1) / (8 * vs) in
  let pls := [mkPlane (qd_values t0) (cd_blocks cd0); mkPlane (qd_values t1) (cd_blocks cd1); mkPlane (qd_values t2) (cd_blocks cd2)] in
  progressive_image ps l w h [cd0; cd1; cd2] is Ks n sfx -> Forall complete Ks -> short_end (image_geo l w h) [cd0; cd1; cd2] [] is ->
  w <= o_max_width o -> h <= o_max_height o -> n <= o_max_scans o -> w <= 65527 -> h <= 65527 ->
  last_quant (quants ps) q = Some t0 -> last_quant (quants ps) q1 = Some t1 -> last_quant (quants ps) q2 = Some t2 ->
  rows mod hs = 0 -> 8 * vs * rows * w <= (w + 8) * (h + 8) + (if (hs =? 1) && (vs =? 1) then 0 else 128 * h) ->
  Forall plane_in_range pls ->
  o_colorspace o = GRAYSCALE -> 8 * (hs * vs) * (8 * ((w + 8 * hs - 1) / (8 * hs) * hs)) < (8 * (hs * vs) + 1) * w ->
  exists px, fst (decode_buffer (new_with_options cpu o) (file 194 ps l w h is sfx)) = Ok px /\ close_luma 1 pls w h px.
Proof. exact sampled_luma_complete. Qed.
Print Assumptions C53_luma_partial.

(** C53 for output as YCbCr: the luminance; and for 4:2:2 the chroma interpolated with the
    triangle filter, except in the first column and in the last columns of the last MCU.
    Missing also: the chroma of 4:4:0 and 4:2:0. *)
Theorem C53_ycc_partial : forall cpu o ps hs vs q q1 q2 w h t0 t1 t2 cd0 cd1 cd2 is Ks n sfx,
  let l := Colour hs vs q q1 q2 in
  let rows := (h + 8 * vs - 1) / (8 * vs) in
  let pls := [mkPlane (qd_values t0) (cd_blocks cd0); mkPlane (qd_values t1) (cd_blocks cd1); mkPlane (qd_values t2) (cd_blocks cd2)] in
  progressive_image ps l w h [cd0; cd1; cd2] is Ks n sfx -> Forall complete Ks -> short_end (image_geo l w h) [cd0; cd1; cd2] [] is ->
  w <= o_max_width o -> h <= o_max_height o -> n <= o_max_scans o -> w <= 65527 -> h <= 65527 ->
  last_quant (quants ps) q = Some t0 -> last_quant (quants ps) q1 = Some t1 -> last_quant (quants ps) q2 = Some t2 ->
  rows mod hs = 0 -> 8 * vs * rows * w <= (w + 8) * (h + 8) + (if (hs =? 1) && (vs =? 1) then 0 else 128 * h) ->
  Forall plane_in_range pls ->
  (hs, vs) <> (1, 1) -> o_colorspace o = YCbCr ->
  exists px, fst (decode_buffer (new_with_options cpu o) (file 194 ps l w h is sfx)) = Ok px /\
    close_luma 3 pls w h px /\ (vs = 1 -> close_chroma_422 pls w h px).
Proof. exact sampled_ycc_complete. Qed.
Print Assumptions C53_ycc_partial.

(** C53 for output as RGB from 4:2:2, with the SSE conversion for widths of at least 22
    of which at most ten columns are padding (C28) *)
Theorem C53_rgb_partial : forall cpu o ps hs vs q q1 q2 w h t0 t1 t2 cd0 cd1 cd2 is Ks n sfx,
  let l := Colour hs vs q q1 q2 in
  let rows := (h + 8 * vs - 1) / (8 * vs) in
  let pls := [mkPlane (qd_values t0) (cd_blocks cd0); mkPlane (qd_values t1) (cd_blocks cd1); mkPlane (qd_values t2) (cd_blocks cd2)] in
  progressive_image ps l w h [cd0; cd1; cd2] is Ks n sfx -> Forall complete Ks -> short_end (image_geo l w h) [cd0; cd1; cd2] [] is ->
  w <= o_max_width o -> h <= o_max_height o -> n <= o_max_scans o -> w <= 65527 -> h <= 65527 ->
  last_quant (quants ps) q = Some t0 -> last_quant (quants ps) q1 = Some t1 -> last_quant (quants ps) q2 = Some t2 ->
  rows mod hs = 0 -> 8 * vs * rows * w <= (w + 8) * (h + 8) + (if (hs =? 1) && (vs =? 1) then 0 else 128 * h) ->
  Forall plane_in_range pls ->
  forall m, hs = 2 -> vs = 1 -> o_colorspace o = RGB -> cpu <> Sse41 \/ o_use_unsafe o = false \/ 22 <= w /\ 16 * ((w + 15) / 16) <= w + 10 ->
  w < 16 /\ m <= w /\ m <= 11 \/ 16 <= w /\ m <= 16 * ((w + 15) / 16 - 1) /\ 3 * m <= 3 * w - 64 ->
  exists px, fst (decode_buffer (new_with_options cpu o) (file 194 ps l w h is sfx)) = Ok px /\ close_rgb_422 m pls w h px.
Proof. exact sampled_rgb_complete. Qed.
Print Assumptions C53_rgb_partial.

(** An image of 15 by 9 pixels in 4:2:2, with a gradient in Y and in Cb: a scan for the DC
    coefficients of all components and one for the AC coefficients of each *)
Definition ps_cd0 : comp_data := mkCompData 1 2 2 [[3; -1] ++ repeat 0 62; repeat 0 64; [0; -1] ++ repeat 0 62; repeat 0 64]%list.
Definition ps_cd1 : comp_data := mkCompData 2 1 2 [[-2; 1] ++ repeat 0 62; -2 :: repeat 0 63]%list.
Definition ps_cd2 : comp_data := mkCompData 3 1 2 [2 :: repeat 0 63; 2 :: repeat 0 63].
Definition ps_dc : list bool :=
  [false; true; true; false; false; false; false; false; true; false; true; false; true; false; true; false; true; false; true; false].
Definition ps_is : list item :=
  [Tables [ex_dc; ex_ac];
   DcScan [(1, 0, 0); (2, 0, 0); (3, 0, 0)] 0 0 ps_dc;
   Scan 1 0 0 1 63 0 0 [false; false; true; false; false; false; false; true; false; false];
   Scan 2 0 0 1 63 0 0 [false; true; true; false; false];
   Scan 3 0 0 1 63 0 0 [true; false; false]].
Definition ps_l : layout := Colour 2 1 0 0 0.
Definition ps_geo : geometry := image_geo ps_l 15 9.
Definition ps_V (k : nat) (x y : Z) : Z :=
  match k with 0%nat => if (x =? 0) && (y =? 0) then 3 else 0 | 1%nat => -2 | _ => 2 end.
Lemma ps_data : dc_scan_data ps_geo [ps_cd0; ps_cd1; ps_cd2] [ex_dc; ex_ac] [0; 1; 2]%nat [(1, 0, 0); (2, 0, 0); (3, 0, 0)] 0 0 ps_V ps_dc.
Proof.
  split; [|split].
  - intros k x y. unfold ps_V. destruct k as [|[|k]]; [destruct ((x =? 0) && (y =? 0))| |]; lia.
  - intros k c x y [<-|[<-|[<-|[]]]] [= <-]; cbn [cd_w cd_h cd_blocks ps_cd0 ps_cd1 ps_cd2]; intros Hx Hy;
      assert (x = 0 \/ x = 1) as [-> | ->] by lia; assert (y = 0 \/ y = 1) as [-> | ->] by lia; try lia; reflexivity.
  - split; [reflexivity|]. vm_compute. repeat split; discriminate.
Qed.
Lemma ps_script : script ps_geo [ps_cd0; ps_cd1; ps_cd2] [] [nothing; nothing; nothing] ps_is [c_K; c_K; c_K] 4 16.
Proof.
  destruct ex_usable as [Ud Ua].
  apply sc_tables; [constructor; [apply ex_dc_legal|constructor; [apply ex_ac_legal|constructor]]|vm_compute; discriminate|].
  cbn [app].
  eapply (script_inter ps_geo _ _ _ [0; 1; 2]%nat [(1, 0, 0); (2, 0, 0); (3, 0, 0)] 0 0 ps_V _ _ _ 3 8); [|exact ps_data|
  eapply (script_one _ _ _ _ 0 ps_cd0 0 0 1 63 0 0 _ _ _ 2 4); [reflexivity| |
  eapply (script_one _ _ _ _ 1 ps_cd1 0 0 1 63 0 0 _ _ _ 1 2); [reflexivity| |
  eapply (script_one _ _ _ _ 2 ps_cd2 0 0 1 63 0 0 _ _ _ 0 0); [reflexivity| |
  apply sc_end]]]].
  { split; [cbn; lia|]. split; [repeat constructor; cbn; intuition discriminate|].
    repeat constructor; eexists _, _; (split; [reflexivity|]); (split; [reflexivity|]); (split; [reflexivity|]);
      (split; [lia|]); (split; [lia|]); (split; [exact c_next_dc|exact Ud]). }
  all: eexists _, _; (split; [reflexivity|]); (split; [reflexivity|]); (split; [lia|]); (split; [lia|]);
    (split; [exact c_next_ac|]); (split; [exact Ua|]).
  - change (first_bands (code_at [ex_dc; ex_ac] true 0) (((repeat 0 0 ++ -1 :: repeat 0 62) :: [repeat 0 63] ++ ((repeat 0 0 ++ -1 :: repeat 0 62) :: [repeat 0 63] ++ [])))
      (([false] ++ extra (-1) ++ [true; false] ++ bits_of 1 0) ++ ([false] ++ extra (-1) ++ [true; false] ++ bits_of 1 0) ++ []))%list.
    apply fbs_band with (n := 1%nat); [|reflexivity|repeat constructor|apply fbs_band with (n := 1%nat); [|reflexivity|repeat constructor|constructor]];
    (apply fb_coef; [lia|discriminate|reflexivity|]);
    exact (fb_eob _ 62 1 0 _ ltac:(lia) ltac:(lia) ltac:(lia) eq_refl).
  - change (first_bands (code_at [ex_dc; ex_ac] true 0) ((repeat 0 0 ++ 1 :: repeat 0 62) :: [repeat 0 63] ++ [])
      (([false] ++ extra 1 ++ [true; false] ++ bits_of 1 0) ++ []))%list.
    apply fbs_band with (n := 1%nat); [|reflexivity|repeat constructor|constructor].
    apply fb_coef; [lia|discriminate|reflexivity|].
    exact (fb_eob _ 62 1 0 _ ltac:(lia) ltac:(lia) ltac:(lia) eq_refl).
  - change (first_bands (code_at [ex_dc; ex_ac] true 0) (repeat 0 63 :: [repeat 0 63] ++ []) (([true; false] ++ bits_of 1 0) ++ []))%list.
    apply fbs_band with (n := 1%nat); [|reflexivity|repeat constructor|constructor].
    exact (fb_eob _ 63 1 0 _ ltac:(lia) ltac:(lia) ltac:(lia) eq_refl).
Qed.
Ltac ps_rest :=
  destruct c_image as [I1 I2 I3 _ _ I6 _ _ _ _ _]; split; try assumption; try lia;
  [cbn; lia|split; [reflexivity|]; intros [|[|[|k]]] cd; try (intros [= <-]; repeat split); destruct k; discriminate|repeat constructor; cbn; lia| |apply forallb_byte; vm_compute; reflexivity].
Lemma ps_image : progressive_image c_q ps_l 15 9 [ps_cd0; ps_cd1; ps_cd2] ps_is [c_K; c_K; c_K] 4 [9; 9].
Proof. ps_rest. exists 16. split; [exact ps_script|lia]. Qed.
Definition ps_px (cpu : isa) (cs : colorspace) : res (list Z) :=
  fst (decode_buffer (new_with_options cpu (set_out_colorspace default_options cs)) (file 194 c_q ps_l 15 9 ps_is [9; 9])).
Definition ps_check (a b c : res (list Z)) : Prop :=
  match a, b, c with
  | Ok px, Ok px', Ok px'' =>
      (length px = 405%nat /\ firstn 27 px = [146; 121; 150; 149; 121; 150; 153; 120; 150; 159; 118; 150; 165; 115; 150; 171; 113; 150;
         175; 110; 150; 177; 107; 150; 128; 104; 150]) /\
      (length px' = 405%nat /\ firstn 12 px' = [176; 133; 133; 179; 136; 136; 183; 140; 138; 189; 147; 141]) /\
      (length px'' = 144%nat /\ firstn 9 px'' = [146; 149; 153; 159; 165; 171; 175; 177; 128])
  | _, _, _ => False
  end.
Lemma ps_image_16 : progressive_image c_q ps_l 16 9 [ps_cd0; ps_cd1; ps_cd2] ps_is [c_K; c_K; c_K] 4 [].
Proof. ps_rest. exists 16. split; [exact ps_script|lia]. Qed.
Lemma ps_short w : image_geo ps_l w 9 = ps_geo -> short_end (image_geo ps_l w 9) [ps_cd0; ps_cd1; ps_cd2] [] ps_is.
Proof.
  intros ->. split; [reflexivity|]. exists [0; 1; 2]%nat, ps_V. split; [repeat constructor; eexists; split; reflexivity|].
  split; [exact ps_data|vm_compute; discriminate].
Qed.
Definition sizes_ok (hs vs w h : Z) : bool :=
  let rows := (h + 8 * vs - 1) / (8 * vs) in
  (rows mod hs =? 0) && (8 * vs * rows * w <=? (w + 8) * (h + 8) + (if (hs =? 1) && (vs =? 1) then 0 else 128 * h)).
Example C53_case :
  progressive_image c_q ps_l 15 9 [ps_cd0; ps_cd1; ps_cd2] ps_is [c_K; c_K; c_K] 4 [9; 9] /\
  progressive_image c_q ps_l 16 9 [ps_cd0; ps_cd1; ps_cd2] ps_is [c_K; c_K; c_K] 4 [] /\
  Forall complete [c_K; c_K; c_K] /\
  short_end (image_geo ps_l 15 9) [ps_cd0; ps_cd1; ps_cd2] [] ps_is /\ short_end (image_geo ps_l 16 9) [ps_cd0; ps_cd1; ps_cd2] [] ps_is /\
  last_quant (quants c_q) 0 = Some (mkQuantDef 0 (repeat 90 64)) /\
  Forall plane_in_range (map (fun cd => mkPlane (repeat 90 64) (cd_blocks cd)) [ps_cd0; ps_cd1; ps_cd2]) /\
  sizes_ok 2 1 15 9 = true /\ sizes_ok 2 1 16 9 = true /\ 8 * (2 * 1) * (8 * ((16 + 8 * 2 - 1) / (8 * 2) * 2)) < (8 * (2 * 1) + 1) * 16 /\
  ps_check (ps_px Scalar YCbCr) (ps_px Avx2 RGB)
    (fst (decode_buffer (new_with_options Sse41 (set_out_colorspace default_options GRAYSCALE)) (file 194 c_q ps_l 16 9 ps_is []))).
Proof.
  split; [exact ps_image|]. split; [exact ps_image_16|]. split; [repeat constructor; exact c_complete|].
  split; [apply ps_short; reflexivity|]. split; [apply ps_short; reflexivity|].
  split; [reflexivity|]. split; [|split; [reflexivity|split; [reflexivity|split; [reflexivity|vm_compute; repeat split]]]].
  repeat constructor; intros; try (cbn; lia). all: do 64 (destruct k as [|k]; [cbn; lia|]); lia.
Qed.

(** A sample of a block without any detail is not 0 *)
Lemma flat_exact w pls : plane_at pls 0 = mkPlane (repeat 90 64) (repeat (repeat 0 64) 4) -> 0 < w ->
  ~ (Rabs (IZR 0 - exact_at w (plane_at pls 0) 0 0) <= tolerance_at w (plane_at pls 0) 0 0)%R.
Proof.
  intros E Hw H. rewrite E in H.
  destruct (GrayReal.sample_close IdctScalar (repeat 90 64) (repeat 0 64) 0 0) as [_ G]; try lia; try reflexivity.
  - apply forallb_byte; reflexivity.
  - split; [|intros _; vm_compute; split; discriminate]. intros k Hk. do 64 (destruct k as [|k]; [vm_compute; split; discriminate|]). lia.
  - unfold exact_at, tolerance_at, sample_exact in H. cbn [pl_qv pl_blocks] in H.
    assert (Hb : block_of ((w + 7) / 8) (repeat (repeat 0 64) 4) [] 0 0 = repeat 0 64).
    { unfold block_of. change (0 / 8) with 0. replace (0 * ((w + 7) / 8) + 0) with 0 by ring. reflexivity. }
    rewrite Hb in H. change (0 mod 8) with 0 in H.
    assert (T : Rle (tolerance (repeat 90 64) (repeat 0 64)) 2).
    { unfold tolerance. apply Rmax_lub; [lra|]. unfold magnitude, sumR8.
      repeat match goal with |- context [IZR (Z.abs ?z)] => let v := eval vm_compute in (Z.abs z) in change (IZR (Z.abs z)) with (IZR v) end. lra. }
    set (e := clampR _) in *. set (t := tolerance _ _) in *.
    match type of G with context [IZR ?p] => let v := eval vm_compute in p in replace p with v in G by (vm_compute; reflexivity) end.
    apply IdctReal.Rabs_le_inv in G. apply IdctReal.Rabs_le_inv in H. lra.
Qed.

(** Images without any detail: 32 by 8 pixels in 4:2:2 *)
Definition y_cd (id : Z) : comp_data := mkCompData id 2 1 (repeat (repeat 0 64) 2).
Definition y_dc : list bool := [true; false; true; false].
Definition y_ac : list bool := [true; false; false].
Definition y_is : list item :=
  [Tables [ex_dc; ex_ac]; Scan 1 0 0 0 0 0 0 z_dc; Scan 2 0 0 0 0 0 0 y_dc; Scan 3 0 0 0 0 0 0 y_dc;
   Scan 1 0 0 1 63 0 0 z_ac; Scan 2 0 0 1 63 0 0 y_ac; Scan 3 0 0 1 63 0 0 y_ac].
Lemma y_script g : script g [z_cd 1; y_cd 2; y_cd 3] [] [nothing; nothing; nothing] y_is [c_K; c_K; c_K] 6 16.
Proof.
  destruct ex_usable as [Ud Ua].
  apply sc_tables; [constructor; [apply ex_dc_legal|constructor; [apply ex_ac_legal|constructor]]|vm_compute; discriminate|].
  cbn [app].
  eapply (script_one _ _ _ _ 0 (z_cd 1) 0 0 0 0 0 0 _ _ _ 5 12); [reflexivity| |
  eapply (script_one _ _ _ _ 1 (y_cd 2) 0 0 0 0 0 0 _ _ _ 4 10); [reflexivity| |
  eapply (script_one _ _ _ _ 2 (y_cd 3) 0 0 0 0 0 0 _ _ _ 3 8); [reflexivity| |
  eapply (script_one _ _ _ _ 0 (z_cd 1) 0 0 1 63 0 0 _ _ _ 2 4); [reflexivity| |
  eapply (script_one _ _ _ _ 1 (y_cd 2) 0 0 1 63 0 0 _ _ _ 1 2); [reflexivity| |
  eapply (script_one _ _ _ _ 2 (y_cd 3) 0 0 1 63 0 0 _ _ _ 0 0); [reflexivity| |
  apply sc_end]]]]]].
  1-3: eexists _, _; (split; [reflexivity|]); (split; [reflexivity|]); (split; [lia|]); (split; [lia|]);
    (split; [exact c_next_dc|]); (split; [exact Ud|]); (split; [reflexivity|]); cbn; repeat split; discriminate.
  all: eexists _, _; (split; [reflexivity|]); (split; [reflexivity|]); (split; [lia|]); (split; [lia|]);
    (split; [exact c_next_ac|]); (split; [exact Ua|]).
  1: change (first_bands (code_at [ex_dc; ex_ac] true 0) (repeat 0 63 :: [repeat 0 63] ++ (repeat 0 63 :: [repeat 0 63] ++ []))
      (([true; false] ++ bits_of 1 0) ++ ([true; false] ++ bits_of 1 0) ++ []))%list;
    (apply fbs_band with (n := 1%nat); [|reflexivity|repeat constructor|
       apply fbs_band with (n := 1%nat); [|reflexivity|repeat constructor|constructor]]);
    exact (fb_eob _ 63 1 0 _ ltac:(lia) ltac:(lia) ltac:(lia) eq_refl).
  all: change (first_bands (code_at [ex_dc; ex_ac] true 0) (repeat 0 63 :: [repeat 0 63] ++ []) (([true; false] ++ bits_of 1 0) ++ []))%list;
    (apply fbs_band with (n := 1%nat); [|reflexivity|repeat constructor|constructor]);
    exact (fb_eob _ 63 1 0 _ ltac:(lia) ltac:(lia) ltac:(lia) eq_refl).
Qed.
Lemma y_image : progressive_image c_q ps_l 32 8 [z_cd 1; y_cd 2; y_cd 3] y_is [c_K; c_K; c_K] 6 [].
Proof. ps_rest. exists 16. split; [apply y_script|lia]. Qed.
(** and 29 by 1 pixels in 4:4:0 *)
Lemma v_image : progressive_image c_q (Colour 1 2 0 0 0) 29 1 [z_cd 1; z_cd 2; z_cd 3] z_is [c_K; c_K; c_K] 6 [].
Proof. ps_rest. exists 24. split; [apply z_script|lia]. Qed.
Lemma black l w h is : (forall cpu, match fst (decode_buffer (new_with_options cpu (set_out_colorspace default_options YCbCr)) (file 194 c_q l w h is [])) with
    | Ok px => nth 0 px 0 = 0 | _ => False end) ->
  forall cpu, exists px, fst (decode_buffer (new_with_options cpu (set_out_colorspace default_options YCbCr)) (file 194 c_q l w h is [])) = Ok px /\ nth 0 px 0 = 0.
Proof. intros H cpu. specialize (H cpu). destruct (fst _) as [px| | |]; [eauto|contradiction..]. Qed.
Lemma flat_range (n : list nat) : Forall plane_in_range (map (fun n => mkPlane (repeat 90 64) (repeat (repeat 0 64) n)) n).
Proof.
  apply Forall_map, Forall_forall. intros m _. unfold plane_in_range. cbn [pl_qv pl_blocks]. apply Forall_forall. intros b Hb. apply repeat_spec in Hb. subst b.
  split; [|intros _; vm_compute; split; discriminate]. intros k Hk. do 64 (destruct k as [|k]; [vm_compute; split; discriminate|]). lia.
Qed.

(** With an odd number of rows of MCUs, or for wide flat images, the claim is false: the image
    comes out black, without an error. *)
Theorem C53_rows_refuted : exists o ps hs vs q q1 q2 w h t0 t1 t2 cd0 cd1 cd2 is Ks n sfx,
  let l := Colour hs vs q q1 q2 in
  let rows := (h + 8 * vs - 1) / (8 * vs) in
  let pls := [mkPlane (qd_values t0) (cd_blocks cd0); mkPlane (qd_values t1) (cd_blocks cd1); mkPlane (qd_values t2) (cd_blocks cd2)] in
  progressive_image ps l w h [cd0; cd1; cd2] is Ks n sfx /\ Forall complete Ks /\ short_end (image_geo l w h) [cd0; cd1; cd2] [] is /\
  w <= o_max_width o /\ h <= o_max_height o /\ n <= o_max_scans o /\
  last_quant (quants ps) q = Some t0 /\ last_quant (quants ps) q1 = Some t1 /\ last_quant (quants ps) q2 = Some t2 /\
  8 * vs * rows * w <= (w + 8) * (h + 8) + (if (hs =? 1) && (vs =? 1) then 0 else 128 * h) /\
  Forall plane_in_range pls /\ o_colorspace o = YCbCr /\
  forall cpu, exists px, fst (decode_buffer (new_with_options cpu o) (file 194 ps l w h is sfx)) = Ok px /\ ~ close_luma 3 pls w h px.
Proof.
  exists (set_out_colorspace default_options YCbCr), c_q, 2, 1, 0, 0, 0, 32, 8, (mkQuantDef 0 (repeat 90 64)), (mkQuantDef 0 (repeat 90 64)), (mkQuantDef 0 (repeat 90 64)),
    (z_cd 1), (y_cd 2), (y_cd 3), y_is, [c_K; c_K; c_K], 6, [].
  intros l rows pls. split; [exact y_image|]. split; [repeat constructor; exact c_complete|].
  split; [split; [reflexivity|]; split; [reflexivity|]; exists (z_cd 1); split; [now left|]; split; [reflexivity|vm_compute; discriminate]|].
  split; [vm_compute; discriminate|]. split; [vm_compute; discriminate|]. split; [vm_compute; discriminate|]. split; [reflexivity|]. split; [reflexivity|]. split; [reflexivity|].
  split; [vm_compute; discriminate|]. split; [exact (flat_range [4; 2; 2]%nat)|]. split; [reflexivity|].
  intros cpu. destruct (black (Colour 2 1 0 0 0) 32 8 y_is) with (cpu := cpu) as (px & E & N); [intros []; vm_compute; reflexivity|].
  exists px. split; [exact E|]. intros [_ H].
  destruct (H 0 0 (conj (Z.le_refl 0) (eq_refl : 0 < 8)) (conj (Z.le_refl 0) (eq_refl : 0 < 32))) as [_ C].
  change (Z.to_nat ((0 * 32 + 0) * 3)) with 0%nat in C. rewrite N in C. exact (flat_exact 32 pls eq_refl eq_refl C).
Qed.
Print Assumptions C53_rows_refuted.
Theorem C53_wide_refuted : exists o ps hs vs q q1 q2 w h t0 t1 t2 cd0 cd1 cd2 is Ks n sfx,
  let l := Colour hs vs q q1 q2 in
  let rows := (h + 8 * vs - 1) / (8 * vs) in
  let pls := [mkPlane (qd_values t0) (cd_blocks cd0); mkPlane (qd_values t1) (cd_blocks cd1); mkPlane (qd_values t2) (cd_blocks cd2)] in
  progressive_image ps l w h [cd0; cd1; cd2] is Ks n sfx /\ Forall complete Ks /\ short_end (image_geo l w h) [cd0; cd1; cd2] [] is /\
  w <= o_max_width o /\ h <= o_max_height o /\ n <= o_max_scans o /\
  last_quant (quants ps) q = Some t0 /\ last_quant (quants ps) q1 = Some t1 /\ last_quant (quants ps) q2 = Some t2 /\
  rows mod hs = 0 /\ Forall plane_in_range pls /\ o_colorspace o = YCbCr /\
  forall cpu, exists px, fst (decode_buffer (new_with_options cpu o) (file 194 ps l w h is sfx)) = Ok px /\ ~ close_luma 3 pls w h px.
Proof.
  exists (set_out_colorspace default_options YCbCr), c_q, 1, 2, 0, 0, 0, 29, 1, (mkQuantDef 0 (repeat 90 64)), (mkQuantDef 0 (repeat 90 64)), (mkQuantDef 0 (repeat 90 64)),
    (z_cd 1), (z_cd 2), (z_cd 3), z_is, [c_K; c_K; c_K], 6, [].
  intros l rows pls. split; [exact v_image|]. split; [repeat constructor; exact c_complete|].
  split; [split; [reflexivity|]; split; [reflexivity|]; exists (z_cd 1); split; [now left|]; split; [reflexivity|vm_compute; discriminate]|].
  split; [vm_compute; discriminate|]. split; [vm_compute; discriminate|]. split; [vm_compute; discriminate|]. split; [reflexivity|]. split; [reflexivity|]. split; [reflexivity|].
  split; [reflexivity|]. split; [exact (flat_range [4; 4; 4]%nat)|]. split; [reflexivity|].
  intros cpu. destruct (black (Colour 1 2 0 0 0) 29 1 z_is) with (cpu := cpu) as (px & E & N); [intros []; vm_compute; reflexivity|].
  exists px. split; [exact E|]. intros [_ H].
  destruct (H 0 0 (conj (Z.le_refl 0) (eq_refl : 0 < 1)) (conj (Z.le_refl 0) (eq_refl : 0 < 29))) as [_ C].
  change (Z.to_nat ((0 * 29 + 0) * 3)) with 0%nat in C. rewrite N in C. exact (flat_exact 29 pls eq_refl eq_refl C).
Qed.
Print Assumptions C53_wide_refuted.
