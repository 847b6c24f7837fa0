(** C54 for colour images: segments between the scans of a progressive image. *)
From Coq Require Import ZArith String List Bool Lia.
From Verif Require Import Base Types Huffman State Bitstream Headers Mcu McuProg Decoder.
From Verif Require Import SpecHuffman SpecSegments SpecFile SpecExtend SpecBits SpecBlock SpecProg SpecInter SpecScript SpecImage SpecDct SpecPixels SpecColourPixels SpecSampledPixels.
From Verif Require Import Obs ObsProg ExTools ProgImage Thm_ProgFile Thm_Colour ProgFile ColourReal ProgSampledReal Thm_ProgSampled.
Import ListNotations.
Local Open Scope Z_scope.

(** The segments that the standard allows between scans, other than Huffman tables: DQT, DRI,
    APP0, APP1, APP14 and COM *)
Definition between_codes : list Z := [219; 221; 224; 225; 238; 254].
Lemma between_stop m : In m between_codes -> stop_code m.
Proof. intros Hm. cbn in Hm. repeat (destruct Hm as [<-|Hm]; [eexists; repeat split; discriminate|]). destruct Hm. Qed.

(** A component as far as the scans up to the segment determine it *)
Definition so_far (t : quant_def) (K : knowledge) (cd : comp_data) : plane := mkPlane (qd_values t) (map (known_block K) (cd_blocks cd)).

(** C54 without subsampling, output as YCbCr: the decoder stops at the segment and returns the
    pixels of the scans before it, whatever follows ([rest] is the segment and all remaining
    scans).  It can fail only if the last scan has less than one byte of data per MCU row.
    Missing: the claim itself, that the remaining scans are decoded, is false (C54_refuted). *)
Theorem C54_ycc_partial : forall cpu o ps q q1 q2 w h t0 t1 t2 cd0 cd1 cd2 is K0 K1 K2 n m rest,
  let l := Colour 1 1 q q1 q2 in
  let pls := [so_far t0 K0 cd0; so_far t1 K1 cd1; so_far t2 K2 cd2] in
  In m between_codes -> progressive_image ps l w h [cd0; cd1; cd2] is [K0; K1; K2] n rest ->
  w <= o_max_width o -> h <= o_max_height o -> n <= o_max_scans o -> w <= 65527 -> h <= 65527 ->
  last_quant (quants ps) q = Some t0 -> last_quant (quants ps) q1 = Some t1 -> last_quant (quants ps) q2 = Some t2 ->
  Forall plane_in_range pls -> o_colorspace o = YCbCr ->
  let r := fst (decode_buffer (new_with_options cpu o) (cut_file 194 ps l w h is m rest)) in
  (exists px, r = Ok px /\ close_to_ycc pls w h px) \/
  r = Err missing_marker /\ ~ short_end (image_geo l w h) [cd0; cd1; cd2] [] is.
Proof.
  intros cpu o ps q q1 q2 w h t0 t1 t2 cd0 cd1 cd2 is K0 K1 K2 n m rest l pls Hm Hi Hw Hh Hn Hw' Hh' H0 H1 H2 Hr Ho.
  exact (ycc_file cpu o ps q q1 q2 w h t0 t1 t2 cd0 cd1 cd2 is K0 K1 K2 n m rest (between_stop m Hm) Hi Hw Hh Hn H0 H1 H2 Hw' Hh' Hr Ho).
Qed.
Print Assumptions C54_ycc_partial.

(** C54 with 4:4:4, 4:2:2, 4:4:0 or 4:2:0 subsampling, output as grayscale, under the size
    conditions of C53 *)
Theorem C54_luma_partial : forall cpu o ps hs vs q q1 q2 w h t0 t1 t2 cd0 cd1 cd2 is K0 K1 K2 n m rest,
  let l := Colour hs vs q q1 q2 in
  let rows := (h + 8 * vs - 1) / (8 * vs) in
  let pls := [so_far t0 K0 cd0; so_far t1 K1 cd1; so_far t2 K2 cd2] in
  In m between_codes -> progressive_image ps l w h [cd0; cd1; cd2] is [K0; K1; K2] n rest ->
  w <= o_max_width o -> h <= o_max_height o -> n <= o_max_scans o -> w <= 65527 -> h <= 65527 ->
  last_quant (quants ps) q = Some t0 -> last_quant (quants ps) q1 = Some t1 -> last_quant (quants ps) q2 = Some t2 ->
  rows mod hs = 0 -> 8 * vs * rows * w <= (w + 8) * (h + 8) + (if (hs =? 1) && (vs =? 1) then 0 else 128 * h) ->
  Forall plane_in_range pls ->
  o_colorspace o = GRAYSCALE -> 8 * (hs * vs) * (8 * ((w + 8 * hs - 1) / (8 * hs) * hs)) < (8 * (hs * vs) + 1) * w ->
  let r := fst (decode_buffer (new_with_options cpu o) (cut_file 194 ps l w h is m rest)) in
  (exists px, r = Ok px /\ close_luma 1 pls w h px) \/
  r = Err missing_marker /\ ~ short_end (image_geo l w h) [cd0; cd1; cd2] [] is.
Proof.
  intros cpu o ps hs vs q q1 q2 w h t0 t1 t2 cd0 cd1 cd2 is K0 K1 K2 n m rest l rows pls Hm Hi Hw Hh Hn Hw' Hh' H0 H1 H2 He Hro Hr Ho Hp.
  exact (prog_luma cpu o ps hs vs q q1 q2 w h t0 t1 t2 cd0 cd1 cd2 is K0 K1 K2 n m rest (between_stop m Hm) Hi Hw Hh Hn H0 H1 H2 Hw' Hh' He Hro Hr Ho Hp).
Qed.
Print Assumptions C54_luma_partial.

(** C54 with subsampling, output as YCbCr, under the conditions of C53 *)
Theorem C54_sampled_partial : forall cpu o ps hs vs q q1 q2 w h t0 t1 t2 cd0 cd1 cd2 is K0 K1 K2 n m rest,
  let l := Colour hs vs q q1 q2 in
  let rows := (h + 8 * vs - 1) / (8 * vs) in
  let pls := [so_far t0 K0 cd0; so_far t1 K1 cd1; so_far t2 K2 cd2] in
  In m between_codes -> progressive_image ps l w h [cd0; cd1; cd2] is [K0; K1; K2] n rest ->
  w <= o_max_width o -> h <= o_max_height o -> n <= o_max_scans o -> w <= 65527 -> h <= 65527 ->
  last_quant (quants ps) q = Some t0 -> last_quant (quants ps) q1 = Some t1 -> last_quant (quants ps) q2 = Some t2 ->
  rows mod hs = 0 -> 8 * vs * rows * w <= (w + 8) * (h + 8) + (if (hs =? 1) && (vs =? 1) then 0 else 128 * h) ->
  Forall plane_in_range pls ->
  (hs, vs) <> (1, 1) -> o_colorspace o = YCbCr ->
  let r := fst (decode_buffer (new_with_options cpu o) (cut_file 194 ps l w h is m rest)) in
  (exists px, r = Ok px /\ close_luma 3 pls w h px /\ (vs = 1 -> close_chroma_422 pls w h px)) \/
  r = Err missing_marker /\ ~ short_end (image_geo l w h) [cd0; cd1; cd2] [] is.
Proof.
  intros cpu o ps hs vs q q1 q2 w h t0 t1 t2 cd0 cd1 cd2 is K0 K1 K2 n m rest l rows pls Hm Hi Hw Hh Hn Hw' Hh' H0 H1 H2 He Hro Hr Hne Ho.
  exact (prog_ycc cpu o ps hs vs q q1 q2 w h t0 t1 t2 cd0 cd1 cd2 is K0 K1 K2 n m rest (between_stop m Hm) Hi Hw Hh Hn H0 H1 H2 Hw' Hh' He Hro Hr Hne Ho).
Qed.
Print Assumptions C54_sampled_partial.

(** The images of C50_case and C53_case with a comment after the scan for the DC coefficients: the
    three scans for the AC coefficients are ignored, every block is flat *)
Definition dc_K : knowledge := scan_learns nothing 0 0 0.
Definition c_rest : list Z := segment [1; 2; 3] ++ flat_map item_bytes (skipn 2 c_is) ++ [255; 217].
Definition ps_rest_bytes : list Z := segment [1; 2; 3] ++ flat_map item_bytes (skipn 2 ps_is) ++ [255; 217].
Lemma c_dc_script : script c_geo [c_cd0; c_cd1; c_cd2] [] [nothing; nothing; nothing] (firstn 2 c_is) [dc_K; dc_K; dc_K] 1 6.
Proof.
  destruct ex_usable as [Ud Ua].
  apply sc_tables; [constructor; [apply ex_dc_legal|constructor; [apply ex_ac_legal|constructor]]|vm_compute; discriminate|].
  cbn [app].
  eapply (script_inter c_geo _ _ _ [0; 1; 2]%nat [(1, 0, 0); (2, 0, 0); (3, 0, 0)] 0 0 c_V _ _ _ 0 0); [|exact c_data|apply sc_end].
  split; [cbn; lia|]. split; [repeat constructor; cbn; intuition discriminate|].
  repeat constructor; eexists _, _; (split; [reflexivity|]); (split; [reflexivity|]); (split; [reflexivity|]);
    (split; [lia|]); (split; [lia|]); (split; [exact c_next_dc|exact Ud]).
Qed.
Lemma c_dc_image : progressive_image c_q (Colour 1 1 0 0 0) 10 7 [c_cd0; c_cd1; c_cd2] (firstn 2 c_is) [dc_K; dc_K; dc_K] 1 c_rest.
Proof.
  destruct c_image as [I1 I2 I3 I4 I5 I6 I7 I8 _ _ _]; split; try assumption; try lia.
  - exists 6. split; [exact c_dc_script|lia].
  - apply forallb_byte. vm_compute. reflexivity.
Qed.
Lemma ps_dc_script : script ps_geo [ps_cd0; ps_cd1; ps_cd2] [] [nothing; nothing; nothing] (firstn 2 ps_is) [dc_K; dc_K; dc_K] 1 8.
Proof.
  destruct ex_usable as [Ud Ua].
  apply sc_tables; [constructor; [apply ex_dc_legal|constructor; [apply ex_ac_legal|constructor]]|vm_compute; discriminate|].
  cbn [app].
  eapply (script_inter ps_geo _ _ _ [0; 1; 2]%nat [(1, 0, 0); (2, 0, 0); (3, 0, 0)] 0 0 ps_V _ _ _ 0 0); [|exact ps_data|apply sc_end].
  split; [cbn; lia|]. split; [repeat constructor; cbn; intuition discriminate|].
  repeat constructor; eexists _, _; (split; [reflexivity|]); (split; [reflexivity|]); (split; [reflexivity|]);
    (split; [lia|]); (split; [lia|]); (split; [exact c_next_dc|exact Ud]).
Qed.
Lemma ps_dc_image w : w = 15 \/ w = 16 ->
  progressive_image c_q ps_l w 9 [ps_cd0; ps_cd1; ps_cd2] (firstn 2 ps_is) [dc_K; dc_K; dc_K] 1 ps_rest_bytes.
Proof.
  intros Hw. destruct ps_image as [I1 I2 I3 I4 I5 I6 I7 I8 _ _ _], ps_image_16 as [_ _ _ J4 _ _ J7 _ _ _ _].
  destruct Hw as [-> | ->]; split; try assumption; try lia.
  1, 3: exists 8; split; [exact ps_dc_script|lia].
  all: apply forallb_byte; vm_compute; reflexivity.
Qed.
Definition between_px (cpu : isa) (cs : colorspace) (l : layout) (w h : Z) (is : list item) (rest : list Z) : list Z :=
  match fst (decode_buffer (new_with_options cpu (set_out_colorspace default_options cs)) (cut_file 194 c_q l w h is 254 rest)) with
  | Ok px => px
  | _ => []
  end.
Lemma small_in_range qv zz :
  forallb (fun k => (-1024 <=? nth k zz 0 * nth k qv 0) && (nth k zz 0 * nth k qv 0 <=? 1023)) (seq 0 64) = true -> in_range qv zz.
Proof.
  intros H. rewrite forallb_forall in H. split.
  - intros k Hk. specialize (H k). rewrite in_seq in H. specialize (H ltac:(lia)). apply andb_true_iff in H. lia.
  - intros _. specialize (H 0%nat). rewrite in_seq in H. specialize (H ltac:(lia)). apply andb_true_iff in H. lia.
Qed.
Lemma small_planes pls :
  forallb (fun p => forallb (fun zz => forallb (fun k =>
    (-1024 <=? nth k zz 0 * nth k (pl_qv p) 0) && (nth k zz 0 * nth k (pl_qv p) 0 <=? 1023)) (seq 0 64)) (pl_blocks p)) pls = true ->
  Forall plane_in_range pls.
Proof.
  intros H. apply Forall_forall. intros p Hp. rewrite forallb_forall in H. specialize (H p Hp). cbv beta in H.
  apply Forall_forall. intros zz Hz. rewrite forallb_forall in H. exact (small_in_range _ _ (H zz Hz)).
Qed.
Definition dc_planes (cds : list comp_data) : list plane := map (so_far (mkQuantDef 0 (repeat 90 64)) dc_K) cds.
Example C54_colour_case :
  progressive_image c_q (Colour 1 1 0 0 0) 10 7 [c_cd0; c_cd1; c_cd2] (firstn 2 c_is) [dc_K; dc_K; dc_K] 1 c_rest /\
  progressive_image c_q ps_l 15 9 [ps_cd0; ps_cd1; ps_cd2] (firstn 2 ps_is) [dc_K; dc_K; dc_K] 1 ps_rest_bytes /\
  progressive_image c_q ps_l 16 9 [ps_cd0; ps_cd1; ps_cd2] (firstn 2 ps_is) [dc_K; dc_K; dc_K] 1 ps_rest_bytes /\
  last_quant (quants c_q) 0 = Some (mkQuantDef 0 (repeat 90 64)) /\
  Forall plane_in_range (dc_planes [c_cd0; c_cd1; c_cd2]) /\ Forall plane_in_range (dc_planes [ps_cd0; ps_cd1; ps_cd2]) /\
  sizes_ok 2 1 15 9 = true /\ sizes_ok 2 1 16 9 = true /\ 8 * (2 * 1) * (8 * ((16 + 8 * 2 - 1) / (8 * 2) * 2)) < (8 * (2 * 1) + 1) * 16 /\
  cut_file 194 c_q (Colour 1 1 0 0 0) 10 7 (firstn 2 c_is) 254 c_rest =
    ([255; 216] ++ msegs_bytes (map pre_seg c_q) ++ mseg_bytes (194, frame_payload 7 10 (frame_comps (Colour 1 1 0 0 0))) ++
     flat_map item_bytes (firstn 2 c_is) ++ mseg_bytes (254, [1; 2; 3]) ++ flat_map item_bytes (skipn 2 c_is) ++ [255; 217])%list /\
  (length (between_px Avx2 YCbCr (Colour 1 1 0 0 0) 10 7 (firstn 2 c_is) c_rest) = 210%nat /\
   firstn 6 (between_px Avx2 YCbCr (Colour 1 1 0 0 0) 10 7 (firstn 2 c_is) c_rest) = [161; 105; 150; 161; 105; 150]) /\
  (length (between_px Scalar YCbCr ps_l 15 9 (firstn 2 ps_is) ps_rest_bytes) = 405%nat /\
   firstn 6 (between_px Scalar YCbCr ps_l 15 9 (firstn 2 ps_is) ps_rest_bytes) = [161; 105; 150; 161; 105; 150]) /\
  (length (between_px Sse41 GRAYSCALE ps_l 16 9 (firstn 2 ps_is) ps_rest_bytes) = 144%nat /\
   firstn 9 (between_px Sse41 GRAYSCALE ps_l 16 9 (firstn 2 ps_is) ps_rest_bytes) = [161; 161; 161; 161; 161; 161; 161; 161; 128]).
Proof.
  split; [exact c_dc_image|]. split; [apply ps_dc_image; now left|]. split; [apply ps_dc_image; now right|]. split; [reflexivity|].
  split; [|split].
  3: (split; [reflexivity|]; split; [reflexivity|]; split; [reflexivity|]; split; [reflexivity|];
      split; [|split]; (split; vm_compute; reflexivity)).
  all: apply small_planes; vm_compute; reflexivity.
Qed.
