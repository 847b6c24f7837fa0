(** Theorems about the pixels of colour progressive files without subsampling (C50). *)
From Coq Require Import ZArith String List Bool Lia.
From Verif Require Import Base Types Huffman State Bitstream Headers Mcu McuProg Decoder.
From Verif Require Import SpecHuffman SpecSegments SpecExtend SpecBits SpecBlock SpecProg SpecInter SpecScript SpecImage SpecDct SpecPixels SpecColourPixels.
From Verif Require Import Obs ObsProg ExTools ProgImage Thm_ProgFile ColourReal.
Import ListNotations.
Local Open Scope Z_scope.

(** C50 for output as YCbCr: exactly three bytes per pixel, close to the samples of the
    standard, on every machine.  Missing in all cases: what is missing in C38, and sizes above
    65527. *)
Theorem C50_ycc_partial : forall cpu o ps q q1 q2 w h t0 t1 t2 cd0 cd1 cd2 is Ks n sfx,
  let pls := [mkPlane (qd_values t0) (cd_blocks cd0); mkPlane (qd_values t1) (cd_blocks cd1); mkPlane (qd_values t2) (cd_blocks cd2)] in
  progressive_image ps (Colour 1 1 q q1 q2) w h [cd0; cd1; cd2] is Ks n sfx -> Forall complete Ks -> short_end (image_geo (Colour 1 1 q q1 q2) w h) [cd0; cd1; cd2] [] is ->
  w <= o_max_width o -> h <= o_max_height o -> n <= o_max_scans o -> w <= 65527 -> h <= 65527 ->
  last_quant (quants ps) q = Some t0 -> last_quant (quants ps) q1 = Some t1 -> last_quant (quants ps) q2 = Some t2 ->
  Forall plane_in_range pls -> o_colorspace o = YCbCr ->
  exists px, fst (decode_buffer (new_with_options cpu o) (file 194 ps (Colour 1 1 q q1 q2) w h is sfx)) = Ok px /\ close_to_ycc pls w h px.
Proof. exact ycc_complete. Qed.
Print Assumptions C50_ycc_partial.

(** C50 for output as grayscale: the luminance, for the widths of C49 *)
Theorem C50_luma_partial : forall cpu o ps q q1 q2 w h t0 t1 t2 cd0 cd1 cd2 is Ks n sfx,
  let pls := [mkPlane (qd_values t0) (cd_blocks cd0); mkPlane (qd_values t1) (cd_blocks cd1); mkPlane (qd_values t2) (cd_blocks cd2)] in
  progressive_image ps (Colour 1 1 q q1 q2) w h [cd0; cd1; cd2] is Ks n sfx -> Forall complete Ks -> short_end (image_geo (Colour 1 1 q q1 q2) w h) [cd0; cd1; cd2] [] is ->
  w <= o_max_width o -> h <= o_max_height o -> n <= o_max_scans o -> w <= 65527 -> h <= 65527 ->
  last_quant (quants ps) q = Some t0 -> last_quant (quants ps) q1 = Some t1 -> last_quant (quants ps) q2 = Some t2 ->
  Forall plane_in_range pls -> o_colorspace o = GRAYSCALE -> 64 * ((w + 7) / 8) < 9 * w ->
  exists px, fst (decode_buffer (new_with_options cpu o) (file 194 ps (Colour 1 1 q q1 q2) w h is sfx)) = Ok px /\
    close_to (qd_values t0) (cd_blocks cd0) w h px.
Proof. exact luma_complete. Qed.
Print Assumptions C50_luma_partial.

(** C50 for output as RGB, with the SSE conversion for widths of at least 22: all columns if there are
    fewer than 16, and the columns left of the last 22 to 38 otherwise (C33). *)
Theorem C50_rgb_partial : forall cpu o ps q q1 q2 w h t0 t1 t2 cd0 cd1 cd2 is Ks n sfx m,
  let pls := [mkPlane (qd_values t0) (cd_blocks cd0); mkPlane (qd_values t1) (cd_blocks cd1); mkPlane (qd_values t2) (cd_blocks cd2)] in
  progressive_image ps (Colour 1 1 q q1 q2) w h [cd0; cd1; cd2] is Ks n sfx -> Forall complete Ks -> short_end (image_geo (Colour 1 1 q q1 q2) w h) [cd0; cd1; cd2] [] is ->
  w <= o_max_width o -> h <= o_max_height o -> n <= o_max_scans o -> w <= 65527 -> h <= 65527 ->
  last_quant (quants ps) q = Some t0 -> last_quant (quants ps) q1 = Some t1 -> last_quant (quants ps) q2 = Some t2 ->
  Forall plane_in_range pls -> o_colorspace o = RGB -> cpu <> Sse41 \/ o_use_unsafe o = false \/ 22 <= w ->
  w < 16 /\ m <= w \/ 16 <= w /\ m <= 16 * (8 * ((w + 7) / 8) / 16 - 1) /\ 3 * m <= 3 * w - 64 ->
  exists px, fst (decode_buffer (new_with_options cpu o) (file 194 ps (Colour 1 1 q q1 q2) w h is sfx)) = Ok px /\ close_to_rgb m pls w h px.
Proof. exact rgb_complete. Qed.
Print Assumptions C50_rgb_partial.

(** An image of 10 by 7 pixels, two blocks per component: a scan for the DC coefficients of all
    components and one for the AC coefficients of each *)
Definition c_cd0 : comp_data := mkCompData 1 2 1 [[3; -1] ++ repeat 0 62; repeat 0 64]%list.
Definition c_cd1 : comp_data := mkCompData 2 2 1 [-2 :: repeat 0 63; -2 :: repeat 0 63].
Definition c_cd2 : comp_data := mkCompData 3 2 1 [2 :: repeat 0 63; 2 :: repeat 0 63].
Definition c_q : list pre := [Quant [mkQuantDef 0 (repeat 90 64)]].
Definition c_is : list item :=
  [Tables [ex_dc; ex_ac];
   DcScan [(1, 0, 0); (2, 0, 0); (3, 0, 0)] 0 0
     [false; true; true; false; false; true; false; true; false; false; false; false; true; false; true; false];
   Scan 1 0 0 1 63 0 0 [false; false; true; false; false];
   Scan 2 0 0 1 63 0 0 [true; false; false];
   Scan 3 0 0 1 63 0 0 [true; false; false]].
Definition c_K : knowledge := scan_learns (scan_learns nothing 0 0 0) 1 63 0.

Lemma c_next_dc : scan_next nothing 0 0 0 0.
Proof. repeat split; lia || (now left). Qed.
Lemma c_next_ac : scan_next (scan_learns nothing 0 0 0) 1 63 0 0.
Proof.
  split; [lia|]. split; [lia|]. split; [now left|]. cbn [Z.eqb]. split; [lia|]. split; [lia|].
  intros k v Hk. unfold scan_learns, learn, nothing. cbn [Z.eqb]. replace (k <=? 0) with false by lia. now rewrite !andb_false_r.
Qed.
Lemma c_complete : complete c_K.
Proof.
  intros k v Hk. unfold c_K, scan_learns, learn. cbn [Z.eqb].
  destruct (Z.leb_spec 1 k); destruct (Z.leb_spec k 63); cbn [andb]; try lia.
  - destruct (known_near 0 v); [lia|]. lia.
  - replace k with 0 by lia. cbn. destruct (known_near 0 v); [lia|]. lia.
Qed.
Definition c_V (k : nat) (x y : Z) : Z :=
  match k with 0%nat => if x =? 0 then 3 else 0 | 1%nat => -2 | _ => 2 end.
Definition c_geo : geometry := image_geo (Colour 1 1 0 0 0) 10 7.
Lemma c_data : dc_scan_data c_geo [c_cd0; c_cd1; c_cd2] [ex_dc; ex_ac] [0; 1; 2]%nat [(1, 0, 0); (2, 0, 0); (3, 0, 0)] 0 0 c_V
  [false; true; true; false; false; true; false; true; false; false; false; false; true; false; true; false].
Proof.
  split; [|split].
  - intros k x y. unfold c_V. destruct k as [|[|k]]; [destruct (x =? 0)| |]; lia.
  - intros k c x y [<-|[<-|[<-|[]]]] [= <-]; cbn [cd_w cd_h cd_blocks c_cd0 c_cd1 c_cd2]; intros Hx Hy;
      replace y with 0 by lia; assert (x = 0 \/ x = 1) as [-> | ->] by lia; reflexivity.
  - split; [reflexivity|]. vm_compute. repeat split; discriminate.
Qed.
Lemma c_script : script c_geo [c_cd0; c_cd1; c_cd2] [] [nothing; nothing; nothing] c_is [c_K; c_K; c_K] 4 12.
Proof.
  destruct ex_usable as [Ud Ua].
  apply sc_tables; [constructor; [apply ex_dc_legal|constructor; [apply ex_ac_legal|constructor]]|vm_compute; discriminate|].
  cbn [app].
  eapply (script_inter c_geo _ _ _ [0; 1; 2]%nat [(1, 0, 0); (2, 0, 0); (3, 0, 0)] 0 0 c_V _ _ _ 3 6); [|exact c_data|
  eapply (script_one _ _ _ _ 0 c_cd0 0 0 1 63 0 0 _ _ _ 2 4); [reflexivity| |
  eapply (script_one _ _ _ _ 1 c_cd1 0 0 1 63 0 0 _ _ _ 1 2); [reflexivity| |
  eapply (script_one _ _ _ _ 2 c_cd2 0 0 1 63 0 0 _ _ _ 0 0); [reflexivity| |
  apply sc_end]]]].
  { split; [cbn; lia|]. split; [repeat constructor; cbn; intuition discriminate|].
    repeat constructor; eexists _, _; (split; [reflexivity|]); (split; [reflexivity|]); (split; [reflexivity|]);
      (split; [lia|]); (split; [lia|]); (split; [exact c_next_dc|exact Ud]). }
  all: eexists _, _; (split; [reflexivity|]); (split; [reflexivity|]); (split; [lia|]); (split; [lia|]);
    (split; [exact c_next_ac|]); (split; [exact Ua|]).
  - change (first_bands (code_at [ex_dc; ex_ac] true 0) (((repeat 0 0 ++ -1 :: repeat 0 62) :: [repeat 0 63] ++ []))
      (([false] ++ extra (-1) ++ [true; false] ++ bits_of 1 0) ++ []))%list.
    apply fbs_band with (n := 1%nat); [|reflexivity|repeat constructor|constructor].
    apply fb_coef; [lia|discriminate|reflexivity|].
    exact (fb_eob _ 62 1 0 _ ltac:(lia) ltac:(lia) ltac:(lia) eq_refl).
  - change (first_bands (code_at [ex_dc; ex_ac] true 0) (repeat 0 63 :: [repeat 0 63] ++ []) (([true; false] ++ bits_of 1 0) ++ []))%list.
    apply fbs_band with (n := 1%nat); [|reflexivity|repeat constructor|constructor].
    exact (fb_eob _ 63 1 0 _ ltac:(lia) ltac:(lia) ltac:(lia) eq_refl).
  - change (first_bands (code_at [ex_dc; ex_ac] true 0) (repeat 0 63 :: [repeat 0 63] ++ []) (([true; false] ++ bits_of 1 0) ++ []))%list.
    apply fbs_band with (n := 1%nat); [|reflexivity|repeat constructor|constructor].
    exact (fb_eob _ 63 1 0 _ ltac:(lia) ltac:(lia) ltac:(lia) eq_refl).
Qed.
Lemma c_image : progressive_image c_q (Colour 1 1 0 0 0) 10 7 [c_cd0; c_cd1; c_cd2] c_is [c_K; c_K; c_K] 4 [9; 9].
Proof.
  split.
  - constructor; [|constructor]. split; [|vm_compute; discriminate]. constructor; [|constructor].
    split; [cbn; lia|]. split; [reflexivity|]. apply forallb_byte. vm_compute. reflexivity.
  - cbn. lia.
  - repeat constructor; vm_compute; discriminate.
  - lia.
  - lia.
  - reflexivity.
  - split; [reflexivity|]. intros [|[|[|k]]] cd; try (intros [= <-]; repeat split). destruct k; discriminate.
  - repeat constructor; cbn; lia.
  - exists 12. split; [exact c_script|lia].
  - lia.
  - apply forallb_byte. vm_compute. reflexivity.
Qed.
Definition decoded (cpu : isa) (cs : colorspace) : res (list Z) :=
  fst (decode_buffer (new_with_options cpu (set_out_colorspace default_options cs)) (file 194 c_q (Colour 1 1 0 0 0) 10 7 c_is [9; 9])).
Example C50_case :
  progressive_image c_q (Colour 1 1 0 0 0) 10 7 [c_cd0; c_cd1; c_cd2] c_is [c_K; c_K; c_K] 4 [9; 9] /\
  Forall complete [c_K; c_K; c_K] /\ short_end c_geo [c_cd0; c_cd1; c_cd2] [] c_is /\
  last_quant (quants c_q) 0 = Some (mkQuantDef 0 (repeat 90 64)) /\
  Forall plane_in_range (map (fun cd => mkPlane (repeat 90 64) (cd_blocks cd)) [c_cd0; c_cd1; c_cd2]) /\
  match decoded Avx2 YCbCr with Ok px => length px = 210%nat /\ firstn 6 px = [146; 105; 150; 149; 105; 150] | _ => False end /\
  match decoded Avx2 RGB with Ok px => length px = 210%nat /\ firstn 6 px = [176; 139; 105; 179; 142; 108] | _ => False end.
Proof.
  split; [exact c_image|]. split; [repeat constructor; exact c_complete|].
  split; [split; [reflexivity|]; exists [0; 1; 2]%nat, c_V; split; [repeat constructor; eexists; split; reflexivity|]; split; [exact c_data|vm_compute; discriminate]|].
  split; [reflexivity|]. split; [|split; vm_compute; split; reflexivity].
  repeat constructor; intros; try (cbn; lia). all: do 64 (destruct k as [|k]; [cbn; lia|]); lia.
Qed.

(** The full claim is false for RGB.  With the SSE conversion the image above makes the decoder
    panic; and the last columns of an image of 32 by 8 pixels without any detail are black
    instead of gray on every other machine. *)
Definition z_cd (id : Z) : comp_data := mkCompData id 4 1 (repeat (repeat 0 64) 4).
Definition z_dc : list bool := [true; false; true; false; true; false; true; false].
Definition z_ac : list bool := [true; false; false; true; false; false].
Definition z_is : list item :=
  [Tables [ex_dc; ex_ac]; Scan 1 0 0 0 0 0 0 z_dc; Scan 2 0 0 0 0 0 0 z_dc; Scan 3 0 0 0 0 0 0 z_dc;
   Scan 1 0 0 1 63 0 0 z_ac; Scan 2 0 0 1 63 0 0 z_ac; Scan 3 0 0 1 63 0 0 z_ac].
Lemma z_script g : script g [z_cd 1; z_cd 2; z_cd 3] [] [nothing; nothing; nothing] z_is [c_K; c_K; c_K] 6 24.
Proof.
  destruct ex_usable as [Ud Ua].
  apply sc_tables; [constructor; [apply ex_dc_legal|constructor; [apply ex_ac_legal|constructor]]|vm_compute; discriminate|].
  cbn [app].
  eapply (script_one _ _ _ _ 0 (z_cd 1) 0 0 0 0 0 0 _ _ _ 5 20); [reflexivity| |
  eapply (script_one _ _ _ _ 1 (z_cd 2) 0 0 0 0 0 0 _ _ _ 4 16); [reflexivity| |
  eapply (script_one _ _ _ _ 2 (z_cd 3) 0 0 0 0 0 0 _ _ _ 3 12); [reflexivity| |
  eapply (script_one _ _ _ _ 0 (z_cd 1) 0 0 1 63 0 0 _ _ _ 2 8); [reflexivity| |
  eapply (script_one _ _ _ _ 1 (z_cd 2) 0 0 1 63 0 0 _ _ _ 1 4); [reflexivity| |
  eapply (script_one _ _ _ _ 2 (z_cd 3) 0 0 1 63 0 0 _ _ _ 0 0); [reflexivity| |
  apply sc_end]]]]]].
  1-3: eexists _, _; (split; [reflexivity|]); (split; [reflexivity|]); (split; [lia|]); (split; [lia|]);
    (split; [exact c_next_dc|]); (split; [exact Ud|]); (split; [reflexivity|]); cbn; repeat split; discriminate.
  all: eexists _, _; (split; [reflexivity|]); (split; [reflexivity|]); (split; [lia|]); (split; [lia|]);
    (split; [exact c_next_ac|]); (split; [exact Ua|]);
    change (first_bands (code_at [ex_dc; ex_ac] true 0) (repeat 0 63 :: [repeat 0 63] ++ (repeat 0 63 :: [repeat 0 63] ++ []))
      (([true; false] ++ bits_of 1 0) ++ ([true; false] ++ bits_of 1 0) ++ []))%list;
    (apply fbs_band with (n := 1%nat); [|reflexivity|repeat constructor|
       apply fbs_band with (n := 1%nat); [|reflexivity|repeat constructor|constructor]]);
    exact (fb_eob _ 63 1 0 _ ltac:(lia) ltac:(lia) ltac:(lia) eq_refl).
Qed.
Lemma z_image : progressive_image c_q (Colour 1 1 0 0 0) 32 8 [z_cd 1; z_cd 2; z_cd 3] z_is [c_K; c_K; c_K] 6 [].
Proof.
  destruct c_image as [I1 I2 I3 _ _ I6 _ _ _ _ _]. split; try assumption; try lia.
  - split; [reflexivity|]. intros [|[|[|k]]] cd; try (intros [= <-]; repeat split). destruct k; discriminate.
  - repeat constructor; cbn; lia.
  - exists 24. split; [apply z_script|lia].
  - apply forallb_byte. vm_compute. reflexivity.
Qed.
Theorem C50_refuted :
  (exists m, decoded Sse41 RGB = Panic m) /\
  progressive_image c_q (Colour 1 1 0 0 0) 10 7 [c_cd0; c_cd1; c_cd2] c_is [c_K; c_K; c_K] 4 [9; 9] /\
  progressive_image c_q (Colour 1 1 0 0 0) 32 8 [z_cd 1; z_cd 2; z_cd 3] z_is [c_K; c_K; c_K] 6 [] /\
  Forall complete [c_K; c_K; c_K] /\
  (forall cpu, cpu <> Sse41 -> exists px,
     fst (decode_buffer (new_with_options cpu default_options) (file 194 c_q (Colour 1 1 0 0 0) 32 8 z_is [])) = Ok px /\
     firstn 3 px = [128; 128; 128] /\ firstn 3 (skipn 90 px) = [0; 0; 0]).
Proof.
  split; [eexists; vm_compute; reflexivity|]. split; [exact c_image|]. split; [exact z_image|].
  split; [repeat constructor; exact c_complete|].
  intros [] Hc; [|now contradiction Hc|].
  all: eexists; (split; [vm_compute; reflexivity|]); split; reflexivity.
Qed.
Print Assumptions C50_refuted.
