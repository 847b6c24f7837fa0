(** Theorems about the order and the number of segments and scans (C54, C55, C57, C58),
    sampling factors of grayscale images (C56), component identifiers (C59), truncated files
    (C60) and output formats that are not implemented (C61). *)
From Coq Require Import ZArith String List Bool Lia.
From Verif Require Import Base Types Huffman State Bitstream Headers Mcu McuProg Decoder.
From Verif Require Import SpecHuffman SpecSegments SpecFile SpecExtend SpecBits SpecBlock SpecProg SpecInter SpecScript SpecImage SpecBaseline SpecDct SpecPixels SpecGraySampled SpecSafe.
From Verif Require Import Obs Session Files ExTools ProgFile ProgImage GrayReal GraySampled OrderFacts FormatFacts LateTables SafeTools Thm_ProgFile Thm_Gray Thm_BaseGray.
Import ListNotations.
Local Open Scope Z_scope.

Definition result (cpu : isa) (o : options) (f : list Z) : res (list Z) := fst (decode_buffer (new_with_options cpu o) f).
Definition pixels (cpu : isa) (o : options) (f : list Z) : list Z := match result cpu o f with Ok px => px | _ => [] end.

(** * C54.  Segments between the scans of a progressive image *)

(** Between two scans the standard allows tables (DQT, DHT), restart intervals (DRI),
    application data and comments. *)
Definition misc_codes : list Z := [219; 221; 224; 225; 238; 254].

(** Huffman tables between the scans are C49.  At any other of these segments the decoder stops:
    it returns the pixels of the scans it has seen so far, whatever follows ([rest] is the
    segment and all remaining scans). *)
Theorem C54_stops_partial : forall cpu o ps q t w h cd is K n m rest,
  In m misc_codes -> progressive_image ps (Gray q) w h [cd] is [K] n rest ->
  w <= o_max_width o -> h <= o_max_height o -> n <= o_max_scans o ->
  last_quant (quants ps) q = Some t ->
  Forall (fun zz => in_range (qd_values t) (known_block K zz)) (cd_blocks cd) ->
  w <= 65527 -> h <= 65527 -> 64 * ((w + 7) / 8) < 9 * w ->
  let r := fst (decode_buffer (new_with_options cpu o) (cut_file 194 ps (Gray q) w h is m rest)) in
  (exists px, r = Ok px /\ close_to (qd_values t) (map (known_block K) (cd_blocks cd)) w h px) \/
  r = Err missing_marker /\ ~ short_end (image_geo (Gray q) w h) [cd] [] is.
Proof.
  intros cpu o ps q t w h cd is K n m rest Hm. apply gray_cut.
  cbn in Hm. repeat (destruct Hm as [<-|Hm]; [eexists; repeat split; discriminate|]). destruct Hm.
Qed.
Print Assumptions C54_stops_partial.

(** The two DC scans of the image of C38_case, a comment, and the two AC scans *)
Definition mid_K : knowledge := scan_learns (scan_learns nothing 0 0 1) 0 0 0.
Definition mid_rest : list Z := segment [1; 2; 3] ++ flat_map item_bytes (skipn 3 ex_is) ++ [255; 217].
Example C54_case :
  progressive_image ex_q (Gray 0) 15 7 [ex_cd] (firstn 3 ex_is) [mid_K] 2 mid_rest /\
  Forall (fun zz => in_range (repeat 3 64) (known_block mid_K zz)) (cd_blocks ex_cd) /\
  cut_file 194 ex_q (Gray 0) 15 7 (firstn 3 ex_is) 254 mid_rest =
    [255; 216] ++ msegs_bytes (map pre_seg ex_q) ++ mseg_bytes (194, frame_payload 7 15 (frame_comps (Gray 0))) ++
    flat_map item_bytes (firstn 3 ex_is) ++ mseg_bytes (254, [1; 2; 3]) ++ flat_map item_bytes (skipn 3 ex_is) ++ [255; 217] /\
  match result Scalar default_options (cut_file 194 ex_q (Gray 0) 15 7 (firstn 3 ex_is) 254 mid_rest) with
  | Ok px => length px = 105%nat /\ firstn 15 px = [129; 129; 129; 129; 129; 129; 129; 129; 127; 127; 127; 127; 127; 127; 127]
  | _ => False
  end.
Proof.
  split; [|split; [|split]].
  - destruct C38_case as (H & _ & _). destruct H as [P1 P2 P3 P4 P5 P6 P7 P8 P9 P10 P11]. split; auto; try lia.
    + exists 4. split; [|lia]. destruct ex_usable as [Ud Ua].
      apply sc_tables; [constructor; [apply ex_dc_legal|constructor; [apply ex_ac_legal|constructor]]|vm_compute; discriminate|].
      cbn [app].
      eapply (script_one _ _ _ _ 0 ex_cd 0 0 0 0 0 1 _ _ [mid_K] 1 2); [reflexivity| |
      eapply (script_one _ _ _ _ 0 ex_cd 0 0 0 0 1 0 _ _ [mid_K] 0 0); [reflexivity| |
      apply sc_end]].
      * eexists _, _. split; [reflexivity|]. split; [reflexivity|]. split; [lia|]. split; [lia|].
        split; [repeat split; lia || (now left)|]. split; [exact Ud|].
        split; [reflexivity|]. cbn. repeat split; discriminate.
      * eexists _, _. split; [reflexivity|]. split; [reflexivity|]. split; [lia|]. split; [lia|].
        split; [|split; [exact Ud|reflexivity]].
        split; [lia|]. split; [lia|]. split; [now right|]. split; [reflexivity|]. right. reflexivity.
    + apply forallb_byte. vm_compute. reflexivity.
  - repeat constructor; intros; try (cbn; lia).
    all: do 64 (destruct k as [|k]; [cbn; lia|]); lia.
  - reflexivity.
  - vm_compute. split; reflexivity.
Qed.

(** So a comment between two scans changes the picture, and application data of a number the
    decoder does not know make it fail. *)
Theorem C54_refuted :
  exists f1 f2, (exists ps l w h cs is Ks n, progressive_image ps l w h cs is Ks n [] /\ f1 ++ f2 = file 194 ps l w h is []) /\
  forall cpu, exists px px' e,
    result cpu default_options (f1 ++ f2) = Ok px /\
    result cpu default_options (f1 ++ mseg_bytes (254, [1; 2; 3]) ++ f2) = Ok px' /\ px <> px' /\
    result cpu default_options (f1 ++ mseg_bytes (226, [1; 2; 3]) ++ f2) = Err e.
Proof.
  exists ([255; 216] ++ msegs_bytes (map pre_seg ex_q) ++ mseg_bytes (194, frame_payload 7 15 (frame_comps (Gray 0))) ++
          flat_map item_bytes (firstn 3 ex_is)), (flat_map item_bytes (skipn 3 ex_is) ++ [255; 217]). split.
  - exists ex_q, (Gray 0), 15, 7, ex_cs, ex_is, [ex_K], 4. split; [|reflexivity].
    destruct C38_case as (H & _ & _). destruct H as [P1 P2 P3 P4 P5 P6 P7 P8 P9 P10 P11]. split; auto. apply forallb_byte. vm_compute. reflexivity.
  - intros []; (do 3 eexists; split; [vm_compute; reflexivity|]; split; [vm_compute; reflexivity|]; split; [discriminate|vm_compute; reflexivity]).
Qed.
Print Assumptions C54_refuted.

(** * C55.  Baseline images with one scan for each component *)

(** 16 by 8 pixels in colour; DC 21 in luminance and zeros elsewhere, as one interleaved scan and
    as three scans *)
Definition two_tables : list Z := dht_dc (1 :: 1 :: repeat 0 14) [0; 5] ++ dht_ac one [0].
Definition y_bits : list bool := [true; false; true; false; true; false; true; false].
Definition zero_bits : list bool := [false; false].
Definition in_scans (interleaved : bool) : list Z :=
  soi ++ dqt 8 ++ sof 192 8 16 [(1, 17); (2, 17); (3, 17)] ++ two_tables ++
  (if interleaved then sos [1; 2; 3] ++ scan ((y_bits ++ zero_bits ++ zero_bits) ++ zero_bits ++ zero_bits ++ zero_bits)
   else sos [1] ++ scan (y_bits ++ zero_bits) ++ sos [2] ++ scan (zero_bits ++ zero_bits) ++
        sos [3] ++ scan (zero_bits ++ zero_bits)) ++ eoi.
(** The default options, without SIMD kernels (with SSE4.1 narrow images panic, C51) *)
Definition plain : options := mkOptions false RGB 4 16384 16384 64 false.
Theorem C55_refuted : forall cpu, exists e,
  result cpu plain (in_scans true) = Ok (repeat 149 384) /\ result cpu plain (in_scans false) = Err e.
Proof. intros []; (eexists; split; vm_compute; reflexivity). Qed.
Print Assumptions C55_refuted.

(** * C56.  Sampling factors of a single component *)
Theorem C56_partial : forall cpu o hs vs ps q t w h tss td ta blocks bits sfx,
  baseline_gray ps q w h tss td ta blocks bits sfx -> 1 <= hs <= 2 -> 1 <= vs <= 2 -> o_strict o = false ->
  w <= o_max_width o -> h <= o_max_height o -> last_quant (quants ps) q = Some t ->
  Forall (in_range (qd_values t)) blocks -> 64 * ((w + 7) / 8) < 9 * w ->
  exists px, fst (decode_buffer (new_with_options cpu o) (gray_at 192 ps hs vs q w h (baseline_items tss td ta bits) sfx)) = Ok px /\
    close_to (qd_values t) blocks w h px.
Proof. exact sampled_real. Qed.
Print Assumptions C56_partial.

Example C56_case :
  baseline_gray bg_ps 2 15 7 [[bg_act]] 0 1 bg_blk bg_code [9; 9] /\
  last_quant (quants bg_ps) 2 = Some (mkQuantDef 2 (repeat 3 64)) /\ Forall (in_range (repeat 3 64)) bg_blk /\
  match result Scalar default_options (gray_at 192 bg_ps 2 2 2 15 7 (baseline_items [[bg_act]] 0 1 bg_code) [9; 9]) with
  | Ok px => length px = 105%nat /\ firstn 15 px = [129; 129; 130; 130; 131; 131; 132; 132; 127; 127; 127; 127; 127; 127; 127]
  | _ => False
  end.
Proof. split; [apply bg_image; lia|]. split; [reflexivity|]. split; [exact bg_range|]. vm_compute. split; reflexivity. Qed.

(** In strict mode such files are refused; and a progressive file, decoded correctly with
    factors 1 by 1 (C49), comes out black with factors 2 by 2. *)
Theorem C56_refuted :
  (exists ps q w h tss td ta blocks bits sfx, baseline_gray ps q w h tss td ta blocks bits sfx /\
   forall cpu, exists e, result cpu (mkOptions true RGB 4 16384 16384 64 true)
     (gray_at 192 ps 2 2 q w h (baseline_items tss td ta bits) sfx) = Err e) /\
  (exists ps q w h cd is K n sfx, progressive_image ps (Gray q) w h [cd] is [K] n sfx /\ complete K /\
   forall cpu, exists px, result cpu default_options (gray_at 194 ps 1 1 q w h is sfx) = Ok px /\ hd 0 px = 129 /\
     result cpu default_options (gray_at 194 ps 2 2 q w h is sfx) = Ok (repeat 0 105)).
Proof.
  split.
  - exists bg_ps, 2, 15, 7, [[bg_act]], 0, 1, bg_blk, bg_code, [9; 9]. split; [apply bg_image; lia|].
    intros []; (eexists; vm_compute; reflexivity).
  - destruct C49_case as (H1 & H2 & _). exists ex_q, 0, 15, 7, ex_cd, ex_is, ex_K, 4, [9; 9]. split; [exact H1|]. split; [exact H2|].
    intros []; (eexists; split; [vm_compute; reflexivity|]; split; vm_compute; reflexivity).
Qed.
Print Assumptions C56_refuted.

(** * C57.  Huffman tables before the frame header *)

(** For baseline files it makes no difference on which side of the frame header a table is
    sent. *)
Theorem C57_partial : forall cpu o l p q t, Forall header_seg l -> Forall (fun s => fst s <> 194) l ->
  header_seg (196, p) -> header_seg (192, q) -> Forall byte t ->
  let a := [255; 216] ++ msegs_bytes l ++ mseg_bytes (196, p) ++ mseg_bytes (192, q) ++ 255 :: t in
  let b := [255; 216] ++ msegs_bytes l ++ mseg_bytes (192, q) ++ mseg_bytes (196, p) ++ 255 :: t in
  let d := new_with_options cpu o in
  (forall d', read_headers d a = (Ok tt, d') <-> read_headers d b = (Ok tt, d')) /\
  (forall px, fst (decode_buffer d a) = Ok px <-> fst (decode_buffer d b) = Ok px).
Proof. exact swap_lemma. Qed.
Print Assumptions C57_partial.

Definition order_tail : list Z := tl (dht_ac one [0] ++ sos [1] ++ scan (y_bits ++ zero_bits) ++ eoi).
Definition order_frame : mseg := (192, 8 :: be16 8 ++ be16 16 ++ [1; 1; 17; 0]).
Definition order_table : mseg := (196, 0 :: (1 :: 1 :: repeat 0 14) ++ [0; 5]).
Example C57_case :
  Forall header_seg [(219, 0 :: repeat 8 64)] /\ header_seg order_table /\ header_seg order_frame /\ Forall byte order_tail /\
  let a := [255; 216] ++ msegs_bytes [(219, 0 :: repeat 8 64)] ++ mseg_bytes order_table ++ mseg_bytes order_frame ++ 255 :: order_tail in
  result Scalar default_options a = Ok (repeat 149 128).
Proof.
  assert (H : forall m p, forallb (fun b => (0 <=? b) && (b <=? 255)) (m :: p) = true -> m <> 255 -> m <> 218 -> fits p -> header_seg (m, p)).
  { intros m p Hb H1 H2 H3. apply forallb_byte in Hb. split; [exact (Forall_inv Hb)|]. split; [exact H1|]. split; [exact H2|].
    split; [exact (Forall_inv_tail Hb)|exact H3]. }
  split; [constructor; [|constructor]|split; [|split; [|split]]];
    try (apply H; [vm_compute; reflexivity|discriminate|discriminate|vm_compute; discriminate]).
  - apply forallb_byte. vm_compute. reflexivity.
  - vm_compute. reflexivity.
Qed.

(** For progressive files it does: tables sent before the frame header are prepared for
    baseline images, in which the symbol 10 (an end-of-band run of 2 or 3) means something else.
    Both files below consist of the same segments; only the place of the tables differs. *)
Definition prog_tables : list mseg :=
  [(196, 0 :: (1 :: 1 :: repeat 0 14) ++ [0; 5]); (196, 16 :: (1 :: 1 :: 1 :: repeat 0 13) ++ [1; 16; 0])].
Definition prog_order (early : bool) : list Z :=
  soi ++ dqt 8 ++ (if early then msegs_bytes prog_tables else []) ++ sof 194 8 16 [(1, 17)] ++
  (if early then [] else msegs_bytes prog_tables) ++
  sos_at [1] 0 0 0 ++ scan y_bits ++ sos_at [1] 1 63 0 ++ scan [false; true; true; false; false] ++ eoi.
Theorem C57_refuted : forall cpu, exists px px',
  result cpu default_options (prog_order false) = Ok px /\ firstn 9 px = [150; 150; 150; 149; 149; 148; 148; 148; 149] /\
  result cpu default_options (prog_order true) = Ok px' /\ firstn 9 px' = [152; 152; 151; 150; 148; 147; 146; 146; 94].
Proof. intros []; (do 2 eexists; split; [vm_compute; reflexivity|]; split; [reflexivity|]; split; [vm_compute; reflexivity|reflexivity]). Qed.
Print Assumptions C57_refuted.

(** * C58.  Quantization tables after the frame header *)
Definition quant_order (before after : list Z) : list Z :=
  soi ++ before ++ sof 192 8 8 [(1, 17)] ++ after ++ two_tables ++ sos [1] ++ scan y_bits ++ eoi.
(** Tables that are not followed by a frame header are never used: such a segment can be added
    or left out, anywhere between the segments of the header, whatever the decoder has been used
    for before.  [l1] and [l2] are the segments before and after it, [t] is the rest of the file
    from the scan header on, in which the bytes C0 and C2 do not follow FF. *)
Theorem C58_partial : forall cpu o cs l1 ts l2 t px, Forall legal_call cs -> Forall header_seg l1 ->
  Forall quant_def_legal ts -> fits (dqt_payload ts) ->
  Forall header_seg l2 -> Forall (fun s => ~ is_frame s) l2 -> Forall byte t -> no_sof t ->
  let d := after cpu o cs in
  fst (decode_buffer d ([255; 216] ++ msegs_bytes l1 ++ mseg_bytes (219, dqt_payload ts) ++ msegs_bytes l2 ++ [255; 218] ++ t)) = Ok px <->
  fst (decode_buffer d ([255; 216] ++ msegs_bytes l1 ++ msegs_bytes l2 ++ [255; 218] ++ t)) = Ok px.
Proof. exact late_quant. Qed.
Print Assumptions C58_partial.

Definition late_l1 : list mseg := [(219, 0 :: repeat 8 64); (192, 8 :: be16 8 ++ be16 8 ++ [1; 1; 17; 0])].
Definition late_ts : list quant_def := [mkQuantDef 0 (repeat 1 64)].
Definition late_l2 : list mseg := [(196, 0 :: (1 :: 1 :: repeat 0 14) ++ [0; 5]); (196, 16 :: (1 :: repeat 0 15) ++ [0])].
Definition late_t : list Z := tl (tl (sos [1])) ++ scan y_bits ++ eoi.
Example C58_case :
  Forall header_seg late_l1 /\ Forall quant_def_legal late_ts /\ Forall header_seg late_l2 /\
  Forall (fun s => ~ is_frame s) late_l2 /\ Forall byte late_t /\ no_sof late_t /\
  result Scalar default_options
    ([255; 216] ++ msegs_bytes late_l1 ++ mseg_bytes (219, dqt_payload late_ts) ++ msegs_bytes late_l2 ++ [255; 218] ++ late_t)
  = Ok (repeat 149 64).
Proof.
  assert (H : forall m p, forallb (fun b => (0 <=? b) && (b <=? 255)) (m :: p) = true -> m <> 255 -> m <> 218 -> fits p -> header_seg (m, p)).
  { intros m p Hb H1 H2 H3. apply forallb_byte in Hb. split; [exact (Forall_inv Hb)|]. split; [exact H1|]. split; [exact H2|].
    split; [exact (Forall_inv_tail Hb)|exact H3]. }
  split; [repeat (apply Forall_cons; [apply H; [vm_compute; reflexivity|discriminate|discriminate|vm_compute; discriminate]|]); constructor|].
  split; [constructor; [|constructor]; split; [cbn; lia|]; split; [reflexivity|]; apply forallb_byte; vm_compute; reflexivity|].
  split; [repeat (apply Forall_cons; [apply H; [vm_compute; reflexivity|discriminate|discriminate|vm_compute; discriminate]|]); constructor|].
  split; [repeat constructor; unfold is_frame; cbn; lia|]. split; [apply forallb_byte; vm_compute; reflexivity|].
  split; [apply no_sofb_ok; reflexivity|vm_compute; reflexivity].
Qed.

(** A table sent between the frame header and the scan is not used: alone it makes the decoder
    fail, and it does not replace a table sent before. *)
Theorem C58_refuted : forall cpu, exists e,
  result cpu default_options (quant_order (dqt 8) []) = Ok (repeat 149 64) /\
  result cpu default_options (quant_order [] (dqt 8)) = Err e /\
  result cpu default_options (quant_order (dqt 1) (dqt 8)) = result cpu default_options (quant_order (dqt 1) []) /\
  result cpu default_options (quant_order (dqt 1) []) = Ok (repeat 130 64).
Proof. intros []; (eexists; split; [|split; [|split]]; vm_compute; reflexivity). Qed.
Print Assumptions C58_refuted.

(** * C59.  Component identifiers *)

(** The standard leaves the identifiers to the encoder (B.2.2: 0 to 255).  A file with an
    identifier other than 1, 2 and 3 is never accepted, whatever else is in it and whatever the
    decoder has been used for before. *)
Theorem C59_partial : forall cpu o cs l1 m h w comps t, Forall legal_call cs ->
  Forall header_seg l1 -> m = 192 \/ m = 194 -> 0 <= h <= 65535 -> 0 <= w <= 65535 -> blen comps <= 255 ->
  Forall comp_bytes comps -> Forall byte t -> ~ Forall (fun c => 1 <= fst (fst c) <= 3) comps ->
  let f := [255; 216] ++ msegs_bytes l1 ++ mseg_bytes (m, frame_payload h w comps) ++ t in
  fst (read_headers (after cpu o cs) f) <> Ok tt /\
  forall px, fst (decode_buffer (after cpu o cs) f) <> Ok px.
Proof. exact bad_id. Qed.
Print Assumptions C59_partial.

Definition with_ids (i j k : Z) : list Z :=
  soi ++ dqt 8 ++ sof 192 8 16 [(i, 17); (j, 17); (k, 17)] ++ two_tables ++ sos [i; j; k] ++
  scan (y_bits ++ concat (repeat zero_bits 5)) ++ eoi.
Example C59_case :
  let comps := [(0, 17, 0); (1, 17, 0); (2, 17, 0)] in
  Forall comp_bytes comps /\ ~ Forall (fun c => 1 <= fst (fst c) <= 3) comps /\
  exists t, with_ids 0 1 2 = [255; 216] ++ msegs_bytes [(219, 0 :: repeat 8 64)] ++ mseg_bytes (192, frame_payload 8 16 comps) ++ t.
Proof.
  split; [repeat constructor; unfold byte; cbn; lia|]. split.
  - intros H. apply Forall_inv in H. cbn in H. lia.
  - eexists. vm_compute. reflexivity.
Qed.
(** The identifiers 0, 1, 2, and R, G, B are in use *)
Theorem C59_refuted : forall cpu, exists e e',
  result cpu plain (with_ids 1 2 3) = Ok (repeat 149 384) /\
  result cpu plain (with_ids 0 1 2) = Err e /\ result cpu plain (with_ids 82 71 66) = Err e'.
Proof. intros []; (do 2 eexists; split; [|split]; vm_compute; reflexivity). Qed.
Print Assumptions C59_refuted.

(** * C60.  Truncated files *)

(** If the headers of a file are accepted, there is exactly one length from which on all its
    beginnings are accepted, with the same result, and below which none is.  This holds for every
    state of the decoder. *)
Theorem C60_partial : forall d f d', Forall byte f -> read_headers d f = (Ok tt, d') ->
  exists n, (n <= length f)%nat /\
    (forall k, (n <= k)%nat -> read_headers d (firstn k f) = (Ok tt, d')) /\
    (forall k, (k < n)%nat -> fst (read_headers d (firstn k f)) <> Ok tt /\
       forall px, fst (decode_buffer d (firstn k f)) <> Ok px).
Proof. exact headers_length. Qed.
Print Assumptions C60_partial.

Definition gray_pair : list Z :=
  soi ++ dqt 8 ++ sof 192 16 16 [(1, 17)] ++ two_tables ++ sos [1] ++
  scan ((y_bits ++ zero_bits) ++ (y_bits ++ zero_bits)) ++ eoi.
Definition accepts (f : list Z) : bool := match read_headers (new_with_options Scalar default_options) f with (Ok _, _) => true | _ => false end.
Example C60_case : length gray_pair = 144%nat /\ accepts (firstn 139 gray_pair) = true /\ accepts (firstn 138 gray_pair) = false.
Proof. split; [|split]; vm_compute; reflexivity. Qed.

(** A file cut inside the entropy-coded data is accepted, with wrong pixels *)
Theorem C60_refuted : exists f k, (k < length f)%nat /\ forall cpu, exists px px',
  result cpu default_options f = Ok px /\ result cpu default_options (firstn k f) = Ok px' /\ px <> px'.
Proof.
  exists gray_pair, 140%nat. split; [vm_compute; lia|].
  intros []; (do 2 eexists; split; [vm_compute; reflexivity|]; split; [vm_compute; reflexivity|discriminate]).
Qed.
Print Assumptions C60_refuted.

(** * C61.  Output formats *)

(** No file is converted to CMYK or YCCK: whenever a call succeeds and one of these is the output
    format afterwards (a single component is always delivered as grayscale, C44), all the bytes
    returned are zero, whatever the file and the decoder. *)
Theorem C61_partial : forall d buf px d', decode_buffer d buf = (Ok px, d') ->
  get_output_colorspace d' = CMYK \/ get_output_colorspace d' = YCCK -> Forall (fun x => x = 0) px.
Proof. exact ink_out. Qed.
Print Assumptions C61_partial.

(** An image that is not black, requested as RGB, CMYK and YCCK.  It is a case of [C61_partial]. *)
Theorem C61_refuted : forall cpu,
  result cpu plain (in_scans true) = Ok (repeat 149 384) /\
  result cpu (set_out_colorspace plain CMYK) (in_scans true) = Ok (repeat 0 512) /\
  result cpu (set_out_colorspace plain YCCK) (in_scans true) = Ok (repeat 0 512).
Proof. intros []; (split; [|split]; vm_compute; reflexivity). Qed.
Print Assumptions C61_refuted.
