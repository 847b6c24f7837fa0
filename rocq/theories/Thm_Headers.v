(** Theorems about the header part of a file: C07, C11, C12, C13, C42. *)
From Coq Require Import ZArith String List Bool Lia.
From Verif Require Import Base Types Bitstream State Headers Mcu McuProg Decoder Session SpecSegments SpecFile
  HeaderItems ExTools Files.
Import ListNotations.
Local Open Scope Z_scope.

(** C07.  Any decoder state; any other header segments around the frame header. *)
Theorem C07_info : forall cpu o cs l1 l2 m h w comps t d', Forall legal_call cs ->
  Forall header_seg l1 -> Forall header_seg l2 ->
  Forall (fun s => ~ is_frame s) l1 -> Forall (fun s => ~ is_frame s) l2 ->
  (m = 192 \/ m = 194) -> 0 <= h <= 65535 -> 0 <= w <= 65535 -> blen comps <= 255 ->
  Forall comp_bytes comps -> Forall byte t ->
  read_headers (after cpu o cs)
    ([255; 216] ++ msegs_bytes (l1 ++ (m, frame_payload h w comps) :: l2) ++ [255; 218] ++ t) = (Ok tt, d') ->
  exists i, get_info d' = Some i /\ i_width i = w /\ i_height i = h /\ i_comps i = blen comps /\
    i_sof i = (if m =? 192 then BaselineDct else ProgressiveDctHuffman).
Proof. exact C07_lemma. Qed.
Print Assumptions C07_info.
Theorem C07_none : forall cpu o, get_info (new_with_options cpu o) = None.
Proof. reflexivity. Qed.
Print Assumptions C07_none.

(** [gray_zero 8 16] has this shape *)
Definition gz_before : list mseg := [(219, 0 :: repeat 1 64)].
Definition gz_after : list mseg := [(196, 0 :: one ++ [0]); (196, 16 :: one ++ [0])].
Definition gz_tail : list Z := segment [1; 1; 0; 0; 63; 0] ++ zero_blocks 2 ++ eoi.
Example C07_case :
  let f := [255; 216] ++ msegs_bytes (gz_before ++ (192, frame_payload 8 16 [(1, 17, 0)]) :: gz_after) ++ [255; 218] ++ gz_tail in
  f = gray_zero 8 16 /\
  fst (read_headers (new_with_options Scalar default_options) f) = Ok tt /\
  Forall header_seg (gz_before ++ gz_after) /\ Forall (fun s => ~ is_frame s) (gz_before ++ gz_after).
Proof.
  cbv zeta. split; [reflexivity|]. split; [vm_compute; reflexivity|]. split.
  - unfold header_seg, fits, byte, gz_before, gz_after. cbn [app].
    repeat apply Forall_cons; try apply Forall_nil; cbn [fst snd];
      (split; [lia|]; split; [lia|]; split; [lia|]; split; [apply forallb_byte; vm_compute; reflexivity|vm_compute; discriminate]).
  - unfold gz_before, gz_after, is_frame. cbn [app]. repeat apply Forall_cons; try apply Forall_nil; cbn [fst]; lia.
Qed.

(** C11. *)
Theorem C11_suffix : forall d buf t d', Forall byte buf ->
  read_headers d buf = (Ok tt, d') -> read_headers d (buf ++ t) = (Ok tt, d').
Proof. exact C11_lemma. Qed.
Print Assumptions C11_suffix.
Example C11_case :
  fst (read_headers (new_with_options Scalar default_options) (firstn 138 (gray_zero 8 16))) = Ok tt /\
  get_info (snd (read_headers (new_with_options Scalar default_options) (firstn 138 (gray_zero 8 16))))
  = Some (mkInfo 16 8 8 BaselineDct 0 0 1).
Proof. vm_compute. repeat split. Qed.

(** C12.  [l] are the segments in front of the insertion point; what follows is any marker and
    any bytes.  Either both files give the same results and leave the decoder in the same
    state, or neither is accepted. *)
Theorem C12_transparent : forall cpu o cs l a q t, Forall legal_call cs -> Forall header_seg l ->
  skippable a -> Forall byte q -> fits q -> Forall byte t ->
  let d := after cpu o cs in
  let f := [255; 216] ++ msegs_bytes l ++ 255 :: t in
  let f' := [255; 216] ++ msegs_bytes l ++ mseg_bytes (a, q) ++ 255 :: t in
  (read_headers d f = read_headers d f' /\ decode_buffer d f = decode_buffer d f') \/
  (forall px, fst (read_headers d f) <> Ok tt /\ fst (read_headers d f') <> Ok tt /\
              fst (decode_buffer d f) <> Ok px /\ fst (decode_buffer d f') <> Ok px).
Proof. exact C12_lemma. Qed.
Print Assumptions C12_transparent.
Example C12_case :
  let f := [255; 216] ++ msegs_bytes gz_before ++ mseg_bytes (254, [104; 105; 255; 217])
           ++ skipn 71 (gray_zero 8 16) in
  hd 0 (skipn 71 (gray_zero 8 16)) = 255 /\ gray_zero 8 16 = [255; 216] ++ msegs_bytes gz_before ++ skipn 71 (gray_zero 8 16) /\
  fst (decode_buffer (new_with_options Scalar default_options) f) = Ok (repeat 128 128).
Proof. vm_compute. repeat split. Qed.

(** C13, only between the scans of a progressive image: [get_marker] finds the marker behind
    any number of FF bytes.  Missing: fill bytes in the header, for which the claim is false
    (C13_refuted). *)
Theorem C13_scans_partial : forall d st buf k m t,
  b_marker st = None -> b_rd st = repeat 255 (S k) ++ m :: t -> m <> 0 -> m <> 255 ->
  get_marker (mkPst d st buf) = (Ok (marker_from_u8 m), mkPst d (set_rd st t) buf).
Proof. exact C13_lemma. Qed.
Print Assumptions C13_scans_partial.
(** a progressive file with two scans and fill bytes between them *)
Example C13_case :
  fst (decode_buffer (new_with_options Scalar default_options)
    (soi ++ dqt 1 ++ sof 194 8 16 [(1, 17)] ++ dht_tiny ++ sos_at [1] 0 0 0 ++ scan (repeat false 2)
     ++ [255; 255; 255] ++ sos_at [1] 1 5 0 ++ scan (repeat false 2) ++ [255] ++ eoi)) = Ok (repeat 128 128).
Proof. vm_compute. reflexivity. Qed.

(** C42, the part that holds: a file without a baseline or progressive frame header in front
    of its first scan is not accepted. *)
Theorem C42_rejected_partial : forall cpu o l t,
  Forall header_seg l -> Forall (fun s => ~ is_frame s) l -> Forall byte t ->
  let f := [255; 216] ++ msegs_bytes l ++ [255; 218] ++ t in
  fst (read_headers (new_with_options cpu o) f) <> Ok tt /\
  forall px, fst (decode_buffer (new_with_options cpu o) f) <> Ok px.
Proof. exact C42_lemma. Qed.
Print Assumptions C42_rejected_partial.
Example C42_case :
  fst (read_headers (new_with_options Scalar default_options)
    ([255; 216] ++ msegs_bytes (gz_before ++ (193, frame_payload 8 16 [(1, 17, 0)]) :: gz_after) ++ [255; 218] ++ gz_tail))
  = Err (ESofError "Number of components cannot be zero." []).
Proof. vm_compute. reflexivity. Qed.
