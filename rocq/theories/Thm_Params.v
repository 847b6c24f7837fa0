(** Theorems about the parameters of baseline scan headers (C55, C66) and about DC tables
    before progressive frame headers (C57). *)
From Coq Require Import ZArith String List Bool Lia.
From Verif Require Import Base Types Huffman State Bitstream Headers Mcu Decoder.
From Verif Require Import SpecHuffman SpecSegments SpecFile SpecScanHeader Files ExTools ScanParams ScanList HuffmanPrefix SwapDc.
Import ListNotations.
Local Open Scope Z_scope.

(** * C66.  Parameters without a meaning in baseline images *)

(** Whatever precedes the scan header (in particular a baseline frame header; the markers of
    progressive ones are excluded) and whatever follows it, the spectral selection and the
    successive approximation parameters do not influence the pixels, nor whether there are any.
    Missing: Ah and Al of 14 and 15. *)
Theorem C66_partial : forall cpu o l ns sel ss se ah al ss' se' ah' al' t px,
  Forall header_seg l -> Forall (fun s => fst s <> 194) l ->
  byte ns -> Forall byte sel -> fits (ns :: sel ++ [0; 0; 0]) -> Forall byte t ->
  byte ss -> byte se -> 0 <= ah <= 13 -> 0 <= al <= 13 ->
  byte ss' -> byte se' -> 0 <= ah' <= 13 -> 0 <= al' <= 13 ->
  let d := new_with_options cpu o in
  fst (decode_buffer d ([255; 216] ++ msegs_bytes l ++ mseg_bytes (scan_seg ns sel ss se ah al) ++ t)) = Ok px <->
  fst (decode_buffer d ([255; 216] ++ msegs_bytes l ++ mseg_bytes (scan_seg ns sel ss' se' ah' al') ++ t)) = Ok px.
Proof. intros. split; apply scan_params; auto. Qed.
Print Assumptions C66_partial.

(** 16 by 8 pixels in grayscale: DC 21 in the first block and no difference in the second *)
Definition p_pre : list mseg :=
  [(219, 0 :: repeat 8 64); (192, [8; 0; 8; 0; 16; 1; 1; 17; 0]);
   (196, 0 :: 1 :: 1 :: repeat 0 14 ++ [0; 5]); (196, 16 :: 1 :: repeat 0 15 ++ [0])].
Definition p_data : list Z := [170; 63; 255; 217].
Definition p_file (ss se ah al : Z) : list Z :=
  [255; 216] ++ msegs_bytes p_pre ++ mseg_bytes (scan_seg 1 [1; 0] ss se ah al) ++ p_data.
Definition p_result (cpu : isa) (f : list Z) : res (list Z) := fst (decode_buffer (new_with_options cpu default_options) f).
Example C66_case :
  Forall header_seg p_pre /\ Forall (fun s => fst s <> 194) p_pre /\ Forall byte p_data /\
  forall cpu, p_result cpu (p_file 0 63 0 0) = Ok (repeat 149 128) /\ p_result cpu (p_file 7 3 13 5) = Ok (repeat 149 128).
Proof.
  split; [|split; [|split]].
  - repeat (apply Forall_cons || apply Forall_nil); (split; [unfold byte; cbn; lia|]; split; [cbn; lia|]; split; [cbn; lia|]; split;
      [apply forallb_byte; vm_compute; reflexivity|vm_compute; discriminate]).
  - repeat constructor; cbn; lia.
  - apply forallb_byte. reflexivity.
  - intros []; (split; vm_compute; reflexivity).
Qed.

(** With Al 14 the same file is refused *)
Theorem C66_refuted : exists f f' px, 
  (exists l sel t, f = [255; 216] ++ msegs_bytes l ++ mseg_bytes (scan_seg 1 sel 0 63 0 0) ++ t /\
    f' = [255; 216] ++ msegs_bytes l ++ mseg_bytes (scan_seg 1 sel 0 63 0 14) ++ t /\ Forall (fun s => fst s <> 194) l) /\
  forall cpu, p_result cpu f = Ok px /\ exists e, p_result cpu f' = Err e.
Proof.
  exists (p_file 0 63 0 0), (p_file 0 63 0 14), (repeat 149 128). split.
  - exists p_pre, [1; 0], p_data. split; [reflexivity|]. split; [reflexivity|]. repeat constructor; cbn; lia.
  - intros []; (split; [|eexists]; vm_compute; reflexivity).
Qed.
Print Assumptions C66_refuted.

(** * C55.  The components a baseline scan header lists *)

(** Why one scan for each component does not work: the list of components in the scan header
    does not select anything.  If a file is accepted whose scan header lists [ids] at the end,
    with the first Huffman tables, then the file without them in the list is accepted too and
    gives the same pixels: the data are still taken for interleaved data of all components. *)
Theorem C55_list_refuted : forall cpu o l ns sel ids ss se ah al t px,
  Forall header_seg l -> Forall (fun s => fst s <> 194) l ->
  1 <= ns -> Z.of_nat (length sel) = 2 * ns -> ns + Z.of_nat (length ids) <= 255 -> Forall byte sel -> Forall byte ids ->
  byte ss -> byte se -> 0 <= ah <= 13 -> 0 <= al <= 13 -> Forall byte t ->
  let d := new_with_options cpu o in
  fst (decode_buffer d ([255; 216] ++ msegs_bytes l ++
    mseg_bytes (scan_seg (ns + Z.of_nat (length ids)) (sel ++ zero_pairs ids) ss se ah al) ++ t)) = Ok px ->
  fst (decode_buffer d ([255; 216] ++ msegs_bytes l ++ mseg_bytes (scan_seg ns sel ss se ah al) ++ t)) = Ok px.
Proof. exact scan_list. Qed.
Print Assumptions C55_list_refuted.

(** 16 by 8 pixels in colour without SIMD kernels (with SSE4.1 narrow images panic, C51); all
    three components in the scan header, and only luminance *)
Definition c_pre : list mseg :=
  [(219, 0 :: repeat 8 64); (192, frame_payload 8 16 [(1, 17, 0); (2, 17, 0); (3, 17, 0)]);
   (196, 0 :: 1 :: 1 :: repeat 0 14 ++ [0; 5]); (196, 16 :: 1 :: repeat 0 15 ++ [0])].
Definition c_data : list Z := [170; 0; 63; 255; 217].
Definition c_file (ids : list Z) : list Z :=
  [255; 216] ++ msegs_bytes c_pre ++ mseg_bytes (scan_seg (1 + Z.of_nat (length ids)) ([1; 0] ++ zero_pairs ids) 0 63 0 0) ++ c_data.
Definition c_result (cpu : isa) (f : list Z) : res (list Z) :=
  fst (decode_buffer (new_with_options cpu (mkOptions false RGB 4 16384 16384 64 false)) f).
Example C55_list_case :
  Forall header_seg c_pre /\ Forall (fun s => fst s <> 194) c_pre /\ Forall byte c_data /\
  forall cpu, c_result cpu (c_file [2; 3]) = Ok (repeat 149 384) /\ c_result cpu (c_file []) = Ok (repeat 149 384).
Proof.
  split; [|split; [|split]].
  - repeat (apply Forall_cons || apply Forall_nil); (split; [unfold byte; cbn; lia|]; split; [cbn; lia|]; split; [cbn; lia|]; split;
      [apply forallb_byte; vm_compute; reflexivity|vm_compute; discriminate]).
  - repeat constructor; cbn; lia.
  - apply forallb_byte. reflexivity.
  - intros []; (split; vm_compute; reflexivity).
Qed.

(** * C57.  DC tables before a progressive frame header *)

(** Only AC tables depend on the frame header ([C57_refuted]).  Definitions of DC tables may
    stand on either side of a progressive frame header, whatever precedes and follows. *)
Theorem C57_dc_partial : forall cpu o l ts q t, Forall header_seg l ->
  Forall huff_def_legal ts -> Forall (fun t => hf_ac t = false) ts ->
  header_seg (196, dht_payload ts) -> header_seg (194, q) -> Forall byte t ->
  let p := dht_payload ts in
  let a := [255; 216] ++ msegs_bytes l ++ mseg_bytes (196, p) ++ mseg_bytes (194, q) ++ 255 :: t in
  let b := [255; 216] ++ msegs_bytes l ++ mseg_bytes (194, q) ++ mseg_bytes (196, p) ++ 255 :: t in
  let d := new_with_options cpu o in
  (forall d', read_headers d a = (Ok tt, d') <-> read_headers d b = (Ok tt, d')) /\
  (forall px, fst (decode_buffer d a) = Ok px <-> fst (decode_buffer d b) = Ok px).
Proof. exact swap_dc. Qed.
Print Assumptions C57_dc_partial.

(** The file of [C57_refuted] with its DC table in front of the frame header and its AC table
    behind it: the pixels are those of the regular order *)
Definition dc_def : huff_def := mkHuffDef false 0 (1 :: 1 :: repeat 0 14) [0; 5].
Definition dc_frame : list Z := [8; 0; 8; 0; 16; 1; 1; 17; 0].
Definition dc_tail : list Z :=
  tl (mseg_bytes (196, 16 :: (1 :: 1 :: 1 :: repeat 0 13) ++ [1; 16; 0])) ++
  sos_at [1] 0 0 0 ++ scan [true; false; true; false; true; false; true; false] ++ sos_at [1] 1 63 0 ++ scan [false; true; true; false; false] ++ eoi.
Example C57_dc_case :
  Forall header_seg [(219, 0 :: repeat 8 64)] /\ huff_def_legal dc_def /\ header_seg (196, dht_payload [dc_def]) /\
  header_seg (194, dc_frame) /\ Forall byte dc_tail /\
  forall cpu, exists px, p_result cpu ([255; 216] ++ msegs_bytes [(219, 0 :: repeat 8 64)] ++
      mseg_bytes (196, dht_payload [dc_def]) ++ mseg_bytes (194, dc_frame) ++ 255 :: dc_tail) = Ok px /\
    firstn 9 px = [150; 150; 150; 149; 149; 148; 148; 148; 149].
Proof.
  assert (H : forall m p, forallb (fun b => (0 <=? b) && (b <=? 255)) (m :: p) = true -> m <> 255 -> m <> 218 -> fits p -> header_seg (m, p)).
  { intros m p Hb H1 H2 H3. apply forallb_byte in Hb. split; [exact (Forall_inv Hb)|]. split; [exact H1|]. split; [exact H2|].
    split; [exact (Forall_inv_tail Hb)|exact H3]. }
  split; [constructor; [|constructor]|split; [|split; [|split; [|split]]]];
    try (apply H; [vm_compute; reflexivity|discriminate|discriminate|vm_compute; discriminate]).
  - unfold huff_def_legal. cbn [hf_dest hf_counts hf_symbols hf_ac dc_def]. split; [lia|].
    assert (H0 : table_def (1 :: 1 :: repeat 0 14) [0; 5]) by (apply table_defb_ok; vm_compute; reflexivity).
    split; [exact H0|]. split.
    + eexists. apply HuffmanPrefix.canonical_prefix_code with [0; 5]; [apply H0|vm_compute; reflexivity].
    + intros _. repeat constructor; lia.
  - apply forallb_byte. vm_compute. reflexivity.
  - intros []; (eexists; split; [vm_compute; reflexivity|reflexivity]).
Qed.
