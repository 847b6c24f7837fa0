(** Theorems about the bit reader (C19, C20). *)
From Coq Require Import ZArith String List Bool Lia.
From Verif Require Import Base Types Huffman Bitstream SpecHuffman SpecSegments SpecBits Obs
  BitReader Refill Reader Feed.
Import ListNotations.
Local Open Scope Z_scope.

(** C19.  For every segment [rd] that ends at a known marker or at the end of the data and every
    sequence of reads using at most 32 bits between two refills and at most the bits that are
    there, the values read are those of the unstuffed bits. *)
Theorem C19_reader : forall rd os,
  Forall byte rd ->
  (match snd (entropy rd) with AtEnd => True | AtMarker c _ => marker_from_u8 c <> None end) ->
  legal_ops 0 (length (scan_bits rd)) os ->
  exists s', run_ops os (bst_new rd) = (Ok (fst (spec_ops os (scan_bits rd))), s').
Proof. exact C19_reader_lemma. Qed.
Print Assumptions C19_reader.

(** C19, end of the data.  Past the last byte the reader supplies zero bits, as many as asked. *)
Theorem C19_zeros : forall rd k os,
  Forall byte rd -> snd (entropy rd) = AtEnd ->
  legal_ops 0 (length (scan_bits rd) + k) os ->
  exists s', run_ops os (bst_new rd)
             = (Ok (fst (spec_ops os (scan_bits rd ++ repeat false k))), s').
Proof. exact C19_zeros_lemma. Qed.
Print Assumptions C19_zeros.

(** C19, the marker.  When fewer than 32 bits are left before the marker, the next refill
    reports the marker and leaves the reader on the byte after it. *)
Theorem C19_marker : forall rd os s c rest,
  Forall byte rd -> snd (entropy rd) = AtMarker c rest -> marker_from_u8 c <> None ->
  legal_ops 0 (length (scan_bits rd)) os ->
  run_ops os (bst_new rd) = (Ok (fst (spec_ops os (scan_bits rd))), s) ->
  (length (snd (spec_ops os (scan_bits rd))) < 32)%nat ->
  exists s', refill s = (Ok tt, s') /\ b_marker s' = marker_from_u8 c /\ b_rd s' = rest.
Proof. exact feed_marker. Qed.
Print Assumptions C19_marker.

(** The bits are the ones an encoder put in before byte stuffing. *)
Theorem C19_stuffing : forall data m rest, m <> 0 -> m <> 255 ->
  scan_bits (stuff data ++ 255 :: m :: rest) = bits_of_bytes data /\
  snd (entropy (stuff data ++ 255 :: m :: rest)) = AtMarker m rest.
Proof. exact C19_stuffing_lemma. Qed.
Print Assumptions C19_stuffing.

(** Ten stuffed bytes before EOI, read in pieces of 5, 1, 26, 0 and 31 bits *)
Definition ex_data : list Z := [255; 18; 255; 0; 171; 205; 255; 255; 1; 254].
Definition ex_rd : list Z := stuff ex_data ++ [255; 217; 7].
Definition ex_ops : list rop :=
  [RRefill; RGet 5; RPeek 9; RBit; RGet 26; RRefill; RGet 0; RDrop 1; RGet 31].
Example C19_reader_ex :
  Forall byte ex_rd /\ snd (entropy ex_rd) = AtMarker 217 [7] /\ marker_from_u8 217 = Some EOI /\
  legal_ops 0 (length (scan_bits ex_rd)) ex_ops /\
  fst (run_ops ex_ops (bst_new ex_rd)) = Ok [31; 452; 1; 51576576; 0; 734920703] /\
  (length (snd (spec_ops ex_ops (scan_bits ex_rd))) < 32)%nat.
Proof.
  split; [repeat constructor; discriminate|]. split; [reflexivity|]. split; [reflexivity|].
  split; [|split; [vm_compute; reflexivity|vm_compute; lia]]. cbn. lia.
Qed.
Example C19_zeros_ex :
  snd (entropy [1; 255]) = AtEnd /\ legal_ops 0 (length (scan_bits [1; 255]) + 16) [RRefill; RGet 32] /\
  fst (run_ops [RRefill; RGet 32] (bst_new [1; 255])) = Ok [33488896].
Proof. split; [reflexivity|]. split; [cbn; lia|]. vm_compute. reflexivity. Qed.

(** C20.  The test on the four-byte window is exact, *)
Theorem C20_has_byte : forall a b c d,
  byte a -> byte b -> byte c -> byte d ->
  has_byte (a * 16777216 + b * 65536 + c * 256 + d) 255 = true
  <-> (a = 255 \/ b = 255 \/ c = 255 \/ d = 255).
Proof. exact C20_has_byte_lemma. Qed.
Print Assumptions C20_has_byte.

(** and a refill leaves the reader in the state the four single-byte steps lead to, whatever
    the reader holds. *)
Theorem C20_fast_refill : forall s,
  b_marker s = None -> b_left s <= 32 -> Forall byte (b_rd s) -> 0 <= b_buffer s < 2 ^ 64 ->
  refill s = refill_slow s.
Proof. exact fast_refill. Qed.
Print Assumptions C20_fast_refill.

Example C20_ex :
  let s := set_bits (bst_new []) 5 (5 * 2 ^ 61) 3 [1; 2; 254; 4; 255; 217] in
  b_marker s = None /\ b_left s <= 32 /\ Forall byte (b_rd s) /\ 0 <= b_buffer s < 2 ^ 64 /\
  refill s = (Ok tt, set_bits s 21491809796 (5 * 2 ^ 61 + 16973316 * 2 ^ 29) 35 [255; 217]).
Proof.
  split; [reflexivity|]. split; [cbn; lia|]. split; [repeat constructor; discriminate|].
  split; [cbn; lia|]. vm_compute. reflexivity.
Qed.
