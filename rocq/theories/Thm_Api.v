(** Theorems about whole calls (C01, C02, C04, C05, C06, C13, C40, C41, C42, C44). *)
From Coq Require Import ZArith String List Bool Lia.
From Verif Require Import Base Types State Decoder SpecSegments Session Files ExTools ApiFacts.
Import ListNotations.
Local Open Scope Z_scope.

(** C01.  Whatever was done with the decoder before, both entry points finish: the recursion
    bounds the model attaches to the loops are never reached. *)
Theorem C01_terminates : forall cpu o cs buf,
  Forall legal_call cs -> Forall byte buf ->
  fst (read_headers (after cpu o cs) buf) <> Fuel /\
  fst (decode_buffer (after cpu o cs) buf) <> Fuel.
Proof. exact C01_lemma. Qed.
Print Assumptions C01_terminates.

Example C01_case :
  let cs := [CDecodeBuffer (gray_zero 9 9); CSetOutputColorspace YCbCr; CReadHeaders [255; 216; 255]] in
  Forall legal_call cs /\ Forall byte (gray_zero 16 16) /\
  fst (decode_buffer (after Avx2 default_options cs) (gray_zero 16 16)) = Ok (repeat 128 256).
Proof.
  split; [|split].
  - apply Forall_cons; [apply forallb_byte; vm_compute; reflexivity|].
    apply Forall_cons; [exact I|]. apply Forall_cons; [|apply Forall_nil].
    apply forallb_byte. reflexivity.
  - apply forallb_byte. vm_compute. reflexivity.
  - vm_compute. reflexivity.
Qed.

(** C02, the part that holds for the headers.  A new decoder panics while reading headers
    only if a frame header declares four or more components.  Missing: that case, and the
    decoding of the scans; both fail, see below. *)
Theorem C02_headers_partial : forall cpu o buf d p,
  Forall byte buf ->
  read_headers (new_with_options cpu o) buf = (Panic p, d) -> 4 <= i_comps (d_info d).
Proof. intros cpu o buf d p. exact (C02_headers_lemma cpu o buf p d). Qed.
Print Assumptions C02_headers_partial.

(** A frame header with four components and a scan header naming component 4 *)
Definition four_components : list Z :=
  soi ++ dqt 1 ++ sof 192 8 8 [(1, 17); (2, 17); (3, 17); (1, 17)] ++ sos [4].
Theorem C02_headers_refuted :
  exists buf, Forall byte buf /\ panics (fst (read_headers (new_with_options Avx2 default_options) buf)).
Proof.
  exists four_components. split; [apply forallb_byte; vm_compute; reflexivity|vm_compute; exact I].
Qed.
Print Assumptions C02_headers_refuted.

(** Two components, every table present *)
Definition two_components : list Z :=
  soi ++ dqt 1 ++ sof 192 8 8 [(1, 17); (2, 17)] ++ dht_tiny ++ sos [1; 2] ++ zero_blocks 2 ++ eoi.
Theorem C02_decode_refuted :
  exists buf, Forall byte buf /\
    returns (fst (read_headers (new_with_options Scalar default_options) buf)) /\
    panics (fst (decode_buffer (new_with_options Scalar default_options) buf)).
Proof.
  exists two_components. split; [apply forallb_byte; vm_compute; reflexivity|].
  split; vm_compute; exact I.
Qed.
Print Assumptions C02_decode_refuted.

(** A well-formed grayscale image of 9 x 8 pixels *)
Theorem C02_narrow_refuted :
  exists buf, Forall byte buf /\
    panics (fst (decode_buffer (new_with_options Avx2 default_options) buf)).
Proof.
  exists (gray_zero 8 9). split; [apply forallb_byte; vm_compute; reflexivity|vm_compute; exact I].
Qed.
Print Assumptions C02_narrow_refuted.

(** A well-formed 4:2:0 image of 130 x 70 pixels, decoded to grayscale *)
Theorem C02_gray_refuted :
  exists buf, Forall byte buf /\
    panics (fst (decode_buffer (new_with_options Avx2 (set_out_colorspace default_options GRAYSCALE)) buf)).
Proof.
  exists (colour_zero 70 130 34). split; [apply forallb_byte; vm_compute; reflexivity|vm_compute; exact I].
Qed.
Print Assumptions C02_gray_refuted.

(** C04. *)
Theorem C04_limits : forall cpu o buf,
  Forall byte buf ->
  (forall u d, read_headers (new_with_options cpu o) buf = (Ok u, d) ->
     0 < width d <= o_max_width o /\ 0 < height d <= o_max_height o) /\
  (forall px d, decode_buffer (new_with_options cpu o) buf = (Ok px, d) ->
     0 < width d <= o_max_width o /\ 0 < height d <= o_max_height o).
Proof.
  exact (fun cpu o buf Hb => conj (fun u d H => C04_headers_lemma cpu o buf u d Hb H)
                                  (fun px d H => C04_decode_lemma cpu o buf px d Hb H)).
Qed.
Print Assumptions C04_limits.

(** Accepted at the limit, rejected above it *)
Example C04_case :
  let o := set_max_height (set_max_width default_options 16) 8 in
  fst (read_headers (new_with_options Scalar o) (gray_zero 8 16)) = Ok tt /\
  fst (decode_buffer (new_with_options Scalar o) (gray_zero 8 16)) = Ok (repeat 128 128) /\
  fst (decode_buffer (new_with_options Scalar o) (gray_zero 8 17))
  = Err (EFormat "Image width greater than width limit" [17; 16]).
Proof. vm_compute. repeat split. Qed.

(** C05.  Errors are the same ... *)
Theorem C05_errors : forall d buf,
  (forall e d', read_headers d buf = (Err e, d') -> decode_buffer d buf = (Err e, d')) /\
  (forall p d', read_headers d buf = (Panic p, d') -> decode_buffer d buf = (Panic p, d')).
Proof. exact C05_fail_lemma. Qed.
Print Assumptions C05_errors.
(** ... and a decoded progressive image has the information [read_headers] reports. *)
Theorem C05_info : forall cpu o cs buf px d',
  Forall legal_call cs -> Forall byte buf ->
  decode_buffer (after cpu o cs) buf = (Ok px, d') ->
  exists d1, read_headers (after cpu o cs) buf = (Ok tt, d1) /\
    (forall i, get_info d1 = Some i -> i_sof i = ProgressiveDctHuffman -> get_info d' = Some i).
Proof. exact C05_lemma. Qed.
Print Assumptions C05_info.

(** A progressive file: one DC scan *)
Definition prog_zero : list Z :=
  soi ++ dqt 1 ++ sof 194 9 16 [(1, 17)] ++ dht_tiny ++ sos_at [1] 0 0 0 ++ scan (repeat false 4) ++ eoi.
Example C05_case :
  exists px d, decode_buffer (new_with_options Scalar default_options) prog_zero = (Ok px, d) /\
    match get_info d with
    | Some i => i_sof i = ProgressiveDctHuffman /\ i_width i = 16 /\ i_height i = 9
    | None => False
    end.
Proof.
  exists (repeat 128 144), (snd (decode_buffer (new_with_options Scalar default_options) prog_zero)).
  split; [|vm_compute; repeat split].
  rewrite (surjective_pairing (decode_buffer _ _)) at 1.
  apply (f_equal (fun r => (r, snd (decode_buffer (new_with_options Scalar default_options) prog_zero)))).
  vm_compute. reflexivity.
Qed.

(** C06. *)
Theorem C06_signature : forall d buf,
  (forall a b t, buf = a :: b :: t -> (a, b) <> (255, 216) -> byte a -> byte b ->
     read_headers d buf = (Err (EIllegalMagicBytes (a * 256 + b)), d) /\
     decode_buffer d buf = (Err (EIllegalMagicBytes (a * 256 + b)), d)) /\
  ((length buf < 2)%nat ->
     read_headers d buf = (Err EExhaustedData, d) /\ decode_buffer d buf = (Err EExhaustedData, d)).
Proof. exact C06_lemma. Qed.
Print Assumptions C06_signature.
Example C06_case :
  fst (decode_buffer (new Avx2) [137; 80; 78; 71]) = Err (EIllegalMagicBytes 35152).
Proof. reflexivity. Qed.

(** C13 is false: a fill byte in front of a header marker is taken for a marker. *)
Theorem C13_refuted : exists pre post,
  fst (decode_buffer (new_with_options Scalar default_options) (pre ++ post)) = Ok (repeat 128 64) /\
  hd 0 post = 255 /\
  exists e, fst (decode_buffer (new_with_options Scalar default_options) (pre ++ 255 :: post)) = Err e.
Proof.
  exists soi, (skipn 2 (gray_zero 8 8)).
  split; [vm_compute; reflexivity|]. split; [reflexivity|]. eexists. vm_compute. reflexivity.
Qed.
Print Assumptions C13_refuted.

(** C40, for every count below 2^32.  Missing: multiples of 2^32, which panic, and counts
    above 2^32, of which only the low 32 bits are used. *)
Theorem C40_threads_partial : forall n d, 0 <= n < 2 ^ 64 ->
  (n = 0 -> exists e, set_num_threads n d = (Err e, d)) /\
  (0 < n < 2 ^ 32 -> set_num_threads n d = (Ok tt, set_d_opt (set_threads (d_opt d) n) d)).
Proof. exact C40_lemma. Qed.
Print Assumptions C40_threads_partial.
Theorem C40_refuted : exists n, 0 < n < 2 ^ 64 /\ forall d, panics (fst (set_num_threads n d)).
Proof. exists (2 ^ 32). split; [lia|]. intros d. vm_compute. exact I. Qed.
Print Assumptions C40_refuted.
Example C40_case : o_threads (d_opt (snd (set_num_threads 12 (new Avx2)))) = 12.
Proof. reflexivity. Qed.

(** C41. *)
Theorem C41_setters : forall o ss,
  let o' := fold_left run_setter ss o in
  o_use_unsafe o' = or_default (last_value (fun s => match s with StUseUnsafe b => Some b | _ => None end) ss) (o_use_unsafe o) /\
  o_colorspace o' = or_default (last_value (fun s => match s with StColorspace b => Some b | _ => None end) ss) (o_colorspace o) /\
  o_threads o' = or_default (last_value (fun s => match s with StThreads b => Some b | _ => None end) ss) (o_threads o) /\
  o_max_width o' = or_default (last_value (fun s => match s with StMaxWidth b => Some b | _ => None end) ss) (o_max_width o) /\
  o_max_height o' = or_default (last_value (fun s => match s with StMaxHeight b => Some b | _ => None end) ss) (o_max_height o) /\
  o_max_scans o' = or_default (last_value (fun s => match s with StMaxScans b => Some b | _ => None end) ss) (o_max_scans o) /\
  o_strict o' = or_default (last_value (fun s => match s with StStrict b => Some b | _ => None end) ss) (o_strict o).
Proof. exact C41_lemma. Qed.
Print Assumptions C41_setters.
Example C41_case :
  fold_left run_setter [StMaxWidth 5; StStrict true; StThreads 2; StMaxWidth 7] default_options
  = mkOptions true RGB 2 7 16384 64 true.
Proof. reflexivity. Qed.

(** The deprecated setters of the decoder do what the setters of the options do: afterwards the
    decoder is the one a caller gets for the options with the same values. *)
Theorem C41_decoder : forall cpu cs o, Forall setter_call cs ->
  after cpu o cs = new_with_options cpu (fold_left run_setter (flat_map as_setters cs) o).
Proof. exact C41_decoder_lemma. Qed.
Print Assumptions C41_decoder.
Example C41_decoder_case :
  let cs := [CSetLimits 5 9; CRgba; CSetNumThreads 3; CSetLimits 7 8; CSetOutputColorspace YCbCr] in
  Forall setter_call cs /\ d_opt (after Avx2 default_options cs) = mkOptions true YCbCr 3 7 8 64 false.
Proof. split; [repeat constructor; cbn; lia|reflexivity]. Qed.

(** C42 is false: such a frame header is skipped like an unknown segment. *)
Theorem C42_refuted : exists buf, Forall byte buf /\
  buf = soi ++ sof 193 8 8 [(1, 17)] ++ eoi /\
  forall f, fst (decode_buffer (new_with_options Scalar default_options) buf) <> Err (EUnsupported f).
Proof.
  eexists. split; [|split; [reflexivity|]].
  - apply forallb_byte. vm_compute. reflexivity.
  - intros f H. vm_compute in H. discriminate.
Qed.
Print Assumptions C42_refuted.

(** C44.  In every state reached by calls that do not themselves set a colour space. *)
Theorem C44_grayscale : forall cpu o cs,
  Forall legal_call cs -> Forall (fun c => ~ sets_colour c) cs ->
  let d := after cpu o cs in
  i_comps (d_info d) = 1 -> get_output_colorspace d = GRAYSCALE.
Proof. exact C44_lemma. Qed.
Print Assumptions C44_grayscale.
Example C44_case :
  let d := after Avx2 (set_out_colorspace default_options RGBA) [CReadHeaders (gray_zero 20 30)] in
  i_comps (d_info d) = 1 /\ get_output_colorspace d = GRAYSCALE /\
  get_output_colorspace (after Avx2 (set_out_colorspace default_options RGBA) []) = RGBA.
Proof. vm_compute. repeat split. Qed.
