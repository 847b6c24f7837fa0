(** Theorems about upsampling (C29, C30, C45, C46). *)
From Coq Require Import ZArith String List Bool Lia.
From Verif Require Import Base Types State Upsample Simd Worker Decoder SpecSegments SpecIdct SpecColor Session Files ExTools.
From Verif Require Import BaseFacts IdctFacts UpsampleFacts UpsampleAvx.
Import ListNotations.
Local Open Scope Z_scope.

(** C29, horizontal: all outputs but the last but one.  [small] is -8000..8000.  Missing: the
    last but one, see [C29_refuted]. *)
Theorem C29_horizontal_partial : forall input n,
  zlen input = n -> 3 <= n -> Forall small input ->
  exists out, upsample_horizontal input (2 * n) = Ok out /\ zlen out = 2 * n /\
    (forall i, 0 <= i < 2 * n -> i <> 2 * n - 2 -> zn out i = h_filter n (zn input) i).
Proof. exact C29_horizontal_lemma. Qed.
Print Assumptions C29_horizontal_partial.

(** C29, vertical: every output. *)
Theorem C29_vertical : forall input S,
  0 < S -> zlen input = 8 * S -> Forall small input ->
  exists out, upsample_vertical input (16 * S) = Ok out /\ zlen out = 16 * S /\
    forall row c, 0 <= row < 16 -> 0 <= c < S -> zn out (row * S + c) = v_filter S (zn input) row c.
Proof. exact C29_vertical_lemma. Qed.
Print Assumptions C29_vertical.

(** C29: no routine but the AVX2 one leaves the range of its input ([lo = hi] says that a flat
    plane stays flat). *)
Theorem C29_range : forall lo hi input out,
  -8000 <= lo -> hi <= 8000 -> Forall (fun x => lo <= x <= hi) input ->
  (3 <= zlen input -> upsample_horizontal input (2 * zlen input) = Ok out -> Forall (fun x => lo <= x <= hi) out) /\
  (forall S, 0 < S -> zlen input = 8 * S ->
     (upsample_vertical input (16 * S) = Ok out -> Forall (fun x => lo <= x <= hi) out) /\
     (upsample_hv input (32 * S) = Ok out -> Forall (fun x => lo <= x <= hi) out)) /\
  (8 <= zlen input -> zlen input mod 4 = 0 ->
     upsample_horizontal_sse input (2 * zlen input) = Ok out -> Forall (fun x => lo <= x <= hi) out).
Proof. exact C29_ranges_lemma. Qed.
Print Assumptions C29_range.

Example C29_case :
  let input := [0; 255; 4; 100; 7; 7; 30; 250] in
  Forall small input /\
  upsample_horizontal input 16 = Ok [0; 64; 191; 192; 67; 28; 76; 77; 30; 7; 7; 13; 24; 85; 85; 250] /\
  upsample_vertical input 16 = Ok [0; 0; 192; 67; 28; 76; 77; 30; 7; 7; 13; 24; 85; 195; 250; 250] /\
  h_filter 8 (zn input) 3 = 192 /\ v_filter 1 (zn input) 3 0 = 67 /\
  (exists out, upsample_hv input 32 = Ok out /\ nth 5 out 0 = 161).
Proof.
  cbv zeta. split; [repeat (apply Forall_cons; [unfold small; lia|]); apply Forall_nil|].
  split; [vm_compute; reflexivity|]. split; [vm_compute; reflexivity|]. split; [reflexivity|]. split; [reflexivity|].
  eexists. split; vm_compute; reflexivity.
Qed.

(** C29 fails (a) for the last but one output, whose nearest sample is the last one, (b) at the
    ends of the rows of a plane, because the routine is given the whole plane as one row, and
    (c) between the first two rows, where nothing is interpolated. *)
Theorem C29_refuted :
  (exists input out, upsample_horizontal input (2 * zlen input) = Ok out /\
     zn out 6 <> h_filter (zlen input) (zn input) 6 /\ zlen input = 4 /\ Forall byte input) /\
  (exists input out, zlen input = 64 /\ (forall c, 0 <= c < 8 -> zn input c = 0) /\
     upsample_horizontal input 128 = Ok out /\ zn out 15 <> 0) /\
  (exists input out, zlen input = 64 /\ upsample_vertical input 128 = Ok out /\
     zn input 0 = 0 /\ zn input 8 = 200 /\
     (forall row, 0 <= row < 16 -> zn out (row * 8) <> triangle (zn input 0) (zn input 8) /\
                                   zn out (row * 8) <> triangle (zn input 8) (zn input 0))).
Proof.
  split; [|split].
  - exists [0; 0; 0; 100]. eexists. split; [vm_compute; reflexivity|]. split; [vm_compute; discriminate|].
    split; [reflexivity|]. apply forallb_byte. reflexivity.
  - exists (repeat 0 8 ++ repeat 255 56). eexists. split; [reflexivity|]. split.
    + intros c Hc. assert (In c (zseq 8)) as Hin by (apply zseq_In; lia). clear Hc. cbv in Hin.
      repeat (destruct Hin as [<-|Hin]; [reflexivity|]). destruct Hin.
    + split; [vm_compute; reflexivity|]. vm_compute. discriminate.
  - exists (repeat 0 8 ++ repeat 200 56). eexists. split; [reflexivity|]. split; [vm_compute; reflexivity|].
    split; [reflexivity|]. split; [reflexivity|].
    intros row Hr. assert (In row (zseq 16)) as Hin by (apply zseq_In; lia). clear Hr. cbv in Hin.
    repeat (destruct Hin as [<-|Hin]; [vm_compute; split; discriminate|]). destruct Hin.
Qed.
Print Assumptions C29_refuted.

(** C30: all outputs but the fifth, fourth and third last.  Missing: those three, see
    [C30_refuted]. *)
Theorem C30_sse_partial : forall input n,
  zlen input = n -> 8 <= n -> n mod 4 = 0 ->
  exists o1 o2, upsample_horizontal input (2 * n) = Ok o1 /\ upsample_horizontal_sse input (2 * n) = Ok o2 /\
    zlen o1 = 2 * n /\ zlen o2 = 2 * n /\
    (forall i, 0 <= i < 2 * n -> ~ 2 * n - 5 <= i <= 2 * n - 3 -> zn o2 i = zn o1 i).
Proof. exact C30_lemma. Qed.
Print Assumptions C30_sse_partial.

Theorem C30_refuted :
  exists input o1 o2, zlen input = 64 /\ Forall byte input /\
    upsample_horizontal input 128 = Ok o1 /\ upsample_horizontal_sse input 128 = Ok o2 /\
    zn o1 123 <> zn o2 123 /\ zn o1 124 <> zn o2 124 /\ zn o1 125 <> zn o2 125.
Proof.
  exists (map (fun i => 4 * i) (zseq 64)). eexists. eexists. split; [reflexivity|].
  split; [apply forallb_byte; vm_compute; reflexivity|]. split; [vm_compute; reflexivity|]. split; [vm_compute; reflexivity|].
  vm_compute. repeat split; discriminate.
Qed.
Print Assumptions C30_refuted.

Example C30_case :
  let input := map (fun i => (i * i) mod 251) (zseq 16) in
  exists o1 o2, upsample_horizontal input 32 = Ok o1 /\ upsample_horizontal_sse input 32 = Ok o2 /\
    firstn 27 o1 = firstn 27 o2 /\ skipn 30 o1 = skipn 30 o2 /\ nth 17 o1 0 = 68.
Proof. eexists. eexists. split; [vm_compute; reflexivity|]. split; [vm_compute; reflexivity|]. vm_compute. repeat split. Qed.

(** C45.  The unchecked loads are modelled as failing with a message of their own.  The SSE
    routine never gets there, whatever the lengths of input and output; the AVX2 routine
    succeeds when the output is four times as long as the input, which is the only ratio the
    decoder uses it for.  All other accesses of the SIMD routines go through checked slices
    or arrays whose length is part of their type.  Missing: other ratios, see
    [C45_refuted]. *)
Theorem C45_sse : forall input output_len,
  upsample_horizontal_sse input output_len <> Panic "UB: load out of bounds".
Proof. exact sse_no_ub. Qed.
Print Assumptions C45_sse.

Theorem C45_avx2_partial : forall input, 512 <= zlen input ->
  exists out, upsample_hv_simd input (4 * zlen input) = Ok out /\ zlen out = 4 * zlen input.
Proof. exact hv_avx_ok. Qed.
Print Assumptions C45_avx2_partial.

Example C45_case :
  exists out, upsample_hv_simd (map (fun i => i mod 256) (zseq 600)) 2400 = Ok out /\ length out = 2400%nat /\ nth 70 out 0 = 35.
Proof. eexists. split; [vm_compute; reflexivity|]. split; vm_compute; reflexivity. Qed.

(** The assertion in the inner loop of the AVX2 routine comes too late for the first load of
    each row. *)
Theorem C45_refuted :
  exists input output_len, zlen input = 1024 /\
    upsample_hv_simd input output_len = Panic "UB: load out of bounds".
Proof. exists (repeat 0 1024), 4736. split; vm_compute; reflexivity. Qed.
Print Assumptions C45_refuted.

(** C46 for the other routines. *)
Theorem C46_flat_partial : forall v k S,
  -8000 <= v <= 8000 -> (8 <= k)%nat -> (k mod 4 = 0)%nat -> (0 < S)%nat ->
  upsample_horizontal (repeat v k) (2 * Z.of_nat k) = Ok (repeat v (2 * k)) /\
  upsample_horizontal_sse (repeat v k) (2 * Z.of_nat k) = Ok (repeat v (2 * k)) /\
  upsample_vertical (repeat v (8 * S)) (16 * Z.of_nat S) = Ok (repeat v (16 * S)) /\
  upsample_hv (repeat v (8 * S)) (32 * Z.of_nat S) = Ok (repeat v (32 * S)).
Proof. exact C46_flat_lemma. Qed.
Print Assumptions C46_flat_partial.

Example C46_case : upsample_hv (repeat 77 16) 64 = Ok (repeat 77 64).
Proof. vm_compute. reflexivity. Qed.

(** C46 is false for the AVX2 routine.  The neighbours of each group of sixteen samples are
    computed as 3 * (a + b + 2) / 4, the parentheses being in the wrong place, so that a flat
    plane comes out striped and the same file has different pixels with and without AVX2.
    Missing from [C46_flat_partial]: this routine. *)
Theorem C46_refuted :
  (exists out, upsample_hv_simd (repeat 128 512) 2048 = Ok out /\ nth 32 out 0 = 144) /\
  (exists buf px1 px2, Forall byte buf /\ buf = colour_zero 32 128 34 /\
     fst (decode_buffer (new_with_options Scalar (set_out_colorspace default_options YCbCr)) buf) = Ok px1 /\
     fst (decode_buffer (new_with_options Avx2 (set_out_colorspace default_options YCbCr)) buf) = Ok px2 /\
     nth 97 px1 0 = 128 /\ nth 97 px2 0 = 144).
Proof.
  split.
  - eexists. split; vm_compute; reflexivity.
  - exists (colour_zero 32 128 34). eexists. eexists.
    split; [apply forallb_byte; vm_compute; reflexivity|]. split; [reflexivity|].
    split; [vm_compute; reflexivity|]. split; [vm_compute; reflexivity|]. vm_compute. repeat split.
Qed.
Print Assumptions C46_refuted.
