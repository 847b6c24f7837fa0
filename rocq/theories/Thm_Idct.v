(** Theorems about dequantization and the inverse DCT (C23, C24, C25, C26). *)
From Coq Require Import ZArith String List Bool Lia.
From Verif Require Import Base Types State Idct Simd Decoder SpecSegments SpecIdct Files ExTools.
From Verif Require Import IdctChecked IdctFacts IdctSimd IdctExact IdctRange.
Import ListNotations.
Local Open Scope Z_scope.

(** A block with the given coefficients and zeros behind them *)
Definition coefs (l : list Z) : list Z := firstn 64 (l ++ repeat 0 64).

(** C23, AVX2: every sample is a byte, whatever the coefficients and quantizers. *)
Theorem C23_avx2_partial : forall vector q stride sf vs out,
  length q = 64%nat ->
  dequantize_and_idct_avx2 vector q stride sf vs = Ok out -> Forall byte out.
Proof. exact C23_avx_lemma. Qed.
Print Assumptions C23_avx2_partial.

Example C23_avx2_case :
  exists out,
    dequantize_and_idct_avx2 (coefs [32767; -32768; 32767] ++ coefs [32767]) (repeat 255 64) 16 1 1 = Ok out /\
    nth 0 out 0 = 255 /\ nth 7 out 0 = 0 /\ nth 15 out 0 = 255 /\ length out = 128%nat.
Proof. eexists. split; [vm_compute; reflexivity|]. repeat split. Qed.

(** C23, scalar: the same as long as a block without AC coefficients has a DC value in
    range.  Missing: the other such blocks, see [C23_refuted]. *)
Theorem C23_scalar_partial : forall vector q stride sf vs out,
  (zlen vector * vs / sf) mod 64 = 0 ->
  (forall i, (64 * i < length vector)%nat ->
     let b := firstn 64 (skipn (i * 64) vector) in
     Exists (fun c => c <> 0) (tl b) \/
     (-32767 <= zn q 0 <= 32767 /\ -1024 <= zn b 0 * zn q 0 <= 1023)) ->
  dequantize_and_idct_int vector q stride sf vs = Ok out -> Forall byte out.
Proof. exact C23_scalar_lemma. Qed.
Print Assumptions C23_scalar_partial.

Example C23_scalar_case :
  exists out, let vector := coefs [32767; -32768; 32767] ++ coefs [4] in
    dequantize_and_idct_int vector (repeat 255 64) 16 1 1 = Ok out /\
    (zlen vector * 1 / 1) mod 64 = 0 /\
    (forall i, (64 * i < length vector)%nat ->
     let b := firstn 64 (skipn (i * 64) vector) in
     Exists (fun c => c <> 0) (tl b) \/
     (-32767 <= zn (repeat 255 64) 0 <= 32767 /\ -1024 <= zn b 0 * zn (repeat 255 64) 0 <= 1023)) /\
    nth 8 out 0 = 255.
Proof.
  eexists. cbv zeta. split; [vm_compute; reflexivity|]. split; [reflexivity|]. split; [|reflexivity].
  intros i Hi. change (length _) with 128%nat in Hi. assert (i = 0 \/ i = 1)%nat as [-> | ->] by lia.
  - left. apply Exists_cons_hd. discriminate.
  - right. vm_compute. repeat split; discriminate.
Qed.

(** A grayscale image whose only DC coefficient is 100 * 255: category 7, seven more bits *)
Definition bright : list Z :=
  soi ++ dqt 255 ++ sof 192 8 8 [(1, 17)] ++ dht_dc one [7] ++ dht_ac one [0] ++ sos [1]
  ++ scan [false; true; true; false; false; true; false; false; false] ++ eoi.

(** C23 fails for the scalar routine: the shortcut for blocks without AC coefficients does
    not clamp, and the image gets bytes that have wrapped around (3315 becomes 243). *)
Theorem C23_refuted :
  (exists vector q out, dequantize_and_idct_int vector q 8 1 1 = Ok out /\ ~ Forall byte out) /\
  (exists buf, Forall byte buf /\
     fst (decode_buffer (new_with_options Scalar default_options) buf) = Ok (repeat (3315 mod 256) 64) /\
     fst (decode_buffer (new_with_options Avx2 default_options) buf) = Ok (repeat 255 64)).
Proof.
  split.
  - exists (coefs [100]), (repeat 255 64), (repeat 3315 64). split; [vm_compute; reflexivity|].
    intros H. inversion_clear H. destruct H0 as [_ H0]. exact (H0 eq_refl).
  - exists bright. split; [apply forallb_byte; vm_compute; reflexivity|]. split; vm_compute; reflexivity.
Qed.
Print Assumptions C23_refuted.

(** C24.  [idct_block_checked] is the scalar routine compiled with overflow checks, [None]
    standing for the panic.  11 bits and a sign are what 8-bit JPEG allows (T.81 F.1.1.4). *)
Theorem C24_no_overflow : forall v q,
  (forall i, 0 <= i < 64 -> -2048 <= zn v i * zn q i <= 2048) -> -32767 <= zn q 0 <= 32767 ->
  idct_block_checked v q = Some (idct_block v q).
Proof. exact C24_lemma. Qed.
Print Assumptions C24_no_overflow.

Example C24_case :
  (forall i, 0 <= i < 64 -> -2048 <= zn (repeat (-16) 64) i * zn (repeat 128 64) i <= 2048) /\
  idct_block_checked (repeat (-16) 64) (repeat 128 64) = Some (idct_block (repeat (-16) 64) (repeat 128 64)) /\
  (* outside the range the checked build does panic *)
  idct_block_checked (repeat (-1600) 64) (repeat 255 64) = None.
Proof.
  split; [|split; vm_compute; reflexivity]. intros i Hi.
  assert (forallb (fun i => (-2048 <=? zn (repeat (-16) 64) i * zn (repeat 128 64) i) &&
    (zn (repeat (-16) 64) i * zn (repeat 128 64) i <=? 2048)) (zseq 64) = true) as H by (vm_compute; reflexivity).
  rewrite forallb_forall in H. specialize (H i (proj2 (zseq_In 64 i) Hi)). apply andb_true_iff in H. lia.
Qed.

(** C25.  [idct_full] is the routine without the shortcut. *)
Theorem C25_shortcut : forall dc q,
  -32767 <= zn q 0 <= 32767 -> -32768 <= dc * zn q 0 <= 32767 ->
  exists a b,
    idct_block (dc :: repeat 0 63) q = repeat (repeat a 8) 8 /\
    idct_full (dc :: repeat 0 63) q = repeat (repeat b 8) 8 /\
    Z.abs (clamp255 a - b) <= 1.
Proof.
  intros dc q Hq H. destruct (C25_lemma dc q Hq H) as (a & b & H1 & H2 & H3). exists a, b.
  repeat split; [exact H1|exact H2|]. unfold clamp255. unfold clamp_i16 in H3. lia.
Qed.
Print Assumptions C25_shortcut.

Example C25_case :
  idct_block (37 :: repeat 0 63) (repeat 11 64) = repeat (repeat 178 8) 8 /\
  idct_full (37 :: repeat 0 63) (repeat 11 64) = repeat (repeat 179 8) 8.
Proof. split; vm_compute; reflexivity. Qed.

(** C26, the part that holds.  For blocks in the range of 8-bit JPEG the AVX2 samples differ
    by at most one from the (clamped) scalar ones.  Missing: equality, see below. *)
Theorem C26_near_partial : forall v q r c,
  length v = 64%nat -> length q = 64%nat ->
  (forall i, 0 <= i < 64 -> -2048 <= zn v i * zn q i <= 2048) ->
  0 <= r < 8 -> 0 <= c < 8 ->
  Z.abs (sample (idct_block_avx2 v q) r c - clamp255 (sample (idct_block v q) r c)) <= 1.
Proof. exact C26_near_lemma. Qed.
Print Assumptions C26_near_partial.

(** C26, exactly: outside the shortcut the AVX2 kernel is the scalar transform with rows and
    columns exchanged (it transforms rows first), wrap-around included. *)
Theorem C26_transposed_partial : forall v q,
  length v = 64%nat -> length q = 64%nat -> Exists (fun c => c <> 0) (tl v) ->
  let swap l := map (fun i => zn l (8 * (i mod 8) + i / 8)) (zseq 64) in
  idct_block_avx2 v q =
  map (fun c => map (fun r => sample (idct_block (swap v) (swap q)) r c) (zseq 8)) (zseq 8).
Proof. exact C26_transposed_lemma. Qed.
Print Assumptions C26_transposed_partial.

Example C26_case :
  let v := coefs [700; 5; -3; 0; 0; 0; 0; 0; 9] in
  length v = 64%nat /\ Exists (fun c => c <> 0) (tl v) /\
  sample (idct_block_avx2 v (repeat 1 64)) 0 0 = 217 /\ sample (idct_block v (repeat 1 64)) 0 0 = 217.
Proof. cbv zeta. repeat split. apply Exists_cons_hd. discriminate. Qed.

(** An image with a single AC coefficient (5) already makes them differ: DC code 0, AC code 0
    with the bits 101, end of block 10. *)
Definition apart : list Z :=
  soi ++ dqt 1 ++ sof 192 8 8 [(1, 17)] ++ dht_dc one [0] ++ dht_ac (1 :: 1 :: repeat 0 14) [3; 0] ++ sos [1]
  ++ scan [false; false; true; false; true; true; false] ++ eoi.
Theorem C26_refuted :
  (exists v q r c, length v = 64%nat /\ length q = 64%nat /\
    (forall i, 0 <= i < 64 -> -2048 <= zn v i * zn q i <= 2048) /\ 0 <= r < 8 /\ 0 <= c < 8 /\
    sample (idct_block_avx2 v q) r c <> sample (idct_block v q) r c) /\
  (exists buf, Forall byte buf /\
     fst (decode_buffer (new_with_options Avx2 default_options) buf) <>
     fst (decode_buffer (new_with_options Avx2 (set_use_unsafe default_options false)) buf) /\
     exists a b, fst (decode_buffer (new_with_options Avx2 default_options) buf) = Ok a /\
       fst (decode_buffer (new_with_options Avx2 (set_use_unsafe default_options false)) buf) = Ok b).
Proof.
  split.
  - exists (coefs [0; 5]), (repeat 1 64), 0, 2. repeat (split; [reflexivity|]). split.
    + intros i Hi.
      assert (forallb (fun i => (-2048 <=? zn (coefs [0; 5]) i * zn (repeat 1 64) i) &&
        (zn (coefs [0; 5]) i * zn (repeat 1 64) i <=? 2048)) (zseq 64) = true) as H by (vm_compute; reflexivity).
      rewrite forallb_forall in H. specialize (H i (proj2 (zseq_In 64 i) Hi)). apply andb_true_iff in H. lia.
    + repeat (split; [lia|]). vm_compute. discriminate.
  - exists apart. split; [apply forallb_byte; vm_compute; reflexivity|]. split; [vm_compute; discriminate|].
    eexists _, _. split; vm_compute; reflexivity.
Qed.
Print Assumptions C26_refuted.
