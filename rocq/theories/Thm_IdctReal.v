(** Theorems about the accuracy of the inverse DCT (C48). *)
From Coq Require Import ZArith List Reals.
From Verif Require Import Base Idct Simd SpecIdct SpecDct IdctReal.
Import ListNotations.
Local Open Scope Z_scope.

(** C48.  Blocks with AC coefficients, scalar and AVX2: every sample is within 0.621 plus one
    seven-thousandth of the sum of the magnitudes of the dequantized coefficients of the
    inverse DCT of T.81, computed in real numbers, shifted and limited to 0..255. *)
Theorem C48_ac : forall v q r c rows,
  length v = 64%nat -> length q = 64%nat ->
  (forall i, 0 <= i < 64 -> -2048 <= zn v i * zn q i <= 2048) ->
  0 <= r < 8 -> 0 <= c < 8 -> rows = idct_block v q \/ rows = idct_block_avx2 v q ->
  Exists (fun c => c <> 0) (tl v) ->
  let x := fun i j => zn v (8 * i + j) * zn q (8 * i + j) in
  (Rabs (IZR (sample rows r c) - clampR (idct_exact x r c)) <= 0.621 + magnitude x / 7000)%R.
Proof. exact C48_ac_lemma. Qed.
Print Assumptions C48_ac.

(** Blocks without AC coefficients: the sample, limited to 0..255 (C23), is less than one off. *)
Theorem C48_dc : forall v q r c rows,
  length v = 64%nat -> length q = 64%nat ->
  -2048 <= zn v 0 * zn q 0 <= 2048 -> -32767 <= zn q 0 <= 32767 ->
  0 <= r < 8 -> 0 <= c < 8 -> rows = idct_block v q \/ rows = idct_block_avx2 v q ->
  (forall i, 0 < i < 64 -> zn v i = 0) ->
  let x := fun i j => zn v (8 * i + j) * zn q (8 * i + j) in
  (Rabs (IZR (clamp255 (sample rows r c)) - clampR (idct_exact x r c)) < 1)%R.
Proof. exact C48_dc_lemma. Qed.
Print Assumptions C48_dc.

(** Coefficients 30, 40, -7 with the quantizers 16, 11, 10: sum of magnitudes 990, so every
    sample is within 0.77 of the exact value. *)
Example C48_case :
  let v := 30 :: 40 :: repeat 0 6 ++ -7 :: repeat 0 55 in
  let q := 16 :: 11 :: repeat 10 62 in
  length v = 64%nat /\ length q = 64%nat /\
  (forall i, 0 <= i < 64 -> -2048 <= zn v i * zn q i <= 2048) /\
  Exists (fun c => c <> 0) (tl v) /\
  (0.621 + magnitude (fun i j => zn v (8 * i + j) * zn q (8 * i + j))%Z / 7000 < 0.77)%R /\
  sample (idct_block v q) 3 5 = 142 /\ sample (idct_block_avx2 v q) 3 5 = 142.
Proof.
  cbv zeta. split; [reflexivity|]. split; [reflexivity|]. split.
  - apply checked_range. vm_compute. reflexivity.
  - split; [apply Exists_cons_hd; discriminate|]. split; [|split; vm_compute; reflexivity].
    apply magnitude_case. vm_compute. reflexivity.
Qed.
