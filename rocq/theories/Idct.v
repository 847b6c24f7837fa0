(** src/idct/scalar.rs: dequantization and inverse DCT. *)
From Coq Require Import ZArith String List Bool.
From Verif Require Import Base.
Import ListNotations.
Local Open Scope Z_scope.
Local Open Scope res_scope.

(** The one-dimensional kernel both passes of [dequantize_and_idct_int] share
    (src/idct/scalar.rs:82-165 with [bias = 512], 168-267 with [bias = SCALE_BITS]; the float
    expression [f2f(1.175875602)] of line 214 is 4816).  Every [+], [-], [*] and [<<] of the
    code wraps modulo 2^32; addition and multiplication commute with that wrapping, so the
    kernel computes in [Z] and the callers wrap once, before the right shift. *)
Definition idct_1d (bias s0 s1 s2 s3 s4 s5 s6 s7 : Z) : list Z :=
  (* even part *)
  let p2 := s2 in
  let p3 := s6 in
  let p1 := (p2 + p3) * 2217 in
  let t2 := p1 + p3 * -7567 in
  let t3 := p1 + p2 * 3135 in
  let p2 := s0 in
  let p3 := s4 in
  let t0 := (p2 + p3) * 4096 in
  let t1 := (p2 - p3) * 4096 in
  let x0 := t0 + t3 + bias in
  let x3 := t0 - t3 + bias in
  let x1 := t1 + t2 + bias in
  let x2 := t1 - t2 + bias in
  (* odd part *)
  let t0 := s7 in
  let t1 := s5 in
  let t2 := s3 in
  let t3 := s1 in
  let p3 := t0 + t2 in
  let p4 := t1 + t3 in
  let p1 := t0 + t3 in
  let p2 := t1 + t2 in
  let p5 := (p3 + p4) * 4816 in
  let t0 := t0 * 1223 in
  let t1 := t1 * 8410 in
  let t2 := t2 * 12586 in
  let t3 := t3 * 6149 in
  let p1 := p5 + p1 * -3685 in
  let p2 := p5 + p2 * -10497 in
  let p3 := p3 * -8034 in
  let p4 := p4 * -1597 in
  let t3 := t3 + (p1 + p4) in
  let t2 := t2 + (p2 + p3) in
  let t1 := t1 + (p2 + p4) in
  let t0 := t0 + (p1 + p3) in
  [x0 + t3; x1 + t2; x2 + t1; x3 + t0; x3 - t0; x2 - t1; x1 - t2; x0 - t3].

(** src/idct/scalar.rs:6 *)
Definition SCALE_BITS : Z := 512 + 65536 + 128 * 131072.

(** src/idct/scalar.rs:299-305 [clamp] *)
Definition clamp_i16 (a : Z) : Z := Z.min (Z.max a 0) 255.

(** src/idct/scalar.rs:307-311 [dequantize], without the wrap (see [idct_1d]) *)
Definition dequantize (v q : list Z) (i : Z) : Z := zn v i * zn q i.

(** src/idct/scalar.rs:80-166: first pass, column [ptr] *)
Definition idct_column (v q : list Z) (ptr : Z) : list Z :=
  let s k := dequantize v q (ptr + 8 * k) in
  map (fun x => shr (i32 x) 10)
      (idct_1d 512 (s 0) (s 1) (s 2) (s 3) (s 4) (s 5) (s 6) (s 7)).

(** src/idct/scalar.rs:169-262: second pass on one row of [tmp] *)
Definition idct_row (s : list Z) : list Z :=
  map (fun x => clamp_i16 (shr (i32 x) 17))
      (idct_1d SCALE_BITS (zn s 0) (zn s 1) (zn s 2) (zn s 3) (zn s 4) (zn s 5) (zn s 6)
               (zn s 7)).

(** src/idct/scalar.rs:46-48: the DC-only value; [as i16], [wrapping_mul], [>>] and [+] on
    i16 *)
Definition dc_only (dc q0 : Z) : Z := i16 (shr (i16 (dc * i16 q0)) 3 + 128).

(** src/idct/scalar.rs:44-262: the eight output rows of one block of 64 coefficients *)
Definition idct_block (v q : list Z) : list (list Z) :=
  if forallb (fun c => c =? 0) (tl v) then
    zrepeat (zrepeat (dc_only (zn v 0) (zn q 0)) 8) 8
  else
    let cols := map (idct_column v q) (zseq 8) in
    map (fun r => idct_row (map (fun c => zn c r) cols)) (zseq 8).

(** src/idct/scalar.rs:50-75 and 246-264: store the rows [stride] apart; each store is a
    checked sub-slice *)
Fixpoint store_rows (rows : list (list Z)) (stride pos : Z) (out : list Z) : res (list Z) :=
  match rows with
  | [] => Ok out
  | r :: rest =>
      out' <~ put_slice out pos r ;;
      store_rows rest stride (pos + stride) out'
  end.

(** src/idct/scalar.rs:39-273: the blocks of one chunk, [x] is the column of the next one.
    The kernel is a parameter, the AVX2 version has the same loop. *)
Fixpoint store_blocks (kernel : list Z -> list (list Z)) (blocks : list (list Z))
  (stride x : Z) (out : list Z) : res (list Z) :=
  match blocks with
  | [] => Ok out
  | b :: rest =>
      out' <~ store_rows (kernel b) stride x out ;;
      store_blocks kernel rest stride (x + 8) out'
  end.

(** src/idct/scalar.rs:32-35: the chunks of the input are paired with the chunks of the
    output, [out] collects the finished ones *)
Fixpoint idct_chunks (kernel : list Z -> list (list Z)) (chunks : list (list Z))
  (stride : Z) : res (list Z) :=
  match chunks with
  | [] => Ok []
  | c :: rest =>
      o <~ store_blocks kernel (chunks_n 64 c) stride 0 (zrepeat 0 (zlen c)) ;;
      os <~ idct_chunks kernel rest stride ;;
      Ok (o ++ os)%list
  end.

(** src/idct/scalar.rs:19-277 [dequantize_and_idct_int] (and, with the other kernel,
    src/idct/avx2.rs:64-398) *)
Definition dequantize_and_idct (kernel : list Z -> list (list Z)) (vector : list Z)
  (stride samp_factors v_samp : Z) : res (list Z) :=
  if samp_factors =? 0 then Panic "division by zero"
  else
    chunks <~ chunks_exact (zlen vector * v_samp / samp_factors) vector ;;
    out <~ idct_chunks kernel chunks stride ;;
    Ok (out ++ zrepeat 0 (zlen vector - zlen out))%list.

Definition dequantize_and_idct_int (vector q : list Z) (stride samp_factors v_samp : Z)
  : res (list Z) :=
  dequantize_and_idct (fun b => idct_block b q) vector stride samp_factors v_samp.
