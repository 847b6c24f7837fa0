(** src/idct/scalar.rs in a build with overflow checks: an operation whose mathematical result
    does not fit its type panics, here [None].  Operations the code writes as [wrapping_mul]
    and shifts do not panic in such a build; they are checked here all the same, so that
    [Some] means that nothing wrapped at all. *)
From Coq Require Import ZArith List Bool.
From Verif Require Import Base Idct.
Import ListNotations.
Local Open Scope Z_scope.

Definition ck32 (x : Z) : option Z :=
  if (-2147483648 <=? x) && (x <=? 2147483647) then Some x else None.
Definition ck16 (x : Z) : option Z :=
  if (-32768 <=? x) && (x <=? 32767) then Some x else None.
Definition obind {A B} (m : option A) (k : A -> option B) : option B :=
  match m with Some a => k a | None => None end.
Notation "x <? m ;; k" := (obind m (fun x => k)) (at level 61, m at next level, right associativity).

(** src/idct/scalar.rs:82-165 with [bias = 512], 168-243 with [bias = SCALE_BITS] *)
Definition idct_1d_checked (bias s0 s1 s2 s3 s4 s5 s6 s7 : Z) : option (list Z) :=
  p1 <? ck32 (s2 + s6) ;;
  p1 <? ck32 (p1 * 2217) ;;
  m <? ck32 (s6 * -7567) ;;
  t2 <? ck32 (p1 + m) ;;
  m <? ck32 (s2 * 3135) ;;
  t3 <? ck32 (p1 + m) ;;
  t0 <? ck32 (s0 + s4) ;;
  t0 <? ck32 (t0 * 4096) ;;
  t1 <? ck32 (s0 - s4) ;;
  t1 <? ck32 (t1 * 4096) ;;
  x0 <? ck32 (t0 + t3) ;;
  x0 <? ck32 (x0 + bias) ;;
  x3 <? ck32 (t0 - t3) ;;
  x3 <? ck32 (x3 + bias) ;;
  x1 <? ck32 (t1 + t2) ;;
  x1 <? ck32 (x1 + bias) ;;
  x2 <? ck32 (t1 - t2) ;;
  x2 <? ck32 (x2 + bias) ;;
  p3 <? ck32 (s7 + s3) ;;
  p4 <? ck32 (s5 + s1) ;;
  p1 <? ck32 (s7 + s1) ;;
  p2 <? ck32 (s5 + s3) ;;
  p5 <? ck32 (p3 + p4) ;;
  p5 <? ck32 (p5 * 4816) ;;
  t0 <? ck32 (s7 * 1223) ;;
  t1 <? ck32 (s5 * 8410) ;;
  t2 <? ck32 (s3 * 12586) ;;
  t3 <? ck32 (s1 * 6149) ;;
  m <? ck32 (p1 * -3685) ;;
  p1 <? ck32 (p5 + m) ;;
  m <? ck32 (p2 * -10497) ;;
  p2 <? ck32 (p5 + m) ;;
  p3 <? ck32 (p3 * -8034) ;;
  p4 <? ck32 (p4 * -1597) ;;
  m <? ck32 (p1 + p4) ;;
  t3 <? ck32 (t3 + m) ;;
  m <? ck32 (p2 + p3) ;;
  t2 <? ck32 (t2 + m) ;;
  m <? ck32 (p2 + p4) ;;
  t1 <? ck32 (t1 + m) ;;
  m <? ck32 (p1 + p3) ;;
  t0 <? ck32 (t0 + m) ;;
  r0 <? ck32 (x0 + t3) ;;
  r1 <? ck32 (x1 + t2) ;;
  r2 <? ck32 (x2 + t1) ;;
  r3 <? ck32 (x3 + t0) ;;
  r4 <? ck32 (x3 - t0) ;;
  r5 <? ck32 (x2 - t1) ;;
  r6 <? ck32 (x1 - t2) ;;
  r7 <? ck32 (x0 - t3) ;;
  Some [r0; r1; r2; r3; r4; r5; r6; r7].

(** Run a checked function on every element *)
Fixpoint omap {A B} (f : A -> option B) (l : list A) : option (list B) :=
  match l with
  | [] => Some []
  | a :: t => b <? f a ;; bs <? omap f t ;; Some (b :: bs)
  end.

(** src/idct/scalar.rs:80-166: first pass on column [ptr]; 301-304 [dequantize] *)
Definition idct_column_checked (v q : list Z) (ptr : Z) : option (list Z) :=
  s <? omap (fun k => ck32 (zn v (ptr + 8 * k) * zn q (ptr + 8 * k))) (zseq 8) ;;
  r <? idct_1d_checked 512 (zn s 0) (zn s 1) (zn s 2) (zn s 3) (zn s 4) (zn s 5) (zn s 6) (zn s 7) ;;
  Some (map (fun x => shr x 10) r).

(** src/idct/scalar.rs:169-262: second pass on one row *)
Definition idct_row_checked (s : list Z) : option (list Z) :=
  r <? idct_1d_checked SCALE_BITS (zn s 0) (zn s 1) (zn s 2) (zn s 3) (zn s 4) (zn s 5) (zn s 6) (zn s 7) ;;
  Some (map (fun x => clamp_i16 (shr x 17)) r).

(** src/idct/scalar.rs:44-262: one block *)
Definition idct_block_checked (v q : list Z) : option (list (list Z)) :=
  if forallb (fun c => c =? 0) (tl v) then
    q0 <? ck16 (zn q 0) ;;
    p <? ck16 (zn v 0 * q0) ;;
    c <? ck16 (shr p 3 + 128) ;;
    Some (zrepeat (zrepeat c 8) 8)
  else
    cols <? omap (idct_column_checked v q) (zseq 8) ;;
    omap (fun r => idct_row_checked (map (fun c => zn c r) cols)) (zseq 8).
