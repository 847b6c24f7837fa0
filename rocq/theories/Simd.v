(** The x86 intrinsics the crate uses, and the SIMD kernels built from them.  A register is
    the list of its lanes, lane 0 first.  The meaning of the intrinsics is the "Operation"
    pseudo-code of Intel's Intrinsics Guide. *)
From Coq Require Import ZArith String List Bool.
From Verif Require Import Base Idct Upsample Color.
Import ListNotations.
Local Open Scope Z_scope.
Local Open Scope res_scope.

(** * Intrinsics *)

Fixpoint map2 {A B C} (f : A -> B -> C) (l : list A) (m : list B) : list C :=
  match l, m with
  | a :: l', b :: m' => f a b :: map2 f l' m'
  | _, _ => []
  end.

Definition set1 (n : nat) (x : Z) : list Z := repeat x n.
(** [_mm*_add_epi16], [_sub_epi16], [_mullo_epi16], [_slli_epi16], [_srai_epi16] *)
Definition add16 := map2 (fun a b => i16 (a + b)).
Definition sub16 := map2 (fun a b => i16 (a - b)).
Definition mullo16 := map2 (fun a b => i16 (a * b)).
Definition slli16 (n : Z) := map (fun a => i16 (shl a n)).
Definition srai16 (n : Z) := map (fun a => shr a n).
(** [_mm*_max_epi16], [_min_epi16], [_or_si128] *)
Definition max16 := map2 Z.max.
Definition min16 := map2 Z.min.
Definition or16 := map2 Z.lor.
(** [_mm256_add_epi32], [_sub_epi32], [_mullo_epi32], [_slli_epi32], [_srai_epi32] *)
Definition add32 := map2 (fun a b => i32 (a + b)).
Definition sub32 := map2 (fun a b => i32 (a - b)).
Definition mullo32 := map2 (fun a b => i32 (a * b)).
Definition slli32 (n : Z) := map (fun a => i32 (shl a n)).
Definition srai32 (n : Z) := map (fun a => shr a n).

(** The two 128-bit halves of a 256-bit register of [2 * n] lanes *)
Definition lo {A} (l : list A) : list A := firstn (length l / 2) l.
Definition hi {A} (l : list A) : list A := skipn (length l / 2) l.

(** [_mm256_permute2x128_si256] *)
Definition perm2x128 (imm : Z) (a b : list Z) : list Z :=
  let sel n :=
    if Z.testbit n 3 then repeat 0 (length a / 2)
    else match Z.land n 3 with
         | 0 => lo a | 1 => hi a | 2 => lo b | _ => hi b
         end in
  (sel (Z.land imm 15) ++ sel (Z.land (shr imm 4) 15))%list.

(** [_MM_SHUFFLE] (src/idct/avx2.rs:489-493, src/upsampler/avx2.rs:344-348,
    src/color_convert/avx.rs:416-420) *)
Definition shuffle (z y x w : Z) : Z := Z.lor (Z.lor (shl z 6) (shl y 4)) (Z.lor (shl x 2) w).

(** [_mm256_permute4x64_epi64]; [k] lanes per 64-bit element *)
Definition perm4x64 (k : nat) (imm : Z) (a : list Z) : list Z :=
  flat_map (fun i => firstn k (skipn (k * Z.to_nat (Z.land (shr imm (2 * i)) 3)) a))
           (zseq 4).

Fixpoint interleave {A} (l m : list A) : list A :=
  match l, m with
  | a :: l', b :: m' => a :: b :: interleave l' m'
  | _, _ => []
  end.
(** [unpacklo] / [unpackhi] of 128-bit registers, and of each half of 256-bit ones; [k]
    lanes are moved as one element (2 for the [epi64] forms on lists of [epi32] lanes) *)
Definition group {A} (k : nat) (l : list A) : list (list A) := chunks_n k l.
Definition unpacklo128 (k : nat) (a b : list Z) : list Z :=
  concat (interleave (lo (group k a)) (lo (group k b))).
Definition unpackhi128 (k : nat) (a b : list Z) : list Z :=
  concat (interleave (hi (group k a)) (hi (group k b))).
Definition unpacklo256 (k : nat) (a b : list Z) : list Z :=
  (unpacklo128 k (lo a) (lo b) ++ unpacklo128 k (hi a) (hi b))%list.
Definition unpackhi256 (k : nat) (a b : list Z) : list Z :=
  (unpackhi128 k (lo a) (lo b) ++ unpackhi128 k (hi a) (hi b))%list.

(** [_mm_packus_epi16], [_mm256_packus_epi16], [_mm256_packs_epi32] *)
Definition sat_u8 (a : Z) : Z := Z.min (Z.max a 0) 255.
Definition sat_i16 (a : Z) : Z := Z.min (Z.max a (-32768)) 32767.
Definition packus128 (a b : list Z) : list Z := map sat_u8 (a ++ b).
Definition packus256 (a b : list Z) : list Z :=
  (packus128 (lo a) (lo b) ++ packus128 (hi a) (hi b))%list.
Definition packs32_256 (a b : list Z) : list Z :=
  map sat_i16 (lo a ++ lo b ++ hi a ++ hi b)%list.

(** [_mm*_blend_epi16::<0b1010_1010>]: odd lanes of [b], even lanes of [a] *)
Fixpoint blend_odd (a b : list Z) : list Z :=
  match a, b with
  | x :: _ :: a', _ :: y :: b' => x :: y :: blend_odd a' b'
  | _, _ => []
  end.
(** [_mm256_blend_epi32::<0b1111_0000>] *)
Definition blend_hi (a b : list Z) : list Z := (lo a ++ hi b)%list.

(** [_mm256_alignr_epi8] by [n] 16-bit lanes *)
Definition alignr (n : nat) (a b : list Z) : list Z :=
  let f x y := firstn (length x) (skipn n (y ++ x)) in
  (f (lo a) (lo b) ++ f (hi a) (hi b))%list.

(** [_mm256_insert_epi16] *)
Definition insert16 (i : Z) (a : list Z) (x : Z) : list Z := zset a i x.

(** * AVX2 inverse DCT *)

(** src/idct/avx2.rs:422-486 [transpose] *)
Definition merge_epi32 (v0 v1 : list Z) : list Z * list Z :=
  let va := perm4x64 2 (shuffle 3 1 2 0) v0 in
  let vb := perm4x64 2 (shuffle 3 1 2 0) v1 in
  (unpacklo256 1 va vb, unpackhi256 1 va vb).
Definition merge_epi64 (v0 v1 : list Z) : list Z * list Z :=
  let va := perm4x64 2 (shuffle 3 1 2 0) v0 in
  let vb := perm4x64 2 (shuffle 3 1 2 0) v1 in
  (unpacklo256 2 va vb, unpackhi256 2 va vb).
Definition merge_si128 (v0 v1 : list Z) : list Z * list Z :=
  (perm2x128 (shuffle 0 2 0 0) v0 v1, perm2x128 (shuffle 0 3 0 1) v0 v1).

Definition regs8 : Type :=
  (list Z * list Z * list Z * list Z * list Z * list Z * list Z * list Z)%type.

Definition transpose (r : regs8) : regs8 :=
  let '(v0, v1, v2, v3, v4, v5, v6, v7) := r in
  let '(w0, w1) := merge_epi32 v0 v1 in
  let '(w2, w3) := merge_epi32 v2 v3 in
  let '(w4, w5) := merge_epi32 v4 v5 in
  let '(w6, w7) := merge_epi32 v6 v7 in
  let '(x0, x1) := merge_epi64 w0 w2 in
  let '(x2, x3) := merge_epi64 w1 w3 in
  let '(x4, x5) := merge_epi64 w4 w6 in
  let '(x6, x7) := merge_epi64 w5 w7 in
  let '(v0, v1) := merge_si128 x0 x4 in
  let '(v2, v3) := merge_si128 x1 x5 in
  let '(v4, v5) := merge_si128 x2 x6 in
  let '(v6, v7) := merge_si128 x3 x7 in
  (v0, v1, v2, v3, v4, v5, v6, v7).

(** src/idct/avx2.rs:252-330, the macro [dct_pass!] *)
Definition dct_pass (bias scale : Z) (r : regs8) : regs8 :=
  let '(row0, row1, row2, row3, row4, row5, row6, row7) := r in
  let m a k := mullo32 a (set1 8 k) in
  let b := set1 8 bias in
  let p1 := m (add32 row2 row6) 2217 in
  let t2 := add32 p1 (m row6 (-7567)) in
  let t3 := add32 p1 (m row2 3135) in
  let t0 := slli32 12 (add32 row0 row4) in
  let t1 := slli32 12 (sub32 row0 row4) in
  let x0 := add32 (add32 t0 t3) b in
  let x3 := add32 (sub32 t0 t3) b in
  let x1 := add32 (add32 t1 t2) b in
  let x2 := add32 (sub32 t1 t2) b in
  let p3 := add32 row7 row3 in
  let p4 := add32 row5 row1 in
  let p1 := add32 row7 row1 in
  let p2 := add32 row5 row3 in
  let p5 := m (add32 p3 p4) 4816 in
  let t0 := m row7 1223 in
  let t1 := m row5 8410 in
  let t2 := m row3 12586 in
  let t3 := m row1 6149 in
  let p1 := add32 p5 (m p1 (-3685)) in
  let p2 := add32 p5 (m p2 (-10497)) in
  let p3 := m p3 (-8034) in
  let p4 := m p4 (-1597) in
  let t3 := add32 t3 (add32 p1 p4) in
  let t2 := add32 t2 (add32 p2 p3) in
  let t1 := add32 t1 (add32 p2 p4) in
  let t0 := add32 t0 (add32 p1 p3) in
  (srai32 scale (add32 x0 t3), srai32 scale (add32 x1 t2),
   srai32 scale (add32 x2 t1), srai32 scale (add32 x3 t0),
   srai32 scale (sub32 x3 t0), srai32 scale (sub32 x2 t1),
   srai32 scale (sub32 x1 t2), srai32 scale (sub32 x0 t3)).

(** src/idct/avx2.rs:354-388, the macro [permute_store!]: the two rows it writes *)
Definition clamp_avx (a : list Z) : list Z := min16 (max16 a (set1 16 0)) (set1 16 255).
Definition permute_store (x y : list Z) : list (list Z) :=
  let c := perm4x64 4 (shuffle 3 1 2 0) (clamp_avx (packs32_256 x y)) in
  [lo c; hi c].

(** Row [i] of a block of 64 *)
Definition row8 (v : list Z) (i : nat) : list Z := firstn 8 (skipn (8 * i) v).

(** src/idct/avx2.rs:100-392: one block, the eight rows it stores.  The zero test ORs the
    lanes; entry 8 is tested twice by the unaligned first load. *)
Definition idct_block_avx2 (v q : list Z) : list (list Z) :=
  let z := firstn 8 (skipn 1 v) in
  let z := or16 (row8 v 1) z in
  let z := or16 (row8 v 2) z in
  let z := or16 (row8 v 3) z in
  let z := or16 (row8 v 4) z in
  let z := or16 (row8 v 5) z in
  let z := or16 (row8 v 6) z in
  let z := or16 (row8 v 7) z in
  if forallb (fun x => x =? 0) z then
    repeat (set1 8 (Z.min (Z.max (dc_only (zn v 0) (zn q 0)) 0) 255)) 8
  else
    let row i := mullo32 (row8 v i) (row8 q i) in
    let r := (row 0%nat, row 1%nat, row 2%nat, row 3%nat, row 4%nat, row 5%nat, row 6%nat,
              row 7%nat) in
    let r := transpose r in
    let r := dct_pass 512 10 r in
    let r := transpose r in
    let '(r0, r1, r2, r3, r4, r5, r6, r7) := dct_pass SCALE_BITS 17 r in
    (permute_store r0 r1 ++ permute_store r2 r3 ++ permute_store r4 r5 ++ permute_store r6 r7)%list.

(** src/idct/avx2.rs:40-55, 64-398 [dequantize_and_idct_avx2] *)
Definition dequantize_and_idct_avx2 (vector q : list Z) (stride samp_factors v_samp : Z)
  : res (list Z) :=
  dequantize_and_idct (fun b => idct_block_avx2 b q) vector stride samp_factors v_samp.

(** * Colour conversion *)

(** src/color_convert/avx.rs:201-262 [ycbcr_to_rgb_baseline_no_clamp], 123-192
    [ycbcr_to_rgb_baseline] before clamping, and src/color_convert/sse.rs:58-105, 147-189;
    [n] lanes *)
Definition cc_regs (n : nat) (y cb cr : list Z) : list Z * list Z * list Z :=
  let cb_r := sub16 cb (set1 n 128) in
  let cr_r := sub16 cr (set1 n 128) in
  let r1 := mullo16 (set1 n 45) cr_r in
  let r2 := srai16 5 r1 in
  let r := add16 y r2 in
  let g1 := mullo16 (set1 n 11) cb_r in
  let g2 := mullo16 (set1 n 23) cr_r in
  let g3 := add16 g1 g2 in
  let g4 := srai16 5 g3 in
  let g := sub16 y g4 in
  let b1 := mullo16 (set1 n 113) cb_r in
  let b2 := srai16 6 b1 in
  let b := add16 b2 y in
  (r, g, b).

(** src/color_convert/avx.rs:398-414 [clamp_avx], src/color_convert/sse.rs:225-237
    [clamp_sse] *)
Definition clamp_reg (n : nat) (a : list Z) : list Z := min16 (max16 a (set1 n 0)) (set1 n 255).

(** The byte stores [r.array[j] as u8, g.array[j] as u8, b.array[j] as u8] *)
Definition interleave3 (r g b : list Z) : list Z :=
  flat_map (fun '(r, g, b) => [u8 r; u8 g; u8 b]) (zip3 r g b).

(** src/color_convert/avx.rs:67-107 [ycbcr_to_rgb_avx2], [ycbcr_to_rgb_avx2_1] *)
Definition ycbcr_to_rgb_avx2 (y cb cr output : list Z) (pos : Z) : res (list Z * Z) :=
  let '(r, g, b) := cc_regs 16 y cb cr in
  o <~ put_slice output pos
         (interleave3 (clamp_reg 16 r) (clamp_reg 16 g) (clamp_reg 16 b)) ;;
  Ok (o, pos + 48).

(** src/color_convert/sse.rs:32-128 [ycbcr_to_rgb_sse41] *)
Definition ycbcr_to_rgb_sse41 (y cb cr output : list Z) (pos : Z) : res (list Z * Z) :=
  let '(r, g, b) := cc_regs 8 y cb cr in
  o <~ put_slice output pos
         (interleave3 (clamp_reg 8 r) (clamp_reg 8 g) (clamp_reg 8 b)) ;;
  Ok (o, pos + 24).

(** src/color_convert/sse.rs:269-279 [ycbcr_to_rgb_sse_16], 245-267 [ycbcr_to_rgb_16] *)
Definition ycbcr_to_rgb_sse_16 (y cb cr output : list Z) (pos : Z) : res (list Z * Z) :=
  match slice output pos (pos + 64) with
  | None => Panic "Slice to small cannot write"
  | Some _ =>
      '(o, pos) <~ ycbcr_to_rgb_sse41 (lo y) (lo cb) (lo cr) output pos ;;
      ycbcr_to_rgb_sse41 (hi y) (hi cb) (hi cr) o pos
  end.

(** src/color_convert/avx.rs:265-324 [ycbcr_to_rgba_avx2], [ycbcr_to_rgba_unsafe] and 335-394
    [ycbcr_to_rgbx_avx2], [ycbcr_to_rgbx_unsafe]; [x] is the fourth register (255s, or undefined).  Not reachable from the decoder. *)
Definition rgba_avx2_regs (y cb cr x : list Z) : list Z :=
  let '(r, g, b) := cc_regs 16 y cb cr in
  let c := packus256 r g in
  let d := packus256 b x in
  let e := unpacklo256 1 c d in
  let f := unpackhi256 1 c d in
  let g := unpacklo256 1 e f in
  let h := unpackhi256 1 e f in
  let i := perm2x128 (shuffle 3 2 1 0) g h in
  let j := perm2x128 (shuffle 1 2 3 0) g h in
  let k := perm2x128 (shuffle 3 2 0 1) g h in
  let l := perm2x128 (shuffle 0 3 2 1) g h in
  let m := blend_hi i j in
  let n := blend_hi k l in
  (m ++ n)%list.
Definition ycbcr_to_rgba_avx2 (y cb cr output : list Z) (pos : Z) : res (list Z * Z) :=
  o <~ put_slice output pos (rgba_avx2_regs y cb cr (set1 16 255)) ;;
  Ok (o, pos + 64).

(** src/color_convert/sse.rs:130-210 [ycbcr_to_rgb_ax_sse41], 281-308
    [ycbcr_to_rgba_sse_16].  Not reachable from the decoder. *)
Definition rgba_sse_regs (y cb cr : list Z) : list Z :=
  let '(r, g, b) := cc_regs 8 y cb cr in
  let e := packus128 r g in
  let f := packus128 b (set1 8 255) in
  let g := unpacklo128 1 e f in
  let h := unpackhi128 1 e f in
  (unpacklo128 1 g h ++ unpackhi128 1 g h)%list.
Definition ycbcr_to_rgba_sse_16 (y cb cr output : list Z) (pos : Z) : res (list Z * Z) :=
  match slice output pos (pos + 64) with
  | None => Panic "Slice to small cannot write"
  | Some _ =>
      o <~ put_slice output pos (rgba_sse_regs (lo y) (lo cb) (lo cr)) ;;
      o <~ put_slice o (pos + 32) (rgba_sse_regs (hi y) (hi cb) (hi cr)) ;;
      Ok (o, pos + 64)
  end.

(** * SSE horizontal upsampling *)

(** An unchecked vector load of [n] lanes: reading outside the slice is undefined behaviour,
    which the model turns into a panic with its own message (never reached, see C45). *)
Definition load (l : list Z) (pos n : Z) : res (list Z) :=
  match slice l pos (pos + n) with Some r => Ok r | None => Panic "UB: load out of bounds" end.

(** src/upsampler/sse.rs:63-98: one iteration; [_mm_loadl_epi64] leaves the upper half zero *)
Definition sse_step (input : list Z) (i : Z) (out : list Z) : res (list Z) :=
  let pos := shl i 2 in
  l0 <~ load input pos 4 ;;
  l1 <~ load input (pos - 1) 4 ;;
  l2 <~ load input (pos + 1) 4 ;;
  let z := [0; 0; 0; 0] in
  let yn := unpacklo128 1 (l0 ++ z)%list (l0 ++ z)%list in
  let even := unpacklo128 1 (l1 ++ z)%list (l1 ++ z)%list in
  let odd := unpacklo128 1 (l2 ++ z)%list (l2 ++ z)%list in
  let nn := blend_odd even odd in
  let an := add16 (slli16 1 yn) yn in
  let bn := add16 nn (set1 8 2) in
  let cn := srai16 2 (add16 an bn) in
  put_slice out (i * 8) cn.

Fixpoint sse_loop (n : nat) (input : list Z) (i : Z) (out : list Z) : res (list Z) :=
  match n with
  | O => Ok out
  | S n' => o <~ sse_step input i out ;; sse_loop n' input (i + 1) o
  end.

(** src/upsampler/sse.rs:9-16, 24-134 [upsample_horizontal_sse] *)
Definition upsample_horizontal_sse (input : list Z) (output_len : Z) : res (list Z) :=
  if (8 <? output_len) && (5 <? zlen input) then
    let x := zn input in
    let first := [x 0; tri (x 0) (x 1); tri (x 1) (x 0); tri (x 1) (x 2);
                  tri (x 2) (x 1); tri (x 2) (x 3); tri (x 3) (x 2); tri (x 3) (x 4)] in
    let inl := zlen input in
    o <~ sse_loop (Z.to_nat (shr inl 2 - 2)) input 1 (splice (zrepeat 0 output_len) 0 first) ;;
    let il := inl - 4 in
    let last := [tri (x il) (x (il - 1)); tri (x il) (x (il + 1));
                 tri (x (il + 1)) (x il); tri (x (il + 1)) (x (il + 1));
                 tri (x (il + 2)) (x (il + 2)); tri (x (il + 2)) (x (il + 1));
                 tri (x (il + 2)) (x (il + 3)); x (il + 3)] in
    Ok (splice o (output_len - 8) last)
  else Panic "assertion failed: out.len() > 8 && input.len() > 5".

(** * AVX2 horizontal and vertical upsampling *)

(** src/upsampler/avx2.rs:68-77, the macro [pack_shuffle!] *)
Definition pack_shuffle (x : list Z) (imm : Z) : list Z :=
  let v := perm2x128 imm x x in
  let rwn_hi := unpackhi256 1 v v in
  let rwn_lo := unpacklo256 1 v v in
  perm2x128 48 rwn_lo rwn_hi.

(** src/upsampler/avx2.rs:79-191, the macro [upsample_horizontal!]: the 32 values it stores *)
Definition hv_horizontal (row : list Z) (prev pixel_far : Z) : list Z :=
  let next_arr := alignr 1 (perm2x128 (shuffle 2 0 0 1) row row) row in
  let prev_arr := alignr 7 row (perm2x128 (shuffle 0 0 2 0) row row) in
  let prev_arr := insert16 0 prev_arr prev in
  let next_arr := insert16 15 next_arr pixel_far in
  let half imm :=
    let near := pack_shuffle row imm in
    let nn := blend_odd (pack_shuffle prev_arr imm) (pack_shuffle next_arr imm) in
    let an := mullo16 near (set1 16 3) in
    let bn := add16 nn (set1 16 2) in
    srai16 2 (add16 an bn) in
  (half 0 ++ half 51)%list.

(** src/upsampler/avx2.rs:193-208, the macro [upsample_vertical!] *)
Definition hv_vertical (near far : list Z) : list Z * list Z :=
  let t2 := add16 far (set1 16 2) in
  let t1 := mullo16 near (set1 16 3) in
  let t3 := add16 near (set1 16 2) in
  let t4 := mullo16 far (set1 16 3) in
  (srai16 2 (add16 t1 t2), srai16 2 (add16 t3 t4)).

(** The variables the loops of [upsample_hv_avx] update *)
Record hvst : Type := mkHv {
  hv_out : list Z; hv_pos : Z; hv_opos : Z; hv_prev : Z; hv_far : Z; hv_stride : Z }.

Definition get_or0 (l : list Z) (i : Z) : Z := match zget l i with Some x => x | None => 0 end.

(** src/upsampler/avx2.rs:228-263: one iteration of the inner loop.  [prev] is
    [3 * (a + b + 2) >> 2] as written. *)
Definition hv_step (input : list Z) (len : Z) (s : hvst) : res hvst :=
  let pos := hv_pos s in
  let stride := hv_stride s in
  let opos := hv_opos s in
  near <~ load input pos 16 ;;
  far <~ load input (pos + stride) 16 ;;
  let '(row_near, row_far) := hv_vertical near far in
  o <~ put_slice (hv_out s) opos (hv_horizontal row_near (hv_prev s) (hv_far s)) ;;
  o <~ put_slice o (opos + len) (hv_horizontal row_far (hv_prev s) (hv_far s)) ;;
  let pos := pos + 16 in
  if zlen input <? pos + stride + 16 then Panic "assertion failed"
  else
    let f a b := shr (i16 (3 * i16 (i16 (a + b) + 2))) 2 in
    Ok (mkHv o pos (opos + 32)
          (f (get_or0 input pos) (get_or0 input (pos + stride)))
          (f (get_or0 input (pos + 16)) (get_or0 input (pos + stride + 16)))
          stride).

Fixpoint hv_inner (n : nat) (input : list Z) (len : Z) (s : hvst) : res hvst :=
  match n with
  | O => Ok s
  | S n' => s' <~ hv_step input len s ;; hv_inner n' input len s'
  end.

(** src/upsampler/avx2.rs:276-289 and 291-303: the scalar tail of one output row:
    [windows(3)] of the given input slice into the slice of [v] outputs at [opos] *)
Definition hv_tail (input : list Z) (a b opos v last : Z) (out : list Z) : res (list Z) :=
  win <~ slice_ input a b ;;
  if v <=? 0 then Panic "called `Option::unwrap()` on a `None` value"
  else
    l <~ at_ input last ;;
    let w := firstn (Z.to_nat (2 * (v / 2))) (horiz_middle win) in
    cur <~ slice_ out opos (opos + v) ;;
    let row := zset (splice cur 0 w) (v - 1) l in
    put_slice out opos row.

(** [output[i] = output[k]] *)
Definition copy_at (l : list Z) (i k : Z) : res (list Z) := x <~ at_ l k ;; zupd l i x.

(** src/upsampler/avx2.rs:219-330: one iteration of the outer loop *)
Definition hv_row (input : list Z) (len end_ v : Z) (j : Z) (s : hvst) : res hvst :=
  s <~ hv_inner (Z.to_nat end_) input len s ;;
  let pos := hv_pos s in
  let opos := hv_opos s in
  let stride := hv_stride s in
  (* output.split_at_mut(output_position + v), &mut b[len - v..len] *)
  if (zlen (hv_out s) <? opos + v) || (len <? v) || (zlen (hv_out s) - (opos + v) <? len)
  then Panic "slice out of bounds"
  else
    o <~ hv_tail input (pos - v / 2 - 2) pos opos v pos (hv_out s) ;;
    o <~ hv_tail input (pos - v / 2 + stride - 2) (pos + stride) (opos + len) v (pos + stride) o ;;
    let opos := opos + len + v in
    let pos := pos + v / 2 in
    let stride := if j =? 0 then zlen input / 8 else stride in
    let stride := if j =? 6 then 0 else stride in
    o <~ copy_at o (opos - len) (opos - len + 1) ;;
    o <~ copy_at o (opos - len - 2) (opos - len - 4) ;;
    o <~ copy_at o (opos - len - 1) (opos - len - 3) ;;
    o <~ copy_at o (opos - 2) (opos - 4) ;;
    o <~ copy_at o (opos - 1) (opos - 3) ;;
    Ok (mkHv o pos opos (hv_prev s) (hv_far s) stride).

Fixpoint hv_rows (n : nat) (input : list Z) (len end_ v j : Z) (s : hvst) : res hvst :=
  match n with
  | O => Ok s
  | S n' => s' <~ hv_row input len end_ v j s ;; hv_rows n' input len end_ v (j + 1) s'
  end.

(** src/upsampler/avx2.rs:28-335 [upsample_hv_avx] *)
Definition upsample_hv_avx (input : list Z) (output_len : Z) : res (list Z) :=
  i0 <~ at_ input 0 ;;
  i16_ <~ at_ input 16 ;;
  let prev := tri i0 i0 in
  let far := tri i16_ i16_ in
  let len := output_len / 16 in
  let end_ := Z.max 0 (shr (zlen input) 7 - 1) in
  let v := Z.max 0 (output_len / 16 - end_ * 32) in
  s <~ hv_rows 8 input len end_ v 0 (mkHv (zrepeat 0 output_len) 0 0 prev far 0) ;;
  Ok (hv_out s).

(** src/upsampler/avx2.rs:14-22 [upsample_hv_simd] *)
Definition upsample_hv_simd (input : list Z) (output_len : Z) : res (list Z) :=
  if zlen input <? 500 then upsample_hv input output_len
  else upsample_hv_avx input output_len.
