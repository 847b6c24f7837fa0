(** src/color_convert/scalar.rs *)
From Coq Require Import ZArith String List Bool.
From Verif Require Import Base.
Import ListNotations.
Local Open Scope Z_scope.
Local Open Scope res_scope.

(** src/color_convert/scalar.rs:7-10 [clamp] *)
Definition clamp_u8 (a : Z) : Z := Z.min (Z.max a 0) 255.

(** src/color_convert/scalar.rs:68-78: one pixel; every operation is on i16 and wraps *)
Definition cc_r (y cr : Z) : Z := clamp_u8 (i16 (y + shr (i16 (45 * i16 (cr - 128))) 5)).
Definition cc_g (y cb cr : Z) : Z :=
  clamp_u8 (i16 (y - shr (i16 (i16 (11 * i16 (cb - 128)) + i16 (23 * i16 (cr - 128)))) 5)).
Definition cc_b (y cb : Z) : Z := clamp_u8 (i16 (y + shr (i16 (113 * i16 (cb - 128))) 6)).
Definition cc_pixel (y cb cr : Z) : list Z := [cc_r y cr; cc_g y cb cr; cc_b y cb].

Definition zip3 {A B C} (a : list A) (b : list B) (c : list C) : list (A * B * C) :=
  zip (zip a b) c.

Definition cc_pixels (y cb cr : list Z) : list Z :=
  flat_map (fun '(y, cb, cr) => cc_pixel y cb cr) (zip3 y cb cr).

(** src/color_convert/scalar.rs:52-89 [ycbcr_to_rgb_16_scalar]; returns the new [*pos] *)
Definition ycbcr_to_rgb_16_scalar (y cb cr output : list Z) (pos : Z) : res (list Z * Z) :=
  o <~ put_slice output pos (cc_pixels y cb cr) ;;
  Ok (o, pos + 48).

(** src/color_convert/scalar.rs:14-50 [ycbcr_to_rgba_16_scalar]; not reachable from the
    decoder, which always asks for the RGB function (src/decoder.rs:128) *)
Definition ycbcr_to_rgba_16_scalar (y cb cr output : list Z) (pos : Z) : res (list Z * Z) :=
  let px := flat_map (fun '(y, cb, cr) => cc_pixel y cb cr ++ [255])%list (zip3 y cb cr) in
  o <~ put_slice output pos px ;;
  Ok (o, pos + 64).

(** [output[start..start+row.len()].copy_from_slice(row)] for consecutive rows *)
Fixpoint copy_rows (rows : list (list Z)) (start : Z) (output : list Z) : res (list Z) :=
  match rows with
  | [] => Ok output
  | r :: rest =>
      o <~ put_slice output start r ;;
      copy_rows rest (start + zlen r) o
  end.

(** src/color_convert/scalar.rs:91-116 [ycbcr_to_grayscale] *)
Definition ycbcr_to_grayscale (y : list Z) (width : Z) (output : list Z) : res (list Z) :=
  if width =? 0 then Panic "division by zero"
  else
    let width_mcu := zlen y / width in
    if width_mcu =? 0 then Panic "division by zero"
    else
      let width_chunk := zlen y / width_mcu in
      chunks <~ chunks_exact width_chunk (map u8 y) ;;
      copy_rows (map (fun c => firstn (Z.to_nat width) c) chunks) 0 output.

(** src/color_convert/scalar.rs:146-163 *)
Fixpoint ycc_rows (chunks : list (list Z * list Z * list Z)) (stride start : Z)
  (temp output : list Z) : res (list Z) :=
  match chunks with
  | [] => Ok output
  | (y, cb, cr) :: rest =>
      let px := flat_map (fun '(y, cb, cr) => [u8 y; u8 cb; u8 cr]) (zip3 y cb cr) in
      let temp' := splice temp 0 px in
      row <~ slice_ temp' 0 stride ;;
      o <~ put_slice output start row ;;
      ycc_rows rest stride (start + stride) temp' o
  end.

(** src/color_convert/scalar.rs:119-169 [ycbcr_to_ycbcr] *)
Definition ycbcr_to_ycbcr (c0 c1 c2 : list Z) (width h_samp v_samp : Z) (output : list Z)
  : res (list Z) :=
  if h_samp * v_samp =? 0 then Panic "division by zero"
  else
    let width_chunk := shr (zlen c0 / (h_samp * v_samp)) 3 in
    y <~ chunks_exact width_chunk c0 ;;
    cb <~ chunks_exact width_chunk c1 ;;
    cr <~ chunks_exact width_chunk c2 ;;
    ycc_rows (zip3 y cb cr) (width * 3) 0 (zrepeat 0 (width_chunk * 3)) output.
