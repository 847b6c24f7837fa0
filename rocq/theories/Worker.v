(** src/worker.rs: dequantization, inverse DCT, upsampling and colour conversion of one row
    of MCUs, the job a worker thread runs. *)
From Coq Require Import ZArith String List Bool.
From Verif Require Import Base Types Huffman State Idct Upsample Color Simd.
Import ListNotations.
Local Open Scope Z_scope.
Local Open Scope res_scope.

(** Calls through [IDCTPtr] (src/decoder.rs:48) *)
Definition run_idct (k : idct_kind) : list Z -> list Z -> Z -> Z -> Z -> res (list Z) :=
  match k with
  | IdctScalar => dequantize_and_idct_int
  | IdctAvx2 => dequantize_and_idct_avx2
  end.

(** Calls through [ColorConvert16Ptr] (src/decoder.rs:41); returns the output and [*pos] *)
Definition run_cc (k : cc_kind) : list Z -> list Z -> list Z -> list Z -> Z -> res (list Z * Z) :=
  match k with
  | CcScalar => ycbcr_to_rgb_16_scalar
  | CcSse => ycbcr_to_rgb_sse_16
  | CcAvx2 => ycbcr_to_rgb_avx2
  end.

(** Calls through [UpSampler] (src/components.rs:14, src/upsampler.rs:115-118) *)
Definition run_upsampler (k : upsampler) (input : list Z) (output_len : Z) : res (list Z) :=
  match k with
  | UpNoOp => Ok []
  | UpHoriz => upsample_horizontal input output_len
  | UpHorizSse => upsample_horizontal_sse input output_len
  | UpVert => upsample_vertical input output_len
  | UpHV => upsample_hv input output_len
  | UpHVAvx2 => upsample_hv_simd input output_len
  end.

(** src/worker.rs:201-214: the main loop over groups of 16 samples of one row *)
Fixpoint cc_groups (cc : cc_kind) (groups : list (list Z * list Z * list Z)) (out : list Z)
  (pos : Z) : res (list Z * Z) :=
  match groups with
  | [] => Ok (out, pos)
  | (y, cb, cr) :: rest =>
      '(o, p) <~ run_cc cc y cb cr out pos ;;
      cc_groups cc rest o p
  end.

(** [a.saturating_sub(b)] *)
Definition sat_sub (a b : Z) : Z := Z.max 0 (a - b).

(** [v.rchunks_exact(16).next().unwrap()] *)
Definition last16 (l : list Z) : res (list Z) :=
  if zlen l <? 16 then Panic "called `Option::unwrap()` on a `None` value"
  else Ok (skipn (length l - 16) l).

(** [v[0..l.len()].copy_from_slice(l)] into a zeroed array of 16 *)
Definition pad16 (l : list Z) : res (list Z) := put_slice (zrepeat 0 16) 0 l.

(** src/worker.rs:175-198: a row of an image narrower than 16; [temp] is reused by the next
    row *)
Definition cc_row_narrow (cc : cc_kind) (width nc : Z) (y cb cr temp out : list Z)
  : res (list Z * list Z) :=
  y16 <~ pad16 y ;;
  cb16 <~ pad16 cb ;;
  cr16 <~ pad16 cr ;;
  '(temp', _) <~ run_cc cc y16 cb16 cr16 temp 0 ;;
  row <~ slice_ temp' 0 (width * nc) ;;
  o <~ put_slice out 0 row ;;
  Ok (temp', o).

(** src/worker.rs:169, 200-246: a row of a wider image *)
Definition cc_row_wide (cc : cc_kind) (stride : Z) (y cb cr out : list Z) : res (list Z) :=
  let elements := sat_sub (zlen y / 16) 1 in
  let groups := zip3 (chunks_n 16 y) (chunks_n 16 cb) (chunks_n 16 cr) in
  '(o, pos) <~ cc_groups cc (firstn (Z.to_nat elements) groups) out 0 ;;
  let diff := sat_sub 64 (sat_sub stride pos) in
  let pos := sat_sub pos diff in
  yl <~ last16 y ;;
  cbl <~ last16 cb ;;
  crl <~ last16 cr ;;
  '(o, _) <~ run_cc cc yl cbl crl o pos ;;
  Ok o.

(** src/worker.rs:164-250 *)
Fixpoint cc_rows (cc : cc_kind) (width nc : Z) (rows : list (list Z * list Z * list Z))
  (start : Z) (temp output : list Z) : res (list Z) :=
  match rows with
  | [] => Ok output
  | (y, cb, cr) :: rest =>
      let stride := width * nc in
      out <~ slice_ output start (start + stride) ;;
      if width <? 16 then
        '(temp', o) <~ cc_row_narrow cc width nc y cb cr temp out ;;
        cc_rows cc width nc rest (start + stride) temp' (splice output start o)
      else
        o <~ cc_row_wide cc stride y cb cr out ;;
        cc_rows cc width nc rest (start + stride) temp (splice output start o)
  end.

(** src/worker.rs:143-251 [color_convert_ycbcr] *)
Definition color_convert_ycbcr (c0 c1 c2 : list Z) (width h_samp v_samp : Z)
  (out_cs : colorspace) (cc : cc_kind) (output : list Z) : res (list Z) :=
  if h_samp * v_samp =? 0 then Panic "division by zero"
  else
    let width_chunk := shr (zlen c0 / (h_samp * v_samp)) 3 in
    let nc := num_components out_cs in
    let temp := if width <? 16 then zrepeat 0 (16 * nc) else [] in
    y <~ chunks_exact width_chunk c0 ;;
    cb <~ chunks_exact width_chunk c1 ;;
    cr <~ chunks_exact width_chunk c2 ;;
    cc_rows cc width nc (zip3 y cb cr) 0 temp output.

(** src/worker.rs:50-62 *)
Definition channels (in_cs out_cs : colorspace) : Z :=
  Z.min (num_components in_cs) (num_components out_cs).

(** src/worker.rs:63-80: the channels [z..], [n] of them *)
Fixpoint idct_channels (n : nat) (z : Z) (idct : idct_kind) (h_samp v_samp : Z)
  (coeff : list (list Z)) (comps : list component) : res (list (list Z)) :=
  match n with
  | O => Ok []
  | S n' =>
      c <~ at_ coeff z ;;
      comp <~ at_ comps z ;;
      o <~ run_idct idct c (c_qt comp) (c_stride comp) (h_samp * v_samp)
             (if z =? 0 then 1 else v_samp) ;;
      os <~ idct_channels n' (z + 1) idct h_samp v_samp coeff comps ;;
      Ok (o :: os)
  end.

(** src/worker.rs:103-110: upsample the channels [i..] *)
Fixpoint upsample_channels (i : Z) (len0 : Z) (comps : list component)
  (chans : list (list Z)) : res (list (list Z)) :=
  match chans with
  | [] => Ok []
  | c :: rest =>
      comp <~ at_ comps i ;;
      o <~ run_upsampler (c_ups comp) c len0 ;;
      os <~ upsample_channels (i + 1) len0 comps rest ;;
      Ok (o :: os)
  end.

Definition chan (l : list (list Z)) (i : nat) : list Z := nth i l [].

(** src/worker.rs:88-134 [post_process_inner] *)
Definition post_process_inner (chans : list (list Z)) (comps : list component) (cc : cc_kind)
  (in_cs out_cs : colorspace) (output : list Z) (width : Z) : res (list Z) :=
  c0 <~ at_ comps 0 ;;
  let h_samp := c_h c0 in
  let v_samp := c_v c0 in
  chans <~ (if negb (h_samp =? 1) || negb (v_samp =? 1)
            then match chans with
                 | [] => Ok []
                 | y :: rest =>
                     r <~ upsample_channels 1 (zlen y) comps rest ;; Ok (y :: r)
                 end
            else Ok chans) ;;
  match in_cs, out_cs with
  | YCbCr, GRAYSCALE | GRAYSCALE, GRAYSCALE => ycbcr_to_grayscale (chan chans 0) width output
  | YCbCr, YCbCr =>
      ycbcr_to_ycbcr (chan chans 0) (chan chans 1) (chan chans 2) width h_samp v_samp output
  | YCbCr, RGB | YCbCr, RGBA | YCbCr, RGBX =>
      color_convert_ycbcr (chan chans 0) (chan chans 1) (chan chans 2) width h_samp v_samp
        out_cs cc output
  | _, _ => Ok output
  end.

(** src/worker.rs:32-85 [post_process] *)
Definition post_process (coeff : list (list Z)) (comps : list component) (idct : idct_kind)
  (cc : cc_kind) (in_cs out_cs : colorspace) (output : list Z) (width : Z) : res (list Z) :=
  c0 <~ at_ comps 0 ;;
  let h_samp := c_h c0 in
  let v_samp := c_v c0 in
  chans <~ idct_channels (Z.to_nat (channels in_cs out_cs)) 0 idct h_samp v_samp coeff comps ;;
  post_process_inner chans comps cc in_cs out_cs output width.
