(** The public interface of src/decoder.rs.  A call takes the decoder and its arguments and
    returns the outcome with the decoder as the call leaves it. *)
From Coq Require Import ZArith String List Bool.
From Verif Require Import Base Types Huffman State Bitstream Headers Worker Mcu McuProg.
Import ListNotations.
Local Open Scope Z_scope.
Local Open Scope m_scope.

(** src/decoder.rs:420-434 [decode_internal] *)
Definition decode_internal : M hst (list Z) :=
  decode_headers ;;;
  d <- getd ;;
  if d_prog d then decode_progressive else decode_baseline.

(** Run on a fresh cursor over [buf] and drop the cursor *)
Definition on_buffer {A} (m : M hst A) (d : decoder) (buf : list Z) : res A * decoder :=
  let '(r, h) := m (mkHst d buf) in (r, hd_dec h).

(** src/decoder.rs:178-181 [decode_buffer]; [decode_file] (193-202) is the same after reading
    the file *)
Definition decode_buffer : decoder -> list Z -> res (list Z) * decoder :=
  on_buffer decode_internal.

(** src/decoder.rs:452-458 [read_headers] *)
Definition read_headers : decoder -> list Z -> res unit * decoder :=
  on_buffer decode_headers.

(** src/decoder.rs:460-464 [new_with_options] and 184-189 [new]; [cpu] is what feature
    detection finds *)
Definition new_with_options (cpu : isa) (o : options) : decoder := decoder_default cpu o.
Definition new (cpu : isa) : decoder := decoder_default cpu default_options.

(** src/decoder.rs:210-223 [info]: [None] for the default value *)
Definition sof_eqb (a b : sofmarker) : bool :=
  match a, b with
  | BaselineDct, BaselineDct | ProgressiveDctHuffman, ProgressiveDctHuffman => true
  | _, _ => false
  end.
Definition info_eqb (a b : State.info) : bool :=
  (i_width a =? i_width b) && (i_height a =? i_height b) && (i_density a =? i_density b)
  && sof_eqb (i_sof a) (i_sof b) && (i_x a =? i_x b) && (i_y a =? i_y b)
  && (i_comps a =? i_comps b).
Definition get_info (d : decoder) : option State.info :=
  if info_eqb (d_info d) default_info then None else Some (d_info d).

(** src/decoder.rs:561-573 [width], [height] *)
Definition width (d : decoder) : Z := i_width (d_info d).
Definition height (d : decoder) : Z := i_height (d_info d).

(** src/decoder.rs:415-418 [get_output_colorspace] *)
Definition get_output_colorspace (d : decoder) : colorspace := o_colorspace (d_opt d).

(** src/decoder.rs:535-556 [rgba], [set_limits], [set_output_colorspace] *)
Definition rgba (d : decoder) : decoder := set_d_opt (set_out_colorspace (d_opt d) RGBA) d.
Definition set_limits (w h : Z) (d : decoder) : decoder :=
  set_d_opt (set_max_height (set_max_width (d_opt d) w) h) d.
Definition set_output_colorspace (c : colorspace) (d : decoder) : decoder :=
  set_d_opt (set_out_colorspace (d_opt d) c) d.

(** src/decoder.rs:591-603 [set_num_threads]; [threads] is a [usize] *)
Definition set_num_threads (threads : Z) (d : decoder) : res unit * decoder :=
  if threads =? 0 then (Err (EFormatStatic "Cannot set zero threads to decode image"), d)
  else if u32 threads =? 0 then (Panic "called `Option::unwrap()` on a `None` value", d)
  else (Ok tt, set_d_opt (set_threads (d_opt d) (u32 threads)) d).
