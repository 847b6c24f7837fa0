(** Markers, colour spaces, options and constant tables. *)
From Coq Require Import ZArith List Bool.
From Verif Require Import Base.
Import ListNotations.
Local Open Scope Z_scope.

(** src/marker.rs:4-44 *)
Inductive marker : Type :=
| SOF (n : Z) | DHT | DAC | RST (n : Z) | SOI | EOI | SOS | DQT | DNL | DRI
| APP (n : Z) | COM.

(** src/marker.rs:48-78 [Marker::from_u8] *)
Definition marker_from_u8 (n : Z) : option marker :=
  match n with
  | 254 (* FE *) => Some COM
  | 192 (* C0 *) => Some (SOF 0)
  | 194 (* C2 *) => Some (SOF 2)
  | 196 (* C4 *) => Some DHT
  | 204 (* CC *) => Some DAC
  | 208 => Some (RST 0) | 209 => Some (RST 1) | 210 => Some (RST 2) | 211 => Some (RST 3)
  | 212 => Some (RST 4) | 213 => Some (RST 5) | 214 => Some (RST 6) | 215 => Some (RST 7)
  | 216 (* D8 *) => Some SOI
  | 217 (* D9 *) => Some EOI
  | 218 (* DA *) => Some SOS
  | 219 (* DB *) => Some DQT
  | 220 (* DC *) => Some DNL
  | 221 (* DD *) => Some DRI
  | 224 (* E0 *) => Some (APP 0)
  | 225 (* E1 *) => Some (APP 1)
  | 238 (* EE *) => Some (APP 14)
  | _ => None
  end.

(** derived [PartialEq] of src/marker.rs:3, only ever used against these two *)
Definition is_eoi (m : marker) : bool := match m with EOI => true | _ => false end.
Definition is_sos (m : marker) : bool := match m with SOS => true | _ => false end.

(** src/misc.rs:88-106 *)
Inductive colorspace : Type := RGB | GRAYSCALE | YCbCr | CMYK | YCCK | RGBA | RGBX.

Definition cs_eqb (a b : colorspace) : bool :=
  match a, b with
  | RGB, RGB | GRAYSCALE, GRAYSCALE | YCbCr, YCbCr | CMYK, CMYK | YCCK, YCCK
  | RGBA, RGBA | RGBX, RGBX => true
  | _, _ => false
  end.

(** src/misc.rs:113-121 *)
Definition num_components (c : colorspace) : Z :=
  match c with
  | RGB | YCbCr => 3
  | CMYK | RGBA | RGBX | YCCK => 4
  | GRAYSCALE => 1
  end.

(** src/misc.rs:142-158 [SOFMarkers]: only the two values the parser stores. *)
Inductive sofmarker : Type := BaselineDct | ProgressiveDctHuffman.

(** src/components.rs:119-127 *)
Inductive component_id : Type := CY | CCb | CCr.
Definition is_y (c : component_id) : bool := match c with CY => true | _ => false end.

(** src/components.rs:130-136 *)
Inductive ratio : Type := RHV | RV | RH | RNone.
Definition ratio_is_h (r : ratio) := match r with RH => true | _ => false end.
Definition ratio_is_hv (r : ratio) := match r with RHV => true | _ => false end.

(** CPU features found at run time ([is_x86_feature_detected!]); [Scalar] also stands for
    builds without the x86 feature. *)
Inductive isa : Type := Scalar | Sse41 | Avx2.

(** src/options.rs:6-25 *)
Record options : Type := mkOptions {
  o_use_unsafe : bool;
  o_colorspace : colorspace;
  o_threads : Z;
  o_max_width : Z;
  o_max_height : Z;
  o_max_scans : Z;
  o_strict : bool }.

(** src/options.rs:28-39 *)
Definition default_options : options :=
  mkOptions true RGB 4 16384 16384 64 false.

(** src/options.rs:58-62 *)
Definition set_out_colorspace (o : options) (c : colorspace) : options :=
  mkOptions (o_use_unsafe o) c (o_threads o) (o_max_width o) (o_max_height o)
            (o_max_scans o) (o_strict o).
(** src/options.rs:73-77 *)
Definition set_use_unsafe (o : options) (b : bool) : options :=
  mkOptions b (o_colorspace o) (o_threads o) (o_max_width o) (o_max_height o)
            (o_max_scans o) (o_strict o).
(** src/options.rs:90-94; the argument is a [NonZeroU32] *)
Definition set_threads (o : options) (n : Z) : options :=
  mkOptions (o_use_unsafe o) (o_colorspace o) n (o_max_width o) (o_max_height o)
            (o_max_scans o) (o_strict o).
(** src/options.rs:108-112 *)
Definition set_max_width (o : options) (w : Z) : options :=
  mkOptions (o_use_unsafe o) (o_colorspace o) (o_threads o) w (o_max_height o)
            (o_max_scans o) (o_strict o).
(** src/options.rs:126-130 *)
Definition set_max_height (o : options) (h : Z) : options :=
  mkOptions (o_use_unsafe o) (o_colorspace o) (o_threads o) (o_max_width o) h
            (o_max_scans o) (o_strict o).
(** src/options.rs:142-146 *)
Definition set_max_scans (o : options) (n : Z) : options :=
  mkOptions (o_use_unsafe o) (o_colorspace o) (o_threads o) (o_max_width o)
            (o_max_height o) n (o_strict o).
(** src/options.rs:155-159 *)
Definition set_strict_mode (o : options) (b : bool) : options :=
  mkOptions (o_use_unsafe o) (o_colorspace o) (o_threads o) (o_max_width o)
            (o_max_height o) (o_max_scans o) b.

(** src/misc.rs:39-51 *)
Definition UN_ZIGZAG : list Z :=
  [ 0;  1;  8; 16;  9;  2;  3; 10;
   17; 24; 32; 25; 18; 11;  4;  5;
   12; 19; 26; 33; 40; 48; 41; 34;
   27; 20; 13;  6;  7; 14; 21; 28;
   35; 42; 49; 56; 57; 50; 43; 36;
   29; 22; 15; 23; 30; 37; 44; 51;
   58; 59; 52; 45; 38; 31; 39; 46;
   53; 60; 61; 54; 47; 55; 62; 63;
   63; 63; 63; 63; 63; 63; 63; 63;
   63; 63; 63; 63; 63; 63; 63; 63].

(** [UN_ZIGZAG[i]], [i < 80] at every use *)
Definition unzig (i : Z) : Z := zn UN_ZIGZAG i.
