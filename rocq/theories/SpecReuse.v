(** Histories of one decoder that decodes grayscale baseline files (for C10). *)
From Coq Require Import ZArith String List Bool.
From Verif Require Import Base Types State Decoder Session.
From Verif Require Import SpecHuffman SpecSegments SpecFile SpecBlock SpecScript SpecImage SpecBaseline.
Import ListNotations.
Local Open Scope Z_scope.

(** What one grayscale baseline file is made of *)
Record gray_doc : Type := mkGrayDoc {
  gd_pre : list pre; gd_q : Z; gd_w : Z; gd_h : Z; gd_tables : list (list huff_def); gd_td : Z; gd_ta : Z;
  gd_blocks : list (list Z); gd_bits : list bool; gd_suffix : list Z }.
Definition gray_bytes (g : gray_doc) : list Z :=
  file 192 (gd_pre g) (Gray (gd_q g)) (gd_w g) (gd_h g) (baseline_items (gd_tables g) (gd_td g) (gd_ta g) (gd_bits g)) (gd_suffix g).
(** A valid file, within the limits of the options, and wide enough (a grayscale image whose
    width is far from a multiple of 8 panics, see C43) *)
Definition gray_ok (o : options) (g : gray_doc) : Prop :=
  baseline_gray (gd_pre g) (gd_q g) (gd_w g) (gd_h g) (gd_tables g) (gd_td g) (gd_ta g) (gd_blocks g) (gd_bits g) (gd_suffix g) /\
  gd_w g <= o_max_width o /\ gd_h g <= o_max_height o /\ 64 * ((gd_w g + 7) / 8) < 9 * gd_w g.
(** Its number of blocks *)
Definition gray_area (g : gray_doc) : Z := (gd_w g + 7) / 8 * ((gd_h g + 7) / 8).

(** One use of the decoder: a call whose file, if it has one, is a grayscale baseline file *)
Inductive use : Type :=
| UDecode (g : gray_doc) | URead (g : gray_doc) | URgba | UColorspace (c : colorspace) | UThreads (n : Z).
Definition use_call (u : use) : call :=
  match u with
  | UDecode g => CDecodeBuffer (gray_bytes g)
  | URead g => CReadHeaders (gray_bytes g)
  | URgba => CRgba
  | UColorspace c => CSetOutputColorspace c
  | UThreads n => CSetNumThreads n
  end.
Definition use_ok (o : options) (u : use) : Prop :=
  match u with UDecode g | URead g => gray_ok o g | _ => True end.
(** Blocks decoded *)
Definition use_area (u : use) : Z := match u with UDecode g => gray_area g | _ => 0 end.
Definition total_area (us : list use) : Z := fold_right Z.add 0 (map use_area us).
