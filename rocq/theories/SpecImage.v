(** Whole files: what comes before the frame header, the frame headers considered, and the
    sizes of the components (T.81 A.1.1, A.2, B.2).  Nothing here refers to the decoder. *)
From Coq Require Import ZArith List Bool.
From Verif Require Import SpecHuffman SpecSegments SpecFile SpecBits SpecBlock SpecProg SpecInter SpecScript.
Import ListNotations.
Local Open Scope Z_scope.

(** Segments before the frame header: ones to be skipped, quantization and Huffman tables *)
Inductive pre : Type :=
| Skip (m : Z) (p : list Z)
| Quant (ts : list quant_def)
| Huff (ts : list huff_def).
Definition pre_seg (p : pre) : mseg :=
  match p with
  | Skip m q => (m, q)
  | Quant ts => (219, dqt_payload ts)
  | Huff ts => (196, dht_payload ts)
  end.
Definition pre_ok (p : pre) : Prop :=
  match p with
  | Skip m q => skippable m /\ Forall byte q /\ fits q
  | Quant ts => Forall quant_def_legal ts /\ fits (dqt_payload ts)
  | Huff ts => Forall huff_def_legal ts /\ fits (dht_payload ts)
  end.
(** The tables sent *)
Definition quants (ps : list pre) : list quant_def :=
  flat_map (fun p => match p with Quant ts => ts | _ => [] end) ps.
Definition huffs (ps : list pre) : list huff_def :=
  flat_map (fun p => match p with Huff ts => ts | _ => [] end) ps.

(** The frames considered: one component, or a luminance component with the sampling factors
    [hs] and [vs] and two chrominance components with 1 and 1; [q], [q1], [q2] are the
    quantization table selectors *)
Inductive layout : Type :=
| Gray (q : Z)
| Colour (hs vs q q1 q2 : Z).
Definition layout_ok (l : layout) : Prop :=
  match l with
  | Gray q => 0 <= q <= 3
  | Colour hs vs q q1 q2 =>
      1 <= hs <= 2 /\ 1 <= vs <= 2 /\ 0 <= q <= 3 /\ 0 <= q1 <= 3 /\ 0 <= q2 <= 3
  end.
Definition hmax (l : layout) : Z := match l with Gray _ => 1 | Colour hs _ _ _ _ => hs end.
Definition vmax (l : layout) : Z := match l with Gray _ => 1 | Colour _ vs _ _ _ => vs end.
(** Identifier, sampling factors and selector of each component *)
Definition frame_comps (l : layout) : list (Z * Z * Z) :=
  match l with
  | Gray q => [(1, 17, q)]
  | Colour hs vs q q1 q2 => [(1, 16 * hs + vs, q); (2, 17, q1); (3, 17, q2)]
  end.
Definition selectors (l : layout) : list Z :=
  match l with Gray q => [q] | Colour _ _ q q1 q2 => [q; q1; q2] end.
(** Horizontal and vertical sampling factors *)
Definition factors (l : layout) : list (Z * Z) :=
  match l with Gray _ => [(1, 1)] | Colour hs vs _ _ _ => [(hs, vs); (1, 1); (1, 1)] end.
(** Every component has a quantization table *)
Definition has_quants (ps : list pre) (l : layout) : Prop :=
  Forall (fun q => last_quant (quants ps) q <> None) (selectors l).

(** Size in blocks of a component with sampling factors [hs] and [vs]: its samples, that is
    ceil (w * hs / hmax) by ceil (h * vs / vmax), in blocks of 8 by 8 *)
Definition up_div (a b : Z) : Z := (a + b - 1) / b.
Definition blocks_wide (w hm hs : Z) : Z := up_div (up_div (w * hs) hm) 8.
(** The components of an image of [w] by [h] pixels have the identifiers 1, 2, 3 and this size *)
Definition image_data (l : layout) (w h : Z) (cs : list comp_data) : Prop :=
  length cs = length (factors l) /\
  forall k cd, nth_error cs k = Some cd ->
    cd_id cd = Z.of_nat k + 1 /\
    cd_w cd = blocks_wide w (hmax l) (fst (nth k (factors l) (0, 0))) /\
    cd_h cd = blocks_wide h (vmax l) (snd (nth k (factors l) (0, 0))).

(** Its size in MCUs *)
Definition image_geo (l : layout) (w h : Z) : geometry :=
  mkGeo (up_div w (8 * hmax l)) (up_div h (8 * vmax l)) (factors l).

(** A file: start of image, segments, frame header ([C0] baseline, [C2] progressive), items,
    end of image and whatever follows *)
Definition file (sof : Z) (ps : list pre) (l : layout) (w h : Z) (is : list item) (sfx : list Z) : list Z :=
  [255; 216] ++ msegs_bytes (map pre_seg ps) ++ mseg_bytes (sof, frame_payload h w (frame_comps l)) ++
  flat_map item_bytes is ++ [255; 217] ++ sfx.

(** The items, followed by any marker and anything else *)
Definition cut_file (sof : Z) (ps : list pre) (l : layout) (w h : Z) (is : list item) (m : Z) (rest : list Z) : list Z :=
  [255; 216] ++ msegs_bytes (map pre_seg ps) ++ mseg_bytes (sof, frame_payload h w (frame_comps l)) ++
  flat_map item_bytes is ++ [255; m] ++ rest.

(** The first scan is a first scan for DC coefficients, and the last block in it takes at most
    eight bits *)
Fixpoint short_end (g : geometry) (cs : list comp_data) (tabs : list huff_def) (is : list item) : Prop :=
  match is with
  | [] => False
  | Tables ts :: is' => short_end g cs (tabs ++ ts) is'
  | Scan id td ta ss se ah al bits :: _ =>
      ss = 0 /\ ah = 0 /\ exists cd, In cd cs /\ cd_id cd = id /\
        dc_first_last (code_at tabs false td) al 0 (map (hd 0) (cd_blocks cd)) <= 8
  | DcScan sel ah al bits :: _ =>
      ah = 0 /\ exists ks V,
        Forall2 (fun k s => exists cd, nth_error cs k = Some cd /\ cd_id cd = fst (fst s)) ks sel /\
        dc_scan_data g cs tabs ks sel ah al V bits /\
        dc_units_last (sel_code tabs ks sel) al (fun _ => 0) (unit_values V (scan_units g ks)) <= 8
  end.

(** A progressive file for the coefficients [cs]: its [n] scans teach [Ks].  The tables for
    the scans come after the frame header. *)
Record progressive_image (ps : list pre) (l : layout) (w h : Z) (cs : list comp_data) (is : list item)
  (Ks : list knowledge) (n : Z) (sfx : list Z) : Prop := {
  pi_pre : Forall pre_ok ps;
  pi_layout : layout_ok l;
  pi_quants : has_quants ps l;
  pi_width : 0 < w <= 65528;
  pi_height : 0 < h <= 65528;
  pi_tables : huffs ps = [];
  pi_data : image_data l w h cs;
  pi_coefs : Forall comp_data_ok cs;
  pi_script : exists b, script (image_geo l w h) cs [] (map (fun _ => nothing) cs) is Ks n b /\ b < 2147483647;
  pi_scans : 1 <= n;
  pi_bytes : Forall byte (flat_map item_bytes is ++ 255 :: 217 :: sfx) }.
(** Everything is known *)
Definition complete (K : knowledge) : Prop := forall k v, 0 <= k < 64 -> K k v = v.
