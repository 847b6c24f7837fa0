(** Baseline files with one component (T.81 B.2, F.1.2).  Nothing here refers to the decoder. *)
From Coq Require Import ZArith List Bool.
From Verif Require Import SpecHuffman SpecSegments SpecFile SpecExtend SpecBits SpecBlock SpecScript SpecImage.
Import ListNotations.
Local Open Scope Z_scope.

(** The DC code and the additional bits together take at most 16 bits *)
Definition dc_short (dc : code) (pred : Z) (zz : list Z) : Prop :=
  let k := category (hd 0 zz - pred) in code_len dc k + k <= 16.

(** Huffman tables, in any number of segments, and one scan *)
Definition baseline_items (tss : list (list huff_def)) (td ta : Z) (bits : list bool) : list item :=
  map Tables tss ++ [Scan 1 td ta 0 63 0 0 bits].

(** A baseline grayscale file of [w] by [h] pixels for the coefficients [blocks], row by row
    of blocks *)
Record baseline_gray (ps : list pre) (q w h : Z) (tss : list (list huff_def)) (td ta : Z)
  (blocks : list (list Z)) (bits : list bool) (sfx : list Z) : Prop := {
  bg_pre : Forall pre_ok ps;
  bg_layout : layout_ok (Gray q);
  bg_quants : has_quants ps (Gray q);
  bg_width : 0 < w <= 65527;
  bg_height : 0 < h <= 65527;
  bg_tables : Forall (fun ts => Forall huff_def_legal ts /\ fits (dht_payload ts)) tss;
  bg_sel : 0 <= td <= 3 /\ 0 <= ta <= 3;
  bg_dc : usable (huffs ps ++ concat tss) false td;
  bg_ac : usable (huffs ps ++ concat tss) true ta;
  bg_count : Z.of_nat (length blocks) = (w + 7) / 8 * ((h + 7) / 8);
  bg_bits : encode_blocks (code_at (huffs ps ++ concat tss) false td)
              (code_at (huffs ps ++ concat tss) true ta) 0 blocks = Some bits;
  bg_blocks : with_pred (fun p zz => baseline_block p zz /\
                dc_short (code_at (huffs ps ++ concat tss) false td) p zz) 0 blocks;
  bg_bytes : Forall byte sfx }.
