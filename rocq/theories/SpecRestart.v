(** Baseline files with one component and restart intervals (T.81 B.2.4.4, E.1.4, F.1.1.5.1).
    Nothing here refers to the decoder. *)
From Coq Require Import ZArith List Bool.
From Verif Require Import SpecHuffman SpecSegments SpecFile SpecExtend SpecBits SpecBlock SpecScript SpecImage SpecBaseline.
Import ListNotations.
Local Open Scope Z_scope.

(** The entropy-coded segments, separated by the restart markers D0 to D7 in turn; [k] is the
    number of the first one *)
Fixpoint restart_data (k : Z) (bss : list (list bool)) : list Z :=
  match bss with
  | [] => []
  | [b] => stuff (pack b)
  | b :: rest => stuff (pack b) ++ [255; 208 + k mod 8] ++ restart_data (k + 1) rest
  end.

(** Intervals of [ri] blocks, the last one may be shorter *)
Fixpoint intervals (ri : Z) (zss : list (list (list Z))) : Prop :=
  match zss with
  | [] => False
  | [zs] => 1 <= Z.of_nat (length zs) <= ri
  | zs :: rest => Z.of_nat (length zs) = ri /\ intervals ri rest
  end.

(** Number of bits of the last symbol of a block, with its additional bits: of the end-of-block
    code, or of the code for the last coefficient if that is not zero.  [run] zeros are pending,
    [zz] are the coefficients from the first AC coefficient on. *)
Fixpoint last_symbol (ac : code) (run : nat) (zz : list Z) : Z :=
  match zz with
  | [] => if Nat.eqb run 0 then 0 else code_len ac 0
  | v :: rest =>
      if v =? 0 then last_symbol ac (S run) rest
      else match rest with
           | [] => code_len ac (16 * Z.of_nat (Nat.modulo run 16) + category v) + category v
           | _ => last_symbol ac 0 rest
           end
  end.
(** The last symbol before each restart marker takes at most 24 bits *)
Fixpoint short_closes (ac : code) (zss : list (list (list Z))) : Prop :=
  match zss with
  | [] => True
  | [zs] => True
  | zs :: rest => last_symbol ac 0 (tl (last zs [])) <= 24 /\ short_closes ac rest
  end.

(** The file: Huffman tables may stand before the frame header, between it and the restart
    interval, and between that and the scan *)
Definition restart_file (ps : list pre) (q w h : Z) (tss1 : list (list huff_def)) (ri : Z)
  (tss2 : list (list huff_def)) (td ta : Z) (bss : list (list bool)) (sfx : list Z) : list Z :=
  [255; 216] ++ msegs_bytes (map pre_seg ps) ++ mseg_bytes (192, frame_payload h w (frame_comps (Gray q))) ++
  flat_map item_bytes (map Tables tss1) ++ mseg_bytes (221, [ri / 256; ri mod 256]) ++
  flat_map item_bytes (map Tables tss2) ++
  [255; 218] ++ segment [1; 1; 16 * td + ta; 0; 63; 0] ++ restart_data 0 bss ++ [255; 217] ++ sfx.

(** It is a file for the coefficients [concat zss] with a restart marker after every [ri] blocks;
    prediction starts anew in each interval *)
Record restart_gray (ps : list pre) (q w h : Z) (tss1 : list (list huff_def)) (ri : Z)
  (tss2 : list (list huff_def)) (td ta : Z) (zss : list (list (list Z))) (bss : list (list bool)) (sfx : list Z) : Prop := {
  rg_pre : Forall pre_ok ps;
  rg_layout : layout_ok (Gray q);
  rg_quants : has_quants ps (Gray q);
  rg_width : 0 < w <= 65527;
  rg_height : 0 < h <= 65527;
  rg_tables1 : Forall (fun ts => Forall huff_def_legal ts /\ fits (dht_payload ts)) tss1;
  rg_ri : 1 <= ri <= 65535;
  rg_tables2 : Forall (fun ts => Forall huff_def_legal ts /\ fits (dht_payload ts)) tss2;
  rg_sel : 0 <= td <= 3 /\ 0 <= ta <= 3;
  rg_dc : usable (huffs ps ++ concat tss1 ++ concat tss2) false td;
  rg_ac : usable (huffs ps ++ concat tss1 ++ concat tss2) true ta;
  rg_count : Z.of_nat (length (concat zss)) = (w + 7) / 8 * ((h + 7) / 8);
  rg_intervals : intervals ri zss;
  rg_bits : Forall2 (fun zs b => encode_blocks (code_at (huffs ps ++ concat tss1 ++ concat tss2) false td)
              (code_at (huffs ps ++ concat tss1 ++ concat tss2) true ta) 0 zs = Some b) zss bss;
  rg_blocks : Forall (with_pred (fun p zz => baseline_block p zz /\
                dc_short (code_at (huffs ps ++ concat tss1 ++ concat tss2) false td) p zz) 0) zss;
  rg_bytes : Forall byte sfx }.
