(** Progressive files with one component, two scans and restart intervals (T.81 B.2.4.4, G.1.2,
    G.2).  Nothing here refers to the decoder. *)
From Coq Require Import ZArith List Bool.
From Verif Require Import SpecHuffman SpecSegments SpecFile SpecExtend SpecBits SpecBlock SpecProg SpecScript SpecImage SpecBaseline SpecRestart.
Import ListNotations.
Local Open Scope Z_scope.

(** A scan of the DC coefficients and one of all AC coefficients; [dbs] and [abs] are the bits
    of their intervals *)
Definition prog_restart_file (ps : list pre) (q w h : Z) (tss : list (list huff_def)) (ri td ta : Z)
  (dbs abs : list (list bool)) (sfx : list Z) : list Z :=
  [255; 216] ++ msegs_bytes (map pre_seg ps) ++ mseg_bytes (194, frame_payload h w (frame_comps (Gray q))) ++
  flat_map item_bytes (map Tables tss) ++ mseg_bytes (221, [ri / 256; ri mod 256]) ++
  [255; 218] ++ segment [1; 1; 16 * td; 0; 0; 0] ++ restart_data 0 dbs ++
  [255; 218] ++ segment [1; 1; ta; 1; 63; 0] ++ restart_data 0 abs ++ [255; 217] ++ sfx.

(** It is a file for the coefficients [concat zss]: prediction starts anew in each interval, and
    no end-of-band run goes beyond its interval (T.81 G.1.2.2) *)
Record prog_restart (ps : list pre) (q w h : Z) (tss : list (list huff_def)) (ri td ta : Z)
  (zss : list (list (list Z))) (dbs abs : list (list bool)) (sfx : list Z) : Prop := {
  pr_pre : Forall pre_ok ps;
  pr_layout : layout_ok (Gray q);
  pr_quants : has_quants ps (Gray q);
  pr_width : 0 < w <= 65527;
  pr_height : 0 < h <= 65527;
  pr_tables : Forall (fun ts => Forall huff_def_legal ts /\ fits (dht_payload ts)) tss;
  pr_ri : 1 <= ri <= 65535;
  pr_sel : 0 <= td <= 3 /\ 0 <= ta <= 3;
  pr_dc : usable (huffs ps ++ concat tss) false td;
  pr_ac : usable (huffs ps ++ concat tss) true ta;
  pr_count : Z.of_nat (length (concat zss)) = (w + 7) / 8 * ((h + 7) / 8);
  pr_intervals : intervals ri zss;
  pr_dbits : Forall2 (fun zs b => encode_dc_first (code_at (huffs ps ++ concat tss) false td) 0 0 (map (hd 0) zs) = Some b) zss dbs;
  pr_abits : Forall2 (fun zs b => first_bands (code_at (huffs ps ++ concat tss) true ta) (map (band 0 1 63) zs) b) zss abs;
  pr_short : Forall (fun zs => dc_first_fits (code_at (huffs ps ++ concat tss) false td) 0 0 (map (hd 0) zs)) zss;
  pr_blocks : Forall (Forall (fun zz => length zz = 64%nat /\ Forall (fun v => Z.abs v <= 1023) zz)) zss;
  pr_bytes : Forall byte sfx }.
