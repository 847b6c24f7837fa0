(** Observations on progressive decoding used to state theorems. *)
From Coq Require Import ZArith String List Bool.
From Verif Require Import Base Types Huffman State Bitstream Headers Mcu McuProg.
From Verif Require Import SpecSegments SpecProg SpecScript Obs.
Import ListNotations.
Local Open Scope Z_scope.
Local Open Scope m_scope.

(** Read a scan header and decode the scan (src/mcu_prog.rs:107-113) *)
Definition one_scan : M pst unit :=
  on_hd parse_sos ;;;
  d <- getp ;;
  modps (fun st => update_progressive_params st (d_ah d) (d_al d) (d_ss d) (d_se d)) ;;;
  parse_entropy_coded_data.

(** [later_scans m s n s']: from state [s], where the marker [m] has just been read, tables
    are read and exactly [n] scans are decoded until another marker comes, in state [s'].
    There is no limit on the number of scans. *)
Inductive later_scans : marker -> pst -> nat -> pst -> Prop :=
| ls_stop m s : m <> DHT -> m <> SOS -> later_scans m s 0 s
| ls_tables s s1 m s2 n s' :
    on_hd parse_huffman s = (Ok tt, s1) -> get_marker s1 = (Ok (Some m), s2) ->
    later_scans m s2 n s' -> later_scans DHT s n s'
| ls_scan s s1 m s2 n s' :
    one_scan s = (Ok tt, s1) -> get_marker s1 = (Ok (Some m), s2) ->
    later_scans m (mkPst (p_dec s2) (bst_reset (p_st s2)) (p_buf s2)) n s' ->
    later_scans SOS s (S n) s'.

(** The first scan, whose header belongs to the file headers, and the state in which the loop
    over the others starts (src/mcu_prog.rs:49-96) *)
Definition first_scan (h : hst) (m : marker) (s' : pst) : Prop :=
  exists w hh buf s1, prog_counts (hd_dec h) = (w, hh) /\
    alloc_blocks (Z.to_nat (num_components (d_incs (hd_dec h)))) 0 w hh (d_comps (hd_dec h))
      [[]; []; []] = Ok buf /\
    parse_entropy_coded_data
      (mkPst (hd_dec h) (bst_new_progressive (d_ah (hd_dec h)) (d_al (hd_dec h)) (d_ss (hd_dec h))
                           (d_se (hd_dec h)) (hd_rd h)) buf) = (Ok tt, s1) /\
    b_marker (p_st s1) = Some m /\
    s' = mkPst (p_dec s1) (set_marker (p_st s1) None) (p_buf s1).

(** The tables a scan of component [c] uses: the DC table with the code given by [dcc] and
    [dcs], or the AC table with the code given by [acc] and [acs] *)
Definition dc_ready (d : decoder) (c : component) (dcc dcs : list Z) : Prop :=
  exists t, prog_table (d_dcts d) (Z.land (c_dct c) 3) = Ok t /\
    huffman_new (0 :: dcc) (dcs ++ zrepeat 0 (256 - zlen dcs)) true true = Ok t.
Definition ac_ready (d : decoder) (c : component) (acc acs : list Z) : Prop :=
  exists t, prog_table (d_acts d) (c_act c) = Ok t /\
    huffman_new (0 :: acc) (acs ++ zrepeat 0 (256 - zlen acs)) false true = Ok t.

(** The decoder is about to read a scan of the single component [k], which has [w] x [h]
    blocks in a buffer with [sb] blocks per row; no restart is due *)
Record scan_ready (d : decoder) (k : Z) (c : component) (w h sb : Z) : Prop := {
  sr_dims : check_component_dimensions d = Ok tt;
  sr_ncomp : 1 <= num_components (d_incs d);
  sr_one : d_nscans d = 1;
  sr_k : zn (d_zorder d) 0 = k;
  sr_c : zget (d_comps d) k = Some c;
  sr_wh : (w, h) = if is_y (c_cid c) || negb (d_inter d)
                   then (u16 (i_width (d_info d) + 7) / 8, u16 (i_height (d_info d) + 7) / 8)
                   else (d_mcux d, d_mcuy d);
  sr_w : 0 < w; sr_h : 0 <= h;
  sr_sb : sb = c_stride c / 8; sr_wsb : w <= sb;
  sr_todo : w * h < d_todo d < 2 ^ 64 }.

(** The decoder has read the headers of a progressive image with the components [cs] *)
Record frame_ok (d : decoder) (cs : list comp_data) : Prop := {
  fo_dims : check_component_dimensions d = Ok tt;
  fo_ncomp : num_components (d_incs d) = Z.of_nat (length cs);
  fo_prog : d_prog d = true;
  fo_len : (1 <= length cs <= 3)%nat;
  fo_comps : i_comps (d_info d) = Z.of_nat (length cs) /\ length (d_comps d) = length cs;
  fo_ids : NoDup (map cd_id cs);
  fo_comp : forall k cd, nth_error cs k = Some cd ->
    exists c, zget (d_comps d) (Z.of_nat k) = Some c /\ c_id c = cd_id cd /\
      0 <= cd_id cd <= Z.of_nat (length cs) /\
      (cd_w cd, cd_h cd)
        = (if is_y (c_cid c) || negb (d_inter d)
           then (u16 (i_width (d_info d) + 7) / 8, u16 (i_height (d_info d) + 7) / 8)
           else (d_mcux d, d_mcuy d)) /\
      0 < cd_w cd /\ 0 <= cd_h cd /\ cd_w cd <= c_stride c / 8 /\
      (* the coefficient buffer is large enough *)
      64 * (c_stride c / 8) * cd_h cd
        <= fst (prog_counts d) * 64 * c_v c * c_h c * snd (prog_counts d) }.

(** The decoder without what scan headers, tables and scans change *)
Definition erase_c (c : component) : component := set_c_act 0 (set_c_dct 0 (set_c_pred 0 c)).
Definition erase (d : decoder) : decoder :=
  set_d_todo 0 (set_d_nscans 0 (set_d_zorder [] (set_d_comps (map erase_c (d_comps d))
    (set_d_al 0 (set_d_ah 0 (set_d_se 0 (set_d_ss 0 (set_d_acts [] (set_d_dcts [] d))))))))).

(** The coefficients held by the decoder are what [Ks] says of those of the image *)
Definition planes_show (d : decoder) (cs : list comp_data) (Ks : list knowledge) (buf : list (list Z)) : Prop :=
  forall k cd, nth_error cs k = Some cd ->
    exists c K plane, zget (d_comps d) (Z.of_nat k) = Some c /\ nth_error Ks k = Some K /\
      zget buf (Z.of_nat k) = Some plane /\
      64 * (c_stride c / 8) * cd_h cd <= zlen plane /\
      shows (cd_w cd) (c_stride c / 8) (cd_blocks cd) K plane.

(** The tables sent so far are in place, built for progressive decoding or not *)
Definition holds_with (prog : bool) (d : decoder) (tabs : list huff_def) : Prop :=
  tables4 d /\ Forall huff_def_legal tabs /\
  forall ac dest t, 0 <= dest <= 3 -> last_huff tabs ac dest = Some t ->
    exists h, slot d ac dest = Some h /\
      huffman_new (0 :: hf_counts t) (hf_symbols t ++ zrepeat 0 (256 - zlen (hf_symbols t))) (negb ac) prog = Ok h.
Definition holds_tables := holds_with true.
