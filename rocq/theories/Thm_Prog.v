(** Theorems about progressive images (C37, C39). *)
From Coq Require Import ZArith String List Bool Lia.
From Verif Require Import Base Types Huffman State Bitstream Headers Mcu McuProg Decoder.
From Verif Require Import SpecSegments SpecBits SpecProg Session Files ExTools Obs ObsProg ProgFacts.
Import ListNotations.
Local Open Scope Z_scope.

(** C37.  The first scan of a band over a component of [w] x [h] blocks does what [run_scan]
    does: a run leaves as many blocks alone as it announces, across the ends of rows, and the
    block after it is decoded next.  With restart intervals the claim is false ([C37_restart_refuted]). *)
Theorem C37_runs_partial : forall k w h c t d st buf plane,
  0 < w -> 0 <= h -> w * h < d_todo d < 2 ^ 64 ->
  d_ss d <> 0 -> d_ah d = 0 -> zget (d_comps d) k = Some c -> prog_table (d_acts d) (c_act c) = Ok t ->
  zget buf k = Some plane -> w <= c_stride c / 8 -> 64 * (c_stride c / 8) * h <= zlen plane ->
  let r := scan_blocks (Z.to_nat (h * (w + 1) + 1)) k w h 0 0 (mkPst d st buf) in
  match run_scan (decode_mcu_ac_first t) (block_at w (c_stride c / 8)) (Z.to_nat (w * h)) 0 st plane with
  | (Ok plane', _) => fst r = Ok tt /\ p_buf (snd r) = zset buf k plane'
  | (Err e, _) => fst r = Err e
  | (Panic p, _) => fst r = Panic p
  | (Fuel, _) => fst r = Fuel
  end.
Proof. exact C37_lemma. Qed.
Print Assumptions C37_runs_partial.

(** Two rows of three blocks, in a buffer with four blocks per row.  The first block gets a
    coefficient and announces a run of three blocks, counting itself; so does the first block
    of the second row. *)
Definition run_table : res hufftable :=
  huffman_new (0 :: 1 :: 1 :: repeat 0 14) ([16; 1] ++ zrepeat 0 254) false true.
Example C37_case :
  match run_table with
  | Ok t =>
      let c := mkComp CY 1 1 0 0 0 [] 0 UpNoOp 32 1 in
      let d := set_d_ss 1 (set_d_se 63 (set_d_comps [c] (set_d_acts [Some t; None; None; None] (new Scalar)))) in
      let st := bst_new_progressive 0 0 1 63
                  (scan [true; false; true; false; true; true; false; false; false; true] ++ eoi) in
      let plane := repeat 7 (64 * 8) in
      (3 * 2 < d_todo d < 2 ^ 64) /\ prog_table (d_acts d) (c_act c) = Ok t /\
      zget [plane] 0 = Some plane /\ 3 <= c_stride c / 8 /\ 64 * (c_stride c / 8) * 2 <= zlen plane /\
      (let r := scan_blocks 9 0 3 2 0 0 (mkPst d st [plane]) in
       fst r = Ok tt /\
       p_buf (snd r) = [[7; 1] ++ repeat 7 254 ++ [7; -1] ++ repeat 7 254]%list)
  | _ => False
  end.
Proof. vm_compute. repeat split; discriminate. Qed.

(** C39.  When a progressive file decodes, the number of its scans is within the limit ... *)
Theorem C39_limit : forall cpu o cs buf px d' h1,
  Forall legal_call cs -> Forall byte buf ->
  decode_headers (mkHst (after cpu o cs) buf) = (Ok tt, h1) ->
  i_sof (d_info (hd_dec h1)) = ProgressiveDctHuffman ->
  decode_buffer (after cpu o cs) buf = (Ok px, d') ->
  exists m s n s', first_scan h1 m s /\ later_scans m s n s' /\
    Z.of_nat (1 + n) <= Z.max 1 (o_max_scans (d_opt (after cpu o cs))).
Proof. exact C39_limit_lemma. Qed.
Print Assumptions C39_limit.

(** ... and exactly the files with more scans are rejected for that reason; for all others
    decoding continues with the coefficients. *)
Theorem C39_exact : forall cpu o cs buf h1 m s n s',
  Forall legal_call cs -> Forall byte buf ->
  decode_headers (mkHst (after cpu o cs) buf) = (Ok tt, h1) ->
  i_sof (d_info (hd_dec h1)) = ProgressiveDctHuffman ->
  first_scan h1 m s -> later_scans m s n s' ->
  let lim := o_max_scans (d_opt (after cpu o cs)) in
  if (n =? 0)%nat || (Z.of_nat (1 + n) <=? lim)
  then fst (decode_buffer (after cpu o cs) buf)
       = fst (finish_progressive_decoding (fst (prog_counts (hd_dec h1)) * 64) s')
  else fst (decode_buffer (after cpu o cs) buf) = Err (EFormat "Too many scans, exceeded limit" [lim]).
Proof. exact C39_excess_lemma. Qed.
Print Assumptions C39_exact.

(** A file with [n] DC refinement scans after the first: three scans pass a limit of three and
    fail a limit of two; a single scan passes any limit. *)
Definition scans_file (n : nat) : list Z :=
  (soi ++ dqt 1 ++ sof 194 8 16 [(1, 17)] ++ dht_tiny ++ sos_at [1] 0 0 1 ++ scan [false; false]
   ++ concat (repeat (sos_at [1] 0 0 16 ++ scan [false; true]) n) ++ eoi)%list.
Example C39_case :
  let run n lim := fst (decode_buffer (new_with_options Scalar (set_max_scans default_options lim)) (scans_file n)) in
  Forall byte (scans_file 2) /\
  (exists h1, decode_headers (mkHst (new_with_options Scalar default_options) (scans_file 2)) = (Ok tt, h1) /\
     i_sof (d_info (hd_dec h1)) = ProgressiveDctHuffman) /\
  (exists px, run 2%nat 3 = Ok px) /\
  run 2%nat 2 = Err (EFormat "Too many scans, exceeded limit" [2]) /\
  (exists px, run 0%nat 0 = Ok px) /\
  run 1%nat 0 = Err (EFormat "Too many scans, exceeded limit" [0]).
Proof.
  cbv zeta. split; [apply forallb_byte; vm_compute; reflexivity|].
  split; [eexists; split; [vm_compute; reflexivity|reflexivity]|].
  split; [eexists; vm_compute; reflexivity|]. split; [vm_compute; reflexivity|].
  split; [eexists; vm_compute; reflexivity|]. vm_compute. reflexivity.
Qed.
