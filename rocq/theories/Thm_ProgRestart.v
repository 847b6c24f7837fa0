(** Refutations for progressive files with restart intervals (C35, C37). *)
From Coq Require Import ZArith String List Bool Lia.
From Verif Require Import Base Types Huffman State Bitstream Headers Mcu McuProg Decoder.
From Verif Require Import SpecHuffman SpecSegments SpecExtend SpecBits SpecBlock SpecProg SpecScript SpecImage SpecBaseline SpecRestart SpecProgRestart SpecDct SpecPixels.
From Verif Require HuffmanPrefix.
From Verif Require Import Obs ExTools.
Import ListNotations.
Local Open Scope Z_scope.

(** 31 by 7 pixels, that is four blocks; the intervals have two blocks.  Every block has a
    nonzero AC coefficient, so there are no end-of-band runs beyond a block. *)
Definition pr_dct : huff_def := mkHuffDef false 0 (1 :: 1 :: repeat 0 14) [3; 0].
Definition pr_act : huff_def := mkHuffDef true 1 (1 :: 1 :: 1 :: repeat 0 13) [2; 16; 0].
Definition pr_ps : list pre := [Quant [mkQuantDef 2 (repeat 3 64)]].
Definition pr_zss : list (list (list Z)) :=
  [[5 :: 3 :: repeat 0 62; 5 :: 2 :: repeat 0 62]; [5 :: 3 :: repeat 0 62; 5 :: 2 :: repeat 0 62]].
Definition pr_dbs : list (list bool) :=
  [[false; true; false; true; true; false]; [false; true; false; true; true; false]].
Definition pr_abs : list (list bool) :=
  let b := [false; true; true; true; true; false; false; true; false; true; true; false] in [b; b].

Lemma pr_dct_legal : huff_def_legal pr_dct.
Proof.
  unfold huff_def_legal. cbn [hf_dest hf_counts hf_symbols hf_ac pr_dct]. split; [lia|].
  assert (H : table_def (1 :: 1 :: repeat 0 14) [3; 0]) by (apply table_defb_ok; vm_compute; reflexivity).
  split; [exact H|]. split.
  - eexists. apply HuffmanPrefix.canonical_prefix_code with [3; 0]; [apply H|vm_compute; reflexivity].
  - intros _. repeat constructor; lia.
Qed.
Lemma pr_act_legal : huff_def_legal pr_act.
Proof.
  unfold huff_def_legal. cbn [hf_dest hf_counts hf_symbols hf_ac pr_act]. split; [lia|].
  assert (H : table_def (1 :: 1 :: 1 :: repeat 0 13) [2; 16; 0]) by (apply table_defb_ok; vm_compute; reflexivity).
  split; [exact H|]. split; [|discriminate].
  eexists. apply HuffmanPrefix.canonical_prefix_code with [2; 16; 0]; [apply H|vm_compute; reflexivity].
Qed.
Definition pr_code : code := code_of (hf_counts pr_act) (hf_symbols pr_act).
Lemma pr_coef v x : Z.abs v = 2 \/ Z.abs v = 3 -> extra v = x -> first_band pr_code (v :: repeat 0 62) 0 ([false] ++ x ++ [true; true; false])%list.
Proof.
  intros Hv <-. change (v :: repeat 0 62) with (repeat 0 0 ++ v :: repeat 0 62)%list. apply fb_coef.
  - lia.
  - lia.
  - assert (Hc : v = -3 \/ v = -2 \/ v = 2 \/ v = 3) by lia. destruct Hc as [->|[->|[->| ->]]]; vm_compute; reflexivity.
  - change 0%nat with (Z.to_nat (2 ^ Z.of_nat 0 + 0 - 1)).
    change [true; true; false] with ([true; true; false] ++ bits_of 0 0)%list. apply fb_eob; [lia|lia|cbn; lia|vm_compute; reflexivity].
Qed.
Lemma pr_bands : first_bands pr_code (map (band 0 1 63) [5 :: 3 :: repeat 0 62; 5 :: 2 :: repeat 0 62])
  [false; true; true; true; true; false; false; true; false; true; true; false].
Proof.
  change (map (band 0 1 63) [5 :: 3 :: repeat 0 62; 5 :: 2 :: repeat 0 62]) with [3 :: repeat 0 62; 2 :: repeat 0 62].
  apply (fbs_band pr_code (3 :: repeat 0 62) 0 [false; true; true; true; true; false] [] [2 :: repeat 0 62] [false; true; false; true; true; false]).
  - exact (pr_coef 3 [true; true] ltac:(lia) eq_refl).
  - reflexivity.
  - constructor.
  - apply (fbs_band pr_code (2 :: repeat 0 62) 0 [false; true; false; true; true; false] [] [] []).
    + exact (pr_coef 2 [true; false] ltac:(lia) eq_refl).
    + reflexivity.
    + constructor.
    + constructor.
Qed.
Ltac pr_small := repeat (apply Forall_cons; [vm_compute; discriminate|]); apply Forall_nil.
Lemma pr_image : prog_restart pr_ps 2 31 7 [[pr_dct; pr_act]] 2 0 1 pr_zss pr_dbs pr_abs [9].
Proof.
  split; try lia.
  - constructor; [|constructor]. split; [|vm_compute; discriminate]. constructor; [|constructor].
    split; [cbn; lia|]. split; [reflexivity|]. apply forallb_byte. reflexivity.
  - cbn. lia.
  - constructor; [discriminate|constructor].
  - constructor; [|constructor]. split; [constructor; [apply pr_dct_legal|constructor; [apply pr_act_legal|constructor]]|vm_compute; discriminate].
  - eexists. split; [reflexivity|discriminate].
  - eexists. split; [reflexivity|]. intros _. cbn [hf_counts hf_symbols pr_act]. apply codes_long; vm_compute; reflexivity.
  - reflexivity.
  - cbn. lia.
  - constructor; [reflexivity|]. constructor; [reflexivity|]. constructor.
  - constructor; [exact pr_bands|]. constructor; [exact pr_bands|]. constructor.
  - constructor; [vm_compute; repeat split; discriminate|]. constructor; [vm_compute; repeat split; discriminate|]. constructor.
  - apply Forall_cons; [apply Forall_cons; [split; [reflexivity|pr_small]|apply Forall_cons; [split; [reflexivity|pr_small]|apply Forall_nil]]|apply Forall_cons; [apply Forall_cons; [split; [reflexivity|pr_small]|apply Forall_cons; [split; [reflexivity|pr_small]|apply Forall_nil]]|apply Forall_nil]].
  - apply forallb_byte. reflexivity.
Qed.
Lemma pr_range : Forall (in_range (repeat 3 64)) (concat pr_zss).
Proof.
  repeat constructor; intros; try (cbn; lia).
  all: do 64 (destruct k as [|k]; [cbn; lia|]); lia.
Qed.

(** C35 is false for progressive files: a correct one is rejected, because the counter of the
    first scan ends at the header of the second. *)
Theorem C35_prog_refuted : exists o ps q t w h tss ri td ta zss dbs abs sfx,
  prog_restart ps q w h tss ri td ta zss dbs abs sfx /\
  w <= o_max_width o /\ h <= o_max_height o /\ 2 <= o_max_scans o /\ last_quant (quants ps) q = Some t /\
  Forall (in_range (qd_values t)) (concat zss) /\ 64 * ((w + 7) / 8) < 9 * w /\
  Forall (fun zz => ~ all_zero (tl zz)) (concat zss) /\
  forall cpu, exists e, fst (decode_buffer (new_with_options cpu o) (prog_restart_file ps q w h tss ri td ta dbs abs sfx)) = Err e.
Proof.
  exists default_options, pr_ps, 2, (mkQuantDef 2 (repeat 3 64)), 31, 7, [[pr_dct; pr_act]], 2, 0, 1, pr_zss, pr_dbs, pr_abs, [9].
  split; [exact pr_image|]. split; [cbn; lia|]. split; [cbn; lia|]. split; [cbn; lia|]. split; [reflexivity|]. split; [exact pr_range|]. split; [lia|].
  split. { unfold pr_zss. cbn [concat app]. repeat (apply Forall_cons; [cbn [tl]; intros H; apply Forall_inv in H; discriminate|]). apply Forall_nil. }
  intros []; (eexists; vm_compute; reflexivity).
Qed.
Print Assumptions C35_prog_refuted.

(** One scan of a band over four blocks with intervals of three: the first interval is a run *)
Definition rr_zss : list (list (list Z)) := [[repeat 0 64; repeat 0 64; repeat 0 64]; [0 :: 3 :: repeat 0 62]].
Definition rr_abs : list (list bool) := [[true; false; true]; [false; true; true; true; true; false]].
Definition rr_dec (t : hufftable) : decoder :=
  set_d_todo 3 (set_d_ri 3 (set_d_ss 1 (set_d_se 63 (set_d_comps [mkComp CY 1 1 0 0 0 [] 0 UpNoOp 32 1]
    (set_d_acts [Some t; None; None; None] (new Scalar)))))).

Definition rr_run (t : hufftable) : bool :=
  match fst (scan_blocks (Z.to_nat (1 * (4 + 1) + 1)) 0 4 1 0 0
    (mkPst (rr_dec t) (bst_new_progressive 0 0 1 63 (restart_data 0 rr_abs ++ [255; 217])) [repeat 0 256])) with
  | Err _ => true | _ => false end.
Definition rr_table : res hufftable :=
  huffman_new (0 :: hf_counts pr_act) (hf_symbols pr_act ++ zrepeat 0 (256 - zlen (hf_symbols pr_act))) false true.
Lemma is_err {A} (r : res A) : match r with Err _ => true | _ => false end = true -> exists e, r = Err e.
Proof. destruct r; eauto; discriminate. Qed.
Lemma rr_wrong : exists t, rr_table = Ok t /\ rr_run t = true.
Proof.
  assert (H : match rr_table with Ok t => rr_run t | _ => false end = true) by (vm_compute; reflexivity).
  destruct rr_table as [t| | |]; [eauto|discriminate..].
Qed.

Lemma rr_err t : rr_run t = true -> exists e, fst (scan_blocks (Z.to_nat (1 * (4 + 1) + 1)) 0 4 1 0 0
    (mkPst (rr_dec t) (bst_new_progressive 0 0 1 63 (restart_data 0 rr_abs ++ [255; 217])) [repeat 0 256])) = Err e.
Proof. unfold rr_run. apply is_err. Qed.
Lemma rr_data : Forall2 (fun zs b => first_bands (code_of (hf_counts pr_act) (hf_symbols pr_act)) (map (band 0 1 63) zs) b) rr_zss rr_abs.
Proof.
  constructor; [|constructor; [|constructor]].
  - change (map (band 0 1 63) [repeat 0 64; repeat 0 64; repeat 0 64]) with (repeat 0 63 :: [repeat 0 63; repeat 0 63] ++ []).
    apply (fbs_band pr_code (repeat 0 63) 2 [true; false; true] [repeat 0 63; repeat 0 63] [] []).
    + change 2%nat with (Z.to_nat (2 ^ Z.of_nat 1 + 1 - 1)).
      change [true; false; true] with ([true; false] ++ bits_of 1 1)%list. apply fb_eob; [lia|lia|cbn; lia|vm_compute; reflexivity].
    + reflexivity.
    + repeat constructor.
    + constructor.
  - change (map (band 0 1 63) [0 :: 3 :: repeat 0 62]) with [3 :: repeat 0 62].
    apply (fbs_band pr_code (3 :: repeat 0 62) 0 [false; true; true; true; true; false] [] [] []).
    + exact (pr_coef 3 [true; true] ltac:(lia) eq_refl).
    + reflexivity.
    + constructor.
    + constructor.
Qed.

(** C37 is false with restart intervals: blocks skipped by a run do not count for the interval,
    so the marker after them is missed.  The other hypotheses are those of [C37_runs_partial]. *)
Theorem C37_restart_refuted : exists counts symbols t ri zss abs k w h c d plane buf,
  table_def counts symbols /\ huffman_new (0 :: counts) (symbols ++ zrepeat 0 (256 - zlen symbols)) false true = Ok t /\
  intervals ri zss /\ Forall2 (fun zs b => first_bands (code_of counts symbols) (map (band 0 1 63) zs) b) zss abs /\
  Z.of_nat (length (concat zss)) = w * h /\ d_ri d = ri /\ d_todo d = ri /\
  0 < w /\ 0 <= h /\ d_ss d <> 0 /\ d_ah d = 0 /\ zget (d_comps d) k = Some c /\ prog_table (d_acts d) (c_act c) = Ok t /\
  zget buf k = Some plane /\ w <= c_stride c / 8 /\ 64 * (c_stride c / 8) * h <= zlen plane /\
  exists e, fst (scan_blocks (Z.to_nat (h * (w + 1) + 1)) k w h 0 0
    (mkPst d (bst_new_progressive 0 0 1 63 (restart_data 0 abs ++ [255; 217])) buf)) = Err e.
Proof.
  destruct rr_wrong as (t & E & R). unfold rr_table in E.
  exists (hf_counts pr_act), (hf_symbols pr_act), t, 3, rr_zss, rr_abs, 0, 4, 1, (mkComp CY 1 1 0 0 0 [] 0 UpNoOp 32 1), (rr_dec t), (repeat 0 256), [repeat 0 256].
  split; [apply pr_act_legal|]. split; [exact E|]. split; [cbn; lia|]. split; [exact rr_data|].
  split; [reflexivity|]. split; [reflexivity|]. split; [reflexivity|]. split; [lia|]. split; [lia|]. split; [discriminate|]. split; [reflexivity|].
  split; [reflexivity|]. split; [reflexivity|]. split; [reflexivity|]. split; [cbn; lia|]. split; [vm_compute; discriminate|].
  exact (rr_err t R).
Qed.
Print Assumptions C37_restart_refuted.
