(** Theorems about whole progressive files (C38, C47). *)
From Coq Require Import ZArith String List Bool Lia.
From Verif Require Import Base Types Huffman State Bitstream Headers Mcu McuProg Decoder.
From Verif Require Import SpecHuffman SpecSegments SpecExtend SpecBits SpecBlock SpecProg SpecInter SpecScript SpecImage.
From Verif Require Import Obs ObsProg ExTools ProgImage.
Import ListNotations.
Local Open Scope Z_scope.

(** C38.  Of a file whose scans send the coefficients [cs] in any valid order of scans and with
    any number of refinements, the decoder knows before the inverse DCT what the scans teach
    ([dc_known] and [ac_known] down to the last bit sent), and its result is computed from
    that; or it gives up after the first scan, which does not happen if that ends with a short
    code.  Missing: restart intervals, tables before the frame header, and codes excluded by
    [usable], [dc_first_fits] and [dc_units_fit]. *)
Theorem C38_file_partial : forall cpu o ps l w h cs is Ks n sfx,
  progressive_image ps l w h cs is Ks n sfx ->
  w <= o_max_width o -> h <= o_max_height o -> n <= o_max_scans o ->
  let r := fst (decode_buffer (new_with_options cpu o) (file 194 ps l w h is sfx)) in
  (exists s, planes_show (p_dec s) cs Ks (p_buf s) /\
     r = fst (finish_progressive_decoding (fst (prog_counts (p_dec s)) * 64) s)) \/
  r = Err missing_marker /\ ~ short_end (image_geo l w h) cs [] is.
Proof. exact C38_lemma. Qed.
Print Assumptions C38_file_partial.

(** If the scans go down to bit 0 for every coefficient, these are the coefficients themselves. *)
Theorem C38_complete_partial : forall cpu o ps l w h cs is Ks n sfx,
  progressive_image ps l w h cs is Ks n sfx -> Forall complete Ks -> short_end (image_geo l w h) cs [] is ->
  w <= o_max_width o -> h <= o_max_height o -> n <= o_max_scans o ->
  exists s, planes_show (p_dec s) cs (map (fun _ _ v => v) Ks) (p_buf s) /\
    fst (decode_buffer (new_with_options cpu o) (file 194 ps l w h is sfx))
    = fst (finish_progressive_decoding (fst (prog_counts (p_dec s)) * 64) s).
Proof. exact C38_complete_lemma. Qed.
Print Assumptions C38_complete_partial.

(** At no time is the sign of a coefficient wrong. *)
Theorem C38_sign : forall al v, 0 <= al ->
  (ac_known al v = 0 \/ Z.sgn (ac_known al v) = Z.sgn v) /\ Z.abs (v - ac_known al v) < 2 ^ al /\
  0 <= v - dc_known al v < 2 ^ al.
Proof. exact known_near. Qed.
Print Assumptions C38_sign.

(** A grayscale image of two blocks: a first DC scan without the last bit, its refinement, a
    first scan of all AC coefficients without the last bit, and its refinement. *)
Definition ex_dc : huff_def := mkHuffDef false 0 (1 :: 1 :: repeat 0 14) [2; 0].
Definition ex_ac : huff_def := mkHuffDef true 0 (1 :: 1 :: repeat 0 14) [1; 16].
Definition ex_q : list pre := [Skip 225 [1; 2; 3]; Quant [mkQuantDef 0 (repeat 3 64)]].
Definition ex_cd : comp_data := mkCompData 1 2 1 [[5; -3; 1] ++ repeat 0 61; -2 :: repeat 0 63]%list.
Definition ex_cs : list comp_data := [ex_cd].
Definition ex_is : list item :=
  [Tables [ex_dc; ex_ac];
   Scan 1 0 0 0 0 0 1 [false; true; false; false; false; false];
   Scan 1 0 0 0 0 1 0 [true; false];
   Scan 1 0 0 1 63 0 1 [false; false; true; false; false];
   Scan 1 0 0 1 63 1 0 [false; true; true; true; false; false]].
Definition ex_K : knowledge :=
  scan_learns (scan_learns (scan_learns (scan_learns nothing 0 0 1) 0 0 0) 1 63 1) 1 63 0.

Lemma ex_dc_legal : huff_def_legal ex_dc.
Proof.
  unfold huff_def_legal. cbn [hf_dest hf_counts hf_symbols hf_ac ex_dc]. split; [lia|].
  assert (H : table_def (1 :: 1 :: repeat 0 14) [2; 0]) by (apply table_defb_ok; vm_compute; reflexivity).
  split; [exact H|]. split.
  - eexists. apply HuffmanPrefix.canonical_prefix_code with [2; 0]; [apply H|vm_compute; reflexivity].
  - intros _. repeat constructor; lia.
Qed.
Lemma ex_ac_legal : huff_def_legal ex_ac.
Proof.
  unfold huff_def_legal. cbn [hf_dest hf_counts hf_symbols hf_ac ex_ac]. split; [lia|].
  assert (H : table_def (1 :: 1 :: repeat 0 14) [1; 16]) by (apply table_defb_ok; vm_compute; reflexivity).
  split; [exact H|]. split; [|discriminate].
  eexists. apply HuffmanPrefix.canonical_prefix_code with [1; 16]; [apply H|vm_compute; reflexivity].
Qed.
Lemma ex_usable : usable [ex_dc; ex_ac] false 0 /\ usable [ex_dc; ex_ac] true 0.
Proof.
  split; eexists; (split; [reflexivity|]); [discriminate|].
  intros _. cbn [hf_counts hf_symbols ex_ac]. apply codes_long; vm_compute; reflexivity.
Qed.
Lemma ex_script g : script g ex_cs [] [nothing] ex_is [ex_K] 4 8.
Proof.
  destruct ex_usable as [Ud Ua].
  apply sc_tables; [constructor; [apply ex_dc_legal|constructor; [apply ex_ac_legal|constructor]]|vm_compute; discriminate|].
  cbn [app].
  eapply (script_one _ _ _ _ 0 ex_cd 0 0 0 0 0 1 _ _ [ex_K] 3 6); [reflexivity| |
  eapply (script_one _ _ _ _ 0 ex_cd 0 0 0 0 1 0 _ _ [ex_K] 2 4); [reflexivity| |
  eapply (script_one _ _ _ _ 0 ex_cd 0 0 1 63 0 1 _ _ [ex_K] 1 2); [reflexivity| |
  eapply (script_one _ _ _ _ 0 ex_cd 0 0 1 63 1 0 _ _ [ex_K] 0 0); [reflexivity| |
  apply sc_end]]]].
  - eexists _, _. split; [reflexivity|]. split; [reflexivity|]. split; [lia|]. split; [lia|].
    split; [repeat split; lia || (now left)|]. split; [exact Ud|].
    split; [reflexivity|]. cbn. repeat split; discriminate.
  - eexists _, _. split; [reflexivity|]. split; [reflexivity|]. split; [lia|]. split; [lia|].
    split; [|split; [exact Ud|reflexivity]].
    split; [lia|]. split; [lia|]. split; [now right|]. split; [reflexivity|]. right. reflexivity.
  - eexists _, _. split; [reflexivity|]. split; [reflexivity|]. split; [lia|]. split; [lia|].
    split; [|split; [exact Ua|]].
    + split; [lia|]. split; [lia|]. split; [now left|]. cbn [Z.eqb]. split; [lia|]. split; [lia|].
      intros k v Hk. cbn -[Z.leb]. unfold scan_learns, learn, nothing. cbn.
      replace (k <=? 0) with false by lia. now rewrite !andb_false_r.
    + change (first_bands (code_at [ex_dc; ex_ac] true 0)
        (((repeat 0 0 ++ -1 :: repeat 0 62) :: [repeat 0 63] ++ []))
        (([false] ++ extra (-1) ++ [true; false] ++ bits_of 1 0) ++ []))%list.
      apply fbs_band with (n := 1%nat); [|reflexivity|repeat constructor|constructor].
      apply fb_coef; [lia|discriminate|reflexivity|].
      exact (fb_eob _ 62 1 0 _ ltac:(lia) ltac:(lia) ltac:(lia) eq_refl).
  - eexists _, _. split; [reflexivity|]. split; [reflexivity|]. split; [lia|]. split; [lia|].
    split; [|split; [exact Ua|]].
    + split; [lia|]. split; [lia|]. split; [now right|]. cbn [Z.eqb]. split; [lia|]. split; [lia|].
      intros k v Hk. unfold scan_learns, learn, nothing. cbn [Z.eqb].
      replace ((1 <=? k) && (k <=? 63)) with true by lia. reflexivity.
    + change (refine_bands (code_at [ex_dc; ex_ac] true 0)
        ((([-3] ++ 1 :: repeat 0 61) :: [repeat 0 63] ++ []))
        (([false] ++ [true] ++ [true] ++ [true; false] ++ bits_of 1 0 ++ corrections (repeat 0 61)) ++
         concat (map corrections [repeat 0 63]) ++ []))%list.
      apply rbs_band with (n := 1%nat); [|reflexivity|repeat constructor|constructor].
      apply (rb_new _ [-3] 1 (repeat 0 61)); [constructor; [right; cbn; lia|constructor]|cbn; lia|reflexivity|reflexivity|].
      apply (rb_eob _ (repeat 0 61) 1 0); [discriminate|repeat constructor|lia|lia|reflexivity].
Qed.
Example C38_case : progressive_image ex_q (Gray 0) 15 7 ex_cs ex_is [ex_K] 4 [9; 9] /\
  Forall complete [ex_K] /\ short_end (image_geo (Gray 0) 15 7) ex_cs [] ex_is.
Proof.
  split; [split|split].
  - constructor; [|constructor; [|constructor]].
    + split; [right; lia|]. split; [apply forallb_byte; reflexivity|vm_compute; discriminate].
    + split; [|vm_compute; discriminate]. constructor; [|constructor].
      split; [cbn; lia|]. split; [reflexivity|]. apply forallb_byte. vm_compute. reflexivity.
  - vm_compute. split; discriminate.
  - repeat constructor. vm_compute. discriminate.
  - lia.
  - lia.
  - reflexivity.
  - split; [reflexivity|]. intros [|[|k]] cd; [intros [= <-]; repeat split|discriminate|discriminate].
  - repeat constructor; cbn; lia.
  - exists 8. split; [apply ex_script|lia].
  - lia.
  - apply forallb_byte. vm_compute. reflexivity.
  - constructor; [|constructor]. intros k v Hk. unfold ex_K, scan_learns, learn. cbn [Z.eqb].
    destruct (Z.leb_spec 1 k); destruct (Z.leb_spec k 63); cbn [andb]; try lia.
    + destruct (known_near 0 v); [lia|]. lia.
    + replace k with 0 by lia. cbn. destruct (known_near 0 v); [lia|]. lia.
  - cbn. split; [reflexivity|]. split; [reflexivity|]. eexists. split; [left; reflexivity|]. split; [reflexivity|].
    vm_compute. discriminate.
Qed.

(** A colour image of 7 by 9 pixels with 2x2 subsampled chrominance: the DC coefficients of all
    components come in one scan without the last bit and one refinement, each of which has two
    blocks of luminance outside the image. *)
Definition in_ac : huff_def := mkHuffDef true 0 (1 :: 1 :: 1 :: repeat 0 13) [1; 16; 0].
Definition in_q : list pre := [Quant [mkQuantDef 0 (repeat 3 64)]].
Definition in_cd0 : comp_data := mkCompData 1 1 2 [5 :: repeat 0 63; -2 :: repeat 0 63].
Definition in_cd1 : comp_data := mkCompData 2 1 1 [4 :: repeat 0 63].
Definition in_cd2 : comp_data := mkCompData 3 1 1 [-4 :: repeat 0 63].
Definition in_cs : list comp_data := [in_cd0; in_cd1; in_cd2].
Definition in_sel : list (Z * Z * Z) := [(1, 0, 0); (2, 0, 0); (3, 0, 0)].
Definition in_is : list item :=
  [Tables [ex_dc; in_ac];
   DcScan in_sel 0 1 [false; true; false; true; false; false; false; false; true; false; false; true; false; false; false; true];
   DcScan in_sel 1 0 [true; false; false; false; false; false];
   Scan 1 0 0 1 63 0 0 [true; false; false];
   Scan 2 0 0 1 63 0 0 [true; true; false];
   Scan 3 0 0 1 63 0 0 [true; true; false]].
Definition in_V (k : nat) (x y : Z) : Z :=
  match k with 0%nat => if y =? 0 then (if x =? 0 then 5 else 4) else -2 | 1%nat => 4 | _ => -4 end.
Definition in_K : knowledge := scan_learns (scan_learns (scan_learns nothing 0 0 1) 0 0 0) 1 63 0.
Definition in_geo : geometry := image_geo (Colour 2 2 0 0 0) 7 9.

Lemma in_data ah al bits : dc_units_data (sel_code [ex_dc; in_ac] [0; 1; 2]%nat in_sel) ah al (unit_values in_V (scan_units in_geo [0; 1; 2]%nat)) bits ->
  dc_scan_data in_geo in_cs [ex_dc; in_ac] [0; 1; 2]%nat in_sel ah al in_V bits.
Proof.
  intros H. split; [|split; [|exact H]].
  - intros k x y. unfold in_V. destruct k as [|[|k]]; [destruct (y =? 0); [destruct (x =? 0)|]| |]; lia.
  - intros k c x y [<-|[<-|[<-|[]]]] [= <-]; cbn [cd_w cd_h cd_blocks in_cd0 in_cd1 in_cd2]; intros Hx Hy;
      replace x with 0 by lia; [|now replace y with 0 by lia|now replace y with 0 by lia].
    assert (y = 0 \/ y = 1) as [-> | ->] by lia; reflexivity.
Qed.
Lemma in_usable : usable [ex_dc; in_ac] false 0 /\ usable [ex_dc; in_ac] true 0.
Proof.
  split; eexists; (split; [reflexivity|]); [discriminate|].
  intros _. cbn [hf_counts hf_symbols in_ac]. apply codes_long; vm_compute; reflexivity.
Qed.
Lemma in_next_ac : scan_next (scan_learns (scan_learns nothing 0 0 1) 0 0 0) 1 63 0 0.
Proof.
  split; [lia|]. split; [lia|]. split; [now left|]. cbn [Z.eqb]. split; [lia|]. split; [lia|].
  intros k v Hk. unfold scan_learns, learn, nothing. cbn [Z.eqb]. replace (k <=? 0) with false by lia. now rewrite !andb_false_r.
Qed.
Lemma in_script : script in_geo in_cs [] [nothing; nothing; nothing] in_is [in_K; in_K; in_K] 5 16.
Proof.
  destruct in_usable as [Ud Ua].
  apply sc_tables; [constructor; [apply ex_dc_legal|constructor; [|constructor]]|vm_compute; discriminate|].
  { unfold huff_def_legal. cbn [hf_dest hf_counts hf_symbols hf_ac in_ac]. split; [lia|].
    assert (H : table_def (1 :: 1 :: 1 :: repeat 0 13) [1; 16; 0]) by (apply table_defb_ok; vm_compute; reflexivity).
    split; [exact H|]. split; [|discriminate].
    eexists. apply HuffmanPrefix.canonical_prefix_code with [1; 16; 0]; [apply H|vm_compute; reflexivity]. }
  cbn [app].
  assert (NoDup [0; 1; 2]%nat) as Hnd by (repeat constructor; cbn; intuition discriminate).
  eapply (script_inter in_geo _ _ _ [0; 1; 2]%nat in_sel 0 1 in_V _ _ _ 4 10); [| |
  eapply (script_inter in_geo _ _ _ [0; 1; 2]%nat in_sel 1 0 in_V _ _ _ 3 4); [| |
  eapply (script_one _ _ _ _ 0 in_cd0 0 0 1 63 0 0 _ _ _ 2 2); [reflexivity| |
  eapply (script_one _ _ _ _ 1 in_cd1 0 0 1 63 0 0 _ _ _ 1 1); [reflexivity| |
  eapply (script_one _ _ _ _ 2 in_cd2 0 0 1 63 0 0 _ _ _ 0 0); [reflexivity| |
  apply sc_end]]]]].
  - split; [cbn; lia|]. split; [exact Hnd|].
    repeat constructor; eexists _, _; (split; [reflexivity|]); (split; [reflexivity|]); (split; [reflexivity|]);
      (split; [lia|]); (split; [lia|]); (split; [|exact Ud]); repeat split; lia || (now left).
  - apply in_data. split; [reflexivity|]. vm_compute. repeat split; discriminate.
  - split; [cbn; lia|]. split; [exact Hnd|].
    repeat constructor; eexists _, _; (split; [reflexivity|]); (split; [reflexivity|]); (split; [reflexivity|]);
      (split; [lia|]); (split; [lia|]); (split; [|exact Ud]); (split; [lia|]); (split; [lia|]); (split; [now right|]);
      (split; [reflexivity|]); right; reflexivity.
  - apply in_data. reflexivity.
  - eexists _, _. split; [reflexivity|]. split; [reflexivity|]. split; [lia|]. split; [lia|]. split; [exact in_next_ac|]. split; [exact Ua|].
    change (first_bands (code_at [ex_dc; in_ac] true 0) (repeat 0 63 :: [repeat 0 63] ++ []) (([true; false] ++ bits_of 1 0) ++ []))%list.
    apply fbs_band with (n := 1%nat); [|reflexivity|repeat constructor|constructor].
    exact (fb_eob _ 63 1 0 _ ltac:(lia) ltac:(lia) ltac:(lia) eq_refl).
  - eexists _, _. split; [reflexivity|]. split; [reflexivity|]. split; [lia|]. split; [lia|]. split; [exact in_next_ac|]. split; [exact Ua|].
    change (first_bands (code_at [ex_dc; in_ac] true 0) (repeat 0 63 :: [] ++ []) (([true; true; false] ++ bits_of 0 0) ++ []))%list.
    apply fbs_band with (n := 0%nat); [|reflexivity|repeat constructor|constructor].
    exact (fb_eob _ 63 0 0 _ ltac:(lia) ltac:(lia) ltac:(lia) eq_refl).
  - eexists _, _. split; [reflexivity|]. split; [reflexivity|]. split; [lia|]. split; [lia|]. split; [exact in_next_ac|]. split; [exact Ua|].
    change (first_bands (code_at [ex_dc; in_ac] true 0) (repeat 0 63 :: [] ++ []) (([true; true; false] ++ bits_of 0 0) ++ []))%list.
    apply fbs_band with (n := 0%nat); [|reflexivity|repeat constructor|constructor].
    exact (fb_eob _ 63 0 0 _ ltac:(lia) ltac:(lia) ltac:(lia) eq_refl).
Qed.
Example C38_inter_case : progressive_image in_q (Colour 2 2 0 0 0) 7 9 in_cs in_is [in_K; in_K; in_K] 5 [] /\
  Forall complete [in_K; in_K; in_K] /\ short_end in_geo in_cs [] in_is.
Proof.
  split; [split|split].
  - constructor; [|constructor]. split; [|vm_compute; discriminate]. constructor; [|constructor].
    split; [cbn; lia|]. split; [reflexivity|]. apply forallb_byte. vm_compute. reflexivity.
  - cbn. lia.
  - repeat constructor; vm_compute; discriminate.
  - lia.
  - lia.
  - reflexivity.
  - split; [reflexivity|]. intros [|[|[|k]]] cd; try (intros [= <-]; repeat split). destruct k; discriminate.
  - repeat constructor; cbn; lia.
  - exists 16. split; [exact in_script|lia].
  - lia.
  - apply forallb_byte. vm_compute. reflexivity.
  - assert (complete in_K) as H; [|repeat constructor; exact H].
    intros k v Hk. unfold in_K, scan_learns, learn. cbn [Z.eqb].
    destruct (Z.leb_spec 1 k); destruct (Z.leb_spec k 63); cbn [andb]; try lia.
    + destruct (known_near 0 v); [lia|]. lia.
    + replace k with 0 by lia. cbn. destruct (known_near 0 v); [lia|]. lia.
  - split; [reflexivity|]. exists [0; 1; 2]%nat, in_V. split; [repeat constructor; eexists; split; reflexivity|].
    split; [|vm_compute; discriminate]. apply in_data. split; [reflexivity|]. vm_compute. repeat split; discriminate.
Qed.

(** C47 is false: a complete file of two scans is rejected, because its first scan ends with a
    code of sixteen bits and the marker that follows has not been read yet.  The tables are
    those of T.81 K.3 and one with the symbols 1 and 16. *)
Definition bad_dc : huff_def :=
  mkHuffDef false 0 [0; 1; 5; 1; 1; 1; 1; 1; 1; 0; 0; 0; 0; 0; 0; 0] [0; 1; 2; 3; 4; 5; 6; 7; 8; 9; 10; 11].
Definition bad_cd : comp_data := mkCompData 1 2 1 [64 :: repeat 0 63; 320 :: repeat 0 63]%list.
Definition bad_bits : list bool :=
  ([true; true; true; true; false] ++ bits_of 7 64 ++ [true; true; true; true; true; true; false] ++ bits_of 9 256)%list.
Definition bad_is : list item :=
  [Tables [bad_dc; ex_ac]; Scan 1 0 0 0 0 0 0 bad_bits; Scan 1 0 0 1 63 0 0 [true; false; false]].
Theorem C47_refuted : exists o ps l w h cs is Ks n sfx,
  progressive_image ps l w h cs is Ks n sfx /\ Forall complete Ks /\
  w <= o_max_width o /\ h <= o_max_height o /\ n <= o_max_scans o /\
  forall cpu, fst (decode_buffer (new_with_options cpu o) (file 194 ps l w h is sfx)) = Err missing_marker.
Proof.
  exists default_options, ex_q, (Gray 0), 16, 8, [bad_cd], bad_is,
    [scan_learns (scan_learns nothing 0 0 0) 1 63 0], 2, [].
  destruct C38_case as (Hi & _). split; [|split; [|split; [cbn; lia|split; [cbn; lia|split; [cbn; lia|]]]]].
  - split; try apply Hi; try lia.
    + split; [reflexivity|]. intros [|[|k]] cd; [intros [= <-]; repeat split|discriminate|discriminate].
    + constructor; [|constructor]. split; [reflexivity|]. split; [repeat constructor|].
      repeat constructor; cbn; lia.
    + exists 4. split; [|lia].
      apply sc_tables; [|vm_compute; discriminate|].
      * constructor; [|constructor; [apply ex_ac_legal|constructor]].
        unfold huff_def_legal. cbn [hf_dest hf_counts hf_symbols hf_ac bad_dc]. split; [lia|].
        assert (H : table_def (hf_counts bad_dc) (hf_symbols bad_dc)) by (apply table_defb_ok; vm_compute; reflexivity).
        split; [exact H|]. split.
        -- eexists. apply HuffmanPrefix.canonical_prefix_code with (hf_symbols bad_dc); [apply H|vm_compute; reflexivity].
        -- intros _. repeat constructor; lia.
      * cbn [app].
        eapply (script_one _ _ _ _ 0 bad_cd 0 0 0 0 0 0 _ _ _ 1 2); [reflexivity| |
        eapply (script_one _ _ _ _ 0 bad_cd 0 0 1 63 0 0 _ _ _ 0 0); [reflexivity| |apply sc_end]].
        -- eexists _, _. split; [reflexivity|]. split; [reflexivity|]. split; [lia|]. split; [lia|].
           split; [repeat split; lia || (now left)|].
           split; [eexists; split; [reflexivity|discriminate]|].
           split; [reflexivity|]. vm_compute. repeat split; discriminate.
        -- eexists _, _. split; [reflexivity|]. split; [reflexivity|]. split; [lia|]. split; [lia|].
           split; [|split; [eexists; split; [reflexivity|]|]].
           ++ split; [lia|]. split; [lia|]. split; [now left|]. cbn [Z.eqb]. split; [lia|]. split; [lia|].
              intros k v Hk. unfold scan_learns, learn, nothing. cbn [Z.eqb].
              replace (k <=? 0) with false by lia. now rewrite !andb_false_r.
           ++ intros _. cbn [hf_counts hf_symbols ex_ac]. apply codes_long; vm_compute; reflexivity.
           ++ change (first_bands (code_at [bad_dc; ex_ac] true 0)
                ((repeat 0 63 :: [repeat 0 63] ++ [])) (([true; false] ++ bits_of 1 0) ++ []))%list.
              apply fbs_band with (n := 1%nat); [|reflexivity|repeat constructor|constructor].
              exact (fb_eob _ 63 1 0 _ ltac:(lia) ltac:(lia) ltac:(lia) eq_refl).
    + apply forallb_byte. vm_compute. reflexivity.
  - constructor; [|constructor]. intros k v Hk. unfold scan_learns, learn. cbn [Z.eqb].
    destruct (Z.leb_spec 1 k); destruct (Z.leb_spec k 63); cbn [andb]; try lia.
    + destruct (known_near 0 v); [lia|]. lia.
    + replace k with 0 by lia. cbn. destruct (known_near 0 v); [lia|]. lia.
  - intros []; vm_compute; reflexivity.
Qed.
Print Assumptions C47_refuted.
