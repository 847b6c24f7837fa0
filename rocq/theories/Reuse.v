(** One decoder used for many grayscale baseline files (C10). *)
From Coq Require Import ZArith String List Bool Lia.
From Coq Require Import ZifyBool ZifyNat ZifyN.
From Verif Require Import Base Types Huffman State Bitstream Headers Idct Color Simd Worker Mcu McuProg Decoder Session.
From Verif Require Import SpecHuffman SpecSegments SpecFile SpecExtend SpecBits SpecBlock SpecProg SpecScript SpecImage SpecBaseline SpecReuse Obs ObsProg.
From Verif Require Import SpecIdct SpecColor.
From Verif Require Import BaseFacts HeaderInv HeaderReads HeaderItems ProgFile HeaderFile ProgImage BaseGray BaseFile ApiFacts.
Import ListNotations.
Local Open Scope Z_scope.
Ltac Zify.zify_post_hook ::= Z.div_mod_to_equations.

Lemma zn_ext a b : zlen a = zlen b -> (forall i, 0 <= i < zlen a -> zn a i = zn b i) -> a = b.
Proof.
  unfold zlen, zn. revert b. induction a as [|x a IH]; intros [|y b] Hl H; try (cbn in Hl; lia); [reflexivity|]. f_equal.
  - apply (H 0). cbn [length]. lia.
  - apply IH; [cbn [length] in Hl; lia|]. intros i Hi. specialize (H (i + 1)).
    replace (Z.to_nat (i + 1)) with (S (Z.to_nat i)) in H by lia. replace (i + 1 <? 0) with (i <? 0) in H by lia.
    apply H. cbn [length]. lia.
Qed.

Lemma gray_bytes_byte o g : gray_ok o g -> Forall byte (gray_bytes g).
Proof.
  intros ([Hps Hl Hq Hw Hh Hts [Htd Hta] Hdc Hac Hlen Hbits Hblk Hby] & _). unfold gray_bytes, file.
  apply Forall_app. split; [repeat constructor; unfold byte; lia|].
  apply Forall_app. split.
  { apply mseg_Forall. clear - Hps. induction Hps; cbn [map]; constructor; auto. now apply pre_seg_ok. }
  apply Forall_app. split.
  { pose proof (mseg_Forall [_] (Forall_cons _ (frame_seg_ok 192 (Gray (gd_q g)) (gd_w g) (gd_h g) (or_introl eq_refl) Hl ltac:(lia) ltac:(lia)) (Forall_nil _))) as H.
    unfold msegs_bytes in H. cbn [flat_map] in H. now rewrite app_nil_r in H. }
  apply Forall_app. split.
  - unfold baseline_items. rewrite flat_map_app. apply Forall_app. split.
    + clear - Hts. induction Hts as [|ts' tss [A1 A2] _ IH]; [constructor|].
      cbn [map flat_map]. apply Forall_app. split; [|exact IH]. cbn [item_bytes app].
      constructor; [unfold byte; lia|]. constructor; [unfold byte; lia|]. rewrite <- (app_nil_r (segment _)).
      apply segment_app; auto. now apply dht_payload_bytes.
    + cbn [flat_map item_bytes app]. constructor; [unfold byte; lia|]. constructor; [unfold byte; lia|]. rewrite app_nil_r.
      apply segment_app; [|cbn; unfold fits; cbn; lia|].
      * repeat (apply Forall_cons || apply Forall_nil); unfold byte; lia.
      * apply stuff_byte, (pack_byte (gd_bits g) [] 0); [reflexivity|lia].
  - constructor; [unfold byte; lia|]. constructor; [unfold byte; lia|exact Hby].
Qed.

(** What every use preserves *)
Record used (cpu : isa) (o : options) (t : Z) (D : decoder) : Prop := {
  us_inv : hinv D;
  us_left : gray_left D;
  us_todo : d_todo D = 2147483647 - t;
  us_idct : d_idct D = choose_idct_func cpu (o_use_unsafe o);
  us_w : o_max_width (d_opt D) = o_max_width o;
  us_h : o_max_height (d_opt D) = o_max_height o }.
Lemma used_new cpu o : used cpu o 0 (new_with_options cpu o).
Proof. split; try reflexivity. - apply hinv_new. - apply gray_left_new. Qed.

Lemma gray_quant o g : gray_ok o g -> exists t, last_quant (quants (gd_pre g)) (gd_q g) = Some t.
Proof.
  intros [H _]. pose proof (bg_quants _ _ _ _ _ _ _ _ _ _ H) as Hq. unfold has_quants in Hq. cbn [selectors] in Hq.
  inversion Hq; subst. destruct (last_quant _ _); [eauto|congruence].
Qed.
Lemma area_pos o g : gray_ok o g -> 0 <= gray_area g.
Proof.
  intros [H _]. pose proof (bg_width _ _ _ _ _ _ _ _ _ _ H). pose proof (bg_height _ _ _ _ _ _ _ _ _ _ H).
  unfold gray_area. apply Z.mul_nonneg_nonneg; lia.
Qed.

Lemma used_decode cpu o t D g : used cpu o t D -> gray_ok o g -> 0 <= t -> t + gray_area g < 2147483647 ->
  used cpu o (t + gray_area g) (snd (decode_buffer D (gray_bytes g))) /\
  fst (decode_buffer D (gray_bytes g)) = fst (decode_buffer (new_with_options cpu o) (gray_bytes g)).
Proof.
  intros U Hg Ht Ha. pose proof U as [U1 U2 U3 U4 U5 U6].
  assert (Hi : hinv (snd (decode_buffer D (gray_bytes g)))).
  { apply (run_call_inv D (CDecodeBuffer (gray_bytes g)) U1). cbn [legal_call]. now apply gray_bytes_byte with o. }
  destruct (gray_quant o g Hg) as (qd & Hq). pose proof (area_pos o g Hg) as Hpos. destruct Hg as (HB & H1 & H2 & H3).
  destruct (base_file_from D (gd_pre g) (gd_q g) qd (gd_w g) (gd_h g) (gd_tables g) (gd_td g) (gd_ta g) (gd_blocks g) (gd_bits g) (gd_suffix g))
    as (px & D' & E & (L1 & L2 & L3 & L4) & N1 & N2); auto; try congruence.
  { fold (gray_area g). lia. }
  destruct (base_file cpu o (gd_pre g) (gd_q g) qd (gd_w g) (gd_h g) (gd_tables g) (gd_td g) (gd_ta g) (gd_blocks g) (gd_bits g) (gd_suffix g))
    as (px' & E' & M1 & M2); auto.
  fold (gray_bytes g) in E, E'. rewrite E in *. rewrite E'. cbn [fst snd] in *. split.
  - fold (gray_area g) in L2. split; auto; try lia; try congruence; rewrite L4; cbn; assumption.
  - f_equal. pose proof (bg_width _ _ _ _ _ _ _ _ _ _ HB) as Hw. pose proof (bg_height _ _ _ _ _ _ _ _ _ _ HB) as Hh.
    apply zn_ext; [congruence|]. intros i Hi0. rewrite N1 in Hi0.
    set (w := gd_w g) in *. set (h := gd_h g) in *.
    assert (Hr : 0 <= i / w < h).
    { split; [apply Z.div_pos; lia|]. apply Z.div_lt_upper_bound; lia. }
    assert (Hk : 0 <= i mod w < w) by (apply Z.mod_pos_bound; lia).
    pose proof (N2 (i / w) (i mod w) Hr Hk) as A. pose proof (M2 (i / w) (i mod w) Hr Hk) as B.
    rewrite (Z.mul_comm (i / w) w), <- (Z.div_mod i w) in A, B by lia. rewrite A, B, U4. reflexivity.
Qed.
Lemma used_read cpu o t D g : used cpu o t D -> gray_ok o g ->
  used cpu o t (snd (read_headers D (gray_bytes g))) /\ fst (read_headers D (gray_bytes g)) = Ok tt.
Proof.
  intros U Hg. pose proof U as [U1 U2 U3 U4 U5 U6].
  assert (Hi : hinv (snd (read_headers D (gray_bytes g)))).
  { apply (run_call_inv D (CReadHeaders (gray_bytes g)) U1). cbn [legal_call]. now apply gray_bytes_byte with o. }
  destruct (gray_quant o g Hg) as (qd & Hq). destruct Hg as (HB & H1 & H2 & H3).
  destruct (gray_headers_from D (gd_pre g) (gd_q g) qd (gd_w g) (gd_h g) (gd_tables g) (gd_td g) (gd_ta g) (gd_blocks g) (gd_bits g) (gd_suffix g))
    as (d & c & tdc & tac & hdc & hac & ft & EH & G & _); auto; try congruence.
  fold (gray_bytes g) in EH. unfold read_headers in *. rewrite on_buffer_eq in *. rewrite EH in *. cbn [fst snd hd_dec] in *.
  destruct G as [G1 G2 [G3 G3'] G4 G5 G6 G7 G8 G9 G10 G11 G12 G13]. destruct G4 as (A1 & A2 & A3 & A4 & A5 & A6 & A7).
  split; [|reflexivity]. split; auto; try congruence; try (rewrite G11; cbn; assumption). split; assumption.
Qed.
Lemma used_opt cpu o t D x : used cpu o t D -> o_max_width x = o_max_width o -> o_max_height x = o_max_height o ->
  used cpu o t (set_d_opt x D).
Proof.
  intros [U1 [L1 L2 L3 L4 L5 L6 L7] U3 U4 U5 U6] H1 H2. split; auto; [now apply hinv_opt|]. split; assumption.
Qed.
Lemma used_call cpu o t D u : used cpu o t D -> use_ok o u -> 0 <= t -> t + use_area u < 2147483647 ->
  used cpu o (t + use_area u) (run_call D (use_call u)).
Proof.
  intros U Hu Ht Ha. destruct u as [g|g| |c|n]; cbn [use_call run_call use_ok use_area] in *.
  - now apply used_decode.
  - rewrite Z.add_0_r. now apply used_read.
  - rewrite Z.add_0_r. apply used_opt; [exact U| |]; apply U.
  - rewrite Z.add_0_r. apply used_opt; [exact U| |]; apply U.
  - rewrite Z.add_0_r. unfold set_num_threads. destruct (n =? 0); [exact U|]. destruct (u32 n =? 0); [exact U|].
    apply used_opt; [exact U| |]; apply U.
Qed.
Lemma total_nonneg o us : Forall (use_ok o) us -> 0 <= total_area us.
Proof.
  induction 1 as [|u us Hu _ IH]; [cbn; lia|]. unfold total_area in *. cbn [map fold_right].
  destruct u as [g|g| |c|n]; cbn [use_area use_ok] in *; try lia. pose proof (area_pos o g Hu). lia.
Qed.
Lemma used_after cpu o us : forall t D, used cpu o t D -> Forall (use_ok o) us -> 0 <= t -> t + total_area us < 2147483647 ->
  used cpu o (t + total_area us) (fold_left run_call (map use_call us) D).
Proof.
  induction us as [|u us IH]; intros t D U Hu Ht Ha.
  - cbn [map fold_left]. unfold total_area. cbn [map fold_right]. now rewrite Z.add_0_r.
  - apply Forall_cons_iff in Hu. destruct Hu as [Hu Hus]. cbn [map fold_left].
    pose proof (total_nonneg o us Hus) as Hn.
    change (total_area (u :: us)) with (use_area u + total_area us) in *.
    assert (0 <= use_area u).
    { destruct u as [g|g| |c|n]; cbn [use_area use_ok] in *; try lia. now apply (area_pos o). }
    rewrite Z.add_assoc. apply IH; auto; try lia. apply used_call; auto; lia.
Qed.

Lemma reuse_lemma cpu o us g : Forall (use_ok o) us -> gray_ok o g -> total_area us + gray_area g < 2147483647 ->
  fst (read_headers (after cpu o (map use_call us)) (gray_bytes g)) = Ok tt /\
  fst (decode_buffer (after cpu o (map use_call us)) (gray_bytes g)) = fst (decode_buffer (new_with_options cpu o) (gray_bytes g)).
Proof.
  intros Hus Hg Ha. pose proof (area_pos o g Hg) as Hpos. pose proof (total_nonneg o us Hus) as Hn.
  pose proof (used_after cpu o us 0 _ (used_new cpu o) Hus ltac:(lia) ltac:(lia)) as U. split.
  - now apply (used_read cpu o _ _ g U).
  - apply (used_decode cpu o _ _ g U); auto; lia.
Qed.
