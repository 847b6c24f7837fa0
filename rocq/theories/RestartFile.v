(** Whole baseline grayscale files with restart intervals. *)
From Coq Require Import ZArith String List Bool Lia.
From Coq Require Import ZifyBool ZifyNat ZifyN.
From Verif Require Import Base Types Huffman State Bitstream Headers Idct Color Simd Worker Mcu McuProg Decoder.
From Verif Require Import SpecHuffman SpecSegments SpecFile SpecExtend SpecBits SpecBlock SpecProg SpecScript SpecImage SpecBaseline SpecRestart Obs ObsProg ExTools.
From Verif Require Import SpecIdct SpecColor SpecDct SpecPixels.
From Verif Require Import BaseFacts HeaderFacts HeaderInv HeaderReads HeaderItems TableSegments BlockSafe HuffDecode FastAc Reader Feed Block ProgFacts ProgFile HeaderFile ProgImage.
From Verif Require Import ColorFacts Placement IdctFacts IdctReal Strip GrayImage GrayFile GrayReal BaseGray BaseFile BaseReal RestartGray.
Import ListNotations.
Local Open Scope Z_scope.
Ltac Zify.zify_post_hook ::= Z.div_mod_to_equations.

Lemma u16_bytes n : 0 <= n <= 65535 -> byte (n / 256) /\ byte (n mod 256) /\ 256 * (n / 256) + n mod 256 = n.
Proof. unfold byte. lia. Qed.

Lemma gdec_self d : set_d_todo (d_todo d) (set_d_comps (d_comps d) d) = d.
Proof. destruct d; reflexivity. Qed.

(** The segment that announces restart intervals *)
Lemma loopz_dri ri last before d t : hinv d -> 0 <= ri <= 65535 -> Forall byte t -> last <> 255 -> before <= 2 ->
  loopz last before d (mseg_bytes (221, [ri / 256; ri mod 256]) ++ t) = loopz 221 1 (set_d_todo ri (set_d_ri ri d)) t /\
  hinv (set_d_todo ri (set_d_ri ri d)).
Proof.
  intros Hi Hr Ht Hl Hb. destruct (u16_bytes ri Hr) as (B1 & B2 & B3).
  assert (Hp : Forall byte [ri / 256; ri mod 256]) by (repeat (constructor; [assumption|]); constructor).
  assert (Hf : fits [ri / 256; ri mod 256]) by (unfold fits; cbn; lia).
  assert (E : seg_result 221 d [ri / 256; ri mod 256] t = (Ok tt, mkHst (set_d_todo ri (set_d_ri ri d)) t)).
  { unfold seg_result, marker_body. change (marker_from_u8 221) with (Some DRI).
    change (segment [ri / 256; ri mod 256] ++ t)%list with (be16 4 ++ be16 ri ++ t)%list.
    unfold parse_marker_inner. cbv iota. unfold bind. rewrite rd_u16_be16 by lia. change (negb (4 =? 4)) with false. cbv iota.
    cbv beta. rewrite rd_u16_be16 by lia. reflexivity. }
  split.
  - transitivity (loopz last before d (255 :: 221 :: segment [ri / 256; ri mod 256] ++ t)%list); [reflexivity|].
    rewrite loopz_seg; auto; try (unfold byte; lia). rewrite E. reflexivity.
  - pose proof (hinv_marker 221 d (segment [ri / 256; ri mod 256] ++ t) Hi ltac:(now apply segment_app)) as H.
    unfold seg_result in E. rewrite E in H. exact H.
Qed.

Lemma tables_byte tss : Forall (fun ts => Forall huff_def_legal ts /\ fits (dht_payload ts)) tss -> Forall byte (flat_map item_bytes (map Tables tss)).
Proof.
  intros Hts. induction Hts as [|ts' tss [A1 A2] _ IH]; [constructor|].
  cbn [map flat_map]. apply Forall_app. split; [|exact IH]. cbn [item_bytes app].
  constructor; [unfold byte; lia|]. constructor; [unfold byte; lia|]. rewrite <- (app_nil_r (segment _)).
  apply segment_app; auto. now apply dht_payload_bytes.
Qed.

Lemma restart_file_px cpu o ps q t w h tss1 ri tss2 td ta zss bss sfx :
  restart_gray ps q w h tss1 ri tss2 td ta zss bss sfx ->
  short_closes (code_at (huffs ps ++ concat tss1 ++ concat tss2) true ta) zss ->
  w <= o_max_width o -> h <= o_max_height o -> last_quant (quants ps) q = Some t -> 64 * ((w + 7) / 8) < 9 * w ->
  exists px, fst (decode_buffer (new_with_options cpu o) (restart_file ps q w h tss1 ri tss2 td ta bss sfx)) = Ok px /\
    zlen px = w * h /\
    forall r k, 0 <= r < h -> 0 <= k < w ->
      zn px (r * w + k) = u8 (sample (kernel_of (choose_idct_func cpu (o_use_unsafe o)) (natural (qd_values t))
        (natural (nth (Z.to_nat (r / 8 * ((w + 7) / 8) + k / 8)) (concat zss) []))) (r mod 8) (k mod 8)).
Proof.
  intros [Hps Hl Hq Hw Hh Hts1 Hri Hts2 [Htd Hta] Hdc Hac Hlen Hint Hbits Hblk Hby] Hsc Hmw Hmh Ht Hpad.
  set (rd := (restart_data 0 bss ++ 255 :: 217 :: sfx)%list).
  assert (Hscan : Forall byte rd).
  { apply Forall_app. split; [apply restart_byte|]. constructor; [unfold byte; lia|]. constructor; [unfold byte; lia|exact Hby]. }
  assert (Hsos : Forall byte (segment [1; 1; 16 * td + ta; 0; 63; 16 * 0 + 0] ++ rd)).
  { apply segment_app; [|cbn; unfold fits; cbn; lia|exact Hscan]. repeat (apply Forall_cons || apply Forall_nil); unfold byte; lia. }
  set (r3 := (255 :: 218 :: segment [1; 1; 16 * td + ta; 0; 63; 16 * 0 + 0] ++ rd)%list).
  assert (H3 : Forall byte r3) by (constructor; [unfold byte; lia|]; constructor; [unfold byte; lia|exact Hsos]).
  set (r2 := (flat_map item_bytes (map Tables tss2) ++ r3)%list).
  assert (H2 : Forall byte r2) by (apply Forall_app; split; [now apply tables_byte|exact H3]).
  set (r1 := (mseg_bytes (221, [ri / 256; ri mod 256]) ++ r2)%list).
  assert (H1 : Forall byte r1).
  { change r1 with (255 :: 221 :: segment [ri / 256; ri mod 256] ++ r2)%list. constructor; [unfold byte; lia|]. constructor; [unfold byte; lia|].
    destruct (u16_bytes ri ltac:(lia)) as (B1 & B2 & _). apply segment_app; [repeat (constructor; [assumption|]); constructor|unfold fits; cbn; lia|exact H2]. }
  set (r0 := (flat_map item_bytes (map Tables tss1) ++ r1)%list).
  assert (H0 : Forall byte r0) by (apply Forall_app; split; [now apply tables_byte|exact H1]).
  assert (Efile : restart_file ps q w h tss1 ri tss2 td ta bss sfx =
    ([255; 216] ++ msegs_bytes (map pre_seg ps) ++ mseg_bytes (192, frame_payload h w (frame_comps (Gray q))) ++ r0)%list) by reflexivity.
  rewrite Efile.
  destruct (headers_frame cpu o false ps (Gray q) w h r0 Hps Hl Hq ltac:(lia) ltac:(lia) Hmw Hmh H0)
    as (last & before & dcts & acts & E & Hi & Hla & Hbe & Hh0).
  set (F := frame_dec cpu o (sof_of false) false (Gray q) w h (quants ps) dcts acts) in *.
  destruct (loopz_tabless tss1 last before F (huffs ps) r1) as (l1 & b1 & d1 & E1 & S1 & I1 & T1 & L1 & B1); auto.
  destruct (loopz_dri ri l1 b1 d1 r2 I1 ltac:(lia) H2 L1 B1) as [E2 I2]. set (d2 := set_d_todo ri (set_d_ri ri d1)) in *.
  pose proof (same_tabled _ _ S1) as Hd1.
  destruct (loopz_tabless tss2 221 1 d2 (huffs ps ++ concat tss1)%list r3) as (l3 & b3 & d3 & E3 & S3 & I3 & T3 & L3 & B3); auto; try lia.
  { unfold d2. rewrite Hd1. reflexivity. }
  pose proof (same_tabled _ _ S3) as Hd3. rewrite <- app_assoc in T3.
  assert (Hd3' : d3 = tabled (set_d_todo ri (set_d_ri ri F)) (d_qt F) (d_dcts d3) (d_acts d3)).
  { rewrite Hd3 at 1. unfold d2. rewrite Hd1. reflexivity. }
  clear Hd3. set (X1 := d_dcts d3) in *. set (X2 := d_acts d3) in *.
  set (c1 := frame_component CY 1 1 q (qt_of (quants ps) q) (up8 w 1) 1).
  assert (Hc1 : d_comps d3 = [c1]) by (rewrite Hd3'; reflexivity).
  set (tabs := (huffs ps ++ concat tss1 ++ concat tss2)%list) in *.
  set (d := sos_dec 0 c1 td ta 0 63 0 0 d3).
  assert (E4 : parse_sos (mkHst d3 (segment [1; 1; 16 * td + ta; 0; 63; 16 * 0 + 0] ++ rd)) = (Ok tt, mkHst d rd)).
  { assert (Hic : i_comps (d_info d3) = 1) by (rewrite Hd3'; reflexivity).
    apply parse_sos_one; try lia.
    - rewrite Hc1. unfold zlen. cbn [length]. lia.
    - rewrite Hic, Hc1. reflexivity.
    - rewrite Hc1. reflexivity. }
  pose proof (loopz_sos_ok l3 b3 d3 _ _ _ I3 Hsos L3 B3 E4) as E5.
  assert (EB : decode_buffer (new_with_options cpu o)
     ([255; 216] ++ msegs_bytes (map pre_seg ps) ++ mseg_bytes (192, frame_payload h w (frame_comps (Gray q))) ++ r0)
     = (let '(r, h) := decode_baseline (mkHst d rd) in (r, hd_dec h))).
  { unfold decode_buffer, on_buffer, decode_internal. change (new_with_options cpu o) with (decoder_default cpu o).
    change 192 with (sof_code false). unfold bind at 1. rewrite E. unfold r0. rewrite E1. unfold r1. rewrite E2. unfold r2. rewrite E3.
    unfold r3. rewrite E5. unfold bind, getd. cbn [hd_dec].
    assert (d_prog d = false) as -> by (unfold d, sos_dec; rewrite Hd3'; reflexivity). reflexivity. }
  rewrite EB. clear EB E E1 E2 E3 E4 E5.
  destruct T3 as (H4 & Hlg & Hslot). rewrite Forall_forall in Hlg.
  destruct Hdc as (tdc & Ldc & _). destruct Hac as (tac & Lac & Sac).
  destruct (last_huff_in _ _ _ _ Ldc) as [Idc _]. destruct (last_huff_in _ _ _ _ Lac) as [Iac _].
  destruct (Hslot _ _ _ Htd Ldc) as (hdc & Sdc & Ndc). destruct (Hslot _ _ _ Hta Lac) as (hac & Slac & Nac).
  pose proof (huffman_new_dc _ _ _ (proj1 (proj2 (Hlg _ Idc))) Ndc) as Hdt.
  destruct (huffman_new_ac _ _ _ _ (proj1 (proj2 (Hlg _ Iac))) Nac) as (ft & Hat).
  unfold code_at in Hbits, Hblk, Hsc. rewrite Ldc in Hbits, Hblk. rewrite Lac in Hbits, Hsc.
  set (c := set_c_act ta (set_c_dct td c1)).
  set (n := (w + 7) / 8) in *. set (m := (h + 7) / 8) in *.
  assert (Hcd : d_comps d = [c]).
  { unfold d, sos_dec. cbn [d_comps set_d_al set_d_ah set_d_se set_d_ss set_d_zorder set_d_comps]. rewrite Hc1. reflexivity. }
  assert (Hcc : c_cid c = CY /\ c_h c = 1 /\ c_v c = 1 /\ c_stride c = 8 * n /\ c_qt c = natural (qd_values t) /\ c_pred c = 0).
  { unfold c, c1, frame_component. cbn [c_cid c_h c_v c_stride c_qt c_pred set_c_act set_c_dct]. repeat (split; [reflexivity|]). split.
    + unfold up8, n. replace (w + 1 * 8 - 1) with (w + 7) by lia. lia.
    + split; [|reflexivity]. unfold qt_of. now rewrite Ht. }
  assert (Hdd : d_hmax d = 1 /\ d_vmax d = 1 /\ d_ratio d = RNone /\ d_incs d = GRAYSCALE /\
    i_width (d_info d) = w /\ i_height (d_info d) = h /\ o_colorspace (d_opt d) = GRAYSCALE).
  { unfold d, sos_dec. rewrite Hd3'. repeat split. }
  assert (Hdri : d_ri d = ri /\ d_todo d = ri) by (unfold d, sos_dec; rewrite Hd3'; split; reflexivity).
  assert (Hfin : exists px, fst (decode_baseline (mkHst d rd)) = Ok px /\ zlen px = w * h /\
    forall r k, 0 <= r < h -> 0 <= k < w ->
      zn px (r * w + k) = u8 (sample (kernel_of (d_idct d) (natural (qd_values t))
        (natural (nth (Z.to_nat (r / 8 * n + k / 8)) (concat zss) []))) (r mod 8) (k mod 8))).
  { assert (Hx : exists px, (exists p t rd', decode_baseline (mkHst d rd) = (Ok px, mkHst (gdec d c p t) rd') /\ True) /\ zlen px = w * h /\
      forall r k, 0 <= r < h -> 0 <= k < w ->
        zn px (r * w + k) = u8 (sample (kernel_of (d_idct d) (natural (qd_values t))
          (natural (nth (Z.to_nat (r / 8 * n + k / 8)) (concat zss) []))) (r mod 8) (k mod 8))).
    2:{ destruct Hx as (px & (p & t' & rd' & Ex & _) & Rx). exists px. rewrite Ex. split; [reflexivity|exact Rx]. }
    apply (gray_finish d c w h n (qd_values t) eq_refl Hw Hh Hpad Hcc Hdd (fun _ => True) d).
    - apply (gray_setup d c w h n (qd_values t)) with hdc hac; auto.
      + unfold d, sos_dec. rewrite Hd3'. reflexivity.
      + apply (slot_at d3 false td hdc H4 Htd Sdc).
      + apply (slot_at d3 true ta hac H4 Hta Slac).
    - exact Hlen.
    - fold m. intros g G1 G3 G4 G6 Htc. destruct Hdri as [Hdr Hdt0]. destruct Hcc as (C1 & C2 & C3 & C4 & C5 & C6).
      assert (Hgd : d = gdec d c 0 ri).
      { unfold gdec. rewrite <- Hdt0. assert (set_c_pred 0 c = c) as -> by reflexivity.
        rewrite <- Hcd. symmetry. apply gdec_self. }
      assert (Hn0 : 0 < n <= 8191) by (unfold n; lia). assert (Hm0 : 0 < m <= 8191) by (unfold m; lia).
      destruct zss as [|z0 zss]; [destruct Hint|]. destruct bss as [|b0 bss']; [exfalso; inversion Hbits|].
      destruct (rst_rows g d c hdc hac ft (hf_counts tdc) (hf_symbols tdc) (hf_counts tac) (hf_symbols tac) sfx ri)
        with (n := Z.to_nat m) (i := 0) (zs := concat (z0 :: zss)) (p := 0)
        (t := ri) (st := bst_new rd) (tmp := @nil (list Z)) (jobs := @nil (list (list Z)))
        as (p' & t' & st' & tmp' & js & E & Ejs); auto.
      + exact (Sac eq_refl).
      + apply Hdd.
      + apply Hdd.
      + change (c_dct c) with td. rewrite land3 by exact Htd. apply (slot_at d3 false td hdc H4 Htd Sdc).
      + change (c_act c) with ta. rewrite land3 by exact Hta. apply (slot_at d3 true ta hac H4 Hta Slac).
      + rewrite G1. clear - Hn0. lia.
      + now rewrite G1.
      + rewrite G1. apply Nat2Z.inj. rewrite Nat2Z.inj_mul, !Z2Nat.id by (clear - Hn0 Hm0; lia). rewrite Hlen. apply Z.mul_comm.
      + exists z0, zss, bss', 0. split; [|split; [reflexivity|]].
        * apply ready_start with (d0 := d); auto.
        * intros ->. cbn [intervals length] in Hint. destruct zss; [reflexivity|]. destruct Hint as [Hx _]. clear - Hx Hri. cbn in Hx. lia.
      + unfold zlen. cbn [length]. rewrite Z2Nat.id by (clear - Hm0; lia). exact Htc.
      + rewrite <- Hgd in E. rewrite app_nil_r in E. exists p', t', st', tmp', js. split; [exact E|]. split; [now rewrite Ejs, G1|exact I]. }
  destruct Hfin as (px & Epx & R). exists px. destruct (decode_baseline _) as [rr hh]. cbn [fst] in *. split; [exact Epx|].
  assert (d_idct d = choose_idct_func cpu (o_use_unsafe o)) as Hid by (unfold d, sos_dec; rewrite Hd3'; reflexivity).
  rewrite Hid in R. exact R.
Qed.

Lemma restart_real cpu o ps q t w h tss1 ri tss2 td ta zss bss sfx :
  restart_gray ps q w h tss1 ri tss2 td ta zss bss sfx ->
  short_closes (code_at (huffs ps ++ concat tss1 ++ concat tss2) true ta) zss ->
  w <= o_max_width o -> h <= o_max_height o -> last_quant (quants ps) q = Some t ->
  Forall (in_range (qd_values t)) (concat zss) -> 64 * ((w + 7) / 8) < 9 * w ->
  exists px, fst (decode_buffer (new_with_options cpu o) (restart_file ps q w h tss1 ri tss2 td ta bss sfx)) = Ok px /\
    close_to (qd_values t) (concat zss) w h px.
Proof.
  intros Hi Hsc Hmw Hmh Ht Hra Hpad.
  destruct (restart_file_px cpu o _ _ _ _ _ _ _ _ _ _ _ _ _ Hi Hsc Hmw Hmh Ht Hpad) as (px & E & L & N).
  destruct Hi as [P1 P2 P3 P4 P5 P6 P6' P7 P8 P9 P10 P11 P12 P12' P13 P14].
  exists px. split; [exact E|]. split; [exact L|]. intros a b Ha Hb m p.
  assert (Hp' : p = zn px (a * w + b)) by reflexivity. rewrite N in Hp' by assumption.
  assert (Hidx : (Z.to_nat (a / 8 * m + b / 8) < length (concat zss))%nat).
  { assert (0 <= a / 8 < (h + 7) / 8) by lia. assert (0 <= b / 8 < m) by (unfold m; lia).
    pose proof (block_inside ((h + 7) / 8) m (a / 8) (b / 8)). fold m in P11. lia. }
  unfold sample_exact, block_of. fold m in Hp'. rewrite Hp'.
  assert (Hq : quant_def_legal t) by (eapply quant_legal; eauto).
  destruct Hq as (_ & Q1 & Q2).
  assert (Hl : Forall (fun zz => length zz = 64%nat) (concat zss)).
  { clear - P13. induction P13 as [|zs zss Hz _ IH]; [constructor|]. cbn [concat]. apply Forall_app. split; [|exact IH].
    eapply with_pred_Forall; [|exact Hz]. intros p0 z [[Hz' _] _]. exact Hz'. }
  rewrite Forall_forall in Hl, Hra.
  apply px_close; auto; try lia; [apply Hl|apply Hra]; now apply nth_In.
Qed.
