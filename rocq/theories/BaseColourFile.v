(** Baseline colour files: from the bytes of the file to the rows of coefficients. *)
From Coq Require Import ZArith String List Bool Lia.
From Coq Require Import ZifyBool ZifyNat ZifyN.
From Verif Require Import Base Types Huffman State Bitstream Headers Idct Color Simd Worker Mcu McuProg Decoder.
From Verif Require Import SpecHuffman SpecSegments SpecFile SpecExtend SpecBits SpecBlock SpecProg SpecInter SpecScript SpecImage SpecBaseline SpecBaseScan Obs ObsProg ExTools.
From Verif Require GrayFile.
From Verif Require Import BaseFacts HeaderFacts HeaderInv HeaderReads HeaderItems TableSegments BlockSafe HuffDecode BitReader Reader Feed FastAc Block.
From Verif Require Import ProgFacts ProgScript ProgInter ProgFile HeaderFile ProgImage ColorFacts Placement BaseGray BaseFile BaseInter BaseColour SampledImage.
Import ListNotations.
Local Open Scope Z_scope.
Ltac Zify.zify_post_hook ::= Z.div_mod_to_equations.

Lemma choice3 {A} (P : nat -> A -> Prop) : (forall k, (k < 3)%nat -> exists a, P k a) -> exists f, forall k, (k < 3)%nat -> P k (f k).
Proof.
  intros H. destruct (H 0%nat ltac:(lia)) as (a & Ha). destruct (H 1%nat ltac:(lia)) as (b & Hb). destruct (H 2%nat ltac:(lia)) as (c & Hc).
  exists (fun k => nth k [a; b; c] a). intros k Hk. destruct k as [|[|[|k]]]; [assumption|assumption|assumption|lia].
Qed.
Lemma encode_units_ext cd cd' us : (forall u, In u us -> cd (fst u) = cd' (fst u)) -> forall ps, encode_units cd ps us = encode_units cd' ps us.
Proof.
  induction us as [|[k zz] us IH]; intros H ps; [reflexivity|]. cbn [encode_units]. pose proof (H (k, zz) (or_introl eq_refl)) as E. cbn [fst] in E.
  rewrite E, IH; [reflexivity|]. intros u Hu. apply H. now right.
Qed.
Lemma units_pred_ext (P P' : nat -> Z -> list Z -> Prop) us : (forall u p zz, In u us -> P (fst u) p zz -> P' (fst u) p zz) -> forall ps, units_pred P ps us -> units_pred P' ps us.
Proof.
  induction us as [|[k zz] us IH]; intros H ps; [trivial|]. cbn [units_pred]. intros [A B]. split.
  - apply (H (k, zz)); [now left|exact A].
  - apply IH; [|exact B]. intros u p z Hu. apply H. now right.
Qed.
Lemma last_bits_ext cd cd' us n : (forall u, In u us -> cd (fst u) = cd' (fst u)) -> last_bits cd us n = last_bits cd' us n.
Proof.
  intros H. unfold last_bits. rewrite (encode_units_ext cd cd') by exact H. rewrite (encode_units_ext cd cd' (firstn _ us)); [reflexivity|].
  intros u Hu. apply H. rewrite <- (firstn_skipn (length us - n) us). apply in_or_app. now left.
Qed.

(** The settings of the workers *)
Record colour_job (cpu : isa) (o : options) (hs vs w h : Z) (qs : list quant_def) (q q1 q2 : Z) (g : geom) (a b c : component) : Prop := {
  cj_comps : g_comps g = [a; b; c];
  cj_a : c_h a = hs /\ c_v a = vs /\ c_stride a = hs * (up8 w hs * 8) /\ c_qt a = qt_of qs q;
  cj_b : c_h b = 1 /\ c_v b = 1 /\ c_stride b = up8 w hs * 8 /\ c_qt b = qt_of qs q1;
  cj_c : c_h c = 1 /\ c_v c = 1 /\ c_stride c = up8 w hs * 8 /\ c_qt c = qt_of qs q2;
  cj_in : g_in g = YCbCr;
  cj_out : g_out g = o_colorspace o;
  cj_idct : g_idct g = choose_idct_func cpu (o_use_unsafe o);
  cj_cc : g_cc g = choose_color_convert cpu (o_use_unsafe o);
  cj_width : g_width g = w;
  cj_hv : g_hv g = (hs =? 2) && (vs =? 2);
  cj_mcuw : g_mcuw g = if (hs =? 2) && (vs =? 1) then 2 * up8 w hs else up8 w hs;
  cj_bias : g_bias g = if (hs =? 2) && (vs =? 2) then 2 else 1;
  cj_chunk : g_chunk g = 8 * hs * vs * (w * num_components (o_colorspace o));
  cj_ups : ups_fit hs vs (c_ups b) /\ ups_fit hs vs (c_ups c);
  cj_avx : c_ups b = UpHVAvx2 \/ c_ups c = UpHVAvx2 -> cpu = Avx2 /\ o_use_unsafe o = true }.

Lemma colour_front cpu o ps hs vs q q1 q2 w h tss sel B bits sfx :
  let l := Colour hs vs q q1 q2 in
  let cd := sel_codes (huffs ps ++ concat tss) sel in
  let mx := up8 w hs in let my := up8 h vs in
  baseline_colour ps l w h tss sel B bits sfx ->
  w <= o_max_width o -> h <= o_max_height o ->
  exists d k0 k1 k2 Td Ta ft dcc dcs acc acs pad rd,
    fst (decode_buffer (new_with_options cpu o) (colour_file ps l w h tss sel bits sfx)) = fst (decode_baseline (mkHst d rd)) /\
    feed 0 (bst_new rd) (bits ++ pad) (AtMarker 217 sfx) /\
    d_comps d = [k0; k1; k2] /\
    (c_cid k0 = CY /\ c_h k0 = hs /\ c_v k0 = vs /\ c_stride k0 = hs * (mx * 8) /\ c_pred k0 = 0) /\
    (c_cid k1 = CCb /\ c_h k1 = 1 /\ c_v k1 = 1 /\ c_stride k1 = mx * 8 /\ c_pred k1 = 0 /\ c_ups k1 = UpNoOp) /\
    (c_cid k2 = CCr /\ c_h k2 = 1 /\ c_v k2 = 1 /\ c_stride k2 = mx * 8 /\ c_pred k2 = 0 /\ c_ups k2 = UpNoOp) /\
    (c_qt k0 = qt_of (quants ps) q /\ c_qt k1 = qt_of (quants ps) q1 /\ c_qt k2 = qt_of (quants ps) q2) /\
    (d_hmax d = hs /\ d_vmax d = vs /\ d_inter d = negb (hs =? 1) || negb (vs =? 1) /\ d_ratio d = RNone /\ d_incs d = YCbCr /\
      i_width (d_info d) = w /\ i_height (d_info d) = h /\ d_mcux d = mx /\ d_mcuy d = my /\ d_todo d = 2147483647) /\
    (o_colorspace (d_opt d) = o_colorspace o /\ d_idct d = choose_idct_func cpu (o_use_unsafe o) /\ d_cc d = choose_color_convert cpu (o_use_unsafe o) /\
      d_isa d = cpu /\ o_use_unsafe (d_opt d) = o_use_unsafe o) /\
    (forall k, (k < 3)%nat -> 0 <= c_dct (nth k [k0; k1; k2] k0) <= 3 /\ 0 <= c_act (nth k [k0; k1; k2] k0) <= 3 /\
      table_at (d_dcts d) (c_dct (nth k [k0; k1; k2] k0)) = Some (Td k) /\ table_at (d_acts d) (c_act (nth k [k0; k1; k2] k0)) = Some (Ta k)) /\
    (forall k, (k < 3)%nat -> dc_table (Td k) (dcc k) (dcs k) /\ ac_table (Ta k) (ft k) (acc k) (acs k) false /\ fast_safe (acc k) (acs k)) /\
    (forall u, In u (image_blocks l w h B) -> cd (fst u) = codes dcc dcs acc acs (fst u)).
Proof.
  intros l cd mx my [Hps _ Hl Hq Hw Hh Hts [Hsl Hsel] Hbits Hblk Hby] Hmw Hmh.
  destruct sel as [|[td0 ta0] [|[td1 ta1] [|[td2 ta2] [|]]]]; try discriminate Hsl.
  set (pay := [3; 1; 16 * td0 + ta0; 2; 16 * td1 + ta1; 3; 16 * td2 + ta2; 0; 63; 0]).
  pose proof Hsel as HR. rewrite Forall_forall in HR.
  pose proof (HR (td0, ta0) ltac:(cbn; auto)) as R0. pose proof (HR (td1, ta1) ltac:(cbn; auto)) as R1. pose proof (HR (td2, ta2) ltac:(cbn; auto)) as R2.
  cbv beta iota in R0, R1, R2. destruct R0 as (R0 & R0' & _). destruct R1 as (R1 & R1' & _). destruct R2 as (R2 & R2' & _). clear HR.
  assert (Hhv : 1 <= hs <= 2 /\ 1 <= vs <= 2) by (destruct Hl; lia).
  assert (Hscan : Forall byte (stuff (pack bits) ++ 255 :: 217 :: sfx)).
  { apply Forall_app. split; [apply stuff_byte, (pack_byte bits [] 0); [reflexivity|lia]|].
    constructor; [unfold byte; lia|]. constructor; [unfold byte; lia|exact Hby]. }
  assert (Hsos : Forall byte (segment pay ++ stuff (pack bits) ++ 255 :: 217 :: sfx)).
  { apply segment_app; [|cbn; unfold fits; cbn; lia|exact Hscan]. unfold pay. repeat (apply Forall_cons || apply Forall_nil); unfold byte; lia. }
  assert (Hfile : (colour_file ps l w h tss [(td0, ta0); (td1, ta1); (td2, ta2)] bits sfx =
    [255; 216] ++ msegs_bytes (map pre_seg ps) ++ mseg_bytes (192, frame_payload h w (frame_comps l)) ++
    flat_map item_bytes (map Tables tss) ++ 255 :: 218 :: segment pay ++ stuff (pack bits) ++ 255 :: 217 :: sfx)%list).
  { unfold colour_file, colour_scan. fold pay. cbn [app]. do 5 f_equal. }
  assert (Hrest : Forall byte (flat_map item_bytes (map Tables tss) ++ 255 :: 218 :: segment pay ++ stuff (pack bits) ++ 255 :: 217 :: sfx)).
  { apply Forall_app. split.
    - clear - Hts. induction Hts as [|ts' tss [A1 A2] _ IH]; [constructor|].
      cbn [map flat_map]. apply Forall_app. split; [|exact IH]. cbn [item_bytes app].
      constructor; [unfold byte; lia|]. constructor; [unfold byte; lia|]. rewrite <- (app_nil_r (segment _)).
      apply segment_app; auto. now apply dht_payload_bytes.
    - constructor; [unfold byte; lia|]. constructor; [unfold byte; lia|exact Hsos]. }
  rewrite Hfile.
  destruct (headers_frame cpu o false ps l w h _ Hps Hl Hq ltac:(lia) ltac:(lia) Hmw Hmh Hrest)
    as (last & before & dcts & acts & E & Hi & Hla & Hbe & Hh0).
  set (F := frame_dec cpu o (sof_of false) false l w h (quants ps) dcts acts) in *.
  destruct (loopz_tabless tss last before F (huffs ps) (255 :: 218 :: segment pay ++ stuff (pack bits) ++ 255 :: 217 :: sfx))
    as (l' & b' & d1 & E1 & S1 & I1 & H1 & L1 & B1); auto.
  { constructor; [unfold byte; lia|]. constructor; [unfold byte; lia|exact Hsos]. }
  pose proof (same_tabled _ _ S1) as Hd1. set (T1 := d_dcts d1) in *. set (T2 := d_acts d1) in *.
  set (c0 := frame_component CY hs vs q (qt_of (quants ps) q) mx 1).
  set (c1 := frame_component CCb 1 1 q1 (qt_of (quants ps) q1) mx 2).
  set (c2 := frame_component CCr 1 1 q2 (qt_of (quants ps) q2) mx 3).
  assert (Hc1 : d_comps d1 = [c0; c1; c2]) by (rewrite Hd1; reflexivity).
  set (tabs := (huffs ps ++ concat tss)%list) in *.
  set (d := colour_dec (td0, ta0) (td1, ta1) (td2, ta2) c0 c1 c2 d1).
  assert (E2 : parse_sos (mkHst d1 (segment pay ++ stuff (pack bits) ++ 255 :: 217 :: sfx))
     = (Ok tt, mkHst d (stuff (pack bits) ++ 255 :: 217 :: sfx))).
  { assert (Hic : i_comps (d_info d1) = 3) by (rewrite Hd1; reflexivity).
    apply parse_sos_three; auto; lia. }
  pose proof (loopz_sos_ok l' b' d1 _ _ _ I1 Hsos L1 B1 E2) as E3.
  assert (EB : decode_buffer (new_with_options cpu o)
     ([255; 216] ++ msegs_bytes (map pre_seg ps) ++ mseg_bytes (192, frame_payload h w (frame_comps l)) ++
      flat_map item_bytes (map Tables tss) ++ 255 :: 218 :: segment pay ++ stuff (pack bits) ++ 255 :: 217 :: sfx)
     = (let '(r, h) := decode_baseline (mkHst d (stuff (pack bits) ++ 255 :: 217 :: sfx)) in (r, hd_dec h))).
  { unfold decode_buffer, on_buffer, decode_internal. change (new_with_options cpu o) with (decoder_default cpu o).
    change 192 with (sof_code false). unfold bind at 1. rewrite E, E1, E3. unfold bind, getd. cbn [hd_dec].
    assert (d_prog d = false) as -> by (unfold d, colour_dec; rewrite Hd1; reflexivity). reflexivity. }
  rewrite EB. clear EB E E1 E2 E3.
  destruct H1 as (H4 & Hlg & Hslot). rewrite Forall_forall in Hlg.
  set (sel := [(td0, ta0); (td1, ta1); (td2, ta2)]) in *.
  assert (Hone : forall k, (k < 3)%nat -> exists p : huff_def * huff_def * hufftable * hufftable * list Z, let '(tdc, tac, hdc, hac, ft) := p in
    let '(td, ta) := nth k sel (0, 0) in
    0 <= td <= 3 /\ 0 <= ta <= 3 /\ table_at (d_dcts d) td = Some hdc /\ table_at (d_acts d) ta = Some hac /\
    dc_table hdc (hf_counts tdc) (hf_symbols tdc) /\ ac_table hac ft (hf_counts tac) (hf_symbols tac) false /\
    fast_safe (hf_counts tac) (hf_symbols tac) /\ cd k = (code_of (hf_counts tdc) (hf_symbols tdc), code_of (hf_counts tac) (hf_symbols tac))).
  { intros k Hk. unfold cd, sel_codes. fold tabs sel. rewrite Forall_forall in Hsel.
    specialize (Hsel (nth k sel (0, 0)) ltac:(apply nth_In; cbn [sel length]; exact Hk)). destruct (nth k sel (0, 0)) as [td ta].
    destruct Hsel as (Htd & Hta & (tdc & Ldc & _) & (tac & Lac & Sac)).
    destruct (last_huff_in _ _ _ _ Ldc) as [Idc _]. destruct (last_huff_in _ _ _ _ Lac) as [Iac _].
    destruct (Hslot _ _ _ Htd Ldc) as (hdc & Sdc & Ndc). destruct (Hslot _ _ _ Hta Lac) as (hac & Slac & Nac).
    pose proof (huffman_new_dc _ _ _ (proj1 (proj2 (Hlg _ Idc))) Ndc) as Hdt.
    destruct (huffman_new_ac _ _ _ _ (proj1 (proj2 (Hlg _ Iac))) Nac) as (ft & Hat).
    exists (tdc, tac, hdc, hac, ft). unfold code_at. rewrite Ldc, Lac.
    split; [exact Htd|]. split; [exact Hta|]. split; [apply (slot_at d1 false td hdc H4 Htd Sdc)|]. split; [apply (slot_at d1 true ta hac H4 Hta Slac)|].
    split; [exact Hdt|]. split; [exact Hat|]. split; [exact (Sac eq_refl)|reflexivity]. }
  apply choice3 in Hone. destruct Hone as (p & Hp).
  set (Td := fun k => let '(_, _, x, _, _) := p k in x). set (Ta := fun k => let '(_, _, _, x, _) := p k in x). set (ft := fun k => let '(_, _, _, _, x) := p k in x).
  set (dcc := fun k => let '(x, _, _, _, _) := p k in hf_counts x). set (dcs := fun k => let '(x, _, _, _, _) := p k in hf_symbols x).
  set (acc := fun k => let '(_, x, _, _, _) := p k in hf_counts x). set (acs := fun k => let '(_, x, _, _, _) := p k in hf_symbols x).
  assert (Hp' : forall k, (k < 3)%nat -> let '(td, ta) := nth k sel (0, 0) in
    0 <= td <= 3 /\ 0 <= ta <= 3 /\ table_at (d_dcts d) td = Some (Td k) /\ table_at (d_acts d) ta = Some (Ta k) /\
    dc_table (Td k) (dcc k) (dcs k) /\ ac_table (Ta k) (ft k) (acc k) (acs k) false /\
    fast_safe (acc k) (acs k) /\ cd k = codes dcc dcs acc acs k).
  { intros k Hk. specialize (Hp k Hk). unfold codes, Td, Ta, ft, dcc, dcs, acc, acs. destruct (p k) as [[[[? ?] ?] ?] ?]. exact Hp. }
  clear Hp. clearbody Td Ta ft dcc dcs acc acs. clear p.
  assert (Hext : forall u, In u (image_blocks l w h B) -> (fst u < 3)%nat /\ cd (fst u) = codes dcc dcs acc acs (fst u)).
  { intros u Hu. unfold image_blocks, scan_blocks in Hu. apply in_map_iff in Hu. destruct Hu as ([k xy] & <- & Hin). cbn [fst snd].
    unfold scan_units in Hin. apply in_flat_map in Hin. destruct Hin as (i & _ & Hin). apply in_flat_map in Hin. destruct Hin as (j & _ & Hin).
    apply in_flat_map in Hin. destruct Hin as (k' & Hk' & Hin). unfold mcu_units in Hin. apply in_flat_map in Hin. destruct Hin as (v & _ & Hin).
    apply in_map_iff in Hin. destruct Hin as (u & Eu & _). injection Eu as <- _.
    assert (Hk3 : (k' < 3)%nat) by (destruct Hk' as [<-|[<-|[<-|[]]]]; lia).
    split; [exact Hk3|]. specialize (Hp' k' Hk3). destruct (nth k' sel (0, 0)). apply Hp'. }
  destruct (pack_bits bits) as (pad & _ & Hpd).
  assert (Hent : entropy (stuff (pack bits) ++ 255 :: 217 :: sfx) = (pack bits, AtMarker 217 sfx)) by (apply entropy_stuff; lia).
  assert (Hf : feed 0 (bst_new (stuff (pack bits) ++ 255 :: 217 :: sfx)) (bits ++ pad) (AtMarker 217 sfx)).
  { pose proof (feed_new (stuff (pack bits) ++ 255 :: 217 :: sfx) 0 Hscan) as G. unfold scan_bits in G. rewrite Hent in G.
    cbn [fst snd repeat] in G. rewrite app_nil_r, Hpd in G. apply G; [discriminate|now left]. }
  assert (Hmy : 0 < mx /\ 0 < my) by (split; unfold mx, my, up8; apply Z.div_str_pos; lia).
  destruct Hhv as [Hhs Hvs].
  set (k0 := chosen (td0, ta0) c0). set (k1 := chosen (td1, ta1) c1). set (k2 := chosen (td2, ta2) c2).
  assert (Hdc : d_comps d = [k0; k1; k2]) by reflexivity.
  assert (Hk0 : c_cid k0 = CY /\ c_h k0 = hs /\ c_v k0 = vs /\ c_stride k0 = hs * (mx * 8) /\ c_pred k0 = 0) by (repeat split).
  assert (Hk1 : c_cid k1 = CCb /\ c_h k1 = 1 /\ c_v k1 = 1 /\ c_stride k1 = mx * 8 /\ c_pred k1 = 0 /\ c_ups k1 = UpNoOp).
  { repeat split. unfold k1, chosen, c1, frame_component. cbn [c_stride set_c_act set_c_dct]. lia. }
  assert (Hk2 : c_cid k2 = CCr /\ c_h k2 = 1 /\ c_v k2 = 1 /\ c_stride k2 = mx * 8 /\ c_pred k2 = 0 /\ c_ups k2 = UpNoOp).
  { repeat split. unfold k2, chosen, c2, frame_component. cbn [c_stride set_c_act set_c_dct]. lia. }
  assert (Hd : d_hmax d = hs /\ d_vmax d = vs /\ d_inter d = negb (hs =? 1) || negb (vs =? 1) /\ d_ratio d = RNone /\ d_incs d = YCbCr /\
    i_width (d_info d) = w /\ i_height (d_info d) = h /\ d_mcux d = mx /\ d_mcuy d = my /\ d_todo d = 2147483647).
  { unfold d, colour_dec. rewrite Hd1. repeat split. }
  assert (Hopt : o_colorspace (d_opt d) = o_colorspace o /\ d_idct d = choose_idct_func cpu (o_use_unsafe o) /\ d_cc d = choose_color_convert cpu (o_use_unsafe o) /\
    d_isa d = cpu /\ o_use_unsafe (d_opt d) = o_use_unsafe o).
  { unfold d, colour_dec. rewrite Hd1. repeat split. }
  assert (Hsel' : forall k, (k < 3)%nat -> 0 <= c_dct (nth k [k0; k1; k2] k0) <= 3 /\ 0 <= c_act (nth k [k0; k1; k2] k0) <= 3 /\
    table_at (d_dcts d) (c_dct (nth k [k0; k1; k2] k0)) = Some (Td k) /\ table_at (d_acts d) (c_act (nth k [k0; k1; k2] k0)) = Some (Ta k)).
  { intros k Hk. pose proof (Hp' k Hk) as G. destruct k as [|[|[|k]]]; [| | |lia]; cbn [nth sel] in G |- *; destruct G as (G1 & G2 & G3 & G4 & _); auto. }
  exists d, k0, k1, k2, Td, Ta, ft, dcc, dcs, acc, acs, pad, (stuff (pack bits) ++ 255 :: 217 :: sfx)%list.
  split; [destruct (decode_baseline _); reflexivity|]. split; [exact Hf|]. split; [exact Hdc|]. split; [exact Hk0|]. split; [exact Hk1|]. split; [exact Hk2|].
  split; [repeat split|]. split; [exact Hd|]. split; [exact Hopt|]. split; [exact Hsel'|]. split; [|intros u Hu; now apply Hext].
  intros k Hk. specialize (Hp' k Hk). destruct (nth k sel (0, 0)). tauto.
Qed.

Lemma layout_fit d hs vs : 1 <= hs <= 2 -> 1 <= vs <= 2 -> ups_fit hs vs (layout_ups d hs vs) /\ ups_fit hs vs (layout_ups d hs vs).
Proof.
  intros Hh Hv. assert (ups_fit hs vs (layout_ups d hs vs)); [|split; assumption]. unfold layout_ups, choose_horizontal, choose_hv.
  assert (hs = 1 \/ hs = 2) as [-> | ->] by lia; assert (vs = 1 \/ vs = 2) as [-> | ->] by lia; cbn [Z.eqb Pos.eqb]; destruct (d_isa d), (o_use_unsafe (d_opt d)); cbn; lia.
Qed.

Lemma layout_avx d hs vs : layout_ups d hs vs = UpHVAvx2 -> d_isa d = Avx2 /\ o_use_unsafe (d_opt d) = true.
Proof.
  unfold layout_ups, choose_horizontal, choose_hv. destruct (hs =? 1), (vs =? 1), (d_isa d), (o_use_unsafe (d_opt d)); try discriminate; auto.
Qed.

Lemma colour_image_rows cpu o ps hs vs q q1 q2 w h tss sel B bits sfx :
  let l := Colour hs vs q q1 q2 in
  let cd := sel_codes (huffs ps ++ concat tss) sel in
  let mx := up8 w hs in let my := up8 h vs in
  baseline_colour ps l w h tss sel B bits sfx ->
  w <= o_max_width o -> h <= o_max_height o ->
  64 < last_bits cd (image_blocks l w h B) (Z.to_nat (hs * vs) + 3) ->
  my mod hs = 0 -> my / hs * (8 * hs * vs * w) <= (w + 8) * (h + 8) + (if (hs =? 1) && (vs =? 1) then 0 else 128 * h) ->
  exists g a b c lost js,
    colour_job cpu o hs vs w h (quants ps) q q1 q2 g a b c /\
    fst (decode_buffer (new_with_options cpu o) (colour_file ps l w h tss sel bits sfx)) =
      rbind (run_jobs g js) (fun os => Ok (assemble os (g_total g) (w * num_components (o_colorspace o) * h))) /\
    zlen js = my / hs /\
    (lost = [] \/ lost = [(2%nat, (mx - 1, my - 1))] \/ lost = [(1%nat, (mx - 1, my - 1)); (2%nat, (mx - 1, my - 1))]) /\
    (lost <> [] -> last_bits cd (image_blocks l w h B) (length lost) <= 64) /\
    forall i, 0 <= i < my / hs -> length (nth (Z.to_nat i) js []) = 3%nat /\
      forall k, (k < 3)%nat -> Z.of_nat k < num_components (o_colorspace o) ->
        plane_ok B (wide hs mx) (high hs vs) i lost k (chan (nth (Z.to_nat i) js []) k).
Proof.
  intros l cd mx my HB Hmw Hmh Hlast Heven Hroom.
  destruct (colour_front cpu o ps hs vs q q1 q2 w h tss sel B bits sfx HB Hmw Hmh) as (d & k0 & k1 & k2 & Td & Ta & ft & dcc & dcs & acc & acs & pad & rd &
    EB & Hf & Hdc & Hk0 & Hk1 & Hk2 & (Q0 & Q1 & Q2) & Hd & Hopt & Hsel' & Htab & Hext). fold l cd in Hext. fold mx my in Hk0, Hk1, Hk2, Hd. fold l in EB. rewrite EB. clear EB.
  destruct HB as [_ _ Hl _ Hw Hh _ _ Hbits Hblk _].
  assert (Hhs : 1 <= hs <= 2) by (destruct Hl; lia). assert (Hvs : 1 <= vs <= 2) by (destruct Hl; lia).
  destruct (colour_setup d k0 k1 k2 w h hs vs mx my Hhs Hvs Hw Hh eq_refl eq_refl Hdc Hk0 Hk1 Hk2 Hd) as (g & Eg & G).
  { intros c [<-|[<-|[<-|[]]]]; [destruct (Hsel' 0%nat ltac:(lia)) as (_ & _ & G3 & G4)|destruct (Hsel' 1%nat ltac:(lia)) as (_ & _ & G3 & G4)|
      destruct (Hsel' 2%nat ltac:(lia)) as (_ & _ & G3 & G4)]; eauto. }
  destruct (colour_rows d k0 k1 k2 w h hs vs mx my Hhs Hvs Hw Hh eq_refl eq_refl Hk0 Hk1 Hk2 Hd q q1 q2 B Td Ta ft dcc dcs acc acs sfx bits pad)
    with (g := g) (rd := rd) as (s & lost & js & Er & Eo & Ej & Lj & Hlost & Hrow); auto.
  - rewrite <- Hbits. symmetry. apply encode_units_ext. intros u Hu. now apply Hext.
  - eapply units_pred_ext; [|exact Hblk]. cbv beta. intros u pp zz Hu [A1 A2]. split; [exact A1|].
    pose proof (Hext u Hu) as Ec. unfold cd in Ec. rewrite Ec in A2. exact A2.
  - erewrite <- last_bits_ext; [exact Hlast|]. intros u Hu. now apply Hext.
  - exists g, k0, (set_c_ups (layout_ups d hs vs) k1), (set_c_ups (layout_ups d hs vs) k2), lost, js.
    split; [|split; [|split; [exact Lj|split; [|split]]]].
    + destruct Hopt as (O1 & O2 & O3 & O4 & O5). split.
      * exact (cg_comps _ _ _ _ _ _ _ _ _ _ _ G).
      * destruct Hk0 as (_ & A & A' & A'' & _). repeat split; assumption.
      * destruct Hk1 as (_ & A & A' & A'' & _). repeat split; assumption.
      * destruct Hk2 as (_ & A & A' & A'' & _). repeat split; assumption.
      * exact (cg_in _ _ _ _ _ _ _ _ _ _ _ G).
      * rewrite (cg_out _ _ _ _ _ _ _ _ _ _ _ G). exact O1.
      * rewrite (cg_idct _ _ _ _ _ _ _ _ _ _ _ G). exact O2.
      * rewrite (cg_cc _ _ _ _ _ _ _ _ _ _ _ G). exact O3.
      * exact (cg_width _ _ _ _ _ _ _ _ _ _ _ G).
      * exact (cg_hv _ _ _ _ _ _ _ _ _ _ _ G).
      * exact (cg_mcuw _ _ _ _ _ _ _ _ _ _ _ G).
      * exact (cg_bias _ _ _ _ _ _ _ _ _ _ _ G).
      * rewrite (cg_chunk _ _ _ _ _ _ _ _ _ _ _ G), O1. reflexivity.
      * destruct (layout_fit d hs vs Hhs Hvs). split; assumption.
      * cbn [c_ups set_c_ups]. intros H. rewrite <- O4, <- O5. apply (layout_avx d hs vs). tauto.
    + unfold decode_baseline. cbn [hd_dec hd_rd]. rewrite Eg, Er, Ej, rev_involutive, Eo, (proj1 Hopt).
      destruct (run_jobs g js); reflexivity.
    + apply Hlost.
    + intros Hne. destruct Hlost as [_ Hl']. erewrite last_bits_ext; [exact (Hl' Hne)|]. intros u Hu. now apply Hext.
    + intros i Hir. destruct (Hrow i Hir) as [R3 Rk]. split; [exact R3|]. intros k Hk Hkn. destruct (Rk k Hk) as (pl & Zp & Pp).
      assert (chan (nth (Z.to_nat i) js []) k = pl) as ->.
      { unfold chan. unfold zget in Zp. replace (Z.of_nat k <? 0) with false in Zp by lia. rewrite Nat2Z.id in Zp. now apply nth_error_nth. }
      apply Pp. unfold nc. unfold layout_dec. cbn [d_opt set_d_comps set_d_ratio]. rewrite (proj1 Hopt). exact Hkn.
Qed.
