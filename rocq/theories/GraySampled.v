(** Baseline grayscale files with sampling factors. *)
From Coq Require Import ZArith String List Bool Lia Reals Lra.
From Coq Require Import ZifyBool ZifyNat ZifyN.
From Verif Require Import Base Types Huffman State Bitstream Headers Idct Color Simd Worker Mcu McuProg Decoder.
From Verif Require Import SpecHuffman SpecSegments SpecFile SpecExtend SpecBits SpecBlock SpecProg SpecScript SpecImage SpecBaseline SpecDct SpecPixels SpecGraySampled.
From Verif Require Import SpecIdct SpecColor Obs ObsProg ExTools.
From Verif Require Import BaseFacts HeaderFacts HeaderInv HeaderReads HeaderItems TableSegments BlockSafe HuffDecode FastAc Reader Feed Block ProgFacts ProgFile HeaderFile ProgImage.
From Verif Require Import ColorFacts Placement IdctFacts Strip GrayImage BaseGray BaseFile IdctReal GrayFile GrayReal BaseReal.
Import ListNotations.
Local Open Scope Z_scope.
Ltac Zify.zify_post_hook ::= Z.div_mod_to_equations.

Definition gray_dec (cpu : isa) (o : options) (sof : sofmarker) (prog : bool) (hs vs q w h : Z)
  (qs : list quant_def) (dcts acts : list (option hufftable)) : decoder :=
  mkDecoder (mkInfo w h 8 sof 0 0 1) [None; None; None; None] dcts acts
    [frame_component CY hs vs q (qt_of qs q) (up8 w hs) 1] hs vs (hs * 8) (vs * 8) (up8 w hs) (up8 h vs)
    (negb (hs =? 1) || negb (vs =? 1)) RNone GRAYSCALE prog 0 0 0 0 0
    (choose_idct_func cpu (o_use_unsafe o)) (choose_color_convert cpu (o_use_unsafe o))
    [0; 0; 0; 0] 0 2147483647 (set_out_colorspace o GRAYSCALE) cpu.

Lemma gray_sof_run cpu o sof prog hs vs q w h qs qt dcts acts t : 1 <= hs <= 2 -> 1 <= vs <= 2 -> 0 <= q <= 3 ->
  quants_in qt (last_quant qs) -> last_quant qs q <> None -> 0 < w <= 65535 -> 0 < h <= 65535 ->
  w <= o_max_width o -> h <= o_max_height o ->
  parse_start_of_frame sof (mkHst (tabled (set_d_prog prog (decoder_default cpu o)) qt dcts acts)
    (segment (frame_payload h w [(1, 16 * hs + vs, q)]) ++ t))
  = (Ok tt, mkHst (gray_dec cpu o sof prog hs vs q w h qs dcts acts) t).
Proof.
  intros Hhs Hvs Hq0 [H4 Hq] Hs Hw Hh Hmw Hmh.
  assert (nth (Z.to_nat q) qt None = Some (qt_of qs q)) as Hqt.
  { rewrite Hq by exact Hq0. unfold qt_of. destruct (last_quant qs q); [reflexivity|congruence]. }
  unfold parse_start_of_frame, segment. rewrite <- app_assoc.
  erewrite bind_ok by (apply map_err_ok, rd_u16_be16; cbn; lia).
  unfold frame_payload. rewrite <- app_comm_cons. erewrite bind_ok by apply rd_byte_cons.
  change (negb (8 =? 8)) with false. cbv iota. erewrite bind_ok by reflexivity. rewrite <- !app_assoc.
  erewrite bind_ok by (apply map_err_ok, rd_u16_be16; lia). erewrite bind_ok by reflexivity.
  erewrite bind_ok by (apply map_err_ok, rd_u16_be16; lia). erewrite bind_ok by reflexivity.
  erewrite bind_ok by reflexivity. cbn [hd_dec].
  match goal with |- context [d_opt ?x] => change (d_opt x) with o end.
  replace (o_max_width o <? w) with false by lia. replace (o_max_height o <? h) with false by lia.
  replace ((w =? 0) || (h =? 0)) with false by lia.
  rewrite <- app_comm_cons. erewrite bind_ok by apply rd_byte_cons.
  change (SpecSegments.blen [(1, 16 * hs + vs, q)]) with 1.
  change (1 =? 0) with false. cbv iota zeta. change (negb _) with false. cbv iota.
  erewrite bind_ok by reflexivity. erewrite bind_ok by reflexivity. cbn [flat_map fst snd app].
  change (Z.to_nat 1) with 1%nat. cbn [hd_rd hd_dec].
  erewrite bind_ok.
  2:{ erewrite read_component by (apply (component_ok 1 CY hs vs q eq_refl); lia).
      cbn [read_components]. erewrite bind_ok by reflexivity. reflexivity. }
  erewrite bind_ok by reflexivity. cbn [hd_rd hd_dec].
  assert (hs = 1 \/ hs = 2) as [-> | ->] by lia; assert (vs = 1 \/ vs = 2) as [-> | ->] by lia;
    (erewrite bind_ok; [|erewrite sof_component by (apply Hqt); cbn [sof_components];
        erewrite bind_ok by reflexivity; reflexivity]; reflexivity).
Qed.

Lemma gray_seg_ok sof hs vs q w h : sof = 192 \/ sof = 194 -> 1 <= hs <= 2 -> 1 <= vs <= 2 -> 0 <= q <= 3 ->
  0 < w <= 65535 -> 0 < h <= 65535 -> header_seg (sof, frame_payload h w [(1, 16 * hs + vs, q)]).
Proof.
  intros Hs Hhs Hvs Hq Hw Hh. unfold header_seg. cbn [fst snd]. split; [unfold byte; lia|]. split; [lia|]. split; [lia|]. split.
  - unfold frame_payload. constructor; [unfold byte; lia|]. apply Forall_app. split; [apply be16_bytes; lia|].
    apply Forall_app. split; [apply be16_bytes; lia|]. constructor; [cbn; unfold byte; lia|].
    cbn [flat_map fst snd app]. repeat (apply Forall_nil || apply Forall_cons); unfold byte; lia.
  - unfold fits. cbn. lia.
Qed.

(** What the preparations do with a sampled component *)
Definition gray_comp (n : Z) (c : component) : component := set_c_h 1 (set_c_stride (n * 8) (set_c_v 1 c)).
Definition gray_reset (n : Z) (c : component) (d : decoder) : decoder :=
  set_d_comps [gray_comp n c] (set_d_ratio RNone (set_d_vmax 1
    (set_d_opt (set_out_colorspace (d_opt d) GRAYSCALE) (set_d_hmax 1 d)))).

Lemma sampled_setup d c w h hs vs dct act : 0 < w <= 65527 -> 0 < h <= 65527 ->
  d_comps d = [c] -> c_cid c = CY -> d_hmax d = hs -> d_vmax d = vs -> 1 <= hs <= 2 -> 1 <= vs <= 2 ->
  negb (hs =? 1) || negb (vs =? 1) = true -> d_inter d = true -> d_incs d = GRAYSCALE -> o_strict (d_opt d) = false ->
  i_width (d_info d) = w -> i_height (d_info d) = h ->
  table_at (d_dcts d) (c_dct c) = Some dct -> table_at (d_acts d) (c_act c) = Some act ->
  gray_ready (gray_reset ((w + 7) / 8) c d) (gray_comp ((w + 7) / 8) c) w h ((w + 7) / 8) d.
Proof.
  intros Hw Hh Hcomps C1 D1 D2 Hhs Hvs Hone D3 D5 Hst D6 D7 Ht Ha. unfold gray_ready.
  assert (E1 : check_component_dimensions d = Ok tt).
  { unfold check_component_dimensions. rewrite Hcomps. cbn [find]. rewrite C1. cbn [is_y check_chroma]. rewrite C1. reflexivity. }
  assert (E2 : check_tables d = Ok tt).
  { unfold check_tables. rewrite D5. change (Z.to_nat (num_components GRAYSCALE)) with 1%nat. cbn [check_tables_from].
    rewrite Hcomps. change (at_ [c] 0) with (Ok c). cbv iota beta. now rewrite Ht, Ha. }
  assert (E3 : exists r, set_upsampling d = (Ok tt, set_d_comps [c] (set_d_ratio r d))).
  { unfold set_upsampling, bind, get, modify, ret, set_up_samplers. rewrite D1, D2.
    assert (hs = 1 \/ hs = 2) as [-> | ->] by lia; assert (vs = 1 \/ vs = 2) as [-> | ->] by lia; try discriminate Hone;
      cbn [Z.eqb Pos.eqb andb]; cbn [d_comps set_d_ratio]; rewrite Hcomps; eexists; reflexivity. }
  destruct E3 as (r & E3).
  unfold baseline_setup, bind, get, lift, ret. rewrite E1, E2, D3. cbv iota beta. rewrite E3. cbv iota beta.
  set (d1 := set_d_comps [c] (set_d_ratio r d)).
  destruct (mcu_counts d1) as [[w0 h0] b0].
  change (d_incs d1) with (d_incs d). change (d_inter d1) with (d_inter d). change (d_opt d1) with (d_opt d).
  change (d_info d1) with (d_info d). rewrite D5, D3, Hst. cbn [cs_eqb andb]. cbv iota beta.
  unfold reset_grayscale, bind, modify, set_comp0. cbv iota beta. rewrite D6, D7.
  unfold u16. rewrite !Z.mod_small by lia.
  match goal with |- context [match d_comps ?x with _ => _ end] => change (d_comps x) with [c] end. cbv iota beta.
  match goal with |- context [set_d_comps [?y] ?x] => change (set_d_comps [y] x) with (gray_reset ((w + 7) / 8) c d) end.
  set (d2 := gray_reset ((w + 7) / 8) c d). change (d_comps d2) with [gray_comp ((w + 7) / 8) c]. cbv iota beta.
  match goal with |- context [at_ [?y] 0] => change (at_ [y] 0) with (Ok y) end. cbv iota beta.
  set (g := geom_of _ _ _ _ _).
  assert (Hg : g_mcuw g = (w + 7) / 8 /\ g_mcuh g = (h + 7) / 8 /\ g_bias g = 1 /\ g_ccap g = 64 * ((w + 7) / 8) /\
    g_comps g = [gray_comp ((w + 7) / 8) c] /\ g_hv g = false /\ g_in g = GRAYSCALE /\ g_out g = GRAYSCALE /\ g_idct g = d_idct d2 /\
    g_width g = w /\ g_chunk g = 8 * w /\ (w + 8) * (h + 8) <= g_total g).
  { unfold g, geom_of. cbn [g_mcuw g_mcuh g_bias g_ccap g_comps g_hv g_in g_out g_idct g_width g_chunk g_total].
    unfold capacity, extra_space.
    change (o_colorspace (d_opt d2)) with GRAYSCALE. change (d_incs d2) with (d_incs d). change (d_info d2) with (d_info d).
    change (d_hmax d2) with 1. change (d_vmax d2) with 1. change (d_ratio d2) with RNone. change (d_inter d2) with (d_inter d).
    rewrite D3, D5, D6, D7. cbn [num_components ratio_is_hv].
    unfold u16. rewrite !Z.mod_small by lia. repeat (split; [reflexivity || assumption || lia|]).
    assert ((w + 8) * (h + 8) * 1 = (w + 8) * (h + 8)) as -> by ring. lia. }
  destruct Hg as (G1 & G2 & G3 & G4 & G5 & G6 & G7 & G8 & G9 & G10 & G11 & G12). rewrite G11.
  replace (8 * w =? 0) with false by lia. exists g. split; [reflexivity|]. repeat (split; [assumption|]). assumption.
Qed.

Lemma sampled_file cpu o hs vs ps q t w h tss td ta blocks bits sfx :
  baseline_gray ps q w h tss td ta blocks bits sfx -> 1 <= hs <= 2 -> 1 <= vs <= 2 ->
  negb (hs =? 1) || negb (vs =? 1) = true -> o_strict o = false ->
  w <= o_max_width o -> h <= o_max_height o -> last_quant (quants ps) q = Some t -> 64 * ((w + 7) / 8) < 9 * w ->
  exists px, fst (decode_buffer (new_with_options cpu o) (gray_at 192 ps hs vs q w h (baseline_items tss td ta bits) sfx)) = Ok px /\
    zlen px = w * h /\
    forall r k, 0 <= r < h -> 0 <= k < w ->
      zn px (r * w + k) = u8 (sample (kernel_of (choose_idct_func cpu (o_use_unsafe o)) (natural (qd_values t))
        (natural (nth (Z.to_nat (r / 8 * ((w + 7) / 8) + k / 8)) blocks []))) (r mod 8) (k mod 8)).
Proof.
  intros [Hps Hl Hq Hw Hh Hts [Htd Hta] Hdc Hac Hlen Hbits Hblk Hby] Hhs Hvs Hone Hstr Hmw Hmh Ht Hpad.
  set (scan := [255; 218] ++ segment [1; 1; 16 * td + ta; 0; 63; 16 * 0 + 0] ++ stuff (pack bits)).
  assert (Hscan : Forall byte (stuff (pack bits) ++ 255 :: 217 :: sfx)).
  { apply Forall_app. split; [apply stuff_byte, (pack_byte bits [] 0); [reflexivity|lia]|].
    constructor; [unfold byte; lia|]. constructor; [unfold byte; lia|exact Hby]. }
  assert (Hsos : Forall byte (segment [1; 1; 16 * td + ta; 0; 63; 16 * 0 + 0] ++ stuff (pack bits) ++ 255 :: 217 :: sfx)).
  { apply segment_app; [|cbn; unfold fits; cbn; lia|exact Hscan]. repeat (apply Forall_cons || apply Forall_nil); unfold byte; lia. }
  assert (Hitems : (flat_map item_bytes (baseline_items tss td ta bits) ++ [255; 217] ++ sfx =
    flat_map item_bytes (map Tables tss) ++ 255 :: 218 :: segment [1; 1; 16 * td + ta; 0; 63; 16 * 0 + 0] ++ stuff (pack bits) ++ 255 :: 217 :: sfx)%list).
  { unfold baseline_items. rewrite flat_map_app. cbn [flat_map item_bytes app]. rewrite app_nil_r, <- !app_assoc. cbn [app].
    rewrite <- !app_assoc. reflexivity. }
  assert (Hrest : Forall byte (flat_map item_bytes (map Tables tss) ++ 255 :: 218 :: segment [1; 1; 16 * td + ta; 0; 63; 16 * 0 + 0] ++ stuff (pack bits) ++ 255 :: 217 :: sfx)).
  { apply Forall_app. split.
    - clear - Hts. induction Hts as [|ts' tss [A1 A2] _ IH]; [constructor|].
      cbn [map flat_map]. apply Forall_app. split; [|exact IH]. cbn [item_bytes app].
      constructor; [unfold byte; lia|]. constructor; [unfold byte; lia|]. rewrite <- (app_nil_r (segment _)).
      apply segment_app; auto. now apply dht_payload_bytes.
    - constructor; [unfold byte; lia|]. constructor; [unfold byte; lia|exact Hsos]. }
  unfold gray_at. rewrite Hitems.
  destruct (headers_seg cpu o false ps (frame_payload h w [(1, 16 * hs + vs, q)])
    (gray_dec cpu o (sof_of false) false hs vs q w h (quants ps)) _ Hps
    ltac:(apply gray_seg_ok; cbn in *; auto; lia) Hrest) as (last & before & dcts & acts & E & Hi & Hla & Hbe & Hh0).
  { intros qt dcts acts Hqs. apply gray_sof_run; cbn in *; auto; try lia. now inversion Hq. }
  { intros dcts acts. split; reflexivity. }
  set (F := gray_dec cpu o (sof_of false) false hs vs q w h (quants ps) dcts acts) in *.
  destruct (loopz_tabless tss last before F (huffs ps) (255 :: 218 :: segment [1; 1; 16 * td + ta; 0; 63; 16 * 0 + 0] ++ stuff (pack bits) ++ 255 :: 217 :: sfx))
    as (l' & b' & d1 & E1 & S1 & I1 & H1 & L1 & B1); auto.
  { constructor; [unfold byte; lia|]. constructor; [unfold byte; lia|exact Hsos]. }
  pose proof (same_tabled _ _ S1) as Hd1. set (T1 := d_dcts d1) in *. set (T2 := d_acts d1) in *.
  set (c1 := frame_component CY hs vs q (qt_of (quants ps) q) (up8 w hs) 1).
  assert (Hc1 : d_comps d1 = [c1]) by (rewrite Hd1; reflexivity).
  set (tabs := (huffs ps ++ concat tss)%list) in *.
  set (d := sos_dec 0 c1 td ta 0 63 0 0 d1).
  assert (E2 : parse_sos (mkHst d1 (segment [1; 1; 16 * td + ta; 0; 63; 16 * 0 + 0] ++ stuff (pack bits) ++ 255 :: 217 :: sfx))
     = (Ok tt, mkHst d (stuff (pack bits) ++ 255 :: 217 :: sfx))).
  { assert (Hic : i_comps (d_info d1) = 1) by (rewrite Hd1; reflexivity).
    apply parse_sos_one; try lia.
    - rewrite Hc1. unfold zlen. cbn [length]. lia.
    - rewrite Hic, Hc1. reflexivity.
    - rewrite Hc1. reflexivity. }
  pose proof (loopz_sos_ok l' b' d1 _ _ _ I1 Hsos L1 B1 E2) as E3.
  assert (EB : decode_buffer (new_with_options cpu o)
     ([255; 216] ++ msegs_bytes (map pre_seg ps) ++ mseg_bytes (192, frame_payload h w [(1, 16 * hs + vs, q)]) ++
      flat_map item_bytes (map Tables tss) ++ 255 :: 218 :: segment [1; 1; 16 * td + ta; 0; 63; 16 * 0 + 0] ++ stuff (pack bits) ++ 255 :: 217 :: sfx)
     = (let '(r, h) := decode_baseline (mkHst d (stuff (pack bits) ++ 255 :: 217 :: sfx)) in (r, hd_dec h))).
  { unfold decode_buffer, on_buffer, decode_internal. change (new_with_options cpu o) with (decoder_default cpu o).
    change 192 with (sof_code false). unfold bind at 1. rewrite E, E1, E3. unfold bind, getd. cbn [hd_dec].
    assert (d_prog d = false) as -> by (unfold d, sos_dec; rewrite Hd1; reflexivity). reflexivity. }
  rewrite EB.
  destruct H1 as (H4 & Hlg & Hslot). rewrite Forall_forall in Hlg.
  destruct Hdc as (tdc & Ldc & _). destruct Hac as (tac & Lac & Sac).
  destruct (last_huff_in _ _ _ _ Ldc) as [Idc _]. destruct (last_huff_in _ _ _ _ Lac) as [Iac _].
  destruct (Hslot _ _ _ Htd Ldc) as (hdc & Sdc & Ndc). destruct (Hslot _ _ _ Hta Lac) as (hac & Slac & Nac).
  pose proof (huffman_new_dc _ _ _ (proj1 (proj2 (Hlg _ Idc))) Ndc) as Hdt.
  destruct (huffman_new_ac _ _ _ _ (proj1 (proj2 (Hlg _ Iac))) Nac) as (ft & Hat).
  unfold code_at in Hbits, Hblk. rewrite Ldc in Hbits, Hblk. rewrite Lac in Hbits.
  destruct (pack_bits bits) as (pad & _ & Hpd).
  assert (Hent : entropy (stuff (pack bits) ++ 255 :: 217 :: sfx) = (pack bits, AtMarker 217 sfx)) by (apply entropy_stuff; lia).
  assert (Hf : feed 0 (bst_new (stuff (pack bits) ++ 255 :: 217 :: sfx)) (bits ++ pad) (AtMarker 217 sfx)).
  { pose proof (feed_new (stuff (pack bits) ++ 255 :: 217 :: sfx) 0 Hscan) as G. unfold scan_bits in G. rewrite Hent in G.
    cbn [fst snd repeat] in G. rewrite app_nil_r, Hpd in G. apply G; [discriminate|now left]. }
  set (c := set_c_act ta (set_c_dct td c1)). set (n := (w + 7) / 8).
  destruct (gray_scan (gray_reset n c d) (gray_comp n c) w h n (qd_values t)) with (t0 := 2147483647) (d0 := d) (dct := hdc) (act := hac) (ft := ft)
    (dcc := hf_counts tdc) (dcs := hf_symbols tdc) (acc := hf_counts tac) (acs := hf_symbols tac) (rest := sfx)
    (rd := (stuff (pack bits) ++ 255 :: 217 :: sfx)%list) (blocks := blocks) (bits := bits) (bs := pad) as (px & (pp & t1 & rd' & Epx & _) & R); auto.
  - unfold gray_comp, c, c1, frame_component. cbn [c_cid c_h c_v c_stride c_qt c_pred set_c_act set_c_dct set_c_h set_c_v set_c_stride].
    repeat (split; [reflexivity|]). split; [lia|]. split; [|reflexivity]. unfold qt_of. now rewrite Ht.
  - unfold d, sos_dec, gray_reset. rewrite Hd1. repeat split.
  - apply (sampled_setup d c w h hs vs hdc hac); auto.
    + unfold d, sos_dec. cbn [d_comps set_d_al set_d_ah set_d_se set_d_ss set_d_zorder set_d_comps]. rewrite Hc1. reflexivity.
    + unfold d, sos_dec. rewrite Hd1. reflexivity.
    + unfold d, sos_dec. rewrite Hd1. reflexivity.
    + unfold d, sos_dec. rewrite Hd1. exact Hone.
    + unfold d, sos_dec. rewrite Hd1. reflexivity.
    + unfold d, sos_dec. rewrite Hd1. exact Hstr.
    + unfold d, sos_dec. rewrite Hd1. reflexivity.
    + unfold d, sos_dec. rewrite Hd1. reflexivity.
    + apply (slot_at d1 false td hdc H4 Htd Sdc).
    + apply (slot_at d1 true ta hac H4 Hta Slac).
  - unfold gray_reset, d, sos_dec. rewrite Hd1. reflexivity.
  - assert (n * ((h + 7) / 8) <= 8191 * 8191) by (apply Z.mul_le_mono_nonneg; unfold n; lia). lia.
  - apply (slot_at d1 false td hdc H4 Htd Sdc).
  - apply (slot_at d1 true ta hac H4 Hta Slac).
  - exact (Sac eq_refl).
  - exists px. rewrite Epx. split; [reflexivity|].
    assert (d_idct (gray_reset n c d) = choose_idct_func cpu (o_use_unsafe o)) as Hid by (unfold gray_reset, d, sos_dec; rewrite Hd1; reflexivity).
    rewrite Hid in R. exact R.
Qed.

Lemma sampled_real cpu o hs vs ps q t w h tss td ta blocks bits sfx :
  baseline_gray ps q w h tss td ta blocks bits sfx -> 1 <= hs <= 2 -> 1 <= vs <= 2 -> o_strict o = false ->
  w <= o_max_width o -> h <= o_max_height o -> last_quant (quants ps) q = Some t ->
  Forall (in_range (qd_values t)) blocks -> 64 * ((w + 7) / 8) < 9 * w ->
  exists px, fst (decode_buffer (new_with_options cpu o) (gray_at 192 ps hs vs q w h (baseline_items tss td ta bits) sfx)) = Ok px /\
    close_to (qd_values t) blocks w h px.
Proof.
  intros Hi Hhs Hvs Hstr Hmw Hmh Ht Hra Hpad.
  destruct (negb (hs =? 1) || negb (vs =? 1)) eqn:Hone.
  2:{ assert (hs = 1) as -> by lia. assert (vs = 1) as -> by lia.
      exact (base_real cpu o ps q t w h tss td ta blocks bits sfx Hi Hmw Hmh Ht Hra Hpad). }
  destruct (sampled_file cpu o hs vs _ _ _ _ _ _ _ _ _ _ _ Hi Hhs Hvs Hone Hstr Hmw Hmh Ht Hpad) as (px & E & L & N).
  destruct Hi as [P1 P2 P3 P4 P5 P6 P7 P8 P9 P10 P11 P12 P13].
  exists px. split; [exact E|]. split; [exact L|]. intros a b Ha Hb m p.
  assert (Hp' : p = zn px (a * w + b)) by reflexivity. rewrite N in Hp' by assumption.
  assert (Hidx : (Z.to_nat (a / 8 * m + b / 8) < length blocks)%nat).
  { assert (0 <= a / 8 < (h + 7) / 8) by lia. assert (0 <= b / 8 < m) by (unfold m; lia).
    pose proof (block_inside ((h + 7) / 8) m (a / 8) (b / 8)). fold m in P10. lia. }
  unfold sample_exact, block_of. fold m in Hp'. rewrite Hp'.
  assert (Hq : quant_def_legal t) by (eapply quant_legal; eauto).
  destruct Hq as (_ & Q1 & Q2).
  assert (Hl : Forall (fun zz => length zz = 64%nat) blocks).
  { eapply with_pred_Forall; [|exact P12]. intros p0 z [[Hz _] _]. exact Hz. }
  rewrite Forall_forall in Hl, Hra.
  apply px_close; auto; try lia; [apply Hl|apply Hra]; now apply nth_In.
Qed.
