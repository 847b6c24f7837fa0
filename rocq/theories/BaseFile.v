(** Whole baseline grayscale files. *)
From Coq Require Import ZArith String List Bool Lia.
From Coq Require Import ZifyBool ZifyNat ZifyN.
From Verif Require Import Base Types Huffman State Bitstream Headers Idct Color Simd Worker Mcu McuProg Decoder.
From Verif Require Import SpecHuffman SpecSegments SpecFile SpecExtend SpecBits SpecBlock SpecProg SpecScript SpecImage SpecBaseline Obs ObsProg ExTools.
From Verif Require Import SpecIdct SpecColor.
From Verif Require Import BaseFacts HeaderFacts HeaderInv HeaderReads HeaderItems TableSegments BlockSafe HuffDecode FastAc Reader Feed Block ProgFacts ProgFile HeaderFile ProgImage.
From Verif Require Import ColorFacts Placement IdctFacts Strip GrayImage BaseGray.
Import ListNotations.
Local Open Scope Z_scope.
Ltac Zify.zify_post_hook ::= Z.div_mod_to_equations.

Lemma loopz_tabless tss : forall last before d tabs t, d_prog d = false ->
  Forall (fun ts => Forall huff_def_legal ts /\ fits (dht_payload ts)) tss ->
  hinv d -> holds_with false d tabs -> Forall byte t -> last <> 255 -> before <= 2 ->
  exists last' before' d', loopz last before d (flat_map item_bytes (map Tables tss) ++ t) = loopz last' before' d' t /\
    same_but_huff d d' /\ hinv d' /\ holds_with false d' (tabs ++ concat tss) /\ last' <> 255 /\ before' <= 2.
Proof.
  induction tss as [|ts tss IH]; intros last before d tabs t Hp Hl Hi Hh Ht Hla Hb.
  - exists last, before, d. cbn [map flat_map concat app]. rewrite app_nil_r. split; [reflexivity|]. split; [reflexivity|]. auto.
  - apply Forall_cons_iff in Hl. destruct Hl as [[L1 L2] Hl]. cbn [map flat_map concat]. rewrite <- app_assoc.
    assert (Hby : Forall byte (flat_map item_bytes (map Tables tss) ++ t)).
    { apply Forall_app. split; [|exact Ht]. clear - Hl. induction Hl as [|ts' tss [A1 A2] _ IH]; [constructor|].
      cbn [map flat_map]. apply Forall_app. split; [|exact IH]. cbn [item_bytes app].
      constructor; [unfold byte; lia|]. constructor; [unfold byte; lia|]. rewrite <- (app_nil_r (segment _)).
      apply segment_app; auto. now apply dht_payload_bytes. }
    destruct (loopz_tables false ts last before d tabs (flat_map item_bytes (map Tables tss) ++ t) Hp L1 L2 Hi Hh Hby Hla Hb)
      as (d1 & E1 & S1 & I1 & H1).
    rewrite E1. destruct (IH 196 1 d1 (tabs ++ ts)%list t) as (l' & b' & d' & E & S & I & H & R); auto; try lia.
    { pose proof (f_equal d_prog S1) as Hx. unfold same_but_huff in S1. pose proof (f_equal d_prog S1) as Hy. cbn in Hy. congruence. }
    exists l', b', d'. split; [exact E|]. split; [eapply same_trans; eauto|]. split; [exact I|]. split; [now rewrite app_assoc|exact R].
Qed.

Lemma slot_at d ac dest h : tables4 d -> 0 <= dest <= 3 -> slot d ac dest = Some h ->
  table_at (if ac then d_acts d else d_dcts d) dest = Some h.
Proof.
  intros [H1 H2] Hd Hs. unfold table_at, zget, slot in *. replace (dest <? 0) with false by lia.
  destruct ac.
  - rewrite (nth_error_nth' (d_acts d) None) by lia. now rewrite Hs.
  - rewrite (nth_error_nth' (d_dcts d) None) by lia. now rewrite Hs.
Qed.
Lemma land3 x : 0 <= x <= 3 -> Z.land x 3 = x.
Proof. intros H. change 3 with (2 ^ 2 - 1). rewrite land_ones_mod by lia. change (2 ^ 2) with 4. lia. Qed.

Lemma with_pred_impl (P Q : Z -> list Z -> Prop) zs : (forall p z, P p z -> Q p z) -> forall p, with_pred P p zs -> with_pred Q p zs.
Proof. intros H. induction zs as [|z zs IH]; intros p Hp; [exact I|]. destruct Hp as [H1 H2]. split; [now apply H|now apply IH]. Qed.

(** The block at a place of a strip made of whole blocks *)
Lemma concat_block (bs : list (list Z)) j : (j < length bs)%nat ->
  firstn 64 (skipn (64 * j) (concat (map natural bs))) = natural (nth j bs []).
Proof.
  revert j. induction bs as [|b bs IH]; intros j Hj; [cbn in Hj; lia|]. cbn [map concat].
  pose proof (GrayFile.natural_length b) as Hl. destruct j as [|j].
  - change (64 * 0)%nat with 0%nat. cbn [nth skipn]. rewrite firstn_app, Hl, Nat.sub_diag. rewrite firstn_O, app_nil_r.
    apply firstn_all2. lia.
  - rewrite skipn_app, skipn_all2 by lia. cbn [app nth]. rewrite Hl.
    replace (64 * S j - 64)%nat with (64 * j)%nat by lia. apply IH. cbn [length] in Hj. lia.
Qed.
Lemma concat_natural_len bs : length (concat (map natural bs)) = (64 * length bs)%nat.
Proof. induction bs as [|b bs IH]; [reflexivity|]. cbn [map concat length]. rewrite app_length, IH, GrayFile.natural_length. lia. Qed.

Section scan.
Variables (d : decoder) (c : component) (w h n : Z) (qt : list Z).
Hypothesis Hn : n = (w + 7) / 8.
Hypothesis Hw : 0 < w <= 65527.
Hypothesis Hh : 0 < h <= 65527.
Hypothesis Hpad : 64 * n < 9 * w.
Hypothesis Hcomps : d_comps d = [c].
Hypothesis Hc : c_cid c = CY /\ c_h c = 1 /\ c_v c = 1 /\ c_stride c = 8 * n /\ c_qt c = natural qt /\ c_pred c = 0.
Hypothesis Hsel : 0 <= c_dct c <= 3 /\ 0 <= c_act c <= 3.
Hypothesis Hd : d_hmax d = 1 /\ d_vmax d = 1 /\ d_ratio d = RNone /\ d_incs d = GRAYSCALE /\
  i_width (d_info d) = w /\ i_height (d_info d) = h /\ o_colorspace (d_opt d) = GRAYSCALE.

(** The preparations turn [d0] into [d] *)
Definition gray_ready (d0 : decoder) : Prop :=
  exists g, baseline_setup d0 = (Ok g, d) /\ g_mcuw g = n /\ g_mcuh g = (h + 7) / 8 /\ g_bias g = 1 /\ g_ccap g = 64 * n /\
    g_comps g = [c] /\ g_hv g = false /\ g_in g = GRAYSCALE /\ g_out g = GRAYSCALE /\ g_idct g = d_idct d /\
    g_width g = w /\ g_chunk g = 8 * w /\ (w + 8) * (h + 8) <= g_total g.

Lemma gray_setup dct act : d_inter d = false ->
  table_at (d_dcts d) (c_dct c) = Some dct -> table_at (d_acts d) (c_act c) = Some act -> gray_ready d.
Proof.
  intros D3 Ht Ha. unfold gray_ready. destruct Hd as (D1 & D2 & D4 & D5 & D6 & D7 & D8). destruct Hc as (C1 & C2 & C3 & C4 & C5 & C6).
  unfold baseline_setup, bind, get, lift, ret.
  assert (E1 : check_component_dimensions d = Ok tt).
  { unfold check_component_dimensions. rewrite Hcomps. cbn [find]. rewrite C1. cbn [is_y check_chroma]. rewrite C1. reflexivity. }
  assert (E2 : check_tables d = Ok tt).
  { unfold check_tables. rewrite D5. change (Z.to_nat (num_components GRAYSCALE)) with 1%nat. cbn [check_tables_from].
    rewrite Hcomps. change (at_ [c] 0) with (Ok c). cbv iota beta. now rewrite Ht, Ha. }
  rewrite E1, E2, D3. cbv iota beta. unfold mcu_counts. rewrite D3, D5, D6, D7. cbn [cs_eqb andb]. cbv iota beta.
  rewrite Hcomps. change (at_ [c] 0) with (Ok c). cbv iota beta.
  unfold u16. rewrite !Z.mod_small by lia.
  set (g := geom_of _ _ _ _ _).
  assert (Hg : g_mcuw g = n /\ g_mcuh g = (h + 7) / 8 /\ g_bias g = 1 /\ g_ccap g = 64 * n /\
    g_comps g = [c] /\ g_hv g = false /\ g_in g = GRAYSCALE /\ g_out g = GRAYSCALE /\ g_idct g = d_idct d /\
    g_width g = w /\ g_chunk g = 8 * w /\ (w + 8) * (h + 8) <= g_total g).
  { unfold g, geom_of. cbn [g_mcuw g_mcuh g_bias g_ccap g_comps g_hv g_in g_out g_idct g_width g_chunk g_total].
    rewrite D1, D2, D4, D5, D8. unfold capacity, extra_space. rewrite D3, D6, D7. cbn [num_components ratio_is_hv].
    unfold u16. rewrite !Z.mod_small by lia. repeat (split; [reflexivity || assumption || lia|]). apply Z.eq_le_incl. ring. }
  destruct Hg as (G1 & G2 & G3 & G4 & G5 & G6 & G7 & G8 & G9 & G10 & G11 & G12). rewrite G11.
  replace (8 * w =? 0) with false by lia. exists g. split; [reflexivity|]. repeat (split; [assumption|]). assumption.
Qed.

(** Once the rows are decoded: from the rows to the pixels *)
Lemma gray_finish (T : Z -> Prop) d0 rd blocks : gray_ready d0 ->
  Z.of_nat (length blocks) = n * ((h + 7) / 8) ->
  (forall g, g_mcuw g = n -> g_bias g = 1 -> g_ccap g = 64 * n -> g_hv g = false -> (h + 7) / 8 <= g_total g / g_chunk g ->
   exists p' t' st' tmp' js, mfor (Z.to_nat ((h + 7) / 8)) 0 (fun _ => decode_row g) (mkMst d (bst_new rd) [] [])
     = (Ok tt, mkMst (gdec d c p' t') st' tmp' (rev js)) /\
     js = map (fun k => [concat (map natural (firstn (Z.to_nat n) (skipn (k * Z.to_nat n) blocks))); []; []]) (seq 0 (Z.to_nat ((h + 7) / 8))) /\ T t') ->
  exists px, (exists p t rd', decode_baseline (mkHst d0 rd) = (Ok px, mkHst (gdec d c p t) rd') /\ T t) /\ zlen px = w * h /\
    forall r k, 0 <= r < h -> 0 <= k < w ->
      zn px (r * w + k) = u8 (sample (kernel_of (d_idct d) (natural qt)
        (natural (nth (Z.to_nat (r / 8 * n + k / 8)) blocks []))) (r mod 8) (k mod 8)).
Proof.
  intros Hready Hlen Hrows.
  destruct Hready as (g & Eg & G1 & G2 & G3 & G4 & G5 & G6 & G7 & G8 & G9 & G10 & G11 & G12).
  destruct Hd as (D1 & D2 & D4 & D5 & D6 & D7 & D8). destruct Hc as (C1 & C2 & C3 & C4 & C5 & C6).
  unfold decode_baseline. cbn [hd_dec hd_rd]. rewrite Eg.
  assert (Hn0 : 0 < n) by lia. set (m := (h + 7) / 8) in *. assert (Hm : 0 < m <= 8191) by (unfold m; lia).
  assert (Hn1 : n <= 8191) by lia.
  assert (Hprod : n * m <= 8191 * 8191) by (apply Z.mul_le_mono_nonneg; lia).
  assert (Htc : m <= g_total g / g_chunk g).
  { rewrite G11. apply Z.div_le_lower_bound; [lia|].
    assert (w * (8 * m) <= w * (h + 8)) by (apply Z.mul_le_mono_nonneg_l; unfold m; lia).
    assert (w * (h + 8) <= (w + 8) * (h + 8)) by (apply Z.mul_le_mono_nonneg_r; lia). lia. }
  unfold decode_rows. rewrite G2.
  destruct (Hrows g G1 G3 G4 G6 Htc) as (p' & t' & st' & tmp' & js & E & Ejs & HT).
  rewrite E. cbn [m_dec m_jobs m_st fst snd]. rewrite rev_involutive.
  assert (Hjl : zlen js = m) by (unfold zlen; rewrite Ejs, map_length, seq_length; lia).
  assert (Hrow : forall k, (k < Z.to_nat m)%nat -> length (firstn (Z.to_nat n) (skipn (k * Z.to_nat n) blocks)) = Z.to_nat n).
  { intros k Hk. rewrite firstn_length, skipn_length. apply Nat.min_l.
    assert (length blocks = Z.to_nat m * Z.to_nat n)%nat as -> by (rewrite <- Z2Nat.inj_mul by lia; lia).
    assert (S k * Z.to_nat n <= Z.to_nat m * Z.to_nat n)%nat by (apply Nat.mul_le_mono_r; lia). lia. }
  assert (HJ : Forall (fun j => exists y rest, j = y :: rest /\ zlen y = 64 * n) js).
  { rewrite Ejs. apply Forall_map, Forall_forall. intros k Hk. apply in_seq in Hk. eexists _, _. split; [reflexivity|].
    unfold zlen. rewrite concat_natural_len, Hrow by lia. lia. }
  destruct (gray_assemble g c [] n) with (jobs := js) (h := h) (total := g_total g) as (px & Epx & L & N); auto; try lia.
  { rewrite C5. apply GrayFile.natural_length. }
  rewrite G10 in L, N.
  destruct (run_jobs g js) as [os| | |] eqn:Er; try discriminate. cbn [rbind] in Epx. injection Epx as Epx.
  exists px. split.
  { exists p', t', (b_rd st'). split; [|exact HT]. do 2 f_equal. rewrite <- Epx. f_equal. unfold output_len, gdec. cbn [d_info d_opt set_d_todo set_d_comps].
    rewrite D6, D7, D8, G10. cbn [num_components]. lia. }
  split; [exact L|]. intros r k Hr Hk. rewrite N by assumption. unfold strip_px. rewrite G9, C5. do 3 f_equal.
  assert (Hr8 : 0 <= r / 8 < m) by (clear - Hr; unfold m; lia). assert (Hk8 : 0 <= k / 8 < n) by (clear - Hk Hn; lia).
  assert (Hjn : nth (Z.to_nat (r / 8)) js [] = [concat (map natural (firstn (Z.to_nat n) (skipn (Z.to_nat (r / 8) * Z.to_nat n) blocks))); []; []]).
  { rewrite Ejs. set (f := fun k => _). rewrite (nth_indep _ [] (f 0%nat)) by (clear - Hr8; rewrite map_length, seq_length; lia).
    rewrite (map_nth f). rewrite seq_nth by (clear - Hr8; lia). reflexivity. }
  rewrite Hjn. match goal with |- context [chan [?x; []; []] 0] => change (chan [x; []; []] 0) with x end.
  replace (Z.to_nat (64 * (k / 8))) with (64 * Z.to_nat (k / 8))%nat by (clear - Hk8; lia).
  rewrite concat_block by (rewrite Hrow by (clear - Hr8; lia); clear - Hk8; lia). f_equal.
  rewrite nth_firstn' by (clear - Hk8; lia). rewrite nth_skipn. f_equal.
  assert (Hnn : 0 <= n) by (clear - Hk8; lia). assert (0 <= r / 8 * n) by (apply Z.mul_nonneg_nonneg; [apply Hr8|exact Hnn]).
  rewrite <- Z2Nat.inj_mul by (clear - Hr8 Hnn; lia). clear - H Hk8. lia.
Qed.

Lemma gray_scan t0 d0 dct act ft dcc dcs acc acs rest rd blocks bits bs : gray_ready d0 ->
  d_todo d = t0 -> n * ((h + 7) / 8) < t0 <= 2147483647 -> table_at (d_dcts d) (c_dct c) = Some dct -> table_at (d_acts d) (c_act c) = Some act ->
  dc_table dct dcc dcs -> ac_table act ft acc acs false -> fast_safe acc acs ->
  Z.of_nat (length blocks) = n * ((h + 7) / 8) ->
  with_pred (fun p zz => baseline_block p zz /\ dc_fits dcc dcs p zz) 0 blocks ->
  encode_blocks (code_of dcc dcs) (code_of acc acs) 0 blocks = Some bits ->
  feed 0 (bst_new rd) (bits ++ bs) (AtMarker 217 rest) ->
  exists px, (exists p t rd', decode_baseline (mkHst d0 rd) = (Ok px, mkHst (gdec d c p t) rd') /\ t = t0 - n * ((h + 7) / 8)) /\
    zlen px = w * h /\
    forall r k, 0 <= r < h -> 0 <= k < w ->
      zn px (r * w + k) = u8 (sample (kernel_of (d_idct d) (natural qt)
        (natural (nth (Z.to_nat (r / 8 * n + k / 8)) blocks []))) (r mod 8) (k mod 8)).
Proof.
  intros Hready D9 Ht0 Ht Ha Hdt Hat Hsafe Hlen Hp He Hf.
  apply (gray_finish (fun t => t = t0 - n * ((h + 7) / 8))); auto. intros g G1 G3 G4 G6 Htc.
  destruct Hd as (D1 & D2 & D4 & D5 & D6 & D7 & D8). destruct Hc as (C1 & C2 & C3 & C4 & C5 & C6).
  assert (Hgd : d = gdec d c 0 t0).
  { unfold gdec. rewrite <- D9. assert (set_c_pred 0 c = c) as -> by (rewrite <- C6; destruct c; reflexivity).
    rewrite <- Hcomps. clear. destruct d; reflexivity. }
  set (m := (h + 7) / 8) in *. assert (Hm : 0 < m <= 8191) by (unfold m; lia). assert (Hn0 : 0 < n <= 8191) by lia.
  assert (Hprod : n * m <= 8191 * 8191) by (apply Z.mul_le_mono_nonneg; lia).
  destruct (gray_rows g d c dct act ft dcc dcs acc acs rest) with (n := Z.to_nat m) (i := 0) (zs := blocks) (p := 0)
    (t := t0) (st := bst_new rd) (tmp := @nil (list Z)) (jobs := @nil (list (list Z))) (b := bits) (bs := bs)
    as (p' & t' & st' & tmp' & js & E & Ejs & Et); auto; try lia.
  { rewrite land3 by lia. exact Ht. }
  { rewrite land3 by lia. exact Ha. }
  { unfold zlen. cbn [length]. lia. }
  rewrite <- Hgd in E. rewrite app_nil_r in E. rewrite E. eexists p', t', st', tmp', js. split; [reflexivity|]. split; [now rewrite Ejs, G1|lia].
Qed.
End scan.

(** What the baseline decoder for one component with factors 1 x 1 needs to find in a decoder
    that may have been used before *)
Record gray_left (D : decoder) : Prop := {
  gl_prog : d_prog D = false;
  gl_qt : d_qt D = [None; None; None; None];
  gl_tables : tables4 D;
  gl_hmax : d_hmax D = 1;
  gl_vmax : d_vmax D = 1;
  gl_inter : d_inter D = false;
  gl_ratio : d_ratio D = RNone }.
Lemma gray_left_new cpu o : gray_left (new_with_options cpu o).
Proof. split; try reflexivity. split; reflexivity. Qed.

(** The headers of a baseline grayscale file, read by such a decoder *)
Record gray_heads (D d : decoder) (c : component) (w h : Z) (t : quant_def) (td ta : Z) (hdc hac : hufftable) : Prop := {
  gh_comps : d_comps d = [c];
  gh_c : c_cid c = CY /\ c_h c = 1 /\ c_v c = 1 /\ c_stride c = 8 * ((w + 7) / 8) /\ c_qt c = natural (qd_values t) /\ c_pred c = 0;
  gh_sel : c_dct c = td /\ c_act c = ta;
  gh_d : d_hmax d = 1 /\ d_vmax d = 1 /\ d_ratio d = RNone /\ d_incs d = GRAYSCALE /\
    i_width (d_info d) = w /\ i_height (d_info d) = h /\ o_colorspace (d_opt d) = GRAYSCALE;
  gh_prog : d_prog d = false;
  gh_qt : d_qt d = [None; None; None; None];
  gh_tables : tables4 d;
  gh_inter : d_inter d = false;
  gh_todo : d_todo d = d_todo D;
  gh_idct : d_idct d = d_idct D;
  gh_opt : d_opt d = set_out_colorspace (d_opt D) GRAYSCALE;
  gh_dc : table_at (d_dcts d) td = Some hdc;
  gh_ac : table_at (d_acts d) ta = Some hac }.

Lemma gray_headers_from D ps q t w h tss td ta blocks bits sfx :
  hinv D -> gray_left D -> baseline_gray ps q w h tss td ta blocks bits sfx ->
  w <= o_max_width (d_opt D) -> h <= o_max_height (d_opt D) -> last_quant (quants ps) q = Some t ->
  exists d c tdc tac hdc hac ft,
    decode_headers (mkHst D (file 192 ps (Gray q) w h (baseline_items tss td ta bits) sfx))
      = (Ok tt, mkHst d (stuff (pack bits) ++ 255 :: 217 :: sfx)) /\
    gray_heads D d c w h t td ta hdc hac /\
    last_huff (huffs ps ++ concat tss) false td = Some tdc /\ last_huff (huffs ps ++ concat tss) true ta = Some tac /\
    dc_table hdc (hf_counts tdc) (hf_symbols tdc) /\ ac_table hac ft (hf_counts tac) (hf_symbols tac) false /\
    fast_safe (hf_counts tac) (hf_symbols tac).
Proof.
  intros HD [HD1 HD2 HD3 HD4 HD5 HD6 HD7] [Hps Hl Hq Hw Hh Hts [Htd Hta] Hdc Hac Hlen Hbits Hblk Hby] Hmw Hmh Ht.
  set (scan := [255; 218] ++ segment [1; 1; 16 * td + ta; 0; 63; 16 * 0 + 0] ++ stuff (pack bits)).
  assert (Hscan : Forall byte (stuff (pack bits) ++ 255 :: 217 :: sfx)).
  { apply Forall_app. split; [apply stuff_byte, (pack_byte bits [] 0); [reflexivity|lia]|].
    constructor; [unfold byte; lia|]. constructor; [unfold byte; lia|exact Hby]. }
  assert (Hsos : Forall byte (segment [1; 1; 16 * td + ta; 0; 63; 16 * 0 + 0] ++ stuff (pack bits) ++ 255 :: 217 :: sfx)).
  { apply segment_app; [|cbn; unfold fits; cbn; lia|exact Hscan]. repeat (apply Forall_cons || apply Forall_nil); unfold byte; lia. }
  assert (Hitems : (flat_map item_bytes (baseline_items tss td ta bits) ++ [255; 217] ++ sfx =
    flat_map item_bytes (map Tables tss) ++ 255 :: 218 :: segment [1; 1; 16 * td + ta; 0; 63; 16 * 0 + 0] ++ stuff (pack bits) ++ 255 :: 217 :: sfx)%list).
  { unfold baseline_items. rewrite flat_map_app. cbn [flat_map item_bytes app]. rewrite app_nil_r, <- !app_assoc. cbn [app].
    rewrite <- !app_assoc. reflexivity. }
  assert (Hrest : Forall byte (flat_map item_bytes (map Tables tss) ++ 255 :: 218 :: segment [1; 1; 16 * td + ta; 0; 63; 16 * 0 + 0] ++ stuff (pack bits) ++ 255 :: 217 :: sfx)).
  { apply Forall_app. split.
    - clear - Hts. induction Hts as [|ts' tss [A1 A2] _ IH]; [constructor|].
      cbn [map flat_map]. apply Forall_app. split; [|exact IH]. cbn [item_bytes app].
      constructor; [unfold byte; lia|]. constructor; [unfold byte; lia|]. rewrite <- (app_nil_r (segment _)).
      apply segment_app; auto. now apply dht_payload_bytes.
    - constructor; [unfold byte; lia|]. constructor; [unfold byte; lia|exact Hsos]. }
  unfold file. rewrite Hitems.
  destruct (headers_seg_from D false ps (frame_payload h w (frame_comps (Gray q)))
      (fun dcts acts => frame_from D BaselineDct false (Gray q) w h (quants ps) dcts acts)
      _ HD HD1 HD2 HD3 Hps (frame_seg_ok 192 (Gray q) w h (or_introl eq_refl) Hl ltac:(lia) ltac:(lia)) Hrest)
    as (last & before & dcts & acts & E & Hi & Hla & Hbe & Hh0).
  { intros qt dcts acts Hqs. apply sof_run_from; auto; lia. }
  { intros. split; reflexivity. }
  set (F := frame_from D BaselineDct false (Gray q) w h (quants ps) dcts acts) in *.
  destruct (loopz_tabless tss last before F (huffs ps) (255 :: 218 :: segment [1; 1; 16 * td + ta; 0; 63; 16 * 0 + 0] ++ stuff (pack bits) ++ 255 :: 217 :: sfx))
    as (l' & b' & d1 & E1 & S1 & I1 & H1 & L1 & B1); auto.
  { constructor; [unfold byte; lia|]. constructor; [unfold byte; lia|exact Hsos]. }
  pose proof (same_tabled _ _ S1) as Hd1. set (T1 := d_dcts d1) in *. set (T2 := d_acts d1) in *.
  set (c1 := frame_component CY 1 1 q (qt_of (quants ps) q) (up8 w 1) 1).
  assert (Hc1 : d_comps d1 = [c1]) by (rewrite Hd1; reflexivity).
  set (tabs := (huffs ps ++ concat tss)%list) in *.
  set (d := sos_dec 0 c1 td ta 0 63 0 0 d1).
  assert (E2 : parse_sos (mkHst d1 (segment [1; 1; 16 * td + ta; 0; 63; 16 * 0 + 0] ++ stuff (pack bits) ++ 255 :: 217 :: sfx))
     = (Ok tt, mkHst d (stuff (pack bits) ++ 255 :: 217 :: sfx))).
  { assert (Hic : i_comps (d_info d1) = 1) by (rewrite Hd1; reflexivity).
    apply parse_sos_one; try lia.
    - rewrite Hc1. unfold zlen. cbn [length]. lia.
    - rewrite Hic, Hc1. reflexivity.
    - rewrite Hc1. reflexivity. }
  pose proof (loopz_sos_ok l' b' d1 _ _ _ I1 Hsos L1 B1 E2) as E3.
  destruct H1 as (H4 & Hlg & Hslot). rewrite Forall_forall in Hlg.
  destruct Hdc as (tdc & Ldc & _). destruct Hac as (tac & Lac & Sac).
  destruct (last_huff_in _ _ _ _ Ldc) as [Idc _]. destruct (last_huff_in _ _ _ _ Lac) as [Iac _].
  destruct (Hslot _ _ _ Htd Ldc) as (hdc & Sdc & Ndc). destruct (Hslot _ _ _ Hta Lac) as (hac & Slac & Nac).
  pose proof (huffman_new_dc _ _ _ (proj1 (proj2 (Hlg _ Idc))) Ndc) as Hdt.
  destruct (huffman_new_ac _ _ _ _ (proj1 (proj2 (Hlg _ Iac))) Nac) as (ft & Hat).
  exists d, (set_c_act ta (set_c_dct td c1)), tdc, tac, hdc, hac, ft.
  split; [change 192 with (sof_code false); rewrite E, E1; exact E3|].
  split; [|split; [exact Ldc|]; split; [exact Lac|]; split; [exact Hdt|]; split; [exact Hat|]; exact (Sac eq_refl)].
  split.
  - unfold d, sos_dec. cbn [d_comps set_d_al set_d_ah set_d_se set_d_ss set_d_zorder set_d_comps]. rewrite Hc1. reflexivity.
  - unfold c1, frame_component. cbn [c_cid c_h c_v c_stride c_qt c_pred set_c_act set_c_dct]. repeat (split; [reflexivity|]). split.
    + unfold up8. replace (w + 1 * 8 - 1) with (w + 7) by lia. lia.
    + split; [|reflexivity]. unfold qt_of. now rewrite Ht.
  - split; reflexivity.
  - unfold d, sos_dec. rewrite Hd1. repeat (split; [reflexivity || exact HD7|]). reflexivity.
  - unfold d, sos_dec. rewrite Hd1. reflexivity.
  - unfold d, sos_dec. rewrite Hd1. reflexivity.
  - exact H4.
  - unfold d, sos_dec. rewrite Hd1. reflexivity.
  - unfold d, sos_dec. rewrite Hd1. reflexivity.
  - unfold d, sos_dec. rewrite Hd1. reflexivity.
  - unfold d, sos_dec. rewrite Hd1. reflexivity.
  - apply (slot_at d1 false td hdc H4 Htd Sdc).
  - apply (slot_at d1 true ta hac H4 Hta Slac).
Qed.

(** Whole files, with what is left in the decoder *)
Lemma base_file_from D ps q t w h tss td ta blocks bits sfx :
  hinv D -> gray_left D -> (w + 7) / 8 * ((h + 7) / 8) < d_todo D <= 2147483647 ->
  baseline_gray ps q w h tss td ta blocks bits sfx ->
  w <= o_max_width (d_opt D) -> h <= o_max_height (d_opt D) -> last_quant (quants ps) q = Some t -> 64 * ((w + 7) / 8) < 9 * w ->
  exists px D', decode_buffer D (file 192 ps (Gray q) w h (baseline_items tss td ta bits) sfx) = (Ok px, D') /\
    (gray_left D' /\ d_todo D' = d_todo D - (w + 7) / 8 * ((h + 7) / 8) /\ d_idct D' = d_idct D /\
     d_opt D' = set_out_colorspace (d_opt D) GRAYSCALE) /\
    zlen px = w * h /\
    forall r k, 0 <= r < h -> 0 <= k < w ->
      zn px (r * w + k) = u8 (sample (kernel_of (d_idct D) (natural (qd_values t))
        (natural (nth (Z.to_nat (r / 8 * ((w + 7) / 8) + k / 8)) blocks []))) (r mod 8) (k mod 8)).
Proof.
  intros HD HL Htodo HB Hmw Hmh Ht Hpad.
  destruct (gray_headers_from D ps q t w h tss td ta blocks bits sfx HD HL HB Hmw Hmh Ht)
    as (d & c & tdc & tac & hdc & hac & ft & EH & G & Ldc & Lac & Hdt & Hat & Hsafe).
  destruct HB as [Hps Hl Hq Hw Hh Hts [Htd Hta] Hdc Hac Hlen Hbits Hblk Hby].
  pose proof G as [G1 G2 [G3 G3'] G4 G5 G6 G7 G8 G9 G10 G11 G12 G13].
  set (rd := (stuff (pack bits) ++ 255 :: 217 :: sfx)%list) in *.
  assert (EB : decode_buffer D (file 192 ps (Gray q) w h (baseline_items tss td ta bits) sfx)
     = (let '(r, h) := decode_baseline (mkHst d rd) in (r, hd_dec h))).
  { unfold decode_buffer, on_buffer, decode_internal. unfold bind at 1. rewrite EH. unfold bind, getd. cbn [hd_dec].
    rewrite G5. reflexivity. }
  rewrite EB. unfold code_at in Hbits, Hblk. rewrite Ldc in Hbits, Hblk. rewrite Lac in Hbits.
  destruct (pack_bits bits) as (pad & _ & Hpd).
  assert (Hscan : Forall byte rd).
  { apply Forall_app. split; [apply stuff_byte, (pack_byte bits [] 0); [reflexivity|lia]|].
    constructor; [unfold byte; lia|]. constructor; [unfold byte; lia|exact Hby]. }
  assert (Hent : entropy rd = (pack bits, AtMarker 217 sfx)) by (apply entropy_stuff; lia).
  assert (Hf : feed 0 (bst_new rd) (bits ++ pad) (AtMarker 217 sfx)).
  { pose proof (feed_new rd 0 Hscan) as Gf. unfold scan_bits in Gf. rewrite Hent in Gf.
    cbn [fst snd repeat] in Gf. rewrite app_nil_r, Hpd in Gf. apply Gf; [discriminate|now left]. }
  destruct (gray_scan d c w h ((w + 7) / 8) (qd_values t)) with (t0 := d_todo D) (d0 := d) (dct := hdc) (act := hac) (ft := ft)
    (dcc := hf_counts tdc) (dcs := hf_symbols tdc) (acc := hf_counts tac) (acs := hf_symbols tac) (rest := sfx)
    (rd := rd) (blocks := blocks) (bits := bits) (bs := pad) as (px & (p & t1 & rd' & Epx & Et1) & L & N); auto.
  - now rewrite G3, G3'.
  - apply (gray_setup d c w h ((w + 7) / 8) (qd_values t)) with hdc hac; auto; congruence.
  - congruence.
  - congruence.
  - exists px, (gdec d c p t1). rewrite Epx. cbn [hd_dec]. split; [reflexivity|].
    split; [|split; [exact L|]; rewrite <- G10; exact N].
    destruct G4 as (A1 & A2 & A3 & A4 & A5 & A6 & A7). split; [split; assumption|]. split; [exact Et1|]. split; assumption.
Qed.

Lemma base_file cpu o ps q t w h tss td ta blocks bits sfx :
  baseline_gray ps q w h tss td ta blocks bits sfx ->
  w <= o_max_width o -> h <= o_max_height o -> last_quant (quants ps) q = Some t -> 64 * ((w + 7) / 8) < 9 * w ->
  exists px, fst (decode_buffer (new_with_options cpu o) (file 192 ps (Gray q) w h (baseline_items tss td ta bits) sfx)) = Ok px /\
    zlen px = w * h /\
    forall r k, 0 <= r < h -> 0 <= k < w ->
      zn px (r * w + k) = u8 (sample (kernel_of (choose_idct_func cpu (o_use_unsafe o)) (natural (qd_values t))
        (natural (nth (Z.to_nat (r / 8 * ((w + 7) / 8) + k / 8)) blocks []))) (r mod 8) (k mod 8)).
Proof.
  intros HB Hmw Hmh Ht Hpad.
  destruct (base_file_from (new_with_options cpu o) ps q t w h tss td ta blocks bits sfx) as (px & D' & E & _ & R); auto.
  - apply hinv_new.
  - apply gray_left_new.
  - change (d_todo (new_with_options cpu o)) with 2147483647. pose proof (bg_width _ _ _ _ _ _ _ _ _ _ HB). pose proof (bg_height _ _ _ _ _ _ _ _ _ _ HB).
    assert ((w + 7) / 8 * ((h + 7) / 8) <= 8191 * 8191) by (apply Z.mul_le_mono_nonneg; lia). lia.
  - exists px. rewrite E. split; [reflexivity|]. exact R.
Qed.
