(** The pixels of colour progressive files with subsampled chroma are close to those of the standard. *)
From Coq Require Import ZArith String List Bool Lia Reals Lra.
From Coq Require Import ZifyBool ZifyNat ZifyN.
From Verif Require Import Base Types Huffman State Bitstream Headers Idct Upsample Color Simd Worker Mcu McuProg Decoder.
From Verif Require Import SpecHuffman SpecSegments SpecExtend SpecBits SpecBlock SpecProg SpecInter SpecScript SpecImage SpecIdct SpecColor SpecDct SpecPixels SpecColourPixels SpecSampledPixels.
From Verif Require Import Obs ObsProg BaseFacts ColorFacts Placement IdctFacts IdctReal Strip UpsampleFacts HeaderFile ProgFile ProgImage GrayFile GrayReal ColourImage ColourFile ColourReal.
From Verif Require Import SampledImage SampledFile BaseSampledReal ProgSampled.
Import ListNotations.
Local Open Scope Z_scope.
Ltac Zify.zify_post_hook ::= Z.div_mod_to_equations.

(** * From jobs to pixels *)
Section pixels.
Variables (cpu : isa) (o : options) (hs vs w h : Z) (rendered : Z -> Z -> Z -> Z) (pls : list plane).
Hypothesis Hhs : 1 <= hs <= 2.
Hypothesis Hvs : 1 <= vs <= 2.
Hypothesis Hw : 0 < w.
Hypothesis Hh : 0 < h.
Hypothesis Hclose : forall k r c, 0 <= k < 3 -> 0 <= r / 8 < (samples vs (Z.to_nat k) h + 7) / 8 -> 0 <= c / 8 < (samples hs (Z.to_nat k) w + 7) / 8 ->
  0 <= rendered k r c <= 255 /\
  (Rabs (IZR (rendered k r c) - exact_at (samples hs (Z.to_nat k) w) (plane_at pls k) r c) <=
    tolerance_at (samples hs (Z.to_nat k) w) (plane_at pls k) r c)%R.
Variables (g : geom) (a b c : component) (jobs : list (list (list Z))).
Hypothesis HJ : sampled_jobs cpu o hs vs w h rendered g a b c jobs.
Let out := rbind (run_jobs g jobs) (fun os => Ok (assemble os (g_total g) (w * bytes_per_pixel o * h))).

Lemma luma_near r x : 0 <= r < h -> 0 <= x < w -> let p := rendered 0 r x in
  0 <= p <= 255 /\ (Rabs (IZR p - exact_at w (plane_at pls 0) r x) <= tolerance_at w (plane_at pls 0) r x)%R.
Proof. intros Hr Hx p. apply (Hclose 0 r x); unfold samples; cbn [Z.to_nat Nat.eqb]; lia. Qed.
Lemma chroma_near k r x : hs = 2 -> vs = 1 -> 0 <= r < h -> 0 < x < w -> x < 16 * ((w + 15) / 16) - 5 -> 0 < k < 3 ->
  let p := spread rendered k r x in
  0 <= p <= 255 /\ (Rabs (IZR p - exact_422 w (plane_at pls k) r x) <= tolerance_422 w (plane_at pls k) r x)%R.
Proof.
  intros Hh2 Hv1 Hr Hc Hc5 Hk p.
  assert (Hs : samples hs (Z.to_nat k) w = samples 2 1 w) by (unfold samples; replace (Z.to_nat k =? 0)%nat with false by lia; rewrite Hh2; reflexivity).
  assert (Hs' : samples vs (Z.to_nat k) h = h) by (unfold samples; replace (Z.to_nat k =? 0)%nat with false by lia; rewrite Hv1; rewrite Z.div_1_r; lia).
  assert (Hx : forall x, 0 <= x < 8 * ((w + 15) / 16) ->
    0 <= rendered k r x <= 255 /\
    (Rabs (IZR (rendered k r x) - exact_at (samples 2 1 w) (plane_at pls k) r x) <= tolerance_at (samples 2 1 w) (plane_at pls k) r x)%R).
  { intros x' Hx. rewrite <- Hs. apply (Hclose k r x'); [lia| |].
    - rewrite Hs'. clear - Hr. lia.
    - rewrite Hs. unfold samples. cbn [Nat.eqb]. clear - Hx Hw. lia. }
  assert (H1 : 0 <= x / 2 < 8 * ((w + 15) / 16)) by (clear - Hc Hc5; lia).
  assert (H2 : 0 <= neighbour x < 8 * ((w + 15) / 16)) by (unfold neighbour; clear - Hc Hc5; destruct (Z.odd x) eqn:Eo; [lia|]; assert (x <> 1) by (intros ->; discriminate); lia).
  destruct (Hx _ H1) as [R1 C1]. destruct (Hx _ H2) as [R2 C2].
  exact (triangle_close _ _ _ _ _ _ R1 R2 C1 C2).
Qed.
Lemma near_luma : o_colorspace o = GRAYSCALE -> 8 * (hs * vs) * (8 * ((w + 8 * hs - 1) / (8 * hs) * hs)) < (8 * (hs * vs) + 1) * w ->
  exists px, out = Ok px /\ close_luma 1 pls w h px.
Proof.
  intros Ho Hpad. destruct (sampled_luma_pixels cpu o hs vs w h Hhs Hvs Hw Hh rendered g a b c jobs HJ Ho) as (px & E' & L & N).
  { unfold up8. replace (w + hs * 8 - 1) with (w + 8 * hs - 1) by ring. now replace (hs * 8) with (8 * hs) by ring. }
  exists px. split; [exact E'|]. split; [rewrite Z.mul_1_r; exact L|]. intros r x Hr Hx p.
  destruct (luma_near r x Hr Hx) as [R C].
  assert (Hp : p = rendered 0 r x).
  { unfold p. rewrite Z.mul_1_r. change (nth (Z.to_nat (r * w + x)) px 0) with (zn px (r * w + x)). rewrite N by assumption. unfold u8. apply Z.mod_small. clear - R. lia. }
  rewrite Hp. split; [exact R|exact C].
Qed.
Lemma near_ycc : (hs, vs) <> (1, 1) -> o_colorspace o = YCbCr ->
  exists px, out = Ok px /\ close_luma 3 pls w h px /\ (vs = 1 -> close_chroma_422 pls w h px).
Proof.
  intros Hne Ho. destruct (sampled_ycc_pixels cpu o hs vs w h Hhs Hvs Hw Hh rendered g a b c jobs HJ Hne Ho) as (px & E' & L & N & C).
  exists px. split; [exact E'|]. split; [split; [exact L|]|].
  - intros r x Hr Hx p. destruct (luma_near r x Hr Hx) as [R D].
    assert (Hp : p = rendered 0 r x).
    { unfold p. specialize (N r x Hr Hx). unfold at_pixel, zn in N. rewrite Z.add_0_r in N. rewrite N. unfold u8. apply Z.mod_small. clear - R. lia. }
    rewrite Hp. split; [exact R|exact D].
  - intros Hv r x k Hr Hx Hx5 Hk p. assert (Hh2 : hs = 2) by (assert (hs <> 1) by (intros Hh1; apply Hne; congruence); clear - H Hhs; lia).
    destruct (chroma_near k r x Hh2 Hv Hr Hx Hx5 Hk) as [R D].
    assert (Hp : p = spread rendered k r x).
    { unfold p. assert (Emx : up8 w hs = (w + 15) / 16) by (unfold up8; rewrite Hh2; f_equal; lia). rewrite Emx in C.
      specialize (C Hv r x k Hr ltac:(clear - Hx; lia) ltac:(clear - Hx Hx5; lia) Hk). unfold at_pixel, zn in C. rewrite C. unfold u8. apply Z.mod_small. clear - R. lia. }
    rewrite Hp. split; [exact R|exact D].
Qed.
Lemma near_rgb m : hs = 2 -> vs = 1 -> o_colorspace o = RGB -> cpu <> Sse41 \/ o_use_unsafe o = false \/ 22 <= w /\ 16 * ((w + 15) / 16) <= w + 10 ->
  w < 16 /\ m <= w /\ m <= 11 \/ 16 <= w /\ m <= 16 * ((w + 15) / 16 - 1) /\ 3 * m <= 3 * w - 64 ->
  exists px, out = Ok px /\ close_rgb_422 m pls w h px.
Proof.
  intros Hh2 Hv1 Ho Hc Hm.
  assert (Hk : kernel_fits (choose_color_convert cpu (o_use_unsafe o)) 3 w (16 * ((w + 15) / 16))) by (clear - Hc; now apply chosen_fits_422).
  assert (Emx : up8 w hs = (w + 15) / 16) by (unfold up8; rewrite Hh2; f_equal; lia).
  destruct (sampled_rgb_pixels cpu o hs vs w h Hhs Hvs Hw Hh rendered m g a b c jobs HJ Hh2 Hv1 Ho ltac:(rewrite Emx; exact Hk)) as (px & E' & L & N).
  { rewrite Emx. exact Hm. }
  exists px. split; [exact E'|]. split; [exact L|].
  intros r x k Hr Hx Hkk p y0 y1 y2. assert (Hx' : x < w /\ x < 16 * ((w + 15) / 16) - 5) by (clear - Hm Hx; lia). destruct Hx' as [Hxw Hx5].
  assert (Hp : p = zn px (at_pixel w 3 r x k)) by reflexivity. rewrite N in Hp by assumption.
  destruct (luma_near r x Hr ltac:(clear - Hx Hxw; lia)) as [B0 C0].
  destruct (chroma_near 1 r x Hh2 Hv1 Hr ltac:(clear - Hx Hxw; lia) Hx5 ltac:(clear; lia)) as [B1 C1].
  destruct (chroma_near 2 r x Hh2 Hv1 Hr ltac:(clear - Hx Hxw; lia) Hx5 ltac:(clear; lia)) as [B2 C2].
  destruct (rgb_close _ _ _ k B0 B1 B2 Hkk) as [D1 D2]. rewrite <- Hp in D1, D2. split; [exact D1|].
  pose proof (jfif_close k _ _ _ _ _ _ _ _ _ C0 C1 C2 ltac:(lra)) as D3. fold y0 y1 y2 in D3.
  match type of D3 with (Rabs (?j - ?j') <= _)%R => replace (IZR p - j')%R with ((IZR p - j) + (j - j'))%R by ring end.
  eapply Rle_trans; [apply Rabs_triang|]. lra.
Qed.
End pixels.

Lemma shown_sample hs vs k w h t K cd kind a b : quant_def_legal t ->
  cd_w cd = (samples hs k w + 7) / 8 /\ cd_h cd = (samples vs k h + 7) / 8 /\ Z.of_nat (length (cd_blocks cd)) = cd_w cd * cd_h cd ->
  plane_in_range (mkPlane (qd_values t) (map (known_block K) (cd_blocks cd))) ->
  0 <= a / 8 < (samples vs k h + 7) / 8 -> 0 <= b / 8 < (samples hs k w + 7) / 8 ->
  let p := sample (kernel_of kind (natural (qd_values t)) (shown ((samples hs k w + 7) / 8) K (cd_blocks cd) a b)) (a mod 8) (b mod 8) in
  let pl := mkPlane (qd_values t) (map (known_block K) (cd_blocks cd)) in
  0 <= p <= 255 /\ (Rabs (IZR p - exact_at (samples hs k w) pl a b) <= tolerance_at (samples hs k w) pl a b)%R.
Proof.
  intros (_ & Q1 & Q2) (W & H & B) Hr Ha Hb p pl. unfold exact_at, tolerance_at, sample_exact, block_of, pl. cbn [pl_qv pl_blocks].
  set (m := (samples hs k w + 7) / 8) in *. set (n := (samples vs k h + 7) / 8) in *.
  assert (Hidx : (Z.to_nat (a / 8 * m + b / 8) < length (cd_blocks cd))%nat).
  { pose proof (block_inside n m (a / 8) (b / 8) Ha Hb) as HB. rewrite W, H in B. clear - B HB. lia. }
  rewrite (nth_indep _ [] (known_block K [])) by (rewrite map_length; exact Hidx). rewrite map_nth.
  apply sample_close; auto using known_block_length; [|clear; lia|clear; lia].
  unfold plane_in_range in Hr. cbn [pl_qv pl_blocks] in Hr. rewrite Forall_forall in Hr. apply Hr, in_map, nth_In, Hidx.
Qed.

(** * Files *)
Lemma wide_samples w s : 1 <= s <= 2 -> 0 < w -> blocks_wide w s s = (samples s 0 w + 7) / 8 /\ blocks_wide w s 1 = (samples s 1 w + 7) / 8.
Proof.
  intros Hs Hw. unfold blocks_wide, up_div, samples. cbn [Nat.eqb]. split.
  - replace (w * s + s - 1) with ((s - 1) + w * s) by ring. rewrite Z.div_add by lia. rewrite (Z.div_small (s - 1) s) by lia. f_equal. lia.
  - rewrite Z.mul_1_r. f_equal. lia.
Qed.
Lemma the_factors ps hs vs q q1 q2 w h cds is Ks n sfx : progressive_image ps (Colour hs vs q q1 q2) w h cds is Ks n sfx -> 1 <= hs <= 2 /\ 1 <= vs <= 2.
Proof. intros Hi. pose proof (pi_layout _ _ _ _ _ _ _ _ _ Hi) as Hl. destruct Hl. lia. Qed.
Lemma data_size ps hs vs q q1 q2 w h cd0 cd1 cd2 is Ks n sfx k cd : progressive_image ps (Colour hs vs q q1 q2) w h [cd0; cd1; cd2] is Ks n sfx ->
  nth_error [cd0; cd1; cd2] k = Some cd ->
  cd_w cd = (samples hs k w + 7) / 8 /\ cd_h cd = (samples vs k h + 7) / 8 /\ Z.of_nat (length (cd_blocks cd)) = cd_w cd * cd_h cd.
Proof.
  intros Hi Hk. destruct (the_factors _ _ _ _ _ _ _ _ _ _ _ _ _ Hi) as [Hhs Hvs]. destruct Hi as [P1 P2 P3 P4 P5 P6 [P7l P7] P8 P9 P10 P11]. destruct (P7 k cd Hk) as (I1 & I2 & I3).
  destruct (wide_samples w hs Hhs ltac:(lia)) as [E1 E2]. destruct (wide_samples h vs Hvs ltac:(lia)) as [E3 E4].
  assert (Hlen : Z.of_nat (length (cd_blocks cd)) = cd_w cd * cd_h cd) by (rewrite Forall_forall in P8; apply P8; eapply nth_error_In; eauto).
  split; [|split; [|exact Hlen]].
  - rewrite I2. destruct k as [|[|[|k]]]; [exact E1|exact E2|exact E2|destruct k; discriminate Hk].
  - rewrite I3. destruct k as [|[|[|k]]]; [exact E3|exact E4|exact E4|destruct k; discriminate Hk].
Qed.
Section file.
Variables (cpu : isa) (o : options) (ps : list pre) (hs vs q q1 q2 w h : Z) (t0 t1 t2 : quant_def) (cd0 cd1 cd2 : comp_data)
  (is : list item) (K0 K1 K2 : knowledge) (n fin : Z) (sfx : list Z).
Hypothesis Hfin : stop_code fin.
Let l := Colour hs vs q q1 q2.
Let rows := (h + 8 * vs - 1) / (8 * vs).
Hypothesis Hi : progressive_image ps l w h [cd0; cd1; cd2] is [K0; K1; K2] n sfx.
Hypothesis Hmw : w <= o_max_width o.
Hypothesis Hmh : h <= o_max_height o.
Hypothesis Hn : n <= o_max_scans o.
Hypothesis Ht0 : last_quant (quants ps) q = Some t0.
Hypothesis Ht1 : last_quant (quants ps) q1 = Some t1.
Hypothesis Ht2 : last_quant (quants ps) q2 = Some t2.
Hypothesis Hw : w <= 65527.
Hypothesis Hh : h <= 65527.
Hypothesis Heven : rows mod hs = 0.
Hypothesis Hroom : 8 * vs * rows * w <= (w + 8) * (h + 8) + (if (hs =? 1) && (vs =? 1) then 0 else 128 * h).
Let pls := known_planes t0 t1 t2 cd0 cd1 cd2 K0 K1 K2.
Hypothesis Hra : Forall plane_in_range pls.
Let r := fst (decode_buffer (new_with_options cpu o) (cut_file 194 ps l w h is fin sfx)).
Notation sample_at := (prog_sample cpu o hs w t0 t1 t2 cd0 cd1 cd2 K0 K1 K2).

Lemma sample_near k a b : 0 <= k < 3 -> 0 <= a / 8 < (samples vs (Z.to_nat k) h + 7) / 8 -> 0 <= b / 8 < (samples hs (Z.to_nat k) w + 7) / 8 ->
  0 <= sample_at k a b <= 255 /\
  (Rabs (IZR (sample_at k a b) - exact_at (samples hs (Z.to_nat k) w) (plane_at pls k) a b) <= tolerance_at (samples hs (Z.to_nat k) w) (plane_at pls k) a b)%R.
Proof using Hi Ht0 Ht1 Ht2 Hra.
  intros Hk Ha Hb. pose proof (pi_pre _ _ _ _ _ _ _ _ _ Hi) as P1.
  assert (L0 : quant_def_legal t0) by (eapply quant_legal; eauto). assert (L1 : quant_def_legal t1) by (eapply quant_legal; eauto).
  assert (L2 : quant_def_legal t2) by (eapply quant_legal; eauto).
  pose proof (data_size _ _ _ _ _ _ _ _ _ _ _ _ _ _ _ 0%nat cd0 Hi eq_refl) as S0. pose proof (data_size _ _ _ _ _ _ _ _ _ _ _ _ _ _ _ 1%nat cd1 Hi eq_refl) as S1. pose proof (data_size _ _ _ _ _ _ _ _ _ _ _ _ _ _ _ 2%nat cd2 Hi eq_refl) as S2.
  unfold pls, known_planes in Hra. apply Forall_cons_iff in Hra. destruct Hra as [R0 Hra']. apply Forall_cons_iff in Hra'. destruct Hra' as [R1 Hra'].
  apply Forall_cons_iff in Hra'. destruct Hra' as [R2 _].
  assert (k = 0 \/ k = 1 \/ k = 2) as [-> | [-> | ->]] by (clear - Hk; lia).
  - exact (shown_sample hs vs 0 w h t0 K0 cd0 _ a b L0 S0 R0 Ha Hb).
  - exact (shown_sample hs vs 1 w h t1 K1 cd1 _ a b L1 S1 R1 Ha Hb).
  - exact (shown_sample hs vs 2 w h t2 K2 cd2 _ a b L2 S2 R2 Ha Hb).
Qed.
Lemma prog_jobs_there : (exists g a b c jobs, sampled_jobs cpu o hs vs w h sample_at g a b c jobs /\
    r = rbind (run_jobs g jobs) (fun os => Ok (assemble os (g_total g) (w * bytes_per_pixel o * h)))) \/
  r = Err missing_marker /\ ~ short_end (image_geo l w h) [cd0; cd1; cd2] [] is.
Proof.
  destruct (progressive_image_cut cpu o _ _ _ _ _ _ _ _ _ _ Hfin Hi Hmw Hmh Hn) as (dcts & acts & s & He & Hp & Hro & [Hr|Hr]); [left|now right].
  assert (P4 : 0 < w) by apply Hi. assert (P5 : 0 < h) by apply Hi. destruct (the_factors _ _ _ _ _ _ _ _ _ _ _ _ _ Hi) as [Hhs Hvs].
  assert (Er : rows = up8 h vs) by (unfold rows, up8; f_equal; lia). rewrite Er in *.
  destruct (sampled_finish cpu o hs vs q q1 q2 w h (quants ps) t0 t1 t2 cd0 cd1 cd2 K0 K1 K2) with (dcts := dcts) (acts := acts) (s := s)
    as (g & a & b & c & jobs & HJ & E); auto.
  { intros k cd Hk. eapply data_size; eassumption. }
  exists g, a, b, c, jobs. split; [exact HJ|]. unfold r. rewrite Hr. exact E.
Qed.
Let alternative := r = Err missing_marker /\ ~ short_end (image_geo l w h) [cd0; cd1; cd2] [] is.
Lemma prog_luma : o_colorspace o = GRAYSCALE -> 8 * (hs * vs) * (8 * ((w + 8 * hs - 1) / (8 * hs) * hs)) < (8 * (hs * vs) + 1) * w ->
  (exists px, r = Ok px /\ close_luma 1 pls w h px) \/ alternative.
Proof.
  intros Ho Hpad. destruct prog_jobs_there as [(g & a & b & c & jobs & HJ & E)|E]; [left|now right].
  assert (P4 : 0 < w) by apply Hi. assert (P5 : 0 < h) by apply Hi. destruct (the_factors _ _ _ _ _ _ _ _ _ _ _ _ _ Hi) as [Hhs Hvs]. rewrite E.
  exact (near_luma cpu o hs vs w h sample_at pls Hhs Hvs P4 P5 sample_near g a b c jobs HJ Ho Hpad).
Qed.
Lemma prog_ycc : (hs, vs) <> (1, 1) -> o_colorspace o = YCbCr ->
  (exists px, r = Ok px /\ close_luma 3 pls w h px /\ (vs = 1 -> close_chroma_422 pls w h px)) \/ alternative.
Proof.
  intros Hne Ho. destruct prog_jobs_there as [(g & a & b & c & jobs & HJ & E)|E]; [left|now right].
  assert (P4 : 0 < w) by apply Hi. assert (P5 : 0 < h) by apply Hi. destruct (the_factors _ _ _ _ _ _ _ _ _ _ _ _ _ Hi) as [Hhs Hvs]. rewrite E.
  exact (near_ycc cpu o hs vs w h sample_at pls Hhs Hvs P4 P5 sample_near g a b c jobs HJ Hne Ho).
Qed.
Lemma prog_rgb m : hs = 2 -> vs = 1 -> o_colorspace o = RGB -> cpu <> Sse41 \/ o_use_unsafe o = false \/ 22 <= w /\ 16 * ((w + 15) / 16) <= w + 10 ->
  w < 16 /\ m <= w /\ m <= 11 \/ 16 <= w /\ m <= 16 * ((w + 15) / 16 - 1) /\ 3 * m <= 3 * w - 64 ->
  (exists px, r = Ok px /\ close_rgb_422 m pls w h px) \/ alternative.
Proof.
  intros Hh2 Hv1 Ho Hc Hm. destruct prog_jobs_there as [(g & a & b & c & jobs & HJ & E)|E]; [left|now right].
  assert (P4 : 0 < w) by apply Hi. assert (P5 : 0 < h) by apply Hi. destruct (the_factors _ _ _ _ _ _ _ _ _ _ _ _ _ Hi) as [Hhs Hvs]. rewrite E.
  exact (near_rgb cpu o hs vs w h sample_at pls Hhs Hvs P4 P5 sample_near g a b c jobs HJ m Hh2 Hv1 Ho Hc Hm).
Qed.
End file.
#[local] Hint Resolve stop_eoi : core.

(** * Files with all scans *)
Section complete.
Variables (cpu : isa) (o : options) (ps : list pre) (hs vs q q1 q2 w h : Z) (t0 t1 t2 : quant_def) (cd0 cd1 cd2 : comp_data)
  (is : list item) (Ks : list knowledge) (n : Z) (sfx : list Z).
Let l := Colour hs vs q q1 q2.
Let rows := (h + 8 * vs - 1) / (8 * vs).
Let pls := [mkPlane (qd_values t0) (cd_blocks cd0); mkPlane (qd_values t1) (cd_blocks cd1); mkPlane (qd_values t2) (cd_blocks cd2)].
Let decoded := fst (decode_buffer (new_with_options cpu o) (file 194 ps l w h is sfx)).
Hypothesis Hi : progressive_image ps l w h [cd0; cd1; cd2] is Ks n sfx.
Hypothesis HK : Forall complete Ks.
Hypothesis Hs : short_end (image_geo l w h) [cd0; cd1; cd2] [] is.
Hypothesis Hmw : w <= o_max_width o.
Hypothesis Hmh : h <= o_max_height o.
Hypothesis Hn : n <= o_max_scans o.
Hypothesis Hw : w <= 65527.
Hypothesis Hh : h <= 65527.
Hypothesis Ht0 : last_quant (quants ps) q = Some t0.
Hypothesis Ht1 : last_quant (quants ps) q1 = Some t1.
Hypothesis Ht2 : last_quant (quants ps) q2 = Some t2.
Hypothesis Heven : rows mod hs = 0.
Hypothesis Hroom : 8 * vs * rows * w <= (w + 8) * (h + 8) + (if (hs =? 1) && (vs =? 1) then 0 else 128 * h).
Hypothesis Hra : Forall plane_in_range pls.

Lemma sampled_luma_complete : o_colorspace o = GRAYSCALE -> 8 * (hs * vs) * (8 * ((w + 8 * hs - 1) / (8 * hs) * hs)) < (8 * (hs * vs) + 1) * w ->
  exists px, decoded = Ok px /\ close_luma 1 pls w h px.
Proof.
  intros Ho Hp. destruct (three_known _ _ _ _ _ _ _ _ _ _ _ Hi) as (K0 & K1 & K2 & EK). rewrite EK in Hi, HK.
  pose proof (planes_complete t0 t1 t2 cd0 cd1 cd2 K0 K1 K2 HK (pi_coefs _ _ _ _ _ _ _ _ _ Hi)) as E. fold pls in E. rewrite <- E in Hra |- *.
  destruct (prog_luma cpu o ps hs vs q q1 q2 w h t0 t1 t2 cd0 cd1 cd2 is K0 K1 K2 n 217 sfx) as [X|[_ C]]; auto. contradiction.
Qed.
Lemma sampled_ycc_complete : (hs, vs) <> (1, 1) -> o_colorspace o = YCbCr ->
  exists px, decoded = Ok px /\ close_luma 3 pls w h px /\ (vs = 1 -> close_chroma_422 pls w h px).
Proof.
  intros Hne Ho. destruct (three_known _ _ _ _ _ _ _ _ _ _ _ Hi) as (K0 & K1 & K2 & EK). rewrite EK in Hi, HK.
  pose proof (planes_complete t0 t1 t2 cd0 cd1 cd2 K0 K1 K2 HK (pi_coefs _ _ _ _ _ _ _ _ _ Hi)) as E. fold pls in E. rewrite <- E in Hra |- *.
  destruct (prog_ycc cpu o ps hs vs q q1 q2 w h t0 t1 t2 cd0 cd1 cd2 is K0 K1 K2 n 217 sfx) as [X|[_ C]]; auto. contradiction.
Qed.
Lemma sampled_rgb_complete m : hs = 2 -> vs = 1 -> o_colorspace o = RGB -> cpu <> Sse41 \/ o_use_unsafe o = false \/ 22 <= w /\ 16 * ((w + 15) / 16) <= w + 10 ->
  w < 16 /\ m <= w /\ m <= 11 \/ 16 <= w /\ m <= 16 * ((w + 15) / 16 - 1) /\ 3 * m <= 3 * w - 64 ->
  exists px, decoded = Ok px /\ close_rgb_422 m pls w h px.
Proof.
  intros Hh2 Hv1 Ho Hc Hm. destruct (three_known _ _ _ _ _ _ _ _ _ _ _ Hi) as (K0 & K1 & K2 & EK). rewrite EK in Hi, HK.
  pose proof (planes_complete t0 t1 t2 cd0 cd1 cd2 K0 K1 K2 HK (pi_coefs _ _ _ _ _ _ _ _ _ Hi)) as E. fold pls in E. rewrite <- E in Hra |- *.
  destruct (prog_rgb cpu o ps hs vs q q1 q2 w h t0 t1 t2 cd0 cd1 cd2 is K0 K1 K2 n 217 sfx) with (m := m) as [X|[_ C]]; auto. contradiction.
Qed.
End complete.
