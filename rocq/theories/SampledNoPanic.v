(** A scan of a baseline image with subsampling: whatever its bytes are, decoding it does
    not panic (C02). *)
From Coq Require Import ZArith String List Bool Lia.
From Coq Require Import ZifyBool ZifyNat ZifyN.
From Verif Require Import Base Types Huffman State Bitstream Headers Worker Mcu McuProg Decoder.
From Verif Require Import SpecSegments SpecSafe BaseFacts Keeps BlockSafe HeaderInv WorkerSafe DecodeInv.
From Verif Require Import Placement GrayImage ColourImage SampledImage BaseFile GraySampled Sched NoPanic.
Import ListNotations.
Local Open Scope Z_scope.
Local Open Scope m_scope.
Ltac Zify.zify_post_hook ::= Z.div_mod_to_equations.

(** * One job *)
Section jobs.
Variables (g : geom) (c0 c1 c2 : component) (hs vs mx : Z).
Hypothesis Hhs : 1 <= hs <= 2.
Hypothesis Hvs : 1 <= vs <= 2.
Hypothesis Hmx : 0 < mx.
Hypothesis Hcomps : g_comps g = [c0; c1; c2].
Hypothesis Hhv : c_h c0 = hs /\ c_v c0 = vs.
Hypothesis Hst : c_stride c0 = 8 * (mx * hs) /\ c_stride c1 = 8 * mx /\ c_stride c2 = 8 * mx.
Hypothesis Hqt : length (c_qt c0) = 64%nat /\ length (c_qt c1) = 64%nat /\ length (c_qt c2) = 64%nat.
Hypothesis Hin : g_in g = YCbCr.
Hypothesis Hw : 0 < g_width g <= 8 * (mx * hs).
Hypothesis Hpad : 8 * (mx * hs) < g_width g + 8 * hs.
Hypothesis Hups : ups_fit hs vs (c_ups c1) /\ ups_fit hs vs (c_ups c2).
Hypothesis Hne : (hs, vs) <> (1, 1).

Lemma converted_job j : g_out g <> GRAYSCALE -> planes_fit g hs vs mx j ->
  (forall s0 o1 o2, zlen s0 = 8 * (hs * vs) * (8 * (mx * hs)) -> zlen o1 = 8 * (hs * vs) * (8 * (mx * hs)) -> zlen o2 = 8 * (hs * vs) * (8 * (mx * hs)) ->
     exists o, color_convert_ycbcr s0 o1 o2 (g_width g) hs vs (g_out g) (g_cc g) (zrepeat 0 (g_chunk g)) = Ok o) ->
  g_out g <> YCbCr ->
  exists px, post_process j (g_comps g) (g_idct g) (g_cc g) (g_in g) (g_out g) (zrepeat 0 (g_chunk g)) (g_width g) = Ok px.
Proof.
  intros Ho (y0 & y1 & y2 & -> & L0 & L12) Hcc Ho2. destruct (L12 Ho) as [L1 L2].
  destruct (three_upsampled g c0 c1 c2 hs vs mx) with (y0 := y0) (y1 := y1) (y2 := y2) as (s0 & s1 & s2 & o1 & o2 & E & Eu & Z0 & Z1 & Z2 & _); auto.
  destruct Hhv as [Hh Hv]. unfold post_process. rewrite Hin.
  assert (Hat : at_ (g_comps g) 0 = Ok c0) by (rewrite Hcomps; reflexivity). rewrite Hat. cbn [rbind]. rewrite Hh, Hv.
  replace (channels YCbCr (g_out g)) with 3 by (unfold channels; destruct (g_out g); try reflexivity; congruence). change (Z.to_nat 3) with 3%nat.
  rewrite E. cbn [rbind]. unfold post_process_inner. rewrite Hat. cbn [rbind]. rewrite Hh, Hv.
  replace (negb (hs =? 1) || negb (vs =? 1)) with true.
  2:{ destruct (Z.eqb_spec hs 1); [|reflexivity]. destruct (Z.eqb_spec vs 1); [|reflexivity]. exfalso. apply Hne. congruence. }
  rewrite Eu. cbn [rbind]. change (chan [s0; o1; o2] 0) with s0. change (chan [s0; o1; o2] 1) with o1. change (chan [s0; o1; o2] 2) with o2.
  assert (Hl : 64 * (mx * hs) * (hs * vs) = 8 * (hs * vs) * (8 * (mx * hs))) by ring.
  destruct (Hcc s0 o1 o2) as (o & Eo); try congruence. destruct (g_out g); try congruence; eauto.
Qed.

Lemma any_job cpu o j : g_chunk g = 8 * (hs * vs) * (g_width g * num_components (g_out g)) -> g_cc g = choose_color_convert cpu (o_use_unsafe o) ->
  format_fits cpu o (g_out g) (g_width g) (8 * (mx * hs)) (8 * (hs * vs)) -> planes_fit g hs vs mx j ->
  exists px, post_process j (g_comps g) (g_idct g) (g_cc g) (g_in g) (g_out g) (zrepeat 0 (g_chunk g)) (g_width g) = Ok px.
Proof.
  intros Hch Hc Hf Hj. assert (Hp : 0 < hs * vs) by (apply Z.mul_pos_pos; lia).
  assert (Hzl : zlen (zrepeat 0 (g_chunk g)) = g_chunk g).
  { unfold zlen, zrepeat. rewrite repeat_length. assert (0 <= 8 * (hs * vs) * (g_width g * num_components (g_out g))) by (apply Z.mul_nonneg_nonneg; [lia|apply Z.mul_nonneg_nonneg; [lia|destruct (g_out g); cbn; lia]]). lia. }
  assert (Hfour : num_components (g_out g) = 4 -> exists px,
    post_process j (g_comps g) (g_idct g) (g_cc g) (g_in g) (g_out g) (zrepeat 0 (g_chunk g)) (g_width g) = Ok px).
  { intros H4. apply converted_job; auto; try (intros C; rewrite C in H4; discriminate). intros s0 o1 o2 L0 L1 L2.
    apply (rgb4_lemma (g_cc g) (g_out g) s0 o1 o2 (g_width g) hs vs (zrepeat 0 (g_chunk g)) (8 * (mx * hs))); try lia; try assumption.
    clear - Hpad Hhs Hw. intros H. assert (hs = 1 \/ hs = 2) as [-> | ->] by lia; lia. }
  destruct (g_out g) eqn:Eo; try (apply Hfour; reflexivity); cbn [format_fits num_components] in *.
  - rewrite <- Eo. apply converted_job; auto; try (rewrite Eo; discriminate). rewrite Eo. intros s0 o1 o2 L0 L1 L2.
    assert (Hk : kernel_fits (g_cc g) 3 (g_width g) (8 * (mx * hs))).
    { rewrite Hc. clear - Hf Hw. unfold choose_color_convert, kernel_fits, kernel_ok.
      destruct cpu, (o_use_unsafe o); auto; destruct Hf as [H|[H|H]]; try congruence; right; lia. }
    destruct (Z.ltb_spec (g_width g) 16) as [H16|H16].
    + destruct (rgb_px_lemma (g_cc g) s0 o1 o2 (g_width g) hs vs (zrepeat 0 (g_chunk g)) (8 * (mx * hs))) as (px & E & _); try lia; try assumption.
      * destruct Hk as [Hk|Hk]; [exact Hk|lia].
      * clear - Hpad Hhs Hw H16. assert (hs = 1 \/ hs = 2) as [-> | ->] by lia; lia.
      * eauto.
    + destruct (rgb_wide_px_lemma (g_cc g) s0 o1 o2 (g_width g) hs vs (zrepeat 0 (g_chunk g)) (8 * (mx * hs)) (g_width g - 64)) as (px & E & _); try lia; try assumption.
      eauto.
  - destruct (sampled_luma_job g c0 c1 c2 hs vs mx) with (j := j) as (px & E & _); auto; try lia. rewrite Eo in E. eauto.
  - destruct (sampled_ycc_job g c0 c1 c2 hs vs mx) with (j := j) as (px & E & _); auto; try lia. rewrite Eo in E. eauto.
Qed.
End jobs.

(** * Three components *)
Section colour.
Variables (cpu : isa) (o : options) (d : decoder) (c0 c1 c2 : component) (hs vs w h : Z).
Let mx := mcus w hs.
Let my := mcus h vs.
Hypothesis Hinv : hinv d.
Hypothesis Hgood : good d.
Hypothesis Hsh : shape d.
Hypothesis Hw : 0 < w <= 65527.
Hypothesis Hh : 0 < h <= 65527.
Hypothesis Hsize : i_width (d_info d) = w /\ i_height (d_info d) = h.
Hypothesis Hmax : d_hmax d = hs /\ d_vmax d = vs.
Hypothesis Hcomps : d_comps d = [c0; c1; c2].
Hypothesis Hc0 : c_h c0 = hs /\ c_v c0 = vs.
Hypothesis Hcid : c_cid c1 <> CY /\ c_cid c2 <> CY.
Hypothesis Hincs : d_incs d = YCbCr.
Hypothesis Hne : (hs, vs) <> (1, 1).
Let out := o_colorspace (d_opt d).
Hypothesis Hcc : d_cc d = choose_color_convert cpu (o_use_unsafe o).
Hypothesis Hfmt : format_fits cpu o out w (padded w hs) (8 * (hs * vs)).
Let nc := num_components out.

Definition s_ups : upsampler :=
  if hs =? 1 then UpVert
  else if vs =? 1 then choose_horizontal (d_isa d) (o_use_unsafe (d_opt d)) else choose_hv (d_isa d) (o_use_unsafe (d_opt d)).
Definition s_ratio : ratio := if hs =? 1 then RV else if vs =? 1 then RH else RHV.
Definition s_dec : decoder := set_d_comps [c0; set_c_ups s_ups c1; set_c_ups s_ups c2] (set_d_ratio s_ratio d).
Definition s_mcuw : Z := if (hs =? 2) && (vs =? 1) then 2 * mx else mx.
Definition s_bias : Z := if (hs =? 2) && (vs =? 2) then 2 else 1.
Let g := geom_of s_mcuw (my / hs) s_bias c0 s_dec.

Lemma s_dims : (exists e, check_component_dimensions d = Err e) \/ check_component_dimensions d = Ok tt /\ c_cid c0 = CY /\
    c_h c1 = 1 /\ c_v c1 = 1 /\ c_h c2 = 1 /\ c_v c2 = 1.
Proof.
  destruct Hcid as [N1 N2].
  assert (Y1 : is_y (c_cid c1) = false) by (destruct (c_cid c1); [congruence|reflexivity|reflexivity]).
    assert (Y2 : is_y (c_cid c2) = false) by (destruct (c_cid c2); [congruence|reflexivity|reflexivity]).
    unfold check_component_dimensions. rewrite Hcomps. cbn [find check_chroma]. rewrite Y1, Y2.
    destruct (is_y (c_cid c0)) eqn:Y0; [|left; eauto]. cbn [check_chroma].
    destruct (c_stride c1 =? _); [|left; eexists; reflexivity]. cbn [negb].
    destruct (Z.eqb_spec (c_h c1) 1); [|left; eexists; reflexivity]. destruct (Z.eqb_spec (c_v c1) 1); [|left; eexists; reflexivity]. cbn [negb orb].
    destruct (c_stride c2 =? _); [|left; eexists; reflexivity]. cbn [negb].
    destruct (Z.eqb_spec (c_h c2) 1); [|left; eexists; reflexivity]. destruct (Z.eqb_spec (c_v c2) 1); [|left; eexists; reflexivity]. cbn [negb orb].
    right. split; [reflexivity|]. split; [destruct (c_cid c0); [reflexivity|discriminate|discriminate]|]. auto.
Qed.
Lemma s_inter : d_inter d = true.
Proof.
  destruct Hmax as [M1 M2].
  rewrite (sh_inter _ Hsh), M1, M2. destruct (Z.eqb_spec hs 1); [|reflexivity]. destruct (Z.eqb_spec vs 1); [|reflexivity]. exfalso. apply Hne. congruence.
Qed.
Lemma s_up : (exists e d', set_upsampling d = (Err e, d')) \/ set_upsampling d = (Ok tt, s_dec) /\ 1 <= hs <= 2 /\ 1 <= vs <= 2.
Proof.
  destruct Hmax as [M1 M2]. assert (Hk : 1 <= hs /\ 1 <= vs).
  { destruct Hc0 as [A1 A2]. pose proof Hgood as (_ & _ & Hok). rewrite Hcomps in Hok. apply Forall_cons_iff in Hok. destruct Hok as [[] _]. lia. }
  unfold set_upsampling, bind, get, modify, fail. rewrite M1, M2.
    destruct ((hs =? vs) && (hs =? 1)) eqn:B1; [exfalso; apply Hne; f_equal; lia|].
    destruct ((hs =? 2) && (vs =? 1)) eqn:B2.
    { right. assert (hs = 2 /\ vs = 1) as [Eh2 Ev2] by lia. split; [|lia]. unfold set_up_samplers. cbn [d_comps set_d_ratio]. rewrite Hcomps.
      unfold s_dec, s_ups, s_ratio. rewrite Eh2, Ev2. reflexivity. }
    destruct ((hs =? 1) && (vs =? 2)) eqn:B3.
    { right. assert (hs = 1 /\ vs = 2) as [Eh2 Ev2] by lia. split; [|lia]. unfold set_up_samplers. cbn [d_comps set_d_ratio]. rewrite Hcomps.
      unfold s_dec, s_ups, s_ratio. rewrite Eh2, Ev2. reflexivity. }
    destruct ((hs =? 2) && (vs =? 2)) eqn:B4; [|left; eauto].
    right. assert (hs = 2 /\ vs = 2) as [Eh2 Ev2] by lia. split; [|lia]. unfold set_up_samplers. cbn [d_comps set_d_ratio]. rewrite Hcomps.
    unfold s_dec, s_ups, s_ratio. rewrite Eh2, Ev2. reflexivity.
Qed.
Lemma s_setup : (exists e d', baseline_setup d = (Err e, d')) \/
  baseline_setup d = (Ok g, s_dec) /\ 1 <= hs <= 2 /\ 1 <= vs <= 2 /\ c_cid c0 = CY /\
  c_h c1 = 1 /\ c_v c1 = 1 /\ c_h c2 = 1 /\ c_v c2 = 1.
Proof.
  destruct Hc0 as [A1 A2]. destruct Hcid as [N1 N2]. destruct Hmax as [M1 M2]. destruct Hsize as [Ew Eh].
  pose proof Hgood as (Hlen & _ & Hok). rewrite Hcomps in Hok, Hlen. change (zlen [c0; c1; c2]) with 3 in Hlen.
  assert (Hk : 1 <= hs /\ 1 <= vs) by (apply Forall_cons_iff in Hok; destruct Hok as [[] _]; lia).
  unfold baseline_setup, bind, get, lift, ret.
  pose proof (chroma_nopanic (d_comps d)) as P1. pose proof (chroma_nofuel (d_comps d)) as P1'.
  pose proof s_dims as Ecd.
  destruct Ecd as [(e & ->)|(-> & Y0 & S1 & S2 & S3 & S4)]; [left; eauto|].
  assert (Ect : (exists e, check_tables d = Err e) \/ check_tables d = Ok tt).
  { unfold check_tables. pose proof (tables_nofuel d (Z.to_nat (num_components (d_incs d))) 0) as F1.
    assert (P : forall p, check_tables_from (Z.to_nat (num_components (d_incs d))) 0 d <> Panic p).
    { apply tables_nopanic; [|lia]. rewrite Hincs, Hcomps. cbn. lia. }
    destruct (check_tables_from _ _ _) as [[]|e|p|]; eauto; [now specialize (P p)|congruence]. }
  destruct Ect as [(e & ->)| ->]; [left; eauto|].
  pose proof s_inter as Ein.
  rewrite Ein.
  pose proof s_up as Eup.
  destruct Eup as [(e & d' & ->)|(-> & Hh2 & Hv2)]; [left; eauto|]. right. split; [|auto 10].
  destruct (sh_wide _ Hsh c0 [c1; c2] Hcomps) as (X & Y & _); [congruence|congruence|]. rewrite Ew, M1 in X. rewrite Eh, M2 in Y. fold mx in X. fold my in Y.
  assert (E4 : mcu_counts s_dec = (s_mcuw, my / hs, s_bias)).
  { unfold mcu_counts, s_dec. cbn [d_inter d_ratio d_mcux d_mcuy d_info set_d_comps set_d_ratio]. rewrite Ein, X, Y. unfold s_ratio, s_mcuw, s_bias.
    assert (hs = 1 \/ hs = 2) as [Eh1|Eh1] by lia; assert (vs = 1 \/ vs = 2) as [Ev1|Ev1] by lia; rewrite Eh1, Ev1 in *; cbn [Z.eqb Pos.eqb andb ratio_is_h ratio_is_hv];
      rewrite ?Z.div_1_r; try reflexivity; try (f_equal; f_equal; lia). }
  rewrite E4. change (d_incs s_dec) with (d_incs d). rewrite Hincs. cbn [cs_eqb andb]. cbv iota beta.
  change (at_ (d_comps s_dec) 0) with (Ok c0). cbv iota beta. fold g.
  assert (Ech : g_chunk g = 8 * (hs * vs) * (w * nc)).
  { unfold g, geom_of. cbn [g_chunk]. change (d_info s_dec) with (d_info d). change (d_opt s_dec) with (d_opt d). change (d_hmax s_dec) with (d_hmax d). change (d_vmax s_dec) with (d_vmax d).
    rewrite Ew, M1, M2. unfold nc, out. ring. }
  rewrite Ech. assert (0 < nc) by (unfold nc; destruct out; cbn; lia).
  assert (0 < 8 * (hs * vs) * (w * nc)) by (repeat apply Z.mul_pos_pos; lia). destruct (_ =? 0) eqn:E0; [lia|reflexivity].
Qed.

Definition s_size (k : Z) : Z := if k =? 0 then 64 * (mx * hs) * (hs * vs) else 64 * mx * hs.
Lemma s_mx : 0 < mx /\ (1 <= hs <= 2 -> padded w hs = 8 * (mx * hs) /\ w <= 8 * (mx * hs) < w + 8 * hs).
Proof.
  destruct Hgood as (_ & _ & Hok). rewrite Hcomps in Hok. destruct Hc0 as [A1 A2].
  assert (Hk : 1 <= hs <= 8 /\ 1 <= vs <= 8) by (apply Forall_cons_iff in Hok; destruct Hok as [[B1 B2 _ _ _ _ _] _]; lia).
  split. { unfold mx, mcus. apply Z.div_str_pos. lia. }
  intros Hs. unfold padded. fold (mcus w hs). fold mx. split; [ring|]. unfold mx, mcus. clear - Hs Hw.
  assert (hs = 1 \/ hs = 2) as [-> | ->] by lia; lia.
Qed.

Lemma s_like c pos : like s_dec c pos -> c_cid c0 = CY -> c_h c1 = 1 -> c_v c1 = 1 -> c_h c2 = 1 -> c_v c2 = 1 ->
  pos = 0 /\ c_h c = hs /\ c_v c = vs /\ is_y (c_cid c) = true \/
  (pos = 1 \/ pos = 2) /\ c_h c = 1 /\ c_v c = 1 /\ is_y (c_cid c) = false.
Proof.
  intros Hl Y0 S1 S2 S3 S4. unfold like in Hl. destruct Hc0 as [A1 A2]. destruct Hcid as [N1 N2].
  change (d_comps s_dec) with [c0; set_c_ups s_ups c1; set_c_ups s_ups c2] in Hl. cbn [map] in Hl.
  pose proof (zget_some _ _ _ Hl) as Hr. change (zlen [geo c0; geo (set_c_ups s_ups c1); geo (set_c_ups s_ups c2)]) with 3 in Hr.
  assert (Y1 : is_y (c_cid c1) = false) by (destruct (c_cid c1); [congruence|reflexivity|reflexivity]).
  assert (Y2 : is_y (c_cid c2) = false) by (destruct (c_cid c2); [congruence|reflexivity|reflexivity]).
  change (c_h c) with (c_h (geo c)). change (c_v c) with (c_v (geo c)). change (c_cid c) with (c_cid (geo c)).
  assert (pos = 0 \/ pos = 1 \/ pos = 2) as [-> | [-> | ->]] by lia.
  - assert (E : geo c = geo c0) by (apply (f_equal (fun x => match x with Some y => y | None => geo c end)) in Hl; symmetry; exact Hl). left. rewrite E. change (c_h c0 = hs) in A1.
    split; [reflexivity|]. split; [exact A1|]. split; [exact A2|]. change (is_y (c_cid c0) = true). rewrite Y0. reflexivity.
  - assert (E : geo c = geo (set_c_ups s_ups c1)) by (apply (f_equal (fun x => match x with Some y => y | None => geo c end)) in Hl; symmetry; exact Hl). right. rewrite E. split; [auto|]. split; [exact S1|]. split; [exact S2|exact Y1].
  - assert (E : geo c = geo (set_c_ups s_ups c2)) by (apply (f_equal (fun x => match x with Some y => y | None => geo c end)) in Hl; symmetry; exact Hl). right. rewrite E. split; [auto|]. split; [exact S3|]. split; [exact S4|exact Y2].
Qed.

Lemma s_fields : 1 <= hs <= 2 -> 1 <= vs <= 2 ->
  g_ws g = 32 * (mx * (hs * hs * vs)) /\ g_hv g = (hs =? 2) && (vs =? 2) /\ g_ccap g = 64 * s_mcuw /\
  g_chunk g = 8 * (hs * vs) * (w * nc) /\ g_total g = ((w + 8) * (h + 8) + 128 * h) * nc.
Proof.
  intros Hh2 Hv2. destruct Hc0 as [A1 A2]. destruct Hmax as [M1 M2]. destruct Hsize as [Ew Eh].
  assert (Ein : d_inter d = true).
  { rewrite (sh_inter _ Hsh), M1, M2. destruct (Z.eqb_spec hs 1); [|reflexivity]. destruct (Z.eqb_spec vs 1); [|reflexivity]. exfalso. apply Hne. congruence. }
  unfold g, geom_of. cbn [g_ws g_hv g_ccap g_chunk g_total].
  change (d_info s_dec) with (d_info d). change (d_opt s_dec) with (d_opt d). change (d_hmax s_dec) with (d_hmax d). change (d_vmax s_dec) with (d_vmax d).
  change (d_ratio s_dec) with s_ratio. rewrite A1, A2, M1, M2, Ew. fold out. fold nc. unfold s_ratio, s_mcuw, s_bias.
  split; [|split; [|split; [|split]]].
  - unfold s_mcuw, shr. change (2 ^ 1) with 2. generalize mx. clear - Hh2 Hv2. intros m. assert (hs = 1 \/ hs = 2) as [-> | ->] by lia; assert (vs = 1 \/ vs = 2) as [-> | ->] by lia; cbn [Z.eqb Pos.eqb andb]; lia.
  - assert (hs = 1 \/ hs = 2) as [E1|E1] by lia; assert (vs = 1 \/ vs = 2) as [E2|E2] by lia; rewrite E1, E2; reflexivity.
  - ring.
  - ring.
  - unfold capacity, extra_space. change (d_info s_dec) with (d_info d). change (d_opt s_dec) with (d_opt d). change (d_inter s_dec) with (d_inter d).
    rewrite Ein, Ew, Eh. fold out. fold nc. unfold u16. rewrite !Z.mod_small by lia. ring.
Qed.

Lemma s_start c pos v j i k : 1 <= hs <= 2 -> 1 <= vs <= 2 -> c_cid c0 = CY -> c_h c1 = 1 -> c_v c1 = 1 -> c_h c2 = 1 -> c_v c2 = 1 ->
  like s_dec c pos -> 0 <= v < g_bias g -> 0 <= j < g_mcuw g -> 0 <= i < c_v c -> 0 <= k < c_h c ->
  0 <= block_start g c v j i k /\ block_start g c v j i k + 64 <= s_size pos.
Proof.
  intros Hh2 Hv2 Y0 S1 S2 S3 S4 Hl Hv Hj Hi Hk. destruct (s_fields Hh2 Hv2) as (F1 & F2 & _). destruct s_mx as [Hm _].
  change (g_bias g) with s_bias in Hv. change (g_mcuw g) with s_mcuw in Hj. unfold block_start. cbv zeta. rewrite F1, F2. unfold shr. change (2 ^ 1) with 2. change (2 ^ 2) with 4.
  unfold s_size. unfold s_bias in Hv. unfold s_mcuw in Hj.
  destruct (s_like c pos Hl Y0 S1 S2 S3 S4) as [(Ep & Eh & Ev & Ey)|(Ep & Eh & Ev & Ey)]; rewrite Ey, Eh, Ev in *; revert Hj Hm; generalize mx; clear - Hh2 Hv2 Hv Hi Hk Ep Hne; intros m Hj Hm.
  - subst pos. change (0 =? 0) with true. cbv iota.
    assert (hs = 1 \/ hs = 2) as [-> | ->] by lia; assert (vs = 1 \/ vs = 2) as [-> | ->] by lia; cbn [Z.eqb Pos.eqb andb] in *; try congruence.
    + assert (v = 0) as -> by lia. assert (i = 0 \/ i = 1) as [-> | ->] by lia; lia.
    + assert (v = 0) as -> by lia. assert (i = 0) as -> by lia. lia.
    + assert (v = 0 \/ v = 1) as [-> | ->] by lia; assert (i = 0 \/ i = 1) as [-> | ->] by lia; lia.
  - replace (pos =? 0) with false by lia. cbv iota. assert (i = 0) as -> by lia. assert (k = 0) as -> by lia.
    assert (hs = 1 \/ hs = 2) as [-> | ->] by lia; assert (vs = 1 \/ vs = 2) as [-> | ->] by lia; cbn [Z.eqb Pos.eqb andb] in *; try congruence.
    + assert (v = 0) as -> by lia. lia.
    + assert (v = 0) as -> by lia. lia.
    + assert (v = 0 \/ v = 1) as [-> | ->] by lia; lia.
Qed.

Hypothesis Hroom : lines_fit w h hs vs.
Lemma sampled_baseline rd : Forall byte rd -> no_sof rd ->
  match fst (decode_baseline (mkHst d rd)) with
  | Ok px => zlen px = w * h * num_components out
  | Err _ => True
  | _ => False
  end.
Proof.
  intros Hrd Hns. destruct s_setup as [(e & d' & Ee)|(Es & Hh2 & Hv2 & Y0 & S1 & S2 & S3 & S4)].
  { unfold decode_baseline. cbn [hd_dec]. rewrite Ee. exact I. }
  destruct (s_fields Hh2 Hv2) as (F1 & F2 & F3 & F4 & F5). destruct s_mx as [Hm Hm2]. destruct (Hm2 Hh2) as [Epad Hpad].
  destruct Hc0 as [A1 A2]. destruct Hmax as [M1 M2]. destruct Hsize as [Ew Eh].
  assert (Hnc : 0 < nc) by (unfold nc; destruct out; cbn; lia).
  assert (Hp : 0 < hs * vs) by (apply Z.mul_pos_pos; lia).
  assert (Hwn : 0 < w * nc) by (apply Z.mul_pos_pos; lia).
  assert (Hdiv : g_mcuh g <= g_total g / g_chunk g).
  { change (g_mcuh g) with (my / hs). rewrite F4, F5.
    apply Z.div_le_lower_bound; [repeat apply Z.mul_pos_pos; lia|].
    replace (8 * (hs * vs) * (w * nc) * (my / hs)) with (my / hs * (8 * hs * vs) * w * nc) by ring.
    apply Z.mul_le_mono_nonneg_r; [lia|]. unfold lines_fit in Hroom. fold (mcus h vs) in Hroom. fold my in Hroom. destruct Hroom as [Ev|Hr]; [|exact Hr].
    assert (hs = 2) as Eh2 by (assert (hs <> 1) by (intros Ch; apply Hne; congruence); lia).
    assert (my / hs * (8 * hs * vs) <= h + 8) as Hl.
    { unfold my, mcus. rewrite Eh2, Ev. clear - Hh. lia. }
    assert (my / hs * (8 * hs * vs) * w <= (h + 8) * w) by (apply Z.mul_le_mono_nonneg_r; lia).
    replace ((w + 8) * (h + 8)) with ((h + 8) * w + 8 * (h + 8)) by ring. lia. }
  pose proof (baseline_setup_step d Hinv) as W. unfold wp in W. rewrite Es in W. cbn [fst snd] in W. destruct W as [I1 _ _ I4 I5]. specialize (I5 Hgood _ eq_refl).
  assert (Eo : output_len s_dec = w * h * nc) by (unfold output_len; rewrite I4; destruct Hsize as [-> ->]; reflexivity).
  fold nc. rewrite <- Eo. apply (scan_done s_dec g s_size); auto.
  - intros k. unfold s_size. assert (0 < mx * hs) by (apply Z.mul_pos_pos; lia).
    destruct (k =? 0); [apply Z.mul_nonneg_nonneg; lia|lia].
  - intros c pos v j i k Hl. intros. apply (s_start c pos v j i k); auto.
  - intros c pos Hl. rewrite F3. change (g_bias g) with s_bias. unfold s_bias, s_mcuw, s_size.
    destruct (s_like c pos Hl Y0 S1 S2 S3 S4) as [(Ep & Eh' & Ev' & _)|(Ep & Eh' & Ev' & _)]; rewrite Eh', Ev'; generalize mx; clear - Hh2 Hv2 Ep Hne; intros m.
    + subst pos. change (0 =? 0) with true. cbv iota. assert (hs = 1 \/ hs = 2) as [-> | ->] by lia; assert (vs = 1 \/ vs = 2) as [-> | ->] by lia; cbn [Z.eqb Pos.eqb andb]; try congruence; ring.
    + replace (pos =? 0) with false by lia. assert (hs = 1 \/ hs = 2) as [-> | ->] by lia; assert (vs = 1 \/ vs = 2) as [-> | ->] by lia; cbn [Z.eqb Pos.eqb andb]; try congruence; ring.
  - right. destruct I5 as [G1 _]. rewrite G1. reflexivity.
  - change (d_incs s_dec) with (d_incs d). rewrite Hincs. destruct I5 as [G1 _]. rewrite G1. cbn. lia.
  - rewrite Eo, F5. assert (0 <= w * h) by (apply Z.mul_nonneg_nonneg; lia).
    split; [apply Z.mul_nonneg_nonneg; lia|]. apply Z.mul_le_mono_nonneg_r; lia.
  - intros j Hj. destruct (sh_wide _ Hsh c0 [c1; c2] Hcomps) as (X & _ & St); [congruence|congruence|]. rewrite Ew, M1 in X. fold mx in X. rewrite X, Hcomps in St.
    apply Forall_cons_iff in St. destruct St as [St0 St]. apply Forall_cons_iff in St. destruct St as [St1 St]. apply Forall_cons_iff in St. destruct St as [St2 _].
    destruct Hgood as (_ & _ & Q). rewrite Hcomps in Q. apply Forall_cons_iff in Q. destruct Q as [[_ _ _ _ [Q0 _] _ _] Q]. apply Forall_cons_iff in Q. destruct Q as [[_ _ _ _ [Q1 _] _ _] Q].
    apply Forall_cons_iff in Q. destruct Q as [[_ _ _ _ [Q2 _] _ _] _]. rewrite A1 in St0. rewrite S1 in St1. rewrite S3 in St2.
    apply (any_job g c0 (set_c_ups s_ups c1) (set_c_ups s_ups c2) hs vs mx) with (cpu := cpu) (o := o); auto.
    + cbn [c_stride set_c_ups]. lia.
    + cbn [c_qt set_c_ups]. unfold zlen in *. lia.
    + change (g_width g) with (i_width (d_info s_dec)). rewrite I4, Ew. lia.
    + change (g_width g) with (i_width (d_info s_dec)). rewrite I4, Ew. lia.
    + cbn [c_ups set_c_ups]. unfold s_ups, choose_horizontal, choose_hv. clear - Hh2 Hv2 Hne.
      assert (hs = 1 \/ hs = 2) as [-> | ->] by lia; assert (vs = 1 \/ vs = 2) as [-> | ->] by lia; cbn [Z.eqb Pos.eqb]; try congruence;
        destruct (d_isa d), (o_use_unsafe (d_opt d)); cbn [ups_fit]; auto.
    + rewrite F4. change (g_width g) with (i_width (d_info s_dec)). rewrite I4, Ew. reflexivity.
    + change (g_out g) with out. change (g_width g) with (i_width (d_info s_dec)). rewrite I4, Ew, <- Epad. exact Hfmt.
Qed.
End colour.

(** * One component with sampling factors *)
Section gray.
Variables (d : decoder) (c : component) (w h : Z).
Let n := (w + 7) / 8.
Hypothesis Hinv : hinv d.
Hypothesis Hgood : good d.
Hypothesis Hsh : shape d.
Hypothesis Hw : 0 < w <= 65527.
Hypothesis Hh : 0 < h <= 65527.
Hypothesis Hsize : i_width (d_info d) = w /\ i_height (d_info d) = h.
Hypothesis Hmax : ~ (d_hmax d = 1 /\ d_vmax d = 1).
Hypothesis Hcomps : d_comps d = [c].
Hypothesis Hincs : d_incs d = GRAYSCALE.
Hypothesis Hpad : 64 * n < 9 * w.

Lemma gray_setup : (exists e d', baseline_setup d = (Err e, d')) \/ gray_ready (gray_reset n c d) (gray_comp n c) w h n d.
Proof.
  destruct Hsize as [Ew Eh].
  assert (Ein : d_inter d = true).
  { rewrite (sh_inter _ Hsh). destruct (Z.eqb_spec (d_hmax d) 1); [|reflexivity]. destruct (Z.eqb_spec (d_vmax d) 1); [|reflexivity]. exfalso. auto. }
  destruct (c_cid c) eqn:Ec.
  2,3: left; unfold baseline_setup, bind, get, lift, check_component_dimensions; rewrite Hcomps; cbn [find]; rewrite Ec; cbn [is_y]; eauto.
  assert (Ecd : check_component_dimensions d = Ok tt).
  { unfold check_component_dimensions. rewrite Hcomps. cbn [find]. rewrite Ec. cbn [is_y check_chroma]. rewrite Ec. reflexivity. }
  assert (Ect : (exists e, check_tables d = Err e) \/ exists dct act, table_at (d_dcts d) (c_dct c) = Some dct /\ table_at (d_acts d) (c_act c) = Some act).
  { unfold check_tables. rewrite Hincs. change (Z.to_nat (num_components GRAYSCALE)) with 1%nat. cbn [check_tables_from]. rewrite Hcomps.
    change (at_ [c] 0) with (Ok c). cbv iota beta. destruct (table_at (d_dcts d) (c_dct c)); [|left; eauto]. destruct (table_at (d_acts d) (c_act c)); [|left; eauto]. right. eauto. }
  destruct Ect as [(e & Ee)|(dct & act & Ht & Ha)].
  { left. unfold baseline_setup, bind, get, lift. rewrite Ecd, Ee. eauto. }
  assert (Ett : check_tables d = Ok tt).
  { unfold check_tables. rewrite Hincs. change (Z.to_nat (num_components GRAYSCALE)) with 1%nat. cbn [check_tables_from]. rewrite Hcomps.
    change (at_ [c] 0) with (Ok c). cbv iota beta. now rewrite Ht, Ha. }
  destruct Hgood as (_ & _ & Hok).
  assert (Hk : 1 <= d_hmax d /\ 1 <= d_vmax d) by (destruct Hinv as (_ & [] & _); lia).
  assert (Hcase : (exists e d', set_upsampling d = (Err e, d')) \/ d_hmax d <= 2 /\ d_vmax d <= 2).
  { unfold set_upsampling, bind, get, modify, fail.
    destruct ((d_hmax d =? d_vmax d) && (d_hmax d =? 1)) eqn:B1; [lia|].
    destruct ((d_hmax d =? 2) && (d_vmax d =? 1)) eqn:B2; [lia|]. destruct ((d_hmax d =? 1) && (d_vmax d =? 2)) eqn:B3; [lia|].
    destruct ((d_hmax d =? 2) && (d_vmax d =? 2)) eqn:B4; [lia|left; eauto]. }
  destruct Hcase as [(e & d' & Ee)|Hcase].
  { left. unfold baseline_setup, bind, get, lift. rewrite Ecd, Ett, Ein, Ee. eauto. }
  destruct (o_strict (d_opt d)) eqn:Est.
  - left. unfold baseline_setup, bind, get, lift. rewrite Ecd, Ett, Ein. unfold set_upsampling, bind, get, modify, ret, set_up_samplers.
    assert (d_hmax d = 1 \/ d_hmax d = 2) as [E1|E1] by lia; assert (d_vmax d = 1 \/ d_vmax d = 2) as [E2|E2] by lia; rewrite E1, E2; cbn [Z.eqb Pos.eqb andb];
      try (exfalso; auto; fail); cbn [d_comps set_d_ratio]; rewrite Hcomps; cbv iota beta;
      match goal with |- context [mcu_counts ?x] => destruct (mcu_counts x) as [[a b] e]; change (d_incs x) with (d_incs d); change (d_inter x) with (d_inter d); change (d_opt x) with (d_opt d) end;
      rewrite Hincs, Ein, Est; cbn [cs_eqb andb]; unfold fail; eauto.
  - right. apply (sampled_setup d c w h (d_hmax d) (d_vmax d) dct act); auto; try lia.
Qed.

Lemma gray_sampled_baseline rd : Forall byte rd -> no_sof rd ->
  match fst (decode_baseline (mkHst d rd)) with
  | Ok px => zlen px = w * h
  | Err _ => True
  | _ => False
  end.
Proof.
  intros Hrd Hns. destruct gray_setup as [(e & d' & Ee)|(g & Es & G1 & G2 & G3 & G4 & G5 & G6 & G7 & G8 & G9 & G10 & G11 & G12)].
  { unfold decode_baseline. cbn [hd_dec]. rewrite Ee. exact I. }
  set (d0 := gray_reset n c d) in *. assert (Hn : 0 < n /\ w <= 8 * n) by (unfold n; lia). destruct Hsize as [Ew Eh].
  pose proof (baseline_setup_step d Hinv) as W. unfold wp in W. rewrite Es in W. cbn [fst snd] in W. destruct W as [I1 _ _ I4 I5]. specialize (I5 Hgood _ eq_refl).
  assert (Eo : output_len d0 = w * h) by (unfold output_len; rewrite I4; destruct Hsize as [-> ->]; change (o_colorspace (d_opt d0)) with GRAYSCALE; cbn [num_components]; ring).
  assert (Hlike : forall x pos, like d0 x pos -> c_h x = 1 /\ c_v x = 1).
  { intros x pos Hl. unfold like in Hl. change (d_comps d0) with [gray_comp n c] in Hl. cbn [map] in Hl.
    pose proof (zget_some _ _ _ Hl) as Hr. change (zlen [geo (gray_comp n c)]) with 1 in Hr. assert (pos = 0) as -> by lia.
    assert (E : geo x = geo (gray_comp n c)) by (apply (f_equal (fun y => match y with Some y => y | None => geo x end)) in Hl; symmetry; exact Hl).
    change (c_h (geo x) = 1 /\ c_v (geo x) = 1). rewrite E. auto. }
  rewrite <- Eo. apply (scan_done d0 g (fun _ => 64 * n)); auto.
  - lia.
  - rewrite G2, G11. apply Z.div_le_lower_bound; [lia|]. assert (w * (8 * ((h + 7) / 8)) <= w * (h + 8)) by (apply Z.mul_le_mono_nonneg_l; lia).
    assert (w * (h + 8) <= (w + 8) * (h + 8)) by (apply Z.mul_le_mono_nonneg_r; lia). lia.
  - rewrite G1, G3. intros x pos v j i k Hl Hv Hj Hiv Hk. destruct (Hlike _ _ Hl) as [A B]. fold n in Hj.
    assert (block_start g x v j i k = 64 * j) as ->; [|lia]. unfold block_start. cbv zeta. replace v with 0 by lia. replace i with 0 by lia. replace k with 0 by lia. rewrite A, B. lia.
  - intros x pos Hl. destruct (Hlike _ _ Hl) as [A B]. rewrite A, B, G3, G4. fold n. ring.
  - left. split; [|reflexivity]. destruct I5 as [L _]. rewrite L. reflexivity.
  - change (d_incs d0) with (d_incs d). rewrite Hincs. destruct I5 as [L _]. rewrite L. cbn. lia.
  - rewrite Eo. assert (0 <= w * h) by (apply Z.mul_nonneg_nonneg; lia). split; [lia|]. lia.
  - intros j (y0 & y1 & y2 & -> & L0 & _).
    destruct Hgood as (_ & _ & Q). rewrite Hcomps in Q. apply Forall_cons_iff in Q. destruct Q as [[_ _ _ _ [Q0 _] _ _] _].
    destruct (gray_job g (gray_comp n c) [] n) with (y := y0) (rest := [y1; y2]) as (px & Epx & Lpx & _); auto; try lia.
    + change (n * 8 = 8 * n). ring.
    + change (c_qt (gray_comp n c)) with (c_qt c). unfold zlen in Q0. lia.
    + eauto.
Qed.
End gray.

Lemma sampled_scan_safe cpu o buf d rest :
  Forall byte buf ->
  decode_headers (mkHst (new_with_options cpu o) buf) = (Ok tt, mkHst d rest) ->
  d_prog d = false ->
  ~ (d_hmax d = 1 /\ d_vmax d = 1) ->
  i_width (d_info d) <= 65527 -> i_height (d_info d) <= 65527 ->
  (i_comps (d_info d) = 1 /\ format_fits cpu o GRAYSCALE (i_width (d_info d)) (padded (i_width (d_info d)) 1) 8) \/
  (d_incs d = YCbCr /\ luma_first d /\
   format_fits cpu o (o_colorspace (d_opt d)) (i_width (d_info d)) (padded (i_width (d_info d)) (d_hmax d)) (8 * (d_hmax d * d_vmax d)) /\
   lines_fit (i_width (d_info d)) (i_height (d_info d)) (d_hmax d) (d_vmax d)) ->
  no_sof rest ->
  match fst (decode_buffer (new_with_options cpu o) buf) with
  | Ok px => zlen px = i_width (d_info d) * i_height (d_info d) * num_components (o_colorspace (d_opt d))
  | Err _ => True
  | _ => False
  end.
Proof.
  intros Hb E Hp Hne Hw Hh Hcase Hns.
  pose proof (decode_headers_step (mkHst (new_with_options cpu o) buf) (hinv_new cpu o) Hb) as W. unfold wp in W. rewrite E in W.
  destruct W as [I1 S1 _ U1 _ G1 _]. cbn [fst snd hd_dec hd_rd] in *. specialize (G1 (good_new cpu o) tt eq_refl).
  assert (Hsh : shape d).
  { apply (headers_shape _ _ (hinv_new cpu o : hinv (hd_dec (mkHst (new_with_options cpu o) buf))) Hb E). apply shape_new. }
  assert (Hcc : d_cc d = choose_color_convert cpu (o_use_unsafe o)) by (destruct U1 as (_ & _ & _ & U & _); exact U).
  assert (Hl : 0 < i_width (d_info d) /\ 0 < i_height (d_info d)).
  { assert (Hz : i_comps (d_info d) <> 0).
    { destruct Hcase as [[X _]|(_ & X & _)]; [lia|]. destruct G1 as (G & _). unfold luma_first in X. rewrite G.
      destruct (d_comps d) as [|? [|? [|? [|]]]]; try contradiction. discriminate. }
    destruct G1 as (_ & L & _). specialize (L Hz). clear - L. lia. }
  unfold decode_buffer, on_buffer, decode_internal. unfold bind at 1. rewrite E. unfold bind, getd. cbn [hd_dec]. rewrite Hp.
  assert (Hrd : Forall byte rest) by (eapply suffix_Forall; eauto).
  enough (R : match fst (decode_baseline (mkHst d rest)) with
    | Ok px => zlen px = i_width (d_info d) * i_height (d_info d) * num_components (o_colorspace (d_opt d))
    | Err _ => True | _ => False end) by (destruct (decode_baseline (mkHst d rest)) as [r s]; exact R).
  destruct Hcase as [[Hone Hf]|(Hi & Hlf & Hf & Hlines)].
  - pose proof (sh_one _ Hsh Hone) as Hi.
    assert (Ho : o_colorspace (d_opt d) = GRAYSCALE) by (destruct (sh_incs _ Hsh) as [X|[_ X]]; congruence).
    assert (exists c, d_comps d = [c]) as (c & Ec).
    { destruct G1 as (G & _). unfold zlen in G. rewrite Hone in G. destruct (d_comps d) as [|c [|c' l]]; cbn [length] in G; try lia. eauto. }
    unfold format_fits, padded in Hf.
    pose proof (gray_sampled_baseline d c (i_width (d_info d)) (i_height (d_info d)) I1 G1 Hsh ltac:(lia) ltac:(lia) ltac:(auto) Hne Ec Hi ltac:(lia) rest Hrd Hns) as R.
    rewrite Ho. cbn [num_components]. destruct (fst (decode_baseline (mkHst d rest))); auto. lia.
  - unfold luma_first in Hlf. destruct (d_comps d) as [|c0 [|c1 [|c2 [|]]]] eqn:Ec; try contradiction. destruct Hlf as (A & B & C & D).
    apply (sampled_baseline cpu o d c0 c1 c2 (d_hmax d) (d_vmax d)); auto; try lia.
    intros X. apply Hne. now injection X.
Qed.
