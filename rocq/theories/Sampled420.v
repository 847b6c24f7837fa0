(** Images in 4:2:0: the lines of chroma are mixed up. *)
From Coq Require Import ZArith String List Bool Lia Reals Lra.
From Coq Require Import ZifyBool ZifyNat ZifyN.
From Verif Require Import Base Types Huffman State Bitstream Headers Idct Upsample Color Simd Worker Mcu McuProg Decoder.
From Verif Require Import SpecHuffman SpecSegments SpecExtend SpecBits SpecBlock SpecProg SpecInter SpecScript SpecImage SpecIdct SpecColor SpecDct SpecPixels SpecColourPixels SpecSampledPixels SpecSampled420.
From Verif Require Import Obs ObsProg BaseFacts ColorFacts Placement IdctFacts IdctReal Strip UpsampleFacts HeaderFile ProgFile ProgImage GrayFile GrayReal ColourImage ColourFile ColourReal.
From Verif Require Import SpecBaseline SpecBaseScan SpecBasePixels SampledImage SampledFile BaseSampledReal ProgSampled ProgSampledReal Sampled440.
Import ListNotations.
Local Open Scope Z_scope.
Local Open Scope res_scope.
Ltac Zify.zify_post_hook ::= Z.div_mod_to_equations.

(** * Upsampling *)
Definition portable (mx : Z) (u : upsampler) : Prop := u = UpHV \/ u = UpHVAvx2 /\ mx <= 3.
(** What the vertical pass leaves at line [r] *)
Definition hv_line (x : Z -> Z -> Z) (r c : Z) : Z := v_pair (fun i => x (2 * i + r mod 2) c) (r / 2).
Lemma pair_ext x y row : 0 <= row < 16 -> (forall i, 0 <= i < 8 -> x i = y i) -> v_pair x row = v_pair y row.
Proof.
  intros Hr H. unfold v_pair. assert (0 <= v_other (row / 2) < 8) by (unfold v_other; destruct (Z.eqb_spec (row / 2) 0), (Z.eqb_spec (row / 2) 7); lia).
  rewrite !H by lia. reflexivity.
Qed.
Lemma hv_all u s mx : 0 < mx -> portable mx u -> zlen s = 128 * mx ->
  exists o, run_upsampler u s (512 * mx) = Ok o /\ zlen o = 512 * mx /\
    forall r c, 0 <= r < 32 -> 0 < c < 16 * mx - 2 ->
      let x i c := zn s (i * (8 * mx) + c) in
      zn o (r * (16 * mx) + c) = tri (hv_line x r (c / 2)) (hv_line x r (other_column c)).
Proof.
  intros Hm Hu Hl.
  assert (E : run_upsampler u s (512 * mx) = upsample_hv s (512 * mx)).
  { destruct Hu as [-> | [-> H3]]; [reflexivity|]. cbn [run_upsampler]. unfold upsample_hv_simd. now replace (zlen s <? 500) with true by lia. }
  rewrite E. clear E Hu. unfold upsample_hv. rewrite Hl. replace (128 * mx * 2) with (16 * (16 * mx)) by ring.
  destruct (vertical_all s (16 * mx)) as (v & -> & Lv & Nv); [lia|lia|]. cbn [rbind].
  replace (512 * mx) with (2 * (16 * (16 * mx))) by ring.
  destruct (horizontal_spec v (16 * (16 * mx)) Lv ltac:(lia)) as (o & E & L & _ & N). exists o. split; [exact E|]. split; [exact L|].
  intros r c Hr Hc. set (x := fun i c => zn s (i * (8 * mx) + c)).
  assert (V : forall r c, 0 <= r < 32 -> 0 <= c < 8 * mx -> zn v (r * (8 * mx) + c) = hv_line x r c).
  { clear - Nv Hm. intros r c Hr Hc.
    assert (B : 0 <= r mod 2 * (8 * mx) + c < 16 * mx) by (pose proof (Z.mod_pos_bound r 2 eq_refl); assert (r mod 2 = 0 \/ r mod 2 = 1) as [-> | ->] by (clear - H; lia); clear - Hc Hm; lia).
    specialize (Nv (r / 2) (r mod 2 * (8 * mx) + c) ltac:(clear - Hr; lia) B).
    replace (r / 2 * (16 * mx) + (r mod 2 * (8 * mx) + c)) with (r * (8 * mx) + c) in Nv by (transitivity ((2 * (r / 2) + r mod 2) * (8 * mx) + c); [f_equal; f_equal; clear; lia|ring]).
    rewrite Nv. unfold hv_line. apply pair_ext; [clear - Hr; lia|]. intros i Hi. unfold x. f_equal. ring. }
  assert (0 <= r * (16 * mx) <= 31 * (16 * mx)) by (split; [apply Z.mul_nonneg_nonneg|apply Z.mul_le_mono_nonneg_r]; lia).
  rewrite N by lia. unfold w_filter.
  replace (r * (16 * mx) + c =? 0) with false by lia. replace (r * (16 * mx) + c =? _) with false by lia.
  replace (16 * mx) with (2 * (8 * mx)) by lia. rewrite row_odd, row_index by lia.
  rewrite <- !V by (try (unfold other_column; destruct (Z.odd c) eqn:Eo; [|assert (c <> 1) by (intros ->; discriminate)]); lia).
  unfold other_column. destruct (Z.odd c); f_equal; f_equal; lia.
Qed.

(** * One job *)
Section jobs.
Variables (g : geom) (c0 c1 c2 : component) (mx : Z).
Hypothesis Hmx : 0 < mx.
Hypothesis Hcomps : g_comps g = [c0; c1; c2].
Hypothesis Hhv : c_h c0 = 2 /\ c_v c0 = 2.
Hypothesis Hst : c_stride c0 = 8 * (mx * 2) /\ c_stride c1 = 8 * mx /\ c_stride c2 = 8 * mx.
Hypothesis Hqt : length (c_qt c0) = 64%nat /\ length (c_qt c1) = 64%nat /\ length (c_qt c2) = 64%nat.
Hypothesis Hin : g_in g = YCbCr.
Hypothesis Hw : 0 < g_width g <= 16 * mx.
Hypothesis Hups : ups_fit 2 2 (c_ups c1) /\ ups_fit 2 2 (c_ups c2).
Hypothesis Hport : portable mx (c_ups c1) /\ portable mx (c_ups c2).
Notation at_job := (job_at g c0 c1 c2 2 mx).
Definition filtered_420 (j : list (list Z)) (k r c : Z) : Z := tri (hv_line (at_job j k) r (c / 2)) (hv_line (at_job j k) r (other_column c)).

Lemma three_420 y0 y1 y2 : zlen y0 = 512 * mx -> zlen y1 = 128 * mx -> zlen y2 = 128 * mx ->
  exists s0 s1 s2 o1 o2, idct_channels 3 0 (g_idct g) 2 2 [y0; y1; y2] (g_comps g) = Ok [s0; s1; s2] /\
    upsample_channels 1 (zlen s0) (g_comps g) [s1; s2] = Ok [o1; o2] /\
    zlen s0 = 512 * mx /\ zlen o1 = 512 * mx /\ zlen o2 = 512 * mx /\
    (forall r c, 0 <= r < 32 -> 0 <= c < 16 * mx -> zn s0 (r * (16 * mx) + c) = at_job [y0; y1; y2] 0 r c) /\
    (forall r c, 0 <= r < 32 -> 0 < c < 16 * mx - 2 -> zn o1 (r * (16 * mx) + c) = filtered_420 [y0; y1; y2] 1 r c /\ zn o2 (r * (16 * mx) + c) = filtered_420 [y0; y1; y2] 2 r c).
Proof.
  intros L0 L1 L2.
  destruct (three_channels g c0 c1 c2 2 2 mx) with (y0 := y0) (y1 := y1) (y2 := y2) as (s0 & s1 & s2 & E & Z0 & Z1 & Z2 & N0 & N1 & N2); auto; try lia.
  destruct Hport as [P1 P2].
  destruct (hv_all (c_ups c1) s1 mx) as (o1 & E1 & Y1 & F1); [lia|exact P1|lia|]. destruct (hv_all (c_ups c2) s2 mx) as (o2 & E2 & Y2 & F2); [lia|exact P2|lia|].
  exists s0, s1, s2, o1, o2. split; [exact E|]. split.
  { cbn [upsample_channels]. rewrite Hcomps. change (1 + 1) with 2. change (at_ [c0; c1; c2] 1) with (Ok c1). change (at_ [c0; c1; c2] 2) with (Ok c2). cbn [rbind].
    replace (zlen s0) with (512 * mx) by lia. rewrite E1, E2. reflexivity. }
  split; [lia|]. split; [lia|]. split; [lia|]. split.
  - intros r c Hr Hc. specialize (N0 r c ltac:(lia) ltac:(lia)). now replace (8 * (mx * 2)) with (16 * mx) in N0 by lia.
  - intros r c Hr Hc. rewrite F1, F2 by assumption. unfold filtered_420, hv_line.
    assert (0 <= other_column c < 8 * mx) by (unfold other_column; destruct (Z.odd c) eqn:Eo; [lia|]; assert (c <> 1) by (intros ->; discriminate); lia).
    split; f_equal; (apply pair_ext; [clear - Hr; lia|]); intros i Hi; (apply N1 || apply N2); clear - Hi H Hc Hr; lia.
Qed.

(** Output as YCbCr *)
Lemma ycc_job_420 j : g_out g = YCbCr -> g_chunk g = 32 * (g_width g * 3) -> planes_fit g 2 2 mx j ->
  job_ok g (fun j o => forall r c k, 0 <= r < 32 -> 0 <= c < g_width g -> 0 <= k < 3 -> (k = 0 \/ 0 < c < 16 * mx - 2) ->
    zn o (r * (g_width g * 3) + (c * 3 + k)) = u8 (if k =? 0 then at_job j 0 r c else filtered_420 j k r c)) j.
Proof.
  intros Ho Hch (y0 & y1 & y2 & -> & L0 & L12). destruct (L12 ltac:(rewrite Ho; discriminate)) as [L1 L2].
  destruct (three_420 y0 y1 y2) as (s0 & s1 & s2 & o1 & o2 & E & Eu & Z0 & Z1 & Z2 & N0 & F); [lia|lia|lia|]. destruct Hhv as [Hh Hv].
  unfold job_ok, post_process. rewrite Hin, Ho.
  assert (Hat : at_ (g_comps g) 0 = Ok c0) by (rewrite Hcomps; reflexivity). rewrite Hat. cbn [rbind]. rewrite Hh, Hv.
  change (Z.to_nat (channels YCbCr YCbCr)) with 3%nat. rewrite E. cbn [rbind]. unfold post_process_inner. rewrite Hat. cbn [rbind]. rewrite Hh, Hv.
  change (negb (2 =? 1) || negb (2 =? 1)) with true. cbv iota.
  rewrite Eu. cbn [rbind]. change (chan [s0; o1; o2] 0) with s0. change (chan [s0; o1; o2] 1) with o1. change (chan [s0; o1; o2] 2) with o2.
  destruct (ycc_lemma s0 o1 o2 (g_width g) 2 2 (zrepeat 0 (g_chunk g)) (16 * mx)) as (o & Eo & Lo & No & _); try lia.
  { unfold zlen, zrepeat. rewrite repeat_length. lia. }
  exists o. split; [exact Eo|]. split; [unfold zlen; rewrite Lo; unfold zrepeat; rewrite repeat_length; lia|].
  intros r c k Hr Hc Hk Hcc. specialize (No r c k ltac:(lia) Hc Hk). unfold at_pixel in No.
  replace (r * (g_width g * 3) + (c * 3 + k)) with ((r * g_width g + c) * 3 + k) by ring. rewrite No. f_equal.
  assert (k = 0 \/ k = 1 \/ k = 2) as [-> | [-> | ->]] by lia; cbn [Z.eqb Z.to_nat nth Pos.to_nat Pos.iter_op Nat.add].
  - apply N0; lia.
  - apply (F r c Hr). clear - Hcc. lia.
  - apply (F r c Hr). clear - Hcc. lia.
Qed.

(** Output as RGB *)
Definition rgb_columns_420 (w m : Z) : Prop := w < 16 /\ m <= w /\ m <= 14 \/ 16 <= w /\ m <= 16 * (mx - 1) /\ 3 * m <= 3 * w - 64.
Lemma rgb_job_420 m j : g_out g = RGB -> g_chunk g = 32 * (g_width g * 3) -> kernel_fits (g_cc g) 3 (g_width g) (16 * mx) ->
  mx = (g_width g + 15) / 16 -> rgb_columns_420 (g_width g) m -> planes_fit g 2 2 mx j ->
  job_ok g (fun j o => forall r c k, 0 <= r < 32 -> 0 < c < m -> 0 <= k < 3 ->
    zn o (r * (g_width g * 3) + (c * 3 + k)) = nth (Z.to_nat k) (cc_pixel (at_job j 0 r c) (filtered_420 j 1 r c) (filtered_420 j 2 r c)) 0) j.
Proof.
  intros Ho Hch Hk Hmw Hm (y0 & y1 & y2 & -> & L0 & L12). destruct (L12 ltac:(rewrite Ho; discriminate)) as [L1 L2].
  destruct (three_420 y0 y1 y2) as (s0 & s1 & s2 & o1 & o2 & E & Eu & Z0 & Z1 & Z2 & N0 & F); [lia|lia|lia|]. destruct Hhv as [Hh Hv].
  unfold job_ok, post_process. rewrite Hin, Ho.
  assert (Hat : at_ (g_comps g) 0 = Ok c0) by (rewrite Hcomps; reflexivity). rewrite Hat. cbn [rbind]. rewrite Hh, Hv.
  change (Z.to_nat (channels YCbCr RGB)) with 3%nat. rewrite E. cbn [rbind]. unfold post_process_inner. rewrite Hat. cbn [rbind]. rewrite Hh, Hv.
  change (negb (2 =? 1) || negb (2 =? 1)) with true. cbv iota.
  rewrite Eu. cbn [rbind]. change (chan [s0; o1; o2] 0) with s0. change (chan [s0; o1; o2] 1) with o1. change (chan [s0; o1; o2] 2) with o2.
  assert (exists o, color_convert_ycbcr s0 o1 o2 (g_width g) 2 2 RGB (g_cc g) (zrepeat 0 (g_chunk g)) = Ok o /\
    placed_left 3 (8 * (2 * 2)) (g_width g) m (fun r c k => nth (Z.to_nat k) (cc_pixel (zn s0 (r * (16 * mx) + c)) (zn o1 (r * (16 * mx) + c)) (zn o2 (r * (16 * mx) + c))) 0)
      (zrepeat 0 (g_chunk g)) o) as (o & Eo & Lo & No & _).
  { assert (Hzl : zlen (zrepeat 0 (g_chunk g)) = g_chunk g) by (unfold zlen, zrepeat; rewrite repeat_length; lia).
    destruct Hm as [(Hw16 & Hm & _)|(Hw16 & Hm1 & Hm2)].
    - destruct (rgb_px_lemma (g_cc g) s0 o1 o2 (g_width g) 2 2 (zrepeat 0 (g_chunk g)) (16 * mx)) as (o & Eo & Lo & No & Uo); try lia; [destruct Hk as [Hk|Hk]; [exact Hk|lia]|].
      exists o. split; [exact Eo|]. split; [exact Lo|]. split; [|exact Uo]. intros r c k Hr Hc Hkk. apply No; lia.
    - apply rgb_wide_px_lemma; try lia. exact Hk. }
  exists o. split; [exact Eo|]. split; [unfold zlen; rewrite Lo; unfold zrepeat; rewrite repeat_length; lia|].
  assert (Hmw' : m <= g_width g /\ m <= 16 * mx - 2) by (clear - Hm Hmw Hw; unfold rgb_columns_420 in Hm; lia).
  intros r c k Hr Hc Hkk. specialize (No r c k ltac:(lia) ltac:(lia) Hkk). unfold at_pixel in No.
  replace (r * (g_width g * 3) + (c * 3 + k)) with ((r * g_width g + c) * 3 + k) by ring. rewrite No.
  destruct (F r c Hr ltac:(lia)) as [F1 F2]. rewrite F1, F2. f_equal. f_equal. apply N0; lia.
Qed.
End jobs.

(** * The pixels *)
Definition mixed_of (rendered : Z -> Z -> Z -> Z) (k r c : Z) : Z :=
  v_pair (fun i => rendered k (16 * (r / 32) + 2 * i + r mod 2) c) (r mod 32 / 2).
Definition spread_420 (rendered : Z -> Z -> Z -> Z) (k r x : Z) : Z := tri (mixed_of rendered k r (x / 2)) (mixed_of rendered k r (other_column x)).
Lemma pair_two x y row : x (row / 2) = y (row / 2) -> x (v_other (row / 2)) = y (v_other (row / 2)) -> v_pair x row = v_pair y row.
Proof. intros H1 H2. unfold v_pair. now rewrite H1, H2. Qed.
Lemma other_range i : 0 <= i < 8 -> 0 <= v_other i < 8.
Proof. unfold v_other. destruct (Z.eqb_spec i 0), (Z.eqb_spec i 7); lia. Qed.

Section pixels.
Variables (cpu : isa) (o : options) (w h : Z) (rendered : Z -> Z -> Z -> Z).
Hypothesis Hw : 0 < w.
Hypothesis Hh : 0 < h.
Hypothesis Hcpu : cpu <> Avx2 \/ o_use_unsafe o = false \/ w <= 48.
Variables (g : geom) (a b c : component) (jobs : list (list (list Z))).
Hypothesis HJ : sampled_jobs cpu o 2 2 w h rendered g a b c jobs.
Let out := rbind (run_jobs g jobs) (fun os => Ok (assemble os (g_total g) (w * bytes_per_pixel o * h))).
Let mx := up8 w 2.

Lemma mx_420 : mx = (w + 15) / 16.
Proof. unfold mx, up8. f_equal. lia. Qed.
Lemma port_420 : portable mx (c_ups b) /\ portable mx (c_ups c).
Proof.
  destruct (sj_ups _ _ _ _ _ _ _ _ _ _ _ _ HJ) as [U1 U2]. pose proof (sj_avx _ _ _ _ _ _ _ _ _ _ _ _ HJ) as A. pose proof mx_420 as Hm.
  assert (U : forall u, ups_fit 2 2 u -> (u = UpHVAvx2 -> cpu = Avx2 /\ o_use_unsafe o = true) -> portable mx u).
  { clear - Hcpu Hm Hw. unfold portable. intros [] Hf Ha; cbn [ups_fit] in Hf; try (destruct Hf; discriminate || lia); [now left|right; split; [reflexivity|]].
    destruct (Ha eq_refl) as [A1 A2]. destruct Hcpu as [H|[H|H]]; [contradiction|congruence|lia]. }
  split; apply U; auto.
Qed.
Lemma mixed_inside r i : 0 <= r < h -> mixed_line h r -> i = r mod 32 / 2 / 2 \/ i = v_other (r mod 32 / 2 / 2) ->
  0 <= 16 * (r / 32) + 2 * i + r mod 2 /\ (16 * (r / 32) + 2 * i + r mod 2) * 2 < h /\ 0 <= 2 * i + r mod 2 < 16.
Proof.
  intros Hr Hm Hi. unfold v_other in Hi. unfold mixed_line in Hm. clear - Hr Hm Hi.
  destruct (Z.eqb_spec (r mod 32 / 2 / 2) 0), (Z.eqb_spec (r mod 32 / 2 / 2) 7); lia.
Qed.
Lemma filtered_mixed k r x : o_colorspace o <> GRAYSCALE -> 0 < k < 3 -> 0 <= r < h -> mixed_line h r -> 0 < x < 16 * mx - 2 ->
  filtered_420 g a b c mx (nth (Z.to_nat (r / 32)) jobs []) k (r mod 32) x = spread_420 rendered k r x.
Proof.
  intros Ho Hk Hr Hm Hx. pose proof (sj_chroma _ _ _ _ _ _ _ _ _ _ _ _ HJ) as Hc. change (8 * 2) with 16 in Hc. fold mx in Hc.
  assert (Hox : 0 <= other_column x < 8 * mx) by (unfold other_column; clear - Hx; destruct (Z.odd x) eqn:Eo; [lia|]; assert (x <> 1) by (intros ->; discriminate); lia).
  assert (G : forall y, 0 <= y < 8 * mx -> hv_line (job_at g a b c 2 mx (nth (Z.to_nat (r / 32)) jobs []) k) (r mod 32) y = mixed_of rendered k r y).
  { intros y Hy. unfold hv_line, mixed_of.
    assert (G' : forall i, i = r mod 32 / 2 / 2 \/ i = v_other (r mod 32 / 2 / 2) ->
      job_at g a b c 2 mx (nth (Z.to_nat (r / 32)) jobs []) k (2 * i + r mod 32 mod 2) y = rendered k (16 * (r / 32) + 2 * i + r mod 2) y).
    { intros i Hi. destruct (mixed_inside r i Hr Hm Hi) as (B1 & B2 & B3). specialize (Hc k _ y Hk Ho B1 B2 Hy).
      replace ((16 * (r / 32) + 2 * i + r mod 2) / 16) with (r / 32) in Hc by (clear - B3; lia).
      replace ((16 * (r / 32) + 2 * i + r mod 2) mod 16) with (2 * i + r mod 2) in Hc by (clear - B3; lia).
      replace (r mod 32 mod 2) with (r mod 2) by (clear; lia). exact Hc. }
    apply pair_two; apply G'; [now left|now right]. }
  unfold filtered_420, spread_420. rewrite !G by (try exact Hox; clear - Hx; lia). reflexivity.
Qed.
(** What the bytes are exactly *)
Lemma exact_ycc_420 : o_colorspace o = YCbCr -> exists px, out = Ok px /\ zlen px = w * h * 3 /\
  (forall r x, 0 <= r < h -> 0 <= x < w -> zn px (at_pixel w 3 r x 0) = u8 (rendered 0 r x)) /\
  (forall r x k, 0 <= r < h -> mixed_line h r -> 0 < x < w -> x < 16 * ((w + 15) / 16) - 2 -> 0 < k < 3 -> zn px (at_pixel w 3 r x k) = u8 (spread_420 rendered k r x)).
Proof.
  intros Ho. pose proof HJ as J0. destruct J0. assert (Hnc : bytes_per_pixel o = 3) by (unfold bytes_per_pixel; rewrite Ho; reflexivity).
  pose proof mx_420 as Hmx. pose proof port_420 as Hpt. assert (W : w <= 16 * mx /\ 0 < mx) by (clear - Hmx Hw; lia). destruct W as [W1 W2].
  destruct (assemble_lines g (w * 3) (fun j o => forall r c0 k, 0 <= r < 32 -> 0 <= c0 < g_width g -> 0 <= k < 3 -> (k = 0 \/ 0 < c0 < 16 * mx - 2) ->
    zn o (r * (g_width g * 3) + (c0 * 3 + k)) = u8 (if k =? 0 then job_at g a b c 2 mx j 0 r c0 else filtered_420 g a b c mx j k r c0))
    32 jobs h (g_total g)) as (px & E & L & P); try (clear - Hw Hh sj_chunk sj_len Hnc; lia).
  { eapply Forall_impl; [|exact sj_jobs]. intros j Hj. apply (ycc_job_420 g a b c mx); auto; rewrite ?sj_width, ?sj_out; auto; rewrite ?sj_chunk, ?Hnc; lia. }
  exists px. split; [unfold out; rewrite Hnc; exact E|].
  assert (Hpx : forall r x k, 0 <= r < h -> 0 <= x < w -> 0 <= k < 3 -> (k = 0 \/ 0 < x < 16 * mx - 2) -> zn px ((r * w + x) * 3 + k) =
    u8 (if k =? 0 then rendered 0 r x else filtered_420 g a b c mx (nth (Z.to_nat (r / 32)) jobs []) k (r mod 32) x)).
  { intros r x k Hr Hx Hk Hxx. destruct (P r Hr) as (po & HQ & Hb). replace ((r * w + x) * 3 + k) with (r * (w * 3) + (x * 3 + k)) by ring.
    rewrite Hb by (clear - Hx Hk; lia). rewrite sj_width in HQ. rewrite HQ by (auto; clear; lia). f_equal. destruct (k =? 0); [|reflexivity].
    change (8 * (2 * 2)) with 32 in sj_luma. now apply sj_luma. }
  split; [rewrite L; ring|]. split.
  - intros r x Hr Hx. exact (Hpx r x 0 Hr Hx ltac:(clear; lia) (or_introl eq_refl)).
  - intros r x k Hr Hi Hx Hx2 Hk. assert (Hxx : 0 < x < 16 * mx - 2) by (rewrite Hmx; clear - Hx Hx2; lia).
    unfold at_pixel. rewrite (Hpx r x k Hr ltac:(clear - Hx; lia) ltac:(clear - Hk; lia) (or_intror Hxx)). replace (k =? 0) with false by (clear - Hk; lia).
    rewrite filtered_mixed; auto. rewrite Ho; discriminate.
Qed.
Lemma exact_rgb_420 m : o_colorspace o = RGB -> cpu <> Sse41 \/ o_use_unsafe o = false \/ 22 <= w /\ 16 * ((w + 15) / 16) <= w + 10 ->
  w < 16 /\ m <= w /\ m <= 14 \/ 16 <= w /\ m <= 16 * ((w + 15) / 16 - 1) /\ 3 * m <= 3 * w - 64 ->
  exists px, out = Ok px /\ zlen px = w * h * 3 /\
  forall r x k, 0 <= r < h -> mixed_line h r -> 0 < x < m -> 0 <= k < 3 ->
    zn px (at_pixel w 3 r x k) = nth (Z.to_nat k) (cc_pixel (rendered 0 r x) (spread_420 rendered 1 r x) (spread_420 rendered 2 r x)) 0.
Proof.
  intros Ho Hc Hm. pose proof HJ as J0. destruct J0. assert (Hnc : bytes_per_pixel o = 3) by (unfold bytes_per_pixel; rewrite Ho; reflexivity).
  pose proof mx_420 as Hmx. pose proof port_420 as Hpt. assert (W : w <= 16 * mx /\ 0 < mx) by (clear - Hmx Hw; lia). destruct W as [W1 W2].
  assert (Hk : kernel_fits (choose_color_convert cpu (o_use_unsafe o)) 3 w (16 * ((w + 15) / 16))) by (clear - Hc; now apply chosen_fits_422).
  assert (Hmw : m <= w /\ m <= 16 * mx - 2) by (clear - Hm Hw Hmx; lia).
  destruct (assemble_lines g (w * 3) (fun j o => forall r c0 k, 0 <= r < 32 -> 0 < c0 < m -> 0 <= k < 3 ->
    zn o (r * (g_width g * 3) + (c0 * 3 + k)) = nth (Z.to_nat k) (cc_pixel (job_at g a b c 2 mx j 0 r c0) (filtered_420 g a b c mx j 1 r c0) (filtered_420 g a b c mx j 2 r c0)) 0)
    32 jobs h (g_total g)) as (px & E & L & P); try (clear - Hw Hh sj_chunk sj_len Hnc; lia).
  { eapply Forall_impl; [|exact sj_jobs]. intros j Hj. apply (rgb_job_420 g a b c mx); auto; rewrite ?sj_width, ?sj_out, ?sj_cc; auto; rewrite ?sj_chunk, ?Hnc, ?Hmx; auto; unfold rgb_columns_420; rewrite <- ?Hmx; rewrite ?Hmx; auto; lia. }
  exists px. split; [unfold out; rewrite Hnc; exact E|]. split; [rewrite L; ring|].
  intros r x k Hr Hi Hx Hkk. assert (Hxw : 0 <= x < w) by (clear - Hx Hmw; lia). assert (Hxx : 0 < x < 16 * mx - 2) by (clear - Hx Hmw; lia).
  destruct (P r Hr) as (po & HQ & Hb). unfold at_pixel. replace ((r * w + x) * 3 + k) with (r * (w * 3) + (x * 3 + k)) by ring.
  rewrite Hb by (clear - Hxw Hkk; lia). rewrite sj_width in HQ. rewrite HQ by (auto; clear; lia). change (8 * (2 * 2)) with 32 in sj_luma. rewrite sj_luma by assumption.
  rewrite !filtered_mixed; auto; try (rewrite Ho; discriminate); clear; lia.
Qed.

Variable pls : list plane.
Hypothesis Hclose : forall k r c, 0 <= k < 3 -> 0 <= r / 8 < (samples 2 (Z.to_nat k) h + 7) / 8 -> 0 <= c / 8 < (samples 2 (Z.to_nat k) w + 7) / 8 ->
  0 <= rendered k r c <= 255 /\
  (Rabs (IZR (rendered k r c) - exact_at (samples 2 (Z.to_nat k) w) (plane_at pls k) r c) <=
    tolerance_at (samples 2 (Z.to_nat k) w) (plane_at pls k) r c)%R.
Lemma mixed_close k r y : 0 <= r < h -> mixed_line h r -> 0 <= y < 8 * mx -> 0 < k < 3 ->
  let p := mixed_of rendered k r y in
  0 <= p <= 255 /\ (Rabs (IZR p - mixed_420 (fun z => exact_at (samples 2 1 w) (plane_at pls k) z y) r) <=
    mixed_420 (fun z => tolerance_at (samples 2 1 w) (plane_at pls k) z y) r + / 2)%R.
Proof.
  intros Hr Hm Hy Hk p. pose proof mx_420 as Emx.
  assert (Hs : forall n, samples 2 (Z.to_nat k) n = samples 2 1 n) by (intros n; unfold samples; replace (Z.to_nat k =? 0)%nat with false by (clear - Hk; lia); reflexivity).
  assert (G : forall i, i = r mod 32 / 2 / 2 \/ i = v_other (r mod 32 / 2 / 2) -> let z := 16 * (r / 32) + 2 * i + r mod 2 in 0 <= rendered k z y <= 255 /\
    (Rabs (IZR (rendered k z y) - exact_at (samples 2 1 w) (plane_at pls k) z y) <= tolerance_at (samples 2 1 w) (plane_at pls k) z y)%R).
  { intros i Hi z. destruct (mixed_inside r i Hr Hm Hi) as (B1 & B2 & B3). fold z in B1, B2. rewrite <- (Hs w). apply (Hclose k z y); [clear - Hk; lia| |]; rewrite (Hs _); unfold samples; cbn [Nat.eqb].
    - clear - B1 B2. lia.
    - clear - Hy Emx. lia. }
  unfold p, mixed_of, mixed_420, v_pair.
  set (f := fun z => exact_at (samples 2 1 w) (plane_at pls k) z y) in *. set (t := fun z => tolerance_at (samples 2 1 w) (plane_at pls k) z y) in *.
  assert (Hodd : Z.odd (r mod 32 / 2) = Z.odd (r / 2)).
  { replace (r mod 32 / 2) with (r / 2 + 2 * (- 8 * (r / 32))) by (clear; lia). apply Z.odd_add_mul_2. }
  assert (Hi : r mod 32 / 2 / 2 = r mod 32 / 4) by (clear; lia). rewrite Hodd.
  set (i := r mod 32 / 2 / 2) in *. set (i' := v_other i) in *. rewrite <- Hi.
  destruct (G i (or_introl eq_refl)) as [R1 C1]. destruct (G i' (or_intror eq_refl)) as [R2 C2]. cbv zeta in C1, C2.
  change (exact_at (samples 2 1 w) (plane_at pls k) (16 * (r / 32) + 2 * i + r mod 2) y) with (f (16 * (r / 32) + 2 * i + r mod 2)) in C1.
  change (tolerance_at (samples 2 1 w) (plane_at pls k) (16 * (r / 32) + 2 * i + r mod 2) y) with (t (16 * (r / 32) + 2 * i + r mod 2)) in C1.
  change (exact_at (samples 2 1 w) (plane_at pls k) (16 * (r / 32) + 2 * i' + r mod 2) y) with (f (16 * (r / 32) + 2 * i' + r mod 2)) in C2.
  change (tolerance_at (samples 2 1 w) (plane_at pls k) (16 * (r / 32) + 2 * i' + r mod 2) y) with (t (16 * (r / 32) + 2 * i' + r mod 2)) in C2.
  pose proof (triangle_close _ _ _ _ _ _ R1 R2 C1 C2) as T1. pose proof (triangle_close _ _ _ _ _ _ R2 R1 C2 C1) as T2. clear R1 R2 C1 C2 G.
  destruct (Z.eqb_spec i 0) as [E0|E0]; [|destruct (Z.eqb_spec i 7) as [E7|E7]].
  - assert (E' : i' = 0) by (unfold i', v_other; rewrite E0; reflexivity). rewrite E0, E' in *.
    replace (16 * (r / 32) + 2 * 0 + r mod 2) with (16 * (r / 32) + r mod 2) in * by ring. set (z := 16 * (r / 32) + r mod 2) in *.
    replace ((3 * f z + f z) / 4)%R with (f z) in * by lra. replace ((3 * t z + t z) / 4)%R with (t z) in * by lra. destruct (Z.odd (r / 2)); assumption.
  - assert (E' : i' = 7) by (unfold i', v_other; rewrite E7; reflexivity). rewrite E7, E' in *.
    replace (16 * (r / 32) + 2 * 7 + r mod 2) with (16 * (r / 32) + r mod 2 + 14) in * by ring. set (z := 16 * (r / 32) + r mod 2 + 14) in *.
    replace ((3 * f z + f z) / 4)%R with (f z) in * by lra. replace ((3 * t z + t z) / 4)%R with (t z) in * by lra. destruct (Z.odd (r / 2)); assumption.
  - assert (E' : i' = i + 1) by (unfold i', v_other; replace (i =? 0) with false by (clear - E0; lia); replace (i =? 7) with false by (clear - E7; lia); reflexivity).
    rewrite E' in *.
    replace (16 * (r / 32) + 2 * (i + 1) + r mod 2) with (16 * (r / 32) + r mod 2 + 2 * i + 2) in * by ring.
    replace (16 * (r / 32) + 2 * i + r mod 2) with (16 * (r / 32) + r mod 2 + 2 * i) in * by ring. destruct (Z.odd (r / 2)); assumption.
Qed.
Lemma spread_close k r x : 0 <= r < h -> mixed_line h r -> 0 < x < 16 * mx - 2 -> 0 < k < 3 ->
  let p := spread_420 rendered k r x in
  0 <= p <= 255 /\ (Rabs (IZR p - mixed_at w (plane_at pls k) r x) <= mixed_tolerance w (plane_at pls k) r x)%R.
Proof.
  intros Hr Hm Hx Hk p.
  assert (Hox : 0 <= other_column x < 8 * mx) by (unfold other_column; clear - Hx; destruct (Z.odd x) eqn:Eo; [lia|]; assert (x <> 1) by (intros ->; discriminate); lia).
  destruct (mixed_close k r (x / 2) Hr Hm ltac:(clear - Hx; lia) Hk) as [R1 C1]. destruct (mixed_close k r (other_column x) Hr Hm Hox Hk) as [R2 C2].
  destruct (triangle_close _ _ _ _ _ _ R1 R2 C1 C2) as [R C]. split; [exact R|]. unfold mixed_at, mixed_tolerance, SpecSampledPixels.between.
  change (neighbour x) with (other_column x). eapply Rle_trans; [exact C|]. lra.
Qed.
Lemma luma_420 r x : 0 <= r < h -> 0 <= x < w -> let p := rendered 0 r x in
  0 <= p <= 255 /\ (Rabs (IZR p - exact_at w (plane_at pls 0) r x) <= tolerance_at w (plane_at pls 0) r x)%R.
Proof. intros Hr Hx p. apply (Hclose 0 r x); unfold samples; cbn [Z.to_nat Nat.eqb]; lia. Qed.

Lemma near_ycc_420 : o_colorspace o = YCbCr -> exists px, out = Ok px /\ close_luma 3 pls w h px /\ chroma_mixed pls w h px.
Proof.
  intros Ho. destruct (exact_ycc_420 Ho) as (px & E & L & P0 & P1). exists px. split; [exact E|]. pose proof mx_420 as Hmx.
  split; [split; [exact L|]|].
  - intros r x Hr Hx p. destruct (luma_420 r x Hr Hx) as [R D].
    assert (Hp : p = rendered 0 r x).
    { unfold p. specialize (P0 r x Hr Hx). unfold at_pixel in P0. rewrite Z.add_0_r in P0. unfold zn in P0. rewrite P0. unfold u8. apply Z.mod_small. clear - R. lia. }
    rewrite Hp. split; [exact R|exact D].
  - intros r x k Hr Hi Hx Hx2 Hk p. assert (Hxx : 0 < x < 16 * mx - 2) by (rewrite Hmx; clear - Hx Hx2; lia). destruct (spread_close k r x Hr Hi Hxx Hk) as [R D].
    assert (Hp : p = spread_420 rendered k r x).
    { unfold p. specialize (P1 r x k Hr Hi Hx Hx2 Hk). unfold at_pixel, zn in P1. rewrite P1. unfold u8. apply Z.mod_small. clear - R. lia. }
    rewrite Hp. split; [exact R|exact D].
Qed.
Lemma near_rgb_420 m : o_colorspace o = RGB -> cpu <> Sse41 \/ o_use_unsafe o = false \/ 22 <= w /\ 16 * ((w + 15) / 16) <= w + 10 ->
  w < 16 /\ m <= w /\ m <= 14 \/ 16 <= w /\ m <= 16 * ((w + 15) / 16 - 1) /\ 3 * m <= 3 * w - 64 ->
  exists px, out = Ok px /\ rgb_mixed m pls w h px.
Proof.
  intros Ho Hc Hm. destruct (exact_rgb_420 m Ho Hc Hm) as (px & E & L & P). exists px. split; [exact E|]. split; [exact L|]. pose proof mx_420 as Hmx.
  intros r x k Hr Hi Hx Hkk p y0 y1 y2. assert (Hxw : 0 <= x < w) by (clear - Hx Hm Hw; lia). assert (Hxx : 0 < x < 16 * mx - 2) by (clear - Hx Hm Hmx Hw; lia).
  assert (Hp : p = nth (Z.to_nat k) (cc_pixel (rendered 0 r x) (spread_420 rendered 1 r x) (spread_420 rendered 2 r x)) 0) by exact (P r x k Hr Hi Hx Hkk).
  destruct (luma_420 r x Hr Hxw) as [B0 C0].
  destruct (spread_close 1 r x Hr Hi Hxx ltac:(clear; lia)) as [B1 C1]. destruct (spread_close 2 r x Hr Hi Hxx ltac:(clear; lia)) as [B2 C2].
  destruct (rgb_close _ _ _ k B0 B1 B2 Hkk) as [D1 D2]. rewrite <- Hp in D1, D2. split; [exact D1|].
  pose proof (jfif_close k _ _ _ _ _ _ _ _ _ C0 C1 C2 ltac:(lra)) as D3. fold y0 y1 y2 in D3.
  match type of D3 with (Rabs (?j - ?j') <= _)%R => replace (IZR p - j')%R with ((IZR p - j) + (j - j'))%R by ring end.
  eapply Rle_trans; [apply Rabs_triang|]. lra.
Qed.
End pixels.

Section progressive.
Variables (cpu : isa) (o : options) (ps : list pre) (q q1 q2 w h : Z) (t0 t1 t2 : quant_def) (cd0 cd1 cd2 : comp_data)
  (is : list item) (Ks : list knowledge) (n : Z) (sfx : list Z).
Let l := Colour 2 2 q q1 q2.
Let pls := [mkPlane (qd_values t0) (cd_blocks cd0); mkPlane (qd_values t1) (cd_blocks cd1); mkPlane (qd_values t2) (cd_blocks cd2)].
Let decoded := fst (decode_buffer (new_with_options cpu o) (file 194 ps l w h is sfx)).
Hypothesis Hi : progressive_image ps l w h [cd0; cd1; cd2] is Ks n sfx.
Hypothesis HK : Forall complete Ks.
Hypothesis Hs : short_end (image_geo l w h) [cd0; cd1; cd2] [] is.
Hypothesis Hmw : w <= o_max_width o.
Hypothesis Hmh : h <= o_max_height o.
Hypothesis Hn : n <= o_max_scans o.
Hypothesis Hw : w <= 65527.
Hypothesis Hh : h <= 65527.
Hypothesis Ht0 : last_quant (quants ps) q = Some t0.
Hypothesis Ht1 : last_quant (quants ps) q1 = Some t1.
Hypothesis Ht2 : last_quant (quants ps) q2 = Some t2.
Hypothesis Heven : ((h + 15) / 16) mod 2 = 0.
Hypothesis Hroom : 16 * ((h + 15) / 16) * w <= (w + 8) * (h + 8) + 128 * h.
Hypothesis Hcpu : cpu <> Avx2 \/ o_use_unsafe o = false \/ w <= 48.
Hypothesis Hra : Forall plane_in_range pls.

Lemma prog_420 (P : list Z -> Prop) :
  (forall rendered, (forall k r c, 0 <= k < 3 -> 0 <= r / 8 < (samples 2 (Z.to_nat k) h + 7) / 8 -> 0 <= c / 8 < (samples 2 (Z.to_nat k) w + 7) / 8 ->
     0 <= rendered k r c <= 255 /\
     (Rabs (IZR (rendered k r c) - exact_at (samples 2 (Z.to_nat k) w) (plane_at pls k) r c) <= tolerance_at (samples 2 (Z.to_nat k) w) (plane_at pls k) r c)%R) ->
   forall g a b c jobs, sampled_jobs cpu o 2 2 w h rendered g a b c jobs ->
   exists px, rbind (run_jobs g jobs) (fun os => Ok (assemble os (g_total g) (w * bytes_per_pixel o * h))) = Ok px /\ P px) ->
  exists px, decoded = Ok px /\ P px.
Proof.
  intros HP. destruct (three_known _ _ _ _ _ _ _ _ _ _ _ Hi) as (K0 & K1 & K2 & EK). rewrite EK in Hi, HK.
  pose proof (planes_complete t0 t1 t2 cd0 cd1 cd2 K0 K1 K2 HK (pi_coefs _ _ _ _ _ _ _ _ _ Hi)) as E. fold pls in E. rewrite <- E in Hra, HP.
  destruct (prog_jobs_there cpu o ps 2 2 q q1 q2 w h t0 t1 t2 cd0 cd1 cd2 is K0 K1 K2 n 217 sfx) as [(g & a & b & c & jobs & HJ & Er)|[_ C]];
    auto using stop_eoi; [change (8 * 2) with 16; replace (h + 16 - 1) with (h + 15) by ring; exact Heven|change (8 * 2) with 16; replace (h + 16 - 1) with (h + 15) by ring; exact Hroom| |contradiction].
  destruct (HP _ (sample_near cpu o ps 2 2 q q1 q2 w h t0 t1 t2 cd0 cd1 cd2 is K0 K1 K2 n sfx Hi Ht0 Ht1 Ht2 Hra) g a b c jobs HJ) as (px & E1 & E2).
  exists px. split; [|exact E2]. rewrite <- E1. exact Er.
Qed.
Lemma prog_ycc_420 : o_colorspace o = YCbCr -> exists px, decoded = Ok px /\ close_luma 3 pls w h px /\ chroma_mixed pls w h px.
Proof.
  intros Ho. assert (P4 : 0 < w) by apply Hi. assert (P5 : 0 < h) by apply Hi. apply prog_420. intros rendered Hc g a b c jobs HJ.
  exact (near_ycc_420 cpu o w h rendered P4 P5 Hcpu g a b c jobs HJ pls Hc Ho).
Qed.
Lemma prog_rgb_420 m : o_colorspace o = RGB -> cpu <> Sse41 \/ o_use_unsafe o = false \/ 22 <= w /\ 16 * ((w + 15) / 16) <= w + 10 ->
  w < 16 /\ m <= w /\ m <= 14 \/ 16 <= w /\ m <= 16 * ((w + 15) / 16 - 1) /\ 3 * m <= 3 * w - 64 ->
  exists px, decoded = Ok px /\ rgb_mixed m pls w h px.
Proof.
  intros Ho Hcc Hm. assert (P4 : 0 < w) by apply Hi. assert (P5 : 0 < h) by apply Hi. apply prog_420. intros rendered Hc g a b c jobs HJ.
  exact (near_rgb_420 cpu o w h rendered P4 P5 Hcpu g a b c jobs HJ pls Hc m Ho Hcc Hm).
Qed.
End progressive.

Section baseline.
Variables (cpu : isa) (o : options) (ps : list pre) (q q1 q2 w h : Z) (tss : list (list huff_def)) (sel : list (Z * Z))
  (B : nat -> Z -> Z -> list Z) (bits : list bool) (sfx : list Z) (t0 t1 t2 : quant_def).
Let l := Colour 2 2 q q1 q2.
Let cd := sel_codes (huffs ps ++ concat tss) sel.
Let pls := sampled_planes 2 2 [t0; t1; t2] w h.
Let decoded := fst (decode_buffer (new_with_options cpu o) (colour_file ps l w h tss sel bits sfx)).
Hypothesis HB : baseline_colour ps l w h tss sel B bits sfx.
Hypothesis Hmw : w <= o_max_width o.
Hypothesis Hmh : h <= o_max_height o.
Hypothesis Ht0 : last_quant (quants ps) q = Some t0.
Hypothesis Ht1 : last_quant (quants ps) q1 = Some t1.
Hypothesis Ht2 : last_quant (quants ps) q2 = Some t2.
Hypothesis Hlast : 64 < last_bits cd (image_blocks l w h B) 7.
Hypothesis Heven : ((h + 15) / 16) mod 2 = 0.
Hypothesis Hroom : 16 * ((h + 15) / 16) * w <= (w + 8) * (h + 8) + 128 * h.
Hypothesis Hcpu : cpu <> Avx2 \/ o_use_unsafe o = false \/ w <= 48.
Hypothesis Hrange : Forall plane_in_range (pls B).

Lemma base_420 (P : list Z -> list plane -> Prop) :
  (forall ks rendered, let planes := pls (without_last_chroma ks 2 2 w h B) in
   (forall k r c, 0 <= k < 3 -> 0 <= r / 8 < (samples 2 (Z.to_nat k) h + 7) / 8 -> 0 <= c / 8 < (samples 2 (Z.to_nat k) w + 7) / 8 ->
     0 <= rendered k r c <= 255 /\
     (Rabs (IZR (rendered k r c) - exact_at (samples 2 (Z.to_nat k) w) (plane_at planes k) r c) <= tolerance_at (samples 2 (Z.to_nat k) w) (plane_at planes k) r c)%R) ->
   forall g a b c jobs, sampled_jobs cpu o 2 2 w h rendered g a b c jobs ->
   exists px, rbind (run_jobs g jobs) (fun os => Ok (assemble os (g_total g) (w * bytes_per_pixel o * h))) = Ok px /\ P px planes) ->
  exists ks px, (ks = [] \/ ks = [2] \/ ks = [1; 2])%nat /\ (ks <> [] -> last_bits cd (image_blocks l w h B) (length ks) <= 64) /\
    decoded = Ok px /\ P px (pls (without_last_chroma ks 2 2 w h B)).
Proof.
  intros HP.
  destruct (the_jobs cpu o ps 2 2 q q1 q2 w h tss sel B bits sfx t0 t1 t2) as (ks & g & a & b & c & jobs & Hks & Hb & HJ & E); auto.
  { change (8 * 2) with 16; replace (h + 16 - 1) with (h + 15) by ring; exact Heven. } { change (8 * 2) with 16; replace (h + 16 - 1) with (h + 15) by ring; exact Hroom. }
  destruct (HP ks _ (fun k r c Hk Hr Hc => sampled_close cpu o ps 2 2 q q1 q2 w h tss sel B bits sfx t0 t1 t2 HB Ht0 Ht1 Ht2 ks k r c Hrange Hk Hr Hc) g a b c jobs HJ)
    as (px & E1 & E2).
  exists ks, px. split; [exact Hks|]. split; [exact Hb|]. split; [|exact E2]. rewrite <- E1. exact E.
Qed.
Lemma base_ycc_420 : o_colorspace o = YCbCr -> exists ks px,
  (ks = [] \/ ks = [2] \/ ks = [1; 2])%nat /\ (ks <> [] -> last_bits cd (image_blocks l w h B) (length ks) <= 64) /\
  decoded = Ok px /\ chroma_mixed (pls (without_last_chroma ks 2 2 w h B)) w h px.
Proof.
  intros Ho. pose proof (bc_width _ _ _ _ _ _ _ _ _ HB) as Hw. pose proof (bc_height _ _ _ _ _ _ _ _ _ HB) as Hh.
  apply (base_420 (fun px planes => chroma_mixed planes w h px)). intros ks rendered planes Hc g a b c jobs HJ.
  destruct (near_ycc_420 cpu o w h rendered ltac:(lia) ltac:(lia) Hcpu g a b c jobs HJ planes Hc Ho) as (px & E1 & _ & E2). now exists px.
Qed.
Lemma base_rgb_420 m : o_colorspace o = RGB -> cpu <> Sse41 \/ o_use_unsafe o = false \/ 22 <= w /\ 16 * ((w + 15) / 16) <= w + 10 ->
  w < 16 /\ m <= w /\ m <= 14 \/ 16 <= w /\ m <= 16 * ((w + 15) / 16 - 1) /\ 3 * m <= 3 * w - 64 -> exists ks px,
  (ks = [] \/ ks = [2] \/ ks = [1; 2])%nat /\ (ks <> [] -> last_bits cd (image_blocks l w h B) (length ks) <= 64) /\
  decoded = Ok px /\ rgb_mixed m (pls (without_last_chroma ks 2 2 w h B)) w h px.
Proof.
  intros Ho Hcc Hm. pose proof (bc_width _ _ _ _ _ _ _ _ _ HB) as Hw. pose proof (bc_height _ _ _ _ _ _ _ _ _ HB) as Hh.
  apply (base_420 (fun px planes => rgb_mixed m planes w h px)). intros ks rendered planes Hc g a b c jobs HJ.
  exact (near_rgb_420 cpu o w h rendered ltac:(lia) ltac:(lia) Hcpu g a b c jobs HJ planes Hc m Ho Hcc Hm).
Qed.
End baseline.
