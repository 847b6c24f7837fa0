(** Images in 4:4:0: the chroma is shown one line too early. *)
From Coq Require Import ZArith String List Bool Lia Reals Lra.
From Coq Require Import ZifyBool ZifyNat ZifyN.
From Verif Require Import Base Types Huffman State Bitstream Headers Idct Upsample Color Simd Worker Mcu McuProg Decoder.
From Verif Require Import SpecHuffman SpecSegments SpecExtend SpecBits SpecBlock SpecProg SpecInter SpecScript SpecImage SpecIdct SpecColor SpecDct SpecPixels SpecColourPixels SpecSampledPixels SpecSampled440.
From Verif Require Import Obs ObsProg BaseFacts ColorFacts Placement IdctFacts IdctReal Strip UpsampleFacts HeaderFile ProgFile ProgImage GrayFile GrayReal ColourImage ColourFile ColourReal.
From Verif Require Import SpecBaseline SpecBaseScan SpecBasePixels SampledImage SampledFile BaseSampledReal ProgSampled ProgSampledReal.
Import ListNotations.
Local Open Scope Z_scope.
Local Open Scope res_scope.
Ltac Zify.zify_post_hook ::= Z.div_mod_to_equations.

(** * Upsampling *)
Definition v_pair (x : Z -> Z) (row : Z) : Z :=
  if Z.odd row then tri (x (v_other (row / 2))) (x (row / 2)) else tri (x (row / 2)) (x (v_other (row / 2))).
Lemma vertical_all input S : 0 < S -> zlen input = 8 * S ->
  exists out, upsample_vertical input (16 * S) = Ok out /\ zlen out = 16 * S /\
    forall row c, 0 <= row < 16 -> 0 <= c < S -> zn out (row * S + c) = v_pair (fun i => zn input (i * S + c)) row.
Proof.
  intros HS Hl. pose proof (vertical_rows input S HS Hl) as E. cbv zeta in E. eexists. split; [exact E|]. clear E.
  set (n := Z.to_nat S).
  assert (forall i, (i < 8)%nat -> length (row_of n input i) = n) as Hr.
  { intros i Hi. apply row_of_length. unfold zlen, n in *. nia. }
  match goal with |- context [concat ?r] => set (rows := r) end.
  assert (Forall (fun r => length r = n) rows) as Hf.
  { unfold rows, pair_rows. cbn [app]. repeat (apply Forall_cons; [rewrite map2_length; rewrite !Hr by lia; reflexivity|]). apply Forall_nil. }
  split; [unfold zlen; rewrite (concat_length _ n Hf); change (length rows) with 16%nat; unfold n; lia|].
  intros row c Hrow Hc. unfold zn at 1. replace (Z.to_nat (row * S + c)) with (Z.to_nat row * n + Z.to_nat c)%nat by (unfold n; nia).
  rewrite nth_concat by (auto; unfold n; lia).
  assert (forall a b, (a < 8)%nat -> (b < 8)%nat ->
    nth (Z.to_nat c) (map2 tri (row_of n input a) (row_of n input b)) 0 =
    tri (zn input (Z.of_nat a * S + c)) (zn input (Z.of_nat b * S + c))) as Hp.
  { intros a b Ha Hb. rewrite (pair_rows_even _ _ n a b input (Z.to_nat c) eq_refl eq_refl) by (unfold n, zlen in *; nia).
    replace (nth (a * n + Z.to_nat c) input 0) with (zn input (Z.of_nat a * S + c)) by (unfold zn, n; f_equal; nia).
    replace (nth (b * n + Z.to_nat c) input 0) with (zn input (Z.of_nat b * S + c)) by (unfold zn, n; f_equal; nia). reflexivity. }
  remember (Z.to_nat row) as rn eqn:Ern. assert (row = Z.of_nat rn) as -> by lia. clear Ern.
  assert (rn < 16)%nat as H16 by lia. clear Hrow Hf.
  do 16 (destruct rn as [|rn]; [unfold rows, pair_rows; cbn [app nth]; rewrite Hp by lia; reflexivity|]). lia.
Qed.

(** * One job *)
Section jobs.
Variables (g : geom) (c0 c1 c2 : component) (mx : Z).
Hypothesis Hmx : 0 < mx.
Hypothesis Hcomps : g_comps g = [c0; c1; c2].
Hypothesis Hhv : c_h c0 = 1 /\ c_v c0 = 2.
Hypothesis Hst : c_stride c0 = 8 * (mx * 1) /\ c_stride c1 = 8 * mx /\ c_stride c2 = 8 * mx.
Hypothesis Hqt : length (c_qt c0) = 64%nat /\ length (c_qt c1) = 64%nat /\ length (c_qt c2) = 64%nat.
Hypothesis Hin : g_in g = YCbCr.
Hypothesis Hw : 0 < g_width g <= 8 * mx.
Hypothesis Hups : ups_fit 1 2 (c_ups c1) /\ ups_fit 1 2 (c_ups c2).
Notation at_job := (job_at g c0 c1 c2 1 mx).
(** Chroma is interpolated vertically *)
Definition filtered_440 (j : list (list Z)) (k r c : Z) : Z := v_pair (fun i => at_job j k i c) r.

Lemma v_pair_ext x y row : 0 <= row < 16 -> (forall i, 0 <= i < 8 -> x i = y i) -> v_pair x row = v_pair y row.
Proof.
  intros Hr H. unfold v_pair. assert (0 <= v_other (row / 2) < 8) by (unfold v_other; destruct (Z.eqb_spec (row / 2) 0), (Z.eqb_spec (row / 2) 7); lia).
  rewrite !H by lia. reflexivity.
Qed.
Lemma three_440 y0 y1 y2 : zlen y0 = 128 * mx -> zlen y1 = 64 * mx -> zlen y2 = 64 * mx ->
  exists s0 s1 s2 o1 o2, idct_channels 3 0 (g_idct g) 1 2 [y0; y1; y2] (g_comps g) = Ok [s0; s1; s2] /\
    upsample_channels 1 (zlen s0) (g_comps g) [s1; s2] = Ok [o1; o2] /\
    zlen s0 = 128 * mx /\ zlen o1 = 128 * mx /\ zlen o2 = 128 * mx /\
    (forall r c, 0 <= r < 16 -> 0 <= c < 8 * mx -> zn s0 (r * (8 * mx) + c) = at_job [y0; y1; y2] 0 r c) /\
    (forall r c, 0 <= r < 16 -> 0 <= c < 8 * mx -> zn o1 (r * (8 * mx) + c) = filtered_440 [y0; y1; y2] 1 r c /\ zn o2 (r * (8 * mx) + c) = filtered_440 [y0; y1; y2] 2 r c).
Proof.
  intros L0 L1 L2.
  destruct (three_channels g c0 c1 c2 1 2 mx) with (y0 := y0) (y1 := y1) (y2 := y2) as (s0 & s1 & s2 & E & Z0 & Z1 & Z2 & N0 & N1 & N2); auto; try lia.
  assert (U : forall u, ups_fit 1 2 u -> u = UpVert) by (intros []; cbn [ups_fit]; intros H; destruct H; congruence || lia).
  destruct Hups as [U1 U2]. apply U in U1, U2.
  destruct (vertical_all s1 (8 * mx)) as (o1 & E1 & Y1 & F1); [lia|lia|]. destruct (vertical_all s2 (8 * mx)) as (o2 & E2 & Y2 & F2); [lia|lia|].
  exists s0, s1, s2, o1, o2. split; [exact E|]. split.
  { cbn [upsample_channels]. rewrite Hcomps. change (1 + 1) with 2. change (at_ [c0; c1; c2] 1) with (Ok c1). change (at_ [c0; c1; c2] 2) with (Ok c2). cbn [rbind].
    rewrite U1, U2. cbn [run_upsampler]. replace (zlen s0) with (16 * (8 * mx)) by lia. rewrite E1, E2. reflexivity. }
  split; [lia|]. split; [lia|]. split; [lia|]. split.
  - intros r c Hr Hc. specialize (N0 r c ltac:(lia) ltac:(lia)). now replace (8 * (mx * 1)) with (8 * mx) in N0 by lia.
  - intros r c Hr Hc. rewrite F1, F2 by assumption. unfold filtered_440.
    split; apply v_pair_ext; auto.
Qed.

(** Output as YCbCr *)
Lemma ycc_job_440 j : g_out g = YCbCr -> g_chunk g = 16 * (g_width g * 3) -> planes_fit g 1 2 mx j ->
  job_ok g (fun j o => forall r c k, 0 <= r < 16 -> 0 <= c < g_width g -> 0 <= k < 3 ->
    zn o (r * (g_width g * 3) + (c * 3 + k)) = u8 (if k =? 0 then at_job j 0 r c else filtered_440 j k r c)) j.
Proof.
  intros Ho Hch (y0 & y1 & y2 & -> & L0 & L12). destruct (L12 ltac:(rewrite Ho; discriminate)) as [L1 L2].
  destruct (three_440 y0 y1 y2) as (s0 & s1 & s2 & o1 & o2 & E & Eu & Z0 & Z1 & Z2 & N0 & F); [lia|lia|lia|]. destruct Hhv as [Hh Hv].
  unfold job_ok, post_process. rewrite Hin, Ho.
  assert (Hat : at_ (g_comps g) 0 = Ok c0) by (rewrite Hcomps; reflexivity). rewrite Hat. cbn [rbind]. rewrite Hh, Hv.
  change (Z.to_nat (channels YCbCr YCbCr)) with 3%nat. rewrite E. cbn [rbind]. unfold post_process_inner. rewrite Hat. cbn [rbind]. rewrite Hh, Hv.
  change (negb (1 =? 1) || negb (2 =? 1)) with true. cbv iota.
  rewrite Eu. cbn [rbind]. change (chan [s0; o1; o2] 0) with s0. change (chan [s0; o1; o2] 1) with o1. change (chan [s0; o1; o2] 2) with o2.
  destruct (ycc_lemma s0 o1 o2 (g_width g) 1 2 (zrepeat 0 (g_chunk g)) (8 * mx)) as (o & Eo & Lo & No & _); try lia.
  { unfold zlen, zrepeat. rewrite repeat_length. lia. }
  exists o. split; [exact Eo|]. split; [unfold zlen; rewrite Lo; unfold zrepeat; rewrite repeat_length; lia|].
  intros r c k Hr Hc Hk. specialize (No r c k ltac:(lia) Hc Hk). unfold at_pixel in No.
  replace (r * (g_width g * 3) + (c * 3 + k)) with ((r * g_width g + c) * 3 + k) by ring. rewrite No. f_equal.
  destruct (F r c Hr ltac:(lia)) as [F1 F2].
  assert (k = 0 \/ k = 1 \/ k = 2) as [-> | [-> | ->]] by lia; cbn [Z.eqb Z.to_nat nth Pos.to_nat Pos.iter_op Nat.add].
  - apply N0; lia.
  - exact F1.
  - exact F2.
Qed.

(** Output as RGB *)
Lemma rgb_job_440 m j : g_out g = RGB -> g_chunk g = 16 * (g_width g * 3) -> kernel_fits (g_cc g) 3 (g_width g) (8 * mx) ->
  mx = (g_width g + 7) / 8 -> rgb_columns (g_width g) m -> planes_fit g 1 2 mx j ->
  job_ok g (fun j o => forall r c k, 0 <= r < 16 -> 0 <= c < m -> 0 <= k < 3 ->
    zn o (r * (g_width g * 3) + (c * 3 + k)) = nth (Z.to_nat k) (cc_pixel (at_job j 0 r c) (filtered_440 j 1 r c) (filtered_440 j 2 r c)) 0) j.
Proof.
  intros Ho Hch Hk Hmw Hm (y0 & y1 & y2 & -> & L0 & L12). destruct (L12 ltac:(rewrite Ho; discriminate)) as [L1 L2].
  destruct (three_440 y0 y1 y2) as (s0 & s1 & s2 & o1 & o2 & E & Eu & Z0 & Z1 & Z2 & N0 & F); [lia|lia|lia|]. destruct Hhv as [Hh Hv].
  unfold job_ok, post_process. rewrite Hin, Ho.
  assert (Hat : at_ (g_comps g) 0 = Ok c0) by (rewrite Hcomps; reflexivity). rewrite Hat. cbn [rbind]. rewrite Hh, Hv.
  change (Z.to_nat (channels YCbCr RGB)) with 3%nat. rewrite E. cbn [rbind]. unfold post_process_inner. rewrite Hat. cbn [rbind]. rewrite Hh, Hv.
  change (negb (1 =? 1) || negb (2 =? 1)) with true. cbv iota.
  rewrite Eu. cbn [rbind]. change (chan [s0; o1; o2] 0) with s0. change (chan [s0; o1; o2] 1) with o1. change (chan [s0; o1; o2] 2) with o2.
  assert (exists o, color_convert_ycbcr s0 o1 o2 (g_width g) 1 2 RGB (g_cc g) (zrepeat 0 (g_chunk g)) = Ok o /\
    placed_left 3 (8 * (1 * 2)) (g_width g) m (fun r c k => nth (Z.to_nat k) (cc_pixel (zn s0 (r * (8 * mx) + c)) (zn o1 (r * (8 * mx) + c)) (zn o2 (r * (8 * mx) + c))) 0)
      (zrepeat 0 (g_chunk g)) o) as (o & Eo & Lo & No & _).
  { assert (Hzl : zlen (zrepeat 0 (g_chunk g)) = g_chunk g) by (unfold zlen, zrepeat; rewrite repeat_length; lia).
    destruct Hm as [(Hw16 & Hm)|(Hw16 & Hm1 & Hm2)].
    - destruct (rgb_px_lemma (g_cc g) s0 o1 o2 (g_width g) 1 2 (zrepeat 0 (g_chunk g)) (8 * mx)) as (o & Eo & Lo & No & Uo); try lia; [destruct Hk as [Hk|Hk]; [exact Hk|lia]|].
      exists o. split; [exact Eo|]. split; [exact Lo|]. split; [|exact Uo]. intros r c k Hr Hc Hkk. apply No; lia.
    - apply rgb_wide_px_lemma; try lia. exact Hk. }
  exists o. split; [exact Eo|]. split; [unfold zlen; rewrite Lo; unfold zrepeat; rewrite repeat_length; lia|].
  assert (Hmw' : m <= g_width g) by (unfold rgb_columns in Hm; lia).
  intros r c k Hr Hc Hkk. specialize (No r c k ltac:(lia) Hc Hkk). unfold at_pixel in No.
  replace (r * (g_width g * 3) + (c * 3 + k)) with ((r * g_width g + c) * 3 + k) by ring. rewrite No.
  destruct (F r c Hr ltac:(lia)) as [F1 F2]. rewrite F1, F2. f_equal. f_equal. apply N0; lia.
Qed.
End jobs.

(** * The pixels *)
Definition early_line (r : Z) : Z := 8 * (r / 16) + v_other (r mod 16 / 2).
Definition spread_440 (rendered : Z -> Z -> Z -> Z) (k r x : Z) : Z :=
  if Z.odd r then tri (rendered k (early_line r) x) (rendered k (r / 2) x) else tri (rendered k (r / 2) x) (rendered k (early_line r) x).

Section pixels.
Variables (cpu : isa) (o : options) (w h : Z) (rendered : Z -> Z -> Z -> Z).
Hypothesis Hw : 0 < w.
Hypothesis Hh : 0 < h.
Variables (g : geom) (a b c : component) (jobs : list (list (list Z))).
Hypothesis HJ : sampled_jobs cpu o 1 2 w h rendered g a b c jobs.
Let out := rbind (run_jobs g jobs) (fun os => Ok (assemble os (g_total g) (w * bytes_per_pixel o * h))).
Let mx := up8 w 1.

Lemma mx_440 : mx = (w + 7) / 8.
Proof. unfold mx, up8. f_equal. lia. Qed.
Lemma early_inside r : 0 <= r < h -> inner_line h r -> 0 <= early_line r /\ early_line r * 2 < h /\ r / 2 * 2 < h /\ 0 <= r / 2.
Proof.
  intros Hr Hi. unfold early_line, v_other. unfold inner_line in Hi. clear - Hr Hi.
  destruct (Z.eqb_spec (r mod 16 / 2) 0), (Z.eqb_spec (r mod 16 / 2) 7); lia.
Qed.
Lemma filtered_early k r x : o_colorspace o <> GRAYSCALE -> 0 < k < 3 -> 0 <= r < h -> inner_line h r -> 0 <= x < 8 * mx ->
  filtered_440 g a b c mx (nth (Z.to_nat (r / 16)) jobs []) k (r mod 16) x = spread_440 rendered k r x.
Proof.
  intros Ho Hk Hr Hi Hx. destruct (early_inside r Hr Hi) as (E1 & E2 & E3 & E4). pose proof (sj_chroma _ _ _ _ _ _ _ _ _ _ _ _ HJ) as Hc.
  assert (G : forall i, 0 <= i < 8 -> 0 <= 8 * (r / 16) + i -> (8 * (r / 16) + i) * 2 < h ->
    job_at g a b c 1 mx (nth (Z.to_nat (r / 16)) jobs []) k i x = rendered k (8 * (r / 16) + i) x).
  { intros i Hi8 H0 Hl. specialize (Hc k (8 * (r / 16) + i) x Hk Ho H0 Hl Hx). change (8 * 1) with 8 in Hc.
    replace ((8 * (r / 16) + i) / 8) with (r / 16) in Hc by (clear - Hi8; lia). replace ((8 * (r / 16) + i) mod 8) with i in Hc by (clear - Hi8; lia). exact Hc. }
  unfold filtered_440, spread_440, v_pair.
  assert (Hodd : Z.odd (r mod 16) = Z.odd r).
  { rewrite (Z.mod_eq r 16) by lia. replace (r - 16 * (r / 16)) with (r + 2 * (- 8 * (r / 16))) by ring. apply Z.odd_add_mul_2. }
  assert (Hv : 0 <= v_other (r mod 16 / 2) < 8) by (unfold v_other; clear; destruct (Z.eqb_spec (r mod 16 / 2) 0), (Z.eqb_spec (r mod 16 / 2) 7); lia).
  assert (Hp : r / 2 = 8 * (r / 16) + r mod 16 / 2) by (clear; lia).
  rewrite Hodd. rewrite !G; auto.
  - unfold early_line. rewrite <- Hp. reflexivity.
  - clear; lia.
  - clear - Hp E4; lia.
  - clear - Hp E3; lia.
Qed.
(** What the bytes are exactly *)
Lemma exact_ycc_440 : o_colorspace o = YCbCr -> exists px, out = Ok px /\ zlen px = w * h * 3 /\
  (forall r x, 0 <= r < h -> 0 <= x < w -> zn px (at_pixel w 3 r x 0) = u8 (rendered 0 r x)) /\
  (forall r x k, 0 <= r < h -> inner_line h r -> 0 <= x < w -> 0 < k < 3 -> zn px (at_pixel w 3 r x k) = u8 (spread_440 rendered k r x)).
Proof.
  intros Ho. pose proof HJ as J0. destruct J0. assert (Hnc : bytes_per_pixel o = 3) by (unfold bytes_per_pixel; rewrite Ho; reflexivity).
  pose proof mx_440 as Hmx. assert (W : w <= 8 * mx /\ 0 < mx) by (clear - Hmx Hw; lia). destruct W as [W1 W2].
  destruct (assemble_lines g (w * 3) (fun j o => forall r c0 k, 0 <= r < 16 -> 0 <= c0 < g_width g -> 0 <= k < 3 ->
    zn o (r * (g_width g * 3) + (c0 * 3 + k)) = u8 (if k =? 0 then job_at g a b c 1 mx j 0 r c0 else filtered_440 g a b c mx j k r c0))
    16 jobs h (g_total g)) as (px & E & L & P); try (clear - Hw Hh sj_chunk sj_len Hnc; lia).
  { eapply Forall_impl; [|exact sj_jobs]. intros j Hj. apply (ycc_job_440 g a b c mx); auto; rewrite ?sj_width, ?sj_out; auto; rewrite ?sj_chunk, ?Hnc; lia. }
  exists px. split; [unfold out; rewrite Hnc; exact E|].
  assert (Hpx : forall r x k, 0 <= r < h -> 0 <= x < w -> 0 <= k < 3 -> zn px ((r * w + x) * 3 + k) =
    u8 (if k =? 0 then rendered 0 r x else filtered_440 g a b c mx (nth (Z.to_nat (r / 16)) jobs []) k (r mod 16) x)).
  { intros r x k Hr Hx Hk. destruct (P r Hr) as (po & HQ & Hb). replace ((r * w + x) * 3 + k) with (r * (w * 3) + (x * 3 + k)) by ring.
    rewrite Hb by (clear - Hx Hk; lia). rewrite sj_width in HQ. rewrite HQ by (auto; clear; lia). f_equal. destruct (k =? 0); [|reflexivity].
    change (8 * (1 * 2)) with 16 in sj_luma. now apply sj_luma. }
  split; [rewrite L; ring|]. split.
  - intros r x Hr Hx. exact (Hpx r x 0 Hr Hx ltac:(clear; lia)).
  - intros r x k Hr Hi Hx Hk. unfold at_pixel. rewrite (Hpx r x k Hr Hx ltac:(clear - Hk; lia)). replace (k =? 0) with false by (clear - Hk; lia).
    rewrite filtered_early; auto; [rewrite Ho; discriminate|clear - Hx W1; lia].
Qed.
Lemma exact_rgb_440 m : o_colorspace o = RGB -> cpu <> Sse41 \/ o_use_unsafe o = false \/ 22 <= w ->
  w < 16 /\ m <= w \/ 16 <= w /\ m <= 16 * (8 * ((w + 7) / 8) / 16 - 1) /\ 3 * m <= 3 * w - 64 ->
  exists px, out = Ok px /\ zlen px = w * h * 3 /\
  forall r x k, 0 <= r < h -> inner_line h r -> 0 <= x < m -> 0 <= k < 3 ->
    zn px (at_pixel w 3 r x k) = nth (Z.to_nat k) (cc_pixel (rendered 0 r x) (spread_440 rendered 1 r x) (spread_440 rendered 2 r x)) 0.
Proof.
  intros Ho Hc Hm. pose proof HJ as J0. destruct J0. assert (Hnc : bytes_per_pixel o = 3) by (unfold bytes_per_pixel; rewrite Ho; reflexivity).
  pose proof mx_440 as Hmx. assert (W : w <= 8 * mx /\ 0 < mx) by (clear - Hmx Hw; lia). destruct W as [W1 W2].
  assert (Hk : kernel_fits (choose_color_convert cpu (o_use_unsafe o)) 3 w (8 * ((w + 7) / 8))) by (clear - Hc; now apply chosen_fits).
  assert (Hmw : m <= w) by (clear - Hm Hw; lia).
  destruct (assemble_lines g (w * 3) (fun j o => forall r c0 k, 0 <= r < 16 -> 0 <= c0 < m -> 0 <= k < 3 ->
    zn o (r * (g_width g * 3) + (c0 * 3 + k)) = nth (Z.to_nat k) (cc_pixel (job_at g a b c 1 mx j 0 r c0) (filtered_440 g a b c mx j 1 r c0) (filtered_440 g a b c mx j 2 r c0)) 0)
    16 jobs h (g_total g)) as (px & E & L & P); try (clear - Hw Hh sj_chunk sj_len Hnc; lia).
  { eapply Forall_impl; [|exact sj_jobs]. intros j Hj. apply (rgb_job_440 g a b c mx); auto; rewrite ?sj_width, ?sj_out, ?sj_cc; auto; rewrite ?sj_chunk, ?Hnc, ?Hmx; auto; lia. }
  exists px. split; [unfold out; rewrite Hnc; exact E|]. split; [rewrite L; ring|].
  intros r x k Hr Hi Hx Hkk. assert (Hxw : 0 <= x < w) by (clear - Hx Hmw; lia).
  destruct (P r Hr) as (po & HQ & Hb). unfold at_pixel. replace ((r * w + x) * 3 + k) with (r * (w * 3) + (x * 3 + k)) by ring.
  rewrite Hb by (clear - Hxw Hkk; lia). rewrite sj_width in HQ. rewrite HQ by (auto; clear; lia). change (8 * (1 * 2)) with 16 in sj_luma. rewrite sj_luma by assumption.
  rewrite !filtered_early; auto; try (rewrite Ho; discriminate); clear - Hxw W1; lia.
Qed.

Variable pls : list plane.
Hypothesis Hclose : forall k r c, 0 <= k < 3 -> 0 <= r / 8 < (samples 2 (Z.to_nat k) h + 7) / 8 -> 0 <= c / 8 < (samples 1 (Z.to_nat k) w + 7) / 8 ->
  0 <= rendered k r c <= 255 /\
  (Rabs (IZR (rendered k r c) - exact_at (samples 1 (Z.to_nat k) w) (plane_at pls k) r c) <=
    tolerance_at (samples 1 (Z.to_nat k) w) (plane_at pls k) r c)%R.
Lemma early_close k r x : 0 <= r < h -> inner_line h r -> 0 <= x < w -> 0 < k < 3 ->
  let p := spread_440 rendered k r x in
  0 <= p <= 255 /\ (Rabs (IZR p - early_at w (plane_at pls k) r x) <= early_tolerance w (plane_at pls k) r x)%R.
Proof.
  intros Hr Hi Hx Hk p. destruct (early_inside r Hr Hi) as (E1 & E2 & E3 & E4).
  assert (Hs : samples 1 (Z.to_nat k) w = w) by (unfold samples; destruct (Z.to_nat k =? 0)%nat; [reflexivity|]; rewrite Z.div_1_r; lia).
  assert (G : forall y, 0 <= y -> y * 2 < h -> 0 <= rendered k y x <= 255 /\
    (Rabs (IZR (rendered k y x) - exact_at w (plane_at pls k) y x) <= tolerance_at w (plane_at pls k) y x)%R).
  { intros y Hy Hl. pose proof (Hclose k y x) as C. rewrite Hs in C. apply C; [clear - Hk; lia| |clear - Hx; lia].
    unfold samples. replace (Z.to_nat k =? 0)%nat with false by (clear - Hk; lia). clear - Hy Hl. lia. }
  destruct (G _ E1 E2) as [R1 C1]. destruct (G _ E4 E3) as [R2 C2]. unfold p, spread_440, early_at, early_tolerance, early_440.
  set (f := fun y => exact_at w (plane_at pls k) y x) in *. set (t := fun y => tolerance_at w (plane_at pls k) y x) in *.
  change (exact_at w (plane_at pls k) (early_line r) x) with (f (early_line r)) in C1. change (exact_at w (plane_at pls k) (r / 2) x) with (f (r / 2)) in C2.
  change (tolerance_at w (plane_at pls k) (early_line r) x) with (t (early_line r)) in C1. change (tolerance_at w (plane_at pls k) (r / 2) x) with (t (r / 2)) in C2.
  pose proof (triangle_close _ _ _ _ _ _ R1 R2 C1 C2) as T1. pose proof (triangle_close _ _ _ _ _ _ R2 R1 C2 C1) as T2.
  destruct (Z.ltb_spec (r mod 16) 2) as [H2|H2]; [|destruct (Z.ltb_spec 13 (r mod 16)) as [H13|H13]].
  - assert (Ee : early_line r = r / 2) by (unfold early_line, v_other; replace (r mod 16 / 2) with 0 by (clear - H2; lia); cbn [Z.eqb]; clear - H2; lia).
    assert (Er : 8 * (r / 16) = r / 2) by (clear - H2; lia). rewrite Er, Ee in *.
    replace ((3 * f (r / 2)%Z + f (r / 2)%Z) / 4)%R with (f (r / 2)%Z) in * by lra. replace ((3 * t (r / 2)%Z + t (r / 2)%Z) / 4)%R with (t (r / 2)%Z) in * by lra.
    destruct (Z.odd r); assumption.
  - assert (Ee : early_line r = r / 2) by (unfold early_line, v_other; replace (r mod 16 / 2) with 7 by (clear - H13; lia); cbn [Z.eqb Pos.eqb]; clear - H13; lia).
    assert (Er : 8 * (r / 16) + 7 = r / 2) by (clear - H13; lia). rewrite Er, Ee in *.
    replace ((3 * f (r / 2)%Z + f (r / 2)%Z) / 4)%R with (f (r / 2)%Z) in * by lra. replace ((3 * t (r / 2)%Z + t (r / 2)%Z) / 4)%R with (t (r / 2)%Z) in * by lra.
    destruct (Z.odd r); assumption.
  - assert (Ee : early_line r = r / 2 + 1).
    { unfold early_line, v_other. clear - H2 H13. destruct (Z.eqb_spec (r mod 16 / 2) 0), (Z.eqb_spec (r mod 16 / 2) 7); lia. }
    unfold SpecSampledPixels.between, neighbour. destruct (Z.odd r) eqn:Eo.
    + assert (Z.odd (r + 1) = false) as -> by (rewrite Z.odd_add, Eo; reflexivity).
      assert (exists q, r = 2 * q + 1) as (q & Eq) by (apply Z.odd_spec in Eo; destruct Eo as [q Eq]; now exists q).
      replace ((r + 1) / 2) with (early_line r) by (rewrite Ee; clear - Eq; lia). replace (early_line r - 1) with (r / 2) by (clear - Ee; lia). exact T1.
    + assert (Z.odd (r + 1) = true) as -> by (rewrite Z.odd_add, Eo; reflexivity).
      assert (exists q, r = 2 * q) as (q & Eq) by (assert (Z.even r = true) as Ev by (rewrite <- Z.negb_odd, Eo; reflexivity); apply Z.even_spec in Ev; destruct Ev as [q Eq]; now exists q).
      replace ((r + 1) / 2) with (r / 2) by (clear - Eq; lia). replace (r / 2 + 1) with (early_line r) by (clear - Ee; lia). exact T2.
Qed.
Lemma luma_440 r x : 0 <= r < h -> 0 <= x < w -> let p := rendered 0 r x in
  0 <= p <= 255 /\ (Rabs (IZR p - exact_at w (plane_at pls 0) r x) <= tolerance_at w (plane_at pls 0) r x)%R.
Proof. intros Hr Hx p. apply (Hclose 0 r x); unfold samples; cbn [Z.to_nat Nat.eqb]; lia. Qed.

Lemma near_ycc_440 : o_colorspace o = YCbCr -> exists px, out = Ok px /\ close_luma 3 pls w h px /\ chroma_early pls w h px.
Proof.
  intros Ho. destruct (exact_ycc_440 Ho) as (px & E & L & P0 & P1). exists px. split; [exact E|].
  split; [split; [exact L|]|].
  - intros r x Hr Hx p. destruct (luma_440 r x Hr Hx) as [R D].
    assert (Hp : p = rendered 0 r x).
    { unfold p. specialize (P0 r x Hr Hx). unfold at_pixel in P0. rewrite Z.add_0_r in P0. unfold zn in P0. rewrite P0. unfold u8. apply Z.mod_small. clear - R. lia. }
    rewrite Hp. split; [exact R|exact D].
  - intros r x k Hr Hi Hx Hk p. destruct (early_close k r x Hr Hi Hx Hk) as [R D].
    assert (Hp : p = spread_440 rendered k r x).
    { unfold p. specialize (P1 r x k Hr Hi Hx Hk). unfold at_pixel, zn in P1. rewrite P1. unfold u8. apply Z.mod_small. clear - R. lia. }
    rewrite Hp. split; [exact R|exact D].
Qed.
Lemma near_rgb_440 m : o_colorspace o = RGB -> cpu <> Sse41 \/ o_use_unsafe o = false \/ 22 <= w ->
  w < 16 /\ m <= w \/ 16 <= w /\ m <= 16 * (8 * ((w + 7) / 8) / 16 - 1) /\ 3 * m <= 3 * w - 64 ->
  exists px, out = Ok px /\ rgb_early m pls w h px.
Proof.
  intros Ho Hc Hm. destruct (exact_rgb_440 m Ho Hc Hm) as (px & E & L & P). exists px. split; [exact E|]. split; [exact L|].
  intros r x k Hr Hi Hx Hkk p y0 y1 y2. assert (Hxw : 0 <= x < w) by (clear - Hx Hm Hw; lia).
  assert (Hp : p = nth (Z.to_nat k) (cc_pixel (rendered 0 r x) (spread_440 rendered 1 r x) (spread_440 rendered 2 r x)) 0) by exact (P r x k Hr Hi Hx Hkk).
  destruct (luma_440 r x Hr Hxw) as [B0 C0].
  destruct (early_close 1 r x Hr Hi Hxw ltac:(clear; lia)) as [B1 C1]. destruct (early_close 2 r x Hr Hi Hxw ltac:(clear; lia)) as [B2 C2].
  destruct (rgb_close _ _ _ k B0 B1 B2 Hkk) as [D1 D2]. rewrite <- Hp in D1, D2. split; [exact D1|].
  pose proof (jfif_close k _ _ _ _ _ _ _ _ _ C0 C1 C2 ltac:(lra)) as D3. fold y0 y1 y2 in D3.
  match type of D3 with (Rabs (?j - ?j') <= _)%R => replace (IZR p - j')%R with ((IZR p - j) + (j - j'))%R by ring end.
  eapply Rle_trans; [apply Rabs_triang|]. lra.
Qed.
End pixels.

(** * Files *)
Section progressive.
Variables (cpu : isa) (o : options) (ps : list pre) (q q1 q2 w h : Z) (t0 t1 t2 : quant_def) (cd0 cd1 cd2 : comp_data)
  (is : list item) (Ks : list knowledge) (n : Z) (sfx : list Z).
Let l := Colour 1 2 q q1 q2.
Let pls := [mkPlane (qd_values t0) (cd_blocks cd0); mkPlane (qd_values t1) (cd_blocks cd1); mkPlane (qd_values t2) (cd_blocks cd2)].
Let decoded := fst (decode_buffer (new_with_options cpu o) (file 194 ps l w h is sfx)).
Hypothesis Hi : progressive_image ps l w h [cd0; cd1; cd2] is Ks n sfx.
Hypothesis HK : Forall complete Ks.
Hypothesis Hs : short_end (image_geo l w h) [cd0; cd1; cd2] [] is.
Hypothesis Hmw : w <= o_max_width o.
Hypothesis Hmh : h <= o_max_height o.
Hypothesis Hn : n <= o_max_scans o.
Hypothesis Hw : w <= 65527.
Hypothesis Hh : h <= 65527.
Hypothesis Ht0 : last_quant (quants ps) q = Some t0.
Hypothesis Ht1 : last_quant (quants ps) q1 = Some t1.
Hypothesis Ht2 : last_quant (quants ps) q2 = Some t2.
Hypothesis Hroom : 16 * ((h + 15) / 16) * w <= (w + 8) * (h + 8) + 128 * h.
Hypothesis Hra : Forall plane_in_range pls.

Lemma prog_440 (P : list Z -> Prop) :
  (forall rendered, (forall k r c, 0 <= k < 3 -> 0 <= r / 8 < (samples 2 (Z.to_nat k) h + 7) / 8 -> 0 <= c / 8 < (samples 1 (Z.to_nat k) w + 7) / 8 ->
     0 <= rendered k r c <= 255 /\
     (Rabs (IZR (rendered k r c) - exact_at (samples 1 (Z.to_nat k) w) (plane_at pls k) r c) <= tolerance_at (samples 1 (Z.to_nat k) w) (plane_at pls k) r c)%R) ->
   forall g a b c jobs, sampled_jobs cpu o 1 2 w h rendered g a b c jobs ->
   exists px, rbind (run_jobs g jobs) (fun os => Ok (assemble os (g_total g) (w * bytes_per_pixel o * h))) = Ok px /\ P px) ->
  exists px, decoded = Ok px /\ P px.
Proof.
  intros HP. destruct (three_known _ _ _ _ _ _ _ _ _ _ _ Hi) as (K0 & K1 & K2 & EK). rewrite EK in Hi, HK.
  pose proof (planes_complete t0 t1 t2 cd0 cd1 cd2 K0 K1 K2 HK (pi_coefs _ _ _ _ _ _ _ _ _ Hi)) as E. fold pls in E. rewrite <- E in Hra, HP.
  destruct (prog_jobs_there cpu o ps 1 2 q q1 q2 w h t0 t1 t2 cd0 cd1 cd2 is K0 K1 K2 n 217 sfx) as [(g & a & b & c & jobs & HJ & Er)|[_ C]];
    auto using stop_eoi; [apply Z.mod_1_r|change (8 * 2) with 16; replace (h + 16 - 1) with (h + 15) by ring; exact Hroom| |contradiction].
  destruct (HP _ (sample_near cpu o ps 1 2 q q1 q2 w h t0 t1 t2 cd0 cd1 cd2 is K0 K1 K2 n sfx Hi Ht0 Ht1 Ht2 Hra) g a b c jobs HJ) as (px & E1 & E2).
  exists px. split; [|exact E2]. rewrite <- E1. exact Er.
Qed.
Lemma prog_ycc_440 : o_colorspace o = YCbCr -> exists px, decoded = Ok px /\ close_luma 3 pls w h px /\ chroma_early pls w h px.
Proof.
  intros Ho. assert (P4 : 0 < w) by apply Hi. assert (P5 : 0 < h) by apply Hi. apply prog_440. intros rendered Hc g a b c jobs HJ.
  exact (near_ycc_440 cpu o w h rendered P4 P5 g a b c jobs HJ pls Hc Ho).
Qed.
Lemma prog_rgb_440 m : o_colorspace o = RGB -> cpu <> Sse41 \/ o_use_unsafe o = false \/ 22 <= w ->
  w < 16 /\ m <= w \/ 16 <= w /\ m <= 16 * (8 * ((w + 7) / 8) / 16 - 1) /\ 3 * m <= 3 * w - 64 ->
  exists px, decoded = Ok px /\ rgb_early m pls w h px.
Proof.
  intros Ho Hcc Hm. assert (P4 : 0 < w) by apply Hi. assert (P5 : 0 < h) by apply Hi. apply prog_440. intros rendered Hc g a b c jobs HJ.
  exact (near_rgb_440 cpu o w h rendered P4 P5 g a b c jobs HJ pls Hc m Ho Hcc Hm).
Qed.
End progressive.

Section baseline.
Variables (cpu : isa) (o : options) (ps : list pre) (q q1 q2 w h : Z) (tss : list (list huff_def)) (sel : list (Z * Z))
  (B : nat -> Z -> Z -> list Z) (bits : list bool) (sfx : list Z) (t0 t1 t2 : quant_def).
Let l := Colour 1 2 q q1 q2.
Let cd := sel_codes (huffs ps ++ concat tss) sel.
Let pls := sampled_planes 1 2 [t0; t1; t2] w h.
Let decoded := fst (decode_buffer (new_with_options cpu o) (colour_file ps l w h tss sel bits sfx)).
Hypothesis HB : baseline_colour ps l w h tss sel B bits sfx.
Hypothesis Hmw : w <= o_max_width o.
Hypothesis Hmh : h <= o_max_height o.
Hypothesis Ht0 : last_quant (quants ps) q = Some t0.
Hypothesis Ht1 : last_quant (quants ps) q1 = Some t1.
Hypothesis Ht2 : last_quant (quants ps) q2 = Some t2.
Hypothesis Hlast : 64 < last_bits cd (image_blocks l w h B) 5.
Hypothesis Hroom : 16 * ((h + 15) / 16) * w <= (w + 8) * (h + 8) + 128 * h.
Hypothesis Hrange : Forall plane_in_range (pls B).

Lemma base_440 (P : list Z -> list plane -> Prop) :
  (forall ks rendered, let planes := pls (without_last_chroma ks 1 2 w h B) in
   (forall k r c, 0 <= k < 3 -> 0 <= r / 8 < (samples 2 (Z.to_nat k) h + 7) / 8 -> 0 <= c / 8 < (samples 1 (Z.to_nat k) w + 7) / 8 ->
     0 <= rendered k r c <= 255 /\
     (Rabs (IZR (rendered k r c) - exact_at (samples 1 (Z.to_nat k) w) (plane_at planes k) r c) <= tolerance_at (samples 1 (Z.to_nat k) w) (plane_at planes k) r c)%R) ->
   forall g a b c jobs, sampled_jobs cpu o 1 2 w h rendered g a b c jobs ->
   exists px, rbind (run_jobs g jobs) (fun os => Ok (assemble os (g_total g) (w * bytes_per_pixel o * h))) = Ok px /\ P px planes) ->
  exists ks px, (ks = [] \/ ks = [2] \/ ks = [1; 2])%nat /\ (ks <> [] -> last_bits cd (image_blocks l w h B) (length ks) <= 64) /\
    decoded = Ok px /\ P px (pls (without_last_chroma ks 1 2 w h B)).
Proof.
  intros HP.
  destruct (the_jobs cpu o ps 1 2 q q1 q2 w h tss sel B bits sfx t0 t1 t2) as (ks & g & a & b & c & jobs & Hks & Hb & HJ & E); auto.
  { apply Z.mod_1_r. } { change (8 * 2) with 16; replace (h + 16 - 1) with (h + 15) by ring; exact Hroom. }
  destruct (HP ks _ (fun k r c Hk Hr Hc => sampled_close cpu o ps 1 2 q q1 q2 w h tss sel B bits sfx t0 t1 t2 HB Ht0 Ht1 Ht2 ks k r c Hrange Hk Hr Hc) g a b c jobs HJ)
    as (px & E1 & E2).
  exists ks, px. split; [exact Hks|]. split; [exact Hb|]. split; [|exact E2]. rewrite <- E1. exact E.
Qed.
Lemma base_ycc_440 : o_colorspace o = YCbCr -> exists ks px,
  (ks = [] \/ ks = [2] \/ ks = [1; 2])%nat /\ (ks <> [] -> last_bits cd (image_blocks l w h B) (length ks) <= 64) /\
  decoded = Ok px /\ chroma_early (pls (without_last_chroma ks 1 2 w h B)) w h px.
Proof.
  intros Ho. pose proof (bc_width _ _ _ _ _ _ _ _ _ HB) as Hw. pose proof (bc_height _ _ _ _ _ _ _ _ _ HB) as Hh.
  apply (base_440 (fun px planes => chroma_early planes w h px)). intros ks rendered planes Hc g a b c jobs HJ.
  destruct (near_ycc_440 cpu o w h rendered ltac:(lia) ltac:(lia) g a b c jobs HJ planes Hc Ho) as (px & E1 & _ & E2). now exists px.
Qed.
Lemma base_rgb_440 m : o_colorspace o = RGB -> cpu <> Sse41 \/ o_use_unsafe o = false \/ 22 <= w ->
  w < 16 /\ m <= w \/ 16 <= w /\ m <= 16 * (8 * ((w + 7) / 8) / 16 - 1) /\ 3 * m <= 3 * w - 64 -> exists ks px,
  (ks = [] \/ ks = [2] \/ ks = [1; 2])%nat /\ (ks <> [] -> last_bits cd (image_blocks l w h B) (length ks) <= 64) /\
  decoded = Ok px /\ rgb_early m (pls (without_last_chroma ks 1 2 w h B)) w h px.
Proof.
  intros Ho Hcc Hm. pose proof (bc_width _ _ _ _ _ _ _ _ _ HB) as Hw. pose proof (bc_height _ _ _ _ _ _ _ _ _ HB) as Hh.
  apply (base_440 (fun px planes => rgb_early m planes w h px)). intros ks rendered planes Hc g a b c jobs HJ.
  exact (near_rgb_440 cpu o w h rendered ltac:(lia) ltac:(lia) g a b c jobs HJ planes Hc m Ho Hcc Hm).
Qed.
End baseline.
