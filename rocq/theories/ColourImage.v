(** Colour images without subsampling: from coefficients to pixels. *)
From Coq Require Import ZArith String List Bool Lia.
From Coq Require Import ZifyBool ZifyNat ZifyN.
From Verif Require Import Base Types Huffman State Bitstream Headers Idct Color Simd Worker Mcu McuProg SpecIdct SpecColor.
From Verif Require Import BaseFacts ColorFacts Placement IdctFacts Strip.
Import ListNotations.
Local Open Scope Z_scope.
Local Open Scope res_scope.
Ltac Zify.zify_post_hook ::= Z.div_mod_to_equations.

(** * Chunks to rows, for any kind of job *)
Section chunks.
Variables (g : geom) (rw : Z) (Q : list (list Z) -> list Z -> Prop).
Hypothesis Hrw : 0 < rw.
Hypothesis Hch : g_chunk g = 8 * rw.
Definition job_ok (j : list (list Z)) : Prop :=
  exists o, post_process j (g_comps g) (g_idct g) (g_cc g) (g_in g) (g_out g) (zrepeat 0 (g_chunk g)) (g_width g) = Ok o /\
    zlen o = g_chunk g /\ Q j o.

Lemma all_jobs jobs : Forall job_ok jobs ->
  exists os, run_jobs g jobs = Ok os /\ length os = length jobs /\ Forall (fun o => length o = Z.to_nat (g_chunk g)) os /\
    forall i, (i < length jobs)%nat -> Q (nth i jobs []) (nth i os []).
Proof.
  induction jobs as [|j jobs IH]; intros H.
  - exists []. split; [reflexivity|]. split; [reflexivity|]. split; [constructor|]. cbn [length]. lia.
  - apply Forall_cons_iff in H. destruct H as [(o & Eo & Lo & Qo) H]. destruct (IH H) as (os & E & L & F & N).
    exists (o :: os). cbn [run_jobs]. rewrite Eo, E. split; [reflexivity|]. split; [cbn [length]; congruence|]. split.
    + constructor; [unfold zlen in Lo; lia|exact F].
    + intros [|i] Hi; [exact Qo|]. cbn [length] in Hi. apply N; lia.
Qed.

Lemma assemble_rows jobs h total : 0 < h <= 8 * zlen jobs -> Forall job_ok jobs ->
  exists px, rbind (run_jobs g jobs) (fun os => Ok (assemble os total (rw * h))) = Ok px /\
    zlen px = rw * h /\
    forall r, 0 <= r < h -> exists o, Q (nth (Z.to_nat (r / 8)) jobs []) o /\
      forall b, 0 <= b < rw -> zn px (r * rw + b) = zn o (r mod 8 * rw + b).
Proof.
  intros Hh H. destruct (all_jobs jobs H) as (os & E & L & F & N). rewrite E. cbn [rbind]. eexists. split; [reflexivity|].
  unfold assemble. pose proof (concat_length os _ F) as Hc.
  assert (Hw8 : (length (concat os) = length jobs * Z.to_nat (8 * rw))%nat) by (rewrite Hc, L, Hch; reflexivity).
  unfold zlen in Hh.
  assert (Hwh : rw * h <= rw * (8 * Z.of_nat (length jobs))) by (apply Z.mul_le_mono_nonneg_l; lia).
  assert (Hlen : Z.of_nat (length (concat os)) = rw * (8 * Z.of_nat (length jobs))) by (rewrite Hw8, Nat2Z.inj_mul, Z2Nat.id by lia; ring).
  assert (0 < rw * h) by (apply Z.mul_pos_pos; lia).
  split.
  - unfold zlen. rewrite firstn_length, app_length. lia.
  - intros r Hr. exists (nth (Z.to_nat (r / 8)) os []). split; [apply N; lia|]. intros c Hcc. unfold zn.
    assert (Hin : r * rw + c < rw * h).
    { assert ((r + 1) * rw <= h * rw) by (apply Z.mul_le_mono_nonneg_r; lia). lia. }
    assert (0 <= r * rw) by (apply Z.mul_nonneg_nonneg; lia).
    rewrite nth_firstn' by lia. rewrite app_nth1 by lia.
    assert (Hr8 : r * rw + c = r / 8 * (8 * rw) + (r mod 8 * rw + c)) by (rewrite (Z.div_mod r 8) at 1 by lia; ring).
    assert (0 <= r / 8) by lia. assert (0 <= r mod 8 < 8) by lia.
    assert (0 <= r mod 8 * rw + c < 8 * rw).
    { assert (0 <= r mod 8 * rw) by (apply Z.mul_nonneg_nonneg; lia). assert (r mod 8 * rw <= 7 * rw) by (apply Z.mul_le_mono_nonneg_r; lia). lia. }
    assert (0 <= r / 8 * (8 * rw)) by (apply Z.mul_nonneg_nonneg; lia).
    rewrite Hr8.
    replace (Z.to_nat (r / 8 * (8 * rw) + (r mod 8 * rw + c))) with (Z.to_nat (r / 8) * Z.to_nat (g_chunk g) + Z.to_nat (r mod 8 * rw + c))%nat.
    2:{ rewrite Hch. rewrite <- Z2Nat.inj_mul, <- Z2Nat.inj_add by lia. reflexivity. }
    rewrite (nth_concat os (Z.to_nat (g_chunk g))) by (auto; rewrite Hch; lia). reflexivity.
Qed.
End chunks.

(** * One row of blocks with three components *)
Section jobs.
Variables (g : geom) (c0 c1 c2 : component) (n : Z).
Hypothesis Hn : 0 < n.
Hypothesis Hcomps : g_comps g = [c0; c1; c2].
Hypothesis Hhv : c_h c0 = 1 /\ c_v c0 = 1.
Hypothesis Hst : c_stride c0 = 8 * n /\ c_stride c1 = 8 * n /\ c_stride c2 = 8 * n.
Hypothesis Hqt : length (c_qt c0) = 64%nat /\ length (c_qt c1) = 64%nat /\ length (c_qt c2) = 64%nat.
Hypothesis Hin : g_in g = YCbCr.
Hypothesis Hw : 0 < g_width g <= 8 * n.

(** The sample of component [k] in row [r], column [c] of a strip of blocks *)
Definition strip_at (j : list (list Z)) (k r c : Z) : Z :=
  sample (kernel_of (g_idct g) (c_qt (nth (Z.to_nat k) [c0; c1; c2] c0))
            (firstn 64 (skipn (Z.to_nat (64 * (c / 8))) (chan j (Z.to_nat k))))) r (c mod 8).
Definition strips (j : list (list Z)) : Prop :=
  exists y0 y1 y2, j = [y0; y1; y2] /\ zlen y0 = 64 * n /\ (g_out g <> GRAYSCALE -> zlen y1 = 64 * n /\ zlen y2 = 64 * n).

Lemma strip_one c y k : length (c_qt c) = 64%nat -> c_stride c = 8 * n -> zlen y = 64 * n ->
  exists s, run_idct (g_idct g) y (c_qt c) (c_stride c) (1 * 1) k = (if k =? 1 then Ok s else run_idct (g_idct g) y (c_qt c) (c_stride c) (1 * 1) k) /\
    zlen s = 64 * n /\
    forall r x, 0 <= r < 8 -> 0 <= x < 8 * n ->
      zn s (r * (8 * n) + x) = sample (kernel_of (g_idct g) (c_qt c) (firstn 64 (skipn (Z.to_nat (64 * (x / 8))) y))) r (x mod 8).
Proof.
  intros Hq Hs Hy. destruct (strip_idct (kernel_of (g_idct g) (c_qt c)) y n Hn Hy) as (s & E & Ls & Ns).
  { intros b Hb. now apply kernel_square. }
  exists s. split; [|split; assumption]. destruct (Z.eqb_spec k 1) as [->|]; [|reflexivity].
  rewrite run_idct_kernel, Hs. exact E.
Qed.
Lemma luma_strip j : strips j -> exists s0,
  idct_channels 1 0 (g_idct g) 1 1 j (g_comps g) = Ok [s0] /\ zlen s0 = 64 * n /\
  forall r c, 0 <= r < 8 -> 0 <= c < 8 * n -> zn s0 (r * (8 * n) + c) = strip_at j 0 r c.
Proof.
  intros (y0 & y1 & y2 & -> & L0 & _). destruct Hst as (S0 & _ & _). destruct Hqt as (Q0 & _ & _).
  destruct (strip_one c0 y0 1 Q0 S0 L0) as (s0 & E0 & Z0 & N0). change (1 =? 1) with true in E0. cbv iota in E0.
  exists s0. rewrite Hcomps. cbn [idct_channels]. change (0 =? 0) with true. cbv iota.
  change (at_ [y0; y1; y2] 0) with (Ok y0). change (at_ [c0; c1; c2] 0) with (Ok c0). cbn [rbind]. rewrite E0. cbn [rbind].
  split; [reflexivity|]. split; [assumption|]. intros r c Hr Hc. now apply N0.
Qed.
Lemma three_strips j : g_out g <> GRAYSCALE -> strips j -> exists s0 s1 s2,
  idct_channels 3 0 (g_idct g) 1 1 j (g_comps g) = Ok [s0; s1; s2] /\
  zlen s0 = 64 * n /\ zlen s1 = 64 * n /\ zlen s2 = 64 * n /\
  forall k r c, 0 <= k < 3 -> 0 <= r < 8 -> 0 <= c < 8 * n -> zn (nth (Z.to_nat k) [s0; s1; s2] []) (r * (8 * n) + c) = strip_at j k r c.
Proof.
  intros Hng (y0 & y1 & y2 & -> & L0 & L12). destruct (L12 Hng) as [L1 L2]. destruct Hst as (S0 & S1 & S2). destruct Hqt as (Q0 & Q1 & Q2).
  destruct (strip_one c0 y0 1 Q0 S0 L0) as (s0 & E0 & Z0 & N0). destruct (strip_one c1 y1 1 Q1 S1 L1) as (s1 & E1 & Z1 & N1).
  destruct (strip_one c2 y2 1 Q2 S2 L2) as (s2 & E2 & Z2 & N2). change (1 =? 1) with true in E0, E1, E2. cbv iota in E0, E1, E2.
  exists s0, s1, s2. rewrite Hcomps. cbn [idct_channels].
  change (0 + 1) with 1. change (1 + 1) with 2. change (0 =? 0) with true. change (1 =? 0) with false. change (2 =? 0) with false. cbv iota.
  change (at_ [y0; y1; y2] 0) with (Ok y0). change (at_ [y0; y1; y2] 1) with (Ok y1). change (at_ [y0; y1; y2] 2) with (Ok y2).
  change (at_ [c0; c1; c2] 0) with (Ok c0). change (at_ [c0; c1; c2] 1) with (Ok c1). change (at_ [c0; c1; c2] 2) with (Ok c2). cbn [rbind].
  rewrite E0, E1, E2. cbn [rbind]. split; [reflexivity|]. do 3 (split; [assumption|]).
  intros k r c Hk Hr Hc. unfold strip_at. assert (k = 0 \/ k = 1 \/ k = 2) as [-> | [-> | ->]] by lia; [now apply N0|now apply N1|now apply N2].
Qed.

(** Output as YCbCr *)
Lemma ycc_job j : g_out g = YCbCr -> g_chunk g = 8 * (g_width g * 3) -> strips j ->
  job_ok g (fun j o => forall r c k, 0 <= r < 8 -> 0 <= c < g_width g -> 0 <= k < 3 ->
    zn o (r * (g_width g * 3) + (c * 3 + k)) = u8 (strip_at j k r c)) j.
Proof.
  intros Ho Hch Hj. destruct (three_strips j ltac:(rewrite Ho; discriminate) Hj) as (s0 & s1 & s2 & E & L0 & L1 & L2 & N). destruct Hhv as [Hh Hv].
  unfold job_ok, post_process. rewrite Hin, Ho.
  assert (Hat : at_ (g_comps g) 0 = Ok c0) by (rewrite Hcomps; reflexivity). rewrite Hat. cbn [rbind]. rewrite Hh, Hv.
  change (Z.to_nat (channels YCbCr YCbCr)) with 3%nat. rewrite E. cbn [rbind]. unfold post_process_inner. rewrite Hat. cbn [rbind].
  rewrite Hh, Hv. cbn [Z.eqb negb orb Pos.eqb rbind]. change (chan [s0; s1; s2] 0) with s0. change (chan [s0; s1; s2] 1) with s1. change (chan [s0; s1; s2] 2) with s2.
  destruct (ycc_lemma s0 s1 s2 (g_width g) 1 1 (zrepeat 0 (g_chunk g)) (8 * n)) as (o & Eo & Lo & No & _); try lia.
  { unfold zlen, zrepeat. rewrite repeat_length. lia. }
  exists o. split; [exact Eo|]. split; [unfold zlen; rewrite Lo; unfold zrepeat; rewrite repeat_length; lia|].
  intros r c k Hr Hc Hk. specialize (No r c k ltac:(lia) Hc Hk). unfold at_pixel in No.
  replace (r * (g_width g * 3) + (c * 3 + k)) with ((r * g_width g + c) * 3 + k) by ring. rewrite No. f_equal. apply N; lia.
Qed.

(** Output as grayscale *)
Lemma luma_job j : g_out g = GRAYSCALE -> g_chunk g = 8 * g_width g -> 64 * n < 9 * g_width g -> strips j ->
  job_ok g (fun j o => forall r c, 0 <= r < 8 -> 0 <= c < g_width g -> zn o (r * g_width g + c) = u8 (strip_at j 0 r c)) j.
Proof.
  intros Ho Hch Hpad Hj. destruct (luma_strip j Hj) as (s0 & E & L0 & N). destruct Hhv as [Hh Hv].
  unfold job_ok, post_process. rewrite Hin, Ho.
  assert (Hat : at_ (g_comps g) 0 = Ok c0) by (rewrite Hcomps; reflexivity). rewrite Hat. cbn [rbind]. rewrite Hh, Hv.
  change (Z.to_nat (channels YCbCr GRAYSCALE)) with 1%nat. rewrite E. cbn [rbind]. unfold post_process_inner. rewrite Hat. cbn [rbind].
  rewrite Hh, Hv. cbn [Z.eqb negb orb Pos.eqb rbind]. change (chan [s0] 0) with s0.
  destruct (gray_lemma s0 (g_width g) (zrepeat 0 (g_chunk g)) 8 (8 * n)) as (o & Eo & Lo & No & _); try lia.
  { unfold zlen, zrepeat. rewrite repeat_length. lia. }
  exists o. split; [exact Eo|]. split; [unfold zlen; rewrite Lo; unfold zrepeat; rewrite repeat_length; lia|].
  intros r c Hr Hc. specialize (No r c 0 ltac:(lia) Hc ltac:(lia)). unfold at_pixel in No.
  replace ((r * g_width g + c) * 1 + 0) with (r * g_width g + c) in No by lia. rewrite No. f_equal. apply N; lia.
Qed.

(** The chosen kernel has the room it asks for *)
Lemma chosen_fits cpu u w : cpu <> Sse41 \/ u = false \/ 22 <= w -> kernel_fits (choose_color_convert cpu u) 3 w (8 * ((w + 7) / 8)).
Proof.
  clear. intros H. unfold choose_color_convert, kernel_fits, kernel_ok.
  destruct cpu, u; auto; destruct H as [H|[H|H]]; try congruence; right; lia.
Qed.
Lemma chosen_fits_422 cpu u w : cpu <> Sse41 \/ u = false \/ 22 <= w /\ 16 * ((w + 15) / 16) <= w + 10 ->
  kernel_fits (choose_color_convert cpu u) 3 w (16 * ((w + 15) / 16)).
Proof.
  clear. intros H. unfold choose_color_convert, kernel_fits, kernel_ok.
  destruct cpu, u; auto; destruct H as [H|[H|H]]; try congruence; right; lia.
Qed.

(** Output as RGB: all columns of a narrow image, the left part of a wide one *)
Definition rgb_columns (w m : Z) : Prop := w < 16 /\ m <= w \/ 16 <= w /\ m <= 16 * (8 * ((w + 7) / 8) / 16 - 1) /\ 3 * m <= 3 * w - 64.
Lemma rgb_job m j : g_out g = RGB -> g_chunk g = 8 * (g_width g * 3) -> kernel_fits (g_cc g) 3 (g_width g) (8 * n) -> n = (g_width g + 7) / 8 ->
  rgb_columns (g_width g) m -> strips j ->
  job_ok g (fun j o => forall r c k, 0 <= r < 8 -> 0 <= c < m -> 0 <= k < 3 ->
    zn o (r * (g_width g * 3) + (c * 3 + k)) = nth (Z.to_nat k) (cc_pixel (strip_at j 0 r c) (strip_at j 1 r c) (strip_at j 2 r c)) 0) j.
Proof.
  intros Ho Hch Hk Hnw Hm Hj. destruct (three_strips j ltac:(rewrite Ho; discriminate) Hj) as (s0 & s1 & s2 & E & L0 & L1 & L2 & N). destruct Hhv as [Hh Hv].
  unfold job_ok, post_process. rewrite Hin, Ho.
  assert (Hat : at_ (g_comps g) 0 = Ok c0) by (rewrite Hcomps; reflexivity). rewrite Hat. cbn [rbind]. rewrite Hh, Hv.
  change (Z.to_nat (channels YCbCr RGB)) with 3%nat. rewrite E. cbn [rbind]. unfold post_process_inner. rewrite Hat. cbn [rbind].
  rewrite Hh, Hv. cbn [Z.eqb negb orb Pos.eqb rbind]. change (chan [s0; s1; s2] 0) with s0. change (chan [s0; s1; s2] 1) with s1. change (chan [s0; s1; s2] 2) with s2.
  assert (exists o, color_convert_ycbcr s0 s1 s2 (g_width g) 1 1 RGB (g_cc g) (zrepeat 0 (g_chunk g)) = Ok o /\
    placed_left 3 (8 * (1 * 1)) (g_width g) m (fun r c k => nth (Z.to_nat k) (cc_pixel (zn s0 (r * (8 * n) + c)) (zn s1 (r * (8 * n) + c)) (zn s2 (r * (8 * n) + c))) 0)
      (zrepeat 0 (g_chunk g)) o) as (o & Eo & Lo & No & _).
  { assert (Hzl : zlen (zrepeat 0 (g_chunk g)) = g_chunk g) by (unfold zlen, zrepeat; rewrite repeat_length; lia).
    destruct Hm as [[Hw16 Hm]|(Hw16 & Hm1 & Hm2)].
    - destruct (rgb_px_lemma (g_cc g) s0 s1 s2 (g_width g) 1 1 (zrepeat 0 (g_chunk g)) (8 * n)) as (o & Eo & Lo & No & Uo); try lia; [destruct Hk as [Hk|Hk]; [exact Hk|lia]|].
      exists o. split; [exact Eo|]. split; [exact Lo|]. split; [|exact Uo]. intros r c k Hr Hc Hkk. apply No; lia.
    - apply rgb_wide_px_lemma; try lia. exact Hk. }
  exists o. split; [exact Eo|]. split; [unfold zlen; rewrite Lo; unfold zrepeat; rewrite repeat_length; lia|].
  assert (Hmw : m <= g_width g) by (unfold rgb_columns in Hm; lia).
  intros r c k Hr Hc Hkk. specialize (No r c k ltac:(lia) Hc Hkk). unfold at_pixel in No.
  replace (r * (g_width g * 3) + (c * 3 + k)) with ((r * g_width g + c) * 3 + k) by ring. rewrite No.
  pose proof (N 0 r c ltac:(lia) Hr ltac:(lia)) as M0. pose proof (N 1 r c ltac:(lia) Hr ltac:(lia)) as M1. pose proof (N 2 r c ltac:(lia) Hr ltac:(lia)) as M2.
  change (nth (Z.to_nat 0) [s0; s1; s2] []) with s0 in M0. change (nth (Z.to_nat 1) [s0; s1; s2] []) with s1 in M1. change (nth (Z.to_nat 2) [s0; s1; s2] []) with s2 in M2.
  now rewrite M0, M1, M2.
Qed.
(** Output with four bytes per pixel: RGBA and RGBX go through the kernels for RGB, CMYK and
    YCCK through none *)
Lemma four_job j : num_components (g_out g) = 4 -> g_chunk g = 8 * (g_width g * 4) -> n = (g_width g + 7) / 8 -> strips j ->
  exists o, post_process j (g_comps g) (g_idct g) (g_cc g) (g_in g) (g_out g) (zrepeat 0 (g_chunk g)) (g_width g) = Ok o.
Proof.
  intros Ho Hch Hnw Hj. assert (Hng : g_out g <> GRAYSCALE) by (intros C; rewrite C in Ho; discriminate).
  destruct (three_strips j Hng Hj) as (s0 & s1 & s2 & E & L0 & L1 & L2 & N). destruct Hhv as [Hh Hv].
  unfold post_process. rewrite Hin.
  assert (Hat : at_ (g_comps g) 0 = Ok c0) by (rewrite Hcomps; reflexivity). rewrite Hat. cbn [rbind]. rewrite Hh, Hv.
  replace (channels YCbCr (g_out g)) with 3 by (unfold channels; rewrite Ho; reflexivity). change (Z.to_nat 3) with 3%nat.
  rewrite E. cbn [rbind]. unfold post_process_inner. rewrite Hat. cbn [rbind].
  rewrite Hh, Hv. cbn [Z.eqb negb orb Pos.eqb rbind]. change (chan [s0; s1; s2] 0) with s0. change (chan [s0; s1; s2] 1) with s1. change (chan [s0; s1; s2] 2) with s2.
  assert (Hcc : exists o, color_convert_ycbcr s0 s1 s2 (g_width g) 1 1 (g_out g) (g_cc g) (zrepeat 0 (g_chunk g)) = Ok o).
  { apply (rgb4_lemma (g_cc g) (g_out g) s0 s1 s2 (g_width g) 1 1 (zrepeat 0 (g_chunk g)) (8 * n)); try lia.
    unfold zlen, zrepeat. rewrite repeat_length. lia. }
  destruct (g_out g); try discriminate Ho; eauto.
Qed.
End jobs.
