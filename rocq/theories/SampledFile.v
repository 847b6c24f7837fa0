(** Colour images with sampling factors: from jobs to the pixels of the image. *)
From Coq Require Import ZArith String List Bool Lia.
From Coq Require Import ZifyBool ZifyNat ZifyN.
From Verif Require Import Base Types Huffman State Bitstream Headers Idct Upsample Color Simd Worker Mcu McuProg Decoder SpecIdct SpecColor.
From Verif Require Import BaseFacts ColorFacts Placement IdctFacts Strip UpsampleFacts HeaderFile ColourImage ColourFile SampledImage.
Import ListNotations.
Local Open Scope Z_scope.
Ltac Zify.zify_post_hook ::= Z.div_mod_to_equations.

(** Line [r] of an image whose jobs have [8 * m] lines *)
Lemma line_block r m : 0 < m -> 0 <= r -> r mod (8 * m) / 8 = r / 8 - r / (8 * m) * m /\ r mod (8 * m) mod 8 = r mod 8 /\
  r / (8 * m) = r / 8 / m.
Proof.
  intros Hm Hr. pose proof (Z.div_div r 8 m ltac:(lia) Hm) as D. split; [|split]; [| |now rewrite D].
  - rewrite (Z.mod_eq r (8 * m)) by lia. replace (r - 8 * m * (r / (8 * m))) with (r + - (r / (8 * m) * m) * 8) by ring. rewrite Z.div_add by lia. lia.
  - rewrite (Z.mod_eq r (8 * m)) by lia. replace (r - 8 * m * (r / (8 * m))) with (r + - (r / (8 * m) * m) * 8) by ring. now rewrite Z.mod_add by lia.
Qed.

Section pixels.
Variables (cpu : isa) (o : options) (hs vs w h : Z).
Let mx := up8 w hs.
Let my := up8 h vs.
Let nc := bytes_per_pixel o.
Hypothesis Hhs : 1 <= hs <= 2.
Hypothesis Hvs : 1 <= vs <= 2.
Hypothesis Hw : 0 < w.
Hypothesis Hh : 0 < h.
(** What is rendered: component [k] at row [r], column [x] of its plane *)
Variable rendered : Z -> Z -> Z -> Z.

Record sampled_jobs (g : geom) (a b c : component) (jobs : list (list (list Z))) : Prop := {
  sj_comps : g_comps g = [a; b; c];
  sj_hv : c_h a = hs /\ c_v a = vs;
  sj_stride : c_stride a = 8 * (mx * hs) /\ c_stride b = 8 * mx /\ c_stride c = 8 * mx;
  sj_qt : length (c_qt a) = 64%nat /\ length (c_qt b) = 64%nat /\ length (c_qt c) = 64%nat;
  sj_ups : ups_fit hs vs (c_ups b) /\ ups_fit hs vs (c_ups c);
  sj_in : g_in g = YCbCr;
  sj_out : g_out g = o_colorspace o;
  sj_width : g_width g = w;
  sj_chunk : g_chunk g = 8 * (hs * vs) * (w * nc);
  sj_cc : g_cc g = choose_color_convert cpu (o_use_unsafe o);
  sj_jobs : Forall (planes_fit g hs vs mx) jobs;
  sj_len : h <= 8 * (hs * vs) * zlen jobs;
  sj_luma : forall r x, 0 <= r < h -> 0 <= x < w ->
    job_at g a b c hs mx (nth (Z.to_nat (r / (8 * (hs * vs)))) jobs []) 0 (r mod (8 * (hs * vs))) x = rendered 0 r x;
  sj_chroma : forall k r x, 0 < k < 3 -> o_colorspace o <> GRAYSCALE -> 0 <= r -> r * vs < h -> 0 <= x < 8 * mx ->
    job_at g a b c hs mx (nth (Z.to_nat (r / (8 * hs))) jobs []) k (r mod (8 * hs)) x = rendered k r x;
  sj_avx : c_ups b = UpHVAvx2 \/ c_ups c = UpHVAvx2 -> cpu = Avx2 /\ o_use_unsafe o = true }.

Lemma wide_enough : w <= 8 * (mx * hs) /\ 0 < mx.
Proof. unfold mx, up8. assert (hs = 1 \/ hs = 2) as [-> | ->] by (clear - Hhs; lia); clear - Hw; lia. Qed.

Lemma sampled_luma_pixels g a b c jobs : sampled_jobs g a b c jobs -> o_colorspace o = GRAYSCALE ->
  8 * (hs * vs) * (8 * (mx * hs)) < (8 * (hs * vs) + 1) * w ->
  exists px, rbind (run_jobs g jobs) (fun os => Ok (assemble os (g_total g) (w * nc * h))) = Ok px /\ zlen px = w * h /\
    forall r x, 0 <= r < h -> 0 <= x < w -> zn px (r * w + x) = u8 (rendered 0 r x).
Proof.
  intros [] Ho Hpad. assert (Hnc : nc = 1) by (unfold nc, bytes_per_pixel; rewrite Ho; reflexivity). rewrite Hnc, Z.mul_1_r in *. rewrite Ho in *.
  destruct wide_enough as [W1 W2]. assert (Hp : 0 < hs * vs) by (apply Z.mul_pos_pos; lia). revert sj_chunk0 sj_len0 sj_luma0 Hpad.
  intros HC HL HA Hpad.
  destruct (assemble_lines g w (fun j o => forall r x, 0 <= r < 8 * (hs * vs) -> 0 <= x < g_width g ->
    zn o (r * g_width g + x) = u8 (job_at g a b c hs mx j 0 r x)) (8 * (hs * vs)) jobs h (g_total g)) as (px & E & L & P); try (clear - Hw Hh Hp HC HL; lia).
  { eapply Forall_impl; [|exact sj_jobs0]. intros j Hj. apply (sampled_luma_job g a b c hs vs mx); auto; rewrite sj_width0; try lia. }
  exists px. split; [exact E|]. split; [exact L|]. intros r x Hr Hx. destruct (P r Hr) as (out & HQ & Hb).
  pose proof (Z.mod_pos_bound r (8 * (hs * vs)) ltac:(clear - Hp; lia)) as Hmod.
  rewrite Hb by (clear - Hx; lia). rewrite sj_width0 in HQ. rewrite HQ by assumption. f_equal. now apply HA.
Qed.

(** What the colour components become *)
Definition spread (k r c : Z) : Z := tri (rendered k r (c / 2)) (rendered k r (other_column c)).

Lemma filtered_spread g a b c jobs k r x : sampled_jobs g a b c jobs -> o_colorspace o <> GRAYSCALE -> vs = 1 -> hs = 2 -> 0 < k < 3 -> 0 <= r < h -> 0 < x < 16 * mx - 5 ->
  filtered g a b c hs mx (nth (Z.to_nat (r / 16)) jobs []) k (r mod 16) x = spread k r x.
Proof.
  intros [] Ho Hv Hh2 Hk Hr Hx. clear sj_luma0. unfold filtered, spread. rewrite Hv, Hh2 in *. change (8 * 2) with 16 in sj_chroma0.
  assert (0 <= other_column x < 8 * mx) by (unfold other_column; clear - Hx; destruct (Z.odd x) eqn:Eo; [lia|]; assert (x <> 1) by (intros ->; discriminate); lia).
  rewrite !sj_chroma0 by (auto; clear - Hr Hx H; lia). reflexivity.
Qed.

Lemma sampled_ycc_pixels g a b c jobs : sampled_jobs g a b c jobs -> (hs, vs) <> (1, 1) -> o_colorspace o = YCbCr ->
  exists px, rbind (run_jobs g jobs) (fun os => Ok (assemble os (g_total g) (w * nc * h))) = Ok px /\ zlen px = w * h * 3 /\
    (forall r x, 0 <= r < h -> 0 <= x < w -> zn px (at_pixel w 3 r x 0) = u8 (rendered 0 r x)) /\
    (vs = 1 -> forall r x k, 0 <= r < h -> 0 <= x < w -> 0 < x < 16 * mx - 5 -> 0 < k < 3 -> zn px (at_pixel w 3 r x k) = u8 (spread k r x)).
Proof.
  intros J Hne Ho. pose proof J as J0. destruct J0. assert (Hnc : nc = 3) by (unfold nc, bytes_per_pixel; rewrite Ho; reflexivity). rewrite Hnc in *.
  destruct wide_enough as [W1 W2]. assert (Hp : 0 < hs * vs) by (apply Z.mul_pos_pos; lia).
  destruct (assemble_lines g (w * 3) (fun j o => forall r x k, 0 <= r < 8 * (hs * vs) -> 0 <= x < g_width g -> 0 <= k < 3 ->
    good_column g a b c hs vs mx k r x j (zn o (r * (g_width g * 3) + (x * 3 + k)))) (8 * (hs * vs)) jobs h (g_total g)) as (px & E & L & P); try (clear - Hw Hh Hp sj_chunk0 sj_len0; lia).
  { eapply Forall_impl; [|exact sj_jobs0]. intros j Hj. apply (sampled_ycc_job g a b c hs vs mx); auto; rewrite ?sj_width0, ?sj_out0; try lia; exact Ho. }
  exists px. split; [exact E|]. split; [rewrite L; ring|].
  assert (Hpx : forall r x k, 0 <= r < h -> 0 <= x < w -> 0 <= k < 3 ->
    good_column g a b c hs vs mx k (r mod (8 * (hs * vs))) x (nth (Z.to_nat (r / (8 * (hs * vs)))) jobs []) (zn px (at_pixel w 3 r x k))).
  { intros r x k Hr Hx Hk. destruct (P r Hr) as (out & HQ & Hb). pose proof (Z.mod_pos_bound r (8 * (hs * vs)) ltac:(clear - Hp; lia)) as Hmod.
    unfold at_pixel. replace ((r * w + x) * 3 + k) with (r * (w * 3) + (x * 3 + k)) by ring. rewrite Hb by (clear - Hx Hk; lia). rewrite sj_width0 in HQ. apply HQ; assumption. }
  split.
  - intros r x Hr Hx. destruct (Hpx r x 0 Hr Hx ltac:(clear; lia)) as [H0 _]. rewrite (H0 eq_refl). f_equal. now apply sj_luma0.
  - intros Hv r x k Hr Hx Hxx Hk. destruct (Hpx r x k Hr Hx ltac:(clear - Hk; lia)) as [_ H1]. rewrite (H1 ltac:(clear - Hk; lia) Hv Hxx). f_equal.
    assert (Hh2 : hs = 2) by (assert (hs <> 1) by (intros Hh1; apply Hne; congruence); clear - H Hhs; lia).
    replace (8 * (hs * vs)) with 16 by (rewrite Hh2, Hv; reflexivity). apply filtered_spread; auto. rewrite Ho. discriminate.
Qed.

Lemma sampled_rgb_pixels m g a b c jobs : sampled_jobs g a b c jobs -> hs = 2 -> vs = 1 -> o_colorspace o = RGB ->
  kernel_fits (choose_color_convert cpu (o_use_unsafe o)) 3 w (16 * mx) -> rgb_columns_422 mx w m ->
  exists px, rbind (run_jobs g jobs) (fun os => Ok (assemble os (g_total g) (w * nc * h))) = Ok px /\ zlen px = w * h * 3 /\
    forall r x k, 0 <= r < h -> 0 < x < m -> 0 <= k < 3 ->
      zn px (at_pixel w 3 r x k) = nth (Z.to_nat k) (cc_pixel (rendered 0 r x) (spread 1 r x) (spread 2 r x)) 0.
Proof.
  intros J Hh2 Hv1 Ho Hk Hm. pose proof J as J0. destruct J0. assert (Hnc : nc = 3) by (unfold nc, bytes_per_pixel; rewrite Ho; reflexivity). rewrite Hnc in *.
  destruct wide_enough as [W1 W2]. assert (Hp : hs * vs = 2) by (rewrite Hh2, Hv1; reflexivity).
  assert (Emx : mx = (w + 15) / 16) by (unfold mx, up8; rewrite Hh2; f_equal; lia).
  assert (Hmw : m <= w /\ m <= 16 * mx - 5) by (clear - Hm W1 Emx Hw; unfold rgb_columns_422 in Hm; lia).
  assert (HC : g_chunk g = 16 * (w * 3)) by (rewrite sj_chunk0, Hp; reflexivity). assert (HL : h <= 16 * zlen jobs) by (rewrite Hp in sj_len0; exact sj_len0).
  destruct (assemble_lines g (w * 3) (fun j o => forall r c0 k, 0 <= r < 16 -> 0 < c0 < m -> 0 <= k < 3 ->
    zn o (r * (g_width g * 3) + (c0 * 3 + k)) = nth (Z.to_nat k) (cc_pixel (job_at g a b c hs mx j 0 r c0) (filtered g a b c hs mx j 1 r c0) (filtered g a b c hs mx j 2 r c0)) 0)
    16 jobs h (g_total g)) as (px & E & L & P); try (clear - Hw Hh HC HL; lia).
  { eapply Forall_impl; [|exact sj_jobs0]. intros j Hj. apply (sampled_rgb_job g a b c hs vs mx); auto; rewrite ?sj_width0, ?sj_out0, ?sj_cc0; auto; lia. }
  exists px. split; [exact E|]. split; [rewrite L; ring|]. intros r x k Hr Hx Hkk. destruct (P r Hr) as (out & HQ & Hb).
  unfold at_pixel. replace ((r * w + x) * 3 + k) with (r * (w * 3) + (x * 3 + k)) by ring. rewrite Hb by (clear - Hx Hkk Hmw; lia).
  rewrite sj_width0 in HQ. rewrite HQ by (auto; clear; lia). rewrite Hp in sj_luma0. change (8 * 2) with 16 in sj_luma0. rewrite sj_luma0 by (auto; clear - Hx Hmw; lia).
  rewrite !(filtered_spread g a b c jobs) by (auto; try (clear - Hx Hmw; lia); rewrite Ho; discriminate). reflexivity.
Qed.
End pixels.
