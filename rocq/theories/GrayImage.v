(** Grayscale images: from coefficients to pixels. *)
From Coq Require Import ZArith String List Bool Lia.
From Coq Require Import ZifyBool ZifyNat ZifyN.
From Verif Require Import Base Types Huffman State Bitstream Headers Idct Color Simd Worker Mcu McuProg SpecIdct SpecColor.
From Verif Require Import BaseFacts ColorFacts Placement IdctFacts Strip.
Import ListNotations.
Local Open Scope Z_scope.
Local Open Scope res_scope.
Ltac Zify.zify_post_hook ::= Z.div_mod_to_equations.

Section jobs.
Variables (g : geom) (c0 : component) (cr : list component) (n : Z).
Hypothesis Hn : 0 < n.
Hypothesis Hcomps : g_comps g = c0 :: cr.
Hypothesis Hhv : c_h c0 = 1 /\ c_v c0 = 1.
Hypothesis Hst : c_stride c0 = 8 * n.
Hypothesis Hqt : length (c_qt c0) = 64%nat.
Hypothesis Hcs : g_in g = GRAYSCALE /\ g_out g = GRAYSCALE.
Hypothesis Hch : g_chunk g = 8 * g_width g.
Hypothesis Hw : 0 < g_width g <= 8 * n.
Hypothesis Hpad : 64 * n < 9 * g_width g.

(** The sample in row [r], column [c] of a strip of blocks *)
Definition strip_px (y : list Z) (r c : Z) : Z :=
  u8 (sample (kernel_of (g_idct g) (c_qt c0) (firstn 64 (skipn (Z.to_nat (64 * (c / 8))) y))) r (c mod 8)).

Lemma gray_job y rest : zlen y = 64 * n ->
  exists o, post_process (y :: rest) (g_comps g) (g_idct g) (g_cc g) (g_in g) (g_out g) (zrepeat 0 (g_chunk g)) (g_width g) = Ok o /\
    zlen o = g_chunk g /\
    forall r c, 0 <= r < 8 -> 0 <= c < g_width g -> zn o (r * g_width g + c) = strip_px y r c.
Proof.
  intros Hy. destruct Hcs as [-> ->]. destruct Hhv as [Hh Hv]. unfold post_process. rewrite Hcomps.
  change (at_ (c0 :: cr) 0) with (Ok c0). cbn [rbind]. rewrite Hh, Hv.
  change (Z.to_nat (channels GRAYSCALE GRAYSCALE)) with 1%nat. cbn [idct_channels].
  change (at_ (y :: rest) 0) with (Ok y). change (at_ (c0 :: cr) 0) with (Ok c0). cbn [rbind].
  change (0 =? 0) with true. cbv iota. change (1 * 1) with 1. rewrite Hst, run_idct_kernel.
  destruct (strip_idct (kernel_of (g_idct g) (c_qt c0)) y n Hn Hy) as (s & E & Ls & Ns).
  { intros b Hb. now apply kernel_square. }
  rewrite E. cbn [rbind]. unfold post_process_inner. change (at_ (c0 :: cr) 0) with (Ok c0). cbn [rbind]. rewrite Hh, Hv.
  cbn [Z.eqb negb orb Pos.eqb rbind]. change (chan [s] 0) with s.
  destruct (gray_lemma s (g_width g) (zrepeat 0 (g_chunk g)) 8 (8 * n)) as (o & Eo & Lo & No & _).
  - lia.
  - lia.
  - lia.
  - lia.
  - unfold zlen, zrepeat. rewrite repeat_length. lia.
  - exists o. split; [exact Eo|]. split.
    + unfold zlen. rewrite Lo. unfold zrepeat. rewrite repeat_length. lia.
    + intros r c Hr Hc. specialize (No r c 0 Hr Hc ltac:(lia)). unfold at_pixel in No.
      replace ((r * g_width g + c) * 1 + 0) with (r * g_width g + c) in No by lia. rewrite No.
      unfold strip_px. f_equal. apply Ns; lia.
Qed.

Lemma gray_jobs jobs : Forall (fun j => exists y rest, j = y :: rest /\ zlen y = 64 * n) jobs ->
  exists os, run_jobs g jobs = Ok os /\ length os = length jobs /\ Forall (fun o => length o = Z.to_nat (g_chunk g)) os /\
    forall i r c, (i < length jobs)%nat -> 0 <= r < 8 -> 0 <= c < g_width g ->
      zn (nth i os []) (r * g_width g + c) = strip_px (chan (nth i jobs []) 0) r c.
Proof.
  induction jobs as [|j jobs IH]; intros H.
  - exists []. split; [reflexivity|]. split; [reflexivity|]. split; [constructor|]. cbn [length]. lia.
  - apply Forall_cons_iff in H. destruct H as [(y & rest & -> & Hy) H]. destruct (IH H) as (os & E & L & F & N).
    destruct (gray_job y rest Hy) as (o & Eo & Lo & No).
    exists (o :: os). cbn [run_jobs]. rewrite Eo, E. split; [reflexivity|]. split; [cbn [length]; congruence|]. split.
    + constructor; [unfold zlen in Lo; lia|exact F].
    + intros [|i] r c Hi Hr Hc; [now apply No|]. cbn [length] in Hi. apply N; lia.
Qed.

(** All chunks together *)
Lemma gray_assemble jobs h total : 0 < h <= 8 * zlen jobs ->
  Forall (fun j => exists y rest, j = y :: rest /\ zlen y = 64 * n) jobs ->
  exists px, rbind (run_jobs g jobs) (fun os => Ok (assemble os total (g_width g * h))) = Ok px /\
    zlen px = g_width g * h /\
    forall r c, 0 <= r < h -> 0 <= c < g_width g ->
      zn px (r * g_width g + c) = strip_px (chan (nth (Z.to_nat (r / 8)) jobs []) 0) (r mod 8) c.
Proof.
  intros Hh H. destruct (gray_jobs jobs H) as (os & E & L & F & N). rewrite E. cbn [rbind]. eexists. split; [reflexivity|].
  unfold assemble. pose proof (concat_length os _ F) as Hc.
  assert (Hw8 : (length (concat os) = length jobs * Z.to_nat (8 * g_width g))%nat) by (rewrite Hc, L, Hch; reflexivity).
  set (w := g_width g) in *. unfold zlen in Hh.
  assert (Hwh : w * h <= w * (8 * Z.of_nat (length jobs))) by (apply Z.mul_le_mono_nonneg_l; lia).
  assert (Hlen : Z.of_nat (length (concat os)) = w * (8 * Z.of_nat (length jobs))) by (rewrite Hw8, Nat2Z.inj_mul, Z2Nat.id by lia; ring).
  assert (0 < w * h) by (apply Z.mul_pos_pos; lia).
  split.
  - unfold zlen. rewrite firstn_length, app_length. lia.
  - intros r c Hr Hcc. unfold zn.
    assert (Hin : r * w + c < w * h).
    { assert ((r + 1) * w <= h * w) by (apply Z.mul_le_mono_nonneg_r; lia). lia. }
    assert (0 <= r * w) by (apply Z.mul_nonneg_nonneg; lia).
    rewrite nth_firstn' by lia. rewrite app_nth1 by lia.
    assert (Hr8 : r * w + c = r / 8 * (8 * w) + (r mod 8 * w + c)) by (rewrite (Z.div_mod r 8) at 1 by lia; ring).
    assert (0 <= r / 8) by lia. assert (0 <= r mod 8 < 8) by lia.
    assert (0 <= r mod 8 * w + c < 8 * w).
    { assert (0 <= r mod 8 * w) by (apply Z.mul_nonneg_nonneg; lia). assert (r mod 8 * w <= 7 * w) by (apply Z.mul_le_mono_nonneg_r; lia). lia. }
    assert (0 <= r / 8 * (8 * w)) by (apply Z.mul_nonneg_nonneg; lia).
    rewrite Hr8. 
    replace (Z.to_nat (r / 8 * (8 * w) + (r mod 8 * w + c))) with (Z.to_nat (r / 8) * Z.to_nat (g_chunk g) + Z.to_nat (r mod 8 * w + c))%nat.
    2:{ rewrite Hch. fold w. rewrite <- Z2Nat.inj_mul, <- Z2Nat.inj_add by lia. reflexivity. }
    rewrite (nth_concat os (Z.to_nat (g_chunk g))) by (auto; rewrite Hch; fold w; lia).
    apply N; [|lia|lia]. lia.
Qed.
End jobs.
