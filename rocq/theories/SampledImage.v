(** Colour images with sampling factors: from coefficients to pixels. *)
From Coq Require Import ZArith String List Bool Lia.
From Coq Require Import ZifyBool ZifyNat ZifyN.
From Verif Require Import Base Types Huffman State Bitstream Headers Idct Upsample Color Simd Worker Mcu McuProg SpecIdct SpecColor.
From Verif Require Import BaseFacts ColorFacts Placement IdctFacts Strip UpsampleFacts UpsampleAvx ColourImage.
Import ListNotations.
Local Open Scope Z_scope.
Local Open Scope res_scope.
Ltac Zify.zify_post_hook ::= Z.div_mod_to_equations.

(** * Chunks of [m] lines *)
Lemma every_job g (Q : list (list Z) -> list Z -> Prop) jobs : Forall (job_ok g Q) jobs ->
  exists os, run_jobs g jobs = Ok os /\ length os = length jobs /\ Forall (fun o => length o = Z.to_nat (g_chunk g)) os /\
    forall i, (i < length jobs)%nat -> Q (nth i jobs []) (nth i os []).
Proof.
  induction jobs as [|j jobs IH]; intros H.
  - exists []. split; [reflexivity|]. split; [reflexivity|]. split; [constructor|]. cbn [length]. lia.
  - apply Forall_cons_iff in H. destruct H as [(o & Eo & Lo & Qo) H]. destruct (IH H) as (os & E & L & F & N).
    exists (o :: os). cbn [run_jobs]. rewrite Eo, E. split; [reflexivity|]. split; [cbn [length]; congruence|]. split.
    + constructor; [unfold zlen in Lo; lia|exact F].
    + intros [|i] Hi; [exact Qo|]. cbn [length] in Hi. apply N; lia.
Qed.
Lemma assemble_lines g rw Q m jobs h total : 0 < rw -> 0 < m -> g_chunk g = m * rw -> 0 < h <= m * zlen jobs -> Forall (job_ok g Q) jobs ->
  exists px, rbind (run_jobs g jobs) (fun os => Ok (assemble os total (rw * h))) = Ok px /\
    zlen px = rw * h /\
    forall r, 0 <= r < h -> exists o, Q (nth (Z.to_nat (r / m)) jobs []) o /\
      forall b, 0 <= b < rw -> zn px (r * rw + b) = zn o (r mod m * rw + b).
Proof.
  intros Hrw Hm Hch Hh H. destruct (every_job g Q jobs H) as (os & E & L & F & N). rewrite E. cbn [rbind]. eexists. split; [reflexivity|].
  unfold assemble. pose proof (concat_length os _ F) as Hc.
  assert (Hw8 : (length (concat os) = length jobs * Z.to_nat (m * rw))%nat) by (rewrite Hc, L, Hch; reflexivity).
  unfold zlen in Hh. assert (0 < m * rw) by (apply Z.mul_pos_pos; lia).
  assert (Hwh : rw * h <= rw * (m * Z.of_nat (length jobs))) by (apply Z.mul_le_mono_nonneg_l; lia).
  assert (Hlen : Z.of_nat (length (concat os)) = rw * (m * Z.of_nat (length jobs))) by (rewrite Hw8, Nat2Z.inj_mul, Z2Nat.id by lia; ring).
  assert (0 < rw * h) by (apply Z.mul_pos_pos; lia).
  split.
  - unfold zlen. rewrite firstn_length, app_length. lia.
  - intros r Hr. exists (nth (Z.to_nat (r / m)) os []).
    assert (Hq : 0 <= r / m) by (apply Z.div_pos; lia). assert (Hmod : 0 <= r mod m < m) by (apply Z.mod_pos_bound; lia).
    assert (Hq' : r / m < Z.of_nat (length jobs)) by (apply Z.div_lt_upper_bound; lia).
    split; [apply N; lia|]. intros c Hcc. unfold zn.
    assert (Hin : r * rw + c < rw * h).
    { assert ((r + 1) * rw <= h * rw) by (apply Z.mul_le_mono_nonneg_r; lia). lia. }
    assert (0 <= r * rw) by (apply Z.mul_nonneg_nonneg; lia).
    rewrite nth_firstn' by lia. rewrite app_nth1 by lia.
    assert (Hr8 : r * rw + c = r / m * (m * rw) + (r mod m * rw + c)) by (pose proof (Z.div_mod r m ltac:(lia)) as D; rewrite D at 1; ring).
    assert (0 <= r mod m * rw + c < m * rw).
    { assert (0 <= r mod m * rw) by (apply Z.mul_nonneg_nonneg; lia). assert (r mod m * rw <= (m - 1) * rw) by (apply Z.mul_le_mono_nonneg_r; lia). lia. }
    assert (0 <= r / m * (m * rw)) by (apply Z.mul_nonneg_nonneg; lia).
    rewrite Hr8.
    replace (Z.to_nat (r / m * (m * rw) + (r mod m * rw + c))) with (Z.to_nat (r / m) * Z.to_nat (g_chunk g) + Z.to_nat (r mod m * rw + c))%nat.
    2:{ rewrite Hch. rewrite <- Z2Nat.inj_mul, <- Z2Nat.inj_add by lia. reflexivity. }
    rewrite (nth_concat os (Z.to_nat (g_chunk g))) by (auto; rewrite Hch; lia). reflexivity.
Qed.

(** * The inverse DCT of [R] rows of [n] blocks *)
Lemma one_chunk kernel v n : 0 < n -> zlen v = 64 * n -> (forall b, length b = 64%nat -> square (kernel b)) ->
  exists o, store_blocks kernel (chunks_n 64 v) (8 * n) 0 (zrepeat 0 (zlen v)) = Ok o /\ zlen o = 64 * n /\
    forall r c, 0 <= r < 8 -> 0 <= c < 8 * n ->
      zn o (r * (8 * n) + c) = sample (kernel (firstn 64 (skipn (Z.to_nat (64 * (c / 8))) v))) r (c mod 8).
Proof.
  intros Hn Hl Hk.
  assert (Hbl : chunks_n 64 v = map (fun i => firstn 64 (skipn (i * 64) v)) (seq 0 (Z.to_nat n))).
  { apply chunks_rows; unfold zlen in *; lia. }
  destruct (store_blocks_at kernel (8 * n) (chunks_n 64 v)) with (x := 0) (out := zrepeat 0 (zlen v)) as (o & E & L & N).
  - lia.
  - rewrite Hbl. apply Forall_map, Forall_forall. intros i Hi. apply in_seq in Hi. apply Hk.
    rewrite firstn_length, skipn_length. unfold zlen in *. lia.
  - lia.
  - rewrite Hbl. unfold zlen. rewrite map_length, seq_length. lia.
  - unfold zlen in *. unfold zrepeat. rewrite repeat_length. lia.
  - exists o. split; [exact E|]. split; [unfold zlen in *; rewrite L; unfold zrepeat; rewrite repeat_length; lia|].
    intros r c Hr Hc. rewrite N by assumption.
    assert (Hzb : zlen (chunks_n 64 v) = n) by (rewrite Hbl; unfold zlen; rewrite map_length, seq_length; lia).
    rewrite Hzb. replace ((0 <=? c) && (c <? 0 + 8 * n)) with true by lia. rewrite Z.sub_0_r. f_equal. f_equal.
    rewrite (nth_chunk [] v 64 (Z.to_nat n)) by (unfold zlen in *; lia). f_equal. f_equal. lia.
Qed.

Lemma many_chunks kernel n R : 0 < n -> (forall b, length b = 64%nat -> square (kernel b)) ->
  forall v, length v = (R * Z.to_nat (64 * n))%nat ->
  exists o, idct_chunks kernel (map (fun i => firstn (Z.to_nat (64 * n)) (skipn (i * Z.to_nat (64 * n)) v)) (seq 0 R)) (8 * n) = Ok o /\
    zlen o = zlen v /\
    forall r c, 0 <= r < 8 * Z.of_nat R -> 0 <= c < 8 * n ->
      zn o (r * (8 * n) + c) = sample (kernel (firstn 64 (skipn (Z.to_nat (64 * (r / 8 * n + c / 8))) v))) (r mod 8) (c mod 8).
Proof.
  intros Hn Hk. set (L := Z.to_nat (64 * n)). induction R as [|R IH]; intros v Hl.
  - exists []. split; [reflexivity|]. split; [unfold zlen; cbn [length]; lia|]. lia.
  - cbn [seq map idct_chunks]. cbn [Nat.mul] in Hl. cbn [Nat.mul skipn].
    destruct (one_chunk kernel (firstn L v) n Hn) as (o & E & Lo & No); [unfold zlen; rewrite firstn_length; lia|exact Hk|].
    assert (Em : map (fun i => firstn L (skipn (i * L) v)) (seq 1 R) = map (fun i => firstn L (skipn (i * L) (skipn L v))) (seq 0 R)).
    { rewrite <- seq_shift, map_map. apply map_ext. intros i. f_equal. rewrite BaseFacts.skipn_skipn. reflexivity. }
    destruct (IH (skipn L v)) as (os & E2 & L2 & N2); [rewrite skipn_length; lia|].
    rewrite E. cbn [rbind]. rewrite Em, E2. cbn [rbind]. exists (o ++ os)%list. split; [reflexivity|].
    split; [unfold zlen in *; rewrite app_length, skipn_length in *; lia|].
    intros r c Hr Hc. destruct (Z.ltb_spec r 8) as [H8|H8].
    + unfold zn. assert (r * (8 * n) <= 7 * (8 * n)) by (apply Z.mul_le_mono_nonneg_r; lia). assert (0 <= r * (8 * n)) by (apply Z.mul_nonneg_nonneg; lia).
      rewrite app_nth1 by (unfold zlen in Lo; lia). specialize (No r c ltac:(lia) Hc). unfold zn in No. rewrite No.
      rewrite (Z.mod_small r 8), (Z.div_small r 8) by lia. rewrite Z.mul_0_l, Z.add_0_l. f_equal. f_equal.
      rewrite skipn_firstn_comm, firstn_firstn. f_equal. clear - Hn Hc. unfold L. lia.
    + assert (Hr1 : r * (8 * n) + c = 64 * n + ((r - 8) * (8 * n) + c)) by ring.
      assert (0 <= (r - 8) * (8 * n)) by (apply Z.mul_nonneg_nonneg; lia).
      unfold zn. rewrite app_nth2 by (unfold zlen in Lo; lia). unfold zlen in Lo.
      replace (Z.to_nat (r * (8 * n) + c) - length o)%nat with (Z.to_nat ((r - 8) * (8 * n) + c)) by lia.
      specialize (N2 (r - 8) c ltac:(lia) Hc). unfold zn in N2. rewrite N2.
      replace r with (r - 8 + 1 * 8) at 3 4 by lia. rewrite Z.mod_add, Z.div_add by lia. f_equal. f_equal. rewrite BaseFacts.skipn_skipn. f_equal. f_equal.
      unfold L. assert (0 <= (r - 8) / 8 * n) by (apply Z.mul_nonneg_nonneg; lia). assert (0 <= c / 8) by lia.
      rewrite <- Z2Nat.inj_add by lia. f_equal. ring.
Qed.

Lemma rows_idct kernel v n R sf vs : 0 < n -> 0 < R -> zlen v = 64 * n * R -> sf <> 0 -> zlen v * vs / sf = 64 * n ->
  (forall b, length b = 64%nat -> square (kernel b)) ->
  exists o, dequantize_and_idct kernel v (8 * n) sf vs = Ok o /\ zlen o = 64 * n * R /\
    forall r c, 0 <= r < 8 * R -> 0 <= c < 8 * n ->
      zn o (r * (8 * n) + c) = sample (kernel (firstn 64 (skipn (Z.to_nat (64 * (r / 8 * n + c / 8))) v))) (r mod 8) (c mod 8).
Proof.
  intros Hn HR Hl Hsf Hch Hk. unfold dequantize_and_idct. replace (sf =? 0) with false by lia. rewrite Hch.
  unfold chunks_exact. replace (64 * n <=? 0) with false by lia. cbn [rbind].
  assert (Hl' : length v = (Z.to_nat R * Z.to_nat (64 * n))%nat).
  { apply Nat2Z.inj. rewrite Nat2Z.inj_mul, !Z2Nat.id by lia. unfold zlen in Hl. lia. }
  rewrite (chunks_rows v (Z.to_nat (64 * n)) (Z.to_nat R)) by (auto; lia).
  destruct (many_chunks kernel n (Z.to_nat R) Hn Hk v Hl') as (o & E & L & N). rewrite E. cbn [rbind].
  rewrite L, Z.sub_diag. change (zrepeat 0 0) with (@nil Z). rewrite app_nil_r. exists o. split; [reflexivity|]. split; [lia|].
  intros r c Hr Hc. apply N; lia.
Qed.

(** * Upsampling *)
Definition ups_fit (hs vs : Z) (u : upsampler) : Prop :=
  match u with
  | UpNoOp => hs = 1 /\ vs = 1
  | UpHoriz | UpHorizSse => hs = 2 /\ vs = 1
  | UpVert => hs = 1 /\ vs = 2
  | UpHV | UpHVAvx2 => hs = 2 /\ vs = 2
  end.
(** The other sample a column is interpolated from *)
Definition other_column (c : Z) : Z := if Z.odd c then c / 2 + 1 else c / 2 - 1.

Lemma vertical_total s S : 0 < S -> zlen s = 8 * S -> exists o, upsample_vertical s (16 * S) = Ok o /\ zlen o = 16 * S.
Proof.
  intros HS Hl. pose proof (vertical_rows s S HS Hl) as E. cbv zeta in E. eexists. split; [exact E|]. clear E.
  set (n := Z.to_nat S).
  assert (forall i, (i < 8)%nat -> length (row_of n s i) = n) as Hr.
  { intros i Hi. apply row_of_length. unfold zlen, n in *. nia. }
  match goal with |- context [concat ?r] => set (rows := r) end.
  assert (Forall (fun r => length r = n) rows) as Hf.
  { unfold rows, pair_rows. cbn [app]. repeat (apply Forall_cons; [rewrite map2_length; rewrite !Hr by lia; reflexivity|]). apply Forall_nil. }
  unfold zlen. rewrite (concat_length rows n Hf). change (length rows) with 16%nat. unfold n. lia.
Qed.
Lemma hv_total s S : 0 < S -> zlen s = 8 * S -> exists o, upsample_hv s (32 * S) = Ok o /\ zlen o = 32 * S.
Proof.
  intros HS Hl. unfold upsample_hv. rewrite Hl. replace (8 * S * 2) with (16 * S) by lia.
  destruct (vertical_total s S HS Hl) as (v & -> & Lv). cbn [rbind]. replace (32 * S) with (2 * (16 * S)) by lia.
  destruct (horizontal_spec v (16 * S) Lv ltac:(lia)) as (o & E & L & _). eauto.
Qed.

Lemma row_index r n c : 0 <= c < 2 * n -> 0 < n -> (r * (2 * n) + c) / 2 = r * n + c / 2.
Proof. intros. replace (r * (2 * n) + c) with (c + r * n * 2) by ring. rewrite Z.div_add by lia. lia. Qed.
Lemma row_odd r n c : Z.odd (r * (2 * n) + c) = Z.odd c.
Proof. replace (r * (2 * n) + c) with (c + 2 * (r * n)) by ring. apply Z.odd_add_mul_2. Qed.

Lemma upsampled hs vs u mx s : 0 < mx -> ups_fit hs vs u -> u <> UpNoOp -> zlen s = 64 * mx * hs ->
  exists o, run_upsampler u s (64 * (mx * hs) * (hs * vs)) = Ok o /\ zlen o = 64 * (mx * hs) * (hs * vs) /\
    (vs = 1 -> forall r c, 0 <= r < 16 -> 0 < c < 16 * mx - 5 ->
       zn o (r * (16 * mx) + c) = tri (zn s (r * (8 * mx) + c / 2)) (zn s (r * (8 * mx) + other_column c))).
Proof.
  intros Hm Hf Hn Hl.
  assert (HH : vs = 1 -> hs = 2 -> forall o, zlen o = 2 * zlen s -> (forall i, 0 <= i < 2 * zlen s -> i <> 2 * zlen s - 2 -> zn o i = w_filter (zlen s) (zn s) i \/ 2 * zlen s - 5 <= i <= 2 * zlen s - 3) ->
    forall r c, 0 <= r < 16 -> 0 < c < 16 * mx - 5 ->
       zn o (r * (16 * mx) + c) = tri (zn s (r * (8 * mx) + c / 2)) (zn s (r * (8 * mx) + other_column c))).
  { intros -> -> o Lo W r c Hr Hc. rewrite Hl in W.
    assert (0 <= r * (16 * mx) <= 15 * (16 * mx)) by (split; [apply Z.mul_nonneg_nonneg|apply Z.mul_le_mono_nonneg_r]; lia).
    destruct (W (r * (16 * mx) + c) ltac:(lia) ltac:(lia)) as [E|E]; [|lia]. rewrite E. unfold w_filter.
    replace (r * (16 * mx) + c =? 0) with false by lia. replace (r * (16 * mx) + c =? _) with false by lia.
    replace (16 * mx) with (2 * (8 * mx)) by lia. rewrite row_odd, row_index by lia. unfold other_column.
    destruct (Z.odd c); f_equal; f_equal; lia. }
  destruct u; cbn [ups_fit] in Hf; destruct Hf as [-> ->]; cbn [run_upsampler].
  - congruence.
  - destruct (horizontal_spec s _ eq_refl ltac:(lia)) as (o & E & L & _ & F). exists o.
    replace (64 * (mx * 2) * (2 * 1)) with (2 * zlen s) by lia. split; [exact E|]. split; [exact L|]. intros _. apply (HH eq_refl eq_refl); auto.
  - destruct (horizontal_spec s _ eq_refl ltac:(lia)) as (o & E & L & _ & F).
    destruct (C30_lemma s _ eq_refl ltac:(lia)) as (o1 & o2 & E1 & E2 & L1 & L2 & F2); [lia|]. rewrite E in E1. injection E1 as <-. exists o2.
    replace (64 * (mx * 2) * (2 * 1)) with (2 * zlen s) by lia. split; [exact E2|]. split; [exact L2|]. intros _. apply (HH eq_refl eq_refl); [exact L2|].
    intros i Hi Hne. assert ((2 * zlen s - 5 <= i <= 2 * zlen s - 3) \/ (~ 2 * zlen s - 5 <= i <= 2 * zlen s - 3)) as [A|A] by lia; [now right|left]. rewrite F2 by assumption. now apply F.
  - destruct (vertical_total s (8 * mx) ltac:(lia) ltac:(lia)) as (o & E & L). exists o.
    replace (64 * (mx * 1) * (1 * 2)) with (16 * (8 * mx)) by lia. split; [exact E|]. split; [exact L|]. lia.
  - destruct (hv_total s (16 * mx) ltac:(lia) ltac:(lia)) as (o & E & L). exists o.
    replace (64 * (mx * 2) * (2 * 2)) with (32 * (16 * mx)) by lia. split; [exact E|]. split; [exact L|]. lia.
  - assert (exists o, upsample_hv_simd s (32 * (16 * mx)) = Ok o /\ zlen o = 32 * (16 * mx)) as (o & E & L).
    { destruct (Z.ltb_spec (zlen s) 500) as [H|H].
      - unfold upsample_hv_simd. replace (zlen s <? 500) with true by lia. apply hv_total; lia.
      - replace (32 * (16 * mx)) with (4 * zlen s) by lia. apply hv_avx_ok. lia. }
    exists o. replace (64 * (mx * 2) * (2 * 2)) with (32 * (16 * mx)) by lia. split; [exact E|]. split; [exact L|]. lia.
Qed.

(** * One job *)
Section jobs.
Variables (g : geom) (c0 c1 c2 : component) (hs vs mx : Z).
Hypothesis Hhs : 1 <= hs <= 2.
Hypothesis Hvs : 1 <= vs <= 2.
Hypothesis Hmx : 0 < mx.
Hypothesis Hcomps : g_comps g = [c0; c1; c2].
Hypothesis Hhv : c_h c0 = hs /\ c_v c0 = vs.
Hypothesis Hst : c_stride c0 = 8 * (mx * hs) /\ c_stride c1 = 8 * mx /\ c_stride c2 = 8 * mx.
Hypothesis Hqt : length (c_qt c0) = 64%nat /\ length (c_qt c1) = 64%nat /\ length (c_qt c2) = 64%nat.
Hypothesis Hin : g_in g = YCbCr.
Hypothesis Hw : 0 < g_width g <= 8 * (mx * hs).
Hypothesis Hups : ups_fit hs vs (c_ups c1) /\ ups_fit hs vs (c_ups c2).

(** Blocks in a line of component [k] *)
Definition across (k : Z) : Z := if k =? 0 then mx * hs else mx.
(** The sample of component [k] in line [r], column [c] of a job *)
Definition job_at (j : list (list Z)) (k r c : Z) : Z :=
  sample (kernel_of (g_idct g) (c_qt (nth (Z.to_nat k) [c0; c1; c2] c0))
            (firstn 64 (skipn (Z.to_nat (64 * (r / 8 * across k + c / 8))) (chan j (Z.to_nat k))))) (r mod 8) (c mod 8).
Definition planes_fit (j : list (list Z)) : Prop :=
  exists y0 y1 y2, j = [y0; y1; y2] /\ zlen y0 = 64 * (mx * hs) * (hs * vs) /\
    (g_out g <> GRAYSCALE -> zlen y1 = 64 * mx * hs /\ zlen y2 = 64 * mx * hs).

Lemma luma_lines y : zlen y = 64 * (mx * hs) * (hs * vs) -> exists s,
  run_idct (g_idct g) y (c_qt c0) (c_stride c0) (hs * vs) 1 = Ok s /\ zlen s = 64 * (mx * hs) * (hs * vs) /\
  forall r c, 0 <= r < 8 * (hs * vs) -> 0 <= c < 8 * (mx * hs) ->
    zn s (r * (8 * (mx * hs)) + c) = sample (kernel_of (g_idct g) (c_qt c0) (firstn 64 (skipn (Z.to_nat (64 * (r / 8 * (mx * hs) + c / 8))) y))) (r mod 8) (c mod 8).
Proof.
  intros Hy. destruct Hst as (S0 & _ & _). destruct Hqt as (Q0 & _ & _). rewrite run_idct_kernel, S0.
  assert (0 < mx * hs) by (apply Z.mul_pos_pos; lia). assert (0 < hs * vs) by (apply Z.mul_pos_pos; lia).
  apply rows_idct; auto; try lia.
  - rewrite Hy, Z.mul_1_r. apply Z.div_mul. lia.
  - intros b Hb. now apply kernel_square.
Qed.
Lemma chroma_lines y c : length (c_qt c) = 64%nat -> c_stride c = 8 * mx -> zlen y = 64 * mx * hs -> exists s,
  run_idct (g_idct g) y (c_qt c) (c_stride c) (hs * vs) vs = Ok s /\ zlen s = 64 * mx * hs /\
  forall r x, 0 <= r < 8 * hs -> 0 <= x < 8 * mx ->
    zn s (r * (8 * mx) + x) = sample (kernel_of (g_idct g) (c_qt c) (firstn 64 (skipn (Z.to_nat (64 * (r / 8 * mx + x / 8))) y))) (r mod 8) (x mod 8).
Proof.
  intros Hq Hs Hy. rewrite run_idct_kernel, Hs. assert (0 < hs * vs) by (apply Z.mul_pos_pos; lia).
  apply rows_idct; auto; try lia.
  - rewrite Hy. replace (64 * mx * hs * vs) with (64 * mx * (hs * vs)) by ring. apply Z.div_mul. lia.
  - intros b Hb. now apply kernel_square.
Qed.

(** Output as grayscale *)
Lemma sampled_luma_job j : g_out g = GRAYSCALE -> g_chunk g = 8 * (hs * vs) * g_width g ->
  8 * (hs * vs) * (8 * (mx * hs)) < (8 * (hs * vs) + 1) * g_width g -> planes_fit j ->
  job_ok g (fun j o => forall r c, 0 <= r < 8 * (hs * vs) -> 0 <= c < g_width g -> zn o (r * g_width g + c) = u8 (job_at j 0 r c)) j.
Proof.
  intros Ho Hch Hpad (y0 & y1 & y2 & -> & L0 & _). destruct (luma_lines y0 L0) as (s & E & L & N). destruct Hhv as [Hh Hv].
  unfold job_ok, post_process. rewrite Hin, Ho.
  assert (Hat : at_ (g_comps g) 0 = Ok c0) by (rewrite Hcomps; reflexivity). rewrite Hat. cbn [rbind]. rewrite Hh, Hv.
  change (Z.to_nat (channels YCbCr GRAYSCALE)) with 1%nat. cbn [idct_channels]. rewrite Hat. change (at_ [y0; y1; y2] 0) with (Ok y0). cbn [rbind].
  change (0 =? 0) with true. cbv iota. rewrite E. cbn [rbind]. unfold post_process_inner. rewrite Hat. cbn [rbind]. rewrite Hh, Hv.
  assert (Eu : (if negb (hs =? 1) || negb (vs =? 1) then (r <~ upsample_channels 1 (zlen s) (g_comps g) [] ;; Ok (s :: r)) else Ok [s]) = Ok [s])
    by (cbn [upsample_channels rbind]; destruct (_ || _); reflexivity).
  rewrite Eu. cbn [rbind]. change (chan [s] 0) with s.
  assert (0 < hs * vs) by (apply Z.mul_pos_pos; lia).
  destruct (gray_lemma s (g_width g) (zrepeat 0 (g_chunk g)) (8 * (hs * vs)) (8 * (mx * hs))) as (o & Eo & Lo & No & _); try lia.
  { unfold zlen, zrepeat. rewrite repeat_length. lia. }
  assert (0 < 8 * (hs * vs) * g_width g) by (apply Z.mul_pos_pos; lia).
  exists o. split; [exact Eo|]. split; [unfold zlen; rewrite Lo; unfold zrepeat; rewrite repeat_length; lia|].
  intros r c Hr Hc. specialize (No r c 0 ltac:(lia) Hc ltac:(lia)). unfold at_pixel in No.
  replace ((r * g_width g + c) * 1 + 0) with (r * g_width g + c) in No by lia. rewrite No. f_equal. rewrite N by lia. reflexivity.
Qed.

Lemma three_channels y0 y1 y2 : zlen y0 = 64 * (mx * hs) * (hs * vs) -> zlen y1 = 64 * mx * hs -> zlen y2 = 64 * mx * hs ->
  exists s0 s1 s2, idct_channels 3 0 (g_idct g) hs vs [y0; y1; y2] (g_comps g) = Ok [s0; s1; s2] /\
    zlen s0 = 64 * (mx * hs) * (hs * vs) /\ zlen s1 = 64 * mx * hs /\ zlen s2 = 64 * mx * hs /\
    (forall r c, 0 <= r < 8 * (hs * vs) -> 0 <= c < 8 * (mx * hs) -> zn s0 (r * (8 * (mx * hs)) + c) = job_at [y0; y1; y2] 0 r c) /\
    (forall r c, 0 <= r < 8 * hs -> 0 <= c < 8 * mx -> zn s1 (r * (8 * mx) + c) = job_at [y0; y1; y2] 1 r c) /\
    (forall r c, 0 <= r < 8 * hs -> 0 <= c < 8 * mx -> zn s2 (r * (8 * mx) + c) = job_at [y0; y1; y2] 2 r c).
Proof.
  intros L0 L1 L2. destruct Hst as (_ & S1 & S2). destruct Hqt as (_ & Q1 & Q2).
  destruct (luma_lines y0 L0) as (s0 & E0 & Z0 & N0). destruct (chroma_lines y1 c1 Q1 S1 L1) as (s1 & E1 & Z1 & N1).
  destruct (chroma_lines y2 c2 Q2 S2 L2) as (s2 & E2 & Z2 & N2). exists s0, s1, s2. rewrite Hcomps. cbn [idct_channels].
  change (0 + 1) with 1. change (1 + 1) with 2. change (0 =? 0) with true. change (1 =? 0) with false. change (2 =? 0) with false. cbv iota.
  change (at_ [y0; y1; y2] 0) with (Ok y0). change (at_ [y0; y1; y2] 1) with (Ok y1). change (at_ [y0; y1; y2] 2) with (Ok y2).
  change (at_ [c0; c1; c2] 0) with (Ok c0). change (at_ [c0; c1; c2] 1) with (Ok c1). change (at_ [c0; c1; c2] 2) with (Ok c2). cbn [rbind].
  rewrite E0, E1, E2. cbn [rbind]. split; [reflexivity|]. do 3 (split; [assumption|]). split; [|split]; intros r c Hr Hc; [now rewrite N0|now rewrite N1|now rewrite N2].
Qed.

(** Chroma is interpolated horizontally *)
Definition filtered (j : list (list Z)) (k r c : Z) : Z := tri (job_at j k r (c / 2)) (job_at j k r (other_column c)).
Definition good_column (k r c : Z) (j : list (list Z)) (v : Z) : Prop :=
  (k = 0 -> v = u8 (job_at j 0 r c)) /\ (0 < k -> vs = 1 -> 0 < c < 16 * mx - 5 -> v = u8 (filtered j k r c)).

Lemma three_upsampled y0 y1 y2 : (hs, vs) <> (1, 1) -> zlen y0 = 64 * (mx * hs) * (hs * vs) -> zlen y1 = 64 * mx * hs -> zlen y2 = 64 * mx * hs ->
  exists s0 s1 s2 o1 o2, idct_channels 3 0 (g_idct g) hs vs [y0; y1; y2] (g_comps g) = Ok [s0; s1; s2] /\
    upsample_channels 1 (zlen s0) (g_comps g) [s1; s2] = Ok [o1; o2] /\
    zlen s0 = 64 * (mx * hs) * (hs * vs) /\ zlen o1 = zlen s0 /\ zlen o2 = zlen s0 /\
    (forall r c, 0 <= r < 8 * (hs * vs) -> 0 <= c < 8 * (mx * hs) -> zn s0 (r * (8 * (mx * hs)) + c) = job_at [y0; y1; y2] 0 r c) /\
    (vs = 1 -> forall r c, 0 <= r < 16 -> 0 < c < 16 * mx - 5 -> zn o1 (r * (16 * mx) + c) = filtered [y0; y1; y2] 1 r c /\ zn o2 (r * (16 * mx) + c) = filtered [y0; y1; y2] 2 r c).
Proof.
  intros Hne L0 L1 L2. destruct (three_channels y0 y1 y2 L0 L1 L2) as (s0 & s1 & s2 & E & Z0 & Z1 & Z2 & N0 & N1 & N2).
  destruct Hups as [U1 U2].
  assert (Nu : forall u, ups_fit hs vs u -> u <> UpNoOp) by (intros u Hu ->; destruct Hu; apply Hne; congruence).
  destruct (upsampled hs vs (c_ups c1) mx s1 Hmx U1 (Nu _ U1) Z1) as (o1 & E1 & Y1 & F1).
  destruct (upsampled hs vs (c_ups c2) mx s2 Hmx U2 (Nu _ U2) Z2) as (o2 & E2 & Y2 & F2).
  exists s0, s1, s2, o1, o2. split; [exact E|]. split.
  { cbn [upsample_channels]. rewrite Hcomps. change (1 + 1) with 2. change (at_ [c0; c1; c2] 1) with (Ok c1). change (at_ [c0; c1; c2] 2) with (Ok c2). cbn [rbind].
    rewrite Z0, E1, E2. reflexivity. }
  split; [exact Z0|]. split; [congruence|]. split; [congruence|]. split; [exact N0|].
  intros Hv r c Hr Hc. rewrite F1, F2 by assumption. unfold filtered.
  assert (hs = 2) by (assert (hs <> 1) by (intros ->; apply Hne; congruence); lia).
  assert (0 <= other_column c < 8 * mx) by (unfold other_column; destruct (Z.odd c) eqn:Eo; [lia|]; assert (c <> 1) by (intros ->; discriminate); lia).
  split; f_equal; (apply N1 || apply N2); lia.
Qed.

(** Output as YCbCr *)
Lemma sampled_ycc_job j : (hs, vs) <> (1, 1) -> g_out g = YCbCr -> g_chunk g = 8 * (hs * vs) * (g_width g * 3) -> planes_fit j ->
  job_ok g (fun j o => forall r c k, 0 <= r < 8 * (hs * vs) -> 0 <= c < g_width g -> 0 <= k < 3 ->
    good_column k r c j (zn o (r * (g_width g * 3) + (c * 3 + k)))) j.
Proof.
  intros Hne Ho Hch (y0 & y1 & y2 & -> & L0 & L12). destruct (L12 ltac:(rewrite Ho; discriminate)) as [L1 L2].
  destruct (three_upsampled y0 y1 y2 Hne L0 L1 L2) as (s0 & s1 & s2 & o1 & o2 & E & Eu & Z0 & Z1 & Z2 & N0 & F). destruct Hhv as [Hh Hv].
  unfold job_ok, post_process. rewrite Hin, Ho.
  assert (Hat : at_ (g_comps g) 0 = Ok c0) by (rewrite Hcomps; reflexivity). rewrite Hat. cbn [rbind]. rewrite Hh, Hv.
  change (Z.to_nat (channels YCbCr YCbCr)) with 3%nat. rewrite E. cbn [rbind]. unfold post_process_inner. rewrite Hat. cbn [rbind]. rewrite Hh, Hv.
  replace (negb (hs =? 1) || negb (vs =? 1)) with true.
  2:{ destruct (Z.eqb_spec hs 1); [|reflexivity]. destruct (Z.eqb_spec vs 1); [|reflexivity]. exfalso. apply Hne. congruence. }
  rewrite Eu. cbn [rbind]. change (chan [s0; o1; o2] 0) with s0. change (chan [s0; o1; o2] 1) with o1. change (chan [s0; o1; o2] 2) with o2.
  assert (0 < hs * vs) by (apply Z.mul_pos_pos; lia).
  destruct (ycc_lemma s0 o1 o2 (g_width g) hs vs (zrepeat 0 (g_chunk g)) (8 * (mx * hs))) as (o & Eo & Lo & No & _); try lia.
  { unfold zlen, zrepeat. rewrite repeat_length. lia. }
  assert (0 < 8 * (hs * vs) * (g_width g * 3)) by (apply Z.mul_pos_pos; lia).
  exists o. split; [exact Eo|]. split; [unfold zlen; rewrite Lo; unfold zrepeat; rewrite repeat_length; lia|].
  intros r c k Hr Hc Hk. specialize (No r c k ltac:(lia) Hc Hk). unfold at_pixel in No.
  replace (r * (g_width g * 3) + (c * 3 + k)) with ((r * g_width g + c) * 3 + k) by ring. rewrite No. split.
  - intros ->. cbn [Z.to_nat nth]. f_equal. apply N0; lia.
  - intros Hk0 Hv1 Hcc. assert (Hh2 : hs = 2) by (assert (hs <> 1) by (intros Hh1; apply Hne; congruence); lia).
    assert (Hr16 : 0 <= r < 16) by (rewrite Hh2, Hv1 in Hr; lia). destruct (F Hv1 r c Hr16 Hcc) as [F1 F2].
    rewrite Hh2. replace (8 * (mx * 2)) with (16 * mx) by lia.
    assert (k = 1 \/ k = 2) as [-> | ->] by lia; [change (nth (Z.to_nat 1) [s0; o1; o2] []) with o1; now rewrite F1|change (nth (Z.to_nat 2) [s0; o1; o2] []) with o2; now rewrite F2].
Qed.

(** Output as RGB, sampled horizontally: all columns but the first of a narrow image, the left
    part of a wide one *)
Definition rgb_columns_422 (w m : Z) : Prop := w < 16 /\ m <= w /\ m <= 11 \/ 16 <= w /\ m <= 16 * (mx - 1) /\ 3 * m <= 3 * w - 64.
Lemma sampled_rgb_job m j : hs = 2 -> vs = 1 -> g_out g = RGB -> g_chunk g = 8 * (hs * vs) * (g_width g * 3) -> kernel_fits (g_cc g) 3 (g_width g) (16 * mx) ->
  mx = (g_width g + 15) / 16 -> rgb_columns_422 (g_width g) m -> planes_fit j ->
  job_ok g (fun j o => forall r c k, 0 <= r < 16 -> 0 < c < m -> 0 <= k < 3 ->
    zn o (r * (g_width g * 3) + (c * 3 + k)) = nth (Z.to_nat k) (cc_pixel (job_at j 0 r c) (filtered j 1 r c) (filtered j 2 r c)) 0) j.
Proof.
  intros Hh2 Hv1 Ho Hch Hk Hmw Hm (y0 & y1 & y2 & -> & L0 & L12). destruct (L12 ltac:(rewrite Ho; discriminate)) as [L1 L2].
  assert (Hne : (hs, vs) <> (1, 1)) by (rewrite Hh2; discriminate).
  destruct (three_upsampled y0 y1 y2 Hne L0 L1 L2) as (s0 & s1 & s2 & o1 & o2 & E & Eu & Z0 & Z1 & Z2 & N0 & F). destruct Hhv as [Hh Hv].
  unfold job_ok, post_process. rewrite Hin, Ho.
  assert (Hat : at_ (g_comps g) 0 = Ok c0) by (rewrite Hcomps; reflexivity). rewrite Hat. cbn [rbind]. rewrite Hh, Hv.
  change (Z.to_nat (channels YCbCr RGB)) with 3%nat. rewrite E. cbn [rbind]. unfold post_process_inner. rewrite Hat. cbn [rbind]. rewrite Hh, Hv.
  replace (negb (hs =? 1) || negb (vs =? 1)) with true by (rewrite Hh2; reflexivity).
  rewrite Eu. cbn [rbind]. change (chan [s0; o1; o2] 0) with s0. change (chan [s0; o1; o2] 1) with o1. change (chan [s0; o1; o2] 2) with o2.
  rewrite Hh2, Hv1 in *. clear Hhs Hvs Hne Hh Hv Hh2 Hv1.
  assert (exists o, color_convert_ycbcr s0 o1 o2 (g_width g) 2 1 RGB (g_cc g) (zrepeat 0 (g_chunk g)) = Ok o /\
    placed_left 3 (8 * (2 * 1)) (g_width g) m (fun r c k => nth (Z.to_nat k) (cc_pixel (zn s0 (r * (16 * mx) + c)) (zn o1 (r * (16 * mx) + c)) (zn o2 (r * (16 * mx) + c))) 0)
      (zrepeat 0 (g_chunk g)) o) as (o & Eo & Lo & No & _).
  { assert (Hzl : zlen (zrepeat 0 (g_chunk g)) = g_chunk g) by (unfold zlen, zrepeat; rewrite repeat_length; lia).
    destruct Hm as [(Hw16 & Hm & _)|(Hw16 & Hm1 & Hm2)].
    - destruct (rgb_px_lemma (g_cc g) s0 o1 o2 (g_width g) 2 1 (zrepeat 0 (g_chunk g)) (16 * mx)) as (o & Eo & Lo & No & Uo); try lia; [destruct Hk as [Hk|Hk]; [exact Hk|lia]|].
      exists o. split; [exact Eo|]. split; [exact Lo|]. split; [|exact Uo]. intros r c k Hr Hc Hkk. apply No; lia.
    - apply rgb_wide_px_lemma; try lia. exact Hk. }
  exists o. split; [exact Eo|]. split; [unfold zlen; rewrite Lo; unfold zrepeat; rewrite repeat_length; lia|].
  assert (Hmw' : m <= g_width g /\ m <= 16 * mx - 5) by (clear - Hm Hmw Hw; unfold rgb_columns_422 in Hm; lia).
  intros r c k Hr Hc Hkk. specialize (No r c k ltac:(lia) ltac:(lia) Hkk). unfold at_pixel in No.
  replace (r * (g_width g * 3) + (c * 3 + k)) with ((r * g_width g + c) * 3 + k) by ring. rewrite No.
  destruct (F eq_refl r c Hr ltac:(lia)) as [F1 F2]. rewrite F1, F2. f_equal. f_equal.
  specialize (N0 r c ltac:(lia) ltac:(lia)). replace (8 * (mx * 2)) with (16 * mx) in N0 by lia. exact N0.
Qed.
End jobs.
