(** The pixels of baseline colour files without subsampling are close to those of the standard. *)
From Coq Require Import ZArith String List Bool Lia Reals Lra.
From Coq Require Import ZifyBool ZifyNat ZifyN.
From Verif Require Import Base Types Huffman State Bitstream Headers Idct Color Simd Worker Mcu McuProg Decoder.
From Verif Require Import SpecHuffman SpecSegments SpecExtend SpecBits SpecBlock SpecProg SpecInter SpecScript SpecImage SpecIdct SpecColor SpecDct SpecPixels SpecColourPixels SpecBaseline SpecBaseScan SpecBasePixels.
From Verif Require Import Obs ObsProg BaseFacts ColorFacts Placement IdctFacts IdctReal Strip HeaderFile ProgInter ProgFile ProgImage GrayFile GrayReal ColourImage ColourFile ColourReal.
From Verif Require Import BaseInter BaseColour BaseColourFile.
Import ListNotations.
Local Open Scope Z_scope.
Ltac Zify.zify_post_hook ::= Z.div_mod_to_equations.

Lemma nth_rows {A} (f : Z -> Z -> A) n m x y d : 0 <= x < n -> 0 <= y < m ->
  nth (Z.to_nat (y * n + x)) (flat_map (fun y => map (fun x => f x y) (zseq n)) (zseq m)) d = f x y.
Proof.
  intros Hx Hy. rewrite <- (Z2Nat.id m), <- (Z2Nat.id y) in * by lia. set (j := Z.to_nat y) in *. set (k := Z.to_nat m) in *. clearbody j k. clear y m.
  assert (G : forall a, (j < k)%nat -> nth (Z.to_nat (Z.of_nat j * n + x)) (flat_map (fun y => map (fun x => f x y) (zseq n)) (map Z.of_nat (seq a k))) d = f x (Z.of_nat (a + j))).
  { clear Hy. revert j. induction k as [|k IH]; intros j a Hj; [lia|]. cbn [seq map flat_map].
    assert (L : forall b, length (map (fun x => f x b) (zseq n)) = Z.to_nat n) by (intros; unfold zseq; now rewrite !map_length, seq_length).
    destruct j as [|j].
    - rewrite app_nth1 by (rewrite L; lia). rewrite (nth_indep _ d (f 0 (Z.of_nat a))) by (rewrite L; lia).
      rewrite (map_nth (fun x => f x (Z.of_nat a))). f_equal; [|lia]. unfold zseq. change 0 with (Z.of_nat 0). rewrite map_nth, seq_nth by lia. lia.
    - assert (0 <= Z.of_nat j * n) by (apply Z.mul_nonneg_nonneg; lia).
      replace (Z.of_nat (S j) * n + x) with (n + (Z.of_nat j * n + x)) by lia. rewrite app_nth2 by (rewrite L; lia). rewrite L.
      replace (Z.to_nat (n + (Z.of_nat j * n + x)) - Z.to_nat n)%nat with (Z.to_nat (Z.of_nat j * n + x)) by lia.
      rewrite IH by lia. f_equal. lia. }
  unfold zseq at 2. rewrite Nat2Z.id. rewrite G by lia. f_equal.
Qed.
Lemma in_rows {A} (f : Z -> Z -> A) n m z : In z (flat_map (fun y => map (fun x => f x y) (zseq n)) (zseq m)) ->
  exists x y, 0 <= x < n /\ 0 <= y < m /\ z = f x y.
Proof.
  intros H. apply in_flat_map in H. destruct H as (y & Hy & H). apply in_map_iff in H. destruct H as (x & <- & Hx).
  apply zseq_in in Hx, Hy. eauto.
Qed.
Lemma units_pred_in P us : forall preds u, units_pred P preds us -> In u us -> exists p, P (fst u) p (snd u).
Proof.
  induction us as [|[k zz] us IH]; intros preds u H Hin; [contradiction|]. cbn [units_pred] in H. destruct H as [A B].
  destruct Hin as [<-|Hin]; [exists (preds k); exact A|]. eapply IH; eauto.
Qed.
Lemma zero_natural : natural (repeat 0 64) = zrepeat 0 64.
Proof. vm_compute. reflexivity. Qed.
Lemma zero_range qv : in_range qv (repeat 0 64).
Proof.
  assert (H : forall k, nth k (repeat 0 64) 0 = 0).
  { intros k. destruct (nth_in_or_default k (repeat 0 64) 0) as [H|H]; [exact (repeat_spec _ _ _ H)|exact H]. }
  split; intros; rewrite H; lia.
Qed.

Section image.
Variables (cpu : isa) (o : options) (ps : list pre) (q q1 q2 w h : Z) (tss : list (list huff_def)) (sel : list (Z * Z))
  (B : nat -> Z -> Z -> list Z) (bits : list bool) (sfx : list Z) (t0 t1 t2 : quant_def).
Let l := Colour 1 1 q q1 q2.
Let cd := sel_codes (huffs ps ++ concat tss) sel.
Let n := (w + 7) / 8.
Let hb := (h + 7) / 8.
Let pls := image_planes [t0; t1; t2] w h.
Hypothesis HB : baseline_colour ps l w h tss sel B bits sfx.
Hypothesis Hmw : w <= o_max_width o.
Hypothesis Hmh : h <= o_max_height o.
Hypothesis Ht0 : last_quant (quants ps) q = Some t0.
Hypothesis Ht1 : last_quant (quants ps) q1 = Some t1.
Hypothesis Ht2 : last_quant (quants ps) q2 = Some t2.
Hypothesis Hlast : 64 < last_bits cd (image_blocks l w h B) 4.
Hypothesis Hrange : Forall plane_in_range (pls B).

Lemma block_long k x y : (k < 3)%nat -> 0 <= x < n -> 0 <= y < hb -> length (B k x y) = 64%nat.
Proof.
  intros Hk Hx Hy. destruct (units_pred_in _ _ _ (k, B k x y) (bc_blocks _ _ _ _ _ _ _ _ _ HB)) as (p & [[L _] _]); [|exact L].
  unfold image_blocks, scan_blocks. apply in_map_iff. exists (k, (x, y)). split; [reflexivity|]. 
  assert (F : factor (image_geo l w h) k = (1, 1)) by (destruct k as [|[|[|k]]]; [reflexivity|reflexivity|reflexivity|lia]).
  unfold scan_units. apply in_flat_map. exists y. split; [apply zseq_in; unfold image_geo, up_div; cbn [g_my l vmax]; replace (h + 8 * 1 - 1) with (h + 7) by lia; exact Hy|].
  apply in_flat_map. exists x. split; [apply zseq_in; unfold image_geo, up_div; cbn [g_mx l hmax]; replace (w + 8 * 1 - 1) with (w + 7) by lia; exact Hx|].
  apply in_flat_map. exists k. split; [destruct k as [|[|[|k]]]; cbn; auto; lia|]. unfold mcu_units. rewrite F. cbn [fst snd]. change (zseq 1) with [0].
  cbn [flat_map map app]. left. f_equal. f_equal; lia.
Qed.

Definition tab (k : nat) : quant_def := nth k [t0; t1; t2] t0.
(** What the decoder shows *)
Definition base_sample (ks : list nat) (k r c : Z) : Z :=
  sample (kernel_of (choose_idct_func cpu (o_use_unsafe o)) (natural (qd_values (tab (Z.to_nat k))))
    (natural (without_last ks w h B (Z.to_nat k) (c / 8) (r / 8)))) (r mod 8) (c mod 8).

Lemma planes_at ks k : 0 <= k < 3 -> plane_at (pls (without_last ks w h B)) k =
  mkPlane (qd_values (tab (Z.to_nat k))) (component_blocks n hb (without_last ks w h B (Z.to_nat k))).
Proof. intros Hk. assert (k = 0 \/ k = 1 \/ k = 2) as [-> | [-> | ->]] by lia; reflexivity. Qed.

Lemma base_close ks k r c : 0 <= k < 3 -> 0 <= r < h -> 0 <= c < w ->
  0 <= base_sample ks k r c <= 255 /\
  (Rabs (IZR (base_sample ks k r c) - exact_at w (plane_at (pls (without_last ks w h B)) k) r c) <= tolerance_at w (plane_at (pls (without_last ks w h B)) k) r c)%R.
Proof.
  intros Hk Hr Hc. rewrite planes_at by exact Hk. unfold exact_at, tolerance_at, sample_exact, block_of. cbn [pl_qv pl_blocks]. fold n.
  assert (Hr8 : 0 <= r / 8 < hb) by (clear - Hr; unfold hb; lia). assert (Hc8 : 0 <= c / 8 < n) by (clear - Hc; unfold n; lia).
  unfold component_blocks. rewrite nth_rows by assumption. set (kk := Z.to_nat k) in *. assert (Hkk : (kk < 3)%nat) by lia.
  pose proof (bc_pre _ _ _ _ _ _ _ _ _ HB) as Hps.
  assert (Hq : quant_def_legal (tab kk)) by (unfold tab; destruct kk as [|[|[|kk]]]; [| | |lia]; cbn [nth]; eapply quant_legal; eauto).
  destruct Hq as (_ & Q1 & Q2). apply sample_close; auto; try lia.
  - unfold without_last. destruct (_ && _); [apply repeat_length|apply block_long; auto].
  - unfold without_last. destruct (_ && _); [apply zero_range|].
    assert (Hp : plane_in_range (mkPlane (qd_values (tab kk)) (component_blocks n hb (B kk)))).
    { rewrite Forall_forall in Hrange. apply Hrange. destruct kk as [|[|[|kk]]]; [| | |lia]; cbn; auto. }
    unfold plane_in_range in Hp. cbn [pl_qv pl_blocks] in Hp. rewrite Forall_forall in Hp. apply Hp. unfold component_blocks.
    apply in_flat_map. exists (r / 8). split; [now apply zseq_in|]. apply in_map_iff. exists (c / 8). split; [reflexivity|now apply zseq_in].
Qed.

Lemma base_jobs : exists ks g a b c jobs,
  (ks = [] \/ ks = [2] \/ ks = [1; 2])%nat /\ (ks <> [] -> last_bits cd (image_blocks l w h B) (length ks) <= 64) /\
  finish_jobs cpu o w h (base_sample ks) g a b c jobs /\
  fst (decode_buffer (new_with_options cpu o) (colour_file ps l w h tss sel bits sfx)) =
    rbind (run_jobs g jobs) (fun os => Ok (assemble os (g_total g) (w * bytes_per_pixel o * h))).
Proof.
  pose proof (bc_width _ _ _ _ _ _ _ _ _ HB) as Hw. pose proof (bc_height _ _ _ _ _ _ _ _ _ HB) as Hh.
  assert (Hn : 0 < n) by (unfold n; lia). assert (Hhb : 0 < hb) by (unfold hb; lia).
  assert (Eu : up8 w 1 = n) by (unfold up8, n; f_equal; lia). assert (Ev : up8 h 1 = hb) by (unfold up8, hb; f_equal; lia).
  destruct (colour_image_rows cpu o ps 1 1 q q1 q2 w h tss sel B bits sfx HB Hmw Hmh) as (g & a & b & c & lost & js & J & E & Lj & Hlost & Hbits & Hrow).
  { exact Hlast. }
  { apply Z.mod_1_r. }
  { rewrite Ev, Z.div_1_r. cbn [Z.eqb Pos.eqb andb]. assert (w * (8 * hb) <= w * (h + 8)) by (apply Z.mul_le_mono_nonneg_l; unfold hb; lia).
    assert (w * (h + 8) <= (w + 8) * (h + 8)) by (apply Z.mul_le_mono_nonneg_r; lia). lia. }
  fold l cd in Hbits, E. rewrite Eu, Ev, Z.div_1_r in *.
  exists (map fst lost), g, a, b, c, js.
  split; [destruct Hlost as [->|[->| ->]]; auto|]. split; [intros Hne; rewrite map_length; apply Hbits; intros ->; now apply Hne|].
  split; [|exact E].
  destruct J. rewrite Eu in *.
  assert (Hnc : 0 < num_components (o_colorspace o)) by (clear; destruct (o_colorspace o); reflexivity).
  assert (Hjob : forall i k, 0 <= i < hb -> (k < 3)%nat -> k = 0%nat \/ o_colorspace o <> GRAYSCALE ->
    plane_ok B (wide 1 n) (high 1 1) i lost k (chan (nth (Z.to_nat i) js []) k)).
  { intros i k Hi Hk Ho. destruct (Hrow i Hi) as [_ R]. apply R; [exact Hk|].
    destruct Ho as [-> |Ho]; [exact Hnc|]. clear - Hk Ho. destruct (o_colorspace o); cbn; try lia; congruence. }
  assert (Hw1 : forall k, wide 1 n k = n) by (intros k; unfold wide; destruct (k =? 0)%nat; apply Z.mul_1_r).
  assert (Hh1 : forall k, high 1 1 k = 1) by (intros k; unfold high; destruct (k =? 0)%nat; reflexivity).
  assert (Hqt : qt_of (quants ps) q = natural (qd_values t0) /\ qt_of (quants ps) q1 = natural (qd_values t1) /\ qt_of (quants ps) q2 = natural (qd_values t2))
    by (unfold qt_of; now rewrite Ht0, Ht1, Ht2). destruct Hqt as (Hq0 & Hq1 & Hq2).
  destruct cj_a as (A1 & A2 & A3 & A4). destruct cj_b as (B1 & B2 & B3 & B4). destruct cj_c as (C1 & C2 & C3 & C4).
  rewrite Hq0 in A4. rewrite Hq1 in B4. rewrite Hq2 in C4.
  split; auto.
  - fold n. repeat split; lia.
  - rewrite A4, B4, C4. repeat split; apply natural_length.
  - fold n. rewrite Forall_forall. intros j Hj. apply (In_nth _ _ []) in Hj. destruct Hj as (i & Hi & <-).
    assert (Hi' : 0 <= Z.of_nat i < hb) by (unfold zlen in Lj; lia). destruct (Hrow _ Hi') as [R3 _]. rewrite Nat2Z.id in R3.
    pose proof (fun k => Hjob (Z.of_nat i) k Hi') as Hk. rewrite Nat2Z.id in Hk. destruct (nth i js []) as [|y0 [|y1 [|y2 [|]]]]; try discriminate R3.
    exists y0, y1, y2. split; [reflexivity|]. split.
    + destruct (Hk 0%nat ltac:(lia) ltac:(now left)) as [L _]. rewrite Hw1, Hh1 in L. cbn [chan nth] in L. lia.
    + intros Ho. rewrite cj_out in Ho. destruct (Hk 1%nat ltac:(lia) ltac:(now right)) as [L1 _]. destruct (Hk 2%nat ltac:(lia) ltac:(now right)) as [L2 _].
      rewrite Hw1, Hh1 in L1, L2. cbn [chan nth] in L1, L2. lia.
  - fold hb. lia.
  - intros k r x Hk Ho Hr Hx. assert (Hr8 : 0 <= r / 8 < hb) by (clear - Hr; unfold hb; lia). assert (Hc8 : 0 <= x / 8 < n) by (clear - Hx; unfold n; lia).
    unfold strip_at, base_sample. set (kk := Z.to_nat k). assert (Hkk : (kk < 3)%nat) by lia.
    assert (Hqk : c_qt (nth kk [a; b; c] a) = natural (qd_values (tab kk))).
    { unfold tab. destruct kk as [|[|[|kk]]]; [exact A4|exact B4|exact C4|lia]. }
    rewrite Hqk, cj_idct. f_equal. f_equal.
    destruct (Hjob (r / 8) kk Hr8 Hkk ltac:(destruct Ho; [left; lia|now right])) as [_ Hb].
    destruct (Hb (x / 8) (r / 8)) as [Hz Hn']; [unfold in_row; rewrite Hw1, Hh1; lia|].
    assert (Hpl : place (wide 1 n) (high 1 1) (r / 8) kk (x / 8) (r / 8) = 64 * (x / 8)) by (unfold place; rewrite Hh1, Hw1, Z.mul_1_r, Z.sub_diag; lia).
    rewrite Hpl in Hz, Hn'. unfold blk_at in Hz, Hn'. unfold without_last. fold n hb.
    destruct (existsb (Nat.eqb kk) (map fst lost) && (x / 8 =? n - 1) && (r / 8 =? hb - 1)) eqn:Ex.
    + rewrite zero_natural. apply Hz. apply andb_true_iff in Ex. destruct Ex as [Ex Ey]. apply andb_true_iff in Ex. destruct Ex as [Ek Ex].
      apply existsb_exists in Ek. destruct Ek as (k' & Hin & Ek). apply Nat.eqb_eq in Ek. subst k'. apply Z.eqb_eq in Ex, Ey. rewrite Ex, Ey.
      clear - Hlost Hin. destruct Hlost as [-> |[-> | ->]]; cbn [map fst] in Hin; [contradiction| |]; cbn in *; intuition congruence.
    + apply Hn'. intros Hin. apply andb_false_iff in Ex. clear - Hlost Hin Ex.
      assert (Hu : x / 8 = n - 1 /\ r / 8 = hb - 1) by (destruct Hlost as [-> |[-> | ->]]; cbn in Hin; intuition congruence).
      destruct Hu as [Hu1 Hu2]. destruct Ex as [Ex|Ex]; [|lia]. apply andb_false_iff in Ex. destruct Ex as [Ex|Ex]; [|lia].
      assert (Hex : existsb (Nat.eqb kk) (map fst lost) = true).
      { apply existsb_exists. exists kk. split; [|apply Nat.eqb_refl]. change kk with (fst (kk, (x / 8, r / 8))). now apply in_map. }
      congruence.
Qed.
End image.

Section files.
Variables (cpu : isa) (o : options) (ps : list pre) (q q1 q2 w h : Z) (tss : list (list huff_def)) (sel : list (Z * Z))
  (B : nat -> Z -> Z -> list Z) (bits : list bool) (sfx : list Z) (t0 t1 t2 : quant_def).
Let l := Colour 1 1 q q1 q2.
Let cd := sel_codes (huffs ps ++ concat tss) sel.
Let pls := image_planes [t0; t1; t2] w h.
Let decoded := fst (decode_buffer (new_with_options cpu o) (colour_file ps l w h tss sel bits sfx)).
Hypothesis HB : baseline_colour ps l w h tss sel B bits sfx.
Hypothesis Hmw : w <= o_max_width o.
Hypothesis Hmh : h <= o_max_height o.
Hypothesis Ht0 : last_quant (quants ps) q = Some t0.
Hypothesis Ht1 : last_quant (quants ps) q1 = Some t1.
Hypothesis Ht2 : last_quant (quants ps) q2 = Some t2.
Hypothesis Hlast : 64 < last_bits cd (image_blocks l w h B) 4.
Hypothesis Hrange : Forall plane_in_range (pls B).

Lemma base_ycc : o_colorspace o = YCbCr -> exists ks px,
  (ks = [] \/ ks = [2] \/ ks = [1; 2])%nat /\ (ks <> [] -> last_bits cd (image_blocks l w h B) (length ks) <= 64) /\
  decoded = Ok px /\ close_to_ycc (pls (without_last ks w h B)) w h px.
Proof.
  intros Ho. destruct (base_jobs cpu o ps q q1 q2 w h tss sel B bits sfx t0 t1 t2 HB Hmw Hmh Ht0 Ht1 Ht2 Hlast) as (ks & g & a & b & c & js & Hks & Hb & HJ & E).
  destruct (ycc_close cpu o w h _ (pls (without_last ks w h B)) (bc_width _ _ _ _ _ _ _ _ _ HB) (bc_height _ _ _ _ _ _ _ _ _ HB)
    (fun k r c Hk _ => base_close cpu o ps q q1 q2 w h tss sel B bits sfx t0 t1 t2 HB Ht0 Ht1 Ht2 Hrange ks k r c Hk) g a b c js HJ Ho) as (px & E' & H).
  exists ks, px. split; [exact Hks|]. split; [exact Hb|]. split; [|exact H]. unfold decoded, l. rewrite E. exact E'.
Qed.
Lemma base_rgb m : o_colorspace o = RGB -> cpu <> Sse41 \/ o_use_unsafe o = false \/ 22 <= w ->
  w < 16 /\ m <= w \/ 16 <= w /\ m <= 16 * (8 * ((w + 7) / 8) / 16 - 1) /\ 3 * m <= 3 * w - 64 -> exists ks px,
  (ks = [] \/ ks = [2] \/ ks = [1; 2])%nat /\ (ks <> [] -> last_bits cd (image_blocks l w h B) (length ks) <= 64) /\
  decoded = Ok px /\ close_to_rgb m (pls (without_last ks w h B)) w h px.
Proof.
  intros Ho Hc Hm. destruct (base_jobs cpu o ps q q1 q2 w h tss sel B bits sfx t0 t1 t2 HB Hmw Hmh Ht0 Ht1 Ht2 Hlast) as (ks & g & a & b & c & js & Hks & Hb & HJ & E).
  assert (Hk : kernel_fits (choose_color_convert cpu (o_use_unsafe o)) 3 w (8 * ((w + 7) / 8))) by (clear - Hc; now apply chosen_fits).
  destruct (rgb_close_left cpu o w h _ (pls (without_last ks w h B)) (bc_width _ _ _ _ _ _ _ _ _ HB) (bc_height _ _ _ _ _ _ _ _ _ HB)
    (fun k r c Hk _ => base_close cpu o ps q q1 q2 w h tss sel B bits sfx t0 t1 t2 HB Ht0 Ht1 Ht2 Hrange ks k r c Hk) g a b c js HJ m Ho Hk Hm) as (px & E' & H).
  exists ks, px. split; [exact Hks|]. split; [exact Hb|]. split; [|exact H]. unfold decoded, l. rewrite E. exact E'.
Qed.
Lemma base_luma : o_colorspace o = GRAYSCALE -> 64 * ((w + 7) / 8) < 9 * w -> exists px,
  decoded = Ok px /\ close_to (qd_values t0) (component_blocks ((w + 7) / 8) ((h + 7) / 8) (B 0%nat)) w h px.
Proof.
  intros Ho Hpad. destruct (base_jobs cpu o ps q q1 q2 w h tss sel B bits sfx t0 t1 t2 HB Hmw Hmh Ht0 Ht1 Ht2 Hlast) as (ks & g & a & b & c & js & Hks & Hb & HJ & E).
  destruct (luma_close cpu o w h _ (pls (without_last ks w h B)) (bc_width _ _ _ _ _ _ _ _ _ HB) (bc_height _ _ _ _ _ _ _ _ _ HB)
    (fun k r c Hk _ => base_close cpu o ps q q1 q2 w h tss sel B bits sfx t0 t1 t2 HB Ht0 Ht1 Ht2 Hrange ks k r c Hk) g a b c js HJ Ho Hpad) as (px & E' & H).
  exists px. split; [unfold decoded, l; rewrite E; exact E'|].
  replace (component_blocks ((w + 7) / 8) ((h + 7) / 8) (B 0%nat)) with (pl_blocks (plane_at (pls (without_last ks w h B)) 0)); [exact H|].
  assert (H0 : forall x y, without_last ks w h B 0 x y = B 0%nat x y) by (intros; unfold without_last; destruct Hks as [-> |[-> | ->]]; reflexivity).
  change (pl_blocks (plane_at (pls (without_last ks w h B)) 0)) with (component_blocks ((w + 7) / 8) ((h + 7) / 8) (without_last ks w h B 0%nat)).
  unfold component_blocks. apply flat_map_ext. intros y. apply map_ext. intros x. apply H0.
Qed.
(** Nothing is lost *)
Lemma all_there ks : (ks = [] \/ ks = [2] \/ ks = [1; 2])%nat -> (ks <> [] -> last_bits cd (image_blocks l w h B) (length ks) <= 64) ->
  64 < last_bits cd (image_blocks l w h B) 1 -> 64 < last_bits cd (image_blocks l w h B) 2 -> ks = [].
Proof. intros [-> |[-> | ->]] H H1 H2; [reflexivity| |]; specialize (H ltac:(discriminate)); cbn [length] in H; lia. Qed.
End files.
