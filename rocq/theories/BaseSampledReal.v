(** The pixels of baseline colour files with subsampled chroma are close to those of the standard. *)
From Coq Require Import ZArith String List Bool Lia Reals Lra.
From Coq Require Import ZifyBool ZifyNat ZifyN.
From Verif Require Import Base Types Huffman State Bitstream Headers Idct Upsample Color Simd Worker Mcu McuProg Decoder.
From Verif Require Import SpecHuffman SpecSegments SpecExtend SpecBits SpecBlock SpecProg SpecInter SpecScript SpecImage SpecIdct SpecColor SpecDct SpecPixels SpecColourPixels SpecBaseline SpecBaseScan SpecBasePixels SpecSampledPixels.
From Verif Require Import Obs ObsProg BaseFacts ColorFacts Placement IdctFacts IdctReal Strip UpsampleFacts HeaderFile ProgInter ProgFile ProgImage GrayFile GrayReal ColourImage ColourFile ColourReal.
From Verif Require Import BaseInter BaseColour SampledImage SampledFile BaseColourFile BaseColourReal.
Import ListNotations.
Local Open Scope Z_scope.
Ltac Zify.zify_post_hook ::= Z.div_mod_to_equations.

Lemma samples_blocks s w k : 1 <= s <= 2 -> 0 < w -> (0 < k)%nat -> (samples s k w + 7) / 8 = up8 w s.
Proof.
  intros Hs Hw Hk. unfold samples, up8. destruct k as [|k]; [lia|]. cbn [Nat.eqb].
  assert (s = 1 \/ s = 2) as [-> | ->] by lia; clear - Hw; lia.
Qed.
Lemma luma_blocks s w : 1 <= s <= 2 -> 0 < w -> (w + 7) / 8 <= up8 w s * s.
Proof. intros Hs Hw. unfold up8. assert (s = 1 \/ s = 2) as [-> | ->] by lia; clear - Hw; lia. Qed.
Lemma up8_div a s : up_div a (8 * s) = up8 a s.
Proof. unfold up_div, up8. f_equal; lia. Qed.

(** * Interpolation *)
Lemma triangle_close a b ea eb ta tb : 0 <= a <= 255 -> 0 <= b <= 255 -> (Rabs (IZR a - ea) <= ta)%R -> (Rabs (IZR b - eb) <= tb)%R ->
  0 <= tri a b <= 255 /\ (Rabs (IZR (tri a b) - (3 * ea + eb) / 4) <= (3 * ta + tb) / 4 + / 2)%R.
Proof.
  intros Ha Hb H1 H2. rewrite tri_triangle by (unfold small; lia). split; [unfold triangle; lia|].
  apply Rabs_le_inv in H1, H2. unfold triangle. pose proof (floor_close (3 * a + b + 2) 4 ltac:(lia)) as F.
  assert (G : (IZR (3 * a + b + 2) / IZR 4 <= IZR ((3 * a + b + 2) / 4) + 3 / 4)%R).
  { assert (IZR (3 * a + b + 2) <= 4 * IZR ((3 * a + b + 2) / 4) + 3)%R by (rewrite <- mult_IZR, <- plus_IZR; apply IZR_le; lia). lra. }
  rewrite !plus_IZR, mult_IZR in F, G. apply Rabs_le. lra.
Qed.

Section image.
Variables (cpu : isa) (o : options) (ps : list pre) (hs vs q q1 q2 w h : Z) (tss : list (list huff_def)) (sel : list (Z * Z))
  (B : nat -> Z -> Z -> list Z) (bits : list bool) (sfx : list Z) (t0 t1 t2 : quant_def).
Let l := Colour hs vs q q1 q2.
Let cd := sel_codes (huffs ps ++ concat tss) sel.
Let mx := up8 w hs.
Let my := up8 h vs.
Let pls := sampled_planes hs vs [t0; t1; t2] w h.
Hypothesis HB : baseline_colour ps l w h tss sel B bits sfx.
Hypothesis Hmw : w <= o_max_width o.
Hypothesis Hmh : h <= o_max_height o.
Hypothesis Ht0 : last_quant (quants ps) q = Some t0.
Hypothesis Ht1 : last_quant (quants ps) q1 = Some t1.
Hypothesis Ht2 : last_quant (quants ps) q2 = Some t2.

Lemma factors_ok : 1 <= hs <= 2 /\ 1 <= vs <= 2.
Proof using HB. clear pls. pose proof (bc_layout _ _ _ _ _ _ _ _ _ HB) as Hl. unfold l in Hl. destruct Hl. lia. Qed.
Lemma wide_blocks k : (k < 3)%nat -> (samples hs k w + 7) / 8 <= mx * fst (nth k (factors l) (0, 0)).
Proof using HB. clear pls.
  intros Hk. destruct factors_ok as [Hhs _]. pose proof (bc_width _ _ _ _ _ _ _ _ _ HB) as Hw. destruct k as [|k].
  - unfold samples. cbn [Nat.eqb nth factors l fst]. apply luma_blocks; lia.
  - rewrite samples_blocks by lia. fold mx. destruct k as [|[|k]]; cbn [nth factors l fst]; lia.
Qed.
Lemma high_blocks k : (k < 3)%nat -> (samples vs k h + 7) / 8 <= my * snd (nth k (factors l) (0, 0)).
Proof using HB. clear pls.
  intros Hk. destruct factors_ok as [_ Hhs]. pose proof (bc_height _ _ _ _ _ _ _ _ _ HB) as Hw. destruct k as [|k].
  - unfold samples. cbn [Nat.eqb nth factors l snd]. apply luma_blocks; lia.
  - rewrite samples_blocks by lia. fold my. destruct k as [|[|k]]; cbn [nth factors l snd]; lia.
Qed.
Lemma sampled_long k x y : (k < 3)%nat -> 0 <= x < (samples hs k w + 7) / 8 -> 0 <= y < (samples vs k h + 7) / 8 -> length (B k x y) = 64%nat.
Proof using HB. clear pls.
  intros Hk Hx Hy. destruct (units_pred_in _ _ _ (k, B k x y) (bc_blocks _ _ _ _ _ _ _ _ _ HB)) as (p & [[L _] _]); [|exact L].
  unfold image_blocks, scan_blocks. apply in_map_iff. exists (k, (x, y)). split; [reflexivity|].
  pose proof (wide_blocks k Hk) as W. pose proof (high_blocks k Hk) as H. destruct factors_ok as [Hhs Hvs].
  apply in_units.
  - intros k' Hk'. unfold factor, image_geo. cbn [g_factors factors l]. destruct Hk' as [<-|[<-|[<-|[]]]]; cbn [nth fst snd]; lia.
  - cbn [fst snd]. unfold factor, image_geo. cbn [g_factors g_mx g_my hmax vmax l]. rewrite !up8_div. fold mx my l.
    split; [destruct k as [|[|[|k]]]; cbn; auto; lia|]. lia.
Qed.

Definition stab (k : nat) : quant_def := nth k [t0; t1; t2] t0.
(** What the decoder shows *)
Definition sampled_sample (ks : list nat) (k r c : Z) : Z :=
  sample (kernel_of (choose_idct_func cpu (o_use_unsafe o)) (natural (qd_values (stab (Z.to_nat k))))
    (natural (without_last_chroma ks hs vs w h B (Z.to_nat k) (c / 8) (r / 8)))) (r mod 8) (c mod 8).

Lemma sampled_planes_at f k : 0 <= k < 3 -> plane_at (pls f) k =
  mkPlane (qd_values (stab (Z.to_nat k))) (component_blocks ((samples hs (Z.to_nat k) w + 7) / 8) ((samples vs (Z.to_nat k) h + 7) / 8) (f (Z.to_nat k))).
Proof. intros Hk. assert (k = 0 \/ k = 1 \/ k = 2) as [-> | [-> | ->]] by lia; reflexivity. Qed.

Lemma sampled_close ks k r c : Forall plane_in_range (pls B) -> 0 <= k < 3 -> 0 <= r / 8 < (samples vs (Z.to_nat k) h + 7) / 8 -> 0 <= c / 8 < (samples hs (Z.to_nat k) w + 7) / 8 ->
  0 <= sampled_sample ks k r c <= 255 /\
  (Rabs (IZR (sampled_sample ks k r c) - exact_at (samples hs (Z.to_nat k) w) (plane_at (pls (without_last_chroma ks hs vs w h B)) k) r c) <=
    tolerance_at (samples hs (Z.to_nat k) w) (plane_at (pls (without_last_chroma ks hs vs w h B)) k) r c)%R.
Proof using HB Ht0 Ht1 Ht2.
  intros Hrange Hk Hr Hc. rewrite sampled_planes_at by exact Hk. unfold exact_at, tolerance_at, sample_exact, block_of. cbn [pl_qv pl_blocks].
  unfold component_blocks. rewrite nth_rows by assumption. unfold sampled_sample. set (kk := Z.to_nat k) in *. assert (Hkk : (kk < 3)%nat) by (clear - Hk kk; lia).
  pose proof (bc_pre _ _ _ _ _ _ _ _ _ HB) as Hps.
  assert (Hq : quant_def_legal (stab kk)) by (unfold stab; destruct kk as [|[|[|kk]]]; [| | |lia]; cbn [nth]; eapply quant_legal; eauto).
  destruct Hq as (_ & Q1 & Q2). apply sample_close; auto; try (clear; lia).
  - unfold without_last_chroma, without_last. destruct (_ && _); [apply repeat_length|apply sampled_long; auto].
  - unfold without_last_chroma, without_last. destruct (_ && _); [apply zero_range|].
    rewrite Forall_forall in Hrange. specialize (Hrange (plane_at (pls B) k)). rewrite sampled_planes_at in Hrange by exact Hk. fold kk in Hrange.
    assert (Hp : plane_in_range (mkPlane (qd_values (stab kk)) (component_blocks ((samples hs kk w + 7) / 8) ((samples vs kk h + 7) / 8) (B kk)))).
    { apply Hrange. destruct kk as [|[|[|kk]]]; [| | |lia]; cbn; auto. }
    unfold plane_in_range in Hp. cbn [pl_qv pl_blocks] in Hp. rewrite Forall_forall in Hp. apply Hp. unfold component_blocks.
    apply in_flat_map. exists (r / 8). split; [now apply zseq_in|]. apply in_map_iff. exists (c / 8). split; [reflexivity|now apply zseq_in].
Qed.

Hypothesis Hlast : 64 < last_bits cd (image_blocks l w h B) (Z.to_nat (hs * vs) + 3).
Hypothesis Heven : my mod hs = 0.
Hypothesis Hroom : my / hs * (8 * hs * vs * w) <= (w + 8) * (h + 8) + (if (hs =? 1) && (vs =? 1) then 0 else 128 * h).

Lemma base_sampled_jobs : exists ks g a b c jobs,
  (ks = [] \/ ks = [2] \/ ks = [1; 2])%nat /\ (ks <> [] -> last_bits cd (image_blocks l w h B) (length ks) <= 64) /\
  sampled_jobs cpu o hs vs w h (sampled_sample ks) g a b c jobs /\
  fst (decode_buffer (new_with_options cpu o) (colour_file ps l w h tss sel bits sfx)) =
    rbind (run_jobs g jobs) (fun os => Ok (assemble os (g_total g) (w * bytes_per_pixel o * h))).
Proof.
  pose proof (bc_width _ _ _ _ _ _ _ _ _ HB) as Hw. pose proof (bc_height _ _ _ _ _ _ _ _ _ HB) as Hh. destruct factors_ok as [Hhs Hvs].
  assert (Hmx : 0 < mx) by (unfold mx, up8; clear - Hw Hhs; assert (hs = 1 \/ hs = 2) as [-> | ->] by lia; lia).
  assert (Hhm : h <= 8 * vs * my) by (unfold my, up8; clear - Hh Hvs; assert (vs = 1 \/ vs = 2) as [-> | ->] by lia; lia).
  assert (Hmy : my = hs * (my / hs)) by (clear - Heven Hhs; apply Z.div_exact; lia).
  destruct (colour_image_rows cpu o ps hs vs q q1 q2 w h tss sel B bits sfx HB Hmw Hmh Hlast Heven Hroom) as (g & a & b & c & lost & js & J & E & Lj & Hlost & Hbits & Hrow).
  fold l cd in Hbits, E. fold mx my in Hlost, Hrow, Lj.
  exists (map fst lost), g, a, b, c, js.
  split; [destruct Hlost as [->|[->| ->]]; auto|]. split; [intros Hne; rewrite map_length; apply Hbits; intros ->; now apply Hne|].
  split; [|exact E]. clear E Hbits.
  destruct J. fold mx in cj_a, cj_b, cj_c, cj_mcuw.
  assert (Hnc : 0 < num_components (o_colorspace o)) by (clear; destruct (o_colorspace o); reflexivity).
  assert (Hjob : forall i k, 0 <= i < my / hs -> (k < 3)%nat -> k = 0%nat \/ o_colorspace o <> GRAYSCALE ->
    plane_ok B (wide hs mx) (high hs vs) i lost k (chan (nth (Z.to_nat i) js []) k)).
  { intros i k Hi Hk Ho. destruct (Hrow i Hi) as [_ R]. apply R; [exact Hk|].
    destruct Ho as [-> |Ho]; [exact Hnc|]. clear - Hk Ho. destruct (o_colorspace o); cbn; try lia; congruence. }
  assert (Hqt : qt_of (quants ps) q = natural (qd_values t0) /\ qt_of (quants ps) q1 = natural (qd_values t1) /\ qt_of (quants ps) q2 = natural (qd_values t2))
    by (unfold qt_of; now rewrite Ht0, Ht1, Ht2). destruct Hqt as (Hq0 & Hq1 & Hq2).
  destruct cj_a as (A1 & A2 & A3 & A4). destruct cj_b as (B1 & B2 & B3 & B4). destruct cj_c as (C1 & C2 & C3 & C4).
  rewrite Hq0 in A4. rewrite Hq1 in B4. rewrite Hq2 in C4.
  assert (Hsame : forall k r x, 0 <= k < 3 -> k = 0 \/ o_colorspace o <> GRAYSCALE -> 0 <= r -> r / (8 * high hs vs (Z.to_nat k)) < my / hs ->
    0 <= x / 8 < wide hs mx (Z.to_nat k) -> 0 < high hs vs (Z.to_nat k) ->
    job_at g a b c hs mx (nth (Z.to_nat (r / (8 * high hs vs (Z.to_nat k)))) js []) k (r mod (8 * high hs vs (Z.to_nat k))) x = sampled_sample (map fst lost) k r x).
  { intros k r x Hk Ho Hr Hi Hx HR. unfold job_at, sampled_sample. set (kk := Z.to_nat k) in *. assert (Hkk : (kk < 3)%nat) by (clear - Hk kk; lia).
    assert (Hac : across hs mx k = wide hs mx kk).
    { unfold across, wide. replace (kk =? 0)%nat with (k =? 0) by (clear - Hk kk; lia). destruct (k =? 0); [reflexivity|]. ring. }
    assert (Hqk : c_qt (nth kk [a; b; c] a) = natural (qd_values (stab kk))).
    { unfold stab. destruct kk as [|[|[|kk]]]; [exact A4|exact B4|exact C4|lia]. }
    rewrite Hqk, cj_idct, Hac. set (R := high hs vs kk) in *. destruct (line_block r R HR Hr) as (D1 & D2 & D3).
    rewrite D1, D2. f_equal. f_equal. set (i := r / (8 * R)) in *. clearbody i.
    assert (Hi0 : 0 <= i) by (rewrite D3; apply Z.div_pos; [apply Z.div_pos|]; clear - Hr HR; lia).
    assert (Hin : i * R <= r / 8 < (i + 1) * R).
    { pose proof (Z.div_mod (r / 8) R ltac:(clear - HR; lia)) as M. pose proof (Z.mod_pos_bound (r / 8) R HR) as M2. rewrite <- D3 in M. clear - M M2. lia. }
    destruct (Hjob i kk (conj Hi0 Hi) Hkk ltac:(destruct Ho; [left; clear - H kk; lia|now right])) as [_ Hb].
    destruct (Hb (x / 8) (r / 8)) as [Hz Hn']; [split; assumption|].
    assert (Hpl : place (wide hs mx) (high hs vs) i kk (x / 8) (r / 8) = 64 * ((r / 8 - i * R) * wide hs mx kk + x / 8)) by (unfold place; fold R; ring).
    rewrite Hpl in Hz, Hn'. unfold blk_at in Hz, Hn'. clear - Hz Hn' Hlost Hw Hh Hhs Hvs.
    unfold without_last_chroma, without_last. rewrite !samples_blocks by (assumption || lia). fold mx my.
    destruct (existsb (Nat.eqb kk) (map fst lost) && (x / 8 =? mx - 1) && (r / 8 =? my - 1)) eqn:Ex.
    + rewrite zero_natural. apply Hz. apply andb_true_iff in Ex. destruct Ex as [Ex Ey]. apply andb_true_iff in Ex. destruct Ex as [Ek Ex].
      apply existsb_exists in Ek. destruct Ek as (k' & Hin & Ek). apply Nat.eqb_eq in Ek. subst k'. apply Z.eqb_eq in Ex, Ey. rewrite Ex, Ey.
      clear - Hlost Hin. destruct Hlost as [-> |[-> | ->]]; cbn [map fst] in Hin; [contradiction| |]; cbn in *; intuition congruence.
    + apply Hn'. intros Hin. apply andb_false_iff in Ex. clear - Hlost Hin Ex.
      assert (Hu : x / 8 = mx - 1 /\ r / 8 = my - 1) by (destruct Hlost as [-> |[-> | ->]]; cbn in Hin; intuition congruence).
      destruct Hu as [Hu1 Hu2]. destruct Ex as [Ex|Ex]; [|apply Z.eqb_neq in Ex; contradiction]. apply andb_false_iff in Ex. destruct Ex as [Ex|Ex]; [|apply Z.eqb_neq in Ex; contradiction].
      assert (Hex : existsb (Nat.eqb kk) (map fst lost) = true).
      { apply existsb_exists. exists kk. split; [|apply Nat.eqb_refl]. change kk with (fst (kk, (x / 8, r / 8))). now apply in_map. }
      congruence. }
  assert (Hp : 0 < hs * vs) by (apply Z.mul_pos_pos; clear - Hhs Hvs; lia).
  assert (Hrows : forall R r, 0 < R -> 0 <= r -> r < 8 * R * (my / hs) -> r / (8 * R) < my / hs) by (intros R r HR Hr Hlt; apply Z.div_lt_upper_bound; clear - HR Hr Hlt; lia).
  split; auto.
  - fold mx. repeat split; [rewrite A3; ring|rewrite B3; ring|rewrite C3; ring].
  - rewrite A4, B4, C4. repeat split; apply natural_length.
  - rewrite cj_chunk. unfold bytes_per_pixel. ring.
  - fold mx. rewrite Forall_forall. intros j Hj. apply (In_nth _ _ []) in Hj. destruct Hj as (i & Hi & <-).
    assert (Hi' : 0 <= Z.of_nat i < my / hs) by (rewrite <- Lj; unfold zlen; clear - Hi; lia). destruct (Hrow _ Hi') as [R3 _]. rewrite Nat2Z.id in R3.
    pose proof (fun k => Hjob (Z.of_nat i) k Hi') as Hk. rewrite Nat2Z.id in Hk. destruct (nth i js []) as [|y0 [|y1 [|y2 [|]]]]; try discriminate R3.
    exists y0, y1, y2. split; [reflexivity|]. split.
    + destruct (Hk 0%nat ltac:(lia) ltac:(now left)) as [L _]. unfold wide, high in L. cbn [chan nth Nat.eqb] in L. rewrite L. ring.
    + intros Ho. rewrite cj_out in Ho. destruct (Hk 1%nat ltac:(lia) ltac:(now right)) as [L1 _]. destruct (Hk 2%nat ltac:(lia) ltac:(now right)) as [L2 _].
      unfold wide, high in L1, L2. cbn [chan nth Nat.eqb] in L1, L2. rewrite L1, L2. split; ring.
  - rewrite Lj. clear - Hhm Hmy. replace (8 * (hs * vs) * (my / hs)) with (8 * vs * (hs * (my / hs))) by ring. now rewrite <- Hmy.
  - intros r x Hr Hx. assert (HR : high hs vs (Z.to_nat 0) = hs * vs) by (unfold high; cbn [Z.to_nat Nat.eqb]; ring).
    pose proof (Hsame 0 r x) as S. rewrite HR in S. apply S; [clear; lia|now left|clear - Hr; lia| | |exact Hp].
    + apply Hrows; [exact Hp|clear - Hr; lia|]. clear - Hr Hhm Hmy. replace (8 * (hs * vs) * (my / hs)) with (8 * vs * (hs * (my / hs))) by ring. rewrite <- Hmy. lia.
    + unfold wide. cbn [Z.to_nat Nat.eqb]. pose proof (luma_blocks hs w Hhs ltac:(clear - Hw; lia)) as W. fold mx in W. clear - W Hx. lia.
  - intros k r x Hk Ho Hr Hrh Hx. assert (HR : high hs vs (Z.to_nat k) = hs) by (unfold high; replace (Z.to_nat k =? 0)%nat with false by (clear - Hk; lia); ring).
    pose proof (Hsame k r x) as S. rewrite HR in S. apply S; [clear - Hk; lia|now right|exact Hr| | |clear - Hhs; lia].
    + apply Hrows; [clear - Hhs; lia|exact Hr|]. replace (8 * hs * (my / hs)) with (8 * (hs * (my / hs))) by ring. rewrite <- Hmy. clear - Hrh Hhm Hvs. 
      assert (r * vs < 8 * my * vs) by lia. apply (Z.mul_lt_mono_pos_r vs); lia.
    + unfold wide. replace (Z.to_nat k =? 0)%nat with false by (clear - Hk; lia). fold mx in Hx. clear - Hx. lia.
Qed.
End image.

Section files.
Variables (cpu : isa) (o : options) (ps : list pre) (hs vs q q1 q2 w h : Z) (tss : list (list huff_def)) (sel : list (Z * Z))
  (B : nat -> Z -> Z -> list Z) (bits : list bool) (sfx : list Z) (t0 t1 t2 : quant_def).
Let l := Colour hs vs q q1 q2.
Let cd := sel_codes (huffs ps ++ concat tss) sel.
Let pls := sampled_planes hs vs [t0; t1; t2] w h.
Let decoded := fst (decode_buffer (new_with_options cpu o) (colour_file ps l w h tss sel bits sfx)).
Let rows := (h + 8 * vs - 1) / (8 * vs).
Hypothesis HB : baseline_colour ps l w h tss sel B bits sfx.
Hypothesis Hmw : w <= o_max_width o.
Hypothesis Hmh : h <= o_max_height o.
Hypothesis Ht0 : last_quant (quants ps) q = Some t0.
Hypothesis Ht1 : last_quant (quants ps) q1 = Some t1.
Hypothesis Ht2 : last_quant (quants ps) q2 = Some t2.
Hypothesis Hlast : 64 < last_bits cd (image_blocks l w h B) (Z.to_nat (hs * vs) + 3).
Hypothesis Heven : rows mod hs = 0.
Hypothesis Hroom : 8 * vs * rows * w <= (w + 8) * (h + 8) + (if (hs =? 1) && (vs =? 1) then 0 else 128 * h).
Hypothesis Hrange : Forall plane_in_range (pls B).

Lemma the_jobs : exists ks g a b c jobs,
  (ks = [] \/ ks = [2] \/ ks = [1; 2])%nat /\ (ks <> [] -> last_bits cd (image_blocks l w h B) (length ks) <= 64) /\
  sampled_jobs cpu o hs vs w h (sampled_sample cpu o hs vs w h B t0 t1 t2 ks) g a b c jobs /\
  decoded = rbind (run_jobs g jobs) (fun os => Ok (assemble os (g_total g) (w * bytes_per_pixel o * h))).
Proof.
  assert (Er : rows = up8 h vs) by (unfold rows, up8; f_equal; lia). rewrite Er in *. 
  destruct (factors_ok ps hs vs q q1 q2 w h tss sel B bits sfx HB) as [Hhs Hvs].
  apply (base_sampled_jobs cpu o ps hs vs q q1 q2 w h tss sel B bits sfx t0 t1 t2); auto.
  assert (Hmy : up8 h vs = hs * (up8 h vs / hs)) by (apply Z.div_exact; [lia|exact Heven]).
  replace (up8 h vs / hs * (8 * hs * vs * w)) with (8 * vs * (hs * (up8 h vs / hs)) * w) by ring. rewrite <- Hmy. exact Hroom.
Qed.
Lemma luma_there ks r c : 0 <= r < h -> 0 <= c < w ->
  let p := sampled_sample cpu o hs vs w h B t0 t1 t2 ks 0 r c in
  0 <= p <= 255 /\ (Rabs (IZR p - exact_at w (plane_at (pls (without_last_chroma ks hs vs w h B)) 0) r c) <=
    tolerance_at w (plane_at (pls (without_last_chroma ks hs vs w h B)) 0) r c)%R.
Proof.
  intros Hr Hc p. apply (sampled_close cpu o ps hs vs q q1 q2 w h tss sel B bits sfx t0 t1 t2 HB Ht0 Ht1 Ht2 ks 0 r c Hrange); unfold samples; cbn [Z.to_nat Nat.eqb]; lia.
Qed.
Lemma chroma_there ks k r c : hs = 2 -> vs = 1 -> 0 <= r < h -> 0 < c < w -> c < 16 * ((w + 15) / 16) - 5 -> 0 < k < 3 ->
  let p := spread (sampled_sample cpu o hs vs w h B t0 t1 t2 ks) k r c in
  0 <= p <= 255 /\ (Rabs (IZR p - exact_422 w (plane_at (pls (without_last_chroma ks hs vs w h B)) k) r c) <=
    tolerance_422 w (plane_at (pls (without_last_chroma ks hs vs w h B)) k) r c)%R.
Proof.
  intros Hh2 Hv1 Hr Hc Hc5 Hk p. pose proof (bc_width _ _ _ _ _ _ _ _ _ HB) as Hw. pose proof (bc_height _ _ _ _ _ _ _ _ _ HB) as Hh.
  assert (Hs : samples hs (Z.to_nat k) w = samples 2 1 w) by (unfold samples; replace (Z.to_nat k =? 0)%nat with false by lia; rewrite Hh2; reflexivity).
  assert (Hs' : samples vs (Z.to_nat k) h = h) by (unfold samples; replace (Z.to_nat k =? 0)%nat with false by lia; rewrite Hv1; rewrite Z.div_1_r; lia).
  assert (Hx : forall x, 0 <= x < 8 * ((w + 15) / 16) ->
    0 <= sampled_sample cpu o hs vs w h B t0 t1 t2 ks k r x <= 255 /\
    (Rabs (IZR (sampled_sample cpu o hs vs w h B t0 t1 t2 ks k r x) - exact_at (samples 2 1 w) (plane_at (pls (without_last_chroma ks hs vs w h B)) k) r x) <=
    tolerance_at (samples 2 1 w) (plane_at (pls (without_last_chroma ks hs vs w h B)) k) r x)%R).
  { intros x Hx. rewrite <- Hs. apply (sampled_close cpu o ps hs vs q q1 q2 w h tss sel B bits sfx t0 t1 t2 HB Ht0 Ht1 Ht2 ks k r x Hrange); [lia| |].
    - rewrite Hs'. clear - Hr. lia.
    - rewrite Hs. unfold samples. cbn [Nat.eqb]. clear - Hx Hw. lia. }
  assert (Hn : other_column c = neighbour c) by reflexivity.
  assert (H1 : 0 <= c / 2 < 8 * ((w + 15) / 16)) by (clear - Hc Hc5; lia).
  assert (H2 : 0 <= neighbour c < 8 * ((w + 15) / 16)) by (unfold neighbour; clear - Hc Hc5; destruct (Z.odd c) eqn:Eo; [lia|]; assert (c <> 1) by (intros ->; discriminate); lia).
  destruct (Hx _ H1) as [R1 C1]. destruct (Hx _ H2) as [R2 C2].
  exact (triangle_close _ _ _ _ _ _ R1 R2 C1 C2).
Qed.

(** Y: all layouts *)
Lemma sampled_luma : o_colorspace o = GRAYSCALE -> 8 * (hs * vs) * (8 * ((w + 8 * hs - 1) / (8 * hs) * hs)) < (8 * (hs * vs) + 1) * w ->
  exists px, decoded = Ok px /\ close_luma 1 (pls B) w h px.
Proof.
  intros Ho Hpad. destruct the_jobs as (ks & g & a & b & c & js & Hks & Hb & HJ & E).
  pose proof (bc_width _ _ _ _ _ _ _ _ _ HB) as Hw. pose proof (bc_height _ _ _ _ _ _ _ _ _ HB) as Hh.
  destruct (factors_ok ps hs vs q q1 q2 w h tss sel B bits sfx HB) as [Hhs Hvs].
  destruct (sampled_luma_pixels cpu o hs vs w h Hhs Hvs ltac:(lia) ltac:(lia) _ g a b c js HJ Ho) as (px & E' & L & N).
  { unfold up8. replace (w + hs * 8 - 1) with (w + 8 * hs - 1) by ring. now replace (hs * 8) with (8 * hs) by ring. }
  exists px. split; [rewrite E; exact E'|]. split; [rewrite Z.mul_1_r; exact L|]. intros r x Hr Hx p.
  destruct (luma_there ks r x Hr Hx) as [R C].
  assert (Hp : p = sampled_sample cpu o hs vs w h B t0 t1 t2 ks 0 r x).
  { unfold p. rewrite Z.mul_1_r. change (nth (Z.to_nat (r * w + x)) px 0) with (zn px (r * w + x)). rewrite N by assumption. unfold u8. apply Z.mod_small. clear - R. lia. }
  rewrite Hp. split; [exact R|].
  assert (Hpl : plane_at (pls (without_last_chroma ks hs vs w h B)) 0 = plane_at (pls B) 0).
  { unfold pls. rewrite !sampled_planes_at by lia. f_equal. unfold component_blocks. apply flat_map_ext. intros y. apply map_ext. intros x0.
    unfold without_last_chroma, without_last. destruct Hks as [-> |[-> | ->]]; reflexivity. }
  rewrite <- Hpl. exact C.
Qed.
Lemma sampled_ycc : (hs, vs) <> (1, 1) -> o_colorspace o = YCbCr -> exists ks px,
  (ks = [] \/ ks = [2] \/ ks = [1; 2])%nat /\ (ks <> [] -> last_bits cd (image_blocks l w h B) (length ks) <= 64) /\
  decoded = Ok px /\ close_luma 3 (pls B) w h px /\
  (vs = 1 -> close_chroma_422 (pls (without_last_chroma ks hs vs w h B)) w h px).
Proof.
  intros Hne Ho. destruct the_jobs as (ks & g & a & b & c & js & Hks & Hb & HJ & E).
  pose proof (bc_width _ _ _ _ _ _ _ _ _ HB) as Hw. pose proof (bc_height _ _ _ _ _ _ _ _ _ HB) as Hh.
  destruct (factors_ok ps hs vs q q1 q2 w h tss sel B bits sfx HB) as [Hhs Hvs].
  destruct (sampled_ycc_pixels cpu o hs vs w h Hhs Hvs ltac:(lia) ltac:(lia) _ g a b c js HJ Hne Ho) as (px & E' & L & N & C).
  exists ks, px. split; [exact Hks|]. split; [exact Hb|]. split; [rewrite E; exact E'|]. split; [split; [exact L|]|].
  - intros r x Hr Hx p. destruct (luma_there ks r x Hr Hx) as [R D].
    assert (Hp : p = sampled_sample cpu o hs vs w h B t0 t1 t2 ks 0 r x).
    { unfold p. specialize (N r x Hr Hx). unfold at_pixel, zn in N. rewrite Z.add_0_r in N. rewrite N. unfold u8. apply Z.mod_small. clear - R. lia. }
    rewrite Hp. split; [exact R|].
    assert (Hpl : plane_at (pls (without_last_chroma ks hs vs w h B)) 0 = plane_at (pls B) 0).
    { unfold pls. rewrite !sampled_planes_at by lia. f_equal. unfold component_blocks. apply flat_map_ext. intros y. apply map_ext. intros x0.
      unfold without_last_chroma, without_last. destruct Hks as [-> |[-> | ->]]; reflexivity. }
    rewrite <- Hpl. exact D.
  - intros Hv r x k Hr Hx Hx5 Hk p. assert (Hh2 : hs = 2) by (assert (hs <> 1) by (intros Hh1; apply Hne; congruence); clear - H Hhs; lia).
    destruct (chroma_there ks k r x Hh2 Hv Hr Hx Hx5 Hk) as [R D].
    assert (Hp : p = spread (sampled_sample cpu o hs vs w h B t0 t1 t2 ks) k r x).
    { unfold p. assert (Emx : up8 w hs = (w + 15) / 16) by (unfold up8; rewrite Hh2; f_equal; lia). rewrite Emx in C.
      specialize (C Hv r x k Hr ltac:(clear - Hx; lia) ltac:(clear - Hx Hx5; lia) Hk). unfold at_pixel, zn in C. rewrite C. unfold u8. apply Z.mod_small. clear - R. lia. }
    rewrite Hp. split; [exact R|exact D].
Qed.
Lemma sampled_rgb m : hs = 2 -> vs = 1 -> o_colorspace o = RGB -> cpu <> Sse41 \/ o_use_unsafe o = false \/ 22 <= w /\ 16 * ((w + 15) / 16) <= w + 10 ->
  w < 16 /\ m <= w /\ m <= 11 \/ 16 <= w /\ m <= 16 * ((w + 15) / 16 - 1) /\ 3 * m <= 3 * w - 64 -> exists ks px,
  (ks = [] \/ ks = [2] \/ ks = [1; 2])%nat /\ (ks <> [] -> last_bits cd (image_blocks l w h B) (length ks) <= 64) /\
  decoded = Ok px /\ close_rgb_422 m (pls (without_last_chroma ks hs vs w h B)) w h px.
Proof.
  intros Hh2 Hv1 Ho Hc Hm. destruct the_jobs as (ks & g & a & b & c & js & Hks & Hb & HJ & E).
  pose proof (bc_width _ _ _ _ _ _ _ _ _ HB) as Hw. pose proof (bc_height _ _ _ _ _ _ _ _ _ HB) as Hh.
  destruct (factors_ok ps hs vs q q1 q2 w h tss sel B bits sfx HB) as [Hhs Hvs].
  assert (Hk : kernel_fits (choose_color_convert cpu (o_use_unsafe o)) 3 w (16 * ((w + 15) / 16))) by (clear - Hc; now apply chosen_fits_422).
  assert (Emx : up8 w hs = (w + 15) / 16) by (unfold up8; rewrite Hh2; f_equal; lia).
  destruct (sampled_rgb_pixels cpu o hs vs w h Hhs Hvs ltac:(lia) ltac:(lia) _ m g a b c js HJ Hh2 Hv1 Ho ltac:(rewrite Emx; exact Hk)) as (px & E' & L & N).
  { rewrite Emx. exact Hm. }
  exists ks, px. split; [exact Hks|]. split; [exact Hb|]. split; [rewrite E; exact E'|]. split; [exact L|].
  intros r x k Hr Hx Hkk p y0 y1 y2. assert (Hx' : x < w /\ x < 16 * ((w + 15) / 16) - 5) by (clear - Hm Hx; lia). destruct Hx' as [Hxw Hx5].
  assert (Hp : p = zn px (at_pixel w 3 r x k)) by reflexivity. rewrite N in Hp by assumption.
  destruct (luma_there ks r x Hr ltac:(clear - Hx Hxw; lia)) as [B0 C0].
  destruct (chroma_there ks 1 r x Hh2 Hv1 Hr ltac:(clear - Hx Hxw; lia) Hx5 ltac:(clear; lia)) as [B1 C1].
  destruct (chroma_there ks 2 r x Hh2 Hv1 Hr ltac:(clear - Hx Hxw; lia) Hx5 ltac:(clear; lia)) as [B2 C2].
  destruct (rgb_close _ _ _ k B0 B1 B2 Hkk) as [D1 D2]. rewrite <- Hp in D1, D2. split; [exact D1|].
  pose proof (jfif_close k _ _ _ _ _ _ _ _ _ C0 C1 C2 ltac:(lra)) as D3. fold y0 y1 y2 in D3.
  match type of D3 with (Rabs (?j - ?j') <= _)%R => replace (IZR p - j')%R with ((IZR p - j) + (j - j'))%R by ring end.
  eapply Rle_trans; [apply Rabs_triang|]. lra.
Qed.
End files.
