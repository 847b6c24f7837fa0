(** The pixels of colour progressive files without subsampling are close to those of the standard. *)
From Coq Require Import ZArith String List Bool Lia Reals Lra.
From Coq Require Import ZifyBool ZifyNat ZifyN.
From Verif Require Import Base Types Huffman State Bitstream Headers Idct Color Simd Worker Mcu McuProg Decoder.
From Verif Require Import SpecHuffman SpecSegments SpecExtend SpecBits SpecBlock SpecProg SpecScript SpecImage SpecIdct SpecColor SpecDct SpecPixels SpecColourPixels.
From Verif Require Import Obs ObsProg BaseFacts ColorFacts Placement IdctFacts IdctReal Strip HeaderFile ProgFile ProgImage GrayFile GrayReal ColourImage ColourFile.
Import ListNotations.
Local Open Scope Z_scope.
Ltac Zify.zify_post_hook ::= Z.div_mod_to_equations.

(** * Conversion to RGB *)
Lemma clampR_close x y e : (Rabs (x - y) <= e -> Rabs (clampR x - clampR y) <= e)%R.
Proof.
  intros H. pose proof (Rabs_pos (x - y)). apply Rabs_le_inv in H. apply Rabs_le. unfold clampR, Rmax, Rmin.
  destruct (Rle_dec 255 x), (Rle_dec 255 y); try destruct (Rle_dec 0 x); try destruct (Rle_dec 0 y); try destruct (Rle_dec 0 255); lra.
Qed.
Lemma clamp255_clampR q : IZR (clamp255 q) = clampR (IZR q).
Proof.
  unfold clamp255, clampR, Rmax, Rmin. destruct (Rle_dec 255 (IZR q)) as [H|H].
  - apply le_IZR in H. replace (Z.max 0 (Z.min 255 q)) with 255 by lia. destruct (Rle_dec 0 255); lra.
  - assert (q < 255) by (apply lt_IZR; lra). destruct (Rle_dec 0 (IZR q)) as [G|G].
    + apply le_IZR in G. f_equal. lia.
    + assert (q < 0) by (apply lt_IZR; lra). f_equal. lia.
Qed.
Lemma floor_close a b : 0 < b -> (IZR (a / b) <= IZR a / IZR b < IZR (a / b) + 1)%R.
Proof.
  intros Hb. pose proof (Z.div_mod a b ltac:(lia)) as E. pose proof (Z.mod_pos_bound a b Hb) as Hm.
  assert (0 < IZR b)%R by (apply IZR_lt; lia).
  assert (IZR a = IZR b * IZR (a / b) + IZR (a mod b))%R as -> by (rewrite <- mult_IZR, <- plus_IZR; f_equal; exact E).
  assert (0 <= IZR (a mod b) < IZR b)%R by (split; [apply IZR_le|apply IZR_lt]; lia).
  split.
  - apply (Rmult_le_reg_r (IZR b)); [assumption|]. unfold Rdiv. rewrite Rmult_assoc, Rinv_l by lra. lra.
  - apply (Rmult_lt_reg_r (IZR b)); [assumption|]. unfold Rdiv. rewrite Rmult_assoc, Rinv_l by lra. lra.
Qed.
Lemma rgb_close y cb cr k : 0 <= y <= 255 -> 0 <= cb <= 255 -> 0 <= cr <= 255 -> 0 <= k < 3 ->
  let p := nth (Z.to_nat k) (cc_pixel y cb cr) 0 in
  0 <= p <= 255 /\ (Rabs (IZR p - jfif k (IZR y) (IZR cb) (IZR cr)) <= 2)%R.
Proof.
  intros Hy Hb Hr Hk p. unfold p. rewrite cc_pixel_spec by (unfold byte; lia). unfold pixel_rgb.
  assert (Rb : (-128 <= IZR cb - 128 <= 127)%R) by (split; [assert (0 <= IZR cb)%R by (apply IZR_le; lia); lra|assert (IZR cb <= 255)%R by (apply IZR_le; lia); lra]).
  assert (Rr : (-128 <= IZR cr - 128 <= 127)%R) by (split; [assert (0 <= IZR cr)%R by (apply IZR_le; lia); lra|assert (IZR cr <= 255)%R by (apply IZR_le; lia); lra]).
  assert (k = 0 \/ k = 1 \/ k = 2) as [-> | [-> | ->]] by lia.
  - change (nth (Z.to_nat 0) ?l 0) with (hd 0 l). cbn [hd]. split; [unfold clamp255; lia|]. rewrite clamp255_clampR. apply clampR_close.
    pose proof (floor_close (45 * (cr - 128)) 32 ltac:(lia)) as F. rewrite mult_IZR, minus_IZR in F. rewrite plus_IZR.
    apply Rabs_le. lra.
  - change (Z.to_nat 1) with 1%nat. cbn [nth]. split; [unfold clamp255; lia|]. rewrite clamp255_clampR. apply clampR_close.
    pose proof (floor_close (11 * (cb - 128) + 23 * (cr - 128)) 32 ltac:(lia)) as F. rewrite plus_IZR, !mult_IZR, !minus_IZR in F. rewrite minus_IZR.
    apply Rabs_le. lra.
  - change (Z.to_nat 2) with 2%nat. cbn [nth]. split; [unfold clamp255; lia|]. rewrite clamp255_clampR. apply clampR_close.
    pose proof (floor_close (113 * (cb - 128)) 64 ltac:(lia)) as F. rewrite mult_IZR, minus_IZR in F. rewrite plus_IZR.
    apply Rabs_le. lra.
Qed.
Lemma jfif_close k y cb cr y' cb' cr' ty tb tr : (Rabs (y - y') <= ty -> Rabs (cb - cb') <= tb -> Rabs (cr - cr') <= tr ->
  0 <= 2 -> Rabs (jfif k y cb cr - jfif k y' cb' cr') <= jfif_tolerance k ty tb tr - 2)%R.
Proof.
  intros H1 H2 H3 _. apply Rabs_le_inv in H1, H2, H3. unfold jfif, jfif_tolerance. apply clampR_close. apply Rabs_le.
  destruct k as [|[p|p|]|p]; lra.
Qed.

(** * From jobs to pixels *)
Section pixels.
Variables (cpu : isa) (o : options) (w h : Z) (rendered : Z -> Z -> Z -> Z) (pls : list plane).
Hypothesis Hw : 0 < w <= 65527.
Hypothesis Hh : 0 < h <= 65527.
Hypothesis Hclose : forall k a b, 0 <= k < 3 -> k = 0 \/ o_colorspace o <> GRAYSCALE -> 0 <= a < h -> 0 <= b < w ->
  0 <= rendered k a b <= 255 /\
  (Rabs (IZR (rendered k a b) - exact_at w (plane_at pls k) a b) <= tolerance_at w (plane_at pls k) a b)%R.
Variables (g : geom) (c0 c1 c2 : component) (jobs : list (list (list Z))).
Hypothesis HJ : finish_jobs cpu o w h rendered g c0 c1 c2 jobs.
Let out := rbind (run_jobs g jobs) (fun os => Ok (assemble os (g_total g) (w * bytes_per_pixel o * h))).

Lemma ycc_close : o_colorspace o = YCbCr -> exists px, out = Ok px /\ close_to_ycc pls w h px.
Proof.
  intros Ho. destruct (ycc_pixels cpu o w h Hw Hh rendered g c0 c1 c2 jobs HJ Ho) as (px & E' & L & N).
  exists px. split; [exact E'|]. split; [exact L|]. intros x y k Hx Hy Hk p.
  assert (Hp : p = zn px (at_pixel w 3 x y k)) by reflexivity. rewrite N in Hp by assumption.
  destruct (Hclose k x y Hk ltac:(right; rewrite Ho; discriminate) Hx Hy) as [B1 B2].
  assert (Hp' : p = rendered k x y) by (rewrite Hp; unfold u8; apply Z.mod_small; clear - B1; lia).
  rewrite Hp'. split; assumption.
Qed.
Lemma luma_close : o_colorspace o = GRAYSCALE -> 64 * ((w + 7) / 8) < 9 * w ->
  exists px, out = Ok px /\ close_to (pl_qv (plane_at pls 0)) (pl_blocks (plane_at pls 0)) w h px.
Proof.
  intros Ho Hpad. destruct (luma_pixels cpu o w h Hw Hh rendered g c0 c1 c2 jobs HJ Ho Hpad) as (px & E' & L & N).
  exists px. split; [exact E'|]. split; [exact L|]. intros x y Hx Hy m p.
  assert (Hp : p = zn px (x * w + y)) by reflexivity. rewrite N in Hp by assumption.
  destruct (Hclose 0 x y ltac:(clear; lia) ltac:(now left) Hx Hy) as [B1 B2].
  assert (Hp' : p = rendered 0 x y) by (rewrite Hp; unfold u8; apply Z.mod_small; clear - B1; lia).
  rewrite Hp'. split; assumption.
Qed.
Lemma rgb_close_left m : o_colorspace o = RGB -> kernel_fits (choose_color_convert cpu (o_use_unsafe o)) 3 w (8 * ((w + 7) / 8)) -> rgb_columns w m ->
  exists px, out = Ok px /\ close_to_rgb m pls w h px.
Proof.
  intros Ho Hk Hm. assert (Hmw' : m <= w) by (clear - Hm; unfold rgb_columns in Hm; lia).
  destruct (rgb_pixels cpu o w h Hw Hh rendered m g c0 c1 c2 jobs HJ Ho Hk Hm) as (px & E' & L & N).
  exists px. split; [exact E'|]. split; [exact L|]. intros x y k Hx Hy Hkk p e t.
  assert (Hp : p = zn px (at_pixel w 3 x y k)) by reflexivity. rewrite N in Hp by assumption.
  assert (Hyw : 0 <= y < w) by (clear - Hy Hmw'; lia).
  assert (Hng : forall k : Z, k = 0 \/ o_colorspace o <> GRAYSCALE) by (intros; right; rewrite Ho; discriminate).
  destruct (Hclose 0 x y ltac:(clear; lia) (Hng 0) Hx Hyw) as [B0 C0]. destruct (Hclose 1 x y ltac:(clear; lia) (Hng 1) Hx Hyw) as [B1 C1].
  destruct (Hclose 2 x y ltac:(clear; lia) (Hng 2) Hx Hyw) as [B2 C2].
  destruct (rgb_close _ _ _ k B0 B1 B2 Hkk) as [D1 D2]. rewrite <- Hp in D1, D2. split; [exact D1|].
  pose proof (jfif_close k _ _ _ _ _ _ _ _ _ C0 C1 C2 ltac:(lra)) as D3. fold (e 0) (e 1) (e 2) (t 0) (t 1) (t 2) in D3.
  replace (IZR p - jfif k (e 0%Z) (e 1%Z) (e 2%Z))%R with
    ((IZR p - jfif k (IZR (rendered 0%Z x y)) (IZR (rendered 1%Z x y)) (IZR (rendered 2%Z x y))) +
     (jfif k (IZR (rendered 0%Z x y)) (IZR (rendered 1%Z x y)) (IZR (rendered 2%Z x y)) - jfif k (e 0%Z) (e 1%Z) (e 2%Z)))%R by ring.
  eapply Rle_trans; [apply Rabs_triang|]. lra.
Qed.
End pixels.

Lemma one_sample w h t K cd kind a b : quant_def_legal t -> cd_w cd = (w + 7) / 8 /\ cd_h cd = (h + 7) / 8 /\ Z.of_nat (length (cd_blocks cd)) = cd_w cd * cd_h cd ->
  plane_in_range (mkPlane (qd_values t) (map (known_block K) (cd_blocks cd))) -> 0 <= a < h -> 0 <= b < w ->
  let p := sample (kernel_of kind (natural (qd_values t)) (shown ((w + 7) / 8) K (cd_blocks cd) a b)) (a mod 8) (b mod 8) in
  let pl := mkPlane (qd_values t) (map (known_block K) (cd_blocks cd)) in
  0 <= p <= 255 /\ (Rabs (IZR p - exact_at w pl a b) <= tolerance_at w pl a b)%R.
Proof.
  intros (_ & Q1 & Q2) (W & H & B) Hr Ha Hb p pl. unfold exact_at, tolerance_at, sample_exact, block_of, pl. cbn [pl_qv pl_blocks].
  set (m := (w + 7) / 8) in *.
  assert (Hidx : (Z.to_nat (a / 8 * m + b / 8) < length (cd_blocks cd))%nat).
  { assert (0 <= a / 8 < (h + 7) / 8) by (clear - Ha; lia). assert (0 <= b / 8 < m) by (unfold m; clear - Hb; lia).
    pose proof (block_inside ((h + 7) / 8) m (a / 8) (b / 8)) as HB. rewrite W, H in B. clear - B HB H0 H1. lia. }
  rewrite (nth_indep _ [] (known_block K [])) by (rewrite map_length; exact Hidx). rewrite map_nth.
  apply sample_close; auto using known_block_length; [|clear; lia|clear; lia].
  unfold plane_in_range in Hr. cbn [pl_qv pl_blocks] in Hr. rewrite Forall_forall in Hr. apply Hr, in_map, nth_In, Hidx.
Qed.

(** * Files *)
Section file.
Variables (cpu : isa) (o : options) (ps : list pre) (q q1 q2 w h : Z) (t0 t1 t2 : quant_def) (cd0 cd1 cd2 : comp_data)
  (is : list item) (K0 K1 K2 : knowledge) (n fin : Z) (sfx : list Z).
(** the marker that ends the last scan *)
Hypothesis Hfin : stop_code fin.
Hypothesis Hi : progressive_image ps (Colour 1 1 q q1 q2) w h [cd0; cd1; cd2] is [K0; K1; K2] n sfx.
Hypothesis Hmw : w <= o_max_width o.
Hypothesis Hmh : h <= o_max_height o.
Hypothesis Hn : n <= o_max_scans o.
Hypothesis Ht0 : last_quant (quants ps) q = Some t0.
Hypothesis Ht1 : last_quant (quants ps) q1 = Some t1.
Hypothesis Ht2 : last_quant (quants ps) q2 = Some t2.
Hypothesis Hw : w <= 65527.
Hypothesis Hh : h <= 65527.
(** What is known of the three components *)
Definition known_planes : list plane :=
  [mkPlane (qd_values t0) (map (known_block K0) (cd_blocks cd0)); mkPlane (qd_values t1) (map (known_block K1) (cd_blocks cd1));
   mkPlane (qd_values t2) (map (known_block K2) (cd_blocks cd2))].
Hypothesis Hra : Forall plane_in_range known_planes.
Let r := fst (decode_buffer (new_with_options cpu o) (cut_file 194 ps (Colour 1 1 q q1 q2) w h is fin sfx)).
Notation sample_at := (colour_sample cpu o w t0 t1 t2 cd0 cd1 cd2 K0 K1 K2).

Lemma comp_size k cd : nth_error [cd0; cd1; cd2] k = Some cd ->
  cd_w cd = (w + 7) / 8 /\ cd_h cd = (h + 7) / 8 /\ Z.of_nat (length (cd_blocks cd)) = cd_w cd * cd_h cd.
Proof.
  intros Hk. destruct Hi as [P1 P2 P3 P4 P5 P6 [P7l P7] P8 P9 P10 P11]. destruct (P7 k cd Hk) as (I1 & I2 & I3).
  assert (Hf : nth k (factors (Colour 1 1 q q1 q2)) (0, 0) = (1, 1)) by (destruct k as [|[|[|k]]]; try reflexivity; destruct k; discriminate Hk).
  rewrite Hf in I2, I3. cbn [hmax vmax fst snd] in I2, I3. rewrite blocks_wide1 in I2, I3.
  split; [exact I2|]. split; [exact I3|]. rewrite Forall_forall in P8. apply P8. eapply nth_error_In; eauto.
Qed.
Lemma sample_at_close k a b : 0 <= k < 3 -> 0 <= a < h -> 0 <= b < w ->
  0 <= sample_at k a b <= 255 /\
  (Rabs (IZR (sample_at k a b) - exact_at w (plane_at known_planes k) a b) <= tolerance_at w (plane_at known_planes k) a b)%R.
Proof.
  intros Hk Ha Hb. pose proof (pi_pre _ _ _ _ _ _ _ _ _ Hi) as P1.
  assert (L0 : quant_def_legal t0) by (eapply quant_legal; eauto). assert (L1 : quant_def_legal t1) by (eapply quant_legal; eauto).
  assert (L2 : quant_def_legal t2) by (eapply quant_legal; eauto).
  pose proof (comp_size 0 cd0 eq_refl) as S0. pose proof (comp_size 1 cd1 eq_refl) as S1. pose proof (comp_size 2 cd2 eq_refl) as S2.
  unfold known_planes in Hra. apply Forall_cons_iff in Hra. destruct Hra as [R0 Hra']. apply Forall_cons_iff in Hra'. destruct Hra' as [R1 Hra'].
  apply Forall_cons_iff in Hra'. destruct Hra' as [R2 _].
  assert (k = 0 \/ k = 1 \/ k = 2) as [-> | [-> | ->]] by (clear - Hk; lia).
  - exact (one_sample w h t0 K0 cd0 _ a b L0 S0 R0 Ha Hb).
  - exact (one_sample w h t1 K1 cd1 _ a b L1 S1 R1 Ha Hb).
  - exact (one_sample w h t2 K2 cd2 _ a b L2 S2 R2 Ha Hb).
Qed.
Lemma file_jobs : (exists g a b c jobs, finish_jobs cpu o w h sample_at g a b c jobs /\
    r = rbind (run_jobs g jobs) (fun os => Ok (assemble os (g_total g) (w * bytes_per_pixel o * h)))) \/
  r = Err missing_marker /\ ~ short_end (image_geo (Colour 1 1 q q1 q2) w h) [cd0; cd1; cd2] [] is.
Proof.
  destruct (progressive_image_cut cpu o _ _ _ _ _ _ _ _ _ _ Hfin Hi Hmw Hmh Hn) as (dcts & acts & s & He & Hp & _ & [Hr|Hr]); [left|now right].
  assert (P4 : 0 < w) by apply Hi. assert (P5 : 0 < h) by apply Hi.
  destruct (colour_finish cpu o q q1 q2 w h (quants ps) t0 t1 t2 cd0 cd1 cd2 K0 K1 K2) with (dcts := dcts) (acts := acts) (s := s)
    as (g & a & b & c & jobs & HJ & E); auto; try lia.
  - exact (comp_size 0 cd0 eq_refl). - exact (comp_size 1 cd1 eq_refl). - exact (comp_size 2 cd2 eq_refl).
  - exists g, a, b, c, jobs. split; [exact HJ|]. unfold r. now rewrite Hr, E.
Qed.
Lemma ycc_file : o_colorspace o = YCbCr ->
  (exists px, r = Ok px /\ close_to_ycc known_planes w h px) \/ r = Err missing_marker /\ ~ short_end (image_geo (Colour 1 1 q q1 q2) w h) [cd0; cd1; cd2] [] is.
Proof.
  intros Ho. destruct file_jobs as [(g & a & b & c & jobs & HJ & E)|E]; [left|now right].
  assert (P4 : 0 < w) by apply Hi. assert (P5 : 0 < h) by apply Hi. rewrite E.
  apply (ycc_close cpu o w h sample_at) with (c0 := a) (c1 := b) (c2 := c); auto; try lia. intros. now apply sample_at_close.
Qed.
Lemma luma_file : o_colorspace o = GRAYSCALE -> 64 * ((w + 7) / 8) < 9 * w ->
  (exists px, r = Ok px /\ close_to (qd_values t0) (map (known_block K0) (cd_blocks cd0)) w h px) \/
  r = Err missing_marker /\ ~ short_end (image_geo (Colour 1 1 q q1 q2) w h) [cd0; cd1; cd2] [] is.
Proof.
  intros Ho Hpad. destruct file_jobs as [(g & a & b & c & jobs & HJ & E)|E]; [left|now right].
  assert (P4 : 0 < w) by apply Hi. assert (P5 : 0 < h) by apply Hi. rewrite E.
  apply (luma_close cpu o w h sample_at known_planes) with (c0 := a) (c1 := b) (c2 := c); auto; try lia. intros. now apply sample_at_close.
Qed.
Lemma rgb_file m : o_colorspace o = RGB -> kernel_fits (choose_color_convert cpu (o_use_unsafe o)) 3 w (8 * ((w + 7) / 8)) -> rgb_columns w m ->
  (exists px, r = Ok px /\ close_to_rgb m known_planes w h px) \/ r = Err missing_marker /\ ~ short_end (image_geo (Colour 1 1 q q1 q2) w h) [cd0; cd1; cd2] [] is.
Proof.
  intros Ho Hk Hm. destruct file_jobs as [(g & a & b & c & jobs & HJ & E)|E]; [left|now right].
  assert (P4 : 0 < w) by apply Hi. assert (P5 : 0 < h) by apply Hi. rewrite E.
  apply (rgb_close_left cpu o w h sample_at) with (c0 := a) (c1 := b) (c2 := c); auto; try lia. intros. now apply sample_at_close.
Qed.
End file.
Lemma stop_eoi : stop_code 217.
Proof. exists EOI. repeat split; discriminate. Qed.
#[local] Hint Resolve stop_eoi : core.

(** * Files with all scans *)
Lemma planes_complete t0 t1 t2 cd0 cd1 cd2 K0 K1 K2 : Forall complete [K0; K1; K2] -> Forall comp_data_ok [cd0; cd1; cd2] ->
  known_planes t0 t1 t2 cd0 cd1 cd2 K0 K1 K2
  = [mkPlane (qd_values t0) (cd_blocks cd0); mkPlane (qd_values t1) (cd_blocks cd1); mkPlane (qd_values t2) (cd_blocks cd2)].
Proof.
  assert (E : forall K cd, complete K -> comp_data_ok cd -> map (known_block K) (cd_blocks cd) = cd_blocks cd).
  { intros K cd HK (_ & B2 & _). rewrite <- (map_id (cd_blocks cd)) at 2. rewrite Forall_forall in B2. apply map_ext_in.
    intros zz Hz. apply known_complete; auto. }
  intros HK HC. apply Forall_cons_iff in HK, HC. destruct HK as [A0 HK], HC as [B0 HC]. apply Forall_cons_iff in HK, HC.
  destruct HK as [A1 HK], HC as [B1 HC]. apply Forall_cons_iff in HK, HC. destruct HK as [A2 _], HC as [B2 _].
  unfold known_planes. now rewrite !E by assumption.
Qed.
Lemma known_next_length Ks k ss se al : length (known_next Ks k ss se al) = length Ks.
Proof.
  unfold known_next. destruct (nth_error Ks k) eqn:E; [|reflexivity]. assert (k < length Ks)%nat by (apply nth_error_Some; congruence).
  unfold upd. rewrite app_length, firstn_length. cbn [length]. rewrite skipn_length. lia.
Qed.
Lemma script_length g cs tabs Ks is Ks' n b : script g cs tabs Ks is Ks' n b -> length Ks' = length Ks.
Proof.
  induction 1 as [| |? ? ? ? ? ? ? ? ? Hok Hs IH]; auto. rewrite IH. destruct Hok as [|ks].
  - apply known_next_length.
  - clear. revert Ks. induction ks as [|k ks IH]; intros Ks; [reflexivity|]. cbn [fold_left]. rewrite IH. apply known_next_length.
Qed.
Lemma three_known ps l w h cd0 cd1 cd2 is Ks n sfx : progressive_image ps l w h [cd0; cd1; cd2] is Ks n sfx -> exists K0 K1 K2, Ks = [K0; K1; K2].
Proof.
  intros Hi. destruct (pi_script _ _ _ _ _ _ _ _ _ Hi) as (b & Hs & _). apply script_length in Hs. cbn [map length] in Hs.
  destruct Ks as [|K0 [|K1 [|K2 [|]]]]; try discriminate Hs. eauto.
Qed.
Lemma ycc_complete cpu o ps q q1 q2 w h t0 t1 t2 cd0 cd1 cd2 is Ks n sfx :
  let pls := [mkPlane (qd_values t0) (cd_blocks cd0); mkPlane (qd_values t1) (cd_blocks cd1); mkPlane (qd_values t2) (cd_blocks cd2)] in
  progressive_image ps (Colour 1 1 q q1 q2) w h [cd0; cd1; cd2] is Ks n sfx -> Forall complete Ks -> short_end (image_geo (Colour 1 1 q q1 q2) w h) [cd0; cd1; cd2] [] is ->
  w <= o_max_width o -> h <= o_max_height o -> n <= o_max_scans o -> w <= 65527 -> h <= 65527 ->
  last_quant (quants ps) q = Some t0 -> last_quant (quants ps) q1 = Some t1 -> last_quant (quants ps) q2 = Some t2 ->
  Forall plane_in_range pls -> o_colorspace o = YCbCr ->
  exists px, fst (decode_buffer (new_with_options cpu o) (file 194 ps (Colour 1 1 q q1 q2) w h is sfx)) = Ok px /\ close_to_ycc pls w h px.
Proof.
  intros pls Hi HK Hs Hw Hh Hn Hw' Hh' H0 H1 H2 Hr Ho. destruct (three_known _ _ _ _ _ _ _ _ _ _ _ Hi) as (K0 & K1 & K2 & ->).
  pose proof (planes_complete t0 t1 t2 cd0 cd1 cd2 K0 K1 K2 HK (pi_coefs _ _ _ _ _ _ _ _ _ Hi)) as E. fold pls in E. rewrite <- E in *.
  destruct (ycc_file cpu o ps q q1 q2 w h t0 t1 t2 cd0 cd1 cd2 is K0 K1 K2 n 217 sfx) as [X|[_ C]]; auto. contradiction.
Qed.
Lemma luma_complete cpu o ps q q1 q2 w h t0 t1 t2 cd0 cd1 cd2 is Ks n sfx :
  let pls := [mkPlane (qd_values t0) (cd_blocks cd0); mkPlane (qd_values t1) (cd_blocks cd1); mkPlane (qd_values t2) (cd_blocks cd2)] in
  progressive_image ps (Colour 1 1 q q1 q2) w h [cd0; cd1; cd2] is Ks n sfx -> Forall complete Ks -> short_end (image_geo (Colour 1 1 q q1 q2) w h) [cd0; cd1; cd2] [] is ->
  w <= o_max_width o -> h <= o_max_height o -> n <= o_max_scans o -> w <= 65527 -> h <= 65527 ->
  last_quant (quants ps) q = Some t0 -> last_quant (quants ps) q1 = Some t1 -> last_quant (quants ps) q2 = Some t2 ->
  Forall plane_in_range pls -> o_colorspace o = GRAYSCALE -> 64 * ((w + 7) / 8) < 9 * w ->
  exists px, fst (decode_buffer (new_with_options cpu o) (file 194 ps (Colour 1 1 q q1 q2) w h is sfx)) = Ok px /\
    close_to (qd_values t0) (cd_blocks cd0) w h px.
Proof.
  intros pls Hi HK Hs Hw Hh Hn Hw' Hh' H0 H1 H2 Hr Ho Hp. destruct (three_known _ _ _ _ _ _ _ _ _ _ _ Hi) as (K0 & K1 & K2 & ->).
  pose proof (planes_complete t0 t1 t2 cd0 cd1 cd2 K0 K1 K2 HK (pi_coefs _ _ _ _ _ _ _ _ _ Hi)) as E.
  destruct (luma_file cpu o ps q q1 q2 w h t0 t1 t2 cd0 cd1 cd2 is K0 K1 K2 n 217 sfx) as [X|[_ C]]; auto; [now rewrite E| |contradiction].
  assert (E' : map (known_block K0) (cd_blocks cd0) = cd_blocks cd0) by exact (f_equal (fun l => pl_blocks (hd no_plane l)) E).
  now rewrite E' in X.
Qed.
Lemma rgb_complete cpu o ps q q1 q2 w h t0 t1 t2 cd0 cd1 cd2 is Ks n sfx m :
  let pls := [mkPlane (qd_values t0) (cd_blocks cd0); mkPlane (qd_values t1) (cd_blocks cd1); mkPlane (qd_values t2) (cd_blocks cd2)] in
  progressive_image ps (Colour 1 1 q q1 q2) w h [cd0; cd1; cd2] is Ks n sfx -> Forall complete Ks -> short_end (image_geo (Colour 1 1 q q1 q2) w h) [cd0; cd1; cd2] [] is ->
  w <= o_max_width o -> h <= o_max_height o -> n <= o_max_scans o -> w <= 65527 -> h <= 65527 ->
  last_quant (quants ps) q = Some t0 -> last_quant (quants ps) q1 = Some t1 -> last_quant (quants ps) q2 = Some t2 ->
  Forall plane_in_range pls -> o_colorspace o = RGB -> cpu <> Sse41 \/ o_use_unsafe o = false \/ 22 <= w ->
  w < 16 /\ m <= w \/ 16 <= w /\ m <= 16 * (8 * ((w + 7) / 8) / 16 - 1) /\ 3 * m <= 3 * w - 64 ->
  exists px, fst (decode_buffer (new_with_options cpu o) (file 194 ps (Colour 1 1 q q1 q2) w h is sfx)) = Ok px /\ close_to_rgb m pls w h px.
Proof.
  intros pls Hi HK Hs Hw Hh Hn Hw' Hh' H0 H1 H2 Hr Ho Hc Hm. destruct (three_known _ _ _ _ _ _ _ _ _ _ _ Hi) as (K0 & K1 & K2 & ->).
  pose proof (planes_complete t0 t1 t2 cd0 cd1 cd2 K0 K1 K2 HK (pi_coefs _ _ _ _ _ _ _ _ _ Hi)) as E. fold pls in E. rewrite <- E in *.
  assert (Hk : kernel_fits (choose_color_convert cpu (o_use_unsafe o)) 3 w (8 * ((w + 7) / 8))) by (clear - Hc; now apply chosen_fits).
  destruct (rgb_file cpu o ps q q1 q2 w h t0 t1 t2 cd0 cd1 cd2 is K0 K1 K2 n 217 sfx) with (m := m) as [X|[_ C]]; auto. contradiction.
Qed.
