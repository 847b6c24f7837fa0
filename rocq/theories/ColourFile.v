(** Colour progressive files without subsampling: from the bytes to the pixels. *)
From Coq Require Import ZArith String List Bool Lia.
From Coq Require Import ZifyBool ZifyNat ZifyN.
From Verif Require Import Base Types Huffman State Bitstream Headers Idct Color Simd Worker Mcu McuProg Decoder.
From Verif Require Import SpecHuffman SpecSegments SpecExtend SpecBits SpecBlock SpecProg SpecScript SpecImage SpecIdct SpecColor SpecPixels.
From Verif Require DecodeInv.
From Verif Require Import Obs ObsProg BaseFacts ColorFacts Placement IdctFacts Strip HeaderFile ProgFile ProgImage GrayFile ColourImage.
Import ListNotations.
Local Open Scope Z_scope.
Local Open Scope res_scope.
Ltac Zify.zify_post_hook ::= Z.div_mod_to_equations.

Lemma nth_zip {A B} (a : list A) (b : list B) i x y : (i < length a)%nat -> (i < length b)%nat -> nth i (zip a b) (x, y) = (nth i a x, nth i b y).
Proof.
  revert b i. induction a as [|p a IH]; intros [|q b] [|i]; cbn [length zip nth]; try lia; [reflexivity|]. intros H1 H2. apply IH; lia.
Qed.
Lemma zip_length {A B} (a : list A) (b : list B) : length (zip a b) = Nat.min (length a) (length b).
Proof. revert b. induction a as [|p a IH]; intros [|q b]; cbn [length zip]; try lia. rewrite IH. lia. Qed.
Lemma zip_Forall {A B} (P : A -> Prop) (Q : B -> Prop) a b : Forall P a -> Forall Q b -> Forall (fun t => P (fst t) /\ Q (snd t)) (zip a b).
Proof.
  intros Ha. revert b. induction Ha as [|p a Hp _ IH]; intros b Hb; [constructor|].
  destruct Hb as [|q b Hq Hb]; [constructor|]. cbn [zip]. constructor; [now split|]. now apply IH.
Qed.
Lemma nth_zip3 {A B C} (a : list A) (b : list B) (c : list C) i x y z : (i < length a)%nat -> (i < length b)%nat -> (i < length c)%nat ->
  nth i (zip3 a b c) (x, y, z) = (nth i a x, nth i b y, nth i c z).
Proof. intros H1 H2 H3. unfold zip3. rewrite nth_zip, nth_zip by (rewrite ?zip_length; lia). reflexivity. Qed.
Lemma zip3_length {A B C} (a : list A) (b : list B) (c : list C) :
  length (zip3 a b c) = Nat.min (length a) (Nat.min (length b) (length c)).
Proof. unfold zip3. rewrite !zip_length. lia. Qed.
Lemma zip3_Forall {A B C} (P : A -> Prop) (Q : B -> Prop) (R : C -> Prop) a b c : Forall P a -> Forall Q b -> Forall R c ->
  Forall (fun t => let '(x, y, z) := t in P x /\ Q y /\ R z) (zip3 a b c).
Proof.
  intros Ha Hb Hc. unfold zip3. pose proof (zip_Forall _ _ _ _ (zip_Forall _ _ _ _ Ha Hb) Hc) as H.
  eapply Forall_impl; [|exact H]. intros [[x y] z] [[H1 H2] H3]. cbn [fst snd] in *. auto.
Qed.

(** The block the decoder renders at row [r], column [c] *)
Definition shown (n : Z) (K : knowledge) (blocks : list (list Z)) (r c : Z) : list Z :=
  natural (known_block K (nth (Z.to_nat (r / 8 * n + c / 8)) blocks [])).

Lemma strip_shown n h K blocks plane r c : 0 < n -> shows n n blocks K plane -> 64 * n * h <= zlen plane -> 
  Z.of_nat (length blocks) = n * h -> 0 <= r / 8 < h -> 0 <= c / 8 < n ->
  firstn 64 (skipn (Z.to_nat (64 * (c / 8))) (firstn (Z.to_nat (64 * n)) (skipn (Z.to_nat (r / 8) * Z.to_nat (64 * n)) plane)))
  = shown n K blocks r c.
Proof.
  intros Hn Hs Hl Hbl Hr8 Hc8. rewrite strip_block by tauto. pose proof (block_inside _ _ _ _ Hr8 Hc8) as Hin.
  unfold shown. clear - Hs Hl Hin Hbl Hn. set (b := r / 8 * n + c / 8) in *. clearbody b.
  assert (Hat : block_at n n (Z.of_nat (Z.to_nat b)) = 64 * b) by (rewrite block_at_row, Z2Nat.id by lia; reflexivity).
  rewrite <- (shown_block _ _ _ _ _ (Z.to_nat b) Hs); rewrite ?Hat; try reflexivity; lia.
Qed.

Lemma rows_in_plane (p : list Z) n hb m : 0 < n -> 64 * n * hb <= zlen p -> m = (length p / Z.to_nat (64 * n))%nat -> hb <= Z.of_nat m.
Proof.
  intros Hn Hpl ->. rewrite Nat2Z.inj_div, Z2Nat.id by lia. apply Z.div_le_lower_bound; [lia|]. exact Hpl.
Qed.
Lemma rows_in_output w h nc hb : 0 < w -> 0 < h -> 0 < nc -> 8 * hb <= h + 7 -> 0 <= hb -> hb <= (w + 8) * (h + 8) * nc / (8 * (w * nc)).
Proof.
  intros Hw Hh Hn Hb Hb0. assert (0 < w * nc) by (apply Z.mul_pos_pos; lia). apply Z.div_le_lower_bound; [lia|].
  assert (w * nc * (8 * hb) <= w * nc * (h + 8)) by (apply Z.mul_le_mono_nonneg_l; lia).
  assert (w * nc * (h + 8) <= (w + 8) * nc * (h + 8)).
  { apply Z.mul_le_mono_nonneg_r; [lia|]. apply Z.mul_le_mono_nonneg_r; lia. }
  lia.
Qed.
Lemma min3_le hb a b c d : hb <= Z.of_nat a -> hb <= Z.of_nat b -> hb <= Z.of_nat c -> hb <= d -> 
  hb <= Z.of_nat (Nat.min (Z.to_nat d) (Nat.min a (Nat.min b c))).
Proof. lia. Qed.
Lemma below x hb m : 0 <= x < hb -> hb <= Z.of_nat m -> (Z.to_nat x < m)%nat.
Proof. lia. Qed.
Lemma below' x hb d : 0 <= x < hb -> hb <= d -> (Z.to_nat x < Z.to_nat d)%nat.
Proof. lia. Qed.

Definition bytes_per_pixel (o : options) : Z := num_components (o_colorspace o).

(** * From jobs to pixels *)
Section pixels.
Variables (cpu : isa) (o : options) (w h : Z).
Let n := (w + 7) / 8.
Let hb := (h + 7) / 8.
Let nc := bytes_per_pixel o.
Hypothesis Hw : 0 < w <= 65527.
Hypothesis Hh : 0 < h <= 65527.
(** What is rendered: component [k] at row [r], column [x] *)
Variable rendered : Z -> Z -> Z -> Z.

Record finish_jobs (g : geom) (a b c : component) (jobs : list (list (list Z))) : Prop := {
  fj_comps : g_comps g = [a; b; c];
  fj_hv : c_h a = 1 /\ c_v a = 1;
  fj_stride : c_stride a = 8 * n /\ c_stride b = 8 * n /\ c_stride c = 8 * n;
  fj_qt : length (c_qt a) = 64%nat /\ length (c_qt b) = 64%nat /\ length (c_qt c) = 64%nat;
  fj_in : g_in g = YCbCr;
  fj_out : g_out g = o_colorspace o;
  fj_width : g_width g = w;
  fj_chunk : g_chunk g = 8 * (w * nc);
  fj_cc : g_cc g = choose_color_convert cpu (o_use_unsafe o);
  fj_jobs : Forall (strips g n) jobs;
  fj_len : hb <= zlen jobs;
  fj_at : forall k r x, 0 <= k < 3 -> k = 0 \/ o_colorspace o <> GRAYSCALE -> 0 <= r < h -> 0 <= x < w ->
    strip_at g a b c (nth (Z.to_nat (r / 8)) jobs []) k (r mod 8) x = rendered k r x }.

(** The three kinds of output *)
Lemma ycc_pixels g a b c jobs : finish_jobs g a b c jobs -> o_colorspace o = YCbCr ->
  exists px, rbind (run_jobs g jobs) (fun os => Ok (assemble os (g_total g) (w * nc * h))) = Ok px /\ zlen px = w * h * 3 /\
    forall r x k, 0 <= r < h -> 0 <= x < w -> 0 <= k < 3 -> zn px (at_pixel w 3 r x k) = u8 (rendered k r x).
Proof.
  intros [] Ho. assert (Hnc : nc = 3) by (unfold nc, bytes_per_pixel; rewrite Ho; reflexivity). rewrite Hnc in *. rewrite Ho in *.
  destruct (assemble_rows g (w * 3) (fun j o => forall r x k, 0 <= r < 8 -> 0 <= x < g_width g -> 0 <= k < 3 ->
    zn o (r * (g_width g * 3) + (x * 3 + k)) = u8 (strip_at g a b c j k r x))) with (jobs := jobs) (h := h) (total := g_total g) as (px & E & L & P); try lia.
  { eapply Forall_impl; [|exact fj_jobs0]. intros j Hj. eapply ycc_job; eauto; try lia. }
  exists px. split; [exact E|]. split; [lia|]. intros r x k Hr Hx Hk. destruct (P r Hr) as (out & HQ & Hb).
  unfold at_pixel. replace ((r * w + x) * 3 + k) with (r * (w * 3) + (x * 3 + k)) by ring. rewrite Hb by lia.
  rewrite fj_width0 in HQ. rewrite HQ by lia. f_equal. apply fj_at0; auto. right. discriminate.
Qed.
Lemma luma_pixels g a b c jobs : finish_jobs g a b c jobs -> o_colorspace o = GRAYSCALE -> 64 * n < 9 * w ->
  exists px, rbind (run_jobs g jobs) (fun os => Ok (assemble os (g_total g) (w * nc * h))) = Ok px /\ zlen px = w * h /\
    forall r x, 0 <= r < h -> 0 <= x < w -> zn px (r * w + x) = u8 (rendered 0 r x).
Proof.
  intros [] Ho Hpad. assert (Hnc : nc = 1) by (unfold nc, bytes_per_pixel; rewrite Ho; reflexivity). rewrite Hnc, Z.mul_1_r in *. rewrite Ho in *.
  destruct (assemble_rows g w (fun j o => forall r x, 0 <= r < 8 -> 0 <= x < g_width g ->
    zn o (r * g_width g + x) = u8 (strip_at g a b c j 0 r x))) with (jobs := jobs) (h := h) (total := g_total g) as (px & E & L & P); try lia.
  { eapply Forall_impl; [|exact fj_jobs0]. intros j Hj. eapply luma_job; eauto; try lia. }
  exists px. split; [exact E|]. split; [lia|]. intros r x Hr Hx. destruct (P r Hr) as (out & HQ & Hb).
  rewrite Hb by lia. rewrite fj_width0 in HQ. rewrite HQ by lia. f_equal. apply fj_at0; auto; lia.
Qed.
Lemma rgb_pixels m g a b c jobs : finish_jobs g a b c jobs -> o_colorspace o = RGB -> kernel_fits (choose_color_convert cpu (o_use_unsafe o)) 3 w (8 * ((w + 7) / 8)) ->
  rgb_columns w m ->
  exists px, rbind (run_jobs g jobs) (fun os => Ok (assemble os (g_total g) (w * nc * h))) = Ok px /\ zlen px = w * h * 3 /\
    forall r x k, 0 <= r < h -> 0 <= x < m -> 0 <= k < 3 -> zn px (at_pixel w 3 r x k) =
      nth (Z.to_nat k) (cc_pixel (rendered 0 r x) (rendered 1 r x) (rendered 2 r x)) 0.
Proof.
  intros [] Ho Hk Hm. assert (Hnc : nc = 3) by (unfold nc, bytes_per_pixel; rewrite Ho; reflexivity). rewrite Hnc in *. rewrite Ho in *.
  assert (Hmw : m <= w) by (unfold rgb_columns in Hm; lia).
  destruct (assemble_rows g (w * 3) (fun j o => forall r c0 k, 0 <= r < 8 -> 0 <= c0 < m -> 0 <= k < 3 ->
    zn o (r * (g_width g * 3) + (c0 * 3 + k)) = nth (Z.to_nat k) (cc_pixel (strip_at g a b c j 0 r c0) (strip_at g a b c j 1 r c0) (strip_at g a b c j 2 r c0)) 0))
    with (jobs := jobs) (h := h) (total := g_total g) as (px & E & L & P); try lia.
  { eapply Forall_impl; [|exact fj_jobs0]. intros j Hj. eapply rgb_job; eauto; try lia.
    all: now rewrite ?fj_cc0, ?fj_width0. }
  exists px. split; [exact E|]. split; [lia|]. intros r x k Hr Hx Hkk. destruct (P r Hr) as (out & HQ & Hb).
  unfold at_pixel. replace ((r * w + x) * 3 + k) with (r * (w * 3) + (x * 3 + k)) by ring. rewrite Hb by lia.
  rewrite fj_width0 in HQ. rewrite HQ by lia. now rewrite !fj_at0 by (lia || (right; discriminate)).
Qed.
End pixels.

Section finish.
Variables (cpu : isa) (o : options) (q q1 q2 w h : Z) (qs : list quant_def) (t0 t1 t2 : quant_def)
  (cd0 cd1 cd2 : comp_data) (K0 K1 K2 : knowledge).
Let n := (w + 7) / 8.
Let hb := (h + 7) / 8.
Hypothesis Hq0 : last_quant qs q = Some t0.
Hypothesis Hq1 : last_quant qs q1 = Some t1.
Hypothesis Hq2 : last_quant qs q2 = Some t2.
Hypothesis Hd0 : cd_w cd0 = n /\ cd_h cd0 = hb /\ Z.of_nat (length (cd_blocks cd0)) = cd_w cd0 * cd_h cd0.
Hypothesis Hd1 : cd_w cd1 = n /\ cd_h cd1 = hb /\ Z.of_nat (length (cd_blocks cd1)) = cd_w cd1 * cd_h cd1.
Hypothesis Hd2 : cd_w cd2 = n /\ cd_h cd2 = hb /\ Z.of_nat (length (cd_blocks cd2)) = cd_w cd2 * cd_h cd2.
Hypothesis Hw : 0 < w <= 65527.
Hypothesis Hh : 0 < h <= 65527.
Let nc := bytes_per_pixel o.

(** What the decoder renders: component [k] at row [r], column [c] *)
Definition colour_sample (k r c : Z) : Z :=
  let '(t, K, cd) := nth (Z.to_nat k) [(t0, K0, cd0); (t1, K1, cd1); (t2, K2, cd2)] (t0, K0, cd0) in
  sample (kernel_of (choose_idct_func cpu (o_use_unsafe o)) (natural (qd_values t)) (shown n K (cd_blocks cd) r c)) (r mod 8) (c mod 8).

Lemma colour_finish dcts acts s :
  let F := frame_dec cpu o ProgressiveDctHuffman true (Colour 1 1 q q1 q2) w h qs dcts acts in
  erase (p_dec s) = erase F -> planes_show F [cd0; cd1; cd2] [K0; K1; K2] (p_buf s) ->
  exists g a b c jobs, finish_jobs cpu o w h colour_sample g a b c jobs /\
    fst (finish_progressive_decoding (fst (prog_counts F) * 64) s) = rbind (run_jobs g jobs) (fun os => Ok (assemble os (g_total g) (w * nc * h))).
Proof.
  intros F He Hp.
  assert (Hnc : nc = num_components (o_colorspace o)) by reflexivity. assert (Hnc0 : 0 < nc) by (rewrite Hnc; destruct (o_colorspace o); reflexivity).
  assert (Hu8 : up8 w 1 = n) by (unfold up8, n; f_equal; lia).
  assert (Hsn : 1 * (up8 w 1 * 8) / 8 = n) by (rewrite Hu8, Z.mul_1_l, Z.div_mul by lia; reflexivity).
  destruct (Hp 0%nat cd0 eq_refl) as (f0 & K' & p0 & Hf0 & HK & Hb0 & Hl0 & Hs0). injection HK as <-. injection Hf0 as <-.
  destruct (Hp 1%nat cd1 eq_refl) as (f1 & K' & p1 & Hf1 & HK & Hb1 & Hl1 & Hs1). injection HK as <-. injection Hf1 as <-.
  destruct (Hp 2%nat cd2 eq_refl) as (f2 & K' & p2 & Hf2 & HK & Hb2 & Hl2 & Hs2). injection HK as <-. injection Hf2 as <-.
  cbn [c_stride frame_component hmax] in *. rewrite Hsn in *.
  destruct Hd0 as (W0 & T0 & B0). destruct Hd1 as (W1 & T1 & B1). destruct Hd2 as (W2 & T2 & B2).
  rewrite W0, T0 in *. rewrite W1, T1 in *. rewrite W2, T2 in *.
  set (d := p_dec s) in *.
  assert (Hd : d_hmax d = 1 /\ d_vmax d = 1 /\ d_ratio d = RNone /\ d_incs d = YCbCr /\ d_inter d = false /\
    i_width (d_info d) = w /\ i_height (d_info d) = h /\ o_colorspace (d_opt d) = o_colorspace o /\ d_idct d = choose_idct_func cpu (o_use_unsafe o) /\
    d_cc d = choose_color_convert cpu (o_use_unsafe o) /\
    map erase_c (d_comps d) = map erase_c (frame_list (Colour 1 1 q q1 q2) w qs)).
  { pose proof (fun A (f : decoder -> A) => f_equal f He) as HF. repeat split.
    - exact (HF _ d_hmax). - exact (HF _ d_vmax). - exact (HF _ d_ratio). - exact (HF _ d_incs). - exact (HF _ d_inter).
    - exact (HF _ (fun d => i_width (d_info d))). - exact (HF _ (fun d => i_height (d_info d))).
    - exact (HF _ (fun d => o_colorspace (d_opt d))). - exact (HF _ d_idct). - exact (HF _ d_cc). - exact (HF _ d_comps). }
  destruct Hd as (D1 & D2 & D3 & D4 & D5 & D6 & D7 & D8 & D9 & D9' & D10).
  destruct (d_comps d) as [|c0 [|c1 [|c2 [|c3 cr]]]] eqn:Ec; try discriminate D10.
  pose proof (f_equal (fun l => nth 0 l c0) D10) as G0. pose proof (f_equal (fun l => nth 1 l c0) D10) as G1. pose proof (f_equal (fun l => nth 2 l c0) D10) as G2.
  cbn [map frame_list nth] in G0, G1, G2.
  assert (Hc0 : c_h c0 = 1 /\ c_v c0 = 1 /\ c_stride c0 = 8 * n /\ c_qt c0 = natural (qd_values t0)).
  { pose proof (fun A (f : component -> A) => f_equal f G0) as HF. repeat split.
    - exact (HF _ c_h). - exact (HF _ c_v).
    - etransitivity; [exact (HF _ c_stride)|]. cbn [c_stride erase_c frame_component set_c_act set_c_dct set_c_pred]. rewrite Hu8. lia.
    - etransitivity; [exact (HF _ c_qt)|]. cbn [c_qt erase_c frame_component set_c_act set_c_dct set_c_pred].
      unfold qt_of. now rewrite Hq0. }
  assert (Hc1 : c_h c1 = 1 /\ c_v c1 = 1 /\ c_stride c1 = 8 * n /\ c_qt c1 = natural (qd_values t1)).
  { pose proof (fun A (f : component -> A) => f_equal f G1) as HF. repeat split.
    - exact (HF _ c_h). - exact (HF _ c_v).
    - etransitivity; [exact (HF _ c_stride)|]. cbn [c_stride erase_c frame_component set_c_act set_c_dct set_c_pred]. rewrite Hu8. lia.
    - etransitivity; [exact (HF _ c_qt)|]. cbn [c_qt erase_c frame_component set_c_act set_c_dct set_c_pred].
      unfold qt_of. now rewrite Hq1. }
  assert (Hc2 : c_stride c2 = 8 * n /\ c_qt c2 = natural (qd_values t2)).
  { pose proof (fun A (f : component -> A) => f_equal f G2) as HF. repeat split.
    - etransitivity; [exact (HF _ c_stride)|]. cbn [c_stride erase_c frame_component set_c_act set_c_dct set_c_pred]. rewrite Hu8. lia.
    - etransitivity; [exact (HF _ c_qt)|]. cbn [c_qt erase_c frame_component set_c_act set_c_dct set_c_pred].
      unfold qt_of. now rewrite Hq2. }
  clear G0 G1 G2 D10.
  destruct Hc0 as (A1 & A2 & A3 & A4). destruct Hc1 as (A5 & A6 & A7 & A8). destruct Hc2 as (A9 & A10).
  assert (Hn : 0 < n) by (unfold n; lia).
  assert (Hcnt : fst (prog_counts F) = n) by reflexivity. rewrite Hcnt.
  unfold finish_progressive_decoding, bind, on_dec. fold d.
  assert (Hset : exists g, finish_setup (n * 64) d = (Ok g, d) /\ g_comps g = [c0; c1; c2] /\ g_ccap g = 64 * n /\ g_width g = w /\
     g_chunk g = 8 * (w * nc) /\ g_in g = YCbCr /\ g_out g = o_colorspace o /\ g_idct g = choose_idct_func cpu (o_use_unsafe o) /\
     g_cc g = choose_color_convert cpu (o_use_unsafe o) /\
     g_total g = (w + 8) * (h + 8) * nc /\ g_mcuw g = n * 64 /\ g_bias g = 1).
  { unfold finish_setup, set_upsampling, bind, get, ret, lift. rewrite D1, D2. cbn [Z.eqb andb Pos.eqb].
    rewrite D3, D4, D5. cbn [ratio_is_h ratio_is_hv cs_eqb andb]. cbv iota beta. rewrite Ec. change (at_ [c0; c1; c2] 0) with (Ok c0). cbv iota beta.
    eexists. split; [reflexivity|]. cbn [g_comps g_ccap g_width g_chunk g_in g_out g_idct g_cc g_total g_mcuw g_bias].
    rewrite D1, D2, D8, D9, D9', <- Hnc. unfold capacity, extra_space. rewrite D5, D6, D7, A1, A2.
    unfold u16. rewrite !Z.mod_small by lia. repeat (split; [reflexivity || assumption || lia || ring|]). reflexivity. }
  destruct Hset as (g & Eg & I1 & I2 & I3 & I4 & I5 & I6 & I7 & I7' & I8 & I9 & I10). rewrite Eg. unfold get, lift. cbn [p_dec p_buf].
  unfold prog_jobs. rewrite I4. assert (0 < w * nc) by (apply Z.mul_pos_pos; lia).
  replace (8 * (w * nc) =? 0) with false by lia. rewrite D4, I2. change (num_components YCbCr =? 3) with true.
  rewrite Ec. change (at_ [c0; c1; c2] 1) with (Ok c1). cbv iota beta. rewrite I9, I10, A5, A6.
  assert (HP : chan (p_buf s) 0 = p0 /\ chan (p_buf s) 1 = p1 /\ chan (p_buf s) 2 = p2).
  { unfold chan. change (Z.of_nat 0) with 0 in Hb0. change (Z.of_nat 1) with 1 in Hb1. change (Z.of_nat 2) with 2 in Hb2.
    unfold zget in Hb0, Hb1, Hb2. cbn [Z.ltb Z.compare Z.to_nat Pos.to_nat] in Hb0, Hb1, Hb2.
    repeat split; apply nth_error_nth; assumption. }
  destruct HP as (-> & -> & ->). replace (n * 64 * 1 * 1 * 1) with (64 * n) by ring.
  unfold chunks_exact. replace (64 * n <=? 0) with false by lia. cbv zeta iota beta.
  destruct (chunks_many p0 (Z.to_nat (64 * n)) ltac:(lia)) as (M01 & M02 & M03).
  destruct (chunks_many p1 (Z.to_nat (64 * n)) ltac:(lia)) as (M11 & M12 & M13).
  destruct (chunks_many p2 (Z.to_nat (64 * n)) ltac:(lia)) as (M21 & M22 & M23).
  set (ys := chunks_n (Z.to_nat (64 * n)) p0) in *. set (bs := chunks_n (Z.to_nat (64 * n)) p1) in *. set (rs := chunks_n (Z.to_nat (64 * n)) p2) in *.
  pose proof (rows_in_plane _ _ _ _ Hn Hl0 M02) as Hys. pose proof (rows_in_plane _ _ _ _ Hn Hl1 M12) as Hbs. pose proof (rows_in_plane _ _ _ _ Hn Hl2 M22) as Hrs.
  assert (Htc : hb <= g_total g / (8 * (w * nc))).
  { rewrite I8. clear - Hw Hh Hnc0. apply rows_in_output; unfold hb; lia. }
  set (f := fun t : list Z * list Z * list Z => let '(y, cb, cr) := t in [y; cb; cr]).
  set (jobs := firstn (Z.to_nat (g_total g / (8 * (w * nc)))) (map f (zip3 ys bs rs))).
  exists g, c0, c1, c2, jobs. split.
  - split; auto.
    + rewrite A4, A8, A10. repeat split; apply natural_length.
    + apply DecodeInv.Forall_firstn, Forall_map.
      pose proof (zip3_Forall _ _ _ _ _ _ M01 M11 M21) as HZ. eapply Forall_impl; [|exact HZ].
      intros [[y b] r] (L0 & L1 & L2). exists y, b, r. unfold zlen. rewrite L0, L1, L2. clear - Hn. split; [reflexivity|]. lia.
    + unfold zlen, jobs. rewrite firstn_length, map_length, zip3_length. now apply min3_le.
    + intros k r x Hk _ Hr Hx.
      assert (Hr8 : 0 <= r / 8 < hb) by (clear - Hr; unfold hb; lia). assert (Hc8 : 0 <= x / 8 < n) by (clear - Hx; unfold n; lia).
      pose proof (below _ _ _ Hr8 Hys) as By. pose proof (below _ _ _ Hr8 Hbs) as Bb. pose proof (below _ _ _ Hr8 Hrs) as Br.
      assert (Hjn : nth (Z.to_nat (r / 8)) jobs [] = [nth (Z.to_nat (r / 8)) ys []; nth (Z.to_nat (r / 8)) bs []; nth (Z.to_nat (r / 8)) rs []]).
      { unfold jobs. rewrite nth_firstn' by (eapply below'; eauto).
        rewrite (nth_indep _ [] (f ([], [], []))) by (rewrite map_length, zip3_length; clear - By Bb Br; lia).
        rewrite map_nth, nth_zip3 by assumption. reflexivity. }
      rewrite Hjn. unfold strip_at, colour_sample. rewrite I7.
      assert (k = 0 \/ k = 1 \/ k = 2) as [-> | [-> | ->]] by (clear - Hk; lia).
      * change (nth (Z.to_nat 0) [c0; c1; c2] c0) with c0. cbn [chan nth Z.to_nat]. rewrite A4, M03 by (rewrite <- M02; assumption).
        rewrite (strip_shown n hb K0 (cd_blocks cd0)) by auto. reflexivity.
      * change (nth (Z.to_nat 1) [c0; c1; c2] c0) with c1. change (Z.to_nat 1) with 1%nat. cbn [chan nth]. rewrite A8, M13 by (rewrite <- M12; assumption).
        rewrite (strip_shown n hb K1 (cd_blocks cd1)) by auto. reflexivity.
      * change (nth (Z.to_nat 2) [c0; c1; c2] c0) with c2. change (Z.to_nat 2) with 2%nat. cbn [chan nth]. rewrite A10, M23 by (rewrite <- M22; assumption).
        rewrite (strip_shown n hb K2 (cd_blocks cd2)) by auto. reflexivity.
  - assert (Ho : output_len d = w * nc * h) by (unfold output_len; rewrite D6, D7, D8, <- Hnc; ring).
    fold f. fold jobs. destruct (run_jobs g jobs); try reflexivity. cbn [rbind]. unfold ret. cbn [fst]. now rewrite Ho.
Qed.
End finish.
