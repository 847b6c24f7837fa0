(** Colour progressive files with sampling factors: from the coefficients to the jobs of the workers. *)
From Coq Require Import ZArith String List Bool Lia.
From Coq Require Import ZifyBool ZifyNat ZifyN.
From Verif Require Import Base Types Huffman State Bitstream Headers Idct Upsample Color Simd Worker Mcu McuProg Decoder.
From Verif Require Import SpecHuffman SpecSegments SpecExtend SpecBits SpecBlock SpecProg SpecInter SpecScript SpecImage SpecIdct SpecColor SpecPixels SpecColourPixels SpecBasePixels SpecSampledPixels.
From Verif Require DecodeInv.
From Verif Require Import Obs ObsProg BaseFacts ColorFacts Placement IdctFacts Strip HeaderFile ProgFile ProgImage GrayFile ColourImage ColourFile BaseColour SampledImage SampledFile BaseColourFile.
Import ListNotations.
Local Open Scope Z_scope.
Ltac Zify.zify_post_hook ::= Z.div_mod_to_equations.

Lemma set_upsampling_ok d c0 c1 c2 hs vs : 1 <= hs <= 2 -> 1 <= vs <= 2 -> d_comps d = [c0; c1; c2] -> d_hmax d = hs -> d_vmax d = vs -> d_ratio d = RNone ->
  c_ups c1 = UpNoOp -> c_ups c2 = UpNoOp -> set_upsampling d = (Ok tt, layout_dec d c0 c1 c2 hs vs).
Proof.
  intros Hh Hv Hc D1 D2 D3 B6 C6. unfold layout_dec, layout_comps, layout_ups, layout_ratio.
  assert (hs = 1 \/ hs = 2) as [Eh|Eh] by lia; assert (vs = 1 \/ vs = 2) as [Ev|Ev] by lia; rewrite Eh, Ev in *; cbn [Z.eqb Pos.eqb negb orb];
  unfold set_upsampling, bind, get, modify; rewrite D1, D2; cbn [Z.eqb Pos.eqb andb].
  - unfold ret. f_equal. rewrite <- D3. replace (set_c_ups UpNoOp c1) with c1 by (rewrite <- B6; destruct c1; reflexivity).
    replace (set_c_ups UpNoOp c2) with c2 by (rewrite <- C6; destruct c2; reflexivity). rewrite <- Hc. clear. destruct d; reflexivity.
  - unfold set_up_samplers. cbn [d_comps set_d_ratio]. rewrite Hc. reflexivity.
  - unfold set_up_samplers. cbn [d_comps set_d_ratio]. rewrite Hc. reflexivity.
  - unfold set_up_samplers. cbn [d_comps set_d_ratio]. rewrite Hc. reflexivity.
Qed.

(** A block of the chunk that holds line [r] of the plane *)
Lemma chunk_shown cw ch S R N K blocks plane r x : 0 < cw <= S -> 0 < R -> shows cw S blocks K plane -> 64 * (S * (R * N)) <= zlen plane ->
  Z.of_nat (length blocks) = cw * ch -> ch <= R * N -> 0 <= r -> r / 8 < ch -> 0 <= x / 8 < cw ->
  firstn 64 (skipn (Z.to_nat (64 * (r mod (8 * R) / 8 * S + x / 8)))
    (firstn (Z.to_nat (64 * S * R)) (skipn (Z.to_nat (r / (8 * R)) * Z.to_nat (64 * S * R)) plane)))
  = shown cw K blocks r x.
Proof.
  intros Hcw HR Hs Hl Hbl Hch Hr Hr8 Hx. destruct (line_block r R HR Hr) as (D1 & _ & D3). rewrite D1.
  set (i := r / (8 * R)) in *. clearbody i.
  assert (Hr0 : 0 <= r / 8) by (apply Z.div_pos; lia). set (y := r / 8) in *. unfold shown. fold y. clearbody y. set (c := x / 8) in *. clearbody c. clear Hr.
  assert (Hi0 : 0 <= i) by (rewrite D3; apply Z.div_pos; lia).
  assert (Hin : 0 <= y - i * R < R).
  { pose proof (Z.div_mod y R ltac:(clear - HR; lia)) as M. pose proof (Z.mod_pos_bound y R HR) as M2. rewrite <- D3 in M. clear - M M2. lia. }
  set (v := y - i * R) in *. assert (Hv : y = i * R + v) by (unfold v; ring). clearbody v. clear D1 D3.
  assert (Hvs : v * S + c < R * S) by (assert (v * S <= (R - 1) * S) by (apply Z.mul_le_mono_nonneg_r; lia); lia).
  assert (H0 : 0 <= v * S) by (apply Z.mul_nonneg_nonneg; lia). assert (H1 : 0 <= i * (S * R)) by (repeat apply Z.mul_nonneg_nonneg; lia).
  rewrite skipn_firstn_comm, firstn_firstn, BaseFacts.skipn_skipn.
  assert (HSR : 64 * S * R = 64 * (R * S)) by ring.
  replace (Nat.min 64 (Z.to_nat (64 * S * R) - Z.to_nat (64 * (v * S + c)))) with 64%nat by (rewrite HSR; clear - Hvs Hx H0; lia).
  assert (Hb : 0 <= y * cw + c < cw * ch).
  { assert (y * cw <= (ch - 1) * cw) by (apply Z.mul_le_mono_nonneg_r; lia). assert (0 <= y * cw) by (apply Z.mul_nonneg_nonneg; lia). lia. }
  assert (Hat : block_at cw S (y * cw + c) = 64 * (c + y * S)).
  { unfold block_at. rewrite (Z.add_comm (y * cw) c), Z.mod_add, Z.div_add by lia. rewrite Z.mod_small, Z.div_small by lia. ring. }
  assert (Hp : (Z.to_nat (64 * (v * S + c)) + Z.to_nat i * Z.to_nat (64 * S * R))%nat = Z.to_nat (block_at cw S (y * cw + c))).
  { rewrite Hat, <- Z2Nat.inj_mul, <- Z2Nat.inj_add by lia. f_equal. rewrite Hv. ring. }
  replace (Z.to_nat i * Z.to_nat (64 * S * R) + Z.to_nat (64 * (v * S + c)))%nat with (Z.to_nat (block_at cw S (y * cw + c))) by lia.
  pose proof (shown_block cw S blocks K plane (Z.to_nat (y * cw + c)) Hs) as HB. rewrite Z2Nat.id in HB by lia. apply HB.
  - clear - Hb Hbl. lia.
  - rewrite Hat. assert (0 <= y * S) by (apply Z.mul_nonneg_nonneg; lia). lia.
  - rewrite Hat. assert (y * S <= (R * N - 1) * S) by (apply Z.mul_le_mono_nonneg_r; lia).
    assert ((R * N - 1) * S = S * (R * N) - S) by ring. lia.
Qed.
Lemma chunks_in_plane (p : list Z) sz N m : 0 < sz -> sz * N <= zlen p -> m = (length p / Z.to_nat sz)%nat -> N <= Z.of_nat m.
Proof. intros Hn Hpl ->. rewrite Nat2Z.inj_div, Z2Nat.id by lia. apply Z.div_le_lower_bound; [lia|]. exact Hpl. Qed.

Section finish.
Variables (cpu : isa) (o : options) (hs vs q q1 q2 w h : Z) (qs : list quant_def) (t0 t1 t2 : quant_def)
  (cd0 cd1 cd2 : comp_data) (K0 K1 K2 : knowledge).
Let mx := up8 w hs.
Let my := up8 h vs.
Hypothesis Hhs : 1 <= hs <= 2.
Hypothesis Hvs : 1 <= vs <= 2.
Hypothesis Hq0 : last_quant qs q = Some t0.
Hypothesis Hq1 : last_quant qs q1 = Some t1.
Hypothesis Hq2 : last_quant qs q2 = Some t2.
Hypothesis Hdat : forall k cd, nth_error [cd0; cd1; cd2] k = Some cd ->
  cd_w cd = (samples hs k w + 7) / 8 /\ cd_h cd = (samples vs k h + 7) / 8 /\ Z.of_nat (length (cd_blocks cd)) = cd_w cd * cd_h cd.
Hypothesis Hw : 0 < w <= 65527.
Hypothesis Hh : 0 < h <= 65527.
Hypothesis Heven : my mod hs = 0.
Hypothesis Hroom : 8 * vs * my * w <= (w + 8) * (h + 8) + (if (hs =? 1) && (vs =? 1) then 0 else 128 * h).
Let nc := bytes_per_pixel o.

(** What the decoder renders: component [k] at row [r], column [c] of its plane *)
Definition prog_sample (k r c : Z) : Z :=
  let '(t, K, cd) := nth (Z.to_nat k) [(t0, K0, cd0); (t1, K1, cd1); (t2, K2, cd2)] (t0, K0, cd0) in
  sample (kernel_of (choose_idct_func cpu (o_use_unsafe o)) (natural (qd_values t)) (shown ((samples hs (Z.to_nat k) w + 7) / 8) K (cd_blocks cd) r c)) (r mod 8) (c mod 8).

Lemma sampled_finish dcts acts s :
  let F := frame_dec cpu o ProgressiveDctHuffman true (Colour hs vs q q1 q2) w h qs dcts acts in
  erase (p_dec s) = erase F -> planes_show F [cd0; cd1; cd2] [K0; K1; K2] (p_buf s) ->
  roomy (image_geo (Colour hs vs q q1 q2) w h) [cd0; cd1; cd2] (p_buf s) ->
  exists g a b c jobs, sampled_jobs cpu o hs vs w h prog_sample g a b c jobs /\
    fst (finish_progressive_decoding (fst (prog_counts F) * 64) s) = rbind (run_jobs g jobs) (fun os => Ok (assemble os (g_total g) (w * nc * h))).
Proof.
  intros F He Hp Hro.
  assert (Hnc : nc = num_components (o_colorspace o)) by reflexivity. assert (Hnc0 : 0 < nc) by (rewrite Hnc; destruct (o_colorspace o); reflexivity).
  assert (Hmx : 0 < mx) by (unfold mx, up8; clear - Hw Hhs; assert (hs = 1 \/ hs = 2) as [-> | ->] by lia; lia).
  assert (Hmy : 0 < my) by (unfold my, up8; clear - Hh Hvs; assert (vs = 1 \/ vs = 2) as [-> | ->] by lia; lia).
  assert (HN : my = hs * (my / hs)) by (clear - Heven Hhs; apply Z.div_exact; lia). set (N := my / hs) in *.
  destruct (Hp 0%nat cd0 eq_refl) as (f0 & K' & p0 & Hf0 & HK & Hb0 & _ & Hs0). injection HK as <-. injection Hf0 as <-.
  destruct (Hp 1%nat cd1 eq_refl) as (f1 & K' & p1 & Hf1 & HK & Hb1 & _ & Hs1). injection HK as <-. injection Hf1 as <-.
  destruct (Hp 2%nat cd2 eq_refl) as (f2 & K' & p2 & Hf2 & HK & Hb2 & _ & Hs2). injection HK as <-. injection Hf2 as <-.
  destruct (Hro 0%nat cd0 eq_refl) as (p' & Hb' & Hl0). rewrite Hb0 in Hb'. injection Hb' as <-.
  destruct (Hro 1%nat cd1 eq_refl) as (p' & Hb' & Hl1). rewrite Hb1 in Hb'. injection Hb' as <-.
  destruct (Hro 2%nat cd2 eq_refl) as (p' & Hb' & Hl2). rewrite Hb2 in Hb'. injection Hb' as <-.
  clear Hp Hro.
  assert (Eg1 : up_div w (8 * hs) = mx) by (unfold up_div, mx, up8; f_equal; lia). assert (Eg2 : up_div h (8 * vs) = my) by (unfold up_div, my, up8; f_equal; lia).
  unfold factor, image_geo in Hl0, Hl1, Hl2. cbn [g_mx g_my g_factors hmax vmax factors nth fst snd] in Hl0, Hl1, Hl2. rewrite Eg1, Eg2 in *.
  cbn [c_stride frame_component hmax] in *. fold mx in Hs0, Hs1, Hs2.
  replace (hs * (mx * 8) / 8) with (mx * hs) in Hs0 by (replace (hs * (mx * 8)) with (mx * hs * 8) by ring; now rewrite Z.div_mul by lia).
  replace (1 * (mx * 8) / 8) with mx in Hs1, Hs2 by (rewrite Z.mul_1_l; now rewrite Z.div_mul by lia).
  destruct (Hdat 0%nat cd0 eq_refl) as (W0 & T0 & B0). destruct (Hdat 1%nat cd1 eq_refl) as (W1 & T1 & B1). destruct (Hdat 2%nat cd2 eq_refl) as (W2 & T2 & B2).
  rewrite W0, T0 in *. rewrite W1, T1 in *. rewrite W2, T2 in *.
  set (d := p_dec s) in *.
  assert (Hd : d_hmax d = hs /\ d_vmax d = vs /\ d_ratio d = RNone /\ d_incs d = YCbCr /\ d_inter d = negb (hs =? 1) || negb (vs =? 1) /\
    i_width (d_info d) = w /\ i_height (d_info d) = h /\ o_colorspace (d_opt d) = o_colorspace o /\ d_idct d = choose_idct_func cpu (o_use_unsafe o) /\
    d_cc d = choose_color_convert cpu (o_use_unsafe o) /\ (d_isa d = cpu /\ o_use_unsafe (d_opt d) = o_use_unsafe o) /\
    map erase_c (d_comps d) = map erase_c (frame_list (Colour hs vs q q1 q2) w qs)).
  { pose proof (fun A (f : decoder -> A) => f_equal f He) as HF. repeat split.
    - exact (HF _ d_hmax). - exact (HF _ d_vmax). - exact (HF _ d_ratio). - exact (HF _ d_incs). - exact (HF _ d_inter).
    - exact (HF _ (fun d => i_width (d_info d))). - exact (HF _ (fun d => i_height (d_info d))).
    - exact (HF _ (fun d => o_colorspace (d_opt d))). - exact (HF _ d_idct). - exact (HF _ d_cc).
    - exact (HF _ d_isa). - exact (HF _ (fun d => o_use_unsafe (d_opt d))). - exact (HF _ d_comps). }
  destruct Hd as (D1 & D2 & D3 & D4 & D5 & D6 & D7 & D8 & D9 & D9' & Davx & D10).
  destruct (d_comps d) as [|c0 [|c1 [|c2 [|c3 cr]]]] eqn:Ec; try discriminate D10.
  pose proof (f_equal (fun l => nth 0 l c0) D10) as G0. pose proof (f_equal (fun l => nth 1 l c0) D10) as G1. pose proof (f_equal (fun l => nth 2 l c0) D10) as G2.
  cbn [map frame_list nth] in G0, G1, G2.
  assert (Hc0 : c_h c0 = hs /\ c_v c0 = vs /\ c_stride c0 = 8 * (mx * hs) /\ c_qt c0 = natural (qd_values t0)).
  { pose proof (fun A (f : component -> A) => f_equal f G0) as HF. repeat split.
    - exact (HF _ c_h). - exact (HF _ c_v).
    - etransitivity; [exact (HF _ c_stride)|]. cbn [c_stride erase_c frame_component set_c_act set_c_dct set_c_pred]. fold mx. ring.
    - etransitivity; [exact (HF _ c_qt)|]. cbn [c_qt erase_c frame_component set_c_act set_c_dct set_c_pred].
      unfold qt_of. now rewrite Hq0. }
  assert (Hc1 : c_h c1 = 1 /\ c_v c1 = 1 /\ c_stride c1 = 8 * mx /\ c_qt c1 = natural (qd_values t1) /\ c_ups c1 = UpNoOp).
  { pose proof (fun A (f : component -> A) => f_equal f G1) as HF. repeat split.
    - exact (HF _ c_h). - exact (HF _ c_v).
    - etransitivity; [exact (HF _ c_stride)|]. cbn [c_stride erase_c frame_component set_c_act set_c_dct set_c_pred]. fold mx. ring.
    - etransitivity; [exact (HF _ c_qt)|]. cbn [c_qt erase_c frame_component set_c_act set_c_dct set_c_pred].
      unfold qt_of. now rewrite Hq1.
    - exact (HF _ c_ups). }
  assert (Hc2 : c_stride c2 = 8 * mx /\ c_qt c2 = natural (qd_values t2) /\ c_ups c2 = UpNoOp).
  { pose proof (fun A (f : component -> A) => f_equal f G2) as HF. repeat split.
    - etransitivity; [exact (HF _ c_stride)|]. cbn [c_stride erase_c frame_component set_c_act set_c_dct set_c_pred]. fold mx. ring.
    - etransitivity; [exact (HF _ c_qt)|]. cbn [c_qt erase_c frame_component set_c_act set_c_dct set_c_pred].
      unfold qt_of. now rewrite Hq2.
    - exact (HF _ c_ups). }
  clear G0 G1 G2 D10.
  destruct Hc0 as (A1 & A2 & A3 & A4). destruct Hc1 as (A5 & A6 & A7 & A8 & A8'). destruct Hc2 as (A9 & A10 & A10').
  assert (Hcnt : fst (prog_counts F) = mx).
  { unfold prog_counts, F, frame_dec. cbn [d_inter d_mcux d_info hmax vmax fst]. fold mx.
    destruct (negb (hs =? 1) || negb (vs =? 1)) eqn:Ei; [reflexivity|]. cbn [i_width fst]. unfold mx, up8. assert (hs = 1) as -> by (clear - Ei; lia). f_equal; clear; lia. }
  rewrite Hcnt. clear Hcnt. clearbody F.
  unfold finish_progressive_decoding, bind, on_dec. fold d.
  set (d' := layout_dec d c0 c1 c2 hs vs). set (u := layout_ups d hs vs).
  set (b1 := set_c_ups u c1). set (b2 := set_c_ups u c2).
  set (Sy := mx * hs). set (Ry := hs * vs).
  assert (Hset : exists g, finish_setup (mx * 64) d = (Ok g, d') /\ g_comps g = [c0; b1; b2] /\ g_ccap g = 64 * Sy * Ry /\ g_width g = w /\
     g_chunk g = 8 * (hs * vs) * (w * nc) /\ g_in g = YCbCr /\ g_out g = o_colorspace o /\ g_idct g = choose_idct_func cpu (o_use_unsafe o) /\
     g_cc g = choose_color_convert cpu (o_use_unsafe o) /\
     g_total g = ((w + 8) * (h + 8) + (if (hs =? 1) && (vs =? 1) then 0 else 128 * h)) * nc /\ g_mcuw g * 1 * 1 * g_bias g = 64 * mx * hs).
  { unfold finish_setup, bind. rewrite (set_upsampling_ok d c0 c1 c2 hs vs) by assumption. fold d'. unfold get, ret, lift.
    change (d_ratio d') with (layout_ratio hs vs). change (d_incs d') with (d_incs d). change (d_inter d') with (d_inter d).
    rewrite D4. cbn [cs_eqb andb]. cbv iota beta. change (d_comps d') with [c0; b1; b2]. change (at_ [c0; b1; b2] 0) with (Ok c0). cbv iota beta.
    eexists. split; [reflexivity|]. cbn [g_comps g_ccap g_width g_chunk g_in g_out g_idct g_cc g_total g_mcuw g_bias].
    change (d_incs d') with (d_incs d). change (d_opt d') with (d_opt d). change (d_idct d') with (d_idct d). change (d_cc d') with (d_cc d).
    change (d_hmax d') with (d_hmax d). change (d_vmax d') with (d_vmax d). change (d_info d') with (d_info d).
    rewrite D1, D2, D8, D9, D9', <- Hnc. unfold capacity, extra_space. change (d_info d') with (d_info d). change (d_inter d') with (d_inter d). change (d_opt d') with (d_opt d).
    rewrite D5, D6, D7, D8, A1, A2, <- Hnc. unfold u16. rewrite !Z.mod_small by lia. unfold Sy, Ry, layout_ratio. clear - Hhs Hvs D4.
    assert (hs = 1 \/ hs = 2) as [-> | ->] by (clear - Hhs; lia); assert (vs = 1 \/ vs = 2) as [-> | ->] by (clear - Hvs; lia);
      cbn [Z.eqb Pos.eqb ratio_is_h ratio_is_hv negb orb andb]; repeat (split; [reflexivity || assumption || ring|]); ring. }
  destruct Hset as (g & Eg & I1 & I2 & I3 & I4 & I5 & I6 & I7 & I7' & I8 & I9). rewrite Eg. unfold get, lift. cbn [p_dec p_buf].
  unfold prog_jobs. rewrite I4.
  assert (Hwn : 0 < w * nc) by (apply Z.mul_pos_pos; lia). assert (HRy : 0 < Ry) by (apply Z.mul_pos_pos; lia). assert (HSy : 0 < Sy) by (apply Z.mul_pos_pos; lia).
  assert (Hck : 0 < 8 * (hs * vs) * (w * nc)) by (repeat apply Z.mul_pos_pos; lia).
  replace (8 * (hs * vs) * (w * nc) =? 0) with false by lia. change (d_incs d') with (d_incs d). rewrite D4, I2. change (num_components YCbCr =? 3) with true.
  change (d_comps d') with [c0; b1; b2]. change (at_ [c0; b1; b2] 1) with (Ok b1). cbv iota beta.
  change (c_v b1) with (c_v c1). change (c_h b1) with (c_h c1). rewrite A5, A6, I9.
  assert (HP : chan (p_buf s) 0 = p0 /\ chan (p_buf s) 1 = p1 /\ chan (p_buf s) 2 = p2).
  { unfold chan. change (Z.of_nat 0) with 0 in Hb0. change (Z.of_nat 1) with 1 in Hb1. change (Z.of_nat 2) with 2 in Hb2.
    unfold zget in Hb0, Hb1, Hb2. cbn [Z.ltb Z.compare Z.to_nat Pos.to_nat] in Hb0, Hb1, Hb2.
    repeat split; apply nth_error_nth; assumption. }
  destruct HP as (-> & -> & ->).
  assert (Hz0 : 0 < 64 * Sy * Ry) by (repeat apply Z.mul_pos_pos; lia). assert (Hz1 : 0 < 64 * mx * hs) by (repeat apply Z.mul_pos_pos; lia).
  unfold chunks_exact. replace (64 * Sy * Ry <=? 0) with false by lia. replace (64 * mx * hs <=? 0) with false by lia. cbv zeta iota beta.
  destruct (chunks_many p0 (Z.to_nat (64 * Sy * Ry)) ltac:(clear - Hz0; lia)) as (M01 & M02 & M03).
  destruct (chunks_many p1 (Z.to_nat (64 * mx * hs)) ltac:(clear - Hz1; lia)) as (M11 & M12 & M13).
  destruct (chunks_many p2 (Z.to_nat (64 * mx * hs)) ltac:(clear - Hz1; lia)) as (M21 & M22 & M23).
  set (ys := chunks_n (Z.to_nat (64 * Sy * Ry)) p0) in *. set (bs := chunks_n (Z.to_nat (64 * mx * hs)) p1) in *. set (rs := chunks_n (Z.to_nat (64 * mx * hs)) p2) in *.
  assert (Hl0' : 64 * (Sy * (Ry * N)) <= zlen p0) by (replace (Sy * (Ry * N)) with (mx * hs * (hs * N * vs)) by (unfold Sy, Ry; ring); rewrite <- HN; exact Hl0).
  assert (Hl1' : 64 * (mx * (hs * N)) <= zlen p1) by (rewrite <- HN; rewrite !Z.mul_1_r in Hl1; exact Hl1).
  assert (Hl2' : 64 * (mx * (hs * N)) <= zlen p2) by (rewrite <- HN; rewrite !Z.mul_1_r in Hl2; exact Hl2).
  assert (Hys : N <= Z.of_nat (length ys)) by (apply (chunks_in_plane p0 (64 * Sy * Ry)); [exact Hz0| |exact M02]; replace (64 * Sy * Ry * N) with (64 * (Sy * (Ry * N))) by ring; exact Hl0').
  assert (Hbs : N <= Z.of_nat (length bs)) by (apply (chunks_in_plane p1 (64 * mx * hs)); [exact Hz1| |exact M12]; replace (64 * mx * hs * N) with (64 * (mx * (hs * N))) by ring; exact Hl1').
  assert (Hrs : N <= Z.of_nat (length rs)) by (apply (chunks_in_plane p2 (64 * mx * hs)); [exact Hz1| |exact M22]; replace (64 * mx * hs * N) with (64 * (mx * (hs * N))) by ring; exact Hl2').
  assert (Htc : N <= g_total g / (8 * (hs * vs) * (w * nc))).
  { rewrite I8. apply Z.div_le_lower_bound; [exact Hck|]. replace (8 * (hs * vs) * (w * nc) * N) with (8 * vs * (hs * N) * w * nc) by ring. rewrite <- HN.
    apply Z.mul_le_mono_nonneg_r; [clear - Hnc0; lia|exact Hroom]. }
  set (f := fun t : list Z * list Z * list Z => let '(y, cb, cr) := t in [y; cb; cr]).
  set (jobs := firstn (Z.to_nat (g_total g / (8 * (hs * vs) * (w * nc)))) (map f (zip3 ys bs rs))).
  assert (Hhm : h <= 8 * vs * my) by (unfold my, up8; clear - Hh Hvs; assert (vs = 1 \/ vs = 2) as [-> | ->] by lia; lia).
  assert (Hhm' : h <= 8 * (hs * vs) * N) by (replace (8 * (hs * vs) * N) with (8 * vs * (hs * N)) by ring; now rewrite <- HN).
  assert (HjN : N <= zlen jobs) by (unfold zlen, jobs; rewrite firstn_length, map_length, zip3_length; now apply min3_le).
  assert (Hjn : forall i, 0 <= i < N -> nth (Z.to_nat i) jobs [] = [nth (Z.to_nat i) ys []; nth (Z.to_nat i) bs []; nth (Z.to_nat i) rs []]).
  { intros i Hi. pose proof (below _ _ _ Hi Hys) as By. pose proof (below _ _ _ Hi Hbs) as Bb. pose proof (below _ _ _ Hi Hrs) as Br.
    unfold jobs. rewrite nth_firstn' by (eapply below'; eauto).
    rewrite (nth_indep _ [] (f ([], [], []))) by (rewrite map_length, zip3_length; clear - By Bb Br; lia).
    rewrite map_nth, nth_zip3 by assumption. reflexivity. }
  assert (Hchr : forall k r x cd K p (zs : list (list Z)), (0 < k)%nat -> shows ((samples hs k w + 7) / 8) mx (cd_blocks cd) K p ->
    64 * (mx * (hs * N)) <= zlen p -> Z.of_nat (length (cd_blocks cd)) = (samples hs k w + 7) / 8 * ((samples vs k h + 7) / 8) ->
    (forall i d, (i < length p / Z.to_nat (64 * mx * hs))%nat -> nth i zs d = firstn (Z.to_nat (64 * mx * hs)) (skipn (i * Z.to_nat (64 * mx * hs)) p)) ->
    length zs = (length p / Z.to_nat (64 * mx * hs))%nat -> N <= Z.of_nat (length zs) ->
    0 <= r -> r * vs < h -> 0 <= x < 8 * mx ->
    0 <= r / (8 * hs) < N /\ firstn 64 (skipn (Z.to_nat (64 * (r mod (8 * hs) / 8 * mx + x / 8))) (nth (Z.to_nat (r / (8 * hs))) zs [])) = shown ((samples hs k w + 7) / 8) K (cd_blocks cd) r x).
  { intros k r x cd K p zs Hk Hs Hl Hbl Hnth Hlen HNz Hr Hrv Hx.
    assert (Ewb : (samples hs k w + 7) / 8 = mx).
    { unfold samples, mx, up8. destruct k as [|k]; [clear - Hk; lia|]. cbn [Nat.eqb]. clear - Hhs Hw. assert (hs = 1 \/ hs = 2) as [-> | ->] by lia; lia. }
    assert (Ehb : (samples vs k h + 7) / 8 = my).
    { unfold samples, my, up8. destruct k as [|k]; [clear - Hk; lia|]. cbn [Nat.eqb]. clear - Hvs Hh. assert (vs = 1 \/ vs = 2) as [-> | ->] by lia; lia. }
    rewrite Ewb, Ehb in *.
    assert (Hr8 : r < 8 * my) by (clear - Hrv Hhm Hvs; apply (Z.mul_lt_mono_pos_r vs); lia).
    assert (HrN : 0 <= r / (8 * hs) < N).
    { split; [apply Z.div_pos; clear - Hr Hhs; lia|]. apply Z.div_lt_upper_bound; [clear - Hhs; lia|]. replace (8 * hs * N) with (8 * (hs * N)) by ring. now rewrite <- HN. }
    split; [exact HrN|]. rewrite Hnth by (rewrite <- Hlen; eapply below; eauto).
    apply (chunk_shown mx my mx hs N); auto; try (clear - Hmx Hhs Hx Hr8 Hr; lia). rewrite <- HN. clear; lia. }
  exists g, c0, b1, b2, jobs. split.
  - split; auto.
    + rewrite A4. change (c_qt b1) with (c_qt c1). change (c_qt b2) with (c_qt c2). rewrite A8, A10. repeat split; apply natural_length.
    + unfold b1, b2. cbn [c_ups set_c_ups]. apply layout_fit; assumption.
    + fold mx. apply DecodeInv.Forall_firstn, Forall_map.
      pose proof (zip3_Forall _ _ _ _ _ _ M01 M11 M21) as HZ. eapply Forall_impl; [|exact HZ].
      intros [[y b] r] (L0 & L1 & L2). exists y, b, r. unfold zlen. rewrite L0, L1, L2. fold Sy Ry. rewrite !Z2Nat.id by (clear - Hz0 Hz1; lia). repeat split.
    + assert (8 * (hs * vs) * N <= 8 * (hs * vs) * zlen jobs) by (apply Z.mul_le_mono_nonneg_l; [unfold Ry in HRy; clear - HRy; lia|exact HjN]). clear - Hhm' H. lia.
    + intros r x Hr Hx. fold Ry. assert (HrN : 0 <= r / (8 * Ry) < N).
      { split; [apply Z.div_pos; clear - Hr HRy; lia|]. apply Z.div_lt_upper_bound; [clear - HRy; lia|]. fold Ry in Hhm'. clear - Hhm' Hr. lia. }
      rewrite (Hjn _ HrN). unfold job_at, prog_sample. rewrite I7. change (nth (Z.to_nat 0) [c0; b1; b2] c0) with c0. cbn [chan nth Z.to_nat]. rewrite A4.
      change (across hs mx 0) with (mx * hs). fold Sy. rewrite M03 by (rewrite <- M02; eapply below; eauto).
      change (samples hs 0 w) with w in *. change (samples vs 0 h) with h in *.
      destruct (line_block r Ry HRy ltac:(clear - Hr; lia)) as (_ & D & _). rewrite D.
      rewrite (chunk_shown ((w + 7) / 8) ((h + 7) / 8) Sy Ry N K0 (cd_blocks cd0)); auto; try (clear - Hr Hx; lia).
      * unfold Sy, mx, up8. clear - Hw Hhs. assert (hs = 1 \/ hs = 2) as [-> | ->] by lia; lia.
      * unfold Ry. clear - Hhm HN Hvs Hh. replace (hs * vs * N) with (vs * (hs * N)) by ring. rewrite <- HN. 
        unfold my, up8. assert (vs = 1 \/ vs = 2) as [-> | ->] by lia; lia.
    + intros k r x Hk _ Hr Hrv Hx. fold mx in Hx. destruct (line_block r hs ltac:(clear - Hhs; lia) Hr) as (_ & D & _).
      assert (k = 1 \/ k = 2) as [-> | ->] by (clear - Hk; lia).
      * destruct (Hchr 1%nat r x cd1 K1 p1 bs) as [HrN E]; auto. rewrite (Hjn _ HrN). unfold job_at, prog_sample. rewrite I7, D. fold mx.
        change (nth (Z.to_nat 1) [c0; b1; b2] c0) with b1. change (Z.to_nat 1) with 1%nat. cbn [chan nth]. change (c_qt b1) with (c_qt c1). rewrite A8.
        change (across hs mx 1) with mx. now rewrite E.
      * destruct (Hchr 2%nat r x cd2 K2 p2 rs) as [HrN E]; auto. rewrite (Hjn _ HrN). unfold job_at, prog_sample. rewrite I7, D. fold mx.
        change (nth (Z.to_nat 2) [c0; b1; b2] c0) with b2. change (Z.to_nat 2) with 2%nat. cbn [chan nth]. change (c_qt b2) with (c_qt c2). rewrite A10.
        change (across hs mx 2) with mx. now rewrite E.
    + unfold b1, b2. cbn [c_ups set_c_ups]. intros H. destruct Davx as [E1 E2]. rewrite <- E1, <- E2. apply (layout_avx d hs vs). unfold u in H. clear - H. tauto.
  - assert (Ho : output_len d' = w * nc * h).
    { unfold output_len. change (d_info d') with (d_info d). change (d_opt d') with (d_opt d). rewrite D6, D7, D8, <- Hnc. ring. }
    fold f. fold jobs. destruct (run_jobs g jobs); try reflexivity. cbn [rbind]. unfold ret. cbn [fst]. now rewrite Ho.
Qed.
End finish.
