(** Grayscale progressive files: from the bytes to the pixels. *)
From Coq Require Import ZArith String List Bool Lia.
From Coq Require Import ZifyBool ZifyNat ZifyN.
From Verif Require Import Base Types Huffman State Bitstream Headers Idct Color Simd Worker Mcu McuProg Decoder.
From Verif Require Import SpecHuffman SpecSegments SpecExtend SpecBits SpecBlock SpecProg SpecScript SpecImage SpecIdct SpecColor SpecPixels.
From Verif Require DecodeInv.
From Verif Require Import Obs ObsProg BaseFacts ColorFacts Placement IdctFacts Strip GrayImage HeaderFile ProgFile ProgImage.
Import ListNotations.
Local Open Scope Z_scope.
Local Open Scope res_scope.
Ltac Zify.zify_post_hook ::= Z.div_mod_to_equations.

(** The chunks of a plane with at least [k] of them *)
Lemma chunks_many {A} (l : list A) S : (0 < S)%nat ->
  Forall (fun c => length c = S) (chunks_n S l) /\ length (chunks_n S l) = (length l / S)%nat /\
  forall i d, (i < length l / S)%nat -> nth i (chunks_n S l) d = firstn S (skipn (i * S) l).
Proof.
  intros HS. rewrite chunks_n_spec by exact HS.
  assert (Hm : (S * (length l / S) <= length l)%nat) by (apply Nat.mul_div_le; lia).
  split; [|split].
  - apply Forall_map, Forall_forall. intros i Hi. apply in_seq in Hi. rewrite firstn_length, skipn_length.
    assert (S * (i + 1) <= S * (length l / S))%nat by (apply Nat.mul_le_mono_l; lia). lia.
  - now rewrite map_length, seq_length.
  - intros i d Hi. set (f := fun i => firstn S (skipn (i * S) l)).
    rewrite (nth_indep _ d (f 0%nat)) by (rewrite map_length, seq_length; exact Hi).
    rewrite map_nth, seq_nth by exact Hi. reflexivity.
Qed.

Lemma natural_length zz : length (natural zz) = 64%nat.
Proof. unfold natural. now rewrite !map_length, seq_length. Qed.
Lemma zn_natural zz i : 0 <= i < 64 -> zn (natural zz) i = zn zz (zigzag (i / 8) (i mod 8)).
Proof.
  intros Hi. unfold natural, zn. set (f := fun i => nth (Z.to_nat (zigzag (i / 8) (i mod 8))) zz 0).
  rewrite (nth_indep _ 0 (f 0)) by (rewrite !map_length, seq_length; lia). rewrite map_nth.
  change 0 with (Z.of_nat 0) at 1. rewrite map_nth, seq_nth by lia. unfold f. f_equal. f_equal. cbn [Nat.add]. now rewrite Z2Nat.id by lia.
Qed.
Lemma known_block_length K zz : length (known_block K zz) = 64%nat.
Proof. unfold known_block. now rewrite !map_length, seq_length. Qed.
Lemma zn_known_block K zz k : 0 <= k < 64 -> zn (known_block K zz) k = K k (zn zz k).
Proof.
  intros Hi. unfold known_block, zn. set (f := fun k => K k (nth (Z.to_nat k) zz 0)).
  rewrite (nth_indep _ 0 (f 0)) by (rewrite !map_length, seq_length; lia). rewrite map_nth.
  change 0 with (Z.of_nat 0) at 1. rewrite map_nth, seq_nth by lia. unfold f. cbn [Nat.add]. now rewrite Z2Nat.id by lia.
Qed.

(** A block of a plane that shows the coefficients *)
Lemma shown_block w stride blocks K plane b : shows w stride blocks K plane -> (b < length blocks)%nat ->
  0 <= block_at w stride (Z.of_nat b) -> block_at w stride (Z.of_nat b) + 64 <= zlen plane ->
  firstn 64 (skipn (Z.to_nat (block_at w stride (Z.of_nat b))) plane) = natural (known_block K (nth b blocks [])).
Proof.
  intros Hs Hb H0 H1. unfold zlen in H1. apply (nth_ext _ _ 0 0).
  - rewrite natural_length, firstn_length, skipn_length. lia.
  - intros i Hi. rewrite firstn_length in Hi. rewrite nth_firstn' by lia. rewrite nth_skipn.
    replace (nth i (natural (known_block K (nth b blocks []))) 0) with (zn (natural (known_block K (nth b blocks []))) (Z.of_nat i))
      by (unfold zn; now rewrite Nat2Z.id).
    rewrite zn_natural by lia.
    pose proof (zigzag_bounds (Z.of_nat i / 8) (Z.of_nat i mod 8) ltac:(lia) ltac:(lia)).
    rewrite zn_known_block by lia. specialize (Hs b (Z.of_nat i) Hb ltac:(lia)). cbv zeta in Hs. unfold zn. rewrite <- Hs. f_equal. lia.
Qed.

Lemma strip_block (plane : list Z) n i j : 0 <= i -> 0 <= j < n ->
  firstn 64 (skipn (Z.to_nat (64 * j)) (firstn (Z.to_nat (64 * n)) (skipn (Z.to_nat i * Z.to_nat (64 * n)) plane)))
  = firstn 64 (skipn (Z.to_nat (64 * (i * n + j))) plane).
Proof.
  intros Hi Hj. rewrite skipn_firstn_comm, firstn_firstn, BaseFacts.skipn_skipn.
  assert (0 <= i * n) by (apply Z.mul_nonneg_nonneg; lia).
  replace (Nat.min 64 (Z.to_nat (64 * n) - Z.to_nat (64 * j))) with 64%nat by lia. f_equal. f_equal.
  rewrite <- Z2Nat.inj_mul, <- Z2Nat.inj_add by lia. f_equal. ring.
Qed.
Lemma block_at_row w b : 0 < w -> block_at w w b = 64 * b.
Proof. intros Hw. unfold block_at. rewrite (Z.div_mod b w) at 3 by lia. ring. Qed.
Lemma block_inside h n i j : 0 <= i < h -> 0 <= j < n -> 0 <= i * n + j < n * h.
Proof.
  intros Hi Hj. assert (0 <= i * n) by (apply Z.mul_nonneg_nonneg; lia).
  assert ((i + 1) * n <= h * n) by (apply Z.mul_le_mono_nonneg_r; lia). lia.
Qed.

(** The decoder's rendering of a grayscale image *)
Definition gray_px (idct : idct_kind) (qt : list Z) (n : Z) (K : knowledge) (blocks : list (list Z)) (r c : Z) : Z :=
  u8 (sample (kernel_of idct (natural qt) (natural (known_block K (nth (Z.to_nat (r / 8 * n + c / 8)) blocks [])))) (r mod 8) (c mod 8)).

Lemma gray_finish cpu o q w h qs t dcts acts s cd K :
  let F := frame_dec cpu o ProgressiveDctHuffman true (Gray q) w h qs dcts acts in
  let n := (w + 7) / 8 in
  erase (p_dec s) = erase F -> planes_show F [cd] [K] (p_buf s) ->
  last_quant qs q = Some t -> cd_w cd = n -> cd_h cd = (h + 7) / 8 -> Z.of_nat (length (cd_blocks cd)) = cd_w cd * cd_h cd ->
  0 < w <= 65527 -> 0 < h <= 65527 -> 64 * n < 9 * w ->
  exists px, fst (finish_progressive_decoding (fst (prog_counts F) * 64) s) = Ok px /\ zlen px = w * h /\
    forall r c, 0 <= r < h -> 0 <= c < w ->
      zn px (r * w + c) = gray_px (choose_idct_func cpu (o_use_unsafe o)) (qd_values t) n K (cd_blocks cd) r c.
Proof.
  intros F n He Hp Hq Hcw Hch Hbl Hw Hh Hpad.
  destruct (Hp 0%nat cd eq_refl) as (c & K' & plane & Hc & HK & Hb & Hl & Hs). injection HK as <-.
  injection Hc as <-. cbn [c_stride frame_component] in Hl, Hs.
  assert (Hu8 : up8 w 1 = n) by (unfold up8, n; f_equal; lia).
  assert (Hsn : 1 * (up8 w (hmax (Gray q)) * 8) / 8 = n) by (cbn [hmax]; rewrite Hu8, Z.mul_1_l, Z.div_mul by lia; reflexivity).
  cbn [hmax] in Hsn. rewrite Hsn in Hl, Hs.
  set (d := p_dec s) in *.
  assert (Hd : d_hmax d = 1 /\ d_vmax d = 1 /\ d_ratio d = RNone /\ d_incs d = GRAYSCALE /\ d_inter d = false /\
    i_width (d_info d) = w /\ i_height (d_info d) = h /\ o_colorspace (d_opt d) = GRAYSCALE /\ d_idct d = choose_idct_func cpu (o_use_unsafe o) /\
    map erase_c (d_comps d) = map erase_c (frame_list (Gray q) w qs)).
  { pose proof (fun A (f : decoder -> A) => f_equal f He) as HF. repeat split.
    - exact (HF _ d_hmax). - exact (HF _ d_vmax). - exact (HF _ d_ratio). - exact (HF _ d_incs). - exact (HF _ d_inter).
    - exact (HF _ (fun d => i_width (d_info d))). - exact (HF _ (fun d => i_height (d_info d))).
    - exact (HF _ (fun d => o_colorspace (d_opt d))). - exact (HF _ d_idct). - exact (HF _ d_comps). }
  destruct Hd as (D1 & D2 & D3 & D4 & D5 & D6 & D7 & D8 & D9 & D10).
  destruct (d_comps d) as [|c0 [|c1 cr]] eqn:Ec; [discriminate| |discriminate].
  apply (f_equal (hd c0)) in D10. cbn [map frame_list hd] in D10.
  assert (Hc0 : c_h c0 = 1 /\ c_v c0 = 1 /\ c_stride c0 = 8 * n /\ c_qt c0 = natural (qd_values t)).
  { pose proof (fun A (f : component -> A) => f_equal f D10) as HF. repeat split.
    - exact (HF _ c_h). - exact (HF _ c_v).
    - etransitivity; [exact (HF _ c_stride)|]. cbn [c_stride erase_c frame_component set_c_act set_c_dct set_c_pred]. rewrite Hu8. lia.
    - etransitivity; [exact (HF _ c_qt)|]. cbn [c_qt erase_c frame_component set_c_act set_c_dct set_c_pred].
      unfold qt_of. now rewrite Hq. }
  destruct Hc0 as (C1 & C2 & C3 & C4).
  assert (Hn : 0 < n) by (unfold n; lia).
  assert (Hcnt : fst (prog_counts F) = n) by reflexivity. rewrite Hcnt.
  unfold finish_progressive_decoding, bind, on_dec. fold d.
  assert (Hset : exists g, finish_setup (n * 64) d = (Ok g, d) /\ g_comps g = [c0] /\ g_ccap g = 64 * n /\ g_width g = w /\
     g_chunk g = 8 * w /\ g_in g = GRAYSCALE /\ g_out g = GRAYSCALE /\ g_idct g = choose_idct_func cpu (o_use_unsafe o) /\
     g_total g = (w + 8) * (h + 8)).
  { unfold finish_setup, set_upsampling, bind, get, ret, lift. rewrite D1, D2. cbn [Z.eqb andb Pos.eqb].
    rewrite D3, D4, D5. cbn [ratio_is_h ratio_is_hv cs_eqb andb]. cbv iota beta. rewrite Ec. change (at_ [c0] 0) with (Ok c0). cbv iota beta.
    eexists. split; [reflexivity|]. cbn [g_comps g_ccap g_width g_chunk g_in g_out g_idct g_total].
    rewrite D1, D2, D8, D9. unfold capacity, extra_space. rewrite D5, D6, D7, C1, C2. cbn [num_components].
    unfold u16. rewrite !Z.mod_small by lia. repeat (split; [reflexivity || assumption || lia|]). ring. }
  destruct Hset as (g & Eg & G1 & G2 & G3 & G4 & G5 & G6 & G7 & G8). rewrite Eg. unfold get, lift. cbn [p_dec p_buf].
  unfold prog_jobs. rewrite G4. replace (8 * w =? 0) with false by lia. rewrite D4, G2. change (num_components GRAYSCALE =? 3) with false.
  assert (Hpl : chan (p_buf s) 0 = plane).
  { unfold chan. change (Z.of_nat 0) with 0 in Hb. destruct (p_buf s); [discriminate|]. injection Hb as ->. reflexivity. }
  rewrite Hpl.
  unfold chunks_exact. replace (64 * n <=? 0) with false by lia. cbv zeta iota beta.
  destruct (chunks_many plane (Z.to_nat (64 * n)) ltac:(lia)) as (M1 & M2 & M3).
  set (ys := chunks_n (Z.to_nat (64 * n)) plane) in *.
  assert (Hys : (h + 7) / 8 <= Z.of_nat (length ys)).
  { rewrite M2. rewrite Nat2Z.inj_div, Z2Nat.id by lia. apply Z.div_le_lower_bound; [lia|]. rewrite <- Hch. exact Hl. }
  assert (Htc : (h + 7) / 8 <= g_total g / (8 * w)).
  { rewrite G8. apply Z.div_le_lower_bound; [lia|].
    assert (w * (8 * ((h + 7) / 8)) <= w * (h + 8)) by (apply Z.mul_le_mono_nonneg_l; lia).
    assert (w * (h + 8) <= (w + 8) * (h + 8)) by (apply Z.mul_le_mono_nonneg_r; lia). lia. }
  set (jobs := firstn (Z.to_nat (g_total g / (8 * w))) (map (fun y => [y; []; []]) ys)).
  assert (Hjl : (h + 7) / 8 <= zlen jobs) by (unfold zlen, jobs; rewrite firstn_length, map_length; lia).
  assert (HJ : Forall (fun j => exists y rest, j = y :: rest /\ zlen y = 64 * n) jobs).
  { apply DecodeInv.Forall_firstn, Forall_map. eapply Forall_impl; [|exact M1]. intros y Hy. exists y, [[]; []].
    split; [reflexivity|]. cbv beta in Hy. unfold zlen. rewrite Hy. lia. }
  destruct (gray_assemble g c0 [] n) with (jobs := jobs) (h := h) (total := g_total g) as (px & E & L & N); auto; try lia.
  { rewrite C4. apply natural_length. }
  rewrite G3 in L, N. assert (Ho : output_len d = g_width g * h) by (unfold output_len; rewrite D6, D7, D8, G3; cbn; lia).
  destruct (run_jobs g jobs) as [os| | |] eqn:Er; try discriminate. cbn [rbind] in E. injection E as E.
  unfold ret. cbn [fst]. exists px. split; [fold d; now rewrite Ho, E|]. split; [exact L|].
  intros r c Hr Hc. rewrite N by assumption. unfold strip_px, gray_px. rewrite G7, C4. do 3 f_equal.
  assert (Hr8 : 0 <= r / 8 < (h + 7) / 8) by (clear - Hr; lia). assert (Hc8 : 0 <= c / 8 < n) by (clear - Hc; unfold n; lia).
  assert (Hjn : nth (Z.to_nat (r / 8)) jobs [] = [nth (Z.to_nat (r / 8)) ys []; []; []]).
  { unfold jobs. rewrite nth_firstn' by (clear - Hr8 Htc; lia). rewrite (nth_indep _ [] ((fun y => [y; []; []]) [])) by (clear - Hr8 Hys; rewrite map_length; lia).
    apply (map_nth (fun y : list Z => [y; []; []])). }
  rewrite Hjn. change (chan [nth (Z.to_nat (r / 8)) ys []; []; []] 0) with (nth (Z.to_nat (r / 8)) ys []).
  rewrite M3 by (rewrite <- M2; clear - Hr8 Hys; lia).
  rewrite strip_block by tauto. pose proof (block_inside _ _ _ _ Hr8 Hc8) as Hin. rewrite <- Hch in Hin.
  rewrite Hcw in Hs, Hbl.
  clear - Hs Hl Hin Hbl Hn. set (b := r / 8 * n + c / 8) in *. clearbody b n.
  assert (Hat : block_at n n (Z.of_nat (Z.to_nat b)) = 64 * b) by (rewrite block_at_row, Z2Nat.id by lia; reflexivity).
  rewrite <- (shown_block _ _ _ _ _ (Z.to_nat b) Hs); rewrite ?Hat; try reflexivity; lia.
Qed.
