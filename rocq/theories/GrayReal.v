(** The pixels of grayscale progressive files are close to those of the standard. *)
From Coq Require Import ZArith String List Bool Lia Reals Lra.
From Coq Require Import ZifyBool ZifyNat ZifyN.
From Verif Require Import Base Types Huffman State Bitstream Headers Idct Color Simd Worker Mcu McuProg Decoder.
From Verif Require Import SpecHuffman SpecSegments SpecExtend SpecBits SpecBlock SpecProg SpecScript SpecImage SpecIdct SpecColor SpecDct SpecPixels.
From Verif Require Import Obs ObsProg BaseFacts ColorFacts Placement IdctFacts IdctSimd IdctExact IdctReal Strip GrayImage HeaderFile ProgFile ProgImage GrayFile.
From Verif Require IdctRange.
Import ListNotations.
Local Open Scope Z_scope.
Ltac Zify.zify_post_hook ::= Z.div_mod_to_equations.

Lemma zigzag_zero r c : 0 <= r < 8 -> 0 <= c < 8 -> zigzag r c = 0 -> r = 0 /\ c = 0.
Proof.
  intros Hr Hc. 
  assert (H : forallb (fun r => forallb (fun c => implb (zigzag r c =? 0) ((r =? 0) && (c =? 0))) (zseq 8)) (zseq 8) = true)
    by (vm_compute; reflexivity).
  rewrite forallb_forall in H. specialize (H r ltac:(apply zseq_In; lia)). rewrite forallb_forall in H.
  specialize (H c ltac:(apply zseq_In; lia)). lia.
Qed.
(** Every position occurs *)
Lemma zigzag_onto k : 0 <= k < 64 -> exists i, 0 <= i < 64 /\ zigzag (i / 8) (i mod 8) = k.
Proof.
  intros Hk.
  assert (H : forallb (fun k => existsb (fun i => zigzag (i / 8) (i mod 8) =? k) (zseq 64)) (zseq 64) = true)
    by (vm_compute; reflexivity).
  rewrite forallb_forall in H. specialize (H k ltac:(apply zseq_In; lia)). rewrite existsb_exists in H.
  destruct H as (i & Hi & E). exists i. rewrite zseq_In in Hi. split; lia.
Qed.
Lemma dq_natural qv zz i j : 0 <= i < 8 -> 0 <= j < 8 ->
  zn (natural zz) (8 * i + j) * zn (natural qv) (8 * i + j) = dequantized qv zz i j.
Proof.
  intros Hi Hj. rewrite !zn_natural by lia. replace ((8 * i + j) / 8) with i by lia. replace ((8 * i + j) mod 8) with j by lia.
  reflexivity.
Qed.
Lemma sumR8_ext' f g : (forall i, 0 <= i < 8 -> f i = g i) -> sumR8 f = sumR8 g.
Proof. intros H. unfold sumR8. now rewrite !H by lia. Qed.
Lemma idct_exact_ext x y r c : (forall i j, 0 <= i < 8 -> 0 <= j < 8 -> x i j = y i j) -> idct_exact x r c = idct_exact y r c.
Proof.
  intros H. unfold idct_exact. do 2 f_equal. apply sumR8_ext'. intros u Hu. apply sumR8_ext'. intros v Hv. now rewrite H by lia.
Qed.
Lemma magnitude_ext x y : (forall i j, 0 <= i < 8 -> 0 <= j < 8 -> x i j = y i j) -> magnitude x = magnitude y.
Proof.
  intros H. unfold magnitude. apply sumR8_ext'. intros u Hu. apply sumR8_ext'. intros v Hv. now rewrite H by lia.
Qed.

Lemma sample_byte rows r c : Forall (Forall byte) rows -> byte (sample rows r c).
Proof.
  intros H. unfold sample. 
  assert (Hrow : Forall byte (nth (Z.to_nat r) rows [])).
  2:{ destruct (nth_in_or_default (Z.to_nat c) (nth (Z.to_nat r) rows []) 0) as [Hin| ->]; [|unfold byte; lia].
      rewrite Forall_forall in Hrow. now apply Hrow. }
  destruct (nth_in_or_default (Z.to_nat r) rows []) as [Hin| ->]; [|constructor].
  rewrite Forall_forall in H. now apply H.
Qed.
Lemma sample_close k qv zz r c : length qv = 64%nat -> Forall byte qv -> length zz = 64%nat -> in_range qv zz ->
  0 <= r < 8 -> 0 <= c < 8 ->
  let p := sample (kernel_of k (natural qv) (natural zz)) r c in
  0 <= p <= 255 /\ (Rabs (IZR p - clampR (idct_exact (dequantized qv zz) r c)) <= tolerance qv zz)%R.
Proof.
  intros Hq Hbq Hz [H1 H2] Hr Hc p.
  assert (Hno : no_ac zz \/ Exists (fun c => c <> 0) (tl (natural zz))).
  { destruct (forallb (fun c => Z.eqb c 0) (tl (natural zz))) eqn:E; [left|right; now apply forallb_exists].
    intros m Hm. rewrite forallb_forall in E.
    destruct (zigzag_onto (Z.of_nat m)) as (i & Hi & Ei); [lia|].
    assert (Hi0 : i <> 0). { intros ->. change (zigzag (0 / 8) (0 mod 8)) with 0 in Ei. lia. }
    pose proof (zn_natural zz i Hi) as En. rewrite Ei in En. unfold zn in En at 2. rewrite Nat2Z.id in En. rewrite <- En.
    pose proof (natural_length zz) as Hl. destruct (natural zz) as [|v0 v]; [discriminate|]. cbn [tl length] in *.
    unfold zn. replace (Z.to_nat i) with (S (Z.to_nat (i - 1))) by lia. cbn [nth].
    specialize (E (nth (Z.to_nat (i - 1)) v 0) ltac:(apply nth_In; lia)). lia. }
  assert (Hrow : kernel_of k (natural qv) (natural zz) = idct_block (natural zz) (natural qv) \/
                 kernel_of k (natural qv) (natural zz) = idct_block_avx2 (natural zz) (natural qv)) by (destruct k; auto).
  assert (H0 : zn (natural zz) 0 = nth 0 zz 0 /\ zn (natural qv) 0 = nth 0 qv 0).
  { rewrite !zn_natural by lia. split; reflexivity. }
  assert (Hq0 : 0 <= zn (natural qv) 0 <= 255).
  { rewrite (proj2 H0). change (byte (nth 0 qv 0)). rewrite Forall_forall in Hbq. apply Hbq, nth_In. lia. }
  assert (Hby : byte (sample (kernel_of k (natural qv) (natural zz)) r c)).
  { apply sample_byte. destruct k; cbn [kernel_of].
    - apply IdctRange.scalar_bytes. destruct Hno as [Hno|Hex]; [right|now left].
      destruct H0 as [-> E0]. rewrite E0 in *. split; [unfold within; lia|]. apply H2, Hno.
    - apply IdctRange.avx_bytes; apply natural_length. }
  unfold p. unfold byte in Hby. split; [lia|].
  assert (Ex : forall i j, 0 <= i < 8 -> 0 <= j < 8 -> dequantized qv zz i j = zn (natural zz) (8 * i + j) * zn (natural qv) (8 * i + j)).
  { intros i j Hi Hj. symmetry. now apply dq_natural. }
  unfold tolerance. rewrite (idct_exact_ext _ _ r c Ex), (magnitude_ext _ _ Ex).
  destruct Hno as [Hno|Hex].
  - eapply Rle_trans; [|apply Rmax_l]. apply Rlt_le.
    assert (Hcl : sample (kernel_of k (natural qv) (natural zz)) r c = clamp255 (sample (kernel_of k (natural qv) (natural zz)) r c)) by (unfold clamp255; lia).
    specialize (H2 Hno). rewrite <- (proj1 H0), <- (proj2 H0) in H2.
    rewrite Hcl. apply C48_dc_lemma; auto using natural_length; try lia.
    intros i Hi. rewrite zn_natural by lia.
      pose proof (zigzag_bounds (i / 8) (i mod 8) ltac:(lia) ltac:(lia)).
      assert (zigzag (i / 8) (i mod 8) <> 0) by (intros E; apply zigzag_zero in E; lia).
      unfold zn. apply Hno. lia.
  - eapply Rle_trans; [|apply Rmax_r]. apply C48_ac_lemma; auto using natural_length.
    intros i Hi. rewrite !zn_natural by lia.
    pose proof (zigzag_bounds (i / 8) (i mod 8) ltac:(lia) ltac:(lia)). unfold zn. apply H1. lia.
Qed.

Lemma px_close k qv zz r c : length qv = 64%nat -> Forall byte qv -> length zz = 64%nat -> in_range qv zz ->
  0 <= r < 8 -> 0 <= c < 8 ->
  let p := u8 (sample (kernel_of k (natural qv) (natural zz)) r c) in
  0 <= p <= 255 /\ (Rabs (IZR p - clampR (idct_exact (dequantized qv zz) r c)) <= tolerance qv zz)%R.
Proof.
  intros Hq Hbq Hz Hin Hr Hc p. destruct (sample_close k qv zz r c Hq Hbq Hz Hin Hr Hc) as [H1 H2].
  assert (Hp : p = sample (kernel_of k (natural qv) (natural zz)) r c) by (unfold p, u8; apply Z.mod_small; lia).
  rewrite Hp. split; assumption.
Qed.

Lemma known_complete K zz : complete K -> length zz = 64%nat -> known_block K zz = zz.
Proof.
  intros HK Hl. apply (nth_ext _ _ 0 0); [now rewrite known_block_length|]. rewrite known_block_length. intros i Hi.
  pose proof (zn_known_block K zz (Z.of_nat i) ltac:(lia)) as H. unfold zn in H. rewrite !Nat2Z.id in H. rewrite H. apply HK. lia.
Qed.
Lemma blocks_wide1 w : blocks_wide w 1 1 = (w + 7) / 8.
Proof. unfold blocks_wide, up_div. rewrite Z.mul_1_r, Z.div_1_r. f_equal. lia. Qed.

Lemma last_quant_In qs q t : last_quant qs q = Some t -> In t qs.
Proof.
  induction qs as [|a qs IH]; [discriminate|]. cbn [last_quant]. destruct (last_quant qs q).
  - intros [= <-]. right. now apply IH.
  - destruct (qd_dest a =? q); [|discriminate]. intros [= <-]. now left.
Qed.
Lemma quant_legal ps q t : Forall pre_ok ps -> last_quant (quants ps) q = Some t -> quant_def_legal t.
Proof.
  intros H Ht. apply last_quant_In in Ht. unfold quants in Ht. apply in_flat_map in Ht. destruct Ht as (p & Hp & Hin).
  rewrite Forall_forall in H. specialize (H p Hp). destruct p as [|ts|]; try contradiction. destruct H as [H _].
  rewrite Forall_forall in H. now apply H.
Qed.
Lemma gray_cut cpu o ps q t w h cd is K n fin sfx : stop_code fin ->
  progressive_image ps (Gray q) w h [cd] is [K] n sfx ->
  w <= o_max_width o -> h <= o_max_height o -> n <= o_max_scans o ->
  last_quant (quants ps) q = Some t ->
  Forall (fun zz => in_range (qd_values t) (known_block K zz)) (cd_blocks cd) ->
  w <= 65527 -> h <= 65527 -> 64 * ((w + 7) / 8) < 9 * w ->
  let r := fst (decode_buffer (new_with_options cpu o) (cut_file 194 ps (Gray q) w h is fin sfx)) in
  (exists px, r = Ok px /\ close_to (qd_values t) (map (known_block K) (cd_blocks cd)) w h px) \/
  r = Err missing_marker /\ ~ short_end (image_geo (Gray q) w h) [cd] [] is.
Proof.
  intros Hf Hi Hmw Hmh Hn Ht Hra Hw Hh Hpad r.
  destruct (progressive_image_cut cpu o _ _ _ _ _ _ _ _ _ _ Hf Hi Hmw Hmh Hn) as (dcts & acts & s & He & Hp & _ & [Hr|Hr]); [left|now right].
  destruct Hi as [P1 P2 P3 P4 P5 P6 [P7l P7] P8 P9 P10 P11].
  destruct (P7 0%nat cd eq_refl) as (I1 & I2 & I3). cbn [hmax vmax factors nth fst snd] in I2, I3. rewrite blocks_wide1 in I2, I3.
  apply Forall_inv in P8. destruct P8 as (B1 & B2 & _).
  destruct (gray_finish cpu o q w h (quants ps) t dcts acts s cd K) as (px & E & L & N); auto; try lia.
  exists px. split; [unfold r; rewrite Hr; exact E|]. split; [exact L|]. intros a b Ha Hb m p.
  assert (Hp' : p = zn px (a * w + b)) by reflexivity. rewrite N in Hp' by assumption. unfold gray_px in Hp'.
  assert (Hidx : (Z.to_nat (a / 8 * m + b / 8) < length (cd_blocks cd))%nat).
  { assert (0 <= a / 8 < (h + 7) / 8) by lia. assert (0 <= b / 8 < m) by (unfold m; lia).
    pose proof (block_inside ((h + 7) / 8) m (a / 8) (b / 8)). fold m in I2. rewrite I2, I3 in B1. lia. }
  unfold sample_exact, block_of. fold m in Hp'.
  rewrite (nth_indep _ [] (known_block K [])) by (rewrite map_length; exact Hidx). rewrite map_nth.
  rewrite Hp'.
  assert (Hq : quant_def_legal t) by (eapply quant_legal; eauto).
  destruct Hq as (_ & Q1 & Q2).
  apply px_close; auto using known_block_length; try lia.
  rewrite Forall_forall in Hra. apply Hra, nth_In, Hidx.
Qed.
Lemma gray_file cpu o ps q t w h cd is K n sfx :
  progressive_image ps (Gray q) w h [cd] is [K] n sfx ->
  w <= o_max_width o -> h <= o_max_height o -> n <= o_max_scans o ->
  last_quant (quants ps) q = Some t ->
  Forall (fun zz => in_range (qd_values t) (known_block K zz)) (cd_blocks cd) ->
  w <= 65527 -> h <= 65527 -> 64 * ((w + 7) / 8) < 9 * w ->
  let r := fst (decode_buffer (new_with_options cpu o) (file 194 ps (Gray q) w h is sfx)) in
  (exists px, r = Ok px /\ close_to (qd_values t) (map (known_block K) (cd_blocks cd)) w h px) \/
  r = Err missing_marker /\ ~ short_end (image_geo (Gray q) w h) [cd] [] is.
Proof. apply (gray_cut cpu o ps q t w h cd is K n 217 sfx). exists EOI. repeat split; discriminate. Qed.

Lemma gray_file_complete cpu o ps q t w h cd is K n sfx :
  progressive_image ps (Gray q) w h [cd] is [K] n sfx -> complete K -> short_end (image_geo (Gray q) w h) [cd] [] is ->
  w <= o_max_width o -> h <= o_max_height o -> n <= o_max_scans o ->
  last_quant (quants ps) q = Some t -> Forall (in_range (qd_values t)) (cd_blocks cd) ->
  w <= 65527 -> h <= 65527 -> 64 * ((w + 7) / 8) < 9 * w ->
  exists px, fst (decode_buffer (new_with_options cpu o) (file 194 ps (Gray q) w h is sfx)) = Ok px /\
    close_to (qd_values t) (cd_blocks cd) w h px.
Proof.
  intros Hi HK Hse Hmw Hmh Hn Ht Hra Hw Hh Hpad.
  assert (B2 : Forall (fun zz => length zz = 64%nat) (cd_blocks cd)) by (pose proof (pi_coefs _ _ _ _ _ _ _ _ _ Hi) as P8; apply Forall_inv in P8; apply P8).
  assert (E : map (known_block K) (cd_blocks cd) = cd_blocks cd).
  { rewrite <- (map_id (cd_blocks cd)) at 2. rewrite Forall_forall in B2. apply map_ext_in. intros zz Hz. apply known_complete; auto. }
  destruct (gray_file cpu o ps q t w h cd is K n sfx) as [(px & Hr & Hp)|[_ C]]; auto; [|exists px; split; [exact Hr|now rewrite E in Hp]|contradiction].
  rewrite Forall_forall in *. intros zz Hz. rewrite known_complete by auto. now apply Hra.
Qed.
