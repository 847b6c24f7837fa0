(** The exact bytes of images, whatever file they come from. *)
From Coq Require Import ZArith String List Bool Lia Reals.
From Coq Require Import ZifyBool ZifyNat ZifyN.
From Verif Require Import Base Types Huffman State Bitstream Headers Idct Upsample Color Simd Worker Mcu McuProg Decoder.
From Verif Require Import SpecHuffman SpecSegments SpecExtend SpecBits SpecBlock SpecProg SpecInter SpecScript SpecImage SpecIdct SpecColor SpecDct SpecPixels SpecColourPixels SpecSampledPixels SpecSampled440 SpecSampled420.
From Verif Require Import Obs ObsProg BaseFacts ColorFacts Placement IdctFacts IdctReal Strip UpsampleFacts HeaderFile ProgFile ProgImage GrayFile GrayReal ColourImage ColourFile ColourReal.
From Verif Require Import SpecBaseline SpecRestart SpecBaseScan SpecBasePixels SpecSame SampledImage SampledFile BaseFile RestartFile BaseInter BaseColour BaseColourFile BaseColourReal BaseSampledReal ProgSampled ProgSampledReal Sampled440 Sampled420.
Import ListNotations.
Local Open Scope Z_scope.

Ltac Zify.zify_post_hook ::= Z.div_mod_to_equations.

(** * Grayscale images *)
Definition gray_at (cpu : isa) (o : options) (qv zz : list Z) (r c : Z) : Z :=
  u8 (sample (kernel_of (choose_idct_func cpu (o_use_unsafe o)) (natural qv) (natural zz)) (r mod 8) (c mod 8)).

Lemma gray_exact cpu o scans qv w h blocks f : gray_image scans qv w h blocks f -> scans <= o_max_scans o ->
  w <= o_max_width o -> h <= o_max_height o -> w <= 65527 -> h <= 65527 -> 64 * ((w + 7) / 8) < 9 * w ->
  0 < w /\ 0 < h /\ exists px, fst (decode_buffer (new_with_options cpu o) f) = Ok px /\ zlen px = w * h /\
    forall r c, 0 <= r < h -> 0 <= c < w -> zn px (r * w + c) = gray_at cpu o qv (nth (Z.to_nat (r / 8 * ((w + 7) / 8) + c / 8)) blocks []) r c.
Proof.
  intros Hf Hs Hmw Hmh Hw Hh Hpad. destruct Hf as [ps q t tss td ta bits sfx HB Ht <-|ps q t tss1 ri tss2 td ta zss bss sfx HB Hc <- Ht <-|ps q t cd is K n sfx HI HK He Hn <- Ht <-].
  - pose proof (bg_width _ _ _ _ _ _ _ _ _ _ HB). pose proof (bg_height _ _ _ _ _ _ _ _ _ _ HB). split; [lia|]. split; [lia|].
    exact (base_file cpu o ps q t w h tss td ta blocks bits sfx HB Hmw Hmh Ht Hpad).
  - assert (0 < w /\ 0 < h) as [P1 P2] by (destruct HB; lia). split; [exact P1|]. split; [exact P2|].
    exact (restart_file_px cpu o ps q t w h tss1 ri tss2 td ta zss bss sfx HB Hc Hmw Hmh Ht Hpad).
  - assert (P4 : 0 < w) by apply HI. assert (P5 : 0 < h) by apply HI. split; [exact P4|]. split; [exact P5|].
    destruct (progressive_image_cut cpu o _ _ _ _ _ _ _ _ 217 _ stop_eoi HI Hmw Hmh ltac:(lia)) as (dcts & acts & s & Hes & Hp & _ & [Hr|[_ Hr]]); [|contradiction].
    assert (B2 : Forall (fun zz => length zz = 64%nat) (cd_blocks cd)) by (pose proof (pi_coefs _ _ _ _ _ _ _ _ _ HI) as P8; apply Forall_inv in P8; apply P8).
    destruct HI as [P1 P2 P3 _ _ P6 [P7l P7] P8 P9 P10 P11].
    destruct (P7 0%nat cd eq_refl) as (I1 & I2 & I3). cbn [hmax vmax factors nth fst snd] in I2, I3. rewrite blocks_wide1 in I2, I3.
    apply Forall_inv in P8. destruct P8 as (B1 & _ & _).
    destruct (GrayFile.gray_finish cpu o q w h (quants ps) t dcts acts s cd K) as (px & E & L & N); auto; try lia.
    exists px. split; [etransitivity; [exact Hr|exact E]|]. split; [exact L|]. intros r c Hrr Hc. rewrite N by assumption. unfold gray_px, gray_at.
    assert (Hidx : (Z.to_nat (r / 8 * ((w + 7) / 8) + c / 8) < length (cd_blocks cd))%nat).
    { assert (0 <= r / 8 < (h + 7) / 8) by lia. assert (0 <= c / 8 < (w + 7) / 8) by lia.
      pose proof (block_inside ((h + 7) / 8) ((w + 7) / 8) (r / 8) (c / 8)). rewrite I2, I3 in B1. lia. }
    rewrite known_complete; [reflexivity|exact HK|]. rewrite Forall_forall in B2. apply B2, nth_In, Hidx.
Qed.
Lemma zn_ext (a b : list Z) n : zlen a = n -> zlen b = n -> (forall i, 0 <= i < n -> zn a i = zn b i) -> a = b.
Proof.
  unfold zlen, zn. intros La Lb H. apply (nth_ext a b 0 0); [lia|]. intros i Hi. specialize (H (Z.of_nat i) ltac:(lia)). now rewrite Nat2Z.id in H.
Qed.
Lemma cells i w h n : 0 < w -> 0 < n -> 0 <= i < w * h * n ->
  exists r c k, i = (r * w + c) * n + k /\ 0 <= r < h /\ 0 <= c < w /\ 0 <= k < n.
Proof.
  intros Hw Hn Hi. exists (i / n / w), (i / n mod w), (i mod n).
  pose proof (Z.div_mod i n ltac:(lia)). pose proof (Z.div_mod (i / n) w ltac:(lia)). pose proof (Z.mod_pos_bound i n Hn). pose proof (Z.mod_pos_bound (i / n) w Hw).
  split; [lia|]. split; [|split; assumption].
  assert (0 <= i / n < w * h) by (split; [apply Z.div_pos; lia|apply Z.div_lt_upper_bound; lia]).
  split; [apply Z.div_pos; lia|apply Z.div_lt_upper_bound; lia].
Qed.
Lemma gray_same cpu o scans qv w h blocks f f' : gray_image scans qv w h blocks f -> gray_image scans qv w h blocks f' -> scans <= o_max_scans o ->
  w <= o_max_width o -> h <= o_max_height o -> w <= 65527 -> h <= 65527 -> 64 * ((w + 7) / 8) < 9 * w ->
  exists px, fst (decode_buffer (new_with_options cpu o) f) = Ok px /\ fst (decode_buffer (new_with_options cpu o) f') = Ok px /\ Z.of_nat (length px) = w * h.
Proof.
  intros H1 H2 Hs Hmw Hmh Hw Hh Hpad.
  destruct (gray_exact cpu o scans qv w h blocks f H1 Hs Hmw Hmh Hw Hh Hpad) as (P1 & P2 & px & E & L & N).
  destruct (gray_exact cpu o scans qv w h blocks f' H2 Hs Hmw Hmh Hw Hh Hpad) as (_ & _ & px' & E' & L' & N').
  exists px. split; [exact E|]. split; [|exact L]. rewrite E'. f_equal. apply (zn_ext _ _ (w * h) L' L). intros i Hi.
  destruct (cells i w h 1 P1 ltac:(lia) ltac:(lia)) as (r & c & k & -> & Hr & Hc & Hk). replace ((r * w + c) * 1 + k) with (r * w + c) by lia.
  now rewrite N, N' by assumption.
Qed.
Lemma gray_local cpu o scans qv w h blocks f w' h' blocks' f' : gray_image scans qv w h blocks f -> gray_image scans qv w' h' blocks' f' -> scans <= o_max_scans o ->
  w <= o_max_width o -> h <= o_max_height o -> w <= 65527 -> h <= 65527 -> 64 * ((w + 7) / 8) < 9 * w ->
  w' <= o_max_width o -> h' <= o_max_height o -> w' <= 65527 -> h' <= 65527 -> 64 * ((w' + 7) / 8) < 9 * w' ->
  exists px px', fst (decode_buffer (new_with_options cpu o) f) = Ok px /\ fst (decode_buffer (new_with_options cpu o) f') = Ok px' /\
    forall r c r' c', 0 <= r < h -> 0 <= c < w -> 0 <= r' < h' -> 0 <= c' < w' -> r mod 8 = r' mod 8 -> c mod 8 = c' mod 8 ->
      block_of ((w + 7) / 8) blocks [] r c = block_of ((w' + 7) / 8) blocks' [] r' c' ->
      nth (Z.to_nat (r * w + c)) px 0 = nth (Z.to_nat (r' * w' + c')) px' 0.
Proof.
  intros H1 H2 Hs Hmw Hmh Hw Hh Hpad Hmw' Hmh' Hw' Hh' Hpad'.
  destruct (gray_exact cpu o scans qv w h blocks f H1 Hs Hmw Hmh Hw Hh Hpad) as (P1 & P2 & px & E & L & N).
  destruct (gray_exact cpu o scans qv w' h' blocks' f' H2 Hs Hmw' Hmh' Hw' Hh' Hpad') as (_ & _ & px' & E' & L' & N').
  exists px, px'. split; [exact E|]. split; [exact E'|]. intros r c r' c' Hr Hc Hr' Hc' E1 E2 Eb.
  change (zn px (r * w + c) = zn px' (r' * w' + c')). rewrite N, N' by assumption. unfold gray_at. unfold block_of in Eb. now rewrite E1, E2, Eb.
Qed.

(** * Colour images *)
Definition shown_at (cpu : isa) (o : options) (qv : nat -> list Z) (B : nat -> Z -> Z -> list Z) (k r c : Z) : Z :=
  sample (kernel_of (choose_idct_func cpu (o_use_unsafe o)) (natural (qv (Z.to_nat k))) (natural (B (Z.to_nat k) (c / 8) (r / 8)))) (r mod 8) (c mod 8).

Lemma sampled_jobs_ext cpu o hs vs w h f f' g a b c jobs : 1 <= hs <= 2 -> 1 <= vs <= 2 -> 0 < w -> 0 < h ->
  (forall k r x, 0 <= k < 3 -> 0 <= r / 8 < (samples vs (Z.to_nat k) h + 7) / 8 -> 0 <= x / 8 < (samples hs (Z.to_nat k) w + 7) / 8 -> f k r x = f' k r x) ->
  sampled_jobs cpu o hs vs w h f g a b c jobs -> sampled_jobs cpu o hs vs w h f' g a b c jobs.
Proof.
  intros Hhs Hvs Hw Hh Hf []. split; auto.
  - intros r x Hr Hx. rewrite sj_luma; auto. apply Hf; unfold samples; cbn [Z.to_nat Nat.eqb]; clear - Hr Hx; lia.
  - intros k r x Hk Ho Hr Hr' Hx. rewrite sj_chroma; auto. apply Hf; [lia| |].
    + clear - Hvs Hk Hr Hr'. unfold samples. replace (Z.to_nat k =? 0)%nat with false by lia. assert (vs = 1 \/ vs = 2) as [-> | ->] by lia; lia.
    + clear - Hx Hhs Hk Hw. rewrite samples_blocks by lia. lia.
Qed.
Lemma finish_of_sampled cpu o w h f g a b c jobs : 0 < w -> 0 < h ->
  sampled_jobs cpu o 1 1 w h f g a b c jobs -> finish_jobs cpu o w h f g a b c jobs.
Proof.
  intros Hw Hh []. assert (E : up8 w 1 = (w + 7) / 8) by (unfold up8; f_equal; lia). rewrite E in *. rewrite ?Z.mul_1_l, ?Z.mul_1_r in *.
  assert (Hat : forall j k r x, 0 <= r -> job_at g a b c 1 ((w + 7) / 8) j k (r mod 8) x = strip_at g a b c j k (r mod 8) x).
  { intros j k r x Hr. unfold job_at, strip_at. replace (r mod 8 / 8) with 0 by lia. rewrite Z.mul_0_l, Z.add_0_l. f_equal. lia. }
  split; auto.
  - rewrite Forall_forall in *. intros j Hj. destruct (sj_jobs j Hj) as (y0 & y1 & y2 & Ej & L0 & L1). exists y0, y1, y2. split; [exact Ej|].
    split; [lia|]. intros Ho. specialize (L1 Ho). lia.
  - lia.
  - intros k r x Hk Ho Hr Hx. rewrite <- Hat by lia. destruct (Z.eq_dec k 0) as [-> |Hn].
    + apply sj_luma; assumption.
    + apply sj_chroma; try lia. destruct Ho; [contradiction|assumption].
Qed.

(** What the workers get, whichever file the image comes from *)
Lemma image_jobs cpu o scans hs vs qv w h B f : colour_image scans hs vs qv w h B f -> scans <= o_max_scans o ->
  w <= o_max_width o -> h <= o_max_height o -> whole_size hs vs w h ->
  0 < w /\ 0 < h /\ 1 <= hs <= 2 /\ 1 <= vs <= 2 /\
  (forall k, (k < 3)%nat -> length (qv k) = 64%nat /\ Forall byte (qv k)) /\
  (forall k x y, (k < 3)%nat -> has_samples hs vs w h k x y -> length (B k x y) = 64%nat) /\
  exists g a b c jobs, sampled_jobs cpu o hs vs w h (shown_at cpu o qv B) g a b c jobs /\
    fst (decode_buffer (new_with_options cpu o) f) = rbind (run_jobs g jobs) (fun os => Ok (assemble os (g_total g) (w * bytes_per_pixel o * h))).
Proof.
  intros Hf Hs Hmw Hmh (Sw & Sh & Heven & Hroom).
  assert (Hq : forall ps q t, Forall pre_ok ps -> last_quant (quants ps) q = Some t -> length (qd_values t) = 64%nat /\ Forall byte (qd_values t)).
  { intros ps q t Hp Ht. destruct (quant_legal _ _ _ Hp Ht) as (_ & Q1 & Q2). auto. }
  assert (Hqs : forall v0 v1 v2, v0 = qv 0%nat -> v1 = qv 1%nat -> v2 = qv 2%nat ->
    (length v0 = 64%nat /\ Forall byte v0) -> (length v1 = 64%nat /\ Forall byte v1) -> (length v2 = 64%nat /\ Forall byte v2) ->
    forall k, (k < 3)%nat -> length (qv k) = 64%nat /\ Forall byte (qv k)).
  { intros v0 v1 v2 -> -> -> A0 A1 A2 k Hk. destruct k as [|[|[|k]]]; auto; lia. }
  destruct Hf as [ps q q1 q2 t0 t1 t2 tss sel B' bits sfx l HB Hlast HBB Ht0 Ht1 Ht2 V0 V1 V2|ps q q1 q2 t0 t1 t2 cd0 cd1 cd2 is Ks n sfx l HI HK He Hn HBB Ht0 Ht1 Ht2 V0 V1 V2].
  - pose proof (bc_width _ _ _ _ _ _ _ _ _ HB) as Hw. pose proof (bc_height _ _ _ _ _ _ _ _ _ HB) as Hh. destruct (factors_ok _ _ _ _ _ _ _ _ _ _ _ _ _ HB) as [Hhs Hvs].
    split; [lia|]. split; [lia|]. split; [exact Hhs|]. split; [exact Hvs|].
    pose proof (bc_pre _ _ _ _ _ _ _ _ _ HB) as Hps.
    split; [apply (Hqs _ _ _ V0 V1 V2); eapply Hq; eauto|].
    split.
    { intros k x y Hk Hxy. rewrite <- (HBB k x y Hk Hxy). eapply sampled_long; [exact HB|exact Hk|apply Hxy|apply Hxy]. }
    pose proof (bc_bits _ _ _ _ _ _ _ _ _ HB) as Hbits.
    assert (Hle : forall m, (1 <= m)%nat -> 64 < last_bits (sel_codes (huffs ps ++ concat tss) sel) (image_blocks l w h B') m).
    { intros m Hm. eapply Z.lt_le_trans; [exact Hlast|]. unfold image_blocks in *. exact (last_bits_le _ _ _ _ Hbits _ _ Hm). }
    assert (Eu : up8 h vs = (h + 8 * vs - 1) / (8 * vs)) by (unfold up8; f_equal; lia).
    destruct (base_sampled_jobs cpu o ps hs vs q q1 q2 w h tss sel B' bits sfx t0 t1 t2 HB Hmw Hmh Ht0 Ht1 Ht2) as (ks & g & a & b & c & jobs & Hks & Hb & HJ & E).
    { apply Hle. lia. }
    { rewrite Eu. exact Heven. }
    { rewrite Eu. eapply Z.le_trans; [|exact Hroom]. apply Z.eq_le_incl. assert (Hd : (h + 8 * vs - 1) / (8 * vs) = hs * ((h + 8 * vs - 1) / (8 * vs) / hs)) by (apply Z.div_exact; [clear - Hhs; lia|exact Heven]).
      rewrite Hd at 2. ring. }
    assert (ks = []) as ->.
    { destruct Hks as [->|Hks]; [reflexivity|exfalso]. assert (ks <> []) as Hne by (destruct Hks; subst; discriminate). specialize (Hb Hne).
      specialize (Hle (length ks) ltac:(destruct ks; [contradiction|cbn [length]; lia])). fold l in Hb. lia. }
    exists g, a, b, c, jobs. split; [|exact E].
    eapply sampled_jobs_ext; [exact Hhs|exact Hvs|lia|lia| |exact HJ].
    intros k r x Hk Hr Hx. unfold sampled_sample, shown_at, without_last_chroma, without_last. cbn [existsb andb].
    rewrite (HBB (Z.to_nat k) (x / 8) (r / 8)); [|lia|split; assumption].
    unfold stab. assert (k = 0 \/ k = 1 \/ k = 2) as [-> | [-> | ->]] by (clear - Hk; lia); change (Z.to_nat 0) with 0%nat; change (Z.to_nat 1) with 1%nat; change (Z.to_nat 2) with 2%nat; cbn [nth];
      [rewrite V0|rewrite V1|rewrite V2]; reflexivity.
  - assert (P4 : 0 < w) by apply HI. assert (P5 : 0 < h) by apply HI. destruct (the_factors _ _ _ _ _ _ _ _ _ _ _ _ _ HI) as [Hhs Hvs].
    split; [exact P4|]. split; [exact P5|]. split; [exact Hhs|]. split; [exact Hvs|].
    pose proof (pi_pre _ _ _ _ _ _ _ _ _ HI) as Hps. pose proof (pi_coefs _ _ _ _ _ _ _ _ _ HI) as HC.
    split; [apply (Hqs _ _ _ V0 V1 V2); eapply Hq; eauto|].
    assert (Hlen : forall k x y, (k < 3)%nat -> has_samples hs vs w h k x y ->
      length (nth (Z.to_nat (y * ((samples hs k w + 7) / 8) + x)) (cd_blocks (nth k [cd0; cd1; cd2] cd0)) []) = 64%nat).
    { intros k x y Hk [Hx Hy]. destruct (data_size _ _ _ _ _ _ _ _ _ _ _ _ _ _ _ k (nth k [cd0; cd1; cd2] cd0) HI) as (W & H & L).
      { apply nth_error_nth'. exact Hk. }
      rewrite Forall_forall in HC. destruct (HC (nth k [cd0; cd1; cd2] cd0)) as (_ & B2 & _); [apply nth_In; exact Hk|].
      rewrite Forall_forall in B2. apply B2, nth_In. rewrite W, H in L.
      pose proof (block_inside _ _ _ _ Hy Hx) as HB. clear - HB L. lia. }
    split; [intros k x y Hk Hxy; rewrite <- (HBB k x y Hk Hxy); now apply Hlen|].
    destruct (three_known _ _ _ _ _ _ _ _ _ _ _ HI) as (K0 & K1 & K2 & ->).
    destruct (prog_jobs_there cpu o ps hs vs q q1 q2 w h t0 t1 t2 cd0 cd1 cd2 is K0 K1 K2 n 217 sfx stop_eoi HI Hmw Hmh ltac:(lia) Ht0 Ht1 Ht2 Sw Sh Heven Hroom)
      as [(g & a & b & c & jobs & HJ & E)|[_ E]]; [|contradiction].
    exists g, a, b, c, jobs. split; [|exact E].
    eapply sampled_jobs_ext; [exact Hhs|exact Hvs|lia|lia| |exact HJ].
    intros k r x Hk Hr Hx. specialize (HBB (Z.to_nat k) (x / 8) (r / 8) ltac:(lia) (conj Hx Hr)). specialize (Hlen (Z.to_nat k) (x / 8) (r / 8) ltac:(lia) (conj Hx Hr)).
    unfold shown_at. rewrite <- HBB. unfold prog_sample, shown.
    apply Forall_cons_iff in HK. destruct HK as [C0 HK]. apply Forall_cons_iff in HK. destruct HK as [C1 HK]. apply Forall_cons_iff in HK. destruct HK as [C2 _].
    assert (k = 0 \/ k = 1 \/ k = 2) as [-> | [-> | ->]] by (clear - Hk; lia); change (Z.to_nat 0) with 0%nat in *; change (Z.to_nat 1) with 1%nat in *; change (Z.to_nat 2) with 2%nat in *; cbn [nth] in *;
      rewrite known_complete by assumption; [rewrite V0|rewrite V1|rewrite V2]; reflexivity.
Qed.

Definition planes_of (hs vs : Z) (qv : nat -> list Z) (w h : Z) (B : nat -> Z -> Z -> list Z) : list plane :=
  map (fun k => mkPlane (qv k) (component_blocks ((samples hs k w + 7) / 8) ((samples vs k h + 7) / 8) (B k))) [0; 1; 2]%nat.
Lemma shown_close cpu o hs vs qv w h B :
  (forall k, (k < 3)%nat -> length (qv k) = 64%nat /\ Forall byte (qv k)) ->
  (forall k x y, (k < 3)%nat -> has_samples hs vs w h k x y -> length (B k x y) = 64%nat) ->
  (forall k x y, (k < 3)%nat -> has_samples hs vs w h k x y -> in_range (qv k) (B k x y)) ->
  forall k r c, 0 <= k < 3 -> 0 <= r / 8 < (samples vs (Z.to_nat k) h + 7) / 8 -> 0 <= c / 8 < (samples hs (Z.to_nat k) w + 7) / 8 ->
  0 <= shown_at cpu o qv B k r c <= 255 /\
  (Rabs (IZR (shown_at cpu o qv B k r c) - exact_at (samples hs (Z.to_nat k) w) (plane_at (planes_of hs vs qv w h B) k) r c) <=
    tolerance_at (samples hs (Z.to_nat k) w) (plane_at (planes_of hs vs qv w h B) k) r c)%R.
Proof.
  intros Hq Hl Hr k r c Hk Hrr Hc.
  assert (E : plane_at (planes_of hs vs qv w h B) k = mkPlane (qv (Z.to_nat k)) (component_blocks ((samples hs (Z.to_nat k) w + 7) / 8) ((samples vs (Z.to_nat k) h + 7) / 8) (B (Z.to_nat k))))
    by (assert (k = 0 \/ k = 1 \/ k = 2) as [-> | [-> | ->]] by (clear - Hk; lia); reflexivity).
  rewrite E. unfold exact_at, tolerance_at, sample_exact, block_of. cbn [pl_qv pl_blocks]. unfold component_blocks. rewrite nth_rows by assumption.
  assert (Hkk : (Z.to_nat k < 3)%nat) by (clear - Hk; lia). destruct (Hq _ Hkk) as [Q1 Q2]. unfold shown_at.
  apply sample_close; auto; try (clear; lia); [apply Hl|apply Hr]; auto; split; assumption.
Qed.

(** The sample of component [k] for the pixel in row [r], column [c] *)
Definition full_at (hs vs : Z) (f : Z -> Z -> Z -> Z) (k r c : Z) : Z :=
  if k =? 0 then f 0 r c else
  if hs =? 1 then (if vs =? 1 then f k r c else spread_440 f k r c)
  else if vs =? 1 then spread f k r c else spread_420 f k r c.
Lemma full_luma hs vs f r c : full_at hs vs f 0 r c = f 0 r c.
Proof. reflexivity. Qed.
Lemma inside_lines h r : 0 <= r < h -> r + 5 < h \/ h mod 32 = 0 -> inner_line h r.
Proof. unfold inner_line. lia. Qed.

(** The AVX2 routine for 4:2:0 is not used *)
Definition plain_420 (cpu : isa) (o : options) (hs vs w : Z) : Prop := hs = 2 -> vs = 2 -> cpu <> Avx2 \/ o_use_unsafe o = false \/ w <= 48.
Section pixels.
Variables (cpu : isa) (o : options) (hs vs w h : Z) (f : Z -> Z -> Z -> Z).
Hypothesis Hhs : 1 <= hs <= 2.
Hypothesis Hvs : 1 <= vs <= 2.
Hypothesis Hw : 0 < w <= 65527.
Hypothesis Hh : 0 < h <= 65527.
Variables (g : geom) (a b c : component) (jobs : list (list (list Z))).
Hypothesis HJ : sampled_jobs cpu o hs vs w h f g a b c jobs.
Let out := rbind (run_jobs g jobs) (fun os => Ok (assemble os (g_total g) (w * bytes_per_pixel o * h))).

Lemma luma_exact : o_colorspace o = GRAYSCALE -> narrow_padding hs vs w ->
  exists px, out = Ok px /\ zlen px = w * h /\ forall r x, 0 <= r < h -> 0 <= x < w -> zn px (r * w + x) = u8 (f 0 r x).
Proof.
  intros Ho Hp. apply (sampled_luma_pixels cpu o hs vs w h Hhs Hvs ltac:(lia) ltac:(lia) f g a b c jobs HJ Ho).
  unfold narrow_padding in Hp. unfold up8. replace (w + hs * 8 - 1) with (w + 8 * hs - 1) by ring. now replace (hs * 8) with (8 * hs) by ring.
Qed.
Lemma ycc_exact : o_colorspace o = YCbCr ->
  exists px, out = Ok px /\ zlen px = w * h * 3 /\
    (forall r x, 0 <= r < h -> 0 <= x < w -> zn px (at_pixel w 3 r x 0) = u8 (f 0 r x)) /\
    (plain_420 cpu o hs vs w -> forall r x k, 0 <= r < h -> 0 <= x < w -> 0 <= k < 3 -> inside hs vs w h r x -> zn px (at_pixel w 3 r x k) = u8 (full_at hs vs f k r x)).
Proof.
  intros Ho. assert (C : hs = 1 /\ vs = 1 \/ hs = 2 /\ vs = 1 \/ hs = 1 /\ vs = 2 \/ hs = 2 /\ vs = 2) by (clear - Hhs Hvs; lia).
  destruct C as [[-> ->]|[[-> ->]|[[-> ->]|[-> ->]]]].
  - destruct (ycc_pixels cpu o w h Hw Hh f g a b c jobs (finish_of_sampled _ _ _ _ _ _ _ _ _ _ (proj1 Hw) (proj1 Hh) HJ) Ho) as (px & E & L & N).
    exists px. split; [exact E|]. split; [exact L|]. split; [intros r x Hr Hx; apply N; auto; lia|].
    intros _ r x k Hr Hx Hk _. unfold full_at. cbn [Z.eqb Pos.eqb]. rewrite N by assumption. destruct (Z.eqb_spec k 0) as [-> |]; reflexivity.
  - destruct (sampled_ycc_pixels cpu o 2 1 w h Hhs Hvs (proj1 Hw) (proj1 Hh) f g a b c jobs HJ ltac:(discriminate) Ho) as (px & E & L & N & C).
    exists px. split; [exact E|]. split; [exact L|]. split; [exact N|]. intros _ r x k Hr Hx Hk [Hi _]. unfold full_at. cbn [Z.eqb Pos.eqb].
    destruct (Z.eqb_spec k 0) as [-> |]; [now apply N|]. specialize (Hi eq_refl).
    assert (Emx : up8 w 2 = (w + 15) / 16) by (unfold up8; f_equal; lia). rewrite Emx in C. apply (C eq_refl); auto; lia.
  - destruct (exact_ycc_440 cpu o w h f (proj1 Hw) (proj1 Hh) g a b c jobs HJ Ho) as (px & E & L & N & C).
    exists px. split; [exact E|]. split; [exact L|]. split; [exact N|]. intros _ r x k Hr Hx Hk [_ Hi]. unfold full_at. cbn [Z.eqb Pos.eqb].
    destruct (Z.eqb_spec k 0) as [-> |]; [now apply N|]. specialize (Hi eq_refl). apply C; auto; [now apply inside_lines|lia].
  - destruct (sampled_ycc_pixels cpu o 2 2 w h Hhs Hvs (proj1 Hw) (proj1 Hh) f g a b c jobs HJ ltac:(discriminate) Ho) as (px & E & L & N & _).
    exists px. split; [exact E|]. split; [exact L|]. split; [exact N|]. intros Hcpu r x k Hr Hx Hk [Hi1 Hi2]. unfold full_at. cbn [Z.eqb Pos.eqb].
    destruct (Z.eqb_spec k 0) as [-> |]; [now apply N|]. specialize (Hi1 eq_refl). specialize (Hi2 eq_refl).
    destruct (exact_ycc_420 cpu o w h f (proj1 Hw) (proj1 Hh) (Hcpu eq_refl eq_refl) g a b c jobs HJ Ho) as (px' & E' & _ & _ & C).
    assert (px' = px) as -> by (unfold out in E; rewrite E in E'; now injection E'). apply C; auto; lia.
Qed.
Lemma rgb_exact m : o_colorspace o = RGB -> plain_420 cpu o hs vs w ->
  cpu <> Sse41 \/ o_use_unsafe o = false \/ 22 <= w /\ 8 * hs * ((w + 8 * hs - 1) / (8 * hs)) <= w + 10 -> left_columns hs w m ->
  exists px, out = Ok px /\ zlen px = w * h * 3 /\
    (forall r x k, 0 <= r < h -> 0 <= x < m -> 0 <= k < 3 -> inside hs vs w h r x -> zn px (at_pixel w 3 r x k) =
      nth (Z.to_nat k) (cc_pixel (f 0 r x) (full_at hs vs f 1 r x) (full_at hs vs f 2 r x)) 0).
Proof.
  intros Ho Hcpu Hk Hm. assert (C : hs = 1 /\ vs = 1 \/ hs = 2 /\ vs = 1 \/ hs = 1 /\ vs = 2 \/ hs = 2 /\ vs = 2) by (clear - Hhs Hvs; lia).
  unfold left_columns in Hm.
  destruct C as [[-> ->]|[[-> ->]|[[-> ->]|[-> ->]]]]; unfold full_at; cbn [Z.eqb Pos.eqb].
  - change (8 * 1) with 8 in *. replace (w + 8 - 1) with (w + 7) in * by ring.
    destruct (rgb_pixels cpu o w h Hw Hh f m g a b c jobs (finish_of_sampled _ _ _ _ _ _ _ _ _ _ (proj1 Hw) (proj1 Hh) HJ) Ho) as (px & E & L & N).
    { apply chosen_fits. clear - Hk. intuition. }
    { unfold rgb_columns. clear - Hm. lia. }
    exists px. split; [exact E|]. split; [exact L|]. intros r x k Hr Hx Hkk _. now apply N.
  - change (8 * 2) with 16 in *. replace (w + 16 - 1) with (w + 15) in * by ring.
    assert (Emx : up8 w 2 = (w + 15) / 16) by (unfold up8; f_equal; lia).
    destruct (sampled_rgb_pixels cpu o 2 1 w h Hhs Hvs (proj1 Hw) (proj1 Hh) f m g a b c jobs HJ eq_refl eq_refl Ho) as (px & E & L & N).
    { rewrite Emx. now apply chosen_fits_422. }
    { rewrite Emx. unfold rgb_columns_422. clear - Hm. specialize Hm. intuition lia. }
    exists px. split; [exact E|]. split; [exact L|]. intros r x k Hr Hx Hkk [Hi _]. specialize (Hi eq_refl). apply N; auto; lia.
  - change (8 * 1) with 8 in *. replace (w + 8 - 1) with (w + 7) in * by ring.
    destruct (exact_rgb_440 cpu o w h f (proj1 Hw) (proj1 Hh) g a b c jobs HJ m Ho) as (px & E & L & N).
    { clear - Hk. intuition. }
    { clear - Hm. lia. }
    exists px. split; [exact E|]. split; [exact L|]. intros r x k Hr Hx Hkk [_ Hi]. specialize (Hi eq_refl). apply N; auto. now apply inside_lines.
  - change (8 * 2) with 16 in *. replace (w + 16 - 1) with (w + 15) in * by ring.
    destruct (exact_rgb_420 cpu o w h f (proj1 Hw) (proj1 Hh) (Hcpu eq_refl eq_refl) g a b c jobs HJ m Ho Hk) as (px & E & L & N).
    { clear - Hm. intuition lia. }
    exists px. split; [exact E|]. split; [exact L|]. intros r x k Hr Hx Hkk [Hi1 Hi2]. specialize (Hi1 eq_refl). specialize (Hi2 eq_refl). apply N; auto. lia.
Qed.
Lemma full_range : forall pls,
  (forall k r c, 0 <= k < 3 -> 0 <= r / 8 < (samples vs (Z.to_nat k) h + 7) / 8 -> 0 <= c / 8 < (samples hs (Z.to_nat k) w + 7) / 8 ->
   0 <= f k r c <= 255 /\
   (Rabs (IZR (f k r c) - exact_at (samples hs (Z.to_nat k) w) (plane_at pls k) r c) <= tolerance_at (samples hs (Z.to_nat k) w) (plane_at pls k) r c)%R) ->
  forall r x k, 0 <= r < h -> 0 <= x < w -> 0 <= k < 3 -> inside hs vs w h r x -> 0 <= full_at hs vs f k r x <= 255.
Proof using o Hhs Hvs Hw.
  clear - Hhs Hvs Hw o. intros pls Hc r x k Hr Hx Hk [Hi1 Hi2]. assert (C : hs = 1 /\ vs = 1 \/ hs = 2 /\ vs = 1 \/ hs = 1 /\ vs = 2 \/ hs = 2 /\ vs = 2) by (clear - Hhs Hvs; lia).
  unfold full_at. destruct (Z.eqb_spec k 0) as [-> |Hk0].
  { apply (Hc 0 r x); [lia| |]; unfold samples; cbn [Z.to_nat Nat.eqb]; lia. }
  assert (Hk3 : 0 < k < 3) by lia.
  destruct C as [[E1 E2]|[[E1 E2]|[[E1 E2]|[E1 E2]]]]; subst hs vs; cbn [Z.eqb Pos.eqb].
  - apply (Hc k r x Hk); unfold samples; replace (Z.to_nat k =? 0)%nat with false by lia; rewrite Z.div_1_r; lia.
  - specialize (Hi1 eq_refl). apply (chroma_near 2 1 w h f pls Hc k r x eq_refl eq_refl Hr); auto; lia.
  - specialize (Hi2 eq_refl). apply (early_close w h f pls Hc k r x); auto. now apply inside_lines.
  - specialize (Hi1 eq_refl). specialize (Hi2 eq_refl). 
    apply (spread_close o w h f pls Hc k r x); auto. unfold up8. replace (w + 2 * 8 - 1) with (w + 15) by ring. change (2 * 8) with 16. lia.
Qed.
End pixels.

(** * Images *)
Section images.
Variables (cpu : isa) (scans hs vs w h : Z).
Hypothesis Hsize : whole_size hs vs w h.
Definition limits_ok (o : options) : Prop := scans <= o_max_scans o /\ w <= o_max_width o /\ h <= o_max_height o.

Lemma image_luma o qv B f : colour_image scans hs vs qv w h B f -> limits_ok o -> o_colorspace o = GRAYSCALE -> narrow_padding hs vs w ->
  0 < w /\ exists px, fst (decode_buffer (new_with_options cpu o) f) = Ok px /\ zlen px = w * h /\
    forall r x, 0 <= r < h -> 0 <= x < w -> zn px (r * w + x) = u8 (shown_at cpu o qv B 0 r x).
Proof.
  intros Hf (L1 & L2 & L3) Ho Hp. destruct (image_jobs cpu o scans hs vs qv w h B f Hf L1 L2 L3 Hsize) as (Hw & Hh & Hhs & Hvs & _ & _ & g & a & b & c & jobs & HJ & E).
  destruct Hsize as (S1 & S2 & _). split; [exact Hw|]. rewrite E. apply (luma_exact cpu o hs vs w h _ Hhs Hvs (conj Hw S1) (conj Hh S2) g a b c jobs HJ Ho Hp).
Qed.
Lemma image_ycc o qv B f : colour_image scans hs vs qv w h B f -> limits_ok o -> o_colorspace o = YCbCr ->
  0 < w /\ exists px, fst (decode_buffer (new_with_options cpu o) f) = Ok px /\ zlen px = w * h * 3 /\
    (forall r x, 0 <= r < h -> 0 <= x < w -> zn px (at_pixel w 3 r x 0) = u8 (shown_at cpu o qv B 0 r x)) /\
    (plain_420 cpu o hs vs w -> forall r x k, 0 <= r < h -> 0 <= x < w -> 0 <= k < 3 -> inside hs vs w h r x ->
      zn px (at_pixel w 3 r x k) = u8 (full_at hs vs (shown_at cpu o qv B) k r x)).
Proof.
  intros Hf (L1 & L2 & L3) Ho. destruct (image_jobs cpu o scans hs vs qv w h B f Hf L1 L2 L3 Hsize) as (Hw & Hh & Hhs & Hvs & _ & _ & g & a & b & c & jobs & HJ & E).
  destruct Hsize as (S1 & S2 & _). split; [exact Hw|]. rewrite E. apply (ycc_exact cpu o hs vs w h _ Hhs Hvs (conj Hw S1) (conj Hh S2) g a b c jobs HJ Ho).
Qed.
Definition rgb_fits (o : options) : Prop := cpu <> Sse41 \/ o_use_unsafe o = false \/ 22 <= w /\ 8 * hs * ((w + 8 * hs - 1) / (8 * hs)) <= w + 10.
Lemma image_rgb o qv B f m : colour_image scans hs vs qv w h B f -> limits_ok o -> o_colorspace o = RGB -> plain_420 cpu o hs vs w -> rgb_fits o -> left_columns hs w m ->
  exists px, fst (decode_buffer (new_with_options cpu o) f) = Ok px /\ zlen px = w * h * 3 /\
    (forall r x k, 0 <= r < h -> 0 <= x < m -> 0 <= k < 3 -> inside hs vs w h r x -> zn px (at_pixel w 3 r x k) =
      nth (Z.to_nat k) (cc_pixel (shown_at cpu o qv B 0 r x) (full_at hs vs (shown_at cpu o qv B) 1 r x) (full_at hs vs (shown_at cpu o qv B) 2 r x)) 0).
Proof.
  intros Hf (L1 & L2 & L3) Ho Hpl Hk Hm. destruct (image_jobs cpu o scans hs vs qv w h B f Hf L1 L2 L3 Hsize) as (Hw & Hh & Hhs & Hvs & _ & _ & g & a & b & c & jobs & HJ & E).
  destruct Hsize as (S1 & S2 & _). rewrite E. apply (rgb_exact cpu o hs vs w h _ Hhs Hvs (conj Hw S1) (conj Hh S2) g a b c jobs HJ m Ho Hpl Hk Hm).
Qed.
Lemma image_range o qv B f : colour_image scans hs vs qv w h B f -> limits_ok o ->
  (forall k x y, (k < 3)%nat -> has_samples hs vs w h k x y -> in_range (qv k) (B k x y)) ->
  forall r x k, 0 <= r < h -> 0 <= x < w -> 0 <= k < 3 -> inside hs vs w h r x -> 0 <= full_at hs vs (shown_at cpu o qv B) k r x <= 255.
Proof.
  intros Hf (L1 & L2 & L3) Hr. destruct (image_jobs cpu o scans hs vs qv w h B f Hf L1 L2 L3 Hsize) as (Hw & Hh & Hhs & Hvs & Hq & Hl & _).
  destruct Hsize as (S1 & S2 & _). exact (full_range o hs vs w h _ Hhs Hvs (conj Hw S1) (planes_of hs vs qv w h B) (shown_close cpu o hs vs qv w h B Hq Hl Hr)).
Qed.

(** Grayscale output is the luminance of YCbCr output *)
Lemma gray_is_luma o qv B f : colour_image scans hs vs qv w h B f -> limits_ok o -> narrow_padding hs vs w ->
  exists pg py, fst (decode_buffer (new_with_options cpu (set_out_colorspace o GRAYSCALE)) f) = Ok pg /\
    fst (decode_buffer (new_with_options cpu (set_out_colorspace o YCbCr)) f) = Ok py /\
    zlen pg = w * h /\ zlen py = w * h * 3 /\ forall i, 0 <= i < w * h -> zn pg i = zn py (3 * i).
Proof.
  intros Hf Hl Hp. destruct (image_luma (set_out_colorspace o GRAYSCALE) qv B f Hf Hl eq_refl Hp) as (Hw & pg & Eg & Lg & Ng).
  destruct (image_ycc (set_out_colorspace o YCbCr) qv B f Hf Hl eq_refl) as (_ & py & Ey & Ly & Ny & _).
  exists pg, py. split; [exact Eg|]. split; [exact Ey|]. split; [exact Lg|]. split; [exact Ly|]. intros i Hi.
  destruct (cells i w h 1 Hw ltac:(lia) ltac:(lia)) as (r & c & k & -> & Hr & Hc & Hk).
  replace ((r * w + c) * 1 + k) with (r * w + c) by lia. rewrite Ng by assumption. specialize (Ny r c Hr Hc). unfold at_pixel in Ny.
  replace (3 * (r * w + c)) with ((r * w + c) * 3 + 0) by ring. rewrite Ny. reflexivity.
Qed.
(** RGB output is the conversion of YCbCr output *)
Lemma rgb_is_ycc o qv B f m : colour_image scans hs vs qv w h B f -> limits_ok o -> plain_420 cpu o hs vs w -> rgb_fits o -> left_columns hs w m ->
  (forall k x y, (k < 3)%nat -> has_samples hs vs w h k x y -> in_range (qv k) (B k x y)) ->
  exists pr py, fst (decode_buffer (new_with_options cpu (set_out_colorspace o RGB)) f) = Ok pr /\
    fst (decode_buffer (new_with_options cpu (set_out_colorspace o YCbCr)) f) = Ok py /\
    zlen pr = w * h * 3 /\ zlen py = w * h * 3 /\
    forall r x, 0 <= r < h -> 0 <= x < m -> inside hs vs w h r x ->
      [byte_at w pr r x 0; byte_at w pr r x 1; byte_at w pr r x 2] = pixel_rgb (byte_at w py r x 0) (byte_at w py r x 1) (byte_at w py r x 2).
Proof.
  intros Hf Hl Hpl Hk Hm Hr. destruct (image_rgb (set_out_colorspace o RGB) qv B f m Hf Hl eq_refl Hpl Hk Hm) as (pr & Er & Lr & Nr).
  destruct (image_ycc (set_out_colorspace o YCbCr) qv B f Hf Hl eq_refl) as (Hw & py & Ey & Ly & _ & Ny).
  exists pr, py. split; [exact Er|]. split; [exact Ey|]. split; [exact Lr|]. split; [exact Ly|]. intros r x Hrr Hx Hi.
  assert (Hxw : 0 <= x < w) by (clear - Hm Hx Hw; unfold left_columns in Hm; lia).
  pose proof (fun k Hk => image_range o qv B f Hf Hl Hr r x k Hrr Hxw Hk Hi) as HR.
  specialize (Ny Hpl). pose proof (fun k Hk => Ny r x k Hrr Hxw Hk Hi) as Y. pose proof (fun k Hk => Nr r x k Hrr Hx Hk Hi) as R.
  change (shown_at cpu (set_out_colorspace o YCbCr) qv B) with (shown_at cpu o qv B) in Y. change (shown_at cpu (set_out_colorspace o RGB) qv B) with (shown_at cpu o qv B) in R.
  unfold at_pixel, zn in Y, R. unfold byte_at.
  pose proof (HR 0 ltac:(lia)) as R0. pose proof (HR 1 ltac:(lia)) as R1. pose proof (HR 2 ltac:(lia)) as R2. rewrite full_luma in R0.
  rewrite !Y, !R by lia. rewrite full_luma. unfold u8. rewrite !Z.mod_small by lia. rewrite cc_pixel_spec by (unfold byte; lia). reflexivity.
Qed.
(** The same coefficients give the same pixels *)
Lemma same_luma o qv B f f' : colour_image scans hs vs qv w h B f -> colour_image scans hs vs qv w h B f' -> limits_ok o ->
  o_colorspace o = GRAYSCALE -> narrow_padding hs vs w ->
  exists px, fst (decode_buffer (new_with_options cpu o) f) = Ok px /\ fst (decode_buffer (new_with_options cpu o) f') = Ok px /\ zlen px = w * h.
Proof.
  intros H1 H2 Hl Ho Hp. destruct (image_luma o qv B f H1 Hl Ho Hp) as (Hw & px & E & L & N). destruct (image_luma o qv B f' H2 Hl Ho Hp) as (_ & px' & E' & L' & N').
  exists px. split; [exact E|]. split; [|exact L]. rewrite E'. f_equal. apply (zn_ext _ _ _ L' L). intros i Hi.
  destruct (cells i w h 1 Hw ltac:(lia) ltac:(lia)) as (r & c & k & -> & Hr & Hc & Hk). replace ((r * w + c) * 1 + k) with (r * w + c) by lia. now rewrite N, N' by assumption.
Qed.
Lemma same_ycc o qv B f f' : colour_image scans hs vs qv w h B f -> colour_image scans hs vs qv w h B f' -> limits_ok o -> o_colorspace o = YCbCr ->
  exists px px', fst (decode_buffer (new_with_options cpu o) f) = Ok px /\ fst (decode_buffer (new_with_options cpu o) f') = Ok px' /\
    zlen px = w * h * 3 /\ zlen px' = w * h * 3 /\
    (forall r x, 0 <= r < h -> 0 <= x < w -> byte_at w px r x 0 = byte_at w px' r x 0) /\
    (plain_420 cpu o hs vs w -> forall r x k, 0 <= r < h -> 0 <= x < w -> 0 <= k < 3 -> inside hs vs w h r x -> byte_at w px r x k = byte_at w px' r x k) /\
    (hs = 1 -> vs = 1 -> px = px').
Proof.
  intros H1 H2 Hl Ho. destruct (image_ycc o qv B f H1 Hl Ho) as (Hw & px & E & L & N & C). destruct (image_ycc o qv B f' H2 Hl Ho) as (_ & px' & E' & L' & N' & C').
  exists px, px'. split; [exact E|]. split; [exact E'|]. split; [exact L|]. split; [exact L'|]. unfold at_pixel, zn in N, N', C, C'. unfold byte_at. split; [|split].
  - intros r x Hr Hx. now rewrite N, N' by assumption.
  - intros Hpl r x k Hr Hx Hk Hi. now rewrite C, C' by assumption.
  - intros Eh Ev. apply (zn_ext _ _ _ L L'). intros i Hi. unfold zn.
    destruct (cells i w h 3 Hw ltac:(lia) Hi) as (r & x & k & -> & Hr & Hx & Hk).
    assert (Hp : plain_420 cpu o hs vs w) by (intros A; lia). assert (Hin : inside hs vs w h r x) by (split; intros; lia).
    now rewrite C, C' by assumption.
Qed.
Lemma same_rgb o qv B f f' m : colour_image scans hs vs qv w h B f -> colour_image scans hs vs qv w h B f' -> limits_ok o -> o_colorspace o = RGB ->
  plain_420 cpu o hs vs w -> rgb_fits o -> left_columns hs w m ->
  exists px px', fst (decode_buffer (new_with_options cpu o) f) = Ok px /\ fst (decode_buffer (new_with_options cpu o) f') = Ok px' /\
    zlen px = w * h * 3 /\ zlen px' = w * h * 3 /\
    (forall r x k, 0 <= r < h -> 0 <= x < m -> 0 <= k < 3 -> inside hs vs w h r x -> byte_at w px r x k = byte_at w px' r x k).
Proof.
  intros H1 H2 Hl Ho Hpl Hk Hm. destruct (image_rgb o qv B f m H1 Hl Ho Hpl Hk Hm) as (px & E & L & N). destruct (image_rgb o qv B f' m H2 Hl Ho Hpl Hk Hm) as (px' & E' & L' & N').
  exists px, px'. split; [exact E|]. split; [exact E'|]. split; [exact L|]. split; [exact L'|]. unfold at_pixel, zn in N, N'. unfold byte_at.
  intros r x k Hr Hx Hkk Hi. now rewrite N, N' by assumption.
Qed.
End images.

(** A pixel depends on its block and its place in the block *)
Lemma luma_local cpu o scans hs vs qv w h B f hs' vs' qv' w' h' B' f' : colour_image scans hs vs qv w h B f -> colour_image scans hs' vs' qv' w' h' B' f' -> qv 0%nat = qv' 0%nat ->
  whole_size hs vs w h -> whole_size hs' vs' w' h' -> limits_ok scans w h o -> limits_ok scans w' h' o -> o_colorspace o = YCbCr ->
  exists px px', fst (decode_buffer (new_with_options cpu o) f) = Ok px /\ fst (decode_buffer (new_with_options cpu o) f') = Ok px' /\
    forall r c r' c', 0 <= r < h -> 0 <= c < w -> 0 <= r' < h' -> 0 <= c' < w' -> r mod 8 = r' mod 8 -> c mod 8 = c' mod 8 ->
      B 0%nat (c / 8) (r / 8) = B' 0%nat (c' / 8) (r' / 8) -> byte_at w px r c 0 = byte_at w' px' r' c' 0.
Proof.
  intros H1 H2 Hq S1 S2 L1 L2 Ho. destruct (image_ycc cpu scans hs vs w h S1 o qv B f H1 L1 Ho) as (_ & px & E & L & N & _).
  destruct (image_ycc cpu scans hs' vs' w' h' S2 o qv' B' f' H2 L2 Ho) as (_ & px' & E' & L' & N' & _).
  exists px, px'. split; [exact E|]. split; [exact E'|]. intros r c r' c' Hr Hc Hr' Hc' Er Ec EB. unfold at_pixel, zn in N, N'. unfold byte_at.
  rewrite N, N' by assumption. unfold shown_at. change (Z.to_nat 0) with 0%nat. now rewrite Er, Ec, EB, Hq.
Qed.
Lemma colour_local cpu o scans qv w h B f w' h' B' f' : colour_image scans 1 1 qv w h B f -> colour_image scans 1 1 qv w' h' B' f' ->
  whole_size 1 1 w h -> whole_size 1 1 w' h' -> limits_ok scans w h o -> limits_ok scans w' h' o -> o_colorspace o = YCbCr ->
  exists px px', fst (decode_buffer (new_with_options cpu o) f) = Ok px /\ fst (decode_buffer (new_with_options cpu o) f') = Ok px' /\
    forall r c r' c' k, 0 <= r < h -> 0 <= c < w -> 0 <= r' < h' -> 0 <= c' < w' -> r mod 8 = r' mod 8 -> c mod 8 = c' mod 8 -> 0 <= k < 3 ->
      B (Z.to_nat k) (c / 8) (r / 8) = B' (Z.to_nat k) (c' / 8) (r' / 8) -> byte_at w px r c k = byte_at w' px' r' c' k.
Proof.
  intros H1 H2 S1 S2 L1 L2 Ho. destruct (image_ycc cpu scans 1 1 w h S1 o qv B f H1 L1 Ho) as (_ & px & E & L & _ & N).
  destruct (image_ycc cpu scans 1 1 w' h' S2 o qv B' f' H2 L2 Ho) as (_ & px' & E' & L' & _ & N').
  exists px, px'. split; [exact E|]. split; [exact E'|]. intros r c r' c' k Hr Hc Hr' Hc' Er Ec Hk EB. unfold at_pixel, zn in N, N'. unfold byte_at.
  assert (Hp : forall w, plain_420 cpu o 1 1 w) by (intros w0 A; discriminate A).
  assert (Hin : forall w h r c, inside 1 1 w h r c) by (intros; split; discriminate).
  rewrite N, N' by auto. unfold full_at. cbn [Z.eqb Pos.eqb]. destruct (Z.eqb_spec k 0) as [-> |]; unfold shown_at; [change (Z.to_nat 0) with 0%nat in *|]; now rewrite Er, Ec, EB.
Qed.
