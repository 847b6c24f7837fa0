(** How many bytes a successful decode returns. *)
From Coq Require Import ZArith String List Bool Lia.
From Coq Require Import ZifyBool ZifyNat ZifyN.
From Verif Require Import Base Types Huffman State Bitstream Headers Worker Mcu McuProg Decoder Pool.
From Verif Require Import SpecSegments Session BaseFacts BlockSafe WorkerSafe HeaderInv DecodeInv Keeps ApiFacts Sim Sched.
Import ListNotations.
Local Open Scope Z_scope.

Lemma run_jobs_len g jobs os : 0 <= g_chunk g -> run_jobs g jobs = Ok os -> zlen os = zlen jobs /\ zlen (concat os) = zlen jobs * g_chunk g.
Proof.
  intros Hc. revert os. induction jobs as [|co jobs IH]; intros os E; cbn [run_jobs] in E.
  - injection E as <-. auto.
  - pose proof (kl_post_process co (g_comps g) (g_idct g) (g_cc g) (g_in g) (g_out g) (zrepeat 0 (g_chunk g)) (g_width g)) as Hl.
    destruct (post_process _ _ _ _ _ _ _ _) as [o| | |]; try discriminate. destruct (run_jobs g jobs) as [os'| | |]; try discriminate.
    injection E as <-. destruct (IH os' eq_refl) as [H1 H2]. cbn [keeps_len concat] in *. unfold zrepeat in Hl. rewrite repeat_length in Hl.
    unfold zlen in *. rewrite app_length. cbn [length]. split; nia.
Qed.
Lemma assemble_len os total n : 0 <= n -> zlen (concat os) <= total -> zlen (assemble os total n) = Z.min n total.
Proof.
  intros Hn Ht. unfold assemble, zlen, zrepeat in *. rewrite firstn_length, app_length, repeat_length. lia.
Qed.
Lemma assemble_bound os total n : 0 <= n -> zlen (assemble os total n) <= n.
Proof. intros Hn. unfold assemble, zlen. rewrite firstn_length. lia. Qed.

Lemma output_nonneg d : hinv d -> 0 <= output_len d.
Proof.
  intros (_ & [? ? ? ? ? ? ? ? ? ? ? ? ? ? ? ?] & _). pose proof (nc_nonneg (o_colorspace (d_opt d))).
  unfold output_len. repeat apply Z.mul_nonneg_nonneg; lia.
Qed.
Lemma area w h k nc e : 0 <= w -> 0 <= h -> 0 <= k <= nc -> 0 <= e -> w * h * k <= (w + 8) * (h + 8) * nc + e.
Proof.
  intros Hw Hh Hk He. assert (w * h <= (w + 8) * (h + 8)) by lia. assert (0 <= w * h) by (apply Z.mul_nonneg_nonneg; lia).
  pose proof (Z.mul_le_mono_nonneg (w * h) ((w + 8) * (h + 8)) k nc). lia.
Qed.
(** The allocation suffices *)
Lemma allocation d k : hinv d -> i_width (d_info d) <= 65527 -> i_height (d_info d) <= 65527 ->
  0 <= k <= num_components (o_colorspace (d_opt d)) ->
  i_width (d_info d) * i_height (d_info d) * k <= capacity d * num_components (o_colorspace (d_opt d)) + extra_space d.
Proof.
  intros (_ & [? ? ? ? ? ? ? ? ? ? ? ? ? ? ? ?] & _) Hw Hh Hk.
  assert (0 <= extra_space d).
  { unfold extra_space. repeat apply Z.mul_nonneg_nonneg; try lia. destruct (d_inter d); lia. }
  unfold capacity, u16. rewrite !Z.mod_small by lia. set (nc := num_components _) in *.
  apply area; lia.
Qed.

(** The number of output components never grows during a call *)
Lemma comps_change k : 1 <= k -> change (fun o => o) (fun o => num_components (o_colorspace o) <= k) true.
Proof. intros Hk. constructor; cbn; auto; intros; lia. Qed.
Lemma rows_comps g s : num_components (o_colorspace (d_opt (m_dec (snd (decode_rows g s))))) <= num_components (o_colorspace (d_opt (m_dec s))).
Proof.
  set (k := num_components (o_colorspace (d_opt (m_dec s)))).
  assert (Hk : 1 <= k) by (unfold k; destruct (o_colorspace _); cbn; lia).
  assert (H : simr true (fm (fun o => o)) (Pm (fun o => num_components (o_colorspace o) <= k)) (decode_rows g) (decode_rows g)).
  { unfold decode_rows. apply sim_mfor. intros _. apply sim_decode_row. now apply comps_change. }
  destruct (H s) as [H1 _]; [unfold Pm, L; subst k; lia|]. exact H1.
Qed.

Definition plain_size (d : decoder) : Prop := i_width (d_info d) <= 65527 /\ i_height (d_info d) <= 65527.

Lemma baseline_len h px h' : hinv (hd_dec h) -> bytes h -> decode_baseline h = (Ok px, h') ->
  zlen px <= output_len (hd_dec h') /\
  (plain_size (hd_dec h') -> d_info (hd_dec h') = d_info (hd_dec h) -> zlen px = output_len (hd_dec h')).
Proof.
  intros Hi Hb E. pose proof (decode_baseline_fin h Hi Hb) as Hfin. unfold wp in Hfin. rewrite E in Hfin.
  destruct Hfin as [Hi' _ _ _ _]. cbn [snd] in Hi'. unfold decode_baseline in E.
  pose proof (baseline_setup_step (hd_dec h) Hi) as Hst. unfold wp in Hst.
  destruct (baseline_setup (hd_dec h)) as [[g| | |] d] eqn:Eb; try discriminate. cbn [fst snd] in Hst.
  destruct (baseline_sizes _ _ _ Hi Eb) as [Hc Ht]. destruct Hst as [Hid _ _ Hinf _].
  assert (Hgt : g_total g = capacity d * num_components (o_colorspace (d_opt d)) + extra_space d).
  { clear - Eb. unfold baseline_setup in Eb. rename Eb into E. apply bind_inv in E. destruct E as (x0 & s0 & _ & E). apply bind_inv in E. destruct E as (x1 & s1 & _ & E).
    apply bind_inv in E. destruct E as (x2 & s2 & _ & E). apply bind_inv in E. destruct E as (x3 & s3 & _ & E).
    apply bind_inv in E. destruct E as (x4 & s4 & _ & E). destruct (mcu_counts x4) as [[w h1] b].
    apply bind_inv in E. destruct E as ([[w' h''] b'] & s5 & _ & E). apply bind_inv in E. destruct E as (x6 & s6 & E6 & E).
    injection E6 as <- <-. apply bind_inv in E. destruct E as (c0 & s7 & E7 & E). unfold lift in E7. injection E7 as _ <-. cbv zeta in E.
    destruct (_ =? 0); [discriminate|]. injection E as <- <-. reflexivity. }
  pose proof (rows_fit g (mkMst d (bst_new (hd_rd h)) [] []) (or_introl eq_refl)) as Hf.
  pose proof (rows_comps g (mkMst d (bst_new (hd_rd h)) [] [])) as Hnc.
  destruct (decode_rows g _) as [r0 s]. cbn [snd m_dec] in Hf, Hnc. apply fits_rev in Hf. apply (fits_mem g _ Hc Ht) in Hf.
  destruct r0 as [u| | |]; try discriminate; [|destruct (run_jobs g (rev (m_jobs s))); discriminate].
  destruct (run_jobs g (rev (m_jobs s))) as [os| | |] eqn:Er; try discriminate. injection E as <- <-. cbn [hd_dec] in *.
  destruct (run_jobs_len g _ os ltac:(lia) Er) as [_ Hl]. pose proof (output_nonneg (m_dec s) Hi') as Hon.
  split; [now apply assemble_bound|]. intros [Hw Hh] Hsame. rewrite assemble_len by (auto; lia). apply Z.min_l. rewrite Hgt.
  unfold output_len. rewrite Hsame, <- Hinf. apply allocation; auto; try (rewrite Hinf, <- Hsame; assumption).
  split; [apply nc_nonneg|exact Hnc].
Qed.
Lemma progressive_len h px h' : hinv (hd_dec h) -> bytes h -> decode_progressive h = (Ok px, h') ->
  zlen px <= output_len (hd_dec h') /\ (plain_size (hd_dec h') -> zlen px = output_len (hd_dec h')).
Proof.
  intros Hi Hb E. pose proof (decode_progressive_fin h Hi Hb) as Hfin. unfold wp in Hfin. rewrite E in Hfin.
  destruct Hfin as [Hi' _ _ _ _]. cbn [snd] in Hi'. unfold decode_progressive in E. cbv zeta in E.
  destruct (prog_counts (hd_dec h)) as [w hh] eqn:Ec.
  assert (0 <= w) as Hw.
  { destruct Hi as (_ & [? ? ? ? ? ? ? ? ? ? ? ? ? ? ? ?] & _). unfold prog_counts in Ec.
    destruct (d_inter _); injection Ec as <- <-; [auto|]. apply Z.div_pos; lia. }
  destruct (check_component_dimensions (hd_dec h)); cbn [rbind] in E; try discriminate.
  assert (Forall (Forall in16) [[]; []; []]) as H0 by repeat constructor.
  pose proof (alloc_blocks_ok (Z.to_nat (num_components (d_incs (hd_dec h)))) 0 w hh (d_comps (hd_dec h)) _ H0) as Ha.
  destruct (alloc_blocks _ _ _ _ _ _) as [buf| | |]; try discriminate.
  set (s0 := mkPst _ _ buf) in E.
  assert (pinv s0) as Hp.
  { unfold s0, sinv, bst_new_progressive, ok_s, band2, buf_ok. msimp. split; [exact Hi|]. split; [lia|].
    split; [destruct Hi as (_ & [? ? ? ? ? ? ? ? ? ? ? ? ? ? ? ?] & _); lia|]. split; [exact Hb|exact Ha]. }
  destruct (progressive_scans w s0) as [r s] eqn:Es. injection E as -> <-. cbn [hd_dec] in *.
  unfold progressive_scans in Es.
  apply bind_inv in Es. destruct Es as (u & s1 & E1 & Ej).
  pose proof (parse_entropy_step s0 Hp) as H1. unfold wp in H1. rewrite E1 in H1. destruct H1 as [I1 _ _ _ _ _]. cbn [snd] in I1.
  apply bind_inv in Ej. destruct Ej as (st & s1' & E2 & Ej). injection E2 as <- <-.
  destruct (b_marker (p_st s1)) as [m|]; [|discriminate].
  apply bind_inv in Ej. destruct Ej as (u2 & s2 & E2 & Ej).
  pose proof (modps_step (fun st => set_marker st None) s1 I1) as H2. unfold wp in H2. rewrite E2 in H2.
  destruct H2 as [I2 S2 _ _ _ _]; [apply I1|apply I1|reflexivity|]. cbn [snd] in *.
  apply bind_inv in Ej. destruct Ej as (u3 & s3 & E3 & Ej).
  pose proof (scan_loop_step (S (length (b_rd (p_st s1)))) m 1 s2 I2) as H3. unfold wp in H3. rewrite E3 in H3.
  destruct H3 as [I3 _ _ _ _ _]; [apply suffix_len in S2; lia|]. cbn [snd] in *.
  unfold finish_progressive_decoding in Ej.
  apply bind_inv in Ej. destruct Ej as (g & s4 & E4 & Ej). unfold on_dec in E4.
  destruct (finish_setup (w * 64) (p_dec s3)) as [r4 d4] eqn:Ef. injection E4 as -> <-.
  destruct (finish_sizes (w * 64) (p_dec s3) g d4) as [Hc Ht]; [apply I3|lia|exact Ef|].
  apply bind_inv in Ej. destruct Ej as (s5 & s5' & E5 & Ej). injection E5 as <- <-.
  apply bind_inv in Ej. destruct Ej as (jobs & s6 & E6 & Ej). unfold lift in E6. injection E6 as E6 <-.
  apply bind_inv in Ej. destruct Ej as (os & s7 & E7 & Ej). unfold lift in E7. injection E7 as E7 <-.
  unfold ret in Ej. injection Ej as <- <-. cbn [p_dec] in *.
  destruct (prog_jobs_fit _ _ _ _ E6 Hc Ht) as [Hc' Hf]. destruct (run_jobs_len g _ os Hc E7) as [_ Hl].
  pose proof (output_nonneg d4 Hi') as Hon. split; [now apply assemble_bound|]. intros [Hw' Hh'].
  rewrite assemble_len by (auto; lia). apply Z.min_l.
  assert (Hgt : g_total g = capacity d4 * num_components (o_colorspace (d_opt d4)) + extra_space d4).
  { clear - Ef. unfold finish_setup in Ef. rename Ef into E. apply bind_inv in E. destruct E as (x0 & s0 & _ & E). apply bind_inv in E. destruct E as (x1 & s1 & _ & E). cbv zeta in E.
    apply bind_inv in E. destruct E as (b & s2 & _ & E). apply bind_inv in E. destruct E as (x3 & s3' & E3 & E). injection E3 as <- <-.
    apply bind_inv in E. destruct E as (c0 & s4 & E4 & E). unfold lift in E4. injection E4 as _ <-. injection E as <- <-. reflexivity. }
  rewrite Hgt. unfold output_len. apply allocation; auto. split; [apply nc_nonneg|lia].
Qed.

(** * Calls *)
Lemma decode_len d buf px d' : hinv d -> Forall byte buf -> decode_buffer d buf = (Ok px, d') ->
  zlen px <= output_len d' /\
  (plain_size d' -> (exists d1, read_headers d buf = (Ok tt, d1) /\ (d_prog d1 = true \/ d_info d1 = d_info d')) -> zlen px = output_len d').
Proof.
  intros Hi Hb E. unfold decode_buffer, read_headers in *. rewrite on_buffer_eq, decode_internal_split in E.
  pose proof (decode_headers_step (mkHst d buf) Hi Hb) as H. unfold wp in H. destruct (decode_headers _) as [[[]| | |] h1] eqn:Eh; try discriminate.
  cbn [fst snd] in H, E |- *. destruct H as [I1 S1 _ _ _ _ _]. assert (Hb1 : bytes h1) by (eapply suffix_Forall; eauto).
  injection E as E1 <-. destruct (d_prog (hd_dec h1)) eqn:Ep.
  - destruct (decode_progressive h1) as [r h2] eqn:E2. cbn [fst] in E1. subst r.
    destruct (progressive_len h1 px h2 I1 Hb1 E2) as [A B]. cbn [snd]. split; [exact A|]. intros Hs _. exact (B Hs).
  - destruct (decode_baseline h1) as [r h2] eqn:E2. cbn [fst] in E1. subst r.
    destruct (baseline_len h1 px h2 I1 Hb1 E2) as [A B]. cbn [snd]. split; [exact A|]. intros Hs (d1 & Hd & Hor).
    unfold on_buffer in Hd. rewrite Eh in Hd. injection Hd as <-. destruct Hor as [Hor|Hor]; [congruence|]. apply B; congruence.
Qed.
Lemma info_eqb_eq a b : info_eqb a b = true -> a = b.
Proof.
  destruct a as [a1 a2 a3 a4 a5 a6 a7], b as [b1 b2 b3 b4 b5 b6 b7]. unfold info_eqb. cbn [i_width i_height i_density i_sof i_x i_y i_comps].
  intros H. repeat rewrite andb_true_iff in H. destruct H as [[[[[[H1 H2] H3] H4] H5] H6] H7].
  apply Z.eqb_eq in H1, H2, H3, H5, H6, H7. subst. destruct a4, b4; try discriminate; reflexivity.
Qed.
Lemma C03_lemma cpu o cs buf px d' : Forall legal_call cs -> Forall byte buf ->
  decode_buffer (after cpu o cs) buf = (Ok px, d') ->
  zlen px <= width d' * height d' * num_components (get_output_colorspace d') /\
  (width d' <= 65527 -> height d' <= 65527 ->
   forall d1, read_headers (after cpu o cs) buf = (Ok tt, d1) -> 
   (get_info d1 = get_info d' \/ exists i, get_info d1 = Some i /\ i_sof i = ProgressiveDctHuffman) ->
   zlen px = width d' * height d' * num_components (get_output_colorspace d')).
Proof.
  intros Hcs Hb E. destruct (decode_len _ _ _ _ (after_inv cpu o cs Hcs) Hb E) as [A B].
  change (output_len d') with (width d' * height d' * num_components (get_output_colorspace d')) in *.
  split; [exact A|]. intros Hw Hh d1 H1 Hor. apply B; [split; assumption|]. exists d1. split; [exact H1|].
  destruct Hor as [Hor|(i & Hi & Hs)].
  - right. unfold get_info in Hor. destruct (info_eqb (d_info d1) _) eqn:E1, (info_eqb (d_info d') _) eqn:E2; try discriminate; [|congruence].
    apply info_eqb_eq in E1, E2. congruence.
  - left. assert (prog_inv d1) as Hp.
    { replace d1 with (after cpu o (cs ++ [CReadHeaders buf])) by (rewrite after_snoc; cbn [run_call]; now rewrite H1).
      apply after_prog. apply Forall_app. repeat constructor; auto. }
    apply Hp. unfold get_info in Hi. destruct (info_eqb _ _); [discriminate|]. injection Hi as ->. exact Hs.
Qed.
