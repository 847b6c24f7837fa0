(** Whole decodes under every schedule of the worker threads. *)
From Coq Require Import ZArith String List Bool Lia.
From Coq Require Import ZifyBool ZifyNat ZifyN.
From Verif Require Import Base Types Huffman State Bitstream Headers Idct Upsample Color Simd Worker Mcu McuProg Decoder Pool.
From Verif Require Import SpecSegments Session BaseFacts BlockSafe WorkerSafe HeaderInv DecodeInv ColorFacts Keeps ApiFacts Jobs Sim.
Import ListNotations.
Local Open Scope Z_scope.
Local Open Scope m_scope.

(** * A job writes inside of its chunk *)
Definition keeps_len {A} (n : nat) (len : A -> nat) (r : res A) : Prop := match r with Ok o => len o = n | _ => True end.
Lemma kl_bind {A B} n (len : B -> nat) (m : res A) (k : A -> res B) :
  (forall a, m = Ok a -> keeps_len n len (k a)) -> keeps_len n len (rbind m k).
Proof. destruct m; cbn; auto. Qed.
Lemma kl_put (l : list Z) a s o : put_slice l a s = Ok o -> length o = length l.
Proof. intros E. apply BaseFacts.put_slice_ok in E. destruct E as (H1 & H2 & ->). now apply splice_length. Qed.
Lemma kl_cc k y cb cr out p : keeps_len (length out) (fun x : list Z * Z => length (fst x)) (run_cc k y cb cr out p).
Proof.
  destruct k; cbn [run_cc].
  - unfold ycbcr_to_rgb_16_scalar. apply kl_bind. intros o E. exact (kl_put _ _ _ _ E).
  - unfold ycbcr_to_rgb_sse_16, ycbcr_to_rgb_sse41. destruct (slice out p (p + 64)); [|exact I].
    destruct (cc_regs 8 (lo y) (lo cb) (lo cr)) as [[? ?] ?]. destruct (cc_regs 8 (hi y) (hi cb) (hi cr)) as [[? ?] ?].
    apply kl_bind. intros [o p'] E. destruct (put_slice out p _) as [o1| | |] eqn:E1; try discriminate. cbn [rbind] in E. injection E as <- <-.
    apply kl_bind. intros o2 E2. apply kl_put in E1, E2. cbn [keeps_len fst]. congruence.
  - unfold ycbcr_to_rgb_avx2. destruct (cc_regs 16 y cb cr) as [[? ?] ?]. apply kl_bind. intros o E. exact (kl_put _ _ _ _ E).
Qed.
Lemma kl_cc_groups k g : forall out p, keeps_len (length out) (fun x : list Z * Z => length (fst x)) (cc_groups k g out p).
Proof.
  induction g as [|[[y cb] cr] g IH]; intros out p; cbn [cc_groups]; [reflexivity|].
  apply kl_bind. intros [o p'] E. pose proof (kl_cc k y cb cr out p) as H. rewrite E in H. cbn [keeps_len fst] in H.
  rewrite <- H. apply IH.
Qed.
Lemma kl_cc_rows k w nc rows : forall st temp out, keeps_len (length out) (@length Z) (cc_rows k w nc rows st temp out).
Proof.
  induction rows as [|[[y cb] cr] rows IH]; intros st temp out; cbn [cc_rows]; [reflexivity|]. cbv zeta.
  apply kl_bind. intros part Ep. unfold slice_ in Ep. destruct (slice out st _) as [part'|] eqn:Es; [|discriminate]. injection Ep as ->.
  pose proof (slice_some _ _ _ _ Es) as Hs. pose proof (zlen_slice _ _ _ _ Es) as Hl.
  assert (Hin : forall o, length o = length part -> length (splice out st o) = length out).
  { intros o Ho. apply splice_length; [lia|]. unfold zlen in *. lia. }
  destruct (w <? 16).
  - apply kl_bind. intros [t o] E. rewrite <- (Hin o); [apply IH|]. unfold cc_row_narrow in E.
    repeat match type of E with rbind ?m _ = _ => destruct m as [?x| | |]; try discriminate E; cbn [rbind] in E end.
    destruct x2 as [t1 p1]. destruct (slice_ t1 0 _) as [row| | |]; try discriminate E. cbn [rbind] in E.
    destruct (put_slice part 0 row) as [o1| | |] eqn:E1; try discriminate E. cbn [rbind] in E. injection E as _ <-. exact (kl_put _ _ _ _ E1).
  - apply kl_bind. intros o E. rewrite <- (Hin o); [apply IH|]. unfold cc_row_wide in E. cbv zeta in E.
    pose proof (kl_cc_groups k (firstn (Z.to_nat (sat_sub (zlen y / 16) 1)) (zip3 (chunks_n 16 y) (chunks_n 16 cb) (chunks_n 16 cr))) part 0) as H.
    destruct (cc_groups _ _ _ _) as [[o1 p1]| | |]; try discriminate E. cbn [rbind keeps_len fst] in *.
    destruct (last16 y) as [yl| | |]; try discriminate E. cbn [rbind] in E.
    destruct (last16 cb) as [cbl| | |]; try discriminate E. cbn [rbind] in E.
    destruct (last16 cr) as [crl| | |]; try discriminate E. cbn [rbind] in E.
    match type of E with rbind (run_cc k yl cbl crl o1 ?p) _ = _ => pose proof (kl_cc k yl cbl crl o1 p) as H2 end.
    destruct (run_cc k yl cbl crl o1 _) as [[o2 p2]| | |]; try discriminate E. cbn [rbind keeps_len fst] in *. injection E as <-. congruence.
Qed.
Lemma kl_copy_rows rows : forall st out, keeps_len (length out) (@length Z) (copy_rows rows st out).
Proof.
  induction rows; intros st out; cbn [copy_rows]; [reflexivity|]. apply kl_bind. intros o E. rewrite <- (kl_put _ _ _ _ E). apply IHrows.
Qed.
Lemma kl_ycc_rows rows : forall stride st temp out, keeps_len (length out) (@length Z) (ycc_rows rows stride st temp out).
Proof.
  induction rows as [|[[y cb] cr] rows IH]; intros stride st temp out; cbn [ycc_rows]; [reflexivity|]. cbv zeta.
  apply kl_bind. intros row _. apply kl_bind. intros o E. rewrite <- (kl_put _ _ _ _ E). apply IH.
Qed.
Lemma kl_post_process coeff comps idct cc ics ocs out w :
  keeps_len (length out) (@length Z) (post_process coeff comps idct cc ics ocs out w).
Proof.
  unfold post_process, post_process_inner. apply kl_bind. intros c0 _. cbv zeta. apply kl_bind. intros chans _.
  apply kl_bind. intros c0' _. apply kl_bind. intros ch _.
  assert (keeps_len (length out) (@length Z) (ycbcr_to_grayscale (chan ch 0) w out)) as H1.
  { unfold ycbcr_to_grayscale. destruct (_ =? 0); [exact I|]. destruct (_ =? 0); [exact I|]. apply kl_bind. intros. apply kl_copy_rows. }
  assert (keeps_len (length out) (@length Z) (ycbcr_to_ycbcr (chan ch 0) (chan ch 1) (chan ch 2) w (c_h c0') (c_v c0') out)) as H2.
  { unfold ycbcr_to_ycbcr. destruct (_ =? 0); [exact I|]. cbv zeta. repeat (apply kl_bind; intros ? _). apply kl_ycc_rows. }
  assert (keeps_len (length out) (@length Z) (color_convert_ycbcr (chan ch 0) (chan ch 1) (chan ch 2) w (c_h c0') (c_v c0') ocs cc out)) as H3.
  { unfold color_convert_ycbcr. destruct (_ =? 0); [exact I|]. cbv zeta. repeat (apply kl_bind; intros ? _). apply kl_cc_rows. }
  destruct ics, ocs; auto; reflexivity.
Qed.

(** A program for every job: it writes the bytes of the result one after the other *)
Fixpoint write_all (l : list Z) (i : Z) : prog :=
  match l with
  | [] => PDone
  | v :: rest => PWrite i v (write_all rest (i + 1))
  end.
Definition in_turn (g : geom) (coeff : list (list Z)) : prog :=
  match post_process coeff (g_comps g) (g_idct g) (g_cc g) (g_in g) (g_out g) (zrepeat 0 (g_chunk g)) (g_width g) with
  | Ok o => write_all o 0
  | _ => PCrash
  end.
Lemma nupd_mid {A} (l r : list A) y x : nupd (l ++ y :: r) (length l) x = (l ++ x :: r)%list.
Proof. induction l; cbn [nupd app length]; congruence. Qed.
Lemma exec_write_all l : forall done rest, length rest = length l ->
  exec (write_all l (zlen done)) (done ++ rest) = Ok (done ++ l)%list.
Proof.
  induction l as [|v l IH]; intros done rest Hl; destruct rest as [|y rest]; try discriminate; [reflexivity|].
  cbn [write_all exec]. unfold zget, zset, zlen. replace (_ <? 0) with false by lia. rewrite Nat2Z.id.
  rewrite nth_error_app2, Nat.sub_diag by lia. cbn [nth_error]. rewrite nupd_mid.
  specialize (IH (done ++ [v])%list rest ltac:(now injection Hl)).
  unfold zlen in IH. rewrite app_length in IH. cbn [length] in IH. rewrite Nat2Z.inj_add in IH. change (Z.of_nat 1) with 1 in IH.
  rewrite <- !app_assoc in IH. exact IH.
Qed.
Lemma in_turn_implements : implements in_turn.
Proof.
  intros g coeff. unfold in_turn.
  pose proof (kl_post_process coeff (g_comps g) (g_idct g) (g_cc g) (g_in g) (g_out g) (zrepeat 0 (g_chunk g)) (g_width g)) as Hl.
  pose proof (calm_post_process coeff (g_comps g) (g_idct g) (g_cc g) (g_in g) (g_out g) (zrepeat 0 (g_chunk g)) (g_width g)) as Hc.
  destruct (post_process _ _ _ _ _ _ _ _) as [o| | |]; try contradiction; [|exact I].
  cbn [keeps_len] in Hl. pose proof (exec_write_all o [] (zrepeat 0 (g_chunk g)) (eq_sym Hl)) as E. cbn [app] in E.
  change (zlen (@nil Z)) with 0 in E. rewrite E. reflexivity.
Qed.

(** * There is a chunk for every job *)
Definition fits (g : geom) (jobs : list (list (list Z))) : Prop := jobs = [] \/ zlen jobs <= g_total g / g_chunk g.

Section JobsKept.
  Lemma kj_mfor_break {S X} (f : S -> X) (body : Z -> M S bool) : (forall i, keeps f (body i)) -> forall n i, keeps f (mfor_break n i body).
  Proof.
    intros H. induction n; intros i; cbn [mfor_break]; [apply keeps_ret|]. apply keeps_bind; auto. intros []; [apply IHn|apply keeps_ret].
  Qed.
  Lemma kj_getm : keeps m_jobs getm. Proof. now intros s. Qed.
  Lemma kj_gets : keeps m_jobs gets. Proof. now intros s. Qed.
  Lemma kj_block g c t1 t2 pos v j vs hs : keeps m_jobs (decode_block g c t1 t2 pos v j vs hs).
  Proof.
    intros s. unfold decode_block. cbv zeta. destruct (_ <=? _).
    - destruct (zget _ _); [|reflexivity]. destruct (slice _ _ _); [|reflexivity]. destruct (decode_mcu_block _ _ _ _ _) as [[[] ?] ?]; reflexivity.
    - destruct (decode_mcu_block _ _ _ _ _) as [[[] ?] ?]; reflexivity.
  Qed.
  Lemma kj_restart : keeps m_jobs count_restart.
  Proof. intros s. unfold count_restart. destruct (tick _ _) as [[? ?] ?]. reflexivity. Qed.
  Lemma kj_in_scan m : keeps m_jobs (parse_in_scan m).
  Proof. intros s. unfold parse_in_scan. destruct (parse_marker_inner _ _). reflexivity. Qed.
  Lemma kj_component g v j pos : keeps m_jobs (mcu_component g v j pos).
  Proof.
    unfold mcu_component. apply keeps_bind; [apply kj_getm|intros d]. apply keeps_bind; [apply keeps_lift|intros c].
    destruct (table_at _ _); [|apply keeps_fail]. destruct (table_at _ _); [|apply keeps_fail].
    apply keeps_bind; [unfold decode_component; apply keeps_mfor; intros; apply keeps_mfor; intros; apply kj_block|intros _].
    apply keeps_bind; [apply kj_restart|intros _]. apply keeps_bind; [apply kj_gets|intros st].
    assert (forall m, keeps m_jobs (parse_in_scan m ;;; ret true)) by (intros m; apply keeps_bind; [apply kj_in_scan|intros _; apply keeps_ret]).
    destruct (b_marker st) as [[]|]; auto; apply keeps_ret.
  Qed.
End JobsKept.

Lemma row_fits g s : fits g (m_jobs s) -> fits g (m_jobs (snd (decode_row g s))).
Proof.
  intros H. unfold decode_row, bind at 1, getm. cbv beta iota. unfold bind at 1, lift.
  destruct (alloc_row _ _ _ _ _ _) as [tmp| | |]; try exact H. unfold bind at 1, modify. cbv beta iota. unfold bind at 1.
  set (s1 := mkMst _ _ tmp _).
  assert (K : keeps m_jobs (mfor (Z.to_nat (g_bias g)) 0 (fun v => mfor (Z.to_nat (g_mcuw g)) 0 (fun j => decode_mcu g v j)))).
  { apply keeps_mfor. intros v. apply keeps_mfor. intros j. unfold decode_mcu. apply keeps_bind; [apply kj_getm|intros d].
    apply kj_mfor_break. intros. apply kj_component. }
  specialize (K s1). destruct (mfor _ _ _ s1) as [r s2]. cbn [snd] in K.
  assert (H2 : fits g (m_jobs s2)) by (rewrite K; exact H). destruct r; try exact H2.
  destruct (Z.leb_spec (g_total g / g_chunk g) (zlen (m_jobs s2))); [exact H2|]. cbn [snd m_jobs]. right.
  unfold zlen in *. cbn [length]. lia.
Qed.
Lemma rows_fit g s : fits g (m_jobs s) -> fits g (m_jobs (snd (decode_rows g s))).
Proof.
  unfold decode_rows. generalize (Z.to_nat (g_mcuh g)). intros n. generalize 0. revert s.
  induction n; intros s i H; cbn [mfor]; [exact H|]. unfold bind. pose proof (row_fits g s H) as H1.
  destruct (decode_row g s) as [r s1]. cbn [snd] in H1. destruct r; try exact H1. apply IHn, H1.
Qed.
Lemma fits_rev g jobs : fits g jobs -> fits g (rev jobs).
Proof. intros [->|H]; [now left|]. right. unfold zlen in *. now rewrite rev_length. Qed.
Lemma fits_mem g jobs : 0 < g_chunk g -> 0 <= g_total g -> fits g jobs -> zlen jobs * g_chunk g <= g_total g.
Proof.
  intros Hc Ht [->|H]; [unfold zlen; cbn; lia|]. pose proof (Z.mul_div_le (g_total g) (g_chunk g) Hc). nia.
Qed.

(** * The sizes *)
Lemma nc_nonneg c : 0 <= num_components c.
Proof. destruct c; cbn; lia. Qed.
Lemma sizes d : hinv d -> 0 <= i_width (d_info d) * num_components (o_colorspace (d_opt d)) * 8 * d_hmax d * d_vmax d /\
  0 <= capacity d * num_components (o_colorspace (d_opt d)) + extra_space d.
Proof.
  intros (_ & [? ? ? ? ? ? ? ? ? ? ? ? ? ? ? ?] & _). pose proof (nc_nonneg (o_colorspace (d_opt d))).
  pose proof (u16_range (i_width (d_info d) + 8)). pose proof (u16_range (i_height (d_info d) + 8)). split.
  - repeat apply Z.mul_nonneg_nonneg; lia.
  - unfold capacity, extra_space. apply Z.add_nonneg_nonneg; repeat apply Z.mul_nonneg_nonneg; try lia. destruct (d_inter d); lia.
Qed.
Lemma bind_inv {S A B} (m : M S A) (k : A -> M S B) s b s' : bind m k s = (Ok b, s') -> exists a s1, m s = (Ok a, s1) /\ k a s1 = (Ok b, s').
Proof. unfold bind. destruct (m s) as [[] s1]; intros E; try discriminate. eauto. Qed.
Lemma baseline_sizes d g d' : hinv d -> baseline_setup d = (Ok g, d') -> 0 < g_chunk g /\ 0 <= g_total g.
Proof.
  intros Hi E. pose proof (baseline_setup_step d Hi) as Hs. unfold wp in Hs. rewrite E in Hs. destruct Hs as [Hi' _ _ _ _]. cbn [snd] in Hi'.
  unfold baseline_setup in E. apply bind_inv in E. destruct E as (x0 & s0 & _ & E). apply bind_inv in E. destruct E as (x1 & s1 & _ & E).
  apply bind_inv in E. destruct E as (x2 & s2 & _ & E). apply bind_inv in E. destruct E as (x3 & s3 & _ & E).
  apply bind_inv in E. destruct E as (x4 & s4 & _ & E). destruct (mcu_counts x4) as [[w h] b].
  apply bind_inv in E. destruct E as ([[w' h'] b'] & s5 & _ & E). apply bind_inv in E. destruct E as (x6 & s6 & E6 & E).
  injection E6 as <- <-. apply bind_inv in E. destruct E as (c0 & s7 & E7 & E). unfold lift in E7. injection E7 as _ <-. cbv zeta in E.
  destruct (Z.eqb_spec (g_chunk (geom_of w' h' b' c0 s5)) 0) as [|Hne]; [discriminate|]. injection E as <- <-.
  destruct (sizes s5 Hi') as [H1 H2]. cbn [g_chunk g_total geom_of] in *. lia.
Qed.
Lemma finish_sizes w d g d' : hinv d -> 0 <= w -> finish_setup w d = (Ok g, d') -> 0 <= g_chunk g /\ 0 <= g_total g.
Proof.
  intros Hi Hw E. pose proof (finish_setup_fin w d Hi Hw) as Hs. unfold wp in Hs. rewrite E in Hs. destruct Hs as [Hi' _ _ _ _]. cbn [snd] in Hi'.
  unfold finish_setup in E. apply bind_inv in E. destruct E as (x0 & s0 & _ & E). apply bind_inv in E. destruct E as (x1 & s1 & _ & E). cbv zeta in E.
  apply bind_inv in E. destruct E as (b & s2 & _ & E). apply bind_inv in E. destruct E as (x3 & s3 & E3 & E). injection E3 as <- <-.
  apply bind_inv in E. destruct E as (c0 & s4 & E4 & E). unfold lift in E4. injection E4 as _ <-. injection E as <- <-.
  destruct (sizes s2 Hi') as [H1 H2]. cbn [g_chunk g_total]. auto.
Qed.
Lemma prog_jobs_fit g d buf jobs : prog_jobs g d buf = Ok jobs -> 0 <= g_chunk g -> 0 <= g_total g ->
  0 < g_chunk g /\ zlen jobs * g_chunk g <= g_total g.
Proof.
  unfold prog_jobs. intros E Hc Ht. destruct (Z.eqb_spec (g_chunk g) 0); [discriminate|]. split; [lia|].
  assert (H : forall l : list (list (list Z)), zlen (firstn (Z.to_nat (g_total g / g_chunk g)) l) * g_chunk g <= g_total g).
  { intros l. pose proof (Z.mul_div_le (g_total g) (g_chunk g) ltac:(lia)). pose proof (Z.div_pos (g_total g) (g_chunk g) Ht ltac:(lia)).
    assert (zlen (firstn (Z.to_nat (g_total g / g_chunk g)) l) <= g_total g / g_chunk g) by (unfold zlen; rewrite firstn_length; lia). nia. }
  destruct (chunks_exact _ (chan buf 0)) as [ys| | |]; try discriminate. destruct (_ =? 3).
  - destruct (at_ (d_comps d) 1); try discriminate. destruct (chunks_exact _ (chan buf 1)); try discriminate.
    destruct (chunks_exact _ (chan buf 2)); try discriminate. injection E as <-. apply H.
  - injection E as <-. apply H.
Qed.

(** * Progressive decoding as far as the jobs *)
Lemma scans_jobs w s : fst (progressive_scans w s) =
  match fst (progressive_jobs w s) with
  | Ok (g, jobs, n) => rbind (run_jobs g jobs) (fun os => Ok (assemble os (g_total g) n))
  | Err e => Err e | Panic p => Panic p | Fuel => Fuel
  end.
Proof.
  unfold progressive_scans, progressive_jobs, finish_progressive_decoding, bind, getps, modps, get, lift, ret.
  destruct (parse_entropy_coded_data s) as [[u| | |] s1]; try reflexivity. destruct (b_marker (p_st s1)); [|reflexivity].
  destruct (scan_loop _ _ _ _) as [[u2| | |] s2]; try reflexivity. destruct (on_dec _ s2) as [[g| | |] s3]; try reflexivity.
  destruct (prog_jobs g _ _) as [jobs| | |]; try reflexivity. cbn [fst]. destruct (run_jobs g jobs); reflexivity.
Qed.
Lemma jobs_sizes w s g jobs n : pinv s -> 0 <= w -> fst (progressive_jobs w s) = Ok (g, jobs, n) ->
  0 < g_chunk g /\ zlen jobs * g_chunk g <= g_total g.
Proof.
  intros Hi Hw E. destruct (progressive_jobs w s) as [r s'] eqn:Ej. cbn [fst] in E. subst r. unfold progressive_jobs in Ej.
  apply bind_inv in Ej. destruct Ej as (u & s1 & E1 & Ej).
  pose proof (parse_entropy_step s Hi) as H1. unfold wp in H1. rewrite E1 in H1. destruct H1 as [I1 _ _ _ _ _]. cbn [snd] in I1.
  apply bind_inv in Ej. destruct Ej as (st & s1' & E2 & Ej). injection E2 as <- <-.
  destruct (b_marker (p_st s1)) as [m|]; [|discriminate].
  apply bind_inv in Ej. destruct Ej as (u2 & s2 & E2 & Ej).
  pose proof (modps_step (fun st => set_marker st None) s1 I1) as H2. unfold wp in H2. rewrite E2 in H2.
  destruct H2 as [I2 S2 _ _ _ _]; [apply I1|apply I1|reflexivity|]. cbn [snd] in *.
  apply bind_inv in Ej. destruct Ej as (u3 & s3 & E3 & Ej).
  pose proof (scan_loop_step (S (length (b_rd (p_st s1)))) m 1 s2 I2) as H3. unfold wp in H3. rewrite E3 in H3.
  destruct H3 as [I3 _ _ _ _ _]; [apply suffix_len in S2; lia|]. cbn [snd] in *.
  apply bind_inv in Ej. destruct Ej as (g' & s4 & E4 & Ej). unfold on_dec in E4.
  destruct (finish_setup (w * 64) (p_dec s3)) as [r4 d4] eqn:Ef. injection E4 as -> <-.
  destruct (finish_sizes (w * 64) (p_dec s3) g' d4) as [Hc Ht]; [apply I3|lia|exact Ef|].
  apply bind_inv in Ej. destruct Ej as (s5 & s5' & E5 & Ej). injection E5 as <- <-.
  apply bind_inv in Ej. destruct Ej as (jobs' & s6 & E6 & Ej). unfold lift in E6. injection E6 as E6 <-.
  injection Ej as <- <- _ _. eapply prog_jobs_fit; eauto.
Qed.

(** * Whole calls *)
Section Whole.
Variable impl : geom -> list (list Z) -> prog.
Hypothesis Himpl : implements impl.

Lemma sched_take n g total jobs m b : (1 <= n)%nat -> 0 < g_chunk g -> zlen jobs * g_chunk g <= total ->
  schedule n (g_chunk g) total (map (impl g) jobs) b ->
  agree (match b with Ok mem => Ok (firstn (Z.to_nat m) mem) | x => x end)
        (rbind (run_jobs g jobs) (fun os => Ok (assemble os total m))).
Proof.
  intros Hn Hc Hf Hs. pose proof (schedule_agree impl Himpl n g total jobs b Hn Hc Hf Hs) as Ha.
  pose proof (calm_run_jobs g jobs) as Hr.
  destruct (run_jobs g jobs) as [os| | |]; try contradiction; cbn [whole rbind] in *;
    destruct b; try discriminate Ha; [|exact I]. injection Ha as ->. reflexivity.
Qed.

Lemma baseline_agree h : hinv (hd_dec h) -> 1 <= o_threads (d_opt (hd_dec h)) ->
  (exists r, baseline_sched impl h r) /\ forall r, baseline_sched impl h r -> agree r (fst (decode_baseline h)).
Proof.
  intros Hi Hn. unfold baseline_sched, decode_baseline.
  pose proof (baseline_setup_step (hd_dec h) Hi) as Hst. unfold wp in Hst.
  destruct (baseline_setup (hd_dec h)) as [[g| | |] d] eqn:Eb; cbn [fst snd] in Hst;
    try (split; [eexists; reflexivity|intros r ->; apply agree_refl]).
  destruct (baseline_sizes _ _ _ Hi Eb) as [Hc Ht].
  assert (Hnd : (1 <= threads d)%nat).
  { destruct Hst as [_ _ (Ho & _) _ _]. unfold threads. rewrite Ho. cbn [o_threads set_out_colorspace]. lia. }
  pose proof (rows_fit g (mkMst d (bst_new (hd_rd h)) [] []) (or_introl eq_refl)) as Hf.
  destruct (decode_rows g _) as [r0 s]. cbn [snd] in Hf. apply fits_rev in Hf. apply (fits_mem g _ Hc Ht) in Hf.
  destruct (schedule_exists impl (threads d) g (g_total g) (rev (m_jobs s)) Hnd Hc Hf) as [b0 Hb0].
  destruct r0 as [u|e|p|]; try (split; [eexists; reflexivity|intros r ->; apply agree_refl]).
  - split; [eexists; exists b0; split; [exact Hb0|reflexivity]|]. intros r (b & Hb & ->).
    pose proof (sched_take (threads d) g (g_total g) _ (output_len (m_dec s)) b Hnd Hc Hf Hb) as Ha.
    destruct (run_jobs g (rev (m_jobs s))); exact Ha.
  - split; [eexists; exists b0; split; [exact Hb0|reflexivity]|]. intros r (b & Hb & ->).
    pose proof (sched_take (threads d) g (g_total g) _ (output_len (m_dec s)) b Hnd Hc Hf Hb) as Ha.
    pose proof (calm_run_jobs g (rev (m_jobs s))) as Hr.
    destruct (run_jobs g (rev (m_jobs s))); try contradiction; destruct b; try discriminate Ha; try exact I; reflexivity.
Qed.
Lemma progressive_agree h : hinv (hd_dec h) -> bytes h -> 1 <= o_threads (d_opt (hd_dec h)) ->
  (exists r, progressive_sched impl h r) /\ forall r, progressive_sched impl h r -> agree r (fst (decode_progressive h)).
Proof.
  intros Hi Hb Hn. unfold progressive_sched, decode_progressive. cbv zeta. destruct (prog_counts (hd_dec h)) as [w hh] eqn:Ec.
  assert (0 <= w) as Hw.
  { destruct Hi as (_ & [? ? ? ? ? ? ? ? ? ? ? ? ? ? ? ?] & _). unfold prog_counts in Ec.
    destruct (d_inter _); injection Ec as <- <-; [auto|]. apply Z.div_pos; lia. }
  destruct (check_component_dimensions (hd_dec h)) as [u| | |]; cbn [rbind];
    try (split; [eexists; reflexivity|intros r ->; apply agree_refl]).
  assert (Forall (Forall in16) [[]; []; []]) as H0 by repeat constructor.
  pose proof (alloc_blocks_ok (Z.to_nat (num_components (d_incs (hd_dec h)))) 0 w hh (d_comps (hd_dec h)) _ H0) as Ha.
  destruct (alloc_blocks _ _ _ _ _ _) as [buf| | |];
    try (split; [eexists; reflexivity|intros r ->; apply agree_refl]).
  set (s0 := mkPst _ _ buf).
  assert (pinv s0) as Hp.
  { unfold s0, sinv, bst_new_progressive, ok_s, band2, buf_ok. msimp. split; [exact Hi|]. split; [lia|].
    split; [destruct Hi as (_ & [? ? ? ? ? ? ? ? ? ? ? ? ? ? ? ?] & _); lia|]. split; [exact Hb|exact Ha]. }
  pose proof (scans_jobs w s0) as Hsj. pose proof (jobs_sizes w s0) as Hsz.
  destruct (progressive_scans w s0) as [rr ss]. cbn [fst] in Hsj |- *. destruct (progressive_jobs w s0) as [[[[g jobs] n]| | |] s1]; cbn [fst] in Hsj, Hsz; subst rr;
    try (split; [eexists; reflexivity|intros r ->; apply agree_refl]).
  destruct (Hsz g jobs n Hp Hw eq_refl) as [Hc Hf].
  assert (Hnd : (1 <= threads (hd_dec h))%nat) by (unfold threads; lia).
  destruct (schedule_exists impl (threads (hd_dec h)) g (g_total g) jobs Hnd Hc Hf) as [b0 Hb0].
  split; [eexists; exists b0; split; [exact Hb0|reflexivity]|]. intros r (b & Hbs & ->).
  exact (sched_take (threads (hd_dec h)) g (g_total g) jobs n b Hnd Hc Hf Hbs).
Qed.
Lemma decode_sched_agree d buf : hinv d -> Forall byte buf -> 1 <= o_threads (d_opt d) ->
  (exists r, decode_buffer_sched impl d buf r) /\
  forall r, decode_buffer_sched impl d buf r -> agree r (fst (decode_buffer d buf)).
Proof.
  intros Hi Hb Hn. unfold decode_buffer_sched, decode_buffer, on_buffer, decode_internal, bind, getd.
  pose proof (decode_headers_step (mkHst d buf) Hi Hb) as H. unfold wp in H. destruct (decode_headers _) as [r s1].
  cbn [fst snd] in H. destruct H as [I1 S1 F1 U1 P1 G1 O1].
  destruct r as [a|e|p|]; cbn [fst snd]; try (split; [eexists; reflexivity|intros r ->; apply agree_refl]).
  assert (Hb1 : bytes s1) by (eapply suffix_Forall; eauto).
  assert (Hn1 : 1 <= o_threads (d_opt (hd_dec s1))).
  { destruct U1 as (Ho & _). cbn [hd_dec] in Ho. rewrite Ho. exact Hn. }
  destruct (d_prog (hd_dec s1)).
  - destruct (progressive_agree s1 I1 Hb1 Hn1) as [A B]. split; [exact A|]. intros r Hr. specialize (B r Hr).
    destruct (decode_progressive s1). exact B.
  - destruct (baseline_agree s1 I1 Hn1) as [A B]. split; [exact A|]. intros r Hr. specialize (B r Hr).
    destruct (decode_baseline s1). exact B.
Qed.
End Whole.
