(** The scans of a progressive image with subsampling: whatever their bytes are, decoding them
    does not panic (C02). *)
From Coq Require Import ZArith String List Bool Lia.
From Coq Require Import ZifyBool ZifyNat ZifyN.
From Verif Require Import Base Types Huffman State Bitstream Headers Worker Mcu McuProg Decoder.
From Verif Require Import SpecSegments SpecSafe BaseFacts Keeps BlockSafe HeaderInv WorkerSafe DecodeInv.
From Verif Require Import Placement GrayImage ColourImage SampledImage GrayFile ColourFile NoPanic ProgNoPanic SampledNoPanic.
Import ListNotations.
Local Open Scope Z_scope.
Local Open Scope m_scope.
Ltac Zify.zify_post_hook ::= Z.div_mod_to_equations.

(** * After the last scan *)
Section finish.
Variables (cpu : isa) (o : options) (d : decoder) (c0 c1 c2 : component) (hs vs w h : Z).
Let mx := mcus w hs.
Hypothesis Hgood : good d.
Hypothesis Hsh : shape d.
Hypothesis Hw : 0 < w <= 65527.
Hypothesis Hh : 0 < h <= 65527.
Hypothesis Hsize : i_width (d_info d) = w /\ i_height (d_info d) = h.
Hypothesis Hmax : d_hmax d = hs /\ d_vmax d = vs.
Hypothesis Hcomps : d_comps d = [c0; c1; c2].
Hypothesis Hc0 : c_h c0 = hs /\ c_v c0 = vs.
Hypothesis Hc12 : c_h c1 = 1 /\ c_v c1 = 1 /\ c_h c2 = 1 /\ c_v c2 = 1.
Hypothesis Hincs : d_incs d = YCbCr.
Hypothesis Hne : (hs, vs) <> (1, 1).
Let out := o_colorspace (d_opt d).
Let nc := num_components out.
Hypothesis Hcc : d_cc d = choose_color_convert cpu (o_use_unsafe o).
Hypothesis Hfmt : format_fits cpu o out w (padded w hs) (8 * (hs * vs)).

Lemma s_finish st buf :
  match fst (finish_progressive_decoding (mx * 64) (mkPst d st buf)) with
  | Ok px => zlen px = w * h * nc
  | Err _ => True
  | _ => False
  end.
Proof.
  unfold finish_progressive_decoding, bind at 1, on_dec. cbn [p_dec p_st p_buf]. unfold finish_setup, bind at 1.
  destruct (s_up d c0 c1 c2 hs vs) as [(e & d' & Ee)|(Eu & Hh2 & Hv2)]; auto.
  { rewrite Ee. exact I. }
  rewrite Eu. clear Eu. unfold bind, get, ret, lift. set (e := s_dec d c0 c1 c2 hs vs).
  change (d_ratio e) with (s_ratio hs vs). change (d_incs e) with (d_incs d). rewrite Hincs. cbn [cs_eqb andb]. cbv iota beta.
  change (at_ (d_comps e) 0) with (Ok c0). cbv iota beta.
  destruct Hc0 as [A1 A2]. destruct Hmax as [M1 M2]. destruct Hsize as [Ew Eh]. destruct Hc12 as (S1 & S2 & S3 & S4).
  destruct (s_mx d c0 c1 c2 hs vs w) as [Hm Hm2]; auto. fold mx in Hm, Hm2. destruct (Hm2 Hh2) as [Epad Hpad].
  assert (Ein : d_inter d = true).
  { rewrite (sh_inter _ Hsh), M1, M2. destruct (Z.eqb_spec hs 1); [|reflexivity]. destruct (Z.eqb_spec vs 1); [|reflexivity]. exfalso. apply Hne. congruence. }
  assert (Hnc : 0 < nc) by (unfold nc; destruct out; cbn; lia).
  assert (Hwn : 0 < w * nc) by (apply Z.mul_pos_pos; lia).
  assert (Hp : 0 < hs * vs) by (apply Z.mul_pos_pos; lia).
  match goal with |- context [prog_jobs ?x _ _] => set (g := x) end.
  assert (Ech : g_chunk g = 8 * (hs * vs) * (w * nc)).
  { unfold g. cbn [g_chunk]. change (d_info e) with (d_info d). change (d_opt e) with (d_opt d). change (d_hmax e) with (d_hmax d). change (d_vmax e) with (d_vmax d).
    rewrite Ew, M1, M2. unfold nc, out. ring. }
  assert (Hpos : 0 < g_chunk g) by (rewrite Ech; repeat apply Z.mul_pos_pos; lia).
  assert (Etot : g_total g = ((w + 8) * (h + 8) + 128 * h) * nc).
  { unfold g. cbn [g_total]. unfold capacity, extra_space. change (d_info e) with (d_info d). change (d_opt e) with (d_opt d). change (d_inter e) with (d_inter d).
    rewrite Ein, Ew, Eh. fold out. fold nc. unfold u16. rewrite !Z.mod_small by lia. ring. }
  assert (Ecap : g_ccap g = 64 * (mx * hs) * (hs * vs) /\ g_mcuw g * 1 * 1 * g_bias g = 64 * mx * hs).
  { unfold g. cbn [g_ccap g_mcuw g_bias]. rewrite A1, A2. unfold s_ratio. generalize mx. clear - Hh2 Hv2 Hne. intros m.
    assert (hs = 1 \/ hs = 2) as [-> | ->] by lia; assert (vs = 1 \/ vs = 2) as [-> | ->] by lia; cbn [Z.eqb Pos.eqb ratio_is_h ratio_is_hv]; try congruence; lia. }
  destruct Ecap as [Ecap Esz].
  assert (Hcap : 0 < 64 * (mx * hs) * (hs * vs)) by (repeat apply Z.mul_pos_pos; lia).
  assert (Hsz : 0 < 64 * mx * hs) by (repeat apply Z.mul_pos_pos; lia).
  cbn [p_dec p_buf]. unfold prog_jobs. replace (g_chunk g =? 0) with false by lia.
  unfold chunks_exact. rewrite Ecap. replace (64 * (mx * hs) * (hs * vs) <=? 0) with false by lia. cbv iota beta zeta.
  change (d_incs e) with (d_incs d). rewrite Hincs. change (num_components YCbCr =? 3) with true. cbv iota.
  change (at_ (d_comps e) 1) with (Ok (set_c_ups (s_ups d hs vs) c1)). cbv iota beta. cbn [c_v c_h set_c_ups]. rewrite S1, S2, Esz.
  replace (64 * mx * hs <=? 0) with false by lia. cbv iota.
  match goal with |- context [run_jobs g ?l] => destruct (run_all g l) as (os & Eos) end.
  - apply DecodeInv.Forall_firstn, Forall_map.
    destruct (chunks_many (chan buf 0) (Z.to_nat (64 * (mx * hs) * (hs * vs))) ltac:(lia)) as (X1 & _).
    destruct (chunks_many (chan buf 1) (Z.to_nat (64 * mx * hs)) ltac:(lia)) as (Y1 & _).
    destruct (chunks_many (chan buf 2) (Z.to_nat (64 * mx * hs)) ltac:(lia)) as (Z1 & _).
    pose proof (zip3_Forall _ _ _ _ _ _ X1 Y1 Z1) as HZ. eapply Forall_impl; [|exact HZ].
    intros [[y b] r] (L0 & L1 & L2).
    destruct (sh_wide _ Hsh c0 [c1; c2] Hcomps) as (X & _ & St); [congruence|congruence|]. rewrite Ew, M1 in X. fold mx in X. rewrite X, Hcomps in St.
    apply Forall_cons_iff in St. destruct St as [St0 St]. apply Forall_cons_iff in St. destruct St as [St1 St]. apply Forall_cons_iff in St. destruct St as [St2 _].
    destruct Hgood as (_ & _ & Q). rewrite Hcomps in Q. apply Forall_cons_iff in Q. destruct Q as [[_ _ _ _ [Q0 _] _ _] Q]. apply Forall_cons_iff in Q. destruct Q as [[_ _ _ _ [Q1 _] _ _] Q].
    apply Forall_cons_iff in Q. destruct Q as [[_ _ _ _ [Q2 _] _ _] _]. rewrite A1 in St0. rewrite S1 in St1. rewrite S3 in St2.
    apply (any_job g c0 (set_c_ups (s_ups d hs vs) c1) (set_c_ups (s_ups d hs vs) c2) hs vs mx) with (cpu := cpu) (o := o); auto.
    + cbn [c_stride set_c_ups]. clear - St0 St1 St2. lia.
    + cbn [c_qt set_c_ups]. clear - Q0 Q1 Q2. unfold zlen in *. lia.
    + change (g_width g) with (i_width (d_info d)). rewrite Ew. clear - Hpad Hw. lia.
    + change (g_width g) with (i_width (d_info d)). rewrite Ew. clear - Hpad Hw. lia.
    + cbn [c_ups set_c_ups]. unfold s_ups, choose_horizontal, choose_hv. clear - Hh2 Hv2 Hne.
      assert (hs = 1 \/ hs = 2) as [-> | ->] by lia; assert (vs = 1 \/ vs = 2) as [-> | ->] by lia; cbn [Z.eqb Pos.eqb]; try congruence;
        destruct (d_isa d), (o_use_unsafe (d_opt d)); cbn [ups_fit]; auto.
    + rewrite Ech. change (g_width g) with (i_width (d_info d)). rewrite Ew. reflexivity.
    + change (g_out g) with out. change (g_width g) with (i_width (d_info d)). rewrite Ew, <- Epad. exact Hfmt.
    + exists y, b, r. unfold zlen. rewrite L0, L1, L2. split; [reflexivity|]. clear - Hcap Hsz. split; [lia|]. intros _. lia.
  - rewrite Eos. cbn [fst].
    assert (Eo : output_len e = w * h * nc) by (unfold output_len; change (d_info e) with (d_info d); change (d_opt e) with (d_opt d); rewrite Ew, Eh; reflexivity).
    rewrite Eo. apply assemble_len. rewrite Etot. assert (0 <= w * h) by (apply Z.mul_nonneg_nonneg; lia).
    split; [apply Z.mul_nonneg_nonneg; lia|]. apply Z.mul_le_mono_nonneg_r; lia.
Qed.
End finish.

Lemma mcus_cover side k : 0 < side -> 0 < k -> 0 < mcus side k /\ (side + 7) / 8 <= mcus side k * k.
Proof.
  intros Hs Hk. unfold mcus. pose proof (Z.div_mod (side + 8 * k - 1) (8 * k) ltac:(lia)) as E.
  pose proof (Z.mod_pos_bound (side + 8 * k - 1) (8 * k) ltac:(lia)) as B.
  split; [apply Z.div_str_pos; lia|]. revert E B. generalize ((side + 8 * k - 1) / (8 * k)) ((side + 8 * k - 1) mod (8 * k)). intros q r E B.
  replace (8 * k * q) with (8 * (q * k)) in E by ring. clear - E B. revert E. generalize (q * k). intros. lia.
Qed.

(** * The whole call *)
Section whole.
Variables (cpu : isa) (o : options) (d : decoder) (c0 c1 c2 : component) (hs vs w h : Z).
Let mx := mcus w hs.
Let my := mcus h vs.
Let n := (w + 7) / 8.
Let m := (h + 7) / 8.
Hypothesis Hinv : hinv d.
Hypothesis Hgood : good d.
Hypothesis Hsh : shape d.
Hypothesis Hw : 0 < w <= 65527.
Hypothesis Hh : 0 < h <= 65527.
Hypothesis Hsize : i_width (d_info d) = w /\ i_height (d_info d) = h.
Hypothesis Hmax : d_hmax d = hs /\ d_vmax d = vs.
Hypothesis Hcomps : d_comps d = [c0; c1; c2].
Hypothesis Hc0 : c_h c0 = hs /\ c_v c0 = vs.
Hypothesis Hcid : c_cid c1 <> CY /\ c_cid c2 <> CY.
Hypothesis Hincs : d_incs d = YCbCr.
Hypothesis Hne : (hs, vs) <> (1, 1).
Let out := o_colorspace (d_opt d).
Hypothesis Hcc : d_cc d = choose_color_convert cpu (o_use_unsafe o).
Hypothesis Hfmt : format_fits cpu o out w (padded w hs) (8 * (hs * vs)).

Notation good_state := (pk d mx my).

Lemma geo_three l : map geo l = [geo c0; geo c1; geo c2] -> exists e0 e1 e2, l = [e0; e1; e2] /\ geo e0 = geo c0 /\ geo e1 = geo c1 /\ geo e2 = geo c2.
Proof.
  clear. destruct l as [|e0 [|e1 [|e2 [|]]]]; try discriminate. cbn [map]. intros E. exists e0, e1, e2. split; [reflexivity|].
  split; [|split].
  - apply (f_equal (fun l => nth 0 l (geo c0))) in E. exact E.
  - apply (f_equal (fun l => nth 1 l (geo c0))) in E. exact E.
  - apply (f_equal (fun l => nth 2 l (geo c0))) in E. exact E.
Qed.

Lemma sampled_progressive rd : Forall byte rd ->
  match fst (decode_progressive (mkHst d rd)) with
  | Ok px => zlen px = w * h * num_components out
  | Err _ => True
  | _ => False
  end.
Proof.
  intros Hrd. pose proof (decode_progressive_fin (mkHst d rd) Hinv Hrd) as [_ _ Hfuel _ _]. revert Hfuel.
  unfold decode_progressive. cbn [hd_dec hd_rd]. destruct Hc0 as [A1 A2]. destruct Hmax as [M1 M2]. destruct Hsize as [Ew Eh].
  destruct (sh_wide _ Hsh c0 [c1; c2] Hcomps) as (X & Y & St); [congruence|congruence|]. rewrite Ew, M1 in X. rewrite Eh, M2 in Y. fold mx in X. fold my in Y.
  assert (Hk : 1 <= hs /\ 1 <= vs).
  { pose proof Hgood as (_ & _ & Hok). rewrite Hcomps in Hok. apply Forall_cons_iff in Hok. destruct Hok as [[] _]. lia. }
  destruct (mcus_cover w hs) as [Hmx Cx]; [lia|lia|]. destruct (mcus_cover h vs) as [Hmy Cy]; [lia|lia|]. fold mx in Hmx, Cx. fold my in Hmy, Cy. fold n in Cx. fold m in Cy.
  assert (Hn : 0 < n) by (unfold n; lia). assert (Hm : 0 < m) by (unfold m; lia).
  assert (Ein : d_inter d = true).
  { rewrite (sh_inter _ Hsh), M1, M2. destruct (Z.eqb_spec hs 1); [|reflexivity]. destruct (Z.eqb_spec vs 1); [|reflexivity]. exfalso. apply Hne. congruence. }
  unfold prog_counts. rewrite Ein, X, Y.
  destruct (s_dims d c0 c1 c2 Hcomps Hcid) as [(e & ->)|(-> & Y0 & S1 & S2 & S3 & S4)]; cbn [rbind]; [intros _; exact I|].
  rewrite X, Hcomps in St. apply Forall_cons_iff in St. destruct St as [St0 St]. apply Forall_cons_iff in St. destruct St as [St1 St]. apply Forall_cons_iff in St. destruct St as [St2 _].
  assert (Y1 : is_y (c_cid c1) = false) by (destruct Hcid as [N1 N2]; destruct (c_cid c1); [congruence|reflexivity|reflexivity]).
  assert (Y2 : is_y (c_cid c2) = false) by (destruct Hcid as [N1 N2]; destruct (c_cid c2); [congruence|reflexivity|reflexivity]).
  assert (Hck : Forall (cok d mx my n m) (d_comps d)).
  { rewrite Hcomps. repeat apply Forall_cons; [| | |apply Forall_nil]; unfold cok.
    - rewrite A1, A2. split; [congruence|]. split; [lia|]. split; [lia|]. intros _. auto.
    - rewrite S1, S2, Y1, Ein. split; [congruence|]. split; [lia|]. split; [lia|]. discriminate.
    - rewrite S3, S4, Y2, Ein. split; [congruence|]. split; [lia|]. split; [lia|]. discriminate. }
  assert (Hsides : d_mcux d = mx /\ d_mcuy d = my /\ u16 (i_width (d_info d) + 7) / 8 = n /\ u16 (i_height (d_info d) + 7) / 8 = m).
  { rewrite Ew, Eh. unfold u16. rewrite !Z.mod_small by lia. auto. }
  assert (H3 : i_comps (d_info d) <= 3) by (destruct Hgood as [L _]; rewrite L, Hcomps; cbn; lia).
  assert (Hal : exists buf, alloc_blocks (Z.to_nat (num_components (d_incs d))) 0 mx my (d_comps d) [[]; []; []] = Ok buf /\ full d mx my buf).
  { rewrite Hincs. change (Z.to_nat (num_components YCbCr)) with 3%nat. rewrite Hcomps.
    cbn [alloc_blocks]. change (0 + 1) with 1. change (1 + 1) with 2. change (at_ [c0; c1; c2] 0) with (Ok c0). change (at_ [c0; c1; c2] 1) with (Ok c1). change (at_ [c0; c1; c2] 2) with (Ok c2).
    cbv iota. eexists. split; [reflexivity|].
    assert (Hz : forall x c, geo x = geo c -> 0 <= c_h c -> 0 <= c_v c -> zlen (zrepeat 0 (mx * 64 * c_v c * c_h c * my)) = 64 * (mx * c_h x * (my * c_v x))).
    { intros x c E Pc Qc. change (c_h x) with (c_h (geo x)). change (c_v x) with (c_v (geo x)). rewrite E. change (c_h (geo c)) with (c_h c). change (c_v (geo c)) with (c_v c).
      assert (0 <= mx * 64 * c_v c * c_h c * my) by (repeat apply Z.mul_nonneg_nonneg; lia).
      unfold zlen, zrepeat. rewrite repeat_length, Z2Nat.id by assumption. ring. }
    intros k x Hl. unfold like in Hl. rewrite Hcomps in Hl. cbn [map] in Hl. pose proof (zget_some _ _ _ Hl) as Hr. change (zlen [geo c0; geo c1; geo c2]) with 3 in Hr.
    assert (k = 0 \/ k = 1 \/ k = 2) as [-> | [-> | ->]] by lia; eexists; (split; [reflexivity|]); apply Hz; try lia;
      (apply (f_equal (fun z => match z with Some y => y | None => geo x end)) in Hl; symmetry; exact Hl). }
  destruct Hal as (buf & Eb & Fb). pose proof (alloc_blocks_ok (Z.to_nat (num_components (d_incs d))) 0 mx my (d_comps d) [[]; []; []] ltac:(repeat constructor)) as Hb16. rewrite Eb in *.
  set (s0 := mkPst d (bst_new_progressive (d_ah d) (d_al d) (d_ss d) (d_se d) rd) buf).
  assert (H0 : good_state s0).
  { split; [|exact Hgood|reflexivity|exact Fb]. unfold sinv. cbn [p_dec p_st s0]. split; [exact Hinv|].
    destruct Hinv as (_ & [? ? ? ? ? ? ? ? ? ? ? ? ? ? ? ?] & _).
    split; [unfold ok_s, bst_new_progressive; cbn; lia|]. split; [unfold band2, bst_new_progressive; cbn; lia|]. split; [exact Hrd|exact Hb16]. }
  assert (W : wp (progressive_scans mx) s0 (fun r _ => (forall p, r <> Panic p) /\ forall px, r = Ok px -> zlen px = w * h * num_components out)).
  { unfold progressive_scans.
    assert (Hbind : forall {A} (x : M pst A) (f : A -> M pst (list Z)) s (P : A -> pst -> Prop), wp x s (psafe d mx my P) ->
      (forall a s', good_state s' -> P a s' -> wp (f a) s' (fun r _ => (forall p, r <> Panic p) /\ forall px, r = Ok px -> zlen px = w * h * num_components out)) ->
      wp (bind x f) s (fun r _ => (forall p, r <> Panic p) /\ forall px, r = Ok px -> zlen px = w * h * num_components out)).
    { intros A x f s P Hx Hf. unfold wp, bind in *. destruct (x s) as [r s1]. cbn [fst snd] in Hx. destruct Hx as (X1 & X2).
      destruct r as [a|e|p|]; cbn [fst snd]; [destruct (X2 a eq_refl); now apply Hf|split; discriminate|now specialize (X1 p)|split; discriminate]. }
    eapply Hbind; [apply (parse_entropy_safe d mx my n m); auto|]. intros _ s1 H1 _.
    apply wp_bind. unfold wp at 1, getps, wp_then. cbn [fst snd].
    destruct (b_marker (p_st s1)) as [mk|]; [|split; discriminate].
    eapply Hbind; [apply modps_safe; [exact H1| | |reflexivity]; apply H1|]. intros _ s2 H2 _.
    eapply Hbind; [apply (scan_loop_safe d mx my n m); auto|]. intros _ s3 H4 _. unfold wp.
    destruct H4 as [_ G4 T4 _]. pose proof T4 as T. unfold static in T.
    assert (E : map geo (d_comps (p_dec s3)) = map geo (d_comps d) /\ d_opt (p_dec s3) = d_opt d /\ d_info (p_dec s3) = d_info d /\ d_hmax (p_dec s3) = d_hmax d /\
      d_vmax (p_dec s3) = d_vmax d /\ d_incs (p_dec s3) = d_incs d /\ d_cc (p_dec s3) = d_cc d) by (repeat split; congruence).
    clear T. destruct E as (E1 & E2 & E3 & E4 & E5 & E6 & E7). rewrite Hcomps in E1. cbn [map] in E1. destruct (geo_three _ E1) as (e0 & e1 & e2 & Ee & G0 & G1 & G2).
    assert (Gh : forall x y, geo x = geo y -> c_h x = c_h y /\ c_v x = c_v y).
    { clear. intros x y E. change (c_h (geo x) = c_h (geo y) /\ c_v (geo x) = c_v (geo y)). now rewrite E. }
    destruct (Gh _ _ G0) as [Q1 Q2]. destruct (Gh _ _ G1) as [Q3 Q4]. destruct (Gh _ _ G2) as [Q5 Q6].
    pose proof (s_finish cpu o (p_dec s3) e0 e1 e2 hs vs w h) as F. rewrite E2, E3, E4, E5, E6, E7 in F.
    assert (Hs3 : shape (p_dec s3)) by (eapply shape_static; eauto).
    specialize (F G4 Hs3 Hw Hh ltac:(auto) ltac:(auto) Ee ltac:(split; congruence) ltac:(repeat split; congruence) Hincs Hne Hcc Hfmt (p_st s3) (p_buf s3)).
    fold mx in F. fold out in F. replace (mkPst (p_dec s3) (p_st s3) (p_buf s3)) with s3 in F by (destruct s3; reflexivity).
    destruct (finish_progressive_decoding (mx * 64) s3) as [[px|e|p|] s'] eqn:Ef; cbn [fst] in *; try contradiction; split; try discriminate.
    intros q Eq. injection Eq as <-. exact F. }
  fold s0. unfold wp in W. destruct (progressive_scans mx s0) as [r s]. cbn [fst snd] in *. destruct W as [W1 W2]. intros Hf.
  destruct r as [px|e|p|]; [now apply W2|exact I|now specialize (W1 p)|congruence].
Qed.
End whole.

(** * One component *)
Section gray.
Variables (d : decoder) (c : component) (hs vs w h : Z).
Let mx := mcus w hs.
Let my := mcus h vs.
Let n := (w + 7) / 8.
Let m := (h + 7) / 8.
Hypothesis Hinv : hinv d.
Hypothesis Hgood : good d.
Hypothesis Hsh : shape d.
Hypothesis Hw : 0 < w <= 65527.
Hypothesis Hh : 0 < h <= 65527.
Hypothesis Hsize : i_width (d_info d) = w /\ i_height (d_info d) = h.
Hypothesis Hmax : d_hmax d = hs /\ d_vmax d = vs.
Hypothesis Hcomps : d_comps d = [c].
Hypothesis Hc0 : c_h c = hs /\ c_v c = vs.
Hypothesis Hincs : d_incs d = GRAYSCALE.
Hypothesis Hne : (hs, vs) <> (1, 1).
Let out := o_colorspace (d_opt d).
Hypothesis Htall : not_tall w h hs vs.

Notation good_state := (pk d mx my).

Lemma gray_inter : d_inter d = true.
Proof.
  destruct Hmax as [M1 M2]. rewrite (sh_inter _ Hsh), M1, M2. destruct (Z.eqb_spec hs 1); [|reflexivity]. destruct (Z.eqb_spec vs 1); [|reflexivity]. exfalso. apply Hne. congruence.
Qed.

Local Ltac fin := cbn [d_comps d_ratio d_incs d_opt d_info d_inter set_d_ratio set_d_comps map ratio_is_h]; repeat split; (reflexivity || assumption).
Lemma gray_finish s : good_state s ->
  match fst (finish_progressive_decoding (mx * 64) s) with
  | Ok px => zlen px = w * h * num_components out
  | Err _ => True
  | _ => False
  end.
Proof.
  intros [_ P2 P3 P4]. pose proof gray_inter as Ein.
  assert (E : d_incs (p_dec s) = d_incs d /\ d_opt (p_dec s) = d_opt d /\ d_info (p_dec s) = d_info d /\ d_hmax (p_dec s) = d_hmax d /\
    d_vmax (p_dec s) = d_vmax d /\ d_inter (p_dec s) = d_inter d /\ map geo (d_comps (p_dec s)) = map geo (d_comps d)) by (unfold static in P3; repeat split; congruence).
  destruct E as (E1 & E2 & E3 & E4 & E5 & E6 & E7). destruct Hmax as [M1 M2]. destruct Hsize as [Ew Eh]. destruct Hc0 as [A1 A2].
  assert (exists e, d_comps (p_dec s) = [e]) as (e & Ee).
  { rewrite Hcomps in E7. destruct (d_comps (p_dec s)) as [|e [|]]; try discriminate. eauto. }
  destruct (P4 0 c) as (ch & Eb & Lb); [unfold like; rewrite Hcomps; reflexivity|]. rewrite A1, A2 in Lb.
  assert (Hk : 1 <= hs /\ 1 <= vs).
  { pose proof Hgood as (_ & _ & Hok). rewrite Hcomps in Hok. apply Forall_cons_iff in Hok. destruct Hok as [[] _]. lia. }
  destruct (mcus_cover w hs) as [Hmx _]; [lia|lia|]. fold mx in Hmx.
  unfold finish_progressive_decoding, bind at 1, on_dec. unfold finish_setup, bind at 1.
  assert (Hup : (exists er d', set_upsampling (p_dec s) = (Err er, d')) \/
    (exists d', set_upsampling (p_dec s) = (Ok tt, d') /\ d_comps d' = [e] /\ ratio_is_h (d_ratio d') = (hs =? 2) && (vs =? 1) /\
       d_incs d' = d_incs d /\ d_opt d' = d_opt d /\ d_info d' = d_info d /\ d_inter d' = d_inter d)).
  { unfold set_upsampling, bind, get, modify, ret, fail, set_up_samplers. rewrite E4, E5, M1, M2.
    destruct ((hs =? vs) && (hs =? 1)) eqn:B1; [exfalso; apply Hne; f_equal; lia|].
    destruct ((hs =? 2) && (vs =? 1)) eqn:B2; [right; cbn [d_comps set_d_ratio]; rewrite Ee; eexists; split; [reflexivity|]; fin|].
    destruct ((hs =? 1) && (vs =? 2)) eqn:B3; [right; cbn [d_comps set_d_ratio]; rewrite Ee; eexists; split; [reflexivity|]; fin|].
    destruct ((hs =? 2) && (vs =? 2)) eqn:B4; [right; cbn [d_comps set_d_ratio]; rewrite Ee; eexists; split; [reflexivity|]; fin|left; eauto]. }
  destruct Hup as [(er & d' & ->)|(d' & -> & F1 & F2 & F3 & F4 & F5 & F6)]; [exact I|].
  unfold bind, get, ret, lift, fail, modify. rewrite F2, F3, F4, F6, Hincs, Ein. cbn [cs_eqb andb].
  destruct (o_strict (d_opt d)); [exact I|].
  unfold reset_grayscale_p, set_comp0, modify, bind, get, ret. cbv beta iota. cbn [d_comps set_d_ratio set_d_vmax set_d_hmax]. rewrite F1. cbv beta iota.
  set (row := if (hs =? 2) && (vs =? 1) then mx * 64 * 2 else mx * 64).
  match goal with |- context [at_ (d_comps ?x) 0] => set (d2 := x) end.
  assert (Hrow : 0 < row /\ 64 * (mx * hs * (my * vs)) < row * row).
  { unfold not_tall in Htall. cbv zeta in Htall. fold (mcus w hs) in Htall. fold (mcus h vs) in Htall. fold mx my in Htall. unfold row.
    destruct ((hs =? 2) && (vs =? 1)); (split; [lia|]).
    - replace (mx * 64 * 2 * (mx * 64 * 2)) with (64 * mx * 2 * (64 * mx * 2)) by ring. exact Htall.
    - replace (mx * 64 * (mx * 64)) with (64 * mx * 1 * (64 * mx * 1)) by ring. exact Htall. }
  destruct Hrow as [Hr1 Hr2].
  match goal with |- context [at_ (d_comps d2) 0] => change (at_ (d_comps d2) 0) with (Ok (set_c_h row (set_c_stride (row * 8) (set_c_v 1 e)))) end.
  cbv beta iota. cbn [c_v c_h set_c_h set_c_stride set_c_v].
  match goal with |- context [prog_jobs ?x _ _] => set (g := x) end. cbn [p_dec p_buf].
  assert (Hnc : 0 < num_components out) by (destruct out; cbn; lia).
  assert (Hwn : 0 < w * num_components out) by (apply Z.mul_pos_pos; lia).
  assert (Ech : g_chunk g = 8 * (w * num_components out)).
  { unfold g. cbn [g_chunk]. change (d_info d2) with (d_info d'). change (d_opt d2) with (d_opt d'). change (d_hmax d2) with 1. change (d_vmax d2) with 1.
    rewrite F4, F5, Ew. fold out. ring. }
  assert (Etot : g_total g = ((w + 8) * (h + 8) + 128 * h) * num_components out).
  { unfold g. cbn [g_total]. unfold capacity, extra_space. change (d_info d2) with (d_info d'). change (d_opt d2) with (d_opt d'). change (d_inter d2) with (d_inter d').
    rewrite F4, F5, F6, Ein, Ew, Eh. fold out. unfold u16. rewrite !Z.mod_small by lia. ring. }
  assert (Ecap : g_ccap g = row * row) by (unfold g; cbn [g_ccap]; ring).
  assert (Ej : prog_jobs g d2 (p_buf s) = Ok []).
  { unfold prog_jobs. replace (g_chunk g =? 0) with false by lia. unfold chunks_exact. rewrite Ecap. assert (0 < row * row) by (apply Z.mul_pos_pos; lia).
    replace (row * row <=? 0) with false by lia. cbv iota beta zeta. change (d_incs d2) with (d_incs d'). rewrite F3, Hincs. change (num_components GRAYSCALE =? 3) with false. cbv iota.
    assert (Ec : chan (p_buf s) 0 = ch).
    { unfold chan. unfold zget in Eb. cbn in Eb. destruct (p_buf s); [discriminate|]. cbn in *. congruence. }
    rewrite Ec. destruct (chunks_many ch (Z.to_nat (row * row)) ltac:(lia)) as (_ & Ln & _).
    rewrite Nat.div_small in Ln by (unfold zlen in Lb; clear - Lb Hr2; lia). destruct (chunks_n _ ch); [|discriminate]. cbn [map]. now rewrite firstn_nil. }
  rewrite Ej. cbn [run_jobs fst].
  assert (Eo : output_len d2 = w * h * num_components out).
  { unfold output_len. change (d_info d2) with (d_info d'). change (d_opt d2) with (d_opt d'). rewrite F4, F5, Ew, Eh. reflexivity. }
  rewrite Eo. apply assemble_len. rewrite Etot. assert (0 <= w * h) by (apply Z.mul_nonneg_nonneg; lia).
  split; [apply Z.mul_nonneg_nonneg; lia|]. apply Z.mul_le_mono_nonneg_r; lia.
Qed.

Lemma gray_progressive rd : Forall byte rd ->
  match fst (decode_progressive (mkHst d rd)) with
  | Ok px => zlen px = w * h * num_components out
  | Err _ => True
  | _ => False
  end.
Proof.
  intros Hrd. pose proof (decode_progressive_fin (mkHst d rd) Hinv Hrd) as [_ _ Hfuel _ _]. revert Hfuel.
  unfold decode_progressive. cbn [hd_dec hd_rd]. pose proof gray_inter as Ein. destruct Hc0 as [A1 A2]. destruct Hmax as [M1 M2]. destruct Hsize as [Ew Eh].
  destruct (sh_wide _ Hsh c [] Hcomps) as (X & Y & St); [congruence|congruence|]. rewrite Ew, M1 in X. rewrite Eh, M2 in Y. fold mx in X. fold my in Y.
  assert (Hk : 1 <= hs /\ 1 <= vs).
  { pose proof Hgood as (_ & _ & Hok). rewrite Hcomps in Hok. apply Forall_cons_iff in Hok. destruct Hok as [[] _]. lia. }
  destruct (mcus_cover w hs) as [Hmx Cx]; [lia|lia|]. destruct (mcus_cover h vs) as [Hmy Cy]; [lia|lia|]. fold mx in Hmx, Cx. fold my in Hmy, Cy. fold n in Cx. fold m in Cy.
  assert (Hn : 0 < n) by (unfold n; lia). assert (Hm : 0 < m) by (unfold m; lia).
  unfold prog_counts. rewrite Ein, X, Y.
  destruct (check_component_dimensions d) as [u|e|p|] eqn:Ed; cbn [rbind]; [|intros _; exact I| |].
  2:{ exfalso. eapply dims_nopanic; eauto. }
  2:{ exfalso. eapply check_dims_nofuel; eauto. }
  rewrite X, Hcomps in St. apply Forall_cons_iff in St. destruct St as [St0 _].
  assert (Hck : Forall (cok d mx my n m) (d_comps d)).
  { rewrite Hcomps. apply Forall_cons; [|apply Forall_nil]. unfold cok. rewrite A1, A2. split; [congruence|]. split; [lia|]. split; [lia|]. intros _. auto. }
  assert (Hsides : d_mcux d = mx /\ d_mcuy d = my /\ u16 (i_width (d_info d) + 7) / 8 = n /\ u16 (i_height (d_info d) + 7) / 8 = m).
  { rewrite Ew, Eh. unfold u16. rewrite !Z.mod_small by lia. auto. }
  assert (H3 : i_comps (d_info d) <= 3) by (destruct Hgood as [L _]; rewrite L, Hcomps; cbn; lia).
  assert (Hal : exists buf, alloc_blocks (Z.to_nat (num_components (d_incs d))) 0 mx my (d_comps d) [[]; []; []] = Ok buf /\ full d mx my buf).
  { rewrite Hincs. change (Z.to_nat (num_components GRAYSCALE)) with 1%nat. rewrite Hcomps.
    cbn [alloc_blocks]. change (at_ [c] 0) with (Ok c). cbv iota. eexists. split; [reflexivity|].
    intros k x Hl. unfold like in Hl. rewrite Hcomps in Hl. cbn [map] in Hl. pose proof (zget_some _ _ _ Hl) as Hr. change (zlen [geo c]) with 1 in Hr.
    assert (k = 0) as -> by lia. eexists. split; [reflexivity|].
    assert (E : geo x = geo c) by (apply (f_equal (fun z => match z with Some y => y | None => geo x end)) in Hl; symmetry; exact Hl).
    change (c_h x) with (c_h (geo x)). change (c_v x) with (c_v (geo x)). rewrite E. change (c_h (geo c)) with (c_h c). change (c_v (geo c)) with (c_v c).
    assert (0 <= mx * 64 * c_v c * c_h c * my) by (repeat apply Z.mul_nonneg_nonneg; lia).
    unfold zlen, zrepeat. rewrite repeat_length, Z2Nat.id by assumption. ring. }
  destruct Hal as (buf & Eb & Fb). pose proof (alloc_blocks_ok (Z.to_nat (num_components (d_incs d))) 0 mx my (d_comps d) [[]; []; []] ltac:(repeat constructor)) as Hb16. rewrite Eb in *.
  set (s0 := mkPst d (bst_new_progressive (d_ah d) (d_al d) (d_ss d) (d_se d) rd) buf).
  assert (H0 : good_state s0).
  { split; [|exact Hgood|reflexivity|exact Fb]. unfold sinv. cbn [p_dec p_st s0]. split; [exact Hinv|].
    destruct Hinv as (_ & [? ? ? ? ? ? ? ? ? ? ? ? ? ? ? ?] & _).
    split; [unfold ok_s, bst_new_progressive; cbn; lia|]. split; [unfold band2, bst_new_progressive; cbn; lia|]. split; [exact Hrd|exact Hb16]. }
  assert (W : wp (progressive_scans mx) s0 (fun r _ => (forall p, r <> Panic p) /\ forall px, r = Ok px -> zlen px = w * h * num_components out)).
  { unfold progressive_scans.
    assert (Hbind : forall {A} (x : M pst A) (f : A -> M pst (list Z)) s (P : A -> pst -> Prop), wp x s (psafe d mx my P) ->
      (forall a s', good_state s' -> P a s' -> wp (f a) s' (fun r _ => (forall p, r <> Panic p) /\ forall px, r = Ok px -> zlen px = w * h * num_components out)) ->
      wp (bind x f) s (fun r _ => (forall p, r <> Panic p) /\ forall px, r = Ok px -> zlen px = w * h * num_components out)).
    { intros A x f s P Hx Hf. unfold wp, bind in *. destruct (x s) as [r s1]. cbn [fst snd] in Hx. destruct Hx as (X1 & X2).
      destruct r as [a|e|p|]; cbn [fst snd]; [destruct (X2 a eq_refl); now apply Hf|split; discriminate|now specialize (X1 p)|split; discriminate]. }
    eapply Hbind; [apply (parse_entropy_safe d mx my n m); auto|]. intros _ s1 H1 _.
    apply wp_bind. unfold wp at 1, getps, wp_then. cbn [fst snd].
    destruct (b_marker (p_st s1)) as [mk|]; [|split; discriminate].
    eapply Hbind; [apply modps_safe; [exact H1| | |reflexivity]; apply H1|]. intros _ s2 H2 _.
    eapply Hbind; [apply (scan_loop_safe d mx my n m); auto|]. intros _ s3 H4 _. unfold wp. pose proof (gray_finish s3 H4) as F.
    destruct (finish_progressive_decoding (mx * 64) s3) as [[px|e|p|] s'] eqn:Ef; cbn [fst] in *; try contradiction; split; try discriminate.
    intros q Eq. injection Eq as <-. exact F. }
  fold s0. unfold wp in W. destruct (progressive_scans mx s0) as [r s]. cbn [fst snd] in *. destruct W as [W1 W2]. intros Hf.
  destruct r as [px|e|p|]; [now apply W2|exact I|now specialize (W1 p)|congruence].
Qed.
End gray.

Lemma sampled_progressive_safe cpu o buf d rest :
  Forall byte buf ->
  decode_headers (mkHst (new_with_options cpu o) buf) = (Ok tt, mkHst d rest) ->
  d_prog d = true ->
  ~ (d_hmax d = 1 /\ d_vmax d = 1) ->
  i_width (d_info d) <= 65527 -> i_height (d_info d) <= 65527 ->
  (i_comps (d_info d) = 1 /\ alone d /\ not_tall (i_width (d_info d)) (i_height (d_info d)) (d_hmax d) (d_vmax d)) \/
  (d_incs d = YCbCr /\ luma_first d /\
   format_fits cpu o (o_colorspace (d_opt d)) (i_width (d_info d)) (padded (i_width (d_info d)) (d_hmax d)) (8 * (d_hmax d * d_vmax d))) ->
  match fst (decode_buffer (new_with_options cpu o) buf) with
  | Ok px => zlen px = i_width (d_info d) * i_height (d_info d) * num_components (o_colorspace (d_opt d))
  | Err _ => True
  | _ => False
  end.
Proof.
  intros Hb E Hp Hne Hw Hh Hcase.
  pose proof (decode_headers_step (mkHst (new_with_options cpu o) buf) (hinv_new cpu o) Hb) as W. unfold wp in W. rewrite E in W.
  destruct W as [I1 S1 _ U1 _ G1 _]. cbn [fst snd hd_dec hd_rd] in *. specialize (G1 (good_new cpu o) tt eq_refl).
  assert (Hsh : shape d).
  { apply (headers_shape _ _ (hinv_new cpu o : hinv (hd_dec (mkHst (new_with_options cpu o) buf))) Hb E). apply shape_new. }
  assert (Hcc : d_cc d = choose_color_convert cpu (o_use_unsafe o)) by (destruct U1 as (_ & _ & _ & U & _); exact U).
  assert (Hl : 0 < i_width (d_info d) /\ 0 < i_height (d_info d)).
  { assert (Hz : i_comps (d_info d) <> 0).
    { destruct Hcase as [[X _]|(_ & X & _)]; [lia|]. destruct G1 as (G & _). unfold luma_first in X. rewrite G.
      destruct (d_comps d) as [|? [|? [|? [|]]]]; try contradiction. discriminate. }
    destruct G1 as (_ & L & _). specialize (L Hz). clear - L. lia. }
  unfold decode_buffer, on_buffer, decode_internal. unfold bind at 1. rewrite E. unfold bind, getd. cbn [hd_dec]. rewrite Hp.
  assert (Hrd : Forall byte rest) by (eapply suffix_Forall; eauto).
  assert (Hn2 : (d_hmax d, d_vmax d) <> (1, 1)) by (intros X; apply Hne; now injection X).
  destruct Hcase as [(Hone & Hal & Ht)|(Hi & Hlf & Hf)].
  - unfold alone in Hal. destruct (d_comps d) as [|c [|]] eqn:Ec; try contradiction.
    pose proof (gray_progressive d c (d_hmax d) (d_vmax d) (i_width (d_info d)) (i_height (d_info d)) I1 G1 Hsh ltac:(lia) ltac:(lia) ltac:(auto) ltac:(auto) Ec Hal (sh_one _ Hsh Hone) Hn2 Ht rest Hrd) as R.
    destruct (decode_progressive (mkHst d rest)) as [r s]. exact R.
  - unfold luma_first in Hlf. destruct (d_comps d) as [|c0 [|c1 [|c2 [|]]]] eqn:Ec; try contradiction. destruct Hlf as (A & B & C & D).
    pose proof (sampled_progressive cpu o d c0 c1 c2 (d_hmax d) (d_vmax d) (i_width (d_info d)) (i_height (d_info d)) I1 G1 Hsh ltac:(lia) ltac:(lia) ltac:(auto) ltac:(auto) Ec ltac:(auto) ltac:(auto) Hi Hn2 Hcc Hf rest Hrd) as R.
    destruct (decode_progressive (mkHst d rest)) as [r s]. exact R.
Qed.
