(** Executions that differ only in the options. *)
From Coq Require Import ZArith String List Bool Lia.
From Coq Require Import ZifyBool ZifyNat ZifyN.
From Verif Require Import Base Types Huffman State Bitstream Headers Worker Mcu McuProg Decoder.
Import ListNotations.
Local Open Scope Z_scope.
Local Open Scope m_scope.

Definition is_ok {A} (r : res A) : Prop := match r with Ok _ => True | _ => False end.

Section Sim.
(** [chg] changes the options; it is applied to options that satisfy [lim].  If [ex] is true
    all outcomes agree, otherwise the successful ones do. *)
Variables (chg : options -> options) (lim : options -> Prop) (ex : bool).
Record change : Prop := {
  ch_out : forall o, lim o -> lim (set_out_colorspace o GRAYSCALE) /\ chg (set_out_colorspace o GRAYSCALE) = set_out_colorspace (chg o) GRAYSCALE;
  ch_cs : forall o, lim o -> o_colorspace (chg o) = o_colorspace o;
  ch_unsafe : forall o, lim o -> o_use_unsafe (chg o) = o_use_unsafe o;
  ch_mw : forall o, lim o -> o_max_width o <= o_max_width (chg o);
  ch_mh : forall o, lim o -> o_max_height o <= o_max_height (chg o);
  ch_ms : forall o, lim o -> o_max_scans o <= o_max_scans (chg o);
  ch_st : forall o, lim o -> o_strict (chg o) = true -> o_strict o = true;
  ch_ex : ex = true -> forall o, lim o -> o_max_width (chg o) = o_max_width o /\
    o_max_height (chg o) = o_max_height o /\ o_max_scans (chg o) = o_max_scans o /\ o_strict (chg o) = o_strict o }.
Hypothesis C : change.

Definition phi (d : decoder) : decoder := set_d_opt (chg (d_opt d)) d.
Definition L (d : decoder) : Prop := lim (d_opt d).

Definition simr {S} (f : S -> S) (P : S -> Prop) {A} (m m' : M S A) : Prop :=
  forall s, P s -> P (snd (m s)) /\ (is_ok (fst (m s)) \/ ex = true -> m' (f s) = (fst (m s), f (snd (m s)))).

Section Rules.
  Context {S : Type} (f : S -> S) (P : S -> Prop).
  Lemma sim_bind {A B} (m m' : M S A) (k k' : A -> M S B) :
    simr f P m m' -> (forall a, simr f P (k a) (k' a)) -> simr f P (bind m k) (bind m' k').
  Proof.
    intros Hm Hk s Hs. destruct (Hm s Hs) as [H1 H2]. unfold bind. destruct (m s) as [r s1]. cbn [fst snd] in *.
    destruct r as [a| | |]; cbn [fst snd is_ok] in *.
    - rewrite H2 by auto. apply Hk, H1.
    - split; [exact H1|]. intros [[]|E]. rewrite H2 by auto. reflexivity.
    - split; [exact H1|]. intros [[]|E]. rewrite H2 by auto. reflexivity.
    - split; [exact H1|]. intros [[]|E]. rewrite H2 by auto. reflexivity.
  Qed.
  Lemma sim_get {B} (k k' : S -> M S B) : (forall s, P s -> simr f P (k s) (k' (f s))) -> simr f P (bind get k) (bind get k').
  Proof. intros H s Hs. exact (H s Hs s Hs). Qed.
  Lemma sim_ret {A} (a : A) : simr f P (ret a) (ret a). Proof. intros s Hs. split; auto. Qed.
  Lemma sim_fail {A} e : simr f P (@fail S A e) (fail e). Proof. intros s Hs. split; auto. Qed.
  Lemma sim_panic {A} e : simr f P (@panic S A e) (panic e). Proof. intros s Hs. split; auto. Qed.
  Lemma sim_fuel {A} : simr f P (@outoffuel S A) outoffuel. Proof. intros s Hs. split; auto. Qed.
  Lemma sim_lift {A} (r : res A) : simr f P (lift r) (lift r). Proof. intros s Hs. split; auto. Qed.
  Lemma sim_modify g : (forall s, P s -> P (g s) /\ g (f s) = f (g s)) -> simr f P (modify g) (modify g).
  Proof. intros H s Hs. destruct (H s Hs) as [H1 H2]. unfold modify. cbn [fst snd]. split; [exact H1|]. intros _. now rewrite H2. Qed.
  Lemma sim_mfor (b b' : Z -> M S unit) : (forall i, simr f P (b i) (b' i)) -> forall n i, simr f P (mfor n i b) (mfor n i b').
  Proof. intros H. induction n; intros i; cbn [mfor]; [apply sim_ret|]. apply sim_bind; auto. Qed.
  Lemma sim_mfor_break (b b' : Z -> M S bool) : (forall i, simr f P (b i) (b' i)) -> forall n i, simr f P (mfor_break n i b) (mfor_break n i b').
  Proof.
    intros H. induction n; intros i; cbn [mfor_break]; [apply sim_ret|]. apply sim_bind; auto.
    intros []; [apply IHn|apply sim_ret].
  Qed.
  Lemma sim_map_err {A} e (m m' : M S A) : simr f P m m' -> simr f P (map_err e m) (map_err e m').
  Proof.
    intros H s Hs. destruct (H s Hs) as [H1 H2]. unfold map_err. destruct (m s) as [[] s1]; cbn [fst snd is_ok] in *;
      (split; [exact H1|]); intros Hx; try (destruct Hx as [[]|Hx]); rewrite H2 by auto; reflexivity.
  Qed.
End Rules.

(** * Headers *)
Definition fh (s : hst) : hst := mkHst (phi (hd_dec s)) (hd_rd s).
Definition Ph (s : hst) : Prop := L (hd_dec s).
Notation simh := (simr fh Ph).

Lemma sim_getd {B} (k k' : decoder -> M hst B) : (forall d, L d -> simh (k d) (k' (phi d))) -> simh (bind getd k) (bind getd k').
Proof. intros H s Hs. exact (H (hd_dec s) Hs s Hs). Qed.
Lemma sim_modd g : (forall d, L d -> L (g d) /\ g (phi d) = phi (g d)) -> simh (modd g) (modd g).
Proof.
  intros H s Hs. destruct (H (hd_dec s) Hs) as [H1 H2]. unfold modd, fh. cbn [fst snd hd_dec hd_rd]. split; [exact H1|].
  intros _. now rewrite H2.
Qed.
Lemma sim_byte : simh rd_byte rd_byte.
Proof. intros [d [|b t]] Hs; split; auto. Qed.
Lemma sim_u16 : simh rd_u16 rd_u16.
Proof. intros [d [|a [|b t]]] Hs; split; auto. Qed.
Lemma sim_exact n e : simh (rd_exact n e) (rd_exact n e).
Proof. intros [d rd] Hs. unfold rd_exact, fh. cbn [hd_rd hd_dec]. destruct (slice rd 0 n); split; auto. Qed.
Lemma sim_consume n : simh (consume n) (consume n).
Proof. intros [d rd] Hs. split; auto. Qed.
Lemma sim_fuelof : simh fuel_of fuel_of.
Proof. intros [d rd] Hs. split; auto. Qed.

Lemma sim_opt_cs d : L d -> o_colorspace (d_opt (phi d)) = o_colorspace (d_opt d).
Proof. apply (ch_cs C). Qed.
Lemma sim_opt_unsafe d : L d -> o_use_unsafe (d_opt (phi d)) = o_use_unsafe (d_opt d).
Proof. apply (ch_unsafe C). Qed.

Section Guards.
  Context {S : Type} (f : S -> S) (P : S -> Prop) {A : Type} (m m' : M S A).
  Hypothesis H : simr f P m m'.
  Lemma sim_guard (g g' : bool) (e e' : err) : (g' = true -> g = true) -> (ex = true -> g = g' /\ e = e') ->
    simr f P (if g then fail e else m) (if g' then fail e' else m').
  Proof.
    intros H1 H2. destruct g, g'; try (exfalso; now discriminate H1).
    - intros s Hs. split; [exact Hs|]. intros [[]|E]. destruct (H2 E) as [_ ->]. reflexivity.
    - intros s Hs. split; [exact Hs|]. intros [[]|E]. destruct (H2 E) as [[=] _].
    - exact H.
  Qed.
End Guards.

Ltac sphi := unfold phi; cbn [d_info d_qt d_dcts d_acts d_comps d_hmax d_vmax d_mcuw d_mcuh d_mcux d_mcuy d_inter d_ratio d_incs d_prog
   d_ss d_se d_ah d_al d_nscans d_idct d_cc d_zorder d_ri d_todo d_isa set_d_opt].
Ltac smod := let d := fresh "d" in let Hd := fresh "Hd" in intros d Hd; split; [exact Hd|reflexivity].
Ltac sstep :=
  lazymatch goal with
  | |- simr _ _ (bind get _) _ => apply sim_get; let d := fresh "d" in let H := fresh "HL" in intros d H
  | |- simr _ _ (bind getd _) _ => apply sim_getd; let d := fresh "d" in let H := fresh "HL" in intros d H; sphi
  | |- simr _ _ (bind _ _) _ => apply sim_bind; [|intro]
  | |- simr _ _ (ret _) _ => apply sim_ret
  | |- simr _ _ (fail _) _ => apply sim_fail
  | |- simr _ _ (panic _) _ => apply sim_panic
  | |- simr _ _ outoffuel _ => apply sim_fuel
  | |- simr _ _ (lift _) _ => apply sim_lift
  | |- simr _ _ (map_err _ _) _ => apply sim_map_err
  | |- simr _ _ rd_byte _ => apply sim_byte
  | |- simr _ _ rd_u16 _ => apply sim_u16
  | |- simr _ _ (rd_exact _ _) _ => apply sim_exact
  | |- simr _ _ (consume _) _ => apply sim_consume
  | |- simr _ _ fuel_of _ => apply sim_fuelof
  | |- simr _ _ (modd _) _ => apply sim_modd; smod
  | |- simr _ _ (mfor _ _ _) _ => apply sim_mfor; intro
  | |- simr _ _ (mfor_break _ _ _) _ => apply sim_mfor_break; intro
  | |- simr _ _ (if ?b then _ else _) (if ?b then _ else _) => destruct b
  | |- simr _ _ (match ?x with _ => _ end) (match ?x with _ => _ end) => destruct x
  | |- simr _ _ (let _ := _ in _) _ => cbv zeta
  end.
Ltac ssteps := repeat sstep.

Lemma sim_dht_loop : forall fuel len, simh (dht_loop fuel len) (dht_loop fuel len).
Proof. induction fuel; intros len; cbn [dht_loop]; [ssteps|]. destruct (len <=? 16); ssteps; apply IHfuel. Qed.
Lemma sim_parse_huffman : simh parse_huffman parse_huffman.
Proof. unfold parse_huffman. ssteps. apply sim_dht_loop. Qed.
Lemma sim_dqt_loop : forall fuel len, simh (dqt_loop fuel len) (dqt_loop fuel len).
Proof. induction fuel; intros len; cbn [dqt_loop]; [ssteps|]. ssteps; apply IHfuel. Qed.
Lemma sim_parse_dqt : simh parse_dqt parse_dqt.
Proof. unfold parse_dqt. ssteps. apply sim_dqt_loop. Qed.
Lemma sim_read_components n : simh (read_components n) (read_components n).
Proof. induction n; cbn [read_components]; ssteps; apply IHn. Qed.
Lemma sim_sof_components cs : simh (sof_components cs) (sof_components cs).
Proof.
  induction cs as [|c cs IH]; cbn [sof_components]; [ssteps|]. apply sim_bind; [|intros _].
  - apply sim_modd. intros d Hd. unfold sof_geometry. sphi. cbv zeta.
    destruct (negb _ || negb _); (split; [exact Hd|reflexivity]).
  - sstep. ssteps. apply IH.
Qed.
Lemma sim_sof sof : simh (parse_start_of_frame sof) (parse_start_of_frame sof).
Proof.
  unfold parse_start_of_frame. ssteps.
  apply sim_guard; [|pose proof (ch_mw C _ HL); cbn [d_opt set_d_opt] in *; lia|].
  2:{ intros E. destruct (ch_ex C E _ HL) as (E1 & _). cbn [d_opt set_d_opt] in *. rewrite E1. auto. }
  apply sim_guard; [|pose proof (ch_mh C _ HL); cbn [d_opt set_d_opt] in *; lia|].
  2:{ intros E. destruct (ch_ex C E _ HL) as (_ & E1 & _). cbn [d_opt set_d_opt] in *. rewrite E1. auto. }
  ssteps; try apply sim_read_components; try apply sim_sof_components.
  apply sim_modd. intros d1 Hd1. destruct (ch_out C _ Hd1) as [O1 O2]. split; [exact O1|].
  unfold phi. cbn [d_opt set_d_opt set_d_incs]. rewrite O2. reflexivity.
Qed.
Lemma sim_sos_components : forall n i seen, simh (sos_components n i seen) (sos_components n i seen).
Proof. induction n; intros i seen; cbn [sos_components]; ssteps; apply IHn. Qed.
Lemma sim_parse_sos : simh parse_sos parse_sos.
Proof. unfold parse_sos. ssteps. apply sim_sos_components. Qed.
Lemma sim_skip_segment e : simh (skip_segment e) (skip_segment e).
Proof. unfold skip_segment. ssteps. Qed.
Lemma sim_marker m : simh (parse_marker_inner m) (parse_marker_inner m).
Proof.
  unfold parse_marker_inner. ssteps; first [apply sim_sof|apply sim_parse_dqt|apply sim_parse_huffman|apply sim_parse_sos|apply sim_skip_segment].
Qed.
Lemma sim_header_loop : forall fuel last before, simh (header_loop fuel last before) (header_loop fuel last before).
Proof.
  induction fuel; intros last before; cbn [header_loop]; [ssteps|].
  assert (Hn : forall a b d, L d -> simh
     (if o_strict (d_opt d) && (3 <? b) then fail (EFormatStatic "[strict-mode]: Extra bytes between headers") else header_loop fuel a b)
     (if o_strict (d_opt (set_d_opt (chg (d_opt d)) d)) && (3 <? b) then fail (EFormatStatic "[strict-mode]: Extra bytes between headers") else header_loop fuel a b)).
  { intros a b d HL. apply sim_guard; [apply IHfuel| |].
    - intros E. apply andb_prop in E. destruct E as [E1 E2]. rewrite E2. now rewrite (ch_st C _ HL E1).
    - intros E. destruct (ch_ex C E _ HL) as (_ & _ & _ & E1). cbn [d_opt set_d_opt]. rewrite E1. auto. }
  ssteps; try apply sim_marker; try apply sim_skip_segment; now apply Hn.
Qed.
Lemma sim_headers : simh decode_headers decode_headers.
Proof. unfold decode_headers. ssteps. apply sim_header_loop. Qed.

(** * Set-up *)
Notation simd := (simr phi L).
Lemma sim_modifyd g : (forall d, L d -> L (g d) /\ g (phi d) = phi (g d)) -> simd (modify g) (modify g).
Proof. apply sim_modify. Qed.
Lemma sim_samplers u : simd (set_up_samplers u) (set_up_samplers u).
Proof.
  intros d Hd. unfold set_up_samplers, phi. cbn [d_comps set_d_opt]. destruct (d_comps d); split; auto.
Qed.
Lemma sim_set_upsampling : simd set_upsampling set_upsampling.
Proof.
  unfold set_upsampling. apply sim_get. intros d HL. sphi. cbn [d_opt set_d_opt]. rewrite (ch_unsafe C _ HL).
  ssteps; try apply sim_samplers; apply sim_modifyd; smod.
Qed.
Lemma sim_set_comp0 g : simd (set_comp0 g) (set_comp0 g).
Proof. intros d Hd. unfold set_comp0, phi. cbn [d_comps set_d_opt]. destruct (d_comps d); split; auto. Qed.
Lemma sim_check_dims d : check_component_dimensions (phi d) = check_component_dimensions d.
Proof. reflexivity. Qed.
Lemma check_tables_phi n : forall i d, check_tables_from n i (phi d) = check_tables_from n i d.
Proof.
  induction n; intros i d; [reflexivity|]. cbn [check_tables_from]. unfold phi at 1 2 3. cbn [d_comps d_dcts d_acts set_d_opt].
  destruct (at_ (d_comps d) i); try reflexivity. destruct (table_at _ _); [|reflexivity]. destruct (table_at _ _); [|reflexivity]. apply IHn.
Qed.
Lemma sim_reset_grayscale w : simd (reset_grayscale w) (reset_grayscale w).
Proof.
  unfold reset_grayscale. ssteps; try apply sim_set_comp0; try (apply sim_modifyd; smod).
  apply sim_modifyd. intros d Hd. destruct (ch_out C _ Hd) as [O1 O2]. split; [exact O1|].
  unfold phi. cbn [d_opt set_d_opt]. rewrite O2. reflexivity.
Qed.
Lemma geom_phi w h b c d : L d -> geom_of w h b c (phi d) = geom_of w h b c d.
Proof.
  intros HL. unfold geom_of, capacity, extra_space. rewrite (sim_opt_cs d HL). reflexivity.
Qed.
Lemma sim_baseline_setup : simd baseline_setup baseline_setup.
Proof.
  unfold baseline_setup. apply sim_get. intros d HL. rewrite sim_check_dims. unfold check_tables. rewrite check_tables_phi.
  change (d_incs (phi d)) with (d_incs d). change (d_inter (phi d)) with (d_inter d).
  apply sim_bind; [apply sim_lift|intros _]. apply sim_bind; [apply sim_lift|intros _].
  apply sim_bind; [destruct (d_inter d); [apply sim_set_upsampling|apply sim_ret]|intros _].
  apply sim_get. clear d HL. intros d HL. change (mcu_counts (phi d)) with (mcu_counts d). destruct (mcu_counts d) as [[w h] b].
  change (d_incs (phi d)) with (d_incs d). change (d_inter (phi d)) with (d_inter d).
  change (d_info (phi d)) with (d_info d).
  apply sim_bind.
  - destruct (_ && _); [|apply sim_ret]. apply sim_guard.
    + cbv zeta. apply sim_bind; [apply sim_reset_grayscale|intros _; apply sim_ret].
    + apply (ch_st C _ HL).
    + intros E. destruct (ch_ex C E _ HL) as (_ & _ & _ & E1). unfold phi. cbn [d_opt set_d_opt]. rewrite E1. auto.
  - intros [[w' h'] b']. apply sim_get. clear d HL. intros d HL. change (d_comps (phi d)) with (d_comps d).
    apply sim_bind; [apply sim_lift|intros c0]. cbv zeta. rewrite geom_phi by exact HL. ssteps.
Qed.

(** * The baseline loop *)
Definition fm (s : mst) : mst := mkMst (phi (m_dec s)) (m_st s) (m_tmp s) (m_jobs s).
Definition Pm (s : mst) : Prop := L (m_dec s).
Notation simm := (simr fm Pm).
Lemma sim_getm {B} (k k' : decoder -> M mst B) : (forall d, L d -> simm (k d) (k' (phi d))) -> simm (bind getm k) (bind getm k').
Proof. intros H s Hs. exact (H (m_dec s) Hs s Hs). Qed.
Lemma sim_gets {B} (k k' : bst -> M mst B) : (forall st, simm (k st) (k' st)) -> simm (bind gets k) (bind gets k').
Proof. intros H s Hs. exact (H (m_st s) s Hs). Qed.
Lemma tick_phi d st : tick (phi d) st = (let '(r, d1, st1) := tick d st in (r, phi d1, st1)) /\ (L d -> L (snd (fst (tick d st)))).
Proof.
  unfold tick. change (d_todo (phi d)) with (d_todo d). cbv zeta.
  change (d_todo (set_d_todo (u64 (d_todo d - 1)) (phi d))) with (d_todo (set_d_todo (u64 (d_todo d - 1)) d)).
  destruct (_ =? 0); [|split; [reflexivity|auto]]. unfold handle_rst. cbv zeta.
  destruct (b_marker st) as [[]|]; split; auto.
Qed.
Lemma sim_count_restart : simm count_restart count_restart.
Proof.
  intros [d st tmp jobs] Hs. unfold count_restart, fm. cbn [m_dec m_st m_tmp m_jobs].
  destruct (tick_phi d st) as [E1 E2]. rewrite E1. destruct (tick d st) as [[r d1] st1]. cbn [fst snd m_dec m_st m_tmp m_jobs] in *.
  split; [exact (E2 Hs)|auto].
Qed.
Lemma sim_parse_in_scan m : simm (parse_in_scan m) (parse_in_scan m).
Proof.
  intros [d st tmp jobs] Hs. unfold parse_in_scan, fm. cbn [m_dec m_st m_tmp m_jobs].
  destruct (sim_marker m (mkHst d (b_rd st)) Hs) as [H1 H2]. unfold fh in H2. cbn [hd_dec hd_rd] in H2.
  destruct (parse_marker_inner m (mkHst d (b_rd st))) as [r h]. cbn [fst snd m_dec m_st m_tmp m_jobs] in *.
  split; [exact H1|]. intros Hx. rewrite (H2 Hx). reflexivity.
Qed.
Lemma sim_decode_block g c t1 t2 pos v j vs hs : simm (decode_block g c t1 t2 pos v j vs hs) (decode_block g c t1 t2 pos v j vs hs).
Proof.
  intros [d st tmp jobs] Hs. unfold decode_block, fm. cbn [m_dec m_st m_tmp m_jobs]. rewrite (sim_opt_cs d Hs).
  change (d_comps (phi d)) with (d_comps d). cbv zeta.
  destruct (_ <=? _).
  - destruct (zget tmp pos); [|split; auto]. destruct (slice _ _ _); [|split; auto].
    destruct (decode_mcu_block _ _ _ _ _) as [[[] st1] dc1]; split; auto.
  - destruct (decode_mcu_block _ _ _ _ _) as [[[] st1] dc1]; split; auto.
Qed.
Lemma sim_mcu_component g v j pos : simm (mcu_component g v j pos) (mcu_component g v j pos).
Proof.
  unfold mcu_component, decode_component. apply sim_getm. intros d HL. sphi. apply sim_bind; [apply sim_lift|intros c].
  destruct (table_at _ _); [|apply sim_fail]. destruct (table_at _ _); [|apply sim_fail].
  apply sim_bind; [ssteps; apply sim_decode_block|intros _]. apply sim_bind; [apply sim_count_restart|intros _].
  apply sim_gets. intros st. ssteps; apply sim_parse_in_scan.
Qed.
Lemma sim_decode_row g : simm (decode_row g) (decode_row g).
Proof.
  unfold decode_row, decode_mcu. apply sim_getm. intros d HL. rewrite (sim_opt_cs d HL). sphi.
  apply sim_bind; [apply sim_lift|intros tmp]. apply sim_bind; [apply sim_modify; intros s Hs; split; [exact Hs|reflexivity]|intros _].
  apply sim_bind.
  - apply sim_mfor. intros i. apply sim_mfor. intros j. apply sim_getm. intros d1 HL1. sphi. ssteps. apply sim_mcu_component.
  - intros _ [d1 st tmp1 jobs] Hs. unfold fm. cbn [m_dec m_st m_tmp m_jobs]. destruct (_ <=? _); split; auto.
Qed.
Lemma sim_decode_baseline : simh decode_baseline decode_baseline.
Proof.
  intros [d rd] Hs. unfold decode_baseline, fh. cbn [hd_dec hd_rd].
  destruct (sim_baseline_setup d Hs) as [H1 H2]. destruct (baseline_setup d) as [[g| | |] d1]; cbn [fst snd is_ok] in *.
  2,3,4: split; [exact H1|]; intros [[]|E]; now rewrite H2 by auto.
  rewrite H2 by auto.
  assert (Hr : simm (decode_rows g) (decode_rows g)) by (unfold decode_rows; ssteps; apply sim_decode_row).
  destruct (Hr (mkMst d1 (bst_new rd) [] []) H1) as [G1 G2]. unfold fm in G2. cbn [m_dec m_st m_tmp m_jobs] in G2.
  destruct (decode_rows g (mkMst d1 (bst_new rd) [] [])) as [r s1]. cbn [fst snd] in G1, G2.
  assert (Ho : output_len (phi (m_dec s1)) = output_len (m_dec s1)) by (unfold output_len; rewrite (sim_opt_cs _ G1); reflexivity).
  destruct r as [[]| | |]; cbn [is_ok] in G2.
  - rewrite G2 by auto. cbn [m_dec m_st m_tmp m_jobs]. rewrite Ho. destruct (run_jobs g (rev (m_jobs s1))); split; auto.
  - destruct (run_jobs g (rev (m_jobs s1))) eqn:Er; (split; [exact G1|]); intros [[]|E];
      rewrite G2 by auto; cbn [m_dec m_st m_tmp m_jobs]; rewrite Er; reflexivity.
  - split; [exact G1|]. intros [[]|E]. rewrite G2 by auto. reflexivity.
  - split; [exact G1|]. intros [[]|E]. rewrite G2 by auto. reflexivity.
Qed.

(** * Progressive decoding *)
Definition fp (s : pst) : pst := mkPst (phi (p_dec s)) (p_st s) (p_buf s).
Definition Pp (s : pst) : Prop := L (p_dec s).
Notation simp := (simr fp Pp).
Lemma sim_getp {B} (k k' : decoder -> M pst B) : (forall d, L d -> simp (k d) (k' (phi d))) -> simp (bind getp k) (bind getp k').
Proof. intros H s Hs. exact (H (p_dec s) Hs s Hs). Qed.
Lemma sim_getps : simp getps getps. Proof. intros s Hs. split; auto. Qed.
Lemma sim_modps g : simp (modps g) (modps g). Proof. intros s Hs. split; auto. Qed.
Lemma sim_modp g : (forall d, L d -> L (g d) /\ g (phi d) = phi (g d)) -> simp (modp g) (modp g).
Proof. intros H s Hs. destruct (H _ Hs) as [H1 H2]. split; [exact H1|]. intros _. unfold modp, fp. cbn [p_dec p_st p_buf fst snd]. now rewrite H2. Qed.
Lemma sim_on_st {A} (m : M bst A) : simp (on_st m) (on_st m).
Proof. intros [d st b] Hs. unfold on_st, fp. cbn [p_dec p_st p_buf]. destruct (m st). split; auto. Qed.
Lemma sim_on_hd {A} (m : M hst A) : simh m m -> simp (on_hd m) (on_hd m).
Proof.
  intros H [d st b] Hs. unfold on_hd, fp. cbn [p_dec p_st p_buf]. destruct (H (mkHst d (b_rd st)) Hs) as [H1 H2].
  unfold fh in H2. cbn [hd_dec hd_rd] in H2. destruct (m (mkHst d (b_rd st))) as [r h]. cbn [fst snd p_dec p_st p_buf] in *.
  split; [exact H1|]. intros Hx. rewrite (H2 Hx). reflexivity.
Qed.
Lemma sim_on_dec {A} (m : M decoder A) : simd m m -> simp (on_dec m) (on_dec m).
Proof.
  intros H [d st b] Hs. unfold on_dec, fp. cbn [p_dec p_st p_buf]. destruct (H d Hs) as [H1 H2].
  destruct (m d) as [r d1]. cbn [fst snd p_dec p_st p_buf] in *. split; [exact H1|]. intros Hx. rewrite (H2 Hx). reflexivity.
Qed.
Lemma sim_count_restart_p : simp count_restart_p count_restart_p.
Proof.
  intros [d st b] Hs. unfold count_restart_p, fp. cbn [p_dec p_st p_buf].
  destruct (tick_phi d st) as [E1 E2]. rewrite E1. destruct (tick d st) as [[r d1] st1]. cbn [fst snd p_dec p_st p_buf] in *.
  split; [exact (E2 Hs)|auto].
Qed.
Lemma sim_get_marker : simp get_marker get_marker.
Proof.
  intros [d st b] Hs. unfold get_marker, fp. cbn [p_dec p_st p_buf]. destruct (b_marker st); [split; auto|].
  destruct (scan_marker _ _). split; auto.
Qed.
Lemma sim_put_block k a b : simp (put_block k a b) (put_block k a b).
Proof. intros [d st bf] Hs. unfold put_block, fp. cbn [p_dec p_st p_buf]. destruct (zget _ _); split; auto. Qed.
Lemma sim_get_block k a : simp (get_block k a) (get_block k a).
Proof. intros [d st bf] Hs. unfold get_block, fp. cbn [p_dec p_st p_buf]. destruct (zget _ _); [destruct (slice _ _ _)|]; split; auto. Qed.
Lemma sim_get_comp k : simp (get_comp k) (get_comp k).
Proof. unfold get_comp. apply sim_getp. intros d HL. sphi. apply sim_lift. Qed.
Lemma sim_set_pred k a : simp (set_pred k a) (set_pred k a).
Proof. apply sim_modp. smod. Qed.

Ltac pstep :=
  lazymatch goal with
  | |- simr _ _ (bind getp _) _ => apply sim_getp; let d := fresh "d" in let H := fresh "HL" in intros d H; sphi
  | |- simr _ _ getps _ => apply sim_getps
  | |- simr _ _ (modps _) _ => apply sim_modps
  | |- simr _ _ (modp _) _ => apply sim_modp; smod
  | |- simr _ _ (on_st _) _ => apply sim_on_st
  | |- simr _ _ count_restart_p _ => apply sim_count_restart_p
  | |- simr _ _ get_marker _ => apply sim_get_marker
  | |- simr _ _ (put_block _ _ _) _ => apply sim_put_block
  | |- simr _ _ (get_block _ _) _ => apply sim_get_block
  | |- simr _ _ (get_comp _) _ => apply sim_get_comp
  | |- simr _ _ (set_pred _ _) _ => apply sim_set_pred
  | |- simr _ _ (on_hd parse_huffman) _ => apply sim_on_hd, sim_parse_huffman
  | |- simr _ _ (on_hd parse_sos) _ => apply sim_on_hd, sim_parse_sos
  | _ => sstep
  end.
Ltac psteps := repeat pstep.
Lemma sim_prog_dc t k c : simp (prog_dc t k c) (prog_dc t k c).
Proof. unfold prog_dc. psteps. Qed.
Lemma sim_scan_blocks : forall fuel k w h i j, simp (scan_blocks fuel k w h i j) (scan_blocks fuel k w h i j).
Proof. induction fuel; intros; cbn [scan_blocks]; psteps; try apply sim_prog_dc; apply IHfuel. Qed.
Lemma sim_scan_dc_at t n c i j v h : simp (scan_dc_at t n c i j v h) (scan_dc_at t n c i j v h).
Proof.
  unfold scan_dc_at. cbv zeta. apply sim_get. intros s Hs. unfold fp at 1. cbn [p_dec p_st p_buf].
  apply sim_bind; [apply sim_lift|intros ch]. apply sim_bind; [apply sim_lift|intros co].
  apply sim_bind; [apply sim_prog_dc|intros a]. intros [d st bf] Hd. split; auto.
Qed.
Lemma sim_parse_entropy : simp parse_entropy_coded_data parse_entropy_coded_data.
Proof.
  unfold parse_entropy_coded_data, scan_dc_component. apply sim_getp. intros d HL. rewrite sim_check_dims.
  psteps; try apply sim_scan_blocks; apply sim_scan_dc_at.
Qed.
Lemma sim_scan_loop : forall fuel m seen, simp (scan_loop fuel m seen) (scan_loop fuel m seen).
Proof.
  induction fuel; intros m seen; cbn [scan_loop]; psteps; try apply sim_parse_entropy; try apply IHfuel.
  apply sim_guard.
  - psteps. apply IHfuel.
  - pose proof (ch_ms C _ HL0). cbn [d_opt set_d_opt]. lia.
  - intros E. destruct (ch_ex C E _ HL0) as (_ & _ & E1 & _). cbn [d_opt set_d_opt]. rewrite E1. auto.
Qed.
Lemma sim_finish_setup w : simd (finish_setup w) (finish_setup w).
Proof.
  unfold finish_setup. apply sim_bind; [apply sim_set_upsampling|intros _]. apply sim_get. intros d HL.
  change (d_ratio (phi d)) with (d_ratio d). change (d_incs (phi d)) with (d_incs d). change (d_inter (phi d)) with (d_inter d). cbv zeta.
  apply sim_bind.
  - destruct (_ && _); [|apply sim_ret]. apply sim_guard.
    + apply sim_bind; [|intros _; apply sim_ret]. unfold reset_grayscale_p.
      ssteps; try apply sim_set_comp0; apply sim_modifyd; smod.
    + apply (ch_st C _ HL).
    + intros E. destruct (ch_ex C E _ HL) as (_ & _ & _ & E1). unfold phi. cbn [d_opt set_d_opt]. rewrite E1. auto.
  - intros b. apply sim_get. intros d1 HL1. change (d_comps (phi d1)) with (d_comps d1).
    apply sim_bind; [apply sim_lift|intros c0]. cbv zeta. unfold capacity, extra_space. rewrite (sim_opt_cs d1 HL1).
    sphi. apply sim_ret.
Qed.
Lemma sim_finish w : simp (finish_progressive_decoding w) (finish_progressive_decoding w).
Proof.
  unfold finish_progressive_decoding. apply sim_bind; [apply sim_on_dec, sim_finish_setup|intros g].
  apply sim_get. intros [d st bf] Hs. unfold fp. cbn [p_dec p_st p_buf].
  change (prog_jobs g (phi d) bf) with (prog_jobs g d bf). unfold output_len. rewrite (sim_opt_cs d Hs).
  change (d_info (phi d)) with (d_info d). ssteps.
Qed.
Lemma sim_progressive_scans w : simp (progressive_scans w) (progressive_scans w).
Proof.
  unfold progressive_scans. psteps; [apply sim_parse_entropy|apply sim_scan_loop|apply sim_finish].
Qed.
Lemma alloc_phi n : forall i w h d b, alloc_blocks n i w h (d_comps (phi d)) b = alloc_blocks n i w h (d_comps d) b.
Proof. reflexivity. Qed.
Lemma sim_decode_progressive : simh decode_progressive decode_progressive.
Proof.
  intros [d rd] Hs. unfold decode_progressive, fh. cbn [hd_dec hd_rd]. cbv zeta.
  change (prog_counts (phi d)) with (prog_counts d). destruct (prog_counts d) as [w h].
  rewrite sim_check_dims. change (d_incs (phi d)) with (d_incs d). change (d_comps (phi d)) with (d_comps d).
  change (d_ah (phi d)) with (d_ah d). change (d_al (phi d)) with (d_al d). change (d_ss (phi d)) with (d_ss d). change (d_se (phi d)) with (d_se d).
  destruct (rbind _ _) as [buf| | |]; try (split; now auto).
  set (st := bst_new_progressive _ _ _ _ _).
  destruct (sim_progressive_scans w (mkPst d st buf) Hs) as [H1 H2]. unfold fp in H2. cbn [p_dec p_st p_buf] in H2.
  destruct (progressive_scans w (mkPst d st buf)) as [r s]. cbn [fst snd hd_dec hd_rd] in *. split; [exact H1|].
  intros Hx. rewrite (H2 Hx). reflexivity.
Qed.

Lemma sim_decode_internal : simh decode_internal decode_internal.
Proof.
  unfold decode_internal. apply sim_bind; [apply sim_headers|intros _]. sstep. destruct (d_prog d).
  - apply sim_decode_progressive.
  - apply sim_decode_baseline.
Qed.
Lemma sim_decode_buffer d buf : L d -> is_ok (fst (decode_buffer d buf)) \/ ex = true ->
  decode_buffer (phi d) buf = (fst (decode_buffer d buf), phi (snd (decode_buffer d buf))).
Proof.
  intros Hd Hx. unfold decode_buffer, on_buffer in *. destruct (sim_decode_internal (mkHst d buf) Hd) as [_ H].
  unfold fh in H. cbn [hd_dec hd_rd] in H. destruct (decode_internal (mkHst d buf)) as [r h]. cbn [fst snd] in *.
  rewrite (H Hx). reflexivity.
Qed.
Lemma sim_read_headers d buf : L d -> is_ok (fst (read_headers d buf)) \/ ex = true ->
  read_headers (phi d) buf = (fst (read_headers d buf), phi (snd (read_headers d buf))).
Proof.
  intros Hd Hx. unfold read_headers, on_buffer in *. destruct (sim_headers (mkHst d buf) Hd) as [_ H].
  unfold fh in H. cbn [hd_dec hd_rd] in H. destruct (decode_headers (mkHst d buf)) as [r h]. cbn [fst snd] in *.
  rewrite (H Hx). reflexivity.
Qed.
End Sim.
