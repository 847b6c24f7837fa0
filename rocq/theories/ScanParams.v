(** Executions of baseline decoding that differ only in the parameters of a scan header that
    matter to progressive decoding: the number and order of the components and the four numbers
    behind them. *)
From Coq Require Import ZArith String List Bool Lia.
From Coq Require Import ZifyBool ZifyNat ZifyN.
From Verif Require Import Base Types Huffman State Bitstream Headers Worker Mcu Decoder.
From Verif Require Import SpecSafe BaseFacts HeaderInv.
Import ListNotations.
Local Open Scope Z_scope.
Local Open Scope m_scope.
Ltac Zify.zify_post_hook ::= Z.div_mod_to_equations.

Record params : Type := mkParams { p_n : Z; p_zo : list Z; p_ss : Z; p_se : Z; p_ah : Z; p_al : Z }.
Definition phi (T : params) (r : decoder) : decoder :=
  mkDecoder (d_info r) (d_qt r) (d_dcts r) (d_acts r) (d_comps r) (d_hmax r) (d_vmax r) (d_mcuw r) (d_mcuh r) (d_mcux r) (d_mcuy r) (d_inter r)
    (d_ratio r) (d_incs r) (d_prog r) (p_ss T) (p_se T) (p_ah T) (p_al T) (p_n T) (d_idct r) (d_cc r) (p_zo T) (d_ri r) (d_todo r) (d_opt r) (d_isa r).
Definition params_of (d : decoder) : params := mkParams (d_nscans d) (d_zorder d) (d_ss d) (d_se d) (d_ah d) (d_al d).

(** Equal up to the contents of errors: the message about a bad Ah quotes the previous Al *)
Definition req {A} (r r' : res A) : Prop := match r, r' with Err _, Err _ => True | _, _ => r' = r end.
Lemma req_refl {A} (r : res A) : req r r. Proof. now destruct r. Qed.
Lemma req_ok {A} (r r' : res A) a : req r r' -> r = Ok a -> r' = Ok a. Proof. intros H ->. exact H. Qed.

Definition simr {S} (f : params -> S -> S) {A} (m m' : M S A) : Prop :=
  forall s T, exists r T', m' (f T s) = (r, f T' (snd (m s))) /\ req (fst (m s)) r.
Ltac same := eexists _, _; split; [reflexivity|apply req_refl].

Section Rules.
  Context {S : Type} (f : params -> S -> S).
  Notation simq := (simr f).
  Lemma sim_bind {A B} (m m' : M S A) (k k' : A -> M S B) :
    simq m m' -> (forall a, simq (k a) (k' a)) -> simq (bind m k) (bind m' k').
  Proof.
    intros Hm Hk s T. destruct (Hm s T) as (r' & T1 & H1 & H2). unfold bind. destruct (m s) as [r s1]. cbn [fst snd] in *.
    rewrite H1. destruct r as [a|e|p|], r' as [a'|e'|p'|]; cbn [req] in H2; try discriminate; cbn [fst snd].
    - injection H2 as ->. apply Hk.
    - eexists _, T1. split; [reflexivity|exact I].
    - injection H2 as ->. eexists _, T1. split; reflexivity.
    - eexists _, T1. split; reflexivity.
  Qed.
  Lemma sim_get {B} (k k' : S -> M S B) : (forall s T, simq (k s) (k' (f T s))) -> simq (bind get k) (bind get k').
  Proof. intros H s T. exact (H s T s T). Qed.
  Lemma sim_ret {A} (a : A) : simq (ret a) (ret a). Proof. intros s T. same. Qed.
  Lemma sim_fail {A} e e' : simq (@fail S A e) (fail e'). Proof. intros s T. eexists _, T. split; [reflexivity|exact I]. Qed.
  Lemma sim_panic {A} e : simq (@panic S A e) (panic e). Proof. intros s T. same. Qed.
  Lemma sim_fuel {A} : simq (@outoffuel S A) outoffuel. Proof. intros s T. same. Qed.
  Lemma sim_lift {A} (r : res A) : simq (lift r) (lift r). Proof. intros s T. eexists _, T. split; [reflexivity|apply req_refl]. Qed.
  Lemma sim_modify g : (forall s T, exists T', g (f T s) = f T' (g s)) -> simq (modify g) (modify g).
  Proof. intros H s T. destruct (H s T) as (T1 & H2). unfold modify. cbn [fst snd]. eexists _, T1. split; [now rewrite H2|reflexivity]. Qed.
  Lemma sim_mfor (b b' : Z -> M S unit) : (forall i, simq (b i) (b' i)) -> forall n i, simq (mfor n i b) (mfor n i b').
  Proof. intros H. induction n; intros i; cbn [mfor]; [apply sim_ret|]. apply sim_bind; auto. Qed.
  Lemma sim_mfor_break (b b' : Z -> M S bool) : (forall i, simq (b i) (b' i)) -> forall n i, simq (mfor_break n i b) (mfor_break n i b').
  Proof.
    intros H. induction n; intros i; cbn [mfor_break]; [apply sim_ret|]. apply sim_bind; auto.
    intros []; [apply IHn|apply sim_ret].
  Qed.
  Lemma sim_map_err {A} e (m m' : M S A) : simq m m' -> simq (map_err e m) (map_err e m').
  Proof.
    intros H s T. destruct (H s T) as (r' & T1 & H1 & H2). unfold map_err. destruct (m s) as [r s1]; cbn [fst snd] in *. rewrite H1.
    destruct r as [a|e1|p|], r' as [a'|e'|p'|]; cbn [req] in H2; try discriminate; try (injection H2 as ->);
      (eexists _, T1; split; [reflexivity|try reflexivity; exact I]).
  Qed.
End Rules.

(** * Headers *)
Definition fh T (s : hst) : hst := mkHst (phi T (hd_dec s)) (hd_rd s).
Notation simh := (simr fh).
Lemma sim_getd {B} (k k' : decoder -> M hst B) : (forall d T, simh (k d) (k' (phi T d))) -> simh (bind getd k) (bind getd k').
Proof. intros H s T. exact (H (hd_dec s) T s T). Qed.
Lemma sim_modd g : (forall d T, exists T', g (phi T d) = phi T' (g d)) -> simh (modd g) (modd g).
Proof.
  intros H s T. destruct (H (hd_dec s) T) as [T1 H2]. unfold modd, fh. cbn [fst snd hd_dec hd_rd].
  eexists _, T1. split; [now rewrite H2|reflexivity].
Qed.
Ltac same1 T := eexists _, T; split; [reflexivity|apply req_refl].
Lemma sim_byte : simh rd_byte rd_byte.
Proof. intros [d [|b t]] T; same1 T. Qed.
Lemma sim_u16 : simh rd_u16 rd_u16.
Proof. intros [d [|a [|b t]]] T; same1 T. Qed.
Lemma sim_exact n e : simh (rd_exact n e) (rd_exact n e).
Proof. intros [d rd] T. unfold rd_exact, fh. cbn [hd_rd hd_dec]. destruct (slice rd 0 n); same1 T. Qed.
Lemma sim_consume n : simh (consume n) (consume n).
Proof. intros [d rd] T. same1 T. Qed.
Lemma sim_fuelof : simh fuel_of fuel_of.
Proof. intros [d rd] T. same1 T. Qed.

Ltac sphi := unfold phi; cbn [d_info d_opt d_dcts d_acts d_comps d_hmax d_vmax d_mcuw d_mcuh d_mcux d_mcuy d_inter d_ratio d_incs d_prog
   d_qt d_idct d_cc d_ri d_todo d_isa].
Ltac smod := let d := fresh "d" in let T := fresh "T" in intros d T;
  match goal with |- exists T', ?a = _ => exists (params_of a); destruct d, T; reflexivity end.
Ltac sstep :=
  lazymatch goal with
  | |- simr _ (bind get _) _ => apply sim_get; let d := fresh "d" in let T := fresh "T" in intros d T; sphi
  | |- simr _ (bind getd _) _ => apply sim_getd; let d := fresh "d" in let T := fresh "T" in intros d T; sphi
  | |- simr _ (bind _ _) _ => apply sim_bind; [|intro]
  | |- simr _ (ret _) _ => apply sim_ret
  | |- simr _ (fail _) _ => apply sim_fail
  | |- simr _ (panic _) _ => apply sim_panic
  | |- simr _ outoffuel _ => apply sim_fuel
  | |- simr _ (lift _) _ => apply sim_lift
  | |- simr _ (map_err _ _) _ => apply sim_map_err
  | |- simr _ rd_byte _ => apply sim_byte
  | |- simr _ rd_u16 _ => apply sim_u16
  | |- simr _ (rd_exact _ _) _ => apply sim_exact
  | |- simr _ (consume _) _ => apply sim_consume
  | |- simr _ fuel_of _ => apply sim_fuelof
  | |- simr _ (modd _) _ => apply sim_modd; smod
  | |- simr _ (mfor _ _ _) _ => apply sim_mfor; intro
  | |- simr _ (mfor_break _ _ _) _ => apply sim_mfor_break; intro
  | |- simr _ (if ?b then _ else _) (if ?b then _ else _) => destruct b
  | |- simr _ (match ?x with _ => _ end) (match ?x with _ => _ end) => destruct x
  | |- simr _ (let _ := _ in _) _ => cbv zeta
  end.
Ltac ssteps := repeat sstep.

Lemma sim_dht_loop : forall fuel len, simh (dht_loop fuel len) (dht_loop fuel len).
Proof. induction fuel; intros len; cbn [dht_loop]; [ssteps|]. destruct (len <=? 16); ssteps; apply IHfuel. Qed.
Lemma sim_parse_huffman : simh parse_huffman parse_huffman.
Proof. unfold parse_huffman. ssteps. apply sim_dht_loop. Qed.
Lemma sim_dqt_loop : forall fuel len, simh (dqt_loop fuel len) (dqt_loop fuel len).
Proof. induction fuel; intros len; cbn [dqt_loop]; [ssteps|]. ssteps; try apply IHfuel. Qed.
Lemma sim_parse_dqt : simh parse_dqt parse_dqt.
Proof. unfold parse_dqt. ssteps. apply sim_dqt_loop. Qed.
Lemma sim_sos_components : forall n i seen, simh (sos_components n i seen) (sos_components n i seen).
Proof. induction n; intros i seen; cbn [sos_components]; ssteps; apply IHn. Qed.
Lemma sim_parse_sos : simh parse_sos parse_sos.
Proof. unfold parse_sos. ssteps. apply sim_sos_components. Qed.
Lemma sim_skip_segment e : simh (skip_segment e) (skip_segment e).
Proof. unfold skip_segment. ssteps. Qed.
Lemma sim_read_components : forall n, simh (read_components n) (read_components n).
Proof. induction n; cbn [read_components]; ssteps; apply IHn. Qed.
Lemma sim_sof_components : forall l, simh (sof_components l) (sof_components l).
Proof.
  induction l as [|c l IH]; cbn [sof_components]; [apply sim_ret|]. apply sim_bind; [|intros _; ssteps; apply IH].
  apply sim_modd. intros d T. exists T. unfold sof_geometry. sphi. cbv zeta. destruct (_ || _); reflexivity.
Qed.
Lemma sim_sof v : simh (parse_start_of_frame v) (parse_start_of_frame v).
Proof. unfold parse_start_of_frame. ssteps; first [apply sim_read_components|apply sim_sof_components]. Qed.
Lemma sim_marker m : simh (parse_marker_inner m) (parse_marker_inner m).
Proof.
  destruct m; cbn [parse_marker_inner];
  ssteps; first [apply sim_parse_dqt|apply sim_parse_huffman|apply sim_parse_sos|apply sim_skip_segment|apply sim_sof|idtac].
Qed.

(** * Set-up *)
Lemma phi_incs T d : d_incs (phi T d) = d_incs d. Proof. reflexivity. Qed.
Lemma phi_inter T d : d_inter (phi T d) = d_inter d. Proof. reflexivity. Qed.
Lemma phi_opt T d : d_opt (phi T d) = d_opt d. Proof. reflexivity. Qed.
Lemma phi_info T d : d_info (phi T d) = d_info d. Proof. reflexivity. Qed.
Lemma phi_comps T d : d_comps (phi T d) = d_comps d. Proof. reflexivity. Qed.
Lemma phi_counts T d : mcu_counts (phi T d) = mcu_counts d. Proof. reflexivity. Qed.
Lemma phi_geom w h b c T d : geom_of w h b c (phi T d) = geom_of w h b c d. Proof. reflexivity. Qed.
Notation simd := (simr phi).
Lemma sim_samplers u : simd (set_up_samplers u) (set_up_samplers u).
Proof.
  intros d T. unfold set_up_samplers. rewrite phi_comps. destruct (d_comps d); same1 T.
Qed.
Lemma sim_set_upsampling : simd set_upsampling set_upsampling.
Proof.
  unfold set_upsampling. ssteps; try apply sim_samplers; apply sim_modify; smod.
Qed.
Lemma sim_set_comp0 g : simd (set_comp0 g) (set_comp0 g).
Proof. intros d T. unfold set_comp0. rewrite phi_comps. destruct (d_comps d); same1 T. Qed.
Lemma sim_check_dims T d : check_component_dimensions (phi T d) = check_component_dimensions d.
Proof. reflexivity. Qed.
Lemma check_tables_phi T n : forall i d, check_tables_from n i (phi T d) = check_tables_from n i d.
Proof.
  induction n; intros i d; [reflexivity|]. cbn [check_tables_from].
  change (d_comps (phi T d)) with (d_comps d). change (d_dcts (phi T d)) with (d_dcts d). change (d_acts (phi T d)) with (d_acts d).
  destruct (at_ (d_comps d) i); try reflexivity. destruct (table_at _ _); [|reflexivity]. destruct (table_at _ _); [|reflexivity]. apply IHn.
Qed.
Lemma sim_reset_grayscale w : simd (reset_grayscale w) (reset_grayscale w).
Proof.
  unfold reset_grayscale. ssteps; try apply sim_set_comp0; try (apply sim_modify; smod).
Qed.
Lemma sim_baseline_setup : simd baseline_setup baseline_setup.
Proof.
  unfold baseline_setup. apply sim_get. intros d T. rewrite sim_check_dims. unfold check_tables. rewrite check_tables_phi, phi_incs, phi_inter.
  apply sim_bind; [apply sim_lift|intros _]. apply sim_bind; [apply sim_lift|intros _].
  apply sim_bind; [destruct (d_inter d); [apply sim_set_upsampling|apply sim_ret]|intros _].
  apply sim_get. clear d T. intros d T. rewrite phi_counts. destruct (mcu_counts d) as [[w h] b].
  rewrite phi_incs, phi_inter, phi_opt, phi_info.
  apply sim_bind.
  - destruct (_ && _); [|apply sim_ret]. destruct (o_strict _); [apply sim_fail|].
    cbv zeta. apply sim_bind; [apply sim_reset_grayscale|intros _; apply sim_ret].
  - intros [[w' h'] b']. apply sim_get. clear d T. intros d T. rewrite phi_comps.
    apply sim_bind; [apply sim_lift|intros c0]. cbv zeta. rewrite phi_geom. destruct (_ =? 0); [apply sim_panic|apply sim_ret].
Qed.
Lemma tick_phi T d st : tick (phi T d) st = (let '(r, d1, st1) := tick d st in (r, phi T d1, st1)).
Proof.
  unfold tick, handle_rst. cbv zeta. change (d_todo (phi T d)) with (d_todo d). cbn [d_todo set_d_todo].
  destruct (_ =? 0); [|reflexivity]. destruct (b_marker st) as [[]|]; reflexivity.
Qed.

(** * The baseline loop *)
Definition fm T (s : mst) : mst := mkMst (phi T (m_dec s)) (m_st s) (m_tmp s) (m_jobs s).
Notation simm := (simr fm).
Lemma sim_getm {B} (k k' : decoder -> M mst B) : (forall d T, simm (k d) (k' (phi T d))) -> simm (bind getm k) (bind getm k').
Proof. intros H s T. exact (H (m_dec s) T s T). Qed.
Lemma sim_gets {B} (k k' : bst -> M mst B) : (forall st, simm (k st) (k' st)) -> simm (bind gets k) (bind gets k').
Proof. intros H s T. exact (H (m_st s) s T). Qed.
Lemma sim_count_restart : simm count_restart count_restart.
Proof.
  intros [d st tmp jobs] T. unfold count_restart, fm. cbn [m_dec m_st m_tmp m_jobs]. rewrite tick_phi.
  destruct (tick d st) as [[r d1] st1]. same1 T.
Qed.
Lemma sim_parse_in_scan m : simm (parse_in_scan m) (parse_in_scan m).
Proof.
  intros [d st tmp jobs] T. unfold parse_in_scan, fm. cbn [m_dec m_st m_tmp m_jobs].
  destruct (sim_marker m (mkHst d (b_rd st)) T) as (r' & T1 & H1 & H2). unfold fh in H1. cbn [hd_dec hd_rd] in H1.
  destruct (parse_marker_inner m (mkHst d (b_rd st))) as [r h]. cbn [fst snd m_dec m_st m_tmp m_jobs] in *.
  exists r', T1. rewrite H1. split; [reflexivity|exact H2].
Qed.
Lemma sim_decode_block g c t1 t2 pos v j vs hs : simm (decode_block g c t1 t2 pos v j vs hs) (decode_block g c t1 t2 pos v j vs hs).
Proof.
  intros [d st tmp jobs] T. unfold decode_block, fm. cbn [m_dec m_st m_tmp m_jobs]. change (d_opt (phi T d)) with (d_opt d).
  change (d_comps (phi T d)) with (d_comps d). cbv zeta.
  destruct (_ <=? _).
  - destruct (zget tmp pos); [|same1 T]. destruct (slice _ _ _); [|same1 T].
    destruct (decode_mcu_block _ _ _ _ _) as [[[] st1] dc1]; same1 T.
  - destruct (decode_mcu_block _ _ _ _ _) as [[[] st1] dc1]; same1 T.
Qed.
Lemma sim_mcu_component g v j pos : simm (mcu_component g v j pos) (mcu_component g v j pos).
Proof.
  unfold mcu_component, decode_component. apply sim_getm. intros d T.
  change (d_comps (phi T d)) with (d_comps d). change (d_dcts (phi T d)) with (d_dcts d). change (d_acts (phi T d)) with (d_acts d).
  apply sim_bind; [apply sim_lift|intros c].
  destruct (table_at _ _); [|apply sim_fail]. destruct (table_at _ _); [|apply sim_fail].
  apply sim_bind; [apply sim_mfor; intros i; apply sim_mfor; intros x; apply sim_decode_block|intros _]. apply sim_bind; [apply sim_count_restart|intros _].
  apply sim_gets. intros st. destruct (b_marker st) as [m|]; [|apply sim_ret].
  assert (simm (parse_in_scan m ;;; ret true) (parse_in_scan m ;;; ret true)) by (apply sim_bind; [now apply sim_parse_in_scan|intros; apply sim_ret]).
  destruct m; first [assumption|apply sim_ret].
Qed.
Lemma sim_decode_row g : simm (decode_row g) (decode_row g).
Proof.
  unfold decode_row, decode_mcu. apply sim_getm. intros d T. change (d_opt (phi T d)) with (d_opt d). change (d_comps (phi T d)) with (d_comps d).
  apply sim_bind; [apply sim_lift|intros tmp]. apply sim_bind; [apply sim_modify; intros s T1; now exists T1|intros _].
  apply sim_bind.
  - apply sim_mfor. intros i. apply sim_mfor. intros j. apply sim_getm. intros d1 T1. change (d_incs (phi T1 d1)) with (d_incs d1).
    apply sim_mfor_break. intros. apply sim_mcu_component.
  - intros _ [d1 st tmp1 jobs] T1. unfold fm. cbn [m_dec m_st m_tmp m_jobs]. destruct (_ <=? _); same1 T1.
Qed.
Lemma params_baseline T d rd : req (fst (decode_baseline (mkHst d rd))) (fst (decode_baseline (mkHst (phi T d) rd))).
Proof.
  unfold decode_baseline. cbn [hd_dec hd_rd].
  destruct (sim_baseline_setup d T) as (r' & T1 & H1 & H2). rewrite H1. destruct (baseline_setup d) as [r d1]; cbn [fst snd] in *.
  destruct r as [g|e|p|], r' as [g'|e'|p'|]; cbn [req] in H2; try discriminate; try exact I; try (injection H2 as ->); try reflexivity.
  assert (Hr : simm (decode_rows g) (decode_rows g)) by (unfold decode_rows; apply sim_mfor; intros; apply sim_decode_row).
  destruct (Hr (mkMst d1 (bst_new rd) [] []) T1) as (r & T2 & G1 & G2). unfold fm in G1. cbn [m_dec m_st m_tmp m_jobs] in G1.
  rewrite G1. destruct (decode_rows g (mkMst d1 (bst_new rd) [] [])) as [r1 s1]. cbn [fst snd m_jobs m_dec] in *.
  change (output_len (phi T2 (m_dec s1))) with (output_len (m_dec s1)).
  destruct r1, r; cbn [req] in G2; try discriminate; try (injection G2 as ->); try reflexivity; destruct (run_jobs g _); try reflexivity; exact I.
Qed.

(** * The file *)
From Verif Require Import SpecSegments SpecFile SpecScanHeader Session ApiFacts HeaderFacts Keeps HeaderReads HeaderItems OrderFacts.

Lemma sos_comps_prefix : forall n i seen sel d, length sel = (2 * n)%nat ->
  (exists d', d_prog d' = d_prog d /\ forall x, sos_components n i seen (mkHst d (sel ++ x)) = (Ok tt, mkHst d' x)) \/
  (forall x, fst (sos_components n i seen (mkHst d (sel ++ x))) <> Ok tt).
Proof.
  induction n; intros i seen sel d Hl.
  - destruct sel; [|discriminate]. left. exists d. split; reflexivity.
  - destruct sel as [|id [|y sel]]; [discriminate|cbn [length] in Hl; lia|]. cbn [length] in Hl.
    cbn [sos_components app]. unfold rd_byte, getd, bind, lift, modd, fail. cbn [hd_dec hd_rd].
    destruct (_ <? _); [right; intros x; discriminate|].
    destruct (at_ seen id) as [[]| | |]; try (right; intros x; discriminate).
    destruct (find_component _ _ _ _) as [[j|]| | |]; try (right; intros x; discriminate).
    destruct (at_ (d_comps d) j) as [c| | |]; try (right; intros x; discriminate).
    cbn [hd_dec hd_rd]. match goal with |- context [sos_components n ?i' ?s' (mkHst ?d' (sel ++ _))] => destruct (IHn i' s' sel d') as [(d1 & H0 & H1)|H1]; [lia| |] end.
    + left. exists d1. split; [exact H0|exact H1].
    + right. exact H1.
Qed.
Lemma parse_sos_params d ns sel t : byte ns -> Forall byte sel -> fits (ns :: sel ++ [0; 0; 0]) ->
  (exists d', d_prog d' = d_prog d /\ forall ss se ah al, 0 <= ah <= 13 -> 0 <= al <= 13 -> exists T,
     parse_sos (mkHst d (segment (ns :: sel ++ [ss; se; 16 * ah + al]) ++ t)) = (Ok tt, mkHst (phi T d') t)) \/
  (forall ss se ah al, fst (parse_sos (mkHst d (segment (ns :: sel ++ [ss; se; 16 * ah + al]) ++ t))) <> Ok tt).
Proof.
  intros Hn Hs Hf. unfold fits, blen in Hf. cbn [length] in Hf. rewrite app_length in Hf. cbn [length] in Hf.
  set (L := Z.of_nat (length sel) + 6).
  assert (Eb : forall a b c x, (segment (ns :: sel ++ [a; b; c]) ++ x)%list = L / 256 :: L mod 256 :: ns :: (sel ++ a :: b :: c :: x)%list).
  { intros a b c x. unfold segment, be16, blen. cbn [length app]. rewrite app_length. cbn [length].
    replace (2 + Z.of_nat (S (length sel + 3))) with L by (unfold L; lia). rewrite <- app_assoc. reflexivity. }
  assert (EL : 256 * (L / 256) + L mod 256 = L) by (clear; lia).
  unfold parse_sos.
  assert (Eu : forall x d, rd_u16 (mkHst d (L / 256 :: L mod 256 :: x)) = (Ok L, mkHst d x)).
  { intros x d0. unfold rd_u16. cbn [hd_rd hd_dec]. replace (L / 256 * 256 + L mod 256) with L by lia. reflexivity. }
  destruct (L =? 6 + 2 * ns) eqn:E1; cycle 1.
  { right. intros. rewrite Eb. unfold bind at 1. rewrite Eu. unfold bind, rd_byte, modd. cbn [hd_rd hd_dec]. rewrite E1. discriminate. }
  destruct ((1 <=? ns) && (ns <? 4)) eqn:E2; cycle 1.
  { right. intros. rewrite Eb. unfold bind at 1. rewrite Eu. unfold bind, rd_byte, modd. cbn [hd_rd hd_dec]. rewrite E1, E2. discriminate. }
  destruct (i_comps (d_info d) =? 0) eqn:E3.
  { right. intros. rewrite Eb. unfold bind at 1. rewrite Eu. unfold bind, rd_byte, modd, getd. cbn [hd_rd hd_dec]. rewrite E1, E2.
    cbn [negb hd_dec hd_rd]. change (d_info (set_d_nscans ns d)) with (d_info d). rewrite E3. discriminate. }
  destruct (sos_comps_prefix (Z.to_nat ns) 0 [false; false; false; false] sel (set_d_nscans ns d)) as [(d' & Hp & H1)|H1]; [unfold L in E1; lia| |].
  - left. exists d'. split; [exact Hp|]. intros ss se ah al Ha Hl. eexists (mkParams _ _ _ _ _ _).
    rewrite Eb. unfold bind at 1. rewrite Eu. unfold bind, rd_byte, modd, getd. cbn [hd_rd hd_dec]. rewrite E1, E2.
    cbn [negb hd_dec hd_rd]. change (d_info (set_d_nscans ns d)) with (d_info d). rewrite E3. rewrite H1. cbn [hd_rd hd_dec].
    assert (Ea : shr (16 * ah + al) 4 = ah) by (unfold shr; change (2 ^ 4) with 16; clear - Hl; lia). rewrite Ea.
    assert (Eal : Z.land (16 * ah + al) 15 = al).
    { change 15 with (Z.ones 4). rewrite Z.land_ones by lia. change (2 ^ 4) with 16. clear - Hl; lia. }
    rewrite Eal. replace (13 <? ah) with false by lia. replace (13 <? al) with false by lia. reflexivity.
  - right. intros ss se ah al. rewrite Eb. unfold bind at 1. rewrite Eu. unfold bind, rd_byte, modd, getd. cbn [hd_rd hd_dec]. rewrite E1, E2.
    cbn [negb hd_dec hd_rd]. change (d_info (set_d_nscans ns d)) with (d_info d). rewrite E3.
    specialize (H1 (ss :: se :: 16 * ah + al :: t)). destruct (sos_components _ _ _ _) as [[[]| | |] s]; try discriminate. now destruct H1.
Qed.

Lemma phi_phi T T' d : phi T (phi T' d) = phi T d.
Proof. reflexivity. Qed.
Lemma sos_loop l b d p t : hinv d -> Forall byte (segment p ++ t) -> l <> 255 -> b <= 2 ->
  loopz l b d (mseg_bytes (218, p) ++ t) = parse_sos (mkHst d (segment p ++ t)).
Proof.
  intros Hi Hb Hl Hb2. unfold mseg_bytes. cbn [fst snd app].
  rewrite loopz_ff; auto; [|constructor; [unfold byte; lia|constructor; [unfold byte; lia|exact Hb]]]. unfold loopz. rewrite header_loop_eq. cbn [hd_rd hd_dec]. cbv zeta.
  change (255 =? 255) with true. cbv iota. unfold bind. change (218 =? 218) with true. cbv iota.
  change (marker_body 218) with parse_sos. destruct (parse_sos _) as [[[]| | |] s]; reflexivity.
Qed.
Lemma scan_params cpu o l ns sel ss se ah al ss' se' ah' al' t px : Forall header_seg l -> Forall (fun s => fst s <> 194) l ->
  byte ns -> Forall byte sel -> fits (ns :: sel ++ [0; 0; 0]) -> byte ss -> byte se -> 0 <= ah <= 13 -> 0 <= al <= 13 ->
  byte ss' -> byte se' -> 0 <= ah' <= 13 -> 0 <= al' <= 13 -> Forall byte t ->
  let d := new_with_options cpu o in
  fst (decode_buffer d ([255; 216] ++ msegs_bytes l ++ mseg_bytes (scan_seg ns sel ss se ah al) ++ t)) = Ok px ->
  fst (decode_buffer d ([255; 216] ++ msegs_bytes l ++ mseg_bytes (scan_seg ns sel ss' se' ah' al') ++ t)) = Ok px.
Proof.
  intros Hl Hp Hn Hs Hf B1 B2 B3 B4 B5 B6 B7 B8 Ht d.
  assert (Hi : hinv d) by exact (after_inv cpu o [] (Forall_nil _)).
  unfold decode_buffer. rewrite !on_buffer_eq. cbn [fst app].
  assert (Hb : forall a b c e, byte a -> byte b -> 0 <= c <= 13 -> 0 <= e <= 13 ->
    Forall byte (segment (ns :: sel ++ [a; b; 16 * c + e]) ++ t)).
  { intros a b c e Ha Hb Hc He. apply segment_app; auto.
    - constructor; [exact Hn|]. apply Forall_app. split; [exact Hs|]. repeat constructor; unfold byte in *; lia.
    - clear - Hf. unfold fits, blen in *. cbn [length] in *. rewrite app_length in *. exact Hf. }
  assert (Hm : forall p, Forall byte (segment p ++ t) -> Forall byte (mseg_bytes (218, p) ++ t)).
  { intros p H. unfold mseg_bytes. cbn [fst snd app]. constructor; [unfold byte; lia|constructor; [unfold byte; lia|exact H]]. }
  destruct (items_cases (fun a b => d_prog b = d_prog a) (fun _ => eq_refl) (fun a b c H H' => eq_trans H' H) l Hl
    ltac:(intros [m q] d0 t0 Hin _; cbn [fst]; apply keeps_marker_prog; exact (proj1 (Forall_forall _ _) Hp _ Hin))
    0 0 d _ _ Hi ltac:(lia) ltac:(lia) (Hm _ (Hb ss se ah al B1 B2 B3 B4)) (Hm _ (Hb ss' se' ah' al' B5 B6 B7 B8)) ltac:(discriminate) ltac:(discriminate))
    as [(d0 & l' & b' & Hi0 & Hl' & Hb' & Hpr & Ea & Eb)|[Ha _]].
  2:{ rewrite <- decode_headers_soi in Ha. intros E. exfalso. now apply (decode_internal_no_ok _ Ha) in E. }
  rewrite sos_loop in Ea by auto. rewrite sos_loop in Eb by auto. rewrite <- decode_headers_soi in Ea, Eb.
  change d with (new_with_options cpu o) in Hpr. change (d_prog (new_with_options cpu o)) with false in Hpr.
  unfold decode_internal. unfold bind at 1 3. unfold scan_seg. rewrite Ea, Eb.
  destruct (parse_sos_params d0 ns sel t Hn Hs Hf) as [(d' & Hp' & H1)|H1].
  - destruct (H1 ss se ah al B3 B4) as [T ->]. destruct (H1 ss' se' ah' al' B7 B8) as [T' ->].
    unfold bind, getd. cbn [hd_dec]. change (d_prog (phi T d')) with (d_prog d'). change (d_prog (phi T' d')) with (d_prog d').
    rewrite Hp', Hpr. intros E. pose proof (params_baseline T' (phi T d') t) as H. rewrite phi_phi in H. now apply (req_ok _ _ _ H).
  - specialize (H1 ss se ah al). destruct (parse_sos _) as [[[]| | |] s]; try discriminate. now destruct H1.
Qed.
