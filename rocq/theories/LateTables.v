(** Executions that differ only in the quantization tables received: they are used by frame
    headers only. *)
From Coq Require Import ZArith String List Bool Lia.
From Coq Require Import ZifyBool ZifyNat ZifyN.
From Verif Require Import Base Types Huffman State Bitstream Headers Worker Mcu McuProg Decoder.
From Verif Require Import SpecSafe BlockSafe BaseFacts HeaderInv NoPanic.
Import ListNotations.
Local Open Scope Z_scope.
Local Open Scope m_scope.
Ltac Zify.zify_post_hook ::= Z.div_mod_to_equations.

Definition tables : Type := list (option (list Z)).
Section Late.
(** a property of the bytes still to be read *)
Variable R : list Z -> Prop.
Hypothesis Rs : forall a b, suffix a b -> R b -> R a.

Definition phi (T : tables) (d : decoder) : decoder := set_d_qt T d.

Definition simr {S} (f : tables -> S -> S) (P : S -> Prop) {A} (m m' : M S A) : Prop :=
  forall s T, P s -> P (snd (m s)) /\ exists T', m' (f T s) = (fst (m s), f T' (snd (m s))).

Section Rules.
  Context {S : Type} (f : tables -> S -> S) (P : S -> Prop).
  Lemma sim_bind {A B} (m m' : M S A) (k k' : A -> M S B) :
    simr f P m m' -> (forall a, simr f P (k a) (k' a)) -> simr f P (bind m k) (bind m' k').
  Proof.
    intros Hm Hk s T Hs. destruct (Hm s T Hs) as [H1 (T1 & H2)]. unfold bind. destruct (m s) as [r s1]. cbn [fst snd] in *.
    rewrite H2. destruct r as [a| | |]; cbn [fst snd] in *; try (split; [exact H1|now exists T1]). apply Hk, H1.
  Qed.
  Lemma sim_get {B} (k k' : S -> M S B) : (forall s T, P s -> simr f P (k s) (k' (f T s))) -> simr f P (bind get k) (bind get k').
  Proof. intros H s T Hs. exact (H s T Hs s T Hs). Qed.
  Lemma sim_ret {A} (a : A) : simr f P (ret a) (ret a). Proof. intros s T Hs. split; [auto|now exists T]. Qed.
  Lemma sim_fail {A} e : simr f P (@fail S A e) (fail e). Proof. intros s T Hs. split; [auto|now exists T]. Qed.
  Lemma sim_panic {A} e : simr f P (@panic S A e) (panic e). Proof. intros s T Hs. split; [auto|now exists T]. Qed.
  Lemma sim_fuel {A} : simr f P (@outoffuel S A) outoffuel. Proof. intros s T Hs. split; [auto|now exists T]. Qed.
  Lemma sim_lift {A} (r : res A) : simr f P (lift r) (lift r). Proof. intros s T Hs. split; [auto|now exists T]. Qed.
  Lemma sim_modify g : (forall s T, P s -> P (g s) /\ exists T', g (f T s) = f T' (g s)) -> simr f P (modify g) (modify g).
  Proof. intros H s T Hs. destruct (H s T Hs) as [H1 (T1 & H2)]. unfold modify. cbn [fst snd]. split; [exact H1|]. exists T1. now rewrite H2. Qed.
  Lemma sim_mfor (b b' : Z -> M S unit) : (forall i, simr f P (b i) (b' i)) -> forall n i, simr f P (mfor n i b) (mfor n i b').
  Proof. intros H. induction n; intros i; cbn [mfor]; [apply sim_ret|]. apply sim_bind; auto. Qed.
  Lemma sim_mfor_break (b b' : Z -> M S bool) : (forall i, simr f P (b i) (b' i)) -> forall n i, simr f P (mfor_break n i b) (mfor_break n i b').
  Proof.
    intros H. induction n; intros i; cbn [mfor_break]; [apply sim_ret|]. apply sim_bind; auto.
    intros []; [apply IHn|apply sim_ret].
  Qed.
  Lemma sim_map_err {A} e (m m' : M S A) : simr f P m m' -> simr f P (map_err e m) (map_err e m').
  Proof.
    intros H s T Hs. destruct (H s T Hs) as [H1 (T1 & H2)]. unfold map_err. destruct (m s) as [r s1]; cbn [fst snd] in *. rewrite H2.
    destruct r; (split; [exact H1|now exists T1]).
  Qed.
End Rules.

(** * Headers *)
Definition fh T (s : hst) : hst := mkHst (phi T (hd_dec s)) (hd_rd s).
Definition Ph (s : hst) : Prop := R (hd_rd s).
Notation simh := (simr fh Ph).

Lemma sim_getd {B} (k k' : decoder -> M hst B) : (forall d T, simh (k d) (k' (phi T d))) -> simh (bind getd k) (bind getd k').
Proof. intros H s T Hs. exact (H (hd_dec s) T s T Hs). Qed.
Lemma sim_modd g : (forall d T, exists T', g (phi T d) = phi T' (g d)) -> simh (modd g) (modd g).
Proof.
  intros H s T Hs. destruct (H (hd_dec s) T) as [T1 H2]. unfold modd, fh. cbn [fst snd hd_dec hd_rd]. split; [exact Hs|].
  exists T1. now rewrite H2.
Qed.
Ltac same := split; [assumption|eexists; reflexivity].
Lemma sim_byte : simh rd_byte rd_byte.
Proof.
  intros [d [|b t]] T Hs; [same|]. split; [|eexists; reflexivity]. unfold Ph in *. cbn [rd_byte snd hd_rd] in *.
  eapply Rs; [|exact Hs]. now exists [b].
Qed.
Lemma sim_u16 : simh rd_u16 rd_u16.
Proof.
  intros [d [|a [|b t]]] T Hs; (split; [|eexists; reflexivity]); unfold Ph in *; cbn in *; auto; (eapply Rs; [|exact Hs]); [exists [a]|exists [a; b]]; now rewrite ?app_nil_r.
Qed.
Lemma suffix_skipn n (l : list Z) : suffix (skipn n l) l.
Proof. exists (firstn n l). now rewrite firstn_skipn. Qed.
Lemma sim_exact n e : simh (rd_exact n e) (rd_exact n e).
Proof.
  intros [d rd] T Hs. unfold rd_exact, fh, Ph in *. cbn [hd_rd hd_dec]. destruct (slice rd 0 n); (split; [|now exists T]); cbn [snd hd_rd] in *; auto.
  eapply Rs; [apply suffix_skipn|exact Hs].
Qed.
Lemma sim_consume n : simh (consume n) (consume n).
Proof. intros [d rd] T Hs. split; [|now exists T]. unfold Ph in *. cbn [consume snd hd_rd] in *. eapply Rs; [apply suffix_skipn|exact Hs]. Qed.
Lemma sim_fuelof : simh fuel_of fuel_of.
Proof. intros [d rd] T Hs. split; [auto|now exists T]. Qed.

Ltac sphi := unfold phi; cbn [d_info d_opt d_dcts d_acts d_comps d_hmax d_vmax d_mcuw d_mcuh d_mcux d_mcuy d_inter d_ratio d_incs d_prog
   d_ss d_se d_ah d_al d_nscans d_idct d_cc d_zorder d_ri d_todo d_isa set_d_qt].
Ltac smod := let d := fresh "d" in let T := fresh "T" in intros d T; eexists; reflexivity.
Ltac sstep :=
  lazymatch goal with
  | |- simr _ _ (bind get _) _ => apply sim_get; let d := fresh "d" in let T := fresh "T" in let H := fresh "HL" in intros d T H; sphi
  | |- simr _ _ (bind getd _) _ => apply sim_getd; let d := fresh "d" in let T := fresh "T" in intros d T; sphi
  | |- simr _ _ (bind _ _) _ => apply sim_bind; [|intro]
  | |- simr _ _ (ret _) _ => apply sim_ret
  | |- simr _ _ (fail _) _ => apply sim_fail
  | |- simr _ _ (panic _) _ => apply sim_panic
  | |- simr _ _ outoffuel _ => apply sim_fuel
  | |- simr _ _ (lift _) _ => apply sim_lift
  | |- simr _ _ (map_err _ _) _ => apply sim_map_err
  | |- simr _ _ rd_byte _ => apply sim_byte
  | |- simr _ _ rd_u16 _ => apply sim_u16
  | |- simr _ _ (rd_exact _ _) _ => apply sim_exact
  | |- simr _ _ (consume _) _ => apply sim_consume
  | |- simr _ _ fuel_of _ => apply sim_fuelof
  | |- simr _ _ (modd _) _ => apply sim_modd; smod
  | |- simr _ _ (mfor _ _ _) _ => apply sim_mfor; intro
  | |- simr _ _ (mfor_break _ _ _) _ => apply sim_mfor_break; intro
  | |- simr _ _ (if ?b then _ else _) (if ?b then _ else _) => destruct b
  | |- simr _ _ (match ?x with _ => _ end) (match ?x with _ => _ end) => destruct x
  | |- simr _ _ (let _ := _ in _) _ => cbv zeta
  end.
Ltac ssteps := repeat sstep.

Lemma sim_dht_loop : forall fuel len, simh (dht_loop fuel len) (dht_loop fuel len).
Proof. induction fuel; intros len; cbn [dht_loop]; [ssteps|]. destruct (len <=? 16); ssteps; apply IHfuel. Qed.
Lemma sim_parse_huffman : simh parse_huffman parse_huffman.
Proof. unfold parse_huffman. ssteps. apply sim_dht_loop. Qed.
Lemma sim_dqt_loop : forall fuel len, simh (dqt_loop fuel len) (dqt_loop fuel len).
Proof.
  induction fuel; intros len; cbn [dqt_loop]; [ssteps|]. ssteps; try apply IHfuel.
Qed.
Lemma sim_parse_dqt : simh parse_dqt parse_dqt.
Proof. unfold parse_dqt. ssteps. apply sim_dqt_loop. Qed.
Lemma sim_sos_components : forall n i seen, simh (sos_components n i seen) (sos_components n i seen).
Proof. induction n; intros i seen; cbn [sos_components]; ssteps; apply IHn. Qed.
Lemma sim_parse_sos : simh parse_sos parse_sos.
Proof. unfold parse_sos. ssteps. apply sim_sos_components. Qed.
Lemma sim_skip_segment e : simh (skip_segment e) (skip_segment e).
Proof. unfold skip_segment. ssteps. Qed.
Lemma sim_marker m : ~ is_sof m -> simh (parse_marker_inner m) (parse_marker_inner m).
Proof.
  intros Hm. destruct m; cbn [parse_marker_inner is_sof] in *; try tauto;
  ssteps; first [apply sim_parse_dqt|apply sim_parse_huffman|apply sim_parse_sos|apply sim_skip_segment|idtac].
Qed.

(** * Set-up *)
Definition Pd (d : decoder) : Prop := True.
Notation simd := (simr phi Pd).
Lemma sim_modifyd g : (forall d T, exists T', g (phi T d) = phi T' (g d)) -> simd (modify g) (modify g).
Proof. intros H. apply sim_modify. intros d T _. split; [exact I|apply H]. Qed.
Lemma sim_samplers u : simd (set_up_samplers u) (set_up_samplers u).
Proof.
  intros d T Hd. unfold set_up_samplers, phi. cbn [d_comps set_d_qt]. destruct (d_comps d); (split; [exact I|now exists T]).
Qed.
Lemma sim_set_upsampling : simd set_upsampling set_upsampling.
Proof.
  unfold set_upsampling. ssteps; try apply sim_samplers; apply sim_modifyd; smod.
Qed.
Lemma sim_set_comp0 g : simd (set_comp0 g) (set_comp0 g).
Proof. intros d T Hd. unfold set_comp0, phi. cbn [d_comps set_d_qt]. destruct (d_comps d); (split; [exact I|now exists T]). Qed.
Lemma sim_check_dims T d : check_component_dimensions (phi T d) = check_component_dimensions d.
Proof. reflexivity. Qed.
Lemma check_tables_phi T n : forall i d, check_tables_from n i (phi T d) = check_tables_from n i d.
Proof.
  induction n; intros i d; [reflexivity|]. cbn [check_tables_from]. unfold phi at 1 2 3. cbn [d_comps d_dcts d_acts set_d_qt].
  destruct (at_ (d_comps d) i); try reflexivity. destruct (table_at _ _); [|reflexivity]. destruct (table_at _ _); [|reflexivity]. apply IHn.
Qed.
Lemma sim_reset_grayscale w : simd (reset_grayscale w) (reset_grayscale w).
Proof.
  unfold reset_grayscale. ssteps; try apply sim_set_comp0; try (apply sim_modifyd; smod).
Qed.
Lemma sim_baseline_setup : simd baseline_setup baseline_setup.
Proof.
  unfold baseline_setup. apply sim_get. intros d T HL. rewrite sim_check_dims. unfold check_tables. rewrite check_tables_phi.
  change (d_incs (phi T d)) with (d_incs d). change (d_inter (phi T d)) with (d_inter d).
  apply sim_bind; [apply sim_lift|intros _]. apply sim_bind; [apply sim_lift|intros _].
  apply sim_bind; [destruct (d_inter d); [apply sim_set_upsampling|apply sim_ret]|intros _].
  apply sim_get. clear d T HL. intros d T HL. change (mcu_counts (phi T d)) with (mcu_counts d). destruct (mcu_counts d) as [[w h] b].
  change (d_incs (phi T d)) with (d_incs d). change (d_inter (phi T d)) with (d_inter d). change (d_opt (phi T d)) with (d_opt d). change (d_info (phi T d)) with (d_info d).
  apply sim_bind.
  - destruct (_ && _); [|apply sim_ret]. destruct (o_strict _); [apply sim_fail|].
    cbv zeta. apply sim_bind; [apply sim_reset_grayscale|intros _; apply sim_ret].
  - intros [[w' h'] b']. apply sim_get. clear d T HL. intros d T HL. change (d_comps (phi T d)) with (d_comps d).
    apply sim_bind; [apply sim_lift|intros c0]. cbv zeta. change (geom_of w' h' b' c0 (phi T d)) with (geom_of w' h' b' c0 d). ssteps.
Qed.

Lemma tick_phi T d st : tick (phi T d) st = (let '(r, d1, st1) := tick d st in (r, phi T d1, st1)).
Proof.
  unfold tick. change (d_todo (phi T d)) with (d_todo d). cbv zeta.
  change (d_todo (set_d_todo (u64 (d_todo d - 1)) (phi T d))) with (d_todo (set_d_todo (u64 (d_todo d - 1)) d)).
  destruct (_ =? 0); [|reflexivity]. unfold handle_rst. cbv zeta.
  destruct (b_marker st) as [[]|]; auto.
Qed.

(** * Progressive decoding *)
Definition fp T (s : pst) : pst := mkPst (phi T (p_dec s)) (p_st s) (p_buf s).
Definition Pp (s : pst) : Prop := R (b_rd (p_st s)).
End Late.

(** The progressive scans never parse a frame header, so nothing is asked of the data *)
Section Prog.
Let R (l : list Z) : Prop := True.
Let Rs : forall a b, suffix a b -> R b -> R a. Proof. unfold R. auto. Qed.
Let Pq (s : pst) : Prop := True.
Notation simp := (simr fp Pq).
Notation simh := (simr fh (Ph R)).
Notation simd := (simr phi Pd).
Ltac sphi := unfold phi; cbn [d_info d_opt d_dcts d_acts d_comps d_hmax d_vmax d_mcuw d_mcuh d_mcux d_mcuy d_inter d_ratio d_incs d_prog
   d_ss d_se d_ah d_al d_nscans d_idct d_cc d_zorder d_ri d_todo d_isa set_d_qt].
Ltac smod := let d := fresh "d" in let T := fresh "T" in intros d T; eexists; reflexivity.
Lemma sim_getp {B} (k k' : decoder -> M pst B) : (forall d T, simp (k d) (k' (phi T d))) -> simp (bind getp k) (bind getp k').
Proof. intros H s T Hs. exact (H (p_dec s) T s T Hs). Qed.
Lemma sim_getps : simp getps getps. Proof. intros s T Hs. split; [auto|now exists T]. Qed.
Lemma sim_modps g : simp (modps g) (modps g). Proof. intros s T Hs. split; [exact I|now exists T]. Qed.
Lemma sim_modp g : (forall d T, exists T', g (phi T d) = phi T' (g d)) -> simp (modp g) (modp g).
Proof. intros H s T Hs. destruct (H (p_dec s) T) as [T1 H2]. split; [exact I|]. exists T1. unfold modp, fp. cbn [p_dec p_st p_buf fst snd]. now rewrite H2. Qed.
Lemma sim_on_st {A} (m : M bst A) : simp (on_st m) (on_st m).
Proof. intros [d st b] T Hs. unfold on_st, fp. cbn [p_dec p_st p_buf]. destruct (m st). split; [exact I|now exists T]. Qed.
Lemma sim_on_hd {A} (m : M hst A) : simh m m -> simp (on_hd m) (on_hd m).
Proof.
  intros H [d st b] T Hs. unfold on_hd, fp. cbn [p_dec p_st p_buf]. destruct (H (mkHst d (b_rd st)) T I) as [_ (T1 & H2)].
  unfold fh in H2. cbn [hd_dec hd_rd] in H2. destruct (m (mkHst d (b_rd st))) as [r h]. cbn [fst snd p_dec p_st p_buf] in *.
  split; [exact I|]. exists T1. rewrite H2. reflexivity.
Qed.
Lemma sim_on_dec {A} (m : M decoder A) : simd m m -> simp (on_dec m) (on_dec m).
Proof.
  intros H [d st b] T Hs. unfold on_dec, fp. cbn [p_dec p_st p_buf]. destruct (H d T I) as [_ (T1 & H2)].
  destruct (m d) as [r d1]. cbn [fst snd p_dec p_st p_buf] in *. split; [exact I|]. exists T1. rewrite H2. reflexivity.
Qed.
Lemma sim_count_restart_p : simp count_restart_p count_restart_p.
Proof.
  intros [d st b] T Hs. unfold count_restart_p, fp. cbn [p_dec p_st p_buf]. rewrite tick_phi.
  destruct (tick d st) as [[r d1] st1]. split; [exact I|now exists T].
Qed.
Lemma sim_get_marker : simp get_marker get_marker.
Proof.
  intros [d st b] T Hs. unfold get_marker, fp. cbn [p_dec p_st p_buf]. destruct (b_marker st); [split; [exact I|now exists T]|].
  destruct (scan_marker _ _). split; [exact I|now exists T].
Qed.
Lemma sim_put_block k a b : simp (put_block k a b) (put_block k a b).
Proof. intros [d st bf] T Hs. unfold put_block, fp. cbn [p_dec p_st p_buf]. destruct (zget _ _); (split; [exact I|now exists T]). Qed.
Lemma sim_get_block k a : simp (get_block k a) (get_block k a).
Proof. intros [d st bf] T Hs. unfold get_block, fp. cbn [p_dec p_st p_buf]. destruct (zget _ _); [destruct (slice _ _ _)|]; (split; [exact I|now exists T]). Qed.
Lemma sim_get_comp k : simp (get_comp k) (get_comp k).
Proof. unfold get_comp. apply sim_getp. intros d T. sphi. apply sim_lift. Qed.
Lemma sim_set_pred k a : simp (set_pred k a) (set_pred k a).
Proof. apply sim_modp. smod. Qed.

Ltac pstep :=
  lazymatch goal with
  | |- simr _ _ (bind getp _) _ => apply sim_getp; let d := fresh "d" in let T := fresh "T" in intros d T; sphi
  | |- simr _ _ getps _ => apply sim_getps
  | |- simr _ _ (modps _) _ => apply sim_modps
  | |- simr _ _ (modp _) _ => apply sim_modp; smod
  | |- simr _ _ (on_st _) _ => apply sim_on_st
  | |- simr _ _ count_restart_p _ => apply sim_count_restart_p
  | |- simr _ _ get_marker _ => apply sim_get_marker
  | |- simr _ _ (put_block _ _ _) _ => apply sim_put_block
  | |- simr _ _ (get_block _ _) _ => apply sim_get_block
  | |- simr _ _ (get_comp _) _ => apply sim_get_comp
  | |- simr _ _ (set_pred _ _) _ => apply sim_set_pred
  | |- simr _ _ (on_hd parse_huffman) _ => apply sim_on_hd, sim_parse_huffman; exact Rs
  | |- simr _ _ (on_hd parse_sos) _ => apply sim_on_hd, sim_parse_sos; exact Rs
  | |- simr _ _ (bind get _) _ => apply sim_get; let d := fresh "d" in let T := fresh "T" in let H := fresh "HL" in intros d T H; sphi
  | |- simr _ _ (bind _ _) _ => apply sim_bind; [|intro]
  | |- simr _ _ (ret _) _ => apply sim_ret
  | |- simr _ _ (fail _) _ => apply sim_fail
  | |- simr _ _ (panic _) _ => apply sim_panic
  | |- simr _ _ outoffuel _ => apply sim_fuel
  | |- simr _ _ (lift _) _ => apply sim_lift
  | |- simr _ _ (map_err _ _) _ => apply sim_map_err
  | |- simr _ _ (mfor _ _ _) _ => apply sim_mfor; intro
  | |- simr _ _ (mfor_break _ _ _) _ => apply sim_mfor_break; intro
  | |- simr _ _ (if ?b then _ else _) (if ?b then _ else _) => destruct b
  | |- simr _ _ (match ?x with _ => _ end) (match ?x with _ => _ end) => destruct x
  | |- simr _ _ (let _ := _ in _) _ => cbv zeta
  end.
Ltac psteps := repeat pstep.
Lemma sim_prog_dc t k c : simp (prog_dc t k c) (prog_dc t k c).
Proof. unfold prog_dc. psteps. Qed.
Lemma sim_scan_blocks : forall fuel k w h i j, simp (scan_blocks fuel k w h i j) (scan_blocks fuel k w h i j).
Proof. induction fuel; intros; cbn [scan_blocks]; psteps; try apply sim_prog_dc; apply IHfuel. Qed.
Lemma sim_scan_dc_at t n c i j v h : simp (scan_dc_at t n c i j v h) (scan_dc_at t n c i j v h).
Proof.
  unfold scan_dc_at. cbv zeta. apply sim_get. intros s T Hs. unfold fp at 1. cbn [p_dec p_st p_buf].
  apply sim_bind; [apply sim_lift|intros ch]. apply sim_bind; [apply sim_lift|intros co].
  apply sim_bind; [apply sim_prog_dc|intros a]. intros [d st bf] T1 Hd. split; [exact I|now exists T1].
Qed.
Lemma sim_parse_entropy : simp parse_entropy_coded_data parse_entropy_coded_data.
Proof.
  unfold parse_entropy_coded_data, scan_dc_component. apply sim_getp. intros d T. rewrite sim_check_dims.
  psteps; try apply sim_scan_blocks; apply sim_scan_dc_at.
Qed.
Lemma sim_scan_loop : forall fuel m seen, simp (scan_loop fuel m seen) (scan_loop fuel m seen).
Proof.
  induction fuel; intros m seen; cbn [scan_loop]; psteps; try apply sim_parse_entropy; try apply IHfuel.
Qed.
Lemma sim_finish_setup w : simd (finish_setup w) (finish_setup w).
Proof.
  unfold finish_setup. apply sim_bind; [apply sim_set_upsampling|intros _]. apply sim_get. intros d T HL. sphi. cbv zeta.
  apply sim_bind.
  - destruct (_ && _); [|apply sim_ret]. destruct (o_strict _); [apply sim_fail|].
    apply sim_bind; [|intros _; apply sim_ret]. unfold reset_grayscale_p.
    psteps; try apply sim_set_comp0; apply sim_modifyd; smod.
  - intros b. apply sim_get. intros d1 T1 HL1. change (d_comps (phi T1 d1)) with (d_comps d1).
    apply sim_bind; [apply sim_lift|intros c0]. cbv zeta. unfold capacity, extra_space.
    sphi. apply sim_ret.
Qed.
Lemma sim_finish w : simp (finish_progressive_decoding w) (finish_progressive_decoding w).
Proof.
  unfold finish_progressive_decoding. apply sim_bind; [apply sim_on_dec, sim_finish_setup|intros g].
  apply sim_get. intros [d st bf] T Hs. unfold fp. cbn [p_dec p_st p_buf].
  change (prog_jobs g (phi T d) bf) with (prog_jobs g d bf). change (output_len (phi T d)) with (output_len d). psteps.
Qed.
Lemma sim_progressive_scans w : simp (progressive_scans w) (progressive_scans w).
Proof.
  unfold progressive_scans. psteps; [apply sim_parse_entropy|apply sim_scan_loop|apply sim_finish].
Qed.
Lemma late_progressive T d rd : fst (decode_progressive (mkHst (phi T d) rd)) = fst (decode_progressive (mkHst d rd)).
Proof.
  unfold decode_progressive. cbn [hd_dec hd_rd]. cbv zeta.
  change (prog_counts (phi T d)) with (prog_counts d). destruct (prog_counts d) as [w h].
  rewrite sim_check_dims. change (d_incs (phi T d)) with (d_incs d). change (d_comps (phi T d)) with (d_comps d).
  change (d_ah (phi T d)) with (d_ah d). change (d_al (phi T d)) with (d_al d). change (d_ss (phi T d)) with (d_ss d). change (d_se (phi T d)) with (d_se d).
  destruct (rbind _ _) as [buf| | |]; try reflexivity.
  set (st := bst_new_progressive _ _ _ _ _).
  destruct (sim_progressive_scans w (mkPst d st buf) T I) as [_ (T1 & H2)]. unfold fp in H2. cbn [p_dec p_st p_buf] in H2.
  rewrite H2. destruct (progressive_scans w (mkPst d st buf)) as [r s]. reflexivity.
Qed.
End Prog.

(** * The baseline loop: no frame header turns up in the data *)
Section Base.
Let Rs : forall a b, suffix a b -> no_sof b -> no_sof a := no_sof_suffix.
Definition fm T (s : mst) : mst := mkMst (phi T (m_dec s)) (m_st s) (m_tmp s) (m_jobs s).
Definition Pm (s : mst) : Prop := quiet (m_st s).
Notation simm := (simr fm Pm).
Lemma sim_getm {B} (k k' : decoder -> M mst B) : (forall d T, simm (k d) (k' (phi T d))) -> simm (bind getm k) (bind getm k').
Proof. intros H s T Hs. exact (H (m_dec s) T s T Hs). Qed.
Lemma sim_gets {B} (k k' : bst -> M mst B) : (forall st, quiet st -> simm (k st) (k' st)) -> simm (bind gets k) (bind gets k').
Proof. intros H s T Hs. exact (H (m_st s) Hs s T Hs). Qed.
Lemma sim_count_restart : simm count_restart count_restart.
Proof.
  intros [d st tmp jobs] T Hs. unfold count_restart, fm. cbn [m_dec m_st m_tmp m_jobs]. rewrite tick_phi.
  destruct (tick_nopanic d st) as [_ Hq]. destruct (tick d st) as [[r d1] st1]. cbn [fst snd] in *. split; [exact (Hq Hs)|now exists T].
Qed.
Lemma sim_parse_in_scan m : ~ is_sof m -> simm (parse_in_scan m) (parse_in_scan m).
Proof.
  intros Hm [d st tmp jobs] T [Hs1 Hs2]. cbn [m_st] in *. unfold parse_in_scan, fm. cbn [m_dec m_st m_tmp m_jobs].
  destruct (sim_marker no_sof Rs m Hm (mkHst d (b_rd st)) T Hs1) as [H1 (T1 & H2)]. unfold fh in H2. cbn [hd_dec hd_rd] in H2.
  destruct (parse_marker_inner m (mkHst d (b_rd st))) as [r h]. cbn [fst snd m_dec m_st m_tmp m_jobs] in *.
  split; [split; [exact H1|exact Hs2]|]. exists T1. rewrite H2. reflexivity.
Qed.
Lemma sim_decode_block g c t1 t2 pos v j vs hs : simm (decode_block g c t1 t2 pos v j vs hs) (decode_block g c t1 t2 pos v j vs hs).
Proof.
  intros [d st tmp jobs] T Hs. unfold decode_block, fm. cbn [m_dec m_st m_tmp m_jobs]. change (d_opt (phi T d)) with (d_opt d).
  change (d_comps (phi T d)) with (d_comps d). cbv zeta.
  destruct (_ <=? _).
  - destruct (zget tmp pos); [|split; [exact Hs|now exists T]]. destruct (slice _ _ _); [|split; [exact Hs|now exists T]].
    match goal with |- context [decode_mcu_block ?a ?b ?x ?y st] => pose proof (block_quiet a b x y st Hs) as Hq end.
    destruct (decode_mcu_block _ _ _ _ _) as [[[] st1] dc1]; (split; [exact Hq|now exists T]).
  - match goal with |- context [decode_mcu_block ?a ?b ?x ?y st] => pose proof (block_quiet a b x y st Hs) as Hq end.
    destruct (decode_mcu_block _ _ _ _ _) as [[[] st1] dc1]; (split; [exact Hq|now exists T]).
Qed.
Lemma sim_mcu_component g v j pos : simm (mcu_component g v j pos) (mcu_component g v j pos).
Proof.
  unfold mcu_component, decode_component. apply sim_getm. intros d T.
  change (d_comps (phi T d)) with (d_comps d). change (d_dcts (phi T d)) with (d_dcts d). change (d_acts (phi T d)) with (d_acts d).
  apply sim_bind; [apply sim_lift|intros c].
  destruct (table_at _ _); [|apply sim_fail]. destruct (table_at _ _); [|apply sim_fail].
  apply sim_bind; [apply sim_mfor; intros i; apply sim_mfor; intros x; apply sim_decode_block|intros _]. apply sim_bind; [apply sim_count_restart|intros _].
  apply sim_gets. intros st [_ Hq]. destruct (b_marker st) as [m|]; [|apply sim_ret].
  specialize (Hq m eq_refl).
  assert (simm (parse_in_scan m ;;; ret true) (parse_in_scan m ;;; ret true)) by (apply sim_bind; [now apply sim_parse_in_scan|intros; apply sim_ret]).
  destruct m; first [assumption|apply sim_ret].
Qed.
Lemma sim_decode_row g : simm (decode_row g) (decode_row g).
Proof.
  unfold decode_row, decode_mcu. apply sim_getm. intros d T. change (d_opt (phi T d)) with (d_opt d). change (d_comps (phi T d)) with (d_comps d).
  apply sim_bind; [apply sim_lift|intros tmp]. apply sim_bind; [apply sim_modify; intros s T1 Hs; split; [exact Hs|now exists T1]|intros _].
  apply sim_bind.
  - apply sim_mfor. intros i. apply sim_mfor. intros j. apply sim_getm. intros d1 T1. change (d_incs (phi T1 d1)) with (d_incs d1).
    apply sim_mfor_break. intros. apply sim_mcu_component.
  - intros _ [d1 st tmp1 jobs] T1 Hs. unfold fm. cbn [m_dec m_st m_tmp m_jobs]. destruct (_ <=? _); (split; [exact Hs|now exists T1]).
Qed.
Lemma late_baseline T d rd : no_sof rd -> fst (decode_baseline (mkHst (phi T d) rd)) = fst (decode_baseline (mkHst d rd)).
Proof.
  intros Hrd. unfold decode_baseline. cbn [hd_dec hd_rd].
  destruct (sim_baseline_setup d T I) as [_ (T1 & H2)]. rewrite H2. destruct (baseline_setup d) as [[g| | |] d1]; cbn [fst snd] in *; try reflexivity.
  assert (Hr : simm (decode_rows g) (decode_rows g)) by (unfold decode_rows; apply sim_mfor; intros; apply sim_decode_row).
  destruct (Hr (mkMst d1 (bst_new rd) [] []) T1) as [_ (T2 & G2)]; [split; [exact Hrd|discriminate]|]. unfold fm in G2. cbn [m_dec m_st m_tmp m_jobs] in G2.
  rewrite G2. destruct (decode_rows g (mkMst d1 (bst_new rd) [] [])) as [r s1]. cbn [fst snd m_jobs m_dec].
  change (output_len (phi T2 (m_dec s1))) with (output_len (m_dec s1)).
  destruct r; try reflexivity; destruct (run_jobs g _); reflexivity.
Qed.
End Base.

(** * The file *)
From Verif Require Import SpecSegments SpecFile Session ApiFacts HeaderFacts Keeps HeaderReads HeaderItems OrderFacts TableSegments.

Definition RT (l : list Z) : Prop := True.
Lemma late_body T d m t : m <> 192 -> m <> 194 -> exists T',
  marker_body m (mkHst (phi T d) t) = (fst (marker_body m (mkHst d t)), fh T' (snd (marker_body m (mkHst d t)))).
Proof.
  intros H1 H2. assert (simr fh (Ph RT) (marker_body m) (marker_body m)) as K.
  { unfold marker_body. destruct (marker_from_u8 m) as [n|] eqn:E.
    - apply sim_marker; [unfold RT; auto|]. intros Hs. destruct n; try contradiction. apply HeaderItems.marker_sof in E. lia.
    - apply sim_skip_segment. unfold RT; auto. }
  destruct (K (mkHst d t) T I) as [_ H]. exact H.
Qed.
Lemma sos_suffix s s' : parse_sos s = (Ok tt, s') -> suffix (hd_rd s') (hd_rd s).
Proof.
  intros E. destruct (sim_parse_sos (fun l => suffix l (hd_rd s)) ltac:(intros; eapply suffix_trans; eauto) s [] (suffix_refl _)) as [H _].
  rewrite E in H. exact H.
Qed.
Lemma late_sos T d l b l' b' t : hinv d -> hinv (phi T d) -> Forall byte t -> l <> 255 -> l' <> 255 -> b <= 2 -> b' <= 2 ->
  fst (loopz l b d (255 :: 218 :: t)) = Ok tt -> exists T' d' rd,
  loopz l b d (255 :: 218 :: t) = (Ok tt, mkHst d' rd) /\ loopz l' b' (phi T d) (255 :: 218 :: t) = (Ok tt, mkHst (phi T' d') rd) /\ suffix rd t.
Proof.
  intros Hi Hi2 Ht Hl Hl' Hb Hb'. assert (Hbt : Forall byte (255 :: 218 :: t)) by (repeat constructor; unfold byte; auto; lia).
  rewrite !loopz_ff by auto. unfold loopz. rewrite !header_loop_eq. cbn [hd_rd hd_dec]. cbv zeta. change (255 =? 255) with true. cbv iota.
  unfold bind. change (218 =? 218) with true. cbv iota. destruct (late_body T d 218 t) as (T' & ->); [lia|lia|].
  change (marker_body 218) with parse_sos. destruct (parse_sos (mkHst d t)) as [[[]| | |] s] eqn:E; try discriminate.
  intros _. exists T', (hd_dec s), (hd_rd s). cbn [fst snd fh]. split; [now destruct s|]. split; [reflexivity|]. now apply sos_suffix in E.
Qed.
Lemma late_loop t : Forall byte t -> forall l2, Forall header_seg l2 -> Forall (fun s => ~ is_frame s) l2 ->
  forall T d l b l' b', hinv d -> hinv (phi T d) -> l <> 255 -> l' <> 255 -> b <= 2 -> b' <= 2 ->
  let f := (msegs_bytes l2 ++ 255 :: 218 :: t)%list in
  fst (loopz l b d f) = Ok tt -> exists T' d' rd,
  loopz l b d f = (Ok tt, mkHst d' rd) /\ loopz l' b' (phi T d) f = (Ok tt, mkHst (phi T' d') rd) /\ suffix rd t.
Proof.
  intros Ht. induction 1 as [|[m p] l2 Hs Hl2 IH]; intros Hf T d l b l' b' Hi Hi2 Hl Hl' Hb Hb'; cbv zeta.
  - cbn [msegs_bytes flat_map app]. now apply late_sos.
  - pose proof (Forall_inv Hf) as Hm. apply Forall_inv_tail in Hf. cbn [is_frame fst] in Hm. unfold is_frame in Hm. cbn [fst] in Hm.
    change (msegs_bytes ((m, p) :: l2)) with (mseg_bytes (m, p) ++ msegs_bytes l2)%list. rewrite <- app_assoc. intros E.
    assert (Bt : Forall byte (msegs_bytes l2 ++ 255 :: 218 :: t)).
    { apply Forall_app. split; [now apply mseg_Forall|]. repeat constructor; unfold byte; auto; lia. }
    destruct (one_seg l b m p d _ Hi Hs Bt Hl Hb E) as (d1 & Hi1 & R1 & E1). rewrite E1 in E |- *.
    destruct (late_body T d m (segment p ++ (msegs_bytes l2 ++ 255 :: 218 :: t))) as (T1 & E2); [lia|lia|]. rewrite R1 in E2. cbn [fst snd fh hd_dec hd_rd] in E2.
    destruct (run_seg l' b' m p (phi T d) (phi T1 d1) _ Hi2 Hs Bt Hl' Hb' E2) as [-> Hi3].
    destruct Hs as (_ & Hm1 & _). cbn [fst] in Hm1.
    apply IH; auto; lia.
Qed.

Lemma phi_back T d : phi (d_qt d) (phi T d) = d.
Proof. now destruct d. Qed.
Lemma late_result T d rd : no_sof rd -> forall px,
  fst ((d' <- getd ;; if d_prog d' then decode_progressive else decode_baseline) (mkHst d rd)) = Ok px ->
  fst ((d' <- getd ;; if d_prog d' then decode_progressive else decode_baseline) (mkHst (phi T d) rd)) = Ok px.
Proof.
  intros Hrd px. unfold bind, getd. cbn [hd_dec]. change (d_prog (phi T d)) with (d_prog d).
  destruct (d_prog d); intros E; [now rewrite late_progressive|now rewrite late_baseline].
Qed.
Lemma late_decode T d l b l' b' l2 t px : Forall byte t -> no_sof t -> Forall header_seg l2 -> Forall (fun s => ~ is_frame s) l2 ->
  hinv d -> hinv (phi T d) -> l <> 255 -> l' <> 255 -> b <= 2 -> b' <= 2 ->
  let f := (msegs_bytes l2 ++ 255 :: 218 :: t)%list in
  let k := (d' <- getd ;; if d_prog d' then decode_progressive else decode_baseline) in
  forall s s', decode_headers s = loopz l b d f -> decode_headers s' = loopz l' b' (phi T d) f ->
  fst (decode_internal s) = Ok px -> fst (decode_internal s') = Ok px.
Proof.
  intros Ht Hn Hl2 Hf Hi Hi2 Hl Hl' Hb Hb' f k s s' E E'. unfold decode_internal. unfold bind at 1. rewrite E.
  destruct (loopz l b d f) as [r h] eqn:El. destruct r as [[]| | |]; try discriminate.
  destruct (late_loop t Ht l2 Hl2 Hf T d l b l' b' Hi Hi2 Hl Hl' Hb Hb') as (T' & d' & rd & E1 & E2 & Hs); fold f; [now rewrite El|].
  fold f in E1, E2. rewrite El in E1. injection E1 as ->. unfold bind at 2. rewrite E', E2.
  apply late_result. eapply no_sof_suffix; eauto.
Qed.

Lemma late_quant cpu o cs l1 ts l2 t px : Forall legal_call cs -> Forall header_seg l1 ->
  Forall quant_def_legal ts -> fits (dqt_payload ts) ->
  Forall header_seg l2 -> Forall (fun s => ~ is_frame s) l2 -> Forall byte t -> no_sof t ->
  let d := after cpu o cs in
  fst (decode_buffer d ([255; 216] ++ msegs_bytes l1 ++ mseg_bytes (219, dqt_payload ts) ++ msegs_bytes l2 ++ [255; 218] ++ t)) = Ok px <->
  fst (decode_buffer d ([255; 216] ++ msegs_bytes l1 ++ msegs_bytes l2 ++ [255; 218] ++ t)) = Ok px.
Proof.
  intros Hc Hl1 Hts Hfit Hl2 Hf Ht Hn d. pose proof (after_inv cpu o cs Hc) as Hi. fold d in Hi.
  unfold decode_buffer. rewrite !on_buffer_eq. cbn [fst app].
  set (f := (msegs_bytes l2 ++ 255 :: 218 :: t)%list).
  assert (Bf : Forall byte f).
  { apply Forall_app. split; [now apply mseg_Forall|]. repeat constructor; unfold byte; auto; lia. }
  assert (Hs : header_seg (219, dqt_payload ts)).
  { split; [unfold byte; cbn [fst]; lia|]. split; [cbn; lia|]. split; [cbn; lia|]. cbn [snd]. split; [|exact Hfit].
    clear - Hts. unfold dqt_payload. induction Hts as [|q ts (H1 & H2 & H3) _ IH]; [constructor|]. cbn [flat_map]. apply Forall_app. split; [|exact IH].
    unfold quant_def_bytes. constructor; [unfold byte; lia|exact H3]. }
  assert (Bq : Forall byte (mseg_bytes (219, dqt_payload ts) ++ f)).
  { apply Forall_app. split; [|exact Bf]. pose proof (mseg_Forall [(219, dqt_payload ts)] (Forall_cons _ Hs (Forall_nil _))) as H.
    unfold msegs_bytes in H. cbn [flat_map] in H. now rewrite app_nil_r in H. }
  assert (Ef : f <> []) by (unfold f; destruct (msegs_bytes l2); discriminate).
  destruct (items_cases (fun _ _ => True) (fun _ => I) (fun _ _ _ _ _ => I) l1 Hl1 (fun _ _ _ _ _ => I)
    0 0 d _ _ Hi ltac:(lia) ltac:(lia) Bq Bf ltac:(discriminate) Ef)
    as [(d0 & l' & b' & Hi0 & Hl' & Hb' & _ & Ea & Eb)|[Ha Hb]].
  2:{ rewrite <- decode_headers_soi in Ha, Hb. split; intros E; exfalso; [now apply (decode_internal_no_ok _ Ha) in E|now apply (decode_internal_no_ok _ Hb) in E]. }
  destruct (parse_dqt_ok ts d0 f Hts) as (qt & Eq & _); [|exact Hfit|].
  { exact (hi_qt4 _ (proj1 Hi0)). }
  destruct (run_seg l' b' 219 _ d0 (phi qt d0) f Hi0 Hs Bf Hl' Hb' Eq) as [E1 Hi1]. rewrite E1 in Ea.
  rewrite <- decode_headers_soi in Ea, Eb. split; intros E.
  - refine (late_decode (d_qt d0) (phi qt d0) 219 1 l' b' l2 t px Ht Hn Hl2 Hf Hi1 _ _ Hl' _ Hb' _ _ Ea _ E); rewrite ?phi_back; auto; lia.
  - refine (late_decode qt d0 l' b' 219 1 l2 t px Ht Hn Hl2 Hf Hi0 Hi1 Hl' _ Hb' _ _ _ Eb Ea E); lia.
Qed.
