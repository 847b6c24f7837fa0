(** The decoding phase keeps the invariants of the decoder and never runs out of fuel. *)
From Coq Require Import ZArith String List Bool Lia.
From Coq Require Import ZifyBool ZifyNat ZifyN.
From Verif Require Import Base Types Huffman State Bitstream Headers Worker Mcu McuProg Decoder
  BaseFacts HeaderFacts SpecHuffman SpecBits SpecSegments Obs BlockSafe HeaderInv WorkerSafe.
Import ListNotations.
Local Open Scope Z_scope.
Local Open Scope m_scope.
Ltac Zify.zify_post_hook ::= Z.div_mod_to_equations.

Ltac msimp := cbn [m_dec m_st m_tmp m_jobs p_dec p_st p_buf]; dsimp.
Ltac msimp_in H := cbn [m_dec m_st m_tmp m_jobs p_dec p_st p_buf] in H; dsimp in H.
Ltac msimp_all := repeat match goal with H : _ |- _ => progress (cbn [m_dec m_st m_tmp m_jobs p_dec p_st p_buf hd_dec hd_rd b_rd set_rd] in H) end; msimp.

Definition band2 (s : bst) : Prop := 0 <= b_ss s /\ b_se s <= 63.
Lemma band2_keep s s' : band2 s -> keep s s' -> band2 s'.
Proof. unfold band2, keep. intuition lia. Qed.

Section Steps.
  Context {S : Type} (dec : S -> decoder) (st : S -> bst) (co : S -> Prop).

  Definition sinv (s : S) : Prop :=
    hinv (dec s) /\ ok_s (st s) /\ band2 (st s) /\ Forall byte (b_rd (st s)) /\ co s.

  Record dstep {A} (P : A -> S -> Prop) (s : S) (r : res A) (s' : S) : Prop := {
    ds_inv : sinv s';
    ds_suf : suffix (b_rd (st s')) (b_rd (st s));
    ds_fuel : r <> Fuel;
    ds_setup : same_setup (dec s) (dec s');
    ds_good : good (dec s) -> forall a, r = Ok a -> good (dec s');
    ds_ok : forall a, r = Ok a -> P a s' }.

  Lemma dstep_bind {A B} (m : M S A) (k : A -> M S B) P Q s :
    wp m s (dstep P s) ->
    (forall a s', sinv s' -> suffix (b_rd (st s')) (b_rd (st s)) -> P a s' ->
       wp (k a) s' (dstep Q s')) ->
    wp (bind m k) s (dstep Q s).
  Proof.
    intros Hm Hk. unfold wp, bind in *. destruct (m s) as [r s1]. cbn [fst snd] in Hm.
    destruct Hm as [I1 S1 F1 U1 G1 O1].
    destruct r as [a|e|p|]; cbn [fst snd].
    - specialize (Hk a s1 I1 S1 (O1 a eq_refl)). destruct (k a s1) as [r2 s2]. cbn [fst snd] in *.
      destruct Hk as [I2 S2 F2 U2 G2 O2]. split; auto.
      + eapply suffix_trans; eauto.
      + eapply same_setup_trans; eauto.
      + intros Hg. apply G2. eauto.
    - split; auto; try discriminate.
    - split; auto; try discriminate.
    - congruence.
  Qed.
  Lemma dstep_mono {A} (P Q : A -> S -> Prop) (m : M S A) s :
    wp m s (dstep P s) -> (forall a s', P a s' -> Q a s') -> wp m s (dstep Q s).
  Proof. intros H HPQ. eapply wp_mono; [exact H|]. intros r s' [I1 S1 F1 U1 G1 O1]. split; auto. Qed.
  Lemma dstep_self {A} (P : A -> S -> Prop) s r : sinv s -> r <> Fuel ->
    (forall a, r = Ok a -> P a s) -> dstep P s r s.
  Proof.
    intros Hi Hf HP. split; auto; [apply suffix_refl|apply same_setup_refl].
  Qed.
  Lemma dstep_ret {A} (a : A) (P : A -> S -> Prop) s : sinv s -> P a s -> wp (ret a) s (dstep P s).
  Proof. intros Hi HP. apply dstep_self; auto; [discriminate|]. intros x E. now injection E as <-. Qed.
  Lemma dstep_fail {A} e (P : A -> S -> Prop) s : sinv s -> wp (fail e) s (dstep P s).
  Proof. intros Hi. apply dstep_self; auto; discriminate. Qed.
  Lemma dstep_panic {A} e (P : A -> S -> Prop) s : sinv s -> wp (panic e) s (dstep P s).
  Proof. intros Hi. apply dstep_self; auto; discriminate. Qed.
  Lemma dstep_lift {A} (r : res A) (P : A -> S -> Prop) s : sinv s -> r <> Fuel ->
    (forall a, r = Ok a -> P a s) -> wp (lift r) s (dstep P s).
  Proof. intros Hi Hf HP. now apply dstep_self. Qed.
  Lemma dstep_get {A} (k : S -> M S A) P s : wp (k s) s (dstep P s) -> wp (bind get k) s (dstep P s).
  Proof. auto. Qed.

  Lemma dstep_mfor (n : nat) : forall i (body : Z -> M S unit) s, sinv s ->
    (forall j s', i <= j < i + Z.of_nat n -> sinv s' -> wp (body j) s' (dstep (fun _ _ => True) s')) ->
    wp (mfor n i body) s (dstep (fun _ _ => True) s).
  Proof.
    induction n as [|n IH]; intros i body s Hi Hb; cbn [mfor]; [now apply dstep_ret|].
    eapply dstep_bind; [apply Hb; auto; lia|]. intros _ s' Hi' _ _. apply IH; auto. intros j s'' Hj. apply Hb. lia.
  Qed.
  Lemma dstep_mfor_break (n : nat) : forall i (body : Z -> M S bool) s, sinv s ->
    (forall j s', i <= j < i + Z.of_nat n -> sinv s' -> wp (body j) s' (dstep (fun _ _ => True) s')) ->
    wp (mfor_break n i body) s (dstep (fun _ _ => True) s).
  Proof.
    induction n as [|n IH]; intros i body s Hi Hb; cbn [mfor_break]; [now apply dstep_ret|].
    eapply dstep_bind; [apply Hb; auto; lia|]. intros b s' Hi' _ _. destruct b; [|now apply dstep_ret].
    apply IH; auto. intros j s'' Hj. apply Hb. lia.
  Qed.
End Steps.

Lemma calm_nofuel {A} (r : res A) : calm r -> r <> Fuel.
Proof. intros H ->. exact H. Qed.
Lemma at_nofuel {A} (l : list A) i : at_ l i <> Fuel.
Proof. apply calm_nofuel, calm_at. Qed.

(** ** Components *)
Definition comps_upd (cs cs' : list component) : Prop :=
  zlen cs' = zlen cs /\ (Forall comp_okw cs -> Forall comp_okw cs') /\ (Forall comp_ok cs -> Forall comp_ok cs').

Lemma hinv_comps d cs : hinv d -> Forall comp_okw cs -> hinv (set_d_comps cs d).
Proof.
  intros ([? ? ? ? ? ?] & [? ? ? ? ? ? ? ? ? ? ? ? ? ? ? ?] & Hc) H. split; [|split]; [| |exact H]; split; dsimp; auto.
Qed.
Lemma good_comps d cs : good d -> zlen cs = zlen (d_comps d) -> Forall comp_ok cs -> good (set_d_comps cs d).
Proof. intros (A & B & C) Hl H. split; [dsimp; lia|]. split; [exact B|exact H]. Qed.
Lemma comp_okw_pred p c : comp_okw c -> comp_okw (set_c_pred p c).
Proof. intros [? ? ? ? ? ? ?]. split; dsimp; auto. Qed.
Lemma comp_ok_pred p c : comp_ok c -> comp_ok (set_c_pred p c).
Proof. intros [? ? ? ? ? ? ?]. split; dsimp; auto. Qed.
Lemma comp_okw_ups p c : comp_okw c -> comp_okw (set_c_ups p c).
Proof. intros [? ? ? ? ? ? ?]. split; dsimp; auto. Qed.
Lemma comp_ok_ups p c : comp_ok c -> comp_ok (set_c_ups p c).
Proof. intros [? ? ? ? ? ? ?]. split; dsimp; auto. Qed.
Lemma Forall_map_in {A B} (P : A -> Prop) (Q : B -> Prop) f l : Forall P l -> (forall x, P x -> Q (f x)) -> Forall Q (map f l).
Proof. intros H Hf. apply Forall_map. eapply Forall_impl; eauto. Qed.

Definition upd_pred (cs : list component) (k dc : Z) : list component :=
  match zget cs k with Some c => zset cs k (set_c_pred dc c) | None => cs end.
Lemma upd_pred_ok cs k dc : comps_upd cs (upd_pred cs k dc).
Proof.
  unfold upd_pred. destruct (zget cs k) as [c|] eqn:E; [|repeat split; auto]. apply zget_In in E.
  split; [apply zlen_zset|]. split; intros H; (apply Forall_zset; [exact H|]);
    rewrite Forall_forall in H; [apply comp_okw_pred|apply comp_ok_pred]; auto.
Qed.
Lemma map_pred_ok cs : comps_upd cs (map (set_c_pred 0) cs).
Proof.
  split; [apply zlen_map|]. split; intros H; (eapply Forall_map_in; [exact H|]); [apply comp_okw_pred|apply comp_ok_pred].
Qed.
Lemma hinv_upd d cs : hinv d -> comps_upd (d_comps d) cs -> hinv (set_d_comps cs d).
Proof. intros H (_ & U & _). apply hinv_comps; auto. apply U, H. Qed.
Lemma good_upd d cs : good d -> comps_upd (d_comps d) cs -> good (set_d_comps cs d).
Proof. intros H (L & _ & U). apply good_comps; auto. apply U, H. Qed.
Lemma setup_comps d cs : same_setup d (set_d_comps cs d).
Proof. now apply setup_same. Qed.

Lemma hinv_todo d n : hinv d -> 0 <= n < 2 ^ 64 -> hinv (set_d_todo n d).
Proof.
  intros Hi Hn. apply (hinv_nums d); auto. pose proof Hi as (_ & [? ? ? ? ? ? ? ? ? ? ? ? ? ? ? ?] & _).
  split; dsimp; auto.
Qed.

(** ** Restart bookkeeping *)
Record tick_ok (d : decoder) (s : bst) (r : res unit) (d' : decoder) (s' : bst) : Prop := {
  tk_inv : hinv d';
  tk_ok : ok_s s';
  tk_band : band2 s';
  tk_rd : b_rd s' = b_rd s;
  tk_fuel : r <> Fuel;
  tk_setup : same_setup d d';
  tk_good : good d -> good d' }.
Lemma ok_reset s : ok_s (bst_reset s).
Proof. unfold ok_s, bst_reset. dsimp. lia. Qed.
Lemma handle_rst_ok d s : hinv d -> ok_s s -> band2 s ->
  let '(r, d', s') := handle_rst d s in tick_ok d s r d' s'.
Proof.
  intros Hi Hs Hb. unfold handle_rst. cbv zeta.
  assert (hinv (set_d_todo (d_ri d) d)) as Hi'.
  { apply hinv_todo; auto. destruct Hi as (_ & [? ? ? ? ? ? ? ? ? ? ? ? ? ? ? ?] & _).
    change (2 ^ 64) with 18446744073709551616. lia. }
  assert (same_setup d (set_d_todo (d_ri d) d)) as Hu by now apply setup_same.
  destruct (b_marker s) as [[]|]; split; auto; try discriminate; try (intros Hg; now apply (good_same d)).
  - apply hinv_upd; [exact Hi'|apply map_pred_ok].
  - apply ok_reset.
  - intros Hg. apply good_upd; [now apply (good_same d)|apply map_pred_ok].
Qed.
Lemma tick_tick_ok d s : hinv d -> ok_s s -> band2 s ->
  let '(r, d', s') := tick d s in tick_ok d s r d' s'.
Proof.
  intros Hi Hs Hb. unfold tick. cbv zeta.
  assert (hinv (set_d_todo (u64 (d_todo d - 1)) d)) as Hi'.
  { apply hinv_todo; auto. apply u64_range. }
  destruct (_ =? 0).
  - pose proof (handle_rst_ok _ s Hi' Hs Hb) as H. destruct (handle_rst _ s) as [[r d'] s'].
    destruct H. split; auto.
  - split; auto; try discriminate; first [now apply setup_same|intros Hg; now apply (good_same d)].
Qed.

(** ** Before the baseline loop *)
Lemma check_chroma_nofuel cs w : check_chroma cs w <> Fuel.
Proof.
  induction cs as [|c cs IH]; cbn [check_chroma]; [discriminate|].
  destruct (is_y (c_cid c)); auto. destruct (negb _); [discriminate|]. destruct (_ || _); [discriminate|auto].
Qed.
Lemma check_dims_nofuel d : check_component_dimensions d <> Fuel.
Proof. unfold check_component_dimensions. destruct (find _ _); [apply check_chroma_nofuel|discriminate]. Qed.
Lemma check_tables_nofuel d : check_tables d <> Fuel.
Proof.
  unfold check_tables. generalize (Z.to_nat (num_components (d_incs d))) 0. intros n.
  induction n as [|n IH]; intros i; cbn [check_tables_from]; [discriminate|].
  destruct (at_cases (d_comps d) i) as [(x & _ & ->)|(_ & ->)]; [|discriminate].
  destruct (table_at _ _); [|discriminate]. destruct (table_at _ _); [apply IH|discriminate].
Qed.

(** A step on the decoder alone *)
Record dec_step {A} (d : decoder) (r : res A) (d' : decoder) : Prop := {
  de_inv : hinv d';
  de_fuel : r <> Fuel;
  de_setup : same_setup d d';
  de_info : d_info d' = d_info d;
  de_good : good d -> forall a, r = Ok a -> good d' }.
Lemma dec_bind {A B} (m : M decoder A) (k : A -> M decoder B) d :
  wp m d (dec_step d) -> (forall a d', hinv d' -> wp (k a) d' (dec_step d')) -> wp (bind m k) d (dec_step d).
Proof.
  intros Hm Hk. unfold wp, bind in *. destruct (m d) as [r s1]. cbn [fst snd] in Hm.
  destruct Hm as [I1 F1 U1 E1 G1]. destruct r as [a|e|p|]; cbn [fst snd].
  - specialize (Hk a s1 I1). destruct (k a s1) as [r2 s2]. cbn [fst snd] in *.
    destruct Hk as [I2 F2 U2 E2 G2]. split; auto; [eapply same_setup_trans; eauto|congruence|]. intros Hg; apply G2. eauto.
  - split; auto; discriminate.
  - split; auto; discriminate.
  - congruence.
Qed.
Lemma dec_self {A} (r : res A) d : hinv d -> r <> Fuel -> dec_step d r d.
Proof. intros. split; auto. apply same_setup_refl. Qed.
Lemma dec_modify f d : hinv (f d) -> same_setup d (f d) -> d_info (f d) = d_info d -> (good d -> good (f d)) ->
  wp (modify f) d (dec_step d).
Proof. intros. split; auto. discriminate. Qed.
Lemma dec_get {B} (k : decoder -> M decoder B) d : wp (k d) d (dec_step d) -> wp (bind get k) d (dec_step d).
Proof. auto. Qed.

Lemma hinv_numsame d d' : hinv d -> d_dcts d' = d_dcts d -> d_acts d' = d_acts d ->
  d_qt d' = d_qt d -> d_comps d' = d_comps d -> d_ss d' = d_ss d -> d_se d' = d_se d ->
  d_ah d' = d_ah d -> d_al d' = d_al d -> d_nscans d' = d_nscans d -> d_zorder d' = d_zorder d ->
  1 <= d_hmax d' <= 8 -> 1 <= d_vmax d' <= 8 -> d_mcux d' = d_mcux d -> d_mcuy d' = d_mcuy d ->
  d_ri d' = d_ri d -> d_todo d' = d_todo d -> d_info d' = d_info d -> hinv d'.
Proof.
  intros Hi. intros. pose proof Hi as (_ & [? ? ? ? ? ? ? ? ? ? ? ? ? ? ? ?] & _).
  apply (hinv_nums d); auto. split; congruence.
Qed.

Lemma samplers_step u d : hinv d -> wp (set_up_samplers u) d (dec_step d).
Proof.
  intros Hi. unfold wp, set_up_samplers. destruct (d_comps d) as [|c rest] eqn:E; cbn [fst snd].
  - apply dec_self; auto. discriminate.
  - assert (comps_upd (d_comps d) (c :: map (set_c_ups u) rest)) as Hu.
    { rewrite E. split; [unfold zlen; cbn [length]; now rewrite map_length|].
      split; intros H; inversion H; subst; constructor; auto; (eapply Forall_map_in; [eassumption|]);
        [apply comp_okw_ups|apply comp_ok_ups]. }
    split; try discriminate; auto.
    + now apply hinv_upd.
    + apply setup_comps.
    + intros Hg _ _. now apply good_upd.
Qed.
Lemma modify_step f d : hinv d -> d_dcts (f d) = d_dcts d -> d_acts (f d) = d_acts d ->
  d_qt (f d) = d_qt d -> d_comps (f d) = d_comps d -> d_ss (f d) = d_ss d -> d_se (f d) = d_se d ->
  d_ah (f d) = d_ah d -> d_al (f d) = d_al d -> d_nscans (f d) = d_nscans d -> d_zorder (f d) = d_zorder d ->
  1 <= d_hmax (f d) <= 8 -> 1 <= d_vmax (f d) <= 8 -> d_mcux (f d) = d_mcux d -> d_mcuy (f d) = d_mcuy d ->
  d_ri (f d) = d_ri d -> d_todo (f d) = d_todo d -> d_info (f d) = d_info d ->
  same_setup d (f d) -> wp (modify f) d (dec_step d).
Proof.
  intros Hi. intros. apply dec_modify; auto.
  - now apply (hinv_numsame d).
  - intros (A & B & C). split; [congruence|]. split; [|congruence]. unfold lim.
    match goal with H : d_info (f d) = _ |- _ => rewrite H end.
    match goal with H : same_setup _ _ |- _ => destruct H as (HO & _); rewrite HO end. exact B.
Qed.
Lemma set_upsampling_step d : hinv d -> wp set_upsampling d (dec_step d).
Proof.
  intros Hi. unfold set_upsampling. apply dec_get. pose proof Hi as (_ & [? ? ? ? ? ? ? ? ? ? ? ? ? ? ? ?] & _).
  destruct (_ && _); [now apply dec_self|].
  repeat (destruct (_ && _);
    [eapply dec_bind; [apply modify_step; auto; now apply setup_same|intros; now apply samplers_step]|]).
  now apply dec_self.
Qed.

Lemma u16_range x : 0 <= u16 x <= 65535.
Proof. unfold u16. lia. Qed.

Lemma set_comp0_step f d : hinv d -> (forall c, comp_okw c -> comp_okw (f c)) ->
  (forall c, comp_ok c -> comp_ok (f c)) -> wp (set_comp0 f) d (dec_step d).
Proof.
  intros Hi H1 H2. unfold wp, set_comp0. destruct (d_comps d) as [|c rest] eqn:E; cbn [fst snd].
  - apply dec_self; auto. discriminate.
  - assert (comps_upd (d_comps d) (f c :: rest)) as Hu.
    { rewrite E. split; [reflexivity|]. split; intros H; inversion H; subst; constructor; auto. }
    split; try discriminate; auto.
    + now apply hinv_upd.
    + apply setup_comps.
    + intros Hg _ _. now apply good_upd.
Qed.
Lemma reset_grayscale_step w d : hinv d -> 0 <= w -> wp (reset_grayscale w) d (dec_step d).
Proof.
  intros Hi Hw. unfold reset_grayscale.
  assert (forall d, hinv d -> 1 <= d_hmax d <= 8 /\ 1 <= d_vmax d <= 8) as Hm.
  { intros d0 (_ & [? ? ? ? ? ? ? ? ? ? ? ? ? ? ? ?] & _). auto. }
  assert (forall d, same_setup d (set_d_opt (set_out_colorspace (d_opt d) GRAYSCALE) d)) as Ho.
  { intros d0. repeat split; [intros _; now left|intros H; exact H|intros H; exact H|intros H; now right]. }
  eapply dec_bind; [apply modify_step; auto; try (now apply setup_same); try apply (Hm _ Hi); dsimp; lia|].
  intros _ d1 Hi1. eapply dec_bind; [apply modify_step; auto; apply (Hm _ Hi1)|].
  intros _ d2 Hi2. eapply dec_bind; [apply modify_step; auto; try (now apply setup_same); try apply (Hm _ Hi2); dsimp; lia|].
  intros _ d3 Hi3. eapply dec_bind; [apply modify_step; auto; try (now apply setup_same); apply (Hm _ Hi3)|].
  intros _ d4 Hi4. apply set_comp0_step; auto; intros c [? ? ? ? ? ? ?]; split; dsimp; auto; lia.
Qed.

Lemma baseline_setup_step d : hinv d -> wp baseline_setup d (dec_step d).
Proof.
  intros Hi. unfold baseline_setup. apply dec_get.
  eapply dec_bind; [apply dec_self; [exact Hi|apply check_dims_nofuel]|]. intros _ d1 Hi1.
  eapply dec_bind; [apply dec_self; [exact Hi1|apply check_tables_nofuel]|]. intros _ d2 Hi2.
  eapply dec_bind.
  { destruct (d_inter d); [now apply set_upsampling_step|now apply dec_self]. }
  intros _ d3 Hi3. apply dec_get. destruct (mcu_counts d3) as [[w h] bias].
  eapply dec_bind.
  { destruct (_ && _); [|now apply dec_self]. destruct (o_strict _); [now apply dec_self|]. cbv zeta.
    pose proof (u16_range (i_width (d_info d3) + 7)).
    eapply dec_bind; [apply reset_grayscale_step; auto; lia|]. intros. now apply dec_self. }
  intros [[w' h'] b'] d4 Hi4. apply dec_get.
  eapply dec_bind; [apply dec_self; [exact Hi4|apply at_nofuel]|]. intros c0 d5 Hi5. cbv zeta.
  destruct (_ =? 0); now apply dec_self.
Qed.

(** ** The baseline loop *)
Definition tmp_ok (s : mst) : Prop := Forall (Forall in16) (m_tmp s).
Notation minv := (sinv m_dec m_st tmp_ok).
Notation mstep := (dstep m_dec m_st tmp_ok).

Lemma Forall_slice {A} (P : A -> Prop) l a b s : slice l a b = Some s -> Forall P l -> Forall P s.
Proof.
  unfold slice. destruct (_ && _); [|discriminate]. intros E H. injection E as <-. apply Forall_forall.
  intros x Hx. apply In_firstn in Hx || (apply firstn_In in Hx) || idtac.
  rewrite Forall_forall in H. apply H.
  rewrite <- (firstn_skipn (Z.to_nat a) l). apply in_or_app. right.
  rewrite <- (firstn_skipn (Z.to_nat (b - a)) (skipn (Z.to_nat a) l)). apply in_or_app. now left.
Qed.
Lemma zlen_slice {A} (l : list A) a b s : slice l a b = Some s -> zlen s = b - a.
Proof.
  unfold slice. destruct (_ && _) eqn:E; [|discriminate]. intros H. injection H as <-.
  unfold zlen in *. rewrite firstn_length, skipn_length. lia.
Qed.
Lemma Forall_skipn {A} (P : A -> Prop) n l : Forall P l -> Forall P (skipn n l).
Proof. intros H. rewrite <- (firstn_skipn n l) in H. apply Forall_app in H. tauto. Qed.
Lemma Forall_firstn {A} (P : A -> Prop) n l : Forall P l -> Forall P (firstn n l).
Proof. intros H. rewrite <- (firstn_skipn n l) in H. apply Forall_app in H. tauto. Qed.
Lemma Forall_splice {A} (P : A -> Prop) l a s : Forall P l -> Forall P s -> Forall P (splice l a s).
Proof.
  intros Hl Hs. unfold splice. apply Forall_app. split; [now apply Forall_firstn|].
  apply Forall_app. split; [exact Hs|now apply Forall_skipn].
Qed.
Lemma Forall_zget {A} (P : A -> Prop) l i x : zget l i = Some x -> Forall P l -> P x.
Proof. intros E H. apply zget_In in E. rewrite Forall_forall in H. auto. Qed.
Lemma Forall_zrepeat {A} (P : A -> Prop) x n : P x -> Forall P (zrepeat x n).
Proof. intros H. apply Forall_forall. intros y Hy. apply repeat_spec in Hy. now subst. Qed.
Lemma zlen_zrepeat {A} (x : A) n : 0 <= n -> zlen (zrepeat x n) = n.
Proof. intros H. unfold zlen, zrepeat. rewrite repeat_length. lia. Qed.
Lemma in16_0 : in16 0.
Proof. unfold in16. lia. Qed.

(** Replacing the bit stream by one reached from it *)
Lemma sinv_keep {S} dec st co (s s' : S) : sinv dec st co s -> keep (st s) (st s') -> hinv (dec s') -> co s' ->
  sinv dec st co s'.
Proof.
  intros (_ & B & C & D & _) Hk Hi Hc. split; [exact Hi|]. split; [eapply keep_ok; eauto|].
  split; [eapply band2_keep; eauto|]. split; [|exact Hc].
  destruct Hk as (_ & _ & _ & _ & _ & Hk). eapply suffix_Forall; eauto.
Qed.
Lemma keep_suffix s s' : keep s s' -> suffix (b_rd s') (b_rd s).
Proof. now intros (_ & _ & _ & _ & _ & Hk). Qed.

Lemma decode_block_step g c dct act pos v j vs hs s : minv s -> dc_ok dct -> ac_ok act ->
  wp (decode_block g c dct act pos v j vs hs) s (mstep (fun _ _ => True) s).
Proof.
  intros Hi Hd [Ha Hac]. unfold wp, decode_block. cbv zeta.
  set (dc := match zget _ pos with Some _ => _ | None => 0 end).
  pose proof Hi as (Hh & Hs & Hb & Hrd & Ht).
  assert (forall dc', hinv (set_d_comps (upd_pred (d_comps (m_dec s)) pos dc') (m_dec s))) as Hupd.
  { intros. apply hinv_upd; [exact Hh|apply upd_pred_ok]. }
  assert (forall dc', good (m_dec s) -> good (set_d_comps (upd_pred (d_comps (m_dec s)) pos dc') (m_dec s))) as Hgd.
  { intros dc' Hg. apply good_upd; [exact Hg|apply upd_pred_ok]. }
  assert (forall (r : res unit) dc' st' tmp', r <> Fuel -> keep (m_st s) st' -> Forall (Forall in16) tmp' ->
    mstep (fun _ _ => True) s r (mkMst (set_d_comps (upd_pred (d_comps (m_dec s)) pos dc') (m_dec s)) st' tmp' (m_jobs s))) as Hdone.
  { intros r dc' st' tmp' Hf Hk Htmp. split; msimp; auto.
    - apply (sinv_keep m_dec m_st tmp_ok s); [exact Hi|exact Hk|apply Hupd|exact Htmp].
    - now apply keep_suffix.
    - apply setup_comps. }
  unfold upd_pred in Hdone.
  destruct (_ <=? _).
  - destruct (zget (m_tmp s) pos) as [chan|] eqn:Ec; [|apply dstep_self; auto; discriminate].
    destruct (slice chan _ _) as [b|] eqn:Es; [|apply dstep_self; auto; discriminate].
    assert (Forall in16 chan) as Hch by (eapply Forall_zget; eauto).
    assert (blk b) as Hblk.
    { split; [apply zlen_slice in Es; lia|]. eapply Forall_slice; eauto. }
    pose proof (decode_mcu_block_fine dct act b dc (m_st s) Hd Ha Hac Hblk Hs) as H.
    destruct (decode_mcu_block dct act b dc (m_st s)) as [[r st'] dc'].
    destruct H as [Hk [(a & -> & [Ha1 Ha2])|(e & ->)]]; cbn [fst snd].
    + apply Hdone; auto; try discriminate. apply Forall_zset; [exact Ht|]. apply Forall_splice; auto.
    + apply Hdone; auto; discriminate.
  - assert (blk (zrepeat 0 64)) as Hblk.
    { split; [reflexivity|apply Forall_zrepeat, in16_0]. }
    pose proof (decode_mcu_block_fine dct act _ dc (m_st s) Hd Ha Hac Hblk Hs) as H.
    destruct (decode_mcu_block dct act (zrepeat 0 64) dc (m_st s)) as [[r st'] dc'].
    destruct H as [Hk [(a & -> & _)|(e & ->)]]; cbn [fst snd]; apply Hdone; auto; discriminate.
Qed.

Lemma decode_component_step g c dct act pos v j s : minv s -> dc_ok dct -> ac_ok act ->
  wp (decode_component g c dct act pos v j) s (mstep (fun _ _ => True) s).
Proof.
  intros Hi Hd Ha. unfold decode_component. apply dstep_mfor; auto. intros vs s1 _ Hi1.
  apply dstep_mfor; auto. intros hs s2 _ Hi2. now apply decode_block_step.
Qed.

Lemma count_restart_step s : minv s -> wp count_restart s (mstep (fun _ _ => True) s).
Proof.
  intros Hi. pose proof Hi as (Hh & Hs & Hb & Hrd & Ht). unfold wp, count_restart.
  pose proof (tick_tick_ok (m_dec s) (m_st s) Hh Hs Hb) as H.
  destruct (tick _ _) as [[r d] st']. destruct H. cbn [fst snd]. split; msimp; auto.
  - unfold sinv. msimp. rewrite tk_rd0. auto.
  - rewrite tk_rd0. apply suffix_refl.
Qed.

Lemma parse_in_scan_step m s : minv s -> wp (parse_in_scan m) s (mstep (fun _ _ => True) s).
Proof.
  intros Hi. pose proof Hi as (Hh & Hs & Hb & Hrd & Ht). unfold wp, parse_in_scan.
  pose proof (parse_marker_inner_step m (mkHst (m_dec s) (b_rd (m_st s))) Hh Hrd) as H. unfold wp in H.
  destruct (parse_marker_inner m _) as [r h]. cbn [fst snd] in *. destruct H as [I1 S1 F1 U1 P1 G1 O1].
  msimp_all. split; msimp; auto. unfold sinv. msimp. repeat (split; [assumption|]). split; [|exact Ht].
  eapply suffix_Forall; eauto.
Qed.

Lemma dc_at d i t : hinv d -> table_at (d_dcts d) i = Some t -> dc_ok t.
Proof.
  unfold table_at. intros ([? H ? ? ? ?] & _) E. destruct (zget (d_dcts d) i) as [o|] eqn:Eg; [|discriminate]. subst o.
  exact (Forall_zget _ _ _ _ Eg H).
Qed.
Lemma ac_at d i t : hinv d -> table_at (d_acts d) i = Some t -> ac_ok t.
Proof.
  unfold table_at. intros ([? ? ? H ? ?] & _) E. destruct (zget (d_acts d) i) as [o|] eqn:Eg; [|discriminate]. subst o.
  exact (Forall_zget _ _ _ _ Eg H).
Qed.

Lemma mcu_component_step g v j pos s : minv s -> wp (mcu_component g v j pos) s (mstep (fun _ _ => True) s).
Proof.
  intros Hi. unfold mcu_component. pose proof Hi as (Hh & _).
  eapply dstep_bind with (P := fun d s' => s' = s /\ d = m_dec s).
  { apply dstep_self; auto; [discriminate|]. intros a E. injection E as <-. auto. }
  intros d s0 _ _ [-> ->].
  eapply dstep_bind; [apply dstep_lift; [exact Hi|apply at_nofuel|intros; exact I]|]. intros c s1 Hi1 _ _.
  destruct (table_at (d_dcts (m_dec s)) _) as [dct|] eqn:E1; [|now apply dstep_fail].
  destruct (table_at (d_acts (m_dec s)) _) as [act|] eqn:E2; [|now apply dstep_fail].
  eapply dstep_bind; [apply decode_component_step; auto; [eapply dc_at; eauto|eapply ac_at; eauto]|]. intros _ s2 Hi2 _ _.
  eapply dstep_bind; [now apply count_restart_step|]. intros _ s3 Hi3 _ _.
  eapply dstep_bind with (P := fun _ _ => True).
  { apply dstep_self; auto; discriminate. }
  intros st s4 Hi4 _ _.
  assert (forall m, wp (parse_in_scan m ;;; ret true) s4 (mstep (fun _ _ => True) s4)) as Hp.
  { intros m. eapply dstep_bind; [now apply parse_in_scan_step|]. intros. now apply dstep_ret. }
  destruct (b_marker st) as [[]|]; auto; now apply dstep_ret.
Qed.

Lemma decode_mcu_step g v j s : minv s -> wp (decode_mcu g v j) s (mstep (fun _ _ => True) s).
Proof.
  intros Hi. unfold decode_mcu. eapply dstep_bind with (P := fun _ _ => True).
  { apply dstep_self; auto; discriminate. }
  intros d s1 Hi1 _ _. apply dstep_mfor_break; auto. intros. now apply mcu_component_step.
Qed.

Lemma alloc_row_ok : forall cs pos out ccap bias tmp,
  Forall (Forall in16) tmp ->
  match alloc_row cs pos out ccap bias tmp with Ok t => Forall (Forall in16) t | Fuel => False | _ => True end.
Proof.
  induction cs as [|c cs IH]; intros pos out ccap bias tmp Ht; cbn [alloc_row]; auto.
  destruct (_ <=? _); [|now apply IH]. unfold zupd. destruct (_ || _); [exact I|].
  apply IH. apply Forall_nupd; auto. apply Forall_zrepeat, in16_0.
Qed.

Lemma decode_row_step g s : minv s -> wp (decode_row g) s (mstep (fun _ _ => True) s).
Proof.
  intros Hi. unfold decode_row. eapply dstep_bind with (P := fun _ _ => True).
  { apply dstep_self; auto; discriminate. }
  intros d s1 Hi1 _ _.
  assert (Forall (Forall in16) [[]; []; []]) as H0 by repeat constructor.
  pose proof (alloc_row_ok (d_comps d) 0 (o_colorspace (d_opt d)) (g_ccap g) (g_bias g) _ H0) as Ha.
  eapply dstep_bind with (P := fun t _ => Forall (Forall in16) t).
  { apply dstep_lift; auto.
    - intros E. rewrite E in Ha. exact Ha.
    - intros a E. now rewrite E in Ha. }
  intros tmp s2 Hi2 _ Htmp.
  eapply dstep_bind with (P := fun _ _ => True).
  { pose proof Hi2 as (H1 & H2 & H3 & H4 & _). split; msimp; auto; try discriminate.
    - unfold sinv. msimp. auto.
    - apply suffix_refl.
    - apply same_setup_refl. }
  intros _ s3 Hi3 _ _.
  eapply dstep_bind.
  { apply dstep_mfor; auto. intros v s4 _ Hi4. apply dstep_mfor; auto. intros j s5 _ Hi5. now apply decode_mcu_step. }
  intros _ s6 Hi6 _ _. unfold wp. destruct (_ <=? _); cbn [fst snd]; [now apply dstep_self|].
  pose proof Hi6 as (H1 & H2 & H3 & H4 & H5). split; msimp; auto; try discriminate.
  - apply suffix_refl.
  - apply same_setup_refl.
Qed.
Lemma decode_rows_step g s : minv s -> wp (decode_rows g) s (mstep (fun _ _ => True) s).
Proof. intros Hi. unfold decode_rows. apply dstep_mfor; auto. intros. now apply decode_row_step. Qed.

(** The whole call, seen from the header state *)
Record hfin {A} (s : hst) (r : res A) (s' : hst) : Prop := {
  hf_inv : hinv (hd_dec s');
  hf_suf : suffix (hd_rd s') (hd_rd s);
  hf_fuel : r <> Fuel;
  hf_setup : same_setup (hd_dec s) (hd_dec s');
  hf_lim : good (hd_dec s) -> forall a, r = Ok a -> lim (hd_dec s') /\ i_comps (d_info (hd_dec s')) = zlen (d_comps (hd_dec s')) }.

Lemma bst_new_inv rd : ok_s (bst_new rd) /\ band2 (bst_new rd).
Proof. unfold ok_s, band2, bst_new. msimp. lia. Qed.

Lemma decode_baseline_fin h : hinv (hd_dec h) -> bytes h -> wp decode_baseline h (hfin h).
Proof.
  intros Hi Hb. unfold wp, decode_baseline.
  pose proof (baseline_setup_step (hd_dec h) Hi) as H. unfold wp in H.
  destruct (baseline_setup (hd_dec h)) as [r d]. cbn [fst snd] in H. destruct H as [I1 F1 U1 E1 G1].
  destruct r as [g|e|p|]; cbn [fst snd]; try congruence;
    try (split; msimp; auto; try discriminate; apply suffix_refl).
  assert (minv (mkMst d (bst_new (hd_rd h)) [] [])) as Hm.
  { destruct (bst_new_inv (hd_rd h)) as [A B]. unfold sinv. msimp. repeat (split; [assumption|]). constructor. }
  pose proof (decode_rows_step g _ Hm) as H. unfold wp in H.
  destruct (decode_rows g _) as [r s]. cbn [fst snd] in H. destruct H as [(I2 & _) S2 F2 U2 G2 O2]. msimp_all.
  pose proof (calm_run_jobs g (rev (m_jobs s))) as Hj.
  assert (forall q : res (list Z), q <> Fuel -> (forall x, q = Ok x -> exists y, r = Ok y) ->
    hfin h q (mkHst (m_dec s) (b_rd (m_st s)))) as Hdone.
  { intros q Hq Hok. split; msimp; auto.
    - eapply same_setup_trans; eauto.
    - intros Hg a Ea. destruct (Hok a Ea) as (y & Ey).
      destruct (G2 (G1 Hg g eq_refl) y Ey) as (A & B & _). auto. }
  destruct r as [y|e|p|]; cbn [fst snd]; try congruence;
    try (destruct (run_jobs g (rev (m_jobs s))); cbn [fst snd]; try (exfalso; exact Hj));
    apply Hdone; try discriminate; eauto.
Qed.

(** ** Progressive *)
Definition buf_ok (s : pst) : Prop := Forall (Forall in16) (p_buf s).
Notation pinv := (sinv p_dec p_st buf_ok).
Notation pstep := (dstep p_dec p_st buf_ok).

Lemma pstep_getp {B} (k : decoder -> M pst B) P s : wp (k (p_dec s)) s (pstep P s) -> wp (bind getp k) s (pstep P s).
Proof. auto. Qed.
Lemma pstep_getps {B} (k : bst -> M pst B) P s : wp (k (p_st s)) s (pstep P s) -> wp (bind getps k) s (pstep P s).
Proof. auto. Qed.
Lemma pstep_st {A} (m : M bst A) (Q : A -> Prop) s : pinv s -> wp m (p_st s) (fine Q (p_st s)) ->
  wp (on_st m) s (pstep (fun a s' => Q a /\ p_dec s' = p_dec s /\ p_buf s' = p_buf s) s).
Proof.
  intros Hi H. unfold wp, on_st in *. destruct (m (p_st s)) as [r st']. cbn [fst snd] in *.
  destruct H as [Hk Hr]. split; msimp.
  - apply (sinv_keep p_dec p_st buf_ok s); [exact Hi|exact Hk|apply Hi|apply Hi].
  - now apply keep_suffix.
  - destruct Hr as [(a & -> & _)|(e & ->)]; discriminate.
  - apply same_setup_refl.
  - auto.
  - intros a ->. destruct Hr as [(x & E & Hq)|(e & E)]; [|discriminate]. injection E as <-. auto.
Qed.
Lemma pstep_hd {A} (m : M hst A) P s : pinv s ->
  wp m (mkHst (p_dec s) (b_rd (p_st s))) (hstep P (mkHst (p_dec s) (b_rd (p_st s)))) ->
  wp (on_hd m) s (pstep (fun a s' => P a (mkHst (p_dec s') (b_rd (p_st s')))) s).
Proof.
  intros (Hh & Hs & Hb & Hrd & Ht) H. unfold wp, on_hd in *. destruct (m _) as [r h]. cbn [fst snd] in *.
  destruct H as [I1 S1 F1 U1 P1 G1 O1]. msimp_all. split; msimp; auto.
  - unfold sinv. msimp. repeat (split; [assumption|]). split; [|exact Ht]. eapply suffix_Forall; eauto.
  - intros a E. destruct h. now apply O1.
Qed.
Lemma count_restart_p_step s : pinv s -> wp count_restart_p s (pstep (fun _ s' => p_buf s' = p_buf s) s).
Proof.
  intros Hi. pose proof Hi as (Hh & Hs & Hb & Hrd & Ht). unfold wp, count_restart_p.
  pose proof (tick_tick_ok (p_dec s) (p_st s) Hh Hs Hb) as H.
  destruct (tick _ _) as [[r d] st']. destruct H. cbn [fst snd]. split; msimp; auto.
  - unfold sinv. msimp. rewrite tk_rd0. auto.
  - rewrite tk_rd0. apply suffix_refl.
Qed.
Lemma suffix_scan_marker : forall rd ff, suffix (snd (scan_marker rd ff)) rd.
Proof.
  induction rd as [|r t IH]; intros ff; cbn [scan_marker]; [apply suffix_refl|].
  destruct ff.
  - destruct (r =? 255); [eapply suffix_trans; [apply IH|apply suffix_cons]|].
    destruct (negb _); cbn [snd]; [apply suffix_cons|].
    destruct t; [apply suffix_nil|]. eapply suffix_trans; [apply IH|apply suffix_cons].
  - eapply suffix_trans; [apply IH|apply suffix_cons].
Qed.
Lemma get_marker_step s : pinv s -> wp get_marker s (pstep (fun _ _ => True) s).
Proof.
  intros (Hh & Hs & Hb & Hrd & Ht). unfold wp, get_marker. destruct (b_marker (p_st s)); cbn [fst snd].
  - split; msimp; auto; try discriminate; [unfold sinv; msimp; auto|apply suffix_refl|apply same_setup_refl].
  - pose proof (suffix_scan_marker (b_rd (p_st s)) false) as H. destruct (scan_marker _ _) as [m rd]. cbn [fst snd] in *.
    split; msimp; auto; try discriminate; [|apply same_setup_refl].
    unfold sinv. msimp. repeat (split; [assumption|]). split; [|exact Ht]. eapply suffix_Forall; eauto.
Qed.
Lemma prog_table_nofuel l i : prog_table l i <> Fuel.
Proof. unfold prog_table. destruct (zget l i) as [[t|]|]; discriminate. Qed.
Lemma prog_table_ok {P} l i t : prog_table l i = Ok t -> Forall (opt_all P) l -> P t.
Proof.
  unfold prog_table. destruct (zget l i) as [[t'|]|] eqn:E; try discriminate. intros H HF. injection H as <-.
  exact (Forall_zget _ _ _ _ E HF).
Qed.
Lemma get_block_step k start s : pinv s -> wp (get_block k start) s (pstep (fun b s' => blk b /\ s' = s) s).
Proof.
  intros Hi. pose proof Hi as (_ & _ & _ & _ & Ht). unfold wp, get_block. destruct (zget (p_buf s) k) as [c|] eqn:Ec.
  2:{ apply dstep_self; auto; discriminate. }
  destruct (slice c _ _) as [b|] eqn:Es; apply dstep_self; auto; try discriminate.
  intros a E. injection E as <-. split; auto. split; [apply zlen_slice in Es; lia|].
  eapply Forall_slice; [exact Es|]. eapply Forall_zget; eauto.
Qed.
Lemma put_block_step k start b s : pinv s -> blk b -> wp (put_block k start b) s (pstep (fun _ s' => True) s).
Proof.
  intros Hi [_ Hb]. pose proof Hi as (Hh & Hs & Hband & Hrd & Ht). unfold wp, put_block.
  destruct (zget (p_buf s) k) as [c|] eqn:Ec.
  2:{ apply dstep_self; auto; discriminate. }
  cbn [fst snd]. split; msimp; auto; try discriminate.
  - unfold sinv. msimp. repeat (split; [assumption|]). unfold buf_ok. msimp.
    apply Forall_zset; [exact Ht|]. apply Forall_splice; auto. eapply Forall_zget; eauto.
  - apply suffix_refl.
  - apply same_setup_refl.
Qed.
Lemma get_comp_step k s : pinv s -> wp (get_comp k) s (pstep (fun c s' => s' = s) s).
Proof. intros Hi. unfold get_comp. apply pstep_getp. apply dstep_lift; auto. apply at_nofuel. Qed.
Lemma set_pred_step k dc s : pinv s -> wp (set_pred k dc) s (pstep (fun _ s' => p_buf s' = p_buf s) s).
Proof.
  intros (Hh & Hs & Hband & Hrd & Ht). unfold wp, set_pred, modp. cbn [fst snd].
  change (match zget (d_comps (p_dec s)) k with Some c => _ | None => _ end) with (upd_pred (d_comps (p_dec s)) k dc).
  split; msimp; auto; try discriminate.
  - unfold sinv. msimp. split; [apply hinv_upd; [exact Hh|apply upd_pred_ok]|auto].
  - apply suffix_refl.
  - apply setup_comps.
  - intros Hg _ _. apply good_upd; [exact Hg|apply upd_pred_ok].
Qed.
Lemma prog_dc_step t k coef s : pinv s -> dc_ok t -> in16 coef ->
  wp (prog_dc t k coef) s (pstep (fun v s' => in16 v /\ p_buf s' = p_buf s) s).
Proof.
  intros Hi Ht Hc. pose proof Hi as (Hh & Hs & Hband & Hrd & Hb). unfold prog_dc. apply pstep_getp. destruct (_ =? 0).
  - eapply dstep_bind; [now apply get_comp_step|]. intros c s1 _ _ ->.
    eapply dstep_bind; [apply pstep_st; [exact Hi|now apply prog_dc_first_fine]|].
    intros [v dc] s2 Hi2 _ (Hv & _ & Eb). cbn [fst] in Hv.
    eapply dstep_bind; [now apply set_pred_step|]. intros u3 s3 Hi3 _ Eb3. apply dstep_ret; auto. split; [exact Hv|congruence].
  - eapply dstep_mono; [apply pstep_st; [exact Hi|now apply prog_dc_refine_fine]|]. intros a s' (H1 & _ & H3). auto.
Qed.

Lemma modps_step f s : pinv s -> ok_s (f (p_st s)) -> band2 (f (p_st s)) -> b_rd (f (p_st s)) = b_rd (p_st s) ->
  wp (modps f) s (pstep (fun _ s' => s' = mkPst (p_dec s) (f (p_st s)) (p_buf s)) s).
Proof.
  intros (Hh & Hs & Hband & Hrd & Hbuf) H1 H2 H3. unfold wp, modps. cbn [fst snd]. split; msimp; auto; try discriminate.
  - unfold sinv. msimp. rewrite H3. auto.
  - rewrite H3. apply suffix_refl.
  - apply same_setup_refl.
Qed.

Lemma pos_forward i j w p : 0 < w -> 0 <= j < w -> j <= p -> 
  i * (w + 1) + j + 1 <= (i + p / w) * (w + 1) + (p mod w + 1).
Proof.
  intros Hw Hj Hp. pose proof (Z.div_mod p w ltac:(lia)) as E.
  pose proof (Z.mod_pos_bound p w Hw). assert (0 <= p / w) by (apply Z.div_pos; lia).
  set (q := p / w) in *. set (r := p mod w) in *. clearbody q r.
  destruct (Z.eq_dec q 0); [subst q; lia|]. nia.
Qed.

Lemma scan_blocks_step : forall fuel k w h i j s, pinv s -> 0 <= w -> 0 <= j <= w -> 0 <= i ->
  h * (w + 1) - (i * (w + 1) + j) < Z.of_nat fuel ->
  wp (scan_blocks fuel k w h i j) s (pstep (fun _ _ => True) s).
Proof.
  induction fuel as [|f IH]; intros k w h i j s Hi Hw Hj Hi0 Hf; cbn [scan_blocks];
    (destruct (h <=? i) eqn:Eh; [now apply dstep_ret|]).
  - exfalso. nia.
  - destruct (w <=? j) eqn:Ew; [apply IH; auto; nia|].
    eapply dstep_bind; [now apply get_comp_step|]. intros c s1 _ _ ->. cbv zeta.
    eapply dstep_bind; [now apply get_block_step|]. intros b s1 _ _ [Hb ->].
    apply pstep_getp. pose proof Hi as (Hh & Hs & Hband & Hrd & Hbuf).
    eapply dstep_bind with (P := fun '(i', j') s' => 0 <= i' /\ 0 <= j' < w /\
        i * (w + 1) + j + 1 <= i' * (w + 1) + (j' + 1)).
    { assert (0 <= i /\ 0 <= j < w /\ i * (w + 1) + j + 1 <= i * (w + 1) + (j + 1)) as Hsame by lia.
      destruct (d_ss (p_dec s) =? 0).
      - eapply dstep_bind with (P := fun t s' => dc_ok t /\ s' = s).
        { apply dstep_lift; auto; [apply prog_table_nofuel|]. intros t Et. split; auto.
          eapply prog_table_ok; [exact Et|apply Hh]. }
        intros t s2 _ _ [Ht ->].
        eapply dstep_bind; [apply prog_dc_step; auto; now apply blk_zn|]. intros v s3 Hi3 _ [Hv _].
        eapply dstep_bind; [apply put_block_step; auto; now apply blk_zset|]. intros _ s4 Hi4 _ _.
        now apply dstep_ret.
      - eapply dstep_bind with (P := fun t s' => ac_ok t /\ s' = s).
        { apply dstep_lift; auto; [apply prog_table_nofuel|]. intros t Et. split; auto.
          eapply prog_table_ok; [exact Et|apply Hh]. }
        intros t s2 _ _ [[Ht Hac] ->]. destruct Hband as [Hb1 Hb2].
        destruct (d_ah (p_dec s) =? 0).
        + apply pstep_getps. destruct (0 <? b_eob (p_st s)) eqn:Ee.
          * eapply dstep_bind with (P := fun _ _ => True).
            { eapply dstep_mono; [apply modps_step; auto; split; assumption|auto]. }
            intros _ s3 Hi3 _ _. apply dstep_ret; auto.
            assert (0 <= (j + b_eob (p_st s) - 1) / w) by (apply Z.div_pos; lia).
            pose proof (Z.mod_pos_bound (j + b_eob (p_st s) - 1) w ltac:(lia)).
            pose proof (pos_forward i j w (j + b_eob (p_st s) - 1) ltac:(lia) ltac:(lia) ltac:(lia)).
            clear IH Hf Hsame. repeat split; try assumption; try lia.
          * eapply dstep_bind; [apply pstep_st; [exact Hi|now apply decode_mcu_ac_first_fine]|].
            intros b' s3 Hi3 _ (Hb' & _ & _).
            eapply dstep_bind; [now apply put_block_step|]. intros. now apply dstep_ret.
        + eapply dstep_bind; [apply pstep_st; [exact Hi|now apply decode_mcu_ac_refine_fine]|].
          intros b' s3 Hi3 _ (Hb' & _ & _).
          eapply dstep_bind; [now apply put_block_step|]. intros. now apply dstep_ret. }
    intros [i' j'] s2 Hi2 _ (Hi' & Hj' & Hpos).
    eapply dstep_bind; [now apply count_restart_p_step|]. intros _ s3 Hi3 _ _.
    apply IH; auto; lia.
Qed.

Lemma scan_dc_at_step t n c i j vs hs s : pinv s -> dc_ok t ->
  wp (scan_dc_at t n c i j vs hs) s (pstep (fun _ _ => True) s).
Proof.
  intros Hi Ht. unfold scan_dc_at. cbv zeta. apply dstep_get. pose proof Hi as (Hh & Hs & Hband & Hrd & Hbuf).
  eapply dstep_bind with (P := fun ch s' => Forall in16 ch /\ s' = s).
  { apply dstep_lift; auto; [apply at_nofuel|]. intros ch E. split; auto.
    destruct (at_cases (p_buf s) n) as [(x & Hx & E')|(_ & E')]; [|congruence].
    rewrite E' in E. injection E as <-. eapply Forall_zget; eauto. }
  intros ch s1 _ _ [Hch ->].
  eapply dstep_bind with (P := fun x s' => in16 x /\ s' = s).
  { apply dstep_lift; auto; [apply at_nofuel|]. intros y E. split; auto.
    destruct (at_cases ch (64 * (j * c_h c + hs + (i * c_v c + vs) * c_stride c / 8))) as [(x & Hx & E')|(_ & E')]; [|congruence].
    rewrite E' in E. injection E as <-. eapply Forall_zget; eauto. }
  intros coef s1 _ _ [Hcoef ->].
  eapply dstep_bind; [now apply prog_dc_step|]. intros v s2 Hi2 _ [Hv Eb].
  pose proof Hi2 as (Hh2 & Hs2 & Hband2 & Hrd2 & Hbuf2). unfold wp. cbn [fst snd]. split; msimp; auto; try discriminate.
  - unfold sinv. msimp. repeat (split; [assumption|]). unfold buf_ok. msimp.
    apply Forall_zset; [exact Hbuf2|]. now apply Forall_zset.
  - apply suffix_refl.
  - apply same_setup_refl.
Qed.
Lemma scan_dc_component_step i j k s : pinv s -> wp (scan_dc_component i j k) s (pstep (fun _ _ => True) s).
Proof.
  intros Hi. unfold scan_dc_component. apply pstep_getp.
  eapply dstep_bind with (P := fun n s' => s' = s).
  { apply dstep_lift; auto. apply at_nofuel. }
  intros n s1 _ _ ->. destruct (_ <=? n); [now apply dstep_fail|].
  eapply dstep_bind; [now apply get_comp_step|]. intros c s1 _ _ ->.
  eapply dstep_bind with (P := fun t s' => dc_ok t /\ s' = s).
  { apply dstep_lift; auto; [apply prog_table_nofuel|]. intros t Et. split; auto.
    eapply prog_table_ok; [exact Et|apply Hi]. }
  intros t s1 _ _ [Ht ->].
  eapply dstep_bind with (P := fun _ _ => True).
  { apply dstep_mfor; auto. intros vs s2 _ Hi2. apply dstep_mfor; auto. intros hs s3 _ Hi3. now apply scan_dc_at_step. }
  intros _ s4 Hi4 _ _. eapply dstep_mono; [now apply count_restart_p_step|auto].
Qed.

Lemma parse_entropy_step s : pinv s -> wp parse_entropy_coded_data s (pstep (fun _ _ => True) s).
Proof.
  intros Hi. unfold parse_entropy_coded_data. apply pstep_getp.
  eapply dstep_bind with (P := fun _ s' => s' = s).
  { apply dstep_lift; auto. apply check_dims_nofuel. }
  intros _ s1 _ _ ->.
  eapply dstep_bind; [apply modps_step; auto; [apply ok_reset|apply Hi]|]. intros _ s2 Hi2 _ _.
  eapply dstep_bind with (P := fun _ _ => True).
  { pose proof Hi2 as (Hh & Hs & Hband & Hrd & Hbuf). unfold wp, modp. cbn [fst snd]. split; msimp; auto; try discriminate.
    - unfold sinv. msimp. split; [apply hinv_upd; [exact Hh|apply map_pred_ok]|auto].
    - apply suffix_refl.
    - apply setup_comps.
    - intros Hg _ _. apply good_upd; [exact Hg|apply map_pred_ok]. }
  intros _ s3 Hi3 _ _. apply pstep_getp.
  destruct (_ <? _); [now apply dstep_fail|].
  assert (0 <= d_mcux (p_dec s3) /\ 0 <= d_mcuy (p_dec s3)) as [Hmx Hmy].
  { destruct Hi3 as ((_ & [? ? ? ? ? ? ? ? ? ? ? ? ? ? ? ?] & _) & _). auto. }
  destruct (d_nscans _ =? 1).
  - destruct (_ && _); [now apply dstep_fail|]. cbv zeta. destruct (_ <=? _); [now apply dstep_fail|].
    eapply dstep_bind; [now apply get_comp_step|]. intros c s4 _ _ ->.
    set (wh := if _ || _ then _ else _).
    assert (0 <= fst wh /\ 0 <= snd wh) as [Hw Hh].
    { unfold wh. pose proof (u16_range (i_width (d_info (p_dec s3)) + 7)).
      pose proof (u16_range (i_height (d_info (p_dec s3)) + 7)).
      destruct (_ || _); cbn [fst snd]; lia. }
    destruct wh as [w h]. cbn [fst snd] in *. apply scan_blocks_step; auto; try lia.

  - destruct (negb _); [now apply dstep_fail|].
    apply dstep_mfor; auto. intros i s4 _ Hi4. apply dstep_mfor; auto. intros j s5 _ Hi5.
    apply dstep_mfor; auto. intros k s6 _ Hi6. now apply scan_dc_component_step.
Qed.

Lemma scan_loop_step : forall fuel m seen s, pinv s -> (length (b_rd (p_st s)) < fuel)%nat ->
  wp (scan_loop fuel m seen) s (pstep (fun _ _ => True) s).
Proof.
  induction fuel as [|f IH]; intros m seen s Hi Hf; [lia|]. cbn [scan_loop].
  destruct (is_eoi m); [now apply dstep_ret|]. pose proof Hi as (Hh & Hs & Hband & Hrd & Hbuf).
  destruct m; try now apply dstep_ret.
  - eapply dstep_bind; [apply pstep_hd; [exact Hi|now apply parse_huffman_step]|]. intros u1 s1 Hi1 _ Hlt. msimp_in Hlt.
    eapply dstep_bind; [now apply get_marker_step|]. intros o s2 Hi2 S2 _.
    destruct o; [|now apply dstep_fail]. apply IH; auto. apply suffix_len in S2. lia.
  - eapply dstep_bind; [apply pstep_hd; [exact Hi|now apply parse_sos_step]|]. intros u1 s1 Hi1 _ [Hlt _]. msimp_in Hlt.
    apply pstep_getp.
    eapply dstep_bind.
    { apply modps_step; auto; try apply Hi1. unfold band2, update_progressive_params. msimp.
      destruct Hi1 as ((_ & [? ? ? ? ? ? ? ? ? ? ? ? ? ? ? ?] & _) & _). lia. }
    intros _ s2 Hi2 S2 _.
    eapply dstep_bind; [now apply parse_entropy_step|]. intros _ s3 Hi3 S3 _.
    eapply dstep_bind; [now apply get_marker_step|]. intros o s4 Hi4 S4 _.
    destruct o as [m'|]; [|now apply dstep_fail]. cbv zeta. apply pstep_getp.
    destruct (_ <? _); [now apply dstep_fail|].
    eapply dstep_bind; [apply modps_step; auto; [apply ok_reset|apply Hi4]|]. intros _ s5 Hi5 S5 _.
    apply IH; auto. apply suffix_len in S2, S3, S4, S5. lia.
Qed.

Lemma alloc_blocks_ok : forall n i w h comps buf, Forall (Forall in16) buf ->
  match alloc_blocks n i w h comps buf with Ok t => Forall (Forall in16) t | Fuel => False | _ => True end.
Proof.
  induction n as [|n IH]; intros i w h comps buf Hb; cbn [alloc_blocks]; auto.
  destruct (at_cases comps i) as [(c & _ & ->)|(_ & ->)]; [|exact I].
  unfold zupd. destruct (_ || _); [exact I|]. apply IH. apply Forall_nupd; auto. apply Forall_zrepeat, in16_0.
Qed.

(** [finish_setup] keeps the invariant and the frame header, not the shape of the components *)
Record dec_fin {A} (d : decoder) (r : res A) (d' : decoder) : Prop := {
  df_inv : hinv d';
  df_fuel : r <> Fuel;
  df_setup : same_setup d d';
  df_info : d_info d' = d_info d;
  df_len : zlen (d_comps d') = zlen (d_comps d) }.
Lemma fin_bind {A B} (m : M decoder A) (k : A -> M decoder B) d :
  wp m d (dec_fin d) -> (forall a d', hinv d' -> wp (k a) d' (dec_fin d')) -> wp (bind m k) d (dec_fin d).
Proof.
  intros Hm Hk. unfold wp, bind in *. destruct (m d) as [r s1]. cbn [fst snd] in Hm.
  destruct Hm as [I1 F1 U1 E1 L1]. destruct r as [a|e|p|]; cbn [fst snd].
  - specialize (Hk a s1 I1). destruct (k a s1) as [r2 s2]. cbn [fst snd] in *.
    destruct Hk as [I2 F2 U2 E2 L2]. split; auto; [eapply same_setup_trans; eauto|congruence|congruence].
  - split; auto; discriminate.
  - split; auto; discriminate.
  - congruence.
Qed.
Lemma fin_self {A} (r : res A) d : hinv d -> r <> Fuel -> dec_fin d r d.
Proof. intros. split; auto. apply same_setup_refl. Qed.
Lemma fin_modify f d : hinv (f d) -> same_setup d (f d) -> d_info (f d) = d_info d -> d_comps (f d) = d_comps d ->
  wp (modify f) d (dec_fin d).
Proof. intros H1 H2 H3 E. split; auto; [discriminate|]. unfold modify. cbn [snd]. now rewrite E. Qed.
Lemma samplers_fin u d : hinv d -> wp (set_up_samplers u) d (dec_fin d).
Proof.
  intros Hi. pose proof (samplers_step u d Hi) as H. unfold wp, set_up_samplers in *.
  destruct (d_comps d) as [|c rest] eqn:E; cbn [fst snd] in *; destruct H; split; auto.
  msimp. rewrite E. unfold zlen. cbn [length]. now rewrite map_length.
Qed.
Lemma set_upsampling_fin d : hinv d -> wp set_upsampling d (dec_fin d).
Proof.
  intros Hi. unfold set_upsampling.
  match goal with |- wp (bind get ?k) d _ => change (wp (k d) d (dec_fin d)) end. cbv beta.
  pose proof Hi as (_ & [? ? ? ? ? ? ? ? ? ? ? ? ? ? ? ?] & _).
  assert (forall r u, wp (modify (set_d_ratio r) ;;; set_up_samplers u) d (dec_fin d)) as H.
  { intros r u. eapply fin_bind; [apply fin_modify; auto; [now apply (hinv_numsame d)|now apply setup_same]|].
    intros. now apply samplers_fin. }
  destruct (_ && _); [now apply fin_self|].
  repeat (destruct (_ && _); [apply H|]). now apply fin_self.
Qed.
Lemma reset_grayscale_p_fin w d : hinv d -> 0 <= w -> wp (reset_grayscale_p w) d (dec_fin d).
Proof.
  intros Hi Hw. unfold reset_grayscale_p.
  assert (forall d, hinv d -> 1 <= d_hmax d <= 8 /\ 1 <= d_vmax d <= 8) as Hm.
  { intros d0 (_ & [? ? ? ? ? ? ? ? ? ? ? ? ? ? ? ?] & _). auto. }
  eapply fin_bind; [apply fin_modify; auto; [apply (hinv_numsame d); auto; try apply (Hm _ Hi); msimp; lia|now apply setup_same]|].
  intros _ d1 Hi1.
  eapply fin_bind; [apply fin_modify; auto; [apply (hinv_numsame d1); auto; try apply (Hm _ Hi1); msimp; lia|now apply setup_same]|].
  intros _ d2 Hi2.
  eapply fin_bind; [apply fin_modify; auto; [apply (hinv_numsame d2); auto; apply (Hm _ Hi2)|now apply setup_same]|].
  intros _ d3 Hi3. unfold wp, set_comp0. destruct (d_comps d3) as [|c rest] eqn:E; cbn [fst snd].
  - apply fin_self; auto. discriminate.
  - split; auto; try discriminate.
    + apply hinv_comps; auto. pose proof Hi3 as (_ & _ & Hc). rewrite E in Hc. inversion Hc as [|? ? [? ? ? ? ? ? ?] Hr]; subst.
      constructor; auto. split; msimp; auto; lia.
    + apply setup_comps.
    + msimp. now rewrite E.
Qed.
Lemma finish_setup_fin w d : hinv d -> 0 <= w -> wp (finish_setup w) d (dec_fin d).
Proof.
  intros Hi Hw. unfold finish_setup.
  eapply fin_bind; [now apply set_upsampling_fin|]. intros _ d1 Hi1.
  match goal with |- wp (bind get ?k) d1 _ => change (wp (k d1) d1 (dec_fin d1)) end. cbv beta zeta.
  set (w' := if ratio_is_h _ then _ else _).
  assert (0 <= w') as Hw' by (unfold w'; destruct (ratio_is_h _); lia).
  eapply fin_bind.
  { destruct (_ && _); [|now apply fin_self]. destruct (o_strict _); [now apply fin_self|].
    eapply fin_bind; [now apply reset_grayscale_p_fin|]. intros. now apply fin_self. }
  intros bias d2 Hi2. match goal with |- wp (bind get ?k) d2 _ => change (wp (k d2) d2 (dec_fin d2)) end. cbv beta zeta.
  eapply fin_bind; [apply fin_self; [exact Hi2|apply at_nofuel]|]. intros c0 d3 Hi3. now apply fin_self.
Qed.

Lemma calm_prog_jobs g d buf : calm (prog_jobs g d buf).
Proof.
  unfold prog_jobs. destruct (_ =? 0); [exact I|].
  pose proof (calm_chunks (g_ccap g) (chan buf 0)) as H. destruct (chunks_exact (g_ccap g) (chan buf 0)); auto.
  destruct (_ =? 3); [|exact I].
  destruct (at_cases (d_comps d) 1) as [(c & _ & ->)|(_ & ->)]; [|exact I].
  destruct (chunks_exact _ (chan buf 1)); auto; try exact I. destruct (chunks_exact _ (chan buf 2)); exact I.
Qed.

(** What the last part of a progressive decode does *)
Record pfin {A} (s : pst) (r : res A) (s' : pst) : Prop := {
  pf_inv : hinv (p_dec s');
  pf_suf : suffix (b_rd (p_st s')) (b_rd (p_st s));
  pf_fuel : r <> Fuel;
  pf_setup : same_setup (p_dec s) (p_dec s');
  pf_lim : good (p_dec s) -> forall a, r = Ok a -> lim (p_dec s') /\ i_comps (d_info (p_dec s')) = zlen (d_comps (p_dec s')) }.
Lemma pfin_bind {A B} (m : M pst A) (k : A -> M pst B) P s :
  wp m s (pstep P s) -> (forall a s', pinv s' -> suffix (b_rd (p_st s')) (b_rd (p_st s)) -> P a s' -> wp (k a) s' (pfin s')) ->
  wp (bind m k) s (pfin s).
Proof.
  intros Hm Hk. unfold wp, bind in *. destruct (m s) as [r s1]. cbn [fst snd] in Hm.
  destruct Hm as [I1 S1 F1 U1 G1 O1].
  destruct r as [a|e|p|]; cbn [fst snd].
  - specialize (Hk a s1 I1 S1 (O1 a eq_refl)). destruct (k a s1) as [r2 s2]. cbn [fst snd] in *.
    destruct Hk as [I2 S2 F2 U2 G2]. split; auto.
    + eapply suffix_trans; eauto.
    + eapply same_setup_trans; eauto.
    + intros Hg. apply G2. eauto.
  - split; auto; try discriminate; apply I1.
  - split; auto; try discriminate; apply I1.
  - congruence.
Qed.
Lemma lim_same d d' : lim d -> d_info d' = d_info d -> same_setup d d' -> lim d'.
Proof. intros Hl E (HO & _). unfold lim. now rewrite E, HO. Qed.

Lemma finish_fin w s : pinv s -> 0 <= w -> wp (finish_progressive_decoding w) s (pfin s).
Proof.
  intros (Hh & _) Hw. unfold wp, finish_progressive_decoding, bind, on_dec, get, lift, ret.
  pose proof (finish_setup_fin w (p_dec s) Hh Hw) as H. unfold wp in H.
  destruct (finish_setup w (p_dec s)) as [r d]. cbn [fst snd] in H. destruct H as [I1 F1 U1 E1 L1].
  assert (forall r : res (list Z), r <> Fuel -> pfin s r (mkPst d (p_st s) (p_buf s))) as Hdone.
  { intros q Hq. split; msimp; auto; [apply suffix_refl|]. intros (Ha & Hb & _) x _. split; [|congruence].
    now apply (lim_same (p_dec s)). }
  destruct r as [g|e|p|]; cbn [fst snd]; try congruence; try (apply Hdone; discriminate).
  msimp.
  pose proof (calm_prog_jobs g d (p_buf s)) as Hj. destruct (prog_jobs g d (p_buf s)) as [jobs| | |];
    cbn [fst snd]; try (exfalso; exact Hj); [|now apply Hdone].
  pose proof (calm_run_jobs g jobs) as Hr. destruct (run_jobs g jobs); cbn [fst snd]; try (exfalso; exact Hr); now apply Hdone.
Qed.

Lemma progressive_scans_fin w s : pinv s -> 0 <= w -> wp (progressive_scans w) s (pfin s).
Proof.
  intros Hi Hw. unfold progressive_scans.
  eapply pfin_bind; [now apply parse_entropy_step|]. intros _ s1 Hi1 _ _.
  match goal with |- wp (bind getps ?k) s1 _ => change (wp (k (p_st s1)) s1 (pfin s1)) end. cbv beta.
  destruct (b_marker (p_st s1)) as [m|].
  2:{ split; auto; try discriminate; [apply Hi1|apply suffix_refl|apply same_setup_refl]. }
  eapply pfin_bind; [apply modps_step; auto; apply Hi1|]. intros _ s2 Hi2 S2 _.
  eapply pfin_bind; [apply scan_loop_step; auto; apply suffix_len in S2; lia|]. intros _ s3 Hi3 S3 _.
  apply finish_fin; auto. lia.
Qed.

Lemma decode_progressive_fin h : hinv (hd_dec h) -> bytes h -> wp decode_progressive h (hfin h).
Proof.
  intros Hi Hb. unfold wp, decode_progressive. cbv zeta. destruct (prog_counts (hd_dec h)) as [w hh] eqn:Ec.
  assert (0 <= w) as Hw.
  { destruct Hi as (_ & [? ? ? ? ? ? ? ? ? ? ? ? ? ? ? ?] & _). unfold prog_counts in Ec. destruct (d_inter _); injection Ec as <- <-; [auto|lia]. }
  assert (forall r : res (list Z), r <> Fuel -> (forall a, r <> Ok a) -> hfin h r h) as Hself.
  { intros r Hr Hok. split; auto; [apply suffix_refl|apply same_setup_refl|]. intros _ a E. now apply Hok in E. }
  pose proof (check_dims_nofuel (hd_dec h)) as Hc. destruct (check_component_dimensions (hd_dec h)); cbn [rbind];
    try congruence; try (apply Hself; discriminate).
  assert (Forall (Forall in16) [[]; []; []]) as H0 by repeat constructor.
  pose proof (alloc_blocks_ok (Z.to_nat (num_components (d_incs (hd_dec h)))) 0 w hh (d_comps (hd_dec h)) _ H0) as Ha.
  destruct (alloc_blocks _ _ _ _ _ _) as [buf| | |]; try (exfalso; exact Ha); try (apply Hself; discriminate).
  set (s0 := mkPst _ _ buf).
  assert (pinv s0) as Hp.
  { unfold s0, sinv, bst_new_progressive, ok_s, band2, buf_ok. msimp. split; [exact Hi|]. split; [lia|].
    split; [destruct Hi as (_ & [? ? ? ? ? ? ? ? ? ? ? ? ? ? ? ?] & _); lia|]. split; [exact Hb|exact Ha]. }
  pose proof (progressive_scans_fin w s0 Hp Hw) as H. unfold wp in H.
  destruct (progressive_scans w s0) as [r s]. cbn [fst snd] in *. destruct H as [I1 S1 F1 U1 G1].
  split; msimp; auto.
Qed.

Lemma decode_internal_fin h : hinv (hd_dec h) -> bytes h -> wp decode_internal h (hfin h).
Proof.
  intros Hi Hb. unfold wp, decode_internal, bind, getd.
  pose proof (decode_headers_step h Hi Hb) as H. unfold wp in H. destruct (decode_headers h) as [r s1].
  cbn [fst snd] in H. destruct H as [I1 S1 F1 U1 P1 G1 O1].
  destruct r as [a|e|p|]; cbn [fst snd]; try congruence; try (split; auto; discriminate).
  assert (bytes s1) as Hb1 by (eapply suffix_Forall; eauto).
  assert (wp (if d_prog (hd_dec s1) then decode_progressive else decode_baseline) s1 (hfin s1)) as H.
  { destruct (d_prog (hd_dec s1)); [now apply decode_progressive_fin|now apply decode_baseline_fin]. }
  unfold wp in H. destruct ((if d_prog (hd_dec s1) then decode_progressive else decode_baseline) s1) as [r2 s2]. cbn [fst snd] in *.
  destruct H as [I2 S2 F2 U2 G2]. split; auto.
  - eapply suffix_trans; eauto.
  - eapply same_setup_trans; eauto.
  - intros Hg. apply G2. eauto.
Qed.
