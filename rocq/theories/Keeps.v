(** What parts of the code leave alone, whatever the outcome. *)
From Coq Require Import ZArith String List Bool Lia.
From Coq Require Import ZifyBool ZifyNat ZifyN.
From Verif Require Import Base Types Huffman State Bitstream Headers Worker Mcu McuProg Decoder
  BaseFacts HeaderFacts.
Import ListNotations.
Local Open Scope Z_scope.
Local Open Scope m_scope.

Definition keeps {S X A} (f : S -> X) (m : M S A) : Prop := forall s, f (snd (m s)) = f s.

Section Rules.
  Context {S X : Type} (f : S -> X).
  Lemma keeps_bind {A B} (m : M S A) (k : A -> M S B) :
    keeps f m -> (forall a, keeps f (k a)) -> keeps f (bind m k).
  Proof.
    intros Hm Hk s. specialize (Hm s). unfold bind. destruct (m s) as [r s1]. cbn [snd] in Hm.
    destruct r; cbn [snd]; auto. rewrite Hk. exact Hm.
  Qed.
  Lemma keeps_get {B} (k : S -> M S B) : (forall a, keeps f (k a)) -> keeps f (bind get k).
  Proof. intros H s. apply H. Qed.
  Lemma keeps_ret {A} (a : A) : keeps f (ret a). Proof. now intros s. Qed.
  Lemma keeps_fail {A} e : keeps f (@fail S A e). Proof. now intros s. Qed.
  Lemma keeps_panic {A} e : keeps f (@panic S A e). Proof. now intros s. Qed.
  Lemma keeps_fuel {A} : keeps f (@outoffuel S A). Proof. now intros s. Qed.
  Lemma keeps_lift {A} (r : res A) : keeps f (lift r). Proof. now intros s. Qed.
  Lemma keeps_modify g : (forall s, f (g s) = f s) -> keeps f (modify g). Proof. intros H s. apply H. Qed.
  Lemma keeps_mfor (body : Z -> M S unit) : (forall i, keeps f (body i)) -> forall n i, keeps f (mfor n i body).
  Proof.
    intros H. induction n; intros i; cbn [mfor]; [apply keeps_ret|].
    apply keeps_bind; auto.
  Qed.
  Lemma keeps_map_err {A} e (m : M S A) : keeps f m -> keeps f (map_err e m).
  Proof. intros H s. specialize (H s). unfold map_err. destruct (m s) as [[] s1]; exact H. Qed.
End Rules.

(** * Header functions and the frame header *)
Definition hinfo (s : hst) : info := d_info (hd_dec s).
Lemma keeps_byte {X} (f : decoder -> X) : keeps (fun s => f (hd_dec s)) rd_byte.
Proof. intros s. unfold rd_byte. now destruct (hd_rd s). Qed.
Lemma keeps_u16 {X} (f : decoder -> X) : keeps (fun s => f (hd_dec s)) rd_u16.
Proof. intros s. unfold rd_u16. destruct (hd_rd s) as [|a [|b t]]; reflexivity. Qed.
Lemma keeps_exact {X} (f : decoder -> X) n e : keeps (fun s => f (hd_dec s)) (rd_exact n e).
Proof. intros s. unfold rd_exact. now destruct (slice _ _ _). Qed.
Lemma keeps_consume {X} (f : decoder -> X) n : keeps (fun s => f (hd_dec s)) (consume n).
Proof. intros s. reflexivity. Qed.
Lemma keeps_fuelof {X} (f : decoder -> X) : keeps (fun s => f (hd_dec s)) fuel_of.
Proof. intros s. reflexivity. Qed.
Lemma keeps_getd {X} (f : decoder -> X) : keeps (fun s => f (hd_dec s)) getd.
Proof. intros s. reflexivity. Qed.
Lemma keeps_modd {X} (f : decoder -> X) g : (forall d, f (g d) = f d) -> keeps (fun s => f (hd_dec s)) (modd g).
Proof. intros H s. apply H. Qed.

Ltac kstep :=
  lazymatch goal with
  | |- keeps _ (bind get _) => apply keeps_get; intros
  | |- keeps _ (bind _ _) => apply keeps_bind; [|intros]
  | |- keeps _ (ret _) => apply keeps_ret
  | |- keeps _ (fail _) => apply keeps_fail
  | |- keeps _ (panic _) => apply keeps_panic
  | |- keeps _ outoffuel => apply keeps_fuel
  | |- keeps _ (lift _) => apply keeps_lift
  | |- keeps _ (map_err _ _) => apply keeps_map_err
  | |- keeps _ rd_byte => apply keeps_byte
  | |- keeps _ rd_u16 => apply keeps_u16
  | |- keeps _ (rd_exact _ _) => apply keeps_exact
  | |- keeps _ (consume _) => apply keeps_consume
  | |- keeps _ fuel_of => apply keeps_fuelof
  | |- keeps _ getd => apply keeps_getd
  | |- keeps _ (modd _) => apply keeps_modd; reflexivity
  | |- keeps _ (modify _) => apply keeps_modify; reflexivity
  | |- keeps _ (mfor _ _ _) => apply keeps_mfor; intros
  | |- keeps _ (if ?b then _ else _) => destruct b
  | |- keeps _ (match ?x with _ => _ end) => destruct x
  | |- keeps _ (let _ := _ in _) => cbv zeta
  end.
Ltac ksteps := repeat kstep.

(** A field that neither DHT and SOS segments nor progressive decoding touch *)
Record untouched {X} (f : decoder -> X) : Prop := {
  un_dct : forall x d, f (set_d_dcts x d) = f d;
  un_act : forall x d, f (set_d_acts x d) = f d;
  un_nsc : forall x d, f (set_d_nscans x d) = f d;
  un_zo : forall x d, f (set_d_zorder x d) = f d;
  un_comps : forall x d, f (set_d_comps x d) = f d;
  un_todo : forall x d, f (set_d_todo x d) = f d;
  un_hmax : forall x d, f (set_d_hmax x d) = f d;
  un_vmax : forall x d, f (set_d_vmax x d) = f d;
  un_ratio : forall x d, f (set_d_ratio x d) = f d;
  un_ss : forall x d, f (set_d_ss x d) = f d;
  un_se : forall x d, f (set_d_se x d) = f d;
  un_ah : forall x d, f (set_d_ah x d) = f d;
  un_al : forall x d, f (set_d_al x d) = f d }.

Section Scan.
  Context {X} (f : decoder -> X) (U : untouched f).
  Let fh (s : hst) := f (hd_dec s).
  Lemma keeps_dht_loop : forall fuel len, keeps fh (dht_loop fuel len).
  Proof.
    induction fuel; intros len; cbn [dht_loop]; [ksteps|].
    destruct (len <=? 16); [ksteps|].
    unfold fh in *. ksteps; try apply IHfuel.
    - apply keeps_modd. intros. apply U.
    - apply keeps_modd. intros. apply U.
  Qed.
  Lemma keeps_parse_huffman : keeps fh parse_huffman.
  Proof. unfold parse_huffman, fh. ksteps. apply keeps_dht_loop. Qed.
  Lemma keeps_sos_components : forall n i seen, keeps fh (sos_components n i seen).
  Proof.
    induction n; intros i seen; cbn [sos_components]; unfold fh in *; [ksteps|].
    ksteps; try apply IHn. apply keeps_modd. intros. rewrite (un_zo _ U). apply U.
  Qed.
  Lemma keeps_parse_sos : keeps fh parse_sos.
  Proof.
    unfold parse_sos, fh. ksteps; try apply keeps_sos_components; apply keeps_modd; intros; apply U.
  Qed.

  (** * Progressive decoding *)
  Let fp (s : pst) := f (p_dec s).
  Lemma keeps_getp : keeps fp getp. Proof. now intros s. Qed.
  Lemma keeps_getps : keeps fp getps. Proof. now intros s. Qed.
  Lemma keeps_modps g : keeps fp (modps g). Proof. now intros s. Qed.
  Lemma keeps_modp g : (forall d, f (g d) = f d) -> keeps fp (modp g). Proof. intros H s. apply H. Qed.
  Lemma keeps_on_st {A} (m : M bst A) : keeps fp (on_st m).
  Proof. intros s. unfold on_st. now destruct (m (p_st s)). Qed.
  Lemma keeps_on_hd {A} (m : M hst A) : keeps fh m -> keeps fp (on_hd m).
  Proof.
    intros H s. specialize (H (mkHst (p_dec s) (b_rd (p_st s)))). unfold on_hd, fp, fh in *.
    now destruct (m _).
  Qed.
  Lemma keeps_on_dec {A} (m : M decoder A) : keeps f m -> keeps fp (on_dec m).
  Proof. intros H s. specialize (H (p_dec s)). unfold on_dec, fp. now destruct (m _). Qed.
  Lemma tick_keeps d st : f (snd (fst (tick d st))) = f d.
  Proof.
    unfold tick. cbv zeta. destruct (_ =? 0); [|apply U]. unfold handle_rst. cbv zeta.
    destruct (b_marker st) as [[]|]; cbn [fst snd]; rewrite ?(un_comps _ U), ?(un_todo _ U); reflexivity.
  Qed.
  Lemma keeps_count_restart_p : keeps fp count_restart_p.
  Proof.
    intros s. unfold count_restart_p, fp. pose proof (tick_keeps (p_dec s) (p_st s)) as H.
    destruct (tick (p_dec s) (p_st s)) as [[r d] st]. exact H.
  Qed.
  Lemma keeps_get_marker : keeps fp get_marker.
  Proof.
    intros s. unfold get_marker. destruct (b_marker _); [reflexivity|]. now destruct (scan_marker _ _).
  Qed.
  Lemma keeps_put_block k a b : keeps fp (put_block k a b).
  Proof. intros s. unfold put_block. now destruct (zget _ _). Qed.
  Lemma keeps_get_block k a : keeps fp (get_block k a).
  Proof. intros s. unfold get_block. destruct (zget _ _); [|reflexivity]. now destruct (slice _ _ _). Qed.
  Lemma keeps_set_pred k a : keeps fp (set_pred k a).
  Proof. apply keeps_modp. intros. apply U. Qed.
  Lemma keeps_get_comp k : keeps fp (get_comp k).
  Proof. unfold get_comp. ksteps. apply keeps_getp. Qed.

  Ltac pkstep :=
    first [ kstep
          | apply keeps_getp | apply keeps_getps | apply keeps_modps | apply keeps_on_st
          | apply keeps_count_restart_p | apply keeps_get_marker | apply keeps_put_block
          | apply keeps_get_block | apply keeps_set_pred | apply keeps_get_comp
          | apply keeps_on_hd; first [apply keeps_parse_huffman|apply keeps_parse_sos]
          | (apply keeps_modp; intros; apply U) ].
  Ltac pksteps := repeat pkstep.
  Lemma keeps_prog_dc t k c : keeps fp (prog_dc t k c).
  Proof. unfold prog_dc. pksteps. Qed.
  Lemma keeps_scan_blocks : forall fuel k w h i j, keeps fp (scan_blocks fuel k w h i j).
  Proof.
    induction fuel; intros; cbn [scan_blocks]; pksteps; try apply keeps_prog_dc; try apply IHfuel.
  Qed.
  Lemma keeps_scan_dc_at t n c i j v h : keeps fp (scan_dc_at t n c i j v h).
  Proof. unfold scan_dc_at. pksteps; first [apply keeps_prog_dc|now intros s]. Qed.
  Lemma keeps_parse_entropy : keeps fp parse_entropy_coded_data.
  Proof.
    unfold parse_entropy_coded_data, scan_dc_component.
    pksteps; try apply keeps_scan_blocks; apply keeps_scan_dc_at.
  Qed.
  Lemma keeps_scan_loop : forall fuel m seen, keeps fp (scan_loop fuel m seen).
  Proof.
    induction fuel; intros; cbn [scan_loop]; pksteps; try apply IHfuel; apply keeps_parse_entropy.
  Qed.
  Lemma keeps_samplers u : keeps f (set_up_samplers u).
  Proof. intros d. unfold set_up_samplers. destruct (d_comps d); [reflexivity|apply U]. Qed.
  Lemma keeps_set_comp0 g : keeps f (set_comp0 g).
  Proof. intros d. unfold set_comp0. destruct (d_comps d); [reflexivity|apply U]. Qed.
  Lemma keeps_set_upsampling : keeps f set_upsampling.
  Proof.
    unfold set_upsampling. ksteps; try apply keeps_samplers; apply keeps_modify; intros; apply U.
  Qed.
  Lemma keeps_finish_setup w : keeps f (finish_setup w).
  Proof.
    unfold finish_setup, reset_grayscale_p. apply keeps_bind; [apply keeps_set_upsampling|]. intros _.
    ksteps; try apply keeps_set_comp0; apply keeps_modify; intros; apply U.
  Qed.
  Lemma keeps_progressive_scans w : keeps fp (progressive_scans w).
  Proof.
    unfold progressive_scans, finish_progressive_decoding.
    pksteps; try apply keeps_parse_entropy; try apply keeps_scan_loop.
    apply keeps_on_dec, keeps_finish_setup.
  Qed.
  Lemma keeps_decode_progressive : keeps fh decode_progressive.
  Proof.
    intros h. unfold decode_progressive. cbv zeta. destruct (prog_counts _) as [w hh].
    destruct (rbind _ _) as [buf| | |]; try reflexivity.
    match goal with |- context [progressive_scans w ?s0] => pose proof (keeps_progressive_scans w s0) as H end.
    destruct (progressive_scans w _) as [r s]. exact H.
  Qed.
End Scan.

Lemma untouched_info : untouched d_info. Proof. now split. Qed.
Lemma untouched_opt : untouched d_opt. Proof. now split. Qed.
Lemma untouched_incs : untouched d_incs. Proof. now split. Qed.
Lemma untouched_prog : untouched d_prog. Proof. now split. Qed.
Lemma untouched_inter : untouched d_inter. Proof. now split. Qed.
Lemma untouched_qt : untouched d_qt. Proof. now split. Qed.
