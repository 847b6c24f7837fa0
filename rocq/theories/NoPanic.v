(** A scan of a baseline image without subsampling: whatever its bytes are, decoding it does
    not panic (C02). *)
From Coq Require Import ZArith String List Bool Lia.
From Coq Require Import ZifyBool ZifyNat ZifyN.
From Verif Require Import Base Types Huffman State Bitstream Headers Worker Mcu McuProg Decoder.
From Verif Require Import SpecSegments SpecSafe BaseFacts Keeps BlockSafe HeaderInv WorkerSafe DecodeInv.
From Verif Require Import Placement GrayImage ColourImage Sched.
Import ListNotations.
Local Open Scope Z_scope.
Local Open Scope m_scope.
Ltac Zify.zify_post_hook ::= Z.div_mod_to_equations.

(** * What the segments other than SOF leave alone *)
Definition geo (c : component) : component := set_c_dct 0 (set_c_act 0 (set_c_pred 0 c)).
Definition static (d : decoder) :=
  (d_incs d, d_opt d, d_info d, d_inter d, d_hmax d, d_vmax d, d_ratio d, d_mcux d, d_mcuy d, d_cc d, map geo (d_comps d)).
Definition hstatic (s : hst) := static (hd_dec s).

Lemma st_dht_loop : forall fuel len, keeps hstatic (dht_loop fuel len).
Proof.
  induction fuel; intros len; cbn [dht_loop]; unfold hstatic in *; [ksteps|].
  destruct (len <=? 16); [ksteps|]. ksteps; try apply IHfuel.
Qed.
Lemma st_dqt_loop : forall fuel len, keeps hstatic (dqt_loop fuel len).
Proof.
  induction fuel; intros len; cbn [dqt_loop]; unfold hstatic in *; [ksteps|].
  destruct (len <=? 0); [ksteps|]. ksteps; try apply IHfuel.
Qed.
Lemma st_skip m : keeps hstatic (skip_segment m).
Proof. unfold skip_segment, hstatic. ksteps. Qed.

Lemma map_nupd_same {A B} (f : A -> B) : forall l n x y, nth_error l n = Some x -> f y = f x -> map f (nupd l n y) = map f l.
Proof.
  induction l as [|a l IH]; intros [|n] x y E H; cbn in *; try discriminate.
  - injection E as ->. now rewrite H.
  - f_equal. eapply IH; eauto.
Qed.
Lemma map_zset_same {A B} (f : A -> B) l i x y : zget l i = Some x -> f y = f x -> map f (zset l i y) = map f l.
Proof. unfold zget, zset. destruct (i <? 0); [discriminate|]. intros. eapply map_nupd_same; eauto. Qed.

Lemma st_sos_components : forall n i seen, keeps hstatic (sos_components n i seen).
Proof.
  induction n as [|n IH]; intros i seen s; cbn [sos_components]; [reflexivity|].
  unfold bind at 1. pose proof (keeps_byte (fun d => d) s) as K1. destruct (rd_byte s) as [[id|e|p|] s1]; cbn [snd] in *; try (unfold hstatic; congruence).
  unfold bind at 1, getd at 1. set (d := hd_dec s1) in *. destruct (zlen (d_comps d) <? id); [unfold hstatic; cbn [fail snd]; now rewrite <- K1|].
  unfold bind at 1, lift at 1. destruct (at_ seen id) as [dup|e|p|]; cbn [snd]; try (unfold hstatic; now rewrite <- K1).
  destruct dup; [unfold hstatic; cbn [fail snd]; now rewrite <- K1|]. cbv zeta.
  unfold bind at 1. pose proof (keeps_byte (fun d => d) s1) as K2. fold d in K2; destruct (rd_byte s1) as [[y|e|p|] s2]; cbn [snd] in *; fold d in K2; try (unfold hstatic; congruence).
  unfold bind at 1, lift at 1. destruct (find_component _ _ _ _) as [[j|]|e|p|]; cbn [snd fail]; try (unfold hstatic; congruence).
  unfold bind at 1, lift at 1, at_. destruct (zget (d_comps d) j) as [c|] eqn:Ec; [|unfold hstatic; cbn [snd]; congruence].
  unfold bind at 1, modd at 1. rewrite IH. unfold hstatic, static. cbn [hd_dec]. rewrite K2. fold d. rewrite <- K1. fold d.
  cbn [d_incs d_opt d_info d_inter d_hmax d_vmax d_ratio d_mcux d_mcuy d_cc d_comps set_d_zorder set_d_comps]. f_equal.
  eapply map_zset_same; [exact Ec|]. now destruct c.
Qed.
Lemma st_parse_sos : keeps hstatic parse_sos.
Proof. unfold parse_sos. unfold hstatic. ksteps; apply st_sos_components. Qed.

Definition is_sof (m : marker) : Prop := match m with SOF _ => True | _ => False end.
Lemma st_marker m : ~ is_sof m -> keeps hstatic (parse_marker_inner m).
Proof.
  intros Hm. destruct m; cbn [parse_marker_inner is_sof] in *; try tauto; unfold hstatic; ksteps.
  - unfold parse_huffman. ksteps. apply st_dht_loop.
  - apply st_skip.
  - apply st_skip.
  - apply st_parse_sos.
  - unfold parse_dqt. ksteps. apply st_dqt_loop.
  - apply st_skip.
  - apply st_skip.
Qed.

(** * The geometry a frame header without subsampling sets up *)
Definition plain_comp (w : Z) (c : component) : Prop :=
  c_h c = 1 /\ c_v c = 1 /\ c_stride c = 8 * ((w + 7) / 8).
(** MCUs along a side, blocks of [8 * m] samples *)
Definition mcus (side m : Z) : Z := (side + 8 * m - 1) / (8 * m).
Record shape (d : decoder) : Prop := {
  sh_incs : d_incs d = YCbCr \/ d_incs d = GRAYSCALE /\ o_colorspace (d_opt d) = GRAYSCALE;
  sh_one : i_comps (d_info d) = 1 -> d_incs d = GRAYSCALE;
  sh_ratio : d_ratio d = RNone;
  sh_inter : d_inter d = negb (d_hmax d =? 1) || negb (d_vmax d =? 1);
  sh_comp : d_hmax d = 1 -> d_vmax d = 1 -> Forall (plain_comp (i_width (d_info d))) (d_comps d);
  sh_mcu : d_hmax d = 1 -> d_vmax d = 1 -> d_comps d <> [] ->
    d_mcux d = (i_width (d_info d) + 7) / 8 /\ d_mcuy d = (i_height (d_info d) + 7) / 8;
  sh_wide : forall c0 cr, d_comps d = c0 :: cr -> c_h c0 = d_hmax d -> c_v c0 = d_vmax d ->
    d_mcux d = mcus (i_width (d_info d)) (d_hmax d) /\ d_mcuy d = mcus (i_height (d_info d)) (d_vmax d) /\
    Forall (fun c => c_stride c = 8 * (d_mcux d * c_h c)) (d_comps d) }.

Lemma bind_inv {S A B} (m : M S A) (k : A -> M S B) s b s' :
  bind m k s = (Ok b, s') -> exists a s1, m s = (Ok a, s1) /\ k a s1 = (Ok b, s').
Proof. unfold bind. destruct (m s) as [[a| | |] s1]; try discriminate. eauto. Qed.
Lemma keeps_eq {X A} (f : decoder -> X) (m : M hst A) s r s' : keeps (fun s => f (hd_dec s)) m -> m s = (r, s') -> f (hd_dec s') = f (hd_dec s).
Proof. intros H E. specialize (H s). now rewrite E in H. Qed.
Lemma byte_dec s r s' : rd_byte s = (r, s') -> hd_dec s' = hd_dec s.
Proof. apply (keeps_eq (fun d => d)). exact (keeps_byte (fun d => d)). Qed.
Lemma u16_dec s r s' : rd_u16 s = (r, s') -> hd_dec s' = hd_dec s.
Proof. apply (keeps_eq (fun d => d)). exact (keeps_u16 (fun d => d)). Qed.
Lemma u16e_dec e s r s' : map_err e rd_u16 s = (r, s') -> hd_dec s' = hd_dec s.
Proof. apply (keeps_eq (fun d => d)), keeps_map_err. exact (keeps_u16 (fun d => d)). Qed.
Lemma modd_inv f s a s' : modd f s = (Ok a, s') -> hd_dec s' = f (hd_dec s).
Proof. unfold modd. intros E. injection E as _ <-. reflexivity. Qed.

(** A component as read: its stride is its horizontal factor *)
Definition fresh_comp (c : component) : Prop := c_stride c = c_h c /\ 1 <= c_h c /\ 1 <= c_v c.
Lemma component_fresh a b c x : component_from a b c = Ok x -> fresh_comp x.
Proof.
  unfold component_from. cbv zeta. destruct (match a with 1 => Some CY | 2 => Some CCb | 3 => Some CCr | _ => None end) as [cid|]; [|discriminate].
  destruct (4 <=? c); [discriminate|].
  destruct (is_power_of_two (shr b 4)) eqn:E1; [|discriminate]. destruct (is_power_of_two (Z.land b 15)) eqn:E2; [|discriminate].
  intros E. cbn [negb] in E. injection E as <-. unfold fresh_comp, is_power_of_two in *. cbn [c_stride c_h c_v]. lia.
Qed.
Lemma components_fresh : forall n s cs s', read_components n s = (Ok cs, s') -> Forall fresh_comp cs /\ hd_dec s' = hd_dec s.
Proof.
  induction n as [|n IH]; intros s cs s' E; cbn [read_components] in E.
  - injection E as <- <-. auto.
  - apply bind_inv in E. destruct E as (t & s1 & E1 & E). apply bind_inv in E. destruct E as (c & s2 & E2 & E).
    unfold lift in E2. injection E2 as E2 <-. apply bind_inv in E. destruct E as (rest & s3 & E3 & E). injection E as <- <-.
    apply IH in E3. destruct E3 as [F3 D3]. split; [constructor; [eapply component_fresh; eauto|exact F3]|].
    rewrite D3. exact (keeps_eq (fun d => d) _ _ _ _ (keeps_exact (fun d => d) _ _) E1).
Qed.

Lemma geometry_dec c d : let d' := sof_geometry c d in
  d_incs d' = d_incs d /\ d_opt d' = d_opt d /\ d_info d' = d_info d /\ d_ratio d' = d_ratio d /\
  d_hmax d' = Z.max (d_hmax d) (c_h c) /\ d_vmax d' = Z.max (d_vmax d) (c_v c) /\
  d_inter d' = d_inter d || negb (Z.max (d_hmax d) (c_h c) =? 1) || negb (Z.max (d_vmax d) (c_v c) =? 1) /\
  d_mcux d' = (i_width (d_info d) + 8 * Z.max (d_hmax d) (c_h c) - 1) / (8 * Z.max (d_hmax d) (c_h c)) /\
  d_mcuy d' = (i_height (d_info d) + 8 * Z.max (d_vmax d) (c_v c) - 1) / (8 * Z.max (d_vmax d) (c_v c)).
Proof.
  cbv zeta. unfold sof_geometry. cbv zeta. rewrite <- orb_assoc. rewrite !(Z.mul_comm 8).
  destruct (negb (Z.max (d_hmax d) (c_h c) =? 1) || negb (Z.max (d_vmax d) (c_v c) =? 1)); rewrite ?orb_true_r, ?orb_false_r; repeat split; reflexivity.
Qed.

Lemma sof_components_shape : forall cs s cs' s', sof_components cs s = (Ok cs', s') -> Forall fresh_comp cs ->
  1 <= d_hmax (hd_dec s) -> 1 <= d_vmax (hd_dec s) ->
  d_inter (hd_dec s) = negb (d_hmax (hd_dec s) =? 1) || negb (d_vmax (hd_dec s) =? 1) ->
  d_incs (hd_dec s') = d_incs (hd_dec s) /\ d_opt (hd_dec s') = d_opt (hd_dec s) /\ d_info (hd_dec s') = d_info (hd_dec s) /\
  d_ratio (hd_dec s') = d_ratio (hd_dec s) /\ d_hmax (hd_dec s) <= d_hmax (hd_dec s') /\ d_vmax (hd_dec s) <= d_vmax (hd_dec s') /\
  d_inter (hd_dec s') = negb (d_hmax (hd_dec s') =? 1) || negb (d_vmax (hd_dec s') =? 1) /\
  (d_hmax (hd_dec s') = 1 -> d_vmax (hd_dec s') = 1 -> Forall (plain_comp (i_width (d_info (hd_dec s)))) cs') /\
  (d_hmax (hd_dec s') = 1 -> d_vmax (hd_dec s') = 1 -> cs' <> [] ->
    d_mcux (hd_dec s') = (i_width (d_info (hd_dec s)) + 7) / 8 /\ d_mcuy (hd_dec s') = (i_height (d_info (hd_dec s)) + 7) / 8).
Proof.
  induction cs as [|c cs IH]; intros s cs' s' E Hf H1 H2 Hi; cbn [sof_components] in E.
  - injection E as <- <-. repeat (split; [reflexivity || lia || assumption|]). split; [intros _ _; constructor|congruence].
  - apply Forall_cons_iff in Hf. destruct Hf as [(F1 & F2 & F3) Hf].
    apply bind_inv in E. destruct E as (u & s1 & E1 & E). apply modd_inv in E1.
    apply bind_inv in E. destruct E as (d & s2 & E2 & E). unfold getd in E2. injection E2 as <- <-.
    destruct (nth _ _ None) as [qt|]; [|discriminate].
    apply bind_inv in E. destruct E as (rest & s3 & E3 & E). injection E as <- <-.
    pose proof (geometry_dec c (hd_dec s)) as G. cbv zeta in G. rewrite <- E1 in G. destruct G as (G1 & G2 & G3 & G4 & G5 & G6 & G7 & G8 & G9).
    destruct (IH _ _ _ E3 Hf) as (I1 & I2 & I3 & I4 & I5 & I6 & I7 & I8 & I9); [lia|lia| |].
    { rewrite G7, Hi, G5, G6. lia. }
    do 7 (split; [congruence || lia|]).
    split.
    2:{ intros X1 X2 _. rewrite G3 in I9. destruct rest as [|c1 rest]; [|apply I9; auto; discriminate].
        destruct cs as [|c2 cs].
        - injection E3 as <-. rewrite G8, G9. replace (Z.max (d_hmax (hd_dec s)) (c_h c)) with 1 by (clear G7 G8 G9; lia). replace (Z.max (d_vmax (hd_dec s)) (c_v c)) with 1 by (clear G7 G8 G9; lia). clear; lia.
        - exfalso. clear - E3. cbn [sof_components] in E3. apply bind_inv in E3. destruct E3 as (? & ? & _ & E). apply bind_inv in E. destruct E as (? & ? & _ & E).
          destruct (nth _ _ None); [|discriminate]. apply bind_inv in E. destruct E as (? & ? & _ & E). discriminate. }
    intros X1 X2. rewrite G3 in I8. constructor; [|now apply I8].
    unfold plain_comp. cbn [c_h c_v c_stride set_c_stride set_c_qt]. rewrite F1. split; [lia|]. split; [lia|].
    rewrite G8. replace (Z.max (d_hmax (hd_dec s)) (c_h c)) with 1 by (clear G7 G8 G9; lia). replace (c_h c) with 1 by (clear G7 G8 G9; lia). clear; lia.
Qed.

(** Components whose sampling factors do not exceed those seen before *)
Lemma sof_components_rest : forall cs s cs' s', sof_components cs s = (Ok cs', s') -> Forall fresh_comp cs ->
  d_hmax (hd_dec s) <= d_hmax (hd_dec s') /\ d_vmax (hd_dec s) <= d_vmax (hd_dec s') /\
  (d_hmax (hd_dec s') = d_hmax (hd_dec s) -> d_vmax (hd_dec s') = d_vmax (hd_dec s) ->
   d_mcux (hd_dec s) = mcus (i_width (d_info (hd_dec s))) (d_hmax (hd_dec s)) -> d_mcuy (hd_dec s) = mcus (i_height (d_info (hd_dec s))) (d_vmax (hd_dec s)) ->
   d_mcux (hd_dec s') = d_mcux (hd_dec s) /\ d_mcuy (hd_dec s') = d_mcuy (hd_dec s) /\ Forall (fun c => c_stride c = 8 * (d_mcux (hd_dec s) * c_h c)) cs').
Proof.
  induction cs as [|c cs IH]; intros s cs' s' E Hf; cbn [sof_components] in E.
  - injection E as <- <-. split; [lia|]. split; [lia|]. intros _ _ _ _. auto.
  - apply Forall_cons_iff in Hf. destruct Hf as [(F1 & F2 & F3) Hf].
    apply bind_inv in E. destruct E as (u & s1 & E1 & E). apply modd_inv in E1.
    apply bind_inv in E. destruct E as (d & s2 & E2 & E). unfold getd in E2. injection E2 as <- <-.
    destruct (nth _ _ None) as [qt|]; [|discriminate].
    apply bind_inv in E. destruct E as (rest & s3 & E3 & E). injection E as <- <-.
    pose proof (geometry_dec c (hd_dec s)) as G. cbv zeta in G. rewrite <- E1 in G. destruct G as (G1 & G2 & G3 & G4 & G5 & G6 & G7 & G8 & G9).
    destruct (IH _ _ _ E3 Hf) as (I1 & I2 & I3). split; [clear G7 G8 G9; lia|]. split; [clear G7 G8 G9; lia|]. intros X1 X2 X3 X4.
    assert (M1 : Z.max (d_hmax (hd_dec s)) (c_h c) = d_hmax (hd_dec s)) by (clear G7 G8 G9; lia). assert (M2 : Z.max (d_vmax (hd_dec s)) (c_v c) = d_vmax (hd_dec s)) by (clear G7 G8 G9; lia).
    rewrite M1 in *. rewrite M2 in *. fold (mcus (i_width (d_info (hd_dec s))) (d_hmax (hd_dec s))) in G8. fold (mcus (i_height (d_info (hd_dec s))) (d_vmax (hd_dec s))) in G9.
    destruct I3 as (J1 & J2 & J3); try congruence. rewrite <- X3 in G8. rewrite <- X4 in G9. rewrite G8 in *. rewrite G9 in *.
    split; [exact J1|]. split; [exact J2|]. constructor; [|exact J3]. cbn [c_stride c_h set_c_stride set_c_qt]. rewrite F1. ring.
Qed.
Lemma sof_components_wide cs s cs' s' : sof_components cs s = (Ok cs', s') -> Forall fresh_comp cs ->
  d_info (hd_dec s') = d_info (hd_dec s) ->
  forall c0 cr, cs' = c0 :: cr -> c_h c0 = d_hmax (hd_dec s') -> c_v c0 = d_vmax (hd_dec s') ->
    d_mcux (hd_dec s') = mcus (i_width (d_info (hd_dec s'))) (d_hmax (hd_dec s')) /\ d_mcuy (hd_dec s') = mcus (i_height (d_info (hd_dec s'))) (d_vmax (hd_dec s')) /\
    Forall (fun c => c_stride c = 8 * (d_mcux (hd_dec s') * c_h c)) cs'.
Proof.
  destruct cs as [|c cs]; intros E Hf Hi c0 cr Ec H1 H2; cbn [sof_components] in E.
  - injection E as <- _. discriminate.
  - apply Forall_cons_iff in Hf. destruct Hf as [(F1 & F2 & F3) Hf].
    apply bind_inv in E. destruct E as (u & s1 & E1 & E). apply modd_inv in E1.
    apply bind_inv in E. destruct E as (d & s2 & E2 & E). unfold getd in E2. injection E2 as <- <-.
    destruct (nth _ _ None) as [qt|]; [|discriminate].
    apply bind_inv in E. destruct E as (rest & s3 & E3 & E). injection E as E <-. rewrite <- E in Ec. injection Ec as Ec _. rewrite <- Ec in H1, H2.
    cbn [c_h c_v set_c_stride set_c_qt] in H1, H2.
    pose proof (geometry_dec c (hd_dec s)) as G. cbv zeta in G. rewrite <- E1 in G. destruct G as (G1 & G2 & G3 & G4 & G5 & G6 & G7 & G8 & G9).
    destruct (sof_components_rest _ _ _ _ E3 Hf) as (I1 & I2 & I3).
    assert (M1 : Z.max (d_hmax (hd_dec s)) (c_h c) = d_hmax (hd_dec s3)) by (clear G7 G8 G9; lia). assert (M2 : Z.max (d_vmax (hd_dec s)) (c_v c) = d_vmax (hd_dec s3)) by (clear G7 G8 G9; lia).
    rewrite M1 in *. rewrite M2 in *. rewrite Hi. fold (mcus (i_width (d_info (hd_dec s))) (d_hmax (hd_dec s3))) in G8. fold (mcus (i_height (d_info (hd_dec s))) (d_vmax (hd_dec s3))) in G9.
    destruct I3 as (J1 & J2 & J3); try congruence. rewrite J1, J2. split; [exact G8|]. split; [exact G9|]. rewrite <- E. constructor; [|exact J3].
    cbn [c_stride c_h set_c_stride set_c_qt]. rewrite F1. ring.
Qed.

Lemma sof_shape sof s s' : parse_start_of_frame sof s = (Ok tt, s') -> 1 <= d_hmax (hd_dec s) -> 1 <= d_vmax (hd_dec s) ->
  shape (hd_dec s) -> shape (hd_dec s').
Proof.
  intros E H1 H2 Hs. unfold parse_start_of_frame in E.
  apply bind_inv in E. destruct E as (len & s1 & E1 & E). apply u16e_dec in E1.
  apply bind_inv in E. destruct E as (prec & s2 & E2 & E). apply byte_dec in E2.
  destruct (negb (prec =? 8)); [discriminate|].
  apply bind_inv in E. destruct E as (u3 & s3 & E3 & E). apply modd_inv in E3.
  apply bind_inv in E. destruct E as (hh & s4 & E4 & E). apply u16e_dec in E4.
  apply bind_inv in E. destruct E as (u5 & s5 & E5 & E). apply modd_inv in E5.
  apply bind_inv in E. destruct E as (ww & s6 & E6 & E). apply u16e_dec in E6.
  apply bind_inv in E. destruct E as (u7 & s7 & E7 & E). apply modd_inv in E7.
  apply bind_inv in E. destruct E as (d7 & s7' & E8 & E). unfold getd in E8. injection E8 as <- <-.
  destruct (_ <? ww); [discriminate|]. destruct (_ <? hh); [discriminate|]. destruct (_ || _); [discriminate|].
  apply bind_inv in E. destruct E as (n & s8 & E8 & E). apply byte_dec in E8.
  destruct (n =? 0); [discriminate|]. cbv zeta in E. destruct (negb _); [discriminate|].
  apply bind_inv in E. destruct E as (u9 & s9 & E9 & E).
  apply bind_inv in E. destruct E as (u10 & s10 & E10 & E). apply modd_inv in E10.
  apply bind_inv in E. destruct E as (cs & s11 & E11 & E). apply components_fresh in E11. destruct E11 as [F11 E11].
  apply bind_inv in E. destruct E as (u12 & s12 & E12 & E). apply modd_inv in E12.
  apply bind_inv in E. destruct E as (cs' & s13 & E13 & E). apply modd_inv in E. rewrite E.
  destruct Hs as [A1 A2 A3 A4 A5 _ _].
  assert (D9 : (n = 1 /\ d_incs (hd_dec s9) = GRAYSCALE /\ o_colorspace (d_opt (hd_dec s9)) = GRAYSCALE \/
                n <> 1 /\ d_incs (hd_dec s9) = d_incs (hd_dec s) /\ o_colorspace (d_opt (hd_dec s9)) = o_colorspace (d_opt (hd_dec s))) /\
    d_hmax (hd_dec s9) = d_hmax (hd_dec s) /\ d_vmax (hd_dec s9) = d_vmax (hd_dec s) /\ d_inter (hd_dec s9) = d_inter (hd_dec s) /\
    d_ratio (hd_dec s9) = d_ratio (hd_dec s)).
  { destruct (n =? 1) eqn:En.
    - apply modd_inv in E9. rewrite E9, E8, E7, E6, E5, E4, E3, E2, E1. split; [left; split; [lia|]|]; repeat split; reflexivity.
    - injection E9 as _ <-. rewrite E8, E7, E6, E5, E4, E3, E2, E1. split; [right; split; [lia|]|]; repeat split; reflexivity. }
  destruct D9 as (Dn & D1 & D2 & D3 & D4).
  assert (D12 : d_incs (hd_dec s12) = d_incs (hd_dec s9) /\ d_opt (hd_dec s12) = d_opt (hd_dec s9) /\ d_hmax (hd_dec s12) = d_hmax (hd_dec s9) /\
    d_vmax (hd_dec s12) = d_vmax (hd_dec s9) /\ d_inter (hd_dec s12) = d_inter (hd_dec s9) /\ d_ratio (hd_dec s12) = d_ratio (hd_dec s9) /\
    i_comps (d_info (hd_dec s12)) = n).
  { rewrite E12, E11, E10. repeat split; reflexivity. }
  destruct D12 as (B1 & B2 & B3 & B4 & B5 & B6 & B7).
  destruct (sof_components_shape _ _ _ _ E13 F11) as (C1 & C2 & C3 & C4 & C5 & C6 & C7 & C8 & C9); [congruence|congruence|congruence|].
  split; cbn [d_incs d_opt d_info d_ratio d_inter d_hmax d_vmax d_mcux d_mcuy d_cc d_comps set_d_comps set_d_qt].
  - rewrite C1, C2, B1, B2. destruct Dn as [(_ & N1 & N2)|(_ & N1 & N2)]; [right; auto|]. rewrite N1, N2. exact A1.
  - rewrite C3, B7, C1, B1. intros N. destruct Dn as [(_ & N1 & N2)|(N0 & _)]; [exact N1|lia].
  - congruence.
  - exact C7.
  - rewrite C3. exact C8.
  - rewrite C3. exact C9.
  - exact (sof_components_wide _ _ _ _ E13 F11 C3).
Qed.

Lemma shape_static d d' : static d' = static d -> shape d -> shape d'.
Proof.
  unfold static. intros E [A1 A2 A3 A4 A5 A6 A7]. injection E as E1 E2 E3 E4 E5 E6 E7 M1 M2 _ E8.
  split; rewrite ?E1, ?E2, ?E3, ?E4, ?E5, ?E6, ?E7; auto.
  3:{ intros c0 cr Ec H1 H2. rewrite M1, M2. destruct (d_comps d) as [|c0' cr'] eqn:Ed; [rewrite Ec in E8; discriminate|].
      assert (Hg : forall c c', geo c = geo c' -> c_h c = c_h c' /\ c_v c = c_v c' /\ c_stride c = c_stride c').
      { intros c c' Hg. change (c_h c) with (c_h (geo c)). change (c_v c) with (c_v (geo c)). change (c_stride c) with (c_stride (geo c)). rewrite Hg. auto. }
      assert (E0 : geo c0 = geo c0') by (rewrite Ec in E8; cbn [map] in E8; congruence). destruct (Hg _ _ E0) as (G1 & G2 & _).
      destruct (A7 c0' cr' eq_refl) as (B1 & B2 & B3); [congruence|congruence|]. split; [exact B1|]. split; [exact B2|].
      clear - E8 B3 Hg. revert E8 B3. generalize (d_comps d') (c0' :: cr'). induction l as [|x l IH]; intros [|y l'] E8 B3; try discriminate; constructor.
      - cbn [map] in E8. assert (E : geo x = geo y) by congruence. apply Forall_cons_iff in B3. destruct B3 as [B _]. destruct (Hg _ _ E) as (-> & _ & ->). exact B.
      - cbn [map] in E8. apply Forall_cons_iff in B3. apply (IH l'); [congruence|tauto]. }
  2:{ rewrite M1, M2. intros X Y Z. apply A6; auto. intros N. rewrite N in E8. destruct (d_comps d'); [congruence|discriminate]. }
  intros X Y. specialize (A5 X Y).
  clear - E8 A5. revert E8. generalize (d_comps d'). induction (d_comps d) as [|c cs IH]; intros [|c' cs'] E8; try discriminate; constructor.
  - cbn [map] in E8. assert (E : geo c' = geo c) by congruence. apply Forall_cons_iff in A5. destruct A5 as [A _]. change (plain_comp (i_width (d_info d)) (geo c')). rewrite E. exact A.
  - cbn [map] in E8. assert (E : map geo cs' = map geo cs) by congruence. apply Forall_cons_iff in A5. apply IH; tauto.
Qed.

Lemma marker_shape m s s' : hinv (hd_dec s) -> parse_marker_inner m s = (Ok tt, s') -> shape (hd_dec s) -> shape (hd_dec s').
Proof.
  intros Hi E Hs. assert (Hm : ~ is_sof m -> shape (hd_dec s')).
  { intros Hm. pose proof (st_marker m Hm s) as K. rewrite E in K. exact (shape_static _ _ K Hs). }
  destruct m as [v| | | | | | | | | | |]; try (apply Hm; cbn [is_sof]; tauto). clear Hm.
  assert (1 <= d_hmax (hd_dec s) /\ 1 <= d_vmax (hd_dec s)) as [H1 H2] by (destruct Hi as (_ & [] & _); lia).
  cbn [parse_marker_inner] in E.
  assert (Hu : (match unsupported_from_int v with Some f => fail (EUnsupported f)
                | None => fail (EFormat "Unsupported image format" []) end) s = (Ok tt, s') -> shape (hd_dec s')).
  { destruct (unsupported_from_int v); discriminate. }
  destruct v as [|[p|[p|p|]|]|p]; try exact (Hu E).
  - eapply sof_shape; eauto.
  - apply bind_inv in E. destruct E as (u & s1 & E1 & E). apply modd_inv in E1.
    eapply sof_shape; [exact E|rewrite E1; exact H1|rewrite E1; exact H2|]. rewrite E1. apply (shape_static (hd_dec s)); [reflexivity|exact Hs].
Qed.

Lemma loop_shape : forall fuel last before s s', hinv (hd_dec s) -> bytes s ->
  header_loop fuel last before s = (Ok tt, s') -> shape (hd_dec s) -> shape (hd_dec s').
Proof.
  induction fuel as [|f IH]; intros last before s s' Hi Hb E Hs; [discriminate|]. cbn [header_loop] in E.
  apply bind_inv in E. destruct E as (m & s1 & E1 & E). cbv zeta in E.
  assert (D1 : hd_dec s1 = hd_dec s) by (eapply byte_dec; eauto).
  assert (Hb1 : bytes s1).
  { pose proof (hstep_byte (G := good) s Hi Hb) as W. unfold wp in W. rewrite E1 in W. destruct W as [_ S1 _ _ _ _ _]. eapply suffix_Forall; eauto. }
  assert (Hi1 : hinv (hd_dec s1)) by (rewrite D1; exact Hi).
  assert (Hs1 : shape (hd_dec s1)) by (rewrite D1; exact Hs).
  assert (Hnext : forall b s2, hinv (hd_dec s2) -> bytes s2 -> shape (hd_dec s2) ->
    bind getd (fun d => if o_strict (d_opt d) && (3 <? b + 1) then fail (EFormatStatic "[strict-mode]: Extra bytes between headers")
       else header_loop f m (b + 1)) s2 = (Ok tt, s') -> shape (hd_dec s')).
  { intros b s2 Hi2 Hb2 Hs2 E2. unfold bind, getd in E2. destruct (_ && _); [discriminate|]. eapply IH; eauto. }
  destruct (last =? 255).
  - destruct (marker_from_u8 m) as [n|].
    + apply bind_inv in E. destruct E as ([] & s2 & E2 & E).
      pose proof (parse_marker_inner_step n s1 Hi1 Hb1) as W. unfold wp in W. rewrite E2 in W. destruct W as [Hi2 S2 _ _ _ _ _]. cbn [snd] in *.
      pose proof (marker_shape n s1 s2 Hi1 E2 Hs1) as Hs2.
      destruct (is_sos n); [injection E as <-; exact Hs2|]. apply (Hnext 0 s2 Hi2); auto. eapply suffix_Forall; eauto.
    + apply bind_inv in E. destruct E as ([] & s2 & E2 & E).
      pose proof (skip_segment_step "Found a marker with invalid length " s1 Hi1 Hb1) as W. unfold wp in W. rewrite E2 in W. destruct W as [Hi2 S2 _ _ _ _ _]. cbn [snd] in *.
      apply (Hnext 0 s2 Hi2); auto; [eapply suffix_Forall; eauto|].
      pose proof (st_skip "Found a marker with invalid length " s1) as K. rewrite E2 in K. exact (shape_static _ _ K Hs1).
  - apply (Hnext before s1); auto.
Qed.
Lemma headers_shape s s' : hinv (hd_dec s) -> bytes s -> decode_headers s = (Ok tt, s') -> shape (hd_dec s) -> shape (hd_dec s').
Proof.
  intros Hi Hb E Hs. unfold decode_headers in E. apply bind_inv in E. destruct E as (m & s1 & E1 & E).
  pose proof (hstep_u16 (G := good) s Hi Hb) as W. unfold wp in W. rewrite E1 in W. destruct W as [Hi1 S1 _ _ _ _ _]. cbn [snd] in *.
  apply u16_dec in E1. destruct (negb _); [discriminate|]. apply bind_inv in E. destruct E as (fl & s2 & E2 & E). injection E2 as _ <-.
  eapply loop_shape; [exact Hi1| |exact E|rewrite E1; exact Hs]. eapply suffix_Forall; eauto.
Qed.
Lemma shape_new cpu o : shape (new_with_options cpu o).
Proof. split; try reflexivity; [now left|discriminate| |intros _ _ H; now destruct H|discriminate]. intros _ _. constructor. Qed.

(** * The entropy-coded data: no SOF marker can turn up in it *)
Lemma no_sof_suffix a b : suffix a b -> no_sof b -> no_sof a.
Proof. intros (l & ->) H x m y ->. apply (H (l ++ x)%list m y). now rewrite <- app_assoc. Qed.
Definition quiet (s : bst) : Prop := no_sof (b_rd s) /\ forall m, b_marker s = Some m -> ~ is_sof m.

Definition pres {A} (m : M bst A) : Prop := forall s, quiet s -> quiet (snd (m s)).
Lemma pres_bind {A B} (m : M bst A) (k : A -> M bst B) : pres m -> (forall a, pres (k a)) -> pres (bind m k).
Proof.
  intros Hm Hk s H. specialize (Hm s H). unfold bind. destruct (m s) as [[a| | |] s1]; cbn [snd] in *; auto. now apply Hk.
Qed.
Lemma pres_ret {A} (a : A) : pres (ret a).
Proof. intros s H. exact H. Qed.
Lemma pres_modify f : (forall s, quiet s -> quiet (f s)) -> pres (modify f).
Proof. intros H s. apply H. Qed.
Lemma pres_get : pres get.
Proof. intros s H. exact H. Qed.
Lemma pres_drop n s : quiet s -> quiet (drop_bits n s).
Proof. intros H. exact H. Qed.

Lemma skip_ff_at rd n rd' : skip_ff rd = (n, rd') -> n = 0 \/ exists a, (255 :: rd = a ++ 255 :: n :: rd')%list.
Proof.
  revert n rd'. induction rd as [|x rd IH]; intros n rd' E; cbn [skip_ff] in E.
  - injection E as <- <-. now left.
  - destruct (x =? 255) eqn:Ex.
    + destruct (IH _ _ E) as [|(a & Ea)]; [now left|]. right. exists (255 :: a). assert (x = 255) as -> by lia. cbn [app]. now rewrite Ea.
    + injection E as <- <-. right. now exists [].
Qed.
Lemma marker_sof n m : marker_from_u8 n = Some m -> n <> 192 -> n <> 194 -> ~ is_sof m.
Proof.
  unfold marker_from_u8. intros E H1 H2.
  repeat match type of E with
  | match ?x with _ => _ end = _ => destruct x; try discriminate; try (injection E as <-; cbn [is_sof]; tauto); try congruence
  end.
Qed.
Lemma pres_refill_byte : pres refill_byte.
Proof.
  intros s [Hn Hm]. unfold refill_byte. destruct (read_u8 (b_rd s)) as [byte rd] eqn:E1.
  assert (S1 := suffix_read_u8 _ _ _ E1).
  destruct (byte =? 255) eqn:Eb; [|split; [eapply no_sof_suffix; [exact S1|exact Hn]|exact Hm]].
  destruct (read_u8 rd) as [n0 rd0] eqn:E2. assert (S2 := suffix_read_u8 _ _ _ E2).
  destruct (if n0 =? 255 then skip_ff rd0 else (n0, rd0)) as [n rd'] eqn:E3.
  assert (S3 : suffix rd' rd0) by (destruct (n0 =? 255); [now apply suffix_skip_ff in E3|injection E3 as <- <-; apply suffix_refl]).
  assert (Hrd : no_sof rd') by (eapply no_sof_suffix; [eapply suffix_trans; [exact S3|eapply suffix_trans; eauto]|exact Hn]).
  destruct (n =? 0) eqn:En; [split; [exact Hrd|exact Hm]|]. cbv zeta.
  destruct (marker_from_u8 n) as [m|] eqn:Em; cbn [snd]; [|split; [exact Hrd|exact Hm]].
  split; [exact Hrd|]. cbn [set_marker b_marker]. intros m' E'. injection E' as <-.
  assert (n <> 192 /\ n <> 194) as [N1 N2]; [|eapply marker_sof; eauto].
  assert (Er : b_rd s = 255 :: rd).
  { clear - E1 Eb. unfold read_u8 in E1. destruct (b_rd s) as [|x l]; [injection E1 as <- <-; discriminate|]. injection E1 as <- <-. f_equal. lia. }
  assert (Er2 : n0 <> 0 -> rd = n0 :: rd0).
  { clear - E2. unfold read_u8 in E2. destruct rd as [|x l]; injection E2 as <- <-; [congruence|reflexivity]. }
  destruct (n0 =? 255) eqn:E0.
  - destruct (skip_ff_at _ _ _ E3) as [|(a & Ea)]; [lia|]. assert (n0 = 255) by lia. subst n0. rewrite Er2 in Er by lia. rewrite Ea in Er.
    apply (Hn (255 :: a) n rd'). exact Er.
  - injection E3 as -> ->. rewrite Er2 in Er by lia. apply (Hn [] n rd'). exact Er.
Qed.
Lemma pres_refill : pres refill.
Proof.
  intros s H. unfold refill. destruct (b_marker s) eqn:Em; [exact H|]. destruct (b_left s <=? 32); [|exact H].
  assert (Hs : quiet (snd (refill_slow s))).
  { revert s H Em. enough (pres refill_slow) as P by (intros; now apply P). unfold refill_slow.
    apply pres_bind; [apply pres_refill_byte|]. intros [|]; [|apply pres_ret].
    apply pres_bind; [apply pres_refill_byte|]. intros [|]; [|apply pres_ret].
    apply pres_bind; [apply pres_refill_byte|]. intros [|]; [|apply pres_ret].
    apply pres_bind; [apply pres_refill_byte|]. intros [|]; [|apply pres_ret].
    apply pres_modify. intros s H. exact H. }
  destruct (b_rd s) as [|b0 [|b1 [|b2 [|b3 [|b4 r]]]]] eqn:Er; try exact Hs. cbv zeta. destruct (has_byte _ _); [exact Hs|].
  cbn [snd]. destruct H as [H1 H2]. split; [|exact H2]. unfold refill_fast. cbn [b_rd set_bits]. eapply no_sof_suffix; [|exact H1].
  rewrite Er. now exists [b0; b1; b2; b3].
Qed.
Lemma pres_get_bits n : pres (get_bits n).
Proof. intros s H. exact H. Qed.
Lemma pres_huff t e : pres (decode_huff t e).
Proof. intros s H. unfold decode_huff. cbv zeta. destruct (_ <? _); [|exact H]. destruct (_ =? 17); exact H. Qed.
Lemma pres_dc t dc : pres (decode_dc t dc).
Proof.
  unfold decode_dc. apply pres_bind; [apply pres_get|]. intros s0. apply pres_bind; [destruct (_ <? _); [apply pres_refill|apply pres_ret]|].
  intros _. apply pres_bind; [apply pres_get|]. intros s1. apply pres_bind; [apply pres_huff|]. intros sym.
  apply pres_bind; [|intros; apply pres_ret]. destruct (sym =? 0); [apply pres_ret|]. apply pres_bind; [apply pres_get_bits|]. intros. apply pres_ret.
Qed.
Lemma pres_ac t ft : forall fuel pos b, pres (decode_ac fuel t ft pos b).
Proof.
  induction fuel as [|f IH]; intros pos b; cbn [decode_ac]; destruct (64 <=? pos); try apply pres_ret; [intros s H; exact H|].
  apply pres_bind; [apply pres_refill|]. intros _. apply pres_bind; [apply pres_get|]. intros s0. cbv zeta. destruct (negb _).
  - apply pres_bind; [apply pres_modify; intros s H; exact H|]. intros _. apply IH.
  - apply pres_bind; [apply pres_huff|]. intros sym. destruct (negb _).
    + apply pres_bind; [apply pres_get_bits|]. intros. apply IH.
    + destruct (negb _); [apply pres_ret|apply IH].
Qed.
Lemma block_quiet dct act b dc s : quiet s -> quiet (snd (fst (decode_mcu_block dct act b dc s))).
Proof.
  intros H. unfold decode_mcu_block. destruct (h_ac_lookup act) as [ft|]; [|exact H].
  pose proof (pres_dc dct dc s H) as Hd. destruct (decode_dc dct dc s) as [[dc'| | |] s1]; cbn [fst snd] in *; auto.
  pose proof (pres_ac act ft 64 1 (zset b 0 (i16 dc')) s1 Hd) as Ha. now destruct (decode_ac _ _ _ _ _ s1).
Qed.

(** * The rows *)
Section scan.
Variables (d0 : decoder) (g : geom) (sz : Z -> Z).
Let out := o_colorspace (d_opt d0).
Hypothesis Hsz : forall k, 0 <= sz k.
Hypothesis Hrows : g_mcuh g <= g_total g / g_chunk g.
(** [c] is component [pos], up to what changes during a scan *)
Definition like (c : component) (pos : Z) : Prop := zget (map geo (d_comps d0)) pos = Some (geo c).
Hypothesis Hstart : forall c pos v j i k, like c pos -> 0 <= v < g_bias g -> 0 <= j < g_mcuw g -> 0 <= i < c_v c -> 0 <= k < c_h c ->
  0 <= block_start g c v j i k /\ block_start g c v j i k + 64 <= sz pos.
Hypothesis Halloc : forall c pos, like c pos -> g_ccap g * c_v c * c_h c * g_bias g = sz pos.
Hypothesis Hcomps : i_comps (d_info d0) = 1 /\ out = GRAYSCALE \/ i_comps (d_info d0) = 3.
Hypothesis Hincs : num_components (d_incs d0) <= i_comps (d_info d0).

Definition fit (t : list (list Z)) : Prop :=
  exists y0 y1 y2, t = [y0; y1; y2] /\ zlen y0 = sz 0 /\ (out <> GRAYSCALE -> zlen y1 = sz 1 /\ zlen y2 = sz 2).
Record inv (k : Z) (t : bool) (s : mst) : Prop := {
  in_minv : sinv m_dec m_st tmp_ok s;
  in_good : good (m_dec s);
  in_static : static (m_dec s) = static d0;
  in_quiet : quiet (m_st s);
  in_jobs : Forall fit (m_jobs s);
  in_count : zlen (m_jobs s) = k;
  in_tmp : t = true -> fit (m_tmp s) }.
Definition safe {A} (k : Z) (t : bool) (r : res A) (s' : mst) : Prop :=
  (forall p, r <> Panic p) /\ Forall fit (m_jobs s') /\ forall a, r = Ok a -> inv k t s'.

Lemma safe_bind {A B} k t k' t' (m : M mst A) (f : A -> M mst B) s :
  wp m s (safe k t) -> (forall a s', inv k t s' -> wp (f a) s' (safe k' t')) -> wp (bind m f) s (safe k' t').
Proof.
  intros Hm Hf. unfold wp, bind in *. destruct (m s) as [r s1]. cbn [fst snd] in Hm. destruct Hm as (H1 & H2 & H3).
  destruct r as [a|e|p|]; cbn [fst snd]; [apply Hf; eauto| | |]; (split; [discriminate || (now specialize (H1 p))|split; [exact H2|discriminate]]).
Qed.
Lemma safe_ret {A} (a : A) k t s : inv k t s -> wp (ret a) s (safe k t).
Proof. intros H. split; [discriminate|]. split; [apply H|]. intros. exact H. Qed.
Lemma safe_fail {A} e k t s : inv k t s -> wp (A := A) (fail e) s (safe k t).
Proof. intros H. split; [discriminate|]. split; [apply H|]. discriminate. Qed.
Lemma safe_mfor : forall (c : nat) i (body : Z -> M mst unit) k t s, inv k t s ->
  (forall j s', i <= j < i + Z.of_nat c -> inv k t s' -> wp (body j) s' (safe k t)) -> wp (mfor c i body) s (safe k t).
Proof.
  induction c as [|c IH]; intros i body k t s H Hb; cbn [mfor]; [now apply safe_ret|].
  eapply safe_bind; [apply Hb; [lia|exact H]|]. intros _ s' H'. apply IH; [exact H'|]. intros j s2 Hj. apply Hb. lia.
Qed.
Lemma safe_mfor_break : forall (c : nat) i (body : Z -> M mst bool) k t s, inv k t s ->
  (forall j s', i <= j < i + Z.of_nat c -> inv k t s' -> wp (body j) s' (safe k t)) -> wp (mfor_break c i body) s (safe k t).
Proof.
  induction c as [|c IH]; intros i body k t s H Hb; cbn [mfor_break]; [now apply safe_ret|].
  eapply safe_bind; [apply Hb; [lia|exact H]|]. intros [|] s' H'; [|now apply safe_ret]. apply IH; [exact H'|]. intros j s2 Hj. apply Hb. lia.
Qed.

Lemma static_comps d : static d = static d0 -> map geo (d_comps d) = map geo (d_comps d0) /\ d_incs d = d_incs d0 /\
  d_opt d = d_opt d0 /\ d_info d = d_info d0.
Proof using. unfold static. intros E. repeat split; congruence. Qed.
Lemma static_like d c pos : static d = static d0 -> zget (d_comps d) pos = Some c -> like c pos.
Proof using. intros E Ec. destruct (static_comps _ E) as [Em _]. unfold like. rewrite <- Em. rewrite zget_map, Ec. reflexivity. Qed.

Lemma fit_set t i x chan : fit t -> zget t i = Some chan -> zlen x = zlen chan -> fit (zset t i x).
Proof.
  intros (y0 & y1 & y2 & -> & L0 & L12) E L. pose proof (zget_some _ _ _ E) as Hr. change (zlen [y0; y1; y2]) with 3 in Hr.
  assert (i = 0 \/ i = 1 \/ i = 2) as [-> | [-> | ->]] by lia; cbn in E; injection E as <-.
  - exists x, y1, y2. split; [reflexivity|]. split; [congruence|exact L12].
  - exists y0, x, y2. split; [reflexivity|]. split; [congruence|]. intros H. destruct (L12 H). split; congruence.
  - exists y0, y1, x. split; [reflexivity|]. split; [congruence|]. intros H. destruct (L12 H). split; congruence.
Qed.
Lemma fit_get t pos : fit t -> 0 <= pos < i_comps (d_info d0) -> pos <= num_components out - 1 -> exists chan, zget t pos = Some chan /\ zlen chan = sz pos.
Proof.
  intros (y0 & y1 & y2 & -> & L0 & L12) Hp Ho.
  assert (pos = 0 \/ out <> GRAYSCALE /\ (pos = 1 \/ pos = 2)) as [-> | [H [-> | ->]]].
  { destruct out; cbn in Ho; try (assert (pos = 0 \/ pos = 1 \/ pos = 2) by lia; intuition discriminate); left; lia. }
  - exists y0. split; [reflexivity|exact L0].
  - destruct (L12 H). exists y1. split; [reflexivity|assumption].
  - destruct (L12 H). exists y2. split; [reflexivity|assumption].
Qed.

Lemma block_safe k c dct act pos v j i x s : inv k true s -> dc_ok dct -> ac_ok act -> like c pos ->
  0 <= pos < i_comps (d_info d0) -> 0 <= v < g_bias g -> 0 <= j < g_mcuw g -> 0 <= i < c_v c -> 0 <= x < c_h c ->
  wp (decode_block g c dct act pos v j i x) s (safe k true).
Proof.
  intros Hi Hd Ha Hc Hp Hv Hj Hiv Hx. destruct (Hstart c pos v j i x Hc Hv Hj Hiv Hx) as [B1 B2].
  destruct Hi as [I1 I2 I3 I4 I5 I6 I7]. specialize (I7 eq_refl).
  pose proof (decode_block_step g c dct act pos v j i x s I1 Hd Ha) as W. unfold wp in *.
  set (run := decode_block _ _ _ _ _ _ _ _ _ s) in *.
  assert (He : (forall p, fst run <> Panic p) /\ static (m_dec (snd run)) = static d0 /\ quiet (m_st (snd run)) /\ m_jobs (snd run) = m_jobs s /\ fit (m_tmp (snd run))).
  { unfold run, decode_block. cbv zeta. set (dc := match zget _ pos with Some _ => _ | None => 0 end).
    assert (Hst : forall dc', static (set_d_comps (match zget (d_comps (m_dec s)) pos with
                     | Some c => zset (d_comps (m_dec s)) pos (set_c_pred dc' c) | None => d_comps (m_dec s) end) (m_dec s)) = static d0).
    { intros dc'. rewrite <- I3. unfold static. cbn [d_incs d_opt d_info d_inter d_hmax d_vmax d_ratio d_mcux d_mcuy d_cc d_comps set_d_comps]. f_equal.
      destruct (zget (d_comps (m_dec s)) pos) as [c'|] eqn:E; [|reflexivity]. eapply map_zset_same; [exact E|reflexivity]. }
    destruct (static_comps _ I3) as (_ & _ & Eo & _). rewrite Eo. fold out.
    destruct I1 as (Hh1 & Hs1 & _ & _ & Ht1).
    destruct (pos <=? num_components out - 1) eqn:Ep.
    - destruct (fit_get _ pos I7 Hp ltac:(lia)) as (chan & Ec & Lc). rewrite Ec.
      set (st := block_start g c v j i x) in *. set (b := firstn (Z.to_nat (st + 64 - st)) (skipn (Z.to_nat st) chan)).
      assert (Esl : slice chan st (st + 64) = Some b).
      { unfold slice. replace ((0 <=? st) && (st <=? st + 64) && (st + 64 <=? zlen chan)) with true by lia. reflexivity. }
      rewrite Esl.
      assert (Hb : blk b).
      { split; [unfold b; rewrite zlen_firstn, zlen_skipn; lia|]. unfold b. apply Forall_firstn, Forall_skipn. eapply Forall_zget; eauto. }
      destruct Ha as [Ha Hac].
      pose proof (decode_mcu_block_fine dct act b dc (m_st s) Hd Ha Hac Hb Hs1) as F.
      pose proof (block_quiet dct act b dc (m_st s) I4) as Q.
      destruct (decode_mcu_block dct act b dc (m_st s)) as [[r st'] dc']. cbn [fst snd] in Q.
      destruct F as [_ [(a & -> & [La _])|(e & ->)]]; cbn [fst snd m_dec m_st m_tmp m_jobs].
      + split; [discriminate|]. split; [apply Hst|]. split; [exact Q|]. split; [reflexivity|]. eapply fit_set; [exact I7|exact Ec|].
        unfold splice. rewrite !zlen_app, zlen_firstn, zlen_skipn. unfold zlen in *. lia.
      + split; [discriminate|]. split; [apply Hst|]. split; [exact Q|]. split; [reflexivity|exact I7].
    - assert (Hb : blk (zrepeat 0 64)) by (split; [reflexivity|apply Forall_zrepeat, in16_0]).
      destruct Ha as [Ha Hac].
      pose proof (decode_mcu_block_fine dct act _ dc (m_st s) Hd Ha Hac Hb Hs1) as F.
      pose proof (block_quiet dct act (zrepeat 0 64) dc (m_st s) I4) as Q.
      destruct (decode_mcu_block dct act (zrepeat 0 64) dc (m_st s)) as [[r st'] dc']. cbn [fst snd] in Q.
      destruct F as [_ [(a & -> & _)|(e & ->)]]; cbn [fst snd m_dec m_st m_tmp m_jobs];
        (split; [discriminate|]; split; [apply Hst|]; split; [exact Q|]; split; [reflexivity|exact I7]). }
  destruct He as (X1 & X2 & X3 & X4 & X5). destruct W as [W1 _ _ _ W2 _].
  split; [exact X1|]. split; [rewrite X4; exact I5|]. intros a Ea. split; auto; [eauto|rewrite X4; exact I5|rewrite X4; exact I6].
Qed.
Lemma component_safe k c dct act pos v j s : inv k true s -> dc_ok dct -> ac_ok act -> like c pos ->
  0 <= pos < i_comps (d_info d0) -> 0 <= v < g_bias g -> 0 <= j < g_mcuw g -> wp (decode_component g c dct act pos v j) s (safe k true).
Proof.
  intros Hi Hd Ha Hc Hp Hv Hj. unfold decode_component.
  apply safe_mfor; [exact Hi|]. intros i s1 Hiv H1. apply safe_mfor; [exact H1|]. intros x s2 Hx H2.
  apply block_safe; auto; lia.
Qed.

Lemma tick_static d st : static (snd (fst (tick d st))) = static d.
Proof.
  unfold tick. cbv zeta. destruct (_ =? 0); [|reflexivity]. unfold handle_rst. cbv zeta.
  destruct (b_marker st) as [[]|]; cbn [fst snd]; try reflexivity. unfold static.
  cbn [d_incs d_opt d_info d_inter d_hmax d_vmax d_ratio d_mcux d_mcuy d_cc d_comps set_d_comps set_d_todo]. f_equal. rewrite map_map. now apply map_ext.
Qed.
Lemma tick_nopanic d st : (forall p, fst (fst (tick d st)) <> Panic p) /\ (quiet st -> quiet (snd (tick d st))).
Proof.
  unfold tick. cbv zeta. destruct (_ =? 0); [|split; [discriminate|auto]]. unfold handle_rst. cbv zeta.
  destruct (b_marker st) as [[]|]; cbn [fst snd]; (split; [discriminate|auto]). intros [H _]. split; [exact H|discriminate].
Qed.
Lemma count_safe k s : inv k true s -> wp count_restart s (safe k true).
Proof.
  intros Hi. destruct Hi as [I1 I2 I3 I4 I5 I6 I7]. pose proof (count_restart_step s I1) as W. unfold wp, count_restart in *.
  pose proof (tick_static (m_dec s) (m_st s)) as T1. destruct (tick_nopanic (m_dec s) (m_st s)) as [T2 T3].
  destruct (tick (m_dec s) (m_st s)) as [[r d] st]. cbn [fst snd] in *. destruct W as [W1 _ _ _ W2 _].
  split; [exact T2|]. split; [exact I5|]. intros a Ea. split; auto; [eauto|]. cbn [m_dec]. congruence.
Qed.
Lemma in_scan_safe k m s : inv k true s -> ~ is_sof m -> wp (parse_in_scan m) s (safe k true).
Proof.
  intros Hi Hm. destruct Hi as [I1 I2 I3 I4 I5 I6 I7]. pose proof (parse_in_scan_step m s I1) as W. unfold wp, parse_in_scan in *.
  pose proof (st_marker m Hm (mkHst (m_dec s) (b_rd (m_st s)))) as T1. pose proof I1 as (Hh & _ & _ & Hrd & _).
  pose proof (parse_marker_inner_step m (mkHst (m_dec s) (b_rd (m_st s))) Hh Hrd) as V. unfold wp in V.
  destruct (parse_marker_inner m _) as [r h]. cbn [fst snd] in *. destruct W as [W1 _ _ _ W2 _]. destruct V as [_ V1 _ _ V2 _ _].
  unfold hstatic in T1. cbn [hd_dec hd_rd] in *. assert (Hst : static (hd_dec h) = static d0) by congruence.
  split.
  - intros p E. specialize (V2 I2 p E). destruct (static_comps _ Hst) as (_ & _ & _ & Ei). rewrite Ei in V2. lia.
  - split; [exact I5|]. intros a Ea. split; auto; [eauto|]. cbn [m_st]. destruct I4 as [Q1 Q2]. split; [|exact Q2].
    cbn [b_rd set_rd]. eapply no_sof_suffix; eauto.
Qed.

Lemma mcu_component_safe k v j pos s : inv k true s -> 0 <= pos < i_comps (d_info d0) -> 0 <= v < g_bias g -> 0 <= j < g_mcuw g ->
  wp (mcu_component g v j pos) s (safe k true).
Proof.
  intros Hi Hp Hv Hj. unfold mcu_component. apply wp_bind. unfold wp at 1, getm, wp_then. cbn [fst snd]. apply wp_bind. unfold lift. unfold wp at 1. cbn [fst snd].
  pose proof Hi as [I1 I2 I3 I4 I5 I6 I7]. destruct (static_comps _ I3) as (F & _ & _ & Ei).
  assert (Hlen : zlen (d_comps (m_dec s)) = i_comps (d_info d0)) by (destruct I2 as [E _]; congruence).
  unfold at_. destruct (zget (d_comps (m_dec s)) pos) as [c|] eqn:Ec.
  2:{ apply zget_none in Ec. lia. }
  cbn [wp_then]. assert (Hc : like c pos) by (eapply static_like; eauto).
  destruct (table_at (d_dcts (m_dec s)) _) as [dct|] eqn:E1; [|now apply safe_fail].
  destruct (table_at (d_acts (m_dec s)) _) as [act|] eqn:E2; [|now apply safe_fail].
  pose proof I1 as (Hhi & _). assert (Hd := dc_at _ _ _ Hhi E1). assert (Ha := ac_at _ _ _ Hhi E2).
  eapply (safe_bind k true); [now apply component_safe|]. intros _ s2 H2. eapply (safe_bind k true); [now apply count_safe|]. intros _ s3 H3.
  apply wp_bind. unfold wp at 1, gets, wp_then. cbn [fst snd].
  assert (Hq : forall m, b_marker (m_st s3) = Some m -> ~ is_sof m) by (destruct H3 as [_ _ _ [_ Q] _ _ _]; exact Q).
  destruct (b_marker (m_st s3)) as [m|] eqn:Em; [|now apply safe_ret].
  assert (wp (parse_in_scan m ;;; ret true) s3 (safe k true)) as Hs.
  { eapply safe_bind; [apply in_scan_safe; [exact H3|now apply Hq]|]. intros. now apply safe_ret. }
  destruct m; try exact Hs; now apply safe_ret.
Qed.
Lemma mcu_safe k v j s : inv k true s -> 0 <= v < g_bias g -> 0 <= j < g_mcuw g -> wp (decode_mcu g v j) s (safe k true).
Proof.
  intros Hi Hv Hj. unfold decode_mcu. apply wp_bind. unfold wp at 1, getm, wp_then. cbn [fst snd].
  destruct (static_comps _ (in_static _ _ _ Hi)) as (_ & Ein & _ & _). rewrite Ein.
  apply safe_mfor_break; [exact Hi|]. intros pos s' Hp H'. apply mcu_component_safe; auto. split; [lia|].
  destruct Hcomps as [[E _]|E]; destruct (d_incs d0); cbn in Hp, Hincs; lia.
Qed.

Lemma alloc_fit d : static d = static d0 -> good d ->
  exists t, alloc_row (d_comps d) 0 (o_colorspace (d_opt d)) (g_ccap g) (g_bias g) [[]; []; []] = Ok t /\ fit t.
Proof.
  intros Hs Hgood. destruct (static_comps _ Hs) as (_ & _ & Eo & Ei). destruct Hgood as [Hl _]. rewrite Ei in Hl. rewrite Eo. fold out.
  assert (Hz : forall c pos, zget (d_comps d) pos = Some c -> g_ccap g * c_v c * c_h c * g_bias g = sz pos) by (intros c pos Hc; apply Halloc; eapply static_like; eauto).
  assert (Hzl : forall k, zlen (zrepeat 0 (sz k)) = sz k) by (intros k; specialize (Hsz k); rewrite zlen_repeat; lia).
  destruct (d_comps d) as [|c0 [|c1 [|c2 [|c3 cs]]]]; cbn [length] in Hl; unfold zlen in Hl; cbn [length] in Hl; try lia.
  - assert (Eout : out = GRAYSCALE) by (destruct Hcomps as [[_ E]|E]; [exact E|lia]). rewrite Eout.
    cbn [alloc_row]. change (0 <=? num_components GRAYSCALE - 1) with true. cbv iota.
    rewrite (Hz c0 0 eq_refl). eexists. split; [reflexivity|]. eexists _, _, _. split; [reflexivity|]. split; [apply Hzl|]. now rewrite Eout.
  - cbn [alloc_row]. rewrite (Hz c0 0 eq_refl), (Hz c1 1 eq_refl), (Hz c2 2 eq_refl). change (0 + 1) with 1. change (1 + 1) with 2.
    unfold fit. destruct out; cbn [num_components];
      repeat match goal with |- context [?a <=? ?b] => let v := eval vm_compute in (a <=? b) in change (a <=? b) with v end; cbv iota;
      (eexists; split; [reflexivity|]; eexists _, _, _; split; [reflexivity|]; split; [apply Hzl|]; intros H; try congruence; split; apply Hzl).
Qed.

Lemma row_safe k s : inv k false s -> 0 <= k < g_mcuh g -> wp (decode_row g) s (safe (k + 1) false).
Proof.
  intros Hi Hk. pose proof Hi as [I1 I2 I3 I4 I5 I6 I7]. unfold decode_row. apply wp_bind. unfold wp at 1, getm, wp_then. cbn [fst snd].
  destruct (alloc_fit _ I3 I2) as (t & Et & Ft). rewrite Et. apply wp_bind. unfold wp at 1, lift, wp_then. cbn [fst snd].
  apply wp_bind. unfold wp at 1, modify, wp_then. cbn [fst snd].
  set (s1 := mkMst (m_dec s) (m_st s) t (m_jobs s)).
  assert (H1 : inv k true s1).
  { pose proof I1 as (A1 & A2 & A3 & A4 & _). split; auto. repeat (split; [assumption|]).
    pose proof (alloc_row_ok (d_comps (m_dec s)) 0 (o_colorspace (d_opt (m_dec s))) (g_ccap g) (g_bias g) [[]; []; []]) as W.
    rewrite Et in W. apply W. repeat constructor. }
  eapply safe_bind with (k := k) (t := true).
  { apply safe_mfor; [exact H1|]. intros v s2 Hv H2. apply safe_mfor; [exact H2|]. intros j s3 Hj H3.
    apply mcu_safe; [exact H3|lia|lia]. }
  intros _ s2 [J1 J2 J3 J4 J5 J6 J7]. unfold wp. replace (g_total g / g_chunk g <=? zlen (m_jobs s2)) with false by lia. cbn [fst snd].
  assert (Forall fit (m_tmp s2 :: m_jobs s2)) as HF by (constructor; auto).
  split; [discriminate|]. split; [exact HF|]. intros a _. split; auto; try discriminate. cbn [m_jobs]. rewrite zlen_cons. lia.
Qed.
Lemma rows_safe (s : mst) : inv 0 false s -> 
  wp (decode_rows g) s (fun r s' => (forall p, r <> Panic p) /\ Forall fit (m_jobs s') /\ forall a, r = Ok a -> inv (Z.max 0 (g_mcuh g)) false s').
Proof.
  intros Hi. unfold decode_rows.
  assert (H : forall (c : nat) i k s, Z.of_nat c + k <= Z.max 0 (g_mcuh g) -> 0 <= k -> inv k false s ->
    wp (mfor c i (fun _ => decode_row g)) s (fun r s' => (forall p, r <> Panic p) /\ Forall fit (m_jobs s') /\ forall a, r = Ok a -> inv (Z.of_nat c + k) false s')).
  { induction c as [|c IH]; intros i k s1 Hc Hk H1; cbn [mfor].
    - split; [discriminate|]. split; [apply H1|]. intros. exact H1.
    - change (wp (bind (decode_row g) (fun _ => mfor c (i + 1) (fun _ => decode_row g))) s1 (safe (Z.of_nat (S c) + k) false)).
      eapply safe_bind with (k := k + 1) (t := false); [apply row_safe; [exact H1|lia]|]. intros _ s2 H2.
      replace (Z.of_nat (S c) + k) with (Z.of_nat c + (k + 1)) by lia. apply IH; auto; lia. }
  replace (Z.max 0 (g_mcuh g)) with (Z.of_nat (Z.to_nat (g_mcuh g)) + 0) by lia. apply H; auto; lia.
Qed.

(** The rest of the call *)
Lemma run_all jobs : Forall (fun j => exists px, post_process j (g_comps g) (g_idct g) (g_cc g) (g_in g) (g_out g) (zrepeat 0 (g_chunk g)) (g_width g) = Ok px) jobs ->
  exists os, run_jobs g jobs = Ok os.
Proof using.
  induction 1 as [|j l (px & E) _ (os & Eo)]; cbn [run_jobs]; [eauto|]. rewrite E, Eo. eauto.
Qed.
Lemma assemble_len os total m : 0 <= m <= total -> zlen (assemble os total m) = m.
Proof using. clear. intros H. unfold assemble. cbv zeta. rewrite zlen_firstn, zlen_app. unfold zrepeat, zlen. rewrite repeat_length. lia. Qed.
Lemma scan_done h : baseline_setup (hd_dec h) = (Ok g, d0) -> hinv d0 -> good d0 -> Forall byte (hd_rd h) -> no_sof (hd_rd h) ->
  0 <= output_len d0 <= g_total g ->
  (forall j, fit j -> exists px, post_process j (g_comps g) (g_idct g) (g_cc g) (g_in g) (g_out g) (zrepeat 0 (g_chunk g)) (g_width g) = Ok px) ->
  match fst (decode_baseline h) with
  | Ok px => zlen px = output_len d0
  | Err _ => True
  | _ => False
  end.
Proof.
  intros Es Hh Hgood Hrd Hns Hlen Hjob. unfold decode_baseline. rewrite Es. set (rd := hd_rd h) in *.
  assert (Hinv0 : inv 0 false (mkMst d0 (bst_new rd) [] [])).
  { split; try reflexivity; try discriminate.
    - destruct (bst_new_inv rd) as [A B]. repeat (split; [assumption|]). constructor.
    - exact Hgood.
    - split; [exact Hns|discriminate].
    - constructor. }
  pose proof (rows_safe _ Hinv0) as R. unfold wp in R.
  destruct (decode_rows g (mkMst d0 (bst_new rd) [] [])) as [r s] eqn:Er. cbn [fst snd] in R. destruct R as (R1 & R2 & R3).
  assert (Hfuel : r <> Fuel).
  { assert (Hm : sinv m_dec m_st tmp_ok (mkMst d0 (bst_new rd) [] [])) by apply Hinv0.
    pose proof (decode_rows_step g _ Hm) as W. unfold wp in W. rewrite Er in W. apply W. }
  destruct (run_all (rev (m_jobs s))) as (os & Eos).
  { apply Forall_rev. eapply Forall_impl; [|exact R2]. exact Hjob. }
  destruct r as [u|e|p|]; [|rewrite Eos; exact I|now specialize (R1 p)|congruence].
  specialize (R3 u eq_refl). rewrite Eos. cbn [fst].
  assert (Eo : output_len (m_dec s) = output_len d0).
  { destruct (static_comps (m_dec s)) as (_ & _ & E1 & E2); [apply R3|]. unfold output_len. now rewrite E1, E2. }
  rewrite Eo. apply assemble_len. exact Hlen.
Qed.
End scan.

(** * The whole call *)
Lemma chroma_nopanic cs w : forall p, check_chroma cs w <> Panic p.
Proof.
  intros p. induction cs as [|c cs IH]; cbn [check_chroma]; [discriminate|]. destruct (is_y _); [exact IH|]. destruct (negb _); [discriminate|].
  destruct (_ || _); [discriminate|exact IH].
Qed.
Lemma tables_nopanic d : forall c i, i + Z.of_nat c <= zlen (d_comps d) -> 0 <= i -> forall p, check_tables_from c i d <> Panic p.
Proof.
  induction c as [|c IH]; intros i Hc Hi p; cbn [check_tables_from]; [discriminate|].
  unfold at_. destruct (zget (d_comps d) i) as [x|] eqn:E.
  2:{ apply zget_none in E. lia. }
  destruct (table_at _ _); [|discriminate]. destruct (table_at _ _); [|discriminate]. apply IH; lia.
Qed.
Lemma chroma_nofuel cs w : check_chroma cs w <> Fuel.
Proof.
  induction cs as [|c cs IH]; cbn [check_chroma]; [discriminate|]. destruct (is_y _); [exact IH|]. destruct (negb _); [discriminate|].
  destruct (_ || _); [discriminate|exact IH].
Qed.
Lemma tables_nofuel d : forall c i, check_tables_from c i d <> Fuel.
Proof.
  induction c as [|c IH]; intros i; cbn [check_tables_from]; [discriminate|]. unfold at_. destruct (zget (d_comps d) i); [|discriminate].
  destruct (table_at _ _); [|discriminate]. destruct (table_at _ _); [|discriminate]. apply IH.
Qed.

Section whole.
Variables (cpu : isa) (o : options) (d : decoder) (w h : Z).
Let n := (w + 7) / 8.
Hypothesis Hinv : hinv d.
Hypothesis Hgood : good d.
Hypothesis Hsh : shape d.
Hypothesis Hw : 0 < w <= 65527.
Hypothesis Hh : 0 < h <= 65527.
Hypothesis Hsize : i_width (d_info d) = w /\ i_height (d_info d) = h.
Hypothesis Hmax : d_hmax d = 1 /\ d_vmax d = 1.
Hypothesis Hcomps : i_comps (d_info d) = 1 \/ i_comps (d_info d) = 3.
Let out := o_colorspace (d_opt d).
Hypothesis Hcc : d_cc d = choose_color_convert cpu (o_use_unsafe o).
Hypothesis Hfmt : format_ok cpu o out w.

Lemma whole_comps : exists c0 cr, d_comps d = c0 :: cr /\ Forall (plain_comp w) (d_comps d) /\ Forall (fun c => length (c_qt c) = 64%nat) (d_comps d).
Proof.
  destruct Hgood as (G1 & _ & G3). destruct Hmax as [M1 M2]. pose proof (sh_comp _ Hsh M1 M2) as F. destruct Hsize as [Ew _]. rewrite Ew in F.
  destruct (d_comps d) as [|c0 cr]; [unfold zlen in G1; cbn [length] in G1; lia|]. exists c0, cr. split; [reflexivity|]. split; [exact F|].
  eapply Forall_impl; [|exact G3]. intros c [_ _ _ _ [Q _] _ _]. unfold zlen in Q. lia.
Qed.
Lemma whole_incs : num_components (d_incs d) <= i_comps (d_info d) /\ (i_comps (d_info d) = 1 -> out = GRAYSCALE).
Proof.
  destruct (sh_incs _ Hsh) as [E|[E E2]].
  - assert (i_comps (d_info d) <> 1) as H1 by (intros H; apply (sh_one _ Hsh) in H; congruence). rewrite E. cbn [num_components]. split; lia.
  - rewrite E. cbn [num_components]. split; [lia|]. intros _. exact E2.
Qed.

Lemma whole_setup : (exists e, baseline_setup d = (Err e, d)) \/
  exists c0, d_comps d = c0 :: tl (d_comps d) /\ baseline_setup d = (Ok (geom_of n ((h + 7) / 8) 1 c0 d), d) /\
    let g := geom_of n ((h + 7) / 8) 1 c0 d in
    g_total g = (w + 8) * (h + 8) * num_components out /\ g_chunk g = w * num_components out * 8.
Proof.
  destruct whole_comps as (c0 & cr & Ec & _ & _). destruct whole_incs as [Hi _]. destruct Hsize as [Ew Eh]. destruct Hmax as [M1 M2].
  unfold baseline_setup, bind, get, lift, ret.
  pose proof (chroma_nopanic (d_comps d)) as P1. pose proof (chroma_nofuel (d_comps d)) as P1'.
  assert (Ecd : (exists e, check_component_dimensions d = Err e) \/ check_component_dimensions d = Ok tt).
  { unfold check_component_dimensions. destruct (find _ _) as [y|]; [|left; eauto].
    specialize (P1 (c_stride y / d_hmax d)). specialize (P1' (c_stride y / d_hmax d)). destruct (check_chroma _ _) as [[]|e|p|]; eauto; [now specialize (P1 p)|congruence]. }
  destruct Ecd as [(e & ->)| ->]; [left; eauto|].
  assert (Ect : (exists e, check_tables d = Err e) \/ check_tables d = Ok tt).
  { unfold check_tables. pose proof (tables_nofuel d (Z.to_nat (num_components (d_incs d))) 0) as F1.
    assert (P : forall p, check_tables_from (Z.to_nat (num_components (d_incs d))) 0 d <> Panic p).
    { apply tables_nopanic; [|lia]. destruct Hgood as [G1 _]. rewrite <- G1. destruct (d_incs d); cbn in *; lia. }
    destruct (check_tables_from _ _ _) as [[]|e|p|]; eauto; [now specialize (P p)|congruence]. }
  destruct Ect as [(e & ->)| ->]; [left; eauto|]. right. exists c0.
  assert (Ein : d_inter d = false) by (rewrite (sh_inter _ Hsh), M1, M2; reflexivity).
  split; [now rewrite Ec|]. rewrite Ein. cbv iota beta. unfold mcu_counts. rewrite Ein. rewrite andb_false_r. cbv iota beta.
  assert (Hat : at_ (d_comps d) 0 = Ok c0) by (rewrite Ec; reflexivity). rewrite Hat. cbv iota beta.
  rewrite Ew, Eh. unfold u16. rewrite !Z.mod_small by lia. fold n.
  assert (Hgg : g_total (geom_of n ((h + 7) / 8) 1 c0 d) = (w + 8) * (h + 8) * num_components out /\ g_chunk (geom_of n ((h + 7) / 8) 1 c0 d) = w * num_components out * 8).
  { unfold geom_of. cbn [g_total g_chunk]. unfold capacity, extra_space. rewrite Ein, Ew, Eh, M1, M2. unfold u16. rewrite !Z.mod_small by lia. fold out. split; ring. }
  destruct Hgg as [G1 G2]. rewrite G2.
  assert (0 < w * num_components out * 8) by (destruct out; cbn [num_components]; lia).
  replace (w * num_components out * 8 =? 0) with false by lia. split; [reflexivity|]. cbv zeta. split; [exact G1|reflexivity].
Qed.

Lemma whole_job c0 j : d_comps d = c0 :: tl (d_comps d) ->
  let g := geom_of n ((h + 7) / 8) 1 c0 d in g_chunk g = w * num_components out * 8 -> fit d (fun _ => 64 * n) j ->
  exists px, post_process j (g_comps g) (g_idct g) (g_cc g) (g_in g) (g_out g) (zrepeat 0 (g_chunk g)) (g_width g) = Ok px /\ zlen px = g_chunk g.
Proof.
  intros Ec g Hch Hj. destruct whole_comps as (c0' & cr & Ec' & Fp & Fq). destruct whole_incs as [Hi Hgr]. destruct Hsize as [Ew Eh].
  assert (Hn : 0 < n /\ w <= 8 * n) by (unfold n; lia).
  assert (Gw : g_width g = w) by exact Ew.
  assert (Hg : g_comps g = d_comps d /\ g_in g = d_incs d /\ g_out g = out /\ g_cc g = d_cc d) by (repeat split; reflexivity).
  destruct Hg as (G1 & G2 & G3 & G4).
  destruct Hj as (y0 & y1 & y2 & Ej & L0 & L12). fold out in L12.
  assert (P0 : plain_comp w c0) by (rewrite Ec in Fp; apply Forall_cons_iff in Fp; tauto).
  assert (Q0 : length (c_qt c0) = 64%nat) by (rewrite Ec in Fq; apply Forall_cons_iff in Fq; tauto).
  destruct P0 as (A1 & A2 & A3). fold n in A3.
  destruct (sh_incs _ Hsh) as [E|[E E2]].
  2:{ fold out in E2. unfold format_ok in Hfmt. rewrite E2 in Hch, G3, Hfmt. cbn [num_components] in Hch. fold n in Hfmt.
      destruct (gray_job g c0 (tl (d_comps d)) n) with (y := y0) (rest := [y1; y2]) as (px & Epx & Lpx & _); auto; try lia.
      rewrite Ej. eauto. }
  assert (Hthree : exists c1 c2, d_comps d = [c0; c1; c2]).
  { destruct Hgood as [Hl _]. rewrite E in Hi. cbn [num_components] in Hi. rewrite Ec in Hl.
    destruct (tl (d_comps d)) as [|c1 [|c2 [|c3 l]]] eqn:Et; unfold zlen in Hl; cbn [length] in Hl; try lia. exists c1, c2. now rewrite Ec. }
  destruct Hthree as (c1 & c2 & E3).
  rewrite E3 in Fp, Fq. apply Forall_cons_iff in Fp. destruct Fp as [_ Fp]. apply Forall_cons_iff in Fp. destruct Fp as [(_ & _ & B3) Fp]. apply Forall_cons_iff in Fp. destruct Fp as [(_ & _ & C3) _].
  apply Forall_cons_iff in Fq. destruct Fq as [_ Fq]. apply Forall_cons_iff in Fq. destruct Fq as [Q1 Fq]. apply Forall_cons_iff in Fq. destruct Fq as [Q2 _]. fold n in B3, C3.
  assert (G1' : g_comps g = [c0; c1; c2]) by congruence. assert (G2' : g_in g = YCbCr) by congruence.
  assert (Hj : strips g n j).
  { exists y0, y1, y2. split; [exact Ej|]. split; [exact L0|]. rewrite G3. exact L12. }
  unfold format_ok in Hfmt. assert (Hfour : num_components out = 4 -> exists px,
    post_process j (g_comps g) (g_idct g) (g_cc g) (g_in g) (g_out g) (zrepeat 0 (g_chunk g)) (g_width g) = Ok px /\ zlen px = g_chunk g).
  { intros H4. assert (Hch4 : g_chunk g = 8 * (g_width g * 4)) by (rewrite Hch, H4, Gw; lia).
    destruct (four_job g c0 c1 c2 n) with (j := j) as (px & Epx); auto; try lia; try (rewrite G3; exact H4). exists px. split; [exact Epx|].
    pose proof (kl_post_process j (g_comps g) (g_idct g) (g_cc g) (g_in g) (g_out g) (zrepeat 0 (g_chunk g)) (g_width g)) as Hl. rewrite Epx in Hl. cbn [keeps_len] in Hl.
    unfold zlen. rewrite Hl. unfold zrepeat. rewrite repeat_length. lia. }
  destruct out eqn:Eout; try (apply Hfour; reflexivity).
  - assert (kernel_fits (g_cc g) 3 (g_width g) (8 * n)) as Hk by (rewrite G4, Gw, Hcc; unfold n; now apply chosen_fits).
    cbn [num_components] in Hch.
    destruct (rgb_job g c0 c1 c2 n) with (m := w - 64) (j := j) as (px & Epx & Lpx & _); auto; try lia.
    + unfold rgb_columns. rewrite Gw. fold n. unfold n. lia.
    + eauto.
  - fold n in Hfmt. cbn [num_components] in Hch.
    destruct (luma_job g c0 c1 c2 n) with (j := j) as (px & Epx & Lpx & _); auto; try lia. eauto.
  - cbn [num_components] in Hch.
    destruct (ycc_job g c0 c1 c2 n) with (j := j) as (px & Epx & Lpx & _); auto; try lia. eauto.
Qed.

Lemma whole_baseline rd : Forall byte rd -> no_sof rd ->
  match fst (decode_baseline (mkHst d rd)) with
  | Ok px => zlen px = w * h * num_components out
  | Err _ => True
  | _ => False
  end.
Proof.
  intros Hrd Hns. destruct whole_setup as [(e & Ee)|(c0 & Ec & Eg & Gt & Gc)].
  { unfold decode_baseline. cbn [hd_dec]. rewrite Ee. exact I. }
  set (g := geom_of n ((h + 7) / 8) 1 c0 d) in *.
  destruct whole_comps as (c0' & cr & _ & Fp & _). destruct whole_incs as [Hi Hgr].
  assert (Hn : 0 < n) by (unfold n; lia).
  assert (Hnc : 0 < num_components out) by (destruct out; cbn [num_components]; lia).
  assert (Hrw : 0 < w * num_components out) by (apply Z.mul_pos_pos; lia).
  assert (Hdiv : g_mcuh g <= g_total g / g_chunk g).
  { change (g_mcuh g) with ((h + 7) / 8). rewrite Gt, Gc. apply Z.div_le_lower_bound; [lia|].
    replace ((w + 8) * (h + 8) * num_components out) with ((w * num_components out) * (h + 8) + 8 * (h + 8) * num_components out) by ring.
    assert (w * num_components out * (8 * ((h + 7) / 8)) <= w * num_components out * (h + 8)) by (apply Z.mul_le_mono_nonneg_l; lia).
    assert (0 <= 8 * (h + 8) * num_components out) by (apply Z.mul_nonneg_nonneg; lia). lia. }
  assert (Hlike : forall c pos, like d c pos -> c_h c = 1 /\ c_v c = 1).
  { intros c pos Hl. unfold like in Hl. rewrite zget_map in Hl. destruct (zget (d_comps d) pos) as [c'|] eqn:E; [|discriminate].
    assert (Hg : geo c' = geo c) by (cbn [option_map] in Hl; congruence). destruct (Forall_zget _ _ _ _ E Fp) as (A & B & _).
    change (c_h (geo c) = 1 /\ c_v (geo c) = 1). rewrite <- Hg. auto. }
  assert (Hco : i_comps (d_info d) = 1 /\ out = GRAYSCALE \/ i_comps (d_info d) = 3) by (destruct Hcomps as [E|E]; [left; split; [exact E|exact (Hgr E)]|right; exact E]).
  assert (Eo : output_len d = w * h * num_components out) by (unfold output_len; destruct Hsize as [-> ->]; reflexivity).
  rewrite <- Eo. apply (scan_done d g (fun _ => 64 * n)); auto.
  - lia.
  - change (g_mcuw g) with n. change (g_bias g) with 1. intros c pos v j i k Hl Hv Hj Hiv Hk. destruct (Hlike _ _ Hl) as [A B].
    assert (block_start g c v j i k = 64 * j) as ->; [|lia]. unfold block_start. cbv zeta. replace v with 0 by lia. replace i with 0 by lia. replace k with 0 by lia. rewrite A, B. lia.
  - intros c pos Hl. destruct (Hlike _ _ Hl) as [A B]. rewrite A, B. change (g_bias g) with 1. change (g_ccap g) with (n * 64). lia.
  - rewrite Eo, Gt. assert (0 <= w * h) by (apply Z.mul_nonneg_nonneg; lia).
    split; [apply Z.mul_nonneg_nonneg; lia|]. apply Z.mul_le_mono_nonneg_r; lia.
  - intros j Hj. destruct (whole_job c0 j Ec Gc Hj) as (px & E & _). eauto.
Qed.
End whole.

Lemma scan_safe cpu o buf d rest :
  Forall byte buf ->
  decode_headers (mkHst (new_with_options cpu o) buf) = (Ok tt, mkHst d rest) ->
  d_prog d = false ->
  i_comps (d_info d) = 1 \/ i_comps (d_info d) = 3 ->
  d_hmax d = 1 -> d_vmax d = 1 ->
  i_width (d_info d) <= 65527 -> i_height (d_info d) <= 65527 ->
  format_ok cpu o (o_colorspace (d_opt d)) (i_width (d_info d)) ->
  no_sof rest ->
  match fst (decode_buffer (new_with_options cpu o) buf) with
  | Ok px => zlen px = i_width (d_info d) * i_height (d_info d) * num_components (o_colorspace (d_opt d))
  | Err _ => True
  | _ => False
  end.
Proof.
  intros Hb E Hp Hc H1 H2 Hw Hh Hf Hns.
  pose proof (decode_headers_step (mkHst (new_with_options cpu o) buf) (hinv_new cpu o) Hb) as W. unfold wp in W. rewrite E in W.
  destruct W as [I1 S1 _ U1 _ G1 _]. cbn [fst snd hd_dec hd_rd] in *. specialize (G1 (good_new cpu o) tt eq_refl).
  assert (Hsh : shape d).
  { apply (headers_shape _ _ (hinv_new cpu o : hinv (hd_dec (mkHst (new_with_options cpu o) buf))) Hb E). apply shape_new. }
  assert (Hcc : d_cc d = choose_color_convert cpu (o_use_unsafe o)) by (destruct U1 as (_ & _ & _ & U & _); exact U).
  assert (Hl : 0 < i_width (d_info d) /\ 0 < i_height (d_info d)).
  { destruct G1 as (_ & L & _). destruct L as [L1 L2]; lia. }
  unfold decode_buffer, on_buffer, decode_internal. unfold bind at 1. rewrite E. unfold bind, getd. cbn [hd_dec]. rewrite Hp.
  assert (Hrd : Forall byte rest) by (eapply suffix_Forall; eauto).
  pose proof (whole_baseline cpu o d (i_width (d_info d)) (i_height (d_info d)) I1 G1 Hsh ltac:(lia) ltac:(lia) ltac:(auto) ltac:(auto) Hc Hcc Hf rest Hrd Hns) as R.
  destruct (decode_baseline (mkHst d rest)) as [r hs]. exact R.
Qed.
