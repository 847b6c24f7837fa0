(** The components a baseline scan header lists do not matter. *)
From Coq Require Import ZArith String List Bool Lia.
From Coq Require Import ZifyBool ZifyNat ZifyN.
From Verif Require Import Base Types Huffman State Bitstream Headers Worker Mcu Decoder.
From Verif Require Import BaseFacts HeaderInv.
From Verif Require Import SpecSegments SpecFile SpecScanHeader Session ApiFacts HeaderFacts Keeps HeaderReads HeaderItems OrderFacts ScanParams.
Import ListNotations.
Local Open Scope Z_scope.
Local Open Scope m_scope.
Ltac Zify.zify_post_hook ::= Z.div_mod_to_equations.

(** * Frame headers select the first tables *)
Definition zeroc (l : list component) : Prop := Forall (fun c => c_dct c = 0 /\ c_act c = 0) l.
Definition hp {A} (m : M hst A) (Q : A -> Prop) : Prop := forall s, zeroc (d_comps (hd_dec s)) ->
  zeroc (d_comps (hd_dec (snd (m s)))) /\ forall a, fst (m s) = Ok a -> Q a.
Definition hpt {A} (m : M hst A) : Prop := hp m (fun _ => True).
Lemma hp_bind {A B} (m : M hst A) (k : A -> M hst B) Q R : hp m Q -> (forall a, Q a -> hp (k a) R) -> hp (bind m k) R.
Proof.
  intros Hm Hk s Hs. destruct (Hm s Hs) as [H1 H2]. unfold bind. destruct (m s) as [r s1]. cbn [fst snd] in *.
  destruct r; try (split; [exact H1|discriminate]). exact (Hk a (H2 a eq_refl) s1 H1).
Qed.
Lemma hp_keeps {A} (m : M hst A) : keeps (fun s => d_comps (hd_dec s)) m -> hpt m.
Proof. intros H s Hs. split; [|auto]. now rewrite H. Qed.
Lemma hp_bindk {A B} (m : M hst A) (k : A -> M hst B) R : keeps (fun s => d_comps (hd_dec s)) m -> (forall a, hp (k a) R) -> hp (bind m k) R.
Proof. intros Hm Hk. eapply hp_bind; [apply hp_keeps; exact Hm|]. intros a _. apply Hk. Qed.
Lemma hp_fail {A} e R : hp (@fail hst A e) R. Proof. intros s Hs. split; [exact Hs|discriminate]. Qed.
Lemma hp_ret {A} (a : A) (R : A -> Prop) : R a -> hp (ret a) R. Proof. intros H s Hs. split; [exact Hs|]. intros x E. injection E as <-. exact H. Qed.
Lemma hp_lift {A} (r : res A) (R : A -> Prop) : (forall a, r = Ok a -> R a) -> hp (lift r) R.
Proof. intros H s Hs. split; [exact Hs|exact H]. Qed.
Lemma component_from_zero a b c x : component_from a b c = Ok x -> c_dct x = 0 /\ c_act x = 0.
Proof.
  unfold component_from. cbv zeta. destruct (match a with 1 => _ | 2 => _ | 3 => _ | _ => None end); [|discriminate].
  destruct (_ <=? _); [discriminate|]. destruct (negb _); [discriminate|]. destruct (negb _); [discriminate|]. intros E. injection E as <-. auto.
Qed.
Lemma hp_read_components : forall n, hp (read_components n) zeroc.
Proof.
  induction n; cbn [read_components]; [apply hp_ret; constructor|]. apply hp_bindk; [apply keeps_exact|intros t].
  eapply hp_bind; [apply hp_lift; intros a H; exact (component_from_zero _ _ _ _ H)|]. intros c Hc. eapply hp_bind; [exact IHn|].
  intros l Hl. apply hp_ret. constructor; auto.
Qed.
Lemma hp_sof_components : forall l, zeroc l -> hp (sof_components l) zeroc.
Proof.
  induction 1 as [|c l Hc Hl IH]; cbn [sof_components]; [apply hp_ret; constructor|].
  apply hp_bindk; [apply keeps_modd; intros d; unfold sof_geometry; cbv zeta; destruct (_ || _); reflexivity|intros _].
  apply hp_bindk; [now intros s|intros d]. destruct (nth _ _ _); [|apply hp_fail]. cbv zeta.
  eapply hp_bind; [exact IH|]. intros l' Hl'. apply hp_ret. constructor; auto.
Qed.
Ltac hk := first [ apply hp_fail | apply hp_bindk; [first [now intros s | ksteps; (reflexivity || apply keeps_modd; reflexivity)] | intro] ].
Lemma hp_sof v : hpt (parse_start_of_frame v).
Proof.
  unfold parse_start_of_frame, hpt.
  apply hp_bindk; [ksteps|intros len]. apply hp_bindk; [ksteps|intros pr]. destruct (negb _); [apply hp_fail|].
  apply hp_bindk; [apply keeps_modd; reflexivity|intros _]. apply hp_bindk; [ksteps|intros h].
  apply hp_bindk; [apply keeps_modd; reflexivity|intros _]. apply hp_bindk; [ksteps|intros w].
  apply hp_bindk; [apply keeps_modd; reflexivity|intros _]. apply hp_bindk; [ksteps|intros d].
  destruct (_ <? _); [apply hp_fail|]. destruct (_ <? _); [apply hp_fail|]. destruct (_ || _); [apply hp_fail|].
  apply hp_bindk; [ksteps|intros n]. destruct (n =? 0); [apply hp_fail|]. cbv zeta. destruct (negb _); [apply hp_fail|].
  apply hp_bindk; [destruct (n =? 1); [apply keeps_modd; reflexivity|now intros s]|intros _].
  apply hp_bindk; [apply keeps_modd; reflexivity|intros _].
  eapply hp_bind; [apply hp_read_components|]. intros l Hl. apply hp_bindk; [apply keeps_modd; reflexivity|intros _].
  eapply hp_bind; [apply hp_sof_components; exact Hl|]. intros l' Hl' s Hs. split; [exact Hl'|auto].
Qed.
Lemma keeps_dqt_comps : forall f len, keeps (fun s => d_comps (hd_dec s)) (dqt_loop f len).
Proof. induction f; intros len; cbn [dqt_loop]; ksteps; try apply IHf; try (apply keeps_modd; reflexivity); apply keeps_exact. Qed.
Lemma keeps_dht_comps : forall f len, keeps (fun s => d_comps (hd_dec s)) (dht_loop f len).
Proof.
  induction f; intros len; cbn [dht_loop]; [ksteps|]. destruct (len <=? 16); [ksteps|]. ksteps; try apply IHf; try (apply keeps_modd; reflexivity); apply keeps_exact.
Qed.
Lemma marker_sos m : marker_from_u8 m = Some SOS -> m = 218.
Proof.
  unfold marker_from_u8. destruct m as [|p|p]; try discriminate.
  repeat (destruct p as [p|p|]; try discriminate; try reflexivity).
Qed.
Lemma zeroc_marker m d t : m <> 218 -> zeroc (d_comps d) -> zeroc (d_comps (hd_dec (snd (marker_body m (mkHst d t))))).
Proof.
  intros H2 Hz. assert (K : hpt (marker_body m)); [|exact (proj1 (K (mkHst d t) Hz))].
  unfold marker_body. destruct (marker_from_u8 m) as [n|] eqn:E; [|apply hp_keeps; unfold skip_segment; ksteps; apply keeps_consume].
  destruct n; cbn [parse_marker_inner]; try (apply hp_keeps; unfold skip_segment; ksteps; try apply keeps_consume; fail).
  - apply marker_sof in E. destruct E as [[-> ->]|[-> ->]]; [apply hp_sof|]. apply hp_bindk; [apply keeps_modd; reflexivity|intros _; apply hp_sof].
  - apply hp_keeps. unfold parse_huffman. ksteps. apply keeps_dht_comps.
  - now apply marker_sos in E.
  - apply hp_keeps. unfold parse_dqt. ksteps. apply keeps_dqt_comps.
Qed.

(** * The list *)

(** Components whose identifier has not been seen still have the tables frame headers give *)
Definition fresh (seen : list bool) (l : list component) : Prop := forall j c,
  zget l j = Some c -> at_ seen (c_id c) <> Ok true -> c_dct c = 0 /\ c_act c = 0.
Lemma at_range {A} (l : list A) a x : at_ l a = Ok x -> 0 <= a < zlen l.
Proof.
  unfold at_, zget, zlen. destruct (a <? 0) eqn:E; [discriminate|]. destruct (nth_error l (Z.to_nat a)) eqn:E1; [|discriminate].
  intros _. assert (Z.to_nat a < length l)%nat by (apply nth_error_Some; congruence). lia.
Qed.
Lemma at_zset (l : list bool) a b : 0 <= a < zlen l -> at_ (zset l a true) b = if b =? a then Ok true else at_ l b.
Proof.
  intros H. unfold at_. rewrite BaseFacts.zget_zset by lia. replace (a <? zlen l) with true by lia. rewrite andb_true_r.
  now destruct (b =? a).
Qed.
Lemma fresh_more seen l id : at_ seen id = Ok false -> fresh seen l -> fresh (zset seen id true) l.
Proof.
  intros Hs Hf j c Hj Hn. apply (Hf j c Hj). rewrite at_zset in Hn by (eapply at_range; eauto). destruct (_ =? _) eqn:E in Hn; [now destruct Hn|exact Hn].
Qed.
Lemma fresh_step seen l id c c' j : at_ seen id = Ok false -> fresh seen l -> zget l j = Some c -> c_id c = id -> c_id c' = id ->
  fresh (zset seen id true) (zset l j c').
Proof.
  intros Hs Hf Hj Hc Hc' k x Hk Hn. assert (Hr : 0 <= j < zlen l) by (apply (at_range l j c); unfold at_; now rewrite Hj).
  rewrite at_zset in Hn by (eapply at_range; eauto). rewrite BaseFacts.zget_zset in Hk by lia.
  destruct ((k =? j) && (j <? zlen l)); [injection Hk as <-; rewrite Hc', Z.eqb_refl in Hn; now destruct Hn|].
  destruct (_ =? _) in Hn; [now destruct Hn|]. exact (Hf k x Hk Hn).
Qed.

Lemma zset_id {A} (l : list A) i x : zget l i = Some x -> zset l i x = l.
Proof.
  unfold zget, zset. destruct (i <? 0); [discriminate|]. generalize (Z.to_nat i). clear i.
  induction l as [|a l IH]; intros [|n] H; try discriminate; cbn [nth_error nupd] in *; [congruence|]. now rewrite IH.
Qed.
Ltac sopen := cbn [sos_components app]; unfold rd_byte, getd, bind, lift, modd, fail; cbn [hd_dec hd_rd].
Lemma zero_tail : forall ids i seen d x h, fresh seen (d_comps d) ->
  sos_components (length ids) i seen (mkHst d (zero_pairs ids ++ x)) = (Ok tt, h) -> exists T, h = mkHst (phi T d) x.
Proof.
  induction ids as [|id ids IH]; intros i seen d x h Hf.
  - cbn [length sos_components zero_pairs flat_map app]. intros E. injection E as <-. exists (params_of d). now destruct d.
  - change (zero_pairs (id :: ids)) with (id :: 0 :: zero_pairs ids). cbn [length]. sopen.
    destruct (_ <? _); [discriminate|]. destruct (at_ seen id) as [[]| | |] eqn:Es; try discriminate.
    pose proof (find_component_spec (d_comps d) id (Z.to_nat (i_comps (d_info d))) 0) as Hj.
    destruct (find_component _ _ _ _) as [[j|]| | |]; try discriminate. destruct Hj as (_ & c & Hc & Hid).
    unfold at_. rewrite Hc. cbn [hd_dec hd_rd].
    destruct (Hf j c Hc) as [H1 H2]; [rewrite Hid, Es; discriminate|].
    change (Z.land 0 15) with 0. change (Z.land (shr 0 4) 15) with 0.
    assert (Ec : set_c_act 0 (set_c_dct 0 c) = c) by (destruct c; cbn in *; now subst).
    rewrite Ec. rewrite (zset_id (d_comps d) j c Hc). intros E.
    apply IH in E; [|cbn [d_comps set_d_zorder set_d_comps]; now apply fresh_more].
    destruct E as [T ->]. exists T. reflexivity.
Qed.
Lemma list_app : forall n1 ids i seen sel d x h, length sel = (2 * n1)%nat -> fresh seen (d_comps d) ->
  sos_components (n1 + length ids) i seen (mkHst d (sel ++ zero_pairs ids ++ x)) = (Ok tt, h) ->
  exists d1 T, (forall y, sos_components n1 i seen (mkHst d (sel ++ y)) = (Ok tt, mkHst d1 y)) /\ h = mkHst (phi T d1) x.
Proof.
  induction n1; intros ids i seen sel d x h Hl Hf.
  - destruct sel; [|discriminate]. cbn [Nat.add app]. intros E. apply zero_tail in E; [|exact Hf]. destruct E as [T ->].
    exists d, T. split; [reflexivity|reflexivity].
  - destruct sel as [|id [|y sel]]; [discriminate|cbn [length] in Hl; lia|]. cbn [length] in Hl. cbn [Nat.add]. sopen.
    destruct (_ <? _) eqn:E1; [discriminate|]. destruct (at_ seen id) as [[]| | |] eqn:Es; try discriminate.
    pose proof (find_component_spec (d_comps d) id (Z.to_nat (i_comps (d_info d))) 0) as Hj.
    destruct (find_component _ _ _ _) as [[j|]| | |] eqn:Ej; try discriminate. destruct Hj as (_ & c & Hc & Hid).
    unfold at_. rewrite Hc. cbn [hd_dec hd_rd]. intros E.
    apply IHn1 in E; [|lia|]; cycle 1.
    { cbn [d_comps set_d_zorder set_d_comps]. apply (fresh_step seen (d_comps d) id c); auto. }
    exact E.
Qed.

(** * Scan headers *)
Definition seen0 : list bool := [false; false; false; false].
Lemma sos_bytes ns sel a b c t : fits (ns :: sel ++ [a; b; c]) ->
  let L := Z.of_nat (length sel) + 6 in
  forall d, rd_u16 (mkHst d (segment (ns :: sel ++ [a; b; c]) ++ t)) = (Ok L, mkHst d (ns :: (sel ++ a :: b :: c :: t)%list)).
Proof.
  intros Hf L d. assert (E : (segment (ns :: sel ++ [a; b; c]) ++ t)%list = L / 256 :: L mod 256 :: ns :: (sel ++ a :: b :: c :: t)%list).
  { unfold segment, be16, blen. cbn [length app]. rewrite app_length. cbn [length].
    replace (2 + Z.of_nat (S (length sel + 3))) with L by (unfold L; lia). rewrite <- app_assoc. reflexivity. }
  rewrite E. unfold rd_u16. cbn [hd_rd hd_dec]. replace (L / 256 * 256 + L mod 256) with L by lia. reflexivity.
Qed.
Lemma sos_inv d ns sel ss se ba t h : fits (ns :: sel ++ [ss; se; ba]) ->
  parse_sos (mkHst d (segment (ns :: sel ++ [ss; se; ba]) ++ t)) = (Ok tt, h) ->
  Z.of_nat (length sel) = 2 * ns /\ 1 <= ns < 4 /\ i_comps (d_info d) <> 0 /\ shr ba 4 <= 13 /\ Z.land ba 15 <= 13 /\
  forall d', (forall y, sos_components (Z.to_nat ns) 0 seen0 (mkHst (set_d_nscans ns d) (sel ++ y)) = (Ok tt, mkHst d' y)) ->
  exists T, h = mkHst (phi T d') t.
Proof.
  intros Hf. unfold parse_sos. unfold bind at 1. rewrite sos_bytes by exact Hf. unfold bind, rd_byte, modd, getd. cbn [hd_rd hd_dec].
  destruct (negb (_ =? _)) eqn:E1; [discriminate|]. destruct (negb (_ && _)) eqn:E2; [discriminate|].
  cbn [hd_rd hd_dec].
  change (d_info (set_d_nscans ns d)) with (d_info d). destruct (i_comps (d_info d) =? 0) eqn:E3; [discriminate|].
  change [false; false; false; false] with seen0.
  intros E. split; [lia|]. split; [lia|]. split; [lia|].
  destruct (sos_comps_prefix (Z.to_nat ns) 0 seen0 sel (set_d_nscans ns d)) as [(d2 & _ & H2)|H2]; [lia| |].
  - rewrite H2 in E. cbn [hd_rd hd_dec] in E. destruct (13 <? shr ba 4) eqn:E4; [discriminate|]. destruct (13 <? Z.land ba 15) eqn:E5; [discriminate|].
    split; [lia|]. split; [lia|]. intros d' H'. specialize (H2 []). rewrite H' in H2. injection H2 as <-. injection E as <-.
    eexists (mkParams _ _ _ _ _ _). reflexivity.
  - exfalso. specialize (H2 (ss :: se :: ba :: t)). destruct (sos_components _ _ _ _) as [[[]| | |] s]; try discriminate. now apply H2.
Qed.
Lemma sos_run d ns sel ss se ba t d' : fits (ns :: sel ++ [ss; se; ba]) ->
  Z.of_nat (length sel) = 2 * ns -> 1 <= ns < 4 -> i_comps (d_info d) <> 0 -> shr ba 4 <= 13 -> Z.land ba 15 <= 13 ->
  (forall y, sos_components (Z.to_nat ns) 0 seen0 (mkHst (set_d_nscans ns d) (sel ++ y)) = (Ok tt, mkHst d' y)) ->
  exists T, parse_sos (mkHst d (segment (ns :: sel ++ [ss; se; ba]) ++ t)) = (Ok tt, mkHst (phi T d') t).
Proof.
  intros Hf Hl Hn Hc Ha Hb H. eexists (mkParams _ _ _ _ _ _). unfold parse_sos. unfold bind at 1. rewrite sos_bytes by exact Hf. unfold bind, rd_byte, modd, getd. cbn [hd_rd hd_dec].
  replace (Z.of_nat (length sel) + 6 =? 6 + 2 * ns) with true by lia. replace ((1 <=? ns) && (ns <? 4)) with true by lia. cbn [negb hd_rd hd_dec].
  change (d_info (set_d_nscans ns d)) with (d_info d). replace (i_comps (d_info d) =? 0) with false by lia.
  change [false; false; false; false] with seen0. rewrite H. cbn [hd_rd hd_dec].
  replace (13 <? shr ba 4) with false by lia. replace (13 <? Z.land ba 15) with false by lia. reflexivity.
Qed.

Lemma fresh_zero l : zeroc l -> fresh seen0 l.
Proof.
  intros Hz j c Hj _. unfold zget in Hj. destruct (j <? 0); [discriminate|]. apply nth_error_In in Hj.
  exact (proj1 (Forall_forall _ _) Hz _ Hj).
Qed.
Lemma zero_pairs_length ids : length (zero_pairs ids) = (2 * length ids)%nat.
Proof. induction ids as [|a ids IH]; [reflexivity|]. change (zero_pairs (a :: ids)) with (a :: 0 :: zero_pairs ids). cbn [length]. lia. Qed.
Lemma list_sos d ns ids sel ss se ba t h : zeroc (d_comps d) -> 1 <= ns -> Z.of_nat (length sel) = 2 * ns ->
  fits (ns + Z.of_nat (length ids) :: (sel ++ zero_pairs ids) ++ [ss; se; ba]) ->
  parse_sos (mkHst d (segment (ns + Z.of_nat (length ids) :: (sel ++ zero_pairs ids) ++ [ss; se; ba]) ++ t)) = (Ok tt, h) ->
  exists d1 T T', h = mkHst (phi T d1) t /\
    parse_sos (mkHst d (segment (ns :: sel ++ [ss; se; ba]) ++ t)) = (Ok tt, mkHst (phi T' d1) t).
Proof.
  intros Hz Hn Hl Hf E. set (N := ns + Z.of_nat (length ids)) in *.
  destruct (sos_inv _ _ _ _ _ _ _ _ Hf E) as (_ & H2 & H3 & H4 & H5 & H6).
  assert (EN : Z.to_nat N = (Z.to_nat ns + length ids)%nat) by (unfold N; lia).
  destruct (sos_comps_prefix (Z.to_nat N) 0 seen0 (sel ++ zero_pairs ids) (set_d_nscans N d)) as [(d2 & _ & H7)|H7].
  { rewrite app_length, zero_pairs_length. lia. }
  2:{ exfalso. clear H6. unfold parse_sos in E. unfold bind at 1 in E. rewrite sos_bytes in E by exact Hf. unfold bind, rd_byte, modd, getd in E. cbn [hd_rd hd_dec] in E.
      destruct (negb (_ =? _)) in E; [discriminate|]. destruct (negb (_ && _)) in E; [discriminate|]. destruct (_ =? 0) in E; [discriminate|].
      change [false; false; false; false] with seen0 in E. specialize (H7 (ss :: se :: ba :: t)). destruct (sos_components _ _ _ _) as [[[]| | |] s]; try discriminate. now apply H7. }
  destruct (H6 d2 H7) as [T ->].
  pose proof (H7 []) as H8. rewrite EN, <- app_assoc in H8. apply list_app in H8; [|lia|apply fresh_zero; exact Hz].
  destruct H8 as (d1 & T1 & H9 & H10). injection H10 as ->.
  (* the same list after another number of components *)
  assert (exists T2, forall y, sos_components (Z.to_nat ns) 0 seen0 (mkHst (set_d_nscans ns d) (sel ++ y)) = (Ok tt, mkHst (phi T2 d1) y)) as [T2 H11].
  { destruct (sos_comps_prefix (Z.to_nat ns) 0 seen0 sel (set_d_nscans ns d)) as [(d3 & _ & H11)|H11]; [lia| |].
    - destruct (sim_sos_components (Z.to_nat ns) 0 seen0 (mkHst (set_d_nscans N d) (sel ++ [])) (params_of (set_d_nscans ns d))) as (r & T2 & H12 & _).
      change (fh (params_of (set_d_nscans ns d)) (mkHst (set_d_nscans N d) (sel ++ []))) with (mkHst (set_d_nscans ns d) (sel ++ [])) in H12.
      rewrite H11, H9 in H12. unfold fh in H12. cbn [snd hd_dec hd_rd] in H12. injection H12 as _ H12. exists T2. intros y. rewrite H11. now rewrite H12.
    - exfalso. destruct (sim_sos_components (Z.to_nat ns) 0 seen0 (mkHst (set_d_nscans N d) (sel ++ [])) (params_of (set_d_nscans ns d))) as (r & T2 & H12 & H13).
      change (fh (params_of (set_d_nscans ns d)) (mkHst (set_d_nscans N d) (sel ++ []))) with (mkHst (set_d_nscans ns d) (sel ++ [])) in H12.
      rewrite H9 in H12, H13. cbn [fst req] in H13. subst r. specialize (H11 []). rewrite H12 in H11. now apply H11. }
  destruct (sos_run d ns sel ss se ba t (phi T2 d1)) as [T' H12]; auto.
  { clear - Hf. unfold fits, blen in *. cbn [length] in *. rewrite !app_length in *. cbn [length] in *. lia. }
  { unfold N in H2. lia. }
  exists d1, T, T'. split; [reflexivity|exact H12].
Qed.

Lemma scan_list cpu o l ns sel ids ss se ah al t px : Forall header_seg l -> Forall (fun s => fst s <> 194) l ->
  1 <= ns -> Z.of_nat (length sel) = 2 * ns -> ns + Z.of_nat (length ids) <= 255 -> Forall byte sel -> Forall byte ids ->
  byte ss -> byte se -> 0 <= ah <= 13 -> 0 <= al <= 13 -> Forall byte t ->
  let d := new_with_options cpu o in
  fst (decode_buffer d ([255; 216] ++ msegs_bytes l ++ mseg_bytes (scan_seg (ns + Z.of_nat (length ids)) (sel ++ zero_pairs ids) ss se ah al) ++ t)) = Ok px ->
  fst (decode_buffer d ([255; 216] ++ msegs_bytes l ++ mseg_bytes (scan_seg ns sel ss se ah al) ++ t)) = Ok px.
Proof.
  intros Hl Hp Hn Hlen HN Hs Hids B1 B2 B3 B4 Ht d.
  assert (Hi : hinv d) by exact (after_inv cpu o [] (Forall_nil _)).
  unfold decode_buffer. rewrite !on_buffer_eq. cbn [fst app].
  assert (Hz : Forall byte (zero_pairs ids)).
  { clear - Hids. induction Hids as [|a ids Ha _ IH]; [constructor|]. constructor; [exact Ha|]. constructor; [unfold byte; lia|exact IH]. }
  pose proof (zero_pairs_length ids) as Hzl.
  assert (F : forall n q, byte n -> Forall byte q -> Z.of_nat (length q) <= 1000 ->
    fits (n :: q ++ [ss; se; 16 * ah + al]) /\ Forall byte (segment (n :: q ++ [ss; se; 16 * ah + al]) ++ t)).
  { intros n q Hb Hq Hq2. assert (Hf : fits (n :: q ++ [ss; se; 16 * ah + al])).
    { unfold fits, blen. cbn [length]. rewrite app_length. cbn [length]. lia. }
    split; [exact Hf|]. apply segment_app; auto. constructor; [exact Hb|]. apply Forall_app. split; [exact Hq|]. repeat constructor; unfold byte in *; lia. }
  assert (Hm : forall p, Forall byte (segment p ++ t) -> Forall byte (mseg_bytes (218, p) ++ t)).
  { intros p H. unfold mseg_bytes. cbn [fst snd app]. constructor; [unfold byte; lia|constructor; [unfold byte; lia|exact H]]. }
  destruct (F ns sel) as [Fs Bs]; [unfold byte; lia|exact Hs|lia|].
  destruct (F (ns + Z.of_nat (length ids)) (sel ++ zero_pairs ids)%list) as [Fl Bl]; [unfold byte; lia|apply Forall_app; auto|rewrite app_length; lia|].
  destruct (items_cases (fun a b => d_prog b = d_prog a /\ (zeroc (d_comps a) -> zeroc (d_comps b))) (fun _ => conj eq_refl (fun H => H))
    ltac:(intros a b c [H1 H2] [H3 H4]; split; [congruence|auto]) l Hl
    ltac:(intros [m q] d0 t0 Hin _; cbn [fst]; split;
      [apply keeps_marker_prog; exact (proj1 (Forall_forall _ _) Hp _ Hin)
      |apply zeroc_marker; pose proof (proj1 (Forall_forall _ _) Hl _ Hin) as (_ & _ & H & _); exact H])
    0 0 d _ _ Hi ltac:(lia) ltac:(lia) (Hm _ Bl) (Hm _ Bs) ltac:(discriminate) ltac:(discriminate))
    as [(d0 & l' & b' & Hi0 & Hl' & Hb' & [Hpr Hzc] & Ea & Eb)|[Ha _]].
  2:{ rewrite <- decode_headers_soi in Ha. intros E. exfalso. now apply (decode_internal_no_ok _ Ha) in E. }
  rewrite sos_loop in Ea by auto. rewrite sos_loop in Eb by auto. rewrite <- decode_headers_soi in Ea, Eb.
  change d with (new_with_options cpu o) in Hpr. change (d_prog (new_with_options cpu o)) with false in Hpr.
  specialize (Hzc (Forall_nil _)).
  unfold decode_internal. unfold bind at 1 3. unfold scan_seg. rewrite Ea, Eb.
  destruct (parse_sos (mkHst d0 (segment (ns + Z.of_nat (length ids) :: (sel ++ zero_pairs ids) ++ [ss; se; 16 * ah + al]) ++ t))) as [[[]| | |] h] eqn:E; try discriminate.
  assert (Hk : d_prog (hd_dec h) = false).
  { pose proof (keeps_parse_sos d_prog untouched_prog (mkHst d0 (segment (ns + Z.of_nat (length ids) :: (sel ++ zero_pairs ids) ++ [ss; se; 16 * ah + al]) ++ t))) as K.
    cbv beta in K. rewrite E in K. cbn [snd hd_dec] in K. congruence. }
  destruct (list_sos _ _ _ _ _ _ _ _ _ Hzc Hn Hlen Fl E) as (d1 & T & T' & -> & ->).
  cbn [hd_dec] in Hk. change (d_prog (phi T d1)) with (d_prog d1) in Hk.
  unfold bind, getd. cbn [hd_dec]. change (d_prog (phi T d1)) with (d_prog d1). change (d_prog (phi T' d1)) with (d_prog d1). rewrite Hk.
  intros E2. pose proof (params_baseline T' (phi T d1) t) as H. rewrite phi_phi in H. now apply (req_ok _ _ _ H).
Qed.
