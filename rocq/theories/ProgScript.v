(** Scans of one component from their bytes, and sequences of scans. *)
From Coq Require Import ZArith String List Bool Lia.
From Coq Require Import ZifyBool ZifyNat ZifyN.
From Verif Require Import Base Types Huffman State Bitstream Headers Mcu McuProg.
From Verif Require Import SpecHuffman SpecSegments SpecExtend SpecBits SpecBlock SpecProg Obs ObsProg.
From Verif Require Import BaseFacts HeaderFacts HuffmanProofs HuffmanPrefix HuffDecode ExtendFacts TableSegments
  BitReader Refill Reader Feed FastAc Block ColorFacts Placement ProgFacts ProgBlocks ProgRefine ProgScan.
Import ListNotations.
Local Open Scope Z_scope.
Ltac Zify.zify_post_hook ::= Z.div_mod_to_equations.

(** * Starting and ending a scan *)
Lemma feed_reset st : bytes (b_rd st) -> known (snd (entropy (b_rd st))) ->
  feed 0 (bst_reset st) (scan_bits (b_rd st)) (snd (entropy (b_rd st))).
Proof.
  intros Hb Hk. split; [exact Hk|]. exists [], (fst (entropy (b_rd st))), 0%nat, [].
  split; [|split; [now rewrite !app_nil_r|split; [now left|left; cbn; lia]]].
  split; cbn.
  - split; cbn; lia.
  - exact Hb.
  - intros _. split; cbn; lia.
  - apply surjective_pairing.
Qed.

Lemma scan_marker_entropy rd : forall ff E c rest,
  entropy_from ff rd = (E, AtMarker c rest) -> scan_marker rd ff = (marker_from_u8 c, rest).
Proof.
  induction rd as [|r t IH]; intros ff E c rest H; cbn [entropy_from] in H; [destruct ff; discriminate|].
  cbn [scan_marker]. destruct ff.
  - destruct (r =? 255) eqn:E1; [eapply IH; exact H|].
    destruct (r =? 0) eqn:E0; cbn [negb].
    + destruct (entropy_from false t) as [e x] eqn:Et. injection H as _ ->.
      destruct t as [|r' t]; [discriminate|]. eapply IH. exact Et.
    + injection H as _ <- <-. reflexivity.
  - destruct (r =? 255) eqn:E1; [eapply IH; exact H|].
    destruct (entropy_from false t) as [e x] eqn:Et. injection H as _ ->. eapply IH. exact Et.
Qed.

Lemma feed_marker n s bs c rest d buf : feed n s bs (AtMarker c rest) ->
  exists s', get_marker (mkPst d s buf) = (Ok (marker_from_u8 c), mkPst d s' buf) /\ b_rd s' = rest /\
    (b_marker s = None \/ b_marker s = marker_from_u8 c) /\ b_marker s' = None.
Proof.
  intros (Hk & u & E & z & r & [_ _ _ H] & _). unfold get_marker. cbn [p_st p_dec p_buf].
  destruct (b_marker s) as [m|] eqn:Em.
  - destruct H as (_ & c' & Ec & Hm). injection Ec as -> ->. exists (set_marker s None).
    rewrite Hm. auto.
  - rewrite (scan_marker_entropy _ _ _ _ _ H). eexists. split; [reflexivity|].
    split; [reflexivity|]. split; [now left|exact Em].
Qed.

(** * One scan *)
Lemma huffman_new_dc' counts symbols t prog : table_def counts symbols ->
  huffman_new (0 :: counts) (values_of symbols) true prog = Ok t -> dc_table t counts symbols.
Proof.
  intros Hd H. split; [exact Hd| |eapply new_implements; eauto].
  destruct (Z_lt_dec (kraft counts) 65536) as [Hk|Hk]; [exact Hk|].
  exfalso. destruct (huffman_new_err counts symbols Hd true prog) as (e & E'); [tauto|].
  unfold values_of in H. congruence.
Qed.

(** The predictions do not matter between scans *)
Lemma zset_map {A B} (f : A -> B) l i x : map f (zset l i x) = zset (map f l) i (f x).
Proof.
  unfold zset. generalize (Z.to_nat i). induction l as [|a l IH]; intros [|n]; cbn; auto. now rewrite IH.
Qed.
Lemma preds_zset k p c l : zget l k = Some c ->
  map (set_c_pred 0) (zset l k (set_c_pred p c)) = map (set_c_pred 0) l.
Proof.
  intros H. rewrite zset_map. apply zset_same. rewrite zget_map, H. reflexivity.
Qed.

Lemma entropy_scan d st buf k c w h sb blocks K plane dcc dcs acc acs bits tail :
  scan_ready d k c w h sb ->
  Z.of_nat (length blocks) = w * h -> Forall (fun zz => length zz = 64%nat) blocks ->
  Forall (Forall (fun v => Z.abs v <= 32767)) blocks ->
  zget buf k = Some plane -> 64 * sb * h <= zlen plane -> shows w sb blocks K plane ->
  b_al st = d_al d -> b_ss st = d_ss d -> b_se st = d_se d ->
  scan_next K (d_ss d) (d_se d) (d_ah d) (d_al d) ->
  table_def dcc dcs -> table_def acc acs -> fast_safe acc acs ->
  (if d_ss d =? 0 then dc_ready d c dcc dcs else ac_ready d c acc acs) ->
  scan_data (code_of dcc dcs) (code_of acc acs) (d_ss d) (d_se d) (d_ah d) (d_al d) blocks bits ->
  bytes (b_rd st) -> known (snd (entropy (b_rd st))) -> scan_bits (b_rd st) = (bits ++ tail)%list ->
  exists m comps st' plane',
    parse_entropy_coded_data (mkPst d st buf)
      = (Ok tt, mkPst (set_d_comps comps (set_d_todo m d)) st' (zset buf k plane')) /\
    map (set_c_pred 0) comps = map (set_c_pred 0) (d_comps d) /\
    d_todo d - w * h <= m <= d_todo d /\ zlen plane' = zlen plane /\
    shows w sb blocks (scan_learns K (d_ss d) (d_se d) (d_al d)) plane' /\
    feed 0 st' tail (snd (entropy (b_rd st))) /\
    (d_ss d = 0 -> d_ah d = 0 -> 0 < h ->
     dc_first_last (code_of dcc dcs) (d_al d) 0 (map (hd 0) blocks) + Z.of_nat (length tail) <= 15 ->
     snd (entropy (b_rd st)) <> AtEnd -> b_marker st' <> None).
Proof.
  intros Hr Hn Hb64 Hsmall Hp Hl Hsh Ha1 Ha2 Ha3 Hnext Hdd Had Hsafe Htab Hdata Hby Hkn Hbits.
  destruct Hr as [Hdims Hnc H1 Hk Hc Hwh Hw Hh Hsb Hwsb Htodo].
  pose proof (feed_reset st Hby Hkn) as Hf. rewrite Hbits in Hf.
  set (d1 := set_d_comps (map (set_c_pred 0) (d_comps d)) d) in *.
  set (c1 := set_c_pred 0 c).
  assert (zget (d_comps d1) k = Some c1) as Hc1.
  { unfold d1. cbn [d_comps set_d_comps]. rewrite zget_map, Hc. reflexivity. }
  assert (exists m comps st' plane',
    scan_blocks (Z.to_nat (h * (w + 1) + 1)) k w h 0 0 (mkPst d1 (bst_reset st) buf)
      = (Ok tt, mkPst (set_d_comps comps (set_d_todo m d)) st' (zset buf k plane')) /\
    map (set_c_pred 0) comps = map (set_c_pred 0) (d_comps d) /\
    d_todo d - w * h <= m <= d_todo d /\ zlen plane' = zlen plane /\
    shows w sb blocks (scan_learns K (d_ss d) (d_se d) (d_al d)) plane' /\
    feed 0 st' tail (snd (entropy (b_rd st))) /\
    (d_ss d = 0 -> d_ah d = 0 -> 0 < h ->
     dc_first_last (code_of dcc dcs) (d_al d) 0 (map (hd 0) blocks) + Z.of_nat (length tail) <= 15 ->
     snd (entropy (b_rd st)) <> AtEnd -> b_marker st' <> None)) as (m & comps & st' & plane' & E & G).
  { destruct Hnext as (Hal & Hah' & Hah & Hnext). unfold scan_learns. unfold scan_data in Hdata.
    assert (map (set_c_pred 0) (map (set_c_pred 0) (d_comps d)) = map (set_c_pred 0) (d_comps d)) as Hmm
      by (rewrite map_map; now apply map_ext).
    destruct (d_ss d =? 0) eqn:Es.
    - assert (d_ss d = 0) as Es0 by lia. destruct Hnext as [Hse HKK].
      destruct Htab as (t & Htab & Ht). apply huffman_new_dc' in Ht; [|exact Hdd].
      destruct (d_ah d =? 0) eqn:Ea.
      + destruct Hdata as [Henc Hfit].
        destruct (dc_first_scan k w h sb (d_al d) 0 blocks K c1 d1 (bst_reset st) buf plane tail _
          Hw Hh Hn Hb64 Htodo Hc1 Hsb Hwsb Hp Hl Hsh Es0 Ha1 t dcc dcs bits Ht Htab Hal eq_refl Hsmall
          ltac:(unfold d1; cbn; lia) Henc Hfit Hf) as (m & p & st' & plane' & E & Hm & (Hz & Hs & Hf') & Hseen).
        exists m, (zset (d_comps d1) k (set_c_pred p c1)), st', plane'.
        split; [exact E|]. split; [|split; [exact Hm|split; [exact Hz|split; [|split; [exact Hf'|]]]]].
        3: { intros _ _ Hh0. exact (Hseen Hh0). }
        * rewrite preds_zset by exact Hc1. exact Hmm.
        * rewrite Es0, Hse. exact Hs.
      + destruct HKK as [HKK|HKK]; [lia|].
        subst bits.
        destruct (dc_refine_scan k w h sb (d_al d) 0 blocks K c1 d1 (bst_reset st) buf plane tail _
          Hw Hh Hn Hb64 Htodo Hc1 Hsb Hwsb Hp Hl Hsh Es0 Ha1 t Htab ltac:(lia) eq_refl Hsmall HKK
          ltac:(unfold d1; cbn; lia) Hf) as (m & st' & plane' & E & Hm & Hz & Hs & Hf').
        exists m, (d_comps d1), st', plane'.
        split; [exact E|]. split; [exact Hmm|split; [exact Hm|split; [exact Hz|split; [|split; [exact Hf'|lia]]]]].
        rewrite Es0, Hse. exact Hs.
    - destruct Hnext as (Hss & Hse & HKK).
      destruct Htab as (t & Htab & Ht). destruct (huffman_new_ac _ _ _ _ Had Ht) as (ft & Hat).
      destruct (d_ah d =? 0) eqn:Ea.
      + destruct (ac_first_scan k w h sb (d_al d) (d_ss d) (d_se d) blocks K c1 d1 (bst_reset st) buf plane tail _
          Hw Hh Hn Hb64 Htodo Hc1 Hsb Hwsb Hp Hl Hsh eq_refl Ha1 Ha2 Ha3 eq_refl t ft acc acs bits Hat Hsafe Htab
          Hal Hss Hse Hsmall HKK ltac:(unfold d1; cbn; lia) Hdata Hf) as (m & st' & plane' & E & Hm & Hz & Hs & Hf').
        exists m, (d_comps d1), st', plane'. split; [exact E|]. split; [exact Hmm|]. do 4 (split; [assumption|]). lia.
      + destruct (ac_refine_scan k w h sb (d_al d) (d_ss d) (d_se d) blocks K c1 d1 (bst_reset st) buf plane tail _
          Hw Hh Hn Hb64 Htodo Hc1 Hsb Hwsb Hp Hl Hsh eq_refl Ha1 Ha2 Ha3 eq_refl t ft acc acs bits Hat Htab
          ltac:(lia) Hss Hse Hsmall HKK ltac:(unfold d1; cbn; lia) Hdata Hf) as (m & st' & plane' & E & Hm & Hz & Hs & Hf').
        exists m, (d_comps d1), st', plane'. split; [exact E|]. split; [exact Hmm|]. do 4 (split; [assumption|]). lia. }
  exists m, comps, st', plane'. split; [|exact G].
  unfold parse_entropy_coded_data.
  erewrite bindok by reflexivity. cbn [p_dec]. rewrite Hdims. unfold lift at 1. erewrite bindok by reflexivity.
  erewrite bindok by reflexivity. erewrite bindok by reflexivity. erewrite bindok by reflexivity.
  cbn [p_dec p_st p_buf]. fold d1.
  change (num_components (d_incs d1)) with (num_components (d_incs d)).
  change (d_nscans d1) with (d_nscans d). change (d_se d1) with (d_se d). change (d_ss d1) with (d_ss d).
  change (d_zorder d1) with (d_zorder d). change (d_inter d1) with (d_inter d). change (d_info d1) with (d_info d).
  change (d_mcux d1) with (d_mcux d). change (d_mcuy d1) with (d_mcuy d).
  rewrite H1. replace (num_components (d_incs d) <? 1) with false by lia. change (1 =? 1) with true. cbv iota.
  assert (negb (d_se d =? 0) && (d_ss d =? 0) = false) as ->.
  { destruct Hnext as (_ & _ & _ & Hnext). destruct (d_ss d =? 0); [|now rewrite andb_false_r]. destruct Hnext as [-> _]. reflexivity. }
  cbv zeta. rewrite Hk.
  assert (zlen (d_comps d1) <=? k = false) as -> by (apply zget_some in Hc1; lia).
  erewrite bindok by (unfold get_comp, bind, getp, lift, at_; cbn [p_dec]; rewrite Hc1; reflexivity).
  change (c_cid c1) with (c_cid c). rewrite <- Hwh. exact E.
Qed.
