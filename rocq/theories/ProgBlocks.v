(** Decoding the blocks of progressive scans gives back what was encoded. *)
From Coq Require Import ZArith String List Bool Lia.
From Coq Require Import ZifyBool ZifyNat ZifyN.
From Verif Require Import Base Types Huffman Bitstream BaseFacts HeaderFacts
  SpecHuffman SpecSegments SpecExtend SpecBits SpecBlock SpecProg Obs HuffmanProofs HuffmanPrefix
  HuffDecode ExtendFacts TableSegments BitReader Refill Reader Feed FastAc Block.
Import ListNotations.
Local Open Scope Z_scope.
Ltac Zify.zify_post_hook ::= Z.div_mod_to_equations.

(** * Arithmetic *)
Lemma i16_id x : -32768 <= x <= 32767 -> i16 x = x.
Proof. intros. unfold i16. lia. Qed.
Lemma shr4 x : shr x 4 = x / 16.
Proof. reflexivity. Qed.
Lemma shl1 n : shl 1 n = 2 ^ n.
Proof. unfold shl. lia. Qed.
Lemma pow13 al : 0 <= al <= 13 -> 1 <= 2 ^ al <= 8192.
Proof.
  intros H. assert (0 < 2 ^ al) by (apply pow2_pos; lia).
  assert (2 ^ al <= 2 ^ 13) by (apply Z.pow_le_mono_r; lia). change (2 ^ 13) with 8192 in *. lia.
Qed.
Lemma bit16 al : 0 <= al <= 13 -> i16 (shl 1 al) = 2 ^ al.
Proof. intros H. pose proof (pow13 al H). rewrite shl1. apply i16_id. lia. Qed.

(** * The bit stream with another run length *)
Lemma feed_eob n s bs x e : feed n s bs x -> feed n (set_eob s e) bs x.
Proof.
  intros (Hk & u & E & z & r & [H1 H2 H3 H4] & H). split; [exact Hk|]. exists u, E, z, r.
  split; [|exact H]. destruct s. split; auto.
  - destruct H1. split; auto.
  - intros Hm. destruct (H3 Hm). split; auto.
Qed.
Lemma same_eob s s' e : same_params s s' -> same_params (set_eob s e) (set_eob s' e).
Proof. unfold same_params. destruct s, s'. cbn. intuition congruence. Qed.

(** * A partly decoded band: the new value below [pos], the old one elsewhere *)
Definition part (block : list Z) (T O : Z -> Z) (ss pos : Z) : Prop :=
  zlen block = 64 /\
  forall k, 0 <= k < 64 -> zn block (unzig k) = if (ss <=? k) && (k <? pos) then T k else O k.

Lemma part_keep block T O ss pos m : part block T O ss pos -> pos <= m ->
  (forall k, pos <= k < m -> T k = O k) -> part block T O ss m.
Proof.
  intros [Hl H] Hm Hz. split; [exact Hl|]. intros k Hk. rewrite H by exact Hk.
  destruct (ss <=? k) eqn:E0, (k <? pos) eqn:E1, (k <? m) eqn:E2; cbn [andb]; try reflexivity;
    [exfalso; lia|symmetry; apply Hz; lia].
Qed.
Lemma part_set block T O ss pos v : part block T O ss pos -> ss <= pos -> 0 <= pos < 64 ->
  T pos = v -> part (zset block (Z.land (unzig pos) 63) v) T O ss (pos + 1).
Proof.
  intros [Hl H] Hs Hp Hv. split; [now rewrite zlen_zset|]. intros k Hk.
  destruct (unzig_all pos k Hp Hk) as (H1 & H2 & H3 & _). destruct (unzig_all k k Hk Hk) as (H4 & _).
  rewrite H2, zn_zset by lia. rewrite H by exact Hk. rewrite Hl.
  destruct (unzig k =? unzig pos) eqn:E; cbn [andb].
  - replace (unzig pos <? 64) with true by lia.
    assert (k = pos) as -> by lia. replace (pos <? pos + 1) with true by lia.
    replace (ss <=? pos) with true by lia. auto.
  - destruct (ss <=? k) eqn:E0, (k <? pos) eqn:E1, (k <? pos + 1) eqn:E2; cbn [andb]; try lia.
Qed.
Lemma part_at block T O ss pos k : part block T O ss pos -> 0 <= k < 64 -> pos <= k ->
  zn block (Z.land (unzig (Z.land k 63)) 63) = O k.
Proof.
  intros [Hl H] Hk Hp. rewrite (land63 k) by exact Hk.
  destruct (unzig_all k k Hk Hk) as (H1 & H2 & _). rewrite H2, H by exact Hk.
  replace (k <? pos) with false by lia. now rewrite andb_false_r.
Qed.

Lemma code_of_cw counts symbols v b : table_def counts symbols ->
  code_of counts symbols v = Some b ->
  exists l c, codeword counts symbols l c v /\ b = bits_of l c /\ (1 <= l <= 16)%nat.
Proof.
  intros Hd H. destruct (code_of_codeword _ _ _ _ Hd H) as (l & c & H1 & H2 & _).
  exists l, c. destruct (codeword_sym _ _ _ _ _ Hd H1). auto.
Qed.

(** The next [ws] of the band, from position [k] on *)
Definition next_are (T : Z -> Z) (al k : Z) (ws : list Z) : Prop :=
  forall i, 0 <= i < zlen ws -> T (k + i) = zn ws i * 2 ^ al.

Lemma next_skip T al k a b : next_are T al k (a ++ b) -> next_are T al (k + zlen a) b.
Proof.
  intros H i Hi. specialize (H (zlen a + i)). pose proof (zlen_nonneg a).
  rewrite zlen_app, zn_app2 in H by lia.
  replace (k + (zlen a + i)) with (k + zlen a + i) in H by lia.
  replace (zlen a + i - zlen a) with i in H by lia. apply H. lia.
Qed.
Lemma next_front T al k a b : next_are T al k (a ++ b) -> next_are T al k a.
Proof.
  intros H i Hi. specialize (H i). rewrite zlen_app, zn_app1 in H by lia. apply H.
  pose proof (zlen_nonneg b). lia.
Qed.
Lemma next_hd T al k w b : next_are T al k (w :: b) -> T k = w * 2 ^ al.
Proof.
  intros H. specialize (H 0). rewrite zlen_cons in H. pose proof (zlen_nonneg b).
  rewrite Z.add_0_r in H. apply H. lia.
Qed.

(** * The first AC scan *)
Lemma first_band_nil ac n b : first_band ac [] n b -> n = 0%nat /\ b = [].
Proof.
  intros H. inversion H as [|k r y c Hk| |z w rest n' c b' Hz Hw]; subst; auto.
  - destruct k; [lia|discriminate].
  - destruct z; discriminate.
Qed.

Section AcFirst.
  Variables (t : hufftable) (ft counts symbols : list Z) (al ss se : Z).
  Hypothesis Ht : ac_table t ft counts symbols true.
  Hypothesis Hsafe : fast_safe counts symbols.
  Hypothesis Hal : 0 <= al <= 13.
  Hypothesis Hss : 1 <= ss.
  Hypothesis Hse : se <= 63.

  Lemma ac_first_ok : forall ws n b, first_band (code_of counts symbols) ws n b -> ws <> [] ->
    forall fuel k T O block s m bs x,
    Forall (fun w => Z.abs (w * 2 ^ al) <= 32767) ws ->
    k + zlen ws = se + 1 -> ss <= k -> (length ws <= fuel)%nat ->
    next_are T al k ws -> (forall i, k <= i <= se -> O i = 0) ->
    part block T O ss k -> b_se s = se -> b_eob s = 0 -> feed m s (b ++ bs) x ->
    exists block' s', ac_first_loop fuel t ft al k block s = (Ok block', s') /\
      part block' T O ss (se + 1) /\ feed 0 s' bs x /\
      same_params (set_eob s (Z.of_nat n)) s'.
  Proof.
    pose proof (pow13 al Hal) as Hpow.
    induction 1 as [|k0 r y c Hk0 Hr Hy Hc|rest n c b Hc Hrest IH|z w rest n c b Hz Hw Hc Hrest IH];
      intros Hne fuel k T O block s m bs x Hall Hlen Hk Hfuel HT HO Hp Hbse Heob Hf; [tauto| | |].
    - (* a run of empty bands *)
      rewrite zlen_rep in Hlen. rewrite repeat_length in Hfuel.
      destruct (code_of_cw _ _ _ _ (at_def _ _ _ _ _ Ht) Hc) as (l & cw & Hcw & -> & Hl).
      destruct fuel as [|fuel]; [lia|]. cbn [ac_first_loop].
      destruct (feed_refill _ _ _ _ Hf) as (s1 & Er & Hf1 & Hp1).
      erewrite bind_ok by exact Er. erewrite bind_ok by reflexivity. rewrite <- app_assoc in Hf1.
      destruct (ac_symbol t ft counts symbols true s1 l cw _ _ x Ht Hcw Hf1) as [He (s2 & Es & Hf2 & Hp2)].
      unfold HUFF_LOOKAHEAD.
      destruct He as [E0|[(_ & Hx0 & _)|(Hx0 & _)]]; [|discriminate|exfalso; lia].
      rewrite E0. cbn [negb Z.eqb]. erewrite bind_ok by exact Es.
      cbv zeta. rewrite land15, shr4.
      replace (16 * Z.of_nat r mod 16) with 0 by lia.
      replace (16 * Z.of_nat r / 16) with (Z.of_nat r) by lia. cbn [negb Z.eqb].
      replace (Z.of_nat r =? 15) with false by lia. cbn [negb].
      destruct (feed_get _ s2 (bits_of r y) bs x Hf2) as (s3 & Eg & Hf3 & Hp3).
      { rewrite blen_bits. lia. }
      rewrite blen_bits, value_bits in Eg. rewrite Z.mod_small in Eg by exact Hy.
      erewrite bind_ok by exact Eg. erewrite bind_ok by reflexivity.
      eexists block, _. split; [reflexivity|]. split; [|split].
      + apply part_keep with k; [exact Hp|lia|]. intros i Hi. rewrite HO by lia.
        specialize (HT (i - k)). rewrite zlen_rep, zn_rep in HT.
        replace (k + (i - k)) with i in HT by lia. rewrite HT by lia. lia.
      + apply feed_eob. eapply feed_weaken; [exact Hf3|]. rewrite blen_bits. lia.
      + rewrite shl1. rewrite Z2Nat.id.
        2:{ assert (0 < 2 ^ Z.of_nat r) by (apply pow2_pos; lia). lia. }
        apply same_eob. eapply same_params_trans; [|exact Hp3]. eapply same_params_trans; eauto.
    - (* sixteen zeros *)
      rewrite zlen_app, zlen_rep in Hlen. rewrite app_length, repeat_length in Hfuel.
      destruct (code_of_cw _ _ _ _ (at_def _ _ _ _ _ Ht) Hc) as (l & cw & Hcw & -> & Hl).
      destruct fuel as [|fuel]; [lia|]. cbn [ac_first_loop].
      destruct (feed_refill _ _ _ _ Hf) as (s1 & Er & Hf1 & Hp1).
      erewrite bind_ok by exact Er. erewrite bind_ok by reflexivity. rewrite <- app_assoc in Hf1.
      destruct (ac_symbol t ft counts symbols true s1 l cw _ _ x Ht Hcw Hf1) as [He (s2 & Es & Hf2 & Hp2)].
      unfold HUFF_LOOKAHEAD.
      destruct He as [E0|[(_ & Hx0 & _)|(Hx0 & _)]]; [|discriminate|exfalso; lia].
      rewrite E0. cbn [negb Z.eqb]. erewrite bind_ok by exact Es.
      change (shr 240 4) with 15. change (Z.land 240 15) with 0. cbn [negb Z.eqb Pos.eqb].
      erewrite bind_ok by reflexivity.
      pose proof (same_params_trans _ _ _ Hp1 Hp2) as Hp12.
      destruct Hp12 as (_ & _ & _ & Hse2 & Heob2). rewrite Hse2, Hbse.
      pose proof (zlen_nonneg rest) as Hrl.
      assert (part block T O ss (k + 16)) as Hp16.
      { apply part_keep with k; [exact Hp|lia|]. intros i Hi. rewrite HO by lia.
        specialize (next_front _ _ _ _ _ HT (i - k)) as HT'. rewrite zlen_rep, zn_rep in HT'.
        replace (k + (i - k)) with i in HT' by lia. rewrite HT' by lia. lia. }
      destruct rest as [|w rest].
      + (* the band ends here *)
        destruct (first_band_nil _ _ _ Hrest) as [-> ->]. cbn [app] in *.
        rewrite zlen_nil in Hlen. replace (se <? k + 16) with true by lia.
        exists block, s2. split; [reflexivity|]. split; [|split].
        * replace (se + 1) with (k + 16) by lia. exact Hp16.
        * eapply feed_weaken; [exact Hf2|lia].
        * pose proof (same_params_trans _ _ _ Hp1 Hp2) as Hp12.
          unfold same_params in *. destruct s; cbn in *. intuition lia.
      + rewrite zlen_cons in Hlen, Hrl. pose proof (zlen_nonneg rest).
        replace (se <? k + 16) with false by lia.
        apply Forall_app in Hall. destruct Hall as [_ Hall].
        apply next_skip in HT. rewrite zlen_rep in HT.
        edestruct (IH ltac:(discriminate) fuel (k + 16) T O block s2) as (blk & s3 & E3 & H3 & Hf3 & Hp3);
          [exact Hall|rewrite zlen_cons; lia|lia|lia|exact HT|intros; apply HO; lia|exact Hp16|lia|lia|exact Hf2|].
        exists blk, s3. split; [exact E3|]. split; [exact H3|]. split; [exact Hf3|].
        eapply same_params_trans; [|exact Hp3]. apply same_eob. eapply same_params_trans; eauto.
    - (* a coefficient *)
      rewrite zlen_app, zlen_rep, zlen_cons in Hlen. rewrite app_length, repeat_length in Hfuel.
      cbn [length] in Hfuel. pose proof (zlen_nonneg rest) as Hrl.
      destruct (code_of_cw _ _ _ _ (at_def _ _ _ _ _ Ht) Hc) as (l & cw & Hcw & -> & Hl).
      destruct fuel as [|fuel]; [lia|]. cbn [ac_first_loop].
      destruct (feed_refill _ _ _ _ Hf) as (s1 & Er & Hf1 & Hp1).
      erewrite bind_ok by exact Er. erewrite bind_ok by reflexivity. rewrite <- !app_assoc in Hf1.
      destruct (category_bounds w Hw) as [Hc1 Hc2].
      apply Forall_app in Hall. destruct Hall as [_ Hall]. apply Forall_cons_iff in Hall. destruct Hall as [Hwb Hall'].
      rewrite Z.abs_mul, (Z.abs_eq (2 ^ al)) in Hwb by lia.
      assert (Z.abs w <= 32767) as Hw15 by nia.
      assert (category w <= 15) as Hcat by (apply category_le; [lia|change (2 ^ 15) with 32768; lia]).
      set (sym := 16 * Z.of_nat z + category w) in *.
      assert (sym mod 16 = category w) as Hm16 by (unfold sym; clear - Hc1 Hcat; lia).
      assert (sym / 16 = Z.of_nat z) as Hd16 by (unfold sym; clear - Hc1 Hcat; lia).
      destruct (ac_symbol t ft counts symbols true s1 l cw sym _ x Ht Hcw Hf1) as [He (s2 & Es & Hf2 & Hp2)].
      unfold HUFF_LOOKAHEAD. set (e := zn ft (peek_bits 9 s1)) in *.
      assert (part block T O ss (k + Z.of_nat z)) as Hpz.
      { apply part_keep with k; [exact Hp|lia|]. intros i Hi. rewrite HO by lia.
        specialize (next_front _ _ _ _ _ HT (i - k)) as HT'. rewrite zlen_rep, zn_rep in HT'.
        replace (k + (i - k)) with i in HT' by lia. rewrite HT' by lia. lia. }
      apply next_skip in HT. rewrite zlen_rep in HT. pose proof (next_hd _ _ _ _ _ HT) as HTw.
      assert (part (zset block (Z.land (unzig (k + Z.of_nat z)) 63) (w * 2 ^ al)) T O ss
                (k + Z.of_nat z + 1)) as Hp' by (apply part_set; auto; lia).
      assert (next_are T al (k + Z.of_nat z + 1) rest) as HT'.
      { change (w :: rest) with ([w] ++ rest)%list in HT. apply next_skip in HT. exact HT. }
      assert (i16 (w * 2 ^ al) = w * 2 ^ al) as Hi16 by (apply i16_id; nia).
      (* what happens after the coefficient is stored *)
      assert (forall s3, same_params s s3 -> feed 0 s3 (b ++ bs) x ->
        exists block' s',
          (s4 <- get ;; (if b_se s4 <? k + Z.of_nat z + 1
            then ret (zset block (Z.land (unzig (k + Z.of_nat z)) 63) (w * 2 ^ al))
            else ac_first_loop fuel t ft al (k + Z.of_nat z + 1)
              (zset block (Z.land (unzig (k + Z.of_nat z)) 63) (w * 2 ^ al))))%m s3 = (Ok block', s') /\
          part block' T O ss (se + 1) /\ feed 0 s' bs x /\
          same_params (set_eob s (Z.of_nat n)) s') as Hgo.
      { intros s3 Hp3 Hf3. erewrite bind_ok by reflexivity.
        pose proof Hp3 as (_ & _ & _ & Hse3 & Heob3). rewrite Hse3, Hbse.
        destruct rest as [|w' rest].
        - destruct (first_band_nil _ _ _ Hrest) as [-> ->]. cbn [app] in *.
          rewrite zlen_nil in Hlen. replace (se <? k + Z.of_nat z + 1) with true by lia.
          eexists _, s3. split; [reflexivity|]. split; [|split].
          + replace (se + 1) with (k + Z.of_nat z + 1) by lia. exact Hp'.
          + exact Hf3.
          + unfold same_params in *. destruct s; cbn in *. intuition lia.
        - rewrite zlen_cons in Hlen, Hrl. pose proof (zlen_nonneg rest).
          replace (se <? k + Z.of_nat z + 1) with false by lia.
          edestruct (IH ltac:(discriminate) fuel (k + Z.of_nat z + 1) T O) as (blk & s5 & E5 & H5 & Hf5 & Hp5);
            [exact Hall'|rewrite zlen_cons; lia|lia|lia|exact HT'|intros; apply HO; lia|exact Hp'
            |rewrite Hse3; lia|lia|exact Hf3|].
          exists blk, s5. split; [exact E5|]. split; [|split; [exact Hf5|]].
          + exact H5.
          + eapply same_params_trans; [|exact Hp5]. now apply same_eob. }
      destruct He as [E0|[(Hx0 & _)|(_ & H9 & E0)]].
      + rewrite E0. cbn [negb Z.eqb]. erewrite bind_ok by exact Es.
        cbv zeta. rewrite land15, shr4, Hm16, Hd16.
        replace (category w =? 0) with false by lia. cbn [negb].
        destruct (feed_get _ s2 (extra w) (b ++ bs) x Hf2) as (s3 & Eg & Hf3 & Hp3).
        { rewrite extra_len by exact Hw. lia. }
        rewrite extra_len in Eg, Hf3 by exact Hw. rewrite extra_val in Eg by exact Hw.
        erewrite bind_ok by exact Eg.
        rewrite huff_extend_spec by (try apply additional_range; auto; lia).
        rewrite extend_additional by exact Hw. rewrite bit16 by exact Hal.
        rewrite (i16_id w) by lia. rewrite Hi16. rewrite (land63 (k + Z.of_nat z)) by lia.
        apply Hgo; [|eapply feed_weaken; [exact Hf3|lia]].
        eapply same_params_trans; [|exact Hp3]. eapply same_params_trans; eauto.
      + exfalso. lia.
      + rewrite Hm16 in H9, E0. rewrite Hd16 in E0.
        assert (category w <= 5) as Hc5.
        { destruct (Z_le_gt_dec (category w) 5) as [|Hgt]; [assumption|exfalso].
          specialize (Hsafe l cw sym Hcw). rewrite Hm16 in Hsafe. lia. }
        pose proof (top_bits s1 (bits_of l cw) (extra w) x (b ++ bs) 32 Hf1) as Htop.
        rewrite blen_bits, extra_len, extra_val in Htop by exact Hw. specialize (Htop ltac:(lia)).
        rewrite Htop in E0. rewrite extend_additional in E0 by exact Hw.
        assert (-31 <= w <= 31) as Hw31.
        { rewrite <- (extend_additional w Hw). apply extend_small; [lia|]. now apply additional_range. }
        destruct (fast_coef_vals e w (Z.of_nat z) (Z.of_nat l + category w) Hw31 ltac:(lia) ltac:(lia) E0)
          as (V1 & V2 & V3 & V4).
        rewrite V1. cbn [negb]. erewrite bind_ok by reflexivity. rewrite V2, V3, V4.
        rewrite bit16 by exact Hal. rewrite Hi16.
        replace (Z.min (k + Z.of_nat z) 63) with (k + Z.of_nat z) by lia.
        rewrite app_assoc in Hf1.
        destruct (feed_drop 32 s1 (bits_of l cw ++ extra w) _ x Hf1) as [Hf3 Hp3].
        { rewrite blen_app, blen_bits, extra_len by exact Hw. lia. }
        rewrite blen_app, blen_bits, extra_len in Hf3, Hp3 by exact Hw.
        apply Hgo; [|eapply feed_weaken; [exact Hf3|lia]].
        eapply same_params_trans; eauto.
  Qed.
End AcFirst.
