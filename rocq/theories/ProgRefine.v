(** Decoding refinement scans gives back what was encoded. *)
From Coq Require Import ZArith String List Bool Lia.
From Coq Require Import ZifyBool ZifyNat ZifyN.
From Verif Require Import Base Types Huffman Bitstream BaseFacts HeaderFacts
  SpecHuffman SpecSegments SpecExtend SpecBits SpecBlock SpecProg Obs HuffmanProofs HuffmanPrefix
  HuffDecode ExtendFacts TableSegments BitReader Refill Reader Feed FastAc Block ProgBlocks.
Import ListNotations.
Local Open Scope Z_scope.
Ltac Zify.zify_post_hook ::= Z.div_mod_to_equations.

(** * Refinement AC scans *)
Definition half (w : Z) : Z := Z.quot w 2.

Lemma half_small w : Z.abs w < 2 -> half w = 0.
Proof. intros H. unfold half. destruct (Z.eq_dec w 0) as [->|]; [reflexivity|].
  assert (w = 1 \/ w = -1) as [-> | ->] by lia; reflexivity. Qed.
Lemma half_big w : 2 <= Z.abs w -> half w <> 0.
Proof. intros H. unfold half. pose proof (Z.quot_rem' w 2). pose proof (Z.rem_bound_abs w 2). lia. Qed.

Lemma land_pow2 o q al : 0 <= al -> o = q * 2 ^ (al + 1) -> Z.land o (2 ^ al) = 0.
Proof.
  intros Ha ->. apply Z.bits_inj'. intros n Hn. rewrite Z.land_spec, Z.bits_0.
  rewrite Z.pow2_bits_eqb by lia. destruct (al =? n) eqn:E; [|apply andb_false_r].
  rewrite Z.mul_pow2_bits_low by lia. reflexivity.
Qed.

Lemma correct_ok al w : 0 <= al <= 13 -> 2 <= Z.abs w -> Z.abs (w * 2 ^ al) <= 32767 ->
  (if Z.b2z (Z.odd (Z.abs w)) =? 1 then correct (half w * 2 ^ (al + 1)) (2 ^ al)
   else half w * 2 ^ (al + 1)) = w * 2 ^ al.
Proof.
  intros Ha Hw Hb. pose proof (pow13 al Ha) as Hp. rewrite Z.pow_add_r by lia. change (2 ^ 1) with 2.
  set (P := 2 ^ al) in *.
  assert (w = 2 * half w + Z.rem w 2) as E by (apply Z.quot_rem').
  assert (Z.odd (Z.abs w) = negb (Z.rem w 2 =? 0)) as Eo.
  { replace (Z.odd (Z.abs w)) with (Z.odd w)
      by (destruct (Z.abs_eq_or_opp w) as [-> | ->]; [reflexivity|now rewrite Z.odd_opp]).
    rewrite Zodd_mod. unfold Zeq_bool. pose proof (Z.rem_bound_abs w 2 ltac:(lia)).
    destruct (Z.compare_spec (w mod 2) 1); destruct (Z.rem w 2 =? 0) eqn:E0; try reflexivity; exfalso; lia. }
  rewrite Eo. destruct (Z.rem w 2 =? 0) eqn:E0; cbn [negb Z.b2z Z.eqb Pos.eqb].
  - rewrite E at 2. replace (Z.rem w 2) with 0 by lia. ring.
  - unfold correct.
    rewrite (land_pow2 _ (half w) al ltac:(lia)) by (rewrite Z.pow_add_r by lia; reflexivity).
    cbn [Z.eqb]. change (2 ^ al) with P.
    assert (half w <> 0) as Hh by (now apply half_big).
    assert (Z.rem w 2 = Z.sgn (half w)) as Er.
    { pose proof (Z.rem_bound_abs w 2 ltac:(lia)). unfold half in *.
      destruct (Z_lt_le_dec w 0) as [Hn|Hn].
      - pose proof (Z.rem_nonpos w 2 ltac:(lia) ltac:(lia)).
        assert (Z.quot w 2 < 0) by lia. lia.
      - pose proof (Z.rem_nonneg w 2 ltac:(lia) ltac:(lia)).
        assert (0 < Z.quot w 2) by lia. lia. }
    rewrite Z.abs_mul, (Z.abs_eq P) in Hb by lia.
    destruct (0 <=? half w * (P * 2)) eqn:E1.
    + assert (0 < half w) by nia. assert (w = 2 * half w + 1) as Ew by lia.
      replace (half w * (P * 2) + P) with (w * P) by (rewrite Ew at 1; ring).
      apply i16_id. nia.
    + assert (half w < 0) by nia. assert (w = 2 * half w - 1) as Ew by lia.
      replace (half w * (P * 2) - P) with (w * P) by (rewrite Ew at 1; ring).
      apply i16_id. nia.
Qed.

Lemma feed_ensure s bs x : feed 0 s bs x ->
  exists s', (if b_left s <? 1 then refill else ret tt) s = (Ok tt, s') /\ feed 1 s' bs x /\
    same_params s s'.
Proof.
  intros Hf. destruct (b_left s <? 1) eqn:E.
  - destruct (feed_refill _ _ _ _ Hf) as (s1 & E1 & Hf1 & Hp1). exists s1.
    split; [exact E1|]. split; [|exact Hp1]. eapply feed_weaken; [exact Hf1|lia].
  - exists s. split; [reflexivity|]. split; [|apply same_params_refl].
    eapply feed_left; [exact Hf|lia].
Qed.

Lemma next_tl T al k w b : next_are T al k (w :: b) -> next_are T al (k + 1) b.
Proof. intros H. change (w :: b) with ([w] ++ b)%list in H. apply next_skip in H. exact H. Qed.

Lemma corrections_cons w ws : corrections (w :: ws) =
  ((if old_nonzero w then [Z.odd (Z.abs w)] else []) ++ corrections ws)%list.
Proof. unfold corrections. cbn [filter]. destruct (old_nonzero w); reflexivity. Qed.
Lemma zeros_cons w ws : zeros (w :: ws) = ((if (w =? 0)%Z then 1 else 0) + zeros ws)%nat.
Proof. unfold zeros. cbn [filter]. destruct (w =? 0); reflexivity. Qed.

Lemma same_set s s' e : same_params s s' -> b_eob s = e -> same_params (set_eob s e) s'.
Proof. unfold same_params. destruct s; cbn. intuition congruence. Qed.

Lemma refine_band_nil ac n b : refine_band ac [] n b -> n = 0%nat /\ b = [].
Proof.
  intros H. inversion H as [|ws r y c Hk|ws rest n' c b' Hn Hz Hc Hr E|ws w rest n' c b' Hn Hz Hw Hc Hr E]; subst; auto.
  - tauto.
  - destruct ws; discriminate.
  - destruct ws; discriminate.
Qed.

Section AcRefine.
  Variables (t : hufftable) (ft counts symbols : list Z) (al ss se : Z).
  Hypothesis Ht : ac_table t ft counts symbols true.
  Hypothesis Hal : 0 <= al <= 12.
  Hypothesis Hss : 1 <= ss.
  Hypothesis Hse : se <= 63.

  (** The coefficients before the scan *)
  Definition olds (O : Z -> Z) (k : Z) (ws : list Z) : Prop := next_are O (al + 1) k (map half ws).
  Definition small (ws : list Z) : Prop := Forall (fun w => Z.abs (w * 2 ^ al) <= 32767) ws.

  Lemma olds_skip O k a b : olds O k (a ++ b) -> olds O (k + zlen a) b.
  Proof.
    unfold olds. rewrite map_app. intros H. apply next_skip in H.
    replace (zlen (map half a)) with (zlen a) in H by (unfold zlen; now rewrite map_length). exact H.
  Qed.
  Lemma olds_front O k a b : olds O k (a ++ b) -> olds O k a.
  Proof. unfold olds. rewrite map_app. apply next_front. Qed.

  Lemma olds_hd O k w b : olds O k (w :: b) -> O k = half w * 2 ^ (al + 1).
  Proof. unfold olds. cbn [map]. apply next_hd. Qed.
  Lemma olds_tl O k w b : olds O k (w :: b) -> olds O (k + 1) b.
  Proof. unfold olds. cbn [map]. apply next_tl. Qed.

  (** One coefficient that is already nonzero *)
  Lemma correct_step T O k w block s bs x :
    2 <= Z.abs w -> Z.abs (w * 2 ^ al) <= 32767 -> T k = w * 2 ^ al ->
    O k = half w * 2 ^ (al + 1) -> ss <= k <= 63 -> part block T O ss k ->
    feed 1 s (Z.odd (Z.abs w) :: bs) x ->
    let i := Z.land (unzig (Z.land k 63)) 63 in
    let coef := zn block i in
    (coef =? 0) = false /\
    exists s1, get_bit s = (Ok (Z.b2z (Z.odd (Z.abs w))), s1) /\
      part (if Z.b2z (Z.odd (Z.abs w)) =? 1 then zset block i (correct coef (2 ^ al)) else block)
           T O ss (k + 1) /\
      feed 0 s1 bs x /\ same_params s s1.
  Proof.
    intros Hw Hb HT HO Hk Hp Hf i coef.
    assert (coef = half w * 2 ^ (al + 1)) as Ec.
    { unfold coef, i. rewrite (part_at _ _ _ _ _ _ Hp) by lia. exact HO. }
    pose proof (half_big w Hw) as Hh. assert (0 < 2 ^ (al + 1)) by (apply pow2_pos; lia).
    split; [apply Z.eqb_neq; nia|].
    destruct (feed_bit 1 s _ bs x Hf ltac:(lia)) as (s1 & Eg & Hf1 & Hp1).
    exists s1. split; [exact Eg|]. split; [|split; [exact Hf1|exact Hp1]].
    pose proof (correct_ok al w ltac:(lia) Hw Hb) as Hc.
    assert (i = Z.land (unzig k) 63) as Ei by (unfold i; now rewrite (land63 k) by lia).
    destruct (Z.b2z (Z.odd (Z.abs w)) =? 1).
    - rewrite Ei. apply part_set; [exact Hp|lia|lia|]. rewrite HT, Ec. now symmetry.
    - apply part_keep with k; [exact Hp|lia|]. intros k' Hk'. assert (k' = k) as -> by lia.
      rewrite HT, HO. now symmetry.
  Qed.

  Lemma advance_ok : forall ws fuel k T O block s bs x,
    no_new ws -> small ws -> (length ws < fuel)%nat -> ss <= k -> k + zlen ws <= se ->
    next_are T al k ws -> olds O k ws -> O (k + zlen ws) = 0 ->
    part block T O ss k -> b_se s = se -> feed 1 s (corrections ws ++ bs) x ->
    exists block' s', advance_nonzero fuel (2 ^ al) k (Z.of_nat (zeros ws)) block s
        = (Ok (k + zlen ws, block'), s') /\
      part block' T O ss (k + zlen ws) /\ feed 1 s' bs x /\ same_params s s'.
  Proof.
    induction ws as [|w ws IH]; intros fuel k T O block s bs x Hn Hb Hfuel Hk Hlen HT HO Hz Hp Hbse Hf.
    - rewrite zlen_nil in *. rewrite Z.add_0_r in *. destruct fuel as [|fuel]; [cbn in Hfuel; lia|].
      cbn [advance_nonzero]. erewrite bind_ok by reflexivity. rewrite Hbse.
      replace (se <? k) with false by lia. cbv zeta.
      rewrite (part_at _ _ _ _ _ _ Hp) by lia. rewrite Hz. cbn [Z.eqb negb].
      change (Z.of_nat (zeros []) - 1 <? 0) with true. cbn iota.
      exists block, s. split; [reflexivity|]. split; [exact Hp|]. split; [exact Hf|apply same_params_refl].
    - rewrite zlen_cons in *. pose proof (zlen_nonneg ws). cbn [length] in Hfuel.
      apply Forall_cons_iff in Hn. destruct Hn as [Hw Hn].
      apply Forall_cons_iff in Hb. destruct Hb as [Hwb Hb].
      pose proof (next_hd _ _ _ _ _ HT) as HTk. apply next_tl in HT.
      pose proof (olds_hd _ _ _ _ HO) as HOk. apply olds_tl in HO.
      destruct fuel as [|fuel]; [lia|]. cbn [advance_nonzero]. erewrite bind_ok by reflexivity.
      rewrite Hbse. replace (se <? k) with false by lia. cbv zeta.
      rewrite corrections_cons in Hf. unfold old_nonzero in Hf. rewrite zeros_cons.
      replace (k + (1 + zlen ws)) with (k + 1 + zlen ws) in * by lia.
      destruct (Z.eq_dec w 0) as [->|Hw0].
      + rewrite (part_at _ _ _ _ _ _ Hp) by lia. rewrite HOk. change (half 0 * 2 ^ (al + 1)) with 0.
        change (negb (0 =? 0)) with false. cbn iota.
        change (2 <=? Z.abs 0) with false in Hf. cbn [app] in Hf. change (0 =? 0) with true. cbn iota.
        replace (Z.of_nat (1 + zeros ws) - 1 <? 0) with false by lia.
        replace (Z.of_nat (1 + zeros ws) - 1) with (Z.of_nat (zeros ws)) by lia.
        apply IH with (T := T) (O := O); auto; try lia.
        apply part_keep with k; [exact Hp|lia|]. intros k' Hk'. assert (k' = k) as -> by lia.
        rewrite HTk, HOk. reflexivity.
      + assert (2 <= Z.abs w) as Hw2 by lia. replace (2 <=? Z.abs w) with true in Hf by lia.
        cbn [app] in Hf.
        destruct (correct_step T O k w block s _ x Hw2 Hwb HTk HOk ltac:(lia) Hp Hf)
          as (Hnz & s1 & Eg & Hp1 & Hf1 & Hq1).
        rewrite Hnz. cbn [negb]. erewrite bind_ok by exact Eg. cbv zeta.
        erewrite bind_ok by reflexivity.
        destruct (feed_ensure _ _ _ Hf1) as (s2 & Ee & Hf2 & Hq2). erewrite bind_ok by exact Ee.
        replace (w =? 0) with false by lia. change (0 + zeros ws)%nat with (zeros ws).
        pose proof (same_params_trans _ _ _ Hq1 Hq2) as Hq12.
        pose proof Hq12 as (_ & _ & _ & Hse2 & _).
        edestruct (IH fuel (k + 1) T O) as (blk & s3 & E3 & H3 & Hf3 & Hq3);
          [exact Hn|exact Hb|lia|lia|lia|exact HT|exact HO|exact Hz|exact Hp1|rewrite Hse2; exact Hbse|exact Hf2|].
        exists blk, s3. split; [exact E3|]. split; [exact H3|]. split; [exact Hf3|].
        eapply same_params_trans; eauto.
  Qed.

  Lemma refine_eob_ok : forall ws fuel k T O block s bs x,
    no_new ws -> small ws -> (length ws <= fuel)%nat -> ss <= k -> k + zlen ws = se + 1 ->
    next_are T al k ws -> olds O k ws ->
    part block T O ss k -> b_se s = se -> feed 1 s (corrections ws ++ bs) x ->
    exists block' s', refine_eob fuel (2 ^ al) k block s = (Ok block', s') /\
      part block' T O ss (se + 1) /\ feed 0 s' bs x /\ same_params s s'.
  Proof.
    induction ws as [|w ws IH]; intros fuel k T O block s bs x Hn Hb Hfuel Hk Hlen HT HO Hp Hbse Hf.
    - rewrite zlen_nil in *. exists block, s.
      destruct fuel; cbn [refine_eob]; erewrite bind_ok by reflexivity; rewrite Hbse;
        replace (se <? k) with true by lia; (split; [reflexivity|]); replace (se + 1) with k by lia;
        (split; [exact Hp|]); (split; [|apply same_params_refl]); eapply feed_weaken; eauto; lia.
    - rewrite zlen_cons in *. pose proof (zlen_nonneg ws). cbn [length] in Hfuel.
      apply Forall_cons_iff in Hn. destruct Hn as [Hw Hn].
      apply Forall_cons_iff in Hb. destruct Hb as [Hwb Hb].
      pose proof (next_hd _ _ _ _ _ HT) as HTk. apply next_tl in HT.
      pose proof (olds_hd _ _ _ _ HO) as HOk. apply olds_tl in HO.
      destruct fuel as [|fuel]; [lia|]. cbn [refine_eob]. erewrite bind_ok by reflexivity.
      rewrite Hbse. replace (se <? k) with false by lia. cbv zeta.
      rewrite corrections_cons in Hf. unfold old_nonzero in Hf.
      assert (exists block1 s1,
        (if zn block (Z.land (unzig (Z.land k 63)) 63) =? 0 then ret block
         else b <- get_bit ;; ret (if b =? 1 then zset block (Z.land (unzig (Z.land k 63)) 63)
               (correct (zn block (Z.land (unzig (Z.land k 63)) 63)) (2 ^ al)) else block))%m s
          = (Ok block1, s1) /\ part block1 T O ss (k + 1) /\ feed 0 s1 (corrections ws ++ bs) x /\
        same_params s s1) as (block1 & s1 & E1 & Hp1 & Hf1 & Hq1).
      { destruct (Z.eq_dec w 0) as [->|Hw0].
        - rewrite (part_at _ _ _ _ _ _ Hp) by lia. rewrite HOk. change (half 0 * 2 ^ (al + 1)) with 0.
          change (0 =? 0) with true. cbn iota. change (2 <=? Z.abs 0) with false in Hf. cbn [app] in Hf.
          exists block, s. split; [reflexivity|]. split; [|split; [eapply feed_weaken; [exact Hf|lia]|apply same_params_refl]].
          apply part_keep with k; [exact Hp|lia|]. intros k' Hk'. assert (k' = k) as -> by lia.
          rewrite HTk, HOk. reflexivity.
        - assert (2 <= Z.abs w) as Hw2 by lia. replace (2 <=? Z.abs w) with true in Hf by lia.
          cbn [app] in Hf.
          destruct (correct_step T O k w block s _ x Hw2 Hwb HTk HOk ltac:(lia) Hp Hf)
            as (Hnz & s1 & Eg & Hp1 & Hf1 & Hq1).
          rewrite Hnz. eexists _, s1. erewrite bind_ok by exact Eg. split; [reflexivity|]. auto. }
      erewrite bind_ok by exact E1. erewrite bind_ok by reflexivity.
      destruct (feed_ensure _ _ _ Hf1) as (s2 & Ee & Hf2 & Hq2). erewrite bind_ok by exact Ee.
      pose proof (same_params_trans _ _ _ Hq1 Hq2) as Hq12.
      pose proof Hq12 as (_ & _ & _ & Hse2 & _).
      edestruct (IH fuel (k + 1) T O) as (blk & s3 & E3 & H3 & Hf3 & Hq3);
        [exact Hn|exact Hb|lia|lia|lia|exact HT|exact HO|exact Hp1|rewrite Hse2; exact Hbse|exact Hf2|].
      exists blk, s3. split; [exact E3|]. split; [exact H3|]. split; [exact Hf3|].
      eapply same_params_trans; eauto.
  Qed.

  Lemma refine_no_eob_ok : forall ws n b, refine_band (code_of counts symbols) ws n b -> ws <> [] ->
    forall fuel k T O block s m bs x,
    small ws -> k + zlen ws = se + 1 -> ss <= k -> (length ws <= fuel)%nat ->
    next_are T al k ws -> olds O k ws -> part block T O ss k -> b_se s = se -> b_eob s = 0 ->
    feed m s (b ++ bs) x ->
    exists k' block' s' tail, refine_no_eob fuel t (2 ^ al) k block s = (Ok (k', block'), s') /\
      ss <= k' /\ k' + zlen tail = se + 1 /\ no_new tail /\ small tail /\ next_are T al k' tail /\ olds O k' tail /\
      part block' T O ss k' /\ feed 0 s' (corrections tail ++ bs) x /\
      ((n = 0%nat /\ tail = [] /\ same_params s s') \/ same_params (set_eob s (Z.of_nat n + 1)) s').
  Proof.
    pose proof (pow13 al ltac:(lia)) as Hpow.
    induction 1 as [|ws r y c Hws Hn Hr Hy Hc|ws rest n c b Hn Hz Hc Hrest IH|ws w rest n c b Hn Hz Hw Hc Hrest IH];
      intros Hne fuel k T O block s m bs x Hb Hlen Hk Hfuel HT HO Hp Hbse Heob Hf; [tauto| | |].
    - (* a run of blocks without new coefficients *)
      destruct (code_of_cw _ _ _ _ (at_def _ _ _ _ _ Ht) Hc) as (l & cw & Hcw & -> & Hl).
      destruct fuel as [|fuel]; [destruct ws; [tauto|cbn in Hfuel; lia]|]. cbn [refine_no_eob].
      destruct (feed_refill _ _ _ _ Hf) as (s1 & Er & Hf1 & Hp1).
      erewrite bind_ok by exact Er. erewrite bind_ok by reflexivity. rewrite <- !app_assoc in Hf1.
      destruct (ac_symbol t ft counts symbols true s1 l cw _ _ x Ht Hcw Hf1) as [_ (s2 & Es & Hf2 & Hp2)].
      unfold HUFF_LOOKAHEAD. erewrite bind_ok by exact Es. cbv zeta. rewrite land15, shr4.
      replace (16 * Z.of_nat r mod 16) with 0 by lia.
      replace (16 * Z.of_nat r / 16) with (Z.of_nat r) by lia.
      replace (Z.of_nat r =? 15) with false by lia. cbn [negb andb Z.eqb].
      destruct (feed_get _ s2 (bits_of r y) (corrections ws ++ bs) x Hf2) as (s3 & Eg & Hf3 & Hp3).
      { rewrite blen_bits. lia. }
      rewrite blen_bits, value_bits in Eg. rewrite Z.mod_small in Eg by exact Hy.
      erewrite bind_ok by exact Eg. erewrite bind_ok by reflexivity.
      eexists k, block, _, ws. split; [reflexivity|]. do 7 (split; [assumption|]). split; [|right].
      + apply feed_eob. eapply feed_weaken; [exact Hf3|]. rewrite blen_bits. lia.
      + rewrite shl1. rewrite Z2Nat.id.
        2:{ assert (0 < 2 ^ Z.of_nat r) by (apply pow2_pos; lia). lia. }
        replace (2 ^ Z.of_nat r + y - 1 + 1) with (2 ^ Z.of_nat r + y) by lia.
        apply same_eob. eapply same_params_trans; [|exact Hp3]. eapply same_params_trans; eauto.
    - (* sixteen zeros *)
      rewrite zlen_app, zlen_cons in Hlen. rewrite app_length in Hfuel. cbn [length] in Hfuel.
      pose proof (zlen_nonneg rest) as Hrl. pose proof (zlen_nonneg ws) as Hwl.
      destruct (code_of_cw _ _ _ _ (at_def _ _ _ _ _ Ht) Hc) as (l & cw & Hcw & -> & Hl).
      destruct fuel as [|fuel]; [lia|]. cbn [refine_no_eob].
      destruct (feed_refill _ _ _ _ Hf) as (s1 & Er & Hf1 & Hp1).
      erewrite bind_ok by exact Er. erewrite bind_ok by reflexivity. rewrite <- !app_assoc in Hf1.
      destruct (ac_symbol t ft counts symbols true s1 l cw _ _ x Ht Hcw Hf1) as [_ (s2 & Es & Hf2 & Hp2)].
      unfold HUFF_LOOKAHEAD. erewrite bind_ok by exact Es. cbv zeta. rewrite land15, shr4.
      change (240 mod 16) with 0. change (240 / 16) with 15. cbn [negb andb Z.eqb Pos.eqb].
      erewrite bind_ok by reflexivity.
      pose proof (same_params_trans _ _ _ Hp1 Hp2) as Hp12. pose proof Hp12 as (_ & _ & _ & Hse2 & Heob2).
      apply Forall_app in Hb. destruct Hb as [Hbw Hbr]. apply Forall_cons_iff in Hbr. destruct Hbr as [_ Hbr].
      pose proof (next_front _ _ _ _ _ HT) as HTw. apply next_skip in HT.
      pose proof (olds_front _ _ _ _ HO) as HOw. apply olds_skip in HO.
      pose proof (next_hd _ _ _ _ _ HT) as HTz. apply next_tl in HT.
      pose proof (olds_hd _ _ _ _ HO) as HOz. apply olds_tl in HO. change (half 0 * 2 ^ (al + 1)) with 0 in HOz.
      destruct (advance_ok ws 256 k T O block s2 (b ++ bs) x Hn Hbw) as (block1 & s3 & E3 & Hp3 & Hf3 & Hq3);
        try assumption; [unfold zlen in *; lia|lia|lia|eapply feed_weaken; [exact Hf2|lia]|].
      rewrite Hz in E3. change (Z.of_nat 15) with 15 in E3. erewrite bind_ok by exact E3. cbn [Z.eqb].
      erewrite bind_ok by reflexivity.
      pose proof (same_params_trans _ _ _ Hp12 Hq3) as Hp13. pose proof Hp13 as (_ & _ & _ & Hse3 & Heob3).
      rewrite Hse3, Hbse.
      assert (part block1 T O ss (k + zlen ws + 1)) as Hp1'.
      { apply part_keep with (k + zlen ws); [exact Hp3|lia|]. intros i Hi.
        assert (i = k + zlen ws) as -> by lia. rewrite HTz, HOz. reflexivity. }
      destruct rest as [|w rest].
      + destruct (refine_band_nil _ _ _ Hrest) as [-> ->]. cbn [app] in *. rewrite zlen_nil in Hlen.
        replace (se <? k + zlen ws + 1) with true by lia.
        exists (k + zlen ws + 1), block1, s3, []. split; [reflexivity|]. split; [lia|].
        split; [rewrite zlen_nil; lia|]. split; [constructor|]. split; [constructor|].
        split; [exact HT|]. split; [exact HO|]. split; [exact Hp1'|].
        split; [eapply feed_weaken; [exact Hf3|lia]|]. left. auto.
      + rewrite zlen_cons in Hlen, Hrl. pose proof (zlen_nonneg rest).
        replace (se <? k + zlen ws + 1) with false by lia.
        edestruct (IH ltac:(discriminate) fuel (k + zlen ws + 1) T O block1 s3)
          as (k' & blk & s5 & tl' & E5 & H5 & H6 & H7 & H8 & H9 & H10 & H11 & H12 & H13);
          [exact Hbr|rewrite zlen_cons; lia|lia|lia|exact HT|exact HO|exact Hp1'|lia|lia|exact Hf3|].
        exists k', blk, s5, tl'. split; [exact E5|]. do 8 (split; [assumption|]).
        destruct H13 as [(-> & -> & H13)|H13]; [left|right].
        * split; [reflexivity|]. split; [reflexivity|]. eapply same_params_trans; eauto.
        * eapply same_params_trans; [|exact H13]. now apply same_eob.
    - (* a new coefficient *)
      rewrite zlen_app, zlen_cons in Hlen. rewrite app_length in Hfuel. cbn [length] in Hfuel.
      pose proof (zlen_nonneg rest) as Hrl. pose proof (zlen_nonneg ws) as Hwl.
      destruct (code_of_cw _ _ _ _ (at_def _ _ _ _ _ Ht) Hc) as (l & cw & Hcw & -> & Hl).
      destruct fuel as [|fuel]; [lia|]. cbn [refine_no_eob].
      destruct (feed_refill _ _ _ _ Hf) as (s1 & Er & Hf1 & Hp1).
      erewrite bind_ok by exact Er. erewrite bind_ok by reflexivity. rewrite <- !app_assoc in Hf1.
      destruct (ac_symbol t ft counts symbols true s1 l cw _ _ x Ht Hcw Hf1) as [_ (s2 & Es & Hf2 & Hp2)].
      unfold HUFF_LOOKAHEAD. erewrite bind_ok by exact Es. cbv zeta. rewrite land15, shr4.
      replace ((16 * Z.of_nat (zeros ws) + 1) mod 16) with 1 by lia.
      replace ((16 * Z.of_nat (zeros ws) + 1) / 16) with (Z.of_nat (zeros ws)) by lia.
      cbn [negb andb Z.eqb Pos.eqb]. cbn [app] in Hf2.
      destruct (feed_bit _ s2 _ _ x Hf2 ltac:(lia)) as (s2' & Eg & Hf2' & Hp2').
      erewrite bind_ok by (erewrite bind_ok by exact Eg; reflexivity).
      pose proof (same_params_trans _ _ _ Hp1 (same_params_trans _ _ _ Hp2 Hp2')) as Hp12.
      pose proof Hp12 as (_ & _ & _ & Hse2 & Heob2).
      apply Forall_app in Hb. destruct Hb as [Hbw Hbr]. apply Forall_cons_iff in Hbr. destruct Hbr as [Hwb Hbr].
      pose proof (next_front _ _ _ _ _ HT) as HTw. apply next_skip in HT.
      pose proof (olds_front _ _ _ _ HO) as HOw. apply olds_skip in HO.
      pose proof (next_hd _ _ _ _ _ HT) as HTz. apply next_tl in HT.
      pose proof (olds_hd _ _ _ _ HO) as HOz. apply olds_tl in HO. rewrite half_small in HOz by lia.
      change (0 * 2 ^ (al + 1)) with 0 in HOz.
      destruct (advance_ok ws 256 k T O block s2' (b ++ bs) x Hn Hbw) as (block1 & s3 & E3 & Hp3 & Hf3 & Hq3);
        try assumption; [unfold zlen in *; lia|lia|lia|eapply feed_weaken; [exact Hf2'|lia]|].
      erewrite bind_ok by exact E3. cbv zeta.
      assert ((if Z.b2z (0 <? w) =? 1 then 2 ^ al else i16 (- 2 ^ al)) = w * 2 ^ al) as Ev.
      { rewrite i16_id by lia. destruct (0 <? w) eqn:E; cbn [Z.b2z Z.eqb Pos.eqb].
        - replace w with 1 by lia. lia.
        - replace w with (-1) by lia. lia. }
      rewrite Ev.
      assert ((w * 2 ^ al =? 0) = false) as Ez by (apply Z.eqb_neq; nia). rewrite Ez.
      rewrite i16_id by nia. rewrite (land63 (k + zlen ws)) by lia.
      assert (part (zset block1 (Z.land (unzig (k + zlen ws)) 63) (w * 2 ^ al)) T O ss
                (k + zlen ws + 1)) as Hp1'.
      { apply part_set; [exact Hp3|lia|lia|exact HTz]. }
      set (block2 := zset block1 (Z.land (unzig (k + zlen ws)) 63) (w * 2 ^ al)) in *.
      erewrite bind_ok by reflexivity.
      pose proof (same_params_trans _ _ _ Hp12 Hq3) as Hp13. pose proof Hp13 as (_ & _ & _ & Hse3 & Heob3).
      rewrite Hse3, Hbse.
      destruct rest as [|w' rest].
      + destruct (refine_band_nil _ _ _ Hrest) as [-> ->]. cbn [app] in *. rewrite zlen_nil in Hlen.
        replace (se <? k + zlen ws + 1) with true by lia.
        exists (k + zlen ws + 1), block2, s3, []. split; [reflexivity|]. split; [lia|].
        split; [rewrite zlen_nil; lia|]. split; [constructor|]. split; [constructor|].
        split; [exact HT|]. split; [exact HO|]. split; [exact Hp1'|].
        split; [eapply feed_weaken; [exact Hf3|lia]|]. left. auto.
      + rewrite zlen_cons in Hlen, Hrl. pose proof (zlen_nonneg rest).
        replace (se <? k + zlen ws + 1) with false by lia.
        edestruct (IH ltac:(discriminate) fuel (k + zlen ws + 1) T O block2 s3)
          as (k' & blk & s5 & tl' & E5 & H5 & H6 & H7 & H8 & H9 & H10 & H11 & H12 & H13);
          [exact Hbr|rewrite zlen_cons; lia|lia|lia|exact HT|exact HO|exact Hp1'|lia|lia|exact Hf3|].
        exists k', blk, s5, tl'. split; [exact E5|]. do 8 (split; [assumption|]).
        destruct H13 as [(-> & -> & H13)|H13]; [left|right].
        * split; [reflexivity|]. split; [reflexivity|]. eapply same_params_trans; eauto.
        * eapply same_params_trans; [|exact H13]. now apply same_eob.
  Qed.

  (** Nothing to correct in a block without AC coefficients *)
  Lemma no_olds block T O k ws : part block T O ss k -> ss <= k -> k + zlen ws = se + 1 ->
    no_new ws -> next_are T al k ws -> olds O k ws ->
    existsb (fun c => negb (c =? 0)) (tl block) = false ->
    corrections ws = [] /\ part block T O ss (se + 1).
  Proof.
    intros [Hl Hp] Hk Hlen Hn HT HO Hex.
    assert (forall i, 0 <= i < zlen ws -> zn ws i = 0) as Hz.
    { intros i Hi.
      assert (zn block (unzig (k + i)) = 0) as Hbz.
      { destruct (unzig_all (k + i) 0 ltac:(lia) ltac:(lia)) as (H1 & _ & H3 & _).
        change (unzig 0) with 0 in H3.
        destruct (Z.eq_dec (zn block (unzig (k + i))) 0) as [|Hnz]; [assumption|exfalso].
        assert (existsb (fun c => negb (c =? 0)) (tl block) = true) as Ht'; [|congruence].
        apply existsb_exists. exists (zn block (unzig (k + i))). split.
        - unfold zn. destruct block as [|a block]; [discriminate|]. cbn [tl].
          replace (Z.to_nat (unzig (k + i))) with (S (Z.to_nat (unzig (k + i) - 1))) by lia.
          cbn [nth]. apply nth_In. rewrite zlen_cons in Hl. unfold zlen in Hl. lia.
        - apply negb_true_iff. now apply Z.eqb_neq. }
      rewrite Hp in Hbz by lia. replace (k + i <? k) with false in Hbz by lia. rewrite andb_false_r in Hbz.
      specialize (HO i). replace (zlen (map half ws)) with (zlen ws) in HO by (unfold zlen; now rewrite map_length).
      rewrite HO in Hbz by exact Hi.
      assert (zn (map half ws) i = half (zn ws i)) as Em.
      { unfold zn. change 0 with (half 0) at 1. apply map_nth. }
      rewrite Em in Hbz. assert (0 < 2 ^ (al + 1)) by (apply pow2_pos; lia).
      assert (half (zn ws i) = 0) as Hh by nia.
      unfold no_new in Hn. rewrite Forall_forall in Hn. destruct (Hn (zn ws i)) as [|H2]; [|assumption|].
      - unfold zn. apply nth_In. unfold zlen in Hi. lia.
      - exfalso. exact (half_big _ H2 Hh). }
    split.
    - assert (forall w, In w ws -> w = 0) as Hw.
      { intros w Hw. apply In_nth with (d := 0) in Hw. destruct Hw as (i & Hi & <-).
        specialize (Hz (Z.of_nat i)). unfold zn, zlen in Hz. rewrite Nat2Z.id in Hz. apply Hz. lia. }
      clear - Hw. induction ws as [|w ws IH]; [reflexivity|].
      rewrite corrections_cons, IH by (intros; apply Hw; now right).
      rewrite (Hw w) by now left. reflexivity.
    - pose proof (zlen_nonneg ws). apply part_keep with k; [split; assumption|lia|]. intros i Hi.
      specialize (HT (i - k)). specialize (HO (i - k)).
      replace (zlen (map half ws)) with (zlen ws) in HO by (unfold zlen; now rewrite map_length).
      replace (k + (i - k)) with i in * by lia. rewrite HT, HO by lia.
      assert (zn (map half ws) (i - k) = half (zn ws (i - k))) as Em.
      { unfold zn. change 0 with (half 0) at 1. apply map_nth. }
      rewrite Em, Hz by lia. reflexivity.
  Qed.

  (** One block of a refinement scan: either a run goes on, or the block has its own bits *)
  Lemma ac_refine_ok ws n b T O block s m bs x :
    ws <> [] -> small ws -> ss + zlen ws = se + 1 -> next_are T al ss ws -> olds O ss ws ->
    part block T O ss ss -> b_se s = se -> b_ss s = ss -> b_al s = al ->
    (b_eob s = 0 /\ refine_band (code_of counts symbols) ws n b \/
     b_eob s = Z.of_nat n + 1 /\ no_new ws /\ b = corrections ws) ->
    feed m s (b ++ bs) x -> 0 <= m ->
    exists block' s', decode_mcu_ac_refine t block s = (Ok block', s') /\
      part block' T O ss (se + 1) /\ feed 0 s' bs x /\ same_params (set_eob s (Z.of_nat n)) s'.
  Proof.
    intros Hne Hb Hlen HT HO Hp Hbse Hbss Hbal Hcase Hf Hm.
    pose proof (pow13 al ltac:(lia)) as Hpow.
    unfold decode_mcu_ac_refine. erewrite bind_ok by reflexivity. cbv zeta.
    rewrite Hbal, Hbss, bit16 by lia.
    assert (exists k' block1 s1 tail,
      (if b_eob s =? 0 then refine_no_eob 257 t (2 ^ al) ss block else ret (ss, block))%m s
        = (Ok (k', block1), s1) /\
      ss <= k' /\ k' + zlen tail = se + 1 /\ no_new tail /\ small tail /\ next_are T al k' tail /\
      olds O k' tail /\ part block1 T O ss k' /\ feed 0 s1 (corrections tail ++ bs) x /\
      ((n = 0%nat /\ tail = [] /\ same_params s s1 /\ b_eob s = 0) \/
       same_params (set_eob s (Z.of_nat n + 1)) s1))
      as (k' & block1 & s1 & tail & E1 & H1 & H2 & H3 & H4 & H5 & H6 & H7 & H8 & H9).
    { destruct Hcase as [[Heob Hband]|(Heob & Hn & ->)].
      - rewrite Heob. change (0 =? 0) with true. cbn iota.
        edestruct (refine_no_eob_ok ws n b Hband Hne 257 ss T O block s m bs x)
          as (k' & blk & s5 & tl' & E5 & G5 & G6 & G7 & G8 & G9 & G10 & G11 & G12 & G13);
          try assumption; [lia|unfold zlen in Hlen; lia|].
        exists k', blk, s5, tl'. split; [exact E5|]. do 8 (split; [assumption|]). tauto.
      - replace (b_eob s =? 0) with false by lia. exists ss, block, s, ws.
        split; [reflexivity|]. split; [lia|]. do 6 (split; [assumption|]).
        split; [eapply feed_weaken; [exact Hf|lia]|]. right.
        apply same_set; [apply same_params_refl|exact Heob]. }
    erewrite bind_ok by exact E1. cbv beta iota. erewrite bind_ok by reflexivity.
    destruct H9 as [(-> & -> & H9 & Heob)|H9].
    - pose proof H9 as (_ & _ & _ & _ & He1). rewrite He1, Heob. change (0 <? 0) with false. cbn iota.
      exists block1, s1. split; [reflexivity|]. rewrite zlen_nil in H2.
      replace (se + 1) with k' by lia. split; [exact H7|]. split; [exact H8|].
      now apply same_set.
    - pose proof H9 as (Ha1 & Ha2 & Ha3 & Hse1 & He1).
      assert (b_eob s1 = Z.of_nat n + 1) as He1' by (rewrite He1; reflexivity).
      assert (b_se s1 = se) as Hse1' by (rewrite Hse1; exact Hbse).
      rewrite He1'. replace (0 <? Z.of_nat n + 1) with true by lia.
      assert (exists block2 s2,
        (if existsb (fun c => negb (c =? 0)) (tl block1)
         then refill ;;; refine_eob 256 (2 ^ al) k' block1 else ret block1)%m s1 = (Ok block2, s2) /\
        part block2 T O ss (se + 1) /\ feed 0 s2 bs x /\ same_params s1 s2)
        as (block2 & s2 & E2 & G1 & G2 & G3).
      { destruct (existsb _ (tl block1)) eqn:Ex.
        - destruct (feed_refill _ _ _ _ H8) as (s2 & Er & Hf2 & Hp2). erewrite bind_ok by exact Er.
          pose proof Hp2 as (_ & _ & _ & Hse2 & _).
          destruct (refine_eob_ok tail 256 k' T O block1 s2 bs x) as (blk & s3 & E3 & G1 & G2 & G3);
            try assumption; [unfold zlen in H2; lia|lia|eapply feed_weaken; [exact Hf2|lia]|].
          exists blk, s3. split; [exact E3|]. split; [exact G1|]. split; [exact G2|].
          eapply same_params_trans; eauto.
        - destruct (no_olds block1 T O k' tail H7 H1 H2 H3 H5 H6 Ex) as [Ec Hp'].
          rewrite Ec in H8. exists block1, s1. split; [reflexivity|]. split; [exact Hp'|].
          split; [exact H8|apply same_params_refl]. }
      erewrite bind_ok by exact E2. erewrite bind_ok by reflexivity.
      eexists block2, _. split; [reflexivity|]. split; [exact G1|]. split; [now apply feed_eob|].
      pose proof G3 as (Hb1 & Hb2 & Hb3 & Hb4 & Hb5). rewrite Hb5, He1'.
      replace (Z.of_nat n + 1 - 1) with (Z.of_nat n) by lia.
      eapply same_params_trans; [|exact (same_eob _ _ (Z.of_nat n) G3)].
      exact (same_eob _ _ (Z.of_nat n) H9).
  Qed.
End AcRefine.
