(** Blocks whose last symbol is short: the marker behind it is seen. *)
From Coq Require Import ZArith String List Bool Lia.
From Coq Require Import ZifyBool ZifyNat ZifyN.
From Verif Require Import Base Types Huffman Bitstream BaseFacts HeaderFacts.
From Verif Require Import SpecHuffman SpecSegments SpecExtend SpecBits SpecBlock SpecRestart.
From Verif Require Import Obs HuffDecode FastAc Reader Feed ExtendFacts TableSegments HuffmanProofs HuffmanPrefix BitReader Refill Block.
Import ListNotations.
Local Open Scope Z_scope.
Ltac Zify.zify_post_hook ::= Z.div_mod_to_equations.

(** As [ac_bits], with the size of the last symbol *)
Inductive ac_ends (counts symbols : list Z) : list Z -> list bool -> Z -> Prop :=
| ae_eob k b : (0 < k)%nat -> emits counts symbols 0 b -> ac_ends counts symbols (repeat 0 k) b (blen b)
| ae_zrl rest b b' K : emits counts symbols 240 b -> ac_ends counts symbols rest b' K ->
    ac_ends counts symbols (repeat 0 16 ++ rest) (b ++ b') K
| ae_last r v b : (r <= 15)%nat -> v <> 0 -> category v <= 15 ->
    emits counts symbols (16 * Z.of_nat r + category v) b ->
    ac_ends counts symbols (repeat 0 r ++ [v]) (b ++ extra v) (blen b + category v)
| ae_coef r v rest b b' K : (r <= 15)%nat -> v <> 0 -> category v <= 15 ->
    emits counts symbols (16 * Z.of_nat r + category v) b -> ac_ends counts symbols rest b' K ->
    ac_ends counts symbols (repeat 0 r ++ v :: rest) (b ++ extra v ++ b') K.

Lemma zrl_ends counts symbols : table_def counts symbols -> forall n b rest b' K,
  zrl (code_of counts symbols) n = Some b -> ac_ends counts symbols rest b' K ->
  ac_ends counts symbols (repeat 0 (16 * n) ++ rest) (b ++ b') K.
Proof.
  intros Hd. induction n as [|n IH]; intros b rest b' K H Hr.
  - cbn in H. injection H as <-. exact Hr.
  - cbn [zrl] in H. apply cat_opt_some in H. destruct H as (y & z & H1 & H2 & ->).
    replace (16 * S n)%nat with (16 + 16 * n)%nat by lia. rewrite repeat_app, <- !app_assoc.
    apply ae_zrl; [now apply code_of_emits|]. now apply IH.
Qed.

Lemma encode_ac_ends counts symbols : table_def counts symbols -> forall zz run b,
  Forall (fun a => category a <= 15) zz -> (run + length zz <> 0)%nat ->
  encode_ac (code_of counts symbols) run zz = Some b ->
  ac_ends counts symbols (repeat 0 run ++ zz) b (last_symbol (code_of counts symbols) run zz).
Proof.
  intros Hd. induction zz as [|v zz IH]; intros run b Hc Hne H; cbn [encode_ac] in H.
  - rewrite app_nil_r. destruct run as [|run]; [cbn in Hne; lia|].
    change (Nat.eqb (S run) 0) with false in H. cbn iota in H. cbn [last_symbol]. change (Nat.eqb (S run) 0) with false. cbn iota.
    unfold code_len. rewrite H. apply ae_eob; [lia|]. now apply code_of_emits.
  - inversion Hc as [|? ? Hv Hrest]; subst. cbn [last_symbol]. destruct (v =? 0) eqn:Ev.
    + apply IH in H; [|assumption|lia]. assert (v = 0) as -> by lia.
      change (repeat 0 (S run) ++ zz)%list with (0 :: repeat 0 run ++ zz)%list in H.
      assert (forall n (l : list Z), (repeat 0 n ++ 0 :: l = 0 :: repeat 0 n ++ l)%list) as Hr.
      { clear. induction n as [|n IHn]; intros l; [reflexivity|]. cbn [repeat app]. now rewrite IHn. }
      now rewrite Hr.
    + apply cat_opt_some in H. destruct H as (b1 & x1 & H1 & H & ->).
      apply cat_opt_some in H. destruct H as (b2 & x2 & H2 & H & ->).
      apply cat_opt_some in H. destruct H as (b3 & x3 & H3 & H & ->). injection H3 as <-.
      assert (run = 16 * (run / 16) + run mod 16)%nat as Er by (apply Nat.div_mod; lia).
      rewrite Er at 1. rewrite repeat_app, <- app_assoc.
      assert (Hr15 : (run mod 16 <= 15)%nat).
      { pose proof (Nat.mod_upper_bound run 16 ltac:(lia)) as Hu.
        generalize dependent (run mod 16)%nat. intros m _ _ Hu. lia. }
      apply zrl_ends; auto. destruct zz as [|v' zz].
      * cbn in H. injection H as <-. rewrite app_nil_r. unfold code_len. rewrite H2.
        apply ae_last; [exact Hr15|lia|exact Hv|]. now apply code_of_emits.
      * apply ae_coef; [exact Hr15|lia|exact Hv|now apply code_of_emits|].
        apply (IH 0%nat x3 Hrest); [cbn; lia|exact H].
Qed.

Lemma decode_ac_end t ft counts symbols : ac_table t ft counts symbols false ->
  fast_safe counts symbols ->
  forall zz b K, ac_ends counts symbols zz b K ->
  forall fuel pre F pos block s n bs x,
  F = (pre ++ zz)%list -> zlen F = 64 -> zlen pre = pos -> (length zz <= fuel)%nat ->
  holds block F pos -> feed n s (b ++ bs) x ->
  exists block' s', decode_ac fuel t ft pos block s = (Ok block', s') /\ holds block' F 64 /\
    feed (32 - K) s' bs x /\ same_params s s'.
Proof.
  intros Ht Hsafe. induction 1 as [k b Hk (l & c & Hcw & ->)|rest b b' K (l & c & Hcw & ->) Hrest IH
                                  |r v b Hr Hv Hcat (l & c & Hcw & ->)|r v rest b b' K Hr Hv Hcat (l & c & Hcw & ->) Hrest IH];
    intros fuel pre F pos block s n bs x HF HF64 Hpre Hfuel Hh Hf.
  - (* end of block *)
    pose proof (f_equal zlen HF) as HFl. rewrite zlen_app, zlen_rep in HFl.
    pose proof (zlen_nonneg pre).
    destruct fuel as [|fuel]; [rewrite repeat_length in Hfuel; lia|].
    cbn [decode_ac]. replace (64 <=? pos) with false by lia.
    destruct (feed_refill _ _ _ _ Hf) as (s1 & Er & Hf1 & Hp1).
    erewrite bind_ok by exact Er. erewrite bind_ok by reflexivity.
    destruct (ac_symbol t ft counts symbols false s1 l c 0 bs x Ht Hcw Hf1) as [He (s2 & Es & Hf2 & Hp2)].
    destruct (codeword_sym _ _ _ _ _ (at_def _ _ _ _ _ Ht) Hcw) as [_ Hl].
    unfold HUFF_LOOKAHEAD. set (e := zn ft (peek_bits 9 s1)) in *.
    assert (holds block F 64) as Hh64.
    { apply holds_zeros with pos; [exact Hh|lia|]. intros k' Hk'. rewrite HF.
      rewrite zn_app2 by lia. apply zn_rep. }
    destruct He as [E0|[(_ & _ & H9 & E0)|(Hx0 & _)]].
    + rewrite E0. cbn [negb Z.eqb]. erewrite bind_ok by exact Es.
      change (shr 0 4) with 0. change (Z.land 0 15) with 0. cbn [negb Z.eqb].
      exists block, s2. split; [reflexivity|]. split; [exact Hh64|].
      split; [|eapply same_params_trans; eauto]. rewrite blen_bits. exact Hf2.
    + change (0 / 16 =? 0) with true in E0. cbn iota in E0.
      destruct (fast_zero_vals e 63 l ltac:(lia) ltac:(lia) E0) as (V1 & V2 & V3 & V4).
      rewrite V1. cbn [negb]. erewrite bind_ok by reflexivity. rewrite V2, V3, V4.
      replace (Z.min (pos + 63) 63) with 63 by lia.
      destruct (feed_drop 32 s1 (bits_of l c) bs x Hf1 ltac:(rewrite blen_bits; lia)) as [Hf3 Hp3].
      rewrite blen_bits in Hf3, Hp3.
      eexists _, (drop_bits (Z.of_nat l) s1).
      split.
      { destruct fuel; cbn [decode_ac]; replace (64 <=? pos + 63 + 1) with true by lia; reflexivity. }
      split; [|split; [rewrite blen_bits; exact Hf3|eapply same_params_trans; eauto]].
      apply holds_zeros with pos; [|lia|].
      { apply holds_zero; [exact Hh|lia|lia]. }
      intros k' Hk'. rewrite HF. rewrite zn_app2 by lia. apply zn_rep.
    + exfalso. apply Hx0. reflexivity.
  - (* sixteen zeros *)
    pose proof (f_equal zlen HF) as HFl. rewrite !zlen_app, zlen_rep in HFl.
    pose proof (zlen_nonneg pre). pose proof (zlen_nonneg rest).
    rewrite app_length, repeat_length in Hfuel.
    destruct fuel as [|fuel]; [lia|].
    cbn [decode_ac]. replace (64 <=? pos) with false by lia.
    destruct (feed_refill _ _ _ _ Hf) as (s1 & Er & Hf1 & Hp1).
    erewrite bind_ok by exact Er. erewrite bind_ok by reflexivity.
    rewrite <- app_assoc in Hf1.
    destruct (ac_symbol t ft counts symbols false s1 l c 240 _ x Ht Hcw Hf1) as [He (s2 & Es & Hf2 & Hp2)].
    destruct (codeword_sym _ _ _ _ _ (at_def _ _ _ _ _ Ht) Hcw) as [_ Hl].
    unfold HUFF_LOOKAHEAD. set (e := zn ft (peek_bits 9 s1)) in *.
    assert (holds block F (pos + 16)) as Hh16.
    { apply holds_zeros with pos; [exact Hh|lia|]. intros k' Hk'. rewrite HF.
      rewrite zn_app2 by lia. rewrite zn_app1 by (rewrite zlen_rep; lia). apply zn_rep. }
    assert (F = ((pre ++ repeat 0 16) ++ rest)%list) as HF' by (rewrite <- app_assoc; exact HF).
    assert (zlen (pre ++ repeat 0 16) = pos + 16) as Hpre' by (rewrite zlen_app, zlen_rep; lia).
    destruct He as [E0|[(_ & _ & H9 & E0)|(Hx0 & _)]].
    + rewrite E0. cbn [negb Z.eqb]. erewrite bind_ok by exact Es.
      change (shr 240 4) with 15. change (Z.land 240 15) with 0. cbn [negb Z.eqb Pos.eqb].
      destruct (IH fuel _ F (pos + 16) block s2 _ bs x HF' HF64 Hpre' ltac:(lia) Hh16 Hf2)
        as (blk & s3 & E3 & H3 & Hf3 & Hp3).
      exists blk, s3. split; [exact E3|]. split; [exact H3|]. split; [exact Hf3|].
      eapply same_params_trans; [|exact Hp3]. eapply same_params_trans; eauto.
    + change (240 / 16 =? 0) with false in E0. cbn iota in E0. change (240 / 16) with 15 in E0.
      destruct (fast_zero_vals e 15 l ltac:(lia) ltac:(lia) E0) as (V1 & V2 & V3 & V4).
      rewrite V1. cbn [negb]. erewrite bind_ok by reflexivity. rewrite V2, V3, V4.
      replace (Z.min (pos + 15) 63) with (pos + 15) by lia.
      replace (pos + 15 + 1) with (pos + 16) by lia.
      destruct (feed_drop 32 s1 (bits_of l c) _ x Hf1 ltac:(rewrite blen_bits; lia)) as [Hf3 Hp3].
      rewrite blen_bits in Hf3, Hp3.
      assert (holds (zset block (Z.land (unzig (pos + 15)) 63) 0) F (pos + 16)) as Hh'.
      { replace (pos + 16) with (pos + 15 + 1) by lia. apply holds_set; [|lia|].
        - apply holds_zeros with pos; [exact Hh|lia|]. intros k' Hk'. rewrite HF.
          rewrite zn_app2 by lia. rewrite zn_app1 by (rewrite zlen_rep; lia). apply zn_rep.
        - rewrite HF. rewrite zn_app2 by lia. rewrite zn_app1 by (rewrite zlen_rep; lia). apply zn_rep. }
      destruct (IH fuel _ F (pos + 16) _ _ _ bs x HF' HF64 Hpre' ltac:(lia) Hh' Hf3)
        as (blk & s3 & E3 & H3 & Hf4 & Hp4).
      exists blk, s3. split; [exact E3|]. split; [exact H3|]. split; [exact Hf4|].
      eapply same_params_trans; [|exact Hp4]. eapply same_params_trans; eauto.
    + exfalso. apply Hx0. reflexivity.
  - (* the last coefficient *)
    pose proof (f_equal zlen HF) as HFl. rewrite !zlen_app, zlen_rep, zlen_cons, zlen_nil in HFl.
    pose proof (zlen_nonneg pre).
    rewrite app_length, repeat_length in Hfuel. cbn [length] in Hfuel.
    destruct fuel as [|fuel]; [lia|].
    cbn [decode_ac]. replace (64 <=? pos) with false by lia.
    destruct (feed_refill _ _ _ _ Hf) as (s1 & Er & Hf1 & Hp1).
    erewrite bind_ok by exact Er. erewrite bind_ok by reflexivity.
    rewrite <- !app_assoc in Hf1.
    destruct (category_bounds v Hv) as [Hc1 Hc2].
    set (sym := 16 * Z.of_nat r + category v) in *.
    assert (sym mod 16 = category v) as Hm16 by (unfold sym; clear - Hc1 Hcat; lia).
    assert (sym / 16 = Z.of_nat r) as Hd16 by (unfold sym; clear - Hc1 Hcat; lia).
    destruct (ac_symbol t ft counts symbols false s1 l c sym _ x Ht Hcw Hf1) as [He (s2 & Es & Hf2 & Hp2)].
    destruct (codeword_sym _ _ _ _ _ (at_def _ _ _ _ _ Ht) Hcw) as [_ Hl].
    unfold HUFF_LOOKAHEAD. set (e := zn ft (peek_bits 9 s1)) in *.
    assert (holds block F (pos + Z.of_nat r)) as Hhr.
    { apply holds_zeros with pos; [exact Hh|lia|]. intros k' Hk'. rewrite HF.
      rewrite zn_app2 by lia. rewrite zn_app1 by (rewrite zlen_rep; lia). apply zn_rep. }
    assert (zn F (pos + Z.of_nat r) = v) as HFv.
    { rewrite HF. rewrite zn_app2 by lia. rewrite zn_app2 by (rewrite zlen_rep; lia).
      rewrite zlen_rep. replace (pos + Z.of_nat r - zlen pre - Z.of_nat r) with 0 by lia. reflexivity. }
    assert (holds (zset block (Z.land (unzig (pos + Z.of_nat r)) 63) v) F (pos + Z.of_nat r + 1)) as Hh'
      by (apply holds_set; [exact Hhr|lia|exact HFv]).
    assert (Hp64 : pos + Z.of_nat r + 1 = 64) by lia.
    assert (Hend : forall blk s', decode_ac fuel t ft (pos + Z.of_nat r + 1) blk s' = (Ok blk, s')).
    { intros blk s'. rewrite Hp64. destruct fuel; reflexivity. }
    rewrite Hp64 in Hh'.
    destruct He as [E0|[(Hx0 & _)|(_ & H9 & E0)]].
    + rewrite E0. cbn [negb Z.eqb]. erewrite bind_ok by exact Es.
      unfold shr at 1 2 3. change (2 ^ 4) with 16. rewrite land15, Hm16, Hd16.
      replace (category v =? 0) with false by lia. cbn [negb].
      destruct (feed_get _ s2 (extra v) bs x Hf2) as (s3 & Eg & Hf3 & Hp3).
      { rewrite extra_len by exact Hv. lia. }
      rewrite extra_len in Eg, Hf3 by exact Hv. rewrite extra_val in Eg by exact Hv.
      erewrite bind_ok by exact Eg.
      rewrite huff_extend_spec by (try apply additional_range; auto; lia).
      rewrite extend_additional by exact Hv.
      replace (i16 v) with v.
      2:{ assert (2 ^ category v <= 32768)
            by (change 32768 with (2 ^ 15); apply Z.pow_le_mono_r; lia).
          unfold i16. rewrite Z.mod_small by lia. lia. }
      rewrite (land63 (pos + Z.of_nat r)) by lia.
      rewrite Hend. eexists _, s3. split; [reflexivity|]. split; [exact Hh'|].
      rewrite blen_bits. replace (32 - (Z.of_nat l + category v)) with (32 - Z.of_nat l - category v) by lia. split; [exact Hf3|].
      eapply same_params_trans; [|exact Hp3]. eapply same_params_trans; eauto.
    + exfalso. lia.
    + rewrite Hm16 in H9, E0. rewrite Hd16 in E0.
      assert (category v <= 5) as Hc5.
      { destruct (Z_le_gt_dec (category v) 5) as [|Hgt]; [assumption|exfalso].
        specialize (Hsafe l c sym Hcw). rewrite Hm16 in Hsafe. lia. }
      pose proof (top_bits s1 (bits_of l c) (extra v) x bs 32 Hf1) as Htop.
      rewrite blen_bits, extra_len, extra_val in Htop by exact Hv. specialize (Htop ltac:(lia)).
      rewrite Htop in E0. rewrite extend_additional in E0 by exact Hv.
      assert (-31 <= v <= 31) as Hv31.
      { rewrite <- (extend_additional v Hv). apply extend_small; [lia|]. now apply additional_range. }
      replace (v * 1024 + Z.of_nat r * 16 + (Z.of_nat l + category v))
        with (v * 1024 + Z.of_nat r * 16 + (Z.of_nat l + category v)) in E0 by lia.
      destruct (fast_coef_vals e v (Z.of_nat r) (Z.of_nat l + category v) Hv31 ltac:(lia) ltac:(lia) E0)
        as (V1 & V2 & V3 & V4).
      rewrite V1. cbn [negb]. erewrite bind_ok by reflexivity. rewrite V2, V3, V4.
      replace (Z.min (pos + Z.of_nat r) 63) with (pos + Z.of_nat r) by lia.
      rewrite app_assoc in Hf1.
      destruct (feed_drop 32 s1 (bits_of l c ++ extra v) _ x Hf1) as [Hf3 Hp3].
      { rewrite blen_app, blen_bits, extra_len by exact Hv. lia. }
      rewrite blen_app, blen_bits, extra_len in Hf3, Hp3 by exact Hv.
      rewrite Hend. eexists _, _. split; [reflexivity|]. split; [exact Hh'|].
      rewrite blen_bits. split; [exact Hf3|]. eapply same_params_trans; eauto.
  - (* a coefficient *)
    pose proof (f_equal zlen HF) as HFl. rewrite !zlen_app, zlen_rep, zlen_cons in HFl.
    pose proof (zlen_nonneg pre). pose proof (zlen_nonneg rest).
    rewrite app_length, repeat_length in Hfuel. cbn [length] in Hfuel.
    destruct fuel as [|fuel]; [lia|].
    cbn [decode_ac]. replace (64 <=? pos) with false by lia.
    destruct (feed_refill _ _ _ _ Hf) as (s1 & Er & Hf1 & Hp1).
    erewrite bind_ok by exact Er. erewrite bind_ok by reflexivity.
    rewrite <- !app_assoc in Hf1.
    destruct (category_bounds v Hv) as [Hc1 Hc2].
    set (sym := 16 * Z.of_nat r + category v) in *.
    assert (sym mod 16 = category v) as Hm16 by (unfold sym; clear - Hc1 Hcat; lia).
    assert (sym / 16 = Z.of_nat r) as Hd16 by (unfold sym; clear - Hc1 Hcat; lia).
    destruct (ac_symbol t ft counts symbols false s1 l c sym _ x Ht Hcw Hf1) as [He (s2 & Es & Hf2 & Hp2)].
    destruct (codeword_sym _ _ _ _ _ (at_def _ _ _ _ _ Ht) Hcw) as [_ Hl].
    unfold HUFF_LOOKAHEAD. set (e := zn ft (peek_bits 9 s1)) in *.
    assert (holds block F (pos + Z.of_nat r)) as Hhr.
    { apply holds_zeros with pos; [exact Hh|lia|]. intros k' Hk'. rewrite HF.
      rewrite zn_app2 by lia. rewrite zn_app1 by (rewrite zlen_rep; lia). apply zn_rep. }
    assert (zn F (pos + Z.of_nat r) = v) as HFv.
    { rewrite HF. rewrite zn_app2 by lia. rewrite zn_app2 by (rewrite zlen_rep; lia).
      rewrite zlen_rep. replace (pos + Z.of_nat r - zlen pre - Z.of_nat r) with 0 by lia. reflexivity. }
    assert (holds (zset block (Z.land (unzig (pos + Z.of_nat r)) 63) v) F (pos + Z.of_nat r + 1)) as Hh'
      by (apply holds_set; [exact Hhr|lia|exact HFv]).
    assert (F = ((pre ++ repeat 0 r ++ [v]) ++ rest)%list) as HF'
      by (rewrite <- !app_assoc; exact HF).
    assert (zlen (pre ++ repeat 0 r ++ [v]) = pos + Z.of_nat r + 1) as Hpre'
      by (rewrite !zlen_app, zlen_rep, zlen_cons, zlen_nil; lia).
    destruct He as [E0|[(Hx0 & _)|(_ & H9 & E0)]].
    + rewrite E0. cbn [negb Z.eqb]. erewrite bind_ok by exact Es.
      unfold shr at 1 2 3. change (2 ^ 4) with 16. rewrite land15, Hm16, Hd16.
      replace (category v =? 0) with false by lia. cbn [negb].
      destruct (feed_get _ s2 (extra v) (b' ++ bs) x Hf2) as (s3 & Eg & Hf3 & Hp3).
      { rewrite extra_len by exact Hv. lia. }
      rewrite extra_len in Eg, Hf3 by exact Hv. rewrite extra_val in Eg by exact Hv.
      erewrite bind_ok by exact Eg.
      rewrite huff_extend_spec by (try apply additional_range; auto; lia).
      rewrite extend_additional by exact Hv.
      replace (i16 v) with v.
      2:{ assert (2 ^ category v <= 32768)
            by (change 32768 with (2 ^ 15); apply Z.pow_le_mono_r; lia).
          unfold i16. rewrite Z.mod_small by lia. lia. }
      rewrite (land63 (pos + Z.of_nat r)) by lia.
      destruct (IH fuel _ F _ _ s3 _ bs x HF' HF64 Hpre' ltac:(lia) Hh' Hf3)
        as (blk & s4 & E4 & H4 & Hf4 & Hp4).
      exists blk, s4. split; [exact E4|]. split; [exact H4|]. split; [exact Hf4|].
      eapply same_params_trans; [|exact Hp4]. eapply same_params_trans; [|exact Hp3].
      eapply same_params_trans; eauto.
    + exfalso. lia.
    + rewrite Hm16 in H9, E0. rewrite Hd16 in E0.
      assert (category v <= 5) as Hc5.
      { destruct (Z_le_gt_dec (category v) 5) as [|Hgt]; [assumption|exfalso].
        specialize (Hsafe l c sym Hcw). rewrite Hm16 in Hsafe. lia. }
      pose proof (top_bits s1 (bits_of l c) (extra v) x (b' ++ bs) 32 Hf1) as Htop.
      rewrite blen_bits, extra_len, extra_val in Htop by exact Hv. specialize (Htop ltac:(lia)).
      rewrite Htop in E0. rewrite extend_additional in E0 by exact Hv.
      assert (-31 <= v <= 31) as Hv31.
      { rewrite <- (extend_additional v Hv). apply extend_small; [lia|]. now apply additional_range. }
      replace (v * 1024 + Z.of_nat r * 16 + (Z.of_nat l + category v))
        with (v * 1024 + Z.of_nat r * 16 + (Z.of_nat l + category v)) in E0 by lia.
      destruct (fast_coef_vals e v (Z.of_nat r) (Z.of_nat l + category v) Hv31 ltac:(lia) ltac:(lia) E0)
        as (V1 & V2 & V3 & V4).
      rewrite V1. cbn [negb]. erewrite bind_ok by reflexivity. rewrite V2, V3, V4.
      replace (Z.min (pos + Z.of_nat r) 63) with (pos + Z.of_nat r) by lia.
      rewrite app_assoc in Hf1.
      destruct (feed_drop 32 s1 (bits_of l c ++ extra v) _ x Hf1) as [Hf3 Hp3].
      { rewrite blen_app, blen_bits, extra_len by exact Hv. lia. }
      rewrite blen_app, blen_bits, extra_len in Hf3, Hp3 by exact Hv.
      destruct (IH fuel _ F _ _ _ _ bs x HF' HF64 Hpre' ltac:(lia) Hh' Hf3)
        as (blk & s4 & E4 & H4 & Hf4 & Hp4).
      exists blk, s4. split; [exact E4|]. split; [exact H4|]. split; [exact Hf4|].
      eapply same_params_trans; [|exact Hp4]. eapply same_params_trans; eauto.
Qed.

Lemma decode_block_end dct act ft dcc dcs acc acs pred zz b n s bs x :
  dc_table dct dcc dcs -> ac_table act ft acc acs false -> fast_safe acc acs ->
  length zz = 64%nat ->
  match zz with [] => False | v :: rest => -32768 <= v <= 32767 /\
     category (v - pred) <= 15 /\ Forall (fun a => category a <= 15) rest /\
     code_len (code_of dcc dcs) (category (v - pred)) + category (v - pred) <= 16 end ->
  encode_block (code_of dcc dcs) (code_of acc acs) pred zz = Some b ->
  feed n s (b ++ bs) x ->
  exists s', decode_mcu_block dct act (zrepeat 0 64) pred s = (Ok (natural zz), s', hd 0 zz) /\
    feed (32 - last_symbol (code_of acc acs) 0 (tl zz)) s' bs x /\ same_params s s'.
Proof.
  intros Hdt Hat Hsafe Hlen Hzz Henc Hf. destruct zz as [|v rest]; [tauto|].
  destruct Hzz as (Hv & Hc & Hall & Hcl). cbn [encode_block] in Henc.
  apply cat_opt_some in Henc. destruct Henc as (b1 & x1 & E1 & Henc & ->).
  apply cat_opt_some in Henc. destruct Henc as (b2 & x2 & E2 & E3 & ->). injection E2 as <-.
  unfold code_len in Hcl. rewrite E1 in Hcl.
  destruct (code_of_codeword _ _ _ _ (dt_def _ _ _ Hdt) E1) as (l & c & Hcw & -> & _).
  rewrite bits_length in Hcl. cbn [length] in Hlen.
  apply encode_ac_ends in E3; [|apply (at_def _ _ _ _ _ Hat)|exact Hall|lia]. cbn [repeat app] in E3.
  rewrite <- !app_assoc in Hf.
  destruct (decode_dc_ok dct dcc dcs l c pred v n s (x2 ++ bs) x (dt_def _ _ _ Hdt) (dt_kraft _ _ _ Hdt)
             (dt_imp _ _ _ Hdt) Hcw ltac:(lia) Hcl Hv Hf) as (s1 & Ed & Hf1 & Hp1).
  unfold decode_mcu_block. rewrite (at_ft _ _ _ _ _ Hat), Ed.
  replace (i16 v) with v by (unfold i16; rewrite Z.mod_small by lia; lia).
  destruct (decode_ac_end act ft acc acs Hat Hsafe rest x2 _ E3 64%nat [v] (v :: rest) 1
              (zset (zrepeat 0 64) 0 v) s1 0 bs x eq_refl) as (blk & s2 & Ea & Hh & Hf2 & Hp2).
  - rewrite zlen_cons. unfold zlen. lia.
  - reflexivity.
  - lia.
  - apply holds_new. reflexivity.
  - exact Hf1.
  - rewrite Ea. exists s2. rewrite (holds_natural _ _ Hh).
    split; [reflexivity|]. split; [exact Hf2|]. eapply same_params_trans; eauto.
Qed.

(** Few bits before a marker: it has been seen *)
Lemma feed_seen n s bs c rest : feed n s bs (AtMarker c rest) -> blen bs < n ->
  b_marker s = marker_from_u8 c /\ b_rd s = rest.
Proof.
  intros (Hk & u & E & z & r & H1 & H2 & [[-> ->]|H3] & H4) Hn; [|discriminate].
  destruct H4 as [H4|H4].
  - exfalso. apply (f_equal blen) in H2. cbn [repeat] in H2. rewrite !app_nil_r, blen_app in H2. pose proof (blen_nonneg (bitsb E)). lia.
  - destruct H1 as [_ _ _ Ha]. destruct (b_marker s) as [m|]; [|congruence]. destruct Ha as (_ & c' & [= -> ->] & Hm). auto.
Qed.
