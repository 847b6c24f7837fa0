(** [decode_huff] returns the symbol whose codeword comes next. *)
From Coq Require Import ZArith String List Bool Lia.
From Coq Require Import ZifyBool ZifyNat ZifyN.
From Verif Require Import Base Huffman Bitstream BaseFacts SpecHuffman HuffmanProofs.
Import ListNotations.
Local Open Scope Z_scope.
Ltac Zify.zify_post_hook ::= Z.div_mod_to_equations.

Lemma lk_entry_val s v : 0 <= s -> 0 <= v < 512 -> lk_entry s v = s * 512 + v.
Proof.
  intros Hs Hv. unfold lk_entry, shl. change (2 ^ 9) with 512.
  rewrite <- Z.lxor_lor.
  - rewrite <- Z.add_nocarry_lxor; [reflexivity|].
    apply Z.bits_inj'. intros n Hn. rewrite Z.land_spec, Z.bits_0.
    destruct (Z_lt_dec n 9) as [H|H].
    + change 512 with (2 ^ 9). rewrite Z.mul_pow2_bits_low by lia. reflexivity.
    + rewrite (Z.bits_above_log2 v n); [apply andb_false_r|lia|].
      destruct (Z.eq_dec v 0) as [->|]; [cbn; lia|].
      apply Z.log2_lt_pow2; [lia|]. change 512 with (2 ^ 9) in Hv.
      apply Z.lt_le_trans with (2 ^ 9); [lia|]. apply Z.pow_le_mono_r; lia.
  - apply Z.bits_inj'. intros n Hn. rewrite Z.land_spec, Z.bits_0.
    destruct (Z_lt_dec n 9) as [H|H].
    + change 512 with (2 ^ 9). rewrite Z.mul_pow2_bits_low by lia. reflexivity.
    + rewrite (Z.bits_above_log2 v n); [apply andb_false_r|lia|].
      destruct (Z.eq_dec v 0) as [->|]; [cbn; lia|].
      apply Z.log2_lt_pow2; [lia|]. change 512 with (2 ^ 9) in Hv.
      apply Z.lt_le_trans with (2 ^ 9); [lia|]. apply Z.pow_le_mono_r; lia.
Qed.
Lemma land_ones_mod x n : 0 <= n -> Z.land x (2 ^ n - 1) = x mod 2 ^ n.
Proof. intros. rewrite <- Z.land_ones by lia. now rewrite Z.ones_equiv. Qed.

Lemma huff_len_skip n : forall w mc len,
  (forall i, 0 <= i < Z.of_nat n -> zn mc (len + i) <= w) ->
  forall m, huff_len (n + m) w mc len = huff_len m w mc (len + Z.of_nat n).
Proof.
  induction n as [|n IH]; intros w mc len H m.
  - cbn [Nat.add]. f_equal. lia.
  - cbn [Nat.add huff_len]. specialize (H 0 ltac:(lia)) as H0. rewrite Z.add_0_r in H0.
    replace (w <? zn mc len) with false by lia.
    rewrite IH.
    + f_equal. lia.
    + intros i Hi. replace (len + 1 + i) with (len + (i + 1)) by lia. apply H. lia.
Qed.

Section Decode.
  Variables counts symbols : list Z.
  Hypothesis Hdef : table_def counts symbols.
  Hypothesis Hk : kraft counts < 65536.
  Variable t : hufftable.
  Hypothesis Ht : tab_ok counts symbols t.

  Let Hlen : length counts = 16%nat.
  Proof. apply Hdef. Qed.
  Let Hcnt : Forall (fun n => 0 <= n <= 255) counts.
  Proof. apply Hdef. Qed.
  Let Hch : chain 0 (szn counts 16 1) (csn counts 16 1).
  Proof.
    apply (chain_table counts symbols Hdef 16 1); try lia.
    rewrite <- kraft_upto by assumption. lia.
  Qed.

  Lemma symbol_byte i v : nth_error symbols i = Some v -> 0 <= v <= 255.
  Proof.
    intros H. apply nth_error_In in H. destruct Hdef as (_ & _ & _ & _ & Hs).
    rewrite Forall_forall in Hs. now apply Hs.
  Qed.

  Lemma w_split A : 0 <= A < 2 ^ 64 ->
    0 <= A / 2 ^ 48 < 65536 /\ A / 2 ^ 55 = A / 2 ^ 48 / 128 /\ 0 <= A / 2 ^ 55 < 512.
  Proof. intros. lia. Qed.

  (** A 16-bit window below [upto l] starts with a codeword of at most [l] bits *)
  Lemma window_codeword w l : (1 <= l <= 16)%nat -> 0 <= w < upto counts l ->
    exists m c s, (m <= l)%nat /\ codeword counts symbols m c s /\ w / 2 ^ (16 - Z.of_nat m) = c.
  Proof.
    intros Hl Hw. induction l as [|l IH]; [lia|].
    destruct (Z_lt_dec w (pos counts (S l))) as [Hlt|Hge].
    - destruct l as [|l]; [cbn [pos] in Hlt; lia|].
      change (pos counts (S (S l))) with (upto counts (S l)) in Hlt.
      destruct (IH ltac:(lia) ltac:(lia)) as (m & c & s & H1 & H2 & H3).
      exists m, c, s. split; [lia|auto].
    - rewrite (pos_F counts symbols Hdef) in Hge by lia.
      set (p := 2 ^ (16 - Z.of_nat (S l))) in *.
      assert (0 < p) as Hp by (apply pow2_pos; lia).
      unfold upto in Hw. fold p in Hw.
      set (F := first_code counts (S l)) in *.
      assert (F <= w / p < F + count counts (S l)) as Hr.
      { split; [apply Z.div_le_lower_bound; lia|apply Z.div_lt_upper_bound; lia]. }
      destruct (codeword_entry counts symbols Hdef (S l) (w / p - F) ltac:(lia) ltac:(lia))
        as (_ & _ & Hi).
      pose proof (P_nonneg counts Hlen Hcnt (S l)).
      destruct (nth_error symbols (Z.to_nat (shorter counts (S l) + (w / p - F)))) as [s|] eqn:E.
      + exists (S l), (w / p), s. split; [lia|]. split; [|reflexivity].
        exists (w / p - F). repeat split; try lia. exact E.
      + apply nth_error_None in E. unfold zlen in Hi. lia.
  Qed.

  Lemma short_miss w :
    0 <= w < 65536 ->
    (forall m c s, (m <= 9)%nat -> codeword counts symbols m c s -> w / 2 ^ (16 - Z.of_nat m) <> c) ->
    zn (h_lookup t) (w / 128) = 5120.
  Proof.
    intros Hw Hno. destruct (to_lookup _ _ _ Ht (w / 128) ltac:(lia)) as [_ HB].
    apply HB. intros i s c E1 E2 Hs Hx.
    destruct (entry_codeword counts symbols Hdef i s c E1 E2)
      as (l & j & -> & Hl & Hj & Hi & Hc).
    destruct (codeword_entry counts symbols Hdef l j Hl Hj) as (_ & _ & Hlt).
    destruct (nth_error symbols (Z.to_nat (shorter counts l + j))) as [v|] eqn:E.
    - apply (Hno l c v); [lia| |].
      + exists j. repeat split; try lia. exact E.
      + rewrite short_chain by lia. rewrite (Z.mul_comm (2 ^ _)).
        rewrite <- Z.div_div by (try apply Z.pow_pos_nonneg; lia). exact Hx.
    - apply nth_error_None in E. pose proof (P_nonneg counts Hlen Hcnt l). unfold zlen in Hlt. lia.
  Qed.

  Lemma maxcode_miss w m : (1 <= m <= 16)%nat -> 0 <= w -> upto counts m <= w ->
    zn (h_maxcode t) (Z.of_nat m) <= w.
  Proof.
    intros Hm Hw Hu. rewrite (to_maxcode _ _ _ Ht m Hm). destruct (count counts m =? 0); lia.
  Qed.

  Lemma decode_huff_ok s l c v :
    0 <= b_aligned s < 2 ^ 64 ->
    codeword counts symbols l c v ->
    b_aligned s / 2 ^ (64 - Z.of_nat l) = c ->
    decode_huff t (zn (h_lookup t) (peek_bits 9 s)) s = (Ok v, drop_bits (Z.of_nat l) s).
  Proof.
    intros HA (j & Hj & Hl & Hc & Hv) Hbits.
    destruct (w_split _ HA) as (Hw & Hx & Hx512).
    set (w := b_aligned s / 2 ^ 48) in *.
    assert (w / 2 ^ (16 - Z.of_nat l) = c) as Hwc.
    { unfold w. rewrite Z.div_div by (try apply Z.pow_pos_nonneg; lia).
      rewrite <- pow2_split by lia. rewrite <- Hbits. f_equal. f_equal. lia. }
    destruct (codeword_entry counts symbols Hdef l j Hl Hj) as (E1 & E2 & Hlt).
    pose proof (symbol_byte _ _ Hv) as Hvb.
    pose proof (P_nonneg counts Hlen Hcnt l) as HP.
    assert (nth_error (symbols ++ zrepeat 0 (256 - zlen symbols))
              (Z.to_nat (shorter counts l + j)) = Some v) as Hval.
    { rewrite nth_error_app1; [exact Hv|]. apply nth_error_Some. congruence. }
    assert (peek_bits 9 s = w / 128) as Hp9 by exact Hx.
    assert (peek_bits 16 s = w) as Hp16 by reflexivity.
    rewrite Hp9. unfold decode_huff, HUFF_LOOKAHEAD. rewrite Hp16.
    destruct (le_dec l 9) as [H9|H9].
    - assert (zn (h_lookup t) (w / 128) = Z.of_nat l * 512 + v) as Hlk.
      { destruct (to_lookup _ _ _ Ht (w / 128) ltac:(lia)) as [HA' _].
        rewrite <- lk_entry_val by lia.
        apply (HA' _ _ (first_code counts l + j) v E1 E2 Hval ltac:(lia)).
        rewrite <- Hc, <- Hwc. rewrite short_chain by lia. rewrite (Z.mul_comm (2 ^ _)).
        rewrite <- Z.div_div by (try apply Z.pow_pos_nonneg; lia). reflexivity. }
      rewrite Hlk.
      assert (shr (Z.of_nat l * 512 + v) 9 = Z.of_nat l) as ->.
      { unfold shr. change (2 ^ 9) with 512. lia. }
      replace (9 <? Z.of_nat l) with false by lia.
      do 2 f_equal. change 511 with (2 ^ 9 - 1). rewrite land_ones_mod by lia.
      change (2 ^ 9) with 512. lia.
    - assert (zn (h_lookup t) (w / 128) = 5120) as Hlk.
      { apply short_miss; [exact Hw|]. intros m c' s' Hm (j' & Hj' & Hm1 & Hc' & _) Hwm.
        destruct (codeword_entry counts symbols Hdef m j' Hm1 Hj') as (E3 & E4 & _).
        pose proof (chain_inj 0 _ _ _ _ _ _ _ _ w Hch E1 E2 E3 E4 ltac:(lia) ltac:(lia)) as Heq.
        rewrite Heq in E1. rewrite E1 in E3. injection E3 as E3. lia. }
      rewrite Hlk. change (shr 5120 9) with 10. change (9 <? 10) with true. cbn iota.
      assert (huff_len (Z.to_nat (17 - 10)) w (h_maxcode t) 10 = Z.of_nat l) as Hhl.
      { replace (Z.to_nat (17 - 10)) with ((l - 10) + (17 - l))%nat by lia.
        rewrite huff_len_skip.
        - replace (17 - l)%nat with (S (16 - l)) by lia. cbn [huff_len].
          replace (10 + Z.of_nat (l - 10)) with (Z.of_nat l) by lia.
          rewrite (to_maxcode _ _ _ Ht l Hl).
          replace (count counts l =? 0) with false by lia.
          assert (w < upto counts l) as Hwu.
          { unfold upto. pose proof (pow2_pos (16 - Z.of_nat l) ltac:(lia)).
            pose proof (Z.mul_succ_div_gt w (2 ^ (16 - Z.of_nat l)) ltac:(lia)). nia. }
          replace (w <? upto counts l) with true by lia. reflexivity.
        - intros i Hi. replace (10 + i) with (Z.of_nat (10 + Z.to_nat i)) by lia.
          apply maxcode_miss; try lia.
          transitivity (upto counts (l - 1)).
          + apply upto_mono; auto; lia.
          + replace (upto counts (l - 1)) with (pos counts l)
              by (destruct l as [|[|l]]; try lia; cbn [pos]; f_equal; lia).
            rewrite (pos_F counts symbols Hdef) by lia.
            pose proof (pow2_pos (16 - Z.of_nat l) ltac:(lia)).
            pose proof (Z.mul_div_le w (2 ^ (16 - Z.of_nat l)) ltac:(lia)). nia. }
      rewrite Hhl. replace (Z.of_nat l =? 17) with false by lia.
      rewrite (to_offset _ _ _ Ht l Hl ltac:(lia)).
      unfold shr. rewrite Hwc. do 2 f_equal.
      change 255 with (2 ^ 8 - 1). rewrite land_ones_mod by lia.
      pose proof (symbols_256 counts symbols Hdef) as H256.
      rewrite Z.mod_small by (change (2 ^ 8) with 256; lia).
      rewrite (to_values _ _ _ Ht). unfold zn.
      apply nth_error_nth. rewrite <- Hval. f_equal. lia.
  Qed.

  Lemma decode_huff_none s :
    0 <= b_aligned s < 2 ^ 64 ->
    (forall l c v, codeword counts symbols l c v -> b_aligned s / 2 ^ (64 - Z.of_nat l) <> c) ->
    exists e, decode_huff t (zn (h_lookup t) (peek_bits 9 s)) s = (Err e, s).
  Proof.
    intros HA Hno.
    destruct (w_split _ HA) as (Hw & Hx & Hx512).
    set (w := b_aligned s / 2 ^ 48) in *.
    assert (forall l c v, codeword counts symbols l c v -> w / 2 ^ (16 - Z.of_nat l) <> c) as Hno'.
    { intros l c v Hcw He. apply (Hno l c v Hcw). destruct Hcw as (j & _ & Hl & _).
      rewrite <- He. unfold w. rewrite Z.div_div by (try apply Z.pow_pos_nonneg; lia).
      rewrite <- pow2_split by lia. f_equal. f_equal. lia. }
    assert (upto counts 16 <= w) as Hup.
    { destruct (Z_lt_dec w (upto counts 16)) as [Hlt|]; [exfalso|lia].
      destruct (window_codeword w 16 ltac:(lia) ltac:(lia)) as (m & c & v & _ & H1 & H2).
      exact (Hno' _ _ _ H1 H2). }
    assert (peek_bits 9 s = w / 128) as Hp9 by exact Hx.
    assert (peek_bits 16 s = w) as Hp16 by reflexivity.
    rewrite Hp9. unfold decode_huff, HUFF_LOOKAHEAD. rewrite Hp16.
    rewrite short_miss by (auto; intros; eapply Hno'; eauto).
    change (shr 5120 9) with 10. change (9 <? 10) with true. cbn iota.
    replace (Z.to_nat (17 - 10)) with (7 + 0)%nat by lia.
    rewrite huff_len_skip.
    - cbn [huff_len]. change (10 + Z.of_nat 7 =? 17) with true. cbn iota. eauto.
    - intros i Hi. replace (10 + i) with (Z.of_nat (10 + Z.to_nat i)) by lia.
      apply maxcode_miss; try lia. etransitivity; [|exact Hup]. apply upto_mono; auto; lia.
  Qed.
End Decode.
