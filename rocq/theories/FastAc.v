(** The table that decodes a codeword and its additional bits in one step. *)
From Coq Require Import ZArith String List Bool Lia.
From Coq Require Import ZifyBool ZifyNat ZifyN.
From Verif Require Import Base Types Huffman Bitstream BaseFacts SpecHuffman SpecExtend Obs
  HuffmanProofs HuffmanPrefix HuffDecode ExtendFacts TableSegments.
Import ListNotations.
Local Open Scope Z_scope.
Ltac Zify.zify_post_hook ::= Z.div_mod_to_equations.

(** What an entry may hold, for the codeword ([l],[c],[v]) at the front of the window [A] *)
Definition fast_entry (prog : bool) (A : Z) (l : nat) (v e : Z) : Prop :=
  let size := v mod 16 in let run := v / 16 in
  e = 0 \/
  (size = 0 /\ prog = false /\ (l <= 9)%nat /\
   e = (if run =? 0 then 63 else run) * 16 + Z.of_nat l) \/
  (size <> 0 /\ Z.of_nat l + size <= 9 /\
   e = i16 (extend (A / 2 ^ (64 - Z.of_nat l - size) mod 2 ^ size) size * 1024
            + run * 16 + (Z.of_nat l + size))).
Definition fast_tab (ft : list Z) (counts symbols : list Z) (prog : bool) : Prop :=
  forall A l c v, 0 <= A < 2 ^ 64 -> codeword counts symbols l c v ->
    A / 2 ^ (64 - Z.of_nat l) = c -> fast_entry prog A l v (zn ft (A / 2 ^ 55)).

Lemma zn_fast_ac_table sizes values fast prog i :
  zlen fast = 512 -> 0 <= i < 512 ->
  zn (fast_ac_table sizes values fast prog) i = fast_ac_entry sizes values prog i (zn fast i).
Proof.
  intros Hl Hi. unfold fast_ac_table, zn.
  assert (Forall (fun '(p, q) => True) (zip (zseq 512) fast)) as _ by (apply Forall_forall; intros [] _; auto).
  set (g := fun '(i0, f) => fast_ac_entry sizes values prog i0 f).
  assert (nth_error (zip (zseq 512) fast) (Z.to_nat i) = Some (i, nth (Z.to_nat i) fast 0)) as E.
  { assert (forall (a b : list Z) n, (n < length a)%nat -> length a = length b ->
       nth_error (zip a b) n = Some (nth n a 0, nth n b 0)) as Hz.
    { induction a as [|x a IH]; intros [|y b] n Hn Hab; cbn [length] in *; try lia.
      destruct n; [reflexivity|]. cbn [zip nth_error nth]. apply IH; lia. }
    rewrite Hz.
    - do 2 f_equal. unfold zseq.
      rewrite (nth_indep _ 0 (Z.of_nat 0)).
      + rewrite map_nth. rewrite seq_nth by lia. lia.
      + rewrite map_length, seq_length. lia.
    - unfold zseq. rewrite map_length, seq_length. lia.
    - unfold zseq. rewrite map_length, seq_length. unfold zlen in Hl. lia. }
  rewrite (nth_indep _ 0 (g (0, 0))).
  - rewrite map_nth. rewrite (nth_error_nth _ _ (0, 0) E). reflexivity.
  - rewrite map_length. apply nth_error_Some. congruence.
Qed.

Lemma fast_value x size run L :
  0 <= x < 2 ^ size -> 1 <= size -> L + size <= 9 -> 1 <= L -> 0 <= run <= 15 ->
  let k := if x <? 2 ^ (size - 1) then i16 (x + (i16 (shl (-1) size) + 1)) else x in
  let e := if (-128 <=? k) && (k <=? 127) then i16 (i16 (shl k 10) + shl run 4 + (L + size)) else 0 in
  e = 0 \/ e = i16 (extend x size * 1024 + run * 16 + (L + size)).
Proof.
  intros Hx H1 H9 HL Hr.
  assert (2 ^ size = 2 * 2 ^ (size - 1)) as H2
    by (rewrite <- (Z.pow_succ_r 2 (size - 1)) by lia; f_equal; lia).
  assert (2 ^ size <= 256) as H256
    by (change 256 with (2 ^ 8); apply Z.pow_le_mono_r; lia).
  intros k.
  assert (k = extend x size) as Hke.
  { unfold k, extend. destruct (x <? 2 ^ (size - 1)) eqn:Ex; [|reflexivity].
    unfold shl. set (p := 2 ^ size) in *. clearbody p. clear - Hx H256. unfold i16. lia. }
  rewrite Hke. cbv zeta. destruct ((-128 <=? extend x size) && (extend x size <=? 127)); [|auto].
  right. unfold shl. change (2 ^ 10) with 1024. change (2 ^ 4) with 16.
  generalize (extend x size). intros e. generalize (run * 16) (L + size). clear. intros a b.
  unfold i16. lia.
Qed.

Section Fast.
  Variables counts symbols : list Z.
  Hypothesis Hdef : table_def counts symbols.
  Hypothesis Hk : kraft counts < 65536.

  Let Hlen : length counts = 16%nat.
  Proof. apply Hdef. Qed.
  Let Hcnt : Forall (fun n => 0 <= n <= 255) counts.
  Proof. apply Hdef. Qed.
  Let Hch : chain 0 (szn counts 16 1) (csn counts 16 1).
  Proof.
    apply (chain_table counts symbols Hdef 16 1); try lia.
    rewrite <- kraft_upto by assumption. lia.
  Qed.
  Notation values := (symbols ++ zrepeat 0 (256 - zlen symbols))%list.

  Lemma fast_ac_spec fast prog : fast_ok counts fast ->
    fast_tab (fast_ac_table (szn counts 16 1) values fast prog) counts symbols prog.
  Proof.
    intros [Hfl Hf] A l c v HA (j & Hj & Hl & Hc & Hv) Hbits.
    set (i := A / 2 ^ 55).
    assert (0 <= i < 512) as Hi by (unfold i; lia).
    rewrite zn_fast_ac_table by assumption.
    destruct (Hf i Hi) as [HA' HB].
    destruct (codeword_entry counts symbols Hdef l j Hl Hj) as (E1 & E2 & Hlt).
    pose proof (P_nonneg counts Hlen Hcnt l) as HP.
    assert (0 <= v <= 255) as Hvb.
    { apply nth_error_In in Hv. destruct Hdef as (_ & _ & _ & _ & Hs).
      rewrite Forall_forall in Hs. now apply Hs. }
    assert (forall m, (m <= 9)%nat -> i / 2 ^ (9 - Z.of_nat m) = A / 2 ^ (64 - Z.of_nat m)) as Hdiv.
    { intros m Hm. unfold i. rewrite Z.div_div by (try apply Z.pow_pos_nonneg; lia).
      rewrite <- pow2_split by lia. do 2 f_equal. lia. }
    destruct (le_dec l 9) as [H9|H9].
    2:{ (* a long codeword *)
      assert (zn fast i = 255) as ->.
      { apply HB. intros i' s' c' E3 E4 Hs' Hx.
        destruct (entry_codeword counts symbols Hdef i' s' c' E3 E4)
          as (l' & j' & -> & Hl' & Hj' & Hi' & Hc').
        pose proof (chain_inj 0 _ _ _ _ _ _ _ _ (A / 2 ^ 48) Hch E1 E2 E3 E4) as Heq.
        assert (Z.to_nat (shorter counts l + j) = i') as Hii.
        { apply Heq.
          - rewrite Z.div_div by (try apply Z.pow_pos_nonneg; lia).
            rewrite <- pow2_split by lia. rewrite <- Hc, <- Hbits. do 2 f_equal. lia.
          - rewrite Z.div_div by (try apply Z.pow_pos_nonneg; lia).
            rewrite <- pow2_split by lia. rewrite <- Hx. rewrite Hdiv by lia. do 2 f_equal. lia. }
        subst i'. rewrite E1 in E3. injection E3 as E3. clear - E3 H9 Hs'. lia. }
      left. reflexivity. }
    assert (zn fast i = shorter counts l + j) as ->.
    { rewrite (HA' _ _ _ E1 E2 ltac:(lia)); [lia|]. rewrite Hdiv by lia. lia. }
    set (p := shorter counts l + j) in *.
    assert (zn values p = v) as Hval.
    { unfold zn. apply nth_error_nth. rewrite nth_error_app1; [exact Hv|].
      apply nth_error_Some. congruence. }
    assert (zn (szn counts 16 1) p = Z.of_nat l) as Hsz by (unfold zn; now apply nth_error_nth).
    unfold fast_ac_entry. rewrite Hval, Hsz. unfold fast_entry. unfold HUFF_LOOKAHEAD.
    destruct (p <? 255); [|auto]. cbv zeta.
    assert (Z.land (shr v 4) 15 = v / 16) as ->.
    { unfold shr. change 15 with (2 ^ 4 - 1). rewrite land_ones_mod by lia.
      change (2 ^ 4) with 16. lia. }
    assert (Z.land v 15 = v mod 16) as ->.
    { change 15 with (2 ^ 4 - 1). rewrite land_ones_mod by lia. reflexivity. }
    set (size := v mod 16). set (run := v / 16).
    assert (0 <= size <= 15) by (unfold size; lia). assert (0 <= run <= 15) by (unfold run; lia).
    destruct (size =? 0) eqn:Ez; cbn [andb negb].
    - destruct prog; cbn [negb]; [auto|]. right. left. split; [lia|]. split; [reflexivity|].
      split; [exact H9|].
      unfold i16, shl. change (2 ^ 4) with 16. destruct (run =? 0); rewrite Z.mod_small by lia; lia.
    - destruct (Z.of_nat l + size <=? 9) eqn:E9; [|auto].
      set (k0 := shr (Z.land (i16 (shl i (Z.of_nat l))) 511) (9 - size)).
      assert (k0 = A / 2 ^ (64 - Z.of_nat l - size) mod 2 ^ size) as Hk0.
      { unfold k0. change 511 with (2 ^ 9 - 1). rewrite land_ones_mod by lia.
        assert (i16 (shl i (Z.of_nat l)) mod 2 ^ 9 = (i * 2 ^ Z.of_nat l) mod 2 ^ 9) as ->.
        { unfold i16, shl. change (2 ^ 9) with 512. lia. }
        unfold shr.
        replace (2 ^ 9) with (2 ^ (9 - Z.of_nat l) * 2 ^ Z.of_nat l)
          by (rewrite <- pow2_split by lia; f_equal; lia).
        pose proof (pow2_pos (Z.of_nat l) ltac:(lia)). pose proof (pow2_pos (9 - Z.of_nat l) ltac:(lia)).
        rewrite Z.mul_mod_distr_r by lia.
        replace (2 ^ (9 - size)) with (2 ^ (9 - Z.of_nat l - size) * 2 ^ Z.of_nat l)
          by (rewrite <- pow2_split by lia; f_equal; lia).
        pose proof (pow2_pos (9 - Z.of_nat l - size) ltac:(lia)).
        pose proof (pow2_pos size ltac:(lia)).
        rewrite Z.div_mul_cancel_r by lia.
        replace (2 ^ (9 - Z.of_nat l)) with (2 ^ (9 - Z.of_nat l - size) * 2 ^ size)
          by (rewrite <- pow2_split by lia; f_equal; lia).
        rewrite Z.rem_mul_r by lia.
        rewrite Z.mul_comm, Z.div_add by lia.
        rewrite Z.div_small by (apply Z.mod_pos_bound; lia). cbn [Z.add].
        unfold i. rewrite Z.div_div by (try apply Z.pow_pos_nonneg; lia).
        rewrite <- pow2_split by lia. do 3 f_equal. lia. }
      rewrite Hk0. set (x := A / 2 ^ (64 - Z.of_nat l - size) mod 2 ^ size).
      assert (0 <= x < 2 ^ size) as Hx by (apply Z.mod_pos_bound; apply pow2_pos; lia).
      destruct (fast_value x size run (Z.of_nat l) Hx ltac:(clear - Ez H; lia) ltac:(clear - E9; lia)
                  ltac:(clear - Hl; lia) H0) as [E0|E0]; [left; exact E0|].
      right. right. split; [clear - Ez; lia|]. split; [clear - E9; lia|exact E0].
  Qed.
End Fast.

Lemma new_ac counts symbols prog t :
  table_def counts symbols ->
  huffman_new (0 :: counts) (values_of symbols) false prog = Ok t ->
  implements t counts symbols /\
  exists ft, h_ac_lookup t = Some ft /\ fast_tab ft counts symbols prog.
Proof.
  intros Hdef E. split; [eapply new_implements; eauto|].
  assert (kraft counts < 65536) as Hk.
  { destruct (Z_lt_dec (kraft counts) 65536) as [Hk|Hk]; [exact Hk|].
    exfalso. destruct (huffman_new_err counts symbols Hdef false prog) as (e & E');
        [tauto|]. unfold values_of in E. congruence. }
  destruct (huffman_new_ok counts symbols Hdef false prog Hk ltac:(discriminate))
    as (t' & E' & Ht & fast & Hfast & Hac).
  unfold values_of in E. rewrite E' in E. injection E as <-.
  eexists. split; [exact Hac|]. now apply fast_ac_spec.
Qed.
