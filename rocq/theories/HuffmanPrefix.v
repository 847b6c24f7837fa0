(** The Kraft sum characterizes the counts of prefix codes without all-ones codeword. *)
From Coq Require Import ZArith String List Bool Lia.
From Coq Require Import ZifyBool ZifyNat ZifyN.
From Verif Require Import Base Huffman BaseFacts SpecHuffman HuffmanProofs.
Import ListNotations.
Local Open Scope Z_scope.
Ltac Zify.zify_post_hook ::= Z.div_mod_to_equations.

(** * Bit strings and numbers *)

Lemma value_acc bs a :
  fold_left (fun a (b : bool) => 2 * a + if b then 1 else 0) bs a
  = a * 2 ^ Z.of_nat (length bs) + value_of bs.
Proof.
  unfold value_of. revert a. induction bs as [|b bs IH]; intros a.
  - cbn [fold_left length]. change (2 ^ Z.of_nat 0) with 1. lia.
  - cbn [fold_left]. rewrite IH. rewrite (IH (2 * 0 + _)).
    cbn [length]. rewrite Nat2Z.inj_succ, Z.pow_succ_r by lia. lia.
Qed.
Lemma value_cons b bs :
  value_of (b :: bs) = (if b then 1 else 0) * 2 ^ Z.of_nat (length bs) + value_of bs.
Proof. unfold value_of at 1. cbn [fold_left]. rewrite value_acc. lia. Qed.
Lemma value_app u v :
  value_of (u ++ v) = value_of u * 2 ^ Z.of_nat (length v) + value_of v.
Proof. unfold value_of at 1. rewrite fold_left_app. now rewrite value_acc. Qed.
Lemma value_range bs : 0 <= value_of bs < 2 ^ Z.of_nat (length bs).
Proof.
  induction bs as [|b bs IH].
  - cbn. lia.
  - rewrite value_cons. cbn [length]. rewrite Nat2Z.inj_succ, Z.pow_succ_r by lia.
    destruct b; lia.
Qed.
Lemma bits_length n v : length (bits_of n v) = n.
Proof. induction n; cbn; auto. Qed.
Lemma value_bits n v : value_of (bits_of n v) = v mod 2 ^ Z.of_nat n.
Proof.
  induction n as [|n IH].
  - cbn. now rewrite Z.mod_1_r.
  - cbn [bits_of]. rewrite value_cons, bits_length, IH.
    rewrite Nat2Z.inj_succ, Z.pow_succ_r by lia.
    pose proof (pow2_pos (Z.of_nat n) ltac:(lia)) as Hp.
    rewrite (Z.mul_comm 2). rewrite Z.rem_mul_r by lia.
    pose proof (Z.testbit_spec' v (Z.of_nat n) ltac:(lia)) as Hb.
    unfold Z.b2z in Hb. rewrite Hb. lia.
Qed.
Lemma all_ones bs : ~ In false bs -> value_of bs = 2 ^ Z.of_nat (length bs) - 1.
Proof.
  induction bs as [|b bs IH]; intros H; [reflexivity|].
  rewrite value_cons. cbn [length]. rewrite Nat2Z.inj_succ, Z.pow_succ_r by lia.
  destruct b; [|exfalso; apply H; left; reflexivity].
  rewrite IH by (intros Hin; apply H; right; exact Hin). lia.
Qed.

(** * From counts to a code *)

Section Exists.
  Variables counts symbols : list Z.
  Hypothesis Hdef : table_def counts symbols.
  Hypothesis Hk : kraft counts < 65536.

  Let Hlen : length counts = 16%nat.
  Proof. apply Hdef. Qed.
  Let Hcnt : Forall (fun n => 0 <= n <= 255) counts.
  Proof. apply Hdef. Qed.

  Notation sizes := (szn counts 16 1).
  Notation codes := (csn counts 16 1).

  Definition canonical : list (list bool) :=
    map (fun '(s, c) => bits_of (Z.to_nat s) c) (combine sizes codes).

  Lemma nth_canonical i w : nth_error canonical i = Some w ->
    exists s c, nth_error sizes i = Some s /\ nth_error codes i = Some c /\
                w = bits_of (Z.to_nat s) c.
  Proof.
    unfold canonical. rewrite nth_error_map.
    generalize sizes codes. intros a b. revert b i.
    induction a as [|x a IH]; intros [|y b] [|i]; cbn; try discriminate.
    - intros H. injection H as <-. eauto.
    - apply IH.
  Qed.

  Lemma code_lt l j : (1 <= l <= 16)%nat -> 0 <= j < count counts l ->
    first_code counts l + j + 1 < 2 ^ Z.of_nat l.
  Proof.
    intros Hl Hj.
    pose proof (upto_mono counts Hlen Hcnt l 16 ltac:(lia) ltac:(lia) ltac:(lia)) as Hm.
    rewrite <- kraft_upto in Hm by assumption. unfold upto in Hm.
    assert (65536 = 2 ^ Z.of_nat l * 2 ^ (16 - Z.of_nat l)) as H16.
    { rewrite <- pow2_split by lia. replace (_ + _) with 16 by lia. reflexivity. }
    pose proof (pow2_pos (16 - Z.of_nat l) ltac:(lia)). nia.
  Qed.

  Lemma canonical_prefix_code : prefix_code counts canonical.
  Proof.
    assert (chain 0 sizes codes) as Hch.
    { apply (chain_table counts symbols Hdef 16 1); try lia.
      rewrite <- kraft_upto by assumption. lia. }
    split; [|split].
    - intros i j u v Hi Hj [w Hw].
      apply nth_canonical in Hi as (s & c & E1 & E2 & Hu).
      apply nth_canonical in Hj as (s' & c' & E3 & E4 & Hv).
      destruct (entry_codeword counts symbols Hdef i s c E1 E2) as (l & k & -> & Hl & Hk1 & _ & Hc).
      destruct (entry_codeword counts symbols Hdef j s' c' E3 E4) as (l' & k' & -> & Hl' & Hk1' & _ & Hc').
      rewrite Nat2Z.id in *.
      pose proof (code_lt l k Hl Hk1) as Hb. pose proof (code_lt l' k' Hl' Hk1') as Hb'.
      pose proof (F_nonneg counts Hlen Hcnt l) as HF.
      pose proof (F_nonneg counts Hlen Hcnt l') as HF'.
      assert (length v = length u + length w)%nat as Hlv by (rewrite Hw, app_length; lia).
      assert (length v = l' /\ length u = l) as [Hv1 Hu1]
        by (subst v u; rewrite !bits_length; auto).
      assert (value_of v = c') as Hvv.
      { subst v. rewrite value_bits. apply Z.mod_small. lia. }
      assert (value_of u = c) as Hvu.
      { subst u. rewrite value_bits. apply Z.mod_small. lia. }
      rewrite Hw, value_app, Hvu in Hvv.
      pose proof (value_range w) as Hrw.
      eapply (chain_inj 0 sizes codes i j _ _ _ _ (c' * 2 ^ (16 - Z.of_nat l')) Hch E1 E2 E3 E4).
      + symmetry.
        replace (16 - Z.of_nat l) with (Z.of_nat (length w) + (16 - Z.of_nat l')) by lia.
        rewrite pow2_split by lia.
        rewrite Z.div_mul_cancel_r
          by (try apply Z.pow_nonzero; lia).
        rewrite <- Hvv. rewrite Z.div_add_l by (apply Z.pow_nonzero; lia).
        rewrite Z.div_small by lia. lia.
      + apply Z.div_mul. apply Z.pow_nonzero; lia.
    - apply Forall_forall. intros w Hw. apply In_nth_error in Hw as [i Hi].
      apply nth_canonical in Hi as (s & c & E1 & E2 & ->).
      destruct (entry_codeword counts symbols Hdef i s c E1 E2) as (l & k & -> & Hl & Hk1 & _ & Hc).
      rewrite Nat2Z.id. rewrite bits_length. split; [|lia].
      destruct (in_dec bool_dec false (bits_of l c)) as [|Hno]; [assumption|exfalso].
      apply all_ones in Hno. rewrite value_bits, bits_length in Hno.
      pose proof (code_lt l k Hl Hk1). pose proof (F_nonneg counts Hlen Hcnt l).
      rewrite Z.mod_small in Hno by lia. lia.
    - intros l Hl. unfold canonical.
      assert (forall a b, length a = length b -> Forall (fun s => 0 <= s) a ->
        length (filter (fun w => Nat.eqb (length w) l)
                  (map (fun '(s, c) => bits_of (Z.to_nat s) c) (combine a b)))
        = length (filter (fun s => s =? Z.of_nat l) a)) as H.
      { induction a as [|x a IH]; intros [|y b] Hab Hp; try discriminate; [reflexivity|].
        inversion Hp as [|? ? Hx Hp']; subst.
        cbn [combine map filter]. rewrite bits_length.
        replace (Z.to_nat x =? l)%nat with (x =? Z.of_nat l) by lia.
        destruct (x =? Z.of_nat l); cbn [length]; rewrite IH; auto. }
      rewrite H.
      2:{ pose proof (zlen_szn counts Hlen 16 1) as Hz. unfold zlen in Hz. lia. }
      2:{ apply Forall_forall. intros x Hx. apply szn_ge in Hx; [lia|assumption..]. }
      assert (forall n m, (m <= l < m + n)%nat -> (1 <= m)%nat ->
        Z.of_nat (length (filter (fun s => s =? Z.of_nat l) (szn counts n m))) = count counts l) as HC.
      { induction n as [|n IH]; intros m Hm Hm1; [lia|].
        cbn [szn]. rewrite filter_app, app_length, Nat2Z.inj_add.
        pose proof (count_range counts Hlen Hcnt m) as Hr.
        assert (forall k x, filter (fun s => s =? Z.of_nat l) (repeat x k)
                  = if x =? Z.of_nat l then repeat x k else []) as Hrep.
        { clear. induction k; intros x; cbn; [now destruct (x =? Z.of_nat l)|].
          rewrite IHk. now destruct (x =? Z.of_nat l). }
        unfold zrepeat. rewrite Hrep.
        destruct (Nat.eq_dec m l) as [->|Hne].
        - rewrite Z.eqb_refl, repeat_length.
          assert (filter (fun s => s =? Z.of_nat l) (szn counts n (S l)) = []) as ->.
          { clear -Hlen Hcnt. assert (forall x, In x (szn counts n (S l)) -> x =? Z.of_nat l = false) as Hx.
            { intros x Hx. apply szn_ge in Hx; [lia|assumption..]. }
            revert Hx. generalize (szn counts n (S l)). clear. induction l0 as [|a t IH]; intros Hx; [reflexivity|].
            cbn [filter]. rewrite Hx by (left; reflexivity). apply IH. intros. apply Hx. right. assumption. }
          cbn [length]. lia.
        - replace (Z.of_nat m =? Z.of_nat l) with false by lia. cbn [length].
          rewrite IH by lia. lia. }
      apply HC; lia.
  Qed.
End Exists.

(** * From a code to counts *)

Definition PF (ws : list (list bool)) : Prop :=
  NoDup ws /\ forall u v, In u ws -> In v ws -> prefix_of u v -> u = v.

Fixpoint wsum (n : Z) (ws : list (list bool)) : Z :=
  match ws with
  | [] => 0
  | w :: rest => 2 ^ (n - Z.of_nat (length w)) + wsum n rest
  end.

Definition tails (b : bool) (ws : list (list bool)) : list (list bool) :=
  flat_map (fun w => match w with x :: t => if Bool.eqb x b then [t] else [] | [] => [] end) ws.

Lemma in_tails b ws t : In t (tails b ws) <-> In (b :: t) ws.
Proof.
  unfold tails. rewrite in_flat_map. split.
  - intros ([|x w] & H1 & H2); [contradiction|].
    destruct (Bool.eqb x b) eqn:E; [|contradiction].
    apply Bool.eqb_prop in E. subst. destruct H2 as [->|[]]. exact H1.
  - intros H. exists (b :: t). split; [exact H|]. rewrite Bool.eqb_reflx. left. reflexivity.
Qed.
Lemma NoDup_tails b ws : NoDup ws -> NoDup (tails b ws).
Proof.
  induction ws as [|w ws IH]; intros H; [constructor|]. inversion H as [|? ? Hn Hd]; subst.
  specialize (IH Hd). destruct w as [|x w]; cbn [tails flat_map app]; [exact IH|].
  destruct (Bool.eqb x b) eqn:E; [|exact IH].
  apply Bool.eqb_prop in E. subst. cbn [app]. constructor; [|exact IH].
  change (~ In w (tails b ws)). rewrite in_tails. exact Hn.
Qed.
Lemma PF_tails b ws : PF ws -> PF (tails b ws).
Proof.
  intros [H1 H2]. split; [now apply NoDup_tails|].
  intros u v Hu Hv [w Hw]. rewrite in_tails in Hu, Hv.
  assert (b :: u = b :: v) as E.
  { apply H2; auto. exists w. cbn. now rewrite Hw. }
  congruence.
Qed.
Lemma wsum_split n ws :
  ~ In [] ws -> wsum n ws = wsum (n - 1) (tails false ws) + wsum (n - 1) (tails true ws).
Proof.
  induction ws as [|w ws IH]; intros Hn; [reflexivity|].
  cbn [wsum]. rewrite IH by (intros H; apply Hn; right; exact H).
  destruct w as [|x w]; [exfalso; apply Hn; left; reflexivity|].
  change (tails false ((x :: w) :: ws)) with
    ((if Bool.eqb x false then [w] else []) ++ tails false ws).
  change (tails true ((x :: w) :: ws)) with
    ((if Bool.eqb x true then [w] else []) ++ tails true ws).
  destruct x; cbn [Bool.eqb app wsum length];
    replace (n - 1 - Z.of_nat (length w)) with (n - Z.of_nat (S (length w))) by lia; lia.
Qed.

Lemma PF_nil ws : PF ws -> In [] ws -> ws = [[]].
Proof.
  intros [H1 H2] H. assert (forall w, In w ws -> w = []) as Ha.
  { intros w Hw. symmetry. apply H2; auto. exists w. reflexivity. }
  destruct ws as [|a [|b ws]]; [contradiction| |].
  - f_equal. apply Ha. left. reflexivity.
  - exfalso. rewrite (Ha a) in H1 by (left; reflexivity).
    rewrite (Ha b) in H1 by (right; left; reflexivity).
    inversion H1 as [|? ? Hn _]; subst. apply Hn. left. reflexivity.
Qed.

Lemma kraft_le n : forall ws, PF ws -> Forall (fun w => (length w <= n)%nat) ws ->
  wsum (Z.of_nat n) ws <= 2 ^ Z.of_nat n.
Proof.
  induction n as [|n IH]; intros ws Hpf Hl.
  - destruct ws as [|w ws]; [cbn; lia|].
    assert (w = []) as ->.
    { inversion Hl as [|? ? H _]; subst. destruct w; [reflexivity|cbn in H; lia]. }
    rewrite (PF_nil _ Hpf) by (left; reflexivity). cbn. lia.
  - destruct (in_dec (list_eq_dec bool_dec) [] ws) as [Hin|Hin].
    + rewrite (PF_nil _ Hpf Hin). cbn [wsum length]. rewrite Z.sub_0_r. lia.
    + rewrite wsum_split by exact Hin. replace (Z.of_nat (S n) - 1) with (Z.of_nat n) by lia.
      assert (forall b, Forall (fun w => (length w <= n)%nat) (tails b ws)) as Hlt.
      { intros b. apply Forall_forall. intros t Ht. rewrite in_tails in Ht.
        rewrite Forall_forall in Hl. apply Hl in Ht. cbn in Ht. lia. }
      pose proof (IH _ (PF_tails false ws Hpf) (Hlt false)).
      pose proof (IH _ (PF_tails true ws Hpf) (Hlt true)).
      rewrite Nat2Z.inj_succ, Z.pow_succ_r by lia. lia.
Qed.
Lemma kraft_lt n : forall ws, PF ws -> Forall (fun w => (length w <= n)%nat) ws ->
  Forall (fun w => In false w) ws -> wsum (Z.of_nat n) ws <= 2 ^ Z.of_nat n - 1.
Proof.
  induction n as [|n IH]; intros ws Hpf Hl Hf.
  - destruct ws as [|w ws]; [cbn; lia|].
    inversion Hl as [|? ? H _]; subst. inversion Hf as [|? ? H' _]; subst.
    destruct w; [contradiction|cbn in H; lia].
  - assert (~ In [] ws) as Hin.
    { rewrite Forall_forall in Hf. intros H. apply Hf in H. contradiction. }
    rewrite wsum_split by exact Hin. replace (Z.of_nat (S n) - 1) with (Z.of_nat n) by lia.
    assert (forall b, Forall (fun w => (length w <= n)%nat) (tails b ws)) as Hlt.
    { intros b. apply Forall_forall. intros t Ht. rewrite in_tails in Ht.
      rewrite Forall_forall in Hl. apply Hl in Ht. cbn in Ht. lia. }
    pose proof (kraft_le n _ (PF_tails false ws Hpf) (Hlt false)).
    assert (Forall (fun w => In false w) (tails true ws)) as Hft.
    { apply Forall_forall. intros t Ht. rewrite in_tails in Ht. rewrite Forall_forall in Hf.
      apply Hf in Ht. destruct Ht as [Ht|Ht]; [discriminate|exact Ht]. }
    pose proof (IH _ (PF_tails true ws Hpf) (Hlt true) Hft).
    rewrite Nat2Z.inj_succ, Z.pow_succ_r by lia. lia.
Qed.

Definition lcount (l : nat) (ws : list (list bool)) : Z :=
  Z.of_nat (length (filter (fun w => Nat.eqb (length w) l) ws)).
Lemma lcount_cons l w ws :
  lcount l (w :: ws) = (if Nat.eqb (length w) l then 1 else 0) + lcount l ws.
Proof. unfold lcount. cbn [filter]. destruct (Nat.eqb (length w) l); cbn [length]; lia. Qed.

Lemma kraft_from_counts n : forall l counts ws,
  length counts = n ->
  (forall k, (k < n)%nat -> lcount (l + k) ws = nth k counts 0) ->
  kraft_from l counts = fold_right Z.add 0
    (map (fun k => lcount k ws * 2 ^ (16 - Z.of_nat k)) (seq l n)).
Proof.
  induction n as [|n IH]; intros l counts ws Hl Hc.
  - destruct counts; [reflexivity|discriminate].
  - destruct counts as [|c cs]; [discriminate|]. cbn [kraft_from seq map fold_right].
    rewrite <- (IH (S l) cs ws).
    + specialize (Hc 0%nat ltac:(lia)). rewrite Nat.add_0_r in Hc. cbn in Hc. rewrite Hc. lia.
    + cbn in Hl. lia.
    + intros k Hk. specialize (Hc (S k) ltac:(lia)). cbn [nth] in Hc.
      replace (S l + k)%nat with (l + S k)%nat by lia. exact Hc.
Qed.
Lemma wsum_by_length n l ws :
  Forall (fun w => (l <= length w < l + n)%nat) ws ->
  wsum 16 ws = fold_right Z.add 0
    (map (fun k => lcount k ws * 2 ^ (16 - Z.of_nat k)) (seq l n)).
Proof.
  induction ws as [|w ws IH]; intros H.
  - cbn [wsum]. revert l H. induction n as [|n IHn]; intros l H; [reflexivity|].
    cbn [seq map fold_right]. rewrite <- IHn by constructor. reflexivity.
  - inversion H as [|? ? Hw Hws]; subst. cbn [wsum]. rewrite IH by exact Hws.
    clear IH H Hws. revert l Hw. induction n as [|n IHn]; intros l Hw; [lia|].
    cbn [seq map fold_right]. rewrite lcount_cons.
    destruct (Nat.eqb (length w) l) eqn:E.
    + apply Nat.eqb_eq in E.
      assert (map (fun k => lcount k (w :: ws) * 2 ^ (16 - Z.of_nat k)) (seq (S l) n)
              = map (fun k => lcount k ws * 2 ^ (16 - Z.of_nat k)) (seq (S l) n)) as ->.
      { apply map_ext_in. intros k Hk. apply in_seq in Hk. rewrite lcount_cons.
        replace (Nat.eqb (length w) k) with false by lia. lia. }
      rewrite E. lia.
    + rewrite <- IHn by lia. lia.
Qed.

Lemma prefix_code_kraft counts ws :
  length counts = 16%nat -> prefix_code counts ws -> kraft counts < 65536.
Proof.
  intros Hl (H1 & H2 & H3).
  assert (PF ws) as Hpf.
  { split.
    - apply NoDup_nth_error. intros i j Hi E.
      destruct (nth_error ws i) as [u|] eqn:E1; [|apply nth_error_None in E1; lia].
      apply (H1 i j u u); auto. exists []. now rewrite app_nil_r.
    - intros u v Hu Hv Hp. apply In_nth_error in Hu as [i Hi]. apply In_nth_error in Hv as [j Hj].
      assert (i = j) as -> by (eapply H1; eauto). congruence. }
  unfold kraft. rewrite (kraft_from_counts 16 1 counts ws Hl).
  2:{ intros k Hk. unfold lcount. rewrite H3 by lia. unfold count. f_equal. }
  rewrite <- wsum_by_length.
  - pose proof (kraft_lt 16 ws Hpf) as Hlt. change (Z.of_nat 16) with 16 in Hlt.
    change (2 ^ 16) with 65536 in Hlt.
    assert (wsum 16 ws <= 65536 - 1); [apply Hlt|lia].
    + eapply Forall_impl; [|exact H2]. cbn. tauto.
    + eapply Forall_impl; [|exact H2]. cbn. tauto.
  - eapply Forall_impl; [|exact H2]. cbn beta. intros w [Hf Hw].
    destruct w; [contradiction|]. cbn [length] in *. lia.
Qed.
