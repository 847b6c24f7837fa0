(** [huff_extend] computes EXTEND, which inverts the encoding of coefficients. *)
From Coq Require Import ZArith String List Bool Lia.
From Coq Require Import ZifyBool ZifyNat ZifyN.
From Verif Require Import Base Bitstream SpecExtend HuffmanProofs.
Import ListNotations.
Local Open Scope Z_scope.
Ltac Zify.zify_post_hook ::= Z.div_mod_to_equations.

Lemma huff_extend_spec x s : 1 <= s <= 16 -> 0 <= x < 2 ^ s -> huff_extend x s = extend x s.
Proof.
  intros Hs Hx. unfold huff_extend, extend, shr, shl.
  assert (2 ^ s = 2 * 2 ^ (s - 1)) as E.
  { rewrite <- Z.pow_succ_r by lia. f_equal. lia. }
  assert (0 < 2 ^ (s - 1)) by (apply pow2_pos; lia).
  assert (2 ^ (s - 1) <= 2 ^ 15) by (apply Z.pow_le_mono_r; lia).
  destruct (x <? 2 ^ (s - 1)) eqn:Hlt.
  - replace ((x - 2 ^ (s - 1)) / 2 ^ 31) with (-1) by lia.
    rewrite Z.land_m1_l. lia.
  - replace ((x - 2 ^ (s - 1)) / 2 ^ 31) with 0 by lia.
    rewrite Z.land_0_l. lia.
Qed.

Lemma category_bounds v : v <> 0 ->
  1 <= category v /\ 2 ^ (category v - 1) <= Z.abs v < 2 ^ category v.
Proof.
  intros Hv. unfold category. replace (v =? 0) with false by lia.
  pose proof (Z.log2_nonneg (Z.abs v)).
  pose proof (Z.log2_spec (Z.abs v) ltac:(lia)) as Hl.
  replace (Z.log2 (Z.abs v) + 1 - 1) with (Z.log2 (Z.abs v)) by lia.
  rewrite <- Z.add_1_r in Hl. lia.
Qed.
Lemma category_unique v s : 1 <= s -> 2 ^ (s - 1) <= Z.abs v < 2 ^ s -> category v = s.
Proof.
  intros Hs Hv. unfold category.
  assert (0 < 2 ^ (s - 1)) by (apply pow2_pos; lia).
  replace (v =? 0) with false by lia.
  rewrite (Z.log2_unique (Z.abs v) (s - 1)); [lia|lia|].
  replace (Z.succ (s - 1)) with s by lia. exact Hv.
Qed.

Lemma additional_range v : v <> 0 -> 0 <= additional v < 2 ^ category v.
Proof.
  intros Hv. destruct (category_bounds v Hv) as [H1 H2]. unfold additional.
  destruct (v <? 0) eqn:E; lia.
Qed.

Lemma extend_additional v : v <> 0 -> extend (additional v) (category v) = v.
Proof.
  intros Hv. destruct (category_bounds v Hv) as [H1 H2]. unfold extend, additional.
  assert (2 ^ category v = 2 * 2 ^ (category v - 1)) as E.
  { rewrite <- Z.pow_succ_r by lia. f_equal. lia. }
  destruct (v <? 0) eqn:En.
  - replace (v + 2 ^ category v - 1 <? 2 ^ (category v - 1)) with true by lia. lia.
  - replace (v <? 2 ^ (category v - 1)) with false by lia. reflexivity.
Qed.

Lemma extend_inj x s v : 1 <= s -> 0 <= x < 2 ^ s -> extend x s = v ->
  v <> 0 /\ s = category v /\ x = additional v.
Proof.
  intros Hs Hx E.
  assert (2 ^ s = 2 * 2 ^ (s - 1)) as Ep.
  { rewrite <- Z.pow_succ_r by lia. f_equal. lia. }
  assert (0 < 2 ^ (s - 1)) by (apply pow2_pos; lia).
  unfold extend in E. destruct (x <? 2 ^ (s - 1)) eqn:El.
  - assert (category v = s) as Ec by (apply category_unique; lia).
    split; [lia|]. split; [auto|]. unfold additional. rewrite Ec.
    replace (v <? 0) with true by lia. lia.
  - assert (category v = s) as Ec by (apply category_unique; lia).
    split; [lia|]. split; [auto|]. unfold additional.
    replace (v <? 0) with false by lia. auto.
Qed.

Lemma category_le v n : 0 <= n -> -(2 ^ n) < v < 2 ^ n -> category v <= n.
Proof.
  intros Hn Hv. destruct (Z.eq_dec v 0) as [->|Hz]; [cbn; lia|].
  destruct (category_bounds v Hz) as [H1 H2].
  destruct (Z_le_dec (category v) n) as [|Hg]; [assumption|].
  assert (2 ^ n <= 2 ^ (category v - 1)) by (apply Z.pow_le_mono_r; lia). lia.
Qed.

Lemma huff_extend_unique v : v <> 0 -> -32768 < v < 32768 ->
  exists s x, 1 <= s <= 15 /\ 0 <= x < 2 ^ s /\ huff_extend x s = v /\
    forall s' x', 1 <= s' <= 16 -> 0 <= x' < 2 ^ s' -> huff_extend x' s' = v ->
      s' = s /\ x' = x.
Proof.
  intros Hv Hr. exists (category v), (additional v).
  pose proof (category_le v 15 ltac:(lia) ltac:(change (2 ^ 15) with 32768; lia)).
  destruct (category_bounds v Hv) as [H1 _].
  pose proof (additional_range v Hv).
  split; [lia|]. split; [assumption|]. split.
  - rewrite huff_extend_spec by lia. now apply extend_additional.
  - intros s' x' Hs' Hx' E. rewrite huff_extend_spec in E by lia.
    apply extend_inj in E; lia.
Qed.
