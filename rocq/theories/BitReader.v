(** The bit reader delivers the bits of the entropy-coded segment. *)
From Coq Require Import ZArith String List Bool Lia.
From Coq Require Import ZifyBool ZifyNat ZifyN.
From Verif Require Import Base Types Huffman Bitstream BaseFacts HeaderFacts
  SpecHuffman SpecSegments SpecBits HuffmanProofs HuffmanPrefix HuffDecode TableSegments.
Import ListNotations.
Local Open Scope Z_scope.
Ltac Zify.zify_post_hook ::= Z.div_mod_to_equations.

Definition bytes (l : list Z) : Prop := Forall byte l.
Notation val := value_of.
Definition blen (u : list bool) : Z := Z.of_nat (length u).

Lemma blen_app u v : blen (u ++ v) = blen u + blen v.
Proof. unfold blen. rewrite app_length. lia. Qed.
Lemma blen_bits n v : blen (bits_of n v) = Z.of_nat n.
Proof. unfold blen. now rewrite bits_length. Qed.
Lemma val_app u v : val (u ++ v) = val u * 2 ^ blen v + val v.
Proof. apply value_app. Qed.
Lemma val_range u : 0 <= val u < 2 ^ blen u.
Proof. apply value_range. Qed.
Lemma blen_nonneg u : 0 <= blen u.
Proof. unfold blen. lia. Qed.

(** [b_buffer] holds [u] in its low bits *)
Record buf_ok (s : bst) (u : list bool) : Prop := {
  bo_range : 0 <= b_buffer s < 2 ^ 64;
  bo_left : b_left s = blen u;
  bo_max : blen u <= 64;
  bo_val : b_buffer s mod 2 ^ blen u = val u }.

(** [b_aligned] holds [u] in its high bits *)
Record win_ok (s : bst) (u : list bool) : Prop := {
  wo_range : 0 <= b_aligned s < 2 ^ 64;
  wo_max : blen u <= 64;
  wo_val : b_aligned s / 2 ^ (64 - blen u) = val u }.

Lemma lor_shift a b n : 0 <= n -> 0 <= b < 2 ^ n -> Z.lor (a * 2 ^ n) b = a * 2 ^ n + b.
Proof.
  intros Hn Hb.
  assert (Z.land (a * 2 ^ n) b = 0) as Hl.
  { apply Z.bits_inj'. intros k Hk. rewrite Z.land_spec, Z.bits_0.
    destruct (Z_lt_dec k n) as [H|H].
    - rewrite Z.mul_pow2_bits_low by lia. reflexivity.
    - destruct (Z.eq_dec b 0) as [->|]; [rewrite Z.bits_0; apply andb_false_r|].
      rewrite (Z.bits_above_log2 b k); [apply andb_false_r|lia|].
      apply Z.log2_lt_pow2; [lia|].
      apply Z.lt_le_trans with (2 ^ n); [lia|]. apply Z.pow_le_mono_r; lia. }
  rewrite <- Z.lxor_lor by exact Hl. now rewrite <- Z.add_nocarry_lxor by exact Hl.
Qed.

(** Shift [n] bits in *)
Lemma u64_shl_lor x n b : 0 <= n <= 64 -> 0 <= b < 2 ^ n ->
  Z.lor (u64 (shl x n)) b = (x mod 2 ^ (64 - n)) * 2 ^ n + b.
Proof.
  intros Hn Hb. unfold u64, shl. change 18446744073709551616 with (2 ^ 64).
  replace 64 with (64 - n + n) at 1 by lia.
  rewrite Z.pow_add_r by lia. rewrite Z.mul_mod_distr_r.
  - now apply lor_shift.
  - apply Z.pow_nonzero; lia.
  - apply Z.pow_nonzero; lia.
Qed.

Lemma buf_push s u n b : buf_ok s u -> 0 <= n -> blen u + n <= 64 -> 0 <= b < 2 ^ n ->
  let buf := Z.lor (u64 (shl (b_buffer s) n)) b in
  0 <= buf < 2 ^ 64 /\
  forall w, blen w = n -> val w = b -> buf mod 2 ^ (blen u + n) = val (u ++ w).
Proof.
  intros [Hr Hl Hm Hv] Hn Hle Hb. pose proof (blen_nonneg u).
  rewrite u64_shl_lor by lia. cbv zeta.
  assert (0 < 2 ^ n) by (apply pow2_pos; lia).
  assert (0 < 2 ^ (64 - n)) by (apply pow2_pos; lia).
  assert (2 ^ 64 = 2 ^ (64 - n) * 2 ^ n) as E64 by (rewrite <- Z.pow_add_r by lia; f_equal; lia).
  split.
  - rewrite E64. pose proof (Z.mod_pos_bound (b_buffer s) (2 ^ (64 - n)) ltac:(lia)). nia.
  - intros w Hw Hvw. rewrite val_app, Hw, Hvw, <- Hv.
    rewrite Z.pow_add_r by lia.
    assert (0 < 2 ^ blen u) by (apply pow2_pos; lia).
    rewrite <- Z.add_mod_idemp_l by nia.
    rewrite Z.mul_mod_distr_r by lia.
    assert ((b_buffer s mod 2 ^ (64 - n)) mod 2 ^ blen u = b_buffer s mod 2 ^ blen u) as ->.
    { replace (64 - n) with (blen u + (64 - n - blen u)) by lia.
      rewrite Z.pow_add_r by lia.
      assert (0 < 2 ^ (64 - n - blen u)) by (apply pow2_pos; lia).
      rewrite Z.rem_mul_r by lia. rewrite Z.mul_comm, Z.mod_add by lia.
      now rewrite Z.mod_mod by lia. }
    apply Z.mod_small.
    pose proof (Z.mod_pos_bound (b_buffer s) (2 ^ blen u) ltac:(lia)). nia.
Qed.

(** Aligning *)
Lemma align_ok s u rd : buf_ok s u -> 0 < blen u ->
  win_ok (set_bits s (b_buffer s) (u64 (shl (b_buffer s) (64 - b_left s))) (b_left s) rd) u.
Proof.
  intros [Hr Hl Hm Hv] Hp. rewrite Hl.
  assert (0 < 2 ^ (64 - blen u)) by (apply pow2_pos; lia).
  assert (0 < 2 ^ blen u) by (apply pow2_pos; lia).
  split; dsimp; try exact Hm; unfold u64, shl; change 18446744073709551616 with (2 ^ 64).
  - apply Z.mod_pos_bound. reflexivity.
  - assert (2 ^ 64 = 2 ^ blen u * 2 ^ (64 - blen u)) as -> by (rewrite <- Z.pow_add_r by lia; f_equal; lia).
    rewrite Z.mul_mod_distr_r by lia. rewrite Z.div_mul by lia. exact Hv.
Qed.

(** Dropping bits from the window *)
Lemma drop_win s u v : win_ok s (u ++ v) -> win_ok (drop_bits (blen u) s) v.
Proof.
  intros [Hr Hm Hv]. rewrite blen_app in *. pose proof (blen_nonneg u). pose proof (blen_nonneg v).
  assert (0 < 2 ^ (64 - blen v)) by (apply pow2_pos; lia).
  assert (0 < 2 ^ blen u) by (apply pow2_pos; lia).
  assert (0 < 2 ^ blen v) by (apply pow2_pos; lia).
  assert (0 < 2 ^ (64 - blen u)) by (apply pow2_pos; lia).
  assert (0 < 2 ^ (64 - (blen u + blen v))) by (apply pow2_pos; lia).
  split; unfold drop_bits; dsimp; try lia; unfold u64, shl; change 18446744073709551616 with (2 ^ 64).
  - apply Z.mod_pos_bound. reflexivity.
  - assert (2 ^ 64 = 2 ^ (64 - blen u) * 2 ^ blen u) as -> by (rewrite <- Z.pow_add_r by lia; f_equal; lia).
    rewrite Z.mul_mod_distr_r by lia.
    assert (2 ^ (64 - blen v) = 2 ^ (64 - (blen u + blen v)) * 2 ^ blen u) as ->
      by (rewrite <- Z.pow_add_r by lia; f_equal; lia).
    rewrite Z.div_mul_cancel_r by lia.
    assert (2 ^ (64 - blen u) = 2 ^ (64 - (blen u + blen v)) * 2 ^ blen v) as ->
      by (rewrite <- Z.pow_add_r by lia; f_equal; lia).
    rewrite Z.rem_mul_r by lia. rewrite Hv.
    rewrite val_app. rewrite (Z.add_comm (val u * _)), Z.mod_add by lia.
    pose proof (val_range v). rewrite (Z.mod_small (val v)) by lia.
    pose proof (Z.mod_pos_bound (b_aligned s) (2 ^ (64 - (blen u + blen v))) ltac:(lia)).
    rewrite (Z.mul_comm (2 ^ (64 - (blen u + blen v))) (val v)).
    rewrite Z.div_add by lia. rewrite Z.div_small by lia. lia.
Qed.

Lemma buf_drop s u v : buf_ok s (u ++ v) -> b_left s = blen (u ++ v) ->
  b_buffer s mod 2 ^ blen v = val v.
Proof.
  intros [Hr Hl Hm Hv] _. rewrite blen_app in *. pose proof (blen_nonneg u). pose proof (blen_nonneg v).
  assert (0 < 2 ^ blen u) by (apply pow2_pos; lia).
  assert (0 < 2 ^ blen v) by (apply pow2_pos; lia).
  replace (b_buffer s mod 2 ^ blen v) with ((b_buffer s mod 2 ^ (blen u + blen v)) mod 2 ^ blen v).
  - rewrite Hv, val_app. rewrite (Z.add_comm (val u * _)), Z.mod_add by lia.
    apply Z.mod_small. apply val_range.
  - rewrite (Z.add_comm (blen u)), Z.pow_add_r by lia.
    rewrite Z.rem_mul_r by lia. rewrite (Z.mul_comm (2 ^ blen v)), Z.mod_add by lia.
    now rewrite Z.mod_mod by lia.
Qed.
