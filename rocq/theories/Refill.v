(** The fast refill equals the byte-wise one. *)
From Coq Require Import ZArith String List Bool Lia.
From Coq Require Import ZifyBool ZifyNat ZifyN.
From Verif Require Import Base Types Huffman Bitstream BaseFacts HeaderFacts
  SpecSegments HuffmanProofs HuffDecode BitReader.
Import ListNotations.
Local Open Scope Z_scope.
Ltac Zify.zify_post_hook ::= Z.div_mod_to_equations.

Lemma testbit_byte a b k : 0 <= b < 256 -> 0 <= k ->
  Z.testbit (a * 256 + b) k = if k <? 8 then Z.testbit b k else Z.testbit a (k - 8).
Proof.
  intros Hb Hk. destruct (k <? 8) eqn:E.
  - rewrite <- (Z.mod_pow2_bits_low _ 8) by lia. f_equal. change (2 ^ 8) with 256. lia.
  - replace k with (k - 8 + 8) at 1 by lia. rewrite <- Z.div_pow2_bits by lia. f_equal.
    change (2 ^ 8) with 256. lia.
Qed.

Lemma land_bits x y k : 0 <= k -> Z.testbit (Z.land x y) k = Z.testbit x k && Z.testbit y k.
Proof. intros. apply Z.land_spec. Qed.

Lemma land_byte_range b d : 0 <= b < 256 -> 0 <= d < 256 -> 0 <= Z.land b d < 256.
Proof.
  intros Hb Hd. split; [apply Z.land_nonneg; lia|].
  replace (Z.land b d) with (Z.land b d mod 2 ^ 8); [change (2 ^ 8) with 256; lia|].
  rewrite <- Z.land_ones by lia. rewrite <- Z.land_assoc, Z.land_ones by lia.
  change (2 ^ 8) with 256. f_equal. lia.
Qed.
Lemma lor_byte_range b d : 0 <= b < 256 -> 0 <= d < 256 -> 0 <= Z.lor b d < 256.
Proof.
  intros Hb Hd. split; [apply Z.lor_nonneg; lia|].
  replace (Z.lor b d) with (Z.lor b d mod 2 ^ 8); [change (2 ^ 8) with 256; lia|].
  rewrite <- Z.land_ones by lia. rewrite Z.land_lor_distr_l, !Z.land_ones by lia.
  change (2 ^ 8) with 256. f_equal; lia.
Qed.
Lemma lxor_byte_range b d : 0 <= b < 256 -> 0 <= d < 256 -> 0 <= Z.lxor b d < 256.
Proof.
  intros Hb Hd. split; [apply Z.lxor_nonneg; lia|].
  replace (Z.lxor b d) with (Z.lxor b d mod 2 ^ 8); [change (2 ^ 8) with 256; lia|].
  apply Z.bits_inj'. intros k Hk. destruct (Z_lt_dec k 8).
  - now rewrite Z.mod_pow2_bits_low by lia.
  - rewrite Z.mod_pow2_bits_high by lia. rewrite Z.lxor_spec.
    rewrite <- (Z.mod_small b (2 ^ 8)), <- (Z.mod_small d (2 ^ 8)) by (change (2 ^ 8) with 256; lia).
    now rewrite !Z.mod_pow2_bits_high by lia.
Qed.

Lemma land_byte a b c d : 0 <= b < 256 -> 0 <= d < 256 ->
  Z.land (a * 256 + b) (c * 256 + d) = Z.land a c * 256 + Z.land b d.
Proof.
  intros Hb Hd. apply Z.bits_inj'. intros k Hk. rewrite Z.land_spec, !testbit_byte by
    (auto using land_byte_range). destruct (k <? 8); now rewrite Z.land_spec.
Qed.
Lemma lor_byte a b c d : 0 <= b < 256 -> 0 <= d < 256 ->
  Z.lor (a * 256 + b) (c * 256 + d) = Z.lor a c * 256 + Z.lor b d.
Proof.
  intros Hb Hd. apply Z.bits_inj'. intros k Hk. rewrite Z.lor_spec, !testbit_byte by
    (auto using lor_byte_range). destruct (k <? 8); now rewrite Z.lor_spec.
Qed.
Lemma lxor_byte a b c d : 0 <= b < 256 -> 0 <= d < 256 ->
  Z.lxor (a * 256 + b) (c * 256 + d) = Z.lxor a c * 256 + Z.lxor b d.
Proof.
  intros Hb Hd. apply Z.bits_inj'. intros k Hk. rewrite Z.lxor_spec, !testbit_byte by
    (auto using lxor_byte_range). destruct (k <? 8); now rewrite Z.lxor_spec.
Qed.

Definition word (a b c d : Z) : Z := ((a * 256 + b) * 256 + c) * 256 + d.

Lemma zero_byte_check x : 0 <= x < 256 ->
  Z.lor (Z.lor (Z.land x 127 + 127) x) 127 = if x =? 0 then 127 else 255.
Proof.
  assert (forallb (fun x => Z.lor (Z.lor (Z.land x 127 + 127) x) 127 =? if x =? 0 then 127 else 255)
            (zseq 256) = true) as H by (vm_compute; reflexivity).
  intros Hx. rewrite forallb_forall in H. apply Z.eqb_eq. apply H. apply zseq_in. lia.
Qed.
Lemma land127 x : 0 <= x < 256 -> 0 <= Z.land x 127 < 128.
Proof. intros. change 127 with (2 ^ 7 - 1). rewrite land_ones_mod by lia. change (2 ^ 7) with 128. lia. Qed.

Lemma has_zero_word a b c d :
  0 <= a < 256 -> 0 <= b < 256 -> 0 <= c < 256 -> 0 <= d < 256 ->
  has_zero (word a b c d) = (a =? 0) || (b =? 0) || (c =? 0) || (d =? 0).
Proof.
  intros Ha Hb Hc Hd. unfold has_zero.
  change 2139062143 with (word 127 127 127 127).
  assert (Z.land (word a b c d) (word 127 127 127 127)
          = word (Z.land a 127) (Z.land b 127) (Z.land c 127) (Z.land d 127)) as ->
    by (unfold word; rewrite !land_byte by lia; reflexivity).
  pose proof (land127 a Ha). pose proof (land127 b Hb).
  pose proof (land127 c Hc). pose proof (land127 d Hd).
  assert (u32 (word (Z.land a 127) (Z.land b 127) (Z.land c 127) (Z.land d 127)
               + word 127 127 127 127)
          = word (Z.land a 127 + 127) (Z.land b 127 + 127) (Z.land c 127 + 127)
                 (Z.land d 127 + 127)) as ->.
  { unfold u32, word. rewrite Z.mod_small by lia. lia. }
  assert (forall x y z w x' y' z' w', 0 <= y < 256 -> 0 <= z < 256 -> 0 <= w < 256 ->
     0 <= y' < 256 -> 0 <= z' < 256 -> 0 <= w' < 256 ->
     Z.lor (word x y z w) (word x' y' z' w')
     = word (Z.lor x x') (Z.lor y y') (Z.lor z z') (Z.lor w w')) as Hlor.
  { intros. unfold word. rewrite !lor_byte by lia. reflexivity. }
  rewrite Hlor by lia. rewrite Hlor by (try apply lor_byte_range; lia).
  rewrite !zero_byte_check by lia.
  destruct (a =? 0), (b =? 0), (c =? 0), (d =? 0); reflexivity.
Qed.

Lemma lxor_255 x : 0 <= x < 256 -> Z.lxor x 255 = 255 - x.
Proof.
  assert (forallb (fun x => Z.lxor x 255 =? 255 - x) (zseq 256) = true) as H
    by (vm_compute; reflexivity).
  intros Hx. rewrite forallb_forall in H. apply Z.eqb_eq. apply H. apply zseq_in. lia.
Qed.

Lemma has_byte_255 a b c d :
  0 <= a < 256 -> 0 <= b < 256 -> 0 <= c < 256 -> 0 <= d < 256 ->
  has_byte (word a b c d) 255 = (a =? 255) || (b =? 255) || (c =? 255) || (d =? 255).
Proof.
  intros. unfold has_byte. change (u32 (4294967295 / 255 * 255)) with (word 255 255 255 255).
  assert (Z.lxor (word a b c d) (word 255 255 255 255)
          = word (255 - a) (255 - b) (255 - c) (255 - d)) as ->.
  { unfold word. rewrite !lxor_byte by lia. rewrite !lxor_255 by lia. reflexivity. }
  rewrite has_zero_word by lia. lia.
Qed.

(** A byte that is not FF *)
Lemma refill_byte_plain s b t : b_rd s = b :: t -> b <> 255 ->
  refill_byte s
  = (Ok true, set_bits s (Z.lor (u64 (shl (b_buffer s) 8)) b) (b_aligned s) (b_left s + 8) t).
Proof.
  intros E Hb. unfold refill_byte. rewrite E. cbn [read_u8].
  replace (b =? 255) with false by lia. reflexivity.
Qed.

Lemma fast_refill s :
  b_marker s = None -> b_left s <= 32 -> bytes (b_rd s) -> 0 <= b_buffer s < 2 ^ 64 ->
  refill s = refill_slow s.
Proof.
  intros Hm Hl Hb Hbuf. unfold refill. rewrite Hm. replace (b_left s <=? 32) with true by lia.
  destruct (b_rd s) as [|b0 [|b1 [|b2 [|b3 [|b4 t]]]]] eqn:E; try reflexivity.
  inversion Hb as [|? ? H0 Hb1]; subst. inversion Hb1 as [|? ? H1 Hb2]; subst.
  inversion Hb2 as [|? ? H2 Hb3]; subst. inversion Hb3 as [|? ? H3 _]; subst.
  unfold byte in *.
  assert (b0 * 16777216 + b1 * 65536 + b2 * 256 + b3 = word b0 b1 b2 b3) as Ew
    by (unfold word; lia).
  cbv zeta. rewrite Ew, has_byte_255 by lia.
  destruct ((b0 =? 255) || (b1 =? 255) || (b2 =? 255) || (b3 =? 255)) eqn:Eff; [reflexivity|].
  unfold refill_slow, bind.
  rewrite (refill_byte_plain s b0 _ E) by lia. cbv iota beta. cbn [negb].
  erewrite refill_byte_plain by (dsimp; reflexivity || lia). dsimp. cbv iota beta. cbn [negb].
  erewrite refill_byte_plain by (dsimp; reflexivity || lia). dsimp. cbv iota beta. cbn [negb].
  erewrite refill_byte_plain by (dsimp; reflexivity || lia). dsimp. cbv iota beta. cbn [negb].
  unfold modify, refill_fast, realign. dsimp. f_equal.
  assert (Z.lor (u64 (shl (Z.lor (u64 (shl (Z.lor (u64 (shl (Z.lor (u64 (shl (b_buffer s) 8)) b0) 8)) b1) 8)) b2) 8)) b3
          = Z.lor (u64 (shl (b_buffer s) 32)) (word b0 b1 b2 b3)) as ->.
  { rewrite !u64_shl_lor by (unfold word; lia). unfold word.
    change (64 - 8) with 56. change (64 - 32) with 32.
    change (2 ^ 56) with 72057594037927936. change (2 ^ 32) with 4294967296.
    change (2 ^ 8) with 256. lia. }
  replace (b_left s + 8 + 8 + 8 + 8) with (b_left s + 32) by lia.
  reflexivity.
Qed.
