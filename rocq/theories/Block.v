(** Decoding the encoding of a block gives the block. *)
From Coq Require Import ZArith String List Bool Lia.
From Coq Require Import ZifyBool ZifyNat ZifyN.
From Verif Require Import Base Types Huffman Bitstream BaseFacts HeaderFacts
  SpecHuffman SpecSegments SpecExtend SpecBits SpecBlock Obs HuffmanProofs HuffmanPrefix HuffDecode
  ExtendFacts TableSegments BitReader Refill Reader Feed FastAc.
Import ListNotations.
Local Open Scope Z_scope.
Ltac Zify.zify_post_hook ::= Z.div_mod_to_equations.

(** * The code book *)
Lemma find_some_in {A} (f : A -> bool) l x : find f l = Some x -> In x l /\ f x = true.
Proof. apply find_some. Qed.

Lemma code_of_codeword counts symbols v b : table_def counts symbols ->
  code_of counts symbols v = Some b ->
  exists l c, codeword counts symbols l c v /\ b = bits_of l c /\ 0 <= v <= 255.
Proof.
  intros Hdef H. unfold code_of in H.
  destruct (find _ _) as [p|] eqn:Ef; [|discriminate]. cbn in H. injection H as <-.
  apply find_some in Ef. destruct Ef as [Hin Hv]. unfold codebook in Hin.
  apply in_flat_map in Hin. destruct Hin as (l & Hl & Hin). apply in_seq in Hl.
  apply in_map_iff in Hin. destruct Hin as (j & <- & Hj). apply in_seq in Hj.
  cbn [fst snd] in *. apply Z.eqb_eq in Hv. subst v.
  exists l, (first_code counts l + Z.of_nat j).
  pose proof (P_nonneg counts (proj1 Hdef) (proj1 (proj2 Hdef)) l).
  destruct (codeword_entry counts symbols Hdef l (Z.of_nat j) ltac:(lia) ltac:(lia)) as (_ & _ & Hlt).
  assert (nth_error symbols (Z.to_nat (shorter counts l + Z.of_nat j)) =
          Some (nth (Z.to_nat (shorter counts l) + j) symbols 0)) as Hn.
  { replace (Z.to_nat (shorter counts l + Z.of_nat j)) with (Z.to_nat (shorter counts l) + j)%nat by lia.
    apply nth_error_nth'. unfold zlen in Hlt. lia. }
  split; [|split; [reflexivity|]].
  - exists (Z.of_nat j). repeat split; try lia. exact Hn.
  - apply nth_error_In in Hn. destruct Hdef as (_ & _ & _ & _ & Hs).
    rewrite Forall_forall in Hs. now apply Hs.
Qed.

Lemma codeword_range counts symbols l c v : table_def counts symbols -> kraft counts < 65536 ->
  codeword counts symbols l c v -> 0 <= c < 2 ^ Z.of_nat l.
Proof.
  intros Hdef Hk (j & Hj & Hl & Hc & Hv).
  pose proof (chain_table counts symbols Hdef 16 1 ltac:(lia) ltac:(lia)) as Hch.
  rewrite <- kraft_upto in Hch by apply Hdef. specialize (Hch Hk).
  destruct (codeword_entry counts symbols Hdef l j Hl Hj) as (E1 & E2 & _).
  destruct (chain_nth _ _ _ _ _ _ Hch E1 E2) as (_ & H1 & H2).
  rewrite <- Hc in *.
  assert (0 < 2 ^ (16 - Z.of_nat l)) by (apply pow2_pos; lia).
  change (pos counts 1) with 0 in H1.
  assert (65536 = 2 ^ Z.of_nat l * 2 ^ (16 - Z.of_nat l)) as E
    by (rewrite <- pow2_split by lia; replace (Z.of_nat l + (16 - Z.of_nat l)) with 16 by lia; reflexivity).
  nia.
Qed.

(** An accepted table that decodes a given code *)
Record ac_table (t : hufftable) (ft : list Z) (counts symbols : list Z) (prog : bool) : Prop := {
  at_def : table_def counts symbols;
  at_kraft : kraft counts < 65536;
  at_imp : implements t counts symbols;
  at_ft : h_ac_lookup t = Some ft;
  at_fast : fast_tab ft counts symbols prog }.

(** * Positions *)
Lemma unzig_ok : forallb (fun k => forallb (fun k' =>
    (0 <=? unzig k) && (unzig k <? 64) && (Z.land (unzig k) 63 =? unzig k) &&
    Bool.eqb (unzig k =? unzig k') (k =? k') && (zigzag (unzig k / 8) (unzig k mod 8) =? k)
    && (unzig (zigzag (k / 8) (k mod 8)) =? k) && (0 <=? zigzag (k / 8) (k mod 8))
    && (zigzag (k / 8) (k mod 8) <? 64))
  (zseq 64)) (zseq 64) = true.
Proof.
  vm_compute. reflexivity.
Qed.

Lemma in_zseq n k : 0 <= k < n -> In k (zseq n).
Proof.
  intros H. unfold zseq. apply in_map_iff. exists (Z.to_nat k). split; [lia|]. apply in_seq. lia.
Qed.
Lemma unzig_all k k' : 0 <= k < 64 -> 0 <= k' < 64 ->
  0 <= unzig k < 64 /\ Z.land (unzig k) 63 = unzig k /\ (unzig k =? unzig k') = (k =? k') /\
  zigzag (unzig k / 8) (unzig k mod 8) = k /\ unzig (zigzag (k / 8) (k mod 8)) = k /\
  0 <= zigzag (k / 8) (k mod 8) < 64.
Proof.
  intros Hk Hk'. pose proof unzig_ok as H. rewrite forallb_forall in H.
  specialize (H k (in_zseq 64 k Hk)). rewrite forallb_forall in H.
  specialize (H k' (in_zseq 64 k' Hk')). rewrite !andb_true_iff in H.
  destruct H as (((((((H1 & H2) & H3) & H4) & H5) & H6) & H7) & H8).
  apply eqb_prop in H4. lia.
Qed.

(** The block holds the coefficients below [pos] of [F] and zeros above *)
Definition holds (block F : list Z) (pos : Z) : Prop :=
  zlen block = 64 /\
  forall k, 0 <= k < 64 -> zn block (unzig k) = if k <? pos then zn F k else 0.

Lemma holds_zeros block F pos m : holds block F pos -> pos <= m ->
  (forall k, pos <= k < m -> zn F k = 0) -> holds block F m.
Proof.
  intros [Hl H] Hm Hz. split; [exact Hl|]. intros k Hk. rewrite H by exact Hk.
  destruct (k <? pos) eqn:E1; destruct (k <? m) eqn:E2; try reflexivity;
    [exfalso; lia|symmetry; apply Hz; lia].
Qed.
Lemma holds_set block F pos v : holds block F pos -> 0 <= pos < 64 -> zn F pos = v ->
  holds (zset block (Z.land (unzig pos) 63) v) F (pos + 1).
Proof.
  intros [Hl H] Hp Hv. split; [now rewrite zlen_zset|]. intros k Hk.
  destruct (unzig_all pos k Hp Hk) as (H1 & H2 & H3 & _). destruct (unzig_all k k Hk Hk) as (H4 & _).
  rewrite H2, zn_zset by lia. rewrite H by exact Hk. rewrite Hl.
  destruct (unzig k =? unzig pos) eqn:E; cbn [andb].
  - replace (unzig pos <? 64) with true by lia.
    assert (k = pos) as -> by lia. replace (pos <? pos + 1) with true by lia. auto.
  - destruct (k <? pos) eqn:E1; destruct (k <? pos + 1) eqn:E2; try lia.
Qed.
(** Writing a zero above changes nothing *)
Lemma holds_zero block F pos m : holds block F pos -> 0 <= m < 64 -> pos <= m ->
  holds (zset block (Z.land (unzig m) 63) 0) F pos.
Proof.
  intros [Hl H] Hm Hp. split; [now rewrite zlen_zset|]. intros k Hk.
  destruct (unzig_all m k Hm Hk) as (H1 & H2 & H3 & _). destruct (unzig_all k k Hk Hk) as (H4 & _).
  rewrite H2, zn_zset by lia. rewrite H by exact Hk. rewrite Hl.
  destruct (unzig k =? unzig m) eqn:E; cbn [andb]; [|reflexivity].
  replace (unzig m <? 64) with true by lia.
  now replace (k <? pos) with false by lia.
Qed.
Lemma holds_natural block F : holds block F 64 -> block = natural F.
Proof.
  intros [Hl H].
  assert (forall a b : list Z, zlen a = zlen b -> (forall i, 0 <= i < zlen a -> zn a i = zn b i) -> a = b) as Hext.
  { intros a b Hab Hi. apply (nth_ext a b 0 0); [unfold zlen in Hab; lia|].
    intros n Hn. specialize (Hi (Z.of_nat n)). unfold zn, zlen in Hi. rewrite Nat2Z.id in Hi. apply Hi. lia. }
  apply Hext.
  - rewrite Hl. reflexivity.
  - intros i Hi. rewrite Hl in Hi.
    destruct (unzig_all i i Hi Hi) as (_ & _ & _ & _ & H5 & H6).
    rewrite <- H5 at 1. rewrite H by exact H6.
    replace (zigzag (i / 8) (i mod 8) <? 64) with true by lia.
    unfold natural. unfold zn at 2.
    rewrite (nth_indep _ 0 (nth (Z.to_nat (zigzag (0 / 8) (0 mod 8))) F 0)).
    2:{ rewrite !map_length, seq_length. lia. }
    set (g := fun i0 => nth (Z.to_nat (zigzag (i0 / 8) (i0 mod 8))) F 0).
    change (nth (Z.to_nat (zigzag (0 / 8) (0 mod 8))) F 0) with (g 0). rewrite map_nth.
    change (nth (Z.to_nat i) (map Z.of_nat (seq 0 64)) 0)
      with (nth (Z.to_nat i) (map Z.of_nat (seq 0 64)) (Z.of_nat 0)).
    rewrite map_nth, seq_nth by lia.
    replace (Z.of_nat (0 + Z.to_nat i)) with i by lia. reflexivity.
Qed.
Lemma holds_new F v : zn F 0 = v -> holds (zset (zrepeat 0 64) 0 v) F 1.
Proof.
  intros Hv. pose proof (holds_set (zrepeat 0 64) F 0 v) as H. change (Z.land (unzig 0) 63) with 0 in H.
  apply H; [|lia|exact Hv]. split; [reflexivity|]. intros k Hk.
  destruct (unzig_all k k Hk Hk) as (H4 & _). rewrite zn_repeat by lia.
  now replace (k <? 0) with false by lia.
Qed.

(** * Encoded AC coefficients *)
Definition emits (counts symbols : list Z) (v : Z) (b : list bool) : Prop :=
  exists l c, codeword counts symbols l c v /\ b = bits_of l c.

Inductive ac_bits (counts symbols : list Z) : list Z -> list bool -> Prop :=
| ac_end : ac_bits counts symbols [] []
| ac_eob k b : (0 < k)%nat -> emits counts symbols 0 b -> ac_bits counts symbols (repeat 0 k) b
| ac_zrl rest b b' : emits counts symbols 240 b -> ac_bits counts symbols rest b' ->
    ac_bits counts symbols (repeat 0 16 ++ rest) (b ++ b')
| ac_coef r v rest b b' : (r <= 15)%nat -> v <> 0 -> category v <= 15 ->
    emits counts symbols (16 * Z.of_nat r + category v) b -> ac_bits counts symbols rest b' ->
    ac_bits counts symbols (repeat 0 r ++ v :: rest) (b ++ extra v ++ b').

Lemma code_of_emits counts symbols v b : table_def counts symbols ->
  code_of counts symbols v = Some b -> emits counts symbols v b.
Proof.
  intros Hd H. destruct (code_of_codeword _ _ _ _ Hd H) as (l & c & H1 & H2 & _). exists l, c. auto.
Qed.

Lemma cat_opt_some a b x : cat_opt a b = Some x ->
  exists y z, a = Some y /\ b = Some z /\ x = (y ++ z)%list.
Proof. destruct a, b; cbn; try discriminate. intros H. injection H as <-. eauto. Qed.

Lemma zrl_bits counts symbols : table_def counts symbols -> forall n b rest b',
  zrl (code_of counts symbols) n = Some b -> ac_bits counts symbols rest b' ->
  ac_bits counts symbols (repeat 0 (16 * n) ++ rest) (b ++ b').
Proof.
  intros Hd. induction n as [|n IH]; intros b rest b' H Hr.
  - cbn in H. injection H as <-. exact Hr.
  - cbn [zrl] in H. apply cat_opt_some in H. destruct H as (y & z & H1 & H2 & ->).
    replace (16 * S n)%nat with (16 + 16 * n)%nat by lia. rewrite repeat_app, <- !app_assoc.
    apply ac_zrl; [now apply code_of_emits|]. now apply IH.
Qed.

Lemma encode_ac_bits counts symbols : table_def counts symbols -> forall zz run b,
  Forall (fun a => category a <= 15) zz ->
  encode_ac (code_of counts symbols) run zz = Some b -> ac_bits counts symbols (repeat 0 run ++ zz) b.
Proof.
  intros Hd. induction zz as [|v zz IH]; intros run b Hc H; cbn [encode_ac] in H.
  - rewrite app_nil_r. destruct run as [|run].
    + cbn in H. injection H as <-. constructor.
    + change (Nat.eqb (S run) 0) with false in H. cbn iota in H.
      apply ac_eob; [lia|]. now apply code_of_emits.
  - inversion Hc as [|? ? Hv Hrest]; subst. destruct (v =? 0) eqn:Ev.
    + apply IH in H; [|assumption]. assert (v = 0) as -> by lia.
      change (repeat 0 (S run) ++ zz)%list with (0 :: repeat 0 run ++ zz)%list in H.
      assert (forall n (l : list Z), (repeat 0 n ++ 0 :: l = 0 :: repeat 0 n ++ l)%list) as Hr.
      { clear. induction n as [|n IHn]; intros l; [reflexivity|]. cbn [repeat app]. now rewrite IHn. }
      now rewrite Hr.
    + apply cat_opt_some in H. destruct H as (b1 & x1 & H1 & H & ->).
      apply cat_opt_some in H. destruct H as (b2 & x2 & H2 & H & ->).
      apply cat_opt_some in H. destruct H as (b3 & x3 & H3 & H & ->). injection H3 as <-.
      assert (run = 16 * (run / 16) + run mod 16)%nat as Er by (apply Nat.div_mod; lia).
      rewrite Er at 1. rewrite repeat_app, <- app_assoc.
      apply zrl_bits; auto. apply ac_coef; [|lia|exact Hv| |].
      * pose proof (Nat.mod_upper_bound run 16 ltac:(lia)) as Hu.
        generalize dependent (run mod 16)%nat. intros m _ _ Hu. lia.
      * now apply code_of_emits.
      * exact (IH 0%nat x3 Hrest H).
Qed.

(** * The decoding loop *)

(** Table entries the fast path gets wrong do not occur *)
Definition fast_safe (counts symbols : list Z) : Prop :=
  forall l c v, codeword counts symbols l c v -> 6 <= v mod 16 -> 9 < Z.of_nat l + v mod 16.

Lemma feed_left n s bs x m : feed n s bs x -> m <= b_left s -> feed m s bs x.
Proof.
  intros (Hk & u & E & z & r & H1 & H2 & H3 & H4) Hm. split; [exact Hk|].
  exists u, E, z, r. split; [exact H1|]. split; [exact H2|]. split; [exact H3|].
  destruct H1 as [Hw _ Hbuf Hah]. destruct (b_marker s) as [mk|].
  - right. discriminate.
  - left. rewrite <- (bo_left _ _ (Hbuf eq_refl)). exact Hm.
Qed.

Lemma codeword_sym counts symbols l c v : table_def counts symbols ->
  codeword counts symbols l c v -> 0 <= v <= 255 /\ (1 <= l <= 16)%nat.
Proof.
  intros Hdef (j & _ & Hl & _ & Hv). split; [|exact Hl].
  apply nth_error_In in Hv. destruct Hdef as (_ & _ & _ & _ & Hs).
  rewrite Forall_forall in Hs. now apply Hs.
Qed.

Lemma land63 x : 0 <= x < 64 -> Z.land x 63 = x.
Proof. intros. change 63 with (2 ^ 6 - 1). rewrite land_ones_mod by lia. apply Z.mod_small. lia. Qed.
Lemma land15 x : Z.land x 15 = x mod 16.
Proof. change 15 with (2 ^ 4 - 1). now rewrite land_ones_mod by lia. Qed.
Lemma land63_mod x : Z.land x 63 = x mod 64.
Proof. change 63 with (2 ^ 6 - 1). now rewrite land_ones_mod by lia. Qed.

Lemma extra_len v : v <> 0 -> blen (extra v) = category v.
Proof.
  intros Hv. unfold extra. rewrite blen_bits. destruct (category_bounds v Hv). lia.
Qed.
Lemma extra_val v : v <> 0 -> val (extra v) = additional v.
Proof.
  intros Hv. unfold extra. rewrite value_bits. destruct (category_bounds v Hv).
  rewrite Z2Nat.id by lia. apply Z.mod_small. now apply additional_range.
Qed.

(** One symbol at the front of the window *)
Lemma ac_symbol t ft counts symbols prog s l c v bs x :
  ac_table t ft counts symbols prog -> codeword counts symbols l c v ->
  feed 32 s (bits_of l c ++ bs) x ->
  fast_entry prog (b_aligned s) l v (zn ft (peek_bits 9 s)) /\
  exists s', decode_huff t (zn (h_lookup t) (peek_bits 9 s)) s = (Ok v, s') /\
    feed (32 - Z.of_nat l) s' bs x /\ same_params s s'.
Proof.
  intros Ht Hc Hf. pose proof (feed_aligned _ _ _ _ Hf) as HA.
  pose proof (codeword_range _ _ _ _ _ (at_def _ _ _ _ _ Ht) (at_kraft _ _ _ _ _ Ht) Hc) as Hr.
  destruct (codeword_sym _ _ _ _ _ (at_def _ _ _ _ _ Ht) Hc) as [Hv Hl].
  split.
  - change (peek_bits 9 s) with (b_aligned s / 2 ^ 55).
    apply (at_fast _ _ _ _ _ Ht (b_aligned s) l c v HA Hc).
    pose proof (feed_peek 32 s (bits_of l c) bs x Hf) as Hp. rewrite blen_bits in Hp.
    unfold peek_bits, shr in Hp. rewrite Hp by lia. rewrite value_bits. now apply Z.mod_small.
  - apply (feed_huff 32 s t counts symbols l c v bs x (at_imp _ _ _ _ _ Ht) Hc Hf); lia.
Qed.
Lemma top_bits s a b x bs n : feed n s (a ++ b ++ bs) x -> blen a + blen b <= n ->
  b_aligned s / 2 ^ (64 - blen a - blen b) mod 2 ^ blen b = val b.
Proof.
  intros Hf Hn. rewrite app_assoc in Hf.
  pose proof (feed_peek n s (a ++ b) bs x Hf) as Hp. rewrite blen_app in Hp. specialize (Hp Hn).
  unfold peek_bits, shr in Hp.
  replace (64 - blen a - blen b) with (64 - (blen a + blen b)) by lia. rewrite Hp, val_app.
  rewrite Z.add_comm, Z.mod_add by (apply Z.pow_nonzero; [lia|apply blen_nonneg]).
  apply Z.mod_small. apply val_range.
Qed.

Lemma zn_app2 (a b : list Z) i : zlen a <= i -> zn (a ++ b) i = zn b (i - zlen a).
Proof.
  intros H. unfold zn, zlen in *. rewrite app_nth2 by lia. f_equal. lia.
Qed.
Lemma zn_app1 (a b : list Z) i : 0 <= i < zlen a -> zn (a ++ b) i = zn a i.
Proof. intros H. unfold zn, zlen in *. apply app_nth1. lia. Qed.
Lemma zn_rep k i : zn (repeat 0 k) i = 0.
Proof. unfold zn. apply nth_repeat. Qed.
Lemma zlen_rep k : zlen (repeat 0 k) = Z.of_nat k.
Proof. unfold zlen. now rewrite repeat_length. Qed.

Lemma fast_zero_vals e run l : 0 <= run <= 63 -> (1 <= l <= 9)%nat -> e = run * 16 + Z.of_nat l ->
  (e =? 0) = false /\ Z.land (shr e 4) 63 = run /\ shr e 10 = 0 /\ Z.land e 15 = Z.of_nat l.
Proof.
  intros Hr Hl ->. rewrite land15, land63_mod. unfold shr.
  change (2 ^ 4) with 16. change (2 ^ 10) with 1024. lia.
Qed.
Lemma fast_coef_vals e k run L : -31 <= k <= 31 -> 0 <= run <= 15 -> 1 <= L <= 9 ->
  e = i16 (k * 1024 + run * 16 + L) ->
  (e =? 0) = false /\ Z.land (shr e 4) 63 = run /\ shr e 10 = k /\ Z.land e 15 = L.
Proof.
  intros Hk Hr Hl He. assert (e = k * 1024 + run * 16 + L) as -> by (rewrite He; unfold i16; lia).
  clear He. rewrite land15, land63_mod. unfold shr.
  change (2 ^ 4) with 16. change (2 ^ 10) with 1024. lia.
Qed.

Lemma extend_small x size : 1 <= size <= 5 -> 0 <= x < 2 ^ size -> -31 <= extend x size <= 31.
Proof.
  intros Hs Hx.
  assert (2 ^ size <= 32) by (change 32 with (2 ^ 5); apply Z.pow_le_mono_r; lia).
  assert (2 ^ size = 2 * 2 ^ (size - 1)) as H2
    by (rewrite <- (Z.pow_succ_r 2 (size - 1)) by lia; f_equal; lia).
  unfold extend. destruct (x <? 2 ^ (size - 1)) eqn:E; lia.
Qed.

Lemma bits_of_len l c : blen (bits_of l c) = Z.of_nat l.
Proof. apply blen_bits. Qed.

Lemma decode_ac_ok t ft counts symbols : ac_table t ft counts symbols false ->
  fast_safe counts symbols ->
  forall zz b, ac_bits counts symbols zz b ->
  forall fuel pre F pos block s n bs x,
  F = (pre ++ zz)%list -> zlen F = 64 -> zlen pre = pos -> (length zz <= fuel)%nat ->
  holds block F pos -> feed n s (b ++ bs) x ->
  exists block' s', decode_ac fuel t ft pos block s = (Ok block', s') /\ holds block' F 64 /\
    feed 0 s' bs x /\ same_params s s'.
Proof.
  intros Ht Hsafe. induction 1 as [|k b Hk (l & c & Hcw & ->)|rest b b' (l & c & Hcw & ->) Hrest IH
                                  |r v rest b b' Hr Hv Hcat (l & c & Hcw & ->) Hrest IH];
    intros fuel pre F pos block s n bs x HF HF64 Hpre Hfuel Hh Hf.
  - (* nothing left *)
    rewrite app_nil_r in HF. assert (pos = 64) as -> by (subst; lia).
    exists block, s. destruct fuel; cbn [decode_ac]; change (64 <=? 64) with true; cbn iota;
      (split; [reflexivity|]; split; [exact Hh|]; split; [|apply same_params_refl]);
      destruct Hf as (Hkx & u & E & z & r & H1 & H2 & H3 & H4); (split; [exact Hkx|]);
      exists u, E, z, r; pose proof (blen_nonneg u); intuition.
  - (* end of block *)
    pose proof (f_equal zlen HF) as HFl. rewrite zlen_app, zlen_rep in HFl.
    pose proof (zlen_nonneg pre).
    destruct fuel as [|fuel]; [rewrite repeat_length in Hfuel; lia|].
    cbn [decode_ac]. replace (64 <=? pos) with false by lia.
    destruct (feed_refill _ _ _ _ Hf) as (s1 & Er & Hf1 & Hp1).
    erewrite bind_ok by exact Er. erewrite bind_ok by reflexivity.
    destruct (ac_symbol t ft counts symbols false s1 l c 0 bs x Ht Hcw Hf1) as [He (s2 & Es & Hf2 & Hp2)].
    destruct (codeword_sym _ _ _ _ _ (at_def _ _ _ _ _ Ht) Hcw) as [_ Hl].
    unfold HUFF_LOOKAHEAD. set (e := zn ft (peek_bits 9 s1)) in *.
    assert (holds block F 64) as Hh64.
    { apply holds_zeros with pos; [exact Hh|lia|]. intros k' Hk'. rewrite HF.
      rewrite zn_app2 by lia. apply zn_rep. }
    destruct He as [E0|[(_ & _ & H9 & E0)|(Hx0 & _)]].
    + rewrite E0. cbn [negb Z.eqb]. erewrite bind_ok by exact Es.
      change (shr 0 4) with 0. change (Z.land 0 15) with 0. cbn [negb Z.eqb].
      exists block, s2. split; [reflexivity|]. split; [exact Hh64|].
      split; [|eapply same_params_trans; eauto]. eapply feed_weaken; [exact Hf2|lia].
    + change (0 / 16 =? 0) with true in E0. cbn iota in E0.
      destruct (fast_zero_vals e 63 l ltac:(lia) ltac:(lia) E0) as (V1 & V2 & V3 & V4).
      rewrite V1. cbn [negb]. erewrite bind_ok by reflexivity. rewrite V2, V3, V4.
      replace (Z.min (pos + 63) 63) with 63 by lia.
      destruct (feed_drop 32 s1 (bits_of l c) bs x Hf1 ltac:(rewrite blen_bits; lia)) as [Hf3 Hp3].
      rewrite blen_bits in Hf3, Hp3.
      eexists _, (drop_bits (Z.of_nat l) s1).
      split.
      { destruct fuel; cbn [decode_ac]; replace (64 <=? pos + 63 + 1) with true by lia; reflexivity. }
      split; [|split; [eapply feed_weaken; [exact Hf3|lia]|eapply same_params_trans; eauto]].
      apply holds_zeros with pos; [|lia|].
      { apply holds_zero; [exact Hh|lia|lia]. }
      intros k' Hk'. rewrite HF. rewrite zn_app2 by lia. apply zn_rep.
    + exfalso. apply Hx0. reflexivity.
  - (* sixteen zeros *)
    pose proof (f_equal zlen HF) as HFl. rewrite !zlen_app, zlen_rep in HFl.
    pose proof (zlen_nonneg pre). pose proof (zlen_nonneg rest).
    rewrite app_length, repeat_length in Hfuel.
    destruct fuel as [|fuel]; [lia|].
    cbn [decode_ac]. replace (64 <=? pos) with false by lia.
    destruct (feed_refill _ _ _ _ Hf) as (s1 & Er & Hf1 & Hp1).
    erewrite bind_ok by exact Er. erewrite bind_ok by reflexivity.
    rewrite <- app_assoc in Hf1.
    destruct (ac_symbol t ft counts symbols false s1 l c 240 _ x Ht Hcw Hf1) as [He (s2 & Es & Hf2 & Hp2)].
    destruct (codeword_sym _ _ _ _ _ (at_def _ _ _ _ _ Ht) Hcw) as [_ Hl].
    unfold HUFF_LOOKAHEAD. set (e := zn ft (peek_bits 9 s1)) in *.
    assert (holds block F (pos + 16)) as Hh16.
    { apply holds_zeros with pos; [exact Hh|lia|]. intros k' Hk'. rewrite HF.
      rewrite zn_app2 by lia. rewrite zn_app1 by (rewrite zlen_rep; lia). apply zn_rep. }
    assert (F = ((pre ++ repeat 0 16) ++ rest)%list) as HF' by (rewrite <- app_assoc; exact HF).
    assert (zlen (pre ++ repeat 0 16) = pos + 16) as Hpre' by (rewrite zlen_app, zlen_rep; lia).
    destruct He as [E0|[(_ & _ & H9 & E0)|(Hx0 & _)]].
    + rewrite E0. cbn [negb Z.eqb]. erewrite bind_ok by exact Es.
      change (shr 240 4) with 15. change (Z.land 240 15) with 0. cbn [negb Z.eqb Pos.eqb].
      destruct (IH fuel _ F (pos + 16) block s2 _ bs x HF' HF64 Hpre' ltac:(lia) Hh16 Hf2)
        as (blk & s3 & E3 & H3 & Hf3 & Hp3).
      exists blk, s3. split; [exact E3|]. split; [exact H3|]. split; [exact Hf3|].
      eapply same_params_trans; [|exact Hp3]. eapply same_params_trans; eauto.
    + change (240 / 16 =? 0) with false in E0. cbn iota in E0. change (240 / 16) with 15 in E0.
      destruct (fast_zero_vals e 15 l ltac:(lia) ltac:(lia) E0) as (V1 & V2 & V3 & V4).
      rewrite V1. cbn [negb]. erewrite bind_ok by reflexivity. rewrite V2, V3, V4.
      replace (Z.min (pos + 15) 63) with (pos + 15) by lia.
      replace (pos + 15 + 1) with (pos + 16) by lia.
      destruct (feed_drop 32 s1 (bits_of l c) _ x Hf1 ltac:(rewrite blen_bits; lia)) as [Hf3 Hp3].
      rewrite blen_bits in Hf3, Hp3.
      assert (holds (zset block (Z.land (unzig (pos + 15)) 63) 0) F (pos + 16)) as Hh'.
      { replace (pos + 16) with (pos + 15 + 1) by lia. apply holds_set; [|lia|].
        - apply holds_zeros with pos; [exact Hh|lia|]. intros k' Hk'. rewrite HF.
          rewrite zn_app2 by lia. rewrite zn_app1 by (rewrite zlen_rep; lia). apply zn_rep.
        - rewrite HF. rewrite zn_app2 by lia. rewrite zn_app1 by (rewrite zlen_rep; lia). apply zn_rep. }
      destruct (IH fuel _ F (pos + 16) _ _ _ bs x HF' HF64 Hpre' ltac:(lia) Hh' Hf3)
        as (blk & s3 & E3 & H3 & Hf4 & Hp4).
      exists blk, s3. split; [exact E3|]. split; [exact H3|]. split; [exact Hf4|].
      eapply same_params_trans; [|exact Hp4]. eapply same_params_trans; eauto.
    + exfalso. apply Hx0. reflexivity.
  - (* a coefficient *)
    pose proof (f_equal zlen HF) as HFl. rewrite !zlen_app, zlen_rep, zlen_cons in HFl.
    pose proof (zlen_nonneg pre). pose proof (zlen_nonneg rest).
    rewrite app_length, repeat_length in Hfuel. cbn [length] in Hfuel.
    destruct fuel as [|fuel]; [lia|].
    cbn [decode_ac]. replace (64 <=? pos) with false by lia.
    destruct (feed_refill _ _ _ _ Hf) as (s1 & Er & Hf1 & Hp1).
    erewrite bind_ok by exact Er. erewrite bind_ok by reflexivity.
    rewrite <- !app_assoc in Hf1.
    destruct (category_bounds v Hv) as [Hc1 Hc2].
    set (sym := 16 * Z.of_nat r + category v) in *.
    assert (sym mod 16 = category v) as Hm16 by (unfold sym; clear - Hc1 Hcat; lia).
    assert (sym / 16 = Z.of_nat r) as Hd16 by (unfold sym; clear - Hc1 Hcat; lia).
    destruct (ac_symbol t ft counts symbols false s1 l c sym _ x Ht Hcw Hf1) as [He (s2 & Es & Hf2 & Hp2)].
    destruct (codeword_sym _ _ _ _ _ (at_def _ _ _ _ _ Ht) Hcw) as [_ Hl].
    unfold HUFF_LOOKAHEAD. set (e := zn ft (peek_bits 9 s1)) in *.
    assert (holds block F (pos + Z.of_nat r)) as Hhr.
    { apply holds_zeros with pos; [exact Hh|lia|]. intros k' Hk'. rewrite HF.
      rewrite zn_app2 by lia. rewrite zn_app1 by (rewrite zlen_rep; lia). apply zn_rep. }
    assert (zn F (pos + Z.of_nat r) = v) as HFv.
    { rewrite HF. rewrite zn_app2 by lia. rewrite zn_app2 by (rewrite zlen_rep; lia).
      rewrite zlen_rep. replace (pos + Z.of_nat r - zlen pre - Z.of_nat r) with 0 by lia. reflexivity. }
    assert (holds (zset block (Z.land (unzig (pos + Z.of_nat r)) 63) v) F (pos + Z.of_nat r + 1)) as Hh'
      by (apply holds_set; [exact Hhr|lia|exact HFv]).
    assert (F = ((pre ++ repeat 0 r ++ [v]) ++ rest)%list) as HF'
      by (rewrite <- !app_assoc; exact HF).
    assert (zlen (pre ++ repeat 0 r ++ [v]) = pos + Z.of_nat r + 1) as Hpre'
      by (rewrite !zlen_app, zlen_rep, zlen_cons, zlen_nil; lia).
    destruct He as [E0|[(Hx0 & _)|(_ & H9 & E0)]].
    + rewrite E0. cbn [negb Z.eqb]. erewrite bind_ok by exact Es.
      unfold shr at 1 2 3. change (2 ^ 4) with 16. rewrite land15, Hm16, Hd16.
      replace (category v =? 0) with false by lia. cbn [negb].
      destruct (feed_get _ s2 (extra v) (b' ++ bs) x Hf2) as (s3 & Eg & Hf3 & Hp3).
      { rewrite extra_len by exact Hv. lia. }
      rewrite extra_len in Eg, Hf3 by exact Hv. rewrite extra_val in Eg by exact Hv.
      erewrite bind_ok by exact Eg.
      rewrite huff_extend_spec by (try apply additional_range; auto; lia).
      rewrite extend_additional by exact Hv.
      replace (i16 v) with v.
      2:{ assert (2 ^ category v <= 32768)
            by (change 32768 with (2 ^ 15); apply Z.pow_le_mono_r; lia).
          unfold i16. rewrite Z.mod_small by lia. lia. }
      rewrite (land63 (pos + Z.of_nat r)) by lia.
      destruct (IH fuel _ F _ _ s3 _ bs x HF' HF64 Hpre' ltac:(lia) Hh' Hf3)
        as (blk & s4 & E4 & H4 & Hf4 & Hp4).
      exists blk, s4. split; [exact E4|]. split; [exact H4|]. split; [exact Hf4|].
      eapply same_params_trans; [|exact Hp4]. eapply same_params_trans; [|exact Hp3].
      eapply same_params_trans; eauto.
    + exfalso. lia.
    + rewrite Hm16 in H9, E0. rewrite Hd16 in E0.
      assert (category v <= 5) as Hc5.
      { destruct (Z_le_gt_dec (category v) 5) as [|Hgt]; [assumption|exfalso].
        specialize (Hsafe l c sym Hcw). rewrite Hm16 in Hsafe. lia. }
      pose proof (top_bits s1 (bits_of l c) (extra v) x (b' ++ bs) 32 Hf1) as Htop.
      rewrite blen_bits, extra_len, extra_val in Htop by exact Hv. specialize (Htop ltac:(lia)).
      rewrite Htop in E0. rewrite extend_additional in E0 by exact Hv.
      assert (-31 <= v <= 31) as Hv31.
      { rewrite <- (extend_additional v Hv). apply extend_small; [lia|]. now apply additional_range. }
      replace (v * 1024 + Z.of_nat r * 16 + (Z.of_nat l + category v))
        with (v * 1024 + Z.of_nat r * 16 + (Z.of_nat l + category v)) in E0 by lia.
      destruct (fast_coef_vals e v (Z.of_nat r) (Z.of_nat l + category v) Hv31 ltac:(lia) ltac:(lia) E0)
        as (V1 & V2 & V3 & V4).
      rewrite V1. cbn [negb]. erewrite bind_ok by reflexivity. rewrite V2, V3, V4.
      replace (Z.min (pos + Z.of_nat r) 63) with (pos + Z.of_nat r) by lia.
      rewrite app_assoc in Hf1.
      destruct (feed_drop 32 s1 (bits_of l c ++ extra v) _ x Hf1) as [Hf3 Hp3].
      { rewrite blen_app, blen_bits, extra_len by exact Hv. lia. }
      rewrite blen_app, blen_bits, extra_len in Hf3, Hp3 by exact Hv.
      destruct (IH fuel _ F _ _ _ _ bs x HF' HF64 Hpre' ltac:(lia) Hh' Hf3)
        as (blk & s4 & E4 & H4 & Hf4 & Hp4).
      exists blk, s4. split; [exact E4|]. split; [exact H4|]. split; [exact Hf4|].
      eapply same_params_trans; [|exact Hp4]. eapply same_params_trans; eauto.
Qed.

(** * The DC coefficient *)
Lemma decode_dc_ok t counts symbols l c pred v n s bs x :
  table_def counts symbols -> kraft counts < 65536 -> implements t counts symbols ->
  codeword counts symbols l c (category (v - pred)) -> category (v - pred) <= 16 ->
  Z.of_nat l + category (v - pred) <= 16 -> -32768 <= v <= 32767 ->
  feed n s (bits_of l c ++ extra (v - pred) ++ bs) x ->
  exists s', decode_dc t pred s = (Ok v, s') /\ feed 0 s' bs x /\ same_params s s'.
Proof.
  intros Hd Hk Ht Hcw Hc16 Hlen Hv Hf.
  pose proof (codeword_range _ _ _ _ _ Hd Hk Hcw) as Hr.
  destruct (codeword_sym _ _ _ _ _ Hd Hcw) as [_ Hl].
  unfold decode_dc. erewrite bind_ok by reflexivity.
  assert (exists s1, (if b_left s <? 16 then refill else ret tt) s = (Ok tt, s1) /\
            feed 16 s1 (bits_of l c ++ extra (v - pred) ++ bs) x /\ same_params s s1)
    as (s1 & E1 & Hf1 & Hp1).
  { destruct (b_left s <? 16) eqn:E.
    - destruct (feed_refill _ _ _ _ Hf) as (s1 & E1 & Hf1 & Hp1). exists s1.
      split; [exact E1|]. split; [|exact Hp1]. eapply feed_weaken; [exact Hf1|lia].
    - exists s. split; [reflexivity|]. split; [|apply same_params_refl].
      eapply feed_left; [exact Hf|lia]. }
  erewrite bind_ok by exact E1. erewrite bind_ok by reflexivity. unfold HUFF_LOOKAHEAD.
  assert (0 <= category (v - pred)) as Hc0.
  { destruct (Z.eq_dec (v - pred) 0) as [->|Hz]; [cbn; lia|]. destruct (category_bounds _ Hz). lia. }
  destruct (feed_huff 16 s1 t counts symbols l c _ _ x Ht Hcw Hf1 ltac:(lia) Hr)
    as (s2 & E2 & Hf2 & Hp2).
  erewrite bind_ok by exact E2.
  assert (i32 v = v) as Hi32 by (unfold i32; rewrite Z.mod_small by lia; lia).
  destruct (category (v - pred) =? 0) eqn:E0.
  - assert (v - pred = 0) as Hz.
    { destruct (Z.eq_dec (v - pred) 0) as [|Hz]; [assumption|]. destruct (category_bounds _ Hz). lia. }
    erewrite bind_ok by reflexivity. replace (pred + 0) with v by lia. rewrite Hi32.
    exists s2. split; [reflexivity|]. split; [|eapply same_params_trans; eauto].
    rewrite Hz in Hf2. eapply feed_weaken; [exact Hf2|]. change (category 0) with 0 in *. lia.
  - assert (v - pred <> 0) as Hz by (intros Hz; rewrite Hz in E0; discriminate).
    destruct (feed_get _ s2 (extra (v - pred)) bs x Hf2) as (s3 & Eg & Hf3 & Hp3).
    { rewrite extra_len by exact Hz. lia. }
    rewrite extra_len in Eg, Hf3 by exact Hz. rewrite extra_val in Eg by exact Hz.
    erewrite bind_ok by (erewrite bind_ok by exact Eg; reflexivity).
    rewrite huff_extend_spec by (try apply additional_range; auto; lia).
    rewrite extend_additional by exact Hz. replace (pred + (v - pred)) with v by lia. rewrite Hi32.
    exists s3. split; [reflexivity|]. split; [eapply feed_weaken; [exact Hf3|lia]|].
    eapply same_params_trans; [|exact Hp3]. eapply same_params_trans; eauto.
Qed.

(** The decoding table of a DC code *)
Record dc_table (t : hufftable) (counts symbols : list Z) : Prop := {
  dt_def : table_def counts symbols;
  dt_kraft : kraft counts < 65536;
  dt_imp : implements t counts symbols }.

Lemma decode_block_ok dct act ft dcc dcs acc acs pred zz b n s bs x :
  dc_table dct dcc dcs -> ac_table act ft acc acs false -> fast_safe acc acs ->
  length zz = 64%nat ->
  match zz with [] => False | v :: rest => -32768 <= v <= 32767 /\
     category (v - pred) <= 15 /\ Forall (fun a => category a <= 15) rest /\
     code_len (code_of dcc dcs) (category (v - pred)) + category (v - pred) <= 16 end ->
  encode_block (code_of dcc dcs) (code_of acc acs) pred zz = Some b ->
  feed n s (b ++ bs) x ->
  exists s', decode_mcu_block dct act (zrepeat 0 64) pred s = (Ok (natural zz), s', hd 0 zz) /\
    feed 0 s' bs x /\ same_params s s'.
Proof.
  intros Hdt Hat Hsafe Hlen Hzz Henc Hf. destruct zz as [|v rest]; [tauto|].
  destruct Hzz as (Hv & Hc & Hall & Hcl). cbn [encode_block] in Henc.
  apply cat_opt_some in Henc. destruct Henc as (b1 & x1 & E1 & Henc & ->).
  apply cat_opt_some in Henc. destruct Henc as (b2 & x2 & E2 & E3 & ->). injection E2 as <-.
  unfold code_len in Hcl. rewrite E1 in Hcl.
  destruct (code_of_codeword _ _ _ _ (dt_def _ _ _ Hdt) E1) as (l & c & Hcw & -> & _).
  rewrite bits_length in Hcl.
  apply encode_ac_bits in E3; [|apply (at_def _ _ _ _ _ Hat)|exact Hall]. cbn [repeat app] in E3.
  rewrite <- !app_assoc in Hf.
  destruct (decode_dc_ok dct dcc dcs l c pred v n s (x2 ++ bs) x (dt_def _ _ _ Hdt) (dt_kraft _ _ _ Hdt)
             (dt_imp _ _ _ Hdt) Hcw ltac:(lia) Hcl Hv Hf) as (s1 & Ed & Hf1 & Hp1).
  unfold decode_mcu_block. rewrite (at_ft _ _ _ _ _ Hat), Ed.
  replace (i16 v) with v by (unfold i16; rewrite Z.mod_small by lia; lia).
  cbn [length] in Hlen.
  destruct (decode_ac_ok act ft acc acs Hat Hsafe rest x2 E3 64%nat [v] (v :: rest) 1
              (zset (zrepeat 0 64) 0 v) s1 0 bs x eq_refl) as (blk & s2 & Ea & Hh & Hf2 & Hp2).
  - rewrite zlen_cons. unfold zlen. lia.
  - reflexivity.
  - lia.
  - apply holds_new. reflexivity.
  - exact Hf1.
  - rewrite Ea. exists s2. rewrite (holds_natural _ _ Hh).
    split; [reflexivity|]. split; [exact Hf2|]. eapply same_params_trans; eauto.
Qed.

Lemma code_of_len counts symbols v b : code_of counts symbols v = Some b ->
  code_len (code_of counts symbols) v = Z.of_nat (length b).
Proof. intros H. unfold code_len. now rewrite H. Qed.

(** * The tables of a file *)
Lemma huffman_new_dc counts symbols t : table_def counts symbols ->
  huffman_new (0 :: counts) (values_of symbols) true false = Ok t -> dc_table t counts symbols.
Proof.
  intros Hd H. split; [exact Hd| |eapply new_implements; eauto].
  destruct (Z_lt_dec (kraft counts) 65536) as [Hk|Hk]; [exact Hk|].
  exfalso. destruct (huffman_new_err counts symbols Hd true false) as (e & E'); [tauto|].
  unfold values_of in H. congruence.
Qed.
Lemma huffman_new_ac counts symbols t prog : table_def counts symbols ->
  huffman_new (0 :: counts) (values_of symbols) false prog = Ok t ->
  exists ft, ac_table t ft counts symbols prog.
Proof.
  intros Hd H. destruct (new_ac _ _ _ _ Hd H) as (Hi & ft & Hft & Hfast). exists ft.
  split; auto. destruct (Z_lt_dec (kraft counts) 65536) as [Hk|Hk]; [exact Hk|].
  exfalso. destruct (huffman_new_err counts symbols Hd false prog) as (e & E'); [tauto|].
  unfold values_of in H. congruence.
Qed.

(** What the encoder may emit without hitting the decoder's limits *)
Definition dc_fits (dcc dcs : list Z) (pred : Z) (zz : list Z) : Prop :=
  let k := category (hd 0 zz - pred) in code_len (code_of dcc dcs) k + k <= 16.

Lemma run_blocks_ok dct act ft dcc dcs acc acs :
  dc_table dct dcc dcs -> ac_table act ft acc acs false -> fast_safe acc acs ->
  forall blocks pred b n s bs x,
  with_pred (fun p zz => baseline_block p zz /\ dc_fits dcc dcs p zz) pred blocks ->
  encode_blocks (code_of dcc dcs) (code_of acc acs) pred blocks = Some b ->
  feed n s (b ++ bs) x ->
  run_blocks dct act (length blocks) pred s = Ok (map natural blocks).
Proof.
  intros Hdt Hat Hsafe. induction blocks as [|zz blocks IH]; intros pred b n s bs x Hp He Hf;
    [reflexivity|].
  cbn [with_pred] in Hp. destruct Hp as [[[Hlen Hb] Hfits] Hp].
  cbn [encode_blocks] in He. apply cat_opt_some in He. destruct He as (b1 & b2 & E1 & E2 & ->).
  rewrite <- app_assoc in Hf.
  destruct (decode_block_ok dct act ft dcc dcs acc acs pred zz b1 n s (b2 ++ bs) x
              Hdt Hat Hsafe Hlen) as (s' & Ed & Hf' & _); [|exact E1|exact Hf|].
  - destruct zz as [|v rest]; [tauto|]. destruct Hb as (H1 & H2 & H3).
    split; [exact H1|]. split; [lia|]. split; [|exact Hfits].
    eapply Forall_impl; [|exact H3]. cbv beta. lia.
  - cbn [length run_blocks]. rewrite Ed. erewrite IH; [reflexivity|exact Hp|exact E2|exact Hf'].
Qed.

Lemma run_ops_feed rd os vs s : bytes rd -> known (snd (entropy rd)) ->
  legal_ops 0 (length (scan_bits rd)) os -> run_ops os (bst_new rd) = (Ok vs, s) ->
  feed 0 s (snd (spec_ops os (scan_bits rd))) (snd (entropy rd)).
Proof.
  intros Hb Hx Hl Hr. pose proof (feed_new rd 0 Hb Hx (or_introl eq_refl)) as Hf.
  cbn [repeat] in Hf. rewrite app_nil_r in Hf.
  destruct (run_ops_spec os 0 _ _ _ Hf Hl) as (s' & E & Hf'). rewrite Hr in E. injection E as -> ->.
  exact Hf'.
Qed.

Lemma C21_lemma dcc dcs acc acs dct act rd os vs s pred blocks b tail :
  table_def dcc dcs -> table_def acc acs ->
  huffman_new (0 :: dcc) (dcs ++ zrepeat 0 (256 - zlen dcs)) true false = Ok dct ->
  huffman_new (0 :: acc) (acs ++ zrepeat 0 (256 - zlen acs)) false false = Ok act ->
  (forall l c v, codeword acc acs l c v -> 6 <= v mod 16 -> 9 < Z.of_nat l + v mod 16) ->
  Forall byte rd ->
  (match snd (entropy rd) with AtEnd => True | AtMarker c _ => marker_from_u8 c <> None end) ->
  legal_ops 0 (length (scan_bits rd)) os -> run_ops os (bst_new rd) = (Ok vs, s) ->
  snd (spec_ops os (scan_bits rd)) = (b ++ tail)%list ->
  encode_blocks (code_of dcc dcs) (code_of acc acs) pred blocks = Some b ->
  with_pred (fun p zz => baseline_block p zz /\
     let k := category (hd 0 zz - p) in code_len (code_of dcc dcs) k + k <= 16) pred blocks ->
  run_blocks dct act (length blocks) pred s = Ok (map natural blocks).
Proof.
  intros Hd1 Hd2 E1 E2 Hsafe Hb Hx Hl Hr Hbits He Hp.
  destruct (huffman_new_ac acc acs act false Hd2 E2) as (ft & Hat).
  pose proof (run_ops_feed rd os vs s Hb Hx Hl Hr) as Hf. rewrite Hbits in Hf.
  exact (run_blocks_ok dct act ft dcc dcs acc acs (huffman_new_dc _ _ _ Hd1 E1) Hat Hsafe blocks pred b
           0 s tail _ Hp He Hf).
Qed.
