(** Reading expected bits: a layer over [Reader.v] that hides the window. *)
From Coq Require Import ZArith String List Bool Lia.
From Coq Require Import ZifyBool ZifyNat ZifyN.
From Verif Require Import Base Types Huffman Bitstream BaseFacts HeaderFacts
  SpecHuffman SpecSegments SpecBits Obs HuffmanProofs HuffmanPrefix HuffDecode BitReader Refill
  Reader.
Import ListNotations.
Local Open Scope Z_scope.
Ltac Zify.zify_post_hook ::= Z.div_mod_to_equations.

(** The next bits to be read are [bs], before a marker nothing but them; at least [n] of them
    are in the window unless the marker has been seen *)
Definition feed (n : Z) (s : bst) (bs : list bool) (x : ending) : Prop :=
  known x /\ exists u E z r, rdr s u E x /\
    (u ++ bitsb E ++ repeat false z = bs ++ r)%list /\ ((z = 0%nat /\ r = []) \/ x = AtEnd) /\
    (n <= blen u \/ b_marker s <> None).

Lemma feed_weaken n m s bs x : feed n s bs x -> m <= n -> feed m s bs x.
Proof.
  intros (Hk & u & E & z & r & H1 & H2 & H3 & H4) Hm. split; [exact Hk|].
  exists u, E, z, r. intuition lia.
Qed.

Lemma feed_new rd k : bytes rd -> known (snd (entropy rd)) ->
  (k = 0%nat \/ snd (entropy rd) = AtEnd) ->
  feed 0 (bst_new rd) (scan_bits rd ++ repeat false k) (snd (entropy rd)).
Proof.
  intros Hb Hk Hz. split; [exact Hk|]. exists [], (fst (entropy rd)), k, [].
  split; [now apply rdr_new|]. rewrite app_nil_r. split; [reflexivity|]. split; [tauto|].
  left. cbn. lia.
Qed.

(** Behind the marker everything is in the window *)
Lemma feed_all s u E x bs z r : rdr s u E x -> (u ++ bitsb E ++ repeat false z = bs ++ r)%list ->
  ((z = 0%nat /\ r = []) \/ x = AtEnd) -> b_marker s <> None -> u = bs /\ E = [] /\ z = 0%nat /\ r = [].
Proof.
  intros [_ _ _ Ha] H2 H3 Hm. destruct (b_marker s); [|congruence]. destruct Ha as (-> & c & -> & _).
  destruct H3 as [[-> ->]|]; [|discriminate]. cbn [bits_of_bytes flat_map repeat app] in H2.
  rewrite !app_nil_r in H2. auto.
Qed.

Lemma feed_refill n s bs x : feed n s bs x ->
  exists s', refill s = (Ok tt, s') /\ feed 32 s' bs x /\ same_params s s'.
Proof.
  intros (Hk & u & E & z & r & H1 & H2 & H3 & H4).
  destruct (refill_spec s u E x H1 Hk) as (s' & u' & E' & Er & Hr & Hp & (z' & Hg & Hz') & Hor).
  exists s'. split; [exact Er|]. split; [|exact Hp]. split; [exact Hk|].
  exists u', E', z, (r ++ repeat false z')%list. split; [exact Hr|]. split; [|split; [|exact Hor]].
  - rewrite app_assoc, Hg. rewrite (app_assoc bs), <- H2, <- !app_assoc.
    f_equal. f_equal. rewrite !repeat_add. f_equal. lia.
  - destruct H3 as [[-> ->]|]; [|auto]. destruct Hz' as [->|]; auto.
Qed.

(** The expected bits at the front of the window *)
Lemma feed_window n s a bs x : feed n s (a ++ bs) x -> blen a <= n ->
  exists c E z r, rdr s (a ++ c) E x /\ (c ++ bitsb E ++ repeat false z = bs ++ r)%list /\
    ((z = 0%nat /\ r = []) \/ x = AtEnd) /\ (n - blen a <= blen c \/ b_marker s <> None).
Proof.
  intros (Hk & u & E & z & r & H1 & H2 & H3 & H4) Ha.
  assert (blen a <= blen u) as Hu.
  { destruct H4 as [H4|H4]; [lia|]. destruct (feed_all _ _ _ _ _ _ _ H1 H2 H3 H4) as (-> & _).
    rewrite blen_app. pose proof (blen_nonneg bs). lia. }
  rewrite <- app_assoc in H2.
  destruct (app_split u (bitsb E ++ repeat false z) a (bs ++ r) H2) as (c & -> & Hc).
  { unfold blen in *. lia. }
  exists c, E, z, r. split; [exact H1|]. split; [auto|]. split; [exact H3|].
  rewrite blen_app in *. destruct H4; [left; lia|now right].
Qed.

Lemma feed_get n s a bs x : feed n s (a ++ bs) x -> blen a <= n ->
  exists s', get_bits (blen a) s = (Ok (val a), s') /\ feed (n - blen a) s' bs x /\
    same_params s s'.
Proof.
  intros Hf Ha. pose proof (proj1 Hf) as Hk.
  destruct (feed_window n s a bs x Hf Ha) as (c & E & z & r & Hr & Hc & Hz & Hor).
  destruct (get_bits_spec s a c E x Hr) as (s' & Eg & Hr' & Hp).
  exists s'. split; [exact Eg|]. split; [|exact Hp]. split; [exact Hk|].
  exists c, E, z, r. replace (b_marker s') with (b_marker s); [auto|]. now injection Eg as _ <-.
Qed.

Lemma feed_drop n s a bs x : feed n s (a ++ bs) x -> blen a <= n ->
  feed (n - blen a) (drop_bits (blen a) s) bs x /\ same_params s (drop_bits (blen a) s).
Proof.
  intros Hf Ha. pose proof (proj1 Hf) as Hk.
  destruct (feed_window n s a bs x Hf Ha) as (c & E & z & r & Hr & Hc & Hz & Hor).
  destruct (rdr_drop s a c E x Hr) as [Hr' Hp]. split; [|exact Hp]. split; [exact Hk|].
  exists c, E, z, r. auto.
Qed.

Lemma feed_peek n s a bs x : feed n s (a ++ bs) x -> blen a <= n -> peek_bits (blen a) s = val a.
Proof.
  intros Hf Ha. destruct (feed_window n s a bs x Hf Ha) as (c & E & z & r & Hr & _).
  eapply peek_spec. apply Hr.
Qed.

Lemma feed_aligned n s bs x : feed n s bs x -> 0 <= b_aligned s < 2 ^ 64.
Proof. intros (_ & u & E & z & r & [[H _ _] _ _ _] & _). exact H. Qed.

Lemma feed_bit n s b bs x : feed n s (b :: bs) x -> 1 <= n ->
  exists s', get_bit s = (Ok (Z.b2z b), s') /\ feed (n - 1) s' bs x /\ same_params s s'.
Proof.
  intros Hf Hn. pose proof (proj1 Hf) as Hk. change (b :: bs) with ([b] ++ bs)%list in Hf.
  destruct (feed_window n s [b] bs x Hf ltac:(cbn; lia)) as (c & E & z & r & Hr & Hc & Hz & Hor).
  destruct (get_bit_spec s b c E x Hr) as (s' & Eg & Hr' & Hp).
  exists s'. split; [exact Eg|]. split; [|exact Hp]. split; [exact Hk|].
  exists c, E, z, r. replace (b_marker s') with (b_marker s); [auto|]. now injection Eg as _ <-.
Qed.

(** The next bits are a codeword *)
Lemma feed_huff n s t counts symbols l c v bs x :
  implements t counts symbols -> codeword counts symbols l c v ->
  feed n s (bits_of l c ++ bs) x -> Z.of_nat l <= n -> 0 <= c < 2 ^ Z.of_nat l ->
  exists s', decode_huff t (zn (h_lookup t) (peek_bits 9 s)) s = (Ok v, s') /\
    feed (n - Z.of_nat l) s' bs x /\ same_params s s'.
Proof.
  intros Ht Hc Hf Hn Hr. exists (drop_bits (Z.of_nat l) s).
  pose proof (feed_drop n s (bits_of l c) bs x Hf) as Hd. rewrite blen_bits in Hd.
  split; [|apply Hd; exact Hn].
  apply (proj1 (Ht s (feed_aligned _ _ _ _ Hf)) l c v Hc).
  pose proof (feed_peek n s (bits_of l c) bs x Hf) as Hp. rewrite blen_bits in Hp.
  unfold peek_bits, shr in Hp. rewrite Hp by exact Hn. rewrite value_bits.
  now apply Z.mod_small.
Qed.

(** * Arbitrary sequences of reads *)
Lemma feed_firstn n s bs x k : feed n s bs x -> (k <= length bs)%nat -> Z.of_nat k <= n ->
  feed n s (firstn k bs ++ skipn k bs) x /\ blen (firstn k bs) = Z.of_nat k.
Proof.
  intros Hf Hk Hn. rewrite firstn_skipn. split; [exact Hf|].
  unfold blen. rewrite firstn_length. lia.
Qed.

Lemma run_op_spec o credit s bs x :
  feed (Z.of_nat credit) s bs x -> (op_need o <= credit)%nat -> (op_need o <= length bs)%nat ->
  exists s', run_op o s = (Ok (fst (spec_op o bs)), s') /\
    feed (Z.of_nat (match o with RRefill => 32 | _ => credit - op_used o end)) s'
         (snd (spec_op o bs)) x.
Proof.
  intros Hf Hc Ha. destruct o as [|n| |n|n]; cbn [run_op spec_op op_need op_used fst snd] in *.
  - destruct (feed_refill _ _ _ _ Hf) as (s' & E & Hf' & _). exists s'.
    unfold bind. rewrite E. auto.
  - destruct (feed_firstn _ _ _ _ n Hf Ha ltac:(lia)) as [Hf1 Hl].
    destruct (feed_get _ _ _ _ _ Hf1 ltac:(lia)) as (s' & E & Hf' & _). exists s'.
    rewrite Hl in *. unfold bind. rewrite E. split; [reflexivity|].
    replace (Z.of_nat (credit - n)) with (Z.of_nat credit - Z.of_nat n) by lia. exact Hf'.
  - destruct bs as [|b bs]; [cbn in Ha; lia|].
    destruct (feed_bit _ _ _ _ _ Hf ltac:(lia)) as (s' & E & Hf' & _). exists s'.
    unfold bind. rewrite E. cbn [firstn skipn]. split; [destruct b; reflexivity|].
    replace (Z.of_nat (credit - 1)) with (Z.of_nat credit - 1) by lia. exact Hf'.
  - destruct (feed_firstn _ _ _ _ n Hf Ha ltac:(lia)) as [Hf1 Hl].
    exists s. pose proof (feed_peek _ _ _ _ _ Hf1 ltac:(lia)) as E. rewrite Hl in E.
    rewrite E. split; [reflexivity|]. replace (credit - 0)%nat with credit by lia. exact Hf.
  - destruct (feed_firstn _ _ _ _ n Hf Ha ltac:(lia)) as [Hf1 Hl].
    destruct (feed_drop _ _ _ _ _ Hf1 ltac:(lia)) as [Hf' _]. rewrite Hl in Hf'.
    exists (drop_bits (Z.of_nat n) s). split; [reflexivity|].
    replace (Z.of_nat (credit - n)) with (Z.of_nat credit - Z.of_nat n) by lia. exact Hf'.
Qed.

Lemma run_ops_spec os : forall credit s bs x,
  feed (Z.of_nat credit) s bs x -> legal_ops credit (length bs) os ->
  exists s', run_ops os s = (Ok (fst (spec_ops os bs)), s') /\
    feed 0 s' (snd (spec_ops os bs)) x.
Proof.
  induction os as [|o os IH]; intros credit s bs x Hf Hl.
  - exists s. split; [reflexivity|]. eapply feed_weaken; [exact Hf|lia].
  - cbn [legal_ops] in Hl. destruct Hl as (Hc & Ha & Hl).
    destruct (run_op_spec o credit s bs x Hf Hc Ha) as (s1 & E1 & Hf1).
    assert (length (snd (spec_op o bs)) = (length bs - op_used o)%nat) as Hlen
      by (destruct o; cbn [spec_op snd op_used]; rewrite ?skipn_length; lia).
    rewrite <- Hlen in Hl.
    destruct (IH _ _ _ _ Hf1 Hl) as (s2 & E2 & Hf2).
    exists s2. cbn [run_ops spec_ops]. unfold bind at 1. rewrite E1.
    destruct (spec_op o bs) as [a bs1]. cbn [fst snd] in *.
    unfold bind. rewrite E2. destruct (spec_ops os bs1) as [b bs2]. cbn [fst snd] in *. auto.
Qed.

(** When fewer than 32 bits are left before a marker, a refill reports the marker and leaves
    the reader right behind it *)
Lemma refill_marker s u E c rest : rdr s u E (AtMarker c rest) ->
  marker_from_u8 c <> None -> blen (u ++ bitsb E) < 32 ->
  exists s', refill s = (Ok tt, s') /\ b_marker s' = marker_from_u8 c /\ b_rd s' = rest /\
    rdr s' (u ++ bitsb E) [] (AtMarker c rest) /\ same_params s s'.
Proof.
  intros Hr Hk Hl.
  destruct (refill_spec s u E _ Hr Hk) as (s' & u' & E' & Er & Hr' & Hp & (z & Hg & Hz) & Hor).
  destruct Hz as [->|]; [|discriminate]. cbn [repeat] in Hg. rewrite app_nil_r in Hg.
  exists s'. split; [exact Er|].
  assert (b_marker s' <> None) as Hn.
  { destruct Hor as [Hor|Hor]; [|exact Hor]. apply (f_equal blen) in Hg.
    rewrite blen_app in Hg. pose proof (blen_nonneg (bitsb E')). lia. }
  pose proof Hr' as [_ _ _ Ha]. destruct (b_marker s') as [m|] eqn:Em; [|congruence].
  destruct Ha as (-> & c' & Hx & Hm). injection Hx as -> ->. rewrite Hm.
  split; [reflexivity|]. split; [reflexivity|].
  cbn [bits_of_bytes flat_map] in Hg. rewrite app_nil_r in Hg. rewrite <- Hg. auto.
Qed.

(** Stuffing is undone *)
Lemma entropy_stuff data m rest : m <> 0 -> m <> 255 ->
  entropy (stuff data ++ 255 :: m :: rest) = (data, AtMarker m rest).
Proof.
  intros H0 H255. unfold entropy. induction data as [|b t IH].
  - cbn [stuff flat_map app entropy_from]. change (255 =? 255) with true. cbn iota.
    replace (m =? 255) with false by lia. now replace (m =? 0) with false by lia.
  - unfold stuff in *. cbn [flat_map]. rewrite <- app_assoc. destruct (b =? 255) eqn:E.
    + assert (b = 255) as -> by lia. cbn [app entropy_from].
      change (255 =? 255) with true. change (0 =? 255) with false. change (0 =? 0) with true.
      cbn iota. now rewrite IH.
    + cbn [app entropy_from]. rewrite E. now rewrite IH.
Qed.

(** After any reads, a refill that finds fewer than 32 bits before a marker *)
Lemma feed_marker rd os s c rest :
  bytes rd -> snd (entropy rd) = AtMarker c rest -> marker_from_u8 c <> None ->
  legal_ops 0 (length (scan_bits rd)) os ->
  run_ops os (bst_new rd) = (Ok (fst (spec_ops os (scan_bits rd))), s) ->
  (length (snd (spec_ops os (scan_bits rd))) < 32)%nat ->
  exists s', refill s = (Ok tt, s') /\ b_marker s' = marker_from_u8 c /\ b_rd s' = rest.
Proof.
  intros Hb Hx Hk Hl Hrun Hrem.
  assert (known (snd (entropy rd))) as Hkn by (now rewrite Hx).
  pose proof (feed_new rd 0 Hb Hkn (or_introl eq_refl)) as Hf. cbn [repeat] in Hf. rewrite app_nil_r in Hf.
  destruct (run_ops_spec os 0 _ _ _ Hf Hl) as (s1 & E1 & Hf1). rewrite Hrun in E1. injection E1 as <-.
  rewrite Hx in Hf1. destruct Hf1 as (_ & u & E & z & r & H1 & H2 & [[-> ->]|H3] & H4); [|discriminate].
  cbn [repeat] in H2. rewrite !app_nil_r in H2.
  destruct (refill_marker s u E c rest H1 Hk) as (s' & G1 & G2 & G3 & _).
  - rewrite H2. unfold blen. lia.
  - exists s'. auto.
Qed.

Lemma C19_reader_lemma rd os :
  Forall byte rd ->
  (match snd (entropy rd) with AtEnd => True | AtMarker c _ => marker_from_u8 c <> None end) ->
  legal_ops 0 (length (scan_bits rd)) os ->
  exists s', run_ops os (bst_new rd) = (Ok (fst (spec_ops os (scan_bits rd))), s').
Proof.
  intros Hb Hx Hl.
  pose proof (feed_new rd 0 Hb Hx (or_introl eq_refl)) as Hf. cbn [repeat] in Hf.
  rewrite app_nil_r in Hf.
  destruct (run_ops_spec os 0 _ _ _ Hf Hl) as (s' & E & _). eauto.
Qed.
Lemma C19_zeros_lemma rd k os :
  Forall byte rd -> snd (entropy rd) = AtEnd ->
  legal_ops 0 (length (scan_bits rd) + k) os ->
  exists s', run_ops os (bst_new rd)
             = (Ok (fst (spec_ops os (scan_bits rd ++ repeat false k))), s').
Proof.
  intros Hb Hx Hl.
  assert (known (snd (entropy rd))) as Hk by (now rewrite Hx).
  pose proof (feed_new rd k Hb Hk (or_intror Hx)) as Hf.
  destruct (run_ops_spec os 0 _ _ _ Hf) as (s' & E & _); [|eauto].
  rewrite app_length, repeat_length. exact Hl.
Qed.
Lemma C19_stuffing_lemma data m rest : m <> 0 -> m <> 255 ->
  scan_bits (stuff data ++ 255 :: m :: rest) = bits_of_bytes data /\
  snd (entropy (stuff data ++ 255 :: m :: rest)) = AtMarker m rest.
Proof. intros H0 H1. unfold scan_bits. rewrite entropy_stuff by auto. auto. Qed.
Lemma C20_has_byte_lemma a b c d : byte a -> byte b -> byte c -> byte d ->
  has_byte (a * 16777216 + b * 65536 + c * 256 + d) 255 = true
  <-> (a = 255 \/ b = 255 \/ c = 255 \/ d = 255).
Proof.
  unfold byte. intros. pose proof (has_byte_255 a b c d) as H3. unfold word in H3.
  replace (a * 16777216 + b * 65536 + c * 256 + d) with (((a * 256 + b) * 256 + c) * 256 + d) by ring.
  rewrite H3 by lia. lia.
Qed.
