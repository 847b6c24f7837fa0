(** Block decoding on arbitrary data: never a panic, never out of fuel. *)
From Coq Require Import ZArith String List Bool Lia.
From Coq Require Import ZifyBool ZifyNat ZifyN.
From Verif Require Import Base Types Huffman State Bitstream Headers BaseFacts HeaderFacts
  SpecHuffman SpecBits SpecSegments Obs HuffmanProofs HuffDecode TableSegments.
Import ListNotations.
Local Open Scope Z_scope.
Ltac Zify.zify_post_hook ::= Z.div_mod_to_equations.

Definition in16 (x : Z) : Prop := -32768 <= x <= 32767.
Definition blk (b : list Z) : Prop := zlen b = 64 /\ Forall in16 b.

Lemma i16_in x : in16 (i16 x).
Proof. unfold in16, i16. lia. Qed.

Lemma Forall_nupd {A} (P : A -> Prop) l n x : Forall P l -> P x -> Forall P (nupd l n x).
Proof.
  revert n. induction l as [|a l IH]; intros n Hl Hx; destruct n; cbn [nupd]; auto;
    inversion Hl; subst; constructor; auto.
Qed.
Lemma blk_zset b i x : blk b -> in16 x -> blk (zset b i x).
Proof.
  intros [H1 H2] Hx. split; [now rewrite zlen_zset|]. now apply Forall_nupd.
Qed.
Lemma blk_zn b i : blk b -> in16 (zn b i).
Proof.
  intros [_ H]. unfold zn. destruct (nth_in_or_default (Z.to_nat i) b 0) as [Hin| ->].
  - rewrite Forall_forall in H. auto.
  - unfold in16. lia.
Qed.

(** The shape of an accepted table whose symbols satisfy [P] *)
Record shape (P : Z -> Prop) (t : hufftable) : Prop := {
  sh_lookup : zlen (h_lookup t) = 512;
  sh_maxcode : zlen (h_maxcode t) = 18;
  sh_offset : zlen (h_offset t) = 18;
  sh_values : zlen (h_values t) = 256;
  sh_sym : Forall P (h_values t);
  sh_entry : Forall (fun e => shr e 9 = 10 \/ 0 <= shr e 9 <= 9 /\ P (Z.land e 511)) (h_lookup t);
  sh_ac : match h_ac_lookup t with Some f => zlen f = 512 /\ Forall in16 f | None => True end }.

(** The unread bytes after a step are the end of those before it *)
Definition suffix (a b : list Z) : Prop := exists l, b = (l ++ a)%list.
Lemma suffix_refl a : suffix a a.
Proof. now exists []. Qed.
Lemma suffix_trans a b c : suffix a b -> suffix b c -> suffix a c.
Proof. intros [l ->] [m ->]. exists (m ++ l)%list. now rewrite app_assoc. Qed.
Lemma suffix_cons x a : suffix a (x :: a).
Proof. now exists [x]. Qed.
Lemma suffix_nil a : suffix [] a.
Proof. exists a. now rewrite app_nil_r. Qed.
Lemma suffix_skipn n a : suffix (skipn n a) a.
Proof. exists (firstn n a). symmetry. apply firstn_skipn. Qed.
Lemma suffix_len a b : suffix a b -> (length a <= length b)%nat.
Proof. intros [l ->]. rewrite app_length. lia. Qed.
Lemma suffix_Forall (P : Z -> Prop) a b : suffix a b -> Forall P b -> Forall P a.
Proof. intros [l ->] H. apply Forall_app in H. tauto. Qed.
Lemma suffix_read_u8 a b rd : read_u8 a = (b, rd) -> suffix rd a.
Proof.
  destruct a as [|x a]; intros H; injection H as <- <-; [apply suffix_refl|apply suffix_cons].
Qed.
Lemma suffix_skip_ff a b rd : skip_ff a = (b, rd) -> suffix rd a.
Proof.
  induction a as [|x a IH]; cbn [skip_ff]; intros H.
  - injection H as <- <-. apply suffix_refl.
  - destruct (x =? 255).
    + eapply suffix_trans; [now apply IH|apply suffix_cons].
    + injection H as <- <-. apply suffix_cons.
Qed.

(** What every step keeps *)
Definition keep (s s' : bst) : Prop :=
  0 <= b_aligned s' < 2 ^ 64 /\ b_ah s' = b_ah s /\ b_al s' = b_al s /\ b_ss s' = b_ss s /\
  b_se s' = b_se s /\ suffix (b_rd s') (b_rd s).
Definition ok_s (s : bst) : Prop := 0 <= b_aligned s < 2 ^ 64.

Lemma u64_range x : 0 <= u64 x < 2 ^ 64.
Proof. unfold u64. change 18446744073709551616 with (2 ^ 64). apply Z.mod_pos_bound. reflexivity. Qed.

Lemma keep_refl s : ok_s s -> keep s s.
Proof. unfold keep, ok_s. pose proof (suffix_refl (b_rd s)). intuition. Qed.
Lemma keep_trans s s' s'' : keep s s' -> keep s' s'' -> keep s s''.
Proof.
  unfold keep. intros (A1 & A2 & A3 & A4 & A5 & A6) (B1 & B2 & B3 & B4 & B5 & B6).
  pose proof (suffix_trans _ _ _ B6 A6). intuition congruence.
Qed.
Lemma keep_ok s s' : keep s s' -> ok_s s'.
Proof. unfold keep, ok_s. tauto. Qed.

Lemma refill_byte_safe s : ok_s s ->
  wp refill_byte s (fun r s' => (exists b, r = Ok b) /\ keep s s' \/ (exists e, r = Err e) /\ keep s s').
Proof.
  intros Hs. unfold wp, refill_byte.
  destruct (read_u8 (b_rd s)) as [byte rd] eqn:E1. apply suffix_read_u8 in E1. destruct (byte =? 255).
  - destruct (read_u8 rd) as [n0 rd0] eqn:E2. apply suffix_read_u8 in E2.
    destruct (if n0 =? 255 then skip_ff rd0 else (n0, rd0)) as [n rd'] eqn:E3.
    assert (suffix rd' (b_rd s)) as Hsuf.
    { eapply suffix_trans; [|exact E1]. eapply suffix_trans; [|exact E2].
      destruct (n0 =? 255); [now apply suffix_skip_ff in E3|]. injection E3 as <- <-. apply suffix_refl. }
    destruct (n =? 0).
    + cbn [fst snd]. left. split; [eauto|]. repeat split; [apply Hs|apply Hs|exact Hsuf].
    + cbv zeta.
      match goal with |- context [set_bits s ?b ?a ?l rd'] => set (al := a); set (bu := b); set (le := l) end.
      assert (0 <= al < 2 ^ 64) as Hal by (unfold al; clear E3; destruct (b_left s + 8 - 8 =? 0); [exact Hs|apply u64_range]).
      destruct (marker_from_u8 n); cbn [fst snd]; [left|right]; (split; [eauto|]; repeat split; [apply Hal|apply Hal|exact Hsuf]).
  - cbn [fst snd]. left. split; [eauto|]. repeat split; [apply Hs|apply Hs|exact E1].
Qed.

Definition fine {A} (P : A -> Prop) (s : bst) (r : res A) (s' : bst) : Prop :=
  keep s s' /\ ((exists a, r = Ok a /\ P a) \/ exists e, r = Err e).

Lemma fine_bind {A B} (m : M bst A) (k : A -> M bst B) (P : A -> Prop) (Q : B -> Prop) s :
  wp m s (fine P s) ->
  (forall a s', P a -> keep s s' -> wp (k a) s' (fine Q s')) ->
  wp (bind m k) s (fine Q s).
Proof.
  unfold wp, bind. destruct (m s) as [r s']; cbn [fst snd]. intros [Hk H] Hn.
  destruct H as [(a & -> & Ha)|(e & ->)].
  - specialize (Hn a s' Ha Hk). destruct (k a s') as [r2 s2]. destruct Hn as [Hk2 H2].
    split; [eapply keep_trans; eauto|exact H2].
  - split; [exact Hk|]. right. eexists. reflexivity.
Qed.
Lemma fine_ret {A} (a : A) (P : A -> Prop) s : ok_s s -> P a -> wp (ret a) s (fine P s).
Proof. intros Hs Ha. split; [now apply keep_refl|]. left. eexists. split; [reflexivity|auto]. Qed.
Lemma fine_get {B} (k : bst -> M bst B) (Q : B -> Prop) s :
  wp (k s) s (fine Q s) -> wp (bind get k) s (fine Q s).
Proof. auto. Qed.
Lemma fine_modify {B} f (k : unit -> M bst B) (Q : B -> Prop) s : keep s (f s) ->
  wp (k tt) (f s) (fine Q (f s)) -> wp (bind (modify f) k) s (fine Q s).
Proof.
  intros Hk H. unfold wp, bind, modify in *. destruct (k tt (f s)) as [r s'].
  destruct H as [H1 H2]. split; [eapply keep_trans; eauto|exact H2].
Qed.

Lemma refill_byte_fine s : ok_s s -> wp refill_byte s (fine (fun _ => True) s).
Proof.
  intros Hs. pose proof (refill_byte_safe s Hs) as H. unfold wp in *.
  destruct (refill_byte s) as [r s']; cbn [fst snd] in *. destruct H as [[(b & ->) Hk]|[(e & ->) Hk]]; (split; [exact Hk|]); eauto.
Qed.
Lemma refill_slow_fine s : ok_s s -> wp refill_slow s (fine (fun _ => True) s).
Proof.
  intros Hs. unfold refill_slow.
  eapply fine_bind; [now apply refill_byte_fine|]. intros a s1 _ H1.
  destruct (negb a); [apply fine_ret; [eapply keep_ok; eauto|auto]|].
  eapply fine_bind; [apply refill_byte_fine; eapply keep_ok; eauto|]. intros b s2 _ H2.
  destruct (negb b); [apply fine_ret; [eapply keep_ok; eauto|auto]|].
  eapply fine_bind; [apply refill_byte_fine; eapply keep_ok; eauto|]. intros c s3 _ H3.
  destruct (negb c); [apply fine_ret; [eapply keep_ok; eauto|auto]|].
  eapply fine_bind; [apply refill_byte_fine; eapply keep_ok; eauto|]. intros d s4 _ H4.
  destruct (negb d); [apply fine_ret; [eapply keep_ok; eauto|auto]|].
  unfold wp, modify. split; [|left; eexists; split; [reflexivity|auto]]. unfold realign, keep. dsimp.
  repeat split; try apply u64_range; apply suffix_refl.
Qed.
Lemma refill_fine s : ok_s s -> wp refill s (fine (fun _ => True) s).
Proof.
  intros Hs. unfold wp, refill. destruct (b_marker s).
  - split; [|left; eexists; split; [reflexivity|auto]]. repeat split; try apply Hs; apply suffix_refl.
  - destruct (b_left s <=? 32).
    + pose proof (refill_slow_fine s Hs) as H. unfold wp in H.
      destruct (b_rd s) as [|b0 [|b1 [|b2 [|b3 [|b4 t]]]]] eqn:Er; try exact H.
      destruct (has_byte _ 255); [exact H|].
      split; [|left; eexists; split; [reflexivity|auto]]. unfold refill_fast, keep. dsimp. repeat split; try apply u64_range. cbn [snd b_rd set_bits]. rewrite Er. now exists [b0; b1; b2; b3].
    + split; [now apply keep_refl|]. left; eexists; split; [reflexivity|auto].
Qed.

Lemma drop_keep n s : ok_s s -> keep s (drop_bits n s).
Proof. intros Hs. unfold drop_bits, keep. dsimp. repeat split; try apply u64_range; apply suffix_refl. Qed.
Lemma rotl_range a n : 0 <= n -> 0 <= a < 2 ^ 64 -> n <= 64 -> 0 <= rotl64 a n < 2 ^ 64.
Proof.
  intros Hn Ha H64. unfold rotl64.
  pose proof (u64_range (shl a n)) as H1.
  assert (0 <= shr a (64 - n) < 2 ^ 64) as H2.
  { unfold shr. assert (0 < 2 ^ (64 - n)) by (apply pow2_pos; lia). split; [apply Z.div_pos; lia|].
    apply Z.le_lt_trans with a; [|lia]. apply Z.div_le_upper_bound; nia. }
  split; [apply Z.lor_nonneg; lia|].
  destruct (Z.eq_dec (Z.lor (u64 (shl a n)) (shr a (64 - n))) 0) as [->|Hnz]; [lia|].
  assert (0 <= Z.lor (u64 (shl a n)) (shr a (64 - n))) by (apply Z.lor_nonneg; lia).
  apply Z.log2_lt_pow2; [lia|]. rewrite Z.log2_lor by lia.
  assert (forall y, 0 <= y < 2 ^ 64 -> Z.log2 y < 64) as Hlog.
  { intros y Hy. destruct (Z.eq_dec y 0) as [->|]; [cbn; lia|]. apply Z.log2_lt_pow2; lia. }
  pose proof (Hlog _ H1). pose proof (Hlog _ H2). lia.
Qed.
Lemma get_bits_fine n s : ok_s s -> 0 <= n <= 64 -> wp (get_bits n) s (fine (fun v => 0 <= v) s).
Proof.
  intros Hs Hn. unfold wp, get_bits. split.
  - unfold keep. dsimp. repeat split; try apply suffix_refl; apply rotl_range; try apply Hs; lia.
  - left. eexists. split; [reflexivity|]. apply Z.land_nonneg. right.
    assert (0 < 2 ^ n) by (apply pow2_pos; lia). lia.
Qed.
Lemma get_bit_fine s : ok_s s -> wp get_bit s (fine (fun v => True) s).
Proof.
  intros Hs. unfold wp, get_bit. split; [now apply drop_keep|]. left. eexists. split; [reflexivity|auto].
Qed.
Lemma shr_nonneg x n : 0 <= x -> 0 <= shr x n.
Proof.
  intros. unfold shr. destruct (Z_lt_dec n 0).
  - rewrite Z.pow_neg_r by lia. rewrite Zdiv_0_r. lia.
  - apply Z.div_pos; [lia|]. apply pow2_pos. lia.
Qed.

Lemma Forall_zn (P : Z -> Prop) l i : Forall P l -> 0 <= i < zlen l -> P (zn l i).
Proof.
  intros H Hi. rewrite Forall_forall in H. apply H. unfold zn. apply nth_In. unfold zlen in Hi. lia.
Qed.
Lemma peek_range n s : ok_s s -> 0 <= n <= 64 -> 0 <= peek_bits n s < 2 ^ n.
Proof.
  intros Hs Hn. unfold peek_bits, shr, ok_s in *.
  assert (0 < 2 ^ (64 - n)) by (apply pow2_pos; lia).
  split; [apply Z.div_pos; lia|]. apply Z.div_lt_upper_bound; [lia|].
  rewrite <- Z.pow_add_r by lia. replace (64 - n + n) with 64 by lia. lia.
Qed.
Lemma huff_len_ge n : forall w mc len, len <= huff_len n w mc len <= len + Z.of_nat n.
Proof.
  induction n as [|n IH]; intros w mc len; cbn [huff_len]; [lia|].
  destruct (w <? zn mc len); [lia|]. specialize (IH w mc (len + 1)). lia.
Qed.

Lemma decode_huff_fine P t s : shape P t -> ok_s s ->
  wp (decode_huff t (zn (h_lookup t) (peek_bits 9 s))) s (fine P s).
Proof.
  intros Ht Hs. unfold wp, decode_huff. pose proof (peek_range 9 s Hs ltac:(lia)) as Hp.
  change (2 ^ 9) with 512 in Hp.
  pose proof (Forall_zn _ _ (peek_bits 9 s) (sh_entry _ _ Ht) ltac:(rewrite (sh_lookup _ _ Ht); lia)) as He.
  cbv beta in He. set (e := zn (h_lookup t) (peek_bits 9 s)) in *. unfold HUFF_LOOKAHEAD.
  destruct (9 <? shr e 9) eqn:E9.
  - destruct (_ =? 17) eqn:E17.
    + split; [now apply keep_refl|]. right. eexists. reflexivity.
    + split; [now apply drop_keep|]. left. eexists. split; [reflexivity|].
      apply Forall_zn; [apply (sh_sym _ _ Ht)|]. rewrite (sh_values _ _ Ht).
      change 255 with (2 ^ 8 - 1). rewrite land_ones_mod by lia. change (2 ^ 8) with 256. lia.
  - split; [now apply drop_keep|]. left. eexists. split; [reflexivity|].
    destruct He as [He|[_ He]]; [lia|exact He].
Qed.

Lemma refill_if_fine (b : bool) s : ok_s s -> wp (if b then refill else ret tt) s (fine (fun _ => True) s).
Proof. intros Hs. destruct b; [now apply refill_fine|now apply fine_ret]. Qed.

Lemma fine_weaken {A} (P Q : A -> Prop) (m : M bst A) s :
  wp m s (fine P s) -> (forall a, P a -> Q a) -> wp m s (fine Q s).
Proof.
  unfold wp. destruct (m s) as [r s']; cbn [fst snd]. intros [Hk H] HPQ. split; [exact Hk|].
  destruct H as [(a & -> & Ha)|H]; [left; eexists; split; [reflexivity|auto]|right; exact H].
Qed.

Ltac kok := first [assumption | eapply keep_ok; eassumption].
Definition sym_dc (v : Z) : Prop := 0 <= v <= 15.
Definition sym_ac (v : Z) : Prop := 0 <= v <= 255.

Lemma decode_dc_fine t dc s : shape sym_dc t -> ok_s s ->
  wp (decode_dc t dc) s (fine (fun _ => True) s).
Proof.
  intros Ht Hs. unfold decode_dc. apply fine_get. cbv beta zeta.
  eapply fine_bind; [apply refill_if_fine; kok|]. intros _ s2 _ H2. apply fine_get. cbv beta zeta.
  eapply fine_bind; [apply (decode_huff_fine sym_dc); [exact Ht|kok]|]. intros sym s3 Hsym H3.
  eapply fine_bind with (P := fun _ => True).
  { destruct (sym =? 0); [apply fine_ret; [kok|auto]|]. unfold sym_dc in Hsym.
    eapply fine_bind; [apply get_bits_fine; [kok|lia]|]. intros r s4 _ H4. apply fine_ret; [kok|auto]. }
  intros d s4 _ H4. apply fine_ret; [kok|auto].
Qed.

Lemma shr4 v : sym_ac v -> 0 <= shr v 4 <= 15.
Proof. unfold sym_ac, shr. change (2 ^ 4) with 16. lia. Qed.
Lemma and15 v : 0 <= Z.land v 15 <= 15.
Proof. change 15 with (2 ^ 4 - 1) at 1 2. rewrite land_ones_mod by lia. change (2 ^ 4) with 16. lia. Qed.
Lemma and63 v : 0 <= Z.land v 63 <= 63.
Proof. change 63 with (2 ^ 6 - 1) at 1 2. rewrite land_ones_mod by lia. change (2 ^ 6) with 64. lia. Qed.
Lemma shr10 v : in16 v -> in16 (shr v 10).
Proof. unfold in16, shr. change (2 ^ 10) with 1024. lia. Qed.
Lemma ft_in16 t ft i : shape sym_ac t -> h_ac_lookup t = Some ft -> in16 (zn ft i).
Proof.
  intros Ht E. pose proof (sh_ac _ _ Ht) as H. rewrite E in H. destruct H as [_ H].
  unfold zn. destruct (nth_in_or_default (Z.to_nat i) ft 0) as [Hin| ->].
  - rewrite Forall_forall in H. auto.
  - unfold in16. lia.
Qed.

Lemma decode_ac_fine t ft : shape sym_ac t -> h_ac_lookup t = Some ft ->
  forall fuel pos block s, 64 - pos <= Z.of_nat fuel -> blk block -> ok_s s ->
  wp (decode_ac fuel t ft pos block) s (fine blk s).
Proof.
  intros Ht Eft. induction fuel as [|fuel IH]; intros pos block s Hfuel Hb Hs; cbn [decode_ac].
  - replace (64 <=? pos) with true by lia. now apply fine_ret.
  - destruct (64 <=? pos); [now apply fine_ret|].
    eapply fine_bind; [now apply refill_fine|]. intros _ s1 _ H1. apply fine_get. cbv beta zeta.
    unfold HUFF_LOOKAHEAD. set (fac := zn ft (peek_bits 9 s1)).
    assert (in16 fac) as Hfac by (eapply ft_in16; eauto).
    destruct (negb (fac =? 0)).
    + apply fine_modify; [apply drop_keep; kok|].
      pose proof (and63 (shr fac 4)).
      apply IH; [lia| |eapply keep_ok, drop_keep; kok].
      apply blk_zset; [exact Hb|now apply shr10].
    + eapply fine_bind; [apply (decode_huff_fine sym_ac); [exact Ht|kok]|]. intros sym s2 Hsym H2.
      pose proof (shr4 sym Hsym). pose proof (and15 sym).
      destruct (negb (Z.land sym 15 =? 0)).
      * eapply fine_bind; [apply get_bits_fine; [kok|lia]|]. intros r s3 _ H3.
        apply IH; [lia| |kok]. apply blk_zset; [exact Hb|apply i16_in].
      * destruct (negb (shr sym 4 =? 15)); [apply fine_ret; [kok|exact Hb]|].
        apply IH; [lia|exact Hb|kok].
Qed.

Lemma decode_mcu_block_fine dct act block dc s :
  shape sym_dc dct -> shape sym_ac act -> h_ac_lookup act <> None -> blk block -> ok_s s ->
  let '(r, s', _) := decode_mcu_block dct act block dc s in fine blk s r s'.
Proof.
  intros Hd Ha Hac Hb Hs. unfold decode_mcu_block.
  destruct (h_ac_lookup act) as [ft|] eqn:Eft; [|congruence].
  pose proof (decode_dc_fine dct dc s Hd Hs) as H. unfold wp in H.
  destruct (decode_dc dct dc s) as [r s1]. cbn [fst snd] in H. destruct H as [Hk H].
  destruct H as [(dc' & -> & _)|(e & ->)].
  - pose proof (decode_ac_fine act ft Ha Eft 64%nat 1 (zset block 0 (i16 dc')) s1 ltac:(lia)) as H.
    specialize (H (blk_zset _ _ _ Hb (i16_in _)) (keep_ok _ _ Hk)). unfold wp in H.
    destruct (decode_ac 64 act ft 1 (zset block 0 (i16 dc')) s1) as [r s2]. cbn [fst snd] in H.
    destruct H as [Hk2 H]. split; [eapply keep_trans; eauto|exact H].
  - split; [exact Hk|]. right. eexists. reflexivity.
Qed.

(** * Progressive block decoders *)
Lemma prog_dc_first_fine t dc s : shape sym_dc t -> ok_s s ->
  wp (decode_prog_dc_first t dc) s (fine (fun p => in16 (fst p)) s).
Proof.
  intros Ht Hs. unfold decode_prog_dc_first.
  eapply fine_bind; [now apply decode_dc_fine|]. intros d s1 _ H1. apply fine_get. cbv beta zeta.
  apply fine_ret; [kok|]. apply i16_in.
Qed.
Lemma prog_dc_refine_fine c s : ok_s s -> in16 c ->
  wp (decode_prog_dc_refine c) s (fine in16 s).
Proof.
  intros Hs Hc. unfold decode_prog_dc_refine. apply fine_get. cbv beta zeta.
  eapply fine_bind; [now apply refill_if_fine|]. intros _ s1 _ H1.
  eapply fine_bind; [apply get_bit_fine; kok|]. intros b s2 _ H2. apply fine_get. cbv beta zeta.
  apply fine_ret; [kok|]. destruct (b =? 1); [apply i16_in|exact Hc].
Qed.

Definition band (s : bst) : Prop := b_se s <= 63.
Lemma band_keep s s' : band s -> keep s s' -> band s'.
Proof. unfold band, keep. intuition lia. Qed.

Lemma ac_first_fine t ft : shape sym_ac t -> h_ac_lookup t = Some ft ->
  forall fuel shift k block s, 64 - k < Z.of_nat fuel -> (1 <= fuel)%nat -> blk block -> ok_s s -> band s ->
  wp (ac_first_loop fuel t ft shift k block) s (fine blk s).
Proof.
  intros Ht Eft. induction fuel as [|fuel IH]; intros shift k block s Hfuel Hf1 Hb Hs Hband; [lia|].
  cbn [ac_first_loop].
  eapply fine_bind; [now apply refill_fine|]. intros _ s1 _ H1. apply fine_get. cbv beta zeta.
  unfold HUFF_LOOKAHEAD. set (fac := zn ft (peek_bits 9 s1)).
  pose proof (band_keep _ _ Hband H1) as Hb1.
  destruct (negb (fac =? 0)).
  - apply fine_modify; [apply drop_keep; kok|]. apply fine_get. cbv beta zeta.
    pose proof (and63 (shr fac 4)).
    assert (keep s1 (drop_bits (Z.land fac 15) s1)) as H2 by (apply drop_keep; kok).
    pose proof (band_keep _ _ Hb1 H2) as Hb2. unfold band in Hb2.
    destruct (_ <? _) eqn:E.
    + apply fine_ret; [kok|]. apply blk_zset; [exact Hb|apply i16_in].
    + apply IH; try lia; [|kok|exact Hb2]. apply blk_zset; [exact Hb|apply i16_in].
  - eapply fine_bind; [apply (decode_huff_fine sym_ac); [exact Ht|kok]|]. intros sym s2 Hsym H2.
    pose proof (shr4 sym Hsym). pose proof (and15 sym).
    pose proof (band_keep _ _ Hb1 H2) as Hb2.
    destruct (negb (Z.land sym 15 =? 0)).
    + eapply fine_bind; [apply get_bits_fine; [kok|lia]|]. intros r s3 _ H3. apply fine_get. cbv beta zeta.
      pose proof (band_keep _ _ Hb2 H3) as Hb3. unfold band in Hb3.
      destruct (_ <? _) eqn:E.
      * apply fine_ret; [kok|]. apply blk_zset; [exact Hb|apply i16_in].
      * apply IH; try lia; [|kok|exact Hb3]. apply blk_zset; [exact Hb|apply i16_in].
    + destruct (negb (shr sym 4 =? 15)).
      * eapply fine_bind; [apply get_bits_fine; [kok|lia]|]. intros r s3 _ H3.
        apply fine_modify; [apply keep_ok in H3; repeat split; try apply H3; apply suffix_refl|].
        apply fine_ret; [apply keep_ok in H3; exact H3|exact Hb].
      * apply fine_get. unfold band in Hb2. destruct (_ <? _) eqn:E.
        -- apply fine_ret; [kok|exact Hb].
        -- apply IH; try lia; [exact Hb|kok|exact Hb2].
Qed.

Lemma decode_mcu_ac_first_fine t block s : shape sym_ac t -> h_ac_lookup t <> None ->
  blk block -> ok_s s -> band s -> 0 <= b_ss s ->
  wp (decode_mcu_ac_first t block) s (fine blk s).
Proof.
  intros Ht Hac Hb Hs Hband Hss. unfold decode_mcu_ac_first.
  destruct (h_ac_lookup t) as [ft|] eqn:Eft; [|congruence]. apply fine_get. cbv beta zeta.
  apply ac_first_fine; auto; lia.
Qed.

Lemma correct_in c bit : in16 c -> in16 (correct c bit).
Proof.
  intros H. unfold correct. destruct (_ =? 0); [|exact H]. destruct (0 <=? c); apply i16_in.
Qed.

Lemma advance_fine bit : forall fuel k r block s, 64 - k <= Z.of_nat fuel -> blk block -> ok_s s ->
  band s -> wp (advance_nonzero fuel bit k r block) s (fine (fun p => k <= fst p /\ blk (snd p)) s).
Proof.
  induction fuel as [|fuel IH]; intros k r block s Hfuel Hb Hs Hband; cbn [advance_nonzero]; apply fine_get;
    unfold band in Hband.
  - replace (b_se s <? k) with true by lia. apply fine_ret; [exact Hs|]. cbn [fst snd]. split; [lia|exact Hb].
  - destruct (b_se s <? k); [apply fine_ret; [exact Hs|]; cbn [fst snd]; split; [lia|exact Hb]|].
    destruct (negb _).
    + eapply fine_bind; [now apply get_bit_fine|]. intros b s1 _ H1. cbv zeta. apply fine_get. cbv beta zeta.
      eapply fine_bind; [apply refill_if_fine; kok|]. intros _ s2 _ H2.
      eapply fine_weaken; [apply IH; [lia| |kok|]|].
      * destruct (b =? 1); [|exact Hb]. apply blk_zset; [exact Hb|]. apply correct_in. now apply blk_zn.
      * eapply band_keep; [|exact H2]. eapply band_keep; [|exact H1]. exact Hband.
      * cbv beta. intros a [Ha1 Ha2]. split; [lia|exact Ha2].
    + destruct (r - 1 <? 0); [apply fine_ret; [exact Hs|]; cbn [fst snd]; split; [lia|exact Hb]|].
      eapply fine_weaken; [apply IH; [lia|exact Hb|exact Hs|exact Hband]|].
      cbv beta. intros a [Ha1 Ha2]. split; [lia|exact Ha2].
Qed.

Lemma refine_no_eob_fine t bit : shape sym_ac t -> forall fuel k block s,
  64 - k < Z.of_nat fuel -> (1 <= fuel)%nat -> 0 <= k -> blk block -> ok_s s -> band s ->
  wp (refine_no_eob fuel t bit k block) s (fine (fun p => 0 <= fst p /\ blk (snd p)) s).
Proof.
  intros Ht. induction fuel as [|fuel IH]; intros k block s Hfuel Hf1 Hk0 Hb Hs Hband; [lia|].
  cbn [refine_no_eob].
  eapply fine_bind; [now apply refill_fine|]. intros _ s1 _ H1. apply fine_get. cbv beta zeta.
  eapply fine_bind; [apply (decode_huff_fine sym_ac); [exact Ht|kok]|]. intros sym s2 Hsym H2. cbv zeta.
  pose proof (shr4 sym Hsym). pose proof (and15 sym).
  pose proof (band_keep _ _ (band_keep _ _ Hband H1) H2) as Hb2.
  destruct (_ && _).
  - eapply fine_bind; [apply get_bits_fine; [kok|lia]|]. intros r s3 _ H3.
    apply fine_modify; [apply keep_ok in H3; repeat split; try apply H3; apply suffix_refl|].
    apply fine_ret; [apply keep_ok in H3; exact H3|]. cbn [fst snd]. split; [lia|exact Hb].
  - destruct (_ && _).
    + unfold wp, fail. split; [apply keep_refl; kok|]. right. eexists. reflexivity.
    + eapply fine_bind with (P := fun _ => True).
      { destruct (_ =? 0); [apply fine_ret; [kok|auto]|].
        eapply fine_bind; [apply get_bit_fine; kok|]. intros b s3 _ H3. apply fine_ret; [kok|auto]. }
      intros v s3 _ H3. pose proof (band_keep _ _ Hb2 H3) as Hb3.
      eapply fine_bind; [apply advance_fine; [lia|exact Hb|kok|exact Hb3]|].
      intros [k' block'] s4 [Hk' Hb'] H4. cbn [fst snd] in *. apply fine_get. cbv beta zeta.
      pose proof (band_keep _ _ Hb3 H4) as Hb4.
      assert (blk (if v =? 0 then block' else zset block' (Z.land (unzig (Z.land k' 63)) 63) (i16 v))) as Hbb.
      { destruct (v =? 0); [exact Hb'|]. apply blk_zset; [exact Hb'|apply i16_in]. }
      unfold band in Hb4. destruct (_ <? _) eqn:E.
      * apply fine_ret; [kok|]. cbn [fst snd]. split; [lia|exact Hbb].
      * apply IH; try lia; [exact Hbb|kok|exact Hb4].
Qed.

Lemma refine_eob_fine bit : forall fuel k block s, 64 - k <= Z.of_nat fuel -> blk block -> ok_s s ->
  band s -> wp (refine_eob fuel bit k block) s (fine blk s).
Proof.
  induction fuel as [|fuel IH]; intros k block s Hfuel Hb Hs Hband; cbn [refine_eob]; apply fine_get;
    unfold band in Hband.
  - replace (b_se s <? k) with true by lia. now apply fine_ret.
  - destruct (b_se s <? k); [now apply fine_ret|].
    eapply fine_bind with (P := blk).
    { destruct (_ =? 0); [now apply fine_ret|].
      eapply fine_bind; [now apply get_bit_fine|]. intros b s1 _ H1. apply fine_ret; [kok|].
      destruct (b =? 1); [|exact Hb]. apply blk_zset; [exact Hb|]. apply correct_in. now apply blk_zn. }
    intros b' s1 Hb' H1. apply fine_get. cbv beta zeta.
    eapply fine_bind; [apply refill_if_fine; kok|]. intros _ s2 _ H2.
    apply IH; [lia|exact Hb'|kok|]. eapply band_keep; [|exact H2]. eapply band_keep; [|exact H1]. exact Hband.
Qed.

Lemma decode_mcu_ac_refine_fine t block s : shape sym_ac t -> blk block -> ok_s s -> band s ->
  0 <= b_ss s -> wp (decode_mcu_ac_refine t block) s (fine blk s).
Proof.
  intros Ht Hb Hs Hband Hss. unfold decode_mcu_ac_refine. apply fine_get. cbv beta zeta.
  eapply fine_bind with (P := fun p => 0 <= fst p /\ blk (snd p)).
  { destruct (_ =? 0); [apply refine_no_eob_fine; auto; lia|]. apply fine_ret; [exact Hs|]. auto. }
  intros [k block1] s1 [Hk Hb1] H1. cbn [fst snd] in *. apply fine_get. cbv beta zeta.
  destruct (0 <? b_eob s1); [|apply fine_ret; [kok|exact Hb1]].
  eapply fine_bind with (P := blk).
  { destruct (existsb _ _); [|apply fine_ret; [kok|exact Hb1]].
    eapply fine_bind; [apply refill_fine; kok|]. intros _ s2 _ H2.
    apply refine_eob_fine; [lia|exact Hb1|kok|]. eapply band_keep; [|exact H2].
    eapply band_keep; [|exact H1]. exact Hband. }
  intros block2 s2 Hb2 H2. apply fine_modify; [apply keep_ok in H2; repeat split; try apply H2; apply suffix_refl|].
  apply fine_ret; [apply keep_ok in H2; exact H2|exact Hb2].
Qed.

(** * Accepted tables have the shape *)
Lemma fill_Forall (P : Z -> Prop) n : forall l st v t, fill n l st v = Ok t -> Forall P l -> P v ->
  Forall P t /\ zlen t = zlen l.
Proof.
  induction n as [|n IH]; intros l st v t H Hl Hv; cbn [fill] in H.
  - injection H as <-. auto.
  - unfold zupd in H. destruct ((st <? 0) || (zlen l <=? st)); [discriminate|].
    apply IH in H; [|now apply Forall_nupd|exact Hv]. destruct H as [H1 H2]. split; [exact H1|].
    rewrite H2. unfold zlen. now rewrite nupd_length.
Qed.
Lemma fill_lookup_Forall (P : Z -> Prop) : forall sizes codes values lk t,
  fill_lookup sizes codes values lk = Ok t -> Forall P lk ->
  (forall s v, In s sizes -> In v values -> s <= 9 -> P (lk_entry s v)) ->
  Forall P t /\ zlen t = zlen lk.
Proof.
  induction sizes as [|s ss IH]; intros codes values lk t H Hl HP; cbn [fill_lookup] in H;
    [injection H as <-; auto|].
  destruct codes as [|c cs]; [injection H as <-; auto|].
  destruct values as [|v vs]; [injection H as <-; auto|].
  unfold HUFF_LOOKAHEAD in H. destruct (9 <? s) eqn:E9; [injection H as <-; auto|].
  destruct (fill _ lk _ _) as [l'| | |] eqn:Ef; try discriminate.
  apply (fill_Forall P) in Ef; [|exact Hl|apply HP; [now left|now left|lia]]. destruct Ef as [E1 E2].
  apply IH in H; [|exact E1|]; [destruct H; split; [assumption|lia]|].
  intros s' v' Hs' Hv' H9. apply HP; [now right|now right|exact H9].
Qed.
Lemma fill_fast_len : forall sizes codes k f t, fill_fast sizes codes k f = Ok t -> zlen t = zlen f.
Proof.
  induction sizes as [|s ss IH]; intros codes k f t H; cbn [fill_fast] in H; [injection H as <-; auto|].
  destruct codes as [|c cs]; [injection H as <-; auto|].
  destruct (s <=? HUFF_LOOKAHEAD); [|eauto].
  destruct (fill _ f _ _) as [l'| | |] eqn:Ef; try discriminate.
  apply IH in H. apply (fill_Forall (fun _ => True)) in Ef; [|apply Forall_forall; auto|auto]. lia.
Qed.
Lemma gen_codes_len : forall n sizes si code mc cs mc',
  gen_codes n sizes si code mc = Ok (cs, mc') -> zlen mc' = zlen mc.
Proof.
  induction n as [|n IH]; intros sizes si code mc cs mc' H; cbn [gen_codes] in H.
  - destruct sizes; [|discriminate]. now injection H as <- <-.
  - destruct sizes as [|s0 sizes]; [now injection H as <- <-|].
    destruct (code_run (s0 :: sizes) si code) as [[cs0 rest] code'].
    destruct (2 ^ si <=? code'); [discriminate|].
    destruct (gen_codes n rest (si + 1) (code' * 2) _) as [[cs1 m]| | |] eqn:E; try discriminate.
    injection H as <- <-. apply IH in E. now rewrite zlen_zset in E.
Qed.
Lemma fill_offsets_len bits codes mc m o : fill_offsets bits codes mc = (m, o) ->
  zlen m = zlen mc /\ zlen o = 18.
Proof.
  unfold fill_offsets.
  assert (forall ls m0 o0 p0 m1 o1 p1,
    fold_left (offset_step bits codes) ls (m0, o0, p0) = (m1, o1, p1) -> zlen m1 = zlen m0 /\ zlen o1 = zlen o0) as H.
  { induction ls as [|l ls IH]; intros m0 o0 p0 m1 o1 p1 H; cbn [fold_left] in H.
    - injection H as <- <- <-. auto.
    - destruct (offset_step bits codes (m0, o0, p0) l) as [[m2 o2] p2] eqn:E. apply IH in H.
      unfold offset_step in E. destruct (zn bits l =? 0); injection E as <- <- <-;
        rewrite ?zlen_zset in H; exact H. }
  destruct (fold_left _ _ _) as [[m1 o1] p1] eqn:E. apply H in E. intros E2. injection E2 as <- <-.
  rewrite !zlen_zset. rewrite zlen_repeat in E. destruct E. split; [assumption|lia].
Qed.
Lemma zip_length {A B} : forall (l : list A) (m : list B), length l = length m -> length (zip l m) = length l.
Proof. induction l; intros [|b m] H; cbn [zip length] in *; try lia. rewrite IHl; lia. Qed.

Lemma lk_sym s v : 0 <= s -> 0 <= v <= 255 -> Z.land (lk_entry s v) 511 = v.
Proof.
  intros Hs Hv. unfold lk_entry. change 511 with (2 ^ 9 - 1). rewrite land_ones_mod by lia.
  change (Z.lor (shl s 9) v) with (lk_entry s v). rewrite lk_entry_val by lia. change (2 ^ 9) with 512. lia.
Qed.

Lemma in_huff_sizes bits s : In s (huff_sizes bits) -> 1 <= s <= 16.
Proof.
  unfold huff_sizes. rewrite in_flat_map. intros (l & Hl & Hs).
  apply in_map_iff in Hl. destruct Hl as (i & <- & Hi). apply zseq_in in Hi.
  unfold zrepeat in Hs. apply repeat_spec in Hs. lia.
Qed.

(** Any table the constructor returns, built from at most 256 symbol bytes padded with zeros *)
Lemma huffman_new_shape bits values is_dc prog t (P : Z -> Prop) :
  huffman_new bits values is_dc prog = Ok t -> zlen values = 256 -> Forall sym_ac values -> Forall P values ->
  shape P t /\ (h_ac_lookup t = None <-> is_dc = true).
Proof.
  unfold huffman_new. intros H Hlen Hsym HP.
  destruct (256 <? zlen (huff_sizes bits)); [discriminate|].
  destruct (gen_codes _ _ _ _ _) as [[codes mc0]| | |] eqn:Eg; try discriminate.
  apply gen_codes_len in Eg. rewrite zlen_repeat in Eg.
  destruct (fill_offsets bits codes mc0) as [mc off] eqn:Eo. apply fill_offsets_len in Eo.
  destruct (fill_lookup _ _ _ _) as [lk| | |] eqn:El; try discriminate.
  apply (fill_lookup_Forall (fun e => shr e 9 = 10 \/ 0 <= shr e 9 <= 9 /\ P (Z.land e 511))) in El.
  2:{ apply Forall_forall. intros x Hx. unfold zrepeat in Hx. apply repeat_spec in Hx. subst x. left. reflexivity. }
  2:{ intros s v Hs Hv H9. right. apply in_huff_sizes in Hs. rewrite Forall_forall in Hsym, HP.
      pose proof (Hsym v Hv) as Hv'. unfold sym_ac in Hv'. split.
      - rewrite lk_entry_val by lia. unfold shr. change (2 ^ 9) with 512. lia.
      - rewrite lk_sym by lia. auto. }
  destruct El as [El1 El2]. rewrite zlen_repeat in El2.
  destruct is_dc.
  - destruct (existsb _ _); [discriminate|]. injection H as <-. split; [|cbn; tauto].
    split; cbn [h_lookup h_maxcode h_offset h_values h_ac_lookup]; auto; lia.
  - destruct (fill_fast _ _ _ _) as [fast| | |] eqn:Ef; try discriminate. apply fill_fast_len in Ef.
    rewrite zlen_repeat in Ef. injection H as <-. split; [|cbn; split; discriminate].
    split; cbn [h_lookup h_maxcode h_offset h_values h_ac_lookup]; auto; try lia.
    unfold fast_ac_table. split.
    + rewrite zlen_map. unfold zlen. rewrite zip_length.
      * change (Z.of_nat (length (zseq 512))) with (zlen (zseq 512)). rewrite zlen_zseq. lia.
      * pose proof (zlen_zseq 512). unfold zlen in *. lia.
    + apply Forall_forall. intros x Hx. apply in_map_iff in Hx. destruct Hx as ([i f] & <- & _).
      unfold fast_ac_entry.
      repeat match goal with |- context [if ?b then _ else _] => destruct b end;
        first [apply i16_in|unfold in16; lia].
Qed.

Lemma huffman_new_dc_shape bits symbols prog t :
  zlen symbols = zlen (huff_sizes bits) -> Forall sym_ac symbols ->
  huffman_new bits (values_of symbols) true prog = Ok t -> shape sym_dc t.
Proof.
  intros Hlen Hs H.
  assert (zlen symbols <= 256 /\ Forall sym_dc symbols) as [H256 Hdc].
  { unfold huffman_new in H. destruct (256 <? zlen (huff_sizes bits)) eqn:E; [discriminate|].
    split; [lia|].
    destruct (gen_codes _ _ _ _ _) as [[codes mc0]| | |]; try discriminate.
    destruct (fill_offsets bits codes mc0) as [mc off].
    destruct (fill_lookup _ _ _ _) as [lk| | |]; try discriminate.
    destruct (existsb _ _) eqn:Ex; [discriminate|].
    unfold values_of in Ex. rewrite firstn_app in Ex.
    replace (length (huff_sizes bits)) with (length symbols) in Ex by (unfold zlen in Hlen; lia).
    rewrite firstn_all in Ex. rewrite existsb_app in Ex. apply orb_false_iff in Ex. destruct Ex as [Ex _].
    rewrite Forall_forall in *. intros v Hv. specialize (Hs v Hv). unfold sym_dc, sym_ac in *.
    destruct (Z_le_dec v 15); [lia|]. exfalso. assert (existsb (fun v => 15 <? v) symbols = true); [|congruence].
    apply existsb_exists. exists v. split; [exact Hv|lia]. }
  eapply huffman_new_shape in H; [apply H| | |].
  - unfold values_of. rewrite zlen_app, zlen_repeat. lia.
  - unfold values_of. apply Forall_app. split; [exact Hs|]. apply Forall_forall. intros x Hx.
    unfold zrepeat in Hx. apply repeat_spec in Hx. subst x. unfold sym_ac. lia.
  - unfold values_of. apply Forall_app. split; [exact Hdc|]. apply Forall_forall. intros x Hx.
    unfold zrepeat in Hx. apply repeat_spec in Hx. subst x. unfold sym_dc. lia.
Qed.
Lemma huffman_new_ac_shape bits symbols prog t :
  zlen symbols <= 256 -> Forall sym_ac symbols ->
  huffman_new bits (values_of symbols) false prog = Ok t -> shape sym_ac t /\ h_ac_lookup t <> None.
Proof.
  intros Hlen Hs H.
  assert (Forall sym_ac (values_of symbols)) as Hv.
  { unfold values_of. apply Forall_app. split; [exact Hs|]. apply Forall_forall. intros x Hx.
    unfold zrepeat in Hx. apply repeat_spec in Hx. subst x. unfold sym_ac. lia. }
  eapply huffman_new_shape in H; [|unfold values_of; rewrite zlen_app, zlen_repeat; lia|exact Hv|exact Hv].
  destruct H as [H1 H2]. split; [exact H1|]. intros E. apply H2 in E. discriminate.
Qed.

(** * The statements of C22 *)
Lemma fine_decoded {A} (P : A -> Prop) s (r : res A) s' : fine P s r s' -> decoded P r.
Proof. intros [_ [(a & -> & H)|(e & ->)]]; [exact H|exact I]. Qed.
Lemma blk_block64 b : blk b <-> block64 b.
Proof. unfold blk, block64, in16, zlen. split; intros [H1 H2]; (split; [lia|exact H2]). Qed.

Lemma C22_baseline_lemma dbits dsyms abits asyms p p' dct act block dc s :
  zlen dsyms = zlen (huff_sizes dbits) -> Forall byte dsyms ->
  zlen asyms <= 256 -> Forall byte asyms ->
  huffman_new dbits (dsyms ++ zrepeat 0 (256 - zlen dsyms)) true p = Ok dct -> 
  huffman_new abits (asyms ++ zrepeat 0 (256 - zlen asyms)) false p' = Ok act ->
  0 <= b_aligned s < 2 ^ 64 -> block64 block ->
  decoded block64 (fst (fst (decode_mcu_block dct act block dc s))).
Proof.
  intros H1 H2 H3 H4 E1 E2 Hs Hb.
  pose proof (huffman_new_dc_shape _ _ _ _ H1 H2 E1) as Hd.
  destruct (huffman_new_ac_shape _ _ _ _ H3 H4 E2) as [Ha Hac].
  pose proof (decode_mcu_block_fine dct act block dc s Hd Ha Hac (proj2 (blk_block64 _) Hb) Hs) as H.
  destruct (decode_mcu_block dct act block dc s) as [[r s'] d]. cbn [fst]. apply fine_decoded in H.
  destruct r; cbn [decoded] in *; auto. now apply blk_block64.
Qed.

Lemma C22_progressive_lemma dbits dsyms abits asyms p p' dct act block coef dc s :
  zlen dsyms = zlen (huff_sizes dbits) -> Forall byte dsyms ->
  zlen asyms <= 256 -> Forall byte asyms ->
  huffman_new dbits (dsyms ++ zrepeat 0 (256 - zlen dsyms)) true p = Ok dct -> 
  huffman_new abits (asyms ++ zrepeat 0 (256 - zlen asyms)) false p' = Ok act ->
  0 <= b_aligned s < 2 ^ 64 -> 0 <= b_ss s -> b_se s <= 63 ->
  block64 block -> -32768 <= coef <= 32767 ->
  decoded (fun x => -32768 <= fst x <= 32767) (fst (decode_prog_dc_first dct dc s)) /\
  decoded (fun x => -32768 <= x <= 32767) (fst (decode_prog_dc_refine coef s)) /\
  decoded block64 (fst (decode_mcu_ac_first act block s)) /\
  decoded block64 (fst (decode_mcu_ac_refine act block s)).
Proof.
  intros H1 H2 H3 H4 E1 E2 Hs Hss Hse Hb Hc.
  pose proof (huffman_new_dc_shape _ _ _ _ H1 H2 E1) as Hd.
  destruct (huffman_new_ac_shape _ _ _ _ H3 H4 E2) as [Ha Hac].
  apply blk_block64 in Hb.
  assert (forall r, decoded blk r -> decoded block64 r) as Hdb.
  { intros [b| | |] H; cbn [decoded] in *; auto. now apply blk_block64. }
  split; [|split; [|split]].
  - eapply fine_decoded. apply (prog_dc_first_fine dct dc s Hd Hs).
  - eapply fine_decoded. apply (prog_dc_refine_fine coef s Hs Hc).
  - apply Hdb. eapply fine_decoded. now apply (decode_mcu_ac_first_fine act block s Ha Hac Hb Hs Hse Hss).
  - apply Hdb. eapply fine_decoded. now apply (decode_mcu_ac_refine_fine act block s Ha Hb Hs Hse Hss).
Qed.

(** Every table access of the model's total [zn] is inside the Rust array *)
Lemma C22_accesses_lemma bits syms is_dc prog t s :
  zlen syms <= 256 -> Forall byte syms ->
  huffman_new bits (syms ++ zrepeat 0 (256 - zlen syms)) is_dc prog = Ok t ->
  0 <= b_aligned s < 2 ^ 64 ->
  let i := peek_bits 9 s in
  0 <= i < zlen (h_lookup t) /\
  (forall l, shr (zn (h_lookup t) i) 9 <= l <= 17 ->
     0 <= l < zlen (h_maxcode t) /\ 0 <= l < zlen (h_offset t)) /\
  zlen (h_values t) = 256 /\
  (match h_ac_lookup t with Some f => 0 <= i < zlen f /\ is_dc = false | None => is_dc = true end).
Proof.
  intros Hl Hs E Ha i.
  assert (0 <= i < 512) as Hi by (apply (peek_range 9 s Ha); lia).
  assert (Forall sym_ac (values_of syms)) as Hv.
  { unfold values_of. apply Forall_app. split; [exact Hs|]. apply Forall_forall. intros x Hx.
    unfold zrepeat in Hx. apply repeat_spec in Hx. subst x. unfold sym_ac. lia. }
  eapply huffman_new_shape in E; [|rewrite zlen_app, zlen_repeat; lia|exact Hv|exact Hv].
  destruct E as [Hsh Hac]. split; [|split; [|split]].
  - rewrite (sh_lookup _ _ Hsh). exact Hi.
  - intros l Hl2. rewrite (sh_maxcode _ _ Hsh), (sh_offset _ _ Hsh).
    pose proof (Forall_zn _ _ i (sh_entry _ _ Hsh) ltac:(rewrite (sh_lookup _ _ Hsh); exact Hi)) as He.
    cbv beta in He. destruct He as [He|[He _]]; lia.
  - apply Hsh.
  - pose proof (sh_ac _ _ Hsh) as H. destruct (h_ac_lookup t).
    + destruct H as [-> _]. split; [exact Hi|]. destruct is_dc; [|reflexivity].
      destruct Hac as [_ Hac]. discriminate (Hac eq_refl).
    + now apply Hac.
Qed.
