(** Refinement of the bit reader to a list of bits. *)
From Coq Require Import ZArith String List Bool Lia.
From Coq Require Import ZifyBool ZifyNat ZifyN.
From Verif Require Import Base Types Huffman Bitstream BaseFacts HeaderFacts
  SpecHuffman SpecSegments SpecBits HuffmanProofs HuffmanPrefix HuffDecode BitReader Refill.
Import ListNotations.
Local Open Scope Z_scope.
Ltac Zify.zify_post_hook ::= Z.div_mod_to_equations.

Notation bitsb := bits_of_bytes.

Lemma bitsb_cons e E : bitsb (e :: E) = (bits_of 8 e ++ bitsb E)%list.
Proof. reflexivity. Qed.
Lemma bitsb_app E F : bitsb (E ++ F) = (bitsb E ++ bitsb F)%list.
Proof. unfold bits_of_bytes. now rewrite flat_map_app. Qed.
Lemma blen_bitsb E : blen (bitsb E) = 8 * zlen E.
Proof.
  induction E as [|e E IH]; [reflexivity|]. rewrite bitsb_cons, blen_app, blen_bits, IH, zlen_cons. lia.
Qed.

Lemma skip_ff_entropy rd : bytes rd ->
  let '(n, rd') := skip_ff rd in
  bytes rd' /\ (length rd' <= length rd)%nat /\
  entropy_from true rd
  = if n =? 0 then (255 :: fst (entropy_from false rd'), snd (entropy_from false rd'))
    else ([], AtMarker n rd').
Proof.
  induction rd as [|b t IH]; intros H; [cbn; auto|].
  inversion H as [|? ? Hb Ht]; subst. cbn [skip_ff entropy_from].
  destruct (b =? 255) eqn:E.
  - specialize (IH Ht). destruct (skip_ff t) as [n rd'] eqn:Es. cbn [length].
    intuition lia.
  - cbn [length]. split; [exact Ht|]. split; [lia|].
    destruct (b =? 0); [destruct (entropy_from false t); reflexivity|reflexivity].
Qed.

Definition same_params (s s' : bst) : Prop :=
  b_ah s' = b_ah s /\ b_al s' = b_al s /\ b_ss s' = b_ss s /\ b_se s' = b_se s /\
  b_eob s' = b_eob s.
Lemma same_params_refl s : same_params s s.
Proof. repeat split. Qed.
Lemma same_params_trans s s' s'' : same_params s s' -> same_params s' s'' -> same_params s s''.
Proof. unfold same_params. intuition congruence. Qed.
Lemma same_params_bits s a b c d : same_params s (set_bits s a b c d).
Proof. repeat split. Qed.

(** One byte *)
Lemma refill_byte_spec s u : b_marker s = None -> buf_ok s u -> blen u <= 56 -> bytes (b_rd s) ->
  0 <= b_aligned s < 2 ^ 64 ->
  match entropy (b_rd s) with
  | ([], AtMarker c rest) =>
      match marker_from_u8 c with
      | Some m => exists s', refill_byte s = (Ok false, s') /\ b_marker s' = Some m /\
                    b_rd s' = rest /\ bytes rest /\ win_ok s' u /\ same_params s s'
      | None => exists e s', refill_byte s = (Err e, s')
      end
  | (E, x) =>
      let e := hd 0 E in
      exists s', refill_byte s = (Ok true, s') /\ b_marker s' = None /\
        buf_ok s' (u ++ bits_of 8 e) /\ b_aligned s' = b_aligned s /\
        entropy (b_rd s') = (tl E, x) /\ bytes (b_rd s') /\ same_params s s'
  end.
Proof.
  intros Hm Hbuf Hu Hb Ha.
  assert (forall b, 0 <= b < 256 -> forall t,
     buf_ok (set_bits s (Z.lor (u64 (shl (b_buffer s) 8)) b) (b_aligned s) (b_left s + 8) t)
       (u ++ bits_of 8 b)) as Hpush.
  { intros b Hbr t.
    destruct (buf_push s u 8 b Hbuf ltac:(lia) ltac:(lia) ltac:(change (2 ^ 8) with 256; lia)) as [H1 H2].
    split; dsimp.
    - exact H1.
    - rewrite (bo_left _ _ Hbuf), blen_app, blen_bits. lia.
    - rewrite blen_app, blen_bits. lia.
    - rewrite blen_app, blen_bits. change (Z.of_nat 8) with 8. apply H2; [apply blen_bits|].
      rewrite value_bits. apply Z.mod_small. change (2 ^ Z.of_nat 8) with 256. lia. }
  unfold entropy. unfold refill_byte. destruct (b_rd s) as [|b t] eqn:Er.
  - cbn [entropy_from read_u8 hd tl fst snd]. cbv zeta. change (0 =? 255) with false. cbn iota.
    eexists. split; [reflexivity|]. dsimp. split; [exact Hm|].
    split; [apply Hpush; lia|]. split; [reflexivity|]. split; [reflexivity|].
    split; [constructor|]. repeat split.
  - inversion Hb as [|? ? Hbb Hbt]; subst. unfold byte in Hbb.
    cbn [entropy_from read_u8]. destruct (b =? 255) eqn:Eb.
    + (* FF *)
      assert (b = 255) as -> by lia.
      (* next code and rest *)
      assert (exists n rd', (let '(next0, rd0) := read_u8 t in
                if next0 =? 255 then skip_ff rd0 else (next0, rd0)) = (n, rd') /\
              bytes rd' /\
              entropy_from true t
              = if n =? 0 then (255 :: fst (entropy_from false rd'), snd (entropy_from false rd'))
                else ([], AtMarker n rd')) as (n & rd' & En & Hbr & Ent).
      { pose proof (skip_ff_entropy t Hbt) as Hs. destruct t as [|b1 t1].
        - exists 0, []. cbn. repeat split. constructor.
        - cbn [read_u8]. cbn [skip_ff] in Hs. destruct (b1 =? 255) eqn:E1.
          + destruct (skip_ff t1) as [n rd'] eqn:E2. exists n, rd'. intuition.
          + exists b1, t1. intuition. }
      destruct (read_u8 t) as [next0 rd0] eqn:E0. rewrite En, Ent. clear En Ent E0.
      destruct (n =? 0) eqn:En0.
      * cbn [hd tl]. eexists. split; [reflexivity|]. dsimp. split; [exact Hm|].
        split; [apply Hpush; lia|]. split; [reflexivity|].
        split; [unfold entropy; now destruct (entropy_from false rd')|]. split; [exact Hbr|]. repeat split.
      * cbv zeta.
        assert (shr (Z.lor (u64 (shl (b_buffer s) 8)) 255) 8 = b_buffer s mod 2 ^ 56) as Eb'.
        { rewrite u64_shl_lor by lia. unfold shr. change (64 - 8) with 56.
          change (2 ^ 8) with 256. lia. }
        rewrite Eb'. replace (b_left s + 8 - 8) with (b_left s) by lia.
        destruct (marker_from_u8 n) as [m|] eqn:Emk; [|eauto].
        eexists. split; [reflexivity|]. dsimp. split; [reflexivity|]. split; [reflexivity|].
        split; [exact Hbr|]. split; [|repeat split].
        destruct (b_left s =? 0) eqn:El.
        -- assert (u = []) as ->.
           { rewrite (bo_left _ _ Hbuf) in El. destruct u; [reflexivity|]. unfold blen in El. cbn in El. lia. }
           split; dsimp; [exact Ha|cbn; lia|]. cbn [val]. change (64 - blen []) with 64.
           change (val []) with 0. apply Z.div_small. exact Ha.
        -- pose proof (blen_nonneg u).
           assert (buf_ok (set_bits s (b_buffer s mod 2 ^ 56) (b_aligned s) (b_left s) rd') u) as Hbuf'.
           { destruct Hbuf as [Hr Hl Hmx Hv]. split; dsimp; auto.
             - pose proof (Z.mod_pos_bound (b_buffer s) (2 ^ 56) ltac:(lia)). lia.
             - rewrite <- Hv. replace 56 with (blen u + (56 - blen u)) by lia.
               rewrite Z.pow_add_r by lia.
               assert (0 < 2 ^ blen u) by (apply pow2_pos; lia).
               assert (0 < 2 ^ (56 - blen u)) by (apply pow2_pos; lia).
               rewrite Z.rem_mul_r by lia. rewrite (Z.mul_comm (2 ^ blen u)), Z.mod_add by lia.
               now rewrite Z.mod_mod by lia. }
           pose proof (align_ok _ u rd' Hbuf') as Hal. dsimp in Hal.
           rewrite (bo_left _ _ Hbuf) in El.
           specialize (Hal ltac:(lia)). destruct Hal as [H1 H2 H3]. dsimp in H1. dsimp in H3.
           split; dsimp; assumption.
    + destruct (entropy_from false t) as [E x] eqn:Et. cbn [hd tl].
      eexists. split; [reflexivity|]. dsimp. split; [exact Hm|].
      split; [apply Hpush; lia|]. split; [reflexivity|]. split; [exact Et|].
      split; [exact Hbt|]. repeat split.
Qed.

(** The state of the reader: [u] the bits in the window, [E] the data bytes not yet in it, [x]
    what ends the segment *)
Record rdr (s : bst) (u : list bool) (E : list Z) (x : ending) : Prop := {
  ro_win : win_ok s u;
  ro_bytes : bytes (b_rd s);
  ro_buf : b_marker s = None -> buf_ok s u;
  ro_ahead : match b_marker s with
             | None => entropy (b_rd s) = (E, x)
             | Some m => E = [] /\ exists c, x = AtMarker c (b_rd s) /\ marker_from_u8 c = Some m
             end }.

(** The marker that ends the segment is one the decoder knows *)
Definition known (x : ending) : Prop :=
  match x with AtEnd => True | AtMarker c _ => marker_from_u8 c <> None end.

Lemma rdr_new rd : bytes rd -> rdr (bst_new rd) [] (fst (entropy rd)) (snd (entropy rd)).
Proof.
  intros Hb. split; dsimp.
  - split; cbn; lia.
  - exact Hb.
  - intros _. split; cbn; lia.
  - apply surjective_pairing.
Qed.

(** [k] more bytes *)
Definition grown (u : list bool) (E : list Z) (x : ending) (u' : list bool) (E' : list Z) : Prop :=
  exists z, (u' ++ bitsb E' = u ++ bitsb E ++ repeat false z)%list /\ (z = 0%nat \/ x = AtEnd).

Lemma grown_refl u E x : grown u E x u E.
Proof. exists 0%nat. rewrite app_nil_r. auto. Qed.

Lemma grown_hd u E x : (E = [] -> x = AtEnd) -> grown u E x (u ++ bits_of 8 (hd 0 E)) (tl E).
Proof.
  intros H. destruct E as [|e E].
  - exists 8%nat. cbn [hd tl]. split; [|auto]. rewrite app_nil_r. reflexivity.
  - exists 0%nat. cbn [hd tl]. rewrite bitsb_cons, app_nil_r, <- app_assoc. auto.
Qed.
Lemma repeat_add {A} (a : A) n m : (repeat a n ++ repeat a m = repeat a (n + m))%list.
Proof. symmetry. apply repeat_app. Qed.
Lemma grown_trans u E x u' E' u'' E'' :
  grown u E x u' E' -> grown u' E' x u'' E'' -> grown u E x u'' E''.
Proof.
  intros (z & H1 & H2) (z' & H1' & H2'). exists (z + z')%nat. split.
  - rewrite H1', app_assoc, H1. rewrite <- !app_assoc, repeat_add. reflexivity.
  - destruct H2, H2'; auto. left. lia.
Qed.

Lemma slow_step (s : bst) u E x (k : M bst unit) (Q : res unit -> bst -> Prop) :
  b_marker s = None -> buf_ok s u -> blen u <= 56 -> bytes (b_rd s) -> 0 <= b_aligned s < 2 ^ 64 ->
  entropy (b_rd s) = (E, x) -> known x ->
  (* marker *)
  (forall s' , rdr s' u [] x -> E = [] -> b_marker s' <> None -> same_params s s' -> Q (Ok tt) s') ->
  (* one more byte *)
  (forall s', b_marker s' = None -> buf_ok s' (u ++ bits_of 8 (hd 0 E)) -> bytes (b_rd s') ->
     0 <= b_aligned s' < 2 ^ 64 -> entropy (b_rd s') = (tl E, x) ->
     (E = [] -> x = AtEnd) -> same_params s s' -> wp k s' Q) ->
  wp (bind refill_byte (fun a => if negb a then ret tt else k)) s Q.
Proof.
  intros Hm Hbuf Hu Hb Ha Hent Hk H1 H2. apply wp_bind.
  pose proof (refill_byte_spec s u Hm Hbuf Hu Hb Ha) as Hs. rewrite Hent in Hs.
  assert (E <> [] \/ x = AtEnd ->
    exists s', refill_byte s = (Ok true, s') /\ b_marker s' = None /\
        buf_ok s' (u ++ bits_of 8 (hd 0 E)) /\ b_aligned s' = b_aligned s /\
        entropy (b_rd s') = (tl E, x) /\ bytes (b_rd s') /\ same_params s s') as Hs'.
  { intros [Hn| ->]; [destruct E as [|e E0]; [congruence|destruct x; exact Hs]|].
    destruct E; exact Hs. }
  assert ((E <> [] \/ x = AtEnd) \/ (E = [] /\ exists c rest, x = AtMarker c rest)) as [Hc|Hc].
  { destruct E as [|e E0]; [|left; left; congruence]. destruct x; eauto 6. }
  - destruct (Hs' Hc) as (s' & E1 & Hm' & Hbuf' & Ha' & Hent' & Hb' & Hp).
    eapply wp_intro; [exact E1|]. cbn [wp_then negb].
    apply H2; auto. { rewrite Ha'; exact Ha. } { intros ->. destruct Hc; [congruence|assumption]. }
  - destruct Hc as (-> & c & rest & ->). cbn [known] in Hk.
    destruct (marker_from_u8 c) as [m|] eqn:Em; [|congruence].
    destruct Hs as (s' & E1 & Hm' & Hrd & Hbr & Hw & Hp).
    eapply wp_intro; [exact E1|]. cbn [wp_then negb]. apply wp_ret.
    apply H1; auto; [|congruence].
    split; auto.
    + now rewrite Hrd.
    + congruence.
    + rewrite Hm'. split; [reflexivity|]. exists c. rewrite Hrd. auto.
Qed.

Lemma refill_slow_spec s u E x : b_marker s = None -> buf_ok s u -> blen u <= 32 ->
  bytes (b_rd s) -> 0 <= b_aligned s < 2 ^ 64 -> entropy (b_rd s) = (E, x) -> known x ->
  wp refill_slow s (fun r s' => r = Ok tt /\ exists u' E', rdr s' u' E' x /\
     same_params s s' /\ grown u E x u' E' /\ (32 <= blen u' \/ b_marker s' <> None)).
Proof.
  intros Hm Hbuf Hu Hb Ha Hent Hk.
  unfold refill_slow. pose proof (blen_nonneg u).
  assert (forall v e, blen (v ++ bits_of 8 e) = blen v + 8) as Hb8
    by (intros; rewrite blen_app, blen_bits; reflexivity).
  assert (forall s' v F, rdr s' v [] x -> F = [] -> b_marker s' <> None -> same_params s s' ->
    grown u E x v F ->
    Ok tt = Ok tt /\ exists u' E', rdr s' u' E' x /\
     same_params s s' /\ grown u E x u' E' /\ (32 <= blen u' \/ b_marker s' <> None)) as Hdone.
  { intros s' v F Hr -> Hn Hp Hg. split; [reflexivity|]. exists v, []. auto. }
  eapply slow_step; eauto; [lia| |].
  { intros. eapply Hdone; eauto. subst. apply grown_refl. }
  intros s1 Hm1 Hbuf1 Hb1 Ha1 Hent1 He1 Hp1.
  pose proof (grown_hd u E x He1) as Hg1.
  eapply slow_step; eauto; [rewrite Hb8; lia| |].
  { intros. eapply Hdone; eauto using same_params_trans. }
  intros s2 Hm2 Hbuf2 Hb2 Ha2 Hent2 He2 Hp2.
  pose proof (grown_trans _ _ _ _ _ _ _ Hg1 (grown_hd _ _ x He2)) as Hg2.
  eapply slow_step; eauto; [rewrite !Hb8; lia| |].
  { intros. eapply Hdone; eauto using same_params_trans. }
  intros s3 Hm3 Hbuf3 Hb3 Ha3 Hent3 He3 Hp3.
  pose proof (grown_trans _ _ _ _ _ _ _ Hg2 (grown_hd _ _ x He3)) as Hg3.
  eapply slow_step; eauto; [rewrite !Hb8; lia| |].
  { intros. eapply Hdone; eauto using same_params_trans. }
  intros s4 Hm4 Hbuf4 Hb4 Ha4 Hent4 He4 Hp4.
  pose proof (grown_trans _ _ _ _ _ _ _ Hg3 (grown_hd _ _ x He4)) as Hg4.
  apply wp_modify. split; [reflexivity|]. do 2 eexists. split; [|split; [|split; [exact Hg4|]]].
  - pose proof (align_ok s4 _ (b_rd s4) Hbuf4 ltac:(rewrite !Hb8; lia)) as Hal.
    destruct Hbuf4 as [G1 G2 G3 G4].
    split; unfold realign; dsimp; auto.
    + intros _. split; dsimp; auto.
    + rewrite Hm4. exact Hent4.
  - unfold realign. repeat (eapply same_params_trans; [eassumption|]). apply same_params_bits.
  - left. rewrite !Hb8. lia.
Qed.

Lemma refill_spec s u E x : rdr s u E x -> known x ->
  exists s' u' E', refill s = (Ok tt, s') /\ rdr s' u' E' x /\ same_params s s' /\
    grown u E x u' E' /\ (32 <= blen u' \/ b_marker s' <> None).
Proof.
  intros [Hw Hb Hbuf Hah] Hk. destruct (b_marker s) as [m|] eqn:Em.
  - exists (set_left s 63), u, E. unfold refill. rewrite Em. split; [reflexivity|].
    split; [|split; [repeat split|split; [apply grown_refl|]]].
    + split; dsimp; [|exact Hb|congruence|].
      * destruct Hw as [H1 H2 H3]. split; dsimp; auto.
      * rewrite Em. exact Hah.
    + dsimp. rewrite Em. right; congruence.
  - specialize (Hbuf eq_refl). pose proof (bo_left _ _ Hbuf) as Hl.
    destruct (b_left s <=? 32) eqn:El.
    2:{ exists s, u, E. unfold refill. rewrite Em, El. split; [reflexivity|].
        split; [split; auto; now rewrite Em|]. split; [apply same_params_refl|].
        split; [apply grown_refl|]. left. lia. }
    rewrite fast_refill by (auto; try lia; apply Hbuf).
    pose proof (refill_slow_spec s u E x Em Hbuf ltac:(lia) Hb (wo_range _ _ Hw) Hah Hk) as Hwp.
    unfold wp in Hwp. destruct (refill_slow s) as [r s'] eqn:Er. cbn [fst snd] in Hwp.
    destruct Hwp as (-> & u' & E' & H1 & H2 & H3 & H4).
    exists s', u', E'. auto.
Qed.

(** * Consuming bits *)

Lemma rdr_drop s u v E x : rdr s (u ++ v) E x ->
  rdr (drop_bits (blen u) s) v E x /\ same_params s (drop_bits (blen u) s).
Proof.
  intros [Hw Hb Hbuf Hah]. split; [|repeat split]. split.
  - now apply drop_win.
  - exact Hb.
  - unfold drop_bits at 1. dsimp. intros Hm. specialize (Hbuf Hm).
    pose proof (buf_drop s u v Hbuf (bo_left _ _ Hbuf)) as Hv.
    destruct Hbuf as [H1 H2 H3 H4]. rewrite blen_app in *.
    pose proof (blen_nonneg u). pose proof (blen_nonneg v).
    split; unfold drop_bits; dsimp; auto; lia.
  - unfold drop_bits. dsimp. exact Hah.
Qed.

Lemma peek_spec s u v : win_ok s (u ++ v) -> peek_bits (blen u) s = val u.
Proof.
  intros [Hr Hm Hv]. rewrite blen_app in *. pose proof (blen_nonneg u). pose proof (blen_nonneg v).
  unfold peek_bits, shr.
  assert (0 < 2 ^ (64 - (blen u + blen v))) by (apply pow2_pos; lia).
  assert (0 < 2 ^ blen v) by (apply pow2_pos; lia).
  replace (64 - blen u) with (64 - (blen u + blen v) + blen v) by lia.
  rewrite Z.pow_add_r by lia. rewrite <- Z.div_div by lia. rewrite Hv, val_app.
  pose proof (val_range v). rewrite Z.div_add_l by lia. rewrite Z.div_small by lia. lia.
Qed.

Lemma rotl64_spec a n : 0 <= n <= 64 -> 0 <= a < 2 ^ 64 ->
  rotl64 a n = (a * 2 ^ n) mod 2 ^ 64 + a / 2 ^ (64 - n).
Proof.
  intros Hn Ha. unfold rotl64.
  assert (0 < 2 ^ n) by (apply pow2_pos; lia).
  assert (0 < 2 ^ (64 - n)) by (apply pow2_pos; lia).
  assert (2 ^ 64 = 2 ^ (64 - n) * 2 ^ n) as E64 by (rewrite <- Z.pow_add_r by lia; f_equal; lia).
  assert (0 <= shr a (64 - n) < 2 ^ n).
  { unfold shr. split; [apply Z.div_pos; lia|]. apply Z.div_lt_upper_bound; lia. }
  rewrite u64_shl_lor by assumption. unfold shr. f_equal.
  rewrite E64, Z.mul_mod_distr_r by lia. reflexivity.
Qed.

Lemma get_bits_spec s u v E x : rdr s (u ++ v) E x ->
  exists s', get_bits (blen u) s = (Ok (val u), s') /\ rdr s' v E x /\ same_params s s'.
Proof.
  intros Hrd. pose proof Hrd as [Hw Hb Hbuf Hah].
  pose proof (peek_spec s u v Hw) as Hpk. pose proof (rdr_drop s u v E x Hrd) as [[Hw' Hb' Hbuf' Hah'] _].
  destruct Hw as [Hr Hm Hv]. rewrite blen_app in *. pose proof (blen_nonneg u). pose proof (blen_nonneg v).
  unfold get_bits. cbv zeta.
  set (a := b_aligned s) in *.
  assert (0 < 2 ^ blen u) by (apply pow2_pos; lia).
  assert (0 < 2 ^ (64 - blen u)) by (apply pow2_pos; lia).
  assert (2 ^ 64 = 2 ^ (64 - blen u) * 2 ^ blen u) as E64 by (rewrite <- Z.pow_add_r by lia; f_equal; lia).
  unfold peek_bits, shr in Hpk. fold a in Hpk.
  assert (rotl64 a (blen u) = (a * 2 ^ blen u) mod 2 ^ 64 + val u) as Er
    by (rewrite rotl64_spec by lia; now rewrite Hpk).
  assert ((a * 2 ^ blen u) mod 2 ^ 64 = (a mod 2 ^ (64 - blen u)) * 2 ^ blen u) as Em
    by (rewrite E64, Z.mul_mod_distr_r by lia; reflexivity).
  pose proof (val_range u) as Hvu.
  pose proof (Z.mod_pos_bound a (2 ^ (64 - blen u)) ltac:(lia)).
  eexists. split.
  { f_equal. f_equal. rewrite land_ones_mod by lia. rewrite Er, Em.
    rewrite Z.add_comm, Z.mod_add by lia. apply Z.mod_small. exact Hvu. }
  split; [|repeat split].
  split; dsimp; auto.
  - destruct Hw' as [Hr' Hm' Hv']. unfold drop_bits in Hr', Hv'. dsimp in Hr'. dsimp in Hv'.
    split; dsimp; [rewrite Er, Em, E64; nia|lia|].
    rewrite <- Hv'. unfold u64, shl. change 18446744073709551616 with (2 ^ 64). fold a.
    rewrite Er, Em.
    replace (64 - blen v) with (blen u + (64 - blen v - blen u)) by lia.
    assert (0 < 2 ^ (64 - blen v - blen u)) by (apply pow2_pos; lia).
    rewrite Z.pow_add_r by lia. rewrite <- !Z.div_div by lia.
    rewrite Z.div_add_l by lia. rewrite (Z.div_small (val u)) by lia.
    rewrite Z.div_mul by lia. f_equal. lia.
  - intros Hmk. specialize (Hbuf' Hmk). destruct Hbuf' as [H1' H2' H3' H4'].
    unfold drop_bits in H1', H2', H4'. dsimp in H1'. dsimp in H2'. dsimp in H4'.
    split; dsimp; auto.
Qed.

Lemma get_bit_spec s b v E x : rdr s (b :: v) E x ->
  exists s', get_bit s = (Ok (Z.b2z b), s') /\ rdr s' v E x /\ same_params s s'.
Proof.
  intros Hr. change (b :: v) with ([b] ++ v)%list in Hr.
  destruct (rdr_drop s [b] v E x Hr) as [H1 H2].
  exists (drop_bits 1 s). split; [|auto]. unfold get_bit. f_equal. f_equal.
  pose proof (peek_spec s [b] v (ro_win _ _ _ _ Hr)) as Hp. unfold peek_bits in Hp.
  change (blen [b]) with 1 in Hp. change (64 - 1) with 63 in Hp. rewrite Hp.
  destruct b; reflexivity.
Qed.

(** Splitting the expected bits off the window *)
Lemma app_split {A} (u v a b : list A) : (u ++ v = a ++ b)%list -> (length a <= length u)%nat ->
  exists c, u = (a ++ c)%list /\ b = (c ++ v)%list.
Proof.
  revert a. induction u as [|h u IH]; intros a H Hl.
  - destruct a; [|cbn in Hl; lia]. exists []. auto.
  - destruct a as [|h' a]; [exists (h :: u); auto|].
    cbn [app] in H. injection H as <- H. cbn [length] in Hl.
    destruct (IH a H ltac:(lia)) as (c & -> & ->). exists c. auto.
Qed.

(** After a refill any expected piece of at most 32 bits is in the window *)
Lemma window_has u E x u' E' a b :
  grown u E x u' E' -> (u ++ bitsb E = a ++ b)%list -> blen a <= 32 ->
  (32 <= blen u' \/ E' = []) -> exists c z, u' = (a ++ c)%list /\ (c ++ bitsb E' = b ++ repeat false z)%list /\ (z = 0%nat \/ x = AtEnd).
Proof.
  intros (z & Hg & Hz) Hab Ha Hor. rewrite app_assoc, Hab, <- app_assoc in Hg.
  destruct (app_split u' (bitsb E') a (b ++ repeat false z) Hg) as (c & Hc1 & Hc2).
  - unfold blen in *. destruct Hor as [H|H]; [lia|]. subst E'.
    apply (f_equal (@length bool)) in Hg. rewrite !app_length in Hg. cbn in Hg. lia.
  - exists c, z. auto.
Qed.
