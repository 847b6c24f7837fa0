(** The samples written by dequantization and inverse DCT are bytes. *)
From Coq Require Import ZArith String List Bool Lia.
From Coq Require Import ZifyBool ZifyNat ZifyN.
From Verif Require Import Base Idct Simd BaseFacts SpecSegments SpecIdct IdctFacts IdctSimd IdctExact.
Import ListNotations.
Local Open Scope Z_scope.
Local Open Scope res_scope.
Ltac Zify.zify_post_hook ::= Z.div_mod_to_equations.

Lemma clamp_byte x : byte (clamp_i16 x).
Proof. unfold byte, clamp_i16. lia. Qed.
Lemma tab_Forall (P : Z -> Prop) f : (forall i, P (f i)) -> Forall P (tab f).
Proof. intros H. unfold tab. repeat (constructor; [apply H|]). constructor. Qed.
Lemma full_bytes v q : Forall (Forall byte) (idct_full v q).
Proof.
  rewrite full_tab. apply Forall_map, Forall_forall. intros r _. apply tab_Forall. intros c. apply clamp_byte.
Qed.
Lemma tr_bytes rows : Forall (Forall byte) rows -> Forall (Forall byte) (tr_rows rows).
Proof.
  intros H. apply Forall_map, Forall_forall. intros c _. apply Forall_map. eapply Forall_impl; [|exact H].
  cbv beta. intros r Hr. apply Forall_zn; [unfold byte; lia|exact Hr].
Qed.
Lemma avx_bytes v q : length v = 64%nat -> length q = 64%nat -> Forall (Forall byte) (idct_block_avx2 v q).
Proof.
  intros Hv Hq. rewrite C26_block_lemma by assumption. destruct (forallb _ _).
  - apply Forall_map, Forall_forall. intros r _. apply Forall_map, Forall_forall. intros x _. apply clamp_byte.
  - apply tr_bytes, full_bytes.
Qed.
Definition dc_in_range (v q : list Z) : Prop :=
  Exists (fun c => c <> 0) (tl v) \/ (within 32767 (zn q 0) /\ -1024 <= zn v 0 * zn q 0 <= 1023).
Lemma scalar_bytes v q : dc_in_range v q -> Forall (Forall byte) (idct_block v q).
Proof.
  intros [H|[Hq H]].
  - rewrite block_full by exact H. apply full_bytes.
  - unfold idct_block. destruct (forallb _ _).
    + apply Forall_forall. intros r Hr. apply repeat_spec in Hr. subst r. apply Forall_forall. intros x Hx.
      apply repeat_spec in Hx. subst x. unfold dc_only. rewrite (i16_id (zn q 0)) by small. rewrite (i16_id (_ * _)) by small.
      unfold shr. change (2 ^ 3) with 8. rewrite i16_id by lia. unfold byte. lia.
    + exact (full_bytes v q).
Qed.

(** * Lifting to the whole routine *)
Section Lift.
  Variable P : Z -> Prop.
  Variable kernel : list Z -> list (list Z).
  Variable Q : list Z -> Prop.
  Hypothesis P0 : P 0.
  Hypothesis HK : forall b, length b = 64%nat -> Q b -> Forall (Forall P) (kernel b).

  Lemma put_slice_Forall l a s r : Forall P l -> Forall P s -> put_slice l a s = Ok r -> Forall P r.
  Proof.
    intros Hl Hs. unfold put_slice, slice. destruct (_ && _); [|discriminate]. intros E. injection E as <-.
    unfold splice. rewrite !Forall_app. repeat split; auto; apply Forall_forall; intros x Hx;
      rewrite Forall_forall in Hl; apply Hl.
    - rewrite <- (firstn_skipn (Z.to_nat a) l). apply in_or_app. now left.
    - rewrite <- (firstn_skipn (Z.to_nat a + length s) l). apply in_or_app. now right.
  Qed.
  Lemma store_rows_Forall rows stride pos out r : Forall P out -> Forall (Forall P) rows ->
    store_rows rows stride pos out = Ok r -> Forall P r.
  Proof.
    revert pos out. induction rows as [|row rows IH]; intros pos out Ho Hr; cbn [store_rows].
    - intros E. injection E as <-. exact Ho.
    - inversion_clear Hr. destruct (put_slice out pos row) eqn:E; cbn [rbind]; try discriminate.
      apply IH; auto. exact (put_slice_Forall _ _ _ _ Ho H E).
  Qed.
  Lemma store_blocks_Forall blocks stride x out r :
    Forall (fun b => length b = 64%nat /\ Q b) blocks -> Forall P out ->
    store_blocks kernel blocks stride x out = Ok r -> Forall P r.
  Proof.
    revert x out. induction blocks as [|b blocks IH]; intros x out Hb Ho; cbn [store_blocks].
    - intros E. injection E as <-. exact Ho.
    - inversion_clear Hb. destruct H as [Hl HQ]. destruct (store_rows _ _ _ _) eqn:E; cbn [rbind]; try discriminate.
      apply IH; auto. exact (store_rows_Forall _ _ _ _ _ Ho (HK b Hl HQ) E).
  Qed.
  Lemma zrepeat_Forall n : Forall P (zrepeat 0 n).
  Proof. apply Forall_forall. intros x Hx. apply repeat_spec in Hx. now subst. Qed.
  Lemma idct_chunks_Forall chunks stride r :
    Forall (fun c => Forall Q (chunks_n 64 c)) chunks ->
    idct_chunks kernel chunks stride = Ok r -> Forall P r.
  Proof.
    revert r. induction chunks as [|c chunks IH]; intros r Hc; cbn [idct_chunks].
    - intros E. injection E as <-. constructor.
    - inversion_clear Hc. destruct (store_blocks _ _ _ _ _) eqn:E; cbn [rbind]; try discriminate.
      destruct (idct_chunks _ _ _) eqn:E2; cbn [rbind]; try discriminate. intros E3. injection E3 as <-.
      apply Forall_app. split; [|now apply IH]. eapply store_blocks_Forall; [|apply zrepeat_Forall|exact E].
      rewrite Forall_forall in *. intros b Hb. split; [|auto]. apply (chunks_n_all 64 c); [lia|exact Hb].
  Qed.
  Lemma dequantize_Forall vector stride sf vs out :
    (forall c, chunks_exact (zlen vector * vs / sf) vector = Ok c -> Forall (fun c => Forall Q (chunks_n 64 c)) c) ->
    dequantize_and_idct kernel vector stride sf vs = Ok out -> Forall P out.
  Proof.
    intros Hq. unfold dequantize_and_idct. destruct (sf =? 0); [discriminate|].
    destruct (chunks_exact _ _) eqn:E; cbn [rbind]; try discriminate.
    destruct (idct_chunks _ _ _) eqn:E2; cbn [rbind]; try discriminate. intros E3. injection E3 as <-.
    apply Forall_app. split; [|apply zrepeat_Forall]. exact (idct_chunks_Forall _ _ _ (Hq _ eq_refl) E2).
  Qed.
End Lift.
Lemma C23_avx_lemma vector q stride sf vs out : length q = 64%nat ->
  dequantize_and_idct_avx2 vector q stride sf vs = Ok out -> Forall byte out.
Proof.
  intros Hq. unfold dequantize_and_idct_avx2. apply dequantize_Forall with (Q := fun _ => True).
  - unfold byte. lia.
  - intros b Hb _. now apply avx_bytes.
  - intros c _. apply Forall_forall. intros. apply Forall_forall. auto.
Qed.

(** the aligned blocks of 64 coefficients *)
Definition block_at (vector : list Z) (i : nat) : list Z := firstn 64 (skipn (i * 64) vector).
Lemma skipn_skipn {A} a b (l : list A) : skipn a (skipn b l) = skipn (b + a) l.
Proof. revert l. induction b; intros l; [reflexivity|]. destruct l; [now rewrite !skipn_nil|]. cbn [Nat.add skipn]. apply IHb. Qed.
Lemma C23_scalar_lemma vector q stride sf vs out :
  (zlen vector * vs / sf) mod 64 = 0 ->
  (forall i, (64 * i < length vector)%nat -> dc_in_range (block_at vector i) q) ->
  dequantize_and_idct_int vector q stride sf vs = Ok out -> Forall byte out.
Proof.
  intros Hm Hb. unfold dequantize_and_idct_int. apply dequantize_Forall with (Q := fun b => dc_in_range b q).
  - unfold byte. lia.
  - intros b _ H. now apply scalar_bytes.
  - intros cs. unfold chunks_exact. destruct (_ <=? 0) eqn:E0; [discriminate|]. intros E. injection E as <-.
    set (k := zlen vector * vs / sf) in *. assert (exists m, Z.to_nat k = 64 * m /\ 0 < m)%nat as (m & Hk & Hm0).
    { exists (Z.to_nat (k / 64)). lia. }
    rewrite Hk. rewrite chunks_n_spec by lia. apply Forall_map, Forall_forall. intros i Hi. apply in_seq in Hi.
    rewrite chunks_n_spec by lia. apply Forall_map, Forall_forall. intros j Hj. apply in_seq in Hj.
    assert (i * (64 * m) + 64 * m <= length vector)%nat as Hlen.
    { pose proof (Nat.mul_div_le (length vector) (64 * m)). nia. }
    rewrite firstn_length, skipn_length in Hj.
    assert (j < m)%nat as Hjm.
    { destruct Hj as [_ Hj]. rewrite Nat.min_l in Hj by lia. rewrite Nat.mul_comm, Nat.div_mul in Hj; lia. }
    assert (firstn 64 (skipn (j * 64) (firstn (64 * m) (skipn (i * (64 * m)) vector))) = block_at vector (i * m + j)) as ->.
    { unfold block_at. rewrite skipn_firstn_comm, firstn_firstn, skipn_skipn. rewrite Nat.min_l by nia.
      f_equal. f_equal. nia. }
    apply Hb. nia.
Qed.
