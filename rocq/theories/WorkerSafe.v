(** A worker job ends with a value or a panic: it never runs out of fuel and has no error
    path. *)
From Coq Require Import ZArith String List Bool Lia.
From Coq Require Import ZifyBool ZifyNat ZifyN.
From Verif Require Import Base Types Huffman State Idct Upsample Color Simd Worker Headers Mcu BaseFacts.
Import ListNotations.
Local Open Scope Z_scope.
Local Open Scope res_scope.

Definition calm {A} (r : res A) : Prop :=
  match r with Ok _ | Panic _ => True | _ => False end.

Lemma calm_bind {A B} (m : res A) (k : A -> res B) : calm m -> (forall a, calm (k a)) -> calm (rbind m k).
Proof. destruct m; cbn; auto; tauto. Qed.
Lemma calm_slice_ {A} (l : list A) a b : calm (slice_ l a b).
Proof. unfold slice_. destruct (slice l a b); exact I. Qed.
Lemma calm_put_slice {A} (l : list A) a s : calm (put_slice l a s).
Proof. unfold put_slice. destruct (slice l a _); exact I. Qed.
Lemma calm_at {A} (l : list A) i : calm (at_ l i).
Proof. unfold at_. destruct (zget l i); exact I. Qed.
Lemma calm_zupd {A} (l : list A) i x : calm (zupd l i x).
Proof. unfold zupd. destruct (_ || _); exact I. Qed.
Lemma calm_chunks {A} k (l : list A) : calm (chunks_exact k l).
Proof. unfold chunks_exact. destruct (_ <=? _); exact I. Qed.
Lemma calm_load l p n : calm (load l p n).
Proof. unfold load. destruct (slice l p _); exact I. Qed.

Ltac calm :=
  repeat first
    [ exact I | assumption
    | apply calm_slice_ | apply calm_put_slice | apply calm_at | apply calm_zupd
    | apply calm_chunks | apply calm_load
    | match goal with
      | |- calm (rbind _ _) => apply calm_bind; [|intros ?]
      | |- calm (if ?b then _ else _) => destruct b
      | |- calm (match ?x with _ => _ end) => destruct x
      | |- calm (let _ := _ in _) => cbv zeta
      end ].

Lemma calm_store_rows rows : forall stride pos out, calm (store_rows rows stride pos out).
Proof. induction rows; intros; cbn [store_rows]; calm. auto. Qed.
Lemma calm_store_blocks k blocks : forall stride x out, calm (store_blocks k blocks stride x out).
Proof. induction blocks; intros; cbn [store_blocks]; [exact I|]. apply calm_bind; [apply calm_store_rows|auto]. Qed.
Lemma calm_idct_chunks k chunks : forall stride, calm (idct_chunks k chunks stride).
Proof.
  induction chunks; intros; cbn [idct_chunks]; [exact I|]. apply calm_bind; [apply calm_store_blocks|].
  intros. apply calm_bind; [auto|]. intros. exact I.
Qed.
Lemma calm_idct kind c q s sf v : calm (run_idct kind c q s sf v).
Proof.
  assert (forall k, calm (dequantize_and_idct k c s sf v)) as H.
  { intros k. unfold dequantize_and_idct. calm. apply calm_idct_chunks. }
  destruct kind; apply H.
Qed.

Lemma calm_vert_loop n : forall stride a b c d e i out, calm (vert_loop n stride a b c d e i out).
Proof.
  induction n as [|n IH]; intros; cbn [vert_loop]; [exact I|]. destruct (_ || _); [exact I|]. cbv zeta.
  destruct (vert_zip _ _ _ _). destruct (next_or a c). destruct (next_or b l1).
  destruct (if e then next_or l4 l1 else (l3, l4)). apply IH.
Qed.
Lemma calm_vertical input n : calm (upsample_vertical input n).
Proof. unfold upsample_vertical. calm. apply calm_vert_loop. Qed.
Lemma calm_horizontal input n : calm (upsample_horizontal input n).
Proof. unfold upsample_horizontal. calm. Qed.
Lemma calm_hv input n : calm (upsample_hv input n).
Proof. unfold upsample_hv. apply calm_bind; [apply calm_vertical|intros; apply calm_horizontal]. Qed.
Lemma calm_sse_loop n : forall input i out, calm (sse_loop n input i out).
Proof.
  induction n as [|n IH]; intros; cbn [sse_loop]; [exact I|]. apply calm_bind; [|auto].
  unfold sse_step. calm.
Qed.
Lemma calm_hv_step i l s : calm (hv_step i l s).
Proof. unfold hv_step. calm. Qed.
Lemma calm_hv_inner n : forall i l s, calm (hv_inner n i l s).
Proof. induction n; intros; cbn [hv_inner]; [exact I|]. apply calm_bind; [apply calm_hv_step|auto]. Qed.
Lemma calm_hv_tail i a b o v l out : calm (hv_tail i a b o v l out).
Proof. unfold hv_tail. calm. Qed.
Lemma calm_copy_at l i k : calm (copy_at l i k).
Proof. unfold copy_at. calm. Qed.
Lemma calm_hv_row i l e v j s : calm (hv_row i l e v j s).
Proof.
  unfold hv_row. apply calm_bind; [apply calm_hv_inner|intros]. cbv zeta. destruct (_ || _); [exact I|].
  repeat (apply calm_bind; [first [apply calm_hv_tail|apply calm_copy_at]|intros]). exact I.
Qed.
Lemma calm_hv_rows n : forall i l e v j s, calm (hv_rows n i l e v j s).
Proof. induction n; intros; cbn [hv_rows]; [exact I|]. apply calm_bind; [apply calm_hv_row|auto]. Qed.
Lemma calm_upsampler k i n : calm (run_upsampler k i n).
Proof.
  destruct k; cbn [run_upsampler].
  - exact I.
  - apply calm_horizontal.
  - unfold upsample_horizontal_sse. destruct (_ && _); [|exact I]. cbv zeta.
    apply calm_bind; [apply calm_sse_loop|]. intros. exact I.
  - apply calm_vertical.
  - apply calm_hv.
  - unfold upsample_hv_simd. destruct (_ <? _); [apply calm_hv|]. unfold upsample_hv_avx. calm. apply calm_hv_rows.
Qed.

Lemma calm_cc k y cb cr o p : calm (run_cc k y cb cr o p).
Proof.
  destruct k; cbn [run_cc].
  - unfold ycbcr_to_rgb_16_scalar. calm.
  - unfold ycbcr_to_rgb_sse_16, ycbcr_to_rgb_sse41. destruct (slice o p (p + 64)); [|exact I].
    destruct (cc_regs 8 (lo y) (lo cb) (lo cr)) as [[? ?] ?]. destruct (cc_regs 8 (hi y) (hi cb) (hi cr)) as [[? ?] ?].
    calm.
  - unfold ycbcr_to_rgb_avx2. destruct (cc_regs 16 y cb cr) as [[? ?] ?]. calm.
Qed.
Lemma calm_cc_groups k g : forall o p, calm (cc_groups k g o p).
Proof.
  induction g as [|[[y cb] cr] g IH]; intros; cbn [cc_groups]; [exact I|].
  apply calm_bind; [apply calm_cc|]. intros [? ?]. apply IH.
Qed.
Lemma calm_pad16 l : calm (pad16 l).
Proof. apply calm_put_slice. Qed.
Lemma calm_last16 l : calm (last16 l).
Proof. unfold last16. calm. Qed.
Lemma calm_cc_rows k w nc rows : forall st temp out, calm (cc_rows k w nc rows st temp out).
Proof.
  induction rows as [|[[y cb] cr] rows IH]; intros; cbn [cc_rows]; [exact I|]. cbv zeta.
  apply calm_bind; [apply calm_slice_|]. intros. destruct (w <? 16).
  - apply calm_bind.
    + unfold cc_row_narrow. repeat (apply calm_bind; [apply calm_pad16|intros]).
      apply calm_bind; [apply calm_cc|intros [? ?]]. calm.
    + intros [? ?]. apply IH.
  - apply calm_bind; [|intros; apply IH]. unfold cc_row_wide. cbv zeta.
    apply calm_bind; [apply calm_cc_groups|intros [? ?]].
    repeat (apply calm_bind; [apply calm_last16|intros]). apply calm_bind; [apply calm_cc|intros [? ?]]. exact I.
Qed.
Lemma calm_copy_rows rows : forall st out, calm (copy_rows rows st out).
Proof. induction rows; intros; cbn [copy_rows]; calm. auto. Qed.
Lemma calm_ycc_rows rows : forall a b c d, calm (ycc_rows rows a b c d).
Proof.
  induction rows as [|[[y cb] cr] rows IH]; intros; cbn [ycc_rows]; [exact I|]. cbv zeta.
  apply calm_bind; [apply calm_slice_|intros]. apply calm_bind; [apply calm_put_slice|intros]. apply IH.
Qed.
Lemma calm_idct_channels idct h v coeff comps : forall n z, calm (idct_channels n z idct h v coeff comps).
Proof.
  induction n as [|n IH]; intros; cbn [idct_channels]; [exact I|].
  apply calm_bind; [apply calm_at|intros]. apply calm_bind; [apply calm_at|intros].
  apply calm_bind; [apply calm_idct|intros]. apply calm_bind; [apply IH|intros]. exact I.
Qed.
Lemma calm_upsample_channels comps : forall chans i n, calm (upsample_channels i n comps chans).
Proof.
  induction chans as [|c chans IH]; intros; cbn [upsample_channels]; [exact I|].
  apply calm_bind; [apply calm_at|intros]. apply calm_bind; [apply calm_upsampler|intros].
  apply calm_bind; [apply IH|intros]. exact I.
Qed.
Lemma calm_post_process coeff comps idct cc ics ocs out w :
  calm (post_process coeff comps idct cc ics ocs out w).
Proof.
  unfold post_process, post_process_inner. apply calm_bind; [apply calm_at|intros c0]. cbv zeta.
  apply calm_bind; [apply calm_idct_channels|intros chans]. apply calm_bind; [apply calm_at|intros c0'].
  apply calm_bind.
  - destruct (_ || _); [|exact I]. destruct chans; [exact I|]. apply calm_bind; [apply calm_upsample_channels|intros]. exact I.
  - intros ch.
    assert (calm (ycbcr_to_grayscale (chan ch 0) w out)) as H1.
    { unfold ycbcr_to_grayscale. calm. apply calm_copy_rows. }
    assert (calm (ycbcr_to_ycbcr (chan ch 0) (chan ch 1) (chan ch 2) w (c_h c0') (c_v c0') out)) as H2.
    { unfold ycbcr_to_ycbcr. calm. apply calm_ycc_rows. }
    assert (calm (color_convert_ycbcr (chan ch 0) (chan ch 1) (chan ch 2) w (c_h c0') (c_v c0') ocs cc out)) as H3.
    { unfold color_convert_ycbcr. destruct (_ =? 0); [exact I|]. cbv zeta.
      repeat (apply calm_bind; [apply calm_chunks|intros]). apply calm_cc_rows. }
    destruct ics, ocs; auto; exact I.
Qed.
Lemma calm_run_jobs g jobs : calm (run_jobs g jobs).
Proof.
  induction jobs as [|c jobs IH]; cbn [run_jobs]; [exact I|].
  pose proof (calm_post_process c (g_comps g) (g_idct g) (g_cc g) (g_in g) (g_out g) (zrepeat 0 (g_chunk g)) (g_width g)) as H.
  destruct (post_process _ _ _ _ _ _ _ _); auto. destruct (run_jobs g jobs); auto.
Qed.
