(** Output formats without a conversion, and quantization tables that come too late. *)
From Coq Require Import ZArith String List Bool Lia.
From Coq Require Import ZifyBool ZifyNat ZifyN.
From Verif Require Import Base Types Huffman State Bitstream Headers Worker Mcu McuProg Decoder.
From Verif Require Import BaseFacts Sim.
Import ListNotations.
Local Open Scope Z_scope.
Local Open Scope m_scope.
Ltac Zify.zify_post_hook ::= Z.div_mod_to_equations.

(** * C61 *)
Definition inkless (c : colorspace) : Prop := c <> CMYK /\ c <> YCCK.
Lemma inkless_dec c : inkless c \/ c = CMYK \/ c = YCCK.
Proof. unfold inkless. destruct c; auto; left; split; discriminate. Qed.
Lemma ink_job coeff comps idct cc i c n w o : c = CMYK \/ c = YCCK ->
  post_process coeff comps idct cc i c (zrepeat 0 n) w = Ok o -> o = zrepeat 0 n.
Proof.
  intros Hc. unfold post_process, post_process_inner.
  destruct (at_ comps 0) as [c0| | |]; cbn [rbind]; try discriminate.
  destruct (idct_channels _ _ _ _ _ _ _) as [ch| | |]; cbn [rbind]; try discriminate.
  destruct (negb _ || negb _).
  - destruct ch as [|y rest].
    + destruct Hc as [-> | ->]; destruct i; cbn [rbind]; congruence.
    + destruct (upsample_channels _ _ _ _); cbn [rbind]; try discriminate.
      destruct Hc as [-> | ->]; destruct i; congruence.
  - destruct Hc as [-> | ->]; destruct i; cbn [rbind]; congruence.
Qed.
Lemma ink_jobs g : g_out g = CMYK \/ g_out g = YCCK -> forall js os, run_jobs g js = Ok os -> Forall (fun x => x = 0) (concat os).
Proof.
  intros Hg. induction js as [|j js IH]; intros os; cbn [run_jobs]; [injection 1 as <-; constructor|].
  destruct (post_process _ _ _ _ _ _ _ _) as [o| | |] eqn:E; try discriminate.
  destruct (run_jobs g js) as [os1| | |]; try discriminate. injection 1 as <-. cbn [concat]. apply Forall_app. split; [|now apply IH].
  apply ink_job in E; [|exact Hg]. subst o. apply Forall_forall. intros x Hx. now apply repeat_spec in Hx.
Qed.
Lemma ink_assemble os total n : Forall (fun x => x = 0) (concat os) -> Forall (fun x => x = 0) (assemble os total n).
Proof.
  intros H. unfold assemble. cbv zeta. set (l := (concat os ++ zrepeat 0 (total - zlen (concat os)))%list).
  assert (Hl : Forall (fun x => x = 0) l).
  { apply Forall_app. split; [exact H|]. apply Forall_forall. intros x Hx. now apply repeat_spec in Hx. }
  rewrite <- (firstn_skipn (Z.to_nat n) l) in Hl. apply Forall_app in Hl. apply Hl.
Qed.

Definition out_lim (o : options) : Prop := inkless (o_colorspace o).
Lemma out_change : change (fun o => o) out_lim true.
Proof. split; unfold out_lim; intros; auto; try lia. split; [|reflexivity]. split; discriminate. Qed.

Lemma ink_baseline h px h' : decode_baseline h = (Ok px, h') ->
  o_colorspace (d_opt (hd_dec h')) = CMYK \/ o_colorspace (d_opt (hd_dec h')) = YCCK -> Forall (fun x => x = 0) px.
Proof.
  intros E Hc. unfold decode_baseline in E.
  destruct (baseline_setup (hd_dec h)) as [[g| | |] d1] eqn:Eb; try discriminate.
  destruct (decode_rows g (mkMst d1 (bst_new (hd_rd h)) [] [])) as [r s] eqn:Er.
  destruct r as [[]| | |]; try discriminate.
  2:{ destruct (run_jobs g (rev (m_jobs s))); discriminate. }
  destruct (run_jobs g (rev (m_jobs s))) as [os| | |] eqn:Ej; try discriminate.
  apply pair_equal_spec in E. destruct E as [E <-]. apply (f_equal (fun r => match r with Ok x => x | _ => [] end)) in E. cbv beta iota in E. subst px.
  cbn [hd_dec] in Hc. apply ink_assemble. eapply ink_jobs; [|exact Ej].
  assert (Hg : g_out g = o_colorspace (d_opt d1)).
  { unfold baseline_setup in Eb. revert Eb. unfold bind, get, lift, ret. destruct (check_component_dimensions _); try discriminate.
    destruct (check_tables _); try discriminate.
    destruct ((if d_inter (hd_dec h) then set_upsampling else _) (hd_dec h)) as [[]?]; try discriminate.
    destruct (mcu_counts _) as [[w0 h0] b0].
    match goal with |- context [match ?m with (_, _) => _ end] => destruct m as [[[[w1 h1] b1]| | |] d2] end; try discriminate.
    destruct (at_ (d_comps d2) 0); try discriminate. cbv zeta. destruct (g_chunk _ =? 0); [discriminate|].
    intros Eb. apply pair_equal_spec in Eb. destruct Eb as [Eb <-].
    apply (f_equal (fun r => match r with Ok x => g_out x | _ => RGB end)) in Eb. cbv beta iota in Eb. rewrite <- Eb. reflexivity. }
  rewrite Hg. destruct (inkless_dec (o_colorspace (d_opt d1))) as [Hi|Hi]; [|exact Hi]. exfalso.
  assert (Hr : simr true (fm (fun o => o)) (Pm out_lim) (decode_rows g) (decode_rows g)).
  { unfold decode_rows. apply sim_mfor. intros i. now apply (sim_decode_row _ out_lim true out_change). }
  destruct (Hr (mkMst d1 (bst_new (hd_rd h)) [] []) Hi) as [G _]. rewrite Er in G. cbn [snd] in G. destruct G as [G1 G2].
  destruct Hc as [Hc|Hc]; [now apply G1|now apply G2].
Qed.

Lemma ink_finish w s px s' : finish_progressive_decoding w s = (Ok px, s') ->
  o_colorspace (d_opt (p_dec s')) = CMYK \/ o_colorspace (d_opt (p_dec s')) = YCCK -> Forall (fun x => x = 0) px.
Proof.
  unfold finish_progressive_decoding. unfold bind at 1, on_dec. destruct (finish_setup w (p_dec s)) as [[g| | |] d1] eqn:Eb; try discriminate.
  unfold bind, get, lift, ret. cbn [p_dec p_st p_buf].
  destruct (prog_jobs g d1 (p_buf s)) as [js| | |]; try discriminate.
  destruct (run_jobs g js) as [os| | |] eqn:Ej; try discriminate.
  intros E Hc. apply pair_equal_spec in E. destruct E as [E <-]. apply (f_equal (fun r => match r with Ok x => x | _ => [] end)) in E. cbv beta iota in E. subst px.
  cbn [p_dec] in Hc. apply ink_assemble. eapply ink_jobs; [|exact Ej].
  assert (Hg : g_out g = o_colorspace (d_opt d1)); [|now rewrite Hg].
  revert Eb. unfold finish_setup. unfold bind, get, lift, ret. destruct (set_upsampling (p_dec s)) as [[] d2]; try discriminate.
  match goal with |- context [match ?m with (_, _) => _ end] => destruct m as [[b1| | |] d3] end; try discriminate.
  destruct (at_ (d_comps d3) 0); try discriminate. cbv zeta.
  intros Eb. apply pair_equal_spec in Eb. destruct Eb as [Eb <-].
  apply (f_equal (fun r => match r with Ok x => g_out x | _ => RGB end)) in Eb. cbv beta iota in Eb. rewrite <- Eb. reflexivity.
Qed.
Lemma ink_scans w s px s' : progressive_scans w s = (Ok px, s') ->
  o_colorspace (d_opt (p_dec s')) = CMYK \/ o_colorspace (d_opt (p_dec s')) = YCCK -> Forall (fun x => x = 0) px.
Proof.
  unfold progressive_scans. unfold bind at 1. destruct (parse_entropy_coded_data s) as [[]s1]; try discriminate.
  unfold bind at 1, getps. destruct (b_marker (p_st s1)); [|discriminate].
  unfold bind at 1, modps. unfold bind. destruct (scan_loop _ _ _ _) as [[]s2]; try discriminate. apply ink_finish.
Qed.
Lemma ink_out d buf px d' : decode_buffer d buf = (Ok px, d') ->
  get_output_colorspace d' = CMYK \/ get_output_colorspace d' = YCCK -> Forall (fun x => x = 0) px.
Proof.
  unfold decode_buffer, on_buffer, get_output_colorspace. destruct (decode_internal (mkHst d buf)) as [r h] eqn:E.
  intros E1. apply pair_equal_spec in E1. destruct E1 as [-> <-]. revert E.
  unfold decode_internal. unfold bind at 1. destruct (decode_headers (mkHst d buf)) as [[] h1]; try discriminate.
  unfold bind at 1, getd. destruct (d_prog (hd_dec h1)); [|apply ink_baseline].
  unfold decode_progressive. cbv zeta. destruct (prog_counts (hd_dec h1)) as [w hh].
  destruct (rbind _ _) as [b| | |]; try discriminate.
  destruct (progressive_scans w _) as [r2 s2] eqn:E2. intros E1. apply pair_equal_spec in E1. destruct E1 as [-> <-].
  cbn [hd_dec]. eapply ink_scans. exact E2.
Qed.
