(** Lemmas about restart markers. *)
From Coq Require Import ZArith String List Bool Lia.
From Coq Require Import ZifyBool ZifyNat ZifyN.
From Verif Require Import Base Types State Bitstream Mcu SpecSegments SpecBits Obs.
From Verif Require Import BaseFacts BitReader Refill Reader Feed.
Import ListNotations.
Local Open Scope Z_scope.
Ltac Zify.zify_post_hook ::= Z.div_mod_to_equations.

Definition par (s : bst) := (b_ah s, b_al s, b_ss s, b_se s).
Lemma refill_byte_par s : par (snd (refill_byte s)) = par s.
Proof.
  unfold refill_byte. destruct (read_u8 (b_rd s)) as [byte rd]. destruct (byte =? 255); [|reflexivity].
  destruct (read_u8 rd) as [n0 rd0]. destruct (if n0 =? 255 then skip_ff rd0 else (n0, rd0)) as [n rd'].
  destruct (n =? 0); [reflexivity|]. cbv zeta. destruct (marker_from_u8 n); reflexivity.
Qed.
Lemma bind_par {A B} (m : M bst A) (k : A -> M bst B) s :
  par (snd (m s)) = par s -> (forall a t, par (snd (k a t)) = par t) -> par (snd (bind m k s)) = par s.
Proof.
  intros Hm Hk. unfold bind. destruct (m s) as [r t]. cbn [snd] in Hm. destruct r; cbn [snd]; auto.
  rewrite Hk. exact Hm.
Qed.
Lemma refill_slow_par s : par (snd (refill_slow s)) = par s.
Proof.
  unfold refill_slow.
  do 4 (apply bind_par; [apply refill_byte_par|intros [] ?; cbn [negb]; [|reflexivity]; try reflexivity]).
Qed.
Lemma refill_par s : par (snd (refill s)) = par s.
Proof.
  unfold refill. destruct (b_marker s); [reflexivity|]. destruct (b_left s <=? 32); [|reflexivity].
  destruct (b_rd s) as [|b0 [|b1 [|b2 [|b3 [|b4 rd]]]]]; try apply refill_slow_par.
  cbv zeta. destruct (has_byte _ _); [apply refill_slow_par|reflexivity].
Qed.
Lemma run_ops_par os : forall s, par (snd (run_ops os s)) = par s.
Proof.
  induction os as [|o os IH]; intros s; [reflexivity|]. cbn [run_ops]. apply bind_par.
  - destruct o; try reflexivity. cbn [run_op]. apply bind_par; [apply refill_par|]. reflexivity.
  - intros a t. apply bind_par; [apply IH|]. reflexivity.
Qed.

Lemma C35_resync_lemma rd os s n rest d :
  Forall byte rd -> 0 <= n < 8 -> snd (entropy rd) = AtMarker (208 + n) rest ->
  legal_ops 0 (length (scan_bits rd)) os ->
  run_ops os (bst_new rd) = (Ok (fst (spec_ops os (scan_bits rd))), s) ->
  (length (snd (spec_ops os (scan_bits rd))) < 32)%nat ->
  d_todo d = 1 ->
  exists s' d', refill s = (Ok tt, s') /\ tick d s' = (Ok tt, d', bst_new rest) /\
    d_todo d' = d_ri d /\ Forall (fun c => c_pred c = 0) (d_comps d') /\
    length (d_comps d') = length (d_comps d) /\
    set_d_todo 0 (set_d_comps [] d') = set_d_todo 0 (set_d_comps [] d).
Proof.
  intros Hb Hn He Hl Hr Hlt Ht.
  assert (marker_from_u8 (208 + n) = Some (RST n)) as Hm.
  { assert (n = 0 \/ n = 1 \/ n = 2 \/ n = 3 \/ n = 4 \/ n = 5 \/ n = 6 \/ n = 7) as Hc by lia.
    repeat (destruct Hc as [->|Hc]; [reflexivity|]). now subst n. }
  destruct (feed_marker rd os s _ rest Hb He ltac:(congruence) Hl Hr Hlt) as (s' & Es & Em & Er).
  rewrite Hm in Em.
  assert (b_ah s' = 0 /\ b_al s' = 0 /\ b_ss s' = 0 /\ b_se s' = 0) as (P1 & P2 & P3 & P4).
  { pose proof (run_ops_par os (bst_new rd)) as P. rewrite Hr in P. cbn [snd] in P.
    pose proof (refill_par s) as Q. rewrite Es in Q. cbn [snd] in Q. rewrite P in Q. unfold par in Q. cbn in Q.
    injection Q as -> -> -> ->. auto. }
  exists s'. eexists. split; [exact Es|]. split.
  - unfold tick, handle_rst. replace (d_todo (set_d_todo _ d)) with (u64 (d_todo d - 1)) by reflexivity.
    rewrite Ht. change (u64 (1 - 1) =? 0) with true. cbv iota zeta. rewrite Em. cbv iota.
    f_equal. unfold bst_reset, bst_new. congruence.
  - destruct d. cbn in *. split; [reflexivity|]. split; [|split; [apply map_length|reflexivity]].
    apply Forall_forall. intros c Hc. apply in_map_iff in Hc. destruct Hc as (c' & <- & _). now destruct c'.
Qed.
