(** Lemmas behind C08 and C09. *)
From Coq Require Import ZArith String List Bool Lia.
From Verif Require Import Base Types State Decoder Pool SpecSegments Session HeaderInv ApiFacts Jobs Sim Sched.
Import ListNotations.
Local Open Scope Z_scope.

Definition loose (w h scans : Z) (strict : bool) (o : options) : options :=
  set_strict_mode (set_max_scans (set_max_height (set_max_width o w) h) scans) strict.
Lemma loose_change w h scans strict : change (loose w h scans strict)
  (fun o => o_max_width o <= w /\ o_max_height o <= h /\ o_max_scans o <= scans /\ (strict = true -> o_strict o = true)) false.
Proof.
  constructor; cbn.
  - auto.
  - auto.
  - auto.
  - tauto.
  - tauto.
  - tauto.
  - tauto.
  - discriminate.
Qed.
Lemma C08_lemma d buf px d1 w h scans strict :
  decode_buffer d buf = (Ok px, d1) ->
  o_max_width (d_opt d) <= w -> o_max_height (d_opt d) <= h -> o_max_scans (d_opt d) <= scans ->
  (strict = true -> o_strict (d_opt d) = true) ->
  fst (decode_buffer (set_d_opt (loose w h scans strict (d_opt d)) d) buf) = Ok px.
Proof.
  intros E Hw Hh Hs Ht.
  pose proof (sim_decode_buffer _ _ _ (loose_change w h scans strict) d buf) as H. unfold phi, L in H. rewrite E in H.
  rewrite H; [reflexivity|auto|left; exact I].
Qed.
Lemma C08_new_lemma cpu o buf px d1 w h scans strict :
  decode_buffer (new_with_options cpu o) buf = (Ok px, d1) ->
  o_max_width o <= w -> o_max_height o <= h -> o_max_scans o <= scans -> (strict = true -> o_strict o = true) ->
  fst (decode_buffer (new_with_options cpu (loose w h scans strict o)) buf) = Ok px.
Proof.
  intros E Hw Hh Hs Ht.
  change (new_with_options cpu (loose w h scans strict o)) with
    (set_d_opt (loose w h scans strict (d_opt (new_with_options cpu o))) (new_with_options cpu o)).
  eapply C08_lemma; eauto.
Qed.
Lemma threads_change n : change (fun o => set_threads o n) (fun _ => True) true.
Proof. constructor; cbn; auto; intros; lia. Qed.
Lemma C09_threads_lemma d buf n : fst (decode_buffer (set_d_opt (set_threads (d_opt d) n) d) buf) = fst (decode_buffer d buf).
Proof.
  pose proof (sim_decode_buffer _ _ _ (threads_change n) d buf I (or_intror eq_refl)) as H. unfold phi in H. rewrite H. reflexivity.
Qed.
Definition in_turn := Sched.in_turn.
Definition in_turn_implements := Sched.in_turn_implements.
Lemma C09_schedules_lemma impl cpu o cs buf n n' :
  implements impl -> Forall legal_call cs -> Forall byte buf -> 1 <= n -> 1 <= n' ->
  let d k := set_d_opt (set_threads (d_opt (after cpu o cs)) k) (after cpu o cs) in
  (exists r, decode_buffer_sched impl (d n) buf r) /\
  forall r, decode_buffer_sched impl (d n) buf r ->
    agree r (fst (decode_buffer (after cpu o cs) buf)) /\
    forall r', decode_buffer_sched impl (d n') buf r' -> agree r r'.
Proof.
  intros Hi Hc Hb Hn Hn' d.
  assert (Hd : forall k, hinv (d k)) by (intros k; apply hinv_opt, after_inv, Hc).
  destruct (decode_sched_agree impl Hi (d n) buf (Hd n) Hb Hn) as [A B].
  destruct (decode_sched_agree impl Hi (d n') buf (Hd n') Hb Hn') as [_ B'].
  unfold d in B, B'. rewrite C09_threads_lemma in B, B'. split; [exact A|]. intros r Hr. split; [exact (B r Hr)|].
  intros r' Hr'. eapply agree_trans; [exact (B r Hr)|]. apply agree_sym. exact (B' r' Hr').
Qed.
Lemma C09_ends_lemma n c total ps : (1 <= n)%nat -> 0 < c -> Z.of_nat (length ps) * c <= total ->
  exists m : pool -> nat, forall s s',
    psteps n c (mkPool (map Waiting ps) (zrepeat 0 total)) s -> pstep n c s s' -> (m s' < m s)%nat.
Proof.
  intros Hn Hc Hf. exists (measure c ps). intros s s' Hs Hst.
  eapply (measure_step n c total ps Hn Hc Hf); [|exact Hst]. eapply inv_steps; eauto. eapply inv_start; eauto.
Qed.
