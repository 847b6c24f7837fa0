(** Theorems about options (C08) and threads (C09). *)
From Coq Require Import ZArith String List Bool Lia.
From Verif Require Import Base Types State Decoder Pool SpecSegments Session Files ExTools OptFacts.
Import ListNotations.
Local Open Scope Z_scope.

(** C08.  Whatever state a decoder is in: if it decodes a buffer, then so does the same decoder
    with larger limits, or with strict mode switched off, and the pixels are the same. *)
Definition loosen (o : options) (w h scans : Z) (strict : bool) : options :=
  set_strict_mode (set_max_scans (set_max_height (set_max_width o w) h) scans) strict.
Theorem C08_options : forall d buf px d1 w h scans strict,
  decode_buffer d buf = (Ok px, d1) ->
  o_max_width (d_opt d) <= w -> o_max_height (d_opt d) <= h -> o_max_scans (d_opt d) <= scans ->
  (strict = true -> o_strict (d_opt d) = true) ->
  fst (decode_buffer (set_d_opt (loosen (d_opt d) w h scans strict) d) buf) = Ok px.
Proof. exact C08_lemma. Qed.
Print Assumptions C08_options.
(** The same for new decoders *)
Theorem C08_new : forall cpu o buf px d1 w h scans strict,
  decode_buffer (new_with_options cpu o) buf = (Ok px, d1) ->
  o_max_width o <= w -> o_max_height o <= h -> o_max_scans o <= scans -> (strict = true -> o_strict o = true) ->
  fst (decode_buffer (new_with_options cpu (loosen o w h scans strict)) buf) = Ok px.
Proof. exact C08_new_lemma. Qed.
Print Assumptions C08_new.
Example C08_case :
  let o := loosen default_options 16 8 1 true in
  fst (decode_buffer (new_with_options Sse41 o) (gray_zero 8 16)) = Ok (repeat 128 128) /\
  fst (decode_buffer (new_with_options Sse41 o) (gray_zero 8 24)) <> Ok (repeat 128 192) /\
  fst (decode_buffer (new_with_options Sse41 (loosen o 24 8 1 false)) (gray_zero 8 24)) = Ok (repeat 128 192) /\
  o_max_width o <= 24 /\ o_max_height o <= 8 /\ o_max_scans o <= 1.
Proof.
  split; [vm_compute; reflexivity|]. split; [vm_compute; discriminate|]. split; [vm_compute; reflexivity|]. cbn. lia.
Qed.

(** C09, number of threads.  The thread count has no influence on a call, success or not. *)
Theorem C09_threads : forall d buf n,
  fst (decode_buffer (set_d_opt (set_threads (d_opt d) n) d) buf) = fst (decode_buffer d buf).
Proof. exact C09_threads_lemma. Qed.
Print Assumptions C09_threads.

(** C09, schedules.  The jobs may be any programs of single reads and writes that, alone, have
    the effect of [post_process].  However the pool interleaves them, and for every number of
    threads, some schedule comes to an end, and each one that does gives the same result (two
    panics count as the same). *)
Theorem C09_schedules : forall impl cpu o cs buf n n',
  implements impl -> Forall legal_call cs -> Forall byte buf -> 1 <= n -> 1 <= n' ->
  let d k := set_d_opt (set_threads (d_opt (after cpu o cs)) k) (after cpu o cs) in
  (exists r, decode_buffer_sched impl (d n) buf r) /\
  forall r, decode_buffer_sched impl (d n) buf r ->
    agree r (fst (decode_buffer (after cpu o cs) buf)) /\
    forall r', decode_buffer_sched impl (d n') buf r' -> agree r r'.
Proof. exact C09_schedules_lemma. Qed.
Print Assumptions C09_schedules.

(** No schedule goes on for ever: the accesses still to be made get fewer with every step *)
Theorem C09_ends : forall n c total ps, (1 <= n)%nat -> 0 < c -> Z.of_nat (length ps) * c <= total ->
  exists m : pool -> nat, forall s s',
    psteps n c (mkPool (map Waiting ps) (zrepeat 0 total)) s -> pstep n c s s' -> (m s' < m s)%nat.
Proof. exact C09_ends_lemma. Qed.
Print Assumptions C09_ends.

(** Programs as required exist: write the bytes of the result in order *)
Example C09_case : implements in_turn /\
  fst (decode_buffer (after Avx2 default_options []) (gray_zero 16 16)) = Ok (repeat 128 256).
Proof. split; [exact in_turn_implements|vm_compute; reflexivity]. Qed.

(** Two jobs on two threads, the second finishing first, one of them reading what it wrote *)
Example C09_interleaved :
  schedule 2 2 5 [PWrite 0 7 (PRead 0 (fun x => PWrite 1 (x + 1) PDone)); PWrite 1 9 PDone] (Ok [7; 8; 0; 9; 0]).
Proof.
  eexists. split; [|split].
  - eapply Ss_step; [eapply (St_start _ _ _ _ 0); [reflexivity|cbn; lia]|].
    eapply Ss_step; [eapply (St_start _ _ _ _ 1); [reflexivity|cbn; lia]|].
    eapply Ss_step; [eapply (St_write _ _ _ _ 0); [reflexivity|lia]|].
    eapply Ss_step; [eapply (St_write _ _ _ _ 1); [reflexivity|lia]|].
    eapply Ss_step; [eapply (St_done _ _ _ _ 1); reflexivity|].
    eapply Ss_step; [eapply (St_read _ _ _ _ 0); [reflexivity|lia|reflexivity]|].
    eapply Ss_step; [eapply (St_write _ _ _ _ 0); [reflexivity|lia]|].
    eapply Ss_step; [eapply (St_done _ _ _ _ 0); reflexivity|]. apply Ss_refl.
  - intros s' H. inversion H as [js m i p Hj|js m i Hj|js m i Hj|js m i off v k Hj|js m i off v k Hj|js m i off k x Hj|js m i off k Hj]; subst;
      destruct i as [|[|[]]]; discriminate Hj.
  - reflexivity.
Qed.
