(** Every schedule of the worker threads gives the result of running the jobs in order. *)
From Coq Require Import ZArith String List Bool Lia.
From Coq Require Import ZifyBool ZifyNat ZifyN.
From Verif Require Import Base Types Huffman State Bitstream Headers Worker Mcu McuProg Decoder Pool.
From Verif Require Import BaseFacts WorkerSafe.
Import ListNotations.
Local Open Scope Z_scope.

(** * Updates of a list *)
Lemma nupd_length {A} (l : list A) : forall n x, length (nupd l n x) = length l.
Proof. induction l; intros [|n] x; cbn [nupd length]; congruence. Qed.
Lemma nth_nupd {A} (l : list A) : forall n x k, nth_error (nupd l n x) k =
  if Nat.eqb k n then match nth_error l n with Some _ => Some x | None => None end else nth_error l k.
Proof.
  induction l as [|a l IH]; intros [|n] x [|k]; cbn [nupd nth_error Nat.eqb]; try reflexivity.
  - now destruct (Nat.eqb k n).
  - apply IH.
Qed.
Lemma skipn_nupd {A} (l : list A) : forall k n x, skipn k (nupd l n x) = if Nat.ltb n k then skipn k l else nupd (skipn k l) (n - k) x.
Proof.
  induction l as [|a l IH]; intros k n x.
  - rewrite skipn_nil. cbn [nupd]. rewrite skipn_nil. destruct (Nat.ltb n k); destruct (n - k)%nat; reflexivity.
  - destruct k; [rewrite Nat.sub_0_r; reflexivity|]. destruct n; [reflexivity|]. cbn [nupd skipn]. rewrite IH.
    change (S n - S k)%nat with (n - k)%nat. change (S n <? S k)%nat with (n <? k)%nat. reflexivity.
Qed.
Lemma firstn_nupd {A} (l : list A) : forall k n x, firstn k (nupd l n x) = if Nat.leb k n then firstn k l else nupd (firstn k l) n x.
Proof.
  induction l as [|a l IH]; intros [|k] [|n] x; cbn [nupd firstn Nat.leb]; try reflexivity.
  - destruct (Nat.leb k n); reflexivity.
  - rewrite IH. destruct (Nat.leb k n); reflexivity.
Qed.

(** * The part of the memory that belongs to a job *)
Definition piece (c : Z) (i : nat) (m : list Z) : list Z := firstn (Z.to_nat c) (skipn (i * Z.to_nat c) m).
Definition beyond (c : Z) (n : nat) (m : list Z) : list Z := skipn (n * Z.to_nat c) m.

Lemma piece_set c i off v m : 0 <= off < c -> piece c i (zset m (Z.of_nat i * c + off) v) = zset (piece c i m) off v.
Proof.
  intros H. unfold piece, zset. rewrite skipn_nupd.
  assert (E : (Z.to_nat (Z.of_nat i * c + off) = i * Z.to_nat c + Z.to_nat off)%nat) by nia.
  rewrite E. replace (_ <? _)%nat with false by lia. replace (_ - _)%nat with (Z.to_nat off) by lia.
  rewrite firstn_nupd. replace (_ <=? _)%nat with false by lia. reflexivity.
Qed.
Lemma piece_other c i j off v m : 0 <= off < c -> i <> j -> piece c j (zset m (Z.of_nat i * c + off) v) = piece c j m.
Proof.
  intros H Hij. unfold piece, zset. rewrite skipn_nupd.
  assert (E : (Z.to_nat (Z.of_nat i * c + off) = i * Z.to_nat c + Z.to_nat off)%nat) by nia. rewrite E.
  destruct (Nat.ltb_spec (i * Z.to_nat c + Z.to_nat off) (j * Z.to_nat c)); [reflexivity|].
  rewrite firstn_nupd. replace (_ <=? _)%nat with true; [reflexivity|]. symmetry. apply Nat.leb_le. nia.
Qed.
Lemma beyond_set c i n off v m : 0 <= off < c -> (i < n)%nat -> beyond c n (zset m (Z.of_nat i * c + off) v) = beyond c n m.
Proof.
  intros H Hi. unfold beyond, zset. rewrite skipn_nupd.
  replace (_ <? _)%nat with true; [reflexivity|]. symmetry. apply Nat.ltb_lt. nia.
Qed.
Lemma piece_length c i n m : 0 < c -> (i < n)%nat -> (n * Z.to_nat c <= length m)%nat -> length (piece c i m) = Z.to_nat c.
Proof. intros Hc Hi Hl. unfold piece. rewrite firstn_length, skipn_length. nia. Qed.
Lemma nth_error_take {A} (l : list A) : forall n k, (k < n)%nat -> nth_error (firstn n l) k = nth_error l k.
Proof. induction l; intros [|n] [|k] H; cbn [firstn nth_error]; try reflexivity; try lia. apply IHl. lia. Qed.
Lemma nth_error_drop {A} (l : list A) : forall n k, nth_error (skipn n l) k = nth_error l (n + k).
Proof. induction l; intros [|n] k; cbn [skipn nth_error Nat.add]; try reflexivity; [now destruct k|apply IHl]. Qed.
Lemma zget_piece c i m off : 0 <= off < c -> zget (piece c i m) off = zget m (Z.of_nat i * c + off).
Proof.
  intros Hc. unfold zget, piece. replace (off <? 0) with false by lia. replace (_ <? 0) with false by nia.
  replace (Z.to_nat (Z.of_nat i * c + off)) with (i * Z.to_nat c + Z.to_nat off)%nat by nia.
  rewrite nth_error_take by lia. apply nth_error_drop.
Qed.
Lemma zget_in (l : list Z) off : 0 <= off < zlen l -> exists x, zget l off = Some x.
Proof.
  intros H. unfold zget, zlen in *. replace (off <? 0) with false by lia.
  destruct (nth_error l (Z.to_nat off)) eqn:E; [eauto|]. apply nth_error_None in E. lia.
Qed.
Lemma zget_out (l : list Z) off : ~ 0 <= off < zlen l -> zget l off = None.
Proof.
  intros H. unfold zget, zlen in *. destruct (Z.ltb_spec off 0); [reflexivity|]. apply nth_error_None. lia.
Qed.
Lemma agree_refl {A} (r : res A) : agree r r.
Proof. destruct r; cbn; auto. Qed.
Lemma agree_trans {A} (x y z : res A) : agree x y -> agree y z -> agree x z.
Proof. destruct x, y; cbn; intros H; try discriminate; try (injection H as ->); auto; destruct z; cbn; intros; try discriminate; auto. Qed.
Lemma agree_sym {A} (x y : res A) : agree x y -> agree y x.
Proof. destruct x, y; cbn; intros H; try discriminate; auto. Qed.

(** * What a job has still to do *)
Definition remaining (j : jstate) (ch : list Z) : res (list Z) :=
  match j with
  | Waiting p | Running p => exec p ch
  | Finished => Ok ch
  | Crashed => Panic "worker panicked"
  end.
Fixpoint accesses (p : prog) (ch : list Z) : nat :=
  match p with
  | PDone | PCrash => O
  | PWrite off v k => match zget ch off with Some _ => S (accesses k (zset ch off v)) | None => O end
  | PRead off k => match zget ch off with Some x => S (accesses (k x) ch) | None => O end
  end.
Definition left_over (j : jstate) (ch : list Z) : nat :=
  match j with
  | Waiting p => 2 + accesses p ch
  | Running p => 1 + accesses p ch
  | _ => O
  end.

Section Pool.
Variables (n : nat) (c total : Z) (ps : list prog).
Hypothesis Hn : (1 <= n)%nat.
Hypothesis Hc : 0 < c.
Hypothesis Hfit : Z.of_nat (length ps) * c <= total.
Definition N := length ps.

Record inv (s : pool) : Prop := {
  in_jobs : length (pl_jobs s) = N;
  in_mem : length (pl_mem s) = Z.to_nat total;
  in_job : forall i j p, nth_error (pl_jobs s) i = Some j -> nth_error ps i = Some p ->
    agree (remaining j (piece c i (pl_mem s))) (exec p (zrepeat 0 c));
  in_rest : beyond c N (pl_mem s) = zrepeat 0 (total - Z.of_nat N * c) }.

Lemma piece_len i m : (i < N)%nat -> length m = Z.to_nat total -> zlen (piece c i m) = c.
Proof. intros Hi Hm. unfold zlen. rewrite (piece_length c i N) by (unfold N in *; nia). lia. Qed.

Lemma inv_start : inv (mkPool (map Waiting ps) (zrepeat 0 total)).
Proof.
  constructor; cbn [pl_jobs pl_mem].
  - apply map_length.
  - unfold zrepeat. apply repeat_length.
  - intros i j p Hj Hp. rewrite nth_error_map, Hp in Hj. cbn [option_map] in Hj. injection Hj as <-. cbn [remaining].
    replace (piece c i (zrepeat 0 total)) with (zrepeat 0 c); [apply agree_refl|].
    assert (i < N)%nat by (unfold N; apply nth_error_Some; congruence). unfold piece, zrepeat.
    replace (Z.to_nat total) with (i * Z.to_nat c + (Z.to_nat c + (Z.to_nat total - i * Z.to_nat c - Z.to_nat c)))%nat by (unfold N in *; nia).
    rewrite repeat_app. rewrite skipn_app, repeat_length, Nat.sub_diag. rewrite skipn_all2 by (rewrite repeat_length; lia).
    cbn [app skipn]. rewrite repeat_app, firstn_app, repeat_length, Nat.sub_diag, firstn_O, app_nil_r.
    rewrite firstn_all2 by (rewrite repeat_length; lia). reflexivity.
  - unfold beyond, zrepeat. replace (Z.to_nat total) with (N * Z.to_nat c + Z.to_nat (total - Z.of_nat N * c))%nat by (unfold N in *; nia).
    rewrite repeat_app, skipn_app, repeat_length, Nat.sub_diag. rewrite skipn_all2 by (rewrite repeat_length; lia). reflexivity.
Qed.

(** Replacing the state of job [i] and what it wrote *)
Lemma inv_upd s i j j' m' : inv s -> nth_error (pl_jobs s) i = Some j ->
  length m' = length (pl_mem s) -> (forall k, k <> i -> piece c k m' = piece c k (pl_mem s)) ->
  beyond c N m' = beyond c N (pl_mem s) ->
  agree (remaining j' (piece c i m')) (remaining j (piece c i (pl_mem s))) ->
  inv (mkPool (nupd (pl_jobs s) i j') m').
Proof.
  intros [I1 I2 I3 I4] Hj Hl Ho Hb Ha. constructor; cbn [pl_jobs pl_mem].
  - now rewrite nupd_length.
  - congruence.
  - intros k jk p Hk Hp. rewrite nth_nupd in Hk. destruct (Nat.eqb_spec k i) as [->|Hki].
    + rewrite Hj in Hk. injection Hk as <-. eapply agree_trans; [exact Ha|]. eapply I3; eauto.
    + rewrite Ho by assumption. eapply I3; eauto.
  - congruence.
Qed.
Lemma job_lt s i j : inv s -> nth_error (pl_jobs s) i = Some j -> (i < N)%nat.
Proof. intros I H. rewrite <- (in_jobs s I). apply nth_error_Some. congruence. Qed.

Lemma inv_step s s' : inv s -> pstep n c s s' -> inv s'.
Proof.
  intros I H. pose proof (in_mem s I) as Hm.
  inversion H as [js m i p Hj Ho|js m i Hj|js m i Hj|js m i off v k Hj Ho|js m i off v k Hj Ho|js m i off k x Hj Ho Hx|js m i off k Hj Ho]; subst s s';
    cbn [pl_jobs pl_mem] in *; pose proof (job_lt _ _ _ I Hj) as Hi; pose proof (piece_len i m Hi Hm) as Hpl.
  - apply (inv_upd _ i _ _ m I Hj); auto. apply agree_refl.
  - apply (inv_upd _ i _ _ m I Hj); auto. apply agree_refl.
  - apply (inv_upd _ i _ _ m I Hj); auto. exact Logic.I.
  - apply (inv_upd _ i _ _ _ I Hj); cbn [pl_mem].
    + apply zset_length.
    + intros k' Hk'. apply piece_other; auto.
    + apply beyond_set; auto.
    + rewrite piece_set by assumption. cbn [remaining exec]. destruct (zget_in (piece c i m) off) as [y ->]; [lia|]. apply agree_refl.
  - apply (inv_upd _ i _ _ m I Hj); auto. cbn [remaining exec pl_mem]. rewrite zget_out by lia. exact Logic.I.
  - apply (inv_upd _ i _ _ m I Hj); auto. cbn [remaining exec pl_mem]. rewrite zget_piece, Hx by assumption. apply agree_refl.
  - apply (inv_upd _ i _ _ m I Hj); auto. cbn [remaining exec pl_mem]. rewrite zget_out by lia. exact Logic.I.
Qed.
Lemma inv_steps s s' : psteps n c s s' -> inv s -> inv s'.
Proof. induction 1 as [s|s1 s2 s3 H1 H2 IH]; intros I; [exact I|]. apply IH. eapply inv_step; eauto. Qed.

(** A running job can always go on *)
Lemma running_steps s i p : inv s -> nth_error (pl_jobs s) i = Some (Running p) -> exists s', pstep n c s s'.
Proof.
  intros I Hj. pose proof (job_lt _ _ _ I Hj) as Hi. pose proof (in_mem s I) as Hm. destruct s as [js m]. cbn [pl_jobs pl_mem] in *.
  pose proof (piece_len i m Hi Hm) as Hpl. destruct p as [| |off v k|off k].
  - eexists. eapply St_done; eauto.
  - eexists. eapply St_crash; eauto.
  - destruct (Z_le_dec 0 off), (Z_lt_dec off c).
    + eexists. eapply St_write; eauto.
    + eexists. eapply St_write_out; eauto. lia.
    + eexists. eapply St_write_out; eauto. lia.
    + eexists. eapply St_write_out; eauto. lia.
  - destruct (Z_le_dec 0 off), (Z_lt_dec off c).
    + destruct (zget_in (piece c i m) off) as [x Hx]; [lia|]. rewrite zget_piece in Hx by lia. eexists. eapply St_read; eauto.
    + eexists. eapply St_read_out; eauto. lia.
    + eexists. eapply St_read_out; eauto. lia.
    + eexists. eapply St_read_out; eauto. lia.
Qed.

(** ** The end of a schedule *)
Lemma ended_finished s : inv s -> ended n c s -> existsb crashed (pl_jobs s) = false ->
  forall i j, nth_error (pl_jobs s) i = Some j -> j = Finished.
Proof.
  intros I He Hc'. assert (Hno : forall i p, nth_error (pl_jobs s) i <> Some (Running p)).
  { intros i p Hj. destruct (running_steps s i p I Hj) as [s' Hs]. exact (He s' Hs). }
  assert (Hnc : forall i, nth_error (pl_jobs s) i <> Some Crashed).
  { intros i Hj. apply nth_error_In in Hj. assert (existsb crashed (pl_jobs s) = true); [|congruence].
    apply existsb_exists. exists Crashed. auto. }
  intros i j Hj. destruct j as [p|p| |]; [|exfalso; exact (Hno i p Hj)|reflexivity|exfalso; exact (Hnc i Hj)].
  exfalso. destruct s as [js m]. cbn [pl_jobs] in *. apply (He (mkPool (nupd js i (Running p)) m)). apply St_start; [exact Hj|].
  replace (filter occupies js) with (@nil jstate); [cbn; lia|]. symmetry.
  clear - Hno Hnc. induction js as [|x js IH]; [reflexivity|]. cbn [filter].
  rewrite IH; [|intros i p; apply (Hno (S i) p)|intros i; apply (Hnc (S i))].
  destruct x as [p|p| |]; try reflexivity; [destruct (Hno O p eq_refl)|destruct (Hnc O eq_refl)].
Qed.

Lemma split_pieces m : length m = Z.to_nat total -> m = (concat (map (fun i => piece c i m) (seq 0 N)) ++ beyond c N m)%list.
Proof.
  intros _. clear Hfit. assert (H : forall k, m = (concat (map (fun i => piece c i m) (seq 0 k)) ++ beyond c k m)%list).
  { induction k; [reflexivity|]. rewrite seq_S, map_app, concat_app, <- app_assoc. cbn [map concat Nat.add app]. rewrite app_nil_r.
    rewrite IHk at 1. f_equal. unfold piece, beyond. rewrite <- (firstn_skipn (Z.to_nat c) (skipn (k * Z.to_nat c) m)) at 1. f_equal.
    rewrite skipn_skipn. f_equal. lia. }
  apply H.
Qed.

Lemma outcome_ok s : inv s -> ended n c s -> existsb crashed (pl_jobs s) = false ->
  forall i p, nth_error ps i = Some p -> exec p (zrepeat 0 c) = Ok (piece c i (pl_mem s)).
Proof.
  intros I He Hcr i p Hp. destruct (nth_error (pl_jobs s) i) as [j|] eqn:Ej.
  - pose proof (ended_finished s I He Hcr i j Ej) as ->. pose proof (in_job s I i _ p Ej Hp) as H. cbn [remaining agree] in H. now symmetry.
  - apply nth_error_None in Ej. rewrite (in_jobs s I) in Ej. assert (i < N)%nat by (unfold N; apply nth_error_Some; congruence). lia.
Qed.
Lemma outcome_crash s : inv s -> existsb crashed (pl_jobs s) = true ->
  exists i p, nth_error ps i = Some p /\ agree (exec p (zrepeat 0 c)) (Panic "").
Proof.
  intros I H. apply existsb_exists in H. destruct H as (j & Hj & Hcr). destruct j; try discriminate.
  apply In_nth_error in Hj. destruct Hj as [i Hi]. pose proof (job_lt _ _ _ I Hi) as Hl.
  destruct (nth_error ps i) as [p|] eqn:Ep; [|apply nth_error_None in Ep; unfold N in *; lia].
  exists i, p. split; [exact Ep|]. pose proof (in_job s I i _ p Hi Ep) as Ha. cbn [remaining] in Ha.
  destruct (exec p (zrepeat 0 c)); cbn in *; try discriminate; exact Logic.I.
Qed.

(** ** Every schedule comes to an end *)
Definition measure (s : pool) : nat :=
  list_sum (map (fun i => match nth_error (pl_jobs s) i with Some j => left_over j (piece c i (pl_mem s)) | None => O end) (seq 0 N)).

Lemma sum_less (f g : nat -> nat) i : forall k a, (forall x, x <> i -> g x = f x) -> (g i < f i)%nat -> (a <= i < a + k)%nat ->
  (list_sum (map g (seq a k)) < list_sum (map f (seq a k)))%nat.
Proof.
  induction k; intros a Ho Hi Ha; [lia|]. cbn [seq map list_sum fold_right].
  assert (Hle : forall k a, ~ (a <= i < a + k)%nat -> list_sum (map g (seq a k)) = list_sum (map f (seq a k))).
  { clear - Ho. induction k; intros a Ha; [reflexivity|]. cbn [seq map list_sum fold_right]. f_equal; [apply Ho; lia|]. apply IHk. lia. }
  unfold list_sum in *. destruct (Nat.eq_dec a i) as [->|Hne].
  - rewrite Hle by lia. lia.
  - rewrite (Ho a) by assumption. specialize (IHk (S a) Ho Hi ltac:(lia)). lia.
Qed.
Lemma measure_upd s i j j' m' : inv s -> nth_error (pl_jobs s) i = Some j ->
  (forall k, k <> i -> piece c k m' = piece c k (pl_mem s)) ->
  (left_over j' (piece c i m') < left_over j (piece c i (pl_mem s)))%nat ->
  (measure (mkPool (nupd (pl_jobs s) i j') m') < measure s)%nat.
Proof.
  intros I Hj Ho Hlt. pose proof (job_lt _ _ _ I Hj) as Hi. unfold measure. cbn [pl_jobs pl_mem]. apply sum_less with (i := i); [| |lia].
  - intros k Hk. rewrite nth_nupd. destruct (Nat.eqb_spec k i); [contradiction|]. destruct (nth_error (pl_jobs s) k); [|reflexivity].
    rewrite Ho by assumption. reflexivity.
  - rewrite nth_nupd, Nat.eqb_refl, Hj. exact Hlt.
Qed.
Lemma measure_step s s' : inv s -> pstep n c s s' -> (measure s' < measure s)%nat.
Proof.
  intros I H. pose proof (in_mem s I) as Hm.
  inversion H as [js m i p Hj Ho|js m i Hj|js m i Hj|js m i off v k Hj Ho|js m i off v k Hj Ho|js m i off k x Hj Ho Hx|js m i off k Hj Ho]; subst s s';
    cbn [pl_jobs pl_mem] in *; pose proof (job_lt _ _ _ I Hj) as Hi; pose proof (piece_len i m Hi Hm) as Hpl.
  - apply (measure_upd _ i _ _ m I Hj); auto.
  - apply (measure_upd _ i _ _ m I Hj); auto.
  - apply (measure_upd _ i _ _ m I Hj); auto.
  - apply (measure_upd _ i _ _ _ I Hj); cbn [pl_mem].
    + intros k' Hk'. apply piece_other; auto.
    + rewrite piece_set by assumption. cbn [left_over accesses]. destruct (zget_in (piece c i m) off) as [y ->]; lia.
  - apply (measure_upd _ i _ _ m I Hj); auto. cbn [left_over]. lia.
  - apply (measure_upd _ i _ _ m I Hj); auto. cbn [left_over accesses pl_mem]. rewrite zget_piece, Hx by assumption. lia.
  - apply (measure_upd _ i _ _ m I Hj); auto. cbn [left_over]. lia.
Qed.

Lemma can_step s : inv s -> (exists s', pstep n c s s') \/ ended n c s.
Proof.
  intros I. assert (Hr : (exists i p, nth_error (pl_jobs s) i = Some (Running p)) \/ forall i p, nth_error (pl_jobs s) i <> Some (Running p)).
  { generalize (pl_jobs s). clear. induction l as [|x l IH]; [right; intros [|i]; discriminate|].
    destruct IH as [(i & p & H)|H]; [left; exists (S i), p; exact H|].
    destruct x as [p|p| |]; [right|left; exists O, p; reflexivity|right|right]; intros [|i] q; cbn [nth_error]; try discriminate; apply H. }
  destruct Hr as [(i & p & H)|Hr]; [left; eapply running_steps; eauto|].
  assert (Hw : (exists i p, nth_error (pl_jobs s) i = Some (Waiting p)) \/ forall i p, nth_error (pl_jobs s) i <> Some (Waiting p)).
  { generalize (pl_jobs s). clear. induction l as [|x l IH]; [right; intros [|i]; discriminate|].
    destruct IH as [(i & p & H)|H]; [left; exists (S i), p; exact H|].
    destruct x as [p|p| |]; [left; exists O, p; reflexivity|right|right|right]; intros [|i] q; cbn [nth_error]; try discriminate; apply H. }
  destruct (lt_dec (length (filter occupies (pl_jobs s))) n) as [Hl|Hl].
  - destruct Hw as [(i & p & H)|Hw].
    + left. destruct s as [js m]. eexists. eapply St_start; eauto.
    + right. intros s' Hs. inversion Hs; subst; cbn [pl_jobs] in *; try (eapply Hr; eassumption); eapply Hw; eassumption.
  - right. intros s' Hs. inversion Hs; subst; cbn [pl_jobs] in *; try (eapply Hr; eassumption). contradiction.
Qed.
Lemma comes_to_end : forall k s, (measure s <= k)%nat -> inv s -> exists s', psteps n c s s' /\ ended n c s'.
Proof.
  induction k; intros s Hk I; (destruct (can_step s I) as [[s1 H1]|He]; [|exists s; split; [constructor|exact He]]).
  - pose proof (measure_step _ _ I H1). lia.
  - destruct (IHk s1) as (s' & Hs & He); [pose proof (measure_step _ _ I H1); lia|eapply inv_step; eauto|].
    exists s'. split; [econstructor; eauto|exact He].
Qed.
End Pool.

(** * The jobs of an image *)
Section Image.
Variable impl : geom -> list (list Z) -> prog.
Hypothesis Himpl : implements impl.

Definition whole (g : geom) (total : Z) (r : res (list (list Z))) : res (list Z) :=
  match r with
  | Ok os => Ok (concat os ++ zrepeat 0 (total - zlen (concat os)))%list
  | Err e => Err e | Panic p => Panic p | Fuel => Fuel
  end.

Lemma run_jobs_ok g jobs os : (forall i co, nth_error jobs i = Some co -> exists o, nth_error os i = Some o /\
    exec (impl g co) (zrepeat 0 (g_chunk g)) = Ok o) -> length os = length jobs -> run_jobs g jobs = Ok os.
Proof.
  revert os. induction jobs as [|co jobs IH]; intros os H Hl; destruct os as [|o os]; try discriminate; [reflexivity|].
  cbn [run_jobs]. destruct (H O co eq_refl) as (o' & E1 & E2). injection E1 as <-.
  pose proof (Himpl g co) as Ha. rewrite E2 in Ha. cbn [agree] in Ha. rewrite <- Ha.
  rewrite (IH os); [reflexivity| |now injection Hl].
  intros i c Hi. exact (H (S i) c Hi).
Qed.
Lemma run_jobs_crash g jobs i co : nth_error jobs i = Some co -> agree (exec (impl g co) (zrepeat 0 (g_chunk g))) (Panic "") ->
  agree (run_jobs g jobs) (Panic "").
Proof.
  revert i. induction jobs as [|co' jobs IH]; intros i Hi Ha; [destruct i; discriminate|]. cbn [run_jobs].
  pose proof (calm_post_process co' (g_comps g) (g_idct g) (g_cc g) (g_in g) (g_out g) (zrepeat 0 (g_chunk g)) (g_width g)) as Hcalm.
  destruct i as [|i].
  - injection Hi as ->. pose proof (Himpl g co) as Hp.
    destruct (exec (impl g co) _); try discriminate Ha. destruct (post_process _ _ _ _ _ _ _ _); try discriminate Hp. exact I.
  - specialize (IH i Hi Ha). destruct (post_process _ _ _ _ _ _ _ _); try contradiction; [|exact I].
    destruct (run_jobs g jobs); try discriminate IH. exact I.
Qed.

Lemma schedule_agree n g total jobs r : (1 <= n)%nat -> 0 < g_chunk g -> zlen jobs * g_chunk g <= total ->
  schedule n (g_chunk g) total (map (impl g) jobs) r -> agree r (whole g total (run_jobs g jobs)).
Proof.
  intros Hn Hc Hfit (s & Hs & He & ->). set (c := g_chunk g) in *. set (ps := map (impl g) jobs) in *.
  assert (Hlp : length ps = length jobs) by apply map_length.
  assert (Hf : Z.of_nat (length ps) * c <= total) by (unfold zlen in Hfit; now rewrite Hlp).
  pose proof (inv_steps n c total ps Hn Hc Hf _ _ Hs (inv_start n c total ps Hn Hc Hf)) as I.
  assert (Hnth : forall i co, nth_error jobs i = Some co -> nth_error ps i = Some (impl g co)).
  { intros i co Hi. unfold ps. now rewrite nth_error_map, Hi. }
  unfold outcome. destruct (existsb crashed (pl_jobs s)) eqn:Ecr.
  - destruct (outcome_crash n c total ps Hn s I Ecr) as (i & p & Hp & Ha).
    unfold ps in Hp. rewrite nth_error_map in Hp. destruct (nth_error jobs i) as [co|] eqn:Ej; [|discriminate].
    injection Hp as <-. pose proof (run_jobs_crash g jobs i co Ej Ha) as Hr. destruct (run_jobs g jobs); try discriminate Hr. exact Logic.I.
  - pose proof (outcome_ok n c total ps Hn Hc Hf s I He Ecr) as Hok.
    assert (Hr : run_jobs g jobs = Ok (map (fun i => piece c i (pl_mem s)) (seq 0 (length ps)))).
    { apply run_jobs_ok.
      - intros i co Hi. exists (piece c i (pl_mem s)). split; [|exact (Hok i _ (Hnth i co Hi))].
        rewrite nth_error_map. assert (i < length ps)%nat by (rewrite Hlp; apply nth_error_Some; congruence).
        replace (nth_error (seq 0 (length ps)) i) with (Some i); [reflexivity|]. symmetry.
        rewrite (nth_error_nth' _ O) by (rewrite seq_length; lia). rewrite seq_nth by lia. reflexivity.
      - now rewrite map_length, seq_length. }
    rewrite Hr. cbn [whole agree]. f_equal. rewrite (split_pieces n c total ps Hn (pl_mem s) (in_mem _ _ _ s I)) at 1.
    rewrite (in_rest _ _ _ s I). f_equal. f_equal. f_equal.
    assert (Hlen : forall k, (k <= length ps)%nat -> length (concat (map (fun i => piece c i (pl_mem s)) (seq 0 k))) = (k * Z.to_nat c)%nat).
    { induction k; intros Hk; [reflexivity|]. rewrite seq_S, map_app, concat_app, app_length, IHk by lia. cbn [map concat Nat.add app].
      rewrite app_nil_r. pose proof (piece_len n c total ps Hn Hc Hf k (pl_mem s) ltac:(unfold N; lia) (in_mem _ _ _ s I)) as Hpl.
      unfold zlen in Hpl. lia. }
    unfold zlen. rewrite Hlen by lia. unfold N. nia.
Qed.
Lemma schedule_exists n g total jobs : (1 <= n)%nat -> 0 < g_chunk g -> zlen jobs * g_chunk g <= total ->
  exists r, schedule n (g_chunk g) total (map (impl g) jobs) r.
Proof.
  intros Hn Hc Hfit. set (ps := map (impl g) jobs).
  assert (Hlp : length ps = length jobs) by apply map_length.
  assert (Hf : Z.of_nat (length ps) * g_chunk g <= total) by (unfold zlen in Hfit; now rewrite Hlp).
  destruct (comes_to_end n (g_chunk g) total ps Hn Hc Hf _ _ (le_n _) (inv_start n _ total ps Hn Hc Hf)) as (s & Hs & He).
  exists (outcome s), s. auto.
Qed.
End Image.
