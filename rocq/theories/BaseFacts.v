(** Facts about the vocabulary of [Base.v]. *)
From Coq Require Import ZArith String List Bool Lia.
From Coq Require Import ZifyBool ZifyNat ZifyN.
From Verif Require Import Base.
Import ListNotations.
Local Open Scope Z_scope.
Ltac Zify.zify_post_hook ::= Z.div_mod_to_equations.

(** * Lists *)

Lemma zlen_nil {A} : zlen (@nil A) = 0.
Proof. reflexivity. Qed.
Lemma zlen_cons {A} (x : A) l : zlen (x :: l) = 1 + zlen l.
Proof. unfold zlen. cbn [length]. lia. Qed.
Lemma zlen_app {A} (l m : list A) : zlen (l ++ m) = zlen l + zlen m.
Proof. unfold zlen. rewrite app_length. lia. Qed.
Lemma zlen_nonneg {A} (l : list A) : 0 <= zlen l.
Proof. unfold zlen. lia. Qed.
Lemma zlen_repeat {A} (x : A) n : zlen (zrepeat x n) = Z.max 0 n.
Proof. unfold zlen, zrepeat. rewrite repeat_length. lia. Qed.
Lemma zlen_map {A B} (f : A -> B) l : zlen (map f l) = zlen l.
Proof. unfold zlen. now rewrite map_length. Qed.
Lemma zlen_skipn {A} n (l : list A) : zlen (skipn n l) = Z.max 0 (zlen l - Z.of_nat n).
Proof. unfold zlen. rewrite skipn_length. lia. Qed.
Lemma zlen_firstn {A} n (l : list A) : zlen (firstn n l) = Z.min (Z.of_nat n) (zlen l).
Proof. unfold zlen. rewrite firstn_length. lia. Qed.

Lemma nupd_length {A} (l : list A) n x : length (nupd l n x) = length l.
Proof. revert n; induction l; intros [|n]; cbn; auto. Qed.
Lemma zset_length {A} (l : list A) i x : length (zset l i x) = length l.
Proof. apply nupd_length. Qed.
Lemma zlen_zset {A} (l : list A) i x : zlen (zset l i x) = zlen l.
Proof. unfold zlen. now rewrite zset_length. Qed.

Lemma nth_nupd {A} (l : list A) n x k d :
  nth k (nupd l n x) d = if (k =? n)%nat && (n <? length l)%nat then x else nth k l d.
Proof.
  revert n k; induction l as [|a l IH]; intros n k.
  - cbn [nupd length]. replace (n <? 0)%nat with false by lia. now rewrite andb_false_r.
  - destruct n, k; cbn [nupd nth nth_error length Nat.eqb andb]; auto.
    rewrite IH. now replace (S n <? S (length l))%nat with (n <? length l)%nat by lia.
Qed.
Lemma nth_error_nupd {A} (l : list A) n x k :
  nth_error (nupd l n x) k
  = if (k =? n)%nat && (n <? length l)%nat then Some x else nth_error l k.
Proof.
  revert n k; induction l as [|a l IH]; intros n k.
  - cbn [nupd length]. replace (n <? 0)%nat with false by lia. now rewrite andb_false_r.
  - destruct n, k; cbn [nupd nth nth_error length Nat.eqb andb]; auto.
    rewrite IH. now replace (S n <? S (length l))%nat with (n <? length l)%nat by lia.
Qed.

Lemma zget_some {A} (l : list A) i x :
  zget l i = Some x -> 0 <= i < zlen l.
Proof.
  unfold zget, zlen. destruct (i <? 0) eqn:E; [discriminate|].
  intros H. assert (nth_error l (Z.to_nat i) <> None) as H1 by congruence.
  apply nth_error_Some in H1. lia.
Qed.
Lemma zget_none {A} (l : list A) i : zget l i = None <-> i < 0 \/ zlen l <= i.
Proof.
  unfold zget, zlen. destruct (i <? 0) eqn:E.
  - split; [lia|auto].
  - rewrite nth_error_None. lia.
Qed.
Lemma zget_in_range {A} (l : list A) i :
  0 <= i < zlen l -> exists x, zget l i = Some x.
Proof.
  intros H. destruct (zget l i) eqn:E; [eauto|].
  apply zget_none in E. lia.
Qed.
Lemma zget_zset {A} (l : list A) i x k :
  0 <= i -> zget (zset l i x) k = if (k =? i) && (i <? zlen l) then Some x else zget l k.
Proof.
  intros Hi. unfold zget, zset, zlen. rewrite nth_error_nupd.
  destruct (k <? 0) eqn:E.
  - replace (k =? i) with false by lia. reflexivity.
  - replace (Z.to_nat k =? Z.to_nat i)%nat with (k =? i) by lia.
    replace (Z.to_nat i <? length l)%nat with (i <? Z.of_nat (length l)) by lia. reflexivity.
Qed.
Lemma zget_app1 {A} (l m : list A) i : i < zlen l -> zget (l ++ m) i = zget l i.
Proof.
  unfold zget, zlen. intros. destruct (i <? 0) eqn:E; [reflexivity|].
  apply nth_error_app1. lia.
Qed.
Lemma zget_app2 {A} (l m : list A) i :
  zlen l <= i -> zget (l ++ m) i = zget m (i - zlen l).
Proof.
  unfold zget, zlen. intros. destruct (i <? 0) eqn:E; [lia|].
  replace (i - Z.of_nat (length l) <? 0) with false by lia.
  rewrite nth_error_app2 by lia. f_equal. lia.
Qed.
Lemma zget_map {A B} (f : A -> B) l i : zget (map f l) i = option_map f (zget l i).
Proof. unfold zget. destruct (i <? 0); [reflexivity|]. now rewrite nth_error_map. Qed.

Lemma zn_zget l i x : zget l i = Some x -> zn l i = x.
Proof.
  unfold zget, zn. destruct (i <? 0); [discriminate|]. intros. now apply nth_error_nth.
Qed.
Lemma zget_zn l i : 0 <= i < zlen l -> zget l i = Some (zn l i).
Proof.
  intros H. destruct (zget_in_range l i H) as [x Hx]. rewrite Hx. f_equal. symmetry.
  now apply zn_zget.
Qed.
Lemma zn_zset l i x k :
  0 <= i -> 0 <= k -> zn (zset l i x) k = if (k =? i) && (i <? zlen l) then x else zn l k.
Proof.
  intros Hi Hk. unfold zn, zset, zlen. rewrite nth_nupd.
  replace (Z.to_nat k =? Z.to_nat i)%nat with (k =? i) by lia.
  replace (Z.to_nat i <? length l)%nat with (i <? Z.of_nat (length l)) by lia. reflexivity.
Qed.
Lemma zn_app1 l m i : 0 <= i < zlen l -> zn (l ++ m) i = zn l i.
Proof. unfold zn, zlen. intros. apply app_nth1. lia. Qed.
Lemma zn_app2 l m i : zlen l <= i -> zn (l ++ m) i = zn m (i - zlen l).
Proof.
  unfold zn, zlen. intros. rewrite app_nth2 by lia. f_equal. lia.
Qed.
Lemma zn_repeat x n i : 0 <= i < n -> zn (zrepeat x n) i = x.
Proof.
  unfold zn, zrepeat. intros.
  assert (Z.to_nat i < Z.to_nat n)%nat as Hlt by lia.
  revert Hlt. generalize (Z.to_nat i) (Z.to_nat n). clear.
  intros a b; revert a. induction b; intros [|a] H; cbn; try lia; auto. apply IHb. lia.
Qed.
Lemma zn_out l i : zlen l <= i -> zn l i = 0.
Proof. unfold zn, zlen. intros. apply nth_overflow. lia. Qed.

Lemma at_ok {A} (l : list A) i x : at_ l i = Ok x <-> zget l i = Some x.
Proof. unfold at_. destruct (zget l i); split; congruence. Qed.
Lemma at_in_range {A} (l : list A) i : 0 <= i < zlen l -> exists x, at_ l i = Ok x.
Proof. intros H. destruct (zget_in_range l i H) as [x Hx]. exists x. now apply at_ok. Qed.

Lemma slice_some {A} (l : list A) a b r :
  slice l a b = Some r ->
  0 <= a <= b /\ b <= zlen l /\ r = firstn (Z.to_nat (b - a)) (skipn (Z.to_nat a) l)
  /\ zlen r = b - a.
Proof.
  unfold slice. destruct ((0 <=? a) && (a <=? b) && (b <=? zlen l)) eqn:E; [|discriminate].
  intros H; injection H as <-.
  assert (0 <= a <= b /\ b <= zlen l) as [H1 H2] by lia.
  repeat split; try lia.
  rewrite zlen_firstn, zlen_skipn. lia.
Qed.
Lemma slice_in_range {A} (l : list A) a b :
  0 <= a <= b -> b <= zlen l ->
  slice l a b = Some (firstn (Z.to_nat (b - a)) (skipn (Z.to_nat a) l)).
Proof.
  intros. unfold slice.
  now replace ((0 <=? a) && (a <=? b) && (b <=? zlen l)) with true by lia.
Qed.
Lemma slice_none {A} (l : list A) a b :
  slice l a b = None -> ~ (0 <= a <= b /\ b <= zlen l).
Proof.
  unfold slice. destruct ((0 <=? a) && (a <=? b) && (b <=? zlen l)) eqn:E; [discriminate|].
  intros _. lia.
Qed.

Lemma zlen_splice {A} (l : list A) a s :
  0 <= a -> a + zlen s <= zlen l -> zlen (splice l a s) = zlen l.
Proof.
  intros. unfold splice. rewrite !zlen_app, zlen_firstn, zlen_skipn.
  unfold zlen in *. lia.
Qed.
Lemma zget_splice {A} (l : list A) a s i :
  0 <= a -> a + zlen s <= zlen l ->
  zget (splice l a s) i
  = if (a <=? i) && (i <? a + zlen s) then zget s (i - a) else zget l i.
Proof.
  intros Ha Hs. unfold splice.
  assert (zlen (firstn (Z.to_nat a) l) = a) as Hf
    by (rewrite zlen_firstn; pose proof (zlen_nonneg s); lia).
  destruct (i <? a) eqn:E1.
  { replace (a <=? i) with false by lia. cbn [andb].
    rewrite zget_app1 by lia. unfold zget. destruct (i <? 0) eqn:E2; [reflexivity|].
    rewrite <- (firstn_skipn (Z.to_nat a) l) at 2.
    unfold zlen in Hf. rewrite nth_error_app1 by lia. reflexivity. }
  rewrite zget_app2 by lia. rewrite Hf.
  replace (a <=? i) with true by lia. cbn [andb].
  destruct (i <? a + zlen s) eqn:E3.
  { now rewrite zget_app1 by lia. }
  rewrite zget_app2 by lia. unfold zget.
  replace (i - a - zlen s <? 0) with false by lia.
  replace (i <? 0) with false by lia.
  rewrite <- (firstn_skipn (Z.to_nat a + length s) l) at 2.
  unfold zlen in *.
  rewrite nth_error_app2 by (rewrite firstn_length; lia).
  rewrite firstn_length. f_equal. lia.
Qed.
Lemma put_slice_ok {A} (l : list A) a s o :
  put_slice l a s = Ok o ->
  0 <= a /\ a + zlen s <= zlen l /\ o = splice l a s.
Proof.
  unfold put_slice. destruct (slice l a (a + zlen s)) eqn:E; [|discriminate].
  intros H; injection H as <-. apply slice_some in E. repeat split; lia.
Qed.
Lemma put_slice_in_range {A} (l : list A) a s :
  0 <= a -> a + zlen s <= zlen l -> put_slice l a s = Ok (splice l a s).
Proof.
  intros. unfold put_slice. pose proof (zlen_nonneg s).
  rewrite slice_in_range by lia. reflexivity.
Qed.

Lemma list_eq_zget {A} (l m : list A) :
  zlen l = zlen m -> (forall i, 0 <= i < zlen l -> zget l i = zget m i) -> l = m.
Proof.
  revert m; induction l as [|a l IH]; intros [|b m]; rewrite ?zlen_cons, ?zlen_nil; intros Hl H.
  - reflexivity.
  - pose proof (zlen_nonneg m). lia.
  - pose proof (zlen_nonneg l). lia.
  - f_equal.
    + pose proof (zlen_nonneg l). specialize (H 0 ltac:(lia)). cbn in H. congruence.
    + apply IH; [lia|]. intros i Hi. specialize (H (i + 1) ltac:(lia)).
      unfold zget in *. replace (i <? 0) with false by lia.
      replace (i + 1 <? 0) with false in H by lia.
      replace (Z.to_nat (i + 1)) with (S (Z.to_nat i)) in H by lia. exact H.
Qed.

Lemma zseq_in n i : In i (zseq n) <-> 0 <= i < n.
Proof.
  unfold zseq. rewrite in_map_iff. split.
  - intros (x & <- & Hx). apply in_seq in Hx. lia.
  - intros. exists (Z.to_nat i). rewrite in_seq. lia.
Qed.
Lemma zlen_zseq n : zlen (zseq n) = Z.max 0 n.
Proof. unfold zseq. rewrite zlen_map. unfold zlen. rewrite seq_length. lia. Qed.
Lemma zget_zseq n i : 0 <= i < n -> zget (zseq n) i = Some i.
Proof.
  intros H. unfold zget, zseq. replace (i <? 0) with false by lia.
  rewrite nth_error_map.
  rewrite (nth_error_nth' _ 0%nat) by (rewrite seq_length; lia).
  rewrite seq_nth by lia. cbn. f_equal. lia.
Qed.
Lemma zseq_S n : 0 <= n -> zseq (n + 1) = zseq n ++ [n].
Proof.
  intros. unfold zseq. replace (Z.to_nat (n + 1)) with (Z.to_nat n + 1)%nat by lia.
  rewrite seq_app, map_app. cbn. do 2 f_equal. lia.
Qed.

Lemma skipn_skipn {A} (a b : nat) (l : list A) : skipn a (skipn b l) = skipn (b + a) l.
Proof.
  revert l; induction b as [|b IH]; intros l; [reflexivity|].
  destruct l; cbn [skipn Nat.add]; [now destruct a|apply IH].
Qed.

(** * Chunks *)

Lemma chunks_aux_spec {A} (fuel k : nat) (l : list A) :
  (0 < k)%nat -> (length l <= fuel)%nat ->
  chunks_aux fuel k l
  = map (fun i => firstn k (skipn (i * k) l)) (seq 0 (length l / k)).
Proof.
  intros Hk. revert l. induction fuel as [|f IH]; intros l Hf; cbn [chunks_aux].
  - assert (l = []) as -> by (destruct l; cbn in Hf; auto; lia).
    cbn. rewrite Nat.div_0_l by lia. reflexivity.
  - destruct (Nat.ltb (length l) k) eqn:E.
    + rewrite Nat.div_small by lia. reflexivity.
    + rewrite IH by (rewrite skipn_length; lia).
      rewrite skipn_length.
      assert (length l / k = S ((length l - k) / k))%nat as ->.
      { replace (length l) with ((length l - k) + 1 * k)%nat at 1 by lia.
        rewrite Nat.div_add by lia. lia. }
      cbn [seq map]. f_equal.
      rewrite <- seq_shift, map_map. apply map_ext. intros i.
      rewrite skipn_skipn. reflexivity.
Qed.
Lemma chunks_n_spec {A} (k : nat) (l : list A) :
  (0 < k)%nat ->
  chunks_n k l = map (fun i => firstn k (skipn (i * k) l)) (seq 0 (length l / k)).
Proof. intros. apply chunks_aux_spec; auto. Qed.

Lemma chunks_n_length {A} (k : nat) (l : list A) :
  (0 < k)%nat -> length (chunks_n k l) = (length l / k)%nat.
Proof. intros. rewrite chunks_n_spec by assumption. now rewrite map_length, seq_length. Qed.
Lemma chunks_n_nth {A} (k i : nat) (l : list A) :
  (0 < k)%nat -> (i < length l / k)%nat ->
  nth_error (chunks_n k l) i = Some (firstn k (skipn (i * k) l)).
Proof.
  intros. rewrite chunks_n_spec by assumption. rewrite nth_error_map.
  rewrite (nth_error_nth' _ 0%nat) by (rewrite seq_length; lia).
  rewrite seq_nth by lia. reflexivity.
Qed.
Lemma chunks_n_all {A} (k : nat) (l : list A) c :
  (0 < k)%nat -> In c (chunks_n k l) -> length c = k.
Proof.
  intros Hk. rewrite chunks_n_spec by assumption. rewrite in_map_iff.
  intros (i & <- & Hi). apply in_seq in Hi.
  rewrite firstn_length, skipn_length.
  pose proof (Nat.mul_div_le (length l) k ltac:(lia)). nia.
Qed.

(** * Weakest preconditions

    [wp m s Q]: running [m] from [s] ends with an outcome and a state satisfying [Q]. *)
Definition wp {S A} (m : M S A) (s : S) (Q : res A -> S -> Prop) : Prop :=
  Q (fst (m s)) (snd (m s)).

Lemma wp_intro {S A} (m : M S A) s (Q : res A -> S -> Prop) r s' : m s = (r, s') -> Q r s' -> wp m s Q.
Proof. unfold wp. intros ->. auto. Qed.
Lemma wp_elim {S A} (m : M S A) s (Q : res A -> S -> Prop) r s' : wp m s Q -> m s = (r, s') -> Q r s'.
Proof. unfold wp. intros H E. rewrite E in H. exact H. Qed.
Lemma wp_mono {S A} (m : M S A) s (Q Q' : res A -> S -> Prop) :
  wp m s Q -> (forall r s', Q r s' -> Q' r s') -> wp m s Q'.
Proof. unfold wp. auto. Qed.
Lemma wp_and {S A} (m : M S A) s (Q Q' : res A -> S -> Prop) :
  wp m s Q -> wp m s Q' -> wp m s (fun r s' => Q r s' /\ Q' r s').
Proof. unfold wp. auto. Qed.

(** What remains to be shown after the first half of a [bind] *)
Definition wp_then {S A B} (k : A -> M S B) (Q : res B -> S -> Prop) (r : res A) (s : S) : Prop :=
  match r with
  | Ok a => wp (k a) s Q
  | Err e => Q (Err e) s
  | Panic p => Q (Panic p) s
  | Fuel => Q Fuel s
  end.
Lemma wp_bind {S A B} (m : M S A) (k : A -> M S B) s (Q : res B -> S -> Prop) :
  wp m s (wp_then k Q) -> wp (bind m k) s Q.
Proof. unfold wp, bind, wp_then. destruct (m s) as [[a|e|p|] s']; cbn; auto. Qed.
Lemma wp_bind_inv {S A B} (m : M S A) (k : A -> M S B) s (Q : res B -> S -> Prop) :
  wp (bind m k) s Q -> wp m s (wp_then k Q).
Proof. unfold wp, bind, wp_then. destruct (m s) as [[a|e|p|] s']; cbn; auto. Qed.
Lemma wp_ret {S A} (a : A) (s : S) (Q : res A -> S -> Prop) : Q (Ok a) s -> wp (ret a) s Q.
Proof. auto. Qed.
Lemma wp_fail {S A} e (s : S) (Q : res A -> S -> Prop) : Q (Err e) s -> wp (fail e) s Q.
Proof. auto. Qed.
Lemma wp_panic {S A} e (s : S) (Q : res A -> S -> Prop) : Q (Panic e) s -> wp (panic e) s Q.
Proof. auto. Qed.
Lemma wp_get {S} (s : S) (Q : res S -> S -> Prop) : Q (Ok s) s -> wp get s Q.
Proof. auto. Qed.
Lemma wp_put {S} (s s' : S) (Q : res unit -> S -> Prop) : Q (Ok tt) s' -> wp (put s') s Q.
Proof. auto. Qed.
Lemma wp_modify {S} f (s : S) (Q : res unit -> S -> Prop) : Q (Ok tt) (f s) -> wp (modify f) s Q.
Proof. auto. Qed.
Lemma wp_lift {S A} (r : res A) (s : S) (Q : res A -> S -> Prop) : Q r s -> wp (lift r) s Q.
Proof. auto. Qed.
Lemma wp_if {S A} (b : bool) (m1 m2 : M S A) s (Q : res A -> S -> Prop) :
  (b = true -> wp m1 s Q) -> (b = false -> wp m2 s Q) -> wp (if b then m1 else m2) s Q.
Proof. destruct b; auto. Qed.

Lemma wp_mfor {S} (n : nat) (i : Z) (body : Z -> M S unit) s
  (I : Z -> S -> Prop) (Q : res unit -> S -> Prop) :
  I i s ->
  (forall j s', i <= j < i + Z.of_nat n -> I j s' ->
     wp (body j) s' (fun r s'' => match r with Ok _ => I (j + 1) s'' | _ => Q r s'' end)) ->
  (forall s', I (i + Z.of_nat n) s' -> Q (Ok tt) s') ->
  wp (mfor n i body) s Q.
Proof.
  revert i s. induction n as [|n IH]; intros i s Hi Hb Hq; cbn [mfor].
  - apply wp_ret, Hq. now replace (i + Z.of_nat 0) with i by lia.
  - apply wp_bind. eapply wp_mono; [apply Hb; [lia|exact Hi]|].
    intros [u|e|p|] s' H; cbn; auto.
    apply IH; auto.
    + intros j s'' Hj. apply Hb. lia.
    + intros s'' H'. apply Hq. now replace (i + Z.of_nat (Datatypes.S n)) with (i + 1 + Z.of_nat n) by lia.
Qed.

Lemma wp_mfor_break {S} (n : nat) (i : Z) (body : Z -> M S bool) s
  (I : Z -> S -> Prop) (Q : res unit -> S -> Prop) :
  I i s ->
  (forall j s', i <= j < i + Z.of_nat n -> I j s' ->
     wp (body j) s' (fun r s'' => match r with
                                  | Ok true => I (j + 1) s''
                                  | Ok false => Q (Ok tt) s''
                                  | Err e => Q (Err e) s''
                                  | Panic p => Q (Panic p) s''
                                  | Fuel => Q Fuel s'' end)) ->
  (forall s', I (i + Z.of_nat n) s' -> Q (Ok tt) s') ->
  wp (mfor_break n i body) s Q.
Proof.
  revert i s. induction n as [|n IH]; intros i s Hi Hb Hq; cbn [mfor_break].
  - apply wp_ret, Hq. now replace (i + Z.of_nat 0) with i by lia.
  - apply wp_bind. eapply wp_mono; [apply Hb; [lia|exact Hi]|].
    intros [[|]|e|p|] s' H; cbn; auto.
    apply IH; auto.
    + intros j s'' Hj. apply Hb. lia.
    + intros s'' H'. apply Hq. now replace (i + Z.of_nat (Datatypes.S n)) with (i + 1 + Z.of_nat n) by lia.
Qed.
