(** Upsampling: the scalar filters index by index, and the SSE routine. *)
From Coq Require Import ZArith String List Bool Lia.
From Coq Require Import ZifyBool ZifyNat ZifyN.
From Verif Require Import Base Upsample Color Simd Worker SpecIdct SpecColor.
From Verif Require Import BaseFacts IdctFacts IdctSimd ColorFacts Placement.
Import ListNotations.
Local Open Scope Z_scope.
Local Open Scope res_scope.
Ltac Zify.zify_post_hook ::= Z.div_mod_to_equations.

(** The filter on sixteen-bit integers *)
Definition w_filter (n : Z) (x : Z -> Z) (i : Z) : Z :=
  if i =? 0 then x 0
  else if i =? 2 * n - 1 then x (n - 1)
  else if Z.odd i then tri (x (i / 2)) (x (i / 2 + 1))
  else tri (x (i / 2)) (x (i / 2 - 1)).

Definition small (x : Z) : Prop := -8000 <= x <= 8000.
Lemma tri_triangle a b : small a -> small b -> tri a b = triangle a b.
Proof. unfold small, tri, triangle, shr, i16. intros Ha Hb. change (2 ^ 2) with 4. lia. Qed.
Lemma tri_same a : small a -> tri a a = a.
Proof. unfold small, tri, shr, i16. intros Ha. change (2 ^ 2) with 4. lia. Qed.
Lemma triangle_between lo hi a b : lo <= a <= hi -> lo <= b <= hi -> lo <= triangle a b <= hi.
Proof. unfold triangle. lia. Qed.

Lemma small_zn l i : Forall small l -> small (zn l i).
Proof. intros H. apply (Forall_zn small); [unfold small; lia|exact H]. Qed.

(** * Horizontal, scalar *)
Lemma horiz_middle_nth l : forall i, (i + 2 < length l)%nat ->
  nth (2 * i) (horiz_middle l) 0 = tri (nth (i + 1) l 0) (nth i l 0) /\
  nth (2 * i + 1) (horiz_middle l) 0 = tri (nth (i + 1) l 0) (nth (i + 2) l 0).
Proof.
  induction l as [|a l IH]; intros i Hi; [cbn [length] in Hi; lia|].
  destruct l as [|b l]; [cbn [length] in Hi; lia|]. destruct l as [|c l]; [cbn [length] in Hi; lia|].
  destruct i as [|i].
  - split; reflexivity.
  - change (horiz_middle (a :: b :: c :: l)) with (tri b a :: tri b c :: horiz_middle (b :: c :: l)).
    specialize (IH i ltac:(cbn [length] in *; lia)). destruct IH as [IH1 IH2].
    replace (2 * S i)%nat with (S (S (2 * i))) by lia. replace (S (S (2 * i)) + 1)%nat with (S (S (2 * i + 1))) by lia.
    cbn [nth]. rewrite IH1, IH2. split; reflexivity.
Qed.
Lemma horiz_middle_length l : length (horiz_middle l) = (2 * (length l - 2))%nat.
Proof.
  induction l as [|a l IH]; [reflexivity|]. destruct l as [|b l]; [reflexivity|]. destruct l as [|c l]; [reflexivity|].
  change (horiz_middle (a :: b :: c :: l)) with (tri b a :: tri b c :: horiz_middle (b :: c :: l)).
  cbn [length] in *. lia.
Qed.
Lemma horizontal_spec input n : zlen input = n -> 3 <= n ->
  exists out, upsample_horizontal input (2 * n) = Ok out /\ zlen out = 2 * n /\
    zn out (2 * n - 2) = tri (zn input (n - 2)) (zn input (n - 1)) /\
    (forall i, 0 <= i < 2 * n -> i <> 2 * n - 2 -> zn out i = w_filter n (zn input) i).
Proof.
  intros Hn H3. unfold upsample_horizontal. replace (_ && _) with true by lia. cbv zeta. rewrite Hn.
  set (body := firstn _ (horiz_middle input)).
  assert (body = horiz_middle input) as ->.
  { unfold body. apply firstn_all2. rewrite horiz_middle_length. unfold zlen in Hn. lia. }
  set (px := (_ ++ horiz_middle input)%list).
  assert (zlen px = 2 * n - 2) as Hpx.
  { unfold px, zlen. rewrite app_length, horiz_middle_length. cbn [length]. unfold zlen in Hn. lia. }
  assert (zlen (@zrepeat Z 0 (2 * n)) = 2 * n) as Hz by (unfold zlen, zrepeat; rewrite repeat_length; lia).
  assert (zlen (splice (zrepeat 0 (2 * n)) 0 px) = 2 * n) as Hs.
  { unfold zlen. rewrite splice_length by lia. unfold zlen in Hz. lia. }
  eexists. split; [reflexivity|]. split; [|split].
  - unfold zlen. rewrite splice_length; [exact Hs|lia|]. rewrite Hs. unfold zlen. cbn [length]. lia.
  - unfold zn at 1. rewrite nth_splice; [|lia|rewrite Hs; unfold zlen; cbn [length]; lia].
    replace (_ || _) with false by (unfold zlen; cbn [length]; lia).
    replace (Z.to_nat (2 * n - 2) - Z.to_nat (2 * n - 2))%nat with 0%nat by lia. reflexivity.
  - intros i Hi Hne. unfold zn at 1. rewrite nth_splice; [|lia|rewrite Hs; unfold zlen; cbn [length]; lia].
    destruct (Z.eq_dec i (2 * n - 1)) as [->|Hl].
    + replace (_ || _) with false by (unfold zlen; cbn [length]; lia).
      replace (Z.to_nat (2 * n - 1) - Z.to_nat (2 * n - 2))%nat with 1%nat by lia. cbn [nth].
      unfold w_filter. replace (_ =? _) with false by lia. replace (_ =? _) with true by lia. reflexivity.
    + replace (_ || _) with true by (unfold zlen; cbn [length]; lia). rewrite nth_splice by lia.
      replace (_ || _) with false by lia. replace (Z.to_nat i - Z.to_nat 0)%nat with (Z.to_nat i) by lia.
      unfold w_filter. replace (i =? 2 * n - 1) with false by lia. unfold px.
      destruct (Z.eq_dec i 0) as [->|H0]; [reflexivity|]. replace (i =? 0) with false by lia.
      destruct (Z.eq_dec i 1) as [->|H1]; [reflexivity|].
      change ([zn input 0; tri (zn input 0) (zn input 1)] ++ horiz_middle input)%list
        with (zn input 0 :: tri (zn input 0) (zn input 1) :: horiz_middle input).
      replace (Z.to_nat i) with (S (S (Z.to_nat (i - 2)))) by lia. cbn [nth].
      destruct (horiz_middle_nth input (Z.to_nat (i / 2 - 1))) as [E1 E2]; [unfold zlen in Hn; lia|].
      unfold zn. destruct (Z.odd i) eqn:Ho.
      * assert (i mod 2 = 1) by (rewrite Zmod_odd, Ho; reflexivity).
        replace (Z.to_nat (i - 2)) with (2 * Z.to_nat (i / 2 - 1) + 1)%nat by lia. rewrite E2.
        f_equal; f_equal; lia.
      * assert (i mod 2 = 0) by (rewrite Zmod_odd, Ho; reflexivity).
        replace (Z.to_nat (i - 2)) with (2 * Z.to_nat (i / 2 - 1))%nat by lia. rewrite E1.
        f_equal; f_equal; lia.
Qed.
Lemma w_filter_h n x i : (forall j, small (x j)) -> w_filter n x i = h_filter n x i.
Proof.
  intros H. unfold w_filter, h_filter. destruct (_ =? _); [reflexivity|]. destruct (_ =? _); [reflexivity|].
  destruct (Z.odd i); apply tri_triangle; apply H.
Qed.
Lemma C29_horizontal_lemma input n : zlen input = n -> 3 <= n -> Forall small input ->
  exists out, upsample_horizontal input (2 * n) = Ok out /\ zlen out = 2 * n /\
    (forall i, 0 <= i < 2 * n -> i <> 2 * n - 2 -> zn out i = h_filter n (zn input) i).
Proof.
  intros Hn H3 Hs. destruct (horizontal_spec input n Hn H3) as (out & E & L & _ & F). exists out. split; [exact E|]. split; [exact L|].
  intros i Hi Hne. rewrite (F i Hi Hne). apply w_filter_h. intros j. now apply small_zn.
Qed.
Lemma zn_between lo hi l i : Forall (fun x => lo <= x <= hi) l -> 0 <= i < zlen l -> lo <= zn l i <= hi.
Proof. intros H Hi. rewrite Forall_forall in H. apply H. unfold zn. apply nth_In. unfold zlen in Hi. lia. Qed.
Lemma Forall_small lo hi l : -8000 <= lo -> hi <= 8000 -> Forall (fun x => lo <= x <= hi) l -> Forall small l.
Proof. intros H1 H2 H. eapply Forall_impl; [|exact H]. unfold small. cbn beta. intros; lia. Qed.
Lemma Forall_of_zn (P : Z -> Prop) l : (forall i, 0 <= i < zlen l -> P (zn l i)) -> Forall P l.
Proof.
  intros H. apply Forall_forall. intros x Hx. apply (In_nth _ _ 0) in Hx. destruct Hx as (i & Hi & <-).
  specialize (H (Z.of_nat i) ltac:(unfold zlen; lia)). unfold zn in H. now rewrite Nat2Z.id in H.
Qed.
Lemma h_filter_between lo hi n x i : 2 <= n -> (forall j, 0 <= j < n -> lo <= x j <= hi) -> 0 <= i < 2 * n ->
  lo <= h_filter n x i <= hi.
Proof.
  intros H3 H Hi. unfold h_filter. destruct (i =? 0) eqn:E0; [apply H; lia|]. destruct (i =? 2 * n - 1) eqn:E1; [apply H; lia|].
  destruct (Z.odd i) eqn:Ho.
  - assert (i mod 2 = 1) by (rewrite Zmod_odd, Ho; reflexivity). apply triangle_between; apply H; lia.
  - assert (i mod 2 = 0) by (rewrite Zmod_odd, Ho; reflexivity). apply triangle_between; apply H; lia.
Qed.
Lemma C29_range_lemma lo hi input n out : -8000 <= lo -> hi <= 8000 ->
  Forall (fun x => lo <= x <= hi) input -> zlen input = n -> 3 <= n ->
  upsample_horizontal input (2 * n) = Ok out -> Forall (fun x => lo <= x <= hi) out.
Proof.
  intros Hlo Hhi Hf Hn H3 E. pose proof (Forall_small _ _ _ Hlo Hhi Hf) as Hs.
  destruct (horizontal_spec input n Hn H3) as (out' & E' & L & E2 & F). rewrite E in E'. injection E' as <-.
  apply Forall_of_zn. intros i Hi. destruct (Z.eq_dec i (2 * n - 2)) as [->|Hne].
  - rewrite E2, tri_triangle by now apply small_zn. apply triangle_between; apply zn_between; auto; lia.
  - rewrite (F i ltac:(lia) Hne), w_filter_h by (intros; now apply small_zn).
    apply h_filter_between; [lia| |lia]. intros j Hj. apply zn_between; auto. lia.
Qed.

(** * Horizontal, SSE *)
Lemma load4 l pos : 0 <= pos -> pos + 4 <= zlen l -> load l pos 4 = Ok [zn l pos; zn l (pos + 1); zn l (pos + 2); zn l (pos + 3)].
Proof.
  intros H0 H. unfold load, slice. replace (_ && _) with true by lia. f_equal.
  replace (Z.to_nat (pos + 4 - pos)) with 4%nat by lia. unfold zn, zlen in *.
  assert (forall k, (k < 4)%nat -> nth k (skipn (Z.to_nat pos) l) 0 = nth (Z.to_nat (pos + Z.of_nat k)) l 0) as E.
  { intros k Hk. rewrite nth_skipn. f_equal. lia. }
  assert (length (skipn (Z.to_nat pos) l) >= 4)%nat as L by (rewrite skipn_length; lia).
  pose proof (E 0%nat ltac:(lia)) as E0. pose proof (E 1%nat ltac:(lia)) as E1.
  pose proof (E 2%nat ltac:(lia)) as E2. pose proof (E 3%nat ltac:(lia)) as E3.
  destruct (skipn (Z.to_nat pos) l) as [|a [|b [|c [|d t]]]]; cbn [length] in L; try lia.
  cbn [nth firstn] in *. replace (pos + Z.of_nat 0) with pos in E0 by lia.
  change (Z.of_nat 1) with 1 in E1. change (Z.of_nat 2) with 2 in E2. change (Z.of_nat 3) with 3 in E3. congruence.
Qed.
Lemma sse_tri a b : shr (i16 (i16 (i16 (shl a 1) + a) + i16 (b + 2))) 2 = tri a b.
Proof. unfold tri, shl, shr, i16. change (2 ^ 1) with 2. change (2 ^ 2) with 4. f_equal. lia. Qed.
(** the eight values one step stores *)
Definition mid (x : Z -> Z) (i : Z) : Z := if Z.odd i then tri (x (i / 2)) (x (i / 2 + 1)) else tri (x (i / 2)) (x (i / 2 - 1)).
Lemma sse_step_ok input i out : 1 <= i -> 4 * i + 5 <= zlen input -> 8 * i + 8 <= zlen out ->
  sse_step input i out = Ok (splice out (8 * i) (map (fun k => mid (zn input) (8 * i + k)) (zseq 8))).
Proof.
  intros Hi Hin Hout. unfold sse_step. cbv zeta. replace (shl i 2) with (4 * i) by (unfold shl; change (2 ^ 2) with 4; lia).
  rewrite !load4 by lia. cbn [rbind].
  match goal with |- put_slice _ _ ?v = _ => assert (v = map (fun k => mid (zn input) (8 * i + k)) (zseq 8)) as -> end.
  { replace (4 * i - 1 + 1) with (4 * i) by lia. replace (4 * i - 1 + 2) with (4 * i + 1) by lia. replace (4 * i - 1 + 3) with (4 * i + 2) by lia.
    replace (4 * i + 1 + 1) with (4 * i + 2) by lia. replace (4 * i + 1 + 2) with (4 * i + 3) by lia. replace (4 * i + 1 + 3) with (4 * i + 4) by lia.
    change (zseq 8) with [0; 1; 2; 3; 4; 5; 6; 7]. cbn [map]. unfold mid.
    assert (forall k, Z.odd (8 * i + k) = Z.odd k) as Ho.
    { intros k. rewrite Z.odd_add, Z.odd_mul. change (Z.odd 8) with false. cbn [andb]. now rewrite xorb_false_l. }
    rewrite !Ho. cbn [Z.odd].
    replace ((8 * i + 0) / 2) with (4 * i) by lia. replace ((8 * i + 1) / 2) with (4 * i) by lia.
    replace ((8 * i + 2) / 2) with (4 * i + 1) by lia. replace ((8 * i + 3) / 2) with (4 * i + 1) by lia.
    replace ((8 * i + 4) / 2) with (4 * i + 2) by lia. replace ((8 * i + 5) / 2) with (4 * i + 2) by lia.
    replace ((8 * i + 6) / 2) with (4 * i + 3) by lia. replace ((8 * i + 7) / 2) with (4 * i + 3) by lia.
    replace (4 * i + 1 - 1) with (4 * i) by lia. replace (4 * i + 2 - 1) with (4 * i + 1) by lia. replace (4 * i + 3 - 1) with (4 * i + 2) by lia.
    replace (4 * i + 1 + 1) with (4 * i + 2) by lia. replace (4 * i + 2 + 1) with (4 * i + 3) by lia. replace (4 * i + 3 + 1) with (4 * i + 4) by lia.
    generalize (zn input (4 * i - 1)) (zn input (4 * i)) (zn input (4 * i + 1)) (zn input (4 * i + 2)) (zn input (4 * i + 3)) (zn input (4 * i + 4)).
    intros a b c d e f. rewrite <- !sse_tri. reflexivity. }
  replace (i * 8) with (8 * i) by lia. rewrite put_slice_ok; [reflexivity|lia|].
  unfold zlen. rewrite map_length. change (length (zseq 8)) with 8%nat. unfold zlen in *. lia.
Qed.
Lemma sse_loop_ok input m : forall i out, 1 <= i -> 4 * (i + Z.of_nat m) + 1 <= zlen input \/ m = 0%nat -> 8 * (i + Z.of_nat m) <= zlen out ->
  exists o, sse_loop m input i out = Ok o /\ length o = length out /\
    forall j, 0 <= j -> zn o j = if (8 * i <=? j) && (j <? 8 * (i + Z.of_nat m)) then mid (zn input) j else zn out j.
Proof.
  induction m as [|m IH]; intros i out Hi Hin Hout; cbn [sse_loop].
  - exists out. split; [reflexivity|]. split; [reflexivity|]. intros j Hj. replace (_ && _) with false by lia. reflexivity.
  - rewrite sse_step_ok by lia. cbn [rbind]. set (v := map _ (zseq 8)).
    assert (length v = 8%nat) as Hv by reflexivity.
    assert (length (splice out (8 * i) v) = length out) as Hl by (apply splice_length; unfold zlen in *; lia).
    destruct (IH (i + 1) (splice out (8 * i) v)) as (o & E & L & F); [lia|lia|unfold zlen in *; lia|].
    exists o. split; [exact E|]. split; [lia|]. intros j Hj. rewrite F by exact Hj.
    destruct (Z.lt_ge_cases j (8 * i)).
    { replace (_ && _) with false by lia. replace (_ && _) with false by lia. unfold zn. rewrite nth_splice by (unfold zlen in *; lia).
      replace (_ || _) with true by lia. reflexivity. }
    destruct (Z.lt_ge_cases j (8 * (i + 1))).
    { replace (_ && _) with false by lia. replace (_ && _) with true by lia. unfold zn at 1. rewrite nth_splice by (unfold zlen in *; lia).
      replace (_ || _) with false by (unfold zlen; lia). unfold v.
      replace (Z.to_nat j - Z.to_nat (8 * i))%nat with (Z.to_nat (j - 8 * i)) by lia.
      set (k := j - 8 * i). replace j with (8 * i + k) by (unfold k; lia).
      assert (In k (zseq 8)) as Hk by (apply zseq_In; unfold k; lia). clearbody k. clear - Hk.
      change (zseq 8) with [0; 1; 2; 3; 4; 5; 6; 7] in *. cbn [map].
      repeat (destruct Hk as [<-|Hk]; [reflexivity|]). destruct Hk. }
    replace (8 * i <=? j) with true by lia. replace (8 * (i + 1) <=? j) with true by lia. cbn [andb].
    replace (i + 1 + Z.of_nat m) with (i + Z.of_nat (S m)) by lia. destruct (j <? _); [reflexivity|].
    unfold zn. rewrite nth_splice by (unfold zlen in *; lia). replace (_ || _) with true by (unfold zlen in *; lia). reflexivity.
Qed.
Lemma mid_w n x i : i <> 0 -> i <> 2 * n - 1 -> mid x i = w_filter n x i.
Proof. intros H1 H2. unfold w_filter, mid. replace (i =? 0) with false by lia. replace (i =? _) with false by lia. reflexivity. Qed.
Lemma C30_lemma input n : zlen input = n -> 8 <= n -> n mod 4 = 0 ->
  exists o1 o2, upsample_horizontal input (2 * n) = Ok o1 /\ upsample_horizontal_sse input (2 * n) = Ok o2 /\
    zlen o1 = 2 * n /\ zlen o2 = 2 * n /\
    (forall i, 0 <= i < 2 * n -> ~ 2 * n - 5 <= i <= 2 * n - 3 -> zn o2 i = zn o1 i).
Proof.
  intros Hn H8 H4. destruct (horizontal_spec input n Hn ltac:(lia)) as (o1 & E1 & L1 & T1 & F1).
  exists o1. unfold upsample_horizontal_sse. replace (_ && _) with true by lia. cbv zeta. rewrite Hn.
  set (first := [zn input 0; _; _; _; _; _; _; _]). assert (length first = 8%nat) as Hf by reflexivity.
  assert (zlen (@zrepeat Z 0 (2 * n)) = 2 * n) as Hz by (unfold zlen, zrepeat; rewrite repeat_length; lia).
  assert (length (splice (zrepeat 0 (2 * n)) 0 first) = Z.to_nat (2 * n)) as Hs.
  { rewrite splice_length by (unfold zlen in *; lia). unfold zlen in Hz. lia. }
  replace (shr n 2 - 2) with (n / 4 - 2) by (unfold shr; change (2 ^ 2) with 4; lia).
  destruct (sse_loop_ok input (Z.to_nat (n / 4 - 2)) 1 (splice (zrepeat 0 (2 * n)) 0 first)) as (o & Eo & Lo & Fo); [lia|lia|unfold zlen; lia|].
  rewrite Eo. cbn [rbind]. set (last := [_; _; _; _; _; _; _; _]). assert (length last = 8%nat) as Hl by reflexivity.
  eexists. split; [exact E1|]. split; [reflexivity|]. split; [exact L1|].
  split; [unfold zlen; rewrite splice_length by (unfold zlen in *; lia); lia|].
  intros i Hi Hne. unfold zn at 1. rewrite nth_splice by (unfold zlen in *; lia).
  destruct (Z.lt_ge_cases i (2 * n - 8)) as [Hlt|Hge].
  - replace (_ || _) with true by (unfold zlen; lia). change (nth (Z.to_nat i) o 0) with (zn o i). rewrite Fo by lia.
    rewrite F1 by lia. destruct (Z.lt_ge_cases i 8).
    + replace (_ && _) with false by lia. unfold zn at 1. rewrite nth_splice by (unfold zlen in *; lia).
      replace (_ || _) with false by (unfold zlen; lia). replace (Z.to_nat i - Z.to_nat 0)%nat with (Z.to_nat i) by lia.
      assert (In i (zseq 8)) as Hk by (apply zseq_In; lia).
      change (zseq 8) with [0; 1; 2; 3; 4; 5; 6; 7] in *. unfold w_filter.
      repeat (destruct Hk as [<-|Hk]; [first [reflexivity|replace (_ =? 2 * n - 1) with false by lia; reflexivity]|]). destruct Hk.
    + replace (_ && _) with true by lia. apply mid_w; lia.
  - replace (_ || _) with false by (unfold zlen; lia).
    assert (i = 2 * n - 8 \/ i = 2 * n - 7 \/ i = 2 * n - 6 \/ i = 2 * n - 2 \/ i = 2 * n - 1) as Hc by lia.
    destruct Hc as [-> |[-> |[-> |[-> | ->]]]].
    + replace (Z.to_nat (2 * n - 8) - Z.to_nat (2 * n - 8))%nat with 0%nat by lia. rewrite F1 by lia. rewrite <- mid_w by lia.
      unfold mid. replace (Z.odd (2 * n - 8)) with false by (replace (2 * n - 8) with (0 + 2 * (n - 4)) by lia; now rewrite Z.odd_add_mul_2).
      unfold last. cbn [nth]. f_equal; f_equal; lia.
    + replace (Z.to_nat (2 * n - 7) - Z.to_nat (2 * n - 8))%nat with 1%nat by lia. rewrite F1 by lia. rewrite <- mid_w by lia.
      unfold mid. replace (Z.odd (2 * n - 7)) with true by (replace (2 * n - 7) with (1 + 2 * (n - 4)) by lia; now rewrite Z.odd_add_mul_2).
      unfold last. cbn [nth]. f_equal; f_equal; lia.
    + replace (Z.to_nat (2 * n - 6) - Z.to_nat (2 * n - 8))%nat with 2%nat by lia. rewrite F1 by lia. rewrite <- mid_w by lia.
      unfold mid. replace (Z.odd (2 * n - 6)) with false by (replace (2 * n - 6) with (0 + 2 * (n - 3)) by lia; now rewrite Z.odd_add_mul_2).
      unfold last. cbn [nth]. f_equal; f_equal; lia.
    + replace (Z.to_nat (2 * n - 2) - Z.to_nat (2 * n - 8))%nat with 6%nat by lia. rewrite T1. unfold last. cbn [nth]. f_equal; f_equal; lia.
    + replace (Z.to_nat (2 * n - 1) - Z.to_nat (2 * n - 8))%nat with 7%nat by lia. rewrite F1 by lia. unfold w_filter.
      replace (2 * n - 1 =? 0) with false by lia. replace (_ =? _) with true by lia. unfold last. cbn [nth]. f_equal. lia.
Qed.

(** * Vertical *)
Lemma vert_zip_ok near : forall far on of, length far = length near -> length on = length near -> (length near <= length of)%nat ->
  vert_zip near far on of = (map2 tri near far, map2 tri far near ++ skipn (length near) of)%list.
Proof.
  induction near as [|a near IH]; intros [|b far] [|c on] of Hf Ho Hl; try discriminate; [reflexivity|].
  destruct of as [|d of]; [cbn [length] in Hl; lia|]. cbn [vert_zip]. rewrite IH by (cbn [length] in *; lia). reflexivity.
Qed.
Lemma map2_length {A B C} (f : A -> B -> C) l m : length m = length l -> length (map2 f l m) = length l.
Proof. revert m. induction l as [|a l IH]; intros [|b m] H; try discriminate; [reflexivity|]. cbn [map2 length]. f_equal. apply IH. now injection H. Qed.
Lemma map2_nth f l m k : length m = length l -> (k < length l)%nat -> nth k (map2 f l m) 0 = f (nth k l 0) (nth k m 0) :> Z.
Proof.
  revert m k. induction l as [|a l IH]; intros [|b m] [|k] H Hk; try discriminate; cbn [length] in *; try lia; cbn [map2 nth]; [reflexivity|].
  apply IH; lia.
Qed.
Definition pair_rows (near far : list Z) : list (list Z) := [map2 tri near far; map2 tri far near].
Lemma vert_step (out near far : list Z) i S : 0 <= i -> 0 <= S -> zlen near = S -> zlen far = S -> i + 2 * S <= zlen out ->
  (let rest := skipn (Z.to_nat i) out in
   let '(on', of') := vert_zip near far (firstn (Z.to_nat S) rest) (skipn (Z.to_nat S) rest) in
   (firstn (Z.to_nat i) out ++ on' ++ of')%list) = splice out i (concat (pair_rows near far)).
Proof.
  intros Hi HS Hn Hf Hl. unfold zlen in *. cbv zeta.
  rewrite vert_zip_ok by (rewrite ?firstn_length, ?skipn_length; lia).
  unfold splice, pair_rows. cbn [concat]. rewrite app_nil_r. rewrite !app_length, !map2_length by lia. rewrite <- !app_assoc. do 3 f_equal.
  rewrite !skipn_skipn. f_equal. lia.
Qed.
Lemma vert_unfold n S near_it far_it rw_n rw_f nr i out : 0 <= i -> 0 <= S -> zlen rw_n = S -> zlen rw_f = S -> i + 2 * S <= zlen out ->
  vert_loop (Datatypes.S n) S near_it far_it rw_n rw_f nr i out =
  let '(rw_n', near_it') := next_or near_it rw_n in
  let '(f1, far_it1) := next_or far_it rw_n' in
  let '(rw_f', far_it') := if nr then next_or far_it1 rw_n' else (f1, far_it1) in
  vert_loop n S near_it' far_it' rw_n' rw_f' false (i + S * 2) (splice out i (concat (pair_rows rw_n rw_f))).
Proof.
  intros Hi HS Hn Hf Hl. cbn [vert_loop]. replace (_ || _) with false by lia.
  pose proof (vert_step out rw_n rw_f i S Hi HS Hn Hf Hl) as E. cbv zeta in E |- *.
  destruct (vert_zip _ _ _ _) as [on' of']. rewrite E. reflexivity.
Qed.
Lemma pair_rows_zlen near far S : zlen near = S -> zlen far = S -> zlen (concat (pair_rows near far)) = 2 * S.
Proof. unfold zlen, pair_rows. intros Hn Hf. cbn [concat]. rewrite !app_length, !map2_length by lia. cbn [length]. lia. Qed.
Lemma vert_next n S near_it far_it rw_n rw_f nr z l : 0 <= S -> zlen rw_n = S -> zlen rw_f = S -> zlen l + 2 * S <= zlen z ->
  vert_loop (Datatypes.S n) S near_it far_it rw_n rw_f nr (zlen l) (splice z 0 l) =
  let '(rw_n', near_it') := next_or near_it rw_n in
  let '(f1, far_it1) := next_or far_it rw_n' in
  let '(rw_f', far_it') := if nr then next_or far_it1 rw_n' else (f1, far_it1) in
  vert_loop n S near_it' far_it' rw_n' rw_f' false (zlen (l ++ concat (pair_rows rw_n rw_f))%list)
    (splice z 0 (l ++ concat (pair_rows rw_n rw_f))%list).
Proof.
  intros HS Hn Hf Hl. pose proof (pair_rows_zlen _ _ _ Hn Hf) as Hp.
  assert (0 <= zlen l) as Hl0 by (unfold zlen; lia).
  assert (zlen (splice z 0 l) = zlen z) as Hz by (unfold zlen; rewrite splice_length by lia; reflexivity).
  rewrite vert_unfold by lia.
  rewrite <- (splice_two z l) by lia. rewrite Z.add_0_l. rewrite zlen_app, Hp. replace (zlen l + S * 2) with (zlen l + 2 * S) by lia. reflexivity.
Qed.
Lemma vertical_rows input S : 0 < S -> zlen input = 8 * S ->
  let r i := row_of (Z.to_nat S) input i in
  upsample_vertical input (16 * S) = Ok (concat (
    pair_rows (r 0%nat) (r 0%nat) ++ pair_rows (r 1%nat) (r 2%nat) ++ pair_rows (r 2%nat) (r 3%nat) ++ pair_rows (r 3%nat) (r 4%nat) ++
    pair_rows (r 4%nat) (r 5%nat) ++ pair_rows (r 5%nat) (r 6%nat) ++ pair_rows (r 6%nat) (r 7%nat) ++ pair_rows (r 7%nat) (r 7%nat))%list).
Proof.
  intros HS Hl r. unfold upsample_vertical. cbv zeta.
  replace (shr (zlen input) 3) with S by (unfold shr; change (2 ^ 3) with 8; lia).
  unfold chunks_exact. replace (S <=? 0) with false by lia. cbn [rbind].
  rewrite (chunks_rows _ _ 8) by (unfold zlen in *; lia).
  change (seq 0 8) with [0; 1; 2; 3; 4; 5; 6; 7]%nat. cbn [map].
  change (firstn (Z.to_nat S) (skipn (0 * Z.to_nat S) input)) with (r 0%nat).
  change (firstn (Z.to_nat S) (skipn (1 * Z.to_nat S) input)) with (r 1%nat).
  change (firstn (Z.to_nat S) (skipn (2 * Z.to_nat S) input)) with (r 2%nat).
  change (firstn (Z.to_nat S) (skipn (3 * Z.to_nat S) input)) with (r 3%nat).
  change (firstn (Z.to_nat S) (skipn (4 * Z.to_nat S) input)) with (r 4%nat).
  change (firstn (Z.to_nat S) (skipn (5 * Z.to_nat S) input)) with (r 5%nat).
  change (firstn (Z.to_nat S) (skipn (6 * Z.to_nat S) input)) with (r 6%nat).
  change (firstn (Z.to_nat S) (skipn (7 * Z.to_nat S) input)) with (r 7%nat).
  assert (forall i, (i < 8)%nat -> zlen (r i) = S) as Hr.
  { intros i Hi. unfold r, row_of, zlen. rewrite firstn_length, skipn_length. unfold zlen in Hl. nia. }
  pose proof (Hr 0%nat ltac:(lia)) as H0. pose proof (Hr 1%nat ltac:(lia)) as H1. pose proof (Hr 2%nat ltac:(lia)) as H2.
  pose proof (Hr 3%nat ltac:(lia)) as H3. pose proof (Hr 4%nat ltac:(lia)) as H4. pose proof (Hr 5%nat ltac:(lia)) as H5.
  pose proof (Hr 6%nat ltac:(lia)) as H6. pose proof (Hr 7%nat ltac:(lia)) as H7. clear Hr Hl.
  generalize dependent (r 0%nat). generalize dependent (r 1%nat). generalize dependent (r 2%nat). generalize dependent (r 3%nat).
  generalize dependent (r 4%nat). generalize dependent (r 5%nat). generalize dependent (r 6%nat). generalize dependent (r 7%nat).
  clear r input. intros r7 H7 r6 H6 r5 H5 r4 H4 r3 H3 r2 H2 r1 H1 r0 H0.
  set (z := zrepeat 0 (16 * S)). assert (zlen z = 16 * S) as Hz by (unfold z, zlen, zrepeat; rewrite repeat_length; lia). clearbody z.
  rewrite !concat_app.
  pose proof (pair_rows_zlen r0 r0 S H0 H0) as P0. pose proof (pair_rows_zlen r1 r2 S H1 H2) as P1.
  pose proof (pair_rows_zlen r2 r3 S H2 H3) as P2. pose proof (pair_rows_zlen r3 r4 S H3 H4) as P3.
  pose proof (pair_rows_zlen r4 r5 S H4 H5) as P4. pose proof (pair_rows_zlen r5 r6 S H5 H6) as P5.
  pose proof (pair_rows_zlen r6 r7 S H6 H7) as P6. pose proof (pair_rows_zlen r7 r7 S H7 H7) as P7.
  assert (splice z 0 [] = z) as E0 by (unfold splice; cbn [length app]; change (Z.to_nat 0) with 0%nat; reflexivity).
  rewrite <- E0. change 0 with (zlen (@nil Z)) at 1.
  rewrite (vert_next 7 S _ _ r0 r0) by (auto; unfold zlen in *; cbn [length]; lia). cbn [next_or app].
  set (l1 := concat (pair_rows r0 r0)) in *.
  rewrite (vert_next 6 S _ _ r1 r2) by (auto; lia). cbn [next_or]. set (l2 := (l1 ++ _)%list). assert (zlen l2 = 4 * S) as L2 by (unfold l2; rewrite zlen_app; lia).
  rewrite (vert_next 5 S _ _ r2 r3) by (auto; lia). cbn [next_or]. set (l3 := (l2 ++ _)%list). assert (zlen l3 = 6 * S) as L3 by (unfold l3; rewrite zlen_app; lia).
  rewrite (vert_next 4 S _ _ r3 r4) by (auto; lia). cbn [next_or]. set (l4 := (l3 ++ _)%list). assert (zlen l4 = 8 * S) as L4 by (unfold l4; rewrite zlen_app; lia).
  rewrite (vert_next 3 S _ _ r4 r5) by (auto; lia). cbn [next_or]. set (l5 := (l4 ++ _)%list). assert (zlen l5 = 10 * S) as L5 by (unfold l5; rewrite zlen_app; lia).
  rewrite (vert_next 2 S _ _ r5 r6) by (auto; lia). cbn [next_or]. set (l6 := (l5 ++ _)%list). assert (zlen l6 = 12 * S) as L6 by (unfold l6; rewrite zlen_app; lia).
  rewrite (vert_next 1 S _ _ r6 r7) by (auto; lia). cbn [next_or]. set (l7 := (l6 ++ _)%list). assert (zlen l7 = 14 * S) as L7 by (unfold l7; rewrite zlen_app; lia).
  rewrite (vert_next 0 S _ _ r7 r7) by (auto; lia). cbn [next_or vert_loop]. set (l8 := (l7 ++ _)%list). assert (zlen l8 = 16 * S) as L8 by (unfold l8; rewrite zlen_app; lia).
  rewrite splice_all by (unfold zlen in *; lia). f_equal. unfold l8, l7, l6, l5, l4, l3, l2. now rewrite <- !app_assoc.
Qed.
Lemma row_of_length input S i : (S * i + S <= length input)%nat -> length (row_of S input i) = S.
Proof. intros H. unfold row_of. rewrite firstn_length, skipn_length. nia. Qed.
Lemma pair_rows_even l m (S : nat) (a b : nat) input c : l = row_of S input a -> m = row_of S input b -> (c < S)%nat ->
  (S * a + S <= length input)%nat -> (S * b + S <= length input)%nat ->
  nth c (map2 tri l m) 0 = tri (nth (a * S + c) input 0) (nth (b * S + c) input 0).
Proof.
  intros -> -> Hc Ha Hb. rewrite map2_nth by (rewrite !row_of_length by lia; lia). now rewrite !nth_row_of by exact Hc.
Qed.
Lemma C29_vertical_lemma input S : 0 < S -> zlen input = 8 * S -> Forall small input ->
  exists out, upsample_vertical input (16 * S) = Ok out /\ zlen out = 16 * S /\
    forall row c, 0 <= row < 16 -> 0 <= c < S -> zn out (row * S + c) = v_filter S (zn input) row c.
Proof.
  intros HS Hl Hs. pose proof (vertical_rows input S HS Hl) as E. cbv zeta in E. eexists. split; [exact E|]. clear E.
  set (n := Z.to_nat S).
  assert (forall i, (i < 8)%nat -> length (row_of n input i) = n) as Hr.
  { intros i Hi. apply row_of_length. unfold zlen, n in *. nia. }
  match goal with |- context [concat ?r] => set (rows := r) end.
  assert (Forall (fun r => length r = n) rows) as Hf.
  { unfold rows, pair_rows. cbn [app]. repeat (apply Forall_cons; [rewrite map2_length; rewrite !Hr by lia; reflexivity|]). apply Forall_nil. }
  split; [unfold zlen; rewrite (concat_length _ n Hf); change (length rows) with 16%nat; unfold n; lia|].
  intros row c Hrow Hc. unfold zn at 1. replace (Z.to_nat (row * S + c)) with (Z.to_nat row * n + Z.to_nat c)%nat by (unfold n; nia).
  rewrite nth_concat by (auto; unfold n; lia).
  assert (forall a b, (a < 8)%nat -> (b < 8)%nat ->
    nth (Z.to_nat c) (map2 tri (row_of n input a) (row_of n input b)) 0 =
    triangle (zn input (Z.of_nat a * S + c)) (zn input (Z.of_nat b * S + c))) as Hp.
  { intros a b Ha Hb. rewrite (pair_rows_even _ _ n a b input (Z.to_nat c) eq_refl eq_refl) by (unfold n, zlen in *; nia).
    replace (nth (a * n + Z.to_nat c) input 0) with (zn input (Z.of_nat a * S + c)) by (unfold zn, n; f_equal; nia).
    replace (nth (b * n + Z.to_nat c) input 0) with (zn input (Z.of_nat b * S + c)) by (unfold zn, n; f_equal; nia).
    apply tri_triangle; now apply small_zn. }
  remember (Z.to_nat row) as rn eqn:Ern. assert (row = Z.of_nat rn) as -> by lia. clear Ern.
  assert (rn < 16)%nat as H16 by lia. clear Hrow Hf.
  do 16 (destruct rn as [|rn]; [unfold rows, pair_rows; cbn [app nth]; rewrite Hp by lia; reflexivity|]). lia.
Qed.
Lemma C29_vrange_lemma lo hi input S out : -8000 <= lo -> hi <= 8000 ->
  Forall (fun x => lo <= x <= hi) input -> 0 < S -> zlen input = 8 * S ->
  upsample_vertical input (16 * S) = Ok out -> Forall (fun x => lo <= x <= hi) out.
Proof.
  intros Hlo Hhi Hf HS Hl E. pose proof (Forall_small _ _ _ Hlo Hhi Hf) as Hs.
  destruct (C29_vertical_lemma input S HS Hl Hs) as (out' & E' & L & F). rewrite E in E'. injection E' as <-.
  apply Forall_of_zn. intros i Hi. specialize (F (i / S) (i mod S)).
  assert (0 <= i / S < 16) as H1 by (split; [apply Z.div_pos; lia|apply Z.div_lt_upper_bound; lia]).
  pose proof (Z.mod_pos_bound i S HS) as H2. specialize (F H1 H2).
  replace (i / S * S + i mod S) with i in F by (pose proof (Z.div_mod i S); lia). rewrite F.
  clear F Hi. revert H1 H2. generalize (i / S) (i mod S). intros row c Hrow Hc. unfold v_filter. cbv zeta.
  assert (lo <= zn input (row / 2 * S + c) <= hi) as Ha by (apply zn_between; auto; assert (0 <= row / 2 < 8) by lia; nia).
  assert (lo <= zn input (v_other (row / 2) * S + c) <= hi) as Hb.
  { apply zn_between; auto. unfold v_other. assert (0 <= row / 2 < 8) by lia. destruct (_ =? 0) eqn:?; [nia|]. destruct (_ =? 7) eqn:?; nia. }
  destruct (Z.odd row); apply triangle_between; assumption.
Qed.
