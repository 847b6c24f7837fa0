(** Facts about the inverse DCT: ranges, overflow, the DC-only shortcut, AVX2 against scalar. *)
From Coq Require Import ZArith String List Bool Lia.
From Coq Require Import ZifyBool ZifyNat ZifyN.
From Verif Require Import Base Idct Simd IdctChecked BaseFacts.
Import ListNotations.
Local Open Scope Z_scope.
Ltac Zify.zify_post_hook ::= Z.div_mod_to_equations.

(** * The one-dimensional kernel does not overflow *)
Definition within (B x : Z) : Prop := - B <= x <= B.
Lemma ck32_ok x : -2147483648 <= x <= 2147483647 -> ck32 x = Some x.
Proof. intros H. unfold ck32. now replace (_ && _) with true by lia. Qed.
Lemma obind_ck {B} x (k : Z -> option B) r :
  -2147483648 <= x <= 2147483647 -> k x = r -> obind (ck32 x) k = r.
Proof. intros H <-. now rewrite ck32_ok. Qed.

Lemma idct_1d_no_overflow bias s0 s1 s2 s3 s4 s5 s6 s7 :
  0 <= bias <= 16843264 -> within 61500 s0 -> within 61500 s1 -> within 61500 s2 -> within 61500 s3 ->
  within 61500 s4 -> within 61500 s5 -> within 61500 s6 -> within 61500 s7 ->
  idct_1d_checked bias s0 s1 s2 s3 s4 s5 s6 s7 = Some (idct_1d bias s0 s1 s2 s3 s4 s5 s6 s7).
Proof.
  unfold within. intros. unfold idct_1d_checked.
  repeat (apply obind_ck; [lia|]; cbv beta). reflexivity.
Qed.

Lemma i32_id x : -2147483648 <= x <= 2147483647 -> i32 x = x.
Proof. unfold i32. lia. Qed.
Lemma i16_id x : -32768 <= x <= 32767 -> i16 x = x.
Proof. unfold i16. lia. Qed.
Ltac small := unfold within in *; lia.
(** every output of the kernel is small if the inputs are *)
Lemma idct_1d_bound bias B s0 s1 s2 s3 s4 s5 s6 s7 :
  0 <= bias <= 16843264 -> 0 <= B -> within B s0 -> within B s1 -> within B s2 -> within B s3 ->
  within B s4 -> within B s5 -> within B s6 -> within B s7 ->
  Forall (within (30614 * B + bias)) (idct_1d bias s0 s1 s2 s3 s4 s5 s6 s7).
Proof.
  intros. unfold idct_1d. cbv zeta. repeat (constructor; [small|]). constructor.
Qed.
Lemma omap_some {A B} (f : A -> option B) (g : A -> B) l :
  (forall a, In a l -> f a = Some (g a)) -> omap f l = Some (map g l).
Proof.
  induction l as [|a l IH]; intros H; [reflexivity|]. cbn [omap map].
  rewrite H by now left. cbn [obind]. rewrite IH; [reflexivity|]. intros b Hb. apply H. now right.
Qed.
Lemma map_ext_Forall {A B} (P : A -> Prop) (f g : A -> B) l :
  Forall P l -> (forall a, P a -> f a = g a) -> map f l = map g l.
Proof. intros H Hfg. apply map_ext_in. rewrite Forall_forall in H. auto. Qed.

(** the dequantized coefficients *)
Definition dq (v q : list Z) (i : Z) : Z := zn v i * zn q i.
Definition dq_within (B : Z) (v q : list Z) : Prop := forall i, 0 <= i < 64 -> within B (dq v q i).

Lemma zseq_In n i : In i (zseq n) <-> 0 <= i < n.
Proof.
  unfold zseq. rewrite in_map_iff. split.
  - intros (k & <- & H). apply in_seq in H. lia.
  - intros H. exists (Z.to_nat i). rewrite in_seq. lia.
Qed.
Lemma column_checked v q ptr : dq_within 2048 v q -> 0 <= ptr < 8 ->
  idct_column_checked v q ptr = Some (idct_column v q ptr) /\
  Forall (within 61500) (idct_column v q ptr).
Proof.
  intros H Hp.
  assert (forall k, 0 <= k < 8 -> within 2048 (dq v q (ptr + 8 * k))) as Hk by (intros k Hk; apply H; lia).
  pose proof (idct_1d_bound 512 2048 _ _ _ _ _ _ _ _ ltac:(lia) ltac:(lia) (Hk 0 ltac:(lia)) (Hk 1 ltac:(lia)) (Hk 2 ltac:(lia))
    (Hk 3 ltac:(lia)) (Hk 4 ltac:(lia)) (Hk 5 ltac:(lia)) (Hk 6 ltac:(lia)) (Hk 7 ltac:(lia))) as Hb.
  assert (forall x, within (30614 * 2048 + 512) x -> shr (i32 x) 10 = shr x 10) as Hi.
  { intros x Hx. rewrite i32_id; [reflexivity|small]. }
  split.
  - unfold idct_column_checked.
    rewrite omap_some with (g := fun k => dq v q (ptr + 8 * k)).
    2:{ intros k Hkk. apply zseq_In in Hkk. specialize (Hk k Hkk). apply ck32_ok. unfold dq in *. small. }
    cbn [obind]. rewrite idct_1d_no_overflow; try (unfold within; lia);
      try (match goal with |- within 61500 ?x => assert (within 2048 x) by (apply Hk; lia); small end).
    cbn [obind]. f_equal. unfold idct_column. symmetry.
    eapply map_ext_Forall; [exact Hb|]. exact Hi.
  - unfold idct_column. rewrite Forall_map. eapply Forall_impl; [|exact Hb]. cbv beta.
    intros x Hx. rewrite Hi by exact Hx. unfold shr. change (2 ^ 10) with 1024. small.
Qed.
Lemma Forall_zn (P : Z -> Prop) l i : P 0 -> Forall P l -> P (zn l i).
Proof.
  intros H0 H. unfold zn. destruct (le_lt_dec (length l) (Z.to_nat i)).
  - now rewrite nth_overflow.
  - rewrite Forall_forall in H. apply H. now apply nth_In.
Qed.
Lemma row_checked s : Forall (within 61500) s -> idct_row_checked s = Some (idct_row s).
Proof.
  intros H. assert (forall i, within 61500 (zn s i)) as Hs by (intros i; apply Forall_zn; auto; small).
  unfold idct_row_checked. rewrite idct_1d_no_overflow; auto; [|unfold SCALE_BITS; lia]. cbn [obind]. f_equal.
  unfold idct_row. symmetry. eapply map_ext_Forall.
  - apply (idct_1d_bound SCALE_BITS 61500); auto; unfold SCALE_BITS; lia.
  - cbv beta. intros x Hx. rewrite i32_id; [reflexivity|]. unfold SCALE_BITS in Hx. small.
Qed.

Lemma C24_lemma v q : dq_within 2048 v q -> within 32767 (zn q 0) ->
  idct_block_checked v q = Some (idct_block v q).
Proof.
  intros H Hq. unfold idct_block_checked, idct_block. destruct (forallb _ _).
  - assert (within 2048 (zn v 0 * zn q 0)) as H0 by (apply (H 0); lia).
    unfold ck16. replace (_ && _) with true by small. cbn [obind]. replace (_ && _) with true by small. cbn [obind].
    unfold dc_only. rewrite (i16_id (zn q 0)) by small. rewrite (i16_id (_ * _)) by small.
    unfold shr. change (2 ^ 3) with 8. rewrite i16_id by small. replace (_ && _) with true by small. reflexivity.
  - rewrite omap_some with (g := idct_column v q).
    2:{ intros p Hp. apply zseq_In in Hp. now apply column_checked. }
    cbn [obind]. apply omap_some. intros r Hr. apply row_checked.
    rewrite !Forall_map. apply Forall_forall. intros p Hp. apply zseq_In in Hp.
    apply Forall_zn; [small|]. now apply column_checked.
Qed.

(** * The DC-only shortcut *)
Lemma cons_eq {A} (a b : A) l m : a = b -> l = m -> a :: l = b :: m.
Proof. now intros -> ->. Qed.
Definition idct_full (v q : list Z) : list (list Z) :=
  let cols := map (idct_column v q) (zseq 8) in
  map (fun r => idct_row (map (fun c => zn c r) cols)) (zseq 8).
Definition dc_block (dc : Z) : list Z := dc :: repeat 0 63.

Lemma zn_dc dc i : 0 <= i < 64 -> zn (dc_block dc) i = if i =? 0 then dc else 0.
Proof.
  intros H. unfold zn, dc_block. destruct (Z.to_nat i) as [|k] eqn:E.
  - replace (i =? 0) with true by lia. reflexivity.
  - replace (i =? 0) with false by lia. cbn [nth]. apply nth_repeat.
Qed.
Lemma column_dc dc q ptr : within 32768 (dc * zn q 0) -> 0 <= ptr < 8 ->
  idct_column (dc_block dc) q ptr = repeat (if ptr =? 0 then 4 * (dc * zn q 0) else 0) 8.
Proof.
  intros H Hp. unfold idct_column, dequantize. cbv zeta.
  rewrite !zn_dc by lia. replace (ptr + 8 * 0) with ptr by lia.
  assert (forall k, 0 < k -> (if ptr + 8 * k =? 0 then dc else 0) = 0) as Hz.
  { intros k Hk. now replace (ptr + 8 * k =? 0) with false by lia. }
  rewrite !Hz by lia. destruct (ptr =? 0) eqn:E.
  - replace ptr with 0 in * by lia. unfold idct_1d. cbv zeta. cbn [map repeat].
    set (s := dc * zn q 0) in *. unfold shr. change (2 ^ 10) with 1024.
    rewrite !i32_id by small. repeat (apply cons_eq; [small|]). reflexivity.
  - replace (0 * zn q ptr) with 0 by reflexivity. vm_compute. reflexivity.
Qed.
Lemma row_dc a : within 131072 a ->
  idct_row (a :: repeat 0 7) = repeat (clamp_i16 ((a * 4096 + SCALE_BITS) / 131072)) 8.
Proof.
  intros H. unfold idct_row, idct_1d. cbv zeta.
  change (zn (a :: repeat 0 7) 0) with a. 
  repeat match goal with |- context [zn (a :: repeat 0 7) ?k] => change (zn (a :: repeat 0 7) k) with 0 end.
  cbn [map repeat]. unfold shr. change (2 ^ 17) with 131072. unfold SCALE_BITS. rewrite !i32_id by small.
  repeat (apply cons_eq; [f_equal; small|]). reflexivity.
Qed.
Lemma full_dc dc q : within 32768 (dc * zn q 0) ->
  idct_full (dc_block dc) q = repeat (repeat (clamp_i16 ((4 * (dc * zn q 0) * 4096 + SCALE_BITS) / 131072)) 8) 8.
Proof.
  intros H. unfold idct_full. cbv zeta.
  rewrite (map_ext_in (idct_column (dc_block dc) q) (fun ptr => repeat (if ptr =? 0 then 4 * (dc * zn q 0) else 0) 8)).
  2:{ intros p Hp. apply zseq_In in Hp. now apply column_dc. }
  change (zseq 8) with [0; 1; 2; 3; 4; 5; 6; 7]. cbn [map Z.eqb Pos.eqb].
  set (x := 4 * (dc * zn q 0)).
  repeat match goal with |- context [zn (repeat ?a 8) ?k] => change (zn (repeat a 8) k) with a end.
  change [x; 0; 0; 0; 0; 0; 0; 0] with (x :: repeat 0 7).
  rewrite row_dc by (subst x; small). reflexivity.
Qed.
Lemma block_dc dc q : idct_block (dc_block dc) q = repeat (repeat (dc_only dc (zn q 0)) 8) 8.
Proof. reflexivity. Qed.

Lemma C25_lemma dc q : within 32767 (zn q 0) -> -32768 <= dc * zn q 0 <= 32767 ->
  exists a b, idct_block (dc_block dc) q = repeat (repeat a 8) 8 /\
              idct_full (dc_block dc) q = repeat (repeat b 8) 8 /\
              Z.abs (clamp_i16 a - b) <= 1.
Proof.
  intros Hq H. eexists _, _. split; [apply block_dc|]. split; [apply full_dc; small|].
  unfold dc_only. rewrite (i16_id (zn q 0)) by small. rewrite (i16_id (_ * _)) by small.
  unfold shr. change (2 ^ 3) with 8. rewrite i16_id by small. unfold clamp_i16, SCALE_BITS. small.
Qed.
(** the full transform is what other blocks get *)
Lemma block_full v q : Exists (fun c => c <> 0) (tl v) -> idct_block v q = idct_full v q.
Proof.
  intros H. unfold idct_block. replace (forallb _ _) with false; [reflexivity|]. symmetry.
  apply Exists_exists in H. destruct H as (c & Hin & Hc).
  destruct (forallb _ _) eqn:E; [|reflexivity]. rewrite forallb_forall in E. specialize (E c Hin). lia.
Qed.
