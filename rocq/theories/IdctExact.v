(** The inverse DCT kernels as linear maps, with their rounding errors. *)
From Coq Require Import ZArith String List Bool Lia.
From Coq Require Import ZifyBool ZifyNat ZifyN.
From Verif Require Import Base Idct Simd BaseFacts SpecSegments SpecIdct IdctChecked IdctFacts IdctSimd.
Import ListNotations.
Local Open Scope Z_scope.
Ltac Zify.zify_post_hook ::= Z.div_mod_to_equations.

(** * One pass *)
Definition sum8 (f : Z -> Z) : Z := f 0 + f 1 + f 2 + f 3 + f 4 + f 5 + f 6 + f 7.
Definition mat : list (list Z) :=
  Eval vm_compute in map (fun k => map (fun j => out1d 0 (fun i => if i =? j then 1 else 0) k) (zseq 8)) (zseq 8).
Definition coef (k j : Z) : Z := zn (nth (Z.to_nat k) mat []) j.

Ltac cases8 k H :=
  let Hk := fresh in
  assert (k = 0 \/ k = 1 \/ k = 2 \/ k = 3 \/ k = 4 \/ k = 5 \/ k = 6 \/ k = 7) as Hk by (clear - H; lia);
  destruct Hk as [->|[->|[->|[->|[->|[->|[->| ->]]]]]]].
Ltac coefs := repeat match goal with |- context [coef ?a ?b] => let x := eval vm_compute in (coef a b) in change (coef a b) with x end.

Lemma out1d_lin bias s k : 0 <= k < 8 -> out1d bias s k = bias + sum8 (fun j => coef k j * s j).
Proof.
  intros H. unfold out1d, sum8. cases8 k H; coefs;
  generalize (s 0) (s 1) (s 2) (s 3) (s 4) (s 5) (s 6) (s 7); intros; unfold idct_1d; cbv zeta;
  match goal with |- zn ?l ?k = _ => let x := eval cbv [zn nth Z.to_nat Pos.to_nat Pos.iter_op Nat.add] in (zn l k) in change (zn l k) with x end; ring.
Qed.
Lemma sum8_ext f g : (forall i, 0 <= i < 8 -> f i = g i) -> sum8 f = sum8 g.
Proof. intros H. unfold sum8. now rewrite !H by lia. Qed.
Lemma coef_sum k : 0 <= k < 8 -> sum8 (fun j => Z.abs (coef k j)) <= 30614.
Proof. intros H. unfold sum8. cases8 k H; vm_compute; discriminate. Qed.
(** a weighted sum of bounded errors *)
Lemma weigh k e B : 0 <= k < 8 -> 0 <= B -> (forall j, 0 <= j < 8 -> within B (e j)) ->
  within (30614 * B) (sum8 (fun j => coef k j * e j)).
Proof.
  intros Hk HB H. 
  pose proof (H 0 ltac:(lia)). pose proof (H 1 ltac:(lia)). pose proof (H 2 ltac:(lia)). pose proof (H 3 ltac:(lia)).
  pose proof (H 4 ltac:(lia)). pose proof (H 5 ltac:(lia)). pose proof (H 6 ltac:(lia)). pose proof (H 7 ltac:(lia)).
  clear H. unfold sum8, within in *. cases8 k Hk; coefs; lia.
Qed.

(** * Both passes *)
(** [x r c]: the dequantized coefficient of row [r], column [c] *)
Definition exact2 (x : Z -> Z -> Z) (r c : Z) : Z :=
  sum8 (fun c' => coef c c' * sum8 (fun r' => coef r r' * x r' c')).
Lemma exact2_swap x r c : exact2 x r c = exact2 (fun a b => x b a) c r.
Proof. unfold exact2, sum8. ring. Qed.

Definition dqm (v q : list Z) (r c : Z) : Z := dq v q (8 * r + c).

Lemma full_near v q r c : dq_within 2048 v q -> 0 <= r < 8 -> 0 <= c < 8 ->
  exists s, full_at v q r c = clamp_i16 (s / 131072) /\
    within (512 * 30614) (1024 * (s - SCALE_BITS) - exact2 (dqm v q) r c).
Proof.
  intros H Hr Hc. unfold full_at.
  set (x := fun r' c' => dqm v q r' c').
  assert (forall r' c', 0 <= r' < 8 -> 0 <= c' < 8 -> within 2048 (x r' c')) as Hx.
  { intros r' c' H1 H2. apply (H (8 * r' + c')). lia. }
  set (T := fun c' => shr (i32 (out1d 512 (fun r' => zn v (c' + 8 * r') * zn q (c' + 8 * r')) r)) 10).
  assert (forall c', 0 <= c' < 8 -> 
    within 512 (1024 * T c' - sum8 (fun r' => coef r r' * x r' c')) /\ within 61500 (T c')) as HT.
  { intros c' Hc'. unfold T. rewrite out1d_lin by exact Hr.
    rewrite (sum8_ext _ (fun r' => coef r r' * x r' c')).
    2:{ intros i Hi. unfold x, dqm, dq. rewrite (Z.add_comm c'). reflexivity. }
    pose proof (weigh r (fun r' => x r' c') 2048 Hr ltac:(lia) (fun r' Hr' => Hx r' c' Hr' Hc')) as Hw.
    cbv beta in Hw. revert Hw. generalize (sum8 (fun r' => coef r r' * x r' c')). intros S Hw.
    rewrite i32_id by small. unfold shr. change (2 ^ 10) with 1024. unfold within in *. split; lia. }
  clearbody T.
  exists (out1d SCALE_BITS T c).
  pose proof (weigh c T 61500 Hc ltac:(lia) (fun j Hj => proj2 (HT j Hj))) as Hw.
  pose proof (weigh c (fun c' => 1024 * T c' - sum8 (fun r' => coef r r' * x r' c')) 512 Hc ltac:(lia)
    (fun j Hj => proj1 (HT j Hj))) as He.
  rewrite out1d_lin by exact Hc. split.
  - rewrite i32_id; [reflexivity|]. unfold SCALE_BITS. small.
  - assert (1024 * (SCALE_BITS + sum8 (fun j => coef c j * T j) - SCALE_BITS) - exact2 (dqm v q) r c =
      sum8 (fun j => coef c j * (1024 * T j - sum8 (fun r' => coef r r' * x r' j)))) as E.
    { unfold exact2, x. set (g := fun c' => sum8 (fun r' => coef r r' * dqm v q r' c')).
      change (1024 * (SCALE_BITS + sum8 (fun j => coef c j * T j) - SCALE_BITS) - sum8 (fun c' => coef c c' * g c') =
        sum8 (fun j => coef c j * (1024 * T j - g j))). clearbody g. unfold sum8. ring. }
    replace (512 * 30614) with (30614 * 512) by lia. exact (eq_ind_r (within (30614 * 512)) He E).
Qed.

(** * The two kernels *)
Definition rows_at (rows : list (list Z)) (r c : Z) : Z := zn (nth (Z.to_nat r) rows []) c.
Lemma sample_rows rows r c : sample rows r c = rows_at rows r c.
Proof. reflexivity. Qed.
Lemma rows_at_map f r c : 0 <= r < 8 -> 0 <= c < 8 -> rows_at (map (fun r => tab (f r)) (zseq 8)) r c = f r c.
Proof. intros Hr Hc. unfold rows_at. cases8 r Hr; change (zn (tab (f ?x)) c) with (zn (tab (f x)) c); cbn [zseq map nth Z.to_nat]; apply zn_tab; exact Hc. Qed.
Lemma full_sample v q r c : 0 <= r < 8 -> 0 <= c < 8 -> sample (idct_full v q) r c = full_at v q r c.
Proof. intros Hr Hc. rewrite full_tab. now apply rows_at_map. Qed.
Lemma tr_sample v q r c : 0 <= r < 8 -> 0 <= c < 8 -> sample (tr_rows (idct_full v q)) r c = full_at v q c r.
Proof.
  intros Hr Hc. rewrite full_tab. unfold tr_rows.
  assert (map (fun c => map (fun r => zn r c) (map (fun r => tab (full_at v q r)) (zseq 8))) (zseq 8) =
    map (fun c => tab (fun r => full_at v q r c)) (zseq 8)) as ->.
  { apply map_ext_in. intros k Hk. apply zseq_In in Hk. rewrite map_map.
    change (tab (fun r => zn (tab (full_at v q r)) k) = tab (fun r => full_at v q r k)).
    apply tab_ext. intros i Hi. now apply zn_tab. }
  exact (rows_at_map (fun r c => full_at v q c r) r c Hr Hc).
Qed.
Lemma zn_tr64' v i : 0 <= i < 64 -> zn (tr64 v) i = zn v (8 * (i mod 8) + i / 8).
Proof. intros H. unfold tr64. now rewrite zn_map_zseq by exact H. Qed.
Lemma dq_tr v q : dq_within 2048 v q -> dq_within 2048 (tr64 v) (tr64 q).
Proof. intros H i Hi. unfold dq. rewrite !zn_tr64' by exact Hi. apply (H (8 * (i mod 8) + i / 8)). lia. Qed.

Lemma C26_near_lemma v q r c : length v = 64%nat -> length q = 64%nat -> dq_within 2048 v q ->
  0 <= r < 8 -> 0 <= c < 8 ->
  Z.abs (sample (idct_block_avx2 v q) r c - clamp255 (sample (idct_block v q) r c)) <= 1.
Proof.
  intros Hv Hq H Hr Hc. rewrite C26_block_lemma by assumption. unfold idct_block.
  destruct (forallb _ (tl v)) eqn:Ez.
  - assert (forall x, sample (map (map clamp_i16) (zrepeat (zrepeat x 8) 8)) r c = clamp_i16 x /\
      sample (zrepeat (zrepeat x 8) 8) r c = x) as Hx.
    { intros x. unfold sample. cases8 r Hr; cases8 c Hc; split; reflexivity. }
    destruct (Hx (dc_only (zn v 0) (zn q 0))) as [-> ->]. unfold clamp_i16, clamp255. lia.
  - change (map _ (zseq 8)) with (idct_full v q). rewrite full_sample, tr_sample by assumption.
    destruct (full_near v q r c H Hr Hc) as (s & -> & Hs).
    destruct (full_near (tr64 v) (tr64 q) c r (dq_tr v q H) Hc Hr) as (s' & -> & Hs').
    assert (exact2 (dqm (tr64 v) (tr64 q)) c r = exact2 (dqm v q) r c) as He.
    { rewrite exact2_swap. unfold exact2. apply sum8_ext. intros i Hi. f_equal. apply sum8_ext. intros j Hj. f_equal.
      unfold dqm, dq. rewrite !zn_tr64' by lia.
      replace (8 * ((8 * i + j) mod 8) + (8 * i + j) / 8) with (8 * j + i) by lia. reflexivity. }
    rewrite He in Hs'. revert Hs Hs'. generalize (exact2 (dqm v q) r c). intros e. unfold within, clamp_i16, clamp255, SCALE_BITS. 
    clear. intros. lia.
Qed.

Lemma C26_transposed_lemma v q : length v = 64%nat -> length q = 64%nat -> Exists (fun c => c <> 0) (tl v) ->
  idct_block_avx2 v q = map (fun c => map (fun r => sample (idct_block (tr64 v) (tr64 q)) r c) (zseq 8)) (zseq 8).
Proof.
  intros Hv Hq H. rewrite C26_block_lemma by assumption.
  assert (forallb (fun x => x =? 0) (tl v) = false) as ->.
  { apply Exists_exists in H. destruct H as (c & Hin & Hc). destruct (forallb _ _) eqn:E; [|reflexivity].
    rewrite forallb_forall in E. specialize (E c Hin). lia. }
  assert (Exists (fun c => c <> 0) (tl (tr64 v))) as Ht.
  { apply Exists_exists in H. destruct H as (c & Hin & Hc). apply Exists_exists. exists c. split; [|exact Hc].
    destruct v as [|v0 v]; [discriminate|]. cbn [tl] in Hin. apply (In_nth _ _ 0) in Hin. destruct Hin as (n & Hn & <-).
    cbn [length] in Hv. set (i := Z.of_nat (S n)). set (j := 8 * (i mod 8) + i / 8).
    assert (zn (tr64 (v0 :: v)) j = nth n v 0) as <-.
    { rewrite zn_tr64' by lia. replace (8 * (j mod 8) + j / 8) with i by lia. unfold zn, i. rewrite Nat2Z.id. reflexivity. }
    assert (1 <= j < 64) as Hj by lia. clearbody j.
    assert (length (tr64 (v0 :: v)) = 64%nat) as Hl by (unfold tr64, zseq; now rewrite !map_length, seq_length).
    destruct (tr64 (v0 :: v)) as [|t0 t]; [discriminate|]. cbn [tl]. unfold zn. cbn [length] in Hl.
    replace (Z.to_nat j) with (S (Z.to_nat (j - 1))) by lia. cbn [nth]. apply nth_In. lia. }
  rewrite block_full by exact Ht. unfold tr_rows. apply map_ext_in. intros c Hc. apply zseq_In in Hc.
  assert (length (idct_full (tr64 v) (tr64 q)) = 8%nat) as Hl by reflexivity.
  unfold sample.
  destruct (idct_full (tr64 v) (tr64 q)) as [|a0 [|a1 [|a2 [|a3 [|a4 [|a5 [|a6 [|a7 [|a8 l]]]]]]]]]; try discriminate Hl.
  reflexivity.
Qed.
