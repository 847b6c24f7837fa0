(** The AVX2 inverse DCT is the scalar one applied to the transposed block, transposed back. *)
From Coq Require Import ZArith String List Bool Lia Morphisms Setoid.
From Coq Require Import ZifyBool ZifyNat ZifyN.
From Verif Require Import Base Idct Simd BaseFacts IdctChecked IdctFacts.
Import ListNotations.
Local Open Scope Z_scope.
Ltac Zify.zify_post_hook ::= Z.div_mod_to_equations.

(** * Wrapping *)
Definition eqm (a b : Z) : Prop := a mod 4294967296 = b mod 4294967296.
#[local] Instance eqm_equiv : Equivalence eqm.
Proof. unfold eqm. split; [intros x; reflexivity|intros x y H; now symmetry|intros x y z H1 H2; congruence]. Qed.
#[local] Instance eqm_add : Proper (eqm ==> eqm ==> eqm) Z.add.
Proof. unfold eqm. intros a b H c d H2. rewrite Z.add_mod, H, H2, <- Z.add_mod; lia. Qed.
#[local] Instance eqm_sub : Proper (eqm ==> eqm ==> eqm) Z.sub.
Proof. unfold eqm. intros a b H c d H2. rewrite Zminus_mod, H, H2, <- Zminus_mod; lia. Qed.
#[local] Instance eqm_mul : Proper (eqm ==> eqm ==> eqm) Z.mul.
Proof. unfold eqm. intros a b H c d H2. rewrite Z.mul_mod, H, H2, <- Z.mul_mod; lia. Qed.
Lemma eqm_i32 x : eqm (i32 x) x.
Proof. unfold eqm, i32. lia. Qed.
Lemma i32_eqm a b : eqm a b -> i32 a = i32 b.
Proof. unfold eqm, i32. lia. Qed.

Lemma eqm_drop x y : eqm x y -> eqm (i32 x) y.
Proof. intros <-. apply eqm_i32. Qed.
Ltac em :=
  lazymatch goal with
  | |- eqm (i32 _) _ => apply eqm_drop; em
  | |- eqm (?a + ?b) _ => apply eqm_add; em
  | |- eqm (?a - ?b) _ => apply eqm_sub; em
  | |- eqm (?a * ?b) _ => apply eqm_mul; em
  | |- _ => reflexivity
  end.

(** * Registers of eight lanes *)
Definition tab (f : Z -> Z) : list Z := [f 0; f 1; f 2; f 3; f 4; f 5; f 6; f 7].
Definition tab8 (a : Z -> Z -> Z) : regs8 :=
  (tab (a 0), tab (a 1), tab (a 2), tab (a 3), tab (a 4), tab (a 5), tab (a 6), tab (a 7)).
Lemma tab_ext f g : (forall i, 0 <= i < 8 -> f i = g i) -> tab f = tab g.
Proof. intros H. unfold tab. now rewrite !H by lia. Qed.
Lemma tab8_ext f g : (forall i j, 0 <= i < 8 -> 0 <= j < 8 -> f i j = g i j) -> tab8 f = tab8 g.
Proof. intros H. unfold tab8, tab. now rewrite !H by lia. Qed.
Lemma transpose_tab a : transpose (tab8 a) = tab8 (fun i j => a j i).
Proof. vm_compute. reflexivity. Qed.

Definition out1d (bias : Z) (s : Z -> Z) (k : Z) : Z :=
  zn (idct_1d bias (s 0) (s 1) (s 2) (s 3) (s 4) (s 5) (s 6) (s 7)) k.
Lemma zn_cons a l : zn (a :: l) 0 = a. Proof. reflexivity. Qed.
Lemma add32_tab f g : add32 (tab f) (tab g) = tab (fun i => i32 (f i + g i)). Proof. reflexivity. Qed.
Lemma sub32_tab f g : sub32 (tab f) (tab g) = tab (fun i => i32 (f i - g i)). Proof. reflexivity. Qed.
Lemma mul32_tab f g : mullo32 (tab f) (tab g) = tab (fun i => i32 (f i * g i)). Proof. reflexivity. Qed.
Lemma set1_tab x : set1 8 x = tab (fun _ => x). Proof. reflexivity. Qed.
Lemma slli_tab f : slli32 12 (tab f) = tab (fun i => i32 (f i * 4096)). Proof. reflexivity. Qed.
Lemma srai_tab n f : srai32 n (tab f) = tab (fun i => shr (f i) n). Proof. reflexivity. Qed.

Lemma dct_pass_tab bias scale a :
  dct_pass bias scale (tab8 a) = tab8 (fun k i => shr (i32 (out1d bias (fun j => a j i) k)) scale).
Proof.
  unfold dct_pass, tab8. rewrite !set1_tab.
  repeat first [rewrite add32_tab|rewrite sub32_tab|rewrite mul32_tab|rewrite slli_tab|rewrite srai_tab].
  cbv zeta.
  repeat match goal with |- (_, _) = (_, _) => apply f_equal2 end;
    apply tab_ext; intros i _; f_equal; apply i32_eqm; unfold out1d, idct_1d; cbv zeta;
    match goal with |- eqm _ (zn ?l ?k) => let x := eval cbv [zn nth Z.to_nat Pos.to_nat Pos.iter_op Nat.add] in (zn l k) in change (zn l k) with x end;
    em.
Qed.

(** * One block *)
Lemma row8_tab v (i : nat) : length v = 64%nat -> (i < 8)%nat ->
  row8 v i = tab (fun j => zn v (8 * Z.of_nat i + j)).
Proof.
  intros Hl Hi. unfold row8, tab, zn.
  assert (forall l : list Z, (8 <= length l)%nat ->
    firstn 8 l = [nth 0 l 0; nth 1 l 0; nth 2 l 0; nth 3 l 0; nth 4 l 0; nth 5 l 0; nth 6 l 0; nth 7 l 0]) as H.
  { intros l H. do 8 (destruct l as [|? l]; [cbn [length] in H; lia|]). reflexivity. }
  rewrite H by (rewrite skipn_length; lia).
  assert (forall k l (n : nat), nth k (skipn n l) 0 = nth (n + k) l 0) as Hn.
  { intros k l n. revert l. induction n; intros l; [reflexivity|]. destruct l; [now destruct k|]. apply IHn. }
  rewrite !Hn. repeat (apply cons_eq; [f_equal; lia|]). reflexivity.
Qed.
Lemma permute_store_tab f g :
  permute_store (tab f) (tab g) = [tab (fun i => clamp_i16 (f i)); tab (fun i => clamp_i16 (g i))].
Proof.
  assert (forall x, Z.min (Z.max (sat_i16 x) 0) 255 = clamp_i16 x) as H by (intros x; unfold sat_i16, clamp_i16; lia).
  transitivity [tab (fun i => Z.min (Z.max (sat_i16 (f i)) 0) 255); tab (fun i => Z.min (Z.max (sat_i16 (g i)) 0) 255)].
  - reflexivity.
  - apply cons_eq; [|apply cons_eq; [|reflexivity]]; apply tab_ext; intros; apply H.
Qed.

(** the block with rows and columns exchanged *)
Definition tr64 (v : list Z) : list Z := map (fun i => zn v (8 * (i mod 8) + i / 8)) (zseq 64).
Definition tr_rows (rows : list (list Z)) : list (list Z) :=
  map (fun c => map (fun r => zn r c) rows) (zseq 8).
Lemma zn_map_zseq (f : Z -> Z) n k : 0 <= k < n -> zn (map f (zseq n)) k = f k.
Proof.
  intros H. unfold zn. rewrite (nth_indep _ 0 (f 0)) by (unfold zseq; rewrite !map_length, seq_length; lia).
  rewrite map_nth. f_equal. unfold zseq. change 0 with (Z.of_nat 0) at 1. rewrite map_nth, seq_nth by lia. lia.
Qed.
Lemma zn_tr64 v i j : 0 <= i < 8 -> 0 <= j < 8 -> zn (tr64 v) (i + 8 * j) = zn v (8 * i + j).
Proof.
  intros Hi Hj. unfold tr64. rewrite zn_map_zseq by lia. cbv beta. f_equal. lia.
Qed.
(** both transforms, sample by sample *)
Definition full_at (v q : list Z) (r c : Z) : Z :=
  clamp_i16 (shr (i32 (out1d SCALE_BITS (fun c' =>
    shr (i32 (out1d 512 (fun r' => zn v (c' + 8 * r') * zn q (c' + 8 * r')) r)) 10) c)) 17).
Lemma zn_map_i (f : Z -> Z) a b c d e g h i k : 0 <= k < 8 -> zn (map f [a; b; c; d; e; g; h; i]) k = f (zn [a; b; c; d; e; g; h; i] k).
Proof.
  intros H. assert (k = 0 \/ k = 1 \/ k = 2 \/ k = 3 \/ k = 4 \/ k = 5 \/ k = 6 \/ k = 7) as Hk by lia.
  destruct Hk as [->|[->|[->|[->|[->|[->|[->| ->]]]]]]]; reflexivity.
Qed.
Lemma map_out1d (g : Z -> Z) bias s0 s1 s2 s3 s4 s5 s6 s7 :
  map g (idct_1d bias s0 s1 s2 s3 s4 s5 s6 s7) = tab (fun c => g (zn (idct_1d bias s0 s1 s2 s3 s4 s5 s6 s7) c)).
Proof. reflexivity. Qed.
Lemma full_tab v q : idct_full v q = map (fun r => tab (full_at v q r)) (zseq 8).
Proof.
  unfold idct_full. cbv zeta. apply map_ext_in. intros r Hr. apply zseq_In in Hr.
  rewrite map_map. change (map (fun x => zn (idct_column v q x) r) (zseq 8)) with (tab (fun x => zn (idct_column v q x) r)).
  unfold idct_row, full_at. rewrite map_out1d. apply tab_ext. intros c Hcc. do 3 f_equal. unfold out1d at 1.
  repeat match goal with |- context [zn (tab ?f) ?k] => change (zn (tab f) k) with (f k) end.
  assert (forall x, zn (idct_column v q x) r =
    shr (i32 (out1d 512 (fun r' => zn v (x + 8 * r') * zn q (x + 8 * r')) r)) 10) as Hc.
  { intros x. unfold idct_column. cbv zeta. unfold idct_1d at 1. cbv zeta. rewrite zn_map_i by exact Hr. reflexivity. }

  cbv beta. rewrite !Hc. reflexivity.
Qed.

Lemma or_zero (a b : list Z) : length a = length b ->
  forallb (fun x => x =? 0) (or16 a b) = forallb (fun x => x =? 0) a && forallb (fun x => x =? 0) b.
Proof.
  revert b. induction a as [|x a IH]; intros [|y b] H; try discriminate; [reflexivity|]. injection H as H.
  unfold or16. cbn [map2 forallb]. fold or16. rewrite IH by exact H.
  destruct (Z.lor x y =? 0) eqn:E.
  - apply Z.eqb_eq, Z.lor_eq_0_iff in E. destruct E as [-> ->]. cbn. now destruct (forallb _ a).
  - assert (~ (x = 0 /\ y = 0)) as Hxy by (rewrite <- Z.lor_eq_0_iff; lia).
    destruct (x =? 0) eqn:Ex, (y =? 0) eqn:Ey; try lia; cbn [andb]; now rewrite ?andb_false_r.
Qed.
Lemma row8_length v i : length v = 64%nat -> (i < 8)%nat -> length (row8 v i) = 8%nat.
Proof. intros Hl Hi. now rewrite row8_tab. Qed.
Lemma zn_tab f k : 0 <= k < 8 -> zn (tab f) k = f k.
Proof.
  intros H. assert (k = 0 \/ k = 1 \/ k = 2 \/ k = 3 \/ k = 4 \/ k = 5 \/ k = 6 \/ k = 7) as Hk by lia.
  destruct Hk as [->|[->|[->|[->|[->|[->|[->| ->]]]]]]]; reflexivity.
Qed.
(** the zero test looks at every AC coefficient *)
Lemma avx_zero_test v : length v = 64%nat ->
  forallb (fun x => x =? 0)
    (or16 (row8 v 7) (or16 (row8 v 6) (or16 (row8 v 5) (or16 (row8 v 4) (or16 (row8 v 3) (or16 (row8 v 2)
      (or16 (row8 v 1) (firstn 8 (skipn 1 v)))))))))
  = forallb (fun x => x =? 0) (tl v).
Proof.
  intros Hl.
  assert (length (firstn 8 (skipn 1 v)) = 8%nat) as H0 by (rewrite firstn_length, skipn_length; lia).
  assert (forall a b, length a = 8%nat -> length b = 8%nat -> length (or16 a b) = 8%nat) as Hor.
  { intros a b Ha Hb. do 9 (destruct a as [|? a]; [discriminate Ha||idtac|]); try discriminate Ha.
    do 9 (destruct b as [|? b]; [discriminate Hb||idtac|]); try discriminate Hb. reflexivity. }
  rewrite !or_zero; repeat (first [rewrite !row8_length by (auto; lia)|rewrite Hor|rewrite H0]; auto; try (apply row8_length; auto; lia)).
  apply eq_true_iff_eq. rewrite !andb_true_iff, !forallb_forall. split.
  - intros (H7 & H6 & H5 & H4 & H3 & H2 & H1 & H0') x Hx. 
    destruct v as [|v0 v]; [discriminate|]. cbn [tl] in Hx. cbn [skipn] in H0'.
    apply (In_nth _ _ 0) in Hx. destruct Hx as (n & Hn & <-). cbn [length] in Hl.
    destruct (Nat.lt_ge_cases n 8) as [Hs|Hs].
    + apply H0'. assert (nth n v 0 = nth n (firstn 8 v) 0) as ->.
      { rewrite <- (firstn_skipn 8 v) at 1. rewrite app_nth1 by (rewrite firstn_length; lia). reflexivity. }
      apply nth_In. rewrite firstn_length. lia.
    + assert (exists i, (1 <= i < 8)%nat /\ In (nth n v 0) (row8 (v0 :: v) i)) as (i & Hi & Hin).
      { exists ((S n) / 8)%nat. assert (1 <= S n / 8 < 8)%nat as Hb by lia. split; [exact Hb|].
        rewrite row8_tab by (cbn [length]; lia). unfold tab.
        assert (nth n v 0 = zn (v0 :: v) (Z.of_nat (S n))) as ->.
        { unfold zn. rewrite Nat2Z.id. reflexivity. }
        assert (Z.of_nat (S n) = 8 * Z.of_nat (S n / 8) + Z.of_nat (S n mod 8)) as ->.
        { pose proof (Nat.div_mod (S n) 8). lia. }
        assert (S n mod 8 < 8)%nat as Hm by (apply Nat.mod_upper_bound; lia).
        destruct (S n mod 8)%nat as [|[|[|[|[|[|[|[|k]]]]]]]]; cbn [In Z.of_nat Pos.of_succ_nat Pos.succ]; auto 10. lia. }
      assert (i = 1 \/ i = 2 \/ i = 3 \/ i = 4 \/ i = 5 \/ i = 6 \/ i = 7)%nat as Hc by lia.
      destruct Hc as [->|[->|[->|[->|[->|[->| ->]]]]]]; auto.
  - intros H. destruct v as [|v0 v]; [discriminate|]. cbn [tl] in H.
    assert (forall n x, In x (firstn 8 (skipn n v)) -> In x v) as Hin.
    { intros n x Hx. rewrite <- (firstn_skipn n v). apply in_or_app. right.
      rewrite <- (firstn_skipn 8 (skipn n v)). apply in_or_app. now left. }
    assert (forall i, (1 <= i)%nat -> row8 (v0 :: v) i = firstn 8 (skipn (8 * i - 1) v)) as Hr.
    { intros i Hi. unfold row8. assert (8 * i = S (8 * i - 1))%nat as He by lia. rewrite He at 1. reflexivity. }
    rewrite !Hr by lia.
    repeat split; intros x Hx; apply H; eapply Hin; try exact Hx.
    exact (Hx : In x (firstn 8 (skipn 0 v))).
Qed.

Lemma C26_block_lemma v q : length v = 64%nat -> length q = 64%nat ->
  idct_block_avx2 v q =
  if forallb (fun x => x =? 0) (tl v)
  then map (map clamp_i16) (idct_block v q)
  else tr_rows (idct_full (tr64 v) (tr64 q)).
Proof.
  intros Hv Hq. unfold idct_block_avx2. cbv zeta. rewrite avx_zero_test by exact Hv.
  destruct (forallb _ (tl v)) eqn:Ez.
  - unfold idct_block. rewrite Ez. reflexivity.
  - rewrite !row8_tab by (auto; lia). rewrite !mul32_tab.
    set (a := fun i j => i32 (zn v (8 * i + j) * zn q (8 * i + j))).
    match goal with |- context [transpose ?r] => change r with (tab8 a) end.
    rewrite transpose_tab, dct_pass_tab, transpose_tab, dct_pass_tab. unfold tab8.
    rewrite !permute_store_tab. cbn [app].
    transitivity (map (fun r => tab (fun c => full_at (tr64 v) (tr64 q) c r)) (zseq 8)).
    + assert (forall r c, 0 <= r < 8 -> 0 <= c < 8 ->
        clamp_i16 (shr (i32 (out1d SCALE_BITS (fun j =>
          shr (i32 (out1d 512 (fun j0 => a j j0) c)) 10) r)) 17) = full_at (tr64 v) (tr64 q) c r) as H.
      { intros r c Hr Hc. unfold full_at. do 3 f_equal. unfold out1d at 1 3.
        assert (forall j, 0 <= j < 8 ->
          shr (i32 (out1d 512 (fun j0 => a j j0) c)) 10 =
          shr (i32 (out1d 512 (fun r' => zn (tr64 v) (j + 8 * r') * zn (tr64 q) (j + 8 * r')) c)) 10) as Hj.
        { intros j Hj. f_equal. apply i32_eqm. unfold out1d. subst a. cbv beta.
          rewrite !zn_tr64 by lia.
          assert (c = 0 \/ c = 1 \/ c = 2 \/ c = 3 \/ c = 4 \/ c = 5 \/ c = 6 \/ c = 7) as Hk by lia.
          unfold idct_1d; cbv zeta.
          destruct Hk as [->|[->|[->|[->|[->|[->|[->| ->]]]]]]];
          match goal with |- eqm (zn ?l ?k) (zn ?m ?k) =>
            let x := eval cbv [zn nth Z.to_nat Pos.to_nat Pos.iter_op Nat.add] in (zn l k) in
            let y := eval cbv [zn nth Z.to_nat Pos.to_nat Pos.iter_op Nat.add] in (zn m k) in
            change (zn l k) with x; change (zn m k) with y end; em. }
        rewrite !Hj by lia. reflexivity. }
      change (zseq 8) with [0; 1; 2; 3; 4; 5; 6; 7]. cbn [map].
      repeat (apply cons_eq; [apply tab_ext; intros c Hc; apply H; lia|]). reflexivity.
    + rewrite full_tab. unfold tr_rows. apply map_ext_in. intros r Hr. apply zseq_In in Hr. rewrite map_map.
      change (map (fun x => zn (tab (full_at (tr64 v) (tr64 q) x)) r) (zseq 8))
        with (tab (fun x => zn (tab (full_at (tr64 v) (tr64 q) x)) r)).
      apply tab_ext. intros c Hc. 
      now rewrite zn_tab by exact Hr.
Qed.
