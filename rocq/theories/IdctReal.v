(** How far the kernels are from the inverse DCT in real numbers. *)
From Coq Require Import ZArith String List Bool Lia Reals Lra.
From Coq Require Import ZifyBool ZifyNat ZifyN.
From Verif Require Import Base Idct Simd BaseFacts SpecSegments SpecIdct SpecDct IdctChecked IdctFacts IdctSimd IdctExact.
Import ListNotations.
Local Open Scope R_scope.
Ltac Zify.zify_post_hook ::= Z.div_mod_to_equations.

Lemma Rabs_le_inv x e : Rabs x <= e -> - e <= x <= e.
Proof. intros H. unfold Rabs in H. destruct (Rcase_abs x); lra. Qed.

(** * Cosines *)
Definition cosm (m : Z) : R := cos (IZR m * PI / 16).
Lemma cosm_16 m : cosm (m + 16) = - cosm m.
Proof. unfold cosm. rewrite plus_IZR. rewrite <- neg_cos. f_equal. field. Qed.
Lemma cosm_flip m : cosm (16 - m) = - cosm m.
Proof. unfold cosm. rewrite minus_IZR. rewrite <- (cos_neg (IZR m * PI / 16)), <- neg_cos. f_equal. field. Qed.
Lemma cosm_0 : cosm 0 = 1.
Proof. unfold cosm. rewrite <- cos_0. f_equal. field. Qed.
Lemma cosm_8 : cosm 8 = 0.
Proof. unfold cosm. rewrite <- cos_PI2. f_equal. field. Qed.
Lemma cosm_double m : 2 * (cosm m * cosm m) = 1 + cosm (2 * m).
Proof. unfold cosm. rewrite mult_IZR. replace (2 * IZR m * PI / 16) with (2 * (IZR m * PI / 16)) by field. rewrite cos_2a_cos. ring. Qed.
Lemma cosm_pos m : (0 <= m <= 8)%Z -> 0 <= cosm m.
Proof.
  intros [H1 H2]. apply IZR_le in H1, H2. unfold cosm. pose proof PI_RGT_0.
  apply cos_ge_0; nra.
Qed.
Lemma between lo hi x : 0 <= x -> 0 <= lo -> 0 <= hi -> lo * lo <= x * x <= hi * hi -> lo <= x <= hi.
Proof. intros. split; apply Rsqr_incr_0; unfold Rsqr; tauto. Qed.

Lemma cos4 : 0.70710678 <= cosm 4 <= 0.70710679.
Proof.
  apply between; [apply cosm_pos; lia|lra|lra|]. pose proof (cosm_double 4) as H.
  change (2 * 4)%Z with 8%Z in H. rewrite cosm_8 in H. lra.
Qed.
Ltac half m b := apply between; [apply cosm_pos; lia|lra|lra|]; pose proof (cosm_double m) as H; pose proof b;
  let x := eval vm_compute in (2 * m)%Z in change (2 * m)%Z with x in H; lra.
Lemma cos2 : 0.92387953 <= cosm 2 <= 0.92387954. Proof. half 2%Z cos4. Qed.
Lemma cos1 : 0.98078527 <= cosm 1 <= 0.98078529. Proof. half 1%Z cos2. Qed.
Lemma cos12 : cosm 12 = - cosm 4. Proof. exact (cosm_flip 4). Qed.
Lemma cos6 : 0.38268342 <= cosm 6 <= 0.38268344.
Proof. apply between; [apply cosm_pos; lia|lra|lra|]. pose proof (cosm_double 6) as H. change (2 * 6)%Z with 12%Z in H. rewrite cos12 in H. pose proof cos4. lra. Qed.
Lemma cos3 : 0.83146960 <= cosm 3 <= 0.83146963. Proof. half 3%Z cos6. Qed.
Lemma cos5 : 0.55557021 <= cosm 5 <= 0.55557025.
Proof. apply between; [apply cosm_pos; lia|lra|lra|]. pose proof (cosm_double 5) as H. change (2 * 5)%Z with (16 - 6)%Z in H. rewrite cosm_flip in H. pose proof cos6. lra. Qed.
Lemma cos7 : 0.19509030 <= cosm 7 <= 0.19509034.
Proof. apply between; [apply cosm_pos; lia|lra|lra|]. pose proof (cosm_double 7) as H. change (2 * 7)%Z with (16 - 2)%Z in H. rewrite cosm_flip in H. pose proof cos2. lra. Qed.

(** Reduction of the argument to the first quadrant *)
Lemma cosm_32 m : cosm (m + 32) = cosm m.
Proof. replace (m + 32)%Z with (m + 16 + 16)%Z by lia. rewrite !cosm_16. ring. Qed.
Lemma cosm_period n m : cosm (m + 32 * Z.of_nat n) = cosm m.
Proof.
  induction n as [|n IH]; [now rewrite Z.mul_0_r, Z.add_0_r|].
  replace (m + 32 * Z.of_nat (S n))%Z with (m + 32 * Z.of_nat n + 32)%Z by lia. now rewrite cosm_32.
Qed.
Lemma cosm_mod m : (0 <= m)%Z -> cosm m = cosm (m mod 32).
Proof.
  intros H. rewrite (Z.div_mod m 32) at 1 by lia. rewrite Z.add_comm.
  rewrite <- (cosm_period (Z.to_nat (m / 32)) (m mod 32)). f_equal. rewrite Z2Nat.id; [reflexivity|]. apply Z.div_pos; lia.
Qed.
Definition quadrant (a : Z) : Z * Z :=
  let n := Z.modulo a 32 in
  if Z.ltb n 16 then (if (n <=? 8)%Z then (1%Z, n) else ((-1)%Z, (16 - n)%Z))
  else (if (n - 16 <=? 8)%Z then ((-1)%Z, (n - 16)%Z) else (1%Z, (16 - (n - 16))%Z)).
Lemma cosm_quadrant m : (0 <= m)%Z -> cosm m = IZR (fst (quadrant m)) * cosm (snd (quadrant m)).
Proof.
  intros H. rewrite (cosm_mod m H). unfold quadrant. set (n := (m mod 32)%Z).
  destruct (Z.ltb n 16).
  - destruct (n <=? 8)%Z; cbn [fst snd].
    + ring.
    + rewrite cosm_flip. ring.
  - assert (E : cosm n = - cosm (n - 16)) by (rewrite <- cosm_16; f_equal; lia). rewrite E.
    destruct (n - 16 <=? 8)%Z; cbn [fst snd]; [ring|]. rewrite cosm_flip. ring.
Qed.

(** * The coefficients of the kernels *)
Lemma sqrt2_cos : sqrt 2 = 2 * cosm 4.
Proof.
  apply sqrt_lem_1; [lra|pose proof cos4; lra|]. pose proof (cosm_double 4) as H.
  change (2 * 4)%Z with 8%Z in H. rewrite cosm_8 in H. lra.
Qed.
Lemma sqrt2_bounds : 1.41421356 <= sqrt 2 <= 1.41421358.
Proof. rewrite sqrt2_cos. pose proof cos4. lra. Qed.
Definition ideal (k j : Z) : R := 4096 * sqrt 2 * basis k j.
Lemma ideal_0 k : ideal k 0 = 4096.
Proof.
  unfold ideal, basis, weight. change (0 =? 0)%Z with true. cbv iota. rewrite Z.mul_0_r.
  replace (IZR 0 * PI / 16) with 0 by field. rewrite cos_0. pose proof sqrt2_bounds. field. lra.
Qed.
Lemma ideal_cos k j : (0 <= k)%Z -> (0 < j)%Z ->
  ideal k j = IZR (fst (quadrant ((2 * k + 1) * j))) * (4096 * sqrt 2 * cosm (snd (quadrant ((2 * k + 1) * j)))).
Proof.
  intros Hk Hj. unfold ideal, basis, weight. replace (j =? 0)%Z with false by lia.
  change (cos (IZR ((2 * k + 1) * j) * PI / 16)) with (cosm ((2 * k + 1) * j)).
  rewrite cosm_quadrant by nia. ring.
Qed.
Ltac prod b := pose proof sqrt2_bounds; pose proof b; split; nra.
Lemma e1 : 5681.314 <= 4096 * sqrt 2 * cosm 1 <= 5681.316. Proof. prod cos1. Qed.
Lemma e2 : 5351.681 <= 4096 * sqrt 2 * cosm 2 <= 5351.683. Proof. prod cos2. Qed.
Lemma e3 : 4816.385 <= 4096 * sqrt 2 * cosm 3 <= 4816.387. Proof. prod cos3. Qed.
Lemma e4 : 4096 * sqrt 2 * cosm 4 = 4096.
Proof. rewrite sqrt2_cos. pose proof (cosm_double 4) as H. change (2 * 4)%Z with 8%Z in H. rewrite cosm_8 in H. lra. Qed.
Lemma e5 : 3218.206 <= 4096 * sqrt 2 * cosm 5 <= 3218.208. Proof. prod cos5. Qed.
Lemma e6 : 2216.739 <= 4096 * sqrt 2 * cosm 6 <= 2216.740. Proof. prod cos6. Qed.
Lemma e7 : 1130.083 <= 4096 * sqrt 2 * cosm 7 <= 1130.085. Proof. prod cos7. Qed.

(** Their errors, in thousandths *)
Definition slack (k j : Z) : Z :=
  zn (nth (Z.to_nat k)
    [[1; 1686; 319; 387; 1; 794; 262; 917]; [1; 387; 262; 1085; 1; 316; 1683; 208];
     [1; 794; 262; 316; 1; 1917; 1683; 387]; [1; 917; 319; 208; 1; 387; 262; 1316];
     [1; 917; 319; 208; 1; 387; 262; 1316]; [1; 794; 262; 316; 1; 1917; 1683; 387];
     [1; 387; 262; 1085; 1; 316; 1683; 208]; [1; 1686; 319; 387; 1; 794; 262; 917]]%Z []) j.
Ltac small_case k j :=
  let q := eval vm_compute in (quadrant ((2 * k + 1) * j)) in
  change (quadrant ((2 * k + 1) * j)) with q; cbn [fst snd];
  let x := eval vm_compute in (coef k j) in change (coef k j) with x;
  let y := eval vm_compute in (slack k j) in change (slack k j) with y;
  pose proof e1; pose proof e2; pose proof e3; pose proof e4; pose proof e5; pose proof e6; pose proof e7;
  apply Rabs_le; split; lra.
Lemma coef_near k j : (0 <= k < 8)%Z -> (0 <= j < 8)%Z ->
  Rabs (IZR (coef k j) - ideal k j) <= IZR (slack k j) / 1000.
Proof.
  intros Hk Hj. destruct (Z.eq_dec j 0) as [->|Hj0].
  - rewrite ideal_0. cases8 k Hk; 
    match goal with |- context [coef ?a ?b] => let x := eval vm_compute in (coef a b) in change (coef a b) with x end;
    match goal with |- context [slack ?a ?b] => let x := eval vm_compute in (slack a b) in change (slack a b) with x end;
    apply Rabs_le; lra.
  - rewrite ideal_cos by lia.
    cases8 k Hk; (cases8 j Hj; [now elim Hj0| | | | | | |]); 
    match goal with |- context [quadrant ((2 * ?k + 1) * ?j)] => small_case k j end.
Qed.
Lemma product_near a b c d : (0 <= a < 8)%Z -> (0 <= b < 8)%Z -> (0 <= c < 8)%Z -> (0 <= d < 8)%Z ->
  Rabs (IZR (coef a b * coef c d) - ideal a b * ideal c d) <= 19166.
Proof.
  intros Ha Hb Hc Hd. pose proof (coef_near a b Ha Hb) as H1. pose proof (coef_near c d Hc Hd) as H2.
  assert (H : forallb (fun a => forallb (fun b => forallb (fun c => forallb (fun d =>
    (Z.abs (coef a b) * slack c d * 1000 + Z.abs (coef c d) * slack a b * 1000 + slack a b * slack c d <=? 19166000000)
    && (0 <=? slack a b) && (0 <=? slack c d))%Z
    (zseq 8)) (zseq 8)) (zseq 8)) (zseq 8) = true) by (vm_compute; reflexivity).
  rewrite forallb_forall in H. specialize (H a (proj2 (zseq_In 8 a) Ha)).
  rewrite forallb_forall in H. specialize (H b (proj2 (zseq_In 8 b) Hb)).
  rewrite forallb_forall in H. specialize (H c (proj2 (zseq_In 8 c) Hc)).
  rewrite forallb_forall in H. specialize (H d (proj2 (zseq_In 8 d) Hd)).
  rewrite !andb_true_iff, !Z.leb_le in H. destruct H as [[H Hs1] Hs2].
  apply IZR_le in H, Hs1, Hs2. rewrite !plus_IZR, !mult_IZR, !abs_IZR in H. rewrite mult_IZR.
  set (M := IZR (coef a b)) in *. set (N := IZR (coef c d)) in *. set (s := IZR (slack a b)) in *. set (t := IZR (slack c d)) in *.
  set (x := M - ideal a b) in *. set (y := N - ideal c d) in *.
  replace (M * N - ideal a b * ideal c d) with (M * y + N * x - x * y) by (unfold x, y; ring).
  assert (Rabs (M * y + N * x - x * y) <= Rabs M * Rabs y + Rabs N * Rabs x + Rabs x * Rabs y) as Ht.
  { rewrite <- !Rabs_mult. eapply Rle_trans; [apply Rabs_triang|]. rewrite Rabs_Ropp.
    apply Rplus_le_compat_r, Rabs_triang. }
  eapply Rle_trans; [exact Ht|].
  assert (Rabs M * Rabs y <= Rabs M * (t / 1000)) by (apply Rmult_le_compat_l; [apply Rabs_pos|exact H2]).
  assert (Rabs N * Rabs x <= Rabs N * (s / 1000)) by (apply Rmult_le_compat_l; [apply Rabs_pos|exact H1]).
  assert (Rabs x * Rabs y <= (s / 1000) * (t / 1000)) by (apply Rmult_le_compat; try apply Rabs_pos; assumption).
  lra.
Qed.

(** * Sums *)
Lemma sumR8_ext f g : (forall i, (0 <= i < 8)%Z -> f i = g i) -> sumR8 f = sumR8 g.
Proof. intros H. unfold sumR8. now rewrite !H by lia. Qed.
Lemma sumR8_le f g : (forall i, (0 <= i < 8)%Z -> f i <= g i) -> sumR8 f <= sumR8 g.
Proof.
  intros H. unfold sumR8.
  pose proof (H 0%Z ltac:(lia)). pose proof (H 1%Z ltac:(lia)). pose proof (H 2%Z ltac:(lia)). pose proof (H 3%Z ltac:(lia)).
  pose proof (H 4%Z ltac:(lia)). pose proof (H 5%Z ltac:(lia)). pose proof (H 6%Z ltac:(lia)). pose proof (H 7%Z ltac:(lia)). lra.
Qed.
Lemma sumR8_abs f : Rabs (sumR8 f) <= sumR8 (fun i => Rabs (f i)).
Proof.
  unfold sumR8. repeat (eapply Rle_trans; [apply Rabs_triang|]; apply Rplus_le_compat_r). apply Rle_refl.
Qed.
Lemma sumR8_scal a f : sumR8 (fun i => a * f i) = a * sumR8 f.
Proof. unfold sumR8. ring. Qed.
Lemma sumR8_minus f g : sumR8 f - sumR8 g = sumR8 (fun i => f i - g i).
Proof. unfold sumR8. ring. Qed.
Lemma sum8_IZR f : IZR (sum8 f) = sumR8 (fun i => IZR (f i)).
Proof. unfold sum8, sumR8. now rewrite !plus_IZR. Qed.

Lemma exact2_real x r c : (0 <= r < 8)%Z -> (0 <= c < 8)%Z ->
  Rabs (IZR (exact2 x r c) - 2 ^ 27 * (idct_exact x r c - 128)) <= 19166 * magnitude x.
Proof.
  intros Hr Hc. pose proof sqrt2_bounds as Hs.
  assert (Hsq : sqrt 2 * sqrt 2 = 2) by (apply sqrt_sqrt; lra).
  assert (E : 2 ^ 27 * (idct_exact x r c - 128) = sumR8 (fun u => sumR8 (fun v => ideal r v * ideal c u * IZR (x v u)))).
  { unfold idct_exact. replace (2 ^ 27 * (128 + / 4 * sumR8 (fun u => sumR8 (fun v => basis r v * basis c u * IZR (x v u))) - 128))
      with (2 ^ 25 * sumR8 (fun u => sumR8 (fun v => basis r v * basis c u * IZR (x v u)))) by field.
    rewrite <- sumR8_scal. apply sumR8_ext. intros u _. rewrite <- sumR8_scal. apply sumR8_ext. intros v _.
    unfold ideal. replace (4096 * sqrt 2 * basis r v * (4096 * sqrt 2 * basis c u)) with (4096 * 4096 * (sqrt 2 * sqrt 2) * (basis r v * basis c u)) by ring.
    rewrite Hsq. ring. }
  assert (E2 : IZR (exact2 x r c) = sumR8 (fun u => sumR8 (fun v => IZR (coef r v * coef c u) * IZR (x v u)))).
  { unfold exact2. rewrite sum8_IZR. apply sumR8_ext. intros u _. rewrite mult_IZR, sum8_IZR, <- sumR8_scal.
    apply sumR8_ext. intros v _. rewrite !mult_IZR. ring. }
  rewrite E, E2, sumR8_minus. unfold magnitude. rewrite <- sumR8_scal.
  eapply Rle_trans; [apply sumR8_abs|]. apply sumR8_le. intros u Hu. cbv beta.
  rewrite sumR8_minus, <- sumR8_scal. eapply Rle_trans; [apply sumR8_abs|]. apply sumR8_le. intros v Hv. cbv beta.
  replace (IZR (coef r v * coef c u) * IZR (x v u) - ideal r v * ideal c u * IZR (x v u))
    with ((IZR (coef r v * coef c u) - ideal r v * ideal c u) * IZR (x v u)) by ring.
  rewrite Rabs_mult, abs_IZR. apply Rmult_le_compat_r; [apply Rabs_pos|]. now apply product_near.
Qed.

(** * Both kernels *)
Lemma clamp_near q y e : Rabs (IZR q - y) <= e -> 0 <= e -> Rabs (IZR (clamp255 q) - clampR y) <= e.
Proof.
  intros H He. apply Rabs_le_inv in H. unfold clamp255, clampR, Rmax, Rmin.
  assert (Hq : (Z.max 0 (Z.min 255 q) = q /\ 0 <= q <= 255)%Z \/ (Z.max 0 (Z.min 255 q) = 0 /\ q < 0)%Z \/
    (Z.max 0 (Z.min 255 q) = 255 /\ 255 < q)%Z) by lia.
  destruct Hq as [[-> [H1 H2]]|[[-> H1]|[-> H1]]]; [apply IZR_le in H1, H2|apply IZR_lt in H1|apply IZR_lt in H1];
  destruct (Rle_dec 255 y); try destruct (Rle_dec 0 255); try destruct (Rle_dec 0 y); apply Rabs_le; lra.
Qed.
Lemma clamp_same a : clamp255 (clamp_i16 a) = clamp255 a.
Proof. unfold clamp255, clamp_i16. lia. Qed.

Lemma full_real v q r c : dq_within 2048 v q -> (0 <= r < 8)%Z -> (0 <= c < 8)%Z ->
  Rabs (IZR (clamp255 (full_at v q r c)) - clampR (idct_exact (dqm v q) r c))
  <= 0.621 + magnitude (dqm v q) / 7000.
Proof.
  intros H Hr Hc. destruct (full_near v q r c H Hr Hc) as (s & -> & Hs).
  pose proof (exact2_real (dqm v q) r c Hr Hc) as He. apply Rabs_le_inv in He.
  assert (Hm : 0 <= magnitude (dqm v q)).
  { unfold magnitude. replace 0 with (sumR8 (fun _ => sumR8 (fun _ => 0))) by (unfold sumR8; ring).
    apply sumR8_le. intros u _. apply sumR8_le. intros w _. apply IZR_le. lia. }
  set (y := idct_exact (dqm v q) r c) in *. set (m := magnitude (dqm v q)) in *.
  rewrite clamp_same. apply clamp_near; [|lra].
  assert (Hd : (131072 * (s / 131072) <= s < 131072 * (s / 131072) + 131072)%Z) by lia.
  destruct Hd as [Hd1 Hd2]. unfold within in Hs. destruct Hs as [Hs1 Hs2]. let b := eval vm_compute in SCALE_BITS in change SCALE_BITS with b in *.
  apply IZR_le in Hd1, Hs1, Hs2. apply IZR_lt in Hd2.
  rewrite plus_IZR, mult_IZR in Hd2. rewrite mult_IZR in Hd1. rewrite opp_IZR, minus_IZR, !mult_IZR, minus_IZR in Hs1. rewrite minus_IZR, !mult_IZR, minus_IZR in Hs2.
  set (qq := IZR (s / 131072)) in *. set (ss := IZR s) in *. set (ee := IZR (exact2 (dqm v q) r c)) in *.
  apply Rabs_le. split; lra.
Qed.

Lemma dc_real v q r c : within 32767 (zn q 0) -> (-2048 <= zn v 0 * zn q 0 <= 2048)%Z ->
  (forall i, (0 < i < 64)%Z -> zn v i = 0%Z) ->
  Rabs (IZR (clamp255 (dc_only (zn v 0) (zn q 0))) - clampR (idct_exact (dqm v q) r c)) < 1.
Proof.
  intros Hq H Hz. assert (E : idct_exact (dqm v q) r c = 128 + IZR (zn v 0 * zn q 0) / 8).
  { unfold idct_exact. f_equal.
    assert (B0 : forall k, basis k 0 = / sqrt 2).
    { intros k. unfold basis, weight. change (0 =? 0)%Z with true. cbv iota. rewrite Z.mul_0_r.
      replace (IZR 0 * PI / 16) with 0 by field. rewrite cos_0. ring. }
    assert (Hx : forall a b, (0 <= a < 8)%Z -> (0 <= b < 8)%Z -> (0 < 8 * a + b)%Z -> dqm v q a b = 0%Z).
    { intros a b Ha Hb Hab. unfold dqm, dq. rewrite Hz by lia. reflexivity. }
    unfold sumR8. repeat match goal with |- context [dqm v q ?a ?b] =>
      lazymatch constr:((a, b)) with (0%Z, 0%Z) => fail | _ => rewrite (Hx a b) by lia end end.
    rewrite !B0. change (dqm v q 0 0) with (zn v 0 * zn q 0)%Z.
    pose proof sqrt2_bounds as Hs. assert (Hsq : / sqrt 2 * / sqrt 2 = / 2).
    { rewrite <- Rinv_mult. f_equal. apply sqrt_sqrt. lra. }
    rewrite Hsq. field. lra. }
  rewrite E. unfold dc_only. rewrite (i16_id (zn q 0)) by small. rewrite (i16_id (_ * _)) by small.
  unfold shr. change (2 ^ 3)%Z with 8%Z. set (x := (zn v 0 * zn q 0)%Z) in *. rewrite i16_id by lia.
  assert (Hd : (8 * (x / 8) <= x <= 8 * (x / 8) + 7)%Z) by lia. destruct Hd as [H1 H2]. apply IZR_le in H1, H2.
  rewrite mult_IZR in H1. rewrite plus_IZR, mult_IZR in H2.
  eapply Rle_lt_trans; [apply (clamp_near _ _ (7 / 8))|lra]; [|lra].
  rewrite plus_IZR. apply Rabs_le. lra.
Qed.
Lemma tr_real v q r c : idct_exact (dqm (tr64 v) (tr64 q)) c r = idct_exact (dqm v q) r c /\
  magnitude (dqm (tr64 v) (tr64 q)) = magnitude (dqm v q).
Proof.
  assert (E : forall i j, (0 <= i < 8)%Z -> (0 <= j < 8)%Z -> dqm (tr64 v) (tr64 q) i j = dqm v q j i).
  { intros i j Hi Hj. unfold dqm, dq. rewrite !zn_tr64' by lia.
    replace (8 * ((8 * i + j) mod 8) + (8 * i + j) / 8)%Z with (8 * j + i)%Z by lia. reflexivity. }
  split.
  - unfold idct_exact. do 2 f_equal. unfold sumR8. rewrite !E by lia. ring.
  - unfold magnitude, sumR8. rewrite !E by lia. ring.
Qed.
Lemma tail_zero v i : length v = 64%nat -> forallb (fun c => Z.eqb c 0) (tl v) = true -> (0 < i < 64)%Z -> zn v i = 0%Z.
Proof.
  intros Hv H Hi. rewrite forallb_forall in H. destruct v as [|v0 v]; [discriminate|]. cbn [length tl] in *.
  unfold zn. replace (Z.to_nat i) with (S (Z.to_nat (i - 1))) by lia. cbn [nth].
  apply Z.eqb_eq, H, nth_In. lia.
Qed.
Lemma forallb_exists v : forallb (fun c => Z.eqb c 0) (tl v) = false <-> Exists (fun c => c <> 0%Z) (tl v).
Proof.
  rewrite Exists_exists. split.
  - intros H. induction (tl v) as [|a l IH]; [discriminate|]. cbn [forallb] in H.
    destruct (Z.eqb_spec a 0); [|exists a; cbn; auto]. destruct (IH H) as (b & Hb & Hn). exists b. cbn. auto.
  - intros (c & Hin & Hc). destruct (forallb _ _) eqn:E; [|reflexivity]. rewrite forallb_forall in E. specialize (E c Hin). lia.
Qed.
Lemma forallb_no v : ~ Exists (fun c => c <> 0%Z) (tl v) -> forallb (fun c => Z.eqb c 0) (tl v) = true.
Proof. intros H. destruct (forallb _ (tl v)) eqn:E; [reflexivity|]. now apply forallb_exists in E. Qed.

Lemma C48_ac_lemma v q r c rows : length v = 64%nat -> length q = 64%nat ->
  (forall i, (0 <= i < 64)%Z -> (-2048 <= zn v i * zn q i <= 2048)%Z) ->
  (0 <= r < 8)%Z -> (0 <= c < 8)%Z -> rows = idct_block v q \/ rows = idct_block_avx2 v q ->
  Exists (fun c => c <> 0%Z) (tl v) ->
  let x := fun i j => (zn v (8 * i + j) * zn q (8 * i + j))%Z in
  Rabs (IZR (sample rows r c) - clampR (idct_exact x r c)) <= 0.621 + magnitude x / 7000.
Proof.
  intros Hv Hq H Hr Hc Hrow Hex x. change x with (dqm v q). clear x.
  assert (Hcl : forall a b d e, clamp255 (full_at a b d e) = full_at a b d e) by (intros; unfold full_at, clamp255, clamp_i16; lia).
  destruct Hrow as [-> | ->].
  - rewrite block_full by exact Hex. rewrite full_sample by assumption. rewrite <- Hcl. now apply full_real.
  - rewrite C26_block_lemma by assumption. rewrite (proj2 (forallb_exists v) Hex), tr_sample by assumption.
    destruct (tr_real v q r c) as [<- <-]. rewrite <- Hcl. apply full_real; [now apply dq_tr| |]; assumption.
Qed.
Lemma C48_dc_lemma v q r c rows : length v = 64%nat -> length q = 64%nat ->
  (-2048 <= zn v 0 * zn q 0 <= 2048)%Z -> (-32767 <= zn q 0 <= 32767)%Z ->
  (0 <= r < 8)%Z -> (0 <= c < 8)%Z -> rows = idct_block v q \/ rows = idct_block_avx2 v q ->
  (forall i, (0 < i < 64)%Z -> zn v i = 0%Z) ->
  let x := fun i j => (zn v (8 * i + j) * zn q (8 * i + j))%Z in
  Rabs (IZR (clamp255 (sample rows r c)) - clampR (idct_exact x r c)) < 1.
Proof.
  intros Hv Hq H Hq0 Hr Hc Hrow Hz x. change x with (dqm v q). clear x.
  assert (Hb : forallb (fun c => Z.eqb c 0) (tl v) = true).
  { apply forallb_forall. intros a Ha. apply (In_nth _ _ 0%Z) in Ha. destruct Ha as (n & Hn & <-).
    destruct v as [|v0 v]; [discriminate|]. cbn [tl length] in *. specialize (Hz (Z.of_nat (S n)) ltac:(lia)).
    unfold zn in Hz. rewrite Nat2Z.id in Hz. cbn [nth] in Hz. rewrite Hz. reflexivity. }
  assert (Hx : forall a, sample (map (map clamp_i16) (zrepeat (zrepeat a 8) 8)) r c = clamp_i16 a /\
      sample (zrepeat (zrepeat a 8) 8) r c = a).
  { intros a. unfold sample. cases8 r Hr; cases8 c Hc; split; reflexivity. }
  assert (E : clamp255 (sample rows r c) = clamp255 (dc_only (zn v 0) (zn q 0))).
  { destruct Hrow as [-> | ->].
    - unfold idct_block. rewrite Hb. now rewrite (proj2 (Hx _)).
    - rewrite C26_block_lemma by assumption. unfold idct_block. rewrite Hb, (proj1 (Hx _)). apply clamp_same. }
  rewrite E. now apply dc_real.
Qed.

(** Tests for examples *)
Lemma checked_range v q : forallb (fun i => (-2048 <=? zn v i * zn q i) && (zn v i * zn q i <=? 2048))%Z (zseq 64) = true ->
  forall i, (0 <= i < 64 -> -2048 <= zn v i * zn q i <= 2048)%Z.
Proof.
  intros H i Hi. rewrite forallb_forall in H. specialize (H i (proj2 (zseq_In 64 i) Hi)). apply andb_true_iff in H. lia.
Qed.
Lemma magnitude_case x : (sum8 (fun u => sum8 (fun v => Z.abs (x v u))) = 990)%Z -> 0.621 + magnitude x / 7000 < 0.77.
Proof.
  intros H. assert (magnitude x = 990) as ->; [|lra]. rewrite <- H. rewrite sum8_IZR. unfold magnitude.
  apply sumR8_ext. intros u _. now rewrite sum8_IZR.
Qed.
