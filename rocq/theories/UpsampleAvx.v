(** The AVX2 routine for both directions stays inside its slices when the output is four
    times as long as the input. *)
From Coq Require Import ZArith String List Bool Lia.
From Coq Require Import ZifyBool ZifyNat ZifyN.
From Verif Require Import Base Upsample Color Simd SpecColor.
From Verif Require Import BaseFacts IdctFacts IdctSimd ColorFacts Placement UpsampleFacts.
Import ListNotations.
Local Open Scope Z_scope.
Local Open Scope res_scope.
Ltac Zify.zify_post_hook ::= Z.div_mod_to_equations.

Lemma hv_horizontal_length row p f : length row = 16%nat -> length (hv_horizontal row p f) = 32%nat.
Proof.
  intros H. do 16 (destruct row as [|? row]; [discriminate H|]). destruct row; [reflexivity|discriminate H].
Qed.
Lemma load_length l pos n r : load l pos n = Ok r -> 0 <= n -> length r = Z.to_nat n.
Proof.
  unfold load, slice. destruct (_ && _) eqn:E; [|discriminate]. intros H Hn. injection H as <-.
  rewrite firstn_length, skipn_length. unfold zlen in E. lia.
Qed.
Lemma load_ok l pos n : 0 <= pos -> 0 <= n -> pos + n <= zlen l -> exists r, load l pos n = Ok r.
Proof. intros. unfold load, slice. replace (_ && _) with true by lia. eauto. Qed.
Lemma hv_vertical_length a b : length a = 16%nat -> length b = 16%nat ->
  length (fst (hv_vertical a b)) = 16%nat /\ length (snd (hv_vertical a b)) = 16%nat.
Proof.
  intros Ha Hb. unfold hv_vertical, srai16, add16, mullo16, set1. cbn [fst snd]. rewrite !map_length.
  rewrite !map2_length by (rewrite ?map2_length; rewrite ?repeat_length; lia).
  rewrite ?map2_length by (rewrite ?repeat_length; lia). lia.
Qed.
(** one step of the inner loop *)
Lemma hv_step_ok input len s :
  0 <= hv_pos s -> 0 <= hv_stride s -> 0 <= hv_opos s -> 0 <= len ->
  hv_pos s + hv_stride s + 32 <= zlen input -> hv_opos s + len + 32 <= zlen (hv_out s) ->
  exists s', hv_step input len s = Ok s' /\ hv_pos s' = hv_pos s + 16 /\ hv_opos s' = hv_opos s + 32 /\
    hv_stride s' = hv_stride s /\ zlen (hv_out s') = zlen (hv_out s).
Proof.
  intros Hp Hs Ho Hl Hin Hout. unfold hv_step. cbv zeta.
  destruct (load_ok input (hv_pos s) 16) as (a & Ea); try lia.
  destruct (load_ok input (hv_pos s + hv_stride s) 16) as (b & Eb); try lia.
  rewrite Ea, Eb. cbn [rbind]. apply load_length in Ea; [|lia]. apply load_length in Eb; [|lia].
  pose proof (hv_vertical_length a b Ea Eb) as [H1 H2]. destruct (hv_vertical a b) as [rn rf]. cbn [fst snd] in *.
  pose proof (hv_horizontal_length rn (hv_prev s) (hv_far s) H1) as L1.
  pose proof (hv_horizontal_length rf (hv_prev s) (hv_far s) H2) as L2.
  rewrite put_slice_ok by (unfold zlen in *; lia). cbn [rbind].
  assert (length (splice (hv_out s) (hv_opos s) (hv_horizontal rn (hv_prev s) (hv_far s))) = length (hv_out s)) as L3.
  { apply splice_length; unfold zlen in *; lia. }
  rewrite put_slice_ok by (unfold zlen in *; lia). cbn [rbind].
  replace (_ <? _) with false by lia. eexists. split; [reflexivity|]. cbn [hv_pos hv_opos hv_stride hv_out].
  repeat split; try lia. unfold zlen. rewrite splice_length by (unfold zlen in *; lia). now rewrite L3.
Qed.
Lemma hv_inner_ok input len n : forall s,
  0 <= hv_pos s -> 0 <= hv_stride s -> 0 <= hv_opos s -> 0 <= len ->
  hv_pos s + hv_stride s + 16 * Z.of_nat n + 16 <= zlen input -> hv_opos s + len + 32 * Z.of_nat n <= zlen (hv_out s) ->
  exists s', hv_inner n input len s = Ok s' /\ hv_pos s' = hv_pos s + 16 * Z.of_nat n /\ hv_opos s' = hv_opos s + 32 * Z.of_nat n /\
    hv_stride s' = hv_stride s /\ zlen (hv_out s') = zlen (hv_out s).
Proof.
  induction n as [|n IH]; intros s Hp Hs Ho Hl Hin Hout; cbn [hv_inner].
  - exists s. repeat split; lia.
  - destruct (hv_step_ok input len s) as (s1 & E & P & O & T & L); try lia. rewrite E. cbn [rbind].
    destruct (IH s1) as (s2 & E2 & P2 & O2 & T2 & L2); try lia. exists s2. split; [exact E2|]. repeat split; lia.
Qed.
Lemma nupd_length {A} (l : list A) n x : length (nupd l n x) = length l.
Proof. revert n. induction l as [|a l IH]; intros [|n]; cbn [nupd length]; auto. Qed.
Lemma at_ok' {A} (l : list A) i : 0 <= i < zlen l -> exists x, at_ l i = Ok x.
Proof.
  intros H. unfold at_, zget. replace (i <? 0) with false by lia. destruct (nth_error l (Z.to_nat i)) eqn:E; [eauto|].
  apply nth_error_None in E. unfold zlen in H. lia.
Qed.
Lemma hv_tail_ok input a b opos v last out :
  0 <= a <= b -> b <= zlen input -> 0 < v -> 0 <= last < zlen input -> 0 <= opos -> opos + v <= zlen out -> b - a <= v / 2 + 2 ->
  exists o, hv_tail input a b opos v last out = Ok o /\ zlen o = zlen out.
Proof.
  intros Hab Hb Hv Hlast Hop Hout Hba. unfold hv_tail.
  unfold slice_ at 1, slice. replace (_ && _) with true by lia. cbn [rbind]. replace (v <=? 0) with false by lia.
  destruct (at_ok' input last Hlast) as (x & ->). cbn [rbind]. cbv zeta.
  unfold slice_, slice. replace (_ && _) with true by lia. cbn [rbind].
  set (win := firstn _ (skipn _ input)). set (cur := firstn _ (skipn (Z.to_nat opos) out)).
  assert (length cur = Z.to_nat v) as Hc by (unfold cur; rewrite firstn_length, skipn_length; unfold zlen in *; lia).
  set (w := firstn _ (horiz_middle win)).
  assert (length w <= 2 * Z.to_nat (v / 2))%nat as Hw by (unfold w; rewrite firstn_length; lia).
  assert (length (zset (splice cur 0 w) (v - 1) x) = Z.to_nat v) as Hr.
  { unfold zset. rewrite nupd_length, splice_length by (unfold zlen; lia). exact Hc. }
  rewrite put_slice_ok by (unfold zlen in *; lia). eexists. split; [reflexivity|].
  unfold zlen. rewrite splice_length by (unfold zlen in *; lia). reflexivity.
Qed.
Lemma copy_at_ok l i k : 0 <= i < zlen l -> 0 <= k < zlen l -> exists o, copy_at l i k = Ok o /\ zlen o = zlen l.
Proof.
  intros Hi Hk. unfold copy_at. destruct (at_ok' l k Hk) as (x & ->). cbn [rbind]. unfold zupd.
  replace (_ || _) with false by lia. eexists. split; [reflexivity|]. unfold zlen. now rewrite nupd_length.
Qed.
Lemma hv_row_ok input len e v S j s :
  let L := zlen input in
  512 <= L -> S = L / 8 -> e = L / 128 - 1 -> len = L / 4 -> v = len - 32 * e ->
  0 <= j < 8 -> hv_pos s = j * S -> hv_opos s = j * (2 * len) -> hv_stride s = (if (j =? 0) || (7 <=? j) then 0 else S) ->
  zlen (hv_out s) = 4 * L ->
  exists s', hv_row input len e v j s = Ok s' /\ hv_pos s' = (j + 1) * S /\ hv_opos s' = (j + 1) * (2 * len) /\
    hv_stride s' = (if (j + 1 =? 0) || (7 <=? j + 1) then 0 else S) /\ zlen (hv_out s') = 4 * L.
Proof.
  intros L HL HS He Hlen Hv Hj Hp Ho Hst Hout. unfold hv_row.
  assert (0 <= hv_stride s /\ (j * S + hv_stride s) + S <= L) as [Hs0 Hs1].
  { rewrite Hst. destruct (_ || _) eqn:E; [split; nia|]. split; nia. }
  assert (0 <= j * S) as A1 by nia. assert (0 <= j * len) as A2 by nia. assert (j * len + len <= 2 * L) as A3 by nia.
  assert (16 * e + 16 <= S) as A4 by lia. assert (v / 2 + 2 <= 16 * e) as A5 by lia. assert (16 * e + v / 2 = S) as A6 by lia.
  assert (32 * e + v = len) as A7 by lia. assert (32 <= v) as A8 by lia. assert (0 <= e) as A9 by lia. assert (128 <= len) as A10 by lia.
  assert (zlen input = L) as HLdef by reflexivity. clearbody L. clear He Hlen.
  destruct (hv_inner_ok input len (Z.to_nat e) s) as (s1 & E & P & O & T & LL); try lia.
  rewrite E. cbn [rbind]. cbv zeta.
  assert (hv_pos s1 = j * S + 16 * e) as P1 by lia. assert (hv_opos s1 = j * (2 * len) + 32 * e) as O1 by lia.
  assert (0 < v) as Hv0 by lia.
  replace (_ || _ || _) with false by lia.
  destruct (hv_tail_ok input (hv_pos s1 - v / 2 - 2) (hv_pos s1) (hv_opos s1) v (hv_pos s1) (hv_out s1)) as (o1 & -> & K1); try lia.
  cbn [rbind].
  destruct (hv_tail_ok input (hv_pos s1 - v / 2 + hv_stride s1 - 2) (hv_pos s1 + hv_stride s1) (hv_opos s1 + len) v (hv_pos s1 + hv_stride s1) o1) as (o2 & -> & K2); try lia.
  cbn [rbind].
  destruct (copy_at_ok o2 (hv_opos s1 + len + v - len) (hv_opos s1 + len + v - len + 1)) as (o3 & -> & K3); try lia. cbn [rbind].
  destruct (copy_at_ok o3 (hv_opos s1 + len + v - len - 2) (hv_opos s1 + len + v - len - 4)) as (o4 & -> & K4); try lia. cbn [rbind].
  destruct (copy_at_ok o4 (hv_opos s1 + len + v - len - 1) (hv_opos s1 + len + v - len - 3)) as (o5 & -> & K5); try lia. cbn [rbind].
  destruct (copy_at_ok o5 (hv_opos s1 + len + v - 2) (hv_opos s1 + len + v - 4)) as (o6 & -> & K6); try lia. cbn [rbind].
  destruct (copy_at_ok o6 (hv_opos s1 + len + v - 1) (hv_opos s1 + len + v - 3)) as (o7 & -> & K7); try lia. cbn [rbind].
  eexists. split; [reflexivity|]. cbn [hv_pos hv_opos hv_stride hv_out]. split; [lia|]. split; [lia|]. split; [|lia].
  rewrite T, Hst. assert (0 <= j < 8) by lia.
  destruct (j =? 0) eqn:E0; destruct (j =? 6) eqn:E6; destruct (7 <=? j) eqn:E7; destruct (j + 1 =? 0) eqn:E8; destruct (7 <=? j + 1) eqn:E9; try (exfalso; lia); cbn [orb]; try reflexivity; rewrite HLdef; lia.
Qed.
Lemma hv_rows_ok input len e v S n : forall j s,
  let L := zlen input in
  512 <= L -> S = L / 8 -> e = L / 128 - 1 -> len = L / 4 -> v = len - 32 * e ->
  0 <= j -> j + Z.of_nat n <= 8 -> hv_pos s = j * S -> hv_opos s = j * (2 * len) -> hv_stride s = (if (j =? 0) || (7 <=? j) then 0 else S) ->
  zlen (hv_out s) = 4 * L ->
  exists s', hv_rows n input len e v j s = Ok s' /\ zlen (hv_out s') = 4 * L.
Proof.
  induction n as [|n IH]; intros j s L HL HS He Hlen Hv Hj Hjn Hp Ho Hst Hout; cbn [hv_rows]; [eauto|].
  destruct (hv_row_ok input len e v S j s) as (s1 & E & P & O & T & LL); auto; try lia. rewrite E. cbn [rbind].
  apply (IH (j + 1) s1); auto; lia.
Qed.
Lemma hv_avx_ok input : 512 <= zlen input ->
  exists out, upsample_hv_simd input (4 * zlen input) = Ok out /\ zlen out = 4 * zlen input.
Proof.
  intros H. unfold upsample_hv_simd. replace (_ <? _) with false by lia. unfold upsample_hv_avx.
  destruct (at_ok' input 0) as (a & ->); [lia|]. destruct (at_ok' input 16) as (b & ->); [lia|]. cbn [rbind]. cbv zeta.
  assert (shr (zlen input) 7 = zlen input / 128) as -> by (unfold shr; reflexivity).
  assert (4 * zlen input / 16 = zlen input / 4) as -> by lia.
  assert (Z.max 0 (zlen input / 128 - 1) = zlen input / 128 - 1) as -> by lia.
  assert (Z.max 0 (zlen input / 4 - (zlen input / 128 - 1) * 32) = zlen input / 4 - 32 * (zlen input / 128 - 1)) as -> by lia.
  destruct (hv_rows_ok input (zlen input / 4) (zlen input / 128 - 1) (zlen input / 4 - 32 * (zlen input / 128 - 1)) (zlen input / 8) 8 0
    (mkHv (zrepeat 0 (4 * zlen input)) 0 0 (tri a a) (tri b b) 0)) as (s & E & L); cbn [hv_pos hv_opos hv_stride hv_out]; auto; try lia.
  { unfold zrepeat, zlen. rewrite repeat_length. unfold zlen. lia. }
  rewrite E. cbn [rbind]. eauto.
Qed.
(** * The SSE routine *)
Lemma sse_step_no_ub input i out : 1 <= i -> 4 * i + 5 <= zlen input -> sse_step input i out <> Panic "UB: load out of bounds".
Proof.
  intros Hi H. unfold sse_step. cbv zeta. replace (shl i 2) with (4 * i) by (unfold shl; change (2 ^ 2) with 4; lia).
  rewrite !load4 by lia. cbn [rbind]. unfold put_slice. destruct (slice _ _ _); discriminate.
Qed.
Lemma sse_loop_no_ub input m : forall i out, 1 <= i -> 4 * (i + Z.of_nat m) + 1 <= zlen input \/ m = 0%nat ->
  sse_loop m input i out <> Panic "UB: load out of bounds".
Proof.
  induction m as [|m IH]; intros i out Hi H; cbn [sse_loop]; [discriminate|].
  pose proof (sse_step_no_ub input i out Hi ltac:(lia)) as Hs. destruct (sse_step input i out); cbn [rbind]; try discriminate.
  - apply IH; lia.
  - intros E. apply Hs. injection E as ->. reflexivity.
Qed.
Lemma sse_no_ub input n : upsample_horizontal_sse input n <> Panic "UB: load out of bounds".
Proof.
  unfold upsample_horizontal_sse. destruct (_ && _) eqn:E; [|discriminate]. cbv zeta.
  match goal with |- rbind (sse_loop ?m input 1 ?o) _ <> _ => pose proof (sse_loop_no_ub input m 1 o ltac:(lia)) as Hs;
    destruct (sse_loop m input 1 o) end; cbn [rbind]; try discriminate.
  intros Heq. apply Hs; [unfold shr; change (2 ^ 2) with 4; lia|]. injection Heq as ->. reflexivity.
Qed.

(** * Ranges *)
Lemma sse_values input n out : zlen input = n -> 8 <= n -> n mod 4 = 0 -> upsample_horizontal_sse input (2 * n) = Ok out ->
  zn out (2 * n - 5) = tri (zn input (n - 3)) (zn input (n - 3)) /\
  zn out (2 * n - 4) = tri (zn input (n - 2)) (zn input (n - 2)) /\
  zn out (2 * n - 3) = tri (zn input (n - 2)) (zn input (n - 3)).
Proof.
  intros Hn H8 H4. unfold upsample_horizontal_sse. replace (_ && _) with true by lia. cbv zeta. rewrite Hn.
  set (first := [zn input 0; _; _; _; _; _; _; _]). assert (length first = 8%nat) as Hf by reflexivity.
  assert (zlen (@zrepeat Z 0 (2 * n)) = 2 * n) as Hz by (unfold zlen, zrepeat; rewrite repeat_length; lia).
  assert (length (splice (zrepeat 0 (2 * n)) 0 first) = Z.to_nat (2 * n)) as Hs.
  { rewrite splice_length by (unfold zlen in *; lia). unfold zlen in Hz. lia. }
  replace (shr n 2 - 2) with (n / 4 - 2) by (unfold shr; change (2 ^ 2) with 4; lia).
  destruct (sse_loop_ok input (Z.to_nat (n / 4 - 2)) 1 (splice (zrepeat 0 (2 * n)) 0 first)) as (o & Eo & Lo & Fo); [lia|lia|unfold zlen; lia|].
  rewrite Eo. cbn [rbind]. set (last := [_; _; _; _; _; _; _; _]). assert (length last = 8%nat) as Hl by reflexivity.
  intros E. assert (splice o (2 * n - 8) last = out) as <- by congruence.
  assert (forall k, (k < 8)%nat -> zn (splice o (2 * n - 8) last) (2 * n - 8 + Z.of_nat k) = nth k last 0) as Hk.
  { intros k Hk. unfold zn. rewrite nth_splice by (unfold zlen in *; lia). replace (_ || _) with false by (unfold zlen; lia). f_equal. lia. }
  pose proof (Hk 3%nat ltac:(lia)) as K3. pose proof (Hk 4%nat ltac:(lia)) as K4. pose proof (Hk 5%nat ltac:(lia)) as K5.
  replace (2 * n - 8 + Z.of_nat 3) with (2 * n - 5) in K3 by lia. replace (2 * n - 8 + Z.of_nat 4) with (2 * n - 4) in K4 by lia.
  replace (2 * n - 8 + Z.of_nat 5) with (2 * n - 3) in K5 by lia. rewrite K3, K4, K5. unfold last. cbn [nth].
  replace (n - 4 + 1) with (n - 3) by lia. replace (n - 4 + 2) with (n - 2) by lia. repeat split.
Qed.
Lemma C29_ranges_lemma lo hi input out :
  -8000 <= lo -> hi <= 8000 -> Forall (fun x => lo <= x <= hi) input ->
  (3 <= zlen input -> upsample_horizontal input (2 * zlen input) = Ok out -> Forall (fun x => lo <= x <= hi) out) /\
  (forall S, 0 < S -> zlen input = 8 * S ->
     (upsample_vertical input (16 * S) = Ok out -> Forall (fun x => lo <= x <= hi) out) /\
     (upsample_hv input (32 * S) = Ok out -> Forall (fun x => lo <= x <= hi) out)) /\
  (8 <= zlen input -> zlen input mod 4 = 0 ->
     upsample_horizontal_sse input (2 * zlen input) = Ok out -> Forall (fun x => lo <= x <= hi) out).
Proof.
  intros Hlo Hhi Hf. pose proof (Forall_small _ _ _ Hlo Hhi Hf) as Hs. split; [|split].
  - intros H3 E. exact (C29_range_lemma lo hi input _ out Hlo Hhi Hf eq_refl H3 E).
  - intros S HS Hl. split; intros E.
    + exact (C29_vrange_lemma lo hi input S out Hlo Hhi Hf HS Hl E).
    + unfold upsample_hv in E. rewrite Hl in E. replace (8 * S * 2) with (16 * S) in E by lia.
      destruct (C29_vertical_lemma input S HS Hl Hs) as (v & Ev & Lv & _). rewrite Ev in E. cbn [rbind] in E.
      pose proof (C29_vrange_lemma lo hi input S v Hlo Hhi Hf HS Hl Ev) as Hv.
      replace (32 * S) with (2 * (16 * S)) in E by lia.
      exact (C29_range_lemma lo hi v (16 * S) out Hlo Hhi Hv Lv ltac:(lia) E).
  - intros H8 H4 E. destruct (C30_lemma input _ eq_refl H8 H4) as (o1 & o2 & E1 & E2 & L1 & L2 & F).
    rewrite E in E2. injection E2 as <-. pose proof (C29_range_lemma lo hi input _ o1 Hlo Hhi Hf eq_refl ltac:(lia) E1) as Hr.
    destruct (sse_values input _ out eq_refl H8 H4 E) as (V1 & V2 & V3).
    apply Forall_of_zn. intros i Hi.
    destruct (Z.eq_dec i (2 * zlen input - 5)) as [->|N1].
    { rewrite V1, tri_triangle by now apply small_zn. apply triangle_between; apply zn_between; auto; lia. }
    destruct (Z.eq_dec i (2 * zlen input - 4)) as [->|N2].
    { rewrite V2, tri_triangle by now apply small_zn. apply triangle_between; apply zn_between; auto; lia. }
    destruct (Z.eq_dec i (2 * zlen input - 3)) as [->|N3].
    { rewrite V3, tri_triangle by now apply small_zn. apply triangle_between; apply zn_between; auto; lia. }
    rewrite F by lia. apply zn_between; auto. lia.
Qed.

Lemma repeat_of v l : Forall (fun x => v <= x <= v) l -> l = repeat v (length l).
Proof. induction 1 as [|x l Hx _ IH]; [reflexivity|]. cbn [length repeat]. f_equal; [lia|exact IH]. Qed.
Lemma zlen_repeat {A} (v : A) k : zlen (repeat v k) = Z.of_nat k.
Proof. unfold zlen. now rewrite repeat_length. Qed.
Lemma repeat_is v l k : zlen l = Z.of_nat k -> Forall (fun x => v <= x <= v) l -> l = repeat v k.
Proof. intros Hl Hf. rewrite (repeat_of v l Hf). f_equal. unfold zlen in Hl. lia. Qed.
Lemma C46_flat_lemma v k S :
  -8000 <= v <= 8000 -> (8 <= k)%nat -> (k mod 4 = 0)%nat -> (0 < S)%nat ->
  upsample_horizontal (repeat v k) (2 * Z.of_nat k) = Ok (repeat v (2 * k)) /\
  upsample_horizontal_sse (repeat v k) (2 * Z.of_nat k) = Ok (repeat v (2 * k)) /\
  upsample_vertical (repeat v (8 * S)) (16 * Z.of_nat S) = Ok (repeat v (16 * S)) /\
  upsample_hv (repeat v (8 * S)) (32 * Z.of_nat S) = Ok (repeat v (32 * S)).
Proof.
  intros Hv Hk H4 HS.
  assert (forall m, Forall (fun x => v <= x <= v) (repeat v m)) as Hf.
  { intros m. apply Forall_forall. intros x Hx. apply repeat_spec in Hx. lia. }
  assert (Z.of_nat k mod 4 = 0) as H4' by lia.
  destruct (C30_lemma (repeat v k) _ (zlen_repeat v k) ltac:(lia) H4') as (o1 & o2 & E1 & E2 & L1 & L2 & _).
  destruct (C29_vertical_lemma (repeat v (8 * S)) (Z.of_nat S)) as (o3 & E3 & L3 & _); [lia|rewrite zlen_repeat; lia|exact (Forall_small v v _ ltac:(lia) ltac:(lia) (Hf _))|].
  pose proof (C29_ranges_lemma v v (repeat v k) o1 ltac:(lia) ltac:(lia) (Hf _)) as (R1 & _ & _).
  pose proof (C29_ranges_lemma v v (repeat v k) o2 ltac:(lia) ltac:(lia) (Hf _)) as (_ & _ & R2).
  pose proof (C29_ranges_lemma v v (repeat v (8 * S)) o3 ltac:(lia) ltac:(lia) (Hf _)) as (_ & R3 & _).
  rewrite zlen_repeat in R1, R2, R3. specialize (R1 ltac:(lia) E1). specialize (R2 ltac:(lia) H4' E2).
  destruct (R3 (Z.of_nat S) ltac:(lia) ltac:(lia)) as (R3v & _). specialize (R3v E3).
  assert (o3 = repeat v (16 * S)) as Eq3 by (apply repeat_is; [rewrite L3; lia|exact R3v]).
  split; [|split; [|split]].
  - rewrite E1. f_equal. apply repeat_is; [rewrite L1; lia|exact R1].
  - rewrite E2. f_equal. apply repeat_is; [rewrite L2; lia|exact R2].
  - rewrite E3. now f_equal.
  - unfold upsample_hv. rewrite zlen_repeat. replace (Z.of_nat (8 * S) * 2) with (16 * Z.of_nat S) by lia. rewrite E3. cbn [rbind]. subst o3.
    destruct (horizontal_spec (repeat v (16 * S)) (16 * Z.of_nat S)) as (o4 & E4 & L4 & _); [rewrite zlen_repeat; lia|lia|].
    replace (32 * Z.of_nat S) with (2 * (16 * Z.of_nat S)) by lia. rewrite E4. f_equal. apply repeat_is; [rewrite L4; lia|].
    assert (zlen (repeat v (16 * S)) = 16 * Z.of_nat S) as L5 by (rewrite zlen_repeat; lia).
    exact (C29_range_lemma v v (repeat v (16 * S)) (16 * Z.of_nat S) o4 ltac:(lia) ltac:(lia) (Hf _) L5 ltac:(lia) E4).
Qed.
