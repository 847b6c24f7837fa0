(** Where the samples of the planes end up in the output. *)
From Coq Require Import ZArith String List Bool Lia.
From Coq Require Import ZifyBool ZifyNat ZifyN.
From Verif Require Import Base Types State Color Simd Worker BaseFacts SpecSegments SpecIdct SpecColor IdctFacts ColorFacts.
Import ListNotations.
Local Open Scope Z_scope.
Local Open Scope res_scope.
Ltac Zify.zify_post_hook ::= Z.div_mod_to_equations.

Lemma nth_skipn {A} (d : A) n k (l : list A) : nth k (skipn n l) d = nth (n + k) l d.
Proof. revert l. induction n as [|n IH]; intros l; [reflexivity|]. destruct l; [now destruct k|]. apply IH. Qed.
Lemma nth_firstn' {A} (d : A) n k (l : list A) : (k < n)%nat -> nth k (firstn n l) d = nth k l d.
Proof. revert k l. induction n as [|n IH]; intros k l H; [lia|]. destruct l; [reflexivity|]. destruct k; [reflexivity|]. cbn. apply IH. lia. Qed.
Lemma nth_splice (l s : list Z) a i : 0 <= a -> a + zlen s <= zlen l ->
  nth i (splice l a s) 0 =
  if (Z.of_nat i <? a) || (a + zlen s <=? Z.of_nat i) then nth i l 0 else nth (i - Z.to_nat a) s 0.
Proof.
  intros H0 H. unfold splice, zlen in *.
  assert (length (firstn (Z.to_nat a) l) = Z.to_nat a) as Hf by (rewrite firstn_length; lia).
  destruct (Nat.lt_ge_cases i (Z.to_nat a)) as [Hi|Hi].
  - rewrite app_nth1 by lia. rewrite nth_firstn' by lia. replace (_ || _) with true by lia. reflexivity.
  - rewrite app_nth2 by lia. rewrite Hf. destruct (Nat.lt_ge_cases (i - Z.to_nat a) (length s)) as [Hj|Hj].
    + rewrite app_nth1 by lia. replace (_ || _) with false by lia. reflexivity.
    + rewrite app_nth2 by lia. rewrite nth_skipn. replace (_ || _) with true by lia. f_equal. lia.
Qed.
Lemma concat_length {A} (rows : list (list A)) w : Forall (fun r => length r = w) rows -> length (concat rows) = (length rows * w)%nat.
Proof. induction 1 as [|r rows Hr _ IH]; [reflexivity|]. cbn [concat length]. rewrite app_length, Hr, IH. lia. Qed.
Lemma nth_concat (rows : list (list Z)) w r c : Forall (fun r => length r = w) rows -> (c < w)%nat ->
  nth (r * w + c) (concat rows) 0 = nth c (nth r rows []) 0.
Proof.
  intros H Hc. revert r. induction H as [|x rows Hx _ IH]; intros r.
  - assert (nth r (@nil (list Z)) [] = []) as -> by (now destruct r). cbn [concat]. now rewrite !nth_overflow by (cbn [length]; lia).
  - cbn [concat]. destruct r as [|r].
    + rewrite app_nth1 by lia. reflexivity.
    + rewrite app_nth2 by lia. cbn [nth]. rewrite <- IH. f_equal. lia.
Qed.

Lemma copy_rows_spec rows w start output :
  Forall (fun r => length r = w) rows -> 0 <= start -> start + zlen rows * Z.of_nat w <= zlen output ->
  copy_rows rows start output = Ok (splice output start (concat rows)).
Proof.
  revert start output. induction rows as [|r rows IH]; intros start output Hr H0 H; cbn [copy_rows].
  - cbn [concat]. unfold splice. cbn [length app]. rewrite Nat.add_0_r, firstn_skipn. reflexivity.
  - inversion_clear Hr as [|? ? Hw Hrs]. unfold zlen in H. cbn [length] in H.
    rewrite put_slice_ok by (unfold zlen; nia). cbn [rbind].
    rewrite IH; auto; try (unfold zlen in *; lia).
    2:{ unfold zlen. rewrite splice_length by (unfold zlen in *; nia). nia. }
    cbn [concat]. rewrite splice_two; [reflexivity|lia|]. unfold zlen. rewrite (concat_length rows w) by exact Hrs. nia.
Qed.

(** the rows of a plane [S] samples wide *)
Lemma chunks_rows {A} (l : list A) S R : (0 < S)%nat -> length l = (R * S)%nat ->
  chunks_n S l = map (fun i => firstn S (skipn (i * S) l)) (seq 0 R).
Proof. intros HS Hl. rewrite chunks_n_spec by exact HS. rewrite Hl, Nat.div_mul by lia. reflexivity. Qed.
Lemma nth_chunk (d : list Z) (l : list Z) S R r : (0 < S)%nat -> length l = (R * S)%nat -> (r < R)%nat ->
  nth r (chunks_n S l) d = firstn S (skipn (r * S) l).
Proof.
  intros HS Hl Hr. rewrite (chunks_rows l S R) by assumption.
  rewrite (nth_indep _ d (firstn S (skipn (0 * S) l))) by (rewrite map_length, seq_length; exact Hr).
  change (firstn S (skipn (0 * S) l)) with ((fun i => firstn S (skipn (i * S) l)) 0%nat).
  rewrite map_nth, seq_nth by exact Hr. reflexivity.
Qed.

Lemma placed_rows rows nc w output (px : Z -> Z -> Z -> Z) :
  0 < nc -> 0 <= w ->
  Forall (fun r => length r = Z.to_nat (w * nc)) rows ->
  zlen rows * (w * nc) <= zlen output ->
  (forall r c k, 0 <= r < zlen rows -> 0 <= c < w -> 0 <= k < nc -> zn (nth (Z.to_nat r) rows []) (c * nc + k) = px r c k) ->
  placed nc (zlen rows) w px output (splice output 0 (concat rows)).
Proof.
  intros Hnc Hw Hr Hl Hpx.
  pose proof (concat_length rows _ Hr) as Hc. unfold placed. split; [|split].
  - apply splice_length; [lia|]. unfold zlen in *. rewrite Hc. nia.
  - intros r c k H1 H2 H3. unfold zn, at_pixel. rewrite nth_splice.
    2:{ lia. }
    2:{ unfold zlen in *. rewrite Hc. nia. }
    assert (c * nc + k < w * nc) as Hck by nia.
    replace (_ || _) with false.
    2:{ unfold zlen in *. rewrite Hc. assert ((r + 1) * (w * nc) <= Z.of_nat (length rows) * (w * nc)) by nia. nia. }
    replace (Z.to_nat ((r * w + c) * nc + k) - Z.to_nat 0)%nat with (Z.to_nat r * Z.to_nat (w * nc) + Z.to_nat (c * nc + k))%nat by nia.
    rewrite nth_concat by (auto; nia). apply Hpx; auto.
  - intros i Hi. unfold zn. rewrite nth_splice.
    2:{ lia. }
    2:{ unfold zlen in *. rewrite Hc. nia. }
    replace (_ || _) with true; [reflexivity|]. unfold zlen in *. rewrite Hc. nia.
Qed.

Lemma u8_map_nth l i : nth i (map u8 l) 0 = u8 (nth i l 0).
Proof. change 0 with (u8 0) at 1. apply map_nth. Qed.

Lemma gray_lemma y width output R S :
  0 < width <= S -> 0 < R -> zlen y = R * S -> R * S < (R + 1) * width -> R * width <= zlen output ->
  exists out, ycbcr_to_grayscale y width output = Ok out /\
    placed 1 R width (fun r c _ => u8 (zn y (r * S + c))) output out.
Proof.
  intros Hw HR Hl Hd Ho. unfold ycbcr_to_grayscale. replace (width =? 0) with false by lia.
  assert (zlen y / width = R) as HR2. { rewrite Hl. symmetry. apply (Z.div_unique _ _ _ (R * S - width * R)); nia. }
  cbv zeta. rewrite HR2. replace (R =? 0) with false by lia.
  assert (zlen y / R = S) as HS by (rewrite Hl, Z.mul_comm; apply Z.div_mul; lia). rewrite HS.
  unfold chunks_exact. replace (S <=? 0) with false by lia. cbn [rbind].
  assert (length (map u8 y) = Z.to_nat R * Z.to_nat S)%nat as Hly by (rewrite map_length; unfold zlen in *; nia).
  set (rows := map (fun c => firstn (Z.to_nat width) c) (chunks_n (Z.to_nat S) (map u8 y))).
  assert (length rows = Z.to_nat R) as Hrl.
  { unfold rows. rewrite map_length, (chunks_rows _ _ (Z.to_nat R)) by (auto; lia). now rewrite map_length, seq_length. }
  assert (Forall (fun r => length r = Z.to_nat (width * 1)) rows) as Hrw.
  { unfold rows. apply Forall_map, Forall_forall. intros c Hc. apply chunks_n_all in Hc; [|lia]. rewrite firstn_length. lia. }
  rewrite copy_rows_spec with (w := Z.to_nat (width * 1)); auto; [|lia|unfold zlen in *; nia].
  eexists. split; [reflexivity|]. replace R with (zlen rows) by (unfold zlen; lia).
  apply placed_rows; auto; try lia; [unfold zlen in *; nia|].
  intros r c k H1 H2 H3. assert (k = 0) as -> by lia. unfold rows.
  assert (r < R) as Hr by (unfold zlen in H1; lia).
  rewrite (nth_indep _ [] (firstn (Z.to_nat width) [])) by (fold rows; unfold zlen in H1; lia).
  rewrite (map_nth (fun c => firstn (Z.to_nat width) c)).
  rewrite (nth_chunk _ _ _ (Z.to_nat R)) by (auto; lia).
  unfold zn. rewrite !nth_firstn' by lia. rewrite nth_skipn, u8_map_nth. f_equal. f_equal. nia.
Qed.

(** * YCbCr *)
Lemma splice_all {A} (l s : list A) : length s = length l -> splice l 0 s = s.
Proof.
  intros H. unfold splice. change (Z.to_nat 0) with 0%nat. cbn [firstn Nat.add app]. rewrite skipn_all2 by lia. apply app_nil_r.
Qed.
Lemma slice_firstn {A} (l : list A) n : 0 <= n <= zlen l -> slice_ l 0 n = Ok (firstn (Z.to_nat n) l).
Proof.
  intros H. unfold slice_, slice. replace (_ && _) with true by lia. cbn [Z.to_nat skipn]. now rewrite Z.sub_0_r.
Qed.
Definition ycc_px (t : list Z * list Z * list Z) : list Z :=
  let '(y, cb, cr) := t in flat_map (fun '(y, cb, cr) => [u8 y; u8 cb; u8 cr]) (zip3 y cb cr).
Definition rows3 (n : nat) (t : list Z * list Z * list Z) : Prop :=
  let '(y, cb, cr) := t in length y = n /\ length cb = n /\ length cr = n.
Lemma ycc_px_length n t : rows3 n t -> length (ycc_px t) = (3 * n)%nat.
Proof.
  destruct t as [[y cb] cr]. intros (H1 & H2 & H3). unfold ycc_px. rewrite (flat_map_length _ 3) by (now intros [[? ?] ?]).
  now rewrite (zip3_length _ _ _ n).
Qed.
Lemma ycc_rows_copy chunks stride start temp output n :
  Forall (rows3 n) chunks -> length temp = (3 * n)%nat -> 0 <= stride <= 3 * Z.of_nat n ->
  ycc_rows chunks stride start temp output = copy_rows (map (fun t => firstn (Z.to_nat stride) (ycc_px t)) chunks) start output.
Proof.
  intros H. revert start temp output. induction H as [|t chunks Ht _ IH]; intros start temp output Hl Hs; [reflexivity|].
  pose proof (ycc_px_length n t Ht) as Hp. destruct t as [[y cb] cr]. cbn [ycc_rows map copy_rows]. cbv zeta.
  change (flat_map _ (zip3 y cb cr)) with (ycc_px (y, cb, cr)).
  rewrite splice_all by congruence. rewrite slice_firstn by (unfold zlen; lia). cbn [rbind].
  destruct (put_slice _ _ _) as [o| | |]; [|reflexivity..]. cbn [rbind].
  assert (zlen (firstn (Z.to_nat stride) (ycc_px (y, cb, cr))) = stride) as -> by (unfold zlen; rewrite firstn_length; lia).
  now apply IH.
Qed.
Lemma zip_map {A B C} (f : nat -> A) (g : nat -> B) (l : list nat) (h : A * B -> C) :
  map h (zip (map f l) (map g l)) = map (fun i => h (f i, g i)) l.
Proof. induction l as [|a l IH]; [reflexivity|]. cbn [map zip]. now rewrite IH. Qed.
Lemma zip_map' {A B} (f : nat -> A) (g : nat -> B) (l : list nat) : zip (map f l) (map g l) = map (fun i => (f i, g i)) l.
Proof. induction l as [|a l IH]; [reflexivity|]. cbn [map zip]. now rewrite IH. Qed.
Definition row_of (S : nat) (l : list Z) (i : nat) : list Z := firstn S (skipn (i * S) l).
Lemma zip3_rows c0 c1 c2 (S R : nat) : (0 < S)%nat -> length c0 = (R * S)%nat -> length c1 = (R * S)%nat -> length c2 = (R * S)%nat ->
  zip3 (chunks_n S c0) (chunks_n S c1) (chunks_n S c2) = map (fun i => (row_of S c0 i, row_of S c1 i, row_of S c2 i)) (seq 0 R).
Proof.
  intros HS H0 H1 H2. rewrite !(chunks_rows _ S R) by assumption. unfold zip3. rewrite zip_map'.
  exact (zip_map' (fun i => (row_of S c0 i, row_of S c1 i)) (row_of S c2) (seq 0 R)).
Qed.
Lemma row_of_length S R l i : length l = (R * S)%nat -> (i < R)%nat -> length (row_of S l i) = S.
Proof. intros Hl Hi. unfold row_of. rewrite firstn_length, skipn_length. nia. Qed.
Lemma nth_row_of S l i c : (c < S)%nat -> nth c (row_of S l i) 0 = nth (i * S + c) l 0.
Proof. intros H. unfold row_of. rewrite nth_firstn' by exact H. apply nth_skipn. Qed.
Lemma rows3_all c0 c1 c2 (S R : nat) : length c0 = (R * S)%nat -> length c1 = (R * S)%nat -> length c2 = (R * S)%nat ->
  Forall (rows3 S) (map (fun i => (row_of S c0 i, row_of S c1 i, row_of S c2 i)) (seq 0 R)).
Proof.
  intros H0 H1 H2. apply Forall_map, Forall_forall. intros i Hi. apply in_seq in Hi.
  repeat split; apply (row_of_length _ R); auto; lia.
Qed.
(** the [n] values of pixel [c] in a row of pixels *)
Lemma nth_pixels (f : Z * Z * Z -> list Z) n y cb cr c k : (forall p, length (f p) = n) ->
  length cb = length y -> length cr = length y -> (c < length y)%nat -> (k < n)%nat ->
  nth (c * n + k) (flat_map f (zip3 y cb cr)) 0 = nth k (f (nth c y 0, nth c cb 0, nth c cr 0)) 0.
Proof.
  intros Hf. revert cb cr c. induction y as [|a y IH]; intros [|b cb] [|d cr] c H1 H2 Hc Hk; try discriminate; [inversion Hc|].
  unfold zip3 in *. cbn [zip flat_map]. destruct c as [|c].
  - cbn [Nat.mul Nat.add nth]. now rewrite app_nth1 by (rewrite Hf; exact Hk).
  - rewrite app_nth2 by (rewrite Hf; lia). rewrite Hf. cbn [nth]. rewrite <- IH; [f_equal; lia|..].
    + now injection H1. + now injection H2. + cbn [length] in Hc. lia. + exact Hk.
Qed.

Lemma ycc_lemma c0 c1 c2 width hs vs output S :
  0 < hs -> 0 < vs -> 0 < width <= S -> let R := 8 * (hs * vs) in
  zlen c0 = R * S -> zlen c1 = R * S -> zlen c2 = R * S -> R * width * 3 <= zlen output ->
  exists out, ycbcr_to_ycbcr c0 c1 c2 width hs vs output = Ok out /\
    placed 3 R width (fun r c k => u8 (zn (nth (Z.to_nat k) [c0; c1; c2] []) (r * S + c))) output out.
Proof.
  intros Hh Hv Hw R H0 H1 H2 Ho. unfold ycbcr_to_ycbcr.
  assert (0 < hs * vs) as Hp by nia. revert Hp R H0 H1 H2 Ho. generalize (hs * vs). intros p Hp R H0 H1 H2 Ho.
  replace (p =? 0) with false by lia. cbv zeta.
  assert (shr (zlen c0 / p) 3 = S) as ->.
  { rewrite H0. unfold R, shr. replace (8 * p * S) with ((8 * S) * p) by lia. rewrite Z.div_mul by lia.
    change (2 ^ 3) with 8. lia. }
  unfold chunks_exact. replace (S <=? 0) with false by lia. cbn [rbind].
  assert (length c0 = Z.to_nat R * Z.to_nat S)%nat as L0 by (unfold zlen in *; nia).
  assert (length c1 = Z.to_nat R * Z.to_nat S)%nat as L1 by (unfold zlen in *; nia).
  assert (length c2 = Z.to_nat R * Z.to_nat S)%nat as L2 by (unfold zlen in *; nia).
  rewrite (zip3_rows _ _ _ _ (Z.to_nat R)) by (auto; lia).
  rewrite (ycc_rows_copy _ _ _ _ _ (Z.to_nat S)).
  2:{ now apply rows3_all. }
  2:{ unfold zrepeat. rewrite repeat_length. lia. }
  2:{ lia. }
  rewrite map_map. set (rows := map _ (seq 0 (Z.to_nat R))).
  assert (zlen rows = R) as Hrl by (unfold rows, zlen; rewrite map_length, seq_length; lia).
  assert (Forall (fun r => length r = Z.to_nat (width * 3)) rows) as Hrw.
  { unfold rows. apply Forall_map, Forall_forall. intros i Hi. apply in_seq in Hi.
    rewrite firstn_length, (ycc_px_length (Z.to_nat S)); [lia|]. repeat split; apply (row_of_length _ (Z.to_nat R)); auto; lia. }
  rewrite copy_rows_spec with (w := Z.to_nat (width * 3)) by (auto; first [lia|nia]).
  eexists. split; [reflexivity|]. rewrite <- Hrl. apply placed_rows; auto; try lia; try nia.
  intros r c k Hr Hc Hk. unfold rows. rewrite Hrl in Hr.
  rewrite (nth_indep _ [] ((fun x => firstn (Z.to_nat (width * 3)) (ycc_px (row_of (Z.to_nat S) c0 x, row_of (Z.to_nat S) c1 x, row_of (Z.to_nat S) c2 x))) 0%nat))
    by (rewrite map_length, seq_length; lia).
  rewrite (map_nth (fun x => firstn (Z.to_nat (width * 3)) (ycc_px (row_of (Z.to_nat S) c0 x, row_of (Z.to_nat S) c1 x, row_of (Z.to_nat S) c2 x)))), seq_nth by lia.
  unfold zn. rewrite nth_firstn' by nia. unfold ycc_px. cbn [Nat.add].
  replace (Z.to_nat (c * 3 + k)) with (Z.to_nat c * 3 + Z.to_nat k)%nat by lia.
  rewrite nth_pixels by (first [now intros [[? ?] ?]|rewrite !(row_of_length _ (Z.to_nat R)) by (auto; lia); lia|lia]).
  rewrite !nth_row_of by lia.
  assert (forall l, nth (Z.to_nat r * Z.to_nat S + Z.to_nat c) l 0 = nth (Z.to_nat (r * S + c)) l 0) as E by (intros l; f_equal; nia).
  rewrite !E. assert (k = 0 \/ k = 1 \/ k = 2) as [->|[->| ->]] by lia; reflexivity.
Qed.

(** * RGB, images narrower than 16 *)
Definition kernel_ok (cc : cc_kind) : Prop := cc = CcScalar \/ cc = CcAvx2.
Lemma run_cc_ok cc y cb cr out : kernel_ok cc -> length y = 16%nat -> length cb = 16%nat -> length cr = 16%nat -> length out = 48%nat ->
  run_cc cc y cb cr out 0 = Ok (cc_pixels y cb cr, 48).
Proof.
  intros Hk Hy Hb Hr Ho.
  assert (ycbcr_to_rgb_16_scalar y cb cr out 0 = Ok (cc_pixels y cb cr, 48)) as E.
  { rewrite scalar_rgb by (auto; unfold room; lia). change (written out 0) with (splice out 0).
    rewrite splice_all; [reflexivity|]. now rewrite (cc_pixels_length _ _ _ 16). }
  destruct Hk as [-> | ->]; cbn [run_cc]; [exact E|]. now rewrite avx_rgb.
Qed.
Definition pad (l : list Z) : list Z := l ++ repeat 0 (16 - length l).
Lemma pad16_ok l : (length l <= 16)%nat -> pad16 l = Ok (pad l).
Proof.
  intros H. unfold pad16. rewrite put_slice_ok by (unfold zlen, zrepeat; rewrite ?repeat_length; lia). f_equal.
  unfold splice, pad. change (Z.to_nat 0) with 0%nat. cbn [firstn app Nat.add]. f_equal. unfold zrepeat. change (Z.to_nat 16) with 16%nat.
  do 17 (destruct l as [|? l]; [reflexivity|]). cbn [length] in H. lia.
Qed.
Lemma pad_length l : (length l <= 16)%nat -> length (pad l) = 16%nat.
Proof. intros H. unfold pad. rewrite app_length, repeat_length. lia. Qed.
Definition rgb_row (width : Z) (t : list Z * list Z * list Z) : list Z :=
  let '(y, cb, cr) := t in firstn (Z.to_nat (width * 3)) (cc_pixels (pad y) (pad cb) (pad cr)).
Lemma cc_rows_copy cc width rows start temp output n :
  kernel_ok cc -> 0 < width < 16 -> width <= Z.of_nat n -> (n <= 16)%nat -> Forall (rows3 n) rows -> length temp = 48%nat ->
  0 <= start -> start + zlen rows * (width * 3) <= zlen output ->
  cc_rows cc width 3 rows start temp output = copy_rows (map (rgb_row width) rows) start output.
Proof.
  intros Hk Hw Hwn Hn H. revert start temp output. induction H as [|t rows Ht _ IH]; intros start temp output Hl Hs Hlen; [reflexivity|].
  destruct t as [[y cb] cr]. destruct Ht as (H0 & H1 & H2). cbn [cc_rows map copy_rows]. cbv zeta.
  unfold zlen in Hlen. cbn [length] in Hlen.
  assert (slice_ output start (start + width * 3) = Ok (firstn (Z.to_nat (width * 3)) (skipn (Z.to_nat start) output))) as ->.
  { unfold slice_, slice, zlen. replace (_ && _) with true by nia. do 3 f_equal. lia. }
  cbn [rbind]. replace (width <? 16) with true by lia. unfold cc_row_narrow.
  rewrite !pad16_ok by lia. cbn [rbind].
  rewrite run_cc_ok by (auto; apply pad_length; lia). cbn [rbind].
  assert (length (cc_pixels (pad y) (pad cb) (pad cr)) = 48%nat) as Hp by (rewrite (cc_pixels_length _ _ _ 16) by (apply pad_length; lia); reflexivity).
  rewrite slice_firstn by (unfold zlen; lia). cbn [rbind].
  change (firstn (Z.to_nat (width * 3)) (cc_pixels (pad y) (pad cb) (pad cr))) with (rgb_row width (y, cb, cr)).
  assert (length (rgb_row width (y, cb, cr)) = Z.to_nat (width * 3)) as Hr by (unfold rgb_row; rewrite firstn_length; lia).
  assert (length (firstn (Z.to_nat (width * 3)) (skipn (Z.to_nat start) output)) = Z.to_nat (width * 3)) as Hsl.
  { rewrite firstn_length, skipn_length. nia. }
  rewrite put_slice_ok by (unfold zlen; lia). cbn [rbind]. rewrite splice_all by congruence.
  rewrite (put_slice_ok output) by (unfold zlen; nia). cbn [rbind].
  assert (zlen (rgb_row width (y, cb, cr)) = width * 3) as E by (unfold zlen; lia). rewrite E.
  apply IH; [exact Hp|lia|]. unfold zlen. rewrite splice_length by (unfold zlen; nia). nia.
Qed.

Lemma nth_pad l c : (length l <= 16)%nat -> nth c (pad l) 0 = nth c l 0.
Proof.
  intros H. unfold pad. destruct (Nat.lt_ge_cases c (length l)) as [Hc|Hc].
  - now rewrite app_nth1.
  - rewrite app_nth2 by exact Hc. rewrite (nth_overflow l) by exact Hc.
    generalize (c - length l)%nat (16 - length l)%nat. clear. intros a b. revert a. induction b; intros [|a]; cbn [repeat nth]; auto.
Qed.
Lemma rgb_px_lemma cc c0 c1 c2 width hs vs output S :
  kernel_ok cc -> 0 < hs -> 0 < vs -> 0 < width < 16 -> width <= S <= 16 -> let R := 8 * (hs * vs) in
  zlen c0 = R * S -> zlen c1 = R * S -> zlen c2 = R * S -> R * width * 3 <= zlen output ->
  exists out, color_convert_ycbcr c0 c1 c2 width hs vs RGB cc output = Ok out /\
    placed 3 R width (fun r c k => nth (Z.to_nat k) (cc_pixel (zn c0 (r * S + c)) (zn c1 (r * S + c)) (zn c2 (r * S + c))) 0) output out.
Proof.
  intros Hcc Hh Hv Hw HS R H0 H1 H2 Ho. unfold color_convert_ycbcr.
  assert (0 < hs * vs) as Hp by nia. revert Hp R H0 H1 H2 Ho. generalize (hs * vs). intros p Hp R H0 H1 H2 Ho.
  replace (p =? 0) with false by lia. cbv zeta.
  assert (shr (zlen c0 / p) 3 = S) as ->.
  { rewrite H0. unfold R, shr. replace (8 * p * S) with ((8 * S) * p) by lia. rewrite Z.div_mul by lia.
    change (2 ^ 3) with 8. lia. }
  unfold chunks_exact. replace (S <=? 0) with false by lia. cbn [rbind]. replace (width <? 16) with true by lia.
  assert (length c0 = Z.to_nat R * Z.to_nat S)%nat as L0 by (unfold zlen in *; nia).
  assert (length c1 = Z.to_nat R * Z.to_nat S)%nat as L1 by (unfold zlen in *; nia).
  assert (length c2 = Z.to_nat R * Z.to_nat S)%nat as L2 by (unfold zlen in *; nia).
  rewrite (zip3_rows _ _ _ _ (Z.to_nat R)) by (auto; lia).
  change (num_components RGB) with 3.
  rewrite (cc_rows_copy _ _ _ _ _ _ (Z.to_nat S)); auto; try lia.
  2:{ now apply rows3_all. }
  2:{ unfold zlen in *. rewrite map_length, seq_length. nia. }
  rewrite map_map. set (rows := map _ (seq 0 (Z.to_nat R))).
  assert (zlen rows = R) as Hrl by (unfold rows, zlen; rewrite map_length, seq_length; lia).
  assert (Forall (fun r => length r = Z.to_nat (width * 3)) rows) as Hrw.
  { unfold rows. apply Forall_map, Forall_forall. intros i Hi. apply in_seq in Hi. unfold rgb_row.
    rewrite firstn_length, (cc_pixels_length _ _ _ 16); [lia|apply pad_length; rewrite (row_of_length _ (Z.to_nat R)); auto; lia..]. }
  rewrite copy_rows_spec with (w := Z.to_nat (width * 3)) by (auto; first [lia|nia]).
  eexists. split; [reflexivity|]. rewrite <- Hrl. apply placed_rows; auto; try lia; try nia.
  intros r c k Hr Hc Hk. unfold rows. rewrite Hrl in Hr.
  set (h := fun x => rgb_row width (row_of (Z.to_nat S) c0 x, row_of (Z.to_nat S) c1 x, row_of (Z.to_nat S) c2 x)).
  rewrite (nth_indep _ [] (h 0%nat)) by (rewrite map_length, seq_length; lia).
  rewrite (map_nth h), seq_nth by lia.
  unfold h, zn, rgb_row. rewrite nth_firstn' by nia. unfold cc_pixels. cbn [Nat.add].
  replace (Z.to_nat (c * 3 + k)) with (Z.to_nat c * 3 + Z.to_nat k)%nat by lia.
  assert (forall l, length l = (Z.to_nat R * Z.to_nat S)%nat -> length (pad (row_of (Z.to_nat S) l (Z.to_nat r))) = 16%nat) as Hpl.
  { intros l Hl. apply pad_length. rewrite (row_of_length _ (Z.to_nat R)); auto; lia. }
  rewrite nth_pixels by (first [now intros [[? ?] ?]|rewrite ?Hpl by assumption; lia]).
  rewrite !nth_pad by (rewrite (row_of_length _ (Z.to_nat R)); auto; lia).
  rewrite !nth_row_of by lia.
  assert (forall l, nth (Z.to_nat r * Z.to_nat S + Z.to_nat c) l 0 = nth (Z.to_nat (r * S + c)) l 0) as E by (intros l; f_equal; nia).
  rewrite !E.
  reflexivity.
Qed.
Lemma rgb_lemma cc c0 c1 c2 width hs vs output S :
  kernel_ok cc -> 0 < hs -> 0 < vs -> 0 < width < 16 -> width <= S <= 16 -> let R := 8 * (hs * vs) in
  zlen c0 = R * S -> zlen c1 = R * S -> zlen c2 = R * S -> R * width * 3 <= zlen output ->
  Forall byte c0 -> Forall byte c1 -> Forall byte c2 ->
  exists out, color_convert_ycbcr c0 c1 c2 width hs vs RGB cc output = Ok out /\
    placed 3 R width (fun r c k => nth (Z.to_nat k) (pixel_rgb (zn c0 (r * S + c)) (zn c1 (r * S + c)) (zn c2 (r * S + c))) 0) output out.
Proof.
  intros Hcc Hh Hv Hw HS R H0 H1 H2 Ho B0 B1 B2.
  destruct (rgb_px_lemma cc c0 c1 c2 width hs vs output S Hcc Hh Hv Hw HS H0 H1 H2 Ho) as (out & E & L & P & U).
  exists out. split; [exact E|]. split; [exact L|]. split; [|exact U]. intros r c k Hr Hc Hk. rewrite P by assumption.
  now rewrite cc_pixel_spec by (apply (Forall_zn byte _ (r * S + c)); [unfold byte; lia|assumption]).
Qed.

(** * RGB, wider images: the part of each row that is right *)
Definition reach (cc : cc_kind) : Z := match cc with CcSse => 64 | _ => 48 end.
(** The SSE kernel asks for 64 bytes where it writes 48: a row of [nc * w] bytes made of [S] columns of samples has to offer them *)
Definition kernel_fits (cc : cc_kind) (nc w S : Z) : Prop := kernel_ok cc \/ 64 <= w * nc /\ 48 * (S / 16) - 32 <= w * nc.
Lemma run_cc_any cc y cb cr out pos : length y = 16%nat -> length cb = 16%nat -> length cr = 16%nat ->
  room out pos (reach cc) -> run_cc cc y cb cr out pos = Ok (splice out pos (cc_pixels y cb cr), pos + 48).
Proof.
  intros Hy Hb Hr Ho. assert (ycbcr_to_rgb_16_scalar y cb cr out pos = Ok (splice out pos (cc_pixels y cb cr), pos + 48)) as E.
  { apply (scalar_rgb _ _ _ _ _ Hy Hb Hr). destruct Ho as [H0 H1]. split; [exact H0|]. destruct cc; cbn [reach] in H1; lia. }
  destruct cc; cbn [run_cc reach] in *; [exact E|now rewrite sse_rgb|now rewrite avx_rgb].
Qed.
Definition group_px (t : list Z * list Z * list Z) : list Z := let '(y, cb, cr) := t in cc_pixels y cb cr.
Lemma group_px_length t : rows3 16 t -> length (group_px t) = 48%nat.
Proof. destruct t as [[y cb] cr]. intros (H0 & H1 & H2). unfold group_px. now rewrite (cc_pixels_length _ _ _ 16). Qed.
Lemma cc_groups_ok cc groups out pos : Forall (rows3 16) groups -> 0 <= pos ->
  (0 < zlen groups -> pos + 48 * zlen groups + (reach cc - 48) <= zlen out) ->
  cc_groups cc groups out pos = Ok (splice out pos (concat (map group_px groups)), pos + 48 * zlen groups).
Proof.
  intros H. assert (Hrc : 48 <= reach cc) by (destruct cc; cbn [reach]; lia).
  revert out pos. induction H as [|t groups Ht Hgs IH]; intros out pos Hp Hl; cbn [cc_groups].
  - cbn [map concat]. unfold splice. cbn [length app]. rewrite Nat.add_0_r, firstn_skipn. unfold zlen. cbn [length]. do 2 f_equal. lia.
  - pose proof (group_px_length t Ht) as Hpx. destruct t as [[y cb] cr]. destruct Ht as (H0 & H1 & H2). unfold zlen in Hl. cbn [length] in Hl. specialize (Hl ltac:(lia)).
    rewrite run_cc_any by (auto; unfold room; lia). cbn [rbind]. change (cc_pixels y cb cr) with (group_px (y, cb, cr)).
    assert (zlen (group_px (y, cb, cr)) = 48) as E48 by (unfold zlen; lia).
    rewrite IH; [|lia|unfold zlen; rewrite splice_length by (unfold zlen; lia); lia].
    cbn [map concat]. f_equal. f_equal; [|unfold zlen; cbn [length]; lia].
    rewrite <- E48 at 1. apply splice_two; [lia|].
    rewrite E48. unfold zlen in *. rewrite (concat_length _ 48); [rewrite map_length; lia|].
    apply Forall_map. eapply Forall_impl; [|exact Hgs]. apply group_px_length.
Qed.
Lemma last16_ok l : (16 <= length l)%nat -> exists m, last16 l = Ok m /\ length m = 16%nat.
Proof.
  intros H. unfold last16, zlen. replace (_ <? 16) with false by lia. eexists. split; [reflexivity|]. rewrite skipn_length. lia.
Qed.
Lemma chunk16 (l : list Z) i : (i < length l / 16)%nat -> nth i (chunks_n 16 l) [] = firstn 16 (skipn (i * 16) l).
Proof.
  intros H. pose proof (chunks_n_nth 16 i l ltac:(lia) H) as E. now apply nth_error_nth.
Qed.
Lemma zip_nth {A B} (a : list A) (b : list B) i da db : (i < length a)%nat -> (i < length b)%nat ->
  nth i (zip a b) (da, db) = (nth i a da, nth i b db) /\ (i < length (zip a b))%nat.
Proof.
  revert b i. induction a as [|x a IH]; intros [|y b] [|i] H1 H2; cbn [length] in *; try lia; cbn [zip nth length].
  - split; [reflexivity|lia].
  - destruct (IH b i) as [E L]; try lia. rewrite E. split; [reflexivity|lia].
Qed.
Lemma cc_row_wide_ok cc nc y cb cr out w S : 3 <= nc -> kernel_fits cc nc w S -> 16 <= w <= S -> S < w + 16 ->
  zlen y = S -> zlen cb = S -> zlen cr = S -> zlen out = w * nc ->
  exists o, cc_row_wide cc (w * nc) y cb cr out = Ok o /\ length o = length out /\
    forall c k, 0 <= c < 16 * (S / 16 - 1) -> 3 * c + 3 <= w * nc - 64 -> 0 <= k < 3 ->
      zn o (c * 3 + k) = nth (Z.to_nat k) (cc_pixel (zn y c) (zn cb c) (zn cr c)) 0.
Proof.
  intros Hnc Hk0 Hw HS Hy Hcb Hcr Ho. unfold cc_row_wide. cbv zeta.
  assert (HW : 3 * w <= w * nc) by (clear - Hnc Hw; nia).
  assert (Hk : reach cc <= w * nc /\ 48 * (S / 16) + reach cc - 96 <= w * nc).
  { clear - Hk0 HW Hw HS. destruct Hk0 as [[-> | ->]|[A B]]; cbn [reach]; [lia..|]. destruct cc; cbn [reach]; lia. }
  clear Hk0. revert Ho HW Hk. generalize (w * nc). intros W Ho HW Hk.
  set (e := sat_sub (zlen y / 16) 1). assert (e = S / 16 - 1) as He by (unfold e, sat_sub; lia).
  set (groups := firstn (Z.to_nat e) (zip3 (chunks_n 16 y) (chunks_n 16 cb) (chunks_n 16 cr))).
  assert (forall l : list Z, zlen l = S -> length (chunks_n 16 l) = Z.to_nat (S / 16)) as Hcl.
  { intros l Hl. rewrite chunks_n_length by lia. unfold zlen in Hl. lia. }
  assert (length (zip3 (chunks_n 16 y) (chunks_n 16 cb) (chunks_n 16 cr)) = Z.to_nat (S / 16)) as Hzl.
  { assert (forall A B (a : list A) (b : list B) n, length a = n -> length b = n -> length (zip a b) = n) as Hz.
    { clear. intros A B a. induction a as [|x a IH]; intros [|z b] n <- Hb; try discriminate; [reflexivity|]. cbn [zip length]. f_equal. apply IH; auto. }
    unfold zip3. apply Hz; [apply Hz|]; auto. }
  assert (length groups = Z.to_nat e) as Hgl by (unfold groups; rewrite firstn_length; lia).
  assert (forall i, (i < Z.to_nat e)%nat -> nth i groups ([], [], []) =
    (firstn 16 (skipn (i * 16) y), firstn 16 (skipn (i * 16) cb), firstn 16 (skipn (i * 16) cr))) as Hg.
  { intros i Hi. unfold groups.
    assert (forall A (d : A) n k (l : list A), (k < n)%nat -> nth k (firstn n l) d = nth k l d) as Hnf by (intros; now apply nth_firstn').
    rewrite Hnf by exact Hi. unfold zip3.
    destruct (zip_nth (chunks_n 16 y) (chunks_n 16 cb) i [] []) as [E1 L1]; try (rewrite Hcl; auto; lia).
    destruct (zip_nth (zip (chunks_n 16 y) (chunks_n 16 cb)) (chunks_n 16 cr) i ([], []) []) as [E2 _]; try (rewrite Hcl; auto; lia); [exact L1|].
    rewrite E2, E1, !chunk16 by (unfold zlen in *; lia). reflexivity. }
  assert (Forall (rows3 16) groups) as Hg3.
  { apply Forall_forall. intros t Ht. apply (In_nth _ _ ([], [], [])) in Ht. destruct Ht as (i & Hi & <-).
    rewrite Hg by lia. assert (forall l : list Z, zlen l = S -> length (firstn 16 (skipn (i * 16) l)) = 16%nat) as Hc.
    { intros l Hl. rewrite firstn_length, skipn_length. unfold zlen in Hl. lia. }
    repeat split; apply Hc; assumption. }
  rewrite cc_groups_ok; auto; [|lia|unfold zlen in *; rewrite Hgl; lia]. cbn [rbind].
  set (pos := 0 + 48 * zlen groups). assert (pos = 48 * e) as Hpos by (unfold pos, zlen; lia).
  destruct (last16_ok y) as (yl & -> & Hyl); [unfold zlen in *; lia|].
  destruct (last16_ok cb) as (cbl & -> & Hcbl); [unfold zlen in *; lia|].
  destruct (last16_ok cr) as (crl & -> & Hcrl); [unfold zlen in *; lia|]. cbn [rbind].
  set (pos' := sat_sub pos _).
  assert (0 <= pos' /\ pos' + reach cc <= W /\ pos' = Z.max 0 (Z.min pos (W - 64))) as (Hp0 & Hp1 & Hp2).
  { assert (48 <= reach cc <= 64) by (destruct cc; cbn [reach]; lia). unfold pos', sat_sub. lia. }
  assert (48 <= reach cc) as Hrc by (destruct cc; cbn [reach]; lia).
  set (px := concat (map group_px groups)).
  assert (zlen px = 48 * e) as Hpx.
  { unfold px, zlen. rewrite (concat_length _ 48); [rewrite map_length; lia|]. apply Forall_map. eapply Forall_impl; [|exact Hg3]. apply group_px_length. }
  assert (length (splice out 0 px) = length out) as Hsl by (apply splice_length; lia).
  rewrite run_cc_any; auto; [|unfold room; unfold zlen in *; lia]. cbn [rbind].
  assert (zlen (cc_pixels yl cbl crl) = 48) as H48 by (unfold zlen; rewrite (cc_pixels_length _ _ _ 16) by assumption; reflexivity).
  eexists. split; [reflexivity|]. split; [rewrite splice_length; [exact Hsl|lia|unfold zlen in *; lia]|].
  intros c k Hc Hcw Hkk. unfold zn. rewrite nth_splice; [|lia|unfold zlen in *; lia].
  assert (pos' = Z.min pos (W - 64)) as Hp3 by lia.
  replace (_ || _) with true by lia.
  rewrite nth_splice by lia. replace (_ || _) with false by lia.
  unfold px. replace (Z.to_nat (c * 3 + k) - Z.to_nat 0)%nat with (Z.to_nat (c / 16) * 48 + Z.to_nat ((c mod 16) * 3 + k))%nat by lia.
  rewrite nth_concat.
  2:{ apply Forall_map. eapply Forall_impl; [|exact Hg3]. apply group_px_length. }
  2:{ lia. }
  rewrite (nth_indep _ [] (group_px ([], [], []))) by (rewrite map_length; lia). rewrite map_nth, Hg by lia.
  unfold group_px, cc_pixels. replace (Z.to_nat (c mod 16 * 3 + k)) with (Z.to_nat (c mod 16) * 3 + Z.to_nat k)%nat by lia.
  assert (forall l : list Z, zlen l = S -> length (firstn 16 (skipn (Z.to_nat (c / 16) * 16) l)) = 16%nat) as Hc16.
  { intros l Hl. rewrite firstn_length, skipn_length. unfold zlen in Hl. lia. }
  rewrite nth_pixels by (first [now intros [[? ?] ?]|rewrite ?Hc16 by assumption; lia]).
  rewrite !nth_firstn' by lia. rewrite !nth_skipn.
  replace (Z.to_nat (c / 16) * 16 + Z.to_nat (c mod 16))%nat with (Z.to_nat c) by lia. reflexivity.
Qed.

Lemma cc_rows_wide_ok cc nc w S m rows start temp output :
  3 <= nc -> kernel_fits cc nc w S -> 16 <= w <= S -> S < w + 16 -> m <= 16 * (S / 16 - 1) -> 3 * m <= w * nc - 64 ->
  Forall (rows3 (Z.to_nat S)) rows -> 0 <= start -> start + zlen rows * (w * nc) <= zlen output ->
  exists out, cc_rows cc w nc rows start temp output = Ok out /\ length out = length output /\
    (forall i, 0 <= i < start \/ start + zlen rows * (w * nc) <= i -> zn out i = zn output i) /\
    (forall r c k, 0 <= r < zlen rows -> 0 <= c < m -> 0 <= k < 3 ->
       zn out (start + (r * (w * nc) + (c * 3 + k))) =
       let '(y, cb, cr) := nth (Z.to_nat r) rows ([], [], []) in nth (Z.to_nat k) (cc_pixel (zn y c) (zn cb c) (zn cr c)) 0).
Proof.
  intros Hnc Hk Hw HS Hm1 Hm2 H. revert start output. induction H as [|t rows Ht _ IH]; intros start output Hs Hl.
  - exists output. cbn [cc_rows]. split; [reflexivity|]. split; [reflexivity|]. split; [reflexivity|].
    intros r c k Hr. unfold zlen in Hr. cbn [length] in Hr. lia.
  - destruct t as [[y cb] cr]. destruct Ht as (H0 & H1 & H2). unfold zlen in Hl. cbn [length] in Hl. cbn [cc_rows]. cbv zeta.
    assert (slice_ output start (start + w * nc) = Ok (firstn (Z.to_nat (w * nc)) (skipn (Z.to_nat start) output))) as ->.
    { unfold slice_, slice, zlen. replace (_ && _) with true by nia. do 3 f_equal. lia. }
    cbn [rbind]. replace (w <? 16) with false by lia.
    assert (HW : 48 <= w * nc) by (clear - Hnc Hw; nia).
    set (sl := firstn (Z.to_nat (w * nc)) (skipn (Z.to_nat start) output)).
    assert (length sl = Z.to_nat (w * nc)) as Hsl by (unfold sl; rewrite firstn_length, skipn_length; nia).
    destruct (cc_row_wide_ok cc nc y cb cr sl w S) as (o & -> & Hol & Ho); auto; try (unfold zlen; lia).
    cbn [rbind]. assert (length (splice output start o) = length output) as Hspl by (apply splice_length; [lia|unfold zlen; nia]).
    destruct (IH (start + w * nc) (splice output start o)) as (out & E & L & U & G); [lia|unfold zlen; nia|].
    rewrite E. exists out. split; [reflexivity|]. split; [congruence|]. unfold zlen in U, G |- *. cbn [length]. split.
    + intros i Hi. rewrite U by nia. unfold zn. rewrite nth_splice by (unfold zlen; nia).
      replace (_ || _) with true; [reflexivity|]. unfold zlen. nia.
    + intros r c k Hr Hc Hkk. destruct (Z.eq_dec r 0) as [->|Hr0].
      * cbn [Z.to_nat nth]. rewrite U by (unfold at_pixel; nia). unfold zn at 1. rewrite nth_splice by (unfold zlen; nia).
        replace (_ || _) with false by (unfold at_pixel, zlen; nia). specialize (Ho c k ltac:(lia) ltac:(lia) Hkk).
        rewrite <- Ho. unfold zn. f_equal. lia.
      * replace (start + (r * (w * nc) + (c * 3 + k))) with (start + w * nc + ((r - 1) * (w * nc) + (c * 3 + k))) by ring.
        rewrite G by lia. replace (Z.to_nat r) with (Datatypes.S (Z.to_nat (r - 1))) by lia. reflexivity.
Qed.

Lemma rgb_wide_px_lemma cc c0 c1 c2 width hs vs output S m :
  kernel_fits cc 3 width S -> 0 < hs -> 0 < vs -> 16 <= width <= S -> S < width + 16 ->
  m <= 16 * (S / 16 - 1) -> 3 * m <= 3 * width - 64 -> let R := 8 * (hs * vs) in
  zlen c0 = R * S -> zlen c1 = R * S -> zlen c2 = R * S -> R * width * 3 <= zlen output ->
  exists out, color_convert_ycbcr c0 c1 c2 width hs vs RGB cc output = Ok out /\
    placed_left 3 R width m
      (fun r c k => nth (Z.to_nat k) (cc_pixel (zn c0 (r * S + c)) (zn c1 (r * S + c)) (zn c2 (r * S + c))) 0) output out.
Proof.
  intros Hcc Hh Hv Hw HS Hm1 Hm2 R H0 H1 H2 Ho. unfold color_convert_ycbcr.
  assert (0 < hs * vs) as Hp by nia. revert Hp R H0 H1 H2 Ho. generalize (hs * vs). intros p Hp R H0 H1 H2 Ho.
  replace (p =? 0) with false by lia. cbv zeta.
  assert (shr (zlen c0 / p) 3 = S) as ->.
  { rewrite H0. unfold R, shr. replace (8 * p * S) with ((8 * S) * p) by lia. rewrite Z.div_mul by lia.
    change (2 ^ 3) with 8. lia. }
  unfold chunks_exact. replace (S <=? 0) with false by lia. cbn [rbind]. replace (width <? 16) with false by lia.
  assert (length c0 = Z.to_nat R * Z.to_nat S)%nat as L0 by (unfold zlen in *; nia).
  assert (length c1 = Z.to_nat R * Z.to_nat S)%nat as L1 by (unfold zlen in *; nia).
  assert (length c2 = Z.to_nat R * Z.to_nat S)%nat as L2 by (unfold zlen in *; nia).
  rewrite (zip3_rows _ _ _ _ (Z.to_nat R)) by (auto; lia).
  change (num_components RGB) with 3. set (rows := map _ (seq 0 (Z.to_nat R))).
  assert (zlen rows = R) as Hrl by (unfold rows, zlen; rewrite map_length, seq_length; lia).
  assert (Forall (rows3 (Z.to_nat S)) rows) as Hrows by (unfold rows; now apply rows3_all).
  assert (0 + zlen rows * (width * 3) <= zlen output) as Hroom by (rewrite Hrl; lia).
  destruct (cc_rows_wide_ok cc 3 width S m rows 0 [] output ltac:(lia) Hcc Hw HS Hm1 ltac:(lia) Hrows ltac:(lia) Hroom) as (out & E & L & U & G).
  exists out. split; [exact E|]. split; [exact L|]. split.
  - intros r c k Hr Hc Hkk. replace (at_pixel width 3 r c k) with (0 + (r * (width * 3) + (c * 3 + k))) by (unfold at_pixel; ring). rewrite G by (auto; lia). unfold rows.
    set (h := fun i : nat => (row_of (Z.to_nat S) c0 i, row_of (Z.to_nat S) c1 i, row_of (Z.to_nat S) c2 i)).
    rewrite (nth_indep _ ([], [], []) (h 0%nat)) by (rewrite map_length, seq_length; lia).
    rewrite (map_nth h), seq_nth by lia. unfold h. cbn [Nat.add]. unfold zn. rewrite !nth_row_of by lia.
    assert (forall l, nth (Z.to_nat r * Z.to_nat S + Z.to_nat c) l 0 = nth (Z.to_nat (r * S + c)) l 0) as E2
      by (intros l; f_equal; assert (0 <= r * S) by (apply Z.mul_nonneg_nonneg; lia); rewrite Z2Nat.inj_add, Z2Nat.inj_mul by lia; reflexivity).
    rewrite !E2.
    reflexivity.
  - intros i Hi. apply U. rewrite Hrl. lia.
Qed.
Lemma rgb_wide_lemma cc c0 c1 c2 width hs vs output S m :
  kernel_fits cc 3 width S -> 0 < hs -> 0 < vs -> 16 <= width <= S -> S < width + 16 ->
  m <= 16 * (S / 16 - 1) -> 3 * m <= 3 * width - 64 -> let R := 8 * (hs * vs) in
  zlen c0 = R * S -> zlen c1 = R * S -> zlen c2 = R * S -> R * width * 3 <= zlen output ->
  Forall byte c0 -> Forall byte c1 -> Forall byte c2 ->
  exists out, color_convert_ycbcr c0 c1 c2 width hs vs RGB cc output = Ok out /\
    placed_left 3 R width m
      (fun r c k => nth (Z.to_nat k) (pixel_rgb (zn c0 (r * S + c)) (zn c1 (r * S + c)) (zn c2 (r * S + c))) 0) output out.
Proof.
  intros Hcc Hh Hv Hw HS Hm1 Hm2 R H0 H1 H2 Ho B0 B1 B2.
  destruct (rgb_wide_px_lemma cc c0 c1 c2 width hs vs output S m Hcc Hh Hv Hw HS Hm1 Hm2 H0 H1 H2 Ho) as (out & E & L & P & U).
  exists out. split; [exact E|]. split; [exact L|]. split; [|exact U]. intros r c k Hr Hc Hk. rewrite P by assumption.
  now rewrite cc_pixel_spec by (apply (Forall_zn byte _ (r * S + c)); [unfold byte; lia|assumption]).
Qed.

(** * Four bytes per pixel: the kernels always have the room they ask for *)
Lemma fits4 cc w S : 16 <= w <= S -> S < w + 16 -> kernel_fits cc 4 w S.
Proof. intros H1 H2. right. lia. Qed.
Lemma cc_rows_narrow4 cc w n rows start temp output : 0 < w < 16 -> (n <= 16)%nat -> Forall (rows3 n) rows -> length temp = 64%nat ->
  0 <= start -> start + zlen rows * (w * 4) <= zlen output -> exists out, cc_rows cc w 4 rows start temp output = Ok out.
Proof.
  intros Hw Hn H. revert start temp output. induction H as [|t rows Ht _ IH]; intros start temp output Hl Hs Hlen; cbn [cc_rows]; [eauto|].
  destruct t as [[y cb] cr]. destruct Ht as (H0 & H1 & H2). cbv zeta. unfold zlen in Hlen. cbn [length] in Hlen.
  assert (slice_ output start (start + w * 4) = Ok (firstn (Z.to_nat (w * 4)) (skipn (Z.to_nat start) output))) as ->.
  { unfold slice_, slice, zlen. replace (_ && _) with true by nia. do 3 f_equal. lia. }
  cbn [rbind]. replace (w <? 16) with true by lia. unfold cc_row_narrow.
  rewrite !pad16_ok by lia. cbn [rbind].
  rewrite run_cc_any by (try (apply pad_length; lia); unfold room; destruct cc; cbn [reach]; lia). cbn [rbind].
  assert (length (cc_pixels (pad y) (pad cb) (pad cr)) = 48%nat) as Hp by (rewrite (cc_pixels_length _ _ _ 16) by (apply pad_length; lia); reflexivity).
  assert (length (splice temp 0 (cc_pixels (pad y) (pad cb) (pad cr))) = 64%nat) as Hsp by (rewrite splice_length by (unfold zlen; lia); exact Hl).
  rewrite slice_firstn by (unfold zlen; lia). cbn [rbind].
  set (row := firstn (Z.to_nat (w * 4)) (splice temp 0 _)). assert (length row = Z.to_nat (w * 4)) as Hr by (unfold row; rewrite firstn_length; lia).
  set (sl := firstn (Z.to_nat (w * 4)) (skipn (Z.to_nat start) output)).
  assert (length sl = Z.to_nat (w * 4)) as Hsl by (unfold sl; rewrite firstn_length, skipn_length; nia).
  rewrite put_slice_ok by (unfold zlen; lia). cbn [rbind]. rewrite (splice_all sl row) by congruence.
  apply IH; [exact Hsp|lia|]. unfold zlen. rewrite splice_length by (unfold zlen; nia). nia.
Qed.
Lemma rgb4_lemma cc cs c0 c1 c2 width hs vs output S : num_components cs = 4 -> 0 < hs -> 0 < vs -> 0 < width <= S -> S < width + 16 ->
  (width < 16 -> S <= 16) -> let R := 8 * (hs * vs) in
  zlen c0 = R * S -> zlen c1 = R * S -> zlen c2 = R * S -> R * width * 4 <= zlen output ->
  exists out, color_convert_ycbcr c0 c1 c2 width hs vs cs cc output = Ok out.
Proof.
  intros Hcs Hh Hv Hw HS HS2 R H0 H1 H2 Ho. unfold color_convert_ycbcr.
  assert (0 < hs * vs) as Hp by nia. revert Hp R H0 H1 H2 Ho. generalize (hs * vs). intros p Hp R H0 H1 H2 Ho.
  replace (p =? 0) with false by lia. cbv zeta.
  assert (shr (zlen c0 / p) 3 = S) as ->.
  { rewrite H0. unfold R, shr. replace (8 * p * S) with ((8 * S) * p) by lia. rewrite Z.div_mul by lia.
    change (2 ^ 3) with 8. lia. }
  unfold chunks_exact. replace (S <=? 0) with false by lia. cbn [rbind].
  assert (length c0 = Z.to_nat R * Z.to_nat S)%nat as L0 by (unfold zlen in *; nia).
  assert (length c1 = Z.to_nat R * Z.to_nat S)%nat as L1 by (unfold zlen in *; nia).
  assert (length c2 = Z.to_nat R * Z.to_nat S)%nat as L2 by (unfold zlen in *; nia).
  rewrite (zip3_rows _ _ _ _ (Z.to_nat R)) by (auto; lia). rewrite Hcs. set (rows := map _ (seq 0 (Z.to_nat R))).
  assert (zlen rows = R) as Hrl by (unfold rows, zlen; rewrite map_length, seq_length; lia).
  assert (Forall (rows3 (Z.to_nat S)) rows) as Hrows by (unfold rows; now apply rows3_all).
  assert (0 + zlen rows * (width * 4) <= zlen output) as Hroom by (rewrite Hrl; lia).
  destruct (Z.ltb_spec width 16) as [Hn|Hn].
  - apply (cc_rows_narrow4 _ _ (Z.to_nat S)); auto; lia.
  - destruct (cc_rows_wide_ok cc 4 width S (-100) rows 0 [] output) as (out & E & _); auto; try lia; [now apply fits4; lia|eauto].
Qed.
