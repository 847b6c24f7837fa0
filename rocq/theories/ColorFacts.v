(** Colour conversion: closeness to libjpeg, agreement of the SIMD kernels. *)
From Coq Require Import ZArith String List Bool Lia.
From Coq Require Import ZifyBool ZifyNat ZifyN.
From Verif Require Import Base Color Simd BaseFacts SpecSegments SpecIdct SpecColor IdctFacts.
Import ListNotations.
Local Open Scope Z_scope.
Local Open Scope res_scope.
Ltac Zify.zify_post_hook ::= Z.div_mod_to_equations.

(** * Scalar arithmetic *)
Lemma clamp_u8_255 x : clamp_u8 x = clamp255 x.
Proof. unfold clamp_u8, clamp255. lia. Qed.
Lemma cc_pixel_spec y cb cr : byte y -> byte cb -> byte cr -> cc_pixel y cb cr = pixel_rgb y cb cr.
Proof.
  unfold byte. intros. unfold cc_pixel, pixel_rgb, cc_r, cc_g, cc_b, shr. change (2 ^ 5) with 32. change (2 ^ 6) with 64.
  rewrite !clamp_u8_255.
  rewrite !(i16_id (cr - 128)), !(i16_id (cb - 128)) by lia.
  rewrite (i16_id (45 * _)), (i16_id (11 * _)), (i16_id (23 * _)), (i16_id (113 * _)) by lia.
  rewrite (i16_id (_ + 23 * _)) by lia. rewrite !i16_id by lia. reflexivity.
Qed.
Lemma C27_lemma y cb cr : byte y -> byte cb -> byte cr ->
  exists r g b, cc_pixel y cb cr = [r; g; b] /\ byte r /\ byte g /\ byte b /\
    Z.abs (r - libjpeg_r y cr) <= 1 /\ Z.abs (g - libjpeg_g y cb cr) <= 2 /\ Z.abs (b - libjpeg_b y cb) <= 2.
Proof.
  intros Hy Hcb Hcr. rewrite cc_pixel_spec by assumption. unfold pixel_rgb. do 3 eexists. split; [reflexivity|].
  unfold byte, libjpeg_r, libjpeg_g, libjpeg_b, clamp255 in *. repeat split; lia.
Qed.

(** * Registers *)
Ltac explode l H := do 17 (destruct l as [|? l]; try discriminate H).
Lemma u8_clamp x : u8 (Z.min (Z.max x 0) 255) = Z.min (Z.max x 0) 255.
Proof. unfold u8. lia. Qed.
Lemma map2_set1 {A B} (f : Z -> A -> B) n x l : length l = n -> map2 f (set1 n x) l = map (f x) l.
Proof. intros <-. unfold set1. induction l as [|a l IH]; [reflexivity|]. cbn [length repeat map2 map]. now rewrite IH. Qed.
Lemma map2_set1_r {A B} (f : A -> Z -> B) n x l : length l = n -> map2 f l (set1 n x) = map (fun a => f a x) l.
Proof. intros <-. unfold set1. induction l as [|a l IH]; [reflexivity|]. cbn [length repeat map2 map]. now rewrite IH. Qed.

(** what the unclamped registers hold *)
Definition lane_r (p : Z * Z * Z) : Z := let '(y, cb, cr) := p in i16 (y + shr (i16 (45 * i16 (cr - 128))) 5).
Definition lane_g (p : Z * Z * Z) : Z :=
  let '(y, cb, cr) := p in i16 (y - shr (i16 (i16 (11 * i16 (cb - 128)) + i16 (23 * i16 (cr - 128)))) 5).
Definition lane_b (p : Z * Z * Z) : Z := let '(y, cb, cr) := p in i16 (shr (i16 (113 * i16 (cb - 128))) 6 + y).
Lemma cc_regs_lanes n y cb cr : length y = n -> length cb = n -> length cr = n ->
  cc_regs n y cb cr = (map lane_r (zip3 y cb cr), map lane_g (zip3 y cb cr), map lane_b (zip3 y cb cr)).
Proof.
  intros Hy Hcb Hcr. unfold cc_regs, sub16, mullo16, add16, srai16, zip3.
  rewrite !map2_set1_r by assumption. rewrite !map2_set1 by (rewrite map_length; assumption).
  cbv zeta. subst n. revert cb cr Hcb Hcr. induction y as [|a y IH]; intros [|b cb] [|c cr] Hcb Hcr; try discriminate; [reflexivity|].
  injection Hcb as Hcb. injection Hcr as Hcr. specialize (IH cb cr Hcb Hcr). apply pair_equal_spec in IH. destruct IH as [IH H3]. apply pair_equal_spec in IH. destruct IH as [H1 H2].
  cbn [map map2 zip]. rewrite H1, H2, H3. reflexivity.
Qed.
Lemma zip3_length (y cb cr : list Z) n : length y = n -> length cb = n -> length cr = n -> length (zip3 y cb cr) = n.
Proof.
  unfold zip3. intros <-. revert cb cr. induction y as [|a y IH]; intros [|b cb] [|c cr] H1 H2; try discriminate; [reflexivity|].
  injection H1 as H1. injection H2 as H2. cbn [zip length]. f_equal. now apply IH.
Qed.
Lemma clamp_map n (f : Z * Z * Z -> Z) l : length l = n -> clamp_reg n (map f l) = map (fun p => clamp_u8 (f p)) l.
Proof.
  intros H. unfold clamp_reg, max16, min16. rewrite (map2_set1_r Z.max) by (now rewrite map_length).
  rewrite (map2_set1_r Z.min) by (now rewrite !map_length). rewrite !map_map. reflexivity.
Qed.
Lemma interleave_cc (l : list (Z * Z * Z)) :
  interleave3 (map (fun p => clamp_u8 (lane_r p)) l) (map (fun p => clamp_u8 (lane_g p)) l) (map (fun p => clamp_u8 (lane_b p)) l)
  = flat_map (fun '(y, cb, cr) => cc_pixel y cb cr) l.
Proof.
  unfold interleave3, zip3. induction l as [|[[y cb] cr] l IH]; [reflexivity|].
  cbn [map zip flat_map]. rewrite IH. unfold cc_pixel, cc_r, cc_g, cc_b, lane_r, lane_g, lane_b, clamp_u8. rewrite !u8_clamp.
  rewrite (Z.add_comm (shr _ 6)). reflexivity.
Qed.
Lemma avx_rgb y cb cr out pos : length y = 16%nat -> length cb = 16%nat -> length cr = 16%nat ->
  ycbcr_to_rgb_avx2 y cb cr out pos = ycbcr_to_rgb_16_scalar y cb cr out pos.
Proof.
  intros Hy Hcb Hcr. unfold ycbcr_to_rgb_avx2, ycbcr_to_rgb_16_scalar. rewrite cc_regs_lanes by assumption.
  rewrite !clamp_map by (now apply zip3_length). now rewrite interleave_cc.
Qed.

(** * Writing in two halves *)
Lemma splice_length {A} (l : list A) a s : 0 <= a -> a + zlen s <= zlen l -> length (splice l a s) = length l.
Proof. intros. unfold splice, zlen in *. rewrite !app_length, firstn_length, skipn_length. lia. Qed.
Lemma splice_two {A} (l s t : list A) a : 0 <= a -> a + zlen s + zlen t <= zlen l ->
  splice (splice l a s) (a + zlen s) t = splice l a (s ++ t).
Proof.
  intros H0 H. unfold splice, zlen in *.
  rewrite firstn_app, firstn_length, Nat.min_l by lia.
  replace (Z.to_nat (a + Z.of_nat (length s)) - Z.to_nat a)%nat with (length s) by lia.
  rewrite firstn_all2 by (rewrite firstn_length; lia). rewrite firstn_app, firstn_all, Nat.sub_diag. cbn [firstn].
  rewrite app_nil_r. rewrite <- !app_assoc. f_equal. f_equal. f_equal.
  rewrite skipn_app, (skipn_all2 (firstn _ _)) by (rewrite firstn_length; lia). rewrite firstn_length, Nat.min_l by lia.
  rewrite skipn_app, (skipn_all2 s) by lia. cbn [app]. rewrite app_length.
  assert (forall b c (m : list A), skipn c (skipn b m) = skipn (b + c) m) as Hss.
  { intros b. induction b; intros c m; [reflexivity|]. destruct m; [now rewrite !skipn_nil|]. apply IHb. }
  rewrite Hss. f_equal. lia.
Qed.
Lemma put_slice_ok {A} (l : list A) a s : 0 <= a -> a + zlen s <= zlen l -> put_slice l a s = Ok (splice l a s).
Proof. intros. unfold put_slice, slice. replace (_ && _) with true; [reflexivity|]. unfold zlen in *. lia. Qed.
Lemma put_slice_two {A} (l s t : list A) a : 0 <= a -> a + zlen s + zlen t <= zlen l ->
  (o <~ put_slice l a s ;; put_slice o (a + zlen s) t) = put_slice l a (s ++ t).
Proof.
  intros H0 H. rewrite put_slice_ok by (unfold zlen in *; lia). cbn [rbind].
  rewrite put_slice_ok; [|unfold zlen in *; lia|unfold zlen; rewrite splice_length; unfold zlen in *; lia].
  rewrite put_slice_ok; [|unfold zlen in *; lia|unfold zlen in *; rewrite app_length; lia]. now rewrite splice_two.
Qed.
Lemma flat_map_length {A B} (f : A -> list B) n l : (forall a, length (f a) = n) -> length (flat_map f l) = (n * length l)%nat.
Proof. intros H. induction l as [|a l IH]; [cbn; lia|]. cbn [flat_map length]. rewrite app_length, H, IH. lia. Qed.
Lemma cc_pixels_length y cb cr n : length y = n -> length cb = n -> length cr = n ->
  length (cc_pixels y cb cr) = (3 * n)%nat.
Proof.
  intros Hy Hb Hr. unfold cc_pixels. rewrite (flat_map_length _ 3) by (now intros [[? ?] ?]).
  now rewrite (zip3_length _ _ _ n).
Qed.
Lemma halves16 {A} (l : list A) : length l = 16%nat -> lo l = firstn 8 l /\ hi l = skipn 8 l.
Proof. intros H. unfold lo, hi. rewrite H. now split. Qed.
Lemma zip_split {A B} (a : list A) (b : list B) n : zip a b = (zip (firstn n a) (firstn n b) ++ zip (skipn n a) (skipn n b))%list.
Proof.
  revert a b. induction n as [|n IH]; intros a b; [reflexivity|]. destruct a as [|x a], b as [|y b]; try reflexivity.
  - cbn [firstn skipn zip app]. now destruct (skipn n a).
  - cbn [firstn skipn zip app]. f_equal. apply IH.
Qed.
Lemma zip3_split (a b c : list Z) n : length a = length b -> 
  zip3 a b c = (zip3 (firstn n a) (firstn n b) (firstn n c) ++ zip3 (skipn n a) (skipn n b) (skipn n c))%list.
Proof.
  intros H. unfold zip3. rewrite (zip_split (zip a b) c n). f_equal; f_equal.
  - revert b n H. induction a as [|x a IH]; intros [|y b] [|n] H; try discriminate; try reflexivity.
    cbn [zip firstn]. f_equal. apply IH. now injection H.
  - revert b n H. induction a as [|x a IH]; intros [|y b] [|n] H; try discriminate; try reflexivity.
    cbn [zip skipn]. apply IH. now injection H.
Qed.
Lemma sse_half y cb cr out pos : length y = 8%nat -> length cb = 8%nat -> length cr = 8%nat ->
  ycbcr_to_rgb_sse41 y cb cr out pos = (o <~ put_slice out pos (cc_pixels y cb cr) ;; Ok (o, pos + 24)).
Proof.
  intros Hy Hcb Hcr. unfold ycbcr_to_rgb_sse41, cc_pixels. rewrite cc_regs_lanes by assumption.
  rewrite !clamp_map by (now apply zip3_length). now rewrite interleave_cc.
Qed.
Lemma sse_rgb y cb cr out pos : length y = 16%nat -> length cb = 16%nat -> length cr = 16%nat ->
  room out pos 64 ->
  ycbcr_to_rgb_sse_16 y cb cr out pos = ycbcr_to_rgb_16_scalar y cb cr out pos.
Proof.
  intros Hy Hcb Hcr [Hp Hr]. unfold ycbcr_to_rgb_sse_16, ycbcr_to_rgb_16_scalar.
  assert (slice out pos (pos + 64) <> None) as Hs.
  { unfold slice, zlen. replace (_ && _) with true by lia. discriminate. }
  destruct (slice out pos (pos + 64)); [clear Hs|contradiction].
  destruct (halves16 y Hy) as [-> ->]. destruct (halves16 cb Hcb) as [-> ->]. destruct (halves16 cr Hcr) as [-> ->].
  rewrite sse_half by (rewrite firstn_length; lia).
  assert (cc_pixels y cb cr = cc_pixels (firstn 8 y) (firstn 8 cb) (firstn 8 cr) ++ cc_pixels (skipn 8 y) (skipn 8 cb) (skipn 8 cr))%list as ->.
  { unfold cc_pixels. rewrite (zip3_split y cb cr 8) by congruence. apply flat_map_app. }
  assert (forall a b c : list Z, length a = 8%nat -> length b = 8%nat -> length c = 8%nat -> zlen (cc_pixels a b c) = 24) as H24.
  { intros a b c Ha Hb Hc. unfold zlen. rewrite (cc_pixels_length _ _ _ 8); auto. }
  rewrite <- put_slice_two.
  2:{ lia. }
  2:{ rewrite !H24; rewrite ?firstn_length, ?skipn_length; try lia. unfold zlen. lia. }
  destruct (put_slice out pos _) as [o| | |]; [|reflexivity..]. cbn [rbind].
  rewrite sse_half by (rewrite skipn_length; lia). rewrite H24 by (rewrite firstn_length; lia).
  destruct (put_slice o _ _) as [o'| | |]; [|reflexivity..]. cbn [rbind]. do 2 f_equal. lia.
Qed.
Lemma scalar_rgb y cb cr out pos : length y = 16%nat -> length cb = 16%nat -> length cr = 16%nat -> room out pos 48 ->
  ycbcr_to_rgb_16_scalar y cb cr out pos = Ok (written out pos (cc_pixels y cb cr), pos + 48).
Proof.
  intros Hy Hcb Hcr [Hp Hr]. unfold ycbcr_to_rgb_16_scalar.
  rewrite put_slice_ok; [reflexivity|lia|]. unfold zlen. rewrite (cc_pixels_length _ _ _ 16) by assumption. lia.
Qed.

(** * The four-channel kernels *)
Definition quads (r g b x : list Z) : list Z :=
  flat_map (fun '(r, g, b, x) => [sat_u8 r; sat_u8 g; sat_u8 b; sat_u8 x]) (zip (zip3 r g b) x).
Lemma rgba_avx_shuffle (r g b x : list Z) : length r = 16%nat -> length g = 16%nat -> length b = 16%nat -> length x = 16%nat ->
  (let c := packus256 r g in
  let d := packus256 b x in
  let e := unpacklo256 1 c d in
  let f := unpackhi256 1 c d in
  let g := unpacklo256 1 e f in
  let h := unpackhi256 1 e f in
  let i := perm2x128 (shuffle 3 2 1 0) g h in
  let j := perm2x128 (shuffle 1 2 3 0) g h in
  let k := perm2x128 (shuffle 3 2 0 1) g h in
  let l := perm2x128 (shuffle 0 3 2 1) g h in
  let m := blend_hi i j in
  let n := blend_hi k l in
  (m ++ n)%list) = quads r g b x.
Proof.
  intros Hr Hg Hb Hx. explode r Hr. explode g Hg. explode b Hb. explode x Hx.
  lazy -[sat_u8]. reflexivity.
Qed.
Lemma rgba_sse_shuffle (r g b x : list Z) : length r = 8%nat -> length g = 8%nat -> length b = 8%nat -> length x = 8%nat ->
  (let e := packus128 r g in
  let f := packus128 b x in
  let g := unpacklo128 1 e f in
  let h := unpackhi128 1 e f in
  (unpacklo128 1 g h ++ unpackhi128 1 g h)%list) = quads r g b x.
Proof.
  intros Hr Hg Hb Hx. do 9 (destruct r as [|? r]; try discriminate Hr). do 9 (destruct g as [|? g]; try discriminate Hg).
  do 9 (destruct b as [|? b]; try discriminate Hb). do 9 (destruct x as [|? x]; try discriminate Hx).
  lazy -[sat_u8]. reflexivity.
Qed.
Lemma quads_cc (l : list (Z * Z * Z)) (x : list Z) : length x = length l ->
  quads (map lane_r l) (map lane_g l) (map lane_b l) x =
  flat_map (fun '(y, cb, cr, x) => cc_pixel y cb cr ++ [sat_u8 x])%list (zip l x).
Proof.
  unfold quads, zip3. revert x. induction l as [|[[y cb] cr] l IH]; intros [|a x] H; try discriminate; [reflexivity|].
  injection H as H. cbn [map zip flat_map]. rewrite (IH x H). unfold cc_pixel, cc_r, cc_g, cc_b, lane_r, lane_g, lane_b.
  rewrite (Z.add_comm (shr _ 6)). reflexivity.
Qed.
Lemma quads_255 (l : list (Z * Z * Z)) n : length l = n ->
  flat_map (fun '(y, cb, cr, x) => cc_pixel y cb cr ++ [sat_u8 x])%list (zip l (set1 n 255)) =
  flat_map (fun '(y, cb, cr) => cc_pixel y cb cr ++ [255])%list l.
Proof.
  intros <-. unfold set1. induction l as [|[[y cb] cr] l IH]; [reflexivity|]. cbn [length repeat zip flat_map]. now rewrite IH.
Qed.
Lemma avx_regs4 y cb cr x : length y = 16%nat -> length cb = 16%nat -> length cr = 16%nat -> length x = 16%nat ->
  rgba_avx2_regs y cb cr x = flat_map (fun '(y, cb, cr, x) => cc_pixel y cb cr ++ [sat_u8 x])%list (zip (zip3 y cb cr) x).
Proof.
  intros Hy Hcb Hcr Hx. unfold rgba_avx2_regs. rewrite cc_regs_lanes by assumption.
  pose proof (zip3_length y cb cr 16 Hy Hcb Hcr) as Hl.
  transitivity (quads (map lane_r (zip3 y cb cr)) (map lane_g (zip3 y cb cr)) (map lane_b (zip3 y cb cr)) x).
  - apply rgba_avx_shuffle; rewrite ?map_length; auto.
  - apply quads_cc. congruence.
Qed.
Lemma avx_rgba y cb cr out pos : length y = 16%nat -> length cb = 16%nat -> length cr = 16%nat ->
  ycbcr_to_rgba_avx2 y cb cr out pos = ycbcr_to_rgba_16_scalar y cb cr out pos.
Proof.
  intros Hy Hcb Hcr. unfold ycbcr_to_rgba_avx2, ycbcr_to_rgba_16_scalar. rewrite avx_regs4 by auto.
  now rewrite quads_255 by (now apply zip3_length).
Qed.
Lemma sse_regs4 y cb cr : length y = 8%nat -> length cb = 8%nat -> length cr = 8%nat ->
  rgba_sse_regs y cb cr = flat_map (fun '(y, cb, cr) => cc_pixel y cb cr ++ [255])%list (zip3 y cb cr).
Proof.
  intros Hy Hcb Hcr. unfold rgba_sse_regs. rewrite cc_regs_lanes by assumption.
  pose proof (zip3_length y cb cr 8 Hy Hcb Hcr) as Hl.
  transitivity (quads (map lane_r (zip3 y cb cr)) (map lane_g (zip3 y cb cr)) (map lane_b (zip3 y cb cr)) (set1 8 255)).
  - apply rgba_sse_shuffle; rewrite ?map_length; auto.
  - rewrite quads_cc by (rewrite Hl; reflexivity). now apply quads_255.
Qed.
Lemma sse_rgba y cb cr out pos : length y = 16%nat -> length cb = 16%nat -> length cr = 16%nat ->
  room out pos 64 ->
  ycbcr_to_rgba_sse_16 y cb cr out pos = ycbcr_to_rgba_16_scalar y cb cr out pos.
Proof.
  intros Hy Hcb Hcr [Hp Hr]. unfold ycbcr_to_rgba_sse_16, ycbcr_to_rgba_16_scalar.
  assert (slice out pos (pos + 64) <> None) as Hs.
  { unfold slice, zlen. replace (_ && _) with true by lia. discriminate. }
  destruct (slice out pos (pos + 64)); [clear Hs|contradiction].
  destruct (halves16 y Hy) as [-> ->]. destruct (halves16 cb Hcb) as [-> ->]. destruct (halves16 cr Hcr) as [-> ->].
  rewrite sse_regs4 by (rewrite firstn_length; lia). rewrite sse_regs4 by (rewrite skipn_length; lia).
  rewrite (zip3_split y cb cr 8) by congruence. rewrite flat_map_app.
  set (f := fun '(y, cb, cr) => (cc_pixel y cb cr ++ [255])%list).
  assert (forall a b c : list Z, length a = 8%nat -> length b = 8%nat -> length c = 8%nat -> zlen (flat_map f (zip3 a b c)) = 32) as H32.
  { intros a b c Ha Hb Hc. unfold zlen. rewrite (flat_map_length f 4) by (now intros [[? ?] ?]).
    rewrite (zip3_length _ _ _ 8); auto. }
  cbv zeta. rewrite <- put_slice_two.
  2:{ lia. }
  2:{ rewrite !H32; rewrite ?firstn_length, ?skipn_length; try lia. unfold zlen. lia. }
  rewrite H32 by (rewrite firstn_length; lia).
  destruct (put_slice out pos _) as [o| | |]; [|reflexivity..]. cbn [rbind].
  destruct (put_slice o _ _) as [o'| | |]; reflexivity.
Qed.

(** * The statements of C28 and C31 *)
Lemma list16 (l : list Z) : length l = 16%nat -> l = map (zn l) (zseq 16).
Proof.
  intros H. do 16 (destruct l as [|? l]; [discriminate H|]). destruct l; [reflexivity|discriminate H].
Qed.
Lemma zip3_map {A} (f g h : A -> Z) l : zip3 (map f l) (map g l) (map h l) = map (fun i => (f i, g i, h i)) l.
Proof. unfold zip3. induction l as [|a l IH]; cbn [map zip]; [reflexivity|]. now rewrite IH. Qed.
Lemma zip3_16 y cb cr : length y = 16%nat -> length cb = 16%nat -> length cr = 16%nat ->
  zip3 y cb cr = map (fun i => (zn y i, zn cb i, zn cr i)) (zseq 16).
Proof.
  intros Hy Hb Hr. rewrite (list16 y Hy) at 1. rewrite (list16 cb Hb) at 1. rewrite (list16 cr Hr) at 1. apply zip3_map.
Qed.
Lemma flat_map_map {A B C} (f : B -> list C) (g : A -> B) l : flat_map f (map g l) = flat_map (fun x => f (g x)) l.
Proof. induction l as [|a l IH]; cbn [map flat_map]; [reflexivity|]. now rewrite IH. Qed.
Lemma C28_scalar_lemma y cb cr out pos :
  length y = 16%nat -> length cb = 16%nat -> length cr = 16%nat ->
  (room out pos 48 -> ycbcr_to_rgb_16_scalar y cb cr out pos =
     Ok (written out pos (flat_map (fun i => cc_pixel (zn y i) (zn cb i) (zn cr i)) (zseq 16)), pos + 48)) /\
  (room out pos 64 -> ycbcr_to_rgba_16_scalar y cb cr out pos =
     Ok (written out pos (flat_map (fun i => cc_pixel (zn y i) (zn cb i) (zn cr i) ++ [255])%list (zseq 16)), pos + 64)).
Proof.
  intros Hy Hb Hr. split; intros H.
  - rewrite scalar_rgb by assumption. unfold cc_pixels. rewrite zip3_16 by assumption. now rewrite flat_map_map.
  - unfold ycbcr_to_rgba_16_scalar. rewrite zip3_16 by assumption. rewrite flat_map_map. destruct H as [Hp H].
    rewrite put_slice_ok; [reflexivity|lia|]. unfold zlen. rewrite (flat_map_length _ 4) by (intros; reflexivity).
    change (length (zseq 16)) with 16%nat. lia.
Qed.
Lemma C31_lemma y cb cr out pos i :
  length y = 16%nat -> length cb = 16%nat -> length cr = 16%nat -> room out pos 64 -> 0 <= i < 16 ->
  exists o, ycbcr_to_rgba_16_scalar y cb cr out pos = Ok (o, pos + 64) /\
    ycbcr_to_rgba_avx2 y cb cr out pos = Ok (o, pos + 64) /\
    ycbcr_to_rgba_sse_16 y cb cr out pos = Ok (o, pos + 64) /\
    zn o (pos + 4 * i + 3) = 255.
Proof.
  intros Hy Hb Hr H Hi. destruct (C28_scalar_lemma y cb cr out pos Hy Hb Hr) as [_ E]. specialize (E H).
  eexists. split; [exact E|]. rewrite avx_rgba, sse_rgba by assumption. split; [exact E|]. split; [exact E|].
  destruct H as [Hp H]. unfold written, zn.
  rewrite app_nth2 by (rewrite firstn_length; lia). rewrite firstn_length, Nat.min_l by lia.
  replace (Z.to_nat (pos + 4 * i + 3) - Z.to_nat pos)%nat with (Z.to_nat (4 * i + 3)) by lia.
  rewrite app_nth1.
  2:{ rewrite (flat_map_length _ 4) by (intros; reflexivity). change (length (zseq 16)) with 16%nat. lia. }
  assert (In i (zseq 16)) as Hin by (apply zseq_In; lia). clear - Hin.
  cbv in Hin. repeat (destruct Hin as [<-|Hin]; [reflexivity|]). destruct Hin.
Qed.
Lemma avx_rgbx y cb cr x i k :
  length y = 16%nat -> length cb = 16%nat -> length cr = 16%nat -> length x = 16%nat ->
  0 <= i < 16 -> 0 <= k < 3 ->
  zn (rgba_avx2_regs y cb cr x) (4 * i + k) = zn (cc_pixel (zn y i) (zn cb i) (zn cr i)) k.
Proof.
  intros Hy Hb Hr Hx Hi Hk. rewrite avx_regs4 by assumption. rewrite zip3_16 by assumption.
  rewrite (list16 x Hx).
  assert (forall {A B C} (f : A -> B) (g : A -> C) l, zip (map f l) (map g l) = map (fun i => (f i, g i)) l) as Hz.
  { clear. intros A B C f g l. induction l as [|a l IH]; cbn [map zip]; [reflexivity|]. now rewrite IH. }
  rewrite Hz, flat_map_map. assert (In i (zseq 16)) as Hin by (apply zseq_In; lia).
  assert (k = 0 \/ k = 1 \/ k = 2) as Hk3 by lia. clear - Hin Hk3. unfold zn at 1.
  cbv in Hin. repeat (destruct Hin as [<-|Hin]; [destruct Hk3 as [-> |[-> | ->]]; reflexivity|]). destruct Hin.
Qed.
