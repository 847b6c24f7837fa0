(** Interleaved baseline scans: from the blocks of the MCUs to the rows handed to the workers. *)
From Coq Require Import ZArith String List Bool Lia.
From Coq Require Import ZifyBool ZifyNat ZifyN.
From Verif Require Import Base Types Huffman State Bitstream Headers Idct Color Simd Worker Mcu.
From Verif Require Import SpecHuffman SpecSegments SpecExtend SpecBits SpecBlock SpecInter SpecImage SpecBaseline SpecBaseScan.
From Verif Require GrayFile.
From Verif Require Import Obs BaseFacts HuffDecode BitReader Reader Feed FastAc Block ColorFacts Placement ProgFacts ProgScript ProgInter BaseGray.
Import ListNotations.
Local Open Scope Z_scope.
Ltac Zify.zify_post_hook ::= Z.div_mod_to_equations.

(** * The bits of the blocks *)
Definition after (preds : nat -> Z) (us : list (nat * list Z)) : nat -> Z :=
  fold_left (fun p u => next_pred p (fst u) (hd 0 (snd u))) us preds.

Lemma encode_units_app codes a : forall preds c b, encode_units codes preds (a ++ c) = Some b ->
  exists b1 b2, encode_units codes preds a = Some b1 /\ encode_units codes (after preds a) c = Some b2 /\ b = (b1 ++ b2)%list.
Proof.
  induction a as [|[k z] a IH]; intros p c b H; [exists [], b; auto|].
  cbn [app encode_units] in *. apply cat_opt_some in H. destruct H as (x & y & E1 & E2 & ->).
  destruct (IH _ _ _ E2) as (b1 & b2 & F1 & F2 & ->). exists (x ++ b1)%list, b2. rewrite E1, F1. split; [reflexivity|].
  split; [exact F2|now rewrite app_assoc].
Qed.
Lemma units_pred_app P a : forall preds c, units_pred P preds (a ++ c) -> units_pred P preds a /\ units_pred P (after preds a) c.
Proof.
  induction a as [|[k z] a IH]; intros p c H; [split; [exact I|exact H]|]. cbn [app units_pred] in *. destruct H as [H1 H].
  destruct (IH _ _ H) as [H2 H3]. split; [auto|exact H3].
Qed.
Lemma scan_blocks_app B a c : scan_blocks B (a ++ c) = (scan_blocks B a ++ scan_blocks B c)%list.
Proof. apply map_app. Qed.

Section lasts.
Variables (codes : nat -> code * code) (B : nat -> Z -> Z -> list Z) (full : list unit_) (total : list bool).
Hypothesis Htotal : encode_units codes (fun _ => 0) (scan_blocks B full) = Some total.

(** The bits of what is left of the scan *)
Lemma rest_bits done rem : full = (done ++ rem)%list ->
  exists b, encode_units codes (after (fun _ => 0) (scan_blocks B done)) (scan_blocks B rem) = Some b /\
    Z.of_nat (length b) = last_bits codes (scan_blocks B full) (length rem).
Proof.
  intros E. assert (Ht := Htotal). rewrite E, scan_blocks_app in Ht.
  destruct (encode_units_app _ _ _ _ _ Ht) as (b1 & b2 & E1 & E2 & Etot). exists b2. split; [exact E2|].
  unfold last_bits. rewrite Htotal.
  assert (firstn (length (scan_blocks B full) - length rem) (scan_blocks B full) = scan_blocks B done) as ->.
  { rewrite E, scan_blocks_app, app_length. assert (Hl : length (scan_blocks B rem) = length rem) by apply map_length.
    replace (length (scan_blocks B done) + length (scan_blocks B rem) - length rem)%nat with (length (scan_blocks B done) + 0)%nat by lia.
    rewrite firstn_app_2, firstn_O. apply app_nil_r. }
  rewrite E1, Etot, app_length. lia.
Qed.
Lemma last_bits_le n m : (n <= m)%nat -> last_bits codes (scan_blocks B full) n <= last_bits codes (scan_blocks B full) m.
Proof.
  intros H. unfold last_bits. rewrite Htotal. set (us := scan_blocks B full) in *.
  assert (Hp : forall i, exists b c, encode_units codes (fun _ => 0) (firstn i us) = Some b /\ total = (b ++ c)%list).
  { intros i. assert (Ht := Htotal). fold us in Ht. rewrite <- (firstn_skipn i us) in Ht.
    destruct (encode_units_app _ _ _ _ _ Ht) as (b1 & b2 & E1 & _ & E). eauto. }
  assert (firstn (length us - m) us = firstn (length us - m) (firstn (length us - n) us)) as Ef.
  { rewrite firstn_firstn. f_equal. lia. }
  destruct (Hp (length us - n)%nat) as (b1 & c1 & E1 & T1). rewrite E1.
  rewrite Ef. rewrite <- (firstn_skipn (length us - m) (firstn (length us - n) us)) in E1.
  destruct (encode_units_app _ _ _ _ _ E1) as (b3 & b4 & E3 & _ & E). rewrite E3, E, app_length. lia.
Qed.
End lasts.

Lemma marker_short n s bs c r : feed n s bs (AtMarker c r) -> b_marker s <> None -> Z.of_nat (length bs) <= 64.
Proof.
  intros (_ & u & E & z & r' & H1 & H2 & H3 & _) Hm. destruct (feed_all _ _ _ _ _ _ _ H1 H2 H3 Hm) as (<- & _).
  destruct (ro_win _ _ _ _ H1) as []. unfold blen in *. lia.
Qed.

(** * Blocks of a plane *)
Definition blk_at (plane : list Z) (p : Z) : list Z := firstn 64 (skipn (Z.to_nat p) plane).
Lemma slice_blk plane p : 0 <= p -> p + 64 <= zlen plane -> slice plane p (p + 64) = Some (blk_at plane p).
Proof.
  intros H1 H2. unfold slice, blk_at. replace (_ && _) with true by lia. now replace (Z.to_nat (p + 64 - p)) with 64%nat by lia.
Qed.
Lemma splice_len {A} (l : list A) p b : 0 <= p -> p + zlen b <= zlen l -> length (splice l p b) = length l.
Proof. intros H1 H2. unfold splice, zlen in *. rewrite !app_length, firstn_length, skipn_length. lia. Qed.
Lemma nth_splice l p b i : 0 <= p -> p + zlen b <= zlen l ->
  nth i (splice l p b) 0 = if (Z.to_nat p <=? i)%nat && (i <? Z.to_nat p + length b)%nat then nth (i - Z.to_nat p) b 0 else nth i l 0.
Proof.
  intros H1 H2. unfold splice, zlen in *. set (n := Z.to_nat p) in *.
  assert (Hn : length (firstn n l) = n) by (rewrite firstn_length; lia).
  destruct (n <=? i)%nat eqn:E1.
  - rewrite app_nth2 by lia. rewrite Hn. destruct (i <? n + length b)%nat eqn:E2; cbn [andb].
    + now rewrite app_nth1 by lia.
    + rewrite app_nth2 by lia. rewrite nth_skipn. f_equal. lia.
  - cbn [andb]. rewrite app_nth1 by lia. rewrite nth_firstn'; [reflexivity|lia].
Qed.
Lemma nth_blk l p i : (i < 64)%nat -> nth i (blk_at l p) 0 = nth (Z.to_nat p + i) l 0.
Proof. intros H. unfold blk_at. rewrite nth_firstn' by lia. now rewrite nth_skipn. Qed.
Lemma blk_len l p : 0 <= p -> p + 64 <= zlen l -> length (blk_at l p) = 64%nat.
Proof. intros. unfold blk_at, zlen in *. rewrite firstn_length, skipn_length. lia. Qed.
Lemma blk_splice_same l p b : 0 <= p -> p + 64 <= zlen l -> length b = 64%nat -> blk_at (splice l p b) p = b.
Proof.
  intros H1 H2 H3. assert (Hs : length (splice l p b) = length l) by (apply splice_len; unfold zlen in *; lia).
  assert (Hl : length (blk_at (splice l p b) p) = 64%nat) by (apply blk_len; unfold zlen in *; lia).
  apply (nth_ext _ _ 0 0); [lia|]. intros i Hi. rewrite Hl in Hi. rewrite nth_blk by lia.
  rewrite nth_splice by (unfold zlen in *; lia). replace (_ && _) with true by lia. f_equal. lia.
Qed.
Lemma blk_splice_other l p p' b : 0 <= p -> p + 64 <= zlen l -> 0 <= p' -> p' + 64 <= zlen l -> length b = 64%nat ->
  p' + 64 <= p \/ p + 64 <= p' -> blk_at (splice l p b) p' = blk_at l p'.
Proof.
  intros H1 H2 H3 H4 H5 H6. assert (Hs : length (splice l p b) = length l) by (apply splice_len; unfold zlen in *; lia).
  assert (Hl : length (blk_at (splice l p b) p') = 64%nat) by (apply blk_len; unfold zlen in *; lia).
  assert (Hl' : length (blk_at l p') = 64%nat) by (apply blk_len; unfold zlen in *; lia).
  apply (nth_ext _ _ 0 0); [lia|]. intros i Hi. rewrite Hl in Hi. rewrite !nth_blk by lia.
  rewrite nth_splice by (unfold zlen in *; lia). replace (_ && _) with false by lia. reflexivity.
Qed.
Lemma blk_zeros n p : 0 <= p -> p + 64 <= n -> blk_at (zrepeat 0 n) p = zrepeat 0 64.
Proof.
  intros H1 H2. assert (Hz : zlen (zrepeat 0 n) = n) by (unfold zlen, zrepeat; rewrite repeat_length; lia).
  assert (Hl : length (blk_at (zrepeat 0 n) p) = 64%nat) by (apply blk_len; lia).
  apply (nth_ext _ _ 0 0); [exact Hl|]. intros i Hi. rewrite Hl in Hi. rewrite nth_blk by lia. unfold zrepeat.
  rewrite !nth_repeat. reflexivity.
Qed.

(** * The scan *)
Section scan.
Variables (g : geom) (gg : geometry) (d0 : decoder) (cs : list component) (B : nat -> Z -> Z -> list Z) (S R : nat -> Z)
  (mrow : Z -> Z -> Z -> Z) (mcol : Z -> Z) (Td Ta : nat -> hufftable) (ft dcc dcs acc acs : nat -> list Z)
  (sfx : list Z) (total pad : list bool).
Definition full : list unit_ := scan_units gg [0; 1; 2]%nat.
Definition codes (k : nat) : code * code := (code_of (dcc k) (dcs k), code_of (acc k) (acs k)).
Definition nc : Z := num_components (o_colorspace (d_opt d0)).
Definition place (i : Z) (k : nat) (x y : Z) : Z := 64 * (x + (y - i * R k) * S k).
Definition in_row (i : Z) (k : nat) (x y : Z) : Prop := 0 <= x < S k /\ i * R k <= y < (i + 1) * R k.
Definition mcu (i v j : Z) : list unit_ := flat_map (mcu_units gg (mrow i v j) (mcol j)) [0; 1; 2]%nat.
Definition row_units (i : Z) : list unit_ := flat_map (fun v => flat_map (mcu i v) (zseq (g_mcuw g))) (zseq (g_bias g)).

Hypothesis Hcs : length cs = 3%nat.
Hypothesis Hcomp : forall k, (k < 3)%nat -> exists c, zget cs (Z.of_nat k) = Some c /\ factor gg k = (c_h c, c_v c) /\ 1 <= c_h c /\ 1 <= c_v c /\
  table_at (d_dcts d0) (Z.land (c_dct c) 3) = Some (Td k) /\ table_at (d_acts d0) (Z.land (c_act c) 3) = Some (Ta k) /\
  g_ccap g * c_v c * c_h c * g_bias g = 64 * (S k * R k) /\ 0 < S k /\ 0 < R k /\
  forall i v j vs hs p, 0 <= i < g_mcuh g -> 0 <= v < g_bias g -> 0 <= j < g_mcuw g -> 0 <= vs < c_v c -> 0 <= hs < c_h c ->
    block_start g (set_c_pred p c) v j vs hs = place i k (mcol j * c_h c + hs) (mrow i v j * c_v c + vs) /\
    in_row i k (mcol j * c_h c + hs) (mrow i v j * c_v c + vs).
Hypothesis Htab : forall k, (k < 3)%nat -> dc_table (Td k) (dcc k) (dcs k) /\ ac_table (Ta k) (ft k) (acc k) (acs k) false /\ fast_safe (acc k) (acs k).
Hypothesis Hin : d_incs d0 = YCbCr.
Hypothesis Hnc : 1 <= nc.
Hypothesis Hmcuh : 0 < g_mcuh g.
Hypothesis Hrows : full = flat_map row_units (zseq (g_mcuh g)).
Hypothesis Hcover : forall i k x y, 0 <= i < g_mcuh g -> (k < 3)%nat -> in_row i k x y -> In (k, (x, y)) (row_units i).
Hypothesis Hnodup : NoDup full.
Hypothesis Htotal : encode_units codes (fun _ => 0) (scan_blocks B full) = Some total.
Hypothesis Hblocks : units_pred (fun k p zz => baseline_block p zz /\ dc_fits (dcc k) (dcs k) p zz) (fun _ => 0) (scan_blocks B full).

Definition zero : nat -> Z := fun _ => 0.
(** What does not concern the planes *)
Record core (rem : list unit_) (s : mst) : Prop := mkCore {
  co_rest : exists done comps m bits,
    full = (done ++ rem)%list /\ m_dec s = set_d_comps comps (set_d_todo m d0) /\
    map (set_c_pred 0) comps = map (set_c_pred 0) cs /\
    (forall k c, zget comps (Z.of_nat k) = Some c -> c_pred c = after zero (scan_blocks B done) k) /\
    Z.of_nat (length rem) < m < 2 ^ 64 /\
    encode_units codes (after zero (scan_blocks B done)) (scan_blocks B rem) = Some bits /\
    feed 0 (m_st s) (bits ++ pad) (AtMarker 217 sfx) }.
(** The planes of row [i]; the blocks [rem] have not been decoded *)
Definition plane_ok (i : Z) (rem : list unit_) (k : nat) (plane : list Z) : Prop :=
  zlen plane = 64 * (S k * R k) /\
  forall x y, in_row i k x y ->
    (In (k, (x, y)) rem -> blk_at plane (place i k x y) = zrepeat 0 64) /\
    (~ In (k, (x, y)) rem -> blk_at plane (place i k x y) = natural (B k x y)).
Definition row_ok (i : Z) (rem : list unit_) (tmp : list (list Z)) : Prop :=
  length tmp = 3%nat /\ forall k, (k < 3)%nat -> exists plane, zget tmp (Z.of_nat k) = Some plane /\
    (Z.of_nat k < nc -> plane_ok i rem k plane).

Lemma place_range i k x y : 0 < S k -> 0 < R k -> in_row i k x y -> 0 <= place i k x y /\ place i k x y + 64 <= 64 * (S k * R k).
Proof.
  intros HS HR [H1 H2]. unfold place.
  assert (0 <= (y - i * R k) * S k) by (apply Z.mul_nonneg_nonneg; lia).
  assert ((y - i * R k) * S k <= (R k - 1) * S k) by (apply Z.mul_le_mono_nonneg_r; lia). lia.
Qed.
Lemma place_apart i k x y x' y' : 0 < S k -> in_row i k x y -> in_row i k x' y' -> (x, y) <> (x', y') ->
  place i k x' y' + 64 <= place i k x y \/ place i k x y + 64 <= place i k x' y'.
Proof.
  intros HS [H1 H2] [H3 H4] Hne. unfold place.
  destruct (Z.lt_trichotomy y y') as [L|[L|L]].
  - right. assert ((y - i * R k + 1) * S k <= (y' - i * R k) * S k) by (apply Z.mul_le_mono_nonneg_r; lia). lia.
  - subst y'. assert (x <> x') by congruence. lia.
  - left. assert ((y' - i * R k + 1) * S k <= (y - i * R k) * S k) by (apply Z.mul_le_mono_nonneg_r; lia). lia.
Qed.

Lemma comp_now comps k c0 : map (set_c_pred 0) comps = map (set_c_pred 0) cs -> zget cs (Z.of_nat k) = Some c0 ->
  exists cc, zget comps (Z.of_nat k) = Some cc /\ cc = set_c_pred (c_pred cc) c0.
Proof.
  intros Hcm Hc0. apply (f_equal (fun l => zget l (Z.of_nat k))) in Hcm. rewrite !zget_map, Hc0 in Hcm.
  destruct (zget comps (Z.of_nat k)) as [cc|]; [|discriminate]. exists cc. split; [reflexivity|].
  cbn [option_map] in Hcm. assert (set_c_pred 0 cc = set_c_pred 0 c0) as E by exact (f_equal (fun o => match o with Some x => x | None => cc end) Hcm).
  transitivity (set_c_pred (c_pred cc) (set_c_pred 0 cc)); [destruct cc; reflexivity|]. rewrite E. destruct c0; reflexivity.
Qed.

Lemma unit_step i v j vs hs k rem s c : (k < 3)%nat -> zget cs (Z.of_nat k) = Some c ->
  0 <= i < g_mcuh g -> 0 <= v < g_bias g -> 0 <= j < g_mcuw g -> 0 <= vs < c_v c -> 0 <= hs < c_h c ->
  core ((k, (mcol j * c_h c + hs, mrow i v j * c_v c + vs)) :: rem) s ->
  row_ok i ((k, (mcol j * c_h c + hs, mrow i v j * c_v c + vs)) :: rem) (m_tmp s) ->
  forall p, exists s', decode_block g (set_c_pred p c) (Td k) (Ta k) (Z.of_nat k) v j vs hs s = (Ok tt, s') /\
    core rem s' /\ row_ok i rem (m_tmp s') /\ m_jobs s' = m_jobs s.
Proof.
  intros Hk Hc Hi Hv Hj Hvs Hhs HC HR p.
  destruct (Hcomp k Hk) as (c' & Hc' & Hfac & Hh1 & Hv1 & _ & _ & Hcap & HS & HRk & Hpos). rewrite Hc in Hc'. injection Hc' as <-.
  destruct (Hpos i v j vs hs p Hi Hv Hj Hvs Hhs) as [Hbs Hir].
  set (x := mcol j * c_h c + hs) in *. set (y := mrow i v j * c_v c + vs) in *. set (u := (k, (x, y))) in *.
  destruct HC as [(done & comps & m & bits & Hfull & Hdec & Hcm & Hpred & Hm & Henc & Hf)].
  destruct (comp_now _ _ _ Hcm Hc) as (cc & Hcc & Ecc).
  assert (Hnin : ~ In u rem).
  { pose proof Hnodup as Hn. rewrite Hfull in Hn. apply NoDup_remove_2 in Hn. intros H. apply Hn. apply in_or_app. now right. }
  pose proof Hblocks as Hb. rewrite Hfull, scan_blocks_app in Hb. apply units_pred_app in Hb. destruct Hb as [_ Hb].
  set (zz := B k x y) in *. set (pr := after (fun _ => 0) (scan_blocks B done)) in *. change (after zero (scan_blocks B done)) with pr in *.
  cbn [scan_blocks map fst snd u units_pred] in Hb. destruct Hb as [[[Hlen Hzz] Hfit] Hb]. fold zz in Hlen, Hzz, Hfit, Hb.
  cbn [scan_blocks map fst snd u encode_units] in Henc. fold zz in Henc. apply cat_opt_some in Henc.
  destruct Henc as (b1 & b2 & E1 & E2 & ->). rewrite <- app_assoc in Hf.
  destruct (Htab k Hk) as (Hdt & Hat & Hsafe).
  destruct (decode_block_ok (Td k) (Ta k) (ft k) (dcc k) (dcs k) (acc k) (acs k) (pr k) zz b1 0 (m_st s) (b2 ++ pad) (AtMarker 217 sfx) Hdt Hat Hsafe Hlen)
    as (st' & Ed & Hf' & _); [|exact E1|exact Hf|].
  { clearbody zz. destruct zz as [|z0 r]; [tauto|]. destruct Hzz as (H1 & H2 & H3). split; [exact H1|]. split; [lia|].
    split; [|exact Hfit]. eapply Forall_impl; [|exact H3]. cbv beta. lia. }
  assert (Hpk : c_pred cc = pr k) by now apply Hpred.
  set (comps' := zset comps (Z.of_nat k) (set_c_pred (hd 0 zz) cc)).
  assert (HC' : forall tmp jobs, core rem (mkMst (set_d_comps comps' (set_d_todo m d0)) st' tmp jobs)).
  { intros tmp jobs. constructor. exists (done ++ [u])%list, comps', m, b2. split; [now rewrite <- app_assoc|]. split; [reflexivity|].
    split; [|split; [|split; [|split]]].
    - unfold comps'. rewrite (preds_zset _ _ _ _ Hcc). exact Hcm.
    - intros k' c' Hc'. rewrite scan_blocks_app. unfold after. rewrite fold_left_app. fold (after zero (scan_blocks B done)).
      change (after zero (scan_blocks B done)) with pr. cbn [scan_blocks map fold_left fst snd u]. fold zz. unfold next_pred.
      unfold comps' in Hc'. rewrite BaseFacts.zget_zset in Hc' by lia. apply zget_some in Hcc as Hcr.
      destruct (k' =? k)%nat eqn:Ek.
      + replace ((Z.of_nat k' =? Z.of_nat k) && _) with true in Hc' by lia. injection Hc' as <-. reflexivity.
      + replace ((Z.of_nat k' =? Z.of_nat k) && _) with false in Hc' by lia. now apply Hpred.
    - cbn [length] in Hm. lia.
    - rewrite scan_blocks_app. unfold after. rewrite fold_left_app. exact E2.
    - exact Hf'. }
  destruct HR as [Htl HR].
  unfold decode_block. rewrite Hdec. cbn [d_comps set_d_comps]. rewrite Hcc.
  change (d_opt (set_d_comps comps (set_d_todo m d0))) with (d_opt d0). fold nc. rewrite Hpk.
  fold comps'. rewrite Hbs. destruct (HR k Hk) as (plane & Hp & Hpl). rewrite Hp.
  destruct (Z.leb_spec (Z.of_nat k) (nc - 1)) as [Hst|Hst].
  - destruct (Hpl ltac:(lia)) as [Hlp Hblk]. destruct (place_range i k x y HS HRk Hir) as [P1 P2].
    rewrite slice_blk by lia. destruct (Hblk x y Hir) as [Hz _]. rewrite Hz by (left; reflexivity). rewrite Ed.
    eexists. split; [reflexivity|]. split; [apply HC'|]. split; [|reflexivity]. cbn [m_tmp]. split; [now rewrite zset_length|].
    intros k' Hk'. rewrite BaseFacts.zget_zset by lia. apply zget_some in Hp as Hpr. destruct (Nat.eq_dec k' k) as [->|Ek].
    + replace ((Z.of_nat k =? Z.of_nat k) && _) with true by lia. eexists. split; [reflexivity|]. intros _. split.
      * unfold zlen. rewrite splice_len; [exact Hlp|lia|]. unfold zlen at 1. rewrite GrayFile.natural_length. lia.
      * intros x' y' Hir'. destruct (place_range i k x' y' HS HRk Hir') as [P3 P4].
        assert ((x', y') = (x, y) \/ (x', y') <> (x, y)) as [Exy|Exy].
        { destruct (Z.eq_dec x' x) as [->|]; [destruct (Z.eq_dec y' y) as [->|]|]; [now left|right; congruence|right; congruence]. }
        -- injection Exy as -> ->. split; [contradiction|]. intros _. apply blk_splice_same; [lia|lia|apply GrayFile.natural_length].
        -- rewrite blk_splice_other; try lia; [|apply GrayFile.natural_length|apply place_apart; auto].
           destruct (Hblk x' y' Hir') as [G1 G2]. split; intros H; [apply G1; now right|apply G2]. intros [E|E]; [|contradiction].
           apply Exy. unfold u in E. congruence.
    + replace ((Z.of_nat k' =? Z.of_nat k) && _) with false by lia. destruct (HR k' Hk') as (plane' & Hp' & Hpl'). exists plane'. split; [exact Hp'|].
      intros Hst'. destruct (Hpl' Hst') as [L1 L2]. split; [exact L1|]. intros x' y' Hir'. destruct (L2 x' y' Hir') as [G1 G2].
      split; intros H; [apply G1; now right|apply G2]. intros [E|E]; [|contradiction]. unfold u in E. congruence.
  - rewrite Ed. eexists. split; [reflexivity|]. split; [apply HC'|]. split; [|reflexivity]. cbn [m_tmp]. split; [exact Htl|].
    intros k' Hk'. destruct (HR k' Hk') as (plane' & Hp' & Hpl'). exists plane'. split; [exact Hp'|].
    intros Hst'. destruct (Hpl' Hst') as [L1 L2]. split; [exact L1|]. intros x' y' Hir'. destruct (L2 x' y' Hir') as [G1 G2].
    split; intros H; [apply G1; now right|apply G2]. intros [E|E]; [|contradiction]. unfold u in E.
    assert (k = k') by congruence. lia.
Qed.

Definition inv (i : Z) (jobs : list (list (list Z))) (rem : list unit_) (s : mst) : Prop :=
  core rem s /\ row_ok i rem (m_tmp s) /\ m_jobs s = jobs.

Lemma comp_units r c k ch cv : factor gg k = (ch, cv) -> mcu_units gg r c k =
  flat_map (fun v => flat_map (fun u => [(k, (c * ch + u, r * cv + v))]) (from 0 (Z.to_nat ch))) (from 0 (Z.to_nat cv)).
Proof.
  intros Hf. unfold mcu_units. rewrite Hf. cbn [fst snd]. rewrite !from_zseq. apply flat_map_ext. intros v.
  clear. induction (zseq ch) as [|a l IH]; [reflexivity|]. cbn [map flat_map app]. now rewrite IH.
Qed.
Lemma comp_units_len r c k ch cv : factor gg k = (ch, cv) -> length (mcu_units gg r c k) = (Z.to_nat cv * Z.to_nat ch)%nat.
Proof.
  intros Hf. unfold mcu_units. rewrite Hf. cbn [fst snd].
  assert (forall l, length (flat_map (fun v => map (fun u => (k, (c * ch + u, r * cv + v))) (zseq ch)) l) = (length l * Z.to_nat ch)%nat) as ->.
  { intros l. induction l as [|a l IH]; [reflexivity|]. cbn [flat_map length]. rewrite app_length, IH. unfold zseq. rewrite !map_length, seq_length. lia. }
  unfold zseq. now rewrite map_length, seq_length.
Qed.

Lemma component_step i jobs v j k rem s : (k < 3)%nat -> 0 <= i < g_mcuh g -> 0 <= v < g_bias g -> 0 <= j < g_mcuw g ->
  inv i jobs (mcu_units gg (mrow i v j) (mcol j) k ++ rem) s ->
  exists s' b, mcu_component g v j (Z.of_nat k) s = (Ok b, s') /\ inv i jobs rem s' /\ (b = false -> b_marker (m_st s') <> None).
Proof.
  intros Hk Hi Hv Hj HI.
  destruct (Hcomp k Hk) as (c & Hc & Hfac & Hh1 & Hv1 & Hdc & Hac & _).
  pose proof (comp_units (mrow i v j) (mcol j) k _ _ Hfac) as Eu. pose proof (comp_units_len (mrow i v j) (mcol j) k _ _ Hfac) as Lu.
  destruct (HI) as ([(done & comps & m & bits & Hfull & Hdec & Hcm & Hpred & Hm & _)] & _ & _).
  destruct (comp_now _ _ _ Hcm Hc) as (cc & Hcc & Ecc).
  destruct (mfor_rem (inv i jobs) (fun vs => flat_map (fun hs => [(k, (mcol j * c_h c + hs, mrow i v j * c_v c + vs))]) (from 0 (Z.to_nat (c_h c))))
    (fun vs => mfor (Z.to_nat (c_h c)) 0 (fun hs => decode_block g cc (Td k) (Ta k) (Z.of_nat k) v j vs hs)) (Z.to_nat (c_v c)) 0)
    with (rem := rem) (s := s) as (s1 & E1 & H1).
  { intros vs rem' s' Hvs HI'.
    refine (mfor_rem (inv i jobs) (fun hs => [(k, (mcol j * c_h c + hs, mrow i v j * c_v c + vs))]) _ (Z.to_nat (c_h c)) 0 _ rem' s' HI').
    intros hs rem2 s2 Hhs (A1 & A2 & A3). rewrite Ecc.
    destruct (unit_step i v j vs hs k rem2 s2 c Hk Hc Hi Hv Hj ltac:(lia) ltac:(lia) A1 A2 (c_pred cc)) as (s3 & E3 & G1 & G2 & G3).
    exists s3. split; [exact E3|]. split; [exact G1|]. split; [exact G2|congruence]. }
  { rewrite Eu in HI. exact HI. }
  destruct H1 as ([(done1 & comps1 & m1 & bits1 & Hfull1 & Hdec1 & Hcm1 & Hpred1 & Hm1 & He1 & Hf1)] & HR1 & HJ1).
  assert (Hm1' : Z.of_nat (length rem) + 1 < m1).
  { (* the counter is untouched by the blocks *)
    rewrite app_length, Lu in Hm.
    assert (forall n i0 f s s', (forall z s s', f z s = (Ok tt, s') -> d_todo (m_dec s') = d_todo (m_dec s)) ->
      mfor (S := mst) n i0 f s = (Ok tt, s') -> d_todo (m_dec s') = d_todo (m_dec s)) as Hmf.
    { clear. induction n as [|n IH]; intros i0 f s s' Hs E.
      - injection E as <-. reflexivity.
      - cbn [mfor] in E. unfold bind in E. destruct (f i0 s) as [[[]| | |] s1] eqn:Ef; try discriminate.
        rewrite (IH _ _ _ _ Hs E). eapply Hs; eauto. }
    assert (d_todo (m_dec s1) = d_todo (m_dec s)) as Et.
    { eapply Hmf; [|exact E1]. intros z sa sb Ez. eapply Hmf; [|exact Ez]. clear. intros hs sa sb E. unfold decode_block in E.
      destruct (Z.of_nat k <=? _).
      - destruct (zget (m_tmp sa) _); [|discriminate]. destruct (slice _ _ _); [|discriminate].
        destruct (decode_mcu_block _ _ _ _ _) as [[[] ?] ?]; try discriminate. injection E as <-. reflexivity.
      - destruct (decode_mcu_block _ _ _ _ _) as [[[] ?] ?]; try discriminate. injection E as <-. reflexivity. }
    rewrite Hdec1, Hdec in Et. cbn [d_todo set_d_comps set_d_todo] in Et.
    assert (1 <= Z.to_nat (c_v c) * Z.to_nat (c_h c))%nat by (apply (Nat.mul_le_mono 1 _ 1); lia). lia. }
  assert (E : mcu_component g v j (Z.of_nat k) s =
    (Ok (match b_marker (m_st s1) with Some EOI => false | _ => true end), mkMst (set_d_comps comps1 (set_d_todo (m1 - 1) d0)) (m_st s1) (m_tmp s1) (m_jobs s1))).
  { unfold mcu_component, bind, getm, lift, gets. rewrite Hdec. cbn [d_comps set_d_comps]. unfold at_. rewrite Hcc. cbv iota beta.
    change (d_dcts (set_d_comps comps (set_d_todo m d0))) with (d_dcts d0). change (d_acts (set_d_comps comps (set_d_todo m d0))) with (d_acts d0).
    assert (c_dct cc = c_dct c) as -> by (rewrite Ecc; reflexivity). assert (c_act cc = c_act c) as -> by (rewrite Ecc; reflexivity).
    rewrite Hdc, Hac. unfold decode_component.
    assert (c_v cc = c_v c) as -> by (rewrite Ecc; reflexivity). assert (c_h cc = c_h c) as -> by (rewrite Ecc; reflexivity).
    rewrite E1. unfold count_restart. rewrite Hdec1. rewrite tick_quiet by (cbn [d_todo set_d_comps set_d_todo]; lia).
    cbn [d_todo set_d_comps set_d_todo m_st].
    destruct (marker_eoi _ _ _ _ Hf1) as [-> | ->]; reflexivity. }
  eexists _, _. split; [exact E|]. split.
  - split; [|split; [exact HR1|exact HJ1]]. constructor. exists done1, comps1, (m1 - 1), bits1. cbn [m_dec m_st].
    split; [exact Hfull1|]. split; [reflexivity|]. split; [exact Hcm1|]. split; [exact Hpred1|]. split; [lia|]. split; [exact He1|exact Hf1].
  - cbn [m_st]. destruct (b_marker (m_st s1)); [discriminate|discriminate].
Qed.

(** An MCU; if the end of the image has been seen the chroma blocks may be skipped *)
Lemma mcu_step i jobs v j rem s : 0 <= i < g_mcuh g -> 0 <= v < g_bias g -> 0 <= j < g_mcuw g ->
  inv i jobs (mcu i v j ++ rem) s ->
  exists s' lost, decode_mcu g v j s = (Ok tt, s') /\ inv i jobs (lost ++ rem) s' /\
    (lost = [] \/ b_marker (m_st s') <> None /\
      (lost = mcu_units gg (mrow i v j) (mcol j) 2 \/ lost = (mcu_units gg (mrow i v j) (mcol j) 1 ++ mcu_units gg (mrow i v j) (mcol j) 2)%list)).
Proof.
  intros Hi Hv Hj HI. unfold mcu in HI. cbn [flat_map] in HI. rewrite app_nil_r, <- !app_assoc in HI.
  unfold decode_mcu, bind at 1, getm.
  assert (d_incs (m_dec s) = YCbCr) as ->.
  { destruct HI as ([(done & comps & m & bits & _ & -> & _)] & _). exact Hin. }
  change (Z.to_nat (num_components YCbCr)) with 3%nat. cbn [mfor_break].
  destruct (component_step i jobs v j 0 _ s ltac:(lia) Hi Hv Hj HI) as (s1 & b1 & E1 & H1 & M1).
  change (Z.of_nat 0) with 0 in E1. unfold bind. rewrite E1. destruct b1.
  2:{ exists s1, (mcu_units gg (mrow i v j) (mcol j) 1 ++ mcu_units gg (mrow i v j) (mcol j) 2)%list. split; [reflexivity|].
      rewrite <- app_assoc. split; [exact H1|]. right. split; [now apply M1|now right]. }
  destruct (component_step i jobs v j 1 _ s1 ltac:(lia) Hi Hv Hj H1) as (s2 & b2 & E2 & H2 & M2).
  change (Z.of_nat 1) with 1 in E2. change (0 + 1) with 1. rewrite E2. destruct b2.
  2:{ exists s2, (mcu_units gg (mrow i v j) (mcol j) 2). split; [reflexivity|]. split; [exact H2|]. right. split; [now apply M2|now left]. }
  destruct (component_step i jobs v j 2 _ s2 ltac:(lia) Hi Hv Hj H2) as (s3 & b3 & E3 & H3 & _).
  change (Z.of_nat 2) with 2 in E3. change (1 + 1) with 2. rewrite E3. exists s3, [].
  split; [destruct b3; reflexivity|]. split; [exact H3|now left].
Qed.

(** ** The rows *)
Definition nm : nat := length (mcu 0 0 0).
Hypothesis Hlast : 64 < last_bits codes (scan_blocks B full) (Datatypes.S nm).

Lemma mcu_len i v j : length (mcu i v j) = nm.
Proof.
  unfold nm, mcu. cbn [flat_map]. rewrite !app_length.
  destruct (Hcomp 0 ltac:(lia)) as (c0 & _ & F0 & _). destruct (Hcomp 1 ltac:(lia)) as (c1 & _ & F1 & _). destruct (Hcomp 2 ltac:(lia)) as (c2 & _ & F2 & _).
  now rewrite !(comp_units_len _ _ _ _ _ F0), !(comp_units_len _ _ _ _ _ F1), !(comp_units_len _ _ _ _ _ F2).
Qed.
Lemma mcu_two r c : (1 <= length (mcu_units gg r c 2))%nat.
Proof.
  destruct (Hcomp 2 ltac:(lia)) as (c2 & _ & F2 & A & A' & _). rewrite (comp_units_len _ _ _ _ _ F2). apply (Nat.mul_le_mono 1 _ 1); lia.
Qed.

(** The blocks of the last MCU that have been skipped *)
Definition lost_ok (lost : list unit_) : Prop :=
  lost = [] \/ exists done r c, full = (done ++ mcu_units gg r c 0 ++ mcu_units gg r c 1 ++ mcu_units gg r c 2)%list /\
    last_bits codes (scan_blocks B full) (length lost) <= 64 /\
    (lost = mcu_units gg r c 2 \/ lost = (mcu_units gg r c 1 ++ mcu_units gg r c 2)%list).
(** Before an MCU: nothing skipped unless all MCUs are done *)
Definition outer (i : Z) (jobs : list (list (list Z))) (rem : list unit_) (s : mst) : Prop :=
  exists lost, inv i jobs (lost ++ rem) s /\ (rem <> [] -> lost = []) /\ (lost_ok lost /\ forall u, In u lost -> In u (row_units i)) /\
    exists q, length rem = (q * nm)%nat.

Lemma core_bits rem s : core rem s -> b_marker (m_st s) <> None -> last_bits codes (scan_blocks B full) (length rem) <= 64.
Proof.
  intros [(done & comps & m & bits & Hfull & _ & _ & _ & _ & He & Hf)] Hmk.
  destruct (rest_bits codes B full total Htotal done rem Hfull) as (b & Eb & Lb). unfold zero in He. rewrite He in Eb. injection Eb as <-.
  pose proof (marker_short _ _ _ _ _ Hf Hmk) as Hs. rewrite app_length in Hs. lia.
Qed.
Lemma outer_step i jobs v j rem s : 0 <= i < g_mcuh g -> 0 <= v < g_bias g -> 0 <= j < g_mcuw g ->
  outer i jobs (mcu i v j ++ rem) s -> exists s', decode_mcu g v j s = (Ok tt, s') /\ outer i jobs rem s'.
Proof.
  intros Hi Hv Hj (lost & HI & Hl & _ & q & Hq).
  assert (Hne : mcu i v j <> []).
  { unfold mcu. cbn [flat_map]. pose proof (mcu_two (mrow i v j) (mcol j)) as H2. destruct (mcu_units gg (mrow i v j) (mcol j) 2); [cbn in H2; lia|].
    intros E. apply (f_equal (@length unit_)) in E. rewrite !app_length in E. cbn [length] in E. lia. }
  rewrite Hl in HI by (intros E; apply app_eq_nil in E; tauto). cbn [app] in HI.
  destruct (mcu_step i jobs v j rem s Hi Hv Hj HI) as (s' & lost' & E & HI' & HL). exists s'. split; [exact E|].
  rewrite app_length, mcu_len in Hq.
  assert (exists q', length rem = (q' * nm)%nat) as (q' & Hq').
  { destruct q as [|q]; [|exists q; lia]. exists 0%nat. lia. }
  exists lost'. split; [exact HI'|]. split; [|split; [split|eauto]].
  - intros Hr. destruct HL as [->|(Hmk & HL)]; [reflexivity|]. exfalso.
    pose proof (core_bits _ _ (proj1 HI') Hmk) as Hs.
    assert (1 <= q')%nat by (destruct q'; [destruct rem; [congruence|discriminate Hq']|lia]).
    assert (Datatypes.S nm <= length (lost' ++ rem))%nat.
    { rewrite app_length, Hq'. assert (nm <= q' * nm)%nat by (rewrite <- (Nat.mul_1_l nm) at 1; apply Nat.mul_le_mono_r; assumption).
      assert (1 <= length lost')%nat; [|lia].
      pose proof (mcu_two (mrow i v j) (mcol j)). destruct HL as [-> | ->]; rewrite ?app_length; lia. }
    pose proof (last_bits_le codes B full total Htotal _ _ H0). lia.
  - destruct HL as [->|(Hmk & HL)]; [now left|]. destruct rem as [|u rem'].
    + right. destruct HI as ([(done & _ & _ & _ & Hfull & _)] & _). exists done, (mrow i v j), (mcol j). split.
      * rewrite Hfull, app_nil_r. unfold mcu. cbn [flat_map]. now rewrite app_nil_r.
      * split; [|exact HL]. pose proof (core_bits _ _ (proj1 HI') Hmk) as Hs. now rewrite app_nil_r in Hs.
    + left. pose proof (core_bits _ _ (proj1 HI') Hmk) as Hs.
      assert (1 <= q')%nat by (destruct q'; [discriminate Hq'|lia]).
      assert (Datatypes.S nm <= length (lost' ++ u :: rem'))%nat.
      { rewrite app_length, Hq'. assert (nm <= q' * nm)%nat by (rewrite <- (Nat.mul_1_l nm) at 1; apply Nat.mul_le_mono_r; assumption).
        assert (1 <= length lost')%nat; [|lia].
        pose proof (mcu_two (mrow i v j) (mcol j)). destruct HL as [-> | ->]; rewrite ?app_length; lia. }
      pose proof (last_bits_le codes B full total Htotal _ _ H0). lia.
  - intros u Hu. unfold row_units. apply in_flat_map. exists v. split; [apply zseq_in; lia|]. apply in_flat_map. exists j. split; [apply zseq_in; lia|].
    unfold mcu. cbn [flat_map]. rewrite app_nil_r. destruct HL as [->|(_ & [-> | ->])]; [destruct Hu| |]; apply in_or_app; right; [apply in_or_app; now right|exact Hu].
Qed.

Lemma row_in i k x y : 0 <= i < g_mcuh g -> In (k, (x, y)) (row_units i) -> (k < 3)%nat /\ in_row i k x y.
Proof.
  intros Hi H. unfold row_units in H. apply in_flat_map in H. destruct H as (v & Hv & H). apply in_flat_map in H. destruct H as (j & Hj & H).
  apply zseq_in in Hv, Hj. unfold mcu in H. apply in_flat_map in H. destruct H as (k' & Hk' & H). assert (Hk3 : (k' < 3)%nat) by (cbn in Hk'; lia).
  destruct (Hcomp k' Hk3) as (c & _ & Hfac & _ & _ & _ & _ & _ & _ & _ & Hpos).
  unfold mcu_units in H. rewrite Hfac in H. cbn [fst snd] in H. apply in_flat_map in H. destruct H as (vs & Hvs & H).
  apply in_map_iff in H. destruct H as (hs & [= <- <- <-] & Hhs). apply zseq_in in Hvs, Hhs. split; [exact Hk3|].
  apply (Hpos i v j vs hs 0); lia.
Qed.
Lemma rows_apart i i' u : 0 <= i < g_mcuh g -> 0 <= i' < g_mcuh g -> i <> i' -> In u (row_units i) -> In u (row_units i') -> False.
Proof.
  intros Hi Hi' Hne H H'. destruct u as [k [x y]]. destruct (row_in _ _ _ _ Hi H) as [Hk [_ Y]]. destruct (row_in _ _ _ _ Hi' H') as [_ [_ Y']].
  destruct (Hcomp k Hk) as (c & _ & _ & _ & _ & _ & _ & _ & _ & HR & _).
  destruct (Z.lt_trichotomy i i') as [L|[L|L]]; [|contradiction|].
  - assert ((i + 1) * R k <= i' * R k) by (apply Z.mul_le_mono_nonneg_r; lia). lia.
  - assert ((i' + 1) * R k <= i * R k) by (apply Z.mul_le_mono_nonneg_r; lia). lia.
Qed.

Lemma alloc_rows cs' i : map (set_c_pred 0) cs' = map (set_c_pred 0) cs -> 0 <= i < g_mcuh g ->
  forall rem, (forall u, In u (row_units i) -> In u rem) ->
  exists tmp, alloc_row cs' 0 (o_colorspace (d_opt d0)) (g_ccap g) (g_bias g) [[]; []; []] = Ok tmp /\ row_ok i rem tmp.
Proof.
  intros Hcm Hi rem Hall.
  destruct (Hcomp 0 ltac:(lia)) as (a0 & A0 & _ & _ & _ & _ & _ & C0 & S0 & R0 & _).
  destruct (Hcomp 1 ltac:(lia)) as (a1 & A1 & _ & _ & _ & _ & _ & C1 & S1 & R1 & _).
  destruct (Hcomp 2 ltac:(lia)) as (a2 & A2 & _ & _ & _ & _ & _ & C2 & S2 & R2 & _).
  destruct (comp_now _ _ _ Hcm A0) as (c0 & Z0 & E0). destruct (comp_now _ _ _ Hcm A1) as (c1 & Z1 & E1). destruct (comp_now _ _ _ Hcm A2) as (c2 & Z2 & E2).
  assert (Hl : length cs' = 3%nat) by (rewrite <- Hcs, <- (map_length (set_c_pred 0) cs'), Hcm; apply map_length).
  destruct cs' as [|b0 [|b1 [|b2 [|]]]]; try discriminate Hl. injection Z0 as ->. injection Z1 as ->. injection Z2 as ->.
  assert (V0 : g_ccap g * c_v c0 * c_h c0 * g_bias g = 64 * (S 0%nat * R 0%nat)) by (rewrite E0; exact C0).
  assert (V1 : g_ccap g * c_v c1 * c_h c1 * g_bias g = 64 * (S 1%nat * R 1%nat)) by (rewrite E1; exact C1).
  assert (V2 : g_ccap g * c_v c2 * c_h c2 * g_bias g = 64 * (S 2%nat * R 2%nat)) by (rewrite E2; exact C2).
  assert (Hp : forall k, (k < 3)%nat -> 0 < S k -> 0 < R k -> plane_ok i rem k (zrepeat 0 (64 * (S k * R k)))).
  { intros k Hk HS HR. split.
    - unfold zlen, zrepeat. rewrite repeat_length. assert (0 < S k * R k) by (apply Z.mul_pos_pos; assumption). lia.
    - intros x y Hir. destruct (place_range i k x y HS HR Hir). split; [intros _; apply blk_zeros; lia|].
      intros H1. exfalso. apply H1, Hall, Hcover; auto. }
  cbn [alloc_row]. fold nc. rewrite V0, V1, V2. clear V0 V1 V2.
  change (0 + 1) with 1. change (1 + 1) with 2.
  replace (0 <=? nc - 1) with true by lia.
  set (p0 := zrepeat 0 (64 * (S 0%nat * R 0%nat))) in *. set (p1 := zrepeat 0 (64 * (S 1%nat * R 1%nat))) in *. set (p2 := zrepeat 0 (64 * (S 2%nat * R 2%nat))) in *.
  pose proof (Hp 0%nat ltac:(lia) S0 R0) as Q0. pose proof (Hp 1%nat ltac:(lia) S1 R1) as Q1. pose proof (Hp 2%nat ltac:(lia) S2 R2) as Q2. fold p0 in Q0. fold p1 in Q1. fold p2 in Q2.
  assert (W0 : forall a b c x, zupd [a; b; c] 0 (x : list Z) = Ok [x; b; c]) by reflexivity.
  assert (W1 : forall a b c x, zupd [a; b; c] 1 (x : list Z) = Ok [a; x; c]) by reflexivity.
  assert (W2 : forall a b c x, zupd [a; b; c] 2 (x : list Z) = Ok [a; b; x]) by reflexivity.
  rewrite W0. destruct (Z.leb_spec 1 (nc - 1)) as [N1|N1]; [rewrite W1|]; (destruct (Z.leb_spec 2 (nc - 1)) as [N2|N2]; [rewrite W2|]);
    (eexists; split; [reflexivity|]; split; [reflexivity|]; intros [|[|[|k]]] Hk; try lia; eexists; (split; [reflexivity|]); intros Hkn; first [assumption|exfalso; lia]).
Qed.

(** Before a row *)
Definition start (i : Z) (rem : list unit_) (s : mst) : Prop :=
  exists lost js, core (lost ++ rem) s /\ (rem <> [] -> lost = []) /\ lost_ok lost /\ (exists q, length rem = (q * nm)%nat) /\
    m_jobs s = rev js /\ zlen js = i /\
    forall i', 0 <= i' < i -> row_ok i' lost (nth (Z.to_nat i') js []).
Hypothesis Hjobs : g_mcuh g <= g_total g / g_chunk g.

Lemma row_step i rem s : 0 <= i < g_mcuh g -> (forall u, In u rem -> ~ In u (row_units i)) ->
  start i (row_units i ++ rem) s -> exists s', decode_row g s = (Ok tt, s') /\ start (i + 1) rem s'.
Proof.
  intros Hi Hdis (lost & js & HC & Hl & _ & Hq & Hj & Hjl & Hjs).
  assert (Hne : row_units i <> []).
  { destruct (Hcomp 0 ltac:(lia)) as (a0 & _ & _ & _ & _ & _ & _ & _ & S0 & R0 & _).
    assert (Hx : In (0%nat, (0, i * R 0%nat)) (row_units i)) by (apply Hcover; [lia|lia|split; lia]). intros E. rewrite E in Hx. destruct Hx. }
  rewrite Hl in HC by (intros E; apply app_eq_nil in E; tauto). cbn [app] in HC.
  rewrite Hl in Hjs by (intros E; apply app_eq_nil in E; tauto). clear Hl.
  destruct HC as [(done & comps & m & bits & Hfull & Hdec & Hcm & HCr)].
  destruct (alloc_rows comps i Hcm Hi (row_units i ++ rem)) as (tmp & Ea & Hrow); [intros u Hu; apply in_or_app; now left|].
  unfold decode_row, bind at 1, getm. rewrite Hdec. cbn [d_comps set_d_comps].
  change (d_opt (set_d_comps comps (set_d_todo m d0))) with (d_opt d0). rewrite Ea. unfold bind at 1, lift. unfold bind at 1, modify.
  set (s1 := mkMst (m_dec s) (m_st s) tmp (m_jobs s)).
  assert (HO : outer i (rev js) (row_units i ++ rem) s1).
  { exists []. split; [|split; [reflexivity|split; [split; [now left|intros u []]|exact Hq]]]. split; [|split; [exact Hrow|exact Hj]].
    constructor. exists done, comps, m, bits. split; [exact Hfull|]. split; [exact Hdec|]. split; [exact Hcm|]. exact HCr. }
  destruct (mfor_rem (outer i (rev js)) (fun v => flat_map (mcu i v) (zseq (g_mcuw g)))
    (fun v => mfor (Z.to_nat (g_mcuw g)) 0 (fun j => decode_mcu g v j)) (Z.to_nat (g_bias g)) 0) with (rem := rem) (s := s1) as (s2 & E2 & H2).
  { intros v rem' s' Hv HI'. rewrite <- from_zseq in HI'.
    refine (mfor_rem (outer i (rev js)) (mcu i v) _ _ 0 _ rem' s' HI').
    intros j rem2 s3 Hj3 H3. apply (outer_step i _ v j rem2 s3 Hi); [lia|lia|exact H3]. }
  { rewrite from_zseq. exact HO. }
  unfold bind. rewrite E2.
  destruct H2 as (lost2 & (HC2 & HR2 & HJ2) & Hl2 & [Hlo Hli] & Hq2).
  rewrite HJ2. assert (zlen (rev js) = i) as -> by (unfold zlen in *; rewrite rev_length; exact Hjl).
  replace (g_total g / g_chunk g <=? i) with false by lia. eexists. split; [reflexivity|].
  exists lost2, (js ++ [m_tmp s2])%list. split; [|split; [exact Hl2|split; [exact Hlo|split; [exact Hq2|split; [|split]]]]].
  - destruct HC2 as [HC2]. constructor. exact HC2.
  - cbn [m_jobs]. now rewrite rev_unit.
  - unfold zlen in *. rewrite app_length. cbn [length]. lia.
  - intros i' Hi'. unfold zlen in Hjl. destruct (Z.eq_dec i' i) as [->|Hne'].
    + rewrite app_nth2 by lia. replace (Z.to_nat i - length js)%nat with 0%nat by lia. cbn [nth].
      destruct HR2 as [L HR2]. split; [exact L|]. intros k Hk. destruct (HR2 k Hk) as (plane & Hp & Hpl). exists plane. split; [exact Hp|].
      intros Hn. destruct (Hpl Hn) as [P1 P2]. split; [exact P1|]. intros x y Hir. destruct (P2 x y Hir) as [G1 G2]. split; intros Hu.
      * apply G1. apply in_or_app. now left.
      * apply G2. intros Hx. apply in_app_or in Hx. destruct Hx as [Hx|Hx]; [contradiction|].
        apply (Hdis _ Hx). now apply Hcover.
    + rewrite app_nth1 by lia. destruct (Hjs i' ltac:(lia)) as [L HRi]. split; [exact L|]. intros k Hk. destruct (HRi k Hk) as (plane & Hp & Hpl).
      exists plane. split; [exact Hp|]. intros Hn. destruct (Hpl Hn) as [P1 P2]. split; [exact P1|]. intros x y Hir. destruct (P2 x y Hir) as [G1 G2].
      assert (Hnl : ~ In (k, (x, y)) lost2).
      { intros Hx. apply (rows_apart i' i (k, (x, y))); try lia; [apply Hcover; auto; lia|now apply Hli]. }
      split; intros Hu; [contradiction|]. apply G2. intros [].
Qed.

Lemma rows_loop n : forall i s, i + Z.of_nat n = g_mcuh g -> 0 <= i -> start i (flat_map row_units (from i n)) s ->
  exists s', mfor n i (fun _ => decode_row g) s = (Ok tt, s') /\ start (g_mcuh g) [] s'.
Proof.
  induction n as [|n IH]; intros i s Hn Hi HS.
  - exists s. split; [reflexivity|]. replace (g_mcuh g) with i by lia. exact HS.
  - cbn [from flat_map] in HS. destruct (row_step i (flat_map row_units (from (i + 1) n)) s ltac:(lia)) as (s1 & E1 & H1); [|exact HS|].
    { intros u Hu Hu'. apply in_flat_map in Hu. destruct Hu as (i' & Hi' & Hu).
      assert (forall n a b, In b (from a n) -> a <= b < a + Z.of_nat n) as Hfr.
      { clear. induction n as [|n IH]; intros a b H; [destruct H|]. cbn [from] in H. destruct H as [<-|H]; [lia|]. apply IH in H. lia. }
      apply Hfr in Hi'. apply (rows_apart i i' u); auto; lia. }
    destruct (IH (i + 1) s1 ltac:(lia) ltac:(lia) H1) as (s2 & E2 & H2). exists s2. split; [|exact H2].
    cbn [mfor]. unfold bind. now rewrite E1.
Qed.

(** All rows: the jobs and what has been skipped *)
Lemma scan_rows st : d_comps d0 = cs -> (forall c, In c cs -> c_pred c = 0) -> Z.of_nat (length full) < d_todo d0 < 2 ^ 64 ->
  feed 0 st (total ++ pad) (AtMarker 217 sfx) ->
  exists s lost js comps m, decode_rows g (mkMst d0 st [] []) = (Ok tt, s) /\ m_dec s = set_d_comps comps (set_d_todo m d0) /\
    m_jobs s = rev js /\ zlen js = g_mcuh g /\ lost_ok lost /\
    forall i, 0 <= i < g_mcuh g -> row_ok i lost (nth (Z.to_nat i) js []).
Proof.
  intros Hc Hp Ht Hf.
  destruct (rows_loop (Z.to_nat (g_mcuh g)) 0 (mkMst d0 st [] [])) as (s & E & HS); try lia.
  { rewrite from_zseq, <- Hrows. exists [], []. cbn [app]. split; [|split; [reflexivity|split; [now left|split; [|split; [reflexivity|split; [reflexivity|lia]]]]]].
    - constructor. exists [], cs, (d_todo d0), total. cbn [m_dec m_st]. split; [reflexivity|]. split; [|split; [reflexivity|split; [|split; [exact Ht|split; [exact Htotal|exact Hf]]]]].
      + rewrite <- Hc. clear. destruct d0; reflexivity.
      + intros k c Hk. cbn [scan_blocks map after fold_left]. unfold zero. apply Hp. unfold zget in Hk. destruct (_ <? _); [discriminate|]. eapply nth_error_In; eauto.
    - rewrite Hrows. generalize (zseq (g_mcuh g)). intros l. induction l as [|i l [q Hq]]; [exists 0%nat; reflexivity|]. cbn [flat_map]. rewrite app_length, Hq.
      assert (exists q', length (row_units i) = (q' * nm)%nat) as (q' & ->).
      { unfold row_units. generalize (zseq (g_bias g)). intros l'. induction l' as [|v l' [q1 Hq1]]; [exists 0%nat; reflexivity|]. cbn [flat_map]. rewrite app_length, Hq1.
        assert (exists q2, length (flat_map (mcu i v) (zseq (g_mcuw g))) = (q2 * nm)%nat) as (q2 & ->).
        { generalize (zseq (g_mcuw g)). intros l2. induction l2 as [|j l2 [q3 Hq3]]; [exists 0%nat; reflexivity|]. cbn [flat_map]. rewrite app_length, Hq3, mcu_len. exists (Datatypes.S q3). lia. }
        exists (q2 + q1)%nat. lia. }
      exists (q' + q)%nat. lia. }
  destruct HS as (lost & js & [(done & comps & m & bits & _ & Hdec & _)] & _ & Hlo & _ & Hj & Hjl & Hrow).
  exists s, lost, js, comps, m. unfold decode_rows. split; [exact E|]. split; [exact Hdec|]. split; [exact Hj|]. split; [exact Hjl|]. split; [exact Hlo|exact Hrow].
Qed.
End scan.
