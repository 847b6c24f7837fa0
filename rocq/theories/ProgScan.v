(** Scans of one component: from blocks to planes. *)
From Coq Require Import ZArith String List Bool Lia.
From Coq Require Import ZifyBool ZifyNat ZifyN.
From Verif Require Import Base Types Huffman State Bitstream Headers Mcu McuProg.
From Verif Require Import SpecHuffman SpecSegments SpecExtend SpecBits SpecBlock SpecProg Obs ObsProg.
From Verif Require Import BaseFacts HeaderFacts HuffmanProofs HuffmanPrefix HuffDecode ExtendFacts TableSegments
  BitReader Refill Reader Feed FastAc Block ColorFacts Placement ProgFacts ProgBlocks ProgRefine.
Import ListNotations.
Local Open Scope Z_scope.
Ltac Zify.zify_post_hook ::= Z.div_mod_to_equations.

(** * Planes *)
Definition blk_at (plane : list Z) (p : Z) : list Z := firstn 64 (skipn (Z.to_nat p) plane).
Lemma blk_at_len plane p : 0 <= p -> p + 64 <= zlen plane -> zlen (blk_at plane p) = 64.
Proof. intros. unfold blk_at, zlen in *. rewrite firstn_length, skipn_length. lia. Qed.
Lemma zn_blk_at plane p i : 0 <= p -> 0 <= i < 64 -> zn (blk_at plane p) i = zn plane (p + i).
Proof.
  intros. unfold blk_at, zn. rewrite nth_firstn' by lia. rewrite nth_skipn. f_equal. lia.
Qed.

(** The block [blk] shows [K] of the coefficients [zz] *)
Definition has (K : knowledge) (zz blk : list Z) : Prop :=
  zlen blk = 64 /\ forall k, 0 <= k < 64 -> zn blk (unzig k) = K k (zn zz k).

Section Planes.
  Variables (w h sb : Z) (F : Z -> list Z) (K K' : knowledge).
  Hypothesis Hw : 0 < w.
  Hypothesis Hh : 0 <= h.
  Hypothesis Hsb : w <= sb.

  Definition mid (b0 : Z) (plane : list Z) : Prop :=
    64 * sb * h <= zlen plane /\
    forall b, 0 <= b < w * h ->
      has (if b <? b0 then K' else K) (F b) (blk_at plane (block_at w sb b)).

  Lemma block_at_range b : 0 <= b < w * h -> 0 <= block_at w sb b /\ block_at w sb b + 64 <= 64 * sb * h.
  Proof.
    intros Hb. unfold block_at. pose proof (Z.mod_pos_bound b w Hw).
    assert (0 <= b / w) by (apply Z.div_pos; lia).
    assert (b / w < h) by (apply Z.div_lt_upper_bound; lia).
    assert (0 <= b / w * sb) by nia. assert (b / w * sb + sb <= h * sb) by nia. lia.
  Qed.
  Lemma block_at_inj b b' : 0 <= b -> 0 <= b' -> b <> b' ->
    block_at w sb b + 64 <= block_at w sb b' \/ block_at w sb b' + 64 <= block_at w sb b.
  Proof.
    intros Hb Hb' Hne. unfold block_at.
    pose proof (Z.mod_pos_bound b w Hw). pose proof (Z.mod_pos_bound b' w Hw).
    pose proof (Z.div_mod b w ltac:(lia)) as D. pose proof (Z.div_mod b' w ltac:(lia)) as D'.
    generalize dependent (b / w). generalize dependent (b' / w). intros q' D' q D.
    generalize dependent (b mod w). generalize dependent (b' mod w). intros r' Hr' D' r Hr D.
    destruct (Z.lt_trichotomy q q') as [Hq|[->|Hq]].
    - left. assert (q * sb + sb <= q' * sb) by nia. lia.
    - assert (r <> r') by congruence. lia.
    - right. assert (q' * sb + sb <= q * sb) by nia. lia.
  Qed.

  Lemma mid_step b plane blk : mid b plane -> 0 <= b < w * h -> has K' (F b) blk ->
    mid (b + 1) (splice plane (block_at w sb b) blk) /\
    zlen (splice plane (block_at w sb b) blk) = zlen plane.
  Proof.
    intros [Hl Hm] Hb [Hl' Hk]. destruct (block_at_range b Hb) as [R1 R2].
    assert (zlen (splice plane (block_at w sb b) blk) = zlen plane) as El
      by (apply zlen_splice; lia).
    split; [|exact El]. split; [lia|]. intros b' Hb'. destruct (block_at_range b' Hb') as [R1' R2'].
    destruct (Z.eq_dec b' b) as [->|Hne].
    - replace (b <? b + 1) with true by lia. split; [apply blk_at_len; lia|]. intros k Hkk.
      destruct (unzig_all k k Hkk Hkk) as (U & _). rewrite zn_blk_at by lia. rewrite <- Hk by exact Hkk.
      unfold zn at 1. rewrite nth_splice by lia. replace (_ || _) with false by lia.
      unfold zn. f_equal. lia.
    - replace (b' <? b + 1) with (b' <? b) by lia. destruct (Hm b' Hb') as [G1 G2].
      split; [apply blk_at_len; lia|]. intros k Hkk. destruct (unzig_all k k Hkk Hkk) as (U & _).
      rewrite <- G2 by exact Hkk. rewrite !zn_blk_at by lia.
      unfold zn at 1. rewrite nth_splice by lia.
      destruct (block_at_inj b b' ltac:(lia) ltac:(lia) ltac:(lia)) as [I1|I1];
        replace (_ || _) with true by lia; reflexivity.
  Qed.

  Lemma mid_same b plane : mid b plane -> 0 <= b < w * h ->
    (forall k, 0 <= k < 64 -> K' k (zn (F b) k) = K k (zn (F b) k)) -> mid (b + 1) plane.
  Proof.
    intros [Hl Hm] Hb Hs. split; [exact Hl|]. intros b' Hb'. destruct (Hm b' Hb') as [G1 G2].
    split; [exact G1|]. intros k Hk. rewrite G2 by exact Hk.
    destruct (Z.eq_dec b' b) as [->|].
    - replace (b <? b + 1) with true by lia. replace (b <? b) with false by lia. symmetry. now apply Hs.
    - now replace (b' <? b + 1) with (b' <? b) by lia.
  Qed.

  (** * Scans that visit every block *)
  Section Each.
    Variables (k : Z) (I : Z -> decoder -> bst -> Prop).

    (** What happens at one block *)
    Definition block_body (c : component) (d : decoder) (i j start : Z) (blk : list Z) : M pst (Z * Z) :=
      (if d_ss d =? 0 then
         t <- lift (prog_table (d_dcts d) (Z.land (c_dct c) 3)) ;;
         v <- prog_dc t k (zn blk 0) ;;
         put_block k start (zset blk 0 v) ;;;
         ret (i, j)
       else
         t <- lift (prog_table (d_acts d) (c_act c)) ;;
         if d_ah d =? 0 then
           st <- getps ;;
           if 0 <? b_eob st then
             let p := j + b_eob st - 1 in
             modps (fun st => set_eob st 0) ;;;
             ret (i + p / w, p mod w)
           else
             b <- on_st (decode_mcu_ac_first t blk) ;;
             put_block k start b ;;;
             ret (i, j)
         else
           b <- on_st (decode_mcu_ac_refine t blk) ;;
           put_block k start b ;;;
           ret (i, j))%m.
    Lemma scan_blocks_S f i j s : (h <=? i) = false -> (w <=? j) = false ->
      scan_blocks (S f) k w h i j s =
      (c <- get_comp k ;;
       let start := 64 * (j + i * (c_stride c / 8)) in
       blk <- get_block k start ;;
       d <- getp ;;
       '(i', j') <- block_body c d i j start blk ;;
       count_restart_p ;;;
       scan_blocks f k w h i' (j' + 1))%m s.
    Proof. intros E1 E2. cbn [scan_blocks]. rewrite E1, E2. reflexivity. Qed.

    Hypothesis Hcomp : forall b d st, I b d st ->
      exists c, zget (d_comps d) k = Some c /\ c_stride c / 8 = sb.
    Hypothesis Hstep : forall b i j d st buf plane c blk,
      0 <= b < w * h -> I b d st -> zget (d_comps d) k = Some c -> zget buf k = Some plane ->
      has K (F b) blk ->
      exists blk' d' st',
        block_body c d i j (block_at w sb b) blk (mkPst d st buf)
          = (Ok (i, j), mkPst d' st' (zset buf k (splice plane (block_at w sb b) blk'))) /\
        has K' (F b) blk' /\ 1 < d_todo d' < 2 ^ 64 /\
        I (b + 1) (set_d_todo (d_todo d' - 1) d') st'.

    Lemma scan_blocks_each : forall f i j d st buf plane,
      0 <= i -> 0 <= j <= w -> i * w + j <= w * h -> h * (w + 1) - (i * (w + 1) + j) < Z.of_nat f ->
      I (i * w + j) d st -> zget buf k = Some plane -> mid (i * w + j) plane ->
      exists d' st' plane',
        scan_blocks f k w h i j (mkPst d st buf) = (Ok tt, mkPst d' st' (zset buf k plane')) /\
        zlen plane' = zlen plane /\ mid (w * h) plane' /\ I (w * h) d' st'.
    Proof.
      induction f as [|f IH]; intros i j d st buf plane Hi Hj Hle Hf HI Hp Hm.
      { assert (h <= i) by nia. assert (i * w + j = w * h) as E by nia.
        cbn [scan_blocks]. replace (h <=? i) with true by lia.
        exists d, st, plane. rewrite (zset_same _ _ _ Hp). rewrite E in *. auto. }
      destruct (h <=? i) eqn:Eh.
      { assert (i * w + j = w * h) as E by nia.
        cbn [scan_blocks]. rewrite Eh.
        exists d, st, plane. rewrite (zset_same _ _ _ Hp). rewrite E in *. auto. }
      destruct (w <=? j) eqn:Ej.
      { cbn [scan_blocks]. rewrite Eh, Ej. assert (j = w) as -> by lia.
        replace (i * w + w) with ((i + 1) * w + 0) in * by lia.
        apply IH; auto; lia. }
      rewrite scan_blocks_S by assumption.
      destruct (Hcomp _ _ _ HI) as (c & Hc & Hcs).
      assert (block_at w sb (i * w + j) = 64 * (j + i * sb)) as Hpos.
      { unfold block_at. rewrite (Z.add_comm (i * w) j), Z.div_add, Z.mod_add by lia.
        rewrite Z.div_small, Z.mod_small by lia. lia. }
      assert (0 <= i * w + j < w * h) as Hb by nia.
      destruct (block_at_range _ Hb) as [R1 R2]. destruct Hm as [Hl Hm].
      assert (get_comp k (mkPst d st buf) = (Ok c, mkPst d st buf)) as Egc
        by (unfold get_comp, bind, getp, lift, at_; cbn [p_dec]; now rewrite Hc).
      rewrite (bindok _ _ _ _ _ Egc). cbv zeta. rewrite Hcs, <- Hpos.
      set (start := block_at w sb (i * w + j)) in *.
      assert (get_block k start (mkPst d st buf) = (Ok (blk_at plane start), mkPst d st buf)) as Egb.
      { unfold get_block. cbn [p_buf]. rewrite Hp. unfold slice. replace (_ && _) with true by lia.
        unfold blk_at. repeat f_equal. lia. }
      rewrite (bindok _ _ _ _ _ Egb). rewrite (bindok getp _ (mkPst d st buf) d (mkPst d st buf) eq_refl).
      pose proof (Hm _ Hb) as Hblk. replace (i * w + j <? i * w + j) with false in Hblk by lia.
      destruct (Hstep _ i j d st buf plane c _ Hb HI Hc Hp Hblk) as (blk' & d1 & st1 & E1 & H1 & H2 & H3).
      fold start in E1. rewrite (bindok _ _ _ _ _ E1). cbv beta iota.
      assert (count_restart_p (mkPst d1 st1 (zset buf k (splice plane start blk')))
        = (Ok tt, mkPst (set_d_todo (d_todo d1 - 1) d1) st1 (zset buf k (splice plane start blk')))) as Ecr
        by (unfold count_restart_p; cbn [p_dec p_st p_buf]; now rewrite tick_quiet by lia).
      rewrite (bindok _ _ _ _ _ Ecr).
      destruct (mid_step _ plane blk' (conj Hl Hm) Hb H1) as [Hm' El].
      destruct (IH i (j + 1) (set_d_todo (d_todo d1 - 1) d1) st1 (zset buf k (splice plane start blk'))
        (splice plane start blk')) as (d' & st' & plane' & E & G1 & G2 & G3); try lia.
      - replace (i * w + (j + 1)) with (i * w + j + 1) by lia. exact H3.
      - eapply zget_zset. exact Hp.
      - replace (i * w + (j + 1)) with (i * w + j + 1) by lia. exact Hm'.
      - exists d', st', plane'. rewrite E, zset_twice. split; [reflexivity|]. split; [rewrite G1; exact El|]. auto.
    Qed.
  End Each.

  (** * Scans with runs *)
  Section Runs.
    Variables (dec : list Z -> bst -> res (list Z) * bst) (I : Z -> bst -> Prop).
    Hypothesis Hskip : forall b s, 0 <= b < w * h -> I b s -> 0 < b_eob s ->
      (forall k, 0 <= k < 64 -> K' k (zn (F b) k) = K k (zn (F b) k)) /\ I (b + 1) (set_eob s (b_eob s - 1)).
    Hypothesis Hdec : forall b s blk, 0 <= b < w * h -> I b s -> b_eob s <= 0 -> has K (F b) blk ->
      exists blk' s', dec blk s = (Ok blk', s') /\ has K' (F b) blk' /\ I (b + 1) s'.

    Lemma run_scan_each : forall n b s plane, 0 <= b -> b + Z.of_nat n = w * h -> I b s -> mid b plane ->
      exists s' plane', run_scan dec (block_at w sb) n b s plane = (Ok plane', s') /\
        zlen plane' = zlen plane /\ mid (w * h) plane' /\ I (w * h) s'.
    Proof.
      induction n as [|n IH]; intros b s plane Hb Hn HI Hm.
      - exists s, plane. replace (w * h) with b by lia. cbn [run_scan]. auto.
      - cbn [run_scan]. destruct (0 <? b_eob s) eqn:E.
        + destruct (Hskip b s ltac:(lia) HI ltac:(lia)) as [H1 H2].
          destruct (IH (b + 1) (set_eob s (b_eob s - 1)) plane) as (s' & plane' & E' & G); try lia; auto.
          { apply mid_same; [exact Hm|lia|exact H1]. }
          exists s', plane'. auto.
        + assert (0 <= b < w * h) as Hb' by lia. destruct (proj2 Hm b Hb') as [G1 G2].
          replace (b <? b) with false in G2 by lia.
          destruct (Hdec b s (blk_at plane (block_at w sb b)) Hb' HI ltac:(lia) (conj G1 G2))
            as (blk' & s1 & E1 & H1 & H2).
          unfold blk_at in E1. rewrite E1.
          destruct (mid_step b plane blk' Hm Hb' H1) as [Hm' El].
          assert (splice plane (block_at w sb b) blk' =
            (firstn (Z.to_nat (block_at w sb b)) plane ++ blk' ++ skipn (Z.to_nat (block_at w sb b) + 64) plane)%list) as Es.
          { unfold splice. destruct H1 as [H1 _]. unfold zlen in H1. do 3 f_equal. lia. }
          rewrite <- Es.
          destruct (IH (b + 1) s1 (splice plane (block_at w sb b) blk')) as (s' & plane' & E' & G3 & G4 & G5);
            try lia; auto.
          exists s', plane'. split; [exact E'|]. split; [lia|]. auto.
    Qed.
  End Runs.
End Planes.

(** * The statement's view of a plane *)
Lemma has_zigzag K zz blk i : has K zz blk -> 0 <= i < 64 ->
  zn blk i = K (zigzag (i / 8) (i mod 8)) (zn zz (zigzag (i / 8) (i mod 8))).
Proof.
  intros [_ H] Hi. destruct (unzig_all i i Hi Hi) as (_ & _ & _ & _ & H5 & H6).
  rewrite <- H5 at 1. now apply H.
Qed.
Lemma shows_mid w h sb blocks K K' plane : 0 < w -> 0 <= h -> w <= sb ->
  Z.of_nat (length blocks) = w * h -> 64 * sb * h <= zlen plane ->
  shows w sb blocks K plane -> mid w h sb (fun b => nth (Z.to_nat b) blocks []) K K' 0 plane.
Proof.
  intros Hw Hh Hsb Hn Hl Hs. split; [exact Hl|]. intros b Hb. replace (b <? 0) with false by lia.
  destruct (block_at_range w h sb (fun _ => []) Hw Hsb b Hb) as [R1 R2].
  split; [apply blk_at_len; lia|]. intros k Hk.
  destruct (unzig_all k k Hk Hk) as (H1 & _ & _ & H4 & _).
  rewrite zn_blk_at by lia. specialize (Hs (Z.to_nat b) (unzig k) ltac:(lia) H1). cbv zeta in Hs.
  rewrite H4 in Hs. rewrite Z2Nat.id in Hs by lia. exact Hs.
Qed.
Lemma mid_shows w h sb blocks K K' plane : 0 < w -> 0 <= h -> w <= sb ->
  Z.of_nat (length blocks) = w * h ->
  mid w h sb (fun b => nth (Z.to_nat b) blocks []) K K' (w * h) plane -> shows w sb blocks K' plane.
Proof.
  intros Hw Hh Hsb Hn [Hl Hm] b i Hb Hi. cbv zeta. specialize (Hm (Z.of_nat b) ltac:(lia)).
  replace (Z.of_nat b <? w * h) with true in Hm by lia. rewrite Nat2Z.id in Hm.
  destruct (block_at_range w h sb (fun _ => []) Hw Hsb (Z.of_nat b) ltac:(lia)) as [R1 R2].
  pose proof (has_zigzag _ _ _ i Hm Hi) as H. rewrite zn_blk_at in H by lia. exact H.
Qed.

(** * Values *)
Lemma ac_known_quot al v : ac_known al v = ac_quot al v * 2 ^ al.
Proof. unfold ac_known, ac_quot. ring. Qed.
Lemma half_quot al v : 0 <= al -> half (ac_quot al v) = ac_quot (al + 1) v.
Proof.
  intros Ha. unfold half, ac_quot. rewrite Z.pow_add_r by lia. change (2 ^ 1) with 2.
  assert (0 < 2 ^ al) by (apply pow2_pos; lia). rewrite <- Z.div_div by lia.
  assert (0 <= Z.abs v / 2 ^ al) as Hq by (apply Z.div_pos; lia).
  generalize dependent (Z.abs v / 2 ^ al). intros q Hq.
  destruct (Z.sgn_spec v) as [[_ ->]|[[_ ->]|[_ ->]]].
  - rewrite !Z.mul_1_l. apply Z.quot_div_nonneg; lia.
  - reflexivity.
  - replace (-1 * q) with (- q) by lia. rewrite Z.quot_opp_l by lia.
    rewrite Z.quot_div_nonneg by lia. lia.
Qed.
Lemma ac_known_small al v : 0 <= al -> Z.abs (ac_quot al v * 2 ^ al) <= Z.abs v.
Proof.
  intros Ha. unfold ac_quot. assert (0 < 2 ^ al) by (apply pow2_pos; lia).
  rewrite !Z.abs_mul. rewrite (Z.abs_eq (2 ^ al)) by lia.
  assert (0 <= Z.abs v / 2 ^ al) as Hq by (apply Z.div_pos; lia).
  pose proof (Z.mul_div_le (Z.abs v) (2 ^ al) ltac:(lia)). rewrite (Z.abs_eq (_ / _)) by lia.
  generalize dependent (Z.abs v / 2 ^ al). intros q Hq Hle.
  destruct (Z.sgn_spec v) as [[_ ->]|[[_ ->]|[_ ->]]]; cbn [Z.abs Z.opp]; lia.
Qed.
Lemma dc_known_refine al v : 0 <= al ->
  dc_known al v = dc_known (al + 1) v + (if dc_bit al v then 2 ^ al else 0).
Proof.
  intros Ha. unfold dc_known, dc_bit. rewrite Z.pow_add_r by lia. change (2 ^ 1) with 2.
  assert (0 < 2 ^ al) by (apply pow2_pos; lia). rewrite <- Z.div_div by lia.
  generalize dependent (v / 2 ^ al). intros q. pose proof (Z.div_mod q 2 ltac:(lia)) as E.
  rewrite Zmod_odd in E. set (P := 2 ^ al). set (r := q / 2) in *. clearbody r.
  destruct (Z.odd q); rewrite E at 1; ring.
Qed.
Lemma dc_known_range al v : 0 <= al <= 13 -> -32768 <= v <= 32767 -> -32768 <= dc_known al v <= 32767.
Proof.
  intros Ha Hv. unfold dc_known. pose proof (pow13 al Ha) as Hp.
  pose proof (Z.mul_div_le v (2 ^ al) ltac:(lia)).
  assert (32768 = 2 ^ al * 2 ^ (15 - al)) as E.
  { rewrite <- Z.pow_add_r by lia. replace (al + (15 - al)) with 15 by lia. reflexivity. }
  assert (- 2 ^ (15 - al) <= v / 2 ^ al) by (apply Z.div_le_lower_bound; lia).
  split; [|lia]. nia.
Qed.

(** * Bands *)
Lemma zn_band al ss se zz i : zlen zz = 64 -> 0 <= ss -> se <= 63 -> 0 <= i < se + 1 - ss ->
  zn (band al ss se zz) i = ac_quot al (zn zz (ss + i)).
Proof.
  intros Hz Hs He Hi. unfold band, zn.
  change 0 with (ac_quot al 0) at 1. rewrite map_nth.
  rewrite nth_firstn' by lia. rewrite nth_skipn. do 2 f_equal. lia.
Qed.
Lemma zlen_band al ss se zz : zlen zz = 64 -> 0 <= ss -> ss <= se + 1 -> se <= 63 -> zlen (band al ss se zz) = se + 1 - ss.
Proof. intros. unfold band, zlen in *. rewrite map_length, firstn_length, skipn_length. lia. Qed.
Lemma band_small al ss se zz : 0 <= al -> Forall (fun v => Z.abs v <= 32767) zz ->
  Forall (fun w => Z.abs (w * 2 ^ al) <= 32767) (band al ss se zz).
Proof.
  intros Ha H. unfold band. apply Forall_map. apply Forall_forall. intros v Hv.
  assert (In v zz) as Hin.
  { rewrite <- (firstn_skipn (Z.to_nat ss) zz). apply in_or_app. right.
    rewrite <- (firstn_skipn (Z.to_nat (se + 1 - ss)) (skipn (Z.to_nat ss) zz)). apply in_or_app. now left. }
  rewrite Forall_forall in H. specialize (H v Hin). pose proof (ac_known_small al v Ha). lia.
Qed.

Section Band.
  Variables (al ss se : Z) (zz : list Z) (K : knowledge).
  Hypothesis Hal : 0 <= al.
  Hypothesis Hz : zlen zz = 64.
  Hypothesis Hss : 1 <= ss <= se.
  Hypothesis Hse : se <= 63.
  Let T := fun k => ac_known al (zn zz k).
  Let O := fun k => K k (zn zz k).

  Lemma band_next : next_are T al ss (band al ss se zz).
  Proof.
    intros i Hi. rewrite zlen_band in Hi by lia. rewrite zn_band by lia. unfold T. apply ac_known_quot.
  Qed.
  Lemma band_olds : (forall k v, ss <= k <= se -> K k v = ac_known (al + 1) v) ->
    olds al O ss (band al ss se zz).
  Proof.
    intros HK i Hi. replace (zlen (map half (band al ss se zz))) with (zlen (band al ss se zz)) in Hi
      by (unfold zlen; now rewrite map_length).
    rewrite zlen_band in Hi by lia. unfold O. rewrite HK by lia.
    assert (zn (map half (band al ss se zz)) i = half (zn (band al ss se zz) i)) as ->.
    { unfold zn. change 0 with (half 0) at 1. apply map_nth. }
    rewrite zn_band, half_quot by lia. apply ac_known_quot.
  Qed.
  Lemma has_part blk : has K zz blk -> part blk T O ss ss.
  Proof.
    intros [Hl H]. split; [exact Hl|]. intros k Hk. rewrite H by exact Hk.
    now replace ((ss <=? k) && (k <? ss)) with false by lia.
  Qed.
  Lemma part_has blk : part blk T O ss (se + 1) -> has (learn ss se (ac_known al) K) zz blk.
  Proof.
    intros [Hl H]. split; [exact Hl|]. intros k Hk. rewrite H by exact Hk. unfold learn.
    now replace (k <=? se) with (k <? se + 1) by lia.
  Qed.
  Lemma band_nonempty : band al ss se zz <> [].
  Proof. intros E. pose proof (zlen_band al ss se zz Hz ltac:(lia) ltac:(lia) Hse) as H. rewrite E, zlen_nil in H. lia. Qed.
End Band.

Lemma skipn_cons {A} (d : A) n (l : list A) : (n < length l)%nat -> skipn n l = nth n l d :: skipn (S n) l.
Proof. revert l. induction n as [|n IH]; intros [|a l] H; cbn [length] in H; try lia; [reflexivity|]. apply IH. lia. Qed.

(** The decoder with another counter *)
Lemma todo_todo m m' d : set_d_todo m (set_d_todo m' d) = set_d_todo m d.
Proof. reflexivity. Qed.

(** What the lemmas about one scan have in common *)
Section Scan.
  Variables (k w h sb al ss se : Z) (blocks : list (list Z)) (K : knowledge) (c : component) (d : decoder) (st : bst)
    (buf : list (list Z)) (plane : list Z) (tail : list bool) (x : ending).
  Hypothesis Hw : 0 < w.
  Hypothesis Hh : 0 <= h.
  Hypothesis Hn : Z.of_nat (length blocks) = w * h.
  Hypothesis Hb64 : Forall (fun zz => length zz = 64%nat) blocks.
  Hypothesis Htodo : w * h < d_todo d < 2 ^ 64.
  Hypothesis Hc : zget (d_comps d) k = Some c.
  Hypothesis Hsb : sb = c_stride c / 8.
  Hypothesis Hwsb : w <= sb.
  Hypothesis Hp : zget buf k = Some plane.
  Hypothesis Hl : 64 * sb * h <= zlen plane.
  Hypothesis Hsh : shows w sb blocks K plane.
  Hypothesis Hdss : d_ss d = ss.
  Hypothesis Hbal : b_al st = al.
  Hypothesis Hbss : b_ss st = ss.
  Hypothesis Hbse : b_se st = se.
  Hypothesis Heob : b_eob st = 0.

  Let F := fun b => nth (Z.to_nat b) blocks [].
  Lemma F_len b : 0 <= b < w * h -> zlen (F b) = 64.
  Proof.
    intros Hb. unfold F, zlen. rewrite Forall_forall in Hb64. rewrite Hb64; [reflexivity|]. apply nth_In. lia.
  Qed.
  Lemma F_all (P : Z -> Prop) b : Forall (Forall P) blocks -> 0 <= b < w * h -> Forall P (F b).
  Proof.
    intros H Hb. unfold F. rewrite Forall_forall in H. apply H. apply nth_In. lia.
  Qed.
  Lemma F_next {A} (g : list Z -> A) b : 0 <= b < w * h ->
    skipn (Z.to_nat b) (map g blocks) = g (F b) :: skipn (Z.to_nat (b + 1)) (map g blocks).
  Proof.
    intros Hb. rewrite (skipn_cons (g [])) by (rewrite map_length; lia). rewrite map_nth.
    replace (S (Z.to_nat b)) with (Z.to_nat (b + 1)) by lia. reflexivity.
  Qed.

  (** The result of a scan *)
  Definition scanned (K' : knowledge) (d' : decoder) (st' : bst) (plane' : list Z) : Prop :=
    zlen plane' = zlen plane /\ shows w sb blocks K' plane' /\ feed 0 st' tail x.

  (** With fewer than 16 bits before the marker, decoding a DC coefficient reveals it *)
  Lemma decode_dc_marker t pred n s bs cc rest v s' :
    feed n s bs (AtMarker cc rest) -> blen bs <= 15 -> decode_dc t pred s = (Ok v, s') -> b_marker s' <> None.
  Proof.
    intros Hf Hlen Hd. unfold decode_dc in Hd. rewrite (bind_ok get _ s s s eq_refl) in Hd.
    assert (exists s1, (if b_left s <? 16 then refill else ret tt) s = (Ok tt, s1) /\ b_marker s1 <> None) as (s1 & E1 & Hm).
    { destruct Hf as (Hk & u & E & z & r & H1 & H2 & [[-> ->]|H3] & H4); [|discriminate].
      cbn [repeat] in H2. rewrite !app_nil_r in H2.
      destruct (refill_marker s u E cc rest H1 Hk) as (s1 & G1 & G2 & _); [rewrite H2; lia|].
      destruct (b_left s <? 16) eqn:El; [exists s1; split; [exact G1|congruence]|].
      exists s. split; [reflexivity|]. intros HnM. pose proof (bo_left _ _ (ro_buf _ _ _ _ H1 HnM)) as Hl'.
      apply (f_equal blen) in H2. rewrite blen_app in H2. pose proof (blen_nonneg (bitsb E)). lia. }
    rewrite (bind_ok _ _ _ _ _ E1) in Hd. rewrite (bind_ok get _ s1 s1 s1 eq_refl) in Hd.
    assert (forall e r s2, decode_huff t e s1 = (r, s2) -> b_marker s2 <> None) as HhM.
    { intros e r s2. unfold decode_huff. cbv zeta.
      destruct (HUFF_LOOKAHEAD <? _); [destruct (_ =? 17)|]; intros [= _ <-]; exact Hm. }
    unfold bind at 1 in Hd. destruct (decode_huff t _ s1) as [[sym| | |] s2] eqn:E2; try discriminate. apply HhM in E2.
    destruct (sym =? 0).
    - rewrite (bind_ok _ _ s2 0 s2 eq_refl) in Hd. injection Hd as _ <-. exact E2.
    - unfold bind, get_bits, ret in Hd. injection Hd as _ <-. exact E2.
  Qed.

  Section DcFirst.
    Variables (t : hufftable) (counts symbols : list Z) (bits : list bool).
    Hypothesis Ht : dc_table t counts symbols.
    Hypothesis Htab : prog_table (d_dcts d) (Z.land (c_dct c) 3) = Ok t.
    Hypothesis Hal : 0 <= al <= 13.
    Hypothesis Hss : ss = 0.
    Hypothesis Hsmall : Forall (Forall (fun v => Z.abs v <= 32767)) blocks.
    Hypothesis Hah : d_ah d = 0.
    Hypothesis Henc : encode_dc_first (code_of counts symbols) al (c_pred c) (map (hd 0) blocks) = Some bits.
    Hypothesis Hfit : dc_first_fits (code_of counts symbols) al (c_pred c) (map (hd 0) blocks).
    Hypothesis Hf : feed 0 st (bits ++ tail) x.

    Definition with_pred (p m : Z) : decoder :=
      set_d_comps (zset (d_comps d) k (set_c_pred p c)) (set_d_todo m d).
    Definition seen_if (s : bst) : Prop :=
      dc_first_last (code_of counts symbols) al (c_pred c) (map (hd 0) blocks) + blen tail <= 15 ->
      x <> AtEnd -> b_marker s <> None.
    Definition I3 (b : Z) (d' : decoder) (s : bst) : Prop :=
      exists m p bs, d' = with_pred p m /\ d_todo d - b <= m <= d_todo d /\ b_al s = al /\
        encode_dc_first (code_of counts symbols) al p (skipn (Z.to_nat b) (map (hd 0) blocks)) = Some bs /\
        dc_first_fits (code_of counts symbols) al p (skipn (Z.to_nat b) (map (hd 0) blocks)) /\
        feed 0 s (bs ++ tail) x /\
        (b < w * h -> dc_first_last (code_of counts symbols) al p (skipn (Z.to_nat b) (map (hd 0) blocks))
                      = dc_first_last (code_of counts symbols) al (c_pred c) (map (hd 0) blocks)) /\
        (0 < b -> b = w * h -> seen_if s).

    Lemma dc_first_scan : exists m p st' plane',
      scan_blocks (Z.to_nat (h * (w + 1) + 1)) k w h 0 0 (mkPst d st buf)
        = (Ok tt, mkPst (with_pred p m) st' (zset buf k plane')) /\
      d_todo d - w * h <= m <= d_todo d /\
      scanned (learn 0 0 (dc_known al) K) (with_pred p m) st' plane' /\
      (0 < h -> seen_if st').
    Proof.
      set (K' := learn 0 0 (dc_known al) K).
      assert (0 <= w * h) as P1 by nia. assert (0 <= h * (w + 1)) as P2 by nia.
      destruct (scan_blocks_each w h sb F K K' Hw Hwsb k I3) with
        (f := Z.to_nat (h * (w + 1) + 1)) (i := 0) (j := 0) (d := d) (st := st) (buf := buf) (plane := plane)
        as (d' & s' & plane' & E & Hz & Hm & HI); [| |lia|lia|lia|lia| |exact Hp| |].
      - intros b d' s (m & p & bs & -> & _). exists (set_c_pred p c).
        split; [|now symmetry]. eapply zget_zset. exact Hc.
      - intros b i j d' s buf' plane' c' blk Hb (m & p & bs & -> & Hm & Ha1 & E1 & E2 & E5 & E7 & _) Hc' Hp' Hblk.
        assert (c' = set_c_pred p c) as ->.
        { unfold with_pred in Hc'. cbn [d_comps set_d_comps] in Hc'. rewrite (zget_zset _ _ _ _ Hc) in Hc'. congruence. }
        pose proof (F_len b Hb) as H64. pose proof (F_all _ b Hsmall Hb) as Hsm.
        specialize (E7 (proj2 Hb)).
        rewrite F_next in E1, E2, E7 by exact Hb.
        assert (b + 1 < w * h -> skipn (Z.to_nat (b + 1)) (map (hd 0) blocks) <> []) as Hne.
        { intros Hlt Hnil. apply (f_equal (@length _)) in Hnil. rewrite skipn_length, map_length in Hnil. cbn in Hnil. lia. }
        assert (b + 1 = w * h -> skipn (Z.to_nat (b + 1)) (map (hd 0) blocks) = []) as Hnil
          by (intros Hlt; apply skipn_all2; rewrite map_length; lia).
        set (rest := skipn (Z.to_nat (b + 1)) (map (hd 0) blocks)) in *.
        assert (Z.abs (hd 0 (F b)) <= 32767) as Hv.
        { destruct (F b) as [|v0 l0]; [discriminate|]. apply Forall_inv in Hsm. exact Hsm. }
        set (v := hd 0 (F b)) in *.
        cbn [encode_dc_first dc_first_fits dc_first_last] in E1, E2, E7. cbv zeta in E1, E2, E7.
        set (q := dc_quot al v) in *. destruct E2 as [E2 E3].
        apply cat_opt_some in E1. destruct E1 as (b1 & x1 & G1 & E1 & ->).
        apply cat_opt_some in E1. destruct E1 as (b2 & b3 & G2 & G3 & ->). injection G2 as <-.
        unfold code_len in E2. rewrite G1 in E2.
        destruct (code_of_cw _ _ _ _ (dt_def _ _ _ Ht) G1) as (l & cd & Hcw & -> & Hl16).
        rewrite bits_length in E2. rewrite <- !app_assoc in E5.
        pose proof (pow13 al Hal) as H13.
        assert (-32768 <= q <= 32767) as Hq.
        { unfold q, dc_quot. split; [apply Z.div_le_lower_bound; nia|apply Z.div_le_upper_bound; nia]. }
        destruct (decode_dc_ok t counts symbols l cd p q 0 s (b3 ++ tail) x (dt_def _ _ _ Ht) (dt_kraft _ _ _ Ht)
             (dt_imp _ _ _ Ht) Hcw ltac:(lia) ltac:(lia) Hq E5) as (s1 & Ed & Hf1 & Hp1).
        assert (b_al s1 = al) as Ha by (destruct Hp1 as (_ & Q & _); lia).
        assert (decode_prog_dc_first t p s = (Ok (dc_known al v, q), s1)) as Edc.
        { unfold decode_prog_dc_first. erewrite bind_ok by exact Ed. erewrite bind_ok by reflexivity.
          unfold ret. rewrite Ha, bit16 by exact Hal. rewrite (i16_id q) by exact Hq.
          rewrite i16_id by (apply (dc_known_range al v); lia). reflexivity. }
        exists (zset blk 0 (dc_known al v)), (with_pred q m), s1. split; [|split; [|split]].
        + unfold block_body, with_pred. cbn [d_ss d_dcts set_d_comps set_d_todo]. rewrite Hdss, Hss.
          change (0 =? 0) with true. cbv iota. change (c_dct (set_c_pred p c)) with (c_dct c). rewrite Htab.
          unfold lift. erewrite bindok by reflexivity.
          assert (prog_dc t k (zn blk 0) (mkPst (with_pred p m) s buf') = (Ok (dc_known al v), mkPst (with_pred q m) s1 buf')) as Epd.
          { unfold prog_dc. erewrite bindok by reflexivity. cbn [p_dec]. change (d_ah (with_pred p m)) with (d_ah d). rewrite Hah.
            change (0 =? 0) with true. cbv iota.
            erewrite bindok by (unfold get_comp, bind, getp, lift, at_; cbn [p_dec]; rewrite Hc'; reflexivity).
            change (c_pred (set_c_pred p c)) with p.
            erewrite bindok by (unfold on_st; cbn [p_st p_dec p_buf]; rewrite Edc; reflexivity). cbv beta iota.
            erewrite bindok by (unfold set_pred, modp; cbn [p_dec p_st p_buf]; rewrite Hc'; reflexivity).
            unfold ret, with_pred. cbn [d_comps set_d_comps]. rewrite zset_twice. reflexivity. }
          unfold with_pred in Epd. rewrite (bindok _ _ _ _ _ Epd).
          erewrite bindok by (unfold put_block; cbn [p_st p_dec p_buf]; rewrite Hp'; reflexivity). reflexivity.
        + destruct Hblk as [B1 B2]. split; [now rewrite zlen_zset|]. intros kk Hkk.
          destruct (unzig_all kk 0 Hkk ltac:(lia)) as (U1 & _ & U3 & _). change (unzig 0) with 0 in U3.
          rewrite zn_zset by lia. unfold K', learn.
          destruct (Z.eq_dec kk 0) as [->|Hk0].
          * change (unzig 0) with 0. change (0 =? 0) with true. replace (0 <? zlen blk) with true by lia. cbn [andb Z.leb]. change (0 <=? 0) with true. cbv iota. cbn [andb]. unfold v.
            change (zn (F b) 0) with (nth 0 (F b) 0). destruct (F b); reflexivity.
          * replace (unzig kk =? 0) with false by lia. replace ((0 <=? kk) && (kk <=? 0)) with false by lia. now apply B2.
        + unfold with_pred. cbn [d_todo set_d_comps set_d_todo]. lia.
        + exists (m - 1), q, b3. split; [reflexivity|]. split; [lia|]. split; [exact Ha|]. split; [exact G3|].
          split; [exact E3|]. split; [exact Hf1|]. split.
          * intros Hlt. rewrite <- E7. fold rest. specialize (Hne Hlt). destruct rest; [congruence|reflexivity].
          * intros _ Hlast. unfold seen_if. rewrite <- E7. rewrite (Hnil Hlast). intros Hsh' Hx.
            unfold code_len in Hsh'. rewrite G1, bits_length in Hsh'.
            rewrite (Hnil Hlast) in G3. injection G3 as <-. cbn [app] in E5.
            destruct x as [|cc rr]; [congruence|].
            eapply decode_dc_marker; [exact E5| |exact Ed].
            rewrite !blen_app, blen_bits. destruct (Z.eq_dec (q - p) 0) as [Eq|Eq]; [|rewrite extra_len by exact Eq; lia].
            rewrite Eq in Hsh' |- *. change (category 0) with 0 in Hsh'. change (blen (extra 0)) with 0. lia.
      - replace (0 * w + 0) with 0 by lia. exists (d_todo d), (c_pred c), bits.
        split; [|split; [lia|split; [exact Hbal|split; [exact Henc|split; [exact Hfit|split; [exact Hf|split; [reflexivity|lia]]]]]]].
        unfold with_pred. replace (set_c_pred (c_pred c) c) with c by (clear; now destruct c).
        rewrite (zset_same _ _ _ Hc). clear. now destruct d.
      - replace (0 * w + 0) with 0 by lia. apply shows_mid; auto; lia.
      - destruct HI as (m & p & bs & -> & Hm' & _ & E3 & _ & E6 & _ & E8).
        exists m, p, s', plane'. split; [exact E|]. split; [lia|]. split; [|intros Hh0; apply E8; nia].
        split; [exact Hz|]. split; [exact (mid_shows w h sb blocks K K' plane' Hw Hh Hwsb Hn Hm)|].
        rewrite skipn_all2 in E3 by (rewrite map_length; lia). injection E3 as <-. exact E6.
    Qed.
  End DcFirst.

  Section DcRefine.
    Variables (t : hufftable) (bits : list bool).
    Hypothesis Htab : prog_table (d_dcts d) (Z.land (c_dct c) 3) = Ok t.
    Hypothesis Hal : 0 <= al <= 12.
    Hypothesis Hss : ss = 0.
    Hypothesis Hsmall : Forall (Forall (fun v => Z.abs v <= 32767)) blocks.
    Hypothesis HK : forall v, K 0 v = dc_known (al + 1) v.
    Hypothesis Hah : d_ah d <> 0.
    Hypothesis Hf : feed 0 st (map (dc_bit al) (map (hd 0) blocks) ++ tail) x.

    Definition I4 (b : Z) (d' : decoder) (s : bst) : Prop :=
      exists m, d' = set_d_todo m d /\ d_todo d - b <= m <= d_todo d /\ b_al s = al /\
        feed 0 s (skipn (Z.to_nat b) (map (fun zz => dc_bit al (hd 0 zz)) blocks) ++ tail) x.

    Lemma dc_refine_scan : exists m st' plane',
      scan_blocks (Z.to_nat (h * (w + 1) + 1)) k w h 0 0 (mkPst d st buf)
        = (Ok tt, mkPst (set_d_todo m d) st' (zset buf k plane')) /\
      d_todo d - w * h <= m <= d_todo d /\
      scanned (learn 0 0 (dc_known al) K) (set_d_todo m d) st' plane'.
    Proof.
      set (K' := learn 0 0 (dc_known al) K).
      assert (0 <= w * h) as P1 by nia. assert (0 <= h * (w + 1)) as P2 by nia.
      destruct (scan_blocks_each w h sb F K K' Hw Hwsb k I4) with
        (f := Z.to_nat (h * (w + 1) + 1)) (i := 0) (j := 0) (d := d) (st := st) (buf := buf) (plane := plane)
        as (d' & s' & plane' & E & Hz & Hm & HI); [| |lia|lia|lia|lia| |exact Hp| |].
      - intros b d' s (m & -> & _). exists c. split; [exact Hc|now symmetry].
      - intros b i j d' s buf' plane' c' blk Hb (m & -> & Hm & Ha1 & E5) Hc' Hp' Hblk.
        change (d_comps (set_d_todo m d)) with (d_comps d) in Hc'. rewrite Hc in Hc'. injection Hc' as <-.
        pose proof (F_len b Hb) as H64. pose proof (F_all _ b Hsmall Hb) as Hsm.
        rewrite F_next in E5 by exact Hb.
        assert (Z.abs (hd 0 (F b)) <= 32767) as Hv.
        { destruct (F b) as [|v0 l0]; [discriminate|]. apply Forall_inv in Hsm. exact Hsm. }
        set (v := hd 0 (F b)) in *. cbn [app] in E5.
        destruct (feed_ensure _ _ _ E5) as (s1 & Ee & Hf1 & Hq1).
        destruct (feed_bit _ _ _ _ _ Hf1 ltac:(lia)) as (s2 & Eb & Hf2 & Hq2).
        assert (b_al s2 = al) as Ha by (destruct Hq1 as (_ & Q1 & _); destruct Hq2 as (_ & Q2 & _); lia).
        assert (zn blk 0 = dc_known (al + 1) v) as Hold.
        { destruct Hblk as [_ B2]. specialize (B2 0 ltac:(lia)). change (unzig 0) with 0 in B2. rewrite B2, HK.
          unfold v. change (zn (F b) 0) with (nth 0 (F b) 0). destruct (F b); reflexivity. }
        assert (decode_prog_dc_refine (zn blk 0) s = (Ok (dc_known al v), s2)) as Edc.
        { unfold decode_prog_dc_refine. erewrite bind_ok by reflexivity. erewrite bind_ok by exact Ee.
          erewrite bind_ok by exact Eb. erewrite bind_ok by reflexivity.
          unfold ret. rewrite Ha, bit16 by lia. pose proof (dc_known_refine al v ltac:(lia)) as Hr.
          pose proof (dc_known_range al v ltac:(lia) ltac:(lia)) as Hr'. rewrite Hold.
          destruct (dc_bit al v); cbn [Z.b2z]; [change (1 =? 1) with true|change (0 =? 1) with false]; cbv iota;
            [rewrite i16_id by lia|]; [now rewrite Hr|]. rewrite Hr, Z.add_0_r. reflexivity. }
        exists (zset blk 0 (dc_known al v)), (set_d_todo m d), s2. split; [|split; [|split]].
        + unfold block_body. cbn [d_ss d_dcts set_d_todo]. rewrite Hdss, Hss.
          change (0 =? 0) with true. cbv iota. rewrite Htab.
          unfold lift. erewrite bindok by reflexivity.
          assert (prog_dc t k (zn blk 0) (mkPst (set_d_todo m d) s buf') = (Ok (dc_known al v), mkPst (set_d_todo m d) s2 buf')) as Epd.
          { unfold prog_dc. erewrite bindok by reflexivity. cbn [p_dec]. change (d_ah (set_d_todo m d)) with (d_ah d).
            replace (d_ah d =? 0) with false by lia.
            unfold on_st; cbn [p_st p_dec p_buf]. now rewrite Edc. }
          rewrite (bindok _ _ _ _ _ Epd).
          erewrite bindok by (unfold put_block; cbn [p_st p_dec p_buf]; rewrite Hp'; reflexivity). reflexivity.
        + destruct Hblk as [B1 B2]. split; [now rewrite zlen_zset|]. intros kk Hkk.
          destruct (unzig_all kk 0 Hkk ltac:(lia)) as (U1 & _ & U3 & _). change (unzig 0) with 0 in U3.
          rewrite zn_zset by lia. unfold K', learn.
          destruct (Z.eq_dec kk 0) as [->|Hk0].
          * change (unzig 0) with 0. change (0 =? 0) with true. replace (0 <? zlen blk) with true by lia. cbn [andb Z.leb]. change (0 <=? 0) with true. cbv iota. cbn [andb]. unfold v.
            change (zn (F b) 0) with (nth 0 (F b) 0). destruct (F b); reflexivity.
          * replace (unzig kk =? 0) with false by lia. replace ((0 <=? kk) && (kk <=? 0)) with false by lia. now apply B2.
        + cbn [d_todo set_d_todo]. lia.
        + exists (m - 1). split; [reflexivity|]. split; [lia|]. split; [exact Ha|].
          eapply feed_weaken; [exact Hf2|lia].
      - replace (0 * w + 0) with 0 by lia. exists (d_todo d).
        split; [clear; now destruct d|]. split; [lia|]. split; [exact Hbal|].
        change (Z.to_nat 0) with 0%nat. cbn [skipn]. rewrite map_map in Hf. exact Hf.
      - replace (0 * w + 0) with 0 by lia. apply shows_mid; auto; lia.
      - destruct HI as (m & -> & Hm' & _ & E6).
        exists m, s', plane'. split; [exact E|]. split; [lia|].
        split; [exact Hz|]. split; [exact (mid_shows w h sb blocks K K' plane' Hw Hh Hwsb Hn Hm)|].
        rewrite skipn_all2 in E6 by (rewrite map_length; lia). exact E6.
    Qed.
  End DcRefine.

  Section First.
    Variables (t : hufftable) (ft counts symbols : list Z) (bits : list bool).
    Hypothesis Ht : ac_table t ft counts symbols true.
    Hypothesis Hsafe : fast_safe counts symbols.
    Hypothesis Htab : prog_table (d_acts d) (c_act c) = Ok t.
    Hypothesis Hal : 0 <= al <= 13.
    Hypothesis Hss : 1 <= ss <= se.
    Hypothesis Hse : se <= 63.
    Hypothesis Hsmall : Forall (Forall (fun v => Z.abs v <= 32767)) blocks.
    Hypothesis HK : forall kk v, ss <= kk <= se -> K kk v = 0.
    Hypothesis Hah : d_ah d = 0.
    Hypothesis Henc : first_bands (code_of counts symbols) (map (band al ss se) blocks) bits.
    Hypothesis Hf : feed 0 st (bits ++ tail) x.

    Definition I1 (b : Z) (s : bst) : Prop :=
      b_al s = al /\ b_ss s = ss /\ b_se s = se /\
      exists run rest bs, skipn (Z.to_nat b) (map (band al ss se) blocks) = (run ++ rest)%list /\
        Forall all_zero run /\ b_eob s = zlen run /\ first_bands (code_of counts symbols) rest bs /\
        feed 0 s (bs ++ tail) x.

    Lemma ac_first_scan : exists m st' plane',
      scan_blocks (Z.to_nat (h * (w + 1) + 1)) k w h 0 0 (mkPst d st buf)
        = (Ok tt, mkPst (set_d_todo m d) st' (zset buf k plane')) /\
      d_todo d - w * h <= m <= d_todo d /\
      scanned (learn ss se (ac_known al) K) (set_d_todo m d) st' plane'.
    Proof.
      set (K' := learn ss se (ac_known al) K).
      assert (0 <= w * h) as P1 by nia. assert (0 <= h * (w + 1)) as P2 by nia.
      pose proof (scan_blocks_runs k w h c t Hw (Z.to_nat (h * (w + 1) + 1)) 0 0 d st buf plane ltac:(lia) ltac:(lia)
        ltac:(lia) ltac:(lia) ltac:(lia) ltac:(lia) Hah Hc Htab Hp) as H1.
      rewrite <- Hsb in H1. specialize (H1 Hwsb Hl).
      replace (h * w - (0 * w + 0)) with (w * h) in H1 by lia. replace (0 * w + 0) with 0 in H1 by lia.
      destruct (run_scan_each w h sb F K K' Hw Hwsb (decode_mcu_ac_first t) I1) with
        (n := Z.to_nat (w * h)) (b := 0) (s := st) (plane := plane) as (s' & plane' & E & Hz & Hm & HI);
        [| |lia|lia| | |].
      - (* inside a run *)
        intros b s Hb (Ha1 & Ha2 & Ha3 & run & rest & bs & E1 & E2 & E3 & E4 & E5) He.
        destruct run as [|r0 run]; [rewrite zlen_nil in E3; lia|].
        rewrite F_next in E1 by exact Hb. cbn [app] in E1. injection E1 as E0 E1.
        apply Forall_cons_iff in E2. destruct E2 as [Ez E2]. rewrite <- E0 in Ez.
        split.
        + intros kk Hkk. unfold K', learn. destruct ((ss <=? kk) && (kk <=? se)) eqn:Er; [|reflexivity].
          rewrite HK by lia. rewrite ac_known_quot.
          unfold all_zero in Ez. rewrite Forall_forall in Ez.
          rewrite (Ez (ac_quot al (zn (F b) kk))); [reflexivity|].
          pose proof (zn_band al ss se (F b) (kk - ss) (F_len b Hb) ltac:(lia) Hse ltac:(lia)) as Hzb.
          replace (ss + (kk - ss)) with kk in Hzb by lia. rewrite <- Hzb. unfold zn. apply nth_In.
          pose proof (zlen_band al ss se (F b) (F_len b Hb) ltac:(lia) ltac:(lia) Hse) as Hzl.
          unfold zlen in Hzl. lia.
        + split; [exact Ha1|]. split; [exact Ha2|]. split; [exact Ha3|]. exists run, rest, bs.
          split; [exact E1|]. split; [exact E2|]. split; [cbn [set_eob b_eob]; rewrite E3, zlen_cons; lia|].
          split; [exact E4|]. now apply feed_eob.
      - (* a block with its own bits *)
        intros b s blk Hb (Ha1 & Ha2 & Ha3 & run & rest & bs & E1 & E2 & E3 & E4 & E5) He Hblk.
        destruct run as [|r0 run]; [|rewrite zlen_cons in E3; pose proof (zlen_nonneg run); lia].
        cbn [app] in E1. rewrite zlen_nil in E3. rewrite F_next in E1 by exact Hb. subst rest.
        inversion E4 as [|ws n b1 run rest b2 G1 G2 G3 G4 G5]; subst ws bs.
        rewrite <- app_assoc in E5.
        pose proof (F_len b Hb) as H64. pose proof (F_all _ b Hsmall Hb) as Hsm.
        edestruct (ac_first_ok t ft counts symbols al ss se Ht Hsafe Hal ltac:(lia) Hse _ _ _ G1)
          with (fuel := 257%nat) (k := ss) (T := fun kk => ac_known al (zn (F b) kk)) (O := fun kk => K kk (zn (F b) kk))
          (block := blk) (s := s) as (blk' & s2 & Ed & Hp' & Hf' & Hq');
          [now apply band_nonempty|apply band_small; [lia|exact Hsm]|rewrite zlen_band by lia; lia|lia| | | | |lia|lia|exact E5|].
        { pose proof (zlen_band al ss se (F b) H64 ltac:(lia) ltac:(lia) Hse) as Hzl. unfold zlen in Hzl. lia. }
        { apply band_next; auto; lia. }
        2:{ apply has_part. exact Hblk. }
        { intros i Hi. cbv beta. apply HK. lia. }
        exists blk', s2. split; [|split].
        + unfold decode_mcu_ac_first. rewrite (at_ft _ _ _ _ _ Ht). erewrite bindok by reflexivity.
          rewrite Ha1, Ha2. exact Ed.
        + apply part_has. exact Hp'.
        + destruct Hq' as (Q1 & Q2 & Q3 & Q4 & Q5). cbn [set_eob b_al b_ss b_se b_eob] in *.
          split; [lia|]. split; [lia|]. split; [lia|]. exists run, rest, b2.
          split; [now symmetry|]. split; [exact G3|]. split; [unfold zlen; rewrite Q5; lia|]. auto.
      - (* the start *)
        split; [exact Hbal|]. split; [exact Hbss|]. split; [exact Hbse|].
        exists [], (map (band al ss se) blocks), bits. split; [reflexivity|]. split; [constructor|]. split; [exact Heob|]. auto.
      - apply shows_mid; auto; lia.
      - (* the end *)
        rewrite E in H1. destruct H1 as (d' & st2 & E2 & Eq & m & -> & Hm').
        exists m, st2, plane'. split; [exact E2|]. split; [lia|].
        split; [exact Hz|]. split; [exact (mid_shows w h sb blocks K K' plane' Hw Hh Hwsb Hn Hm)|].
        destruct HI as (_ & _ & _ & run & rest & bs & E3 & _ & _ & E5 & E6).
        rewrite skipn_all2 in E3 by (rewrite map_length; lia).
        symmetry in E3. apply app_eq_nil in E3. destruct E3 as [-> ->].
        assert (bs = []) as -> by (inversion E5; reflexivity). cbn [app] in E6.
        assert (feed 0 (set_eob st2 0) tail x) as Hf2 by (rewrite Eq; apply feed_eob; exact E6).
        apply (feed_eob _ _ _ _ (b_eob st2)) in Hf2. clear -Hf2. destruct st2. exact Hf2.
    Qed.
  End First.

  Section Refine.
    Variables (t : hufftable) (ft counts symbols : list Z) (bits : list bool).
    Hypothesis Ht : ac_table t ft counts symbols true.
    Hypothesis Htab : prog_table (d_acts d) (c_act c) = Ok t.
    Hypothesis Hal : 0 <= al <= 12.
    Hypothesis Hss : 1 <= ss <= se.
    Hypothesis Hse : se <= 63.
    Hypothesis Hsmall : Forall (Forall (fun v => Z.abs v <= 32767)) blocks.
    Hypothesis HK : forall kk v, ss <= kk <= se -> K kk v = ac_known (al + 1) v.
    Hypothesis Hah : d_ah d <> 0.
    Hypothesis Henc : refine_bands (code_of counts symbols) (map (band al ss se) blocks) bits.
    Hypothesis Hf : feed 0 st (bits ++ tail) x.

    Definition I2 (b : Z) (d' : decoder) (s : bst) : Prop :=
      (exists m, d' = set_d_todo m d /\ d_todo d - b <= m <= d_todo d) /\
      b_al s = al /\ b_ss s = ss /\ b_se s = se /\
      exists run rest bs, skipn (Z.to_nat b) (map (band al ss se) blocks) = (run ++ rest)%list /\
        Forall no_new run /\ b_eob s = zlen run /\ refine_bands (code_of counts symbols) rest bs /\
        feed 0 s (concat (map corrections run) ++ bs ++ tail) x.

    Lemma ac_refine_scan : exists m st' plane',
      scan_blocks (Z.to_nat (h * (w + 1) + 1)) k w h 0 0 (mkPst d st buf)
        = (Ok tt, mkPst (set_d_todo m d) st' (zset buf k plane')) /\
      d_todo d - w * h <= m <= d_todo d /\
      scanned (learn ss se (ac_known al) K) (set_d_todo m d) st' plane'.
    Proof.
      set (K' := learn ss se (ac_known al) K).
      assert (0 <= w * h) as P1 by nia. assert (0 <= h * (w + 1)) as P2 by nia.
      destruct (scan_blocks_each w h sb F K K' Hw Hwsb k I2) with
        (f := Z.to_nat (h * (w + 1) + 1)) (i := 0) (j := 0) (d := d) (st := st) (buf := buf) (plane := plane)
        as (d' & s' & plane' & E & Hz & Hm & HI); [| |lia|lia|lia|lia| |exact Hp| |].
      - intros b d' s ((m & -> & _) & _). exists c. split; [exact Hc|now symmetry].
      - intros b i j d' s buf' plane' c' blk Hb ((m & -> & Hm) & Ha1 & Ha2 & Ha3 & run & rest & bs & E1 & E2 & E3 & E4 & E5) Hc' Hp' Hblk.
        change (d_comps (set_d_todo m d)) with (d_comps d) in Hc'. rewrite Hc in Hc'. injection Hc' as <-.
        pose proof (F_len b Hb) as H64. pose proof (F_all _ b Hsmall Hb) as Hsm.
        rewrite F_next in E1 by exact Hb.
        assert (exists n b1 run' rest' b2,
          (b_eob s = 0 /\ refine_band (code_of counts symbols) (band al ss se (F b)) n b1 \/
           b_eob s = Z.of_nat n + 1 /\ no_new (band al ss se (F b)) /\ b1 = corrections (band al ss se (F b))) /\
          skipn (Z.to_nat (b + 1)) (map (band al ss se) blocks) = (run' ++ rest')%list /\
          Forall no_new run' /\ n = length run' /\ refine_bands (code_of counts symbols) rest' b2 /\
          feed 0 s (b1 ++ concat (map corrections run') ++ b2 ++ tail) x)
          as (n & b1 & run' & rest' & b2 & Hcase & G1 & G2 & G3 & G4 & G5).
        { destruct run as [|r0 run].
          - cbn [app] in E1. subst rest. rewrite zlen_nil in E3.
            inversion E4 as [|ws n b1 run rest b2 G1 G2 G3 G4 G5]; subst ws bs.
            exists n, b1, run, rest, b2. split; [now left|]. split; [congruence|]. split; [exact G3|].
            split; [congruence|]. split; [exact G4|]. cbn [map concat app] in E5. rewrite <- !app_assoc in E5. exact E5.
          - cbn [app] in E1. injection E1 as E0 E1. apply Forall_cons_iff in E2. destruct E2 as [Ez E2].
            rewrite <- E0 in Ez. exists (length run), (corrections r0), run, rest, bs.
            split; [right; rewrite zlen_cons in E3; unfold zlen in E3; split; [lia|]; split; [exact Ez|now rewrite E0]|].
            split; [exact E1|]. split; [exact E2|]. split; [reflexivity|]. split; [exact E4|].
            cbn [map concat] in E5. rewrite <- app_assoc in E5. exact E5. }
        destruct (ac_refine_ok t ft counts symbols al ss se Ht Hal ltac:(lia) Hse (band al ss se (F b)) n b1
          (fun kk => ac_known al (zn (F b) kk)) (fun kk => K kk (zn (F b) kk)) blk s 0 (concat (map corrections run') ++ b2 ++ tail) x)
          with (10 := Hcase) (11 := G5) as (blk' & s2 & Ed & Hp2 & Hf2 & Hq2);
          [now apply band_nonempty|apply band_small; [lia|exact Hsm]|rewrite zlen_band by lia; lia
          |apply band_next; auto; lia|apply band_olds; auto; lia|now apply has_part|lia|lia|lia|lia|].
        exists blk', (set_d_todo m d), s2. split; [|split; [|split]].
        + unfold block_body. change (d_ss (set_d_todo m d)) with (d_ss d). rewrite Hdss.
          replace (ss =? 0) with false by lia.
          change (d_acts (set_d_todo m d)) with (d_acts d). rewrite Htab. unfold lift. erewrite bindok by reflexivity.
          change (d_ah (set_d_todo m d)) with (d_ah d). replace (d_ah d =? 0) with false by lia.
          erewrite bindok by (unfold on_st; cbn [p_st p_dec p_buf]; rewrite Ed; reflexivity).
          erewrite bindok by (unfold put_block; cbn [p_st p_dec p_buf]; rewrite Hp'; reflexivity). reflexivity.
        + apply part_has. exact Hp2.
        + cbn [set_d_todo d_todo]. lia.
        + destruct Hq2 as (Q1 & Q2 & Q3 & Q4 & Q5). cbn [set_eob b_al b_ss b_se b_eob] in *.
          split; [exists (m - 1); split; [reflexivity|lia]|].
          split; [lia|]. split; [lia|]. split; [lia|]. exists run', rest', b2.
          split; [exact G1|]. split; [exact G2|]. split; [unfold zlen; lia|]. auto.
      - replace (0 * w + 0) with 0 by lia.
        split; [exists (d_todo d); split; [now destruct d|lia]|].
        split; [exact Hbal|]. split; [exact Hbss|]. split; [exact Hbse|].
        exists [], (map (band al ss se) blocks), bits. split; [reflexivity|]. split; [constructor|]. split; [exact Heob|]. auto.
      - replace (0 * w + 0) with 0 by lia. apply shows_mid; auto; lia.
      - destruct HI as ((m & -> & Hm') & _ & _ & _ & run & rest & bs & E3 & _ & _ & E5 & E6).
        exists m, s', plane'. split; [exact E|]. split; [lia|].
        split; [exact Hz|]. split; [exact (mid_shows w h sb blocks K K' plane' Hw Hh Hwsb Hn Hm)|].
        rewrite skipn_all2 in E3 by (rewrite map_length; lia).
        symmetry in E3. apply app_eq_nil in E3. destruct E3 as [-> ->].
        assert (bs = []) as -> by (inversion E5; reflexivity). exact E6.
    Qed.
  End Refine.
End Scan.
