(** Interleaved DC scans: from the blocks of the MCUs to planes. *)
From Coq Require Import ZArith String List Bool Lia FinFun.
From Coq Require Import ZifyBool ZifyNat ZifyN.
From Verif Require Import Base Types Huffman State Bitstream Headers Mcu McuProg.
From Verif Require Import SpecHuffman SpecSegments SpecExtend SpecBits SpecBlock SpecProg SpecInter Obs ObsProg.
From Verif Require Import BaseFacts HeaderFacts HuffmanProofs HuffmanPrefix HuffDecode ExtendFacts TableSegments
  BitReader Refill Reader Feed FastAc Block ColorFacts Placement ProgFacts ProgBlocks ProgRefine ProgScan ProgScript.
Import ListNotations.
Local Open Scope Z_scope.
Ltac Zify.zify_post_hook ::= Z.div_mod_to_equations.

(** * Loops over lists of blocks *)
Fixpoint from (i : Z) (n : nat) : list Z := match n with O => [] | S n' => i :: from (i + 1) n' end.
Lemma from_seq n : forall i, from (Z.of_nat i) n = map Z.of_nat (seq i n).
Proof.
  induction n as [|n IH]; intros i; [reflexivity|]. cbn [from seq map]. f_equal.
  rewrite <- IH. f_equal. lia.
Qed.
Lemma from_zseq n : from 0 (Z.to_nat n) = zseq n.
Proof. exact (from_seq (Z.to_nat n) 0). Qed.
Lemma from_nth {A B} (f : A -> list B) (dflt : A) l : forall i,
  flat_map (fun j => f (nth (Z.to_nat j - i) l dflt)) (from (Z.of_nat i) (length l)) = flat_map f l.
Proof.
  induction l as [|a l IH]; intros i; [reflexivity|]. cbn [length from flat_map].
  rewrite Nat2Z.id, Nat.sub_diag. cbn [nth]. f_equal. rewrite <- (IH (S i)).
  replace (Z.of_nat i + 1) with (Z.of_nat (S i)) by lia.
  assert (forall n j, (i < j)%nat -> flat_map (fun j => f (nth (Z.to_nat j - i) (a :: l) dflt)) (from (Z.of_nat j) n)
    = flat_map (fun j => f (nth (Z.to_nat j - S i) l dflt)) (from (Z.of_nat j) n)) as G; [|apply G; lia].
  induction n as [|n IHn]; intros j Hj; [reflexivity|]. cbn [from flat_map].
  replace (Z.of_nat j + 1) with (Z.of_nat (S j)) by lia. rewrite IHn by lia. f_equal.
  rewrite Nat2Z.id. replace (j - i)%nat with (S (j - S i)) by lia. reflexivity.
Qed.

Lemma mfor_rem {St} {U : Type} (I : list U -> St -> Prop) (g : Z -> list U) (body : Z -> M St unit) n : forall i0,
  (forall j rem s, i0 <= j < i0 + Z.of_nat n -> I (g j ++ rem) s -> exists s', body j s = (Ok tt, s') /\ I rem s') ->
  forall rem s, I (flat_map g (from i0 n) ++ rem) s -> exists s', mfor n i0 body s = (Ok tt, s') /\ I rem s'.
Proof.
  induction n as [|n IH]; intros i0 Hb rem s HI.
  - exists s. split; [reflexivity|exact HI].
  - cbn [from flat_map] in HI. rewrite <- app_assoc in HI.
    destruct (Hb i0 _ s ltac:(lia) HI) as (s1 & E1 & H1).
    destruct (IH (i0 + 1) (fun j rem s Hj => Hb j rem s ltac:(lia)) rem s1 H1) as (s2 & E2 & H2).
    exists s2. split; [|exact H2]. cbn [mfor]. unfold bind. rewrite E1. exact E2.
Qed.

(** [scan_dc_at] for a block *)
Definition dc_unit (t : hufftable) (n : Z) (c : component) (x y : Z) : M pst unit :=
  (let position := 64 * (x + y * c_stride c / 8) in
  s <- get ;;
  chan <- lift (at_ (p_buf s) n) ;;
  coef <- lift (at_ chan position) ;;
  v <- prog_dc t n coef ;;
  fun s =>
    (Ok tt, mkPst (p_dec s) (p_st s) (zset (p_buf s) n (zset (chan) position v))))%m.
Lemma scan_dc_at_unit t n c i j v h : scan_dc_at t n c i j v h = dc_unit t n c (j * c_h c + h) (i * c_v c + v).
Proof. reflexivity. Qed.

Lemma zget_nth l i (x : Z) : zget l i = Some x <-> 0 <= i < zlen l /\ zn l i = x.
Proof.
  split.
  - intros H. split; [eapply zget_some; exact H|]. now apply zn_zget.
  - intros [H1 <-]. unfold zget, zn, zlen in *. replace (i <? 0) with false by lia. apply nth_error_nth'. lia.
Qed.
Lemma lens_zset {A} (l : list (list A)) k p p' : zget l k = Some p -> length p' = length p ->
  map (@length A) (zset l k p') = map (@length A) l.
Proof. intros H E. rewrite zset_map, E. apply zset_same. now rewrite zget_map, H. Qed.

Section Inter.
  Variables (d : decoder) (al : Z) (V : nat -> Z -> Z -> Z) (sb rows : nat -> Z) (codes : nat -> code) (T : nat -> hufftable)
    (full : list unit_) (buf0 : list (list Z)) (tail : list bool) (xe : ending) (real : unit_ -> Prop).

  Definition pos (u : unit_) : Z := 64 * (fst (snd u) + snd (snd u) * sb (fst u)).
  Definition val (u : unit_) : Z := V (fst u) (fst (snd u)) (snd (snd u)).
  Hypothesis Hal : 0 <= al <= 13.
  Hypothesis Hplace : forall u, In u full -> 0 <= fst (snd u) < sb (fst u) /\ 0 <= snd (snd u) < rows (fst u).
  Hypothesis Hroom : forall u, In u full -> exists plane0, zget buf0 (Z.of_nat (fst u)) = Some plane0 /\
    64 * (sb (fst u) * rows (fst u)) <= zlen plane0.
  Hypothesis Hcomp : forall u, In u full -> exists c, zget (d_comps d) (Z.of_nat (fst u)) = Some c /\
    c_stride c = 8 * sb (fst u).
  Hypothesis Hval : forall u, In u full -> Z.abs (val u) <= 32767.
  Hypothesis Hnodup : NoDup full.
  Hypothesis Htab : d_ah d = 0 -> forall u, In u full -> exists counts symbols,
    dc_table (T (fst u)) counts symbols /\ codes (fst u) = code_of counts symbols.
  Hypothesis Hold : d_ah d <> 0 -> al <= 12 /\ forall u plane0, In u full -> real u ->
    zget buf0 (Z.of_nat (fst u)) = Some plane0 -> zn plane0 (pos u) = dc_known (al + 1) (val u).

  Definition data (preds : nat -> Z) (us : list unit_) (bits : list bool) : Prop :=
    if d_ah d =? 0 then
      encode_dc_units codes al preds (unit_values V us) = Some bits /\ dc_units_fit codes al preds (unit_values V us)
    else bits = map (fun u => dc_bit al (val u)) us.

  Definition last_len : Z := dc_units_last codes al (fun _ => 0) (unit_values V full).

  Record inv (m : Z) (rem : list unit_) (s : pst) : Prop := mkInv {
    in_rest : exists done preds comps st buf bits,
      full = (done ++ rem)%list /\ s = mkPst (set_d_comps comps (set_d_todo m d)) st buf /\
      map (set_c_pred 0) comps = map (set_c_pred 0) (d_comps d) /\
      (forall k c, zget comps (Z.of_nat k) = Some c -> c_pred c = preds k) /\
      b_al st = al /\ data preds rem bits /\ feed 0 st (bits ++ tail) xe /\
      map (@length Z) buf = map (@length Z) buf0 /\
      (forall u plane, In u done -> real u -> zget buf (Z.of_nat (fst u)) = Some plane ->
         zn plane (pos u) = dc_known al (val u)) /\
      (forall k plane plane0 p, zget buf (Z.of_nat k) = Some plane -> zget buf0 (Z.of_nat k) = Some plane0 -> 0 <= p ->
         (forall u, In u done -> fst u = k -> p <> pos u) -> zn plane p = zn plane0 p) /\
      (d_ah d = 0 -> rem <> [] -> dc_units_last codes al preds (unit_values V rem) = last_len) /\
      (d_ah d = 0 -> rem = [] -> done <> [] -> last_len + blen tail <= 15 -> xe <> AtEnd -> b_marker st <> None) }.

  Lemma pos_inj u u' : In u full -> In u' full -> fst u = fst u' -> pos u = pos u' -> u = u'.
  Proof.
    intros Hu Hu' E Hp. destruct (Hplace u Hu) as [X Y]. destruct (Hplace u' Hu') as [X' Y'].
    destruct u as [k [x y]], u' as [k' [x' y']]. cbn [fst snd] in *. subst k'. unfold pos in Hp. cbn [fst snd] in Hp.
    assert (y = y').
    { destruct (Z.lt_trichotomy y y') as [L|[L|L]]; [|exact L|].
      - assert (y * sb k + sb k <= y' * sb k) by nia. lia.
      - assert (y' * sb k + sb k <= y * sb k) by nia. lia. }
    subst y'. assert (x = x') by lia. now subst x'.
  Qed.

  Lemma unit_step m k x y rem s c t :
    inv m ((k, (x, y)) :: rem) s -> c_stride c = 8 * sb k -> (d_ah d = 0 -> t = T k) ->
    exists s', dc_unit t (Z.of_nat k) c x y s = (Ok tt, s') /\ inv m rem s'.
  Proof.
    intros [(done & preds & comps & st & buf & bits & Hfull & -> & Hcm & Hpred & Hbal & Hdata & Hf & Hlen & Hdone & Hkeep & Hlast & _)] Hcs Ht.
    set (u := (k, (x, y))) in *.
    assert (In u full) as Hin by (rewrite Hfull; apply in_or_app; right; now left).
    assert (~ In u done) as Hnin.
    { intros H. rewrite Hfull in Hnodup. apply NoDup_remove_2 in Hnodup. apply Hnodup. apply in_or_app. now left. }
    destruct (Hplace u Hin) as [X Y]. destruct (Hroom u Hin) as (plane0 & Hp0 & Hr0).
    destruct (Hcomp u Hin) as (c0 & Hc0 & Hc0s). pose proof (Hval u Hin) as Hv.
    cbn [fst snd u] in X, Y, Hp0, Hr0, Hc0, Hc0s.
    assert (exists cc, zget comps (Z.of_nat k) = Some cc) as (cc & Hcc).
    { apply (f_equal (fun l => zget l (Z.of_nat k))) in Hcm. rewrite !zget_map, Hc0 in Hcm.
      destruct (zget comps (Z.of_nat k)) as [cc|]; [eauto|discriminate]. }
    assert (exists plane, zget buf (Z.of_nat k) = Some plane /\ length plane = length plane0) as (plane & Hp & Hpl).
    { apply (f_equal (fun l => zget l (Z.of_nat k))) in Hlen. rewrite !zget_map, Hp0 in Hlen.
      destruct (zget buf (Z.of_nat k)) as [plane|]; [|discriminate]. exists plane. split; [reflexivity|].
      cbn [option_map] in Hlen. congruence. }
    assert (64 * (x + y * c_stride c / 8) = pos u) as Hpos.
    { unfold pos, u. cbn [fst snd]. rewrite Hcs. replace (y * (8 * sb k)) with (y * sb k * 8) by lia. rewrite Z.div_mul by lia. reflexivity. }
    assert (0 <= pos u < zlen plane) as Hrange.
    { unfold pos, u. cbn [fst snd]. unfold zlen in *. rewrite Hpl. assert (0 <= y * sb k) by nia.
      assert (y * sb k + sb k <= sb k * rows k) by nia. lia. }
    assert (zget plane (pos u) = Some (zn plane (pos u))) as Hcoef by (apply zget_nth; auto).
    pose proof (pow13 al Hal) as H13. set (v := val u) in *.
    assert (-32768 <= dc_known al v <= 32767) as Hkr by (apply dc_known_range; lia).
    (* the coefficient *)
    assert (exists new preds' comps' st' bits',
      prog_dc t (Z.of_nat k) (zn plane (pos u)) (mkPst (set_d_comps comps (set_d_todo m d)) st buf)
        = (Ok new, mkPst (set_d_comps comps' (set_d_todo m d)) st' buf) /\
      (real u -> new = dc_known al v) /\
      map (set_c_pred 0) comps' = map (set_c_pred 0) comps /\
      (forall k c, zget comps' (Z.of_nat k) = Some c -> c_pred c = preds' k) /\
      b_al st' = al /\ data preds' rem bits' /\ feed 0 st' (bits' ++ tail) xe /\
      (d_ah d = 0 -> rem <> [] -> dc_units_last codes al preds' (unit_values V rem) = last_len) /\
      (d_ah d = 0 -> rem = [] -> last_len + blen tail <= 15 -> xe <> AtEnd -> b_marker st' <> None))
      as (new & preds' & comps' & st' & bits' & E & Hnew & G1 & G2 & G3 & G4 & G5 & G6 & G7).
    { unfold data in Hdata. unfold prog_dc.
      erewrite bindok by reflexivity. cbn [p_dec].
      change (d_ah (set_d_comps comps (set_d_todo m d))) with (d_ah d).
      destruct (d_ah d =? 0) eqn:Eah.
      - destruct Hdata as [Henc Hfit]. assert (d_ah d = 0) as Ea by lia. specialize (Hlast Ea ltac:(discriminate)).
        destruct (Htab Ea u Hin) as (counts & symbols & Hdt & Hcode). cbn [fst u] in Hdt, Hcode.
        unfold u in Henc, Hfit, Hlast.
        cbn [unit_values map fst snd encode_dc_units dc_units_fit dc_units_last] in Henc, Hfit, Hlast.
        fold (unit_values V rem) in Henc, Hfit, Hlast.
        change (V k x y) with v in Henc, Hfit, Hlast. cbv zeta in Henc, Hfit, Hlast. set (q := dc_quot al v) in *.
        rewrite Hcode in Henc, Hfit, Hlast.
        destruct Hfit as [F1 F2].
        apply cat_opt_some in Henc. destruct Henc as (b1 & x1 & Q1 & Henc & ->).
        apply cat_opt_some in Henc. destruct Henc as (b2 & b3 & Q2 & Q3 & ->). injection Q2 as <-.
        unfold code_len in F1, Hlast. rewrite Q1 in F1, Hlast.
        destruct (code_of_cw _ _ _ _ (dt_def _ _ _ Hdt) Q1) as (l & cw & Hcw & -> & Hl16).
        rewrite bits_length in F1, Hlast. rewrite <- !app_assoc in Hf.
        assert (-32768 <= q <= 32767) as Hq.
        { unfold q, dc_quot. split; [apply Z.div_le_lower_bound; nia|apply Z.div_le_upper_bound; nia]. }
        destruct (decode_dc_ok (T k) counts symbols l cw (preds k) q 0 st (b3 ++ tail) xe (dt_def _ _ _ Hdt) (dt_kraft _ _ _ Hdt)
             (dt_imp _ _ _ Hdt) Hcw ltac:(lia) ltac:(lia) Hq Hf) as (s1 & Ed & Hf1 & Hq1).
        assert (b_al s1 = al) as Ha by (destruct Hq1 as (_ & Q & _); lia).
        assert (decode_prog_dc_first (T k) (preds k) st = (Ok (dc_known al v, q), s1)) as Edc.
        { unfold decode_prog_dc_first. erewrite bind_ok by exact Ed. erewrite bind_ok by reflexivity.
          unfold ret. rewrite Ha, bit16 by exact Hal. rewrite (i16_id q) by exact Hq.
          rewrite i16_id by exact Hkr. reflexivity. }
        exists (dc_known al v), (next_pred preds k q), (zset comps (Z.of_nat k) (set_c_pred q cc)), s1, b3.
        split; [|split; [reflexivity|]].
        { erewrite bindok by (unfold get_comp, bind, getp, lift, at_; cbn [p_dec d_comps set_d_comps]; rewrite Hcc; reflexivity).
          rewrite (Hpred k cc Hcc), (Ht Ea).
          erewrite bindok by (unfold on_st; cbn [p_st p_dec p_buf]; rewrite Edc; reflexivity). cbv beta iota.
          erewrite bindok by (unfold set_pred, modp; cbn [p_dec p_st p_buf d_comps set_d_comps]; rewrite Hcc; reflexivity).
          reflexivity. }
        split; [now apply preds_zset|]. split; [|split; [exact Ha|split; [|split; [exact Hf1|split]]]].
        + intros k' c' Hc'. unfold next_pred. rewrite BaseFacts.zget_zset in Hc' by lia. apply zget_some in Hcc as Hcr.
          destruct (k' =? k)%nat eqn:Ek.
          * replace ((Z.of_nat k' =? Z.of_nat k) && _) with true in Hc' by lia. injection Hc' as <-. reflexivity.
          * replace ((Z.of_nat k' =? Z.of_nat k) && _) with false in Hc' by lia. now apply Hpred.
        + unfold data. rewrite Eah. auto.
        + intros _ Hne. rewrite <- Hlast. destruct rem; [congruence|reflexivity].
        + intros _ -> Hsh Hx. cbn [unit_values map] in Hlast. rewrite <- Hlast in Hsh.
          cbn [unit_values map encode_dc_units] in Q3. injection Q3 as <-. cbn [app] in Hf.
          destruct xe as [|ce re]; [congruence|].
          eapply (decode_dc_marker [] cc); [exact Hf| |exact Ed].
          rewrite !blen_app, blen_bits. destruct (Z.eq_dec (q - preds k) 0) as [Eq|Eq]; [|rewrite extra_len by exact Eq; lia].
          rewrite Eq in Hsh |- *. change (category 0) with 0 in Hsh. change (blen (extra 0)) with 0. lia.
      - subst bits. cbn [map app] in Hf. destruct (Hold ltac:(lia)) as [Hal12 Hreal].
        destruct (feed_ensure _ _ _ Hf) as (s1 & Ee & Hf1 & Hq1).
        destruct (feed_bit _ _ _ _ _ Hf1 ltac:(lia)) as (s2 & Eb & Hf2 & Hq2).
        assert (b_al s2 = al) as Ha by (destruct Hq1 as (_ & Q1 & _); destruct Hq2 as (_ & Q2 & _); lia).
        fold v in Eb.
        set (old := zn plane (pos u)).
        exists (if Z.b2z (dc_bit al v) =? 1 then i16 (old + 2 ^ al) else old), preds, comps, s2, (map (fun u => dc_bit al (val u)) rem).
        split; [|split; [|split; [reflexivity|split; [exact Hpred|split; [exact Ha|split; [unfold data; now rewrite Eah|split; [exact Hf2|split; lia]]]]]]].
        + assert (decode_prog_dc_refine old st = (Ok (if Z.b2z (dc_bit al v) =? 1 then i16 (old + 2 ^ al) else old), s2)) as Edc.
          { unfold decode_prog_dc_refine. erewrite bind_ok by reflexivity. erewrite bind_ok by exact Ee.
            erewrite bind_ok by exact Eb. erewrite bind_ok by reflexivity. unfold ret. rewrite Ha, bit16 by lia. reflexivity. }
          unfold on_st. cbn [p_st p_dec p_buf]. now rewrite Edc.
        + intros Hre.
          assert (old = dc_known (al + 1) v) as ->.
          { unfold old. rewrite (Hkeep k plane plane0 (pos u) Hp Hp0 ltac:(lia)).
            - exact (Hreal u plane0 Hin Hre Hp0).
            - intros u' Hu' Ek Epos. assert (In u' full) as Hin' by (rewrite Hfull; apply in_or_app; now left).
              apply Hnin. rewrite (pos_inj u u' Hin Hin' (eq_sym Ek) Epos). exact Hu'. }
          pose proof (dc_known_refine al v ltac:(lia)) as Hr.
          destruct (dc_bit al v); cbn [Z.b2z]; [change (1 =? 1) with true|change (0 =? 1) with false]; cbv iota;
            [rewrite i16_id by lia|]; lia. }
    exists (mkPst (set_d_comps comps' (set_d_todo m d)) st' (zset buf (Z.of_nat k) (zset plane (pos u) new))). split.
    { unfold dc_unit. cbv zeta. rewrite Hpos. erewrite bindok by reflexivity. cbn [p_buf]. unfold at_. rewrite Hp.
      erewrite bindok by reflexivity. rewrite Hcoef. erewrite bindok by reflexivity. rewrite (bindok _ _ _ _ _ E). reflexivity. }
    constructor. exists (done ++ [u])%list, preds', comps', st', (zset buf (Z.of_nat k) (zset plane (pos u) new)), bits'.
    split; [now rewrite <- app_assoc|]. split; [reflexivity|]. split; [congruence|].
    do 4 (split; [assumption|]). split; [|split; [|split; [|split]]].
    - rewrite (lens_zset _ _ plane) by (exact Hp || apply zset_length). exact Hlen.
    - intros u' plane' Hu' Hre Hp'. destruct (Nat.eq_dec (fst u') k) as [Ek|Ek].
      + rewrite Ek in Hp'. rewrite (ProgFacts.zget_zset _ _ _ _ Hp) in Hp'. injection Hp' as <-.
        destruct (Hplace u') as [X' Y'].
        { rewrite Hfull. apply in_or_app. apply in_app_or in Hu'. destruct Hu' as [Hu'|[<-|[]]]; [now left|right; now left]. }
        assert (0 <= pos u') as Hp0' by (unfold pos; assert (0 <= snd (snd u') * sb (fst u')) by nia; lia).
        rewrite zn_zset by lia. apply in_app_or in Hu'. destruct Hu' as [Hu'|[<-|[]]].
        * destruct (pos u' =? pos u) eqn:Ep.
          -- exfalso. apply Hnin. rewrite <- (pos_inj u' u); [exact Hu'|rewrite Hfull; apply in_or_app; now left|exact Hin|exact Ek|lia].
          -- cbn [andb]. apply (Hdone u' plane Hu' Hre). now rewrite Ek.
        * rewrite Z.eqb_refl. replace (pos u <? zlen plane) with true by lia. cbn [andb]. now apply Hnew.
      + rewrite BaseFacts.zget_zset in Hp' by lia. replace ((Z.of_nat (fst u') =? Z.of_nat k) && _) with false in Hp' by lia.
        apply in_app_or in Hu'. destruct Hu' as [Hu'|[<-|[]]]; [now apply (Hdone u')|contradiction Ek; reflexivity].
    - intros k' plane' plane0' p Hp' Hp0' Hp00 Hno. destruct (Nat.eq_dec k' k) as [->|Ek].
      + rewrite (ProgFacts.zget_zset _ _ _ _ Hp) in Hp'. injection Hp' as <-. rewrite zn_zset by lia.
        replace (p =? pos u) with false.
        2:{ assert (p <> pos u); [apply Hno; [apply in_or_app; right; now left|reflexivity]|lia]. }
        cbn [andb]. apply (Hkeep k plane plane0' p Hp Hp0' Hp00). intros u' Hu'. apply Hno. apply in_or_app. now left.
      + rewrite BaseFacts.zget_zset in Hp' by lia. replace ((Z.of_nat k' =? Z.of_nat k) && _) with false in Hp' by lia.
        apply (Hkeep k' plane' plane0' p Hp' Hp0' Hp00). intros u' Hu'. apply Hno. apply in_or_app. now left.
    - exact G6.
    - intros Ea Er _. now apply G7.
  Qed.

  (** ** The loops *)
  Section Loops.
    Variables (g : geometry) (ks : list nat).
    Hypothesis Hfull : full = scan_units g ks.
    Hypothesis Hmx : d_mcux d = g_mx g.
    Hypothesis Hmy : d_mcuy d = g_my g.
    Hypothesis Hns : d_nscans d = Z.of_nat (length ks).
    Hypothesis Hzo : forall kk, (kk < length ks)%nat -> zget (d_zorder d) (Z.of_nat kk) = Some (Z.of_nat (nth kk ks 0%nat)).
    Hypothesis Hks : forall k, In k ks -> exists c, zget (d_comps d) (Z.of_nat k) = Some c /\
      factor g k = (c_h c, c_v c) /\ 1 <= c_h c /\ 1 <= c_v c /\ c_stride c = 8 * sb k /\
      prog_table (d_dcts d) (c_dct c) = Ok (T k).
    Hypothesis Htodo : Z.of_nat (length full) < d_todo d < 2 ^ 64.

    Definition outer (rem : list unit_) (s : pst) : Prop :=
      exists m, inv m rem s /\ d_todo d - (Z.of_nat (length full) - Z.of_nat (length rem)) <= m <= d_todo d.

    Lemma comp_step i j kk rem s : 0 <= kk < Z.of_nat (length ks) ->
      outer (mcu_units g i j (nth (Z.to_nat kk) ks 0%nat) ++ rem) s ->
      exists s', scan_dc_component i j kk s = (Ok tt, s') /\ outer rem s'.
    Proof.
      intros Hkk (m & HI & Hm). set (k := nth (Z.to_nat kk) ks 0%nat) in *.
      destruct (Hks k) as (c0 & Hc0 & Hfac & Hh1 & Hv1 & Hstr & Htb); [apply nth_In; lia|].
      pose proof HI as [(done & preds & comps & st & buf & bits & _ & -> & Hcm & _)].
      assert (exists cc, zget comps (Z.of_nat k) = Some cc /\ set_c_pred 0 cc = set_c_pred 0 c0) as (cc & Hcc & Ecc).
      { apply (f_equal (fun l => zget l (Z.of_nat k))) in Hcm. rewrite !zget_map, Hc0 in Hcm.
        destruct (zget comps (Z.of_nat k)) as [cc|]; [|discriminate]. exists cc. split; [reflexivity|].
        cbn [option_map] in Hcm. exact (f_equal (fun o => match o with Some x => x | None => cc end) Hcm). }
      assert (c_h cc = c_h c0) as Eh by exact (f_equal c_h Ecc).
      assert (c_v cc = c_v c0) as Ev by exact (f_equal c_v Ecc).
      assert (c_stride cc = c_stride c0) as Es by exact (f_equal c_stride Ecc).
      assert (c_dct cc = c_dct c0) as Edt by exact (f_equal c_dct Ecc).
      set (s := mkPst (set_d_comps comps (set_d_todo m d)) st buf) in *.
      assert (mcu_units g i j k = flat_map (fun v => flat_map (fun u => [(k, (j * c_h cc + u, i * c_v cc + v))]) (from 0 (Z.to_nat (c_h cc))))
        (from 0 (Z.to_nat (c_v cc)))) as Emu.
      { unfold mcu_units. rewrite Hfac, Eh, Ev. cbn [fst snd]. rewrite !from_zseq. apply flat_map_ext. intros v.
        clear. induction (zseq (c_h c0)) as [|a l IH]; [reflexivity|]. cbn [map flat_map app]. now rewrite IH. }
      destruct (mfor_rem (inv m) (fun v => flat_map (fun u => [(k, (j * c_h cc + u, i * c_v cc + v))]) (from 0 (Z.to_nat (c_h cc))))
        (fun v => mfor (Z.to_nat (c_h cc)) 0 (fun h => scan_dc_at (T k) (Z.of_nat k) cc i j v h)) (Z.to_nat (c_v cc)) 0) with (rem := rem) (s := s)
        as (s1 & E1 & H1).
      { intros v rem' s' Hv HI'.
        refine (mfor_rem (inv m) (fun u => [(k, (j * c_h cc + u, i * c_v cc + v))]) _ (Z.to_nat (c_h cc)) 0 _ rem' s' HI').
        intros h rem2 s2 Hh HI2. rewrite scan_dc_at_unit. apply (unit_step m k _ _ rem2 s2 cc (T k)); [exact HI2|congruence|reflexivity]. }
      { rewrite Emu in HI. exact HI. }
      pose proof H1 as [(done1 & preds1 & comps1 & st1 & buf1 & bits1 & A1 & -> & A2)].
      exists (mkPst (set_d_comps comps1 (set_d_todo (m - 1) d)) st1 buf1). split.
      - unfold scan_dc_component. erewrite bindok by reflexivity. cbn [p_dec].
        change (d_zorder (p_dec s)) with (d_zorder d).
        unfold at_. rewrite <- (Z2Nat.id kk) by lia. rewrite Hzo by lia. fold k. erewrite bindok by reflexivity.
        change (d_comps (p_dec s)) with comps.
        apply zget_some in Hcc as Hcr. replace (zlen comps <=? Z.of_nat k) with false by lia. cbv iota.
        erewrite bindok by (unfold get_comp, bind, getp, lift, at_; cbn [p_dec d_comps set_d_comps s]; rewrite Hcc; reflexivity).
        change (d_dcts (p_dec s)) with (d_dcts d). rewrite Edt, Htb. erewrite bindok by reflexivity.
        rewrite (bindok _ _ _ _ _ E1).
        unfold count_restart_p. cbn [p_dec p_st p_buf].
        assert (1 <= length (mcu_units g i j k))%nat as Hl1.
        { rewrite Emu. destruct (Z.to_nat (c_v cc)) as [|nv] eqn:N1; [lia|]. destruct (Z.to_nat (c_h cc)) as [|nh] eqn:N2; [lia|].
          cbn [from flat_map app length]. lia. }
        rewrite app_length in Hm.
        rewrite tick_quiet by (cbn [d_todo set_d_comps set_d_todo]; lia). reflexivity.
      - exists (m - 1). split.
        + constructor. exists done1, preds1, comps1, st1, buf1, bits1. split; [exact A1|]. split; [reflexivity|exact A2].
        + assert (1 <= length (mcu_units g i j k))%nat as Hl1.
          { rewrite Emu. destruct (Z.to_nat (c_v cc)) as [|nv] eqn:N1; [lia|]. destruct (Z.to_nat (c_h cc)) as [|nh] eqn:N2; [lia|].
            cbn [from flat_map app length]. lia. }
          rewrite app_length in Hm. lia.
    Qed.

    Lemma inter_loops s : outer full s -> exists s',
      (mfor (Z.to_nat (d_mcuy d)) 0 (fun i =>
        mfor (Z.to_nat (d_mcux d)) 0 (fun j =>
          mfor (Z.to_nat (d_nscans d)) 0 (fun k => scan_dc_component i j k)))) s = (Ok tt, s') /\ outer [] s'.
    Proof.
      intros HI.
      apply (mfor_rem outer (fun i => flat_map (fun j => flat_map (mcu_units g i j) ks) (zseq (g_mx g)))).
      - intros i rem s1 _ H1. rewrite Hmx. rewrite <- from_zseq in H1.
        refine (mfor_rem outer (fun j => flat_map (mcu_units g i j) ks) _ _ 0 _ rem s1 H1).
        intros j rem2 s2 _ H2.
        rewrite <- (from_nth (mcu_units g i j) 0%nat ks 0) in H2.
        rewrite Hns, Nat2Z.id.
        refine (mfor_rem outer (fun kk => mcu_units g i j (nth (Z.to_nat kk - 0) ks 0%nat)) _ _ 0 _ rem2 s2 H2).
        intros kk rem3 s3 Hkk H3. rewrite Nat.sub_0_r in H3. apply comp_step; [lia|exact H3].
      - rewrite Hmy, from_zseq, app_nil_r. unfold scan_units in Hfull. rewrite <- Hfull. exact HI.
    Qed.
  End Loops.
End Inter.

(** * The blocks of a scan *)
Lemma NoDup_flat {A B} (f : A -> list B) l : NoDup l -> (forall a, In a l -> NoDup (f a)) ->
  (forall a b x, In a l -> In b l -> In x (f a) -> In x (f b) -> a = b) -> NoDup (flat_map f l).
Proof.
  intros Hl. induction Hl as [|a l Ha Hl IH]; intros Hf Hd; [constructor|]. cbn [flat_map].
  assert (NoDup (f a)) as H1 by (apply Hf; now left).
  assert (NoDup (flat_map f l)) as H2.
  { apply IH; [intros b Hb; apply Hf; now right|]. intros b c x Hb Hc. apply Hd; now right. }
  assert (forall x, In x (f a) -> ~ In x (flat_map f l)) as H3.
  { intros x Hx Hin. apply in_flat_map in Hin. destruct Hin as (b & Hb & Hxb). apply Ha.
    rewrite (Hd a b x (or_introl eq_refl) (or_intror Hb) Hx Hxb). exact Hb. }
  clear - H1 H2 H3. induction (f a) as [|x m IHm]; [exact H2|]. cbn [app]. inversion H1 as [|? ? N1 N2]; subst.
  constructor.
  - intros Hin. apply in_app_or in Hin. destruct Hin as [Hin|Hin]; [contradiction|]. apply (H3 x (or_introl eq_refl) Hin).
  - apply IHm; [exact N2|]. intros y Hy. apply H3. now right.
Qed.
Lemma zseq_nodup n : NoDup (zseq n).
Proof.
  unfold zseq. apply FinFun.Injective_map_NoDup; [intros a b; lia|apply seq_NoDup].
Qed.

Section Units.
  Variables (g : geometry) (ks : list nat).
  Hypothesis Hfac : forall k, In k ks -> 1 <= fst (factor g k) /\ 1 <= snd (factor g k).
  Hypothesis Hks : NoDup ks.

  Lemma in_mcu u i j k : In u (mcu_units g i j k) <->
    fst u = k /\ (j * fst (factor g k) <= fst (snd u) < (j + 1) * fst (factor g k)) /\
    (i * snd (factor g k) <= snd (snd u) < (i + 1) * snd (factor g k)).
  Proof.
    unfold mcu_units. rewrite in_flat_map. destruct u as [k' [x y]]. cbn [fst snd]. split.
    - intros (v & Hv & Hu). apply zseq_in in Hv. apply in_map_iff in Hu. destruct Hu as (w & E & Hw). apply zseq_in in Hw.
      injection E as <- <- <-. lia.
    - intros (-> & Hx & Hy). exists (y - i * snd (factor g k)). split; [apply zseq_in; lia|]. apply in_map_iff.
      exists (x - j * fst (factor g k)). split; [do 2 f_equal; lia|apply zseq_in; lia].
  Qed.
  Lemma in_units u : In u (scan_units g ks) <->
    In (fst u) ks /\ 0 <= fst (snd u) < g_mx g * fst (factor g (fst u)) /\ 0 <= snd (snd u) < g_my g * snd (factor g (fst u)).
  Proof.
    unfold scan_units. rewrite in_flat_map. setoid_rewrite in_flat_map. setoid_rewrite in_flat_map. setoid_rewrite zseq_in.
    setoid_rewrite in_mcu. destruct u as [k [x y]]. cbn [fst snd]. split.
    - intros (i & Hi & j & Hj & k' & Hk & <- & Hx & Hy). destruct (Hfac k Hk) as [F1 F2]. split; [exact Hk|]. nia.
    - intros (Hk & Hx & Hy). destruct (Hfac k Hk) as [F1 F2]. exists (y / snd (factor g k)).
      split; [split; [apply Z.div_pos; lia|apply Z.div_lt_upper_bound; lia]|]. exists (x / fst (factor g k)).
      split; [split; [apply Z.div_pos; lia|apply Z.div_lt_upper_bound; lia]|]. exists k. split; [exact Hk|]. split; [reflexivity|].
      pose proof (Z.div_mod x (fst (factor g k)) ltac:(lia)). pose proof (Z.mod_pos_bound x (fst (factor g k)) ltac:(lia)).
      pose proof (Z.div_mod y (snd (factor g k)) ltac:(lia)). pose proof (Z.mod_pos_bound y (snd (factor g k)) ltac:(lia)). nia.
  Qed.
  Lemma units_nodup : NoDup (scan_units g ks).
  Proof.
    assert (forall k a b x, 1 <= k -> a * k <= x < (a + 1) * k -> b * k <= x < (b + 1) * k -> a = b) as Huniq.
    { intros k a b x Hk H1 H2. destruct (Z.lt_trichotomy a b) as [L|[L|L]]; [nia|exact L|nia]. }
    unfold scan_units. apply NoDup_flat; [apply zseq_nodup| |].
    - intros i _. apply NoDup_flat; [apply zseq_nodup| |].
      + intros j _. apply NoDup_flat; [exact Hks| |].
        * intros k Hk. unfold mcu_units. apply NoDup_flat; [apply zseq_nodup| |].
          -- intros v _. apply FinFun.Injective_map_NoDup; [|apply zseq_nodup]. intros a b E. injection E. lia.
          -- intros a b x _ _ H1 H2. apply in_map_iff in H1. apply in_map_iff in H2.
             destruct H1 as (? & <- & _). destruct H2 as (? & E & _). injection E. lia.
        * intros a b x _ _ H1 H2. apply in_mcu in H1. apply in_mcu in H2. destruct H1 as [<- _]. now destruct H2.
      + intros a b x _ _ H1 H2. apply in_flat_map in H1. apply in_flat_map in H2.
        destruct H1 as (k & Hk & H1). destruct H2 as (k' & Hk' & H2). apply in_mcu in H1. apply in_mcu in H2.
        destruct H1 as (<- & H1 & _). destruct H2 as (<- & H2 & _). destruct (Hfac _ Hk). eapply Huniq; [|exact H1|exact H2]. assumption.
    - intros a b x _ _ H1 H2. apply in_flat_map in H1. apply in_flat_map in H2.
      destruct H1 as (j & _ & H1). destruct H2 as (j' & _ & H2). apply in_flat_map in H1. apply in_flat_map in H2.
      destruct H1 as (k & Hk & H1). destruct H2 as (k' & Hk' & H2). apply in_mcu in H1. apply in_mcu in H2.
      destruct H1 as (<- & _ & H1). destruct H2 as (<- & _ & H2). destruct (Hfac _ Hk). eapply Huniq; [|exact H1|exact H2]. assumption.
  Qed.
End Units.

(** * One scan *)
Lemma entropy_inter d st buf g ks V codes T sb (real : unit_ -> Prop) bits tail :
  check_component_dimensions d = Ok tt -> Z.of_nat (length ks) <= num_components (d_incs d) -> (2 <= length ks)%nat ->
  d_nscans d = Z.of_nat (length ks) -> d_se d = 0 -> NoDup ks -> 0 <= d_al d <= 13 -> b_al st = d_al d ->
  d_mcux d = g_mx g -> d_mcuy d = g_my g ->
  (forall kk, (kk < length ks)%nat -> zget (d_zorder d) (Z.of_nat kk) = Some (Z.of_nat (nth kk ks 0%nat))) ->
  (forall k, In k ks -> exists c plane0, zget (d_comps d) (Z.of_nat k) = Some c /\
     factor g k = (c_h c, c_v c) /\ 1 <= c_h c /\ 1 <= c_v c /\ c_stride c = 8 * sb k /\ sb k = g_mx g * c_h c /\
     prog_table (d_dcts d) (c_dct c) = Ok (T k) /\
     (d_ah d = 0 -> exists counts symbols, dc_table (T k) counts symbols /\ codes k = code_of counts symbols) /\
     zget buf (Z.of_nat k) = Some plane0 /\ 64 * (sb k * (g_my g * c_v c)) <= zlen plane0) ->
  (forall k x y, Z.abs (V k x y) <= 32767) ->
  (d_ah d <> 0 -> d_al d <= 12 /\ forall k x y plane0, In k ks -> real (k, (x, y)) -> zget buf (Z.of_nat k) = Some plane0 ->
     zn plane0 (64 * (x + y * sb k)) = dc_known (d_al d + 1) (V k x y)) ->
  dc_units_data codes (d_ah d) (d_al d) (unit_values V (scan_units g ks)) bits ->
  Z.of_nat (length (scan_units g ks)) < d_todo d < 2 ^ 64 ->
  bytes (b_rd st) -> known (snd (entropy (b_rd st))) -> scan_bits (b_rd st) = (bits ++ tail)%list ->
  exists m comps st' buf',
    parse_entropy_coded_data (mkPst d st buf) = (Ok tt, mkPst (set_d_comps comps (set_d_todo m d)) st' buf') /\
    map (set_c_pred 0) comps = map (set_c_pred 0) (d_comps d) /\
    d_todo d - Z.of_nat (length (scan_units g ks)) <= m <= d_todo d /\
    map (@length Z) buf' = map (@length Z) buf /\
    (forall k x y plane, In (k, (x, y)) (scan_units g ks) -> real (k, (x, y)) -> zget buf' (Z.of_nat k) = Some plane ->
       zn plane (64 * (x + y * sb k)) = dc_known (d_al d) (V k x y)) /\
    (forall k plane plane0 p, zget buf' (Z.of_nat k) = Some plane -> zget buf (Z.of_nat k) = Some plane0 -> 0 <= p ->
       (forall x y, In (k, (x, y)) (scan_units g ks) -> p <> 64 * (x + y * sb k)) -> zn plane p = zn plane0 p) /\
    feed 0 st' tail (snd (entropy (b_rd st))) /\
    (d_ah d = 0 -> scan_units g ks <> [] ->
     dc_units_last codes (d_al d) (fun _ => 0) (unit_values V (scan_units g ks)) + blen tail <= 15 ->
     snd (entropy (b_rd st)) <> AtEnd -> b_marker st' <> None).
Proof.
  intros Hdims Hnc H2 Hns Hse Hnd Hal Hbal Hmx Hmy Hzo Hks Hval Hold Hdata Htodo Hby Hkn Hbits.
  pose proof (feed_reset st Hby Hkn) as Hf. rewrite Hbits in Hf.
  set (d1 := set_d_comps (map (set_c_pred 0) (d_comps d)) d) in *.
  assert (forall k, In k ks -> 1 <= fst (factor g k) /\ 1 <= snd (factor g k)) as Hfac.
  { intros k Hk. destruct (Hks k Hk) as (c & p0 & _ & -> & A & B & _). auto. }
  set (full := scan_units g ks) in *.
  assert (forall u, In u full -> In (fst u) ks /\ 0 <= fst (snd u) < g_mx g * fst (factor g (fst u)) /\
    0 <= snd (snd u) < g_my g * snd (factor g (fst u))) as Hin by (intros u Hu; now apply (in_units g ks Hfac)).
  set (rows := fun k => g_my g * snd (factor g k)).
  assert (forall k c, zget (d_comps d) k = Some c -> zget (d_comps d1) k = Some (set_c_pred 0 c)) as Hget.
  { intros k c Hc. unfold d1. cbn [d_comps set_d_comps]. now rewrite zget_map, Hc. }
  assert (inv d1 (d_al d) V sb codes full buf tail (snd (entropy (b_rd st))) real (d_todo d) full (mkPst d1 (bst_reset st) buf)) as HI.
  { constructor. exists [], (fun _ => 0), (d_comps d1), (bst_reset st), buf, bits.
    split; [reflexivity|]. split; [|split; [reflexivity|split; [|split; [exact Hbal|split; [|split; [exact Hf|split; [reflexivity|split; [contradiction|split; [|split]]]]]]]]].
    - reflexivity.
    - intros k c Hc. unfold d1 in Hc. cbn [d_comps set_d_comps] in Hc. rewrite zget_map in Hc.
      destruct (zget (d_comps d) (Z.of_nat k)); [|discriminate]. injection Hc as <-. reflexivity.
    - unfold data, dc_units_data in *. change (d_ah d1) with (d_ah d). destruct (d_ah d =? 0); [exact Hdata|].
      rewrite Hdata. unfold unit_values. rewrite map_map. reflexivity.
    - intros k plane plane0 p A B _ _. rewrite A in B. injection B as <-. reflexivity.
    - intros _ _. reflexivity.
    - intros _ _ C. contradiction C. reflexivity. }
  destruct (inter_loops d1 (d_al d) V sb rows codes T full buf tail (snd (entropy (b_rd st))) real) with (g := g) (ks := ks)
    (s := mkPst d1 (bst_reset st) buf) as (s' & E & m & [(done & preds & comps & st' & buf' & bits' & A1 & -> & A2 & A3 & A4 & A5 & A6 & A7 & A8 & A9 & _ & A10)] & Hm).
  - exact Hal.
  - intros u Hu. destruct (Hin u Hu) as (Hk & Hx & Hy). destruct (Hks _ Hk) as (c & p0 & _ & Hfa & _ & _ & _ & Esb & _).
    rewrite Esb. unfold rows. rewrite Hfa in Hx, Hy |- *. auto.
  - intros u Hu. destruct (Hin u Hu) as (Hk & _). destruct (Hks _ Hk) as (c & p0 & _ & Hfa & _ & _ & _ & _ & _ & _ & Hp0 & Hl).
    exists p0. split; [exact Hp0|]. unfold rows. rewrite Hfa. exact Hl.
  - intros u Hu. destruct (Hin u Hu) as (Hk & _). destruct (Hks _ Hk) as (c & p0 & Hc & _ & _ & _ & Hs & _).
    exists (set_c_pred 0 c). split; [now apply Hget|exact Hs].
  - intros u _. apply Hval.
  - now apply units_nodup.
  - intros Ha u Hu. destruct (Hin u Hu) as (Hk & _). destruct (Hks _ Hk) as (c & p0 & _ & _ & _ & _ & _ & _ & _ & Htb & _). now apply Htb.
  - intros Ha. destruct (Hold Ha) as [G1 G2]. split; [exact G1|]. intros [k [x y]] p0 Hu Hr Hp0. cbn [fst snd] in *.
    destruct (Hin _ Hu) as (Hk & _). exact (G2 k x y p0 Hk Hr Hp0).
  - reflexivity.
  - exact Hmx.
  - exact Hmy.
  - exact Hns.
  - exact Hzo.
  - intros k Hk. destruct (Hks k Hk) as (c & p0 & Hc & Hfa & C1 & C2 & Hs & _ & Htb & _). exists (set_c_pred 0 c).
    split; [now apply Hget|]. auto.
  - exact Htodo.
  - exists (d_todo d). split; [exact HI|]. change (d_todo d1) with (d_todo d). lia.
  - rewrite app_nil_r in A1. subst done. cbn [length] in Hm. change (d_todo d1) with (d_todo d) in Hm.
    exists m, comps, st', buf'. split; [|split; [|split; [lia|split; [exact A7|split; [|split; [|split]]]]]].
    + unfold parse_entropy_coded_data.
      erewrite bindok by reflexivity. cbn [p_dec]. rewrite Hdims. unfold lift at 1. erewrite bindok by reflexivity.
      erewrite bindok by reflexivity. erewrite bindok by reflexivity. erewrite bindok by reflexivity.
      cbn [p_dec p_st p_buf]. fold d1.
      change (num_components (d_incs d1)) with (num_components (d_incs d)).
      change (d_nscans d1) with (d_nscans d) in *. change (d_se d1) with (d_se d).
      change (d_mcux d1) with (d_mcux d) in *. change (d_mcuy d1) with (d_mcuy d) in *.
      replace (num_components (d_incs d) <? d_nscans d) with false by lia.
      replace (d_nscans d =? 1) with false by lia. rewrite Hse. change (negb (0 =? 0)) with false. cbv iota. exact E.
    + rewrite A2. unfold d1. cbn [d_comps set_d_comps]. rewrite map_map. now apply map_ext.
    + intros k x y plane Hu Hr Hp. exact (A8 (k, (x, y)) plane Hu Hr Hp).
    + intros k plane plane0 p Hp Hp0 Hp00 Hno. apply (A9 k plane plane0 p Hp Hp0 Hp00). intros [k' [x y]] Hu Ek. cbn [fst] in Ek. subst k'. now apply Hno.
    + unfold data in A5. destruct (d_ah d1 =? 0); [destruct A5 as [A5 _]; injection A5 as <-|subst bits']; exact A6.
    + intros Ha Hne. apply A10; [exact Ha|reflexivity|exact Hne].
Qed.
