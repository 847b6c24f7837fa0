(** Lemmas about progressive scans. *)
From Coq Require Import ZArith String List Bool Lia.
From Coq Require Import ZifyBool ZifyNat ZifyN.
From Verif Require Import Base Types Huffman State Bitstream Headers Mcu McuProg Decoder SpecSegments SpecBits SpecProg Obs ObsProg.
From Verif Require Import BaseFacts HeaderFacts ColorFacts DecodeInv Keeps.
Import ListNotations.
Local Open Scope Z_scope.
Ltac Zify.zify_post_hook ::= Z.div_mod_to_equations.

(** * Inverting sequences that succeed *)
Lemma bindOk {S A B} (m : M S A) (k : A -> M S B) s b t :
  bind m k s = (Ok b, t) -> exists a s1, m s = (Ok a, s1) /\ k a s1 = (Ok b, t).
Proof. unfold bind. destruct (m s) as [[a|e|p|] s1] eqn:E; intros H; try discriminate. eauto. Qed.
Lemma bindok {S A B} (m : M S A) (k : A -> M S B) s a s1 : m s = (Ok a, s1) -> bind m k s = k a s1.
Proof. unfold bind. now intros ->. Qed.
Lemma nupd_same {A} : forall (l : list A) n x, nth_error l n = Some x -> nupd l n x = l.
Proof. induction l as [|y l IH]; intros [|n] x H; try discriminate; cbn in *; [congruence|]. f_equal. auto. Qed.
Lemma zset_same {A} (l : list A) i x : zget l i = Some x -> zset l i x = l.
Proof. unfold zget, zset. destruct (i <? 0); [discriminate|]. apply nupd_same. Qed.
Lemma nupd_twice {A} : forall (l : list A) n x y, nupd (nupd l n x) n y = nupd l n y.
Proof. induction l as [|z l IH]; intros [|n] x y; cbn; auto. f_equal. apply IH. Qed.
Lemma zset_twice {A} (l : list A) i x y : zset (zset l i x) i y = zset l i y.
Proof. apply nupd_twice. Qed.
Lemma nth_error_nupd {A} : forall (l : list A) n x, (n < length l)%nat -> nth_error (nupd l n x) n = Some x.
Proof. induction l as [|z l IH]; intros [|n] x H; cbn in *; try lia; auto. apply IH. lia. Qed.
Lemma zget_zset {A} (l : list A) i x y : zget l i = Some y -> zget (zset l i x) i = Some x.
Proof.
  unfold zget, zset. destruct (i <? 0); [discriminate|]. intros H. apply nth_error_nupd. apply nth_error_Some. congruence.
Qed.

(** * End-of-band runs *)
Lemma ac_first_loop_len : forall fuel t fast sh k block s b s',
  ac_first_loop fuel t fast sh k block s = (Ok b, s') -> length b = length block.
Proof.
  induction fuel as [|f IH]; intros t fast sh k block s b s' H; cbn [ac_first_loop] in H; [discriminate|].
  apply bindOk in H. destruct H as (? & s1 & _ & H). apply bindOk in H. destruct H as (st & s2 & _ & H). cbv zeta in H.
  destruct (negb (zn fast _ =? 0)).
  - apply bindOk in H. destruct H as (? & s3 & _ & H). apply bindOk in H. destruct H as (st3 & s4 & _ & H).
    destruct (b_se st3 <? _); [injection H as <- _; apply zset_length|]. apply IH in H. now rewrite zset_length in H.
  - apply bindOk in H. destruct H as (sym & s3 & _ & H). destruct (negb (Z.land sym 15 =? 0)).
    + apply bindOk in H. destruct H as (bits & s4 & _ & H). apply bindOk in H. destruct H as (st4 & s5 & _ & H).
      destruct (b_se st4 <? _); [injection H as <- _; apply zset_length|]. apply IH in H. now rewrite zset_length in H.
    + destruct (negb (shr sym 4 =? 15)).
      * apply bindOk in H. destruct H as (bits & s4 & _ & H). apply bindOk in H. destruct H as (? & s5 & _ & H). now injection H as <- _.
      * apply bindOk in H. destruct H as (st4 & s5 & _ & H). destruct (b_se st4 <? _); [now injection H as <- _|]. now apply IH in H.
Qed.
Lemma ac_first_len t block s b s' : decode_mcu_ac_first t block s = (Ok b, s') -> length b = length block.
Proof.
  unfold decode_mcu_ac_first. destruct (h_ac_lookup t); [|discriminate]. intros H.
  apply bindOk in H. destruct H as (st & s1 & _ & H). now apply ac_first_loop_len in H.
Qed.

Lemma run_scan_skip dec pos : forall n m b s plane, b_eob s = Z.of_nat m -> (m <= n)%nat ->
  run_scan dec pos n b s plane = run_scan dec pos (n - m) (b + Z.of_nat m) (set_eob s 0) plane.
Proof.
  induction n as [|n IH]; intros m b s plane He Hm.
  - assert (m = 0%nat) as -> by lia. cbn. destruct s; cbn in *; subst; reflexivity.
  - destruct m as [|m].
    + cbn [Nat.sub]. replace (set_eob s 0) with s by (destruct s; cbn in *; now subst). f_equal. lia.
    + cbn [run_scan]. replace (0 <? b_eob s) with true by lia.
      rewrite (IH m) by (cbn; lia). cbn [Nat.sub]. f_equal. lia.
Qed.
Lemma run_scan_over dec pos : forall n b s plane, Z.of_nat n <= b_eob s ->
  run_scan dec pos n b s plane = (Ok plane, set_eob s (b_eob s - Z.of_nat n)).
Proof.
  induction n as [|n IH]; intros b s plane H; [cbn; f_equal; rewrite Z.sub_0_r; now destruct s|].
  cbn [run_scan]. replace (0 <? b_eob s) with true by lia. rewrite IH by (cbn; lia). f_equal.
  destruct s; unfold set_eob; cbn -[Z.of_nat] in *. f_equal. lia.
Qed.

Lemma tick_quiet d s : 1 < d_todo d < 2 ^ 64 -> tick d s = (Ok tt, set_d_todo (d_todo d - 1) d, s).
Proof.
  intros H. unfold tick. cbv zeta.
  assert (u64 (d_todo d - 1) = d_todo d - 1) as -> by (unfold u64; apply Z.mod_small; change 18446744073709551616 with (2 ^ 64); lia).
  change (d_todo (set_d_todo (d_todo d - 1) d)) with (d_todo d - 1). now replace (d_todo d - 1 =? 0) with false by lia.
Qed.

Definition as_unit {A} (r : res A) : res unit :=
  match r with Ok _ => Ok tt | Err e => Err e | Panic p => Panic p | Fuel => Fuel end.

Lemma scan_blocks_runs k w h c t : 0 < w -> forall f i j d st buf plane,
  0 <= i -> 0 <= j <= w -> h * (w + 1) - (i * (w + 1) + j) < Z.of_nat f ->
  0 < d_todo d < 2 ^ 64 -> h * w - (i * w + j) < d_todo d ->
  d_ss d <> 0 -> d_ah d = 0 -> zget (d_comps d) k = Some c -> prog_table (d_acts d) (c_act c) = Ok t ->
  zget buf k = Some plane -> w <= c_stride c / 8 -> 64 * (c_stride c / 8) * h <= zlen plane ->
  match run_scan (decode_mcu_ac_first t) (block_at w (c_stride c / 8)) (Z.to_nat (h * w - (i * w + j))) (i * w + j) st plane with
  | (Ok plane', st') => exists d' st2,
      scan_blocks f k w h i j (mkPst d st buf) = (Ok tt, mkPst d' st2 (zset buf k plane')) /\
      set_eob st2 0 = set_eob st' 0 /\
      exists m, d' = set_d_todo m d /\ d_todo d - Z.max 0 (h * w - (i * w + j)) <= m <= d_todo d
  | (r, _) => fst (scan_blocks f k w h i j (mkPst d st buf)) = as_unit r
  end.
Proof.
  intros Hw. induction f as [|f IH]; intros i j d st buf plane Hi Hj Hf Ht Hn Hss Hah Hc Htab Hp Hst Hl.
  - assert (h <= i) as Hle by nia. assert (h * w - (i * w + j) <= 0) as Hneg by nia.
    replace (Z.to_nat (h * w - (i * w + j))) with 0%nat by lia. cbn [run_scan].
    cbn [scan_blocks]. replace (h <=? i) with true by lia. exists d, st. rewrite (zset_same _ _ _ Hp). split; [reflexivity|]. split; [reflexivity|].
    exists (d_todo d). split; [now destruct d|lia].
  - cbn [scan_blocks]. destruct (h <=? i) eqn:Eh.
    { assert (h * w - (i * w + j) <= 0) as Hneg by nia.
      replace (Z.to_nat (h * w - (i * w + j))) with 0%nat by lia. cbn [run_scan].
      exists d, st. rewrite (zset_same _ _ _ Hp). split; [reflexivity|]. split; [reflexivity|].
      exists (d_todo d). split; [now destruct d|lia]. }
    destruct (w <=? j) eqn:Ej.
    { assert (j = w) as -> by lia. replace (i * w + w) with ((i + 1) * w + 0) in * by lia.
      apply IH; auto; lia. }
    set (sb := c_stride c / 8) in *.
    assert (block_at w sb (i * w + j) = 64 * (j + i * sb)) as Hpos.
    { unfold block_at. rewrite (Z.add_comm (i * w) j), Z.div_add, Z.mod_add by lia. rewrite Z.div_small, Z.mod_small by lia. lia. }
    assert (0 <= i * sb) as P1 by nia. assert (i * sb + sb <= sb * h) as P2 by nia.
    assert (0 < h * w - (i * w + j)) as P3 by nia.
    set (start := 64 * (j + i * sb)) in *.
    assert (slice plane start (start + 64) = Some (firstn 64 (skipn (Z.to_nat start) plane))) as Hslice.
    { unfold slice. replace (_ && _) with true by lia. repeat f_equal. lia. }
    (* the steps up to the decision *)
    assert (get_comp k (mkPst d st buf) = (Ok c, mkPst d st buf)) as Egc
      by (unfold get_comp, bind, getp, lift, at_; cbn [p_dec]; now rewrite Hc).
    rewrite (bindok _ _ _ _ _ Egc). cbv zeta. fold sb. fold start.
    assert (get_block k start (mkPst d st buf) = (Ok (firstn 64 (skipn (Z.to_nat start) plane)), mkPst d st buf)) as Egb
      by (unfold get_block; cbn [p_buf]; now rewrite Hp, Hslice).
    rewrite (bindok _ _ _ _ _ Egb). rewrite (bindok getp _ (mkPst d st buf) d (mkPst d st buf) eq_refl).
    replace (d_ss d =? 0) with false by lia. rewrite Htab. replace (d_ah d =? 0) with true by lia.
    destruct (0 <? b_eob st) eqn:Ee.
    + (* inside a run *)
      set (p := j + b_eob st - 1). unfold lift. erewrite bindok by (unfold bind, ret, getps, modps; cbn [p_dec p_st p_buf]; rewrite Ee; reflexivity).
      fold p. cbv iota beta.
      assert (1 < d_todo d) as Ht1 by lia.
      assert (count_restart_p (mkPst d (set_eob st 0) buf) = (Ok tt, mkPst (set_d_todo (d_todo d - 1) d) (set_eob st 0) buf)) as Ecr
        by (unfold count_restart_p; cbn [p_dec p_st p_buf]; now rewrite tick_quiet by lia).
      rewrite (bindok _ _ _ _ _ Ecr).
      assert (exists m, b_eob st = Z.of_nat m /\ (0 < m)%nat) as (m & Hm & Hm0) by (exists (Z.to_nat (b_eob st)); lia).
      pose proof (Z.div_mod p w ltac:(lia)) as Hdm. pose proof (Z.mod_pos_bound p w Hw) as Hmb.
      assert (0 <= p / w) as Hq by (apply Z.div_pos; lia).
      pose proof (pos_forward i j w p Hw ltac:(lia) ltac:(lia)) as Hfwd.
      assert ((i + p / w) * w + (p mod w + 1) = i * w + j + Z.of_nat m) as Hlin by (unfold p in *; lia).
      destruct (Z.le_gt_cases (h * w - (i * w + j)) (Z.of_nat m)) as [Hov|Hin].
      * (* past the last block *)
        rewrite run_scan_over by lia.
        specialize (IH (i + p / w) (p mod w + 1) (set_d_todo (d_todo d - 1) d) (set_eob st 0) buf plane
          ltac:(lia) ltac:(lia) ltac:(lia) ltac:(cbn; lia) ltac:(cbn; lia) Hss Hah Hc Htab Hp Hst Hl).
        rewrite Hlin in IH. replace (Z.to_nat (h * w - (i * w + j + Z.of_nat m))) with 0%nat in IH by lia. cbn [run_scan] in IH.
        destruct IH as (d' & st2 & E & Eq & m' & -> & Hm'). exists (set_d_todo m' d), st2.
        split; [exact E|]. split; [rewrite Eq; now destruct st|]. exists m'. split; [reflexivity|].
        change (d_todo (set_d_todo (d_todo d - 1) d)) with (d_todo d - 1) in Hm'. lia.
      * rewrite (run_scan_skip _ _ _ m) by lia.
        specialize (IH (i + p / w) (p mod w + 1) (set_d_todo (d_todo d - 1) d) (set_eob st 0) buf plane
          ltac:(lia) ltac:(lia) ltac:(lia) ltac:(cbn; lia) ltac:(cbn; lia) Hss Hah Hc Htab Hp Hst Hl).
        rewrite Hlin in IH. 
        replace (Z.to_nat (h * w - (i * w + j + Z.of_nat m))) with (Z.to_nat (h * w - (i * w + j)) - m)%nat in IH by lia.
        destruct (run_scan _ _ _ _ (set_eob st 0) _) as [[pl|e|e|] st2]; try exact IH.
        destruct IH as (d' & st3 & E & Eq & m' & -> & Hm'). exists (set_d_todo m' d), st3.
        split; [exact E|]. split; [exact Eq|]. exists m'. split; [reflexivity|].
        change (d_todo (set_d_todo (d_todo d - 1) d)) with (d_todo d - 1) in Hm'. lia.
    + (* a decoded block *)
      replace (Z.to_nat (h * w - (i * w + j))) with (S (Z.to_nat (h * w - (i * w + (j + 1))))) by lia.
      cbn [run_scan]. rewrite Ee, Hpos. 
      set (blk := firstn 64 (skipn (Z.to_nat start) plane)).
      fold blk. match goal with |- context [bind ?m ?kk (mkPst d st buf)] => set (X := bind m kk (mkPst d st buf)) end.
      destruct (decode_mcu_ac_first t blk st) as [r st1] eqn:Ed.
      destruct r as [blk'|e|e|].
      2-4: (unfold X, lift, bind, getps, on_st; cbn [p_st p_dec p_buf]; rewrite Ee; cbn [p_st]; rewrite Ed; reflexivity).
      assert (length blk' = 64%nat) as Hlen.
      { rewrite (ac_first_len _ _ _ _ _ Ed). unfold blk. rewrite firstn_length, skipn_length. unfold zlen in Hl. lia. }
      set (buf' := zset buf k (splice plane start blk')).
      assert (X = scan_blocks f k w h i (j + 1) (mkPst (set_d_todo (d_todo d - 1) d) st1 buf')) as ->.
      { unfold X, lift, bind, getps, on_st; cbn [p_st p_dec p_buf]; rewrite Ee; cbn [p_st]; rewrite Ed.
        unfold put_block. cbn [p_dec p_st p_buf]. rewrite Hp. unfold ret. unfold count_restart_p. cbn [p_dec p_st p_buf].
        rewrite tick_quiet by lia. reflexivity. }
      assert (zlen (splice plane start blk') = zlen plane) as Hl'.
      { unfold zlen. rewrite splice_length by (unfold zlen in *; lia). reflexivity. }
      specialize (IH i (j + 1) (set_d_todo (d_todo d - 1) d) st1 buf' (splice plane start blk')
          ltac:(lia) ltac:(lia) ltac:(lia) ltac:(cbn; lia) ltac:(cbn; lia) Hss Hah Hc Htab (zget_zset _ _ _ _ Hp) Hst ltac:(rewrite Hl'; exact Hl)).
      replace (i * w + (j + 1)) with (i * w + j + 1) in IH by lia.
      unfold splice in IH at 1. rewrite Hlen in IH.
      replace (i * w + (j + 1)) with (i * w + j + 1) by lia.
      destruct (run_scan _ _ _ _ st1 _) as [[pl|e|e|] st2]; try exact IH.
      destruct IH as (d' & st3 & E & Eq & m' & -> & Hm'). exists (set_d_todo m' d), st3.
      split; [rewrite E; unfold buf'; now rewrite zset_twice|]. split; [exact Eq|]. exists m'. split; [reflexivity|].
      change (d_todo (set_d_todo (d_todo d - 1) d)) with (d_todo d - 1) in Hm'. lia.
Qed.

(** * The scan limit *)
Lemma is_eoi_iff m : is_eoi m = true <-> m = EOI.
Proof. destruct m; cbn; split; congruence. Qed.

Definition popts (s : pst) : options := d_opt (p_dec s).
Lemma one_scan_opts s r s' : one_scan s = (r, s') -> popts s' = popts s.
Proof.
  intros H. assert (keeps (fun s => d_opt (p_dec s)) one_scan) as K.
  { unfold one_scan. apply keeps_bind; [apply keeps_on_hd, keeps_parse_sos; apply untouched_opt|]. intros _.
    apply keeps_bind; [now intros x|]. intros d. apply keeps_bind; [now intros x|]. intros _.
    apply keeps_parse_entropy, untouched_opt. }
  specialize (K s). rewrite H in K. exact K.
Qed.
Lemma marker_opts s r s' : get_marker s = (r, s') -> popts s' = popts s.
Proof. intros H. pose proof (keeps_get_marker d_opt s) as K. rewrite H in K. exact K. Qed.
Lemma tables_opts s r s' : on_hd parse_huffman s = (r, s') -> popts s' = popts s.
Proof.
  intros H. pose proof (keeps_on_hd d_opt parse_huffman (keeps_parse_huffman d_opt untouched_opt) s) as K.
  rewrite H in K. exact K.
Qed.

Lemma scan_loop_sos f seen s : scan_loop (S f) SOS seen s =
  bind one_scan (fun _ => bind get_marker (fun o => match o with
            | None => fail missing_marker
            | Some m' =>
                bind getp (fun d => 
                if o_max_scans (d_opt d) <? seen + 1 then
                  fail (EFormat "Too many scans, exceeded limit" [o_max_scans (d_opt d)])
                else bind (modps bst_reset) (fun _ => scan_loop f m' (seen + 1)))
            end)) s.
Proof.
  cbn [scan_loop is_eoi]. unfold one_scan, bind.
  destruct (on_hd parse_sos s) as [[u|e|e|] s1]; try reflexivity.
Qed.

Lemma scan_loop_sound : forall f m seen s s', scan_loop f m seen s = (Ok tt, s') ->
  exists n, later_scans m s n s' /\ (n = 0%nat \/ seen + Z.of_nat n <= o_max_scans (popts s)).
Proof.
  induction f as [|f IH]; intros m seen s s' H.
  - cbn [scan_loop] in H. destruct (is_eoi m) eqn:E; [|discriminate]. apply is_eoi_iff in E. subst m.
    injection H as <-. exists 0%nat. split; [now constructor|auto].
  - destruct (is_eoi m) eqn:E.
    { apply is_eoi_iff in E. subst m. injection H as <-. exists 0%nat. split; [now constructor|auto]. }
    assert (forall s', scan_loop (S f) m seen s = (Ok tt, s') -> m <> DHT -> m <> SOS -> 
        exists n, later_scans m s n s' /\ (n = 0%nat \/ seen + Z.of_nat n <= o_max_scans (popts s))) as Hother.
    { intros x Hx H1 H2. cbn [scan_loop] in Hx. rewrite E in Hx. exists 0%nat.
      destruct m; try congruence; injection Hx as <-; (split; [now constructor|auto]). }
    destruct m; try (apply Hother; [exact H|discriminate|discriminate]).
    + (* DHT *)
      cbn [scan_loop is_eoi] in H. apply bindOk in H. destruct H as ([] & s1 & E1 & H).
      apply bindOk in H. destruct H as ([m'|] & s2 & E2 & H); [|discriminate].
      destruct (IH _ _ _ _ H) as (n & Hn & Hle). exists n. split; [econstructor; eauto|].
      rewrite (marker_opts _ _ _ E2), (tables_opts _ _ _ E1) in Hle. exact Hle.
    + (* SOS *)
      rewrite scan_loop_sos in H. apply bindOk in H. destruct H as ([] & s1 & E1 & H).
      apply bindOk in H. destruct H as ([m'|] & s2 & E2 & H); [|discriminate].
      apply bindOk in H. destruct H as (d & s3 & E3 & H). injection E3 as <- <-.
      destruct (_ <? _) eqn:El; [discriminate|]. apply bindOk in H. destruct H as ([] & s4 & E4 & H).
      injection E4 as <-. destruct (IH _ _ _ _ H) as (n & Hn & Hle). exists (S n).
      split; [econstructor; eauto|]. unfold popts in Hle at 1. cbn [p_dec] in Hle.
      pose proof (marker_opts _ _ _ E2) as M1. pose proof (one_scan_opts _ _ _ E1) as M2. unfold popts in *.
      rewrite M1, M2 in *. right. lia.
Qed.

Lemma scan_loop_complete m s n s' : later_scans m s n s' -> forall f seen,
  match scan_loop f m seen s with
  | (Ok tt, t) => t = s' /\ (n = 0%nat \/ seen + Z.of_nat n <= o_max_scans (popts s))
  | (Err e, _) => e = EFormat "Too many scans, exceeded limit" [o_max_scans (popts s)] /\
                  o_max_scans (popts s) < seen + Z.of_nat n /\ (0 < n)%nat
  | (Panic _, _) => False
  | (Fuel, _) => True
  end.
Proof.
  induction 1 as [m s H1 H2|s s1 m s2 n s' E1 E2 Hl IH|s s1 m s2 n s' E1 E2 Hl IH]; intros f seen.
  - destruct f; cbn [scan_loop]; destruct (is_eoi m) eqn:E; cbn; auto.
    destruct m; cbn; auto; congruence.
  - destruct f as [|f]; [cbn; exact I|]. cbn [scan_loop is_eoi].
    rewrite (bindok _ _ _ _ _ E1), (bindok _ _ _ _ _ E2). specialize (IH f seen).
    now rewrite (marker_opts _ _ _ E2), (tables_opts _ _ _ E1) in IH.
  - destruct f as [|f]; [cbn; exact I|]. rewrite scan_loop_sos, (bindok _ _ _ _ _ E1), (bindok _ _ _ _ _ E2).
    rewrite (bindok getp _ s2 (p_dec s2) s2 eq_refl). fold (popts s2).
    assert (popts s2 = popts s) as Ho by (rewrite (marker_opts _ _ _ E2); eapply one_scan_opts; eauto).
    rewrite Ho. destruct (o_max_scans (popts s) <? seen + 1) eqn:El.
    + cbn. split; [reflexivity|lia].
    + unfold modps at 1. unfold bind. specialize (IH f (seen + 1)).
      change (popts (mkPst (p_dec s2) (bst_reset (p_st s2)) (p_buf s2))) with (popts s2) in IH. rewrite Ho in IH.
      destruct (scan_loop f m (seen + 1) _) as [[[]|e|e|] t]; auto.
      * destruct IH as [-> Hor]. split; [reflexivity|]. right. destruct Hor as [->|]; lia.
      * destruct IH as [-> Hor]. split; [reflexivity|]. lia.
Qed.

Lemma decode_progressive_scans h px h' : decode_progressive h = (Ok px, h') ->
  exists m s n s', first_scan h m s /\ later_scans m s n s' /\
    Z.of_nat (1 + n) <= Z.max 1 (o_max_scans (d_opt (hd_dec h))).
Proof.
  unfold decode_progressive. destruct (prog_counts (hd_dec h)) as [w hh] eqn:Ec.
  destruct (rbind _ _) as [buf|e|e|] eqn:Eb; try discriminate.
  destruct (progressive_scans w _) as [r s] eqn:Ep. intros H. injection H as -> _.
  unfold progressive_scans in Ep. apply bindOk in Ep. destruct Ep as ([] & s1 & E1 & Ep).
  apply bindOk in Ep. destruct Ep as (st & s2 & E2 & Ep). injection E2 as <- <-.
  destruct (b_marker (p_st s1)) as [m|] eqn:Em; [|discriminate].
  apply bindOk in Ep. destruct Ep as ([] & s3 & E3 & Ep). injection E3 as <-.
  apply bindOk in Ep. destruct Ep as ([] & s4 & E4 & _).
  destruct (scan_loop_sound _ _ _ _ _ E4) as (n & Hn & Hle).
  eexists m, _, n, s4. split; [|split; [exact Hn|]].
  - exists w, hh, buf, s1. split; [exact Ec|]. split.
    + unfold rbind in Eb. destruct (check_component_dimensions _); try discriminate. exact Eb.
    + repeat split; auto.
  - unfold popts in Hle. cbn [p_dec] in Hle.
    pose proof (keeps_parse_entropy d_opt untouched_opt (mkPst (hd_dec h) (bst_new_progressive (d_ah (hd_dec h)) (d_al (hd_dec h)) (d_ss (hd_dec h)) (d_se (hd_dec h)) (hd_rd h)) buf)) as K.
    rewrite E1 in K. cbn [snd p_dec] in K. rewrite K in Hle. lia.
Qed.

(** At the API *)
From Verif Require Import HeaderInv ApiFacts Session.
Lemma headers_max_scans cpu o cs buf h1 : Forall legal_call cs -> Forall byte buf ->
  decode_headers (mkHst (after cpu o cs) buf) = (Ok tt, h1) ->
  o_max_scans (d_opt (hd_dec h1)) = o_max_scans (d_opt (after cpu o cs)).
Proof.
  intros Hcs Hb H. pose proof (decode_headers_step (mkHst (after cpu o cs) buf) (after_inv cpu o cs Hcs) Hb) as Hs.
  unfold wp in Hs. rewrite H in Hs. destruct (hs_setup _ _ _ _ _ Hs) as (E & _). cbn [fst snd hd_dec] in E.
  now rewrite E.
Qed.
Lemma headers_prog cpu o cs buf h1 : Forall legal_call cs -> Forall byte buf ->
  decode_headers (mkHst (after cpu o cs) buf) = (Ok tt, h1) ->
  i_sof (d_info (hd_dec h1)) = ProgressiveDctHuffman -> d_prog (hd_dec h1) = true.
Proof.
  intros Hcs Hb H Hsof. pose proof (decode_headers_step (mkHst (after cpu o cs) buf) (after_inv cpu o cs Hcs) Hb) as Hs.
  unfold wp in Hs. rewrite H in Hs. destruct (hs_setup _ _ _ _ _ Hs) as (_ & _ & _ & _ & _ & _ & E). cbn [fst snd hd_dec] in E.
  exact (prog_inv_rel _ _ (after_prog cpu o cs Hcs) E Hsof).
Qed.

Lemma C39_limit_lemma cpu o cs buf px d' h1 : Forall legal_call cs -> Forall byte buf ->
  decode_headers (mkHst (after cpu o cs) buf) = (Ok tt, h1) ->
  i_sof (d_info (hd_dec h1)) = ProgressiveDctHuffman ->
  decode_buffer (after cpu o cs) buf = (Ok px, d') ->
  exists m s n s', first_scan h1 m s /\ later_scans m s n s' /\
    Z.of_nat (1 + n) <= Z.max 1 (o_max_scans (d_opt (after cpu o cs))).
Proof.
  intros Hcs Hb Hh Hsof H. rewrite <- (headers_max_scans cpu o cs buf h1 Hcs Hb Hh).
  unfold decode_buffer, on_buffer in H. rewrite decode_internal_split, Hh, (headers_prog cpu o cs buf h1 Hcs Hb Hh Hsof) in H.
  destruct (decode_progressive h1) as [r h2] eqn:Ed. injection H as -> <-. exact (decode_progressive_scans _ _ _ Ed).
Qed.

Lemma C39_excess_lemma cpu o cs buf h1 m s n s' : Forall legal_call cs -> Forall byte buf ->
  decode_headers (mkHst (after cpu o cs) buf) = (Ok tt, h1) ->
  i_sof (d_info (hd_dec h1)) = ProgressiveDctHuffman ->
  first_scan h1 m s -> later_scans m s n s' ->
  let lim := o_max_scans (d_opt (after cpu o cs)) in
  if (n =? 0)%nat || (Z.of_nat (1 + n) <=? lim)
  then fst (decode_buffer (after cpu o cs) buf)
       = fst (finish_progressive_decoding (fst (prog_counts (hd_dec h1)) * 64) s')
  else fst (decode_buffer (after cpu o cs) buf) = Err (EFormat "Too many scans, exceeded limit" [lim]).
Proof.
  intros Hcs Hb Hh Hsof (w & hh & buf1 & s1 & Ec & Eb & E1 & Em & ->) Hl lim.
  assert (check_component_dimensions (hd_dec h1) = Ok tt) as Hdim.
  { pose proof E1 as E0. unfold parse_entropy_coded_data in E0. apply bindOk in E0. destruct E0 as (d & x & Ed & E0).
    injection Ed as <- <-. apply bindOk in E0. destruct E0 as ([] & y & Ey & _). unfold lift in Ey. now injection Ey as -> _. }
  pose proof (proj2 (C01_lemma cpu o cs buf Hcs Hb)) as Hfuel. revert Hfuel.
  unfold decode_buffer, on_buffer. rewrite decode_internal_split, Hh, (headers_prog cpu o cs buf h1 Hcs Hb Hh Hsof).
  unfold decode_progressive. rewrite Ec. unfold rbind. rewrite Hdim, Eb. cbn [fst].
  pose proof (scan_loop_complete _ _ _ _ Hl (S (length (b_rd (p_st s1)))) 1) as Hc.
  set (s0 := mkPst (p_dec s1) (set_marker (p_st s1) None) (p_buf s1)) in *.
  assert (o_max_scans (popts s0) = lim) as Ho.
  { unfold lim. rewrite <- (headers_max_scans cpu o cs buf h1 Hcs Hb Hh).
    match type of E1 with parse_entropy_coded_data ?x = _ => pose proof (keeps_parse_entropy d_opt untouched_opt x) as K end.
    rewrite E1 in K. cbn [snd p_dec] in K. unfold popts, s0. cbn [p_dec]. now rewrite K. }
  rewrite Ho in Hc.
  unfold progressive_scans. rewrite (bindok _ _ _ _ _ E1). rewrite (bindok getps _ s1 (p_st s1) s1 eq_refl). rewrite Em.
  rewrite (bindok (modps _) _ s1 tt s0 eq_refl).
  unfold bind.
  destruct (scan_loop _ m 1 s0) as [[[]|e|e|] t] eqn:El.
  - destruct Hc as [-> Hor]. intros _.
    replace (_ || _) with true by (destruct Hor; [subst n; reflexivity|symmetry; lia]).
    destruct (finish_progressive_decoding (w * 64) s') as [r sf]. reflexivity.
  - destruct Hc as [-> Hor]. intros _.
    replace (n =? 0)%nat with false by lia.
    replace (_ <=? _) with false by lia. reflexivity.
  - contradiction.
  - cbn. intros H. now contradiction H.
Qed.

Lemma C37_lemma k w h c t d st buf plane :
  0 < w -> 0 <= h -> w * h < d_todo d < 2 ^ 64 ->
  d_ss d <> 0 -> d_ah d = 0 -> zget (d_comps d) k = Some c -> prog_table (d_acts d) (c_act c) = Ok t ->
  zget buf k = Some plane -> w <= c_stride c / 8 -> 64 * (c_stride c / 8) * h <= zlen plane ->
  let r := scan_blocks (Z.to_nat (h * (w + 1) + 1)) k w h 0 0 (mkPst d st buf) in
  match run_scan (decode_mcu_ac_first t) (block_at w (c_stride c / 8)) (Z.to_nat (w * h)) 0 st plane with
  | (Ok plane', _) => fst r = Ok tt /\ p_buf (snd r) = zset buf k plane'
  | (Err e, _) => fst r = Err e
  | (Panic p, _) => fst r = Panic p
  | (Fuel, _) => fst r = Fuel
  end.
Proof.
  intros Hw Hh Ht Hss Hah Hc Htab Hp Hst Hl r.
  assert (0 <= w * h) by nia. assert (0 <= h * (w + 1)) by nia.
  pose proof (scan_blocks_runs k w h c t Hw (Z.to_nat (h * (w + 1) + 1)) 0 0 d st buf plane ltac:(lia) ltac:(lia) ltac:(lia)
     ltac:(lia) ltac:(lia) Hss Hah Hc Htab Hp Hst Hl) as H1.
  fold r in H1. replace (h * w - (0 * w + 0)) with (w * h) in H1 by lia. replace (0 * w + 0) with 0 in H1 by lia.
  destruct (run_scan _ _ _ 0 st plane) as [[p|e|e|] st']; cbn [as_unit] in H1; auto.
  destruct H1 as (d' & st2 & -> & _ & _). auto.
Qed.
