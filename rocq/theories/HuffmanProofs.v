(** The table constructor of [Huffman.v] against the specification in [SpecHuffman.v]. *)
From Coq Require Import ZArith String List Bool Lia.
From Coq Require Import ZifyBool ZifyNat ZifyN.
From Verif Require Import Base Huffman BaseFacts SpecHuffman.
Import ListNotations.
Local Open Scope Z_scope.
Ltac Zify.zify_post_hook ::= Z.div_mod_to_equations.

Lemma pow2_pos n : 0 <= n -> 0 < 2 ^ n.
Proof. intros. apply Z.pow_pos_nonneg; lia. Qed.
Lemma pow2_split a b : 0 <= a -> 0 <= b -> 2 ^ (a + b) = 2 ^ a * 2 ^ b.
Proof. intros. now apply Z.pow_add_r. Qed.

(** * The specification's own facts *)

Lemma first_code_S counts l :
  (1 <= l)%nat -> first_code counts (S l) = 2 * (first_code counts l + count counts l).
Proof. destruct l; [lia|reflexivity]. Qed.
Lemma shorter_S counts l :
  (1 <= l)%nat -> shorter counts (S l) = shorter counts l + count counts l.
Proof. destruct l; [lia|reflexivity]. Qed.

Section Table.
  Variable counts : list Z.
  Hypothesis Hlen : length counts = 16%nat.
  Hypothesis Hcnt : Forall (fun n => 0 <= n <= 255) counts.

  Notation cnt := (count counts).
  Notation F := (first_code counts).
  Notation P := (shorter counts).

  Lemma count_range l : 0 <= cnt l <= 255.
  Proof.
    unfold count. destruct (nth_in_or_default (pred l) counts 0) as [H|H].
    - rewrite Forall_forall in Hcnt. now apply Hcnt.
    - rewrite H. lia.
  Qed.
  Lemma F_nonneg l : 0 <= F l.
  Proof.
    induction l as [|[|l] IH]; try (cbn; lia).
    rewrite first_code_S by lia. pose proof (count_range (S l)). lia.
  Qed.
  Lemma P_nonneg l : 0 <= P l.
  Proof.
    induction l as [|[|l] IH]; try (cbn; lia).
    rewrite shorter_S by lia. pose proof (count_range (S l)). lia.
  Qed.

  Lemma zn_bits l : 1 <= l -> zn (0 :: counts) l = cnt (Z.to_nat l).
  Proof.
    intros. unfold zn, count. replace (Z.to_nat l) with (S (Z.to_nat l - 1)) at 1 by lia.
    cbn [nth]. f_equal. lia.
  Qed.

  (** Position of the next codeword after those of length at most [l], in units of 2^-16 *)
  Definition upto (l : nat) : Z := (F l + cnt l) * 2 ^ (16 - Z.of_nat l).

  Lemma upto_S l : (1 <= l <= 15)%nat ->
    upto (S l) = upto l + cnt (S l) * 2 ^ (16 - Z.of_nat (S l)).
  Proof.
    intros. unfold upto. rewrite first_code_S by lia.
    replace (16 - Z.of_nat l) with (1 + (16 - Z.of_nat (S l))) by lia.
    rewrite pow2_split by lia. lia.
  Qed.
  Lemma upto_mono l m : (1 <= l)%nat -> (l <= m)%nat -> (m <= 16)%nat -> upto l <= upto m.
  Proof.
    intros Hl Hm. induction Hm as [|m Hm IH]; [lia|]. intros.
    rewrite upto_S by lia. pose proof (count_range (S m)).
    pose proof (pow2_pos (16 - Z.of_nat (S m)) ltac:(lia)). nia.
  Qed.
  Lemma upto_nonneg l : (l <= 16)%nat -> 0 <= upto l.
  Proof.
    intros. unfold upto. pose proof (F_nonneg l). pose proof (count_range l).
    pose proof (pow2_pos (16 - Z.of_nat l) ltac:(lia)). nia.
  Qed.

  Lemma kraft_from_app l a b :
    kraft_from l (a ++ b) = kraft_from l a + kraft_from (l + length a) b.
  Proof.
    revert l; induction a as [|x a IH]; intros l; cbn [app kraft_from length].
    - now rewrite Nat.add_0_r.
    - rewrite IH. replace (S l + length a)%nat with (l + S (length a))%nat by lia. lia.
  Qed.
  Lemma kraft_upto : kraft counts = upto 16.
  Proof.
    assert (forall n, (1 <= n <= 16)%nat -> kraft_from 1 (firstn n counts) = upto n) as H.
    { intros n Hn. induction n as [|n IH]; [lia|]. destruct (Nat.eq_dec n 0) as [->|Hn0].
      - assert (firstn 1 counts = [nth 0 counts 0]) as ->
          by (destruct counts; [cbn in Hlen; lia|reflexivity]).
        unfold upto, count. cbn [kraft_from first_code pred]. lia.
      - assert (firstn (S n) counts = firstn n counts ++ [nth n counts 0]) as ->.
        { pose proof Hlen as HL.
          assert (n < length counts)%nat as Hlt by lia. clear -Hlt.
          revert n Hlt; induction counts as [|x l IHl]; intros n Hlt; [cbn in Hlt; lia|].
          destruct n; cbn; [reflexivity|]. f_equal. apply IHl. cbn in Hlt. lia. }
        rewrite kraft_from_app, IH by lia. rewrite upto_S by lia.
        rewrite firstn_length, Hlen. replace (1 + Nat.min n 16)%nat with (S n) by lia.
        cbn [kraft_from]. unfold count. cbn [pred]. lia. }
    unfold kraft. rewrite <- (H 16%nat ltac:(lia)).
    rewrite firstn_all2 by lia. reflexivity.
  Qed.

  (** * Lists of lengths and codes *)

  (** [zsucc c n] is [c; c+1; ...; c+n-1] *)
  Definition zsucc (c n : Z) : list Z := map (fun i => c + i) (zseq n).

  (** The lengths of the symbols with codewords of at least [l] bits; [n = 17 - l] *)
  Fixpoint szn (n : nat) (l : nat) : list Z :=
    match n with
    | O => []
    | S n' => zrepeat (Z.of_nat l) (cnt l) ++ szn n' (S l)
    end.
  Fixpoint csn (n : nat) (l : nat) : list Z :=
    match n with
    | O => []
    | S n' => zsucc (F l) (cnt l) ++ csn n' (S l)
    end.

  Lemma huff_sizes_szn : huff_sizes (0 :: counts) = szn 16 1.
  Proof.
    unfold huff_sizes. change (map (fun i => i + 1) (zseq 16))
      with [1;2;3;4;5;6;7;8;9;10;11;12;13;14;15;16].
    cbn [flat_map szn].
    rewrite !zn_bits by lia. reflexivity.
  Qed.

  Lemma zlen_zsucc c n : zlen (zsucc c n) = Z.max 0 n.
  Proof. unfold zsucc. now rewrite zlen_map, zlen_zseq. Qed.
  Lemma zlen_szn n l : zlen (szn n l) = zlen (csn n l).
  Proof.
    revert l; induction n as [|n IH]; intros l; cbn [szn csn]; [reflexivity|].
    rewrite !zlen_app, IH, zlen_repeat, zlen_zsucc. lia.
  Qed.
  Lemma szn_ge n l x : In x (szn n l) -> Z.of_nat l <= x < Z.of_nat (l + n).
  Proof.
    revert l; induction n as [|n IH]; intros l; cbn [szn]; [contradiction|].
    rewrite in_app_iff. intros [H|H].
    - apply repeat_spec in H. lia.
    - apply IH in H. lia.
  Qed.

  Lemma code_run_repeat n l rest c :
    (match rest with x :: _ => x <> l | [] => True end) ->
    code_run (repeat l n ++ rest) l c
    = (map (fun i => c + Z.of_nat i) (seq 0 n), rest, c + Z.of_nat n).
  Proof.
    intros Hr. revert c. induction n as [|n IH]; intros c.
    - cbn [repeat app seq map]. destruct rest as [|x r]; cbn [code_run].
      + f_equal. lia.
      + replace (x =? l) with false by lia. f_equal. lia.
    - cbn [repeat app code_run]. rewrite Z.eqb_refl, IH.
      cbn [seq map]. rewrite <- seq_shift, map_map.
      f_equal; [f_equal; f_equal|]; try lia.
      apply map_ext. intros. lia.
  Qed.
  Lemma zsucc_seq c n :
    zsucc c n = map (fun i => c + Z.of_nat i) (seq 0 (Z.to_nat n)).
  Proof. unfold zsucc, zseq. rewrite map_map. reflexivity. Qed.

  Lemma code_run_szn n l :
    code_run (szn (S n) l) (Z.of_nat l) (F l)
    = (zsucc (F l) (cnt l), szn n (S l), F l + cnt l).
  Proof.
    cbn [szn]. unfold zrepeat. rewrite code_run_repeat.
    - rewrite zsucc_seq. f_equal. pose proof (count_range l). lia.
    - destruct (szn n (S l)) as [|x r] eqn:E; [auto|].
      assert (In x (szn n (S l))) as Hx by (rewrite E; left; reflexivity).
      apply szn_ge in Hx. lia.
  Qed.

  (** What [gen_codes] leaves in [maxcode] *)
  Definition mc_ok (mc0 mc : list Z) (l : nat) : Prop :=
    zlen mc = zlen mc0 /\
    (forall i, (i < l)%nat -> zn mc (Z.of_nat i) = zn mc0 (Z.of_nat i)) /\
    (forall i, (l <= i <= 16)%nat -> cnt i <> 0 -> zn mc (Z.of_nat i) = upto i).

  Lemma gen_codes_ok n : forall l fuel mc,
    (1 <= l)%nat -> (l + n = 17)%nat -> (n <= fuel)%nat -> 17 <= zlen mc ->
    (szn n l = [] \/ upto 16 < 65536) ->
    exists mc', gen_codes fuel (szn n l) (Z.of_nat l) (F l) mc = Ok (csn n l, mc')
                /\ mc_ok mc mc' l.
  Proof.
    induction n as [|n IH]; intros l fuel mc Hl Hn Hf Hmc Hk.
    - cbn [szn csn]. destruct fuel; cbn [gen_codes]; exists mc; (split; [reflexivity|]);
        (split; [reflexivity|]); split; intros; auto; lia.
    - destruct (szn (S n) l) as [|x r] eqn:E.
      { assert (gen_codes fuel [] (Z.of_nat l) (F l) mc = Ok ([], mc)) as ->
          by (destruct fuel; reflexivity).
        assert (csn (S n) l = []) as ->.
        { pose proof (zlen_szn (S n) l) as Hz. rewrite E in Hz. unfold zlen in Hz.
          destruct (csn (S n) l); cbn in Hz; [reflexivity|lia]. }
        exists mc. split; [reflexivity|]. split; [reflexivity|]. split; [auto|].
        intros i Hi Hc. exfalso.
        assert (In (Z.of_nat i) (szn (S n) l)) as Hin.
        { clear -Hi Hn Hc Hcnt Hlen. revert l Hi Hn. induction n as [|n IHn]; intros l Hi Hn.
          - assert (i = l) by lia. subst. cbn [szn]. rewrite in_app_iff. left.
            unfold zrepeat. pose proof (count_range l).
            destruct (Z.to_nat (cnt l)) eqn:E; [lia|]. cbn. auto.
          - destruct (Nat.eq_dec i l) as [->|].
            + cbn [szn]. rewrite in_app_iff. left. unfold zrepeat. pose proof (count_range l).
              destruct (Z.to_nat (cnt l)) eqn:E; [lia|]. cbn. auto.
            + change (szn (S (S n)) l) with (zrepeat (Z.of_nat l) (cnt l) ++ szn (S n) (S l)).
              rewrite in_app_iff. right. apply IHn; lia. }
        rewrite E in Hin. contradiction. }
      destruct Hk as [Hk|Hk]; [discriminate|].
      destruct fuel as [|fuel]; [lia|].
      rewrite <- E. cbn [gen_codes]. rewrite E. rewrite <- E.
      rewrite code_run_szn.
      assert (F l + cnt l < 2 ^ Z.of_nat l) as Hlt.
      { pose proof (upto_mono l 16 ltac:(lia) ltac:(lia) ltac:(lia)) as Hm.
        unfold upto in Hm at 1.
        assert (65536 = 2 ^ Z.of_nat l * 2 ^ (16 - Z.of_nat l)) as H16.
        { rewrite <- pow2_split by lia. replace (_ + _) with 16 by lia. reflexivity. }
        pose proof (pow2_pos (16 - Z.of_nat l) ltac:(lia)). nia. }
      replace (2 ^ Z.of_nat l <=? F l + cnt l) with false by lia.
      set (mc1 := zset mc (Z.of_nat l) (shl (F l + cnt l) (16 - Z.of_nat l))).
      destruct (IH (S l) fuel mc1 ltac:(lia) ltac:(lia) ltac:(lia)
                  ltac:(unfold mc1; rewrite zlen_zset; lia) (or_intror Hk))
        as (mc' & Hg & Hlen' & Hlow & Hhi).
      replace (Z.of_nat l + 1) with (Z.of_nat (S l)) by lia.
      replace ((F l + cnt l) * 2) with (F (S l)) by (rewrite first_code_S by lia; lia).
      rewrite Hg. exists mc'. split; [reflexivity|].
      unfold mc1 in *. rewrite zlen_zset in Hlen'. split; [lia|]. split.
      + intros i Hi. rewrite Hlow by lia. rewrite zn_zset by lia.
        replace (Z.of_nat i =? Z.of_nat l) with false by lia. reflexivity.
      + intros i Hi Hc. destruct (Nat.eq_dec i l) as [->|].
        * rewrite Hlow by lia. rewrite zn_zset by lia.
          rewrite Z.eqb_refl. replace (Z.of_nat l <? zlen mc) with true by lia. reflexivity.
        * apply Hhi; [lia|exact Hc].
  Qed.

  Lemma gen_codes_bad n : forall l fuel mc,
    (1 <= l)%nat -> (l + n = 17)%nat -> (n <= fuel)%nat ->
    szn n l <> [] -> 65536 <= upto 16 ->
    exists e, gen_codes fuel (szn n l) (Z.of_nat l) (F l) mc = Err e.
  Proof.
    induction n as [|n IH]; intros l fuel mc Hl Hn Hf Hs Hk; [cbn in Hs; congruence|].
    destruct (szn (S n) l) as [|x r] eqn:E; [congruence|].
    destruct fuel as [|fuel]; [lia|].
    rewrite <- E. cbn [gen_codes]. rewrite E. rewrite <- E.
    rewrite code_run_szn.
    destruct (2 ^ Z.of_nat l <=? F l + cnt l) eqn:Ec; [eauto|].
    assert (upto l < 65536) as Hu.
    { unfold upto.
      assert (65536 = 2 ^ Z.of_nat l * 2 ^ (16 - Z.of_nat l)) as H16.
      { rewrite <- pow2_split by lia. replace (_ + _) with 16 by lia. reflexivity. }
      pose proof (pow2_pos (16 - Z.of_nat l) ltac:(lia)). nia. }
    assert (szn n (S l) <> []) as Hne.
    { intros Hnil. assert (forall m, (l <= m <= 16)%nat -> upto m = upto l) as Heq.
      { assert (forall i, (l < i <= 16)%nat -> cnt i = 0) as Hz.
        { intros i Hi. destruct (Z.eq_dec (cnt i) 0) as [|Hc]; [assumption|exfalso].
          assert (In (Z.of_nat i) (szn n (S l))) as Hin.
          { clear -Hi Hn Hc Hcnt Hlen. revert l Hi Hn. induction n as [|n IHn]; intros l Hi Hn; [lia|].
            cbn [szn]. rewrite in_app_iff. destruct (Nat.eq_dec i (S l)) as [->|].
            - left. unfold zrepeat. pose proof (count_range (S l)).
              destruct (Z.to_nat (cnt (S l))) eqn:E; [lia|]. cbn. auto.
            - right. apply IHn; lia. }
          rewrite Hnil in Hin. contradiction. }
        intros m [Hlm Hm]. induction Hlm as [|m Hlm IHm]; [reflexivity|].
        rewrite upto_S by lia. rewrite Hz by lia. rewrite IHm by lia. lia. }
      rewrite (Heq 16%nat) in Hk by lia. lia. }
    replace (Z.of_nat l + 1) with (Z.of_nat (S l)) by lia.
    replace ((F l + cnt l) * 2) with (F (S l)) by (rewrite first_code_S by lia; lia).
    destruct (IH (S l) fuel (zset mc (Z.of_nat l) (shl (F l + cnt l) (16 - Z.of_nat l)))
                ltac:(lia) ltac:(lia) ltac:(lia) Hne Hk) as [e He].
    rewrite He. eauto.
  Qed.

  (** [make_derived_table] starts at the first used length, not at 1 *)
  Lemma gen_codes_start : exists l n,
    (1 <= l)%nat /\ (l + n = 17)%nat /\
    szn 16 1 = szn n l /\ csn 16 1 = csn n l /\
    (forall i, (i < l)%nat -> (1 <= i)%nat -> cnt i = 0) /\ F l = 0 /\
    (szn n l = [] \/ exists r, szn n l = Z.of_nat l :: r).
  Proof.
    assert (forall k, (k <= 16)%nat ->
      exists l n, (1 <= l)%nat /\ (l + n = 17)%nat /\
        szn 16 1 = szn n l /\ csn 16 1 = csn n l /\
        (forall i, (i < l)%nat -> (1 <= i)%nat -> cnt i = 0) /\ F l = 0 /\
        ((exists r, szn n l = Z.of_nat l :: r) \/ l = S k)) as H.
    { induction k as [|k IH]; intros Hk.
      - exists 1%nat, 16%nat. repeat split; try lia; auto.
      - destruct (IH ltac:(lia)) as (l & n & H1 & H2 & H3 & H4 & H5 & H6 & [H7|H7]).
        + exists l, n. repeat split; auto.
        + subst l. destruct n as [|n]; [lia|].
          destruct (Z.eq_dec (cnt (S k)) 0) as [Hz|Hz].
          * exists (S (S k)), n. repeat split; try lia.
            -- rewrite H3. cbn [szn]. rewrite Hz. reflexivity.
            -- rewrite H4. cbn [csn]. rewrite Hz. reflexivity.
            -- intros i Hi Hi1. destruct (Nat.eq_dec i (S k)) as [->|]; [exact Hz|].
               apply H5; lia.
            -- rewrite first_code_S by lia. lia.
          * exists (S k), (S n). repeat split; auto. left. cbn [szn].
            unfold zrepeat. pose proof (count_range (S k)).
            destruct (Z.to_nat (cnt (S k))) eqn:E; [lia|]. cbn. eauto. }
    destruct (H 16%nat ltac:(lia)) as (l & n & H1 & H2 & H3 & H4 & H5 & H6 & [H7|H7]).
    - exists l, n. repeat split; auto.
    - exists l, n. repeat split; auto. left. replace n with 0%nat by lia. reflexivity.
  Qed.

  Lemma gen_codes_top :
    let sizes := huff_sizes (0 :: counts) in
    let si := match sizes with s :: _ => s | [] => 0 end in
    (upto 16 < 65536 ->
     exists mc, gen_codes 17 sizes si 0 (zrepeat 0 18) = Ok (csn 16 1, mc) /\ zlen mc = 18 /\
       forall i, (1 <= i <= 16)%nat -> cnt i <> 0 -> zn mc (Z.of_nat i) = upto i) /\
    (65536 <= upto 16 -> exists e, gen_codes 17 sizes si 0 (zrepeat 0 18) = Err e).
  Proof.
    cbv zeta. rewrite huff_sizes_szn.
    destruct gen_codes_start as (l & n & H1 & H2 & H3 & H4 & H5 & H6 & H7).
    rewrite H3, H4. split; intros Hk.
    - destruct H7 as [H7|[r H7]].
      + rewrite H7. exists (zrepeat 0 18). split.
        { assert (csn n l = []) as ->.
          { pose proof (zlen_szn n l) as Hz. rewrite H7 in Hz. unfold zlen in Hz.
            destruct (csn n l); cbn in Hz; [reflexivity|lia]. }
          reflexivity. }
        split; [reflexivity|]. intros i Hi Hc. exfalso.
        destruct (gen_codes_ok n l 17 (zrepeat 0 18) H1 H2 ltac:(lia)
                   ltac:(rewrite zlen_repeat; lia) (or_introl H7))
          as (mc & Hg & _ & _ & Hm).
        destruct (le_lt_dec l i) as [Hle|Hlt].
        * rewrite H7 in Hg. cbn [gen_codes] in Hg. injection Hg as _ <-.
          specialize (Hm i ltac:(lia) Hc).
          rewrite zn_repeat in Hm by lia.
          unfold upto in Hm. pose proof (F_nonneg i). pose proof (count_range i).
          pose proof (pow2_pos (16 - Z.of_nat i) ltac:(lia)). nia.
        * apply Hc, H5; lia.
      + assert ((match szn n l with s :: _ => s | [] => 0 end) = Z.of_nat l) as Hsi
          by (now rewrite H7).
        rewrite Hsi.
        destruct (gen_codes_ok n l 17 (zrepeat 0 18) H1 H2 ltac:(lia)
                   ltac:(rewrite zlen_repeat; lia) (or_intror Hk))
          as (mc & Hg & Hl & Hlow & Hm).
        rewrite H6 in Hg. exists mc. split; [exact Hg|]. split; [exact Hl|].
        intros i Hi Hc. apply Hm; [|exact Hc].
        destruct (le_lt_dec l i) as [Hle|Hlt]; [lia|]. exfalso. apply Hc, H5; lia.
    - destruct H7 as [H7|[r H7]].
      + exfalso. clear -Hk H3 H7 Hcnt Hlen. rewrite <- H3 in H7.
        assert (forall i, (1 <= i <= 16)%nat -> cnt i = 0) as Hz.
        { intros i Hi. destruct (Z.eq_dec (cnt i) 0) as [|Hc]; [assumption|exfalso].
          assert (forall n l, (l <= i < l + n)%nat -> In (Z.of_nat i) (szn n l)) as Hin.
          { clear -Hc Hcnt Hlen. induction n as [|n IH]; intros l Hi; [lia|]. cbn [szn].
            rewrite in_app_iff. destruct (Nat.eq_dec i l) as [->|].
            - left. unfold zrepeat. pose proof (count_range l).
              destruct (Z.to_nat (cnt l)) eqn:E; [lia|]. cbn. auto.
            - right. apply IH. lia. }
          specialize (Hin 16%nat 1%nat ltac:(lia)). rewrite H7 in Hin. contradiction. }
        assert (forall m, (1 <= m <= 16)%nat -> F m = 0 /\ upto m = 0) as Hu.
        { induction m as [|m IH]; intros Hm; [lia|]. destruct (Nat.eq_dec m 0) as [->|].
          - split; [reflexivity|]. unfold upto. rewrite Hz by lia. reflexivity.
          - destruct (IH ltac:(lia)) as [IH1 IH2]. rewrite upto_S by lia.
            rewrite first_code_S by lia. rewrite !Hz by lia. split; lia. }
        destruct (Hu 16%nat ltac:(lia)). lia.
      + assert ((match szn n l with s :: _ => s | [] => 0 end) = Z.of_nat l) as Hsi
          by (now rewrite H7).
        rewrite Hsi.
        destruct (gen_codes_bad n l 17 (zrepeat 0 18) H1 H2 ltac:(lia)
                    ltac:(rewrite H7; discriminate) Hk) as [e He].
        rewrite H6 in He. eauto.
  Qed.

  (** * Offsets *)

  Lemma zn_csn n l j :
    (1 <= l)%nat -> (l + n = 17)%nat -> 0 <= j < cnt l -> zn (csn n l) j = F l + j.
  Proof.
    intros Hl Hn Hj. destruct n as [|n].
    - assert (l = 17%nat) by lia. subst l. unfold count in Hj. rewrite nth_overflow in Hj; cbn; lia.
    - cbn [csn]. rewrite zn_app1 by (rewrite zlen_zsucc; lia).
      unfold zsucc. erewrite zn_zget; [reflexivity|].
      rewrite zget_map, zget_zseq by lia. reflexivity.
  Qed.
  Lemma zlen_csn n l : zlen (szn n l) = zlen (csn n l) ->
    zlen (csn (S n) l) = cnt l + zlen (csn n (S l)).
  Proof.
    intros _. cbn [csn]. rewrite zlen_app, zlen_zsucc. pose proof (count_range l). lia.
  Qed.
  Lemma zn_csn_top l j :
    (1 <= l <= 16)%nat -> 0 <= j < cnt l -> zn (csn 16 1) (P l + j) = F l + j.
  Proof.
    intros Hl Hj.
    assert (forall k, (k <= 15)%nat -> forall i, P (S k) <= i ->
              zn (csn 16 1) i = zn (csn (16 - k) (S k)) (i - P (S k))) as H.
    { induction k as [|k IH]; intros Hk i Hi.
      - change (P 1) with 0. rewrite Z.sub_0_r. reflexivity.
      - rewrite shorter_S in * by lia. pose proof (count_range (S k)).
        rewrite IH by lia. replace (16 - k)%nat with (S (16 - S k)) by lia.
        cbn [csn]. rewrite zn_app2 by (rewrite zlen_zsucc; lia).
        rewrite zlen_zsucc. f_equal. lia. }
    specialize (H (l - 1)%nat ltac:(lia) (P l + j)).
    replace (S (l - 1)) with l in H by lia.
    rewrite H by lia. replace (P l + j - P l) with j by lia.
    apply zn_csn; lia.
  Qed.

  Lemma offsets_fold n : forall l mc off,
    (1 <= l)%nat -> (l + n = 17)%nat -> zlen mc = 18 -> zlen off = 18 ->
    exists mc' off' p,
      fold_left (offset_step (0 :: counts) (csn 16 1)) (map Z.of_nat (seq l n)) (mc, off, P l)
      = (mc', off', p) /\ zlen mc' = 18 /\ zlen off' = 18 /\
      forall i, (1 <= i <= 16)%nat ->
        zn mc' (Z.of_nat i) = (if (l <=? i)%nat && (cnt i =? 0) then -1 else zn mc (Z.of_nat i)) /\
        zn off' (Z.of_nat i) = (if (l <=? i)%nat && negb (cnt i =? 0) then P i - F i
                                else zn off (Z.of_nat i)).
  Proof.
    induction n as [|n IH]; intros l mc off Hl Hn Hmc Hoff.
    - cbn [seq map fold_left]. exists mc, off, (P l). repeat split; auto;
      (replace (l <=? i)%nat with false by lia; reflexivity).
    - cbn [seq map fold_left]. unfold offset_step at 2.
      rewrite zn_bits by lia. rewrite Nat2Z.id.
      destruct (cnt l =? 0) eqn:Ec.
      + replace (P l) with (P (S l)) by (rewrite shorter_S by lia; lia).
        destruct (IH (S l) (zset mc (Z.of_nat l) (-1)) off ltac:(lia) ltac:(lia)
                    ltac:(now rewrite zlen_zset) Hoff) as (mc' & off' & p & Hf & H1 & H2 & H3).
        exists mc', off', p. repeat split; auto.
        * rewrite (proj1 (H3 i H)). rewrite zn_zset by lia. rewrite Hmc.
          destruct (Nat.eq_dec i l) as [->|].
          -- replace (S l <=? l)%nat with false by lia.
             replace (l <=? l)%nat with true by lia. rewrite Ec.
             cbn [andb]. replace ((Z.of_nat l =? Z.of_nat l) && (Z.of_nat l <? 18)) with true by lia.
             reflexivity.
          -- replace (Z.of_nat i =? Z.of_nat l) with false by lia. cbn [andb].
             now replace (S l <=? i)%nat with (l <=? i)%nat by lia.
        * rewrite (proj2 (H3 i H)). destruct (Nat.eq_dec i l) as [->|].
          -- rewrite Ec. now rewrite !andb_false_r.
          -- now replace (S l <=? i)%nat with (l <=? i)%nat by lia.
      + replace (P l + cnt l) with (P (S l)) by (rewrite shorter_S by lia; lia).
        destruct (IH (S l) mc (zset off (Z.of_nat l) (P l - zn (csn 16 1) (P l)))
                    ltac:(lia) ltac:(lia) Hmc ltac:(now rewrite zlen_zset))
          as (mc' & off' & p & Hf & H1 & H2 & H3).
        exists mc', off', p. repeat split; auto.
        * rewrite (proj1 (H3 i H)). destruct (Nat.eq_dec i l) as [->|].
          -- rewrite Ec. now rewrite !andb_false_r.
          -- now replace (S l <=? i)%nat with (l <=? i)%nat by lia.
        * rewrite (proj2 (H3 i H)). rewrite zn_zset by lia. rewrite Hoff.
          destruct (Nat.eq_dec i l) as [->|].
          -- replace (S l <=? l)%nat with false by lia.
             replace (l <=? l)%nat with true by lia. rewrite Ec.
             cbn [andb negb]. replace ((Z.of_nat l =? Z.of_nat l) && (Z.of_nat l <? 18)) with true by lia.
             pose proof (count_range l).
             pose proof (zn_csn_top l 0 ltac:(lia) ltac:(lia)) as Hz.
             rewrite Z.add_0_r in Hz. rewrite Hz. lia.
          -- replace (Z.of_nat i =? Z.of_nat l) with false by lia. cbn [andb].
             now replace (S l <=? i)%nat with (l <=? i)%nat by lia.
  Qed.

  Lemma fill_offsets_ok mc :
    zlen mc = 18 ->
    exists mc' off', fill_offsets (0 :: counts) (csn 16 1) mc = (mc', off') /\
      zlen mc' = 18 /\ zlen off' = 18 /\ zn mc' 17 = 1048575 /\
      forall i, (1 <= i <= 16)%nat ->
        zn mc' (Z.of_nat i) = (if cnt i =? 0 then -1 else zn mc (Z.of_nat i)) /\
        (cnt i <> 0 -> zn off' (Z.of_nat i) = P i - F i).
  Proof.
    intros Hmc. unfold fill_offsets.
    change (zseq 17) with (0 :: map Z.of_nat (seq 1 16)). cbn [fold_left].
    unfold offset_step at 2. change (zn (0 :: counts) 0 =? 0) with true. cbn iota.
    destruct (offsets_fold 16 1 (zset mc 0 (-1)) (zrepeat 0 18) ltac:(lia) ltac:(lia)
                ltac:(now rewrite zlen_zset) ltac:(now rewrite zlen_repeat))
      as (mc' & off' & p & Hf & H1 & H2 & H3).
    change (P 1) with 0 in Hf. rewrite Hf.
    exists (zset mc' 17 1048575), (zset off' 17 0). split; [reflexivity|].
    rewrite !zlen_zset. repeat split; auto.
    - rewrite zn_zset by lia. rewrite H1. reflexivity.
    - destruct (H3 i H) as [H4 H5]. rewrite zn_zset by lia.
      replace (Z.of_nat i =? 17) with false by lia. cbn [andb]. rewrite H4.
      replace (1 <=? i)%nat with true by lia. cbn [andb].
      rewrite zn_zset by lia. replace (Z.of_nat i =? 0) with false by lia. reflexivity.
    - intros Hc. destruct (H3 i H) as [H4 H5]. rewrite zn_zset by lia.
      replace (Z.of_nat i =? 17) with false by lia. cbn [andb]. rewrite H5.
      replace (1 <=? i)%nat with true by lia.
      replace (cnt i =? 0) with false by lia. reflexivity.
  Qed.
End Table.

(** * Filling the lookup tables *)

(** Lengths and codes of consecutive codewords starting at position [st] (in units of
    2^-16) *)
Fixpoint chain (st : Z) (sizes codes : list Z) : Prop :=
  match sizes, codes with
  | [], [] => st <= 65536
  | s :: ss, c :: cs =>
      1 <= s <= 16 /\ c * 2 ^ (16 - s) = st /\ Forall (fun x => s <= x) ss /\
      chain (st + 2 ^ (16 - s)) ss cs
  | _, _ => False
  end.

Lemma chain_le st sizes codes : chain st sizes codes -> st <= 65536.
Proof.
  revert st codes; induction sizes as [|s ss IH]; intros st [|c cs]; cbn [chain length]; try tauto.
  intros (Hs & _ & _ & H). apply IH in H. pose proof (pow2_pos (16 - s) ltac:(lia)). lia.
Qed.
Lemma chain_length st sizes codes : chain st sizes codes -> length sizes = length codes.
Proof.
  revert st codes; induction sizes as [|s ss IH]; intros st [|c cs]; cbn [chain length]; try tauto.
  intros (_ & _ & _ & H). now rewrite (IH _ _ H).
Qed.
Lemma chain_nth st sizes codes i s c :
  chain st sizes codes -> nth_error sizes i = Some s -> nth_error codes i = Some c ->
  1 <= s <= 16 /\ st <= c * 2 ^ (16 - s) /\ c * 2 ^ (16 - s) + 2 ^ (16 - s) <= 65536.
Proof.
  revert st codes i; induction sizes as [|s0 ss IH]; intros st [|c0 cs] [|i]; cbn [chain nth_error]; try tauto;
    try discriminate.
  - intros (Hs & Hc & _ & H) E1 E2. injection E1 as ->. injection E2 as ->.
    apply chain_le in H. lia.
  - intros (Hs & Hc & _ & H) E1 E2. destruct (IH _ _ _ H E1 E2) as (? & ? & ?).
    pose proof (pow2_pos (16 - s0) ltac:(lia)). lia.
Qed.
(** Codewords of a chain occupy disjoint ranges *)
Lemma chain_inj st sizes codes i j s c s' c' w :
  chain st sizes codes ->
  nth_error sizes i = Some s -> nth_error codes i = Some c ->
  nth_error sizes j = Some s' -> nth_error codes j = Some c' ->
  w / 2 ^ (16 - s) = c -> w / 2 ^ (16 - s') = c' -> i = j.
Proof.
  revert st codes i j. induction sizes as [|s0 ss IH]; intros st [|c0 cs] [|i] [|j];
    cbn [chain nth_error]; try tauto; try discriminate.
  - intros (Hs & Hc & _ & H) E1 E2 E3 E4 W1 W2. exfalso.
    injection E1 as ->. injection E2 as ->.
    destruct (chain_nth _ _ _ _ _ _ H E3 E4) as (? & ? & _).
    pose proof (pow2_pos (16 - s) ltac:(lia)). pose proof (pow2_pos (16 - s') ltac:(lia)).
    pose proof (Z.mul_div_le w (2 ^ (16 - s')) ltac:(lia)).
    pose proof (Z.mul_succ_div_gt w (2 ^ (16 - s)) ltac:(lia)). subst c c'. nia.
  - intros (Hs & Hc & _ & H) E1 E2 E3 E4 W1 W2. exfalso.
    injection E3 as ->. injection E4 as ->.
    destruct (chain_nth _ _ _ _ _ _ H E1 E2) as (? & ? & _).
    pose proof (pow2_pos (16 - s) ltac:(lia)). pose proof (pow2_pos (16 - s') ltac:(lia)).
    pose proof (Z.mul_div_le w (2 ^ (16 - s)) ltac:(lia)).
    pose proof (Z.mul_succ_div_gt w (2 ^ (16 - s')) ltac:(lia)). subst c c'. nia.
  - intros (Hs & Hc & _ & H) E1 E2 E3 E4 W1 W2. f_equal. eapply IH; eauto.
Qed.

Lemma fill_ok n : forall table start v,
  0 <= start -> start + Z.of_nat n <= zlen table ->
  exists t, fill n table start v = Ok t /\ zlen t = zlen table /\
    forall x, 0 <= x -> zn t x = if (start <=? x) && (x <? start + Z.of_nat n) then v else zn table x.
Proof.
  induction n as [|n IH]; intros table start v Hs Hn; cbn [fill].
  - exists table. repeat split. intros x Hx.
    now replace ((start <=? x) && (x <? start + Z.of_nat 0)) with false by lia.
  - unfold zupd. replace ((start <? 0) || (zlen table <=? start)) with false by lia.
    change (nupd table (Z.to_nat start) v) with (zset table start v).
    destruct (IH (zset table start v) (start + 1) v ltac:(lia) ltac:(rewrite zlen_zset; lia))
      as (t & Ht & Hl & Hz).
    exists t. rewrite zlen_zset in Hl. repeat split; auto.
    intros x Hx. rewrite Hz by lia. rewrite zn_zset by lia.
    destruct ((start + 1 <=? x) && (x <? start + 1 + Z.of_nat n)) eqn:E1;
      destruct ((start <=? x) && (x <? start + Z.of_nat (S n))) eqn:E2; try lia; auto.
    + replace ((x =? start) && (start <? zlen table)) with true by lia. reflexivity.
    + replace ((x =? start) && (start <? zlen table)) with false by lia. reflexivity.
Qed.

(** The range of 9-bit prefixes a short codeword covers *)
Lemma short_range s c x :
  1 <= s <= 9 -> 0 <= c ->
  (c * 2 ^ (9 - s) <= x < c * 2 ^ (9 - s) + 2 ^ (9 - s)) <-> x / 2 ^ (9 - s) = c.
Proof.
  intros Hs Hc. pose proof (pow2_pos (9 - s) ltac:(lia)). split.
  - intros H1. symmetry. apply Z.div_unique with (x - c * 2 ^ (9 - s)); lia.
  - intros <-. pose proof (Z.mul_div_le x (2 ^ (9 - s)) ltac:(lia)).
    pose proof (Z.mul_succ_div_gt x (2 ^ (9 - s)) ltac:(lia)). lia.
Qed.
Lemma short_chain s : 1 <= s <= 9 -> 2 ^ (16 - s) = 2 ^ (9 - s) * 128.
Proof.
  intros. replace (16 - s) with ((9 - s) + 7) by lia. rewrite pow2_split by lia. reflexivity.
Qed.

Definition lk_entry (s v : Z) : Z := Z.lor (shl s 9) v.

Lemma fill_lookup_ok sizes : forall codes values st lk,
  chain st sizes codes -> 0 <= st -> (length sizes <= length values)%nat -> zlen lk = 512 ->
  exists lk', fill_lookup sizes codes values lk = Ok lk' /\ zlen lk' = 512 /\
    forall x, 0 <= x < 512 ->
      (forall i s c v, nth_error sizes i = Some s -> nth_error codes i = Some c ->
         nth_error values i = Some v -> s <= 9 -> x / 2 ^ (9 - s) = c ->
         zn lk' x = lk_entry s v) /\
      ((forall i s c, nth_error sizes i = Some s -> nth_error codes i = Some c ->
          s <= 9 -> x / 2 ^ (9 - s) <> c) -> zn lk' x = zn lk x).
Proof.
  induction sizes as [|s ss IH]; intros [|c cs] values st lk Hch Hst Hv Hlk;
    cbn [chain] in Hch; try tauto.
  - exists lk. cbn [fill_lookup]. repeat split; auto.
    intros i s c v E. destruct i; discriminate.
  - destruct Hch as (Hs & Hc & Hall & Hch).
    destruct values as [|v vs]; [cbn in Hv; lia|].
    cbn [fill_lookup]. unfold HUFF_LOOKAHEAD.
    pose proof (chain_le _ _ _ Hch) as Hle.
    assert (0 <= c) as Hc0
      by (pose proof (pow2_pos (16 - s) ltac:(lia)); nia).
    destruct (9 <? s) eqn:E9.
    + exists lk. repeat split; auto.
      intros i s' c' v' E1 E2 E3 Hs'. exfalso.
      destruct i as [|i]; cbn in E1; [injection E1 as ->; lia|].
      rewrite Forall_forall in Hall. apply nth_error_In in E1. apply Hall in E1. lia.
    + pose proof (short_chain s ltac:(lia)) as Hsc.
      pose proof (pow2_pos (9 - s) ltac:(lia)) as Hp.
      destruct (fill_ok (Z.to_nat (2 ^ (9 - s))) lk (shl c (9 - s)) (Z.lor (shl s 9) v))
        as (t & Ht & Htl & Htz).
      { unfold shl. nia. }
      { unfold shl. rewrite Hlk. rewrite Z2Nat.id by lia. nia. }
      rewrite Ht.
      destruct (IH cs vs (st + 2 ^ (16 - s)) t Hch ltac:(lia)
                  ltac:(cbn in Hv; lia) ltac:(lia)) as (lk' & Hf & Hl & Hz).
      exists lk'. split; [exact Hf|]. split; [exact Hl|].
      intros x Hx. destruct (Hz x Hx) as [HA HB].
      assert (x / 2 ^ (9 - s) = c ->
              forall i s0 c0, nth_error ss i = Some s0 -> nth_error cs i = Some c0 ->
                s0 <= 9 -> x / 2 ^ (9 - s0) <> c0) as Hdis.
      { intros Hxc i s0 c0 E1 E2 Hs0 Hxc0.
        destruct (chain_nth _ _ _ _ _ _ Hch E1 E2) as (Hr & Hge & _).
        apply (short_range s c x ltac:(lia) Hc0) in Hxc.
        assert (0 <= c0) as Hc00 by (pose proof (pow2_pos (16 - s0) ltac:(lia)); nia).
        apply (short_range s0 c0 x ltac:(lia) Hc00) in Hxc0.
        pose proof (short_chain s0 ltac:(lia)). nia. }
      split.
      * intros i s' c' v' E1 E2 E3 Hs' Hxc. destruct i as [|i]; cbn in E1, E2, E3.
        -- injection E1 as <-. injection E2 as <-. injection E3 as <-.
           rewrite HB by (apply Hdis; exact Hxc).
           rewrite Htz by lia. apply (short_range s c x ltac:(lia) Hc0) in Hxc.
           rewrite Z2Nat.id by lia. unfold shl.
           replace ((c * 2 ^ (9 - s) <=? x) && (x <? c * 2 ^ (9 - s) + 2 ^ (9 - s)))
             with true by lia. reflexivity.
        -- eapply HA; eauto.
      * intros Hno. rewrite HB.
        -- rewrite Htz by lia. rewrite Z2Nat.id by lia. unfold shl.
           destruct ((c * 2 ^ (9 - s) <=? x) && (x <? c * 2 ^ (9 - s) + 2 ^ (9 - s))) eqn:E;
             [|reflexivity].
           exfalso. apply (Hno 0%nat s c eq_refl eq_refl ltac:(lia)).
           apply (short_range s c x ltac:(lia) Hc0). lia.
        -- intros i s0 c0 E1 E2. apply (Hno (S i)); assumption.
Qed.

Lemma fill_fast_ok sizes : forall codes st k fast,
  chain st sizes codes -> 0 <= st -> zlen fast = 512 ->
  exists f', fill_fast sizes codes k fast = Ok f' /\ zlen f' = 512 /\
    forall x, 0 <= x < 512 ->
      (forall i s c, nth_error sizes i = Some s -> nth_error codes i = Some c ->
         s <= 9 -> x / 2 ^ (9 - s) = c -> zn f' x = i16 (k + Z.of_nat i)) /\
      ((forall i s c, nth_error sizes i = Some s -> nth_error codes i = Some c ->
          s <= 9 -> x / 2 ^ (9 - s) <> c) -> zn f' x = zn fast x).
Proof.
  induction sizes as [|s ss IH]; intros [|c cs] st k fast Hch Hst Hlk;
    cbn [chain] in Hch; try tauto.
  - exists fast. cbn [fill_fast]. repeat split; auto.
    intros i s c E. destruct i; discriminate.
  - destruct Hch as (Hs & Hc & Hall & Hch).
    cbn [fill_fast]. unfold HUFF_LOOKAHEAD.
    pose proof (chain_le _ _ _ Hch) as Hle.
    assert (0 <= c) as Hc0
      by (pose proof (pow2_pos (16 - s) ltac:(lia)); nia).
    destruct (s <=? 9) eqn:E9.
    + pose proof (short_chain s ltac:(lia)) as Hsc.
      pose proof (pow2_pos (9 - s) ltac:(lia)) as Hp.
      destruct (fill_ok (Z.to_nat (2 ^ (9 - s))) fast (shl c (9 - s)) (i16 k))
        as (t & Ht & Htl & Htz).
      { unfold shl. nia. }
      { unfold shl. rewrite Hlk. rewrite Z2Nat.id by lia. nia. }
      rewrite Ht.
      destruct (IH cs (st + 2 ^ (16 - s)) (k + 1) t Hch ltac:(lia) ltac:(lia))
        as (lk' & Hf & Hl & Hz).
      exists lk'. split; [exact Hf|]. split; [exact Hl|].
      intros x Hx. destruct (Hz x Hx) as [HA HB].
      assert (x / 2 ^ (9 - s) = c ->
              forall i s0 c0, nth_error ss i = Some s0 -> nth_error cs i = Some c0 ->
                s0 <= 9 -> x / 2 ^ (9 - s0) <> c0) as Hdis.
      { intros Hxc i s0 c0 E1 E2 Hs0 Hxc0.
        destruct (chain_nth _ _ _ _ _ _ Hch E1 E2) as (Hr & Hge & _).
        apply (short_range s c x ltac:(lia) Hc0) in Hxc.
        assert (0 <= c0) as Hc00 by (pose proof (pow2_pos (16 - s0) ltac:(lia)); nia).
        apply (short_range s0 c0 x ltac:(lia) Hc00) in Hxc0.
        pose proof (short_chain s0 ltac:(lia)). nia. }
      split.
      * intros i s' c' E1 E2 Hs' Hxc. destruct i as [|i]; cbn in E1, E2.
        -- injection E1 as <-. injection E2 as <-.
           rewrite HB by (apply Hdis; exact Hxc).
           rewrite Htz by lia. apply (short_range s c x ltac:(lia) Hc0) in Hxc.
           rewrite Z2Nat.id by lia. unfold shl.
           replace ((c * 2 ^ (9 - s) <=? x) && (x <? c * 2 ^ (9 - s) + 2 ^ (9 - s)))
             with true by lia. f_equal. lia.
        -- erewrite HA; eauto. f_equal. lia.
      * intros Hno. rewrite HB.
        -- rewrite Htz by lia. rewrite Z2Nat.id by lia. unfold shl.
           destruct ((c * 2 ^ (9 - s) <=? x) && (x <? c * 2 ^ (9 - s) + 2 ^ (9 - s))) eqn:E;
             [|reflexivity].
           exfalso. apply (Hno 0%nat s c eq_refl eq_refl ltac:(lia)).
           apply (short_range s c x ltac:(lia) Hc0). lia.
        -- intros i s0 c0 E1 E2. apply (Hno (S i)); assumption.
    + destruct (IH cs (st + 2 ^ (16 - s)) (k + 1) fast Hch
                  ltac:(pose proof (pow2_pos (16 - s) ltac:(lia)); lia) Hlk)
        as (lk' & Hf & Hl & Hz).
      exists lk'. split; [exact Hf|]. split; [exact Hl|].
      intros x Hx. destruct (Hz x Hx) as [HA HB]. split.
      * intros i s' c' E1 E2 Hs' Hxc. destruct i as [|i]; cbn in E1, E2.
        -- injection E1 as <-. lia.
        -- erewrite HA; eauto. f_equal. lia.
      * intros Hno. apply HB. intros i s0 c0 E1 E2. apply (Hno (S i)); assumption.
Qed.

(** * The whole table *)

Section Whole.
  Variables counts symbols : list Z.
  Hypothesis Hdef : table_def counts symbols.

  Notation cnt := (count counts).
  Notation F := (first_code counts).
  Notation P := (shorter counts).
  Notation sizes := (szn counts 16 1).
  Notation codes := (csn counts 16 1).
  Notation values := (symbols ++ zrepeat 0 (256 - zlen symbols)).

  Let Hlen : length counts = 16%nat.
  Proof. apply Hdef. Qed.
  Let Hcnt : Forall (fun n => 0 <= n <= 255) counts.
  Proof. apply Hdef. Qed.

  (** Start of the codewords of length [l] *)
  Definition pos (l : nat) : Z :=
    match l with O => 0 | S O => 0 | S l' => upto counts l' end.
  Lemma pos_F l : (1 <= l <= 16)%nat -> pos l = F l * 2 ^ (16 - Z.of_nat l).
  Proof.
    intros. destruct l as [|[|l]]; [lia|reflexivity|].
    change (pos (S (S l))) with (upto counts (S l)). unfold upto.
    rewrite (first_code_S counts (S l)) by lia.
    replace (16 - Z.of_nat (S l)) with (1 + (16 - Z.of_nat (S (S l)))) by lia.
    rewrite pow2_split by lia. lia.
  Qed.
  Lemma pos_S l : (1 <= l <= 16)%nat ->
    pos (S l) = pos l + cnt l * 2 ^ (16 - Z.of_nat l).
  Proof.
    intros. rewrite (pos_F l) by lia. destruct l; [lia|].
    change (pos (S (S l))) with (upto counts (S l)). unfold upto. lia.
  Qed.

  Lemma chain_run l k : forall st c ss cs,
    1 <= l <= 16 -> st = c * 2 ^ (16 - l) -> Forall (fun x => l <= x) ss ->
    chain (st + Z.of_nat k * 2 ^ (16 - l)) ss cs ->
    chain st (repeat l k ++ ss) (map (fun i => c + Z.of_nat i) (seq 0 k) ++ cs).
  Proof.
    induction k as [|k IH]; intros st c ss cs Hl Hst Hss Hch.
    - cbn [repeat seq map app]. now replace (st + Z.of_nat 0 * 2 ^ (16 - l)) with st in Hch by lia.
    - cbn [repeat seq map app chain]. split; [lia|]. split; [subst; f_equal; lia|]. split.
      + apply Forall_app. split; [|exact Hss]. apply Forall_forall. intros x Hx.
        apply repeat_spec in Hx. lia.
      + rewrite <- seq_shift, map_map.
        replace (map (fun x => c + Z.of_nat (S x)) (seq 0 k))
          with (map (fun x => (c + 1) + Z.of_nat x) (seq 0 k))
          by (apply map_ext; intros; lia).
        apply IH; auto; [subst; lia|].
        replace (st + 2 ^ (16 - l) + Z.of_nat k * 2 ^ (16 - l))
          with (st + Z.of_nat (S k) * 2 ^ (16 - l)) by lia. exact Hch.
  Qed.

  Lemma chain_table n : forall l,
    (1 <= l)%nat -> (l + n = 17)%nat -> upto counts 16 < 65536 ->
    chain (pos l) (szn counts n l) (csn counts n l).
  Proof.
    induction n as [|n IH]; intros l Hl Hn Hk.
    - assert (l = 17%nat) by lia. subst. cbn [szn csn chain pos]. lia.
    - cbn [szn csn]. unfold zrepeat. rewrite zsucc_seq.
      apply chain_run; [lia|apply pos_F; lia| |].
      + apply Forall_forall. intros x Hx. apply szn_ge in Hx; [lia|assumption..].
      + pose proof (count_range counts Hlen Hcnt l).
        replace (pos l + Z.of_nat (Z.to_nat (cnt l)) * 2 ^ (16 - Z.of_nat l)) with (pos (S l))
          by (rewrite pos_S by lia; lia).
        apply IH; auto; lia.
  Qed.

  Lemma szn_length n : forall l, (1 <= l)%nat -> (l + n = 17)%nat ->
    zlen (szn counts n l) = P 17 - P l.
  Proof.
    induction n as [|n IH]; intros l Hl Hn.
    - assert (l = 17%nat) by lia. subst. cbn [szn]. rewrite zlen_nil. lia.
    - cbn [szn]. rewrite zlen_app, zlen_repeat, IH by lia. rewrite (shorter_S counts l) by lia.
      pose proof (count_range counts Hlen Hcnt l). lia.
  Qed.
  Lemma P_firstn n : (n <= 16)%nat -> P (S n) = fold_right Z.add 0 (firstn n counts).
  Proof.
    induction n as [|n IH]; intros Hn; [reflexivity|].
    rewrite shorter_S by lia. rewrite IH by lia.
    assert (firstn (S n) counts = firstn n counts ++ [nth n counts 0]) as ->.
    { assert (n < length counts)%nat as Hlt by lia. clear -Hlt.
      revert n Hlt; induction counts as [|x l IHl]; intros n Hlt; [cbn in Hlt; lia|].
      destruct n; cbn; [reflexivity|]. f_equal. apply IHl. cbn in Hlt. lia. }
    rewrite fold_right_app. cbn [fold_right]. unfold count. cbn [pred].
    generalize (nth n counts 0). intros z.
    generalize (firstn n counts). clear. induction l; cbn [fold_right]; lia.
  Qed.
  Lemma P_total : P 17 = zlen symbols.
  Proof.
    rewrite P_firstn by lia. rewrite firstn_all2 by lia. symmetry. apply Hdef.
  Qed.
  Lemma sizes_length : zlen sizes = zlen symbols.
  Proof. rewrite szn_length by lia. rewrite P_total. change (P 1) with 0. lia. Qed.
  Lemma symbols_256 : zlen symbols <= 256.
  Proof. destruct Hdef as (_ & _ & H1 & H2 & _). unfold zlen. lia. Qed.

  (** Entries of the lists are exactly the codewords *)
  Lemma entry_codeword i s c :
    nth_error sizes i = Some s -> nth_error codes i = Some c ->
    exists l j, s = Z.of_nat l /\ (1 <= l <= 16)%nat /\ 0 <= j < cnt l /\
                Z.of_nat i = P l + j /\ c = F l + j.
  Proof.
    assert (forall n l i, (1 <= l)%nat -> (l + n = 17)%nat ->
      nth_error (szn counts n l) i = Some s -> nth_error (csn counts n l) i = Some c ->
      exists l' j, s = Z.of_nat l' /\ (1 <= l' <= 16)%nat /\ 0 <= j < cnt l' /\
                   Z.of_nat i + P l = P l' + j /\ c = F l' + j) as H.
    { induction n as [|n IH]; intros l k Hl Hn E1 E2; [destruct k; discriminate|].
      cbn [szn csn] in E1, E2. pose proof (count_range counts Hlen Hcnt l) as Hc.
      destruct (lt_dec k (Z.to_nat (cnt l))) as [Hk|Hk].
      - rewrite nth_error_app1 in E1 by (unfold zrepeat; rewrite repeat_length; lia).
        rewrite zsucc_seq in E2.
        rewrite nth_error_app1 in E2 by (rewrite map_length, seq_length; lia).
        apply nth_error_In in E1. apply repeat_spec in E1.
        rewrite nth_error_map in E2.
        rewrite (nth_error_nth' _ 0%nat) in E2 by (rewrite seq_length; lia).
        rewrite seq_nth in E2 by lia. cbn in E2. injection E2 as <-.
        exists l, (Z.of_nat k). repeat split; lia.
      - rewrite nth_error_app2 in E1 by (unfold zrepeat; rewrite repeat_length; lia).
        unfold zrepeat in E1. rewrite repeat_length in E1.
        rewrite zsucc_seq in E2.
        rewrite nth_error_app2 in E2 by (rewrite map_length, seq_length; lia).
        rewrite map_length, seq_length in E2.
        destruct (IH (S l) _ ltac:(lia) ltac:(lia) E1 E2) as (l' & j & H1 & H2 & H3 & H4 & H5).
        exists l', j. repeat split; auto; try lia. rewrite shorter_S in H4 by lia. lia. }
    intros E1 E2. destruct (H 16%nat 1%nat i ltac:(lia) ltac:(lia) E1 E2)
      as (l & j & H1 & H2 & H3 & H4 & H5).
    exists l, j. change (P 1) with 0 in H4. repeat split; auto; lia.
  Qed.
  Lemma P_mono l m : (1 <= l <= m)%nat -> P l <= P m.
  Proof.
    intros [Hl Hm]. induction Hm as [|m Hm IH]; [lia|]. rewrite shorter_S by lia.
    pose proof (count_range counts Hlen Hcnt m). lia.
  Qed.
  Lemma codeword_entry l j :
    (1 <= l <= 16)%nat -> 0 <= j < cnt l ->
    nth_error sizes (Z.to_nat (P l + j)) = Some (Z.of_nat l) /\
    nth_error codes (Z.to_nat (P l + j)) = Some (F l + j) /\ P l + j < zlen symbols.
  Proof.
    intros Hl Hj.
    pose proof (P_nonneg counts Hlen Hcnt l) as HP.
    pose proof (P_mono (S l) 17 ltac:(lia)) as HP17. rewrite P_total in HP17.
    rewrite (shorter_S counts l) in HP17 by lia.
    split; [|split; [|lia]].
    - assert (forall n m, (1 <= m <= l)%nat -> (m + n = 17)%nat ->
        nth_error (szn counts n m) (Z.to_nat (P l - P m + j)) = Some (Z.of_nat l)) as H.
      { induction n as [|n IH]; intros m Hm Hn; [lia|]. cbn [szn].
        pose proof (count_range counts Hlen Hcnt m).
        destruct (Nat.eq_dec m l) as [->|Hne].
        - replace (P l - P l + j) with j by lia.
          rewrite nth_error_app1 by (unfold zrepeat; rewrite repeat_length; lia).
          unfold zrepeat. apply nth_error_repeat. lia.
        - pose proof (P_mono (S m) l ltac:(lia)) as Hle. rewrite (shorter_S counts m) in Hle by lia.
          rewrite nth_error_app2 by (unfold zrepeat; rewrite repeat_length; lia).
          unfold zrepeat. rewrite repeat_length.
          rewrite <- (IH (S m)) by lia. rewrite (shorter_S counts m) by lia. f_equal. lia. }
      specialize (H 16%nat 1%nat ltac:(lia) ltac:(lia)). change (P 1) with 0 in H.
      rewrite Z.sub_0_r in H. exact H.
    - pose proof (zn_csn_top counts Hlen Hcnt l j Hl Hj) as Hz.
      assert (0 <= P l + j < zlen codes) as Hr.
      { rewrite <- zlen_szn by assumption. rewrite sizes_length. lia. }
      pose proof (zget_zn codes (P l + j) Hr) as Hg. rewrite Hz in Hg.
      unfold zget in Hg. replace (P l + j <? 0) with false in Hg by lia. exact Hg.
  Qed.

  (** The contents of an accepted table *)
  Record tab_ok (t : hufftable) : Prop := {
    to_maxcode : forall l, (1 <= l <= 16)%nat ->
      zn (h_maxcode t) (Z.of_nat l) = if cnt l =? 0 then -1 else upto counts l;
    to_sentinel : zn (h_maxcode t) 17 = 1048575;
    to_offset : forall l, (1 <= l <= 16)%nat -> cnt l <> 0 ->
      zn (h_offset t) (Z.of_nat l) = P l - F l;
    to_lookup : forall x, 0 <= x < 512 ->
      (forall i s c v, nth_error sizes i = Some s -> nth_error codes i = Some c ->
         nth_error values i = Some v -> s <= 9 -> x / 2 ^ (9 - s) = c ->
         zn (h_lookup t) x = lk_entry s v) /\
      ((forall i s c, nth_error sizes i = Some s -> nth_error codes i = Some c ->
          s <= 9 -> x / 2 ^ (9 - s) <> c) -> zn (h_lookup t) x = 5120);
    to_values : h_values t = values;
    to_bits : h_bits t = 0 :: counts }.

  (** The intermediate array of the fast AC table *)
  Definition fast_ok (fast : list Z) : Prop :=
    zlen fast = 512 /\
    forall x, 0 <= x < 512 ->
      (forall i s c, nth_error sizes i = Some s -> nth_error codes i = Some c ->
         s <= 9 -> x / 2 ^ (9 - s) = c -> zn fast x = Z.of_nat i) /\
      ((forall i s c, nth_error sizes i = Some s -> nth_error codes i = Some c ->
          s <= 9 -> x / 2 ^ (9 - s) <> c) -> zn fast x = 255).

  Lemma upto_kraft : upto counts 16 = kraft counts.
  Proof. symmetry. now apply kraft_upto. Qed.

  Lemma huffman_new_ok (is_dc prog : bool) :
    kraft counts < 65536 -> (is_dc = true -> Forall (fun s => s <= 15) symbols) ->
    exists t, huffman_new (0 :: counts) values is_dc prog = Ok t /\ tab_ok t /\
      (if is_dc then h_ac_lookup t = None
       else exists fast, fast_ok fast /\
              h_ac_lookup t = Some (fast_ac_table sizes values fast prog)).
  Proof.
    intros Hk Hdc. rewrite <- upto_kraft in Hk.
    unfold huffman_new. rewrite huff_sizes_szn by assumption.
    pose proof symbols_256 as H256. pose proof sizes_length as Hsl.
    replace (256 <? zlen sizes) with false by lia.
    destruct (gen_codes_top counts Hlen Hcnt) as [Hg _].
    rewrite huff_sizes_szn in Hg by assumption.
    destruct (Hg Hk) as (mc & Hgen & Hmcl & Hmc). rewrite Hgen.
    destruct (fill_offsets_ok counts Hlen Hcnt mc Hmcl)
      as (mc' & off' & Hfo & Hl1 & Hl2 & H17 & Hoff). rewrite Hfo.
    pose proof (chain_table 16 1 ltac:(lia) ltac:(lia) Hk) as Hch. change (pos 1) with 0 in Hch.
    assert (length sizes <= length values)%nat as Hlv.
    { rewrite app_length. unfold zlen in Hsl. lia. }
    destruct (fill_lookup_ok sizes codes values 0 (zrepeat (shl (HUFF_LOOKAHEAD + 1) HUFF_LOOKAHEAD) 512)
                Hch ltac:(lia) Hlv ltac:(now rewrite zlen_repeat))
      as (lk & Hlk & Hlkl & Hlks).
    rewrite Hlk.
    assert (forall ac, tab_ok (mkHuff mc' off' lk ac (0 :: counts) values)) as Htab.
    { intros ac. constructor; cbn [h_maxcode h_offset h_lookup h_values h_bits]; auto.
      - intros l Hl. destruct (Hoff l Hl) as [H1 _]. rewrite H1.
        destruct (cnt l =? 0) eqn:E; [reflexivity|]. apply Hmc; lia.
      - intros l Hl Hc. apply (Hoff l Hl). exact Hc.
      - intros x Hx. destruct (Hlks x Hx) as [HA HB]. split; [exact HA|].
        intros Hno. rewrite HB by exact Hno.
        now rewrite zn_repeat by lia. }
    destruct is_dc.
    - assert (existsb (fun v => 15 <? v) (firstn (length sizes) values) = false) as ->.
      { replace (length sizes) with (length symbols + 0)%nat by (unfold zlen in Hsl; lia).
        rewrite firstn_app_2. cbn [firstn]. rewrite app_nil_r.
        specialize (Hdc eq_refl). rewrite Forall_forall in Hdc.
        apply not_true_is_false. intros Hex. apply existsb_exists in Hex as (x & Hx & Hgt).
        apply Hdc in Hx. lia. }
      eexists. split; [reflexivity|]. split; [apply Htab|]. reflexivity.
    - destruct (fill_fast_ok sizes codes 0 0 (zrepeat 255 512) Hch ltac:(lia)
                  ltac:(now rewrite zlen_repeat)) as (fast & Hf & Hfl & Hfs).
      rewrite Hf. eexists. split; [reflexivity|]. split; [apply Htab|].
      exists fast. split; [|reflexivity]. split; [exact Hfl|].
      intros x Hx. destruct (Hfs x Hx) as [HA HB]. split.
      + intros i s c E1 E2 Hs Hxc. rewrite (HA i s c E1 E2 Hs Hxc).
        assert (Z.of_nat i < 256) as Hi.
        { assert (i < length sizes)%nat by (apply nth_error_Some; congruence).
          unfold zlen in *. lia. }
        unfold i16. rewrite Z.mod_small by lia. lia.
      + intros Hno. rewrite HB by exact Hno. now rewrite zn_repeat by lia.
  Qed.

  Lemma huffman_new_err (is_dc prog : bool) :
    ~ (kraft counts < 65536 /\ (is_dc = true -> Forall (fun s => s <= 15) symbols)) ->
    exists e, huffman_new (0 :: counts) values is_dc prog = Err e.
  Proof.
    intros Hn. unfold huffman_new. rewrite huff_sizes_szn by assumption.
    pose proof symbols_256 as H256. pose proof sizes_length as Hsl.
    replace (256 <? zlen sizes) with false by lia.
    destruct (gen_codes_top counts Hlen Hcnt) as [Hg Hb].
    rewrite huff_sizes_szn in Hg, Hb by assumption. rewrite upto_kraft in Hg, Hb.
    destruct (Z_lt_dec (kraft counts) 65536) as [Hk|Hk].
    - destruct (Hg Hk) as (mc & Hgen & Hmcl & Hmc). rewrite Hgen.
      destruct (fill_offsets (0 :: counts) codes mc) as [mc' off'].
      pose proof (chain_table 16 1 ltac:(lia) ltac:(lia) ltac:(now rewrite upto_kraft)) as Hch.
      change (pos 1) with 0 in Hch.
      assert (length sizes <= length values)%nat as Hlv.
      { rewrite app_length. unfold zlen in Hsl. lia. }
      destruct (fill_lookup_ok sizes codes values 0 (zrepeat (shl (HUFF_LOOKAHEAD + 1) HUFF_LOOKAHEAD) 512)
                  Hch ltac:(lia) Hlv ltac:(now rewrite zlen_repeat))
        as (lk & Hlk & Hlkl & Hlks).
      rewrite Hlk.
      destruct is_dc; [|exfalso; apply Hn; split; [lia|discriminate]].
      destruct (existsb (fun v => 15 <? v) (firstn (length sizes) values)) eqn:E; [eauto|].
      exfalso. apply Hn. split; [lia|]. intros _. apply Forall_forall. intros x Hx.
      replace (length sizes) with (length symbols + 0)%nat in E by (unfold zlen in Hsl; lia).
      rewrite firstn_app_2 in E. cbn [firstn] in E. rewrite app_nil_r in E.
      destruct (Z_le_dec x 15) as [|Hgt]; [assumption|exfalso].
      assert (existsb (fun v => 15 <? v) symbols = true) as Ht.
      { apply existsb_exists. exists x. split; [exact Hx|lia]. }
      congruence.
    - destruct (Hb ltac:(lia)) as [e He]. rewrite He. eauto.
  Qed.
End Whole.
