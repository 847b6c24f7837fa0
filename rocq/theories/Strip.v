(** Where the inverse DCT puts the samples of a row of blocks. *)
From Coq Require Import ZArith String List Bool Lia.
From Coq Require Import ZifyBool ZifyNat ZifyN.
From Verif Require Import Base Types State Idct Simd Worker SpecIdct.
From Verif Require Import ColorFacts Placement IdctFacts IdctSimd.
Import ListNotations.
Local Open Scope Z_scope.
Local Open Scope res_scope.
Ltac Zify.zify_post_hook ::= Z.div_mod_to_equations.

(** Eight rows of eight samples *)
Definition square (rows : list (list Z)) : Prop := length rows = 8%nat /\ Forall (fun r => length r = 8%nat) rows.

Lemma zn_splice (l s : list Z) a i : 0 <= a -> a + zlen s <= zlen l -> 0 <= i ->
  zn (splice l a s) i = if (a <=? i) && (i <? a + zlen s) then zn s (i - a) else zn l i.
Proof.
  intros Ha Hl Hi. unfold zn. rewrite nth_splice by assumption. unfold zlen in *.
  destruct (Z.leb_spec a i), (Z.ltb_spec i (a + Z.of_nat (length s))); cbn [andb].
  - replace (_ || _) with false by lia. f_equal. lia.
  - replace (_ || _) with true by lia. reflexivity.
  - replace (_ || _) with true by lia. reflexivity.
  - replace (_ || _) with true by lia. reflexivity.
Qed.

(** [k] rows, the first of which goes to [x], [stride] apart *)
Lemma store_rows_at stride rows : 8 <= stride -> Forall (fun r => length r = 8%nat) rows -> forall x out, 0 <= x ->
  (rows <> [] -> x + (zlen rows - 1) * stride + 8 <= zlen out) ->
  exists out', store_rows rows stride x out = Ok out' /\ length out' = length out /\
    forall i, 0 <= i -> zn out' i =
      let r := (i - x) / stride in let c := (i - x) mod stride in
      if (0 <=? r) && (r <? zlen rows) && (c <? 8) then sample rows r c else zn out i.
Proof.
  intros HS. induction rows as [|row rows IH]; intros Hr x out Hx Hl.
  - exists out. split; [reflexivity|]. split; [reflexivity|]. intros i Hi. cbv zeta. change (zlen (@nil (list Z))) with 0.
    replace (_ && _) with false by lia. reflexivity.
  - apply Forall_cons_iff in Hr. destruct Hr as [Hr1 Hr]. specialize (Hl ltac:(discriminate)).
    assert (Hz : zlen row = 8) by (unfold zlen; lia).
    assert (Hzr : zlen (row :: rows) = zlen rows + 1) by (unfold zlen; cbn [length]; lia). rewrite Hzr in *.
    assert (0 <= zlen rows) by (unfold zlen; lia).
    assert (0 <= zlen rows * stride) by (apply Z.mul_nonneg_nonneg; lia).
    replace (zlen rows + 1 - 1) with (zlen rows) in Hl by lia.
    cbn [store_rows]. rewrite put_slice_ok by lia. cbn [rbind].
    assert (Hsl : length (splice out x row) = length out) by (apply splice_length; lia).
    destruct (IH Hr (x + stride) (splice out x row)) as (out' & E & L & N); [lia| |].
    { intros _. unfold zlen in *. rewrite Hsl. lia. }
    exists out'. split; [exact E|]. split; [congruence|]. intros i Hi. rewrite N by exact Hi. cbv zeta.
    rewrite zn_splice by lia. rewrite Hz.
    replace (i - (x + stride)) with (i - x + (-1) * stride) by lia.
    rewrite Z.div_add, Z.mod_add by lia.
    set (q := (i - x) / stride). set (c := (i - x) mod stride).
    assert (Hqc : i - x = stride * q + c) by (apply Z.div_mod; lia).
    assert (Hc : 0 <= c < stride) by (apply Z.mod_pos_bound; lia).
    destruct (Z.eqb_spec q 0) as [->|Hq0].
    + replace (0 <=? 0 + -1) with false by reflexivity. cbn [andb].
      replace ((x <=? i) && (i <? x + 8)) with (c <? 8) by lia.
      replace ((0 <=? 0) && (0 <? zlen rows + 1)) with true by lia. cbn [andb].
      destruct (c <? 8) eqn:Ec; [|reflexivity]. unfold sample. cbn [Z.to_nat nth]. unfold zn. f_equal. lia.
    + replace ((0 <=? q + -1) && (q + -1 <? zlen rows)) with ((0 <=? q) && (q <? zlen rows + 1)) by lia.
      destruct ((0 <=? q) && (q <? zlen rows + 1)) eqn:Eq; cbn [andb].
      * destruct (c <? 8) eqn:Ec.
        -- unfold sample. replace (Z.to_nat q) with (S (Z.to_nat (q + -1))) by lia. reflexivity.
        -- replace ((x <=? i) && (i <? x + 8)) with false; [reflexivity|].
           assert (stride * 1 <= stride * q) by (apply Z.mul_le_mono_nonneg_l; lia). lia.
      * replace ((x <=? i) && (i <? x + 8)) with false; [reflexivity|].
        destruct (Z.ltb_spec q 0).
        -- assert (stride * q <= stride * -1) by (apply Z.mul_le_mono_nonneg_l; lia). lia.
        -- assert (stride * 1 <= stride * q) by (apply Z.mul_le_mono_nonneg_l; lia). lia.
Qed.

Lemma store_blocks_at kernel stride blocks : 8 <= stride -> Forall (fun b => square (kernel b)) blocks ->
  forall x out, 0 <= x -> x + 8 * zlen blocks <= stride -> 8 * stride <= zlen out ->
  exists out', store_blocks kernel blocks stride x out = Ok out' /\ length out' = length out /\
    forall r c, 0 <= r < 8 -> 0 <= c < stride -> zn out' (r * stride + c) =
      if (x <=? c) && (c <? x + 8 * zlen blocks)
      then sample (kernel (nth (Z.to_nat ((c - x) / 8)) blocks [])) r ((c - x) mod 8)
      else zn out (r * stride + c).
Proof.
  intros HS. induction blocks as [|b blocks IH]; intros Hb x out Hx Hxs Hl.
  - exists out. split; [reflexivity|]. split; [reflexivity|]. intros r c Hr Hc. change (zlen (@nil (list Z))) with 0.
    replace (_ && _) with false by lia. reflexivity.
  - apply Forall_cons_iff in Hb. destruct Hb as [[H8 Hr8] Hb].
    assert (Hzb : zlen (b :: blocks) = zlen blocks + 1) by (unfold zlen; cbn [length]; lia). rewrite Hzb in *.
    assert (0 <= zlen blocks) by (unfold zlen; lia).
    assert (Hk8 : zlen (kernel b) = 8) by (unfold zlen; lia).
    cbn [store_blocks].
    destruct (store_rows_at stride (kernel b) HS Hr8 x out Hx) as (o1 & E1 & L1 & N1); [intros _; lia|].
    rewrite E1. cbn [rbind].
    destruct (IH Hb (x + 8) o1) as (o2 & E2 & L2 & N2); [lia|lia|unfold zlen in *; lia|].
    exists o2. split; [exact E2|]. split; [congruence|]. intros r c Hr Hc. rewrite N2 by assumption.
    assert (0 <= r * stride) by (apply Z.mul_nonneg_nonneg; lia).
    destruct ((x + 8 <=? c) && (c <? x + 8 + 8 * zlen blocks)) eqn:E8.
    + replace ((x <=? c) && (c <? x + 8 * (zlen blocks + 1))) with true by lia.
      replace (c - x) with (c - (x + 8) + 1 * 8) by lia. rewrite Z.div_add, Z.mod_add by lia.
      replace (Z.to_nat ((c - (x + 8)) / 8 + 1)) with (S (Z.to_nat ((c - (x + 8)) / 8))) by lia. reflexivity.
    + rewrite N1 by lia. cbv zeta. rewrite Hk8.
      replace (r * stride + c - x) with (c - x + r * stride) by lia. rewrite Z.div_add, Z.mod_add by lia.
      destruct (Z.leb_spec x c).
      * rewrite (Z.div_small (c - x)), (Z.mod_small (c - x)) by lia.
        replace ((0 <=? 0 + r) && (0 + r <? 8)) with true by lia. cbn [andb].
        replace (c - x <? 8) with (c <? x + 8 * (zlen blocks + 1)) by lia.
        destruct (c <? x + 8 * (zlen blocks + 1)) eqn:Ec; [|reflexivity].
        rewrite (Z.div_small (c - x)), (Z.mod_small (c - x)) by lia. reflexivity.
      * cbn [andb]. assert ((c - x) / stride = -1) as -> by (symmetry; apply (Z.div_unique _ _ _ (c - x + stride)); lia).
        assert ((c - x) mod stride = c - x + stride) as -> by (symmetry; apply (Z.mod_unique _ _ (-1)); lia).
        replace (c - x + stride <? 8) with false by lia. rewrite andb_false_r. reflexivity.
Qed.

(** A row of [n] blocks without sampling *)
Lemma strip_idct kernel vector n : 0 < n -> zlen vector = 64 * n ->
  (forall b, length b = 64%nat -> square (kernel b)) ->
  exists out, dequantize_and_idct kernel vector (8 * n) 1 1 = Ok out /\ zlen out = 64 * n /\
    forall r c, 0 <= r < 8 -> 0 <= c < 8 * n ->
      zn out (r * (8 * n) + c) = sample (kernel (firstn 64 (skipn (Z.to_nat (64 * (c / 8))) vector))) r (c mod 8).
Proof.
  intros Hn Hl Hk. unfold dequantize_and_idct. cbn [Z.eqb].
  rewrite Z.mul_1_r, Z.div_1_r. unfold chunks_exact. replace (zlen vector <=? 0) with false by lia. cbn [rbind].
  assert (chunks_n (Z.to_nat (zlen vector)) vector = [vector]) as ->.
  { rewrite (chunks_rows vector (Z.to_nat (zlen vector)) 1) by (unfold zlen in *; lia). cbn [seq map Nat.mul skipn].
    rewrite firstn_all2 by (unfold zlen; lia). reflexivity. }
  cbn [idct_chunks].
  assert (Hbl : chunks_n 64 vector = map (fun i => firstn 64 (skipn (i * 64) vector)) (seq 0 (Z.to_nat n))).
  { apply chunks_rows; unfold zlen in *; lia. }
  destruct (store_blocks_at kernel (8 * n) (chunks_n 64 vector)) with (x := 0) (out := zrepeat 0 (zlen vector)) as (o & E & L & N).
  - lia.
  - rewrite Hbl. apply Forall_map, Forall_forall. intros i Hi. apply in_seq in Hi. apply Hk.
    rewrite firstn_length, skipn_length. unfold zlen in *. lia.
  - lia.
  - rewrite Hbl. unfold zlen. rewrite map_length, seq_length. lia.
  - unfold zlen in *. unfold zrepeat. rewrite repeat_length. lia.
  - rewrite E. cbn [rbind]. rewrite app_nil_r.
    assert (Hlo : zlen o = 64 * n) by (unfold zlen in *; rewrite L; unfold zrepeat; rewrite repeat_length; lia).
    rewrite Hlo, Hl, Z.sub_diag. change (zrepeat 0 0) with (@nil Z). rewrite app_nil_r.
    exists o. split; [reflexivity|]. split; [exact Hlo|]. intros r c Hr Hc. rewrite N by assumption.
    assert (Hzb : zlen (chunks_n 64 vector) = n) by (rewrite Hbl; unfold zlen; rewrite map_length, seq_length; lia).
    rewrite Hzb. replace ((0 <=? c) && (c <? 0 + 8 * n)) with true by lia. rewrite Z.sub_0_r. f_equal. f_equal.
    rewrite (nth_chunk [] vector 64 (Z.to_nat n)) by (unfold zlen in *; lia). f_equal. f_equal. lia.
Qed.

(** The kernels give squares *)
Definition kernel_of (k : idct_kind) (q b : list Z) : list (list Z) :=
  match k with IdctScalar => idct_block b q | IdctAvx2 => idct_block_avx2 b q end.
Lemma run_idct_kernel k v q s sf vs : run_idct k v q s sf vs = dequantize_and_idct (kernel_of k q) v s sf vs.
Proof. destruct k; reflexivity. Qed.
Lemma repeat8 x : square (zrepeat (zrepeat x 8) 8).
Proof. split; [reflexivity|]. repeat constructor. Qed.
Lemma tabs8 (f : Z -> Z -> Z) : square (map (fun r => tab (f r)) (zseq 8)).
Proof. split; [reflexivity|]. repeat constructor. Qed.
Lemma kernel_square k q b : length q = 64%nat -> length b = 64%nat -> square (kernel_of k q b).
Proof.
  intros Hq Hb. destruct k; cbn [kernel_of].
  - unfold idct_block. destruct (forallb _ _); [apply repeat8|]. change (map _ (zseq 8)) with (idct_full b q).
    rewrite full_tab. apply tabs8.
  - rewrite C26_block_lemma by assumption. destruct (forallb _ _) eqn:E.
    + unfold idct_block. rewrite E. split; [reflexivity|]. repeat constructor.
    + rewrite full_tab. unfold tr_rows. split; [reflexivity|]. repeat constructor.
Qed.
