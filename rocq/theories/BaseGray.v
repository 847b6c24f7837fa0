(** Grayscale baseline images: the rows of blocks. *)
From Coq Require Import ZArith String List Bool Lia.
From Coq Require Import ZifyBool ZifyNat ZifyN.
From Verif Require Import Base Types Huffman State Bitstream Headers Idct Color Simd Worker Mcu McuProg Decoder.
From Verif Require Import SpecHuffman SpecSegments SpecExtend SpecBits SpecBlock.
From Verif Require GrayFile.
From Verif Require Import Obs BaseFacts HuffDecode FastAc Reader Feed Block ProgFacts.
Import ListNotations.
Local Open Scope Z_scope.
Ltac Zify.zify_post_hook ::= Z.div_mod_to_equations.

Lemma slice_mid {A} (a b c : list A) x y : x = zlen a -> y = x + zlen b -> slice (a ++ b ++ c) x y = Some b.
Proof.
  intros -> ->. unfold slice, zlen. rewrite !app_length.
  replace (_ && _) with true by lia. f_equal.
  replace (Z.to_nat (Z.of_nat (length a))) with (length a + 0)%nat by lia. rewrite skipn_app, Nat.add_sub_swap, Nat.sub_diag by lia.
  rewrite skipn_all2 by lia. cbn [app skipn Nat.add].
  replace (Z.to_nat (Z.of_nat (length a) + Z.of_nat (length b) - Z.of_nat (length a))) with (length b + 0)%nat by lia.
  rewrite firstn_app_2. cbn [firstn]. apply app_nil_r.
Qed.
Lemma splice_mid {A} (a b c b' : list A) x : x = zlen a -> length b' = length b -> splice (a ++ b ++ c) x b' = (a ++ b' ++ c)%list.
Proof.
  intros -> Hl. unfold splice, zlen. rewrite Nat2Z.id. f_equal.
  - rewrite <- (app_nil_r a) at 3. rewrite <- (Nat.add_0_r (length a)). rewrite firstn_app_2. reflexivity.
  - f_equal. rewrite Hl, app_assoc, <- app_length. rewrite skipn_app, Nat.sub_diag, skipn_all. reflexivity.
Qed.

Section rows.
Variables (g : geom) (d0 : decoder) (c0 : component) (dct act : hufftable) (ft dcc dcs acc acs rest : list Z).
Hypothesis Hdt : dc_table dct dcc dcs.
Hypothesis Hat : ac_table act ft acc acs false.
Hypothesis Hsafe : fast_safe acc acs.
Hypothesis Hin : d_incs d0 = GRAYSCALE.
Hypothesis Hout : o_colorspace (d_opt d0) = GRAYSCALE.
Hypothesis Hhv : c_h c0 = 1 /\ c_v c0 = 1.
Hypothesis Hdc : table_at (d_dcts d0) (Z.land (c_dct c0) 3) = Some dct.
Hypothesis Hac : table_at (d_acts d0) (Z.land (c_act c0) 3) = Some act.
Hypothesis Hbias : g_bias g = 1.
Hypothesis Hghv : g_hv g = false.
Hypothesis Hw : 0 < g_mcuw g.
Hypothesis Hcap : g_ccap g = 64 * g_mcuw g.

(** The decoder with predictor [p] and [t] MCUs before the next restart *)
Definition gdec (p t : Z) : decoder := set_d_todo t (set_d_comps [set_c_pred p c0] d0).

Definition block_fine (p : Z) (zz : list Z) : Prop := baseline_block p zz /\ dc_fits dcc dcs p zz.

Lemma marker_eoi n s bs : feed n s bs (AtMarker 217 rest) -> b_marker s = None \/ b_marker s = Some EOI.
Proof.
  intros (_ & u & E & z & r & [_ _ _ H] & _). destruct (b_marker s) as [m|]; [right|now left].
  destruct H as (_ & c & [= <- _] & H). cbn in H. congruence.
Qed.

Lemma gray_mcu p t st plane jobs j zz b bs :
  block_fine p zz -> encode_block (code_of dcc dcs) (code_of acc acs) p zz = Some b ->
  feed 0 st (b ++ bs) (AtMarker 217 rest) -> 1 < t < 2 ^ 64 ->
  0 <= j -> slice plane (64 * j) (64 * j + 64) = Some (zrepeat 0 64) ->
  exists st', decode_mcu g 0 j (mkMst (gdec p t) st [plane; []; []] jobs)
    = (Ok tt, mkMst (gdec (hd 0 zz) (t - 1)) st' [splice plane (64 * j) (natural zz); []; []] jobs) /\
    feed 0 st' bs (AtMarker 217 rest).
Proof.
  intros [[Hlen Hb] Hfits] He Hf Ht Hj Hsl. destruct Hhv as [Hh Hv].
  destruct (decode_block_ok dct act ft dcc dcs acc acs p zz b 0 st bs (AtMarker 217 rest) Hdt Hat Hsafe Hlen)
    as (st' & Ed & Hf' & _); [|exact He|exact Hf|].
  { destruct zz as [|v r]; [tauto|]. destruct Hb as (H1 & H2 & H3). split; [exact H1|]. split; [lia|].
    split; [|exact Hfits]. eapply Forall_impl; [|exact H3]. cbv beta. lia. }
  exists st'. split; [|exact Hf'].
  unfold decode_mcu, bind, getm, getm. cbn [m_dec].
  assert (d_incs (gdec p t) = GRAYSCALE) as -> by exact Hin. change (Z.to_nat (num_components GRAYSCALE)) with 1%nat.
  cbn [mfor_break]. unfold bind at 1. unfold mcu_component, bind, getm, lift, gets. cbn [m_dec].
  change (d_comps (gdec p t)) with [set_c_pred p c0]. change (at_ [set_c_pred p c0] 0) with (Ok (set_c_pred p c0)).
  cbv iota beta. change (d_dcts (gdec p t)) with (d_dcts d0). change (d_acts (gdec p t)) with (d_acts d0).
  change (c_dct (set_c_pred p c0)) with (c_dct c0). change (c_act (set_c_pred p c0)) with (c_act c0). rewrite Hdc, Hac.
  assert (E : decode_component g (set_c_pred p c0) dct act 0 0 j (mkMst (gdec p t) st [plane; []; []] jobs)
    = (Ok tt, mkMst (gdec (hd 0 zz) t) st' [splice plane (64 * j) (natural zz); []; []] jobs)).
  { unfold decode_component. change (c_v (set_c_pred p c0)) with (c_v c0). change (c_h (set_c_pred p c0)) with (c_h c0).
    rewrite Hh, Hv. change (Z.to_nat 1) with 1%nat. cbn [mfor]. unfold bind, ret, decode_block. cbn [m_dec m_tmp m_st m_jobs].
    change (d_opt (gdec p t)) with (d_opt d0). rewrite Hout. change (0 <=? num_components GRAYSCALE - 1) with true. cbv iota.
    assert (block_start g (set_c_pred p c0) 0 j 0 0 = 64 * j) as ->.
    { unfold block_start. rewrite Hghv. change (c_h (set_c_pred p c0)) with (c_h c0). change (c_v (set_c_pred p c0)) with (c_v c0).
      rewrite Hh, Hv. lia. }
    change (zget [plane; []; []] 0) with (Some plane). cbv iota. rewrite Hsl.
    change (zget (d_comps (gdec p t)) 0) with (Some (set_c_pred p c0)). cbv iota.
    change (c_pred (set_c_pred p c0)) with p. rewrite Ed. cbv iota. reflexivity. }
  rewrite E. unfold count_restart, tick. cbn [m_dec m_st m_tmp m_jobs]. change (d_todo (gdec (hd 0 zz) t)) with t.
  assert (u64 (t - 1) = t - 1) as -> by (unfold u64; apply Z.mod_small; lia).
  change (d_todo (set_d_todo (t - 1) (gdec (hd 0 zz) t))) with (t - 1).
  replace (t - 1 =? 0) with false by lia. cbn [m_st].
  change (set_d_todo (t - 1) (gdec (hd 0 zz) t)) with (gdec (hd 0 zz) (t - 1)).
  destruct (marker_eoi _ _ _ Hf') as [-> | ->]; reflexivity.
Qed.

(** A plane of which the first blocks are done *)
Definition partial_row (done : list (list Z)) (m : nat) : list Z := (concat (map natural done) ++ zrepeat 0 (64 * Z.of_nat m))%list.

Lemma gray_row_blocks zs : forall done p t st jobs b bs,
  with_pred block_fine p zs -> encode_blocks (code_of dcc dcs) (code_of acc acs) p zs = Some b ->
  feed 0 st (b ++ bs) (AtMarker 217 rest) -> Z.of_nat (length zs) < t < 2 ^ 64 ->
  exists st', mfor (length zs) (Z.of_nat (length done)) (fun j => decode_mcu g 0 j)
      (mkMst (gdec p t) st [partial_row done (length zs); []; []] jobs)
    = (Ok tt, mkMst (gdec (last (map (hd 0) zs) p) (t - Z.of_nat (length zs))) st' [partial_row (done ++ zs) 0; []; []] jobs) /\
    feed 0 st' bs (AtMarker 217 rest).
Proof.
  induction zs as [|zz zs IH]; intros done p t st jobs b bs Hp He Hf Ht.
  - injection He as <-. exists st. rewrite app_nil_r. cbn [length map last mfor]. rewrite Z.sub_0_r. split; [reflexivity|exact Hf].
  - cbn [with_pred encode_blocks] in Hp, He. destruct Hp as [Hz Hp]. apply cat_opt_some in He. destruct He as (b1 & b2 & E1 & E2 & ->).
    rewrite <- app_assoc in Hf. cbn [length] in Ht.
    assert (Hnl : forall l, zlen (concat (map natural l)) = 64 * Z.of_nat (length l)).
    { intros l. induction l as [|a l IHl]; [reflexivity|]. cbn [map concat length]. unfold zlen in *. rewrite app_length, GrayFile.natural_length. lia. }
    set (plane := partial_row done (length (zz :: zs))).
    assert (Hpl : plane = (concat (map natural done) ++ zrepeat 0 64 ++ zrepeat 0 (64 * Z.of_nat (length zs)))%list).
    { unfold plane, partial_row. f_equal. unfold zrepeat. rewrite <- repeat_app. f_equal. cbn [length]. lia. }
    destruct (gray_mcu p t st plane jobs (Z.of_nat (length done)) zz b1 (b2 ++ bs)) as (st1 & Em & Hf1); auto; try lia.
    { rewrite Hpl. apply slice_mid; [now rewrite Hnl|]. unfold zlen, zrepeat. rewrite repeat_length. lia. }
    assert (Hs : splice plane (64 * Z.of_nat (length done)) (natural zz) = partial_row (done ++ [zz]) (length zs)).
    { rewrite Hpl. rewrite splice_mid; [|now rewrite Hnl|rewrite GrayFile.natural_length; reflexivity].
      unfold partial_row. rewrite map_app, concat_app. cbn [map concat]. now rewrite app_nil_r, <- app_assoc. }
    rewrite Hs in Em.
    destruct (IH (done ++ [zz])%list (hd 0 zz) (t - 1) st1 jobs b2 bs) as (st2 & Er & Hf2); auto; try lia.
    exists st2. split; [|exact Hf2]. cbn [length mfor]. unfold bind. rewrite Em.
    replace (Z.of_nat (length done) + 1) with (Z.of_nat (length (done ++ [zz]))) by (rewrite app_length; cbn [length]; lia).
    rewrite Er. rewrite <- app_assoc. cbn [app]. do 2 f_equal.
    rewrite Nat2Z.inj_succ. replace (t - 1 - Z.of_nat (length zs)) with (t - Z.succ (Z.of_nat (length zs))) by lia. f_equal.
    cbn [map]. clear. destruct zs as [|a zs]; [reflexivity|]. cbn [map]. generalize (hd 0 a) (map (hd 0) zs). intros x l.
    revert x. induction l as [|y l IH]; intros x; [reflexivity|]. exact (IH y).
Qed.

Lemma gray_row zs p t st tmp jobs b bs : length zs = Z.to_nat (g_mcuw g) ->
  with_pred block_fine p zs -> encode_blocks (code_of dcc dcs) (code_of acc acs) p zs = Some b ->
  feed 0 st (b ++ bs) (AtMarker 217 rest) -> Z.of_nat (length zs) < t < 2 ^ 64 ->
  zlen jobs < g_total g / g_chunk g ->
  exists st' tmp', decode_row g (mkMst (gdec p t) st tmp jobs)
    = (Ok tt, mkMst (gdec (last (map (hd 0) zs) p) (t - Z.of_nat (length zs))) st' tmp'
               ([concat (map natural zs); []; []] :: jobs)) /\
    feed 0 st' bs (AtMarker 217 rest).
Proof.
  intros Hl Hp He Hf Ht Hj. unfold decode_row, bind, getm, lift, modify. cbn [m_dec m_st m_tmp m_jobs].
  change (d_comps (gdec p t)) with [set_c_pred p c0]. change (d_opt (gdec p t)) with (d_opt d0). rewrite Hout.
  destruct Hhv as [Hh Hv]. cbn [alloc_row]. change (0 <=? num_components GRAYSCALE - 1) with true. cbv iota.
  change (c_v (set_c_pred p c0)) with (c_v c0). change (c_h (set_c_pred p c0)) with (c_h c0). rewrite Hh, Hv, Hbias, Hcap.
  change (zupd [[]; []; []] 0 (zrepeat 0 (64 * g_mcuw g * 1 * 1 * 1))) with (Ok [zrepeat 0 (64 * g_mcuw g * 1 * 1 * 1); []; []]).
  cbv iota. change (Z.to_nat 1) with 1%nat. cbn [mfor]. unfold bind at 1. rewrite <- Hl.
  replace (zrepeat 0 (64 * g_mcuw g * 1 * 1 * 1)) with (partial_row [] (length zs)).
  2:{ unfold partial_row. cbn [map concat app]. f_equal. lia. }
  destruct (gray_row_blocks zs [] p t st jobs b bs Hp He Hf Ht) as (st' & E & Hf'). cbn [length Z.of_nat app] in E.
  rewrite E. unfold ret. cbn [m_jobs m_dec m_st m_tmp]. replace (g_total g / g_chunk g <=? zlen jobs) with false by lia.
  exists st'. eexists. split; [|exact Hf']. unfold partial_row. change (zrepeat 0 (64 * Z.of_nat 0)) with (@nil Z).
  rewrite app_nil_r. reflexivity.
Qed.

Lemma encode_blocks_app dc ac a : forall p c b, encode_blocks dc ac p (a ++ c) = Some b ->
  exists b1 b2, encode_blocks dc ac p a = Some b1 /\ encode_blocks dc ac (last (map (hd 0) a) p) c = Some b2 /\ b = (b1 ++ b2)%list.
Proof.
  induction a as [|z a IH]; intros p c b H.
  - exists [], b. auto.
  - cbn [app encode_blocks] in *. apply cat_opt_some in H. destruct H as (x & y & E1 & E2 & ->).
    destruct (IH _ _ _ E2) as (b1 & b2 & F1 & F2 & ->). exists (x ++ b1)%list, b2. rewrite E1, F1. split; [reflexivity|].
    split; [|now rewrite app_assoc]. replace (last (map (hd 0) (z :: a)) p) with (last (map (hd 0) a) (hd 0 z)); [exact F2|].
    clear. cbn [map]. destruct a as [|q a]; [reflexivity|]. cbn [map]. generalize (hd 0 q) (map (hd 0) a). intros x l.
    revert x. induction l as [|y l IH]; intros x; [reflexivity|]. exact (IH y).
Qed.
Lemma with_pred_app P a : forall p c, with_pred P p (a ++ c) -> with_pred P p a /\ with_pred P (last (map (hd 0) a) p) c.
Proof.
  induction a as [|z a IH]; intros p c H; [split; [exact I|exact H]|]. cbn [app with_pred] in *. destruct H as [H1 H].
  destruct (IH _ _ H) as [H2 H3]. split; [auto|].
  replace (last (map (hd 0) (z :: a)) p) with (last (map (hd 0) a) (hd 0 z)); [exact H3|].
  clear. cbn [map]. destruct a as [|q a]; [reflexivity|]. cbn [map]. generalize (hd 0 q) (map (hd 0) a). intros x l.
  revert x. induction l as [|y l IH]; intros x; [reflexivity|]. exact (IH y).
Qed.

Lemma gray_rows n : forall i zs p t st tmp jobs b bs, length zs = (n * Z.to_nat (g_mcuw g))%nat ->
  with_pred block_fine p zs -> encode_blocks (code_of dcc dcs) (code_of acc acs) p zs = Some b ->
  feed 0 st (b ++ bs) (AtMarker 217 rest) -> Z.of_nat (length zs) < t < 2 ^ 64 ->
  zlen jobs + Z.of_nat n <= g_total g / g_chunk g ->
  exists p' t' st' tmp' js, mfor n i (fun _ => decode_row g) (mkMst (gdec p t) st tmp jobs)
    = (Ok tt, mkMst (gdec p' t') st' tmp' (rev js ++ jobs)) /\
    js = map (fun k => [concat (map natural (firstn (Z.to_nat (g_mcuw g)) (skipn (k * Z.to_nat (g_mcuw g)) zs))); []; []]) (seq 0 n) /\
    t' = t - Z.of_nat (length zs).
Proof.
  induction n as [|n IH]; intros i zs p t st tmp jobs b bs Hl Hp He Hf Ht Hj.
  - exists p, t, st, tmp, []. split; [reflexivity|]. split; [reflexivity|]. rewrite Hl. cbn [Nat.mul]. lia.
  - set (m := Z.to_nat (g_mcuw g)) in *. rewrite <- (firstn_skipn m zs) in Hp, He.
    destruct (encode_blocks_app _ _ _ _ _ _ He) as (b1 & b2 & E1 & E2 & ->).
    destruct (with_pred_app _ _ _ _ Hp) as [Hp1 Hp2]. rewrite <- app_assoc in Hf.
    assert (Hm : length (firstn m zs) = m) by (rewrite firstn_length; lia).
    assert (Hs : length (skipn m zs) = (n * m)%nat) by (rewrite skipn_length; lia).
    assert (Hsum : length zs = (m + n * m)%nat) by lia. 
    destruct (gray_row (firstn m zs) p t st tmp jobs b1 (b2 ++ bs)) as (st1 & tmp1 & Er & Hf1); auto; try lia.
    cbn [mfor]. unfold bind. rewrite Er.
    destruct (IH (i + 1) (skipn m zs) _ (t - Z.of_nat (length (firstn m zs))) st1 tmp1
      ([concat (map natural (firstn m zs)); []; []] :: jobs) b2 bs Hs Hp2 E2 Hf1) as (p' & t' & st' & tmp' & js & Ei & Ejs & Et).
    { lia. } { unfold zlen in *. cbn [length]. lia. }
    rewrite Ei. eexists p', t', st', tmp', ([concat (map natural (firstn m zs)); []; []] :: js). split.
    + cbn [rev]. now rewrite <- app_assoc.
    + split; [|rewrite Et; lia]. rewrite Ejs. cbn [seq map]. rewrite <- seq_shift, map_map. cbn [Nat.mul skipn]. f_equal. apply map_ext. intros k.
      do 4 f_equal. rewrite BaseFacts.skipn_skipn. reflexivity.
Qed.
End rows.
