(** Grayscale baseline images with restart intervals: the rows of blocks. *)
From Coq Require Import ZArith String List Bool Lia.
From Coq Require Import ZifyBool ZifyNat ZifyN.
From Verif Require Import Base Types Huffman State Bitstream Headers Idct Color Simd Worker Mcu McuProg Decoder.
From Verif Require Import SpecHuffman SpecSegments SpecExtend SpecBits SpecBlock SpecRestart.
From Verif Require GrayFile.
From Verif Require Import Obs BaseFacts HuffDecode FastAc BitReader Refill Reader Feed Block BlockEnd ProgFacts ProgFile BaseGray.
Import ListNotations.
Local Open Scope Z_scope.
Ltac Zify.zify_post_hook ::= Z.div_mod_to_equations.

Lemma rst_marker k : marker_from_u8 (208 + k mod 8) = Some (RST (k mod 8)).
Proof.
  assert (H : 0 <= k mod 8 < 8) by (apply Z.mod_pos_bound; lia). generalize dependent (k mod 8). intros n H.
  assert (n = 0 \/ n = 1 \/ n = 2 \/ n = 3 \/ n = 4 \/ n = 5 \/ n = 6 \/ n = 7) as Hc by lia.
  repeat (destruct Hc as [->|Hc]; [reflexivity|]). now subst n.
Qed.
Lemma restart_byte bss : forall k, Forall byte (restart_data k bss).
Proof.
  assert (Hs : forall b, Forall byte (stuff (pack b))) by (intros b; apply stuff_byte, (pack_byte b [] 0); [reflexivity|lia]).
  induction bss as [|b bss IH]; intros k; [constructor|]. destruct bss as [|b' bss]; [apply Hs|].
  change (restart_data k (b :: b' :: bss)) with (stuff (pack b) ++ [255; 208 + k mod 8] ++ restart_data (k + 1) (b' :: bss))%list.
  apply Forall_app. split; [apply Hs|]. apply Forall_app. split; [|apply IH].
  assert (0 <= k mod 8 < 8) by (apply Z.mod_pos_bound; lia).
  repeat (apply Forall_nil || apply Forall_cons); unfold byte; lia.
Qed.
Lemma restart_entropy b bss k sfx :
  entropy (restart_data k (b :: bss) ++ 255 :: 217 :: sfx) =
  (pack b, match bss with [] => AtMarker 217 sfx | _ => AtMarker (208 + k mod 8) (restart_data (k + 1) bss ++ 255 :: 217 :: sfx) end).
Proof.
  destruct bss as [|b' bss]; [apply entropy_stuff; lia|].
  change (restart_data k (b :: b' :: bss)) with (stuff (pack b) ++ [255; 208 + k mod 8] ++ restart_data (k + 1) (b' :: bss))%list.
  rewrite <- !app_assoc. cbn [app]. assert (0 <= k mod 8 < 8) by (apply Z.mod_pos_bound; lia).
  apply entropy_stuff; lia.
Qed.
Lemma last_cons {A} (x : A) l d : l <> [] -> last (x :: l) d = last l d.
Proof. destruct l; [congruence|reflexivity]. Qed.

Section rows.
Variables (g : geom) (d0 : decoder) (c0 : component) (dct act : hufftable) (ft dcc dcs acc acs sfx : list Z) (ri : Z).
Hypothesis Hdt : dc_table dct dcc dcs.
Hypothesis Hat : ac_table act ft acc acs false.
Hypothesis Hsafe : fast_safe acc acs.
Hypothesis Hin : d_incs d0 = GRAYSCALE.
Hypothesis Hout : o_colorspace (d_opt d0) = GRAYSCALE.
Hypothesis Hhv : c_h c0 = 1 /\ c_v c0 = 1.
Hypothesis Hdc : table_at (d_dcts d0) (Z.land (c_dct c0) 3) = Some dct.
Hypothesis Hac : table_at (d_acts d0) (Z.land (c_act c0) 3) = Some act.
Hypothesis Hbias : g_bias g = 1.
Hypothesis Hghv : g_hv g = false.
Hypothesis Hw : 0 < g_mcuw g.
Hypothesis Hcap : g_ccap g = 64 * g_mcuw g.
Hypothesis Hri : d_ri d0 = ri /\ 1 <= ri <= 65535.
Hypothesis Hsfx : Forall byte sfx.

Let D := code_of dcc dcs.
Let A := code_of acc acs.

(** The blocks [cur] of the current interval and the intervals [zss] are still to come, [t] of
    the blocks before the next restart; the marker at the end of the interval has number [k] *)
Definition ready (st : bst) (p t : Z) (cur : list (list Z)) (zss : list (list (list Z))) (bss : list (list bool)) (k : Z) : Prop :=
  same_params (bst_new []) st /\ 1 <= t <= ri /\
  Forall2 (fun zs b => encode_blocks D A 0 zs = Some b) zss bss /\ Forall (with_pred (block_fine dcc dcs) 0) zss /\
  (cur <> [] -> short_closes A (cur :: zss)) /\
  exists b pad, with_pred (block_fine dcc dcs) p cur /\ encode_blocks D A p cur = Some b /\ blen pad <= 7 /\
    match zss with
    | [] => feed 0 st (b ++ pad) (AtMarker 217 sfx) /\ Z.of_nat (length cur) <= t
    | _ => feed 0 st (b ++ pad) (AtMarker (208 + k mod 8) (restart_data (k + 1) bss ++ 255 :: 217 :: sfx)) /\
           Z.of_nat (length cur) = t /\ intervals ri zss
    end.

Lemma ready_start zs zss bs bss k : intervals ri (zs :: zss) -> short_closes A (zs :: zss) ->
  Forall2 (fun zs b => encode_blocks D A 0 zs = Some b) (zs :: zss) (bs :: bss) -> Forall (with_pred (block_fine dcc dcs) 0) (zs :: zss) ->
  ready (bst_new (restart_data k (bs :: bss) ++ 255 :: 217 :: sfx)) 0 ri zs zss bss k.
Proof.
  intros Hi Hs H2 Hp. inversion H2 as [|? ? ? ? E H2' ]; subst. inversion Hp as [|? ? P1 P2]; subst.
  split; [repeat split|]. split; [lia|]. split; [exact H2'|]. split; [exact P2|]. split; [auto|].
  destruct (pack_bits bs) as (pad & Hpl & Hpd). exists bs, pad. split; [exact P1|]. split; [exact E|]. split; [unfold blen; lia|].
  set (rd := (restart_data k (bs :: bss) ++ 255 :: 217 :: sfx)%list).
  assert (Hb : Forall byte rd).
  { unfold rd. apply Forall_app. split; [apply restart_byte|]. constructor; [unfold byte; lia|]. constructor; [unfold byte; lia|exact Hsfx]. }
  pose proof (restart_entropy bs bss k sfx) as He. fold rd in He.
  pose proof (feed_new rd 0 Hb) as G. unfold scan_bits in G. rewrite He in G. cbn [fst snd repeat] in G. rewrite app_nil_r, Hpd in G.
  destruct zss as [|z2 zss]; inversion H2'; subst; cbv iota in G.
  - split; [|cbn [intervals] in Hi; lia]. apply G; [discriminate|now left].
  - cbn [intervals] in Hi. destruct Hi as [Hl Hi]. split; [|split; [lia|exact Hi]]. apply G; [|now left].
    unfold known. rewrite rst_marker. discriminate.
Qed.

(** The part of [decode_mcu] before the restart counter *)
Lemma rst_block p t st plane jobs j zz b bs x :
  block_fine dcc dcs p zz -> encode_block D A p zz = Some b -> feed 0 st (b ++ bs) x ->
  0 <= j -> slice plane (64 * j) (64 * j + 64) = Some (zrepeat 0 64) ->
  exists st', decode_component g (set_c_pred p c0) dct act 0 0 j (mkMst (gdec d0 c0 p t) st [plane; []; []] jobs)
    = (Ok tt, mkMst (gdec d0 c0 (hd 0 zz) t) st' [splice plane (64 * j) (natural zz); []; []] jobs) /\
    feed (32 - last_symbol A 0 (tl zz)) st' bs x /\ same_params st st'.
Proof.
  intros [[Hlen Hb] Hfits] He Hf Hj Hsl. destruct Hhv as [Hh Hv].
  destruct (decode_block_end dct act ft dcc dcs acc acs p zz b 0 st bs x Hdt Hat Hsafe Hlen)
    as (st' & Ed & Hf' & Hsp); [|exact He|exact Hf|].
  { destruct zz as [|v r]; [tauto|]. destruct Hb as (H1 & H2 & H3). split; [exact H1|]. split; [lia|].
    split; [|exact Hfits]. eapply Forall_impl; [|exact H3]. cbv beta. lia. }
  exists st'. split; [|split; [exact Hf'|exact Hsp]].
  unfold decode_component. change (c_v (set_c_pred p c0)) with (c_v c0). change (c_h (set_c_pred p c0)) with (c_h c0).
  rewrite Hh, Hv. change (Z.to_nat 1) with 1%nat. cbn [mfor]. unfold bind, ret, decode_block. cbn [m_dec m_tmp m_st m_jobs].
  change (d_opt (gdec d0 c0 p t)) with (d_opt d0). rewrite Hout. change (0 <=? num_components GRAYSCALE - 1) with true. cbv iota.
  assert (block_start g (set_c_pred p c0) 0 j 0 0 = 64 * j) as ->.
  { unfold block_start. rewrite Hghv. change (c_h (set_c_pred p c0)) with (c_h c0). change (c_v (set_c_pred p c0)) with (c_v c0).
    rewrite Hh, Hv. lia. }
  change (zget [plane; []; []] 0) with (Some plane). cbv iota. rewrite Hsl.
  change (zget (d_comps (gdec d0 c0 p t)) 0) with (Some (set_c_pred p c0)). cbv iota.
  change (c_pred (set_c_pred p c0)) with p. rewrite Ed. cbv iota. reflexivity.
Qed.

(** The part behind it *)
Lemma rst_mcu_after p t st plane jobs j s' :
  decode_component g (set_c_pred p c0) dct act 0 0 j (mkMst (gdec d0 c0 p t) st [plane; []; []] jobs) = (Ok tt, s') ->
  forall d' st'', tick (m_dec s') (m_st s') = (Ok tt, d', st'') ->
  b_marker st'' = None \/ b_marker st'' = Some EOI \/ (exists n, b_marker st'' = Some (RST n)) ->
  decode_mcu g 0 j (mkMst (gdec d0 c0 p t) st [plane; []; []] jobs) = (Ok tt, mkMst d' st'' (m_tmp s') (m_jobs s')).
Proof.
  intros E d' st'' Et Hm. unfold decode_mcu, bind, getm, getm. cbn [m_dec].
  assert (d_incs (gdec d0 c0 p t) = GRAYSCALE) as -> by exact Hin. change (Z.to_nat (num_components GRAYSCALE)) with 1%nat.
  cbn [mfor_break]. unfold bind at 1. unfold mcu_component, bind, getm, lift, gets. cbn [m_dec].
  change (d_comps (gdec d0 c0 p t)) with [set_c_pred p c0]. change (at_ [set_c_pred p c0] 0) with (Ok (set_c_pred p c0)).
  cbv iota beta. change (d_dcts (gdec d0 c0 p t)) with (d_dcts d0). change (d_acts (gdec d0 c0 p t)) with (d_acts d0).
  change (c_dct (set_c_pred p c0)) with (c_dct c0). change (c_act (set_c_pred p c0)) with (c_act c0). rewrite Hdc, Hac.
  rewrite E. unfold count_restart. rewrite Et. cbn [m_st].
  destruct Hm as [-> | [-> | [n ->]]]; reflexivity.
Qed.

Lemma feed_marker_kind n s bs c rest : feed n s bs (AtMarker c rest) ->
  (c = 217 \/ exists k, c = 208 + k mod 8) -> b_marker s = None \/ b_marker s = Some EOI \/ (exists n, b_marker s = Some (RST n)).
Proof.
  intros (_ & u & E & z & r & [_ _ _ H] & _) Hc. destruct (b_marker s) as [m|]; [right|now left].
  destruct H as (_ & c' & [= <- _] & H). destruct Hc as [-> | [k ->]].
  - cbn in H. left. congruence.
  - rewrite rst_marker in H. right. eauto.
Qed.

Lemma short_closes_tail z cur zss : cur <> [] -> short_closes A ((z :: cur) :: zss) -> short_closes A (cur :: zss).
Proof.
  intros Hc. destruct zss as [|z2 zss]; [auto|].
  change (last_symbol A 0 (tl (last (z :: cur) [])) <= 24 /\ short_closes A (z2 :: zss) -> last_symbol A 0 (tl (last cur [])) <= 24 /\ short_closes A (z2 :: zss)).
  now rewrite last_cons.
Qed.

Lemma rst_mcu p t st plane jobs j zz cur zss bss k :
  ready st p t (zz :: cur) zss bss k ->
  0 <= j -> slice plane (64 * j) (64 * j + 64) = Some (zrepeat 0 64) ->
  exists st' p' t' cur' zss' bss' k', decode_mcu g 0 j (mkMst (gdec d0 c0 p t) st [plane; []; []] jobs)
    = (Ok tt, mkMst (gdec d0 c0 p' t') st' [splice plane (64 * j) (natural zz); []; []] jobs) /\
    ready st' p' t' cur' zss' bss' k' /\ (cur' ++ concat zss' = cur ++ concat zss)%list /\ (cur' = [] -> zss' = []).
Proof.
  intros (Hsp & Ht & H2 & Hps & Hsc & b & pad & Hp & He & Hpad & Hm) Hj Hsl. destruct Hri as [Hrd Hr].
  cbn [with_pred encode_blocks] in Hp, He. destruct Hp as [Hz Hp]. apply cat_opt_some in He. destruct He as (b1 & b2 & E1 & E2 & ->).
  assert (Hu : u64 (t - 1) = t - 1) by (unfold u64; apply Z.mod_small; lia).
  rewrite <- app_assoc in Hm.
  destruct zss as [|z2 zss].
  - (* the last interval *)
    destruct Hm as [Hf Hl]. cbn [length] in Hl.
    destruct (rst_block p t st plane jobs j zz b1 (b2 ++ pad) _ Hz E1 Hf Hj Hsl) as (st' & Ec & Hf' & Hsp').
    assert (Hf0 : feed 0 st' (b2 ++ pad) (AtMarker 217 sfx)).
    { destruct Hf' as (Hk & u & E & z & r & Y1 & Y2 & Y3 & Y4). split; [exact Hk|]. exists u, E, z, r. pose proof (blen_nonneg u). intuition. }
    pose proof (feed_marker_kind _ _ _ _ _ Hf0 (or_introl eq_refl)) as Hk.
    assert (Hk' : b_marker st' = None \/ b_marker st' = Some EOI).
    { destruct Hf0 as (_ & u & E & z & r & [_ _ _ H] & _). destruct (b_marker st') as [m|]; [right|now left].
      destruct H as (_ & c' & [= <- _] & H). cbn in H. congruence. }
    set (t' := if t - 1 =? 0 then ri else t - 1).
    assert (Et : tick (gdec d0 c0 (hd 0 zz) t) st' = (Ok tt, gdec d0 c0 (hd 0 zz) t', st')).
    { unfold tick. change (d_todo (gdec d0 c0 (hd 0 zz) t)) with t. rewrite Hu.
      change (d_todo (set_d_todo (t - 1) (gdec d0 c0 (hd 0 zz) t))) with (t - 1). unfold t'.
      destruct (t - 1 =? 0) eqn:E; [|reflexivity]. unfold handle_rst. rewrite <- Hrd. destruct Hk' as [-> | ->]; reflexivity. }
    exists st', (hd 0 zz), t', cur, [], bss, k. split; [exact (rst_mcu_after _ _ _ _ _ _ _ Ec _ _ Et Hk)|].
    split; [|split; [reflexivity|auto]].
    split; [eapply same_params_trans; eauto|]. split; [unfold t'; destruct (t - 1 =? 0) eqn:E; lia|]. split; [exact H2|]. split; [exact Hps|].
    split; [intros _; exact I|]. exists b2, pad. split; [exact Hp|]. split; [exact E2|]. split; [exact Hpad|]. split; [exact Hf0|].
    unfold t'. destruct (t - 1 =? 0) eqn:E; lia.
  - destruct Hm as (Hf & Hl & Hi). cbn [length] in Hl.
    destruct (rst_block p t st plane jobs j zz b1 (b2 ++ pad) _ Hz E1 Hf Hj Hsl) as (st' & Ec & Hf' & Hsp').
    assert (Hf0 : feed 0 st' (b2 ++ pad) (AtMarker (208 + k mod 8) (restart_data (k + 1) bss ++ 255 :: 217 :: sfx))).
    { destruct Hf' as (Hk & u & E & z & r & Y1 & Y2 & Y3 & Y4). split; [exact Hk|]. exists u, E, z, r. pose proof (blen_nonneg u). intuition. }
    destruct cur as [|z1 cur].
    + (* the restart *)
      cbn [length] in Hl. assert (t = 1) as -> by lia. cbn [encode_blocks] in E2. injection E2 as <-. cbn [app] in Hf', Hf0.
      destruct (Hsc ltac:(discriminate)) as [H24 Hsc']. cbn [last] in H24.
      destruct (feed_seen _ _ _ _ _ Hf' ltac:(lia)) as [Em Er]. rewrite rst_marker in Em.
      assert (Hst : bst_reset st' = bst_new (restart_data (k + 1) bss ++ 255 :: 217 :: sfx)).
      { destruct (same_params_trans _ _ _ Hsp Hsp') as (P1 & P2 & P3 & P4 & P5). unfold bst_reset, bst_new. cbn in P1, P2, P3, P4. congruence. }
      assert (Et : tick (gdec d0 c0 (hd 0 zz) 1) st' = (Ok tt, gdec d0 c0 0 ri, bst_new (restart_data (k + 1) bss ++ 255 :: 217 :: sfx))).
      { unfold tick. change (d_todo (gdec d0 c0 (hd 0 zz) 1)) with 1. change (u64 (1 - 1)) with 0.
        change (d_todo (set_d_todo 0 (gdec d0 c0 (hd 0 zz) 1))) with 0. change (0 =? 0) with true. cbv iota.
        unfold handle_rst. rewrite Em. cbv iota. rewrite Hst, <- Hrd. destruct c0; reflexivity. }
      inversion H2 as [|? bs2 ? bss2 B1 B2]; subst. 
      eexists _, 0, ri, z2, zss, _, (k + 1). split; [exact (rst_mcu_after _ _ _ _ _ _ _ Ec _ _ Et (or_introl eq_refl))|].
      split; [apply ready_start; assumption|]. split; [reflexivity|]. intros ->. cbn [intervals length] in Hi.
      destruct zss; [reflexivity|]. destruct Hi as [Hi _]. lia.
    + (* inside the interval *)
      pose proof (feed_marker_kind _ _ _ _ _ Hf0 (or_intror (ex_intro _ k eq_refl))) as Hk. cbn [length] in Hl.
      assert (Et : tick (gdec d0 c0 (hd 0 zz) t) st' = (Ok tt, gdec d0 c0 (hd 0 zz) (t - 1), st')).
      { unfold tick. change (d_todo (gdec d0 c0 (hd 0 zz) t)) with t. rewrite Hu.
        change (d_todo (set_d_todo (t - 1) (gdec d0 c0 (hd 0 zz) t))) with (t - 1). replace (t - 1 =? 0) with false by lia. reflexivity. }
      exists st', (hd 0 zz), (t - 1), (z1 :: cur), (z2 :: zss), bss, k. split; [exact (rst_mcu_after _ _ _ _ _ _ _ Ec _ _ Et Hk)|].
      split; [|split; [reflexivity|discriminate]].
      split; [eapply same_params_trans; eauto|]. split; [lia|]. split; [exact H2|]. split; [exact Hps|].
      split; [intros _; apply short_closes_tail with zz; [discriminate|apply Hsc; discriminate]|].
      exists b2, pad. split; [exact Hp|]. split; [exact E2|]. split; [exact Hpad|]. split; [exact Hf0|]. split; [cbn [length]; lia|exact Hi].
Qed.

Definition some_ready (st : bst) (p t : Z) (zs : list (list Z)) : Prop :=
  exists cur zss bss k, ready st p t cur zss bss k /\ (cur ++ concat zss)%list = zs /\ (cur = [] -> zss = []).

Lemma rst_row_blocks n : forall done p t st jobs zs,
  some_ready st p t zs -> (n <= length zs)%nat ->
  exists st' p' t', mfor n (Z.of_nat (length done)) (fun j => decode_mcu g 0 j)
      (mkMst (gdec d0 c0 p t) st [partial_row done n; []; []] jobs)
    = (Ok tt, mkMst (gdec d0 c0 p' t') st' [partial_row (done ++ firstn n zs) 0; []; []] jobs) /\
    some_ready st' p' t' (skipn n zs).
Proof.
  induction n as [|n IH]; intros done p t st jobs zs Hr Hn.
  - exists st, p, t. cbn [firstn skipn mfor]. rewrite app_nil_r. split; [reflexivity|exact Hr].
  - destruct Hr as (cur & zss & bss & k & Hr & Hz & Hne). destruct cur as [|zz cur].
    { exfalso. rewrite (Hne eq_refl) in Hz. cbn in Hz. subst zs. cbn in Hn. lia. }
    assert (Hnl : forall l, zlen (concat (map natural l)) = 64 * Z.of_nat (length l)).
    { intros l. induction l as [|a l IHl]; [reflexivity|]. cbn [map concat length]. unfold zlen in *. rewrite app_length, GrayFile.natural_length. lia. }
    set (plane := partial_row done (S n)).
    assert (Hpl : plane = (concat (map natural done) ++ zrepeat 0 64 ++ zrepeat 0 (64 * Z.of_nat n))%list).
    { unfold plane, partial_row. f_equal. unfold zrepeat. rewrite <- repeat_app. f_equal. lia. }
    destruct (rst_mcu p t st plane jobs (Z.of_nat (length done)) zz cur zss bss k Hr) as (st1 & p1 & t1 & cur1 & zss1 & bss1 & k1 & Em & Hr1 & Hz1 & Hne1); [lia| |].
    { rewrite Hpl. apply slice_mid; [now rewrite Hnl|]. unfold zlen, zrepeat. rewrite repeat_length. lia. }
    assert (Hs : splice plane (64 * Z.of_nat (length done)) (natural zz) = partial_row (done ++ [zz]) n).
    { rewrite Hpl. rewrite splice_mid; [|now rewrite Hnl|rewrite GrayFile.natural_length; reflexivity].
      unfold partial_row. rewrite map_app, concat_app. cbn [map concat]. now rewrite app_nil_r, <- app_assoc. }
    rewrite Hs in Em. subst zs. cbn [app] in Hn |- *. cbn [length] in Hn. cbn [firstn skipn].
    destruct (IH (done ++ [zz])%list p1 t1 st1 jobs (cur ++ concat zss)%list) as (st2 & p2 & t2 & Er & Hr2); [|lia|].
    { exists cur1, zss1, bss1, k1. auto. }
    exists st2, p2, t2. split; [|exact Hr2]. cbn [mfor]. unfold bind. rewrite Em.
    replace (Z.of_nat (length done) + 1) with (Z.of_nat (length (done ++ [zz]))) by (rewrite app_length; cbn [length]; lia).
    rewrite Er. rewrite <- app_assoc. reflexivity.
Qed.

Lemma rst_row zs p t st tmp jobs : some_ready st p t zs -> (Z.to_nat (g_mcuw g) <= length zs)%nat ->
  zlen jobs < g_total g / g_chunk g ->
  exists st' p' t' tmp', decode_row g (mkMst (gdec d0 c0 p t) st tmp jobs)
    = (Ok tt, mkMst (gdec d0 c0 p' t') st' tmp' ([concat (map natural (firstn (Z.to_nat (g_mcuw g)) zs)); []; []] :: jobs)) /\
    some_ready st' p' t' (skipn (Z.to_nat (g_mcuw g)) zs).
Proof.
  intros Hr Hn Hj. unfold decode_row, bind, getm, lift, modify. cbn [m_dec m_st m_tmp m_jobs].
  change (d_comps (gdec d0 c0 p t)) with [set_c_pred p c0]. change (d_opt (gdec d0 c0 p t)) with (d_opt d0). rewrite Hout.
  destruct Hhv as [Hh Hv]. cbn [alloc_row]. change (0 <=? num_components GRAYSCALE - 1) with true. cbv iota.
  change (c_v (set_c_pred p c0)) with (c_v c0). change (c_h (set_c_pred p c0)) with (c_h c0). rewrite Hh, Hv, Hbias, Hcap.
  change (zupd [[]; []; []] 0 (zrepeat 0 (64 * g_mcuw g * 1 * 1 * 1))) with (Ok [zrepeat 0 (64 * g_mcuw g * 1 * 1 * 1); []; []]).
  cbv iota. change (Z.to_nat 1) with 1%nat. cbn [mfor]. unfold bind at 1.
  replace (zrepeat 0 (64 * g_mcuw g * 1 * 1 * 1)) with (partial_row [] (Z.to_nat (g_mcuw g))).
  2:{ unfold partial_row. cbn [map concat app]. f_equal. lia. }
  destruct (rst_row_blocks (Z.to_nat (g_mcuw g)) [] p t st jobs zs Hr Hn) as (st' & p' & t' & E & Hr'). cbn [length Z.of_nat app] in E.
  rewrite E. unfold ret. cbn [m_jobs m_dec m_st m_tmp]. replace (g_total g / g_chunk g <=? zlen jobs) with false by lia.
  exists st', p', t'. eexists. split; [|exact Hr']. unfold partial_row. change (zrepeat 0 (64 * Z.of_nat 0)) with (@nil Z).
  rewrite app_nil_r. reflexivity.
Qed.

Lemma rst_rows n : forall i zs p t st tmp jobs, length zs = (n * Z.to_nat (g_mcuw g))%nat ->
  some_ready st p t zs -> zlen jobs + Z.of_nat n <= g_total g / g_chunk g ->
  exists p' t' st' tmp' js, mfor n i (fun _ => decode_row g) (mkMst (gdec d0 c0 p t) st tmp jobs)
    = (Ok tt, mkMst (gdec d0 c0 p' t') st' tmp' (rev js ++ jobs)) /\
    js = map (fun k => [concat (map natural (firstn (Z.to_nat (g_mcuw g)) (skipn (k * Z.to_nat (g_mcuw g)) zs))); []; []]) (seq 0 n).
Proof.
  induction n as [|n IH]; intros i zs p t st tmp jobs Hl Hr Hj.
  - exists p, t, st, tmp, []. split; reflexivity.
  - set (m := Z.to_nat (g_mcuw g)) in *. cbn [Nat.mul] in Hl.
    destruct (rst_row zs p t st tmp jobs Hr) as (st1 & p1 & t1 & tmp1 & Er & Hr1); [fold m; clear - Hl; lia|clear - Hj; lia|]. fold m in Er, Hr1.
    cbn [mfor]. unfold bind. rewrite Er.
    destruct (IH (i + 1) (skipn m zs) p1 t1 st1 tmp1 ([concat (map natural (firstn m zs)); []; []] :: jobs)) as (p' & t' & st' & tmp' & js & Ei & Ejs); auto.
    { rewrite skipn_length. clear - Hl. lia. } { unfold zlen in *. cbn [length]. clear - Hj. lia. }
    rewrite Ei. eexists p', t', st', tmp', ([concat (map natural (firstn m zs)); []; []] :: js). split.
    + cbn [rev]. now rewrite <- app_assoc.
    + rewrite Ejs. cbn [seq map]. rewrite <- seq_shift, map_map. cbn [Nat.mul skipn]. f_equal. apply map_ext. intros k.
      do 4 f_equal. rewrite BaseFacts.skipn_skipn. reflexivity.
Qed.
End rows.
