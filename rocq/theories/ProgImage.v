(** Whole progressive files, up to the reconstruction of the coefficients. *)
From Coq Require Import ZArith String List Bool Lia.
From Coq Require Import ZifyBool ZifyNat ZifyN.
From Verif Require Import Base Types Huffman State Bitstream Headers Mcu McuProg Decoder.
From Verif Require Import SpecHuffman SpecSegments SpecFile SpecExtend SpecBits SpecBlock SpecProg SpecInter SpecScript SpecImage Obs ObsProg ExTools.
From Verif Require Import BaseFacts HeaderFacts HeaderInv HeaderReads HeaderItems TableSegments BlockSafe HuffDecode ProgFacts ProgFile HeaderFile IdctFacts.
Import ListNotations.
Local Open Scope Z_scope.
Ltac Zify.zify_post_hook ::= Z.div_mod_to_equations.

Lemma frame_dec_ok cpu o l w h qs dcts acts cs : layout_ok l -> 0 < w <= 65528 -> 0 < h <= 65528 -> image_data l w h cs ->
  frame_ok (frame_dec cpu o ProgressiveDctHuffman true l w h qs dcts acts) cs.
Proof.
  intros Hl Hw Hh [Hlen Hcs].
  assert (NoDup (map cd_id cs)) as Hnd.
  { destruct l; cbn [factors length] in Hlen.
    - destruct cs as [|a [|]]; try discriminate. cbn [map]. constructor; [intros []|constructor].
    - destruct cs as [|a [|b [|c [|]]]]; try discriminate. cbn [map].
      destruct (Hcs 0%nat a eq_refl) as (A & _). destruct (Hcs 1%nat b eq_refl) as (B & _). destruct (Hcs 2%nat c eq_refl) as (C & _).
      rewrite A, B, C. cbn. repeat constructor; cbn; intuition discriminate. }
  split.
  - unfold check_component_dimensions. destruct l as [q|hs vs q q1 q2]; [reflexivity|].
    cbn [frame_dec d_comps frame_list find is_y frame_component c_cid d_hmax hmax c_stride check_chroma c_h c_v].
    replace (1 * (up8 w hs * 8) =? hs * (up8 w hs * 8) / hs) with true; [reflexivity|].
    cbn [layout_ok] in Hl. rewrite (Z.mul_comm hs), Z.div_mul by lia. lia.
  - cbn [frame_dec d_incs]. rewrite Hlen. destruct l; reflexivity.
  - reflexivity.
  - rewrite Hlen. destruct l; cbn; lia.
  - rewrite Hlen. destruct l; split; reflexivity.
  - exact Hnd.
  - intros k cd Hk. destruct (Hcs k cd Hk) as (Hid & Hcw & Hch).
    assert (k < length (factors l))%nat as Hkl by (rewrite <- Hlen; apply nth_error_Some; congruence).
    assert (Z.of_nat (length cs) = (if is_gray l then 1 else 3)) as Hlc by (rewrite Hlen; destruct l; reflexivity).
    cbn [frame_dec d_comps d_info d_inter d_mcux d_mcuy i_width i_height].
    unfold prog_counts. cbn [frame_dec d_comps d_info d_inter d_mcux d_mcuy i_width i_height].
    unfold u16. rewrite !Z.mod_small by lia.
    destruct l as [q|hs vs q q1 q2]; cbn [factors length layout_ok is_gray hmax vmax] in *.
    + assert (k = 0)%nat as -> by lia. cbn [nth fst snd] in *.
      eexists. split; [reflexivity|]. cbn [frame_component c_id c_cid is_y c_stride c_v c_h orb negb fst snd Z.eqb Pos.eqb].
      unfold up8, blocks_wide, up_div in *. rewrite Hid, Hlc. rewrite Z.mul_1_r, Z.div_1_r in Hcw, Hch.
      replace (w + 1 * 8 - 1) with (w + 7) by lia. change (1 * 8) with 8.
      replace ((w + 1 - 1 + 8 - 1) / 8) with ((w + 7) / 8) in Hcw by (f_equal; lia).
      replace ((h + 1 - 1 + 8 - 1) / 8) with ((h + 7) / 8) in Hch by (f_equal; lia).
      replace (1 * ((w + 7) / 8 * 8) / 8) with ((w + 7) / 8) by lia.
      rewrite Hcw, Hch. repeat split; try lia.
    + assert (exists a b, 0 < a /\ 0 < b /\ up8 w hs = a /\ up8 h vs = b /\ (w + 7) / 8 <= hs * a /\ (h + 7) / 8 <= vs * b /\
        blocks_wide w hs 1 = a /\ blocks_wide h vs 1 = b /\
        blocks_wide w hs hs = (w + 7) / 8 /\ blocks_wide h vs vs = (h + 7) / 8 /\ 0 < (w + 7) / 8 /\ 0 < (h + 7) / 8 /\
        (hs = 1 -> a = (w + 7) / 8) /\ (vs = 1 -> b = (h + 7) / 8))
        as (a & b & Ha & Hb & Ea & Eb & La & Lb & Wa & Wb & Ya & Yb & Pw & Ph & One & Two).
      { exists (up8 w hs), (up8 h vs). unfold up8, blocks_wide, up_div.
        assert (hs = 1 \/ hs = 2) as [-> | ->] by lia; assert (vs = 1 \/ vs = 2) as [-> | ->] by lia; repeat split; lia. }
      rewrite Ea, Eb, Hid, Hlc.
      assert (k = 0 \/ k = 1 \/ k = 2)%nat as [-> |[-> | ->]] by lia; cbn [nth fst snd] in *;
        (eexists; split; [reflexivity|]); cbn [frame_component c_id c_cid is_y c_stride c_v c_h orb fst snd];
        rewrite ?Ea; rewrite Hcw, Hch, ?Wa, ?Wb, ?Ya, ?Yb.
      * assert (hs * (a * 8) / 8 = hs * a) as -> by lia.
        split; [reflexivity|]. split; [lia|]. split; [reflexivity|]. split; [lia|]. split; [lia|]. split; [lia|].
        destruct (negb (hs =? 1) || negb (vs =? 1)) eqn:Ei; cbn [fst snd].
        -- assert (hs * a * ((h + 7) / 8) <= hs * a * (vs * b)) by (apply Z.mul_le_mono_nonneg_l; lia). lia.
        -- assert (hs = 1) by lia. assert (vs = 1) by lia. subst hs vs. rewrite One by reflexivity. lia.
      * assert (1 * (a * 8) / 8 = a) as -> by lia.
        split; [reflexivity|]. split; [lia|].
        destruct (negb (hs =? 1) || negb (vs =? 1)) eqn:Ei; cbn [negb fst snd].
        -- repeat split; lia.
        -- assert (hs = 1) by lia. assert (vs = 1) by lia. rewrite One, Two by assumption. repeat split; lia.
      * assert (1 * (a * 8) / 8 = a) as -> by lia.
        split; [reflexivity|]. split; [lia|].
        destruct (negb (hs =? 1) || negb (vs =? 1)) eqn:Ei; cbn [negb fst snd].
        -- repeat split; lia.
        -- assert (hs = 1) by lia. assert (vs = 1) by lia. rewrite One, Two by assumption. repeat split; lia.
Qed.

Lemma loopz_sos_ok last before d t d' t' : hinv d -> Forall byte t -> last <> 255 -> before <= 2 ->
  parse_sos (mkHst d t) = (Ok tt, mkHst d' t') ->
  loopz last before d (255 :: 218 :: t) = (Ok tt, mkHst d' t').
Proof.
  intros Hi Ht Hl Hb E. rewrite loopz_ff; auto; [|repeat constructor; unfold byte; auto; lia].
  unfold loopz. rewrite header_loop_eq. cbn [hd_rd hd_dec]. cbv zeta. change (255 =? 255) with true. cbv iota.
  unfold bind. change (marker_body 218) with parse_sos. change (218 =? 218) with true. rewrite E. reflexivity.
Qed.

Lemma frame_dec_geo cpu o l w h qs dcts acts cs : layout_ok l -> 0 < w <= 65528 -> 0 < h <= 65528 -> image_data l w h cs ->
  geo_ok (frame_dec cpu o ProgressiveDctHuffman true l w h qs dcts acts) cs (image_geo l w h).
Proof.
  intros Hl Hw Hh [Hlen Hcs].
  assert (forall a m, up_div a (8 * m) = up8 a m) as Hup.
  { intros a m. unfold up_div, up8. now rewrite (Z.mul_comm 8 m). }
  assert (1 <= up8 w (hmax l) /\ 1 <= up8 h (vmax l)) as [Pw Ph].
  { unfold up8. destruct l as [q|hs vs q q1 q2]; cbn [layout_ok hmax vmax] in *; [lia|].
    assert (hs = 1 \/ hs = 2) as [-> | ->] by lia; assert (vs = 1 \/ vs = 2) as [-> | ->] by lia; lia. }
  split.
  - cbn [frame_dec d_mcux image_geo g_mx]. now rewrite Hup.
  - cbn [frame_dec d_mcuy image_geo g_my]. now rewrite Hup.
  - cbn [image_geo g_mx g_my]. rewrite !Hup. auto.
  - intros k cd c Hk Hc. destruct (Hcs k cd Hk) as (_ & Hcw & Hch).
    assert (k < length (factors l))%nat as Hkl by (rewrite <- Hlen; apply nth_error_Some; congruence).
    cbn [image_geo g_mx g_my]. unfold factor. cbn [image_geo g_factors]. rewrite !Hup.
    cbn [frame_dec d_comps] in Hc.
    unfold prog_counts. cbn [frame_dec d_comps d_info d_inter d_mcux d_mcuy i_width i_height].
    destruct l as [q|hs vs q q1 q2]; cbn [factors length layout_ok is_gray hmax vmax] in *.
    + assert (k = 0)%nat as -> by lia. cbn [nth fst snd frame_list zget Z.of_nat Z.ltb Z.compare] in *. injection Hc as <-.
      cbn [frame_component c_id c_cid is_y c_stride c_v c_h orb negb fst snd Z.eqb Pos.eqb].
      unfold up8, blocks_wide, up_div in *. rewrite Z.mul_1_r, Z.div_1_r in Hcw, Hch.
      replace (w + 1 * 8 - 1) with (w + 7) in * by lia. replace (h + 1 * 8 - 1) with (h + 7) in * by lia. change (1 * 8) with 8 in *.
      replace ((w + 1 - 1 + 8 - 1) / 8) with ((w + 7) / 8) in Hcw by (f_equal; lia).
      replace ((h + 1 - 1 + 8 - 1) / 8) with ((h + 7) / 8) in Hch by (f_equal; lia).
      repeat split; lia.
    + assert (exists a b, 0 < a /\ 0 < b /\ up8 w hs = a /\ up8 h vs = b /\ (w + 7) / 8 <= hs * a /\ (h + 7) / 8 <= vs * b /\
        blocks_wide w hs 1 = a /\ blocks_wide h vs 1 = b /\
        blocks_wide w hs hs = (w + 7) / 8 /\ blocks_wide h vs vs = (h + 7) / 8 /\ 0 < (w + 7) / 8 /\ 0 < (h + 7) / 8 /\
        (hs = 1 -> a = (w + 7) / 8) /\ (vs = 1 -> b = (h + 7) / 8))
        as (a & b & Ha & Hb & Ea & Eb & La & Lb & Wa & Wb & Ya & Yb & Qw & Qh & One & Two).
      { exists (up8 w hs), (up8 h vs). unfold up8, blocks_wide, up_div.
        assert (hs = 1 \/ hs = 2) as [-> | ->] by lia; assert (vs = 1 \/ vs = 2) as [-> | ->] by lia; repeat split; lia. }
      rewrite Ea, Eb.
      assert (k = 0 \/ k = 1 \/ k = 2)%nat as [-> |[-> | ->]] by lia; cbn [nth fst snd] in *;
        cbn [frame_list nth_error zget Z.of_nat Z.ltb Z.compare Pos.of_succ_nat Pos.succ Z.to_nat Pos.to_nat Pos.iter_op Nat.add] in Hc; injection Hc as <-;
        cbn [frame_component c_id c_cid is_y c_stride c_v c_h orb fst snd];
        rewrite ?Ea; rewrite Hcw, Hch, ?Wa, ?Wb, ?Ya, ?Yb.
      * split; [reflexivity|]. split; [lia|]. split; [lia|]. split; [lia|]. split; [lia|]. split; [lia|].
        destruct (negb (hs =? 1) || negb (vs =? 1)) eqn:Ei; cbn [fst snd].
        -- replace (a * hs * (b * vs)) with (a * vs * hs * b) by ring. lia.
        -- assert (hs = 1) by lia. assert (vs = 1) by lia. subst hs vs. rewrite One, Two by reflexivity. lia.
      * split; [reflexivity|]. split; [lia|].
        destruct (negb (hs =? 1) || negb (vs =? 1)) eqn:Ei; cbn [negb fst snd].
        -- repeat split; lia.
        -- assert (hs = 1) by lia. assert (vs = 1) by lia. rewrite One, Two by assumption. repeat split; lia.
      * split; [reflexivity|]. split; [lia|].
        destruct (negb (hs =? 1) || negb (vs =? 1)) eqn:Ei; cbn [negb fst snd].
        -- repeat split; lia.
        -- assert (hs = 1) by lia. assert (vs = 1) by lia. rewrite One, Two by assumption. repeat split; lia.
Qed.

Lemma marker_range c m : marker_from_u8 c = Some m -> 0 <= c <= 254.
Proof.
  intros H. destruct c as [|p|p]; [discriminate| |discriminate].
  assert (p <= 254)%positive; [|lia]. destruct (Pos.leb_spec p 254); [assumption|]. exfalso.
  do 8 (destruct p as [p|p|]; try discriminate H; try lia).
Qed.
(** The tables and the header of the first scan *)
Lemma first_header g cs F fin : Forall comp_data_ok cs -> frame_ok F cs -> geo_ok F cs g ->
  forall tabs Ks is Ks' n b, script g cs tabs Ks is Ks' n b -> 1 <= n ->
  forall sfx d last before, Forall byte (flat_map item_bytes is ++ 255 :: fin :: sfx) ->
  state_ok F d tabs -> b < d_todo d < 2 ^ 64 -> hinv d -> last <> 255 -> before <= 2 ->
  exists d1 tabs' Ks1 b1 bits is' n' b' short,
    state_ok F d1 tabs' /\ d_todo d1 = d_todo d /\ runs F g cs tabs' Ks bits Ks1 b1 short d1 /\ 0 <= b1 /\
    script g cs tabs' Ks1 is' Ks' n' b' /\ n = n' + 1 /\ b = b' + b1 /\ (short_end g cs tabs is -> short) /\
    loopz last before d (flat_map item_bytes is ++ 255 :: fin :: sfx)
    = (Ok tt, mkHst d1 (stuff (pack bits) ++ flat_map item_bytes is' ++ 255 :: fin :: sfx)).
Proof.
  intros Hcs Hfr Hge tabs Ks is Ks' n b Hs.
  induction Hs as [tabs Ks|tabs Ks ts is Ks' n b Hl Hf Hs IH|tabs Ks i Ks1 b1 is Ks' n b Hok Hs _];
    intros Hn sfx d last before Hby Hst Htodo Hi Hla Hb.
  - lia.
  - cbn [flat_map] in *. rewrite <- app_assoc in *. apply Forall_app in Hby. destruct Hby as [_ Hby].
    destruct Hst as (He & Ht & Hz).
    assert (d_prog d = true) as Hp by (rewrite (f_equal d_prog He : d_prog d = d_prog F); apply Hfr).
    destruct (loopz_tables true ts last before d tabs _ Hp Hl Hf Hi Ht Hby Hla Hb) as (d' & -> & Hsm & Hi' & Ht').
    destruct (same_huff_rest d d' Hsm) as (E1 & E2).
    destruct (IH Hn sfx d' 196 1 Hby) as (d1 & tabs' & H); auto; try lia.
    { split; [now rewrite (same_huff_erase d d' Hsm)|]. split; [exact Ht'|]. now rewrite E2. }
    exists d1, tabs'. rewrite E1 in H. exact H.
  - destruct (scan_runs F g cs fin Hfr Hge Hcs _ _ _ _ _ Hok) as (hdr & bits & Hib & _ & Hrun).
    pose proof (scan_pos g cs Hcs _ _ _ _ _ Hok) as Hb1. destruct (script_pos g cs Hcs _ _ _ _ _ _ Hs) as [Hn0 Hb0].
    destruct (Hrun d Hst ltac:(lia)) as (d1 & Hps & Hst1 & Htd1 & Hr).
    exists d1, tabs, Ks1, b1, bits, is, n, b, (exists is', short_end g cs tabs (i :: is')).
    do 7 (split; [first [assumption|reflexivity]|]). split; [intros S; now exists is|].
    cbn [flat_map] in *. rewrite Hib in *. rewrite <- !app_assoc in *. cbn [app] in *.
    inversion Hby as [|? ? _ Hby1]; subst. inversion Hby1 as [|? ? _ Hby2]; subst.
    apply loopz_sos_ok; auto.
Qed.

Lemma rows_pos l w h cs k cd : layout_ok l -> 0 < h -> image_data l w h cs -> nth_error cs k = Some cd -> 0 < cd_h cd.
Proof.
  intros Hl Hh [Hlen Hc] Hk. destruct (Hc k cd Hk) as (_ & _ & E). rewrite E.
  assert (k < length (factors l))%nat as Hkl by (rewrite <- Hlen; apply nth_error_Some; congruence).
  unfold blocks_wide, up_div. destruct l as [q|hs vs q q1 q2]; cbn [factors length layout_ok vmax] in *.
  - assert (k = 0)%nat as -> by lia. cbn [nth snd]. lia.
  - assert (k = 0 \/ k = 1 \/ k = 2)%nat as [-> |[-> | ->]] by lia; cbn [nth snd];
      assert (vs = 1 \/ vs = 2) as [-> | ->] by lia; lia.
Qed.
Lemma progressive_file cpu o ps l w h cs is Ks' n b fin sfx : stop_code fin ->
  Forall pre_ok ps -> layout_ok l -> has_quants ps l -> 0 < w <= 65528 -> 0 < h <= 65528 ->
  w <= o_max_width o -> h <= o_max_height o -> huffs ps = [] ->
  image_data l w h cs -> Forall comp_data_ok cs ->
  script (image_geo l w h) cs [] (map (fun _ => nothing) cs) is Ks' n b -> 1 <= n <= o_max_scans o -> b < 2147483647 ->
  Forall byte (flat_map item_bytes is ++ 255 :: fin :: sfx) ->
  exists dcts acts s',
    let F := frame_dec cpu o ProgressiveDctHuffman true l w h (quants ps) dcts acts in
    let r := fst (decode_buffer (new_with_options cpu o) (cut_file 194 ps l w h is fin sfx)) in
    erase (p_dec s') = erase F /\ planes_show F cs Ks' (p_buf s') /\ roomy (image_geo l w h) cs (p_buf s') /\
    (r = fst (finish_progressive_decoding (fst (prog_counts F) * 64) s') \/
     r = Err missing_marker /\ ~ short_end (image_geo l w h) cs [] is).
Proof.
  intros Hfin Hps Hl Hq Hw Hh Hmw Hmh Hhf Him Hcs Hsc Hn Hb Hby.
  destruct (headers_frame cpu o true ps l w h (flat_map item_bytes is ++ 255 :: fin :: sfx)) as
    (last & before & dcts & acts & E & Hi & Hla & Hbe & Hh0); auto; try lia.
  set (F := frame_dec cpu o (sof_of true) true l w h (quants ps) dcts acts) in *.
  assert (frame_ok F cs) as Hfr by (apply frame_dec_ok; auto; lia).
  assert (geo_ok F cs (image_geo l w h)) as Hge by (apply frame_dec_geo; auto; lia).
  rewrite Hhf in Hh0.
  assert (state_ok F F []) as Hst0.
  { split; [reflexivity|]. split; [|reflexivity].
    destruct Hh0 as (T1 & T2 & T3). split; [exact T1|]. split; [constructor|]. discriminate. }
  assert (b < d_todo F < 2 ^ 64) as HtF by (change (d_todo F) with 2147483647; change (2 ^ 64) with 18446744073709551616; lia).
  destruct (first_header _ cs F fin Hcs Hfr Hge _ _ _ _ _ _ Hsc ltac:(lia) sfx F last before Hby Hst0 HtF Hi Hla Hbe)
    as (d1 & tabs & Ks1 & b1 & bits & is' & n' & b' & short & Hst & Htd & Hr & Hb1 & Hs' & En & Eb & Hse & EL).
  assert (Forall byte (stuff (pack bits) ++ flat_map item_bytes is' ++ 255 :: fin :: sfx)) as Hby'.
  { pose proof (f_equal (fun r => hd_rd (snd r)) EL) as Hx. cbn [snd hd_rd] in Hx. rewrite <- Hx. clear Hx.
    pose proof (header_loop_step (S (length (flat_map item_bytes is ++ 255 :: fin :: sfx))) last before
      (mkHst F (flat_map item_bytes is ++ 255 :: fin :: sfx)) Hi Hby ltac:(cbn; lia)) as Hst1.
    exact (suffix_Forall byte _ _ (hs_suf _ _ _ _ _ Hst1) Hby). }
  assert (decode_buffer (new_with_options cpu o) (cut_file 194 ps l w h is fin sfx)
          = (let '(r, h) := decode_progressive (mkHst d1 (stuff (pack bits) ++ flat_map item_bytes is' ++ 255 :: fin :: sfx)) in (r, hd_dec h))) as EB.
  { unfold decode_buffer, on_buffer, decode_internal, cut_file. change [255; fin] with ([255; fin] ++ [])%list.
    change (new_with_options cpu o) with (decoder_default cpu o). change 194 with (sof_code true). cbn [app] in E |- *.
    unfold bind at 1. rewrite E, EL. unfold bind, getd. cbn [hd_dec].
    assert (d_prog d1 = true) as -> by (rewrite (f_equal d_prog (proj1 Hst) : d_prog d1 = d_prog F); apply Hfr). reflexivity. }
  destruct (decode_script F (image_geo l w h) cs fin sfx Hfr Hge Hcs Hfin tabs d1 Ks1 b1 short bits is' Ks' n' b')
    as (s' & R1 & R2 & R2' & R3); auto.
  - assert (o_max_scans (d_opt F) = o_max_scans o) as ->; [|lia]. destruct l; reflexivity.
  - lia.
  - exists dcts, acts, s'. cbv zeta. change (frame_dec cpu o ProgressiveDctHuffman true l w h (quants ps) dcts acts) with F.
    split; [exact R1|]. split; [exact R2|]. split; [exact R2'|].
    rewrite EB.
    destruct (decode_progressive _) as [r hh] eqn:ED. cbn [fst] in *. destruct R3 as [R3|[R3 Hno]]; [left; exact R3|right].
    split; [exact R3|]. intros Hsh. exact (Hno (Hse Hsh)).
Qed.

(** The same, for the record *)
Lemma progressive_image_cut cpu o ps l w h cs is Ks n fin sfx : stop_code fin ->
  progressive_image ps l w h cs is Ks n sfx ->
  w <= o_max_width o -> h <= o_max_height o -> n <= o_max_scans o ->
  exists dcts acts s',
    let F := frame_dec cpu o ProgressiveDctHuffman true l w h (quants ps) dcts acts in
    let r := fst (decode_buffer (new_with_options cpu o) (cut_file 194 ps l w h is fin sfx)) in
    erase (p_dec s') = erase F /\ planes_show F cs Ks (p_buf s') /\ roomy (image_geo l w h) cs (p_buf s') /\
    (r = fst (finish_progressive_decoding (fst (prog_counts F) * 64) s') \/
     r = Err missing_marker /\ ~ short_end (image_geo l w h) cs [] is).
Proof.
  intros Hf [] Hw Hh Hn. destruct pi_script as (b & Hs & Hb).
  eapply (progressive_file cpu o ps l w h cs is Ks n b fin sfx); eauto.
  apply Forall_app in pi_bytes. destruct pi_bytes as [P1 P2]. apply Forall_app. split; [exact P1|].
  constructor; [unfold byte; lia|]. constructor; [|now apply Forall_inv_tail, Forall_inv_tail in P2].
  destruct Hf as (m & Hm & _). unfold byte. pose proof (marker_range fin m Hm). lia.
Qed.
Lemma progressive_image_file cpu o ps l w h cs is Ks n sfx :
  progressive_image ps l w h cs is Ks n sfx ->
  w <= o_max_width o -> h <= o_max_height o -> n <= o_max_scans o ->
  exists dcts acts s',
    let F := frame_dec cpu o ProgressiveDctHuffman true l w h (quants ps) dcts acts in
    let r := fst (decode_buffer (new_with_options cpu o) (file 194 ps l w h is sfx)) in
    erase (p_dec s') = erase F /\ planes_show F cs Ks (p_buf s') /\ roomy (image_geo l w h) cs (p_buf s') /\
    (r = fst (finish_progressive_decoding (fst (prog_counts F) * 64) s') \/
     r = Err missing_marker /\ ~ short_end (image_geo l w h) cs [] is).
Proof. apply (progressive_image_cut cpu o ps l w h cs is Ks n 217 sfx). exists EOI. repeat split; discriminate. Qed.

Lemma C38_cut cpu o ps l w h cs is Ks n fin sfx : stop_code fin ->
  progressive_image ps l w h cs is Ks n sfx ->
  w <= o_max_width o -> h <= o_max_height o -> n <= o_max_scans o ->
  let r := fst (decode_buffer (new_with_options cpu o) (cut_file 194 ps l w h is fin sfx)) in
  (exists s, planes_show (p_dec s) cs Ks (p_buf s) /\
     r = fst (finish_progressive_decoding (fst (prog_counts (p_dec s)) * 64) s)) \/
  r = Err missing_marker /\ ~ short_end (image_geo l w h) cs [] is.
Proof.
  intros Hf Hi Hw Hh Hn. destruct (progressive_image_cut cpu o _ _ _ _ _ _ _ _ _ _ Hf Hi Hw Hh Hn)
    as (dcts & acts & s & He & Hp & _ & [Hr|Hr]); [left|right; exact Hr].
  exists s. split; [eapply planes_show_erase; eauto|]. now rewrite Hr, <- (erase_counts _ _ He).
Qed.
Lemma C38_lemma cpu o ps l w h cs is Ks n sfx :
  progressive_image ps l w h cs is Ks n sfx ->
  w <= o_max_width o -> h <= o_max_height o -> n <= o_max_scans o ->
  let r := fst (decode_buffer (new_with_options cpu o) (file 194 ps l w h is sfx)) in
  (exists s, planes_show (p_dec s) cs Ks (p_buf s) /\
     r = fst (finish_progressive_decoding (fst (prog_counts (p_dec s)) * 64) s)) \/
  r = Err missing_marker /\ ~ short_end (image_geo l w h) cs [] is.
Proof. apply (C38_cut cpu o ps l w h cs is Ks n 217 sfx). exists EOI. repeat split; discriminate. Qed.

Lemma complete_shows d cs Ks buf : Forall complete Ks -> planes_show d cs Ks buf ->
  planes_show d cs (map (fun _ _ v => v) Ks) buf.
Proof.
  intros HK P k cd Hk. destruct (P k cd Hk) as (c & K & plane & Hc & HKk & Hb & Hl & Hs).
  exists c, (fun _ v => v), plane. repeat split; auto.
  - rewrite nth_error_map, HKk. reflexivity.
  - intros b i Hbl Hi. cbv zeta. rewrite (Hs b i Hbl Hi). cbv zeta.
    rewrite Forall_forall in HK. apply (HK K); [eapply nth_error_In; eauto|].
    pose proof (zigzag_bounds (i / 8) (i mod 8) ltac:(lia) ltac:(lia)). lia.
Qed.

Lemma C38_complete_lemma cpu o ps l w h cs is Ks n sfx :
  progressive_image ps l w h cs is Ks n sfx -> Forall complete Ks -> short_end (image_geo l w h) cs [] is ->
  w <= o_max_width o -> h <= o_max_height o -> n <= o_max_scans o ->
  exists s, planes_show (p_dec s) cs (map (fun _ _ v => v) Ks) (p_buf s) /\
    fst (decode_buffer (new_with_options cpu o) (file 194 ps l w h is sfx))
    = fst (finish_progressive_decoding (fst (prog_counts (p_dec s)) * 64) s).
Proof.
  intros Hi HK Hse Hw Hh Hn.
  destruct (C38_lemma cpu o _ _ _ _ _ _ _ _ _ Hi Hw Hh Hn) as [(s & Hp & Hr)|(_ & C)]; [|contradiction].
  exists s. split; [now apply complete_shows|exact Hr].
Qed.
Lemma known_near al v : 0 <= al ->
  (ac_known al v = 0 \/ Z.sgn (ac_known al v) = Z.sgn v) /\ Z.abs (v - ac_known al v) < 2 ^ al /\
  0 <= v - dc_known al v < 2 ^ al.
Proof.
  intros Ha. unfold ac_known, dc_known. assert (0 < 2 ^ al) by (apply Z.pow_pos_nonneg; lia).
  set (p := 2 ^ al) in *. assert (Hd : 0 <= v - v / p * p < p) by (rewrite (Z.mul_comm _ p); pose proof (Z.div_mod v p); pose proof (Z.mod_pos_bound v p); lia).
  assert (Hn : 0 <= Z.abs v - Z.abs v / p * p < p) by (rewrite (Z.mul_comm _ p); pose proof (Z.div_mod (Z.abs v) p); pose proof (Z.mod_pos_bound (Z.abs v) p); lia).
  assert (0 <= Z.abs v / p) by (apply Z.div_pos; lia).
  assert (0 <= Z.abs v / p * p) by (apply Z.mul_nonneg_nonneg; lia).
  set (m := Z.abs v / p * p) in *. repeat split; lia.
Qed.

(** One scan and the rest *)
Lemma script_one g cs tabs Ks k c td ta ss se ah al bits is Ks' n b :
  nth_error cs k = Some c -> scan_valid cs tabs Ks k td ta ss se ah al bits ->
  script g cs tabs (known_next Ks k ss se al) is Ks' n b ->
  script g cs tabs Ks (Scan (cd_id c) td ta ss se ah al bits :: is) Ks' (n + 1) (b + cd_w c * cd_h c).
Proof. intros H1 H2. apply sc_scan. now apply so_one. Qed.
Lemma script_inter g cs tabs Ks ks sel ah al V bits is Ks' n b :
  dc_scan_valid cs tabs Ks ks sel ah al -> dc_scan_data g cs tabs ks sel ah al V bits ->
  script g cs tabs (fold_left (fun L k => known_next L k 0 0 al) ks Ks) is Ks' n b ->
  script g cs tabs Ks (DcScan sel ah al bits :: is) Ks' (n + 1) (b + Z.of_nat (length (scan_units g ks))).
Proof. intros H1 H2. apply sc_scan. now apply (so_dc _ _ _ _ _ _ _ _ V). Qed.
