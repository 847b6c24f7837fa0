(** The order of the segments of a file, component identifiers and truncated headers. *)
From Coq Require Import ZArith String List Bool Lia.
From Coq Require Import ZifyBool ZifyNat ZifyN.
From Verif Require Import Base Types Huffman State Bitstream Headers Mcu McuProg Decoder.
From Verif Require Import SpecSegments SpecFile Session ApiFacts BaseFacts HeaderFacts Keeps HeaderReads HeaderInv HeaderItems Sim.
Import ListNotations.
Local Open Scope Z_scope.
Local Open Scope m_scope.
Ltac Zify.zify_post_hook ::= Z.div_mod_to_equations.

(** * C60 *)
Lemma headers_length d f d' : Forall byte f -> read_headers d f = (Ok tt, d') ->
  exists n, (n <= length f)%nat /\
    (forall k, (n <= k)%nat -> read_headers d (firstn k f) = (Ok tt, d')) /\
    (forall k, (k < n)%nat -> fst (read_headers d (firstn k f)) <> Ok tt /\
       forall px, fst (decode_buffer d (firstn k f)) <> Ok px).
Proof.
  intros Hb E. unfold read_headers in *. rewrite on_buffer_eq in E.
  destruct (decode_headers (mkHst d f)) as [r s] eqn:E1. cbn [fst snd] in E. injection E as -> <-.
  destruct (decode_headers_reads (mkHst d f) _ _ Hb E1) as (x & H1 & _ & H3). cbn [hd_rd hd_dec] in *.
  exists (length x). split; [rewrite H1, app_length; lia|]. split.
  - intros k Hk. rewrite on_buffer_eq, H1, firstn_app, firstn_all2 by lia. rewrite H3. reflexivity.
  - intros k Hk. assert (H : no_ok (decode_headers (mkHst d (firstn k f)))).
    { intros E2. destruct (decode_headers (mkHst d (firstn k f))) as [r2 s2] eqn:E3. cbn [fst] in E2. subst r2.
      assert (Hb2 : Forall byte (firstn k f)).
      { rewrite <- (firstn_skipn k f) in Hb. apply Forall_app in Hb. apply Hb. }
      destruct (decode_headers_reads (mkHst d (firstn k f)) _ _ Hb2 E3) as (x2 & K1 & _ & K3). cbn [hd_rd hd_dec] in *.
      specialize (K3 (hd_rd s2 ++ skipn k f)%list). rewrite app_assoc, <- K1, firstn_skipn, E1 in K3.
      apply (f_equal (fun r => hd_rd (snd r))) in K3. cbn [snd hd_rd] in K3.
      assert (length f = length x + length (hd_rd s))%nat by (rewrite H1 at 1; apply app_length).
      rewrite K3, app_length, skipn_length in H. lia. }
    split; [rewrite on_buffer_eq; exact H|]. unfold decode_buffer. rewrite on_buffer_eq. cbn [fst]. now apply decode_internal_no_ok.
Qed.

(** * C59 *)
Lemma component_id a0 a1 a2 c : component_from a0 a1 a2 = Ok c -> 1 <= a0 <= 3.
Proof.
  unfold component_from. destruct (match a0 with 1 => Some CY | 2 => _ | 3 => _ | _ => None end) eqn:E; [|discriminate].
  intros _. destruct a0 as [|p|p]; try discriminate. destruct p as [[]|[]|]; try discriminate; lia.
Qed.
Lemma components_ids comps : forall d t cs s,
  read_components (length comps)
    (mkHst d (flat_map (fun c : Z * Z * Z => [fst (fst c); snd (fst c); snd c]) comps ++ t)) = (Ok cs, s) ->
  Forall (fun c => 1 <= fst (fst c) <= 3) comps.
Proof.
  induction comps as [|[[a0 a1] a2] comps IH]; intros d t cs s; [constructor|].
  cbn [length read_components flat_map app fst snd]. unfold bind at 1.
  assert (E1 : rd_exact 3 (EFormat "Could not read component data" [])
             (mkHst d (a0 :: a1 :: a2 :: flat_map (fun c : Z * Z * Z => [fst (fst c); snd (fst c); snd c]) comps ++ t))
             = (Ok [a0; a1; a2], mkHst d (flat_map (fun c : Z * Z * Z => [fst (fst c); snd (fst c); snd c]) comps ++ t))).
  { unfold rd_exact, slice. cbn [hd_rd]. unfold zlen. cbn [length].
    match goal with |- context [if ?b then _ else _] => replace b with true by lia end. reflexivity. }
  rewrite E1. unfold bind at 1, lift. change (zn [a0; a1; a2] 0) with a0. change (zn [a0; a1; a2] 1) with a1. change (zn [a0; a1; a2] 2) with a2.
  destruct (component_from a0 a1 a2) as [c| | |] eqn:Ec; try discriminate.
  unfold bind at 1. destruct (read_components (length comps) _) as [[cs1| | |] s1] eqn:Er; try discriminate. intros _.
  constructor; [|eapply IH; exact Er]. cbn [fst]. now apply component_id in Ec.
Qed.
Lemma sof_ids sof d a b h1 h2 w1 w2 comps t u s' :
  parse_start_of_frame sof (mkHst d (a :: b :: 8 :: h1 :: h2 :: w1 :: w2 :: blen comps ::
    flat_map (fun c : Z * Z * Z => [fst (fst c); snd (fst c); snd c]) comps ++ t)) = (Ok u, s') ->
  Forall (fun c => 1 <= fst (fst c) <= 3) comps.
Proof.
  unfold parse_start_of_frame. unfold bind at 1, map_err at 1, rd_u16 at 1. cbn [hd_rd hd_dec].
  unfold bind at 1, rd_byte at 1. cbn [hd_rd hd_dec]. change (negb (8 =? 8)) with false. cbv iota.
  unfold bind at 1, modd at 1. cbn [hd_rd hd_dec].
  unfold bind at 1, map_err at 1, rd_u16 at 1. cbn [hd_rd hd_dec].
  unfold bind at 1, modd at 1. cbn [hd_rd hd_dec].
  unfold bind at 1, map_err at 1, rd_u16 at 1. cbn [hd_rd hd_dec].
  unfold bind at 1, modd at 1. cbn [hd_rd hd_dec].
  unfold bind at 1, getd at 1. cbn [hd_rd hd_dec].
  destruct (_ <? _); [discriminate|]. destruct (_ <? _); [discriminate|]. destruct (_ || _) eqn:Ez; [discriminate|].
  unfold bind at 1, rd_byte at 1. cbn [hd_rd hd_dec]. set (n := blen comps). destruct (n =? 0) eqn:En; [discriminate|].
  cbv zeta. destruct (negb _); [discriminate|].
  match goal with |- context [bind (if n =? 1 then _ else _) _ ?s] => set (s0 := s) end.
  unfold bind at 1.
  assert (exists d1, (if n =? 1
       then modd (fun d => set_d_opt (set_out_colorspace (d_opt d) GRAYSCALE)
                                     (set_d_incs GRAYSCALE d))
       else ret tt) s0 = (Ok tt, mkHst d1 (hd_rd s0))) as (d1 & ->).
  { destruct (n =? 1); eexists; [reflexivity|]. instantiate (1 := hd_dec s0). now destruct s0. }
  unfold bind at 1, modd at 1. cbn [hd_dec hd_rd]. unfold bind at 1.
  unfold n, blen. rewrite Nat2Z.id. unfold s0. cbn [hd_rd].
  destruct (read_components _ _) as [[cs| | |] s3] eqn:Er; try discriminate. intros _. now apply components_ids in Er.
Qed.
Lemma bad_id cpu o cs l1 m h w comps t : Forall legal_call cs ->
  Forall header_seg l1 -> (m = 192 \/ m = 194) -> 0 <= h <= 65535 -> 0 <= w <= 65535 -> blen comps <= 255 ->
  Forall comp_bytes comps -> Forall byte t -> ~ Forall (fun c => 1 <= fst (fst c) <= 3) comps ->
  let f := ([255; 216] ++ msegs_bytes l1 ++ mseg_bytes (m, frame_payload h w comps) ++ t)%list in
  fst (read_headers (after cpu o cs) f) <> Ok tt /\
  forall px, fst (decode_buffer (after cpu o cs) f) <> Ok px.
Proof.
  intros Hc Hl1 Hm Hh Hw Hk Hcb Ht Hbad f.
  assert (H : no_ok (decode_headers (mkHst (after cpu o cs) f))).
  { unfold f. cbn [app]. rewrite decode_headers_soi. set (fp := frame_payload h w comps) in *.
    assert (Forall byte fp /\ fits fp) as [Hfb Hff].
    { subst fp. unfold frame_payload, be16, fits, blen in *. cbn [app length]. rewrite flat3_length. split.
      - pose proof (flat3_byte comps Hcb). unfold byte in *. repeat (constructor; [lia|]). assumption.
      - lia. }
    unfold mseg_bytes. cbn [fst snd app]. intros E1.
    assert (Forall byte (255 :: m :: segment fp ++ t)) as Hb3.
    { constructor; [unfold byte; lia|]. constructor; [unfold byte; lia|]. now apply segment_app. }
    destruct (items_one (fun a b => True) l1 0 0 (after cpu o cs) _ (fun _ => I)
      (fun a b c H1 H2 => I) Hl1 (fun _ _ _ _ _ => I) (after_inv cpu o cs Hc) ltac:(lia) ltac:(lia) Hb3 ltac:(discriminate) E1)
      as (d1 & la1 & be1 & Hi1 & Hla1 & Hbe1 & _ & EL1).
    rewrite EL1 in E1. clear EL1.
    rewrite loopz_seg in E1; auto; try lia; try (unfold byte; lia).
    destruct (seg_result m d1 fp t) as [[u| | |] s1] eqn:Es; try discriminate.
    apply Hbad.
    set (sof := if m =? 192 then BaselineDct else ProgressiveDctHuffman).
    assert (exists d0 x y, parse_start_of_frame sof (mkHst d0 (x :: y :: 8 :: h / 256 :: h mod 256 :: w / 256 :: w mod 256 :: blen comps ::
        flat_map (fun c : Z * Z * Z => [fst (fst c); snd (fst c); snd c]) comps ++ t))
          = (Ok u, s1)) as (d0 & x & y & Hsof).
    { destruct Hm as [-> | ->].
      - exists d1. do 2 eexists. exact Es.
      - exists (set_d_prog true d1). do 2 eexists. exact Es. }
    eapply sof_ids. exact Hsof. }
  unfold read_headers, decode_buffer. rewrite !on_buffer_eq. split; [exact H|]. cbn [fst]. now apply decode_internal_no_ok.
Qed.

(** * C57 *)
Definition tab (a b : list (option hufftable)) (d : decoder) : decoder := set_d_acts b (set_d_dcts a d).
Lemma tab_same d : tab (d_dcts d) (d_acts d) d = d. Proof. now destruct d. Qed.
Lemma tab_tab a b a' b' d : tab a b (tab a' b' d) = tab a b d. Proof. now destruct d. Qed.
Definition on_dec (g : decoder -> decoder) (s : hst) : hst := mkHst (g (hd_dec s)) (hd_rd s).

Section commute.
Variables (g : decoder -> decoder) (Q : decoder -> Prop).
Let P (s : hst) : Prop := Q (hd_dec s).
Local Notation simg := (simr true (on_dec g) P).
Lemma simg_getd {B} (k k' : decoder -> M hst B) : (forall d, Q d -> simg (k d) (k' (g d))) -> simg (bind getd k) (bind getd k').
Proof. intros H s Hs. exact (H (hd_dec s) Hs s Hs). Qed.
Lemma simg_modd f f' : (forall d, Q d -> Q (f d) /\ f' (g d) = g (f d)) -> simg (modd f) (modd f').
Proof.
  intros H s Hs. destruct (H (hd_dec s) Hs) as [H1 H2]. unfold modd, on_dec. cbn [fst snd hd_dec hd_rd]. split; [exact H1|].
  intros _. now rewrite H2.
Qed.
Lemma simg_byte : simg rd_byte rd_byte.
Proof. intros s Hs. unfold rd_byte, on_dec. cbn [hd_rd]. destruct (hd_rd s) eqn:E; cbn [fst snd hd_dec hd_rd]; split; auto. now rewrite E. Qed.
Lemma simg_u16 : simg rd_u16 rd_u16.
Proof.
  intros s Hs. unfold rd_u16, on_dec. cbn [hd_rd]. destruct (hd_rd s) as [|a [|b t]] eqn:E; cbn [fst snd hd_dec hd_rd]; split; auto.
Qed.
Lemma simg_exact n e : simg (rd_exact n e) (rd_exact n e).
Proof. intros s Hs. unfold rd_exact, on_dec. cbn [hd_rd]. destruct (slice _ _ _) eqn:E; cbn [fst snd hd_dec hd_rd]; split; auto. Qed.
Lemma simg_fuel : simg fuel_of fuel_of.
Proof. intros s Hs. split; auto. Qed.

Section dht.
Hypothesis Hdc : forall d i t, Q d -> Q (set_d_dcts (zset (d_dcts d) i t) d) /\
  set_d_dcts (zset (d_dcts (g d)) i t) (g d) = g (set_d_dcts (zset (d_dcts d) i t) d).
Hypothesis Hac : forall d i t, Q d -> Q (set_d_acts (zset (d_acts d) i t) d) /\
  set_d_acts (zset (d_acts (g d)) i t) (g d) = g (set_d_acts (zset (d_acts d) i t) d).
Hypothesis Hpr : forall d, Q d -> d_prog (g d) = d_prog d.
Lemma simg_dht_loop : forall f len, simg (dht_loop f len) (dht_loop f len).
Proof.
  induction f; intros len; cbn [dht_loop]; (destruct (len <=? 16); [apply sim_ret|]); [apply sim_fuel|].
  apply sim_bind; [apply simg_byte|]. intros info. cbv zeta.
  destruct (4 <=? _); [apply sim_fail|]. destruct (1 <? _); [apply sim_fail|].
  apply sim_bind; [apply simg_exact|]. intros counts. destruct (256 <? _); [apply sim_fail|]. destruct (_ <? _); [apply sim_fail|].
  apply sim_bind; [apply simg_exact|]. intros syms. apply simg_getd. intros d Hd. rewrite Hpr by exact Hd.
  apply sim_bind; [apply sim_lift|]. intros t. apply sim_bind; [|intros []; apply IHf].
  destruct (_ =? 0); apply simg_modd; auto.
Qed.
Lemma simg_huffman : simg parse_huffman parse_huffman.
Proof.
  unfold parse_huffman. apply sim_bind; [apply sim_map_err, simg_u16|]. intros len. destruct (len <? 2); [apply sim_fail|].
  apply sim_bind; [apply simg_fuel|]. intros f. apply sim_bind; [apply simg_dht_loop|]. intros r.
  destruct (0 <? r); [apply sim_fail|apply sim_ret].
Qed.
End dht.

Section sof.
Hypothesis Hinfo : forall d f, Q d -> Q (set_d_info f d) /\ set_d_info f (g d) = g (set_d_info f d) /\ d_info (g d) = d_info d.
Hypothesis Hopt : forall d o c, Q d -> Q (set_d_opt o (set_d_incs c d)) /\
  set_d_opt o (set_d_incs c (g d)) = g (set_d_opt o (set_d_incs c d)) /\ d_opt (g d) = d_opt d.
Hypothesis Hgeo : forall c d, Q d -> Q (sof_geometry c d) /\ sof_geometry c (g d) = g (sof_geometry c d).
Hypothesis Hfld : forall d, d_qt (g d) = d_qt d /\ d_mcux (g d) = d_mcux d.
Hypothesis Hend : forall d cs q, Q d -> Q (set_d_comps cs (set_d_qt q d)) /\
  set_d_comps cs (set_d_qt q (g d)) = g (set_d_comps cs (set_d_qt q d)).
Lemma simg_read_components : forall n, simg (read_components n) (read_components n).
Proof.
  induction n; cbn [read_components]; [apply sim_ret|]. apply sim_bind; [apply simg_exact|]. intros l.
  apply sim_bind; [apply sim_lift|]. intros c. apply sim_bind; [exact IHn|]. intros r. apply sim_ret.
Qed.
Lemma simg_sof_components : forall cs, simg (sof_components cs) (sof_components cs).
Proof.
  induction cs as [|c cs IH]; cbn [sof_components]; [apply sim_ret|]. apply sim_bind; [apply simg_modd; intros; apply Hgeo; auto|].
  intros []. apply simg_getd. intros d Hd. destruct (Hfld d) as [-> ->]. destruct (nth _ _ _); [|apply sim_fail].
  cbv zeta. apply sim_bind; [exact IH|]. intros r. apply sim_ret.
Qed.
Lemma simg_sof v : simg (parse_start_of_frame v) (parse_start_of_frame v).
Proof.
  assert (HI : forall f : info -> info, simg (modd (fun d => set_d_info (f (d_info d)) d)) (modd (fun d => set_d_info (f (d_info d)) d))).
  { intros f. apply simg_modd. intros d Hd. destruct (Hinfo d (f (d_info d)) Hd) as (H1 & H2 & H3). rewrite H3. auto. }
  unfold parse_start_of_frame. apply sim_bind; [apply sim_map_err, simg_u16|]. intros len.
  apply sim_bind; [apply simg_byte|]. intros pr. destruct (negb _); [apply sim_fail|].
  apply sim_bind; [apply (HI (set_i_density pr))|]. intros []. apply sim_bind; [apply sim_map_err, simg_u16|]. intros hh.
  apply sim_bind; [apply (HI (set_i_height hh))|]. intros []. apply sim_bind; [apply sim_map_err, simg_u16|]. intros ww.
  apply sim_bind; [apply (HI (set_i_width ww))|]. intros []. apply simg_getd. intros d Hd.
  destruct (Hopt d (d_opt d) GRAYSCALE Hd) as (_ & _ & ->).
  destruct (_ <? _); [apply sim_fail|]. destruct (_ <? _); [apply sim_fail|]. destruct (_ || _); [apply sim_fail|].
  apply sim_bind; [apply simg_byte|]. intros n. destruct (n =? 0); [apply sim_fail|]. cbv zeta. destruct (negb _); [apply sim_fail|].
  apply sim_bind.
  { destruct (n =? 1); [|apply sim_ret]. apply simg_modd. intros d1 Hd1.
    destruct (Hopt d1 (set_out_colorspace (d_opt d1) GRAYSCALE) GRAYSCALE Hd1) as (H1 & H2 & ->). auto. }
  intros []. apply sim_bind; [apply (HI (set_i_comps n))|]. intros []. apply sim_bind; [apply simg_read_components|]. intros cs.
  apply sim_bind; [apply (HI (set_i_sof v))|]. intros []. apply sim_bind; [apply simg_sof_components|]. intros cs'.
  apply simg_modd. intros d1 Hd1. now apply Hend.
Qed.
End sof.
End commute.

(** Huffman tables do not matter for the frame header *)
Lemma sof_tab v a b d rd : let r := parse_start_of_frame v (mkHst d rd) in
  parse_start_of_frame v (mkHst (tab a b d) rd) = (fst r, on_dec (tab a b) (snd r)).
Proof.
  assert (H : simr true (on_dec (tab a b)) (fun s => (fun _ => True) (hd_dec s)) (parse_start_of_frame v) (parse_start_of_frame v)).
  { apply (simg_sof (tab a b) (fun _ => True)); intros; repeat split; auto. unfold sof_geometry. cbv zeta.
    change (d_hmax (tab a b d0)) with (d_hmax d0). change (d_vmax (tab a b d0)) with (d_vmax d0).
    destruct (negb _ || negb _); reflexivity. }
  exact (proj2 (H (mkHst d rd) I) (or_intror eq_refl)).
Qed.
(** and nothing but [is_progressive] and the tables matters for the definition of tables *)
Definition rest_of (e d : decoder) : decoder := tab (d_dcts d) (d_acts d) e.
Lemma dht_rest e d rd : d_prog d = d_prog e -> let r := parse_huffman (mkHst d rd) in
  parse_huffman (mkHst (rest_of e d) rd) = (fst r, on_dec (rest_of e) (snd r)) /\ d_prog (hd_dec (snd r)) = d_prog e.
Proof.
  intros Hp.
  assert (H : simr true (on_dec (rest_of e)) (fun s => (fun d => d_prog d = d_prog e) (hd_dec s)) parse_huffman parse_huffman).
  { apply (simg_huffman (rest_of e) (fun d => d_prog d = d_prog e)); intros; repeat split; auto. }
  destruct (H (mkHst d rd) Hp) as [H1 H2]. split; [exact (H2 (or_intror eq_refl))|exact H1].
Qed.

Lemma sof_keeps v d rd : let d' := hd_dec (snd (parse_start_of_frame v (mkHst d rd))) in
  d_prog d' = d_prog d /\ d_dcts d' = d_dcts d /\ d_acts d' = d_acts d.
Proof.
  cbv zeta. pose proof (sof_tab v (d_dcts d) (d_acts d) d rd) as H. rewrite tab_same in H.
  destruct (parse_start_of_frame v (mkHst d rd)) as [r s] eqn:E. cbn [fst snd] in *. unfold on_dec in H.
  split.
  - assert (K : simr true (on_dec (fun d => d)) (fun s => (fun d1 => d_prog d1 = d_prog d) (hd_dec s)) (parse_start_of_frame v) (parse_start_of_frame v)).
    { apply (simg_sof (fun d => d) (fun d1 => d_prog d1 = d_prog d)); intros; repeat split; auto. unfold sof_geometry. cbv zeta. destruct (negb _ || negb _); auto. }
    pose proof (proj1 (K (mkHst d rd) eq_refl)) as K1. rewrite E in K1. exact K1.
  - apply (f_equal (fun p => hd_dec (snd p))) in H. cbn [snd hd_dec] in H.
    split; rewrite H; reflexivity.
Qed.

Lemma dht_sof d p q u1 u2 d1 d2 t : d_prog d = false ->
  (forall t, parse_huffman (mkHst d (segment p ++ t)) = (Ok u1, mkHst d1 t)) ->
  parse_start_of_frame BaselineDct (mkHst d1 (segment q ++ t)) = (Ok u2, mkHst d2 t) ->
  exists e, parse_start_of_frame BaselineDct (mkHst d (segment q ++ t)) = (Ok u2, mkHst e t) /\
    forall t, parse_huffman (mkHst e (segment p ++ t)) = (Ok u1, mkHst d2 t).
Proof.
  intros Hp H1 H2.
  assert (Ed : rest_of d d1 = d1).
  { pose proof (proj1 (dht_rest d d (segment p ++ t) eq_refl)) as H. unfold rest_of at 1 in H. rewrite tab_same, H1 in H.
    cbn [fst snd] in H. unfold on_dec in H. cbn [hd_dec hd_rd] in H. congruence. }
  pose proof (sof_tab BaselineDct (d_dcts d1) (d_acts d1) d (segment q ++ t)) as H3. cbv zeta in H3.
  change (tab (d_dcts d1) (d_acts d1) d) with (rest_of d d1) in H3. rewrite Ed, H2 in H3.
  pose proof (sof_keeps BaselineDct d (segment q ++ t)) as (K1 & K2 & K3).
  destruct (parse_start_of_frame BaselineDct (mkHst d (segment q ++ t))) as [r [e rd]] eqn:E. unfold on_dec in H3. cbn [fst snd hd_dec hd_rd] in *.
  exists e. assert (r = Ok u2) as -> by congruence. assert (rd = t) as -> by congruence.
  assert (E2 : d2 = rest_of e d1) by (unfold rest_of; congruence). split; [reflexivity|]. intros t'.
  assert (Ee : rest_of e d = e) by (unfold rest_of; rewrite <- K2, <- K3; apply tab_same).
  pose proof (proj1 (dht_rest e d (segment p ++ t') (eq_sym K1))) as H. rewrite Ee, H1 in H. cbn [fst snd] in H. unfold on_dec in H. cbn [hd_dec hd_rd] in H. now rewrite E2.
Qed.
Lemma sof_dht d p q u1 u2 e d2 t : d_prog d = false ->
  (forall t, parse_start_of_frame BaselineDct (mkHst d (segment q ++ t)) = (Ok u1, mkHst e t)) ->
  parse_huffman (mkHst e (segment p ++ t)) = (Ok u2, mkHst d2 t) ->
  exists d1, parse_huffman (mkHst d (segment p ++ t)) = (Ok u2, mkHst d1 t) /\
    forall t, parse_start_of_frame BaselineDct (mkHst d1 (segment q ++ t)) = (Ok u1, mkHst d2 t).
Proof.
  intros Hp H1 H2.
  assert (K : d_prog e = d_prog d /\ d_dcts e = d_dcts d /\ d_acts e = d_acts d).
  { pose proof (sof_keeps BaselineDct d (segment q ++ t)) as K. rewrite H1 in K. exact K. }
  destruct K as (K1 & K2 & K3).
  assert (Ed : rest_of d e = d) by (unfold rest_of; rewrite K2, K3; apply tab_same).
  pose proof (proj1 (dht_rest d e (segment p ++ t) K1)) as H. rewrite Ed, H2 in H. cbn [fst snd] in H. unfold on_dec in H. cbn [hd_dec hd_rd] in H.
  assert (Ee : rest_of e d2 = d2).
  { pose proof (proj1 (dht_rest e e (segment p ++ t) eq_refl)) as H'. unfold rest_of at 1 in H'. rewrite tab_same, H2 in H'.
    cbn [fst snd] in H'. unfold on_dec in H'. cbn [hd_dec hd_rd] in H'. congruence. }
  exists (rest_of d d2). split; [exact H|]. intros t'.
  pose proof (sof_tab BaselineDct (d_dcts d2) (d_acts d2) d (segment q ++ t')) as H3. cbv zeta in H3. rewrite H1 in H3.
  cbn [fst snd] in H3. unfold on_dec in H3. cbn [hd_dec hd_rd] in H3. fold (rest_of d d2) in H3. fold (rest_of e d2) in H3.
  now rewrite Ee in H3.
Qed.

Lemma keeps_dqt_prog : forall f len, keeps (fun s => d_prog (hd_dec s)) (dqt_loop f len).
Proof.
  induction f; intros len; cbn [dqt_loop]; ksteps; try apply IHf; try (apply keeps_modd; reflexivity); apply keeps_exact.
Qed.
Lemma keeps_marker_prog m d t : m <> 194 -> d_prog (hd_dec (snd (marker_body m (mkHst d t)))) = d_prog d.
Proof.
  intros H2. unfold marker_body. destruct (marker_from_u8 m) as [n|] eqn:E.
  - assert (K : keeps (fun s => d_prog (hd_dec s)) (parse_marker_inner n)).
    { destruct n as [v| | | | | | | | | | |].
      { apply marker_sof in E. destruct E as [[-> ->]|[-> ->]]; [|congruence]. intros [d0 rd].
        exact (proj1 (sof_keeps BaselineDct d0 rd)). }
      all: cbn [parse_marker_inner]; try (unfold skip_segment; ksteps; try apply keeps_consume).
      - apply (keeps_parse_huffman d_prog untouched_prog).
      - apply (keeps_parse_sos d_prog untouched_prog).
      - unfold parse_dqt. ksteps. apply keeps_dqt_prog. }
    exact (K (mkHst d t)).
  - assert (keeps (fun s => d_prog (hd_dec s)) (skip_segment "Found a marker with invalid length ")) as K.
    { unfold skip_segment. ksteps; try apply keeps_consume. }
    exact (K (mkHst d t)).
Qed.

Lemma one_seg last before m p d t : hinv d -> header_seg (m, p) -> Forall byte t -> last <> 255 -> before <= 2 ->
  fst (loopz last before d (mseg_bytes (m, p) ++ t)) = Ok tt ->
  exists d1, hinv d1 /\ (forall t, marker_body m (mkHst d (segment p ++ t)) = (Ok tt, mkHst d1 t)) /\
    loopz last before d (mseg_bytes (m, p) ++ t) = loopz m 1 d1 t.
Proof.
  intros Hi (Hm & Hm1 & Hm2 & Hp & Hf) Ht Hl Hb. cbn [fst snd] in *. unfold mseg_bytes. cbn [fst snd app].
  rewrite loopz_seg by auto. pose proof (hinv_marker m d _ Hi (segment_app p t Hp Hf Ht)) as Hi1.
  unfold seg_result. destruct (marker_body m _) as [[u| | |] s] eqn:E; try discriminate. intros E1.
  destruct (hd_rd s) as [|b r] eqn:Er; [now apply loopz_nil in E1|].
  destruct (full_segment m p t d s u Hp Hf Ht ltac:(rewrite Er; discriminate) E) as [H1 H2].
  exists (hd_dec s). split; [exact Hi1|]. split; [exact H2|]. now rewrite <- H1, Er.
Qed.
Lemma run_seg last before m p d d1 t : hinv d -> header_seg (m, p) -> Forall byte t -> last <> 255 -> before <= 2 ->
  marker_body m (mkHst d (segment p ++ t)) = (Ok tt, mkHst d1 t) ->
  loopz last before d (mseg_bytes (m, p) ++ t) = loopz m 1 d1 t /\ hinv d1.
Proof.
  intros Hi (Hm & Hm1 & Hm2 & Hp & Hf) Ht Hl Hb E. cbn [fst snd] in *. unfold mseg_bytes. cbn [fst snd app].
  pose proof (hinv_marker m d _ Hi (segment_app p t Hp Hf Ht)) as Hi1.
  rewrite loopz_seg by auto. unfold seg_result. rewrite E in *. auto.
Qed.

Lemma swap_headers d l p q t : hinv d -> d_prog d = false -> Forall header_seg l -> Forall (fun s => fst s <> 194) l ->
  header_seg (196, p) -> header_seg (192, q) -> Forall byte (255 :: t) ->
  let a := ([255; 216] ++ msegs_bytes l ++ mseg_bytes (196, p) ++ mseg_bytes (192, q) ++ 255 :: t)%list in
  let b := ([255; 216] ++ msegs_bytes l ++ mseg_bytes (192, q) ++ mseg_bytes (196, p) ++ 255 :: t)%list in
  decode_headers (mkHst d a) = decode_headers (mkHst d b) \/ (no_ok (decode_headers (mkHst d a)) /\ no_ok (decode_headers (mkHst d b))).
Proof.
  intros Hi Hpr Hl Hn Hp Hq Ht. cbv zeta. cbn [app]. rewrite !decode_headers_soi.
  assert (Hbs : forall s, header_seg s -> Forall byte (mseg_bytes s)).
  { intros s Hs. pose proof (mseg_Forall [s] (Forall_cons _ Hs (Forall_nil _))) as H. unfold msegs_bytes in H. cbn [flat_map] in H. now rewrite app_nil_r in H. }
  pose proof (Hbs _ Hp) as Bp. pose proof (Hbs _ Hq) as Bq.
  assert (Bpt : Forall byte (mseg_bytes (196, p) ++ 255 :: t)) by (apply Forall_app; auto).
  assert (Bqt : Forall byte (mseg_bytes (192, q) ++ 255 :: t)) by (apply Forall_app; auto).
  assert (Bpq : Forall byte (mseg_bytes (196, p) ++ mseg_bytes (192, q) ++ 255 :: t)) by (apply Forall_app; auto).
  assert (Bqp : Forall byte (mseg_bytes (192, q) ++ mseg_bytes (196, p) ++ 255 :: t)) by (apply Forall_app; auto).
  destruct (items_cases (fun a b => d_prog b = d_prog a) (fun _ => eq_refl) (fun a b c H1 H2 => eq_trans H2 H1) l Hl
    ltac:(intros s d0 t0 Hs _; apply keeps_marker_prog; rewrite Forall_forall in Hn; auto)
    0 0 d _ _ Hi ltac:(lia) ltac:(lia) Bpq Bqp ltac:(discriminate) ltac:(discriminate))
    as [(d0 & l' & b' & Hi0 & Hl' & Hb' & Hpr' & -> & ->)|H]; [|now right].
  rewrite Hpr in Hpr'.
  assert (HA : fst (loopz l' b' d0 (mseg_bytes (196, p) ++ mseg_bytes (192, q) ++ 255 :: t)) = Ok tt ->
    loopz l' b' d0 (mseg_bytes (196, p) ++ mseg_bytes (192, q) ++ 255 :: t) = loopz l' b' d0 (mseg_bytes (192, q) ++ mseg_bytes (196, p) ++ 255 :: t)).
  { intros E. destruct (one_seg l' b' 196 p d0 _ Hi0 Hp Bqt Hl' Hb' E) as (d1 & Hi1 & R1 & E1). rewrite E1 in E |- *.
    destruct (one_seg 196 1 192 q d1 _ Hi1 Hq Ht ltac:(lia) ltac:(lia) E) as (d2 & Hi2 & R2 & ->).
    destruct (dht_sof d0 p q tt tt d1 d2 (mseg_bytes (196, p) ++ 255 :: t) Hpr' R1 (R2 _)) as (e & R3 & R4).
    destruct (run_seg l' b' 192 q d0 e (mseg_bytes (196, p) ++ 255 :: t) Hi0 Hq Bpt Hl' Hb' R3) as [-> Hie].
    destruct (run_seg 192 1 196 p e d2 (255 :: t) Hie Hp Ht ltac:(lia) ltac:(lia) (R4 _)) as [-> _].
    rewrite !loopz_ff by (auto; lia). reflexivity. }
  assert (HB : fst (loopz l' b' d0 (mseg_bytes (192, q) ++ mseg_bytes (196, p) ++ 255 :: t)) = Ok tt ->
    loopz l' b' d0 (mseg_bytes (196, p) ++ mseg_bytes (192, q) ++ 255 :: t) = loopz l' b' d0 (mseg_bytes (192, q) ++ mseg_bytes (196, p) ++ 255 :: t)).
  { intros E. destruct (one_seg l' b' 192 q d0 _ Hi0 Hq Bpt Hl' Hb' E) as (e & Hie & R1 & E1). rewrite E1 in E |- *.
    destruct (one_seg 192 1 196 p e _ Hie Hp Ht ltac:(lia) ltac:(lia) E) as (d2 & Hi2 & R2 & ->).
    destruct (sof_dht d0 p q tt tt e d2 (mseg_bytes (192, q) ++ 255 :: t) Hpr' R1 (R2 _)) as (d1 & R3 & R4).
    destruct (run_seg l' b' 196 p d0 d1 (mseg_bytes (192, q) ++ 255 :: t) Hi0 Hp Bqt Hl' Hb' R3) as [-> Hi1].
    destruct (run_seg 196 1 192 q d1 d2 (255 :: t) Hi1 Hq Ht ltac:(lia) ltac:(lia) (R4 _)) as [-> _].
    rewrite !loopz_ff by (auto; lia). reflexivity. }
  destruct (fst (loopz l' b' d0 (mseg_bytes (196, p) ++ mseg_bytes (192, q) ++ 255 :: t))) as [[]| | |] eqn:EA; [left; auto| | |];
  (destruct (fst (loopz l' b' d0 (mseg_bytes (192, q) ++ mseg_bytes (196, p) ++ 255 :: t))) as [[]| | |] eqn:EB; [left; auto| | |];
   right; unfold no_ok; rewrite EA, EB; split; discriminate).
Qed.

Lemma swap_lemma cpu o l p q t : Forall header_seg l -> Forall (fun s => fst s <> 194) l ->
  header_seg (196, p) -> header_seg (192, q) -> Forall byte t ->
  let a := ([255; 216] ++ msegs_bytes l ++ mseg_bytes (196, p) ++ mseg_bytes (192, q) ++ 255 :: t)%list in
  let b := ([255; 216] ++ msegs_bytes l ++ mseg_bytes (192, q) ++ mseg_bytes (196, p) ++ 255 :: t)%list in
  let d := new_with_options cpu o in
  (forall d', read_headers d a = (Ok tt, d') <-> read_headers d b = (Ok tt, d')) /\
  (forall px, fst (decode_buffer d a) = Ok px <-> fst (decode_buffer d b) = Ok px).
Proof.
  intros Hl Hn Hp Hq Ht a b d. assert (Ht' : Forall byte (255 :: t)) by (constructor; [unfold byte; lia|exact Ht]).
  unfold read_headers, decode_buffer. rewrite !on_buffer_eq.
  pose proof (swap_headers d l p q t (hinv_new cpu o) eq_refl Hl Hn Hp Hq Ht') as H0. cbv zeta in H0. fold a in H0. fold b in H0.
  destruct H0 as [H|[H1 H2]].
  - rewrite (decode_internal_headers _ _ H), H. split; intros; reflexivity.
  - pose proof (decode_internal_no_ok _ H1) as I1. pose proof (decode_internal_no_ok _ H2) as I2. unfold no_ok in *.
    split.
    + intros d'. split; intros E; apply (f_equal fst) in E; cbn [fst] in E; contradiction.
    + intros px. cbn [fst]. split; intros E; exfalso; [now apply (I1 px)|now apply (I2 px)].
Qed.
