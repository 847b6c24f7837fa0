(** DC tables may stand on either side of a progressive frame header. *)
From Coq Require Import ZArith String List Bool Lia.
From Coq Require Import ZifyBool ZifyNat ZifyN.
From Verif Require Import Base Types Huffman State Bitstream Headers Mcu McuProg Decoder.
From Verif Require Import SpecSegments SpecFile Session ApiFacts BaseFacts HeaderFacts Keeps HeaderReads HeaderInv HeaderItems Sim TableSegments OrderFacts.
Import ListNotations.
Local Open Scope Z_scope.
Local Open Scope m_scope.
Ltac Zify.zify_post_hook ::= Z.div_mod_to_equations.

Lemma huffman_new_dc_prog bits values p p' : huffman_new bits values true p = huffman_new bits values true p'.
Proof. reflexivity. Qed.

Lemma dc_loop ts : Forall huff_def_legal ts -> Forall (fun t => hf_ac t = false) ts ->
  exists G, forall f d rest, (length ts <= f)%nat ->
    dht_loop f (zlen (dht_payload ts)) (mkHst d (dht_payload ts ++ rest)%list) =
    dht_loop (f - length ts) 0 (mkHst (tab (G (d_dcts d)) (d_acts d) d) rest).
Proof.
  induction ts as [|t ts IH]; intros Hl Ha.
  - exists (fun x => x). intros f d rest _. cbn [dht_payload flat_map app length]. rewrite Nat.sub_0_r, tab_same. reflexivity.
  - inversion Hl as [|? ? Ht Hts]; subst. inversion Ha as [|? ? At Ats]; subst.
    destruct (IH Hts Ats) as (G & HG).
    destruct (legal_new t false Ht) as (h & E & _). rewrite At in E. cbn [negb] in E.
    exists (fun x => G (zset x (hf_dest t) (Some h))). intros f d rest Hf. destruct f as [|f]; [cbn in Hf; lia|].
    cbn [dht_payload flat_map]. change (flat_map huff_def_bytes ts) with (dht_payload ts).
    rewrite <- app_assoc. rewrite dht_step; [|apply Ht|apply Ht|].
    2:{ rewrite zlen_app. pose proof (zlen_nonneg (dht_payload ts)). lia. }
    rewrite At. cbn [negb]. rewrite (huffman_new_dc_prog _ _ (d_prog d) false), E. cbn [put_table].
    replace (zlen (huff_def_bytes t ++ dht_payload ts) - zlen (huff_def_bytes t)) with (zlen (dht_payload ts)) by (rewrite zlen_app; lia).
    rewrite HG by (cbn in Hf; lia). cbn [length Nat.sub].
    destruct d; reflexivity.
Qed.

Lemma dc_segment ts : Forall huff_def_legal ts -> Forall (fun t => hf_ac t = false) ts -> fits (dht_payload ts) ->
  exists G, forall d rest, marker_body 196 (mkHst d (segment (dht_payload ts) ++ rest)%list) =
    (Ok tt, mkHst (tab (G (d_dcts d)) (d_acts d) d) rest).
Proof.
  intros Hl Ha Hf. unfold fits in Hf. rewrite blen_zlen in Hf. pose proof (zlen_nonneg (dht_payload ts)).
  destruct (dc_loop ts Hl Ha) as (G & HG). exists G. intros d rest.
  change (marker_body 196) with parse_huffman. unfold parse_huffman, segment. rewrite blen_zlen. rewrite <- app_assoc.
  erewrite bind_ok by (apply map_err_ok; apply rd_u16_be16; lia). cbv beta.
  replace (2 + zlen (dht_payload ts) <? 2) with false by lia.
  erewrite bind_ok by reflexivity. cbn [hd_rd]. cbv beta.
  replace (2 + zlen (dht_payload ts) - 2) with (zlen (dht_payload ts)) by lia.
  erewrite bind_ok.
  2:{ rewrite HG by (rewrite app_length; pose proof (dht_payload_length ts); lia).
      instantiate (2 := 0). destruct (_ - _)%nat; reflexivity. }
  reflexivity.
Qed.

Lemma sof2_tab a b d rd : let r := marker_body 194 (mkHst d rd) in
  marker_body 194 (mkHst (tab a b d) rd) = (fst r, on_dec (tab a b) (snd r)).
Proof. exact (sof_tab ProgressiveDctHuffman a b (set_d_prog true d) rd). Qed.
Lemma sof2_keeps d rd : let d' := hd_dec (snd (marker_body 194 (mkHst d rd))) in
  d_dcts d' = d_dcts d /\ d_acts d' = d_acts d.
Proof. exact (proj2 (sof_keeps ProgressiveDctHuffman (set_d_prog true d) rd)). Qed.

Lemma swap_dc_headers d l ts q t : hinv d -> Forall header_seg l ->
  Forall huff_def_legal ts -> Forall (fun t => hf_ac t = false) ts ->
  header_seg (196, dht_payload ts) -> header_seg (194, q) -> Forall byte (255 :: t) ->
  let p := dht_payload ts in
  let a := ([255; 216] ++ msegs_bytes l ++ mseg_bytes (196, p) ++ mseg_bytes (194, q) ++ 255 :: t)%list in
  let b := ([255; 216] ++ msegs_bytes l ++ mseg_bytes (194, q) ++ mseg_bytes (196, p) ++ 255 :: t)%list in
  decode_headers (mkHst d a) = decode_headers (mkHst d b) \/ (no_ok (decode_headers (mkHst d a)) /\ no_ok (decode_headers (mkHst d b))).
Proof.
  intros Hi Hl Hts Hac Hp Hq Ht. cbv zeta. cbn [app]. rewrite !decode_headers_soi.
  assert (Hfit : fits (dht_payload ts)) by apply Hp.
  destruct (dc_segment ts Hts Hac Hfit) as (G & HG). set (p := dht_payload ts) in *. clearbody p.
  assert (Hbs : forall s, header_seg s -> Forall byte (mseg_bytes s)).
  { intros s Hs. pose proof (mseg_Forall [s] (Forall_cons _ Hs (Forall_nil _))) as H. unfold msegs_bytes in H. cbn [flat_map] in H. now rewrite app_nil_r in H. }
  pose proof (Hbs _ Hp) as Bp. pose proof (Hbs _ Hq) as Bq.
  assert (Bpt : Forall byte (mseg_bytes (196, p) ++ 255 :: t)) by (apply Forall_app; auto).
  assert (Bqt : Forall byte (mseg_bytes (194, q) ++ 255 :: t)) by (apply Forall_app; auto).
  assert (Bpq : Forall byte (mseg_bytes (196, p) ++ mseg_bytes (194, q) ++ 255 :: t)) by (apply Forall_app; auto).
  assert (Bqp : Forall byte (mseg_bytes (194, q) ++ mseg_bytes (196, p) ++ 255 :: t)) by (apply Forall_app; auto).
  destruct (items_cases (fun a b => True) (fun _ => I) (fun a b c H1 H2 => I) l Hl
    ltac:(intros; exact I)
    0 0 d _ _ Hi ltac:(lia) ltac:(lia) Bpq Bqp ltac:(discriminate) ltac:(discriminate))
    as [(d0 & l' & b' & Hi0 & Hl' & Hb' & _ & -> & ->)|H]; [|now right].
  set (d1 := tab (G (d_dcts d0)) (d_acts d0) d0).
  destruct (run_seg l' b' 196 p d0 d1 _ Hi0 Hp Bqt Hl' Hb' (HG _ _)) as [-> Hi1].
  (* both orders, once the frame header has been read *)
  assert (HC : forall e, (forall t, marker_body 194 (mkHst d0 (segment q ++ t)) = (Ok tt, mkHst e t)) ->
    loopz 196 1 d1 (mseg_bytes (194, q) ++ 255 :: t) = loopz l' b' d0 (mseg_bytes (194, q) ++ mseg_bytes (196, p) ++ 255 :: t)).
  { intros e R.
    pose proof (sof2_keeps d0 (segment q ++ t)) as K. cbv zeta in K. rewrite R in K. cbn [snd hd_dec] in K. destruct K as [K1 K2].
    assert (R1 : marker_body 194 (mkHst d1 (segment q ++ 255 :: t)) = (Ok tt, mkHst (tab (G (d_dcts d0)) (d_acts d0) e) (255 :: t))).
    { unfold d1. rewrite sof2_tab, R. reflexivity. }
    destruct (run_seg 196 1 194 q d1 _ (255 :: t) Hi1 Hq Ht ltac:(lia) ltac:(lia) R1) as [-> Hj1].
    destruct (run_seg l' b' 194 q d0 e _ Hi0 Hq Bpt Hl' Hb' (R _)) as [-> Hie].
    destruct (run_seg 194 1 196 p e _ (255 :: t) Hie Hp Ht ltac:(lia) ltac:(lia) (HG _ _)) as [-> Hj2].
    rewrite !loopz_ff by (auto; lia). now rewrite K1, K2. }
  assert (HA : fst (loopz 196 1 d1 (mseg_bytes (194, q) ++ 255 :: t)) = Ok tt ->
    loopz 196 1 d1 (mseg_bytes (194, q) ++ 255 :: t) = loopz l' b' d0 (mseg_bytes (194, q) ++ mseg_bytes (196, p) ++ 255 :: t)).
  { intros E. destruct (one_seg 196 1 194 q d1 _ Hi1 Hq Ht ltac:(lia) ltac:(lia) E) as (d2 & _ & R2 & _).
    apply (HC (tab (d_dcts d0) (d_acts d0) d2)). intros t'.
    assert (d0 = tab (d_dcts d0) (d_acts d0) d1) as E0 by (unfold d1; rewrite tab_tab; now rewrite tab_same).
    rewrite E0 at 1. rewrite sof2_tab, R2. reflexivity. }
  assert (HB : fst (loopz l' b' d0 (mseg_bytes (194, q) ++ mseg_bytes (196, p) ++ 255 :: t)) = Ok tt ->
    loopz 196 1 d1 (mseg_bytes (194, q) ++ 255 :: t) = loopz l' b' d0 (mseg_bytes (194, q) ++ mseg_bytes (196, p) ++ 255 :: t)).
  { intros E. destruct (one_seg l' b' 194 q d0 _ Hi0 Hq Bpt Hl' Hb' E) as (e & _ & R & _). now apply (HC e). }
  destruct (fst (loopz 196 1 d1 (mseg_bytes (194, q) ++ 255 :: t))) as [[]| | |] eqn:EA; [left; auto| | |];
  (destruct (fst (loopz l' b' d0 (mseg_bytes (194, q) ++ mseg_bytes (196, p) ++ 255 :: t))) as [[]| | |] eqn:EB; [left; auto| | |];
   right; unfold no_ok; rewrite EA, EB; split; discriminate).
Qed.

Lemma swap_dc cpu o l ts q t : Forall header_seg l ->
  Forall huff_def_legal ts -> Forall (fun t => hf_ac t = false) ts ->
  header_seg (196, dht_payload ts) -> header_seg (194, q) -> Forall byte t ->
  let p := dht_payload ts in
  let a := ([255; 216] ++ msegs_bytes l ++ mseg_bytes (196, p) ++ mseg_bytes (194, q) ++ 255 :: t)%list in
  let b := ([255; 216] ++ msegs_bytes l ++ mseg_bytes (194, q) ++ mseg_bytes (196, p) ++ 255 :: t)%list in
  let d := new_with_options cpu o in
  (forall d', read_headers d a = (Ok tt, d') <-> read_headers d b = (Ok tt, d')) /\
  (forall px, fst (decode_buffer d a) = Ok px <-> fst (decode_buffer d b) = Ok px).
Proof.
  intros Hl Hts Hac Hp Hq Ht p a b d. assert (Ht' : Forall byte (255 :: t)) by (constructor; [unfold byte; lia|exact Ht]).
  unfold read_headers, decode_buffer. rewrite !on_buffer_eq.
  pose proof (swap_dc_headers d l ts q t (hinv_new cpu o) Hl Hts Hac Hp Hq Ht') as H0. cbv zeta in H0. fold p in H0. fold a in H0. fold b in H0.
  destruct H0 as [H|[H1 H2]].
  - rewrite (decode_internal_headers _ _ H), H. split; intros; reflexivity.
  - pose proof (decode_internal_no_ok _ H1) as I1. pose proof (decode_internal_no_ok _ H2) as I2. unfold no_ok in *.
    split.
    + intros d'. split; intros E; apply (f_equal fst) in E; cbn [fst] in E; contradiction.
    + intros px. cbn [fst]. split; intros E; exfalso; [now apply (I1 px)|now apply (I2 px)].
Qed.
