(** Reading the headers of a whole file. *)
From Coq Require Import ZArith String List Bool Lia.
From Coq Require Import ZifyBool ZifyNat ZifyN.
From Verif Require Import Base Types Huffman State Bitstream Headers Mcu McuProg Decoder.
From Verif Require Import SpecHuffman SpecSegments SpecFile SpecExtend SpecBits SpecBlock SpecProg SpecScript SpecImage Obs ObsProg ExTools.
From Verif Require Import BaseFacts HeaderFacts HeaderInv HeaderReads HeaderItems TableSegments HuffDecode ProgFacts ProgFile.
Import ListNotations.
Local Open Scope Z_scope.
Ltac Zify.zify_post_hook ::= Z.div_mod_to_equations.

(** * Segments before the frame header *)
Definition quants_in (qt : list (option (list Z))) (f : Z -> option quant_def) : Prop :=
  length qt = 4%nat /\
  forall dest, 0 <= dest <= 3 -> nth (Z.to_nat dest) qt None = option_map (fun t => natural (qd_values t)) (f dest).
Definition tabled (d : decoder) (qt : list (option (list Z))) (dcts acts : list (option hufftable)) : decoder :=
  set_d_qt qt (set_d_dcts dcts (set_d_acts acts d)).
Lemma same_tabled d d' : same_but_huff d d' -> d' = tabled d (d_qt d) (d_dcts d') (d_acts d').
Proof. unfold same_but_huff, tabled. destruct d, d'. cbn. intros E. injection E; intros; subst. reflexivity. Qed.
Lemma tabled_tabled d q a b q' a' b' : tabled (tabled d q a b) q' a' b' = tabled d q' a' b'.
Proof. reflexivity. Qed.

Lemma last_quant_app a b dest : last_quant (a ++ b) dest =
  match last_quant b dest with Some t => Some t | None => last_quant a dest end.
Proof.
  induction a as [|t a IH]; cbn [last_quant app]; [destruct (last_quant b dest); reflexivity|].
  rewrite IH. destruct (last_quant b dest); reflexivity.
Qed.
Lemma dht_payload_bytes ts : Forall huff_def_legal ts -> Forall byte (dht_payload ts).
Proof.
  unfold dht_payload. induction 1 as [|t ts (Hd & (H1 & H2 & H3 & H4) & _) _ IH]; [constructor|]. cbn [flat_map].
  apply Forall_app. split; [|exact IH]. unfold huff_def_bytes. constructor.
  - unfold byte. destruct (hf_ac t); lia.
  - apply Forall_app. split; [exact H2|apply H4].
Qed.
Lemma pre_seg_ok p : pre_ok p -> header_seg (pre_seg p).
Proof.
  unfold header_seg. destruct p as [m q|ts|ts]; cbn [pre_ok pre_seg fst snd].
  - intros (Hm & Hb & Hf). unfold skippable, byte in *. repeat split; auto; lia.
  - intros (Hl & Hf). unfold byte. repeat split; try discriminate; auto.
    unfold dqt_payload. clear -Hl. induction Hl as [|x l (H1 & _ & H2) _ IH]; [constructor|]. cbn [flat_map].
    apply Forall_app. split; [|exact IH]. unfold quant_def_bytes. constructor; [unfold byte; lia|exact H2].
  - intros (Hl & Hf). unfold byte. repeat split; try discriminate; auto. now apply dht_payload_bytes.
Qed.
Lemma pre_body p d qs hs t : pre_ok p -> d_prog d = false -> quants_in (d_qt d) (last_quant qs) -> holds_with false d hs ->
  exists qt dcts acts, let d' := tabled d qt dcts acts in
    marker_body (fst (pre_seg p)) (mkHst d (segment (snd (pre_seg p)) ++ t)) = (Ok tt, mkHst d' t) /\
    quants_in qt (last_quant (qs ++ quants [p])) /\ holds_with false d' (hs ++ huffs [p]).
Proof.
  intros Hp Hd [H4 Hq] Hh. destruct p as [m q|ts|ts]; cbn [pre_seg fst snd].
  - destruct Hp as (Hm & Hb & Hf). exists (d_qt d), (d_dcts d), (d_acts d).
    assert (tabled d (d_qt d) (d_dcts d) (d_acts d) = d) as -> by (destruct d; reflexivity). cbv zeta.
    unfold quants, huffs. cbn [flat_map]. rewrite !app_nil_r. split; [|split; [split; auto|exact Hh]].
    destruct (skippable_body m (mkHst d (segment q ++ t)) Hm) as (msg & ->).
    destruct (header_seg_parts q Hb Hf) as (a & b & E & Hab & _). rewrite E. cbn [app]. now apply skip_reads.
  - destruct Hp as (Hl & Hf). destruct (parse_dqt_ok ts d t Hl H4 Hf) as (qt & E & H4' & Hq').
    exists qt, (d_dcts d), (d_acts d). assert (tabled d qt (d_dcts d) (d_acts d) = set_d_qt qt d) as -> by (destruct d; reflexivity).
    split; [exact E|]. unfold quants, huffs. cbn [flat_map]. rewrite !app_nil_r. split; [|exact Hh].
    split; [exact H4'|]. intros dest Hde. rewrite Hq' by exact Hde. rewrite last_quant_app.
    destruct (last_quant ts dest); [reflexivity|]. now apply Hq.
  - destruct Hp as (Hl & Hf). destruct (parse_dht_tables false ts d t hs Hl Hf Hh Hd) as (d' & E & Hs & Hh').
    exists (d_qt d), (d_dcts d'), (d_acts d'). rewrite <- (same_tabled d d' Hs). split; [exact E|].
    unfold quants, huffs. cbn [flat_map]. rewrite !app_nil_r. split; [split; auto|exact Hh'].
Qed.
Lemma loopz_pres ps : forall last before d qs hs t, Forall pre_ok ps -> hinv d -> d_prog d = false ->
  quants_in (d_qt d) (last_quant qs) -> holds_with false d hs -> Forall byte t -> last <> 255 -> before <= 2 ->
  exists last' before' qt dcts acts, let d' := tabled d qt dcts acts in
    loopz last before d (msegs_bytes (map pre_seg ps) ++ t) = loopz last' before' d' t /\
    hinv d' /\ last' <> 255 /\ before' <= 2 /\
    quants_in qt (last_quant (qs ++ quants ps)) /\ holds_with false d' (hs ++ huffs ps).
Proof.
  induction ps as [|p ps IH]; intros last before d qs hs t Hps Hi Hp Hq Hh Ht Hl Hb.
  - exists last, before, (d_qt d), (d_dcts d), (d_acts d).
    assert (tabled d (d_qt d) (d_dcts d) (d_acts d) = d) as -> by (destruct d; reflexivity). cbv zeta.
    cbn [map msegs_bytes flat_map app quants huffs]. rewrite !app_nil_r. repeat (split; [assumption || reflexivity|]). exact Hh.
  - inversion Hps as [|? ? Hp1 Hps1]; subst. pose proof (pre_seg_ok p Hp1) as Hsg.
    cbn [map]. destruct (pre_seg p) as [m q] eqn:Eseg. rewrite msegs_cons.
    destruct Hsg as (Hm1 & Hm2 & Hm3 & Hqb & Hqf). cbn [fst snd] in *.
    assert (Forall byte (msegs_bytes (map pre_seg ps) ++ t)) as Ht'.
    { apply Forall_app. split; [|exact Ht]. apply mseg_Forall. clear -Hps1.
      induction Hps1; cbn [map]; constructor; auto. now apply pre_seg_ok. }
    rewrite loopz_seg; auto. unfold seg_result.
    destruct (pre_body p d qs hs (msegs_bytes (map pre_seg ps) ++ t) Hp1 Hp Hq Hh) as (qt & dcts & acts & E & Hq1 & Hh1).
    rewrite Eseg in E. cbn [fst snd] in E.
    pose proof (hinv_marker m d (segment q ++ (msegs_bytes (map pre_seg ps) ++ t)) Hi ltac:(now apply segment_app)) as Hi1.
    rewrite E in *. cbn [snd hd_dec hd_rd] in *.
    destruct (IH m 1 _ _ _ t Hps1 Hi1 ltac:(exact Hp) Hq1 Hh1 Ht ltac:(lia) ltac:(lia)) as (l' & b' & qt' & dcts' & acts' & E' & R).
    cbv zeta in *. rewrite tabled_tabled in *. exists l', b', qt', dcts', acts'. split; [exact E'|].
    assert (quants (p :: ps) = quants [p] ++ quants ps)%list as -> by (unfold quants; cbn [flat_map]; now rewrite app_nil_r).
    assert (huffs (p :: ps) = huffs [p] ++ huffs ps)%list as -> by (unfold huffs; cbn [flat_map]; now rewrite app_nil_r).
    rewrite !app_assoc. exact R.
Qed.

(** * The frame header *)
Definition up8 (w m : Z) : Z := (w + m * 8 - 1) / (m * 8).
Definition frame_component (cid : component_id) (hs vs q : Z) (qt : list Z) (mx id : Z) : component :=
  mkComp cid vs hs 0 0 q qt 0 UpNoOp (hs * (mx * 8)) id.
Definition qt_of (qs : list quant_def) (q : Z) : list Z :=
  match last_quant qs q with Some t => natural (qd_values t) | None => [] end.
Definition frame_list (l : layout) (w : Z) (qs : list quant_def) : list component :=
  match l with
  | Gray q => [frame_component CY 1 1 q (qt_of qs q) (up8 w 1) 1]
  | Colour hs vs q q1 q2 =>
      [frame_component CY hs vs q (qt_of qs q) (up8 w hs) 1;
       frame_component CCb 1 1 q1 (qt_of qs q1) (up8 w hs) 2;
       frame_component CCr 1 1 q2 (qt_of qs q2) (up8 w hs) 3]
  end.
Definition is_gray (l : layout) : bool := match l with Gray _ => true | _ => false end.
Definition frame_opt (l : layout) (o : options) : options :=
  if is_gray l then set_out_colorspace o GRAYSCALE else o.
Definition frame_dec (cpu : isa) (o : options) (sof : sofmarker) (prog : bool) (l : layout) (w h : Z)
  (qs : list quant_def) (dcts acts : list (option hufftable)) : decoder :=
  mkDecoder (mkInfo w h 8 sof 0 0 (if is_gray l then 1 else 3)) [None; None; None; None] dcts acts
    (frame_list l w qs) (hmax l) (vmax l) (hmax l * 8) (vmax l * 8) (up8 w (hmax l)) (up8 h (vmax l))
    (negb (hmax l =? 1) || negb (vmax l =? 1)) RNone (if is_gray l then GRAYSCALE else YCbCr) prog 0 0 0 0 0
    (choose_idct_func cpu (o_use_unsafe o)) (choose_color_convert cpu (o_use_unsafe o))
    [0; 0; 0; 0] 0 2147483647 (frame_opt l o) cpu.

Lemma read_component n d a0 a1 a2 t c : component_from a0 a1 a2 = Ok c ->
  read_components (S n) (mkHst d (a0 :: a1 :: a2 :: t)) =
  bind (read_components n) (fun rest => ret (c :: rest)) (mkHst d t).
Proof.
  intros E. cbn [read_components]. erewrite bind_ok by (apply (rd_exact_app d 3 _ [a0; a1; a2] t); reflexivity).
  change (zn [a0; a1; a2] 0) with a0. change (zn [a0; a1; a2] 1) with a1. change (zn [a0; a1; a2] 2) with a2. rewrite E. reflexivity.
Qed.
Lemma component_ok a0 cid hs vs q : (match a0 with 1 => Some CY | 2 => Some CCb | 3 => Some CCr | _ => None end) = Some cid ->
  1 <= hs <= 2 -> 1 <= vs <= 2 -> 0 <= q <= 3 ->
  component_from a0 (16 * hs + vs) q = Ok (mkComp cid vs hs 0 0 q (zrepeat 0 64) 0 UpNoOp hs a0).
Proof.
  intros E Hh Hv Hq. unfold component_from. rewrite E. unfold shr. change (2 ^ 4) with 16. replace ((16 * hs + vs) / 16) with hs by lia.
  assert (Z.land (16 * hs + vs) 15 = vs) as ->.
  { change 15 with (2 ^ 4 - 1). rewrite land_ones_mod by lia. change (2 ^ 4) with 16. lia. }
  replace (4 <=? q) with false by lia. unfold is_power_of_two.
  assert (hs = 1 \/ hs = 2) as [-> | ->] by lia; assert (vs = 1 \/ vs = 2) as [-> | ->] by lia; reflexivity.
Qed.
Lemma sof_component d c rest t qt : nth (Z.to_nat (c_qn c)) (d_qt (sof_geometry c d)) None = Some qt ->
  sof_components (c :: rest) (mkHst d t) =
  bind (sof_components rest) (fun rest' =>
    ret (set_c_stride (c_stride c * (d_mcux (sof_geometry c d) * 8)) (set_c_qt qt c) :: rest'))
    (mkHst (sof_geometry c d) t).
Proof.
  intros E. cbn [sof_components]. erewrite bind_ok by reflexivity. erewrite bind_ok by reflexivity. cbn [hd_dec].
  rewrite E. reflexivity.
Qed.
(** The same frame header read by a decoder [D] whose largest sampling factors are still 1 *)
Definition frame_from (D : decoder) (sof : sofmarker) (prog : bool) (l : layout) (w h : Z)
  (qs : list quant_def) (dcts acts : list (option hufftable)) : decoder :=
  mkDecoder (mkInfo w h 8 sof (i_x (d_info D)) (i_y (d_info D)) (if is_gray l then 1 else 3)) [None; None; None; None] dcts acts
    (frame_list l w qs) (hmax l) (vmax l) (hmax l * 8) (vmax l * 8) (up8 w (hmax l)) (up8 h (vmax l))
    (negb (hmax l =? 1) || negb (vmax l =? 1)) (d_ratio D) (if is_gray l then GRAYSCALE else d_incs D) prog
    (d_ss D) (d_se D) (d_ah D) (d_al D) (d_nscans D) (d_idct D) (d_cc D) (d_zorder D) (d_ri D) (d_todo D)
    (frame_opt l (d_opt D)) (d_isa D).
Lemma sof_run_from D sof prog l w h qs qt dcts acts t : d_hmax D = 1 -> d_vmax D = 1 -> d_inter D = false ->
  layout_ok l -> quants_in qt (last_quant qs) ->
  Forall (fun q => last_quant qs q <> None) (selectors l) -> 0 < w <= 65535 -> 0 < h <= 65535 ->
  w <= o_max_width (d_opt D) -> h <= o_max_height (d_opt D) ->
  parse_start_of_frame sof (mkHst (tabled (set_d_prog prog D) qt dcts acts)
    (segment (frame_payload h w (frame_comps l)) ++ t))
  = (Ok tt, mkHst (frame_from D sof prog l w h qs dcts acts) t).
Proof.
  intros HD1 HD2 HD3 Hl [H4 Hq] Hs Hw Hh Hmw Hmh.
  destruct D as [zi zq zd za zc zh zv zmw zmh zmx zmy zin zr zcs zp zss zse zah zal zn zid zcc zz zri zt zo zisa].
  cbn [d_hmax d_vmax d_inter d_opt] in HD1, HD2, HD3, Hmw, Hmh. subst.
  assert (forall q, last_quant qs q <> None -> 0 <= q <= 3 -> nth (Z.to_nat q) qt None = Some (qt_of qs q)) as Hqt.
  { intros q Hn Hr. rewrite Hq by exact Hr. unfold qt_of. destruct (last_quant qs q); [reflexivity|congruence]. }
  unfold parse_start_of_frame, segment. rewrite <- app_assoc.
  erewrite bind_ok by (apply map_err_ok, rd_u16_be16; destruct l; cbn; lia).
  unfold frame_payload. rewrite <- app_comm_cons. erewrite bind_ok by apply rd_byte_cons.
  change (negb (8 =? 8)) with false. cbv iota. erewrite bind_ok by reflexivity. rewrite <- !app_assoc.
  erewrite bind_ok by (apply map_err_ok, rd_u16_be16; lia). erewrite bind_ok by reflexivity.
  erewrite bind_ok by (apply map_err_ok, rd_u16_be16; lia). erewrite bind_ok by reflexivity.
  erewrite bind_ok by reflexivity. cbn [hd_dec].
  match goal with |- context [d_opt ?x] => change (d_opt x) with zo end.
  replace (o_max_width zo <? w) with false by lia. replace (o_max_height zo <? h) with false by lia.
  replace ((w =? 0) || (h =? 0)) with false by lia.
  rewrite <- app_comm_cons. erewrite bind_ok by apply rd_byte_cons.
  destruct l as [q|hs vs q q1 q2].
  - change (SpecSegments.blen (frame_comps (Gray q))) with 1.
    change (1 =? 0) with false. cbv iota zeta. change (negb _) with false. cbv iota.
    erewrite bind_ok by reflexivity. erewrite bind_ok by reflexivity. cbn [frame_comps flat_map fst snd app].
    change (Z.to_nat 1) with 1%nat. cbn [hd_rd hd_dec].
    erewrite bind_ok.
    2:{ erewrite read_component by (apply (component_ok 1 CY 1 1 q eq_refl); cbn in Hl; lia).
        cbn [read_components]. erewrite bind_ok by reflexivity. reflexivity. }
    erewrite bind_ok by reflexivity. cbn [hd_rd hd_dec]. erewrite bind_ok.
    2:{ erewrite sof_component by (apply (Hqt q); [now inversion Hs|exact Hl]). cbn [sof_components].
        erewrite bind_ok by reflexivity. reflexivity. }
    reflexivity.
  - destruct Hl as (Hhs & Hvs & Hq0 & Hq1 & Hq2). cbn [selectors] in Hs.
    inversion Hs as [|? ? Hs0 Hsa]; subst. inversion Hsa as [|? ? Hs1 Hsb]; subst. inversion Hsb as [|? ? Hs2 _]; subst.
    change (SpecSegments.blen (frame_comps (Colour hs vs q q1 q2))) with 3.
    change (3 =? 0) with false. cbv iota zeta. change (negb _) with false. cbv iota.
    erewrite bind_ok by reflexivity. erewrite bind_ok by reflexivity. cbn [frame_comps flat_map fst snd app].
    change (Z.to_nat 3) with 3%nat. cbn [hd_rd hd_dec].
    erewrite bind_ok.
    2:{ erewrite read_component by (apply (component_ok 1 CY hs vs q eq_refl); lia). erewrite bind_ok.
        2:{ erewrite read_component by (apply (component_ok 2 CCb 1 1 q1 eq_refl); lia). erewrite bind_ok.
          2:{ erewrite read_component by (apply (component_ok 3 CCr 1 1 q2 eq_refl); lia).
              cbn [read_components]. erewrite bind_ok by reflexivity. reflexivity. }
          reflexivity. }
        reflexivity. }
    erewrite bind_ok by reflexivity. cbn [hd_rd hd_dec].
    assert (hs = 1 \/ hs = 2) as [-> | ->] by lia; assert (vs = 1 \/ vs = 2) as [-> | ->] by lia;
    (erewrite bind_ok;
     [|erewrite sof_component by (apply (Hqt q); assumption); erewrite bind_ok;
       [|erewrite sof_component by (apply (Hqt q1); assumption); erewrite bind_ok;
         [|erewrite sof_component by (apply (Hqt q2); assumption); cbn [sof_components];
           erewrite bind_ok by reflexivity; reflexivity]; reflexivity]; reflexivity]);
    reflexivity.
Qed.

Lemma sof_run cpu o sof prog l w h qs qt dcts acts t : layout_ok l -> quants_in qt (last_quant qs) ->
  Forall (fun q => last_quant qs q <> None) (selectors l) -> 0 < w <= 65535 -> 0 < h <= 65535 ->
  w <= o_max_width o -> h <= o_max_height o ->
  parse_start_of_frame sof (mkHst (tabled (set_d_prog prog (decoder_default cpu o)) qt dcts acts)
    (segment (frame_payload h w (frame_comps l)) ++ t))
  = (Ok tt, mkHst (frame_dec cpu o sof prog l w h qs dcts acts) t).
Proof. intros. exact (sof_run_from (decoder_default cpu o) sof prog l w h qs qt dcts acts t eq_refl eq_refl eq_refl ltac:(assumption)
  ltac:(assumption) ltac:(assumption) ltac:(assumption) ltac:(assumption) ltac:(assumption) ltac:(assumption)). Qed.

Lemma frame_comps_bytes l : layout_ok l ->
  Forall byte (flat_map (fun c => [fst (fst c); snd (fst c); snd c]) (frame_comps l)).
Proof.
  destruct l; cbn [layout_ok frame_comps flat_map fst snd app]; intros H;
    repeat (apply Forall_nil || apply Forall_cons); unfold byte; lia.
Qed.
Lemma be16_bytes n : 0 <= n <= 65535 -> Forall byte (be16 n).
Proof. intros H. unfold be16. repeat (apply Forall_nil || apply Forall_cons); unfold byte; lia. Qed.
Lemma frame_seg_ok sof l w h : sof = 192 \/ sof = 194 -> layout_ok l -> 0 < w <= 65535 -> 0 < h <= 65535 ->
  header_seg (sof, frame_payload h w (frame_comps l)).
Proof.
  intros Hs Hl Hw Hh. unfold header_seg. cbn [fst snd]. split; [unfold byte; lia|]. split; [lia|]. split; [lia|]. split.
  - unfold frame_payload. constructor; [unfold byte; lia|]. apply Forall_app. split; [apply be16_bytes; lia|].
    apply Forall_app. split; [apply be16_bytes; lia|]. constructor; [destruct l; cbn; unfold byte; lia|].
    now apply frame_comps_bytes.
  - unfold fits. destruct l; cbn; lia.
Qed.

(** The marker code of the frame header, and the frame type stored *)
Definition sof_code (prog : bool) : Z := if prog then 194 else 192.
Definition sof_of (prog : bool) : sofmarker := if prog then ProgressiveDctHuffman else BaselineDct.

(** Any frame header whose effect [F] is known *)
Lemma headers_seg_from D prog ps payload F rest : hinv D -> d_prog D = false -> d_qt D = [None; None; None; None] -> tables4 D ->
  Forall pre_ok ps -> header_seg (sof_code prog, payload) -> Forall byte rest ->
  (forall qt dcts acts, quants_in qt (last_quant (quants ps)) ->
     parse_start_of_frame (sof_of prog) (mkHst (tabled (set_d_prog prog D) qt dcts acts)
       (segment payload ++ rest)) = (Ok tt, mkHst (F dcts acts) rest)) ->
  (forall dcts acts, d_dcts (F dcts acts) = dcts /\ d_acts (F dcts acts) = acts) ->
  exists last before dcts acts, let d := F dcts acts in
    decode_headers (mkHst D
      ([255; 216] ++ msegs_bytes (map pre_seg ps) ++ mseg_bytes (sof_code prog, payload) ++ rest))
    = loopz last before d rest /\
    hinv d /\ last <> 255 /\ before <= 2 /\ holds_with false d (huffs ps).
Proof.
  intros HD1 HD2 HD3 HD4 Hps Hfs Hr HF HT. cbn [app]. rewrite decode_headers_soi.
  assert (Forall byte (mseg_bytes (sof_code prog, payload) ++ rest)) as Hrb.
  { apply Forall_app. split; [|exact Hr].
    pose proof (mseg_Forall [_] (Forall_cons _ Hfs (Forall_nil _))) as H. unfold msegs_bytes in H. cbn [flat_map] in H.
    now rewrite app_nil_r in H. }
  destruct (loopz_pres ps 0 0 D [] []
              (mseg_bytes (sof_code prog, payload) ++ rest)
              Hps HD1 HD2) as (l1 & b1 & qt & dcts & acts & E & Hi & Hl1 & Hb1 & Hqs & Hhs); auto.
  { rewrite HD3. split; [reflexivity|]. intros dest Hd. cbn [last_quant option_map].
    assert (dest = 0 \/ dest = 1 \/ dest = 2 \/ dest = 3) as [-> |[-> |[-> | ->]]] by lia; reflexivity. }
  { split; [exact HD4|]. split; [constructor|]. discriminate. }
  { lia. } { lia. }
  cbv zeta in *. rewrite E. unfold mseg_bytes. cbn [fst snd app]. cbn [app] in Hqs, Hhs.
  destruct Hfs as (Hs1 & Hs2 & Hs3 & Hs4 & Hs5). cbn [fst snd] in *.
  rewrite loopz_seg; auto. unfold seg_result.
  assert (marker_body (sof_code prog) (mkHst (tabled D qt dcts acts) (segment payload ++ rest))
          = (Ok tt, mkHst (F dcts acts) rest)) as ER.
  { rewrite <- (HF qt dcts acts Hqs). destruct prog; [reflexivity|].
    replace (set_d_prog false D) with D by (rewrite <- HD2; destruct D; reflexivity). reflexivity. }
  pose proof (hinv_marker (sof_code prog) (tabled D qt dcts acts)
     (segment payload ++ rest) Hi ltac:(now apply segment_app)) as Hi1.
  rewrite ER in *. cbn [snd hd_dec hd_rd] in *. exists (sof_code prog), 1, dcts, acts.
  split; [reflexivity|]. split; [exact Hi1|]. split; [exact Hs2|]. split; [lia|].
  destruct (HT dcts acts) as [HT1 HT2]. unfold holds_with, tables4, slot in *. rewrite HT1, HT2. exact Hhs.
Qed.
Lemma headers_seg cpu o prog ps payload F rest :
  Forall pre_ok ps -> header_seg (sof_code prog, payload) -> Forall byte rest ->
  (forall qt dcts acts, quants_in qt (last_quant (quants ps)) ->
     parse_start_of_frame (sof_of prog) (mkHst (tabled (set_d_prog prog (decoder_default cpu o)) qt dcts acts)
       (segment payload ++ rest)) = (Ok tt, mkHst (F dcts acts) rest)) ->
  (forall dcts acts, d_dcts (F dcts acts) = dcts /\ d_acts (F dcts acts) = acts) ->
  exists last before dcts acts, let d := F dcts acts in
    decode_headers (mkHst (decoder_default cpu o)
      ([255; 216] ++ msegs_bytes (map pre_seg ps) ++ mseg_bytes (sof_code prog, payload) ++ rest))
    = loopz last before d rest /\
    hinv d /\ last <> 255 /\ before <= 2 /\ holds_with false d (huffs ps).
Proof. exact (headers_seg_from (decoder_default cpu o) prog ps payload F rest (hinv_new cpu o) eq_refl eq_refl (conj eq_refl eq_refl)). Qed.
Lemma headers_frame cpu o prog ps l w h rest :
  Forall pre_ok ps -> layout_ok l -> has_quants ps l -> 0 < w <= 65535 -> 0 < h <= 65535 ->
  w <= o_max_width o -> h <= o_max_height o -> Forall byte rest ->
  exists last before dcts acts, let d := frame_dec cpu o (sof_of prog) prog l w h (quants ps) dcts acts in
    decode_headers (mkHst (decoder_default cpu o)
      ([255; 216] ++ msegs_bytes (map pre_seg ps) ++ mseg_bytes (sof_code prog, frame_payload h w (frame_comps l)) ++ rest))
    = loopz last before d rest /\
    hinv d /\ last <> 255 /\ before <= 2 /\ holds_with false d (huffs ps).
Proof.
  intros Hps Hl Hq Hw Hh Hmw Hmh Hr.
  apply (headers_seg cpu o prog ps _ (fun dcts acts => frame_dec cpu o (sof_of prog) prog l w h (quants ps) dcts acts)); auto.
  - apply frame_seg_ok; auto. destruct prog; cbn; auto.
  - intros qt dcts acts Hqs. now apply sof_run.
Qed.

(** Tables between the frame header and the first scan *)
Lemma loopz_tables pg ts : forall last before d tabs t, d_prog d = pg -> Forall huff_def_legal ts -> fits (dht_payload ts) ->
  hinv d -> holds_with pg d tabs -> Forall byte t -> last <> 255 -> before <= 2 ->
  exists d', loopz last before d (item_bytes (Tables ts) ++ t) = loopz 196 1 d' t /\
    same_but_huff d d' /\ hinv d' /\ holds_with pg d' (tabs ++ ts).
Proof.
  intros last before d tabs t Hpg Hl Hf Hi Hh Ht Hla Hb. cbn [item_bytes app].
  pose proof (dht_payload_bytes ts Hl) as Hdb.
  rewrite loopz_seg; auto; try (unfold byte; lia). unfold seg_result.
  destruct (parse_dht_tables pg ts d t tabs Hl Hf Hh Hpg) as (d' & E & Hs & Hh').
  pose proof (hinv_marker 196 d (segment (dht_payload ts) ++ t) Hi ltac:(now apply segment_app)) as Hi1.
  change (marker_body 196) with parse_huffman in *. rewrite E in *. cbn [snd hd_dec hd_rd] in *. eauto.
Qed.
