(** Facts about whole calls. *)
From Coq Require Import ZArith String List Bool Lia.
From Coq Require Import ZifyBool ZifyNat ZifyN.
From Verif Require Import Base Types Huffman State Bitstream Headers Worker Mcu McuProg Decoder
  BaseFacts HeaderFacts SpecSegments Obs BlockSafe Session HeaderInv DecodeInv Keeps.
Import ListNotations.
Local Open Scope Z_scope.
Local Open Scope m_scope.
Ltac Zify.zify_post_hook ::= Z.div_mod_to_equations.

Lemma on_buffer_eq {A} (m : M hst A) d buf :
  on_buffer m d buf = (fst (m (mkHst d buf)), hd_dec (snd (m (mkHst d buf)))).
Proof. unfold on_buffer. now destruct (m (mkHst d buf)). Qed.

(** * Every state a caller can reach satisfies the invariant *)
Lemma hinv_opt o d : hinv d -> hinv (set_d_opt o d).
Proof.
  intros Hi. apply (hinv_nums d); auto.
  pose proof Hi as (_ & [? ? ? ? ? ? ? ? ? ? ? ? ? ? ? ?] & _). split; dsimp; auto.
Qed.
Lemma run_call_inv d c : hinv d -> legal_call c -> hinv (run_call d c).
Proof.
  intros Hi Hc. destruct c; cbn [run_call legal_call] in *.
  - unfold read_headers. rewrite on_buffer_eq. cbn [snd].
    pose proof (decode_headers_step (mkHst d buf) Hi Hc) as H. apply H.
  - unfold decode_buffer. rewrite on_buffer_eq. cbn [snd].
    pose proof (decode_internal_fin (mkHst d buf) Hi Hc) as H. apply H.
  - now apply hinv_opt.
  - now apply hinv_opt.
  - now apply hinv_opt.
  - unfold set_num_threads. destruct (n =? 0); [exact Hi|]. destruct (u32 n =? 0); [exact Hi|]. now apply hinv_opt.
Qed.
Lemma after_inv cpu o cs : Forall legal_call cs -> hinv (after cpu o cs).
Proof.
  intros H. unfold after.
  assert (forall d, hinv d -> hinv (fold_left run_call cs d)) as Hf.
  { induction H as [|c cs Hc _ IH]; intros d Hd; cbn [fold_left]; auto. apply IH. now apply run_call_inv. }
  apply Hf, hinv_new.
Qed.

Lemma C01_lemma cpu o cs buf : Forall legal_call cs -> Forall byte buf ->
  fst (read_headers (after cpu o cs) buf) <> Fuel /\ fst (decode_buffer (after cpu o cs) buf) <> Fuel.
Proof.
  intros Hcs Hb. pose proof (after_inv cpu o cs Hcs) as Hi.
  unfold read_headers, decode_buffer. rewrite !on_buffer_eq. cbn [fst]. split.
  - apply (decode_headers_step (mkHst _ buf) Hi Hb).
  - apply (decode_internal_fin (mkHst _ buf) Hi Hb).
Qed.

(** * Panics while reading the headers *)
Lemma C02_headers_lemma cpu o buf p d : Forall byte buf ->
  read_headers (new_with_options cpu o) buf = (Panic p, d) -> 4 <= i_comps (d_info d).
Proof.
  intros Hb H. unfold read_headers in H. rewrite on_buffer_eq in H. injection H as H1 H2.
  pose proof (decode_headers_step (mkHst (new_with_options cpu o) buf) (hinv_new cpu o) Hb) as Hs.
  rewrite <- H2. eapply (hs_panic _ _ _ _ _ Hs); [apply good_new|exact H1].
Qed.

(** * Headers that are accepted contain a frame header *)
Lemma parse_sos_frame s u s' : parse_sos s = (Ok u, s') ->
  i_comps (d_info (hd_dec s')) <> 0 /\ d_info (hd_dec s') = d_info (hd_dec s).
Proof.
  intros H. pose proof (keeps_parse_sos d_info untouched_info s) as Hk. rewrite H in Hk. cbn [snd] in Hk.
  split; [|exact Hk]. rewrite Hk. clear Hk. unfold parse_sos, bind in H.
  pose proof (keeps_u16 d_info s) as K1. destruct (rd_u16 s) as [[ls| | |] s1]; try discriminate. cbn [snd] in K1.
  pose proof (keeps_byte d_info s1) as K2. destruct (rd_byte s1) as [[ns| | |] s2]; try discriminate. cbn [snd] in K2.
  unfold modd in H at 1. destruct (negb (ls =? _)); [discriminate|]. destruct (negb (_ && _)); [discriminate|].
  unfold getd in H at 1. dsimp in H. rewrite <- K1, <- K2.
  destruct (i_comps (d_info (hd_dec s2)) =? 0) eqn:E; [discriminate|]. lia.
Qed.
Lemma header_loop_frame : forall fuel last before s u s', header_loop fuel last before s = (Ok u, s') ->
  i_comps (d_info (hd_dec s')) <> 0.
Proof.
  induction fuel as [|f IH]; intros last before s u s' H; [discriminate|].
  cbn [header_loop] in H. unfold bind at 1 in H.
  destruct (rd_byte s) as [[m| | |] s1]; try discriminate. cbv zeta in H.
  assert (forall b s2, (d <- getd ;; (if o_strict (d_opt d) && (3 <? b + 1)
     then fail (EFormatStatic "[strict-mode]: Extra bytes between headers")
     else header_loop f m (b + 1))) s2 = (Ok u, s') -> i_comps (d_info (hd_dec s')) <> 0) as Hn.
  { intros b s2 E. unfold bind, getd in E. destruct (_ && _) in E; [discriminate|]. eapply IH, E. }
  destruct (last =? 255).
  - destruct (marker_from_u8 m) as [n|].
    + unfold bind at 1 in H. destruct (parse_marker_inner n s1) as [[u1| | |] s2] eqn:E; try discriminate.
      destruct (is_sos n) eqn:En.
      * destruct n; try discriminate. cbn [parse_marker_inner] in E. unfold ret in H. injection H as _ <-.
        now apply parse_sos_frame in E.
      * eapply Hn, H.
    + unfold bind at 1 in H. destruct (skip_segment _ s1) as [[u1| | |] s2]; try discriminate. eapply Hn, H.
  - eapply Hn, H.
Qed.
Lemma decode_headers_frame s u s' : decode_headers s = (Ok u, s') -> i_comps (d_info (hd_dec s')) <> 0.
Proof.
  unfold decode_headers, bind. destruct (rd_u16 s) as [[m| | |] s1]; try discriminate.
  destruct (negb _); [discriminate|]. cbn [fuel_of]. unfold fuel_of. apply header_loop_frame.
Qed.

Lemma lim_opts d0 d : same_setup d0 d -> lim d -> i_comps (d_info d) <> 0 ->
  0 < width d <= o_max_width (d_opt d0) /\ 0 < height d <= o_max_height (d_opt d0).
Proof. intros (E & _) H Hc. specialize (H Hc). rewrite E in H. exact H. Qed.

Lemma decode_internal_split h : decode_internal h =
  match decode_headers h with
  | (Ok _, h1) => (if d_prog (hd_dec h1) then decode_progressive else decode_baseline) h1
  | (Err e, h1) => (Err e, h1) | (Panic p, h1) => (Panic p, h1) | (Fuel, h1) => (Fuel, h1)
  end.
Proof. unfold decode_internal, bind, getd. now destruct (decode_headers h) as [[] h1]. Qed.

Lemma C04_headers_lemma cpu o buf u d : Forall byte buf ->
  read_headers (new_with_options cpu o) buf = (Ok u, d) ->
  0 < width d <= o_max_width o /\ 0 < height d <= o_max_height o.
Proof.
  intros Hb H. unfold read_headers in H. rewrite on_buffer_eq in H. injection H as H1 H2.
  set (s := mkHst (new_with_options cpu o) buf) in *.
  pose proof (decode_headers_step s (hinv_new cpu o) Hb) as Hs.
  assert (decode_headers s = (Ok u, snd (decode_headers s))) as He by (rewrite <- H1; apply surjective_pairing).
  apply decode_headers_frame in He. rewrite <- H2 in *.
  apply (lim_opts (new_with_options cpu o)); [apply Hs| |exact He].
  apply (hs_good _ _ _ _ _ Hs (good_new cpu o) u H1).
Qed.
Lemma C04_decode_lemma cpu o buf px d : Forall byte buf ->
  decode_buffer (new_with_options cpu o) buf = (Ok px, d) ->
  0 < width d <= o_max_width o /\ 0 < height d <= o_max_height o.
Proof.
  intros Hb H. unfold decode_buffer in H. rewrite on_buffer_eq in H. injection H as H1 H2.
  set (s := mkHst (new_with_options cpu o) buf) in *.
  pose proof (decode_internal_fin s (hinv_new cpu o) Hb) as Hf. rewrite <- H2.
  apply (lim_opts (new_with_options cpu o)); [apply Hf|apply (hf_lim _ _ _ Hf (good_new cpu o) px H1)|].
  pose proof (decode_headers_step s (hinv_new cpu o) Hb) as Hs. unfold wp in Hs.
  rewrite decode_internal_split in H1 |- *. clear Hf H2.
  destruct (decode_headers s) as [[u| | |] h1] eqn:E; try discriminate.
  pose proof (decode_headers_frame _ _ _ E) as Hc. cbn [fst snd] in Hs.
  assert (bytes h1) as Hb1 by (eapply suffix_Forall; [apply Hs|exact Hb]).
  destruct (d_prog (hd_dec h1)).
  - pose proof (decode_progressive_fin h1 (hs_inv _ _ _ _ _ Hs) Hb1) as Hp. apply (hf_setup _ _ _ Hp), Hc.
  - pose proof (decode_baseline_fin h1 (hs_inv _ _ _ _ _ Hs) Hb1) as Hp. apply (hf_setup _ _ _ Hp), Hc.
Qed.

(** * read_headers against decode_buffer *)
Lemma C05_fail_lemma d buf :
  (forall e d', read_headers d buf = (Err e, d') -> decode_buffer d buf = (Err e, d')) /\
  (forall p d', read_headers d buf = (Panic p, d') -> decode_buffer d buf = (Panic p, d')).
Proof.
  unfold read_headers, decode_buffer. rewrite !on_buffer_eq, decode_internal_split.
  destruct (decode_headers _) as [[] h1]; cbn [fst snd]; split; intros x d' H; inversion H; reflexivity.
Qed.
Lemma C05_ok_lemma d buf px d' : decode_buffer d buf = (Ok px, d') ->
  exists d1, read_headers d buf = (Ok tt, d1) /\ (d_prog d1 = true -> get_info d' = get_info d1 /\
    get_output_colorspace d' = get_output_colorspace d1).
Proof.
  unfold read_headers, decode_buffer. rewrite !on_buffer_eq, decode_internal_split.
  destruct (decode_headers _) as [[[]| | |] h1]; cbn [fst snd]; try discriminate.
  intros H. exists (hd_dec h1). split; [reflexivity|]. intros Hp. rewrite Hp in H.
  pose proof (keeps_decode_progressive d_info untouched_info h1) as K1.
  pose proof (keeps_decode_progressive d_opt untouched_opt h1) as K2.
  injection H as _ <-. unfold get_info, get_output_colorspace. now rewrite K1, K2.
Qed.

(** * The signature *)
Lemma C06_lemma d buf : 
  (forall a b t, buf = a :: b :: t -> (a, b) <> (255, 216) -> byte a -> byte b ->
     read_headers d buf = (Err (EIllegalMagicBytes (a * 256 + b)), d) /\
     decode_buffer d buf = (Err (EIllegalMagicBytes (a * 256 + b)), d)) /\
  ((length buf < 2)%nat ->
     read_headers d buf = (Err EExhaustedData, d) /\ decode_buffer d buf = (Err EExhaustedData, d)).
Proof.
  unfold read_headers, decode_buffer, on_buffer, decode_internal, decode_headers, bind, rd_u16. cbn [hd_rd hd_dec].
  split.
  - intros a b t -> Hne Ha Hb. destruct (a * 256 + b =? 65496) eqn:E; cbn [negb].
    + exfalso. apply Hne. unfold byte in *. f_equal; lia.
    + split; reflexivity.
  - destruct buf as [|a [|b t]]; cbn [length]; intros; try lia; split; reflexivity.
Qed.

(** * Grayscale *)
Lemma C44_headers_lemma cpu o buf u d : Forall byte buf ->
  read_headers (new_with_options cpu o) buf = (Ok u, d) -> i_comps (d_info d) = 1 ->
  get_output_colorspace d = GRAYSCALE.
Proof.
  intros Hb H Hc. unfold read_headers in H. rewrite on_buffer_eq in H. injection H as H1 H2.
  pose proof (decode_headers_step (mkHst (new_with_options cpu o) buf) (hinv_new cpu o) Hb) as Hs.
  apply hs_setup in Hs. destruct Hs as (_ & _ & _ & _ & Hg & _). unfold gray_rel in Hg. rewrite H2 in Hg.
  destruct (Hg Hc) as [?|[E _]]; [assumption|discriminate].
Qed.

(** The same over a whole history that sets no colour space in between *)
Definition sets_colour (c : call) : Prop :=
  match c with CRgba | CSetOutputColorspace _ => True | _ => False end.
Lemma run_call_gray d c : hinv d -> legal_call c -> ~ sets_colour c -> gray_rel d (run_call d c).
Proof.
  intros Hi Hc Hs. destruct c; cbn [run_call legal_call sets_colour] in *; try tauto.
  - unfold read_headers. rewrite on_buffer_eq. cbn [snd].
    pose proof (decode_headers_step (mkHst d buf) Hi Hc) as H. apply (hs_setup _ _ _ _ _ H).
  - unfold decode_buffer. rewrite on_buffer_eq. cbn [snd].
    pose proof (decode_internal_fin (mkHst d buf) Hi Hc) as H. apply (hf_setup _ _ _ H).
  - intros H. right. split; [exact H|reflexivity].
  - intros H. right. unfold set_num_threads in *.
    destruct (n =? 0); [now split|]. destruct (u32 n =? 0); [now split|]. now split.
Qed.
Lemma C44_lemma cpu o cs : Forall legal_call cs -> Forall (fun c => ~ sets_colour c) cs ->
  let d := after cpu o cs in
  i_comps (d_info d) = 1 -> get_output_colorspace d = GRAYSCALE.
Proof.
  intros H Hs. cbv zeta. unfold after.
  assert (forall d, hinv d -> (i_comps (d_info d) = 1 -> get_output_colorspace d = GRAYSCALE) ->
    i_comps (d_info (fold_left run_call cs d)) = 1 -> get_output_colorspace (fold_left run_call cs d) = GRAYSCALE) as Hf.
  { induction H as [|c cs Hc _ IH]; intros d Hd Hg; cbn [fold_left]; auto. inversion Hs; subst.
    apply IH; auto; [now apply run_call_inv|]. intros Hi1.
    pose proof (run_call_gray d c Hd Hc ltac:(assumption)) as Hr. destruct (Hr Hi1) as [?|[E1 E2]]; [assumption|].
    unfold get_output_colorspace in *. rewrite E2. auto. }
  apply Hf; [apply hinv_new|]. discriminate.
Qed.

(** * Setters *)
Lemma C40_lemma n d : 0 <= n < 2 ^ 64 ->
  (n = 0 -> exists e, set_num_threads n d = (Err e, d)) /\
  (0 < n < 2 ^ 32 -> set_num_threads n d = (Ok tt, set_d_opt (set_threads (d_opt d) n) d)).
Proof.
  intros Hn. unfold set_num_threads. split.
  - intros ->. eexists. reflexivity.
  - intros H. destruct (n =? 0) eqn:E; [lia|]. unfold u32. rewrite Z.mod_small by lia. now rewrite E.
Qed.

(** * Progressive images are recognised by their frame header *)
Definition prog_inv (d : decoder) : Prop := i_sof (d_info d) = ProgressiveDctHuffman -> d_prog d = true.
Lemma prog_inv_rel d d' : prog_inv d -> prog_rel d d' -> prog_inv d'.
Proof. intros H [H1 H2] E. destruct (H2 E); auto. Qed.
Lemma run_call_prog d c : hinv d -> legal_call c -> prog_inv d -> prog_inv (run_call d c).
Proof.
  intros Hi Hc Hp. destruct c; cbn [run_call legal_call] in *; try exact Hp.
  - unfold read_headers. rewrite on_buffer_eq. cbn [snd]. apply (prog_inv_rel d); auto.
    pose proof (decode_headers_step (mkHst d buf) Hi Hc) as H. apply (hs_setup _ _ _ _ _ H).
  - unfold decode_buffer. rewrite on_buffer_eq. cbn [snd]. apply (prog_inv_rel d); auto.
    pose proof (decode_internal_fin (mkHst d buf) Hi Hc) as H. apply (hf_setup _ _ _ H).
  - unfold set_num_threads. destruct (n =? 0); [exact Hp|]. destruct (u32 n =? 0); exact Hp.
Qed.
Lemma after_prog cpu o cs : Forall legal_call cs -> prog_inv (after cpu o cs).
Proof.
  intros H. unfold after.
  assert (forall d, hinv d -> prog_inv d -> prog_inv (fold_left run_call cs d)) as Hf.
  { induction H as [|c cs Hc _ IH]; intros d Hd Hp; cbn [fold_left]; auto. apply IH; [now apply run_call_inv|].
    now apply run_call_prog. }
  apply Hf; [apply hinv_new|]. discriminate.
Qed.
Lemma after_snoc cpu o cs c : after cpu o (cs ++ [c]) = run_call (after cpu o cs) c.
Proof. unfold after. now rewrite fold_left_app. Qed.

Lemma C05_lemma cpu o cs buf px d' : Forall legal_call cs -> Forall byte buf ->
  decode_buffer (after cpu o cs) buf = (Ok px, d') ->
  exists d1, read_headers (after cpu o cs) buf = (Ok tt, d1) /\
    (forall i, get_info d1 = Some i -> i_sof i = ProgressiveDctHuffman -> get_info d' = Some i).
Proof.
  intros Hcs Hb H. destruct (C05_ok_lemma _ _ _ _ H) as (d1 & H1 & H2). exists d1. split; [exact H1|].
  intros i Hi Hs. rewrite <- Hi. apply H2.
  assert (prog_inv d1) as Hp.
  { replace d1 with (after cpu o (cs ++ [CReadHeaders buf])) by (rewrite after_snoc; cbn [run_call]; now rewrite H1).
    apply after_prog. apply Forall_app. repeat constructor; auto. }
  apply Hp. unfold get_info in Hi. destruct (info_eqb _ _); [discriminate|]. injection Hi as ->. exact Hs.
Qed.

(** * Option setters *)
Lemma last_value_snoc {A} (pick : setter -> option A) ss s :
  last_value pick (ss ++ [s]) = match pick s with Some a => Some a | None => last_value pick ss end.
Proof. unfold last_value. now rewrite fold_left_app. Qed.
Lemma C41_lemma o ss :
  let o' := fold_left run_setter ss o in
  o_use_unsafe o' = or_default (last_value (fun s => match s with StUseUnsafe b => Some b | _ => None end) ss) (o_use_unsafe o) /\
  o_colorspace o' = or_default (last_value (fun s => match s with StColorspace b => Some b | _ => None end) ss) (o_colorspace o) /\
  o_threads o' = or_default (last_value (fun s => match s with StThreads b => Some b | _ => None end) ss) (o_threads o) /\
  o_max_width o' = or_default (last_value (fun s => match s with StMaxWidth b => Some b | _ => None end) ss) (o_max_width o) /\
  o_max_height o' = or_default (last_value (fun s => match s with StMaxHeight b => Some b | _ => None end) ss) (o_max_height o) /\
  o_max_scans o' = or_default (last_value (fun s => match s with StMaxScans b => Some b | _ => None end) ss) (o_max_scans o) /\
  o_strict o' = or_default (last_value (fun s => match s with StStrict b => Some b | _ => None end) ss) (o_strict o).
Proof.
  cbv zeta. induction ss as [|s ss IH] using rev_ind; [repeat split|].
  rewrite fold_left_app, !last_value_snoc. cbn [fold_left].
  destruct IH as (H1 & H2 & H3 & H4 & H5 & H6 & H7).
  destruct s; cbn [run_setter]; repeat split; assumption.
Qed.
Lemma C41_decoder_lemma cpu cs : forall o, Forall setter_call cs ->
  after cpu o cs = new_with_options cpu (fold_left run_setter (flat_map as_setters cs) o).
Proof.
  unfold after. induction cs as [|c cs IH]; intros o Hc; [reflexivity|].
  inversion Hc as [|? ? H1 H2]; subst. cbn [flat_map fold_left]. rewrite fold_left_app.
  destruct c as [buf|buf| |w h|cc|n]; cbn [setter_call] in H1; try contradiction; cbn [as_setters fold_left run_call run_setter]; rewrite <- (IH _ H2);
    f_equal; try reflexivity.
  unfold set_num_threads, u32. rewrite Z.mod_small by lia. replace (n =? 0) with false by lia. reflexivity.
Qed.
