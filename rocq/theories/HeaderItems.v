(** Header parsing, one marker segment at a time. *)
From Coq Require Import ZArith String List Bool Lia.
From Coq Require Import ZifyBool ZifyNat ZifyN.
From Verif Require Import Base Types Huffman Bitstream State Headers Worker Mcu McuProg Decoder BaseFacts HeaderFacts
  HeaderInv BlockSafe SpecSegments SpecFile TableSegments HeaderReads Keeps Session ApiFacts.
Import ListNotations.
Local Open Scope Z_scope.
Local Open Scope m_scope.
Ltac Zify.zify_post_hook ::= Z.div_mod_to_equations.

(** * C11 *)
Lemma C11_lemma d buf t d' : Forall byte buf ->
  read_headers d buf = (Ok tt, d') -> read_headers d (buf ++ t) = (Ok tt, d').
Proof.
  unfold read_headers. rewrite !on_buffer_eq. intros Hb E.
  destruct (decode_headers (mkHst d buf)) as [r h] eqn:E1. cbn [fst snd] in E. injection E as -> <-.
  destruct (decode_headers_reads (mkHst d buf) _ _ Hb E1) as (x & H1 & _ & H3). cbn [hd_rd hd_dec] in *.
  rewrite H1, <- app_assoc, H3. reflexivity.
Qed.

(** * One segment *)
Lemma header_seg_parts p : Forall byte p -> fits p -> exists a b,
  segment p = a :: b :: p /\ zlen (a :: b :: p) = a * 256 + b /\ byte a /\ byte b.
Proof.
  intros Hp Hf. unfold fits, blen in Hf. exists ((2 + blen p) / 256), ((2 + blen p) mod 256).
  split; [reflexivity|]. unfold byte, zlen, blen. cbn [length]. lia.
Qed.
Lemma prefix_eq {A} (a b c d : list A) : (a ++ b = c ++ d)%list -> length a = length c -> a = c /\ b = d.
Proof.
  revert c. induction a as [|x a IH]; intros [|y c] H Hl; cbn in *; try discriminate; auto.
  injection H as -> H. injection Hl as Hl. destruct (IH c H Hl) as [-> ->]. auto.
Qed.

(** Whether a segment is accepted, and its effect, do not depend on what follows *)
Lemma full_segment m p t d s' u : Forall byte p -> fits p -> Forall byte t -> hd_rd s' <> [] ->
  marker_body m (mkHst d (segment p ++ t)) = (Ok u, s') ->
  hd_rd s' = t /\ reads (marker_body m) d tt (hd_dec s') (segment p).
Proof.
  intros Hp Hf Ht Hne E. destruct (header_seg_parts p Hp Hf) as (a & b & Es & Hl & Ha & Hb).
  assert (Forall byte (segment p ++ t)) as Hbs.
  { rewrite Es. apply Forall_app. split; auto. }
  destruct (marker_body_reads m (mkHst d (segment p ++ t)) _ _ Hbs E Hne) as (x & H1 & (a' & b' & r & -> & Hx) & H3).
  cbn [hd_rd hd_dec] in *. rewrite Es in H1 |- *. cbn [app] in H1. injection H1 as <- <- H1.
  destruct (prefix_eq p t r (hd_rd s')) as [-> ->]; auto.
  { unfold zlen in *. cbn [length] in *. lia. }
  split; [reflexivity|]. now destruct u.
Qed.
Definition seg_result (m : Z) (d : decoder) (p t : list Z) := marker_body m (mkHst d (segment p ++ t)).
Definition ok_next (d' : decoder) (t : list Z) (r : res unit * hst) : Prop := r = (Ok tt, mkHst d' t).

Lemma seg_cases m d p t1 t2 : Forall byte p -> fits p -> Forall byte t1 -> Forall byte t2 -> t1 <> [] -> t2 <> [] ->
  (exists d', seg_result m d p t1 = (Ok tt, mkHst d' t1) /\ seg_result m d p t2 = (Ok tt, mkHst d' t2)) \/
  ((fst (seg_result m d p t1) <> Ok tt \/ hd_rd (snd (seg_result m d p t1)) = []) /\
   (fst (seg_result m d p t2) <> Ok tt \/ hd_rd (snd (seg_result m d p t2)) = [])).
Proof.
  intros Hp Hf Ht1 Ht2 Hn1 Hn2.
  destruct (seg_result m d p t1) as [r1 s1] eqn:E1. destruct (seg_result m d p t2) as [r2 s2] eqn:E2. cbn [fst snd].
  assert (forall t r s, Forall byte t -> seg_result m d p t = (r, s) ->
          (r <> Ok tt \/ hd_rd s = []) \/ reads (marker_body m) d tt (hd_dec s) (segment p)) as Hc.
  { intros t r s Ht E. destruct r as [[]| | |]; try (left; left; discriminate).
    destruct (hd_rd s) eqn:Er; [left; now right|]. right.
    apply (full_segment m p t d s tt); auto. rewrite Er. discriminate. }
  destruct (Hc t1 r1 s1 Ht1 E1) as [N1|R1].
  - destruct (Hc t2 r2 s2 Ht2 E2) as [N2|R2]; [right; auto|].
    left. exists (hd_dec s2). rewrite <- E1, <- E2. split; apply R2.
  - left. exists (hd_dec s1). rewrite <- E1, <- E2. split; apply R1.
Qed.

(** * Fuel *)
Lemma header_loop_more : forall f last before s, fst (header_loop f last before s) <> Fuel ->
  header_loop (S f) last before s = header_loop f last before s.
Proof.
  induction f as [|f IH]; intros last before s H; [exfalso; now apply H|].
  rewrite header_loop_eq in H |- *. rewrite header_loop_eq. destruct (hd_rd s) as [|m t]; [reflexivity|].
  cbv zeta in *.
  assert (forall b s1, fst (loop_next f m b s1) <> Fuel -> loop_next (S f) m b s1 = loop_next f m b s1) as Hn.
  { intros b s1. unfold loop_next, bind, getd. destruct (_ && _); [reflexivity|]. apply IH. }
  destruct (last =? 255); [|now apply Hn]. unfold bind in *. destruct (marker_body m _) as [[u| | |] s2]; try reflexivity.
  destruct (m =? 218); [reflexivity|now apply Hn].
Qed.
Lemma header_loop_enough f f' last before s : (f <= f')%nat -> fst (header_loop f last before s) <> Fuel ->
  header_loop f' last before s = header_loop f last before s.
Proof.
  intros Hle. induction Hle as [|g Hle IH]; intros H; [reflexivity|].
  rewrite header_loop_more; [now apply IH|]. rewrite IH; auto.
Qed.
Lemma header_loop_nofuel f last before d rd : hinv d -> Forall byte rd -> (length rd < f)%nat ->
  fst (header_loop f last before (mkHst d rd)) <> Fuel.
Proof.
  intros Hi Hb Hf. pose proof (header_loop_step f last before (mkHst d rd) Hi Hb Hf) as H.
  exact (hs_fuel _ _ _ _ _ H).
Qed.
(** the loop with enough fuel *)
Definition loopz (last before : Z) (d : decoder) (rd : list Z) : res unit * hst :=
  header_loop (S (length rd)) last before (mkHst d rd).
Lemma loopz_fuel f last before d rd : hinv d -> Forall byte rd -> (length rd < f)%nat ->
  header_loop f last before (mkHst d rd) = loopz last before d rd.
Proof.
  intros Hi Hb Hf. unfold loopz. apply header_loop_enough; [lia|]. apply header_loop_nofuel; auto.
Qed.

Lemma hinv_marker m d rd : hinv d -> Forall byte rd -> hinv (hd_dec (snd (marker_body m (mkHst d rd)))).
Proof.
  intros Hi Hb. unfold marker_body. destruct (marker_from_u8 m) as [n|].
  - pose proof (parse_marker_inner_step n (mkHst d rd) Hi Hb) as H. exact (hs_inv _ _ _ _ _ H).
  - pose proof (skip_segment_step "Found a marker with invalid length " (mkHst d rd) Hi Hb) as H. exact (hs_inv _ _ _ _ _ H).
Qed.

Lemma loopz_last255 b1 b2 d rd : loopz 255 b1 d rd = loopz 255 b2 d rd.
Proof. unfold loopz. rewrite !header_loop_eq. reflexivity. Qed.
Lemma loopz_ff last before d rd : hinv d -> Forall byte (255 :: rd) -> last <> 255 -> before <= 2 ->
  loopz last before d (255 :: rd) = loopz 255 0 d rd.
Proof.
  intros Hi Hb Hl Hbf. unfold loopz at 1. rewrite header_loop_eq. cbn [hd_rd hd_dec]. cbv zeta.
  replace (last =? 255) with false by lia. unfold loop_next, bind, getd. cbn [hd_dec].
  replace (3 <? before + 1) with false by lia. rewrite andb_false_r.
  rewrite (loopz_fuel _ 255 (before + 1) d rd Hi); [apply loopz_last255|now inversion Hb|cbn [length]; lia].
Qed.
Lemma loopz_marker m d rd : hinv d -> Forall byte rd -> m <> 218 ->
  loopz 255 0 d (m :: rd) =
  match marker_body m (mkHst d rd) with
  | (Ok _, s) => loopz m 1 (hd_dec s) (hd_rd s)
  | (Err e, s) => (Err e, s)
  | (Panic p, s) => (Panic p, s)
  | (Fuel, s) => (Fuel, s)
  end.
Proof.
  intros Hi Hb Hm. unfold loopz at 1. rewrite header_loop_eq. cbn [hd_rd hd_dec]. cbv zeta.
  replace (255 =? 255) with true by reflexivity. unfold bind.
  pose proof (hinv_marker m d rd Hi Hb) as Hi'.
  assert (suffix (hd_rd (snd (marker_body m (mkHst d rd)))) rd) as Hs.
  { unfold marker_body. destruct (marker_from_u8 m) as [n|].
    - pose proof (parse_marker_inner_step n (mkHst d rd) Hi Hb) as H. exact (hs_suf _ _ _ _ _ H).
    - pose proof (skip_segment_step "Found a marker with invalid length " (mkHst d rd) Hi Hb) as H. exact (hs_suf _ _ _ _ _ H). }
  destruct (marker_body m (mkHst d rd)) as [[u|e|p|] s]; cbn [snd] in *; try reflexivity.
  replace (m =? 218) with false by lia. unfold loop_next, bind, getd.
  replace (3 <? 0 + 1) with false by reflexivity. rewrite andb_false_r. destruct s as [d1 r1]. cbn [hd_dec hd_rd] in *.
  apply loopz_fuel; auto.
  - exact (suffix_Forall byte _ _ Hs Hb).
  - apply suffix_len in Hs. cbn [length]. lia.
Qed.

(** * Several segments *)
Lemma mseg_Forall l : Forall header_seg l -> Forall byte (msegs_bytes l).
Proof.
  induction 1 as [|s l (H1 & _ & _ & H2 & H3) _ IH]; [constructor|]. cbn [msegs_bytes flat_map].
  unfold mseg_bytes. destruct (header_seg_parts _ H2 H3) as (a & b & -> & _ & Ha & Hb).
  cbn [app]. constructor; [unfold byte; lia|]. constructor; [exact H1|]. constructor; [exact Ha|]. constructor; [exact Hb|].
  apply Forall_app. split; auto.
Qed.
Lemma segment_app p t : Forall byte p -> fits p -> Forall byte t -> Forall byte (segment p ++ t).
Proof.
  intros Hp Hf Ht. destruct (header_seg_parts _ Hp Hf) as (a & b & -> & _ & Ha & Hb).
  apply Forall_app. split; auto.
Qed.
Lemma msegs_cons m p l (t : list Z) :
  (msegs_bytes ((m, p) :: l) ++ t = 255 :: m :: segment p ++ (msegs_bytes l ++ t))%list.
Proof. unfold msegs_bytes. cbn [flat_map]. unfold mseg_bytes at 1. cbn [fst snd app]. now rewrite <- app_assoc. Qed.
Lemma msegs_app a b : (msegs_bytes (a ++ b) = msegs_bytes a ++ msegs_bytes b)%list.
Proof. apply flat_map_app. Qed.
Definition no_ok (r : res unit * hst) : Prop := fst r <> Ok tt.
Lemma loopz_nil l b d : no_ok (loopz l b d []).
Proof. unfold loopz. rewrite header_loop_eq. cbn [hd_rd]. discriminate. Qed.

(** one segment in the loop *)
Lemma loopz_seg last before m p d t : hinv d -> Forall byte p -> fits p -> byte m -> m <> 255 -> m <> 218 ->
  Forall byte t -> last <> 255 -> before <= 2 ->
  loopz last before d (255 :: m :: segment p ++ t) =
  match seg_result m d p t with
  | (Ok _, s) => loopz m 1 (hd_dec s) (hd_rd s)
  | (Err e, s) => (Err e, s)
  | (Panic p, s) => (Panic p, s)
  | (Fuel, s) => (Fuel, s)
  end.
Proof.
  intros Hi Hp Hf Hm Hm1 Hm2 Ht Hl Hbf. pose proof (segment_app p t Hp Hf Ht) as Hs.
  rewrite loopz_ff; auto.
  - now apply loopz_marker.
  - constructor; [unfold byte; lia|]. now constructor.
Qed.

Lemma items_cases (Q : decoder -> decoder -> Prop) : (forall d, Q d d) ->
  (forall a b c, Q a b -> Q b c -> Q a c) ->
  forall l, Forall header_seg l ->
  (forall s d t, In s l -> Forall byte t -> Q d (hd_dec (snd (marker_body (fst s) (mkHst d t))))) ->
  forall last before d t1 t2, hinv d -> last <> 255 -> before <= 2 ->
  Forall byte t1 -> Forall byte t2 -> t1 <> [] -> t2 <> [] ->
  (exists d' last' before', hinv d' /\ last' <> 255 /\ before' <= 2 /\ Q d d' /\
     loopz last before d (msegs_bytes l ++ t1) = loopz last' before' d' t1 /\
     loopz last before d (msegs_bytes l ++ t2) = loopz last' before' d' t2) \/
  (no_ok (loopz last before d (msegs_bytes l ++ t1)) /\ no_ok (loopz last before d (msegs_bytes l ++ t2))).
Proof.
  intros Qr Qt. induction 1 as [|[m p] l (Hm & Hm1 & Hm2 & Hp & Hf) Hl IH];
    intros HQ last before d t1 t2 Hi Hla Hbe Ht1 Ht2 Hn1 Hn2; cbn [fst snd] in *.
  { left. exists d, last, before. auto 10. }
  rewrite !msegs_cons.
  pose proof (mseg_Forall l Hl) as Hbl.
  assert (Forall byte (msegs_bytes l ++ t1)) as Hb1 by (apply Forall_app; auto).
  assert (Forall byte (msegs_bytes l ++ t2)) as Hb2 by (apply Forall_app; auto).
  rewrite !(loopz_seg last before m p); auto.
  assert (forall (t : list Z), t <> [] -> (msegs_bytes l ++ t)%list <> []) as Hne.
  { intros t Ht E. apply app_eq_nil in E. tauto. }
  destruct (seg_cases m d p _ _ Hp Hf Hb1 Hb2 (Hne _ Hn1) (Hne _ Hn2)) as [(d' & E1 & E2)|[N1 N2]].
  - rewrite E1, E2. cbn [hd_dec hd_rd].
    assert (hinv d') as Hi'.
    { pose proof (hinv_marker m d _ Hi (segment_app _ _ Hp Hf Hb1)) as H.
      unfold seg_result in E1. rewrite E1 in H. exact H. }
    assert (Q d d') as HQd.
    { pose proof (HQ (m, p) d _ (or_introl eq_refl) (segment_app _ _ Hp Hf Hb1)) as H.
      unfold seg_result in E1. cbn [fst] in H. rewrite E1 in H. exact H. }
    destruct (IH (fun s d t Hs => HQ s d t (or_intror Hs)) m 1 d' t1 t2) as [(d2 & l2 & b2 & H1 & H2 & H3 & H4 & H5 & H6)|H]; auto; try lia.
    left. exists d2, l2, b2. refine (conj H1 (conj H2 (conj H3 (conj (Qt _ _ _ HQd H4) (conj H5 H6))))).
  - right. split.
    + destruct (seg_result m d p _) as [[[]| | |] s]; cbn [fst snd] in N1; unfold no_ok; try discriminate.
      destruct N1 as [N1|N1]; [congruence|]. rewrite N1. apply loopz_nil.
    + destruct (seg_result m d p (msegs_bytes l ++ t2)) as [[[]| | |] s]; cbn [fst snd] in N2; unfold no_ok; try discriminate.
      destruct N2 as [N2|N2]; [congruence|]. rewrite N2. apply loopz_nil.
Qed.

(** * C12 *)
Lemma skippable_body a s : skippable a -> exists msg, marker_body a s = skip_segment msg s.
Proof.
  intros Ha. unfold marker_body. destruct (marker_from_u8 a) as [n|] eqn:E; [|eexists; reflexivity].
  assert (n = COM \/ n = APP 0 \/ n = APP 1 \/ n = APP 14) as Hn.
  { unfold skippable in Ha. unfold marker_from_u8 in E. destruct a as [|p|p]; try discriminate.
    repeat (destruct p as [p|p|]; try discriminate; try (injection E as <-; auto; lia)). }
  destruct Hn as [->|[->|[->| ->]]]; eexists; reflexivity.
Qed.
Lemma decode_headers_soi d t : decode_headers (mkHst d (255 :: 216 :: t)) = loopz 0 0 d t.
Proof. reflexivity. Qed.

Lemma insert_headers d l a q t : hinv d -> Forall header_seg l -> skippable a -> Forall byte q -> fits q ->
  Forall byte (255 :: t) ->
  let f := (255 :: 216 :: msegs_bytes l ++ 255 :: t)%list in
  let f' := (255 :: 216 :: msegs_bytes l ++ mseg_bytes (a, q) ++ 255 :: t)%list in
  decode_headers (mkHst d f) = decode_headers (mkHst d f') \/
  (no_ok (decode_headers (mkHst d f)) /\ no_ok (decode_headers (mkHst d f'))).
Proof.
  intros Hi Hl Ha Hq Hf Ht. cbv zeta. rewrite !decode_headers_soi.
  assert (byte a /\ a <> 255 /\ a <> 218) as (Ha1 & Ha2 & Ha3) by (unfold skippable, byte in *; lia).
  assert (Forall byte (mseg_bytes (a, q) ++ 255 :: t)) as Ht2.
  { unfold mseg_bytes. cbn [fst snd app]. constructor; [unfold byte; lia|]. constructor; [exact Ha1|]. now apply segment_app. }
  destruct (items_cases (fun _ _ => True) (fun _ => I) (fun _ _ _ _ _ => I) l Hl (fun _ _ _ _ _ => I)
              0 0 d (255 :: t) (mseg_bytes (a, q) ++ 255 :: t) Hi ltac:(lia) ltac:(lia) Ht Ht2 ltac:(discriminate) ltac:(discriminate))
    as [(d' & l' & b' & H1 & H2 & H3 & _ & -> & ->)|H]; [|now right].
  left. unfold mseg_bytes. cbn [fst snd app]. rewrite (loopz_seg l' b' a q); auto.
  unfold seg_result. destruct (skippable_body a (mkHst d' (segment q ++ 255 :: t)) Ha) as [msg ->].
  destruct (header_seg_parts q Hq Hf) as (x & y & -> & Hxy & _). cbn [app]. rewrite skip_reads by exact Hxy.
  cbn [hd_dec hd_rd]. rewrite !loopz_ff; auto; lia.
Qed.
Lemma decode_internal_headers s s' : decode_headers s = decode_headers s' -> decode_internal s = decode_internal s'.
Proof. intros H. unfold decode_internal, bind. now rewrite H. Qed.
Lemma decode_internal_no_ok s : no_ok (decode_headers s) -> forall px, fst (decode_internal s) <> Ok px.
Proof.
  unfold no_ok. intros H px. unfold decode_internal, bind. destruct (decode_headers s) as [[[]| | |] s1]; try discriminate.
  exfalso. now apply H.
Qed.
Lemma C12_lemma cpu o cs l a q t : Forall legal_call cs -> Forall header_seg l ->
  skippable a -> Forall byte q -> fits q -> Forall byte t ->
  let d := after cpu o cs in
  let f := ([255; 216] ++ msegs_bytes l ++ 255 :: t)%list in
  let f' := ([255; 216] ++ msegs_bytes l ++ mseg_bytes (a, q) ++ 255 :: t)%list in
  (read_headers d f = read_headers d f' /\ decode_buffer d f = decode_buffer d f') \/
  (forall px, fst (read_headers d f) <> Ok tt /\ fst (read_headers d f') <> Ok tt /\
              fst (decode_buffer d f) <> Ok px /\ fst (decode_buffer d f') <> Ok px).
Proof.
  intros Hc Hl Ha Hq Hf Ht. cbv zeta. cbn [app].
  assert (Forall byte (255 :: t)) as Ht' by (constructor; [unfold byte; lia|auto]).
  pose proof (insert_headers (after cpu o cs) l a q t (after_inv cpu o cs Hc) Hl Ha Hq Hf Ht') as H. cbv zeta in H.
  unfold read_headers, decode_buffer. rewrite !on_buffer_eq. cbn [fst].
  destruct H as [H|[H1 H2]].
  - left. rewrite (decode_internal_headers _ _ H), H. auto.
  - right. intros px. repeat split; auto; now apply decode_internal_no_ok.
Qed.

(** * C07 *)
Lemma keeps_dqt_loop : forall f len, keeps (fun s => d_info (hd_dec s)) (dqt_loop f len).
Proof.
  induction f; intros len; cbn [dqt_loop]; ksteps; try apply IHf; try (apply keeps_modd; reflexivity); apply keeps_exact.
Qed.
Lemma keeps_marker_info n : (forall v, n <> SOF v) -> keeps (fun s => d_info (hd_dec s)) (parse_marker_inner n).
Proof.
  intros H. destruct n; try (exfalso; eapply H; reflexivity); cbn [parse_marker_inner];
    try (unfold skip_segment; ksteps; try apply keeps_consume).
  - apply (keeps_parse_huffman d_info untouched_info).
  - apply (keeps_parse_sos d_info untouched_info).
  - unfold parse_dqt. ksteps. apply keeps_dqt_loop.
Qed.
Lemma marker_sof m v : marker_from_u8 m = Some (SOF v) -> (m = 192 /\ v = 0) \/ (m = 194 /\ v = 2).
Proof.
  unfold marker_from_u8. intros E. destruct m as [|p|p]; try discriminate.
  repeat (destruct p as [p|p|]; try discriminate; try (injection E as <-; auto; lia)).
Qed.
Lemma marker_body_info m d t : m <> 192 -> m <> 194 ->
  d_info (hd_dec (snd (marker_body m (mkHst d t)))) = d_info d.
Proof.
  intros H1 H2. unfold marker_body. destruct (marker_from_u8 m) as [n|] eqn:E.
  - refine (keeps_marker_info n _ (mkHst d t)). intros v ->. apply marker_sof in E. lia.
  - unfold skip_segment. assert (keeps (fun s => d_info (hd_dec s)) (skip_segment "Found a marker with invalid length ")) as K.
    { unfold skip_segment. ksteps; try apply keeps_consume. }
    exact (K (mkHst d t)).
Qed.
Definition frame_info (sof : sofmarker) (h w n : Z) (i : info) : info :=
  set_i_sof sof (set_i_comps n (set_i_width w (set_i_height h (set_i_density 8 i)))).
Lemma keeps_read_components : forall n, keeps (fun s => d_info (hd_dec s)) (read_components n).
Proof. induction n; cbn [read_components]; ksteps; auto; try apply keeps_exact. Qed.
Lemma keeps_sof_components : forall cs, keeps (fun s => d_info (hd_dec s)) (sof_components cs).
Proof.
  induction cs as [|c cs IH]; cbn [sof_components]; ksteps; auto;
  try (apply keeps_modd). intros d. apply sof_geometry_same.
Qed.
Lemma sof_info sof d a b h1 h2 w1 w2 n rest u s' :
  parse_start_of_frame sof (mkHst d (a :: b :: 8 :: h1 :: h2 :: w1 :: w2 :: n :: rest)) = (Ok u, s') ->
  d_info (hd_dec s') = frame_info sof (h1 * 256 + h2) (w1 * 256 + w2) n (d_info d) /\
  h1 * 256 + h2 <> 0 /\ w1 * 256 + w2 <> 0 /\ n <> 0.
Proof.
  unfold parse_start_of_frame. unfold bind at 1, map_err at 1, rd_u16 at 1. cbn [hd_rd hd_dec].
  unfold bind at 1, rd_byte at 1. cbn [hd_rd hd_dec]. change (negb (8 =? 8)) with false. cbv iota.
  unfold bind at 1, modd at 1. cbn [hd_rd hd_dec].
  unfold bind at 1, map_err at 1, rd_u16 at 1. cbn [hd_rd hd_dec].
  unfold bind at 1, modd at 1. cbn [hd_rd hd_dec].
  unfold bind at 1, map_err at 1, rd_u16 at 1. cbn [hd_rd hd_dec].
  unfold bind at 1, modd at 1. cbn [hd_rd hd_dec].
  unfold bind at 1, getd at 1. cbn [hd_rd hd_dec].
  destruct (_ <? _); [discriminate|]. destruct (_ <? _); [discriminate|]. destruct (_ || _) eqn:Ez; [discriminate|].
  unfold bind at 1, rd_byte at 1. cbn [hd_rd hd_dec]. destruct (n =? 0) eqn:En; [discriminate|].
  cbv zeta. destruct (negb _); [discriminate|].
  match goal with |- context [bind (if n =? 1 then _ else _) _ ?s] => set (s0 := s) end.
  unfold bind at 1.
  assert (exists s1, (if n =? 1
       then modd (fun d => set_d_opt (set_out_colorspace (d_opt d) GRAYSCALE)
                                     (set_d_incs GRAYSCALE d))
       else ret tt) s0 = (Ok tt, s1) /\ d_info (hd_dec s1) = d_info (hd_dec s0)) as (s1 & -> & Hs1).
  { destruct (n =? 1); eexists; split; reflexivity. }
  unfold bind at 1, modd at 1. match goal with |- context [bind (read_components _) _ ?s] => set (s2 := s) end.
  unfold bind at 1. pose proof (keeps_read_components (Z.to_nat n) s2) as K. cbv beta in K.
  destruct (read_components (Z.to_nat n) s2) as [[cs| | |] s3]; try discriminate. cbn [snd] in K.
  unfold bind at 1, modd at 1. match goal with |- context [bind (sof_components _) _ ?s] => set (s4 := s) end.
  unfold bind at 1. pose proof (keeps_sof_components cs s4) as K2. cbv beta in K2.
  destruct (sof_components cs s4) as [[cs'| | |] s5]; try discriminate. cbn [snd] in K2.
  unfold modd. intros E. injection E as _ <-. cbn [hd_dec]. dsimp. split; [|split; [|split]].
  - rewrite K2. subst s4. cbn [hd_dec]. dsimp. rewrite K. subst s2. cbn [hd_dec]. dsimp. rewrite Hs1. subst s0.
    cbn [hd_dec]. dsimp. reflexivity.
  - lia.
  - lia.
  - lia.
Qed.

Lemma items_one (Q : decoder -> decoder -> Prop) l last before d t : (forall d, Q d d) ->
  (forall a b c, Q a b -> Q b c -> Q a c) -> Forall header_seg l ->
  (forall s d t, In s l -> Forall byte t -> Q d (hd_dec (snd (marker_body (fst s) (mkHst d t))))) ->
  hinv d -> last <> 255 -> before <= 2 -> Forall byte t -> t <> [] ->
  fst (loopz last before d (msegs_bytes l ++ t)) = Ok tt ->
  exists d' last' before', hinv d' /\ last' <> 255 /\ before' <= 2 /\ Q d d' /\
    loopz last before d (msegs_bytes l ++ t) = loopz last' before' d' t.
Proof.
  intros Qr Qt Hl HQ Hi Hla Hbe Ht Hn E.
  destruct (items_cases Q Qr Qt l Hl HQ last before d t t Hi Hla Hbe Ht Ht Hn Hn)
    as [(d' & l' & b' & H1 & H2 & H3 & H4 & H5 & _)|[H _]].
  - exists d', l', b'. auto 10.
  - exfalso. now apply H.
Qed.
Lemma loopz_sos last before d t : hinv d -> Forall byte t -> last <> 255 -> before <= 2 ->
  fst (loopz last before d (255 :: 218 :: t)) = Ok tt ->
  d_info (hd_dec (snd (loopz last before d (255 :: 218 :: t)))) = d_info d /\ i_comps (d_info d) <> 0.
Proof.
  intros Hi Ht Hl Hb. rewrite loopz_ff; auto; [|repeat constructor; unfold byte; auto; lia].
  unfold loopz. rewrite header_loop_eq. cbn [hd_rd hd_dec]. cbv zeta. change (255 =? 255) with true. cbv iota.
  unfold bind. change (marker_body 218) with parse_sos. change (218 =? 218) with true. cbv iota.
  destruct (parse_sos (mkHst d t)) as [[u| | |] s] eqn:E; try discriminate. intros _. cbn [ret fst snd].
  destruct (parse_sos_frame _ _ _ E) as [H1 H2]. unfold ret. cbn [snd hd_dec] in *. rewrite <- H2. auto.
Qed.
Lemma info_not_default i : 0 < i_width i -> info_eqb i default_info = false.
Proof. intros H. unfold info_eqb. replace (i_width i =? i_width default_info) with false; [reflexivity|]. cbn. lia. Qed.

Lemma flat3_length (comps : list (Z * Z * Z)) :
  length (flat_map (fun c => [fst (fst c); snd (fst c); snd c]) comps) = (3 * length comps)%nat.
Proof. induction comps as [|c cs IH]; cbn [flat_map length app]; [reflexivity|]. rewrite IH. lia. Qed.
Lemma flat3_byte (comps : list (Z * Z * Z)) : Forall comp_bytes comps ->
  Forall byte (flat_map (fun c => [fst (fst c); snd (fst c); snd c]) comps).
Proof. induction 1 as [|c cs (H1 & H2 & H3) _ IH]; cbn [flat_map app]; auto. Qed.

Lemma C07_lemma cpu o cs l1 l2 m h w comps t d' : Forall legal_call cs ->
  Forall header_seg l1 -> Forall header_seg l2 ->
  Forall (fun s => ~ is_frame s) l1 -> Forall (fun s => ~ is_frame s) l2 ->
  (m = 192 \/ m = 194) -> 0 <= h <= 65535 -> 0 <= w <= 65535 -> blen comps <= 255 ->
  Forall comp_bytes comps -> Forall byte t ->
  read_headers (after cpu o cs)
    ([255; 216] ++ msegs_bytes (l1 ++ (m, frame_payload h w comps) :: l2) ++ [255; 218] ++ t) = (Ok tt, d') ->
  exists i, get_info d' = Some i /\ i_width i = w /\ i_height i = h /\ i_comps i = blen comps /\
    i_sof i = (if m =? 192 then BaselineDct else ProgressiveDctHuffman).
Proof.
  intros Hc Hl1 Hl2 Hn1 Hn2 Hm Hh Hw Hk Hcb Ht E. cbn [app] in E.
  unfold read_headers in E. rewrite on_buffer_eq, decode_headers_soi in E.
  set (fp := frame_payload h w comps) in *.
  assert (Forall byte fp /\ fits fp) as [Hfb Hff].
  { subst fp. unfold frame_payload, be16, fits, blen in *. cbn [app length]. rewrite flat3_length. split.
    - pose proof (flat3_byte comps Hcb). unfold byte in *. repeat (constructor; [lia|]). assumption.
    - lia. }
  assert (Forall byte (msegs_bytes l2 ++ 255 :: 218 :: t)) as Hb2.
  { apply Forall_app. split; [now apply mseg_Forall|]. repeat constructor; unfold byte; auto; lia. }
  rewrite msegs_app, <- app_assoc, msegs_cons in E. apply pair_equal_spec in E. destruct E as [E1 E2].
  assert (Forall byte (255 :: m :: segment fp ++ msegs_bytes l2 ++ 255 :: 218 :: t)) as Hb3.
  { constructor; [unfold byte; lia|]. constructor; [unfold byte; lia|]. now apply segment_app. }
  assert (forall l : list mseg, Forall (fun s => ~ is_frame s) l ->
    forall s d t, In s l -> Forall byte t -> d_info d = d_info (hd_dec (snd (marker_body (fst s) (mkHst d t))))) as HQ.
  { intros l Hl s d t' Hs _. rewrite Forall_forall in Hl. specialize (Hl s Hs). unfold is_frame in Hl. symmetry.
    apply marker_body_info; tauto. }
  destruct (items_one (fun a b => d_info a = d_info b) l1 0 0 (after cpu o cs) _ (fun _ => eq_refl)
    (fun a b c H1 H2 => eq_trans H1 H2) Hl1 (HQ l1 Hn1) (after_inv cpu o cs Hc) ltac:(lia) ltac:(lia) Hb3 ltac:(discriminate) E1)
    as (d1 & la1 & be1 & Hi1 & Hla1 & Hbe1 & _ & EL1).
  rewrite EL1 in E1, E2. clear EL1.
  rewrite loopz_seg in E1, E2; auto; try lia; try (unfold byte; lia).
  destruct (seg_result m d1 fp _) as [[u| | |] s1] eqn:Es; try discriminate.
  assert (hd_rd s1 <> []) as Hne by (intros Hz; rewrite Hz in E1; now apply loopz_nil in E1).
  pose proof (hinv_marker m d1 _ Hi1 (segment_app fp _ Hfb Hff Hb2)) as Hi2. unfold seg_result in Es. rewrite Es in Hi2. cbn [snd] in Hi2.
  destruct (full_segment m fp _ d1 s1 u Hfb Hff Hb2 Hne Es) as [Hrd _]. rewrite Hrd in E1, E2.
  destruct (items_one (fun a b => d_info a = d_info b) l2 m 1 (hd_dec s1) _ (fun _ => eq_refl)
    (fun a b c H1 H2 => eq_trans H1 H2) Hl2 (HQ l2 Hn2) Hi2 ltac:(lia) ltac:(lia)
    ltac:(apply Forall_app in Hb2; apply Hb2) ltac:(discriminate) E1)
    as (d2 & la2 & be2 & Hi3 & Hla2 & Hbe2 & HQ2 & EL2).
  rewrite EL2 in E1, E2. clear EL2.
  destruct (loopz_sos la2 be2 d2 t Hi3 Ht Hla2 Hbe2 E1) as [HQ3 _]. rewrite E2, <- HQ2 in HQ3.
  set (sof := if m =? 192 then BaselineDct else ProgressiveDctHuffman) in *.
  assert (exists d0 x y rest, parse_start_of_frame sof (mkHst d0 (x :: y :: 8 :: h / 256 :: h mod 256 :: w / 256 :: w mod 256 :: blen comps :: rest))
          = (Ok u, s1)) as (d0 & x & y & rest & Hsof).
  { destruct Hm as [-> | ->].
    - exists d1. do 3 eexists. exact Es.
    - exists (set_d_prog true d1). do 3 eexists. exact Es. }
  apply sof_info in Hsof. destruct Hsof as (Hinfo & Hh0 & Hw0 & _).
  rewrite Hinfo in HQ3. replace (h / 256 * 256 + h mod 256) with h in * by lia. replace (w / 256 * 256 + w mod 256) with w in * by lia.
  exists (d_info d'). unfold get_info. rewrite info_not_default; [|rewrite HQ3; cbn; lia].
  split; [reflexivity|]. rewrite HQ3. cbn. auto.
Qed.

(** * C42: no frame header, no image *)
Lemma C42_lemma cpu o l t : Forall header_seg l -> Forall (fun s => ~ is_frame s) l -> Forall byte t ->
  let f := ([255; 216] ++ msegs_bytes l ++ [255; 218] ++ t)%list in
  fst (read_headers (new_with_options cpu o) f) <> Ok tt /\
  forall px, fst (decode_buffer (new_with_options cpu o) f) <> Ok px.
Proof.
  intros Hl Hn Ht. cbv zeta. cbn [app].
  assert (no_ok (decode_headers (mkHst (new_with_options cpu o) (255 :: 216 :: msegs_bytes l ++ 255 :: 218 :: t)))) as H.
  { rewrite decode_headers_soi. intros E.
    assert (Forall byte (255 :: 218 :: t)) as Hb by (repeat constructor; unfold byte; auto; lia).
    destruct (items_one (fun a b => d_info a = d_info b) l 0 0 (new_with_options cpu o) _ (fun _ => eq_refl)
      (fun a b c H1 H2 => eq_trans H1 H2) Hl
      ltac:(intros s d t' Hs _; rewrite Forall_forall in Hn; specialize (Hn s Hs); unfold is_frame in Hn; symmetry;
            apply marker_body_info; tauto)
      (hinv_new cpu o) ltac:(lia) ltac:(lia) Hb ltac:(discriminate) E)
      as (d1 & la & be & Hi & Hla & Hbe & HQ & EL).
    rewrite EL in E. apply loopz_sos in E; auto. destruct E as [_ E]. rewrite <- HQ in E. now apply E. }
  unfold read_headers, decode_buffer. rewrite !on_buffer_eq. split; [exact H|].
  cbn [fst]. now apply decode_internal_no_ok.
Qed.

(** * C13: fill bytes between the scans of a progressive image *)
Lemma scan_fill k m t : m <> 0 -> m <> 255 -> scan_marker (repeat 255 k ++ m :: t) true = (marker_from_u8 m, t).
Proof.
  intros H0 H1. induction k; cbn [repeat app scan_marker].
  - replace (m =? 255) with false by lia. now replace (m =? 0) with false by lia.
  - exact IHk.
Qed.
Lemma C13_lemma d st buf k m t : b_marker st = None -> b_rd st = repeat 255 (S k) ++ m :: t -> m <> 0 -> m <> 255 ->
  get_marker (mkPst d st buf) = (Ok (marker_from_u8 m), mkPst d (set_rd st t) buf).
Proof.
  intros Hm Hr H0 H1. unfold get_marker. cbn [p_st p_dec p_buf]. rewrite Hm, Hr. cbn [repeat app scan_marker].
  change (255 =? 255) with true. now rewrite scan_fill.
Qed.
