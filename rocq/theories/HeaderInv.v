(** An invariant of the decoder between and during calls: what the header parser guarantees
    about the state on arbitrary bytes, whatever the outcome. *)
From Coq Require Import ZArith String List Bool Lia.
From Coq Require Import ZifyBool ZifyNat ZifyN.
From Verif Require Import Base Types Huffman State Bitstream Headers BaseFacts HeaderFacts
  SpecHuffman SpecBits SpecSegments Obs HuffmanProofs TableSegments BlockSafe.
Import ListNotations.
Local Open Scope Z_scope.
Local Open Scope m_scope.
Ltac Zify.zify_post_hook ::= Z.div_mod_to_equations.

Definition opt_all {A} (P : A -> Prop) (o : option A) : Prop :=
  match o with Some a => P a | None => True end.

Record comp_ok (c : component) : Prop := {
  co_h : 1 <= c_h c <= 8;
  co_v : 1 <= c_v c <= 8;
  co_dct : 0 <= c_dct c <= 15;
  co_act : 0 <= c_act c <= 15;
  co_qt : zlen (c_qt c) = 64 /\ Forall byte (c_qt c);
  co_stride : 0 <= c_stride c;
  co_id : 1 <= c_id c <= 3 }.

Definition dc_ok (t : hufftable) : Prop := shape sym_dc t.
Definition ac_ok (t : hufftable) : Prop := shape sym_ac t /\ h_ac_lookup t <> None.
Definition qt_ok (q : list Z) : Prop := zlen q = 64 /\ Forall byte q.

Record tabs_ok (d : decoder) : Prop := {
  hi_dc4 : length (d_dcts d) = 4%nat;
  hi_dc : Forall (opt_all dc_ok) (d_dcts d);
  hi_ac4 : length (d_acts d) = 4%nat;
  hi_ac : Forall (opt_all ac_ok) (d_acts d);
  hi_qt4 : length (d_qt d) = 4%nat;
  hi_qt : Forall (opt_all qt_ok) (d_qt d) }.

(** [comp_ok] holds of the components until [finish_setup] changes their shape *)
Record comp_okw (c : component) : Prop := {
  cw_h : 0 <= c_h c;
  cw_v : 1 <= c_v c <= 8;
  cw_dct : 0 <= c_dct c <= 15;
  cw_act : 0 <= c_act c <= 15;
  cw_qt : zlen (c_qt c) = 64 /\ Forall byte (c_qt c);
  cw_stride : 0 <= c_stride c;
  cw_id : 1 <= c_id c <= 3 }.

Record nums_ok (d : decoder) : Prop := {
  hi_ss : 0 <= d_ss d <= 63;
  hi_se : 0 <= d_se d <= 63;
  hi_ah : 0 <= d_ah d <= 15;
  hi_al : 0 <= d_al d <= 15;
  hi_nscans : 0 <= d_nscans d <= 255;
  hi_zo4 : length (d_zorder d) = 4%nat;
  hi_zo : Forall (fun j => 0 <= j) (d_zorder d);
  hi_hmax : 1 <= d_hmax d <= 8;
  hi_vmax : 1 <= d_vmax d <= 8;
  hi_mcux : 0 <= d_mcux d;
  hi_mcuy : 0 <= d_mcuy d;
  hi_ri : 0 <= d_ri d <= 65535;
  hi_todo : 0 <= d_todo d < 2 ^ 64;
  hi_w : 0 <= i_width (d_info d) <= 65535;
  hi_hgt : 0 <= i_height (d_info d) <= 65535;
  hi_comps : 0 <= i_comps (d_info d) <= 255 }.

Definition hinv (d : decoder) : Prop :=
  tabs_ok d /\ nums_ok d /\ Forall comp_okw (d_comps d).

(** What holds in addition while a call runs that began with a new decoder *)
Definition lim (d : decoder) : Prop :=
  i_comps (d_info d) <> 0 ->
  0 < i_width (d_info d) <= o_max_width (d_opt d) /\
  0 < i_height (d_info d) <= o_max_height (d_opt d).
Definition good (d : decoder) : Prop :=
  i_comps (d_info d) = zlen (d_comps d) /\ lim d /\ Forall comp_ok (d_comps d).

(** What no header function changes *)
Definition gray_rel (d d' : decoder) : Prop :=
  i_comps (d_info d') = 1 ->
  o_colorspace (d_opt d') = GRAYSCALE \/
  (i_comps (d_info d) = 1 /\ o_colorspace (d_opt d') = o_colorspace (d_opt d)).
Definition frame_rel (d d' : decoder) : Prop :=
  i_comps (d_info d) <> 0 -> i_comps (d_info d') <> 0.
Definition prog_rel (d d' : decoder) : Prop :=
  (d_prog d = true -> d_prog d' = true) /\
  (i_sof (d_info d') = ProgressiveDctHuffman ->
   d_prog d' = true \/ i_sof (d_info d) = ProgressiveDctHuffman).
Definition same_setup (d d' : decoder) : Prop :=
  d_opt d' = set_out_colorspace (d_opt d) (o_colorspace (d_opt d')) /\
  d_isa d' = d_isa d /\ d_idct d' = d_idct d /\ d_cc d' = d_cc d /\ gray_rel d d' /\ frame_rel d d' /\
  prog_rel d d'.
Lemma same_setup_refl d : same_setup d d.
Proof. repeat split; [now destruct (d_opt d)| | | |]; intros H; auto. Qed.
Lemma same_setup_trans a b c : same_setup a b -> same_setup b c -> same_setup a c.
Proof.
  intros (A1 & A2 & A3 & A4 & A5 & A6 & A7 & A8) (B1 & B2 & B3 & B4 & B5 & B6 & B7 & B8). repeat split; try congruence.
  - rewrite B1, A1. reflexivity.
  - intros H. destruct (B5 H) as [?|[H1 E]]; [now left|].
    destruct (A5 H1) as [?|[H2 E2]]; [left|right; split]; congruence.
  - intros H. apply B6, A6, H.
  - auto.
  - intros H. destruct (B8 H) as [?|H1]; [now left|]. destruct (A8 H1); auto.
Qed.

Definition bytes (s : hst) : Prop := Forall byte (hd_rd s).

(** The specification of a header step: [P] for what a successful run returns *)
Record hstepG (G : decoder -> Prop) {A} (P : A -> hst -> Prop) (s : hst) (r : res A) (s' : hst) : Prop := {
  hs_inv : hinv (hd_dec s');
  hs_suf : suffix (hd_rd s') (hd_rd s);
  hs_fuel : r <> Fuel;
  hs_setup : same_setup (hd_dec s) (hd_dec s');
  hs_panic : G (hd_dec s) -> forall p, r = Panic p -> 4 <= i_comps (d_info (hd_dec s'));
  hs_good : G (hd_dec s) -> forall a, r = Ok a -> G (hd_dec s');
  hs_ok : forall a, r = Ok a -> P a s' }.

Lemma hstep_bind {G : decoder -> Prop} {A B} (m : M hst A) (k : A -> M hst B) P Q s :
  hinv (hd_dec s) -> bytes s ->
  wp m s (hstepG G P s) ->
  (forall a s', hinv (hd_dec s') -> bytes s' -> suffix (hd_rd s') (hd_rd s) ->
     same_setup (hd_dec s) (hd_dec s') -> P a s' -> wp (k a) s' (hstepG G Q s')) ->
  wp (bind m k) s (hstepG G Q s).
Proof.
  intros Hi Hb Hm Hk. unfold wp, bind in *. destruct (m s) as [r s1]. cbn [fst snd] in Hm.
  destruct Hm as [I1 S1 F1 U1 P1 G1 O1].
  destruct r as [a|e|p|]; cbn [fst snd].
  - assert (bytes s1) as Hb1 by (eapply suffix_Forall; eauto).
    specialize (Hk a s1 I1 Hb1 S1 U1 (O1 a eq_refl)). destruct (k a s1) as [r2 s2]. cbn [fst snd] in *.
    destruct Hk as [I2 S2 F2 U2 P2 G2 O2]. split; auto.
    + eapply suffix_trans; eauto.
    + eapply same_setup_trans; eauto.
    + intros Hg. apply P2. eauto.
    + intros Hg. apply G2. eauto.
  - split; auto; try discriminate.
  - split; auto; try discriminate. intros Hg q _. exact (P1 Hg p eq_refl).
  - congruence.
Qed.

Lemma hstep_mono {G : decoder -> Prop} {A} (P Q : A -> hst -> Prop) (m : M hst A) s :
  wp m s (hstepG G P s) -> (forall a s', P a s' -> Q a s') -> wp m s (hstepG G Q s).
Proof.
  intros H HPQ. eapply wp_mono; [exact H|]. intros r s' [I1 S1 F1 U1 P1 G1 O1]. split; auto.
Qed.

(** Primitive steps that leave the decoder alone *)
Lemma hstep_same {G : decoder -> Prop} {A} (P : A -> hst -> Prop) s r rd :
  hinv (hd_dec s) -> suffix rd (hd_rd s) -> r <> Fuel -> (forall p, r <> Panic p) ->
  (forall a, r = Ok a -> P a (mkHst (hd_dec s) rd)) ->
  hstepG G P s r (mkHst (hd_dec s) rd).
Proof.
  intros Hi Hs Hf Hp HP. split; dsimp; auto.
  - apply same_setup_refl.
  - intros _ p E. now apply Hp in E.
Qed.
Lemma hst_eta s : s = mkHst (hd_dec s) (hd_rd s).
Proof. now destruct s. Qed.

Lemma hstep_ret {G : decoder -> Prop} {A} (a : A) (P : A -> hst -> Prop) s : hinv (hd_dec s) -> P a s ->
  wp (ret a) s (hstepG G P s).
Proof.
  intros Hi HP. unfold wp, ret. cbn [fst snd]. rewrite (hst_eta s) at 2. apply hstep_same; auto; try discriminate.
  - apply suffix_refl.
  - intros x E. injection E as <-. now rewrite <- hst_eta.
Qed.
Lemma hstep_fail {G : decoder -> Prop} {A} e (P : A -> hst -> Prop) s : hinv (hd_dec s) -> wp (fail e) s (hstepG G P s).
Proof.
  intros Hi. unfold wp, fail. cbn [fst snd]. rewrite (hst_eta s) at 2. apply hstep_same; auto; try discriminate.
  apply suffix_refl.
Qed.
Lemma hstep_byte {G : decoder -> Prop} s : hinv (hd_dec s) -> bytes s ->
  wp rd_byte s (hstepG G (fun b s' => byte b /\ S (length (hd_rd s')) = length (hd_rd s)
                       /\ hd_dec s' = hd_dec s) s).
Proof.
  intros Hi Hb. apply wp_rd_byte.
  - intros b t E. apply hstep_same; auto; try discriminate.
    + rewrite E. apply suffix_cons.
    + intros x Ex. injection Ex as <-. unfold bytes in Hb. rewrite E in Hb. inversion Hb; subst.
      dsimp. rewrite E. auto.
  - intros e E. rewrite (hst_eta s) at 2. apply hstep_same; auto; try discriminate. apply suffix_refl.
Qed.
Lemma hstep_u16 {G : decoder -> Prop} s : hinv (hd_dec s) -> bytes s ->
  wp rd_u16 s (hstepG G (fun n s' => 0 <= n <= 65535 /\ S (S (length (hd_rd s'))) = length (hd_rd s)
                      /\ hd_dec s' = hd_dec s) s).
Proof.
  intros Hi Hb. apply wp_rd_u16.
  - intros a b t E. apply hstep_same; auto; try discriminate.
    + rewrite E. now exists [a; b].
    + intros x Ex. injection Ex as <-. unfold bytes in Hb. rewrite E in Hb. inversion Hb as [|? ? Ha Hb']; subst.
      inversion Hb' as [|? ? Hb2 _]; subst. unfold byte in *. dsimp. rewrite E. cbn [length]. repeat split; lia.
  - intros _. apply hstep_same; auto; try discriminate. apply suffix_nil.
Qed.
Lemma hstep_map_err {G : decoder -> Prop} {A} e (m : M hst A) P s : wp m s (hstepG G P s) -> wp (map_err e m) s (hstepG G P s).
Proof.
  intros H. apply wp_map_err. eapply wp_mono; [exact H|]. intros r s' [I1 S1 F1 U1 P1 G1 O1].
  destruct r; split; auto; discriminate.
Qed.
Lemma hstep_exact {G : decoder -> Prop} n e s : hinv (hd_dec s) -> bytes s ->
  wp (rd_exact n e) s (hstepG G (fun l s' => zlen l = n /\ Forall byte l /\ hd_dec s' = hd_dec s) s).
Proof.
  intros Hi Hb. apply wp_rd_exact.
  - intros l t E Hl. apply hstep_same; auto; try discriminate.
    + rewrite E. now exists l.
    + intros x Ex. injection Ex as <-. unfold bytes in Hb. rewrite E in Hb. apply Forall_app in Hb. tauto.
  - intros _. rewrite (hst_eta s) at 2. apply hstep_same; auto; try discriminate. apply suffix_refl.
Qed.
Lemma hstep_consume {G : decoder -> Prop} n s : hinv (hd_dec s) -> wp (consume n) s (hstepG G (fun _ _ => True) s).
Proof.
  intros Hi. apply wp_consume. apply hstep_same; auto; try discriminate. apply suffix_skipn.
Qed.
(** [d <- getd ;; k d] *)
Lemma hstep_getd {G : decoder -> Prop} {B} (k : decoder -> M hst B) Q s :
  wp (k (hd_dec s)) s (hstepG G Q s) -> wp (bind getd k) s (hstepG G Q s).
Proof. auto. Qed.
(** [modd f ;;; k]: the change keeps the invariants *)
Lemma hstep_modd {G : decoder -> Prop} f s (P : unit -> hst -> Prop) :
  hinv (f (hd_dec s)) -> same_setup (hd_dec s) (f (hd_dec s)) ->
  (G (hd_dec s) -> G (f (hd_dec s))) -> P tt (mkHst (f (hd_dec s)) (hd_rd s)) ->
  wp (modd f) s (hstepG G P s).
Proof.
  intros Hi Hu Hg HP. apply wp_modd. split; dsimp; auto; try discriminate.
  - apply suffix_refl.
  - intros a E. injection E as <-. exact HP.
Qed.
Lemma hstep_fuel_of {G : decoder -> Prop} {B} (k : nat -> M hst B) Q s :
  wp (k (S (length (hd_rd s)))) s (hstepG G Q s) -> wp (bind fuel_of k) s (hstepG G Q s).
Proof. auto. Qed.
Lemma hstep_lift {G : decoder -> Prop} {A} (r : res A) (P : A -> hst -> Prop) s :
  hinv (hd_dec s) -> r <> Fuel -> (G (hd_dec s) -> forall p, r = Panic p -> 4 <= i_comps (d_info (hd_dec s))) ->
  (forall a, r = Ok a -> P a s) -> wp (lift r) s (hstepG G P s).
Proof.
  intros Hi Hf Hp HP. apply wp_lift. split; auto.
  - apply suffix_refl.
  - apply same_setup_refl.
Qed.

Notation hstep := (hstepG good).

(** Record updates that touch only harmless fields *)
Ltac hi_split :=
  match goal with
  | |- hinv _ => split; [|split]
  | |- tabs_ok _ => split; dsimp
  | |- nums_ok _ => split; dsimp
  end.

Lemma Forall_zset {A} (P : A -> Prop) l i x : Forall P l -> P x -> Forall P (zset l i x).
Proof. intros. now apply Forall_nupd. Qed.

Lemma huffman_new_cases counts symbols is_dc prog : table_def counts symbols ->
  (exists t, huffman_new (0 :: counts) (values_of symbols) is_dc prog = Ok t) \/
  (exists e, huffman_new (0 :: counts) (values_of symbols) is_dc prog = Err e).
Proof.
  intros Hdef. unfold values_of.
  destruct (Z_lt_dec (kraft counts) 65536) as [Hk|Hk].
  - destruct (Forall_dec (fun s => s <= 15) (fun s => Z_le_dec s 15) symbols) as [Hs|Hs].
    + left. destruct (huffman_new_ok counts symbols Hdef is_dc prog Hk (fun _ => Hs)) as (t & E & _).
      eauto.
    + destruct is_dc.
      * right. apply (huffman_new_err counts symbols Hdef true prog). intros [_ H]. auto.
      * left. destruct (huffman_new_ok counts symbols Hdef false prog Hk ltac:(discriminate)) as (t & E & _).
        eauto.
  - right. apply (huffman_new_err counts symbols Hdef is_dc prog). tauto.
Qed.

Lemma huff_sizes_len counts symbols : table_def counts symbols ->
  zlen (huff_sizes (0 :: counts)) = zlen symbols.
Proof.
  intros Hdef. pose proof Hdef as (Hl & Hc & _).
  rewrite huff_sizes_szn by assumption. now apply sizes_length.
Qed.

(** * The header functions *)

Lemma hinv_dcts d i t : hinv d -> dc_ok t -> hinv (set_d_dcts (zset (d_dcts d) i (Some t)) d).
Proof.
  intros ([? ? ? ? ? ?] & [? ? ? ? ? ? ? ? ? ? ? ? ? ? ? ?] & Hc) Ht.
  split; [|split]; [| |exact Hc]; split; dsimp; auto.
  - now rewrite zset_length.
  - now apply Forall_zset.
Qed.
Lemma hinv_acts d i t : hinv d -> ac_ok t -> hinv (set_d_acts (zset (d_acts d) i (Some t)) d).
Proof.
  intros ([? ? ? ? ? ?] & [? ? ? ? ? ? ? ? ? ? ? ? ? ? ? ?] & Hc) Ht.
  split; [|split]; [| |exact Hc]; split; dsimp; auto.
  - now rewrite zset_length.
  - now apply Forall_zset.
Qed.
Lemma hinv_qt d q : hinv d -> length q = 4%nat -> Forall (opt_all qt_ok) q -> hinv (set_d_qt q d).
Proof.
  intros ([? ? ? ? ? ?] & [? ? ? ? ? ? ? ? ? ? ? ? ? ? ? ?] & Hc) H4 Hq.
  split; [|split]; [| |exact Hc]; split; dsimp; auto.
Qed.
Lemma hinv_nums d d' : hinv d -> nums_ok d' -> d_dcts d' = d_dcts d -> d_acts d' = d_acts d ->
  d_qt d' = d_qt d -> d_comps d' = d_comps d -> hinv d'.
Proof.
  intros ([A1 A2 A3 A4 A5 A6] & _ & Hc) Hn E1 E2 E3 E4. split; [|split]; [|exact Hn|now rewrite E4].
  split; congruence.
Qed.
Lemma good_same d d' : good d -> d_info d' = d_info d -> d_comps d' = d_comps d ->
  d_opt d' = d_opt d -> good d'.
Proof. unfold good, lim. intros (A & B & C) -> -> ->. auto. Qed.
Lemma setup_same d d' : d_opt d' = d_opt d -> d_isa d' = d_isa d -> d_idct d' = d_idct d ->
  d_cc d' = d_cc d -> i_comps (d_info d') = i_comps (d_info d) ->
  i_sof (d_info d') = i_sof (d_info d) -> d_prog d' = d_prog d -> same_setup d d'.
Proof.
  intros H1 H2 H3 H4 H5 H6 H7. repeat split; auto.
  - rewrite H1. now destruct (d_opt d).
  - intros H. right. rewrite H1, <- H5. auto.
  - unfold frame_rel. now rewrite H5.
  - now rewrite H7.
  - intros H. right. now rewrite <- H6.
Qed.

Lemma byte_sum l : Forall byte l -> 0 <= fold_left Z.add l 0.
Proof.
  intros H. rewrite fold_left_add. induction H; cbn [fold_right]; unfold byte in *; lia.
Qed.
Lemma shr4_byte b : byte b -> 0 <= shr b 4 <= 15.
Proof. unfold byte, shr. change (2 ^ 4) with 16. lia. Qed.
Lemma land15_byte b : 0 <= Z.land b 15 <= 15.
Proof. apply and15. Qed.

Lemma dht_loop_step : forall fuel len s, hinv (hd_dec s) -> bytes s ->
  (length (hd_rd s) < fuel)%nat ->
  wp (dht_loop fuel len) s (hstep (fun _ _ => True) s).
Proof.
  induction fuel as [|f IH]; intros len s Hi Hb Hf; [lia|]. cbn [dht_loop].
  destruct (len <=? 16); [now apply hstep_ret|].
  eapply hstep_bind; [exact Hi|exact Hb|now apply hstep_byte|]. intros info s1 Hi1 Hb1 S1 U1 (Hinfo & Hlt & Ed1).
  cbv zeta. destruct (4 <=? Z.land info 15) eqn:E1; [now apply hstep_fail|].
  destruct (1 <? Z.land (shr info 4) 15) eqn:E2; [now apply hstep_fail|].
  eapply hstep_bind; [exact Hi1|exact Hb1|now apply hstep_exact|]. intros counts s2 Hi2 Hb2 S2 U2 (Hl2 & Hc2 & Ed2).
  destruct (256 <? fold_left Z.add counts 0) eqn:E3; [now apply hstep_fail|].
  destruct (len - 17 <? fold_left Z.add counts 0); [now apply hstep_fail|].
  eapply hstep_bind; [exact Hi2|exact Hb2|now apply hstep_exact|]. intros symbols s3 Hi3 Hb3 S3 U3 (Hl3 & Hc3 & Ed3).
  apply hstep_getd.
  assert (table_def counts symbols) as Hdef.
  { unfold table_def. rewrite fold_left_add in Hl3, E3. rewrite Z.add_0_l in Hl3, E3. unfold zlen in *.
    repeat split; auto; lia. }
  change (symbols ++ zrepeat 0 (256 - fold_left Z.add counts 0))%list
    with (symbols ++ zrepeat 0 (256 - fold_left Z.add counts 0))%list.
  rewrite <- Hl3. change (symbols ++ zrepeat 0 (256 - zlen symbols))%list with (values_of symbols).
  destruct (huffman_new_cases counts symbols (Z.land (shr info 4) 15 =? 0) (d_prog (hd_dec s3)) Hdef)
    as [(t & Et)|(e & Et)].
  2:{ eapply hstep_bind with (P := fun _ _ => False); [exact Hi3|exact Hb3| |tauto].
      apply hstep_lift; auto; rewrite Et; discriminate. }
  eapply hstep_bind with (P := fun a s' => s' = s3 /\ a = t); [exact Hi3|exact Hb3| |].
  { apply hstep_lift; auto; rewrite Et; try discriminate. intros a Ea. injection Ea as <-. auto. }
  intros a s4 Hi4 Hb4 S4 U4 [-> ->].
  eapply hstep_bind with (P := fun _ s' => hd_rd s' = hd_rd s3); [exact Hi3|exact Hb3| |].
  - destruct (Z.land (shr info 4) 15 =? 0) eqn:Edc.
    + apply hstep_modd; [|apply setup_same; reflexivity| |reflexivity].
      * apply hinv_dcts; [exact Hi3|]. eapply huffman_new_dc_shape; [|exact Hc3|exact Et].
        symmetry. now apply huff_sizes_len.
      * intros Hg. now apply (good_same (hd_dec s3)).
    + apply hstep_modd; [|apply setup_same; reflexivity| |reflexivity].
      * apply hinv_acts; [exact Hi3|]. eapply huffman_new_ac_shape; [|exact Hc3|exact Et].
        destruct Hdef as (_ & _ & D1 & D2 & _). unfold zlen. lia.
      * intros Hg. now apply (good_same (hd_dec s3)).
  - intros [] s5 Hi5 Hb5 S5 U5 Er. apply IH; auto.
    apply suffix_len in S2, S3. rewrite Er. lia.
Qed.

Lemma parse_huffman_step s : hinv (hd_dec s) -> bytes s ->
  wp parse_huffman s (hstep (fun _ s' => (length (hd_rd s') < length (hd_rd s))%nat) s).
Proof.
  intros Hi Hb. unfold parse_huffman.
  eapply hstep_bind; [exact Hi|exact Hb|apply hstep_map_err; now apply hstep_u16|].
  intros len s1 Hi1 Hb1 S1 U1 (Hn & Hlt & _). destruct (len <? 2); [now apply hstep_fail|].
  apply hstep_fuel_of.
  eapply hstep_bind with (P := fun _ s' => suffix (hd_rd s') (hd_rd s1)); [exact Hi1|exact Hb1| |].
  - eapply wp_mono; [apply dht_loop_step; auto|]. intros r s' [I2 S2 F2 U2 P2 G2 O2]. split; auto.
  - intros rest s2 Hi2 Hb2 S2 U2 Hs2. destruct (0 <? rest); [now apply hstep_fail|].
    apply hstep_ret; auto. apply suffix_len in Hs2. lia.
Qed.

Lemma dqt_loop_step : forall fuel len s, hinv (hd_dec s) -> bytes s ->
  (length (hd_rd s) < fuel)%nat ->
  wp (dqt_loop fuel len) s (hstep (fun _ _ => True) s).
Proof.
  induction fuel as [|f IH]; intros len s Hi Hb Hf; [lia|]. cbn [dqt_loop].
  destruct (len <=? 0); [now apply hstep_ret|].
  eapply hstep_bind; [exact Hi|exact Hb|now apply hstep_byte|]. intros info s1 Hi1 Hb1 S1 U1 (Hinfo & Hlt & Ed1).
  cbv zeta. destruct (len <? _); [now apply hstep_fail|].
  destruct (shr info 4 =? 0).
  2:{ destruct (shr info 4 =? 1); now apply hstep_fail. }
  eapply hstep_bind; [exact Hi1|exact Hb1|now apply hstep_exact|]. intros values s2 Hi2 Hb2 S2 U2 (Hl2 & Hc2 & Ed2).
  destruct (4 <=? Z.land info 15); [now apply hstep_fail|].
  eapply hstep_bind with (P := fun _ s' => hd_rd s' = hd_rd s2); [exact Hi2|exact Hb2| |].
  - apply hstep_modd; [|apply setup_same; reflexivity| |reflexivity].
    + apply hinv_qt; [exact Hi2|rewrite zset_length; apply Hi2|].
      apply Forall_zset; [apply Hi2|]. rewrite un_zig_zag_natural. unfold opt_all, qt_ok, natural. split.
      * rewrite zlen_map, zlen_map. unfold zlen. now rewrite seq_length.
      * apply Forall_forall. intros x Hx. apply in_map_iff in Hx as (i & <- & _).
        destruct (nth_in_or_default (Z.to_nat (zigzag (i / 8) (i mod 8))) values 0) as [Hin| ->].
        -- rewrite Forall_forall in Hc2. auto.
        -- unfold byte. lia.
    + intros Hg. now apply (good_same (hd_dec s2)).
  - intros [] s3 Hi3 Hb3 S3 U3 Er. apply IH; auto. apply suffix_len in S2. rewrite Er. lia.
Qed.
Lemma parse_dqt_step s : hinv (hd_dec s) -> bytes s ->
  wp parse_dqt s (hstep (fun _ _ => True) s).
Proof.
  intros Hi Hb. unfold parse_dqt.
  eapply hstep_bind; [exact Hi|exact Hb|apply hstep_map_err; now apply hstep_u16|].
  intros len s1 Hi1 Hb1 S1 U1 (Hn & Hlt & _). destruct (len <? 2); [now apply hstep_fail|].
  apply hstep_fuel_of. apply dqt_loop_step; auto.
Qed.

(** ** Start of frame *)
Definition anyd (d : decoder) : Prop := True.

Lemma pow2_cases n : is_power_of_two n = true -> n = 1 \/ n = 2 \/ n = 4 \/ n = 8.
Proof. unfold is_power_of_two. intros H. lia. Qed.

(** What [Components::from] returns *)
Definition fresh_comp (c : component) : Prop :=
  comp_ok c /\ c_stride c = c_h c /\ 0 <= c_qn c < 4.
Lemma component_from_ok a0 a1 a2 c : byte a2 -> component_from a0 a1 a2 = Ok c -> fresh_comp c.
Proof.
  intros Ha2. unfold component_from, byte in *.
  destruct (match a0 with 1 => _ | _ => _ end) as [cid|] eqn:Ecid; [|discriminate].
  destruct (4 <=? a2) eqn:E1; [discriminate|].
  destruct (is_power_of_two (shr a1 4)) eqn:E2; [|discriminate]. cbn [negb].
  destruct (is_power_of_two (Z.land a1 15)) eqn:E3; [|discriminate]. cbn [negb].
  intros E. injection E as <-. apply pow2_cases in E2, E3.
  assert (1 <= a0 <= 3) as Ha.
  { clear - Ecid. destruct a0 as [|[[p|p|]|[p|p|]|]|p]; try discriminate; lia. }
  split; [split; dsimp; try lia|dsimp; lia].
  split; [reflexivity|]. apply Forall_forall. intros x Hx. apply repeat_spec in Hx. subst x. unfold byte. lia.
Qed.
Lemma component_from_res a0 a1 a2 : (exists c, component_from a0 a1 a2 = Ok c) \/ (exists e, component_from a0 a1 a2 = Err e).
Proof.
  unfold component_from. destruct (match a0 with 1 => _ | _ => _ end); [|right; eauto].
  destruct (4 <=? a2); [right; eauto|]. destruct (negb _); [right; eauto|]. destruct (negb _); [right; eauto|left; eauto].
Qed.

Lemma Forall_byte_zn l i : Forall byte l -> byte (zn l i).
Proof.
  intros H. unfold zn. destruct (nth_in_or_default (Z.to_nat i) l 0) as [Hin| ->].
  - rewrite Forall_forall in H. auto.
  - unfold byte. lia.
Qed.

Lemma read_components_step G : forall n s, hinv (hd_dec s) -> bytes s ->
  wp (read_components n) s (hstepG G (fun cs s' => length cs = n /\ Forall fresh_comp cs /\ hd_dec s' = hd_dec s) s).
Proof.
  induction n as [|n IH]; intros s Hi Hb; cbn [read_components].
  - apply hstep_ret; auto.
  - eapply hstep_bind; [exact Hi|exact Hb|now apply hstep_exact|]. intros temp s1 Hi1 Hb1 S1 U1 (Hl1 & Hc1 & Ed1).
    destruct (component_from_res (zn temp 0) (zn temp 1) (zn temp 2)) as [(c & Ec)|(e & Ec)].
    2:{ eapply hstep_bind with (P := fun _ _ => False); [exact Hi1|exact Hb1| |tauto].
        apply hstep_lift; auto; rewrite Ec; discriminate. }
    eapply hstep_bind with (P := fun a s' => s' = s1 /\ a = c); [exact Hi1|exact Hb1| |].
    { apply hstep_lift; auto; rewrite Ec; try discriminate. intros a E. injection E as <-. auto. }
    intros a s2 Hi2 Hb2 S2 U2 [-> ->].
    eapply hstep_bind; [exact Hi1|exact Hb1|apply IH; auto|]. intros rest s3 Hi3 Hb3 S3 U3 (Hl3 & Hc3 & Ed3).
    apply hstep_ret; auto. cbn [length]. split; [lia|]. split; [|congruence].
    constructor; auto. eapply component_from_ok; [|exact Ec]. now apply Forall_byte_zn.
Qed.

Lemma sof_geometry_inv c d : hinv d -> fresh_comp c -> hinv (sof_geometry c d).
Proof.
  intros Hi (Hc & _ & _). pose proof (co_h _ Hc). pose proof (co_v _ Hc).
  assert (forall d', d' = d \/ d' = set_d_inter true d -> True) as _ by auto.
  pose proof Hi as (_ & [? ? ? ? ? ? ? ? ? ? ? ? ? ? ? ?] & _).
  unfold sof_geometry. cbv zeta.
  assert (0 <= (i_width (d_info d) + Z.max (d_hmax d) (c_h c) * 8 - 1) / (Z.max (d_hmax d) (c_h c) * 8)) as A1.
  { apply Z.div_pos; lia. }
  assert (0 <= (i_height (d_info d) + Z.max (d_vmax d) (c_v c) * 8 - 1) / (Z.max (d_vmax d) (c_v c) * 8)) as A2.
  { apply Z.div_pos; lia. }
  destruct (_ || _); (apply (hinv_nums d); [exact Hi| |reflexivity|reflexivity|reflexivity|reflexivity]);
    split; dsimp; auto; clear A1 A2; lia.
Qed.
Lemma sof_geometry_same c d : d_opt (sof_geometry c d) = d_opt d /\ d_info (sof_geometry c d) = d_info d /\
  d_isa (sof_geometry c d) = d_isa d /\ d_idct (sof_geometry c d) = d_idct d /\ d_cc (sof_geometry c d) = d_cc d /\
  d_qt (sof_geometry c d) = d_qt d.
Proof. unfold sof_geometry. cbv zeta. destruct (_ || _); repeat split. Qed.

Lemma sof_geometry_prog c d : d_prog (sof_geometry c d) = d_prog d.
Proof. unfold sof_geometry. cbv zeta. now destruct (_ || _). Qed.

Lemma sof_components_step : forall cs s, hinv (hd_dec s) -> bytes s -> Forall fresh_comp cs ->
  wp (sof_components cs) s (hstepG anyd (fun cs' s' => length cs' = length cs /\ Forall comp_ok cs' /\
     d_info (hd_dec s') = d_info (hd_dec s) /\ d_opt (hd_dec s') = d_opt (hd_dec s)) s).
Proof.
  induction cs as [|c cs IH]; intros s Hi Hb Hcs; cbn [sof_components].
  - apply hstep_ret; auto.
  - inversion Hcs as [|? ? Hc Hcs']; subst.
    pose proof (sof_geometry_same c (hd_dec s)) as (E1 & E2 & E3 & E4 & E5 & E6).
    eapply hstep_bind with (P := fun _ s' => s' = mkHst (sof_geometry c (hd_dec s)) (hd_rd s)); [exact Hi|exact Hb| |].
    { apply hstep_modd; auto; [now apply sof_geometry_inv|apply setup_same; auto; try (now rewrite E2); now rewrite sof_geometry_prog]. }
    intros _ s1 Hi1 Hb1 S1 U1 ->. apply hstep_getd. dsimp.
    destruct (nth (Z.to_nat (c_qn c)) (d_qt (sof_geometry c (hd_dec s))) None) as [qt|] eqn:Eq; [|now apply hstep_fail].
    eapply hstep_bind; [exact Hi1|exact Hb1|apply IH; auto|]. intros cs' s2 Hi2 Hb2 S2 U2 (Hl & Hok & Ei & Eo).
    apply hstep_ret; auto. dsimp in Ei. dsimp in Eo. cbn [length].
    split; [lia|]. split; [|split; congruence]. constructor; [|exact Hok].
    destruct Hc as [[? ? ? ? ? ? ?] _].
    assert (qt_ok qt) as Hqt.
    { assert (Forall (opt_all qt_ok) (d_qt (sof_geometry c (hd_dec s)))) as HF by (apply Hi1).
      rewrite Forall_forall in HF. apply (HF (Some qt)). rewrite <- Eq. apply nth_In.
      destruct (Nat.lt_ge_cases (Z.to_nat (c_qn c)) (length (d_qt (sof_geometry c (hd_dec s))))) as [Hx|Hx]; auto.
      rewrite nth_overflow in Eq by exact Hx. discriminate. }
    assert (0 <= d_mcux (sof_geometry c (hd_dec s))) as Hm by (apply Hi1).
    split; dsimp; auto. apply Z.mul_nonneg_nonneg; lia.
Qed.

Lemma hinv_info d i : hinv d -> 0 <= i_width i <= 65535 -> 0 <= i_height i <= 65535 -> 0 <= i_comps i <= 255 ->
  hinv (set_d_info i d).
Proof.
  intros Hi H1 H2 H3. apply (hinv_nums d); auto. pose proof Hi as (_ & [? ? ? ? ? ? ? ? ? ? ? ? ? ? ? ?] & _).
  split; dsimp; auto.
Qed.

Lemma comp_ok_w c : comp_ok c -> comp_okw c.
Proof. intros [? ? ? ? ? ? ?]. split; auto; lia. Qed.

Lemma parse_sof_step0 sof s : hinv (hd_dec s) -> bytes s ->
  (sof = ProgressiveDctHuffman -> d_prog (hd_dec s) = true) ->
  wp (parse_start_of_frame sof) s (hstepG anyd (fun _ s' => good (hd_dec s')) s).
Proof.
  intros Hi Hb Hprog. unfold parse_start_of_frame.
  eapply hstep_bind; [exact Hi|exact Hb|apply hstep_map_err; now apply hstep_u16|].
  intros len s1 Hi1 Hb1 S1 U1 (Hn & Hlt & Ed1).
  eapply hstep_bind; [exact Hi1|exact Hb1|now apply hstep_byte|]. intros prec s2 Hi2 Hb2 S2 U2 (Hp & _ & Ed2).
  destruct (negb (prec =? 8)); [now apply hstep_fail|].
  eapply hstep_bind with (P := fun _ _ => True); [exact Hi2|exact Hb2| |].
  { apply hstep_modd; auto; [|apply setup_same; reflexivity]. apply hinv_info; auto; apply Hi2. }
  intros _ s3 Hi3 Hb3 S3 U3 _.
  eapply hstep_bind; [exact Hi3|exact Hb3|apply hstep_map_err; now apply hstep_u16|].
  intros height s4 Hi4 Hb4 S4 U4 (Hh & _ & Ed4).
  eapply hstep_bind with (P := fun _ s' => i_height (d_info (hd_dec s')) = height); [exact Hi4|exact Hb4| |].
  { apply hstep_modd; auto; [|apply setup_same; reflexivity]. apply hinv_info; auto; apply Hi4. }
  intros _ s5 Hi5 Hb5 S5 U5 Eh5.
  eapply hstep_bind; [exact Hi5|exact Hb5|apply hstep_map_err; now apply hstep_u16|].
  intros width s6 Hi6 Hb6 S6 U6 (Hw & _ & Ed6).
  eapply hstep_bind with (P := fun _ s' => i_height (d_info (hd_dec s')) = height /\ i_width (d_info (hd_dec s')) = width);
    [exact Hi6|exact Hb6| |].
  { apply hstep_modd; auto; [|apply setup_same; reflexivity|].
    - apply hinv_info; auto; apply Hi6.
    - dsimp. rewrite Ed6. auto. }
  intros _ s7 Hi7 Hb7 S7 U7 [Eh7 Ew7]. apply hstep_getd.
  destruct (o_max_width (d_opt (hd_dec s7)) <? width) eqn:E1; [now apply hstep_fail|].
  destruct (o_max_height (d_opt (hd_dec s7)) <? height) eqn:E2; [now apply hstep_fail|].
  destruct ((width =? 0) || (height =? 0)) eqn:E3; [now apply hstep_fail|].
  assert (0 < width <= o_max_width (d_opt (hd_dec s7)) /\ 0 < height <= o_max_height (d_opt (hd_dec s7))) as Hlim by lia.
  eapply hstep_bind; [exact Hi7|exact Hb7|now apply hstep_byte|]. intros n s8 Hi8 Hb8 S8 U8 (Hnb & _ & Ed8).
  destruct (n =? 0) eqn:En; [now apply hstep_fail|].
  cbv zeta. destruct (negb (len =? _)); [now apply hstep_fail|].
  eapply hstep_bind with (P := fun _ s' => d_info (hd_dec s') = d_info (hd_dec s8) /\
    (n = 1 -> o_colorspace (d_opt (hd_dec s')) = GRAYSCALE)); [exact Hi8|exact Hb8| |].
  { destruct (n =? 1) eqn:En1; [|apply hstep_ret; auto; split; [reflexivity|lia]].
    apply hstep_modd; auto; [|repeat split; [intros _; now left|intros H; exact H|intros H; exact H|intros H; now right]].
    apply (hinv_nums (hd_dec s8)); auto. pose proof Hi8 as (_ & [? ? ? ? ? ? ? ? ? ? ? ? ? ? ? ?] & _). split; dsimp; auto. }
  intros _ s9 Hi9 Hb9 S9 U9 (E9 & Hgr).
  eapply hstep_bind with (P := fun _ s' => d_info (hd_dec s') = set_i_comps n (d_info (hd_dec s9))); [exact Hi9|exact Hb9| |].
  { apply hstep_modd; auto.
    - apply hinv_info; auto; try apply Hi9.
    - repeat split; [dsimp; now destruct (d_opt (hd_dec s9))| | | |].
      + intros H. left. apply Hgr. exact H.
      + intros _. dsimp. lia.
      + intros H; exact H.
      + intros H. now right. }
  intros _ s10 Hi10 Hb10 S10 U10 E10.
  eapply hstep_bind; [exact Hi10|exact Hb10|now apply read_components_step|].
  intros comps s11 Hi11 Hb11 S11 U11 (Hl11 & Hc11 & Ed11).
  eapply hstep_bind with (P := fun _ s' => d_info (hd_dec s') = set_i_sof sof (d_info (hd_dec s11))); [exact Hi11|exact Hb11| |].
  { apply hstep_modd; auto; [apply hinv_info; auto; apply Hi11|].
    repeat split; [dsimp; now destruct (d_opt (hd_dec s11))| | | |].
    - intros H. now right.
    - intros H; exact H.
    - intros H; exact H.
    - dsimp. intros H. left. specialize (Hprog H).
      assert (same_setup (hd_dec s) (hd_dec s11)) as (_ & _ & _ & _ & _ & _ & E & _); [|exact (E Hprog)].
      clear - U1 U2 U3 U4 U5 U6 U7 U8 U9 U10 U11.
      repeat (eapply same_setup_trans; [eassumption|]); apply same_setup_refl. }
  intros _ s12 Hi12 Hb12 S12 U12 E12.
  eapply hstep_bind; [exact Hi12|exact Hb12|now apply sof_components_step|].
  intros comps' s13 Hi13 Hb13 S13 U13 (Hl13 & Hc13 & Ei13 & Eo13).
  apply hstep_modd; auto; [|apply setup_same; reflexivity|].
  - pose proof Hi13 as (_ & [? ? ? ? ? ? ? ? ? ? ? ? ? ? ? ?] & _).
    assert (hinv (set_d_qt [None; None; None; None] (hd_dec s13))) as (HA & HB & _).
    { apply hinv_qt; auto. repeat constructor. }
    split; [|split].
    + destruct HA. split; auto.
    + destruct HB. split; auto.
    + dsimp. eapply Forall_impl; [|exact Hc13]. apply comp_ok_w.
  - unfold good, lim. dsimp. rewrite Ei13, E12. dsimp. rewrite Ed11, E10. dsimp. rewrite E9, Ed8, Eh7, Ew7.
    assert (o_max_width (d_opt (hd_dec s13)) = o_max_width (d_opt (hd_dec s7)) /\
            o_max_height (d_opt (hd_dec s13)) = o_max_height (d_opt (hd_dec s7))) as [-> ->].
    { clear - U8 U9 U10 U11 U12 U13.
      assert (same_setup (hd_dec s7) (hd_dec s13)) as (E & _) by (repeat (eapply same_setup_trans; [eassumption|]); apply same_setup_refl).
      rewrite E. auto. }
    split; [|split; [intros _; exact Hlim|exact Hc13]]. unfold byte in Hnb. unfold zlen. lia.
Qed.

Lemma hstep_any_good {A} (P : A -> hst -> Prop) (m : M hst A) s :
  wp m s (hstepG anyd (fun a s' => P a s' /\ good (hd_dec s')) s) -> wp m s (hstep P s).
Proof.
  intros H. eapply wp_mono; [exact H|]. intros r s' [I1 S1 F1 U1 P1 G1 O1]. split; auto.
  - intros _. apply P1. exact I.
  - intros _ a E. now apply (O1 a E).
  - intros a E. now apply (O1 a E).
Qed.
Lemma parse_sof_step sof s : hinv (hd_dec s) -> bytes s ->
  (sof = ProgressiveDctHuffman -> d_prog (hd_dec s) = true) ->
  wp (parse_start_of_frame sof) s (hstep (fun _ _ => True) s).
Proof.
  intros Hi Hb Hp. apply hstep_any_good. eapply hstep_mono; [now apply parse_sof_step0|]. auto.
Qed.

(** ** Start of scan *)
Lemma find_component_spec comps id : forall n j,
  match find_component n j comps id with
  | Ok None => True
  | Ok (Some k) => j <= k < j + Z.of_nat n /\ exists c, zget comps k = Some c /\ c_id c = id
  | Panic _ => exists k, j <= k < j + Z.of_nat n /\ zget comps k = None
  | _ => False
  end.
Proof.
  induction n as [|n IH]; intros j; cbn [find_component]; [exact I|].
  destruct (zget comps j) as [c|] eqn:E.
  - destruct (c_id c =? id) eqn:Ei.
    + split; [lia|]. exists c. split; [exact E|lia].
    + specialize (IH (j + 1)). destruct (find_component n (j + 1) comps id) as [[k|]|e|p|]; auto.
      * destruct IH as (H1 & H2). split; [lia|exact H2].
      * destruct IH as (k & H1 & H2). exists k. split; [lia|exact H2].
  - exists j. split; [lia|exact E].
Qed.

Lemma at_cases {A} (l : list A) i : (exists x, zget l i = Some x /\ at_ l i = Ok x) \/
  (zget l i = None /\ at_ l i = Panic "index out of bounds").
Proof. unfold at_. destruct (zget l i); eauto. Qed.

Lemma zget_In {A} (l : list A) i x : zget l i = Some x -> In x l.
Proof. unfold zget. destruct (i <? 0); [discriminate|]. apply nth_error_In. Qed.

Lemma sos_components_step : forall n i seen s, hinv (hd_dec s) -> bytes s -> zlen seen = 4 ->
  wp (sos_components n i seen) s (hstep (fun _ _ => True) s).
Proof.
  induction n as [|n IH]; intros i seen s Hi Hb Hseen; cbn [sos_components]; [now apply hstep_ret|].
  eapply hstep_bind; [exact Hi|exact Hb|now apply hstep_byte|]. intros id s1 Hi1 Hb1 S1 U1 (Hid & _ & Ed1).
  apply hstep_getd. destruct (zlen (d_comps (hd_dec s1)) <? id) eqn:E1; [now apply hstep_fail|].
  eapply hstep_bind with (P := fun dup s' => s' = s1 /\ 0 <= id < 4); [exact Hi1|exact Hb1| |].
  { destruct (at_cases seen id) as [(x & Hx & ->)|(Hx & ->)].
    - apply hstep_lift; auto; try discriminate. intros a _. split; auto. apply zget_some in Hx. lia.
    - apply hstep_lift; auto; try discriminate. intros (Hg & _) p _. apply zget_none in Hx. unfold byte in Hid. lia. }
  intros dup s2 Hi2 Hb2 S2 U2 [-> Hid4]. destruct dup; [now apply hstep_fail|]. cbv zeta.
  eapply hstep_bind; [exact Hi1|exact Hb1|now apply hstep_byte|]. intros y s3 Hi3 Hb3 S3 U3 (Hy & _ & Ed3).
  set (comps := d_comps (hd_dec s1)) in *. set (ic := i_comps (d_info (hd_dec s1))).
  pose proof (find_component_spec comps id (Z.to_nat ic) 0) as Hf.
  eapply hstep_bind with (P := fun o s' => s' = s3 /\ match o with Some k => exists c, zget comps k = Some c | None => True end);
    [exact Hi3|exact Hb3| |].
  { apply hstep_lift; auto.
    - intros E. rewrite E in Hf. exact Hf.
    - intros Hg p E. rewrite E in Hf. destruct Hf as (k & Hk & Hn). apply zget_none in Hn.
      destruct Hg as (Hg & _). rewrite Ed3 in Hg. fold ic comps in Hg.
      exfalso. lia.
    - intros a E. rewrite E in Hf. split; auto. destruct a as [k|]; auto. destruct Hf as (_ & c & Hc & _). eauto. }
  intros o s4 Hi4 Hb4 S4 U4 [-> Ho]. destruct o as [j|]; [|now apply hstep_fail].
  destruct Ho as (c & Hc).
  eapply hstep_bind with (P := fun a s' => s' = s3 /\ a = c); [exact Hi3|exact Hb3| |].
  { unfold at_. rewrite Hc. apply hstep_lift; auto; try discriminate. intros a E. injection E as <-. auto. }
  intros a s5 Hi5 Hb5 S5 U5 [-> ->].
  assert (forall c0, zget (d_comps (hd_dec s3)) j = Some c0 -> c0 = c) as Hcc.
  { intros c0. rewrite Ed3. fold comps. congruence. }
  assert (In c (d_comps (hd_dec s3))) as Hin by (rewrite Ed3; now apply (zget_In _ j)).
  eapply hstep_bind with (P := fun _ _ => True); [exact Hi3|exact Hb3| |].
  - pose proof (and15 y) as Hy1. pose proof (and15 (shr y 4)) as Hy2.
    apply hstep_modd; [|apply setup_same; reflexivity| |exact I].
    + pose proof Hi3 as ([? ? ? ? ? ?] & [? ? ? ? ? ? ? ? ? ? ? ? ? ? ? ?] & Hcw). split; [|split].
      * split; dsimp; auto.
      * split; dsimp; auto.
        -- now rewrite zset_length.
        -- apply Forall_zset; auto. apply zget_some in Hc. lia.
      * dsimp. apply Forall_zset; auto. rewrite Forall_forall in Hcw. destruct (Hcw c Hin). split; dsimp; auto.
    + intros (G1 & G2 & G3). split; [|split].
      * dsimp. now rewrite zlen_zset.
      * exact G2.
      * dsimp. apply Forall_zset; auto. rewrite Forall_forall in G3. destruct (G3 c Hin). split; dsimp; auto.
  - intros _ s6 Hi6 Hb6 S6 U6 _. apply IH; auto. now rewrite zlen_zset.
Qed.

Lemma land63 x : 0 <= Z.land x 63 <= 63.
Proof. apply and63. Qed.

Lemma parse_sos_step s : hinv (hd_dec s) -> bytes s ->
  wp parse_sos s (hstep (fun _ s' => (length (hd_rd s') < length (hd_rd s))%nat /\ d_nscans (hd_dec s') = d_nscans (hd_dec s')) s).
Proof.
  intros Hi Hb. unfold parse_sos.
  eapply hstep_bind; [exact Hi|exact Hb|now apply hstep_u16|]. intros ls s1 Hi1 Hb1 S1 U1 (_ & Hlt & Ed1).
  eapply hstep_bind; [exact Hi1|exact Hb1|now apply hstep_byte|]. intros ns s2 Hi2 Hb2 S2 U2 (Hns & _ & Ed2).
  assert (forall f s, hinv (hd_dec s) -> nums_ok (f (hd_dec s)) ->
    d_dcts (f (hd_dec s)) = d_dcts (hd_dec s) -> d_acts (f (hd_dec s)) = d_acts (hd_dec s) ->
    d_qt (f (hd_dec s)) = d_qt (hd_dec s) -> d_comps (f (hd_dec s)) = d_comps (hd_dec s) ->
    d_info (f (hd_dec s)) = d_info (hd_dec s) -> d_opt (f (hd_dec s)) = d_opt (hd_dec s) ->
    d_isa (f (hd_dec s)) = d_isa (hd_dec s) -> d_idct (f (hd_dec s)) = d_idct (hd_dec s) ->
    d_cc (f (hd_dec s)) = d_cc (hd_dec s) -> d_prog (f (hd_dec s)) = d_prog (hd_dec s) ->
    wp (modd f) s (hstep (fun _ _ => True) s)) as Hmod.
  { intros f s0 H0 H1 H2 H3 H4 H5 H6 H7 H8 H9 H10 H11. apply hstep_modd; auto.
    - now apply (hinv_nums (hd_dec s0)).
    - apply setup_same; auto; now rewrite H6.
    - intros Hg. now apply (good_same (hd_dec s0)). }
  eapply hstep_bind; [exact Hi2|exact Hb2|apply Hmod; auto|].
  { pose proof Hi2 as (_ & [? ? ? ? ? ? ? ? ? ? ? ? ? ? ? ?] & _). split; dsimp; auto. }
  intros _ s3 Hi3 Hb3 S3 U3 _. destruct (negb (ls =? 6 + 2 * ns)); [now apply hstep_fail|].
  destruct (negb _); [now apply hstep_fail|]. apply hstep_getd.
  destruct (i_comps (d_info (hd_dec s3)) =? 0); [now apply hstep_fail|].
  eapply hstep_bind; [exact Hi3|exact Hb3|now apply sos_components_step|]. intros _ s4 Hi4 Hb4 S4 U4 _.
  eapply hstep_bind; [exact Hi4|exact Hb4|now apply hstep_byte|]. intros ss s5 Hi5 Hb5 S5 U5 (Hss & _ & Ed5).
  eapply hstep_bind; [exact Hi5|exact Hb5|apply Hmod; auto|].
  { pose proof Hi5 as (_ & [? ? ? ? ? ? ? ? ? ? ? ? ? ? ? ?] & _). split; dsimp; auto. apply land63. }
  intros _ s6 Hi6 Hb6 S6 U6 _.
  eapply hstep_bind; [exact Hi6|exact Hb6|now apply hstep_byte|]. intros se s7 Hi7 Hb7 S7 U7 (Hse & _ & Ed7).
  eapply hstep_bind; [exact Hi7|exact Hb7|apply Hmod; auto|].
  { pose proof Hi7 as (_ & [? ? ? ? ? ? ? ? ? ? ? ? ? ? ? ?] & _). split; dsimp; auto. apply land63. }
  intros _ s8 Hi8 Hb8 S8 U8 _.
  eapply hstep_bind; [exact Hi8|exact Hb8|now apply hstep_byte|]. intros ba s9 Hi9 Hb9 S9 U9 (Hba & _ & Ed9).
  cbv zeta.
  eapply hstep_bind; [exact Hi9|exact Hb9|apply Hmod; auto|].
  { pose proof Hi9 as (_ & [? ? ? ? ? ? ? ? ? ? ? ? ? ? ? ?] & _). split; dsimp; auto. now apply shr4_byte. }
  intros _ s10 Hi10 Hb10 S10 U10 _. destruct (13 <? shr ba 4).
  { apply hstep_getd. now apply hstep_fail. }
  eapply hstep_bind; [exact Hi10|exact Hb10|apply Hmod; auto|].
  { pose proof Hi10 as (_ & [? ? ? ? ? ? ? ? ? ? ? ? ? ? ? ?] & _). split; dsimp; auto. apply and15. }
  intros _ s11 Hi11 Hb11 S11 U11 _. destruct (13 <? Z.land ba 15); [now apply hstep_fail|].
  apply hstep_ret; auto. split; auto.
  apply suffix_len in S2, S3, S4, S5, S6, S7, S8, S9, S10, S11. lia.
Qed.

Lemma skip_segment_step msg s : hinv (hd_dec s) -> bytes s ->
  wp (skip_segment msg) s (hstep (fun _ _ => True) s).
Proof.
  intros Hi Hb. unfold skip_segment.
  eapply hstep_bind; [exact Hi|exact Hb|now apply hstep_u16|]. intros len s1 Hi1 Hb1 S1 U1 _.
  destruct (len <? 2); [now apply hstep_fail|now apply hstep_consume].
Qed.

Lemma parse_marker_inner_step m s : hinv (hd_dec s) -> bytes s ->
  wp (parse_marker_inner m) s (hstep (fun _ _ => True) s).
Proof.
  intros Hi Hb. destruct m as [v| | |n| | | | | | |n|]; cbn [parse_marker_inner];
    first [now apply hstep_fail|now apply skip_segment_step|idtac].
  - assert (wp (S := hst) (A := unit) (match unsupported_from_int v with Some f => fail (EUnsupported f)
                | None => fail (EFormat "Unsupported image format" []) end) s (hstep (fun _ _ => True) s)) as Hu.
    { destruct (unsupported_from_int v); now apply hstep_fail. }
    destruct v as [|[p|[p|p|]|]|p]; try exact Hu.
    + now apply parse_sof_step.
    + eapply hstep_bind with (P := fun _ s' => d_prog (hd_dec s') = true); [exact Hi|exact Hb| |].
      * apply hstep_modd; [| | |reflexivity].
        3: { intros Hg. now apply (good_same (hd_dec s)). }
        2: { repeat split; [dsimp; now destruct (d_opt (hd_dec s))| | |]; intros H; auto. }
        -- apply (hinv_nums (hd_dec s)); auto. pose proof Hi as (_ & [? ? ? ? ? ? ? ? ? ? ? ? ? ? ? ?] & _). split; dsimp; auto.
      * intros _ s1 Hi1 Hb1 S1 U1 Hp1. now apply parse_sof_step.
  - eapply hstep_mono; [now apply parse_huffman_step|]. auto.
  - eapply hstep_mono; [now apply parse_sos_step|]. auto.
  - now apply parse_dqt_step.
  - eapply hstep_bind; [exact Hi|exact Hb|now apply hstep_u16|]. intros len s1 Hi1 Hb1 S1 U1 _.
    destruct (negb (len =? 4)); [now apply hstep_fail|].
    eapply hstep_bind; [exact Hi1|exact Hb1|now apply hstep_u16|]. intros n s2 Hi2 Hb2 S2 U2 (Hn & _).
    apply hstep_modd; [|apply setup_same; reflexivity| |exact I].
    + apply (hinv_nums (hd_dec s2)); auto. pose proof Hi2 as (_ & [? ? ? ? ? ? ? ? ? ? ? ? ? ? ? ?] & _). split; dsimp; auto.
      change (2 ^ 64) with 18446744073709551616. lia.
    + intros Hg. now apply (good_same (hd_dec s2)).
Qed.

Lemma header_loop_step : forall fuel last before s, hinv (hd_dec s) -> bytes s ->
  (length (hd_rd s) < fuel)%nat ->
  wp (header_loop fuel last before) s (hstep (fun _ _ => True) s).
Proof.
  induction fuel as [|f IH]; intros last before s Hi Hb Hf; [lia|]. cbn [header_loop].
  eapply hstep_bind; [exact Hi|exact Hb|now apply hstep_byte|]. intros m s1 Hi1 Hb1 S1 U1 (Hm & Hlt & _).
  cbv zeta.
  assert (forall b s2, hinv (hd_dec s2) -> bytes s2 -> suffix (hd_rd s2) (hd_rd s1) ->
    wp (bind getd (fun d => if o_strict (d_opt d) && (3 <? b + 1)
                            then fail (EFormatStatic "[strict-mode]: Extra bytes between headers")
                            else header_loop f m (b + 1))) s2 (hstep (fun _ _ => True) s2)) as Hnext.
  { intros b s2 Hi2 Hb2 S2. apply hstep_getd. destruct (_ && _); [now apply hstep_fail|].
    apply IH; auto. apply suffix_len in S2. lia. }
  destruct (last =? 255).
  - destruct (marker_from_u8 m) as [n|].
    + eapply hstep_bind; [exact Hi1|exact Hb1|now apply parse_marker_inner_step|].
      intros _ s2 Hi2 Hb2 S2 U2 _. destruct (is_sos n); [now apply hstep_ret|]. now apply Hnext.
    + eapply hstep_bind; [exact Hi1|exact Hb1|now apply skip_segment_step|].
      intros _ s2 Hi2 Hb2 S2 U2 _. now apply Hnext.
  - apply Hnext; auto. apply suffix_refl.
Qed.

Lemma decode_headers_step s : hinv (hd_dec s) -> bytes s ->
  wp decode_headers s (hstep (fun _ _ => True) s).
Proof.
  intros Hi Hb. unfold decode_headers.
  eapply hstep_bind; [exact Hi|exact Hb|now apply hstep_u16|]. intros magic s1 Hi1 Hb1 S1 U1 _.
  destruct (negb _); [now apply hstep_fail|]. apply hstep_fuel_of. apply header_loop_step; auto; lia.
Qed.

Lemma hinv_new cpu o : hinv (decoder_default cpu o).
Proof.
  split; [|split].
  - split; cbn; auto; repeat constructor.
  - split; cbn; auto; try lia. repeat constructor; lia.
  - constructor.
Qed.
Lemma good_new cpu o : good (decoder_default cpu o).
Proof. split; [reflexivity|]. split; [|constructor]. intros H. now cbn in H. Qed.
