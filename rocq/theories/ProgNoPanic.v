(** The scans of a progressive image: whatever their bytes are, decoding them does not panic;
    and the whole call for images without subsampling (C02). *)
From Coq Require Import ZArith String List Bool Lia.
From Coq Require Import ZifyBool ZifyNat ZifyN.
From Verif Require Import Base Types Huffman State Bitstream Headers Worker Mcu McuProg Decoder.
From Verif Require Import SpecSegments SpecSafe BaseFacts Keeps BlockSafe HeaderInv WorkerSafe DecodeInv.
From Verif Require Import Placement GrayImage ColourImage GrayFile ColourFile NoPanic.
Import ListNotations.
Local Open Scope Z_scope.
Local Open Scope m_scope.
Ltac Zify.zify_post_hook ::= Z.div_mod_to_equations.

Section scans.
Variables (d0 : decoder) (mx my n m : Z).
Hypothesis Hmx : 0 < mx.
Hypothesis Hmy : 0 < my.
Hypothesis Hn : 0 < n.
Hypothesis Hm : 0 < m.
(** The blocks of a component; a scan of this component alone stays inside of them *)
Definition cok (c : component) : Prop :=
  c_stride c = 8 * (mx * c_h c) /\ 1 <= c_h c /\ 1 <= c_v c /\
  (is_y (c_cid c) || negb (d_inter d0) = true -> n <= mx * c_h c /\ m <= my * c_v c).
Hypothesis Hcok : Forall cok (d_comps d0).
Hypothesis Hsides : d_mcux d0 = mx /\ d_mcuy d0 = my /\ u16 (i_width (d_info d0) + 7) / 8 = n /\ u16 (i_height (d_info d0) + 7) / 8 = m.
Hypothesis Hcomps : i_comps (d_info d0) <= 3.
Notation like := (like d0).

(** Every component has a buffer for its blocks *)
Definition full (b : list (list Z)) : Prop :=
  forall k c, like c k -> exists ch, zget b k = Some ch /\ zlen ch = 64 * (mx * c_h c * (my * c_v c)).
Record pk (s : pst) : Prop := {
  pk_inv : sinv p_dec p_st buf_ok s;
  pk_good : good (p_dec s);
  pk_static : static (p_dec s) = static d0;
  pk_full : full (p_buf s) }.
Definition psafe {A} (P : A -> pst -> Prop) (r : res A) (s' : pst) : Prop :=
  (forall p, r <> Panic p) /\ forall a, r = Ok a -> pk s' /\ P a s'.

Lemma psafe_bind {A B} (x : M pst A) (f : A -> M pst B) P Q s :
  wp x s (psafe P) -> (forall a s', pk s' -> P a s' -> wp (f a) s' (psafe Q)) -> wp (bind x f) s (psafe Q).
Proof.
  intros Hx Hf. unfold wp, bind in *. destruct (x s) as [r s1]. cbn [fst snd] in Hx. destruct Hx as (H1 & H2).
  destruct r as [a|e|p|]; cbn [fst snd].
  - destruct (H2 a eq_refl). now apply Hf.
  - split; discriminate.
  - now specialize (H1 p).
  - split; discriminate.
Qed.
Lemma psafe_ret {A} (a : A) (P : A -> pst -> Prop) s : pk s -> P a s -> wp (ret a) s (psafe P).
Proof. intros H HP. split; [discriminate|]. intros b E. injection E as <-. auto. Qed.
Lemma psafe_fail {A} e (P : A -> pst -> Prop) s : wp (fail e) s (psafe P).
Proof. split; discriminate. Qed.
Lemma psafe_mono {A} (P Q : A -> pst -> Prop) x s : wp x s (psafe P) -> (forall a s', P a s' -> Q a s') -> wp x s (psafe Q).
Proof. intros [H1 H2] H. split; [exact H1|]. intros a E. destruct (H2 a E). auto. Qed.
Lemma psafe_getp {B} (k : decoder -> M pst B) P s : wp (k (p_dec s)) s (psafe P) -> wp (bind getp k) s (psafe P).
Proof. auto. Qed.
Lemma psafe_getps {B} (k : bst -> M pst B) P s : wp (k (p_st s)) s (psafe P) -> wp (bind getps k) s (psafe P).
Proof. auto. Qed.
Lemma psafe_lift {A} (r : res A) (P : A -> pst -> Prop) s : pk s -> (forall p, r <> Panic p) -> (forall a, r = Ok a -> P a s) ->
  wp (lift r) s (psafe P).
Proof. intros H H1 H2. split; [exact H1|]. intros a E. split; [exact H|]. now apply H2. Qed.
Lemma psafe_mfor : forall (c : nat) i (body : Z -> M pst unit) s, pk s ->
  (forall j s', i <= j < i + Z.of_nat c -> pk s' -> wp (body j) s' (psafe (fun _ _ => True))) -> wp (mfor c i body) s (psafe (fun _ _ => True)).
Proof.
  induction c as [|c IH]; intros i body s H Hb; cbn [mfor]; [now apply psafe_ret|].
  eapply psafe_bind; [apply Hb; [lia|exact H]|]. intros _ s' H' _. apply IH; [exact H'|]. intros j s2 Hj. apply Hb. lia.
Qed.
(** From the invariant of [DecodeInv] *)
Lemma psafe_of {A} (P : A -> pst -> Prop) x s : pk s -> wp x s (dstep p_dec p_st buf_ok P s) ->
  (forall p, fst (x s) <> Panic p) -> static (p_dec (snd (x s))) = static (p_dec s) -> full (p_buf (snd (x s))) -> wp x s (psafe P).
Proof.
  intros [I1 I2 I3 I4] W H1 H2 H3. unfold wp in *. destruct W as [W1 _ _ _ W2 W3]. split; [exact H1|].
  intros a E. split; [|now apply W3]. split; auto; [eauto|congruence].
Qed.

Lemma static_here d : static d = static d0 -> map geo (d_comps d) = map geo (d_comps d0) /\ d_incs d = d_incs d0 /\
  d_info d = d_info d0 /\ d_mcux d = d_mcux d0 /\ d_mcuy d = d_mcuy d0 /\ d_inter d = d_inter d0.
Proof. unfold static. intros E. repeat split; congruence. Qed.
Lemma comps_len s : pk s -> zlen (d_comps (p_dec s)) = i_comps (d_info d0).
Proof. intros [_ [G _] S _]. destruct (static_here _ S) as (_ & _ & E & _). congruence. Qed.
Lemma like_cok c k : like c k -> cok c.
Proof.
  intros H. change (cok (geo c)). unfold NoPanic.like in H. eapply Forall_zget; [exact H|]. apply Forall_map.
  eapply Forall_impl; [|exact Hcok]. intros a Ha. exact Ha.
Qed.

Lemma full_set b k c x : full b -> zget b k = Some c -> zlen x = zlen c -> full (zset b k x).
Proof.
  intros H E L j cj Hj. destruct (H j cj Hj) as (ch & Ej & Lj). pose proof (zget_some _ _ _ E) as Hr. pose proof (zget_some _ _ _ Hj) as Hr'.
  rewrite BaseFacts.zget_zset by lia. destruct ((j =? k) && (k <? zlen b)) eqn:T; [|eauto].
  exists x. assert (j = k) by lia. subst j. rewrite E in Ej. injection Ej as <-. split; [reflexivity|congruence].
Qed.

Lemma get_comp_safe k s : pk s -> 0 <= k < i_comps (d_info d0) ->
  wp (get_comp k) s (psafe (fun c s' => s' = s /\ zget (d_comps (p_dec s)) k = Some c /\ like c k)).
Proof.
  intros Hp Hk. unfold get_comp. apply psafe_getp. pose proof (comps_len _ Hp) as L. destruct (static_here _ (pk_static _ Hp)) as (F & _).
  unfold at_. destruct (zget (d_comps (p_dec s)) k) as [c|] eqn:E.
  2:{ apply zget_none in E. lia. }
  apply psafe_lift; [exact Hp|discriminate|]. intros a Ea. injection Ea as <-. split; [reflexivity|]. split; [reflexivity|].
  unfold NoPanic.like. rewrite <- F. now rewrite zget_map, E.
Qed.
Lemma block_inside W H i j : 0 <= i < H -> 0 <= j < W -> 0 <= j + i * W /\ j + i * W + 1 <= W * H.
Proof. clear. intros. nia. Qed.
Lemma get_block_safe k c i j s : pk s -> like c k -> 0 <= i < my * c_v c -> 0 <= j < mx * c_h c ->
  wp (get_block k (64 * (j + i * (mx * c_h c)))) s (psafe (fun b s' => s' = s /\ blk b)).
Proof.
  intros Hp Hk Hi Hj. eapply psafe_mono; [apply psafe_of; [exact Hp|apply get_block_step; apply Hp| | |]|]; unfold get_block.
  - destruct (pk_full _ Hp k c Hk) as (ch & E & L). rewrite E. unfold slice.
    pose proof (block_inside _ _ _ _ Hi Hj) as [B1 B2].
    replace (_ && _ && _) with true; [discriminate|]. symmetry. clear - B1 B2 L. revert B1 B2 L. generalize (j + i * (mx * c_h c)) (mx * c_h c * (my * c_v c)). intros. lia.
  - destruct (zget (p_buf s) k); [destruct (slice _ _ _)|]; reflexivity.
  - destruct (zget (p_buf s) k); [destruct (slice _ _ _)|]; apply Hp.
  - intros a s' [H1 H2]. auto.
Qed.
Lemma put_block_safe k c i j b s : pk s -> blk b -> like c k -> 0 <= i < my * c_v c -> 0 <= j < mx * c_h c ->
  wp (put_block k (64 * (j + i * (mx * c_h c))) b) s (psafe (fun _ _ => True)).
Proof.
  intros Hp Hb Hk Hi Hj. destruct (pk_full _ Hp k c Hk) as (ch & E & L).
  apply psafe_of; [exact Hp|apply put_block_step; [apply Hp|exact Hb]| | |]; unfold put_block; rewrite E; cbn [fst snd p_dec p_buf]; [discriminate|reflexivity|].
  eapply full_set; [apply Hp|exact E|]. destruct Hb as [Lb _]. pose proof (block_inside _ _ _ _ Hi Hj) as [B1 B2].
  unfold splice. rewrite !zlen_app, zlen_firstn, zlen_skipn. clear - B1 B2 L Lb. revert B1 B2 L. generalize (j + i * (mx * c_h c)) (mx * c_h c * (my * c_v c)). unfold zlen in *. intros. lia.
Qed.
Lemma on_st_safe {A} (x : M bst A) (Q : A -> Prop) s : pk s -> wp x (p_st s) (fine Q (p_st s)) ->
  wp (on_st x) s (psafe (fun a s' => Q a /\ p_dec s' = p_dec s /\ p_buf s' = p_buf s)).
Proof.
  intros Hp H. apply psafe_of; [exact Hp|apply pstep_st; [apply Hp|exact H]| | |]; unfold wp, on_st in *; destruct (x (p_st s)) as [r st]; cbn [fst snd p_dec p_buf] in *.
  - destruct H as [_ [(a & -> & _)|(e & ->)]]; discriminate.
  - reflexivity.
  - apply Hp.
Qed.
Lemma count_p_safe s : pk s -> wp count_restart_p s (psafe (fun _ _ => True)).
Proof.
  intros Hp. eapply psafe_mono; [apply psafe_of; [exact Hp|apply count_restart_p_step; apply Hp| | |]|auto];
    unfold count_restart_p; pose proof (tick_static (p_dec s) (p_st s)) as T1; destruct (tick_nopanic (p_dec s) (p_st s)) as [T2 _];
    destruct (tick (p_dec s) (p_st s)) as [[r d] st]; cbn [fst snd p_dec p_buf] in *; auto. apply Hp.
Qed.
Lemma set_pred_safe k dc s : pk s -> wp (set_pred k dc) s (psafe (fun _ s' => p_buf s' = p_buf s)).
Proof.
  intros Hp. apply psafe_of; [exact Hp|apply set_pred_step; apply Hp| | |]; unfold set_pred, modp; cbn [fst snd p_dec p_buf]; [discriminate| |apply Hp].
  unfold static. cbn [d_incs d_opt d_info d_inter d_hmax d_vmax d_ratio d_mcux d_mcuy d_cc d_comps set_d_comps]. f_equal.
  destruct (zget (d_comps (p_dec s)) k) as [c|] eqn:E; [|reflexivity]. eapply map_zset_same; [exact E|reflexivity].
Qed.
Lemma prog_dc_safe t k coef s : pk s -> dc_ok t -> in16 coef -> 0 <= k < i_comps (d_info d0) ->
  wp (prog_dc t k coef) s (psafe (fun v s' => in16 v /\ p_buf s' = p_buf s)).
Proof.
  intros Hp Ht Hc Hk. pose proof (pk_inv _ Hp) as (_ & Hs & _). unfold prog_dc. apply psafe_getp. destruct (_ =? 0).
  - eapply psafe_bind; [now apply get_comp_safe|]. intros c s1 _ (-> & _).
    eapply psafe_bind; [apply on_st_safe; [exact Hp|now apply prog_dc_first_fine]|].
    intros [v dc] s2 H2 (Hv & _ & Eb). cbn [fst] in Hv.
    eapply psafe_bind; [now apply set_pred_safe|]. intros u3 s3 H3 Eb3. apply psafe_ret; auto. split; [exact Hv|congruence].
  - eapply psafe_mono; [apply on_st_safe; [exact Hp|now apply prog_dc_refine_fine]|]. intros a s' (H1 & _ & H3). auto.
Qed.
Lemma modps_safe f s : pk s -> ok_s (f (p_st s)) -> band2 (f (p_st s)) -> b_rd (f (p_st s)) = b_rd (p_st s) ->
  wp (modps f) s (psafe (fun _ s' => s' = mkPst (p_dec s) (f (p_st s)) (p_buf s))).
Proof.
  intros Hp H1 H2 H3. apply psafe_of; [exact Hp|apply modps_step; auto; apply Hp| | |]; unfold modps; cbn [fst snd p_dec p_buf]; [discriminate|reflexivity|apply Hp].
Qed.
Lemma table_nopanic l i : forall p, prog_table l i <> Panic p.
Proof. unfold prog_table. destruct (zget l i) as [[t|]|]; discriminate. Qed.

Lemma scan_blocks_safe k c W H : like c k -> 0 < W <= mx * c_h c -> H <= my * c_v c ->
  forall fuel i j s, pk s -> 0 <= j <= W -> 0 <= i -> wp (scan_blocks fuel k W H i j) s (psafe (fun _ _ => True)).
Proof.
  intros Hk HW HH. pose proof (like_cok _ _ Hk) as (St & _).
  assert (Hk' : forall s, pk s -> 0 <= k < i_comps (d_info d0)).
  { intros s Hp. rewrite <- (comps_len _ Hp). unfold NoPanic.like in Hk. apply zget_some in Hk. destruct (static_here _ (pk_static _ Hp)) as (F & _).
    rewrite <- F in Hk. unfold zlen in *. rewrite map_length in Hk. exact Hk. }
  induction fuel as [|f IH]; intros i j s Hp Hj Hi0; cbn [scan_blocks];
    (destruct (H <=? i) eqn:Eh; [now apply psafe_ret|]).
  - split; discriminate.
  - destruct (W <=? j) eqn:Ew; [apply IH; auto; lia|].
    eapply psafe_bind; [apply get_comp_safe; [exact Hp|now apply (Hk' s)]|]. intros c' s1 _ (-> & Ec & Hl). cbv zeta.
    assert (Es : c_stride c' / 8 = mx * c_h c).
    { assert (E : geo c' = geo c) by (unfold NoPanic.like in *; rewrite Hl in Hk; congruence).
      change (c_stride c') with (c_stride (geo c')). rewrite E. change (c_stride (geo c)) with (c_stride c). rewrite St. rewrite Z.mul_comm. apply Z.div_mul. lia. }
    rewrite Es.
    eapply psafe_bind; [apply (get_block_safe k c); auto; lia|]. intros b s1 _ [-> Hb].
    apply psafe_getp. pose proof (pk_inv _ Hp) as (Hh & Hs & Hband & Hrd & Hbuf).
    eapply psafe_bind with (P := fun '(i', j') s' => 0 <= i' /\ 0 <= j' < W).
    { destruct (d_ss (p_dec s) =? 0).
      - eapply psafe_bind with (P := fun t s' => dc_ok t /\ s' = s).
        { apply psafe_lift; auto; [apply table_nopanic|]. intros t Et. split; auto.
          eapply prog_table_ok; [exact Et|apply Hh]. }
        intros t s2 _ [Ht ->].
        eapply psafe_bind; [apply prog_dc_safe; auto; [now apply blk_zn|now apply (Hk' s)]|]. intros v s3 H3 [Hv _].
        eapply psafe_bind; [apply (put_block_safe k c); auto; [now apply blk_zset|lia|lia]|]. intros _ s4 H4 _.
        apply psafe_ret; [exact H4|]. lia.
      - eapply psafe_bind with (P := fun t s' => ac_ok t /\ s' = s).
        { apply psafe_lift; auto; [apply table_nopanic|]. intros t Et. split; auto.
          eapply prog_table_ok; [exact Et|apply Hh]. }
        intros t s2 _ [[Ht Hac] ->]. destruct Hband as [Hb1 Hb2].
        destruct (d_ah (p_dec s) =? 0).
        + apply psafe_getps. destruct (0 <? b_eob (p_st s)) eqn:Ee.
          * eapply psafe_bind with (P := fun _ _ => True).
            { eapply psafe_mono; [apply modps_safe; auto; split; assumption|auto]. }
            intros _ s3 H3 _. apply psafe_ret; auto.
            assert (0 <= (j + b_eob (p_st s) - 1) / W) by (apply Z.div_pos; lia).
            pose proof (Z.mod_pos_bound (j + b_eob (p_st s) - 1) W ltac:(lia)). split; [lia|assumption].
          * eapply psafe_bind; [apply on_st_safe; [exact Hp|now apply decode_mcu_ac_first_fine]|].
            intros b' s3 H3 (Hb' & _ & _).
            eapply psafe_bind; [apply (put_block_safe k c); auto; lia|]. intros. apply psafe_ret; auto. lia.
        + eapply psafe_bind; [apply on_st_safe; [exact Hp|now apply decode_mcu_ac_refine_fine]|].
          intros b' s3 H3 (Hb' & _ & _).
          eapply psafe_bind; [apply (put_block_safe k c); auto; lia|]. intros. apply psafe_ret; auto. lia. }
    intros [i' j'] s2 H2 (Hi' & Hj').
    eapply psafe_bind; [now apply count_p_safe|]. intros _ s3 H3 _.
    apply IH; auto; lia.
Qed.

Lemma scan_dc_at_safe t k c i j v0 h0 s : pk s -> dc_ok t -> 0 <= k < i_comps (d_info d0) -> like c k ->
  0 <= i < my -> 0 <= j < mx -> 0 <= v0 < c_v c -> 0 <= h0 < c_h c -> wp (scan_dc_at t k c i j v0 h0) s (psafe (fun _ _ => True)).
Proof.
  intros Hp Ht Hk Hl Hi Hj Hv0 Hh0. pose proof (scan_dc_at_step t k c i j v0 h0 s (pk_inv _ Hp) Ht) as W.
  destruct (pk_full _ Hp k c Hl) as (ch & E & L). pose proof (pk_inv _ Hp) as (_ & _ & _ & _ & Hbuf). pose proof (like_cok _ _ Hl) as (St & _).
  assert (Hpos : 64 * (j * c_h c + h0 + (i * c_v c + v0) * c_stride c / 8) = 64 * (j * c_h c + h0 + (i * c_v c + v0) * (mx * c_h c))).
  { rewrite St. replace ((i * c_v c + v0) * (8 * (mx * c_h c))) with ((i * c_v c + v0) * (mx * c_h c) * 8) by ring. now rewrite Z.div_mul. }
  unfold scan_dc_at. cbv zeta. rewrite Hpos. apply wp_bind. unfold wp at 1, get, wp_then. cbn [fst snd].
  apply wp_bind. unfold lift, at_. rewrite E. unfold wp at 1. cbn [fst snd wp_then].
  assert (B : 0 <= i * c_v c + v0 < my * c_v c /\ 0 <= j * c_h c + h0 < mx * c_h c) by (clear - Hi Hj Hv0 Hh0; nia).
  destruct B as [R1 R2]. pose proof (block_inside _ _ _ _ R1 R2) as [R3 R4].
  set (pos := 64 * (j * c_h c + h0 + (i * c_v c + v0) * (mx * c_h c))) in *.
  assert (B : 0 <= pos < zlen ch) by (unfold pos; rewrite L; clear - R3 R4; lia).
  destruct (zget ch pos) as [coef|] eqn:Ech.
  2:{ apply zget_none in Ech. exfalso. clear - Ech B. lia. }
  apply wp_bind. unfold wp at 1. cbn [fst snd wp_then].
  assert (Hco : in16 coef) by (eapply Forall_zget; [exact Ech|]; eapply Forall_zget; eauto).
  eapply psafe_bind; [apply prog_dc_safe; auto|]. intros v s2 H2 [Hv Eb]. split; [discriminate|]. intros a _. split; [|exact I].
  destruct H2 as [(A1 & A2 & A3 & A4 & A5) B2 B3 B4]. cbn [snd]. split; cbn [p_dec p_buf]; auto.
  - unfold sinv. cbn [p_dec p_st p_buf]. repeat (split; [assumption|]). unfold buf_ok. cbn [p_buf].
    apply Forall_zset; [exact A5|]. apply Forall_zset; [|exact Hv]. eapply Forall_zget; eauto.
  - eapply full_set; [exact B4|rewrite Eb; exact E|]. unfold zset, zlen. now rewrite BaseFacts.nupd_length.
Qed.
Lemma scan_dc_component_safe i j k s : pk s -> 0 <= i < my -> 0 <= j < mx -> 0 <= k < 4 -> wp (scan_dc_component i j k) s (psafe (fun _ _ => True)).
Proof.
  intros Hp Hi Hj Hk. unfold scan_dc_component. apply psafe_getp. pose proof (pk_inv _ Hp) as (Hh & _).
  destruct Hh as (Htab & [? ? ? ? ? Hz4 Hzo ? ? ? ? ? ? ? ? ?] & _).
  unfold at_ at 1. destruct (zget (d_zorder (p_dec s)) k) as [x|] eqn:Ex.
  2:{ apply zget_none in Ex. unfold zlen in Ex. lia. }
  eapply psafe_bind with (P := fun y s' => y = x /\ s' = s); [apply psafe_lift; [exact Hp|discriminate|intros a Ea; now injection Ea as <-]|].
  intros y s1 _ [-> ->]. pose proof (Forall_zget _ _ _ _ Ex Hzo) as Hx. cbv beta in Hx.
  pose proof (comps_len _ Hp) as L. destruct (zlen (d_comps (p_dec s)) <=? x) eqn:El; [apply psafe_fail|].
  eapply psafe_bind; [apply get_comp_safe; [exact Hp|lia]|]. intros c s1 _ (-> & Ec & Hl).
  eapply psafe_bind with (P := fun t s' => dc_ok t /\ s' = s).
  { apply psafe_lift; auto; [apply table_nopanic|]. intros t Et. split; auto. eapply prog_table_ok; [exact Et|apply Htab]. }
  intros t s1 _ [Ht ->]. pose proof (like_cok _ _ Hl) as (_ & C1 & C2 & _).
  eapply psafe_bind with (P := fun _ _ => True).
  { apply psafe_mfor; auto. intros vs s2 Hv H2. apply psafe_mfor; auto. intros hs s3 Hs3 H3.
    apply scan_dc_at_safe; auto; lia. }
  intros _ s4 H4 _. now apply count_p_safe.
Qed.

Lemma dims_nopanic d : forall p, check_component_dimensions d <> Panic p.
Proof. intros p. unfold check_component_dimensions. destruct (find _ _); [apply chroma_nopanic|discriminate]. Qed.

Lemma parse_entropy_safe s : pk s -> wp parse_entropy_coded_data s (psafe (fun _ _ => True)).
Proof.
  intros Hp. unfold parse_entropy_coded_data. apply psafe_getp.
  eapply psafe_bind with (P := fun _ s' => s' = s).
  { apply psafe_lift; auto. apply dims_nopanic. }
  intros _ s1 _ ->.
  eapply psafe_bind; [apply modps_safe; auto; [apply ok_reset|apply Hp]|]. intros _ s2 H2 _.
  eapply psafe_bind with (P := fun _ _ => True).
  { pose proof H2 as [(Hh & Hs & Hband & Hrd & Hbuf) G2 S2 F2]. unfold wp, modp. cbn [fst snd]. split; [discriminate|]. intros _ _. split; [|exact I].
    split; cbn [p_dec p_buf]; auto.
    - unfold sinv. cbn [p_dec p_st]. split; [apply hinv_upd; [exact Hh|apply map_pred_ok]|auto].
    - apply good_upd; [exact G2|apply map_pred_ok].
    - rewrite <- S2. unfold static. cbn [d_incs d_opt d_info d_inter d_hmax d_vmax d_ratio d_mcux d_mcuy d_cc d_comps set_d_comps]. f_equal.
      rewrite map_map. apply map_ext. intros c. reflexivity. }
  intros _ s3 H3 _. apply psafe_getp.
  destruct (_ <? _) eqn:Enc; [apply psafe_fail|].
  destruct (static_here _ (pk_static _ H3)) as (_ & Ein & Ei & Ex & Ey & Et). destruct Hsides as (S1 & S2 & S3 & S4).
  pose proof (comps_len _ H3) as L. pose proof (pk_inv _ H3) as ((_ & [? ? ? ? ? Hz4 Hzo ? ? ? ? ? ? ? ? ?] & _) & _).
  destruct (d_nscans _ =? 1) eqn:E1.
  - destruct (_ && _); [apply psafe_fail|]. cbv zeta. destruct (zlen _ <=? _) eqn:El; [apply psafe_fail|].
    assert (0 <= zn (d_zorder (p_dec s3)) 0).
    { destruct (d_zorder (p_dec s3)) as [|z zs]; [discriminate|]. apply Forall_cons_iff in Hzo. cbn. tauto. }
    eapply psafe_bind; [apply get_comp_safe; [exact H3|lia]|]. intros c s4 _ (-> & _ & Hl).
    pose proof (like_cok _ _ Hl) as (_ & C1 & C2 & C3).
    rewrite Ei, Ex, Ey, Et, S1, S2, S3, S4. destruct (_ || _) eqn:Eyy; apply (scan_blocks_safe _ c); auto; try lia; try (specialize (C3 Eyy); lia); clear - Hmx Hmy C1 C2; nia.
  - destruct (negb _); [apply psafe_fail|]. rewrite Ex, Ey, S1, S2.
    apply psafe_mfor; auto. intros i s4 Hi4 H4. apply psafe_mfor; auto. intros j s5 Hi5 H5.
    apply psafe_mfor; auto. intros k s6 Hi6 H6. apply scan_dc_component_safe; auto; try lia.
    assert (num_components (d_incs (p_dec s3)) <= 4) by (destruct (d_incs (p_dec s3)); cbn; lia). lia.
Qed.

Lemma get_marker_safe s : pk s -> wp get_marker s (psafe (fun _ _ => True)).
Proof.
  intros Hp. apply psafe_of; [exact Hp|apply get_marker_step; apply Hp| | |]; unfold get_marker; destruct (b_marker (p_st s));
    try destruct (scan_marker _ _) as [? ?]; cbn [fst snd p_dec p_buf]; try discriminate; try reflexivity; apply Hp.
Qed.
Lemma on_hd_safe {A} (x : M hst A) P s : pk s -> keeps hstatic x ->
  wp x (mkHst (p_dec s) (b_rd (p_st s))) (hstepG good P (mkHst (p_dec s) (b_rd (p_st s)))) ->
  wp (on_hd x) s (psafe (fun _ _ => True)).
Proof.
  intros Hp Hk H. eapply psafe_mono; [apply psafe_of; [exact Hp|apply pstep_hd; [apply Hp|exact H]| | |]|auto]; unfold wp, on_hd in *;
    specialize (Hk (mkHst (p_dec s) (b_rd (p_st s)))); destruct (x _) as [r h]; unfold hstatic in Hk; cbn [fst snd p_dec p_buf hd_dec] in *; [|exact Hk|apply Hp].
  intros p Ep. destruct H as [_ _ _ _ H _ _]. specialize (H (pk_good _ Hp) p Ep). assert (Hs : static (hd_dec h) = static d0) by (rewrite Hk; apply Hp).
  destruct (static_here _ Hs) as (_ & _ & Ei & _). rewrite Ei in H. lia.
Qed.

Lemma scan_loop_safe : forall fuel mk seen s, pk s -> wp (scan_loop fuel mk seen) s (psafe (fun _ _ => True)).
Proof.
  induction fuel as [|f IH]; intros mk seen s Hp; cbn [scan_loop]; (destruct (is_eoi mk); [now apply psafe_ret|]); [split; discriminate|].
  pose proof (pk_inv _ Hp) as (Hh & Hs & Hband & Hrd & Hbuf).
  destruct mk; try now apply psafe_ret.
  - eapply psafe_bind; [eapply on_hd_safe; [exact Hp| |now apply parse_huffman_step]|].
    { unfold parse_huffman, hstatic. ksteps. apply st_dht_loop. }
    intros u1 s1 H1 _. eapply psafe_bind; [now apply get_marker_safe|]. intros o s2 H2 _. destruct o; [|apply psafe_fail]. now apply IH.
  - eapply psafe_bind; [eapply on_hd_safe; [exact Hp|apply st_parse_sos|now apply parse_sos_step]|].
    intros u1 s1 H1 _. apply psafe_getp.
    eapply psafe_bind.
    { apply modps_safe; auto; try apply H1. unfold band2, update_progressive_params. cbn [b_ss b_se].
      destruct (pk_inv _ H1) as ((_ & [? ? ? ? ? ? ? ? ? ? ? ? ? ? ? ?] & _) & _). lia. }
    intros _ s2 H2 _.
    eapply psafe_bind; [now apply parse_entropy_safe|]. intros _ s3 H3 _.
    eapply psafe_bind; [now apply get_marker_safe|]. intros o s4 H4 _.
    destruct o as [m'|]; [|apply psafe_fail]. cbv zeta. apply psafe_getp.
    destruct (_ <? _); [apply psafe_fail|].
    eapply psafe_bind; [apply modps_safe; auto; [apply ok_reset|apply H4]|]. intros _ s5 H5 _. now apply IH.
Qed.
End scans.

(** * The whole call *)
Section whole.
Variables (cpu : isa) (o : options) (d : decoder) (w h : Z).
Let n := (w + 7) / 8.
Let m := (h + 7) / 8.
Let out := o_colorspace (d_opt d).
Hypothesis Hinv : hinv d.
Hypothesis Hgood : good d.
Hypothesis Hsh : shape d.
Hypothesis Hw : 0 < w <= 65527.
Hypothesis Hh : 0 < h <= 65527.
Hypothesis Hsize : i_width (d_info d) = w /\ i_height (d_info d) = h.
Hypothesis Hmax : d_hmax d = 1 /\ d_vmax d = 1.
Hypothesis Hcomps : num_components (d_incs d) = i_comps (d_info d).
Hypothesis Hcc : d_cc d = choose_color_convert cpu (o_use_unsafe o).
Hypothesis Hfmt : format_ok cpu o out w.

Lemma comps13 : i_comps (d_info d) = 1 /\ d_incs d = GRAYSCALE \/ i_comps (d_info d) = 3 /\ d_incs d = YCbCr.
Proof. destruct (sh_incs _ Hsh) as [E|[E _]]; rewrite E in Hcomps; cbn in Hcomps; [right|left]; auto. Qed.

Lemma job_fine d1 j g : static d1 = static d -> good d1 ->
  (exists y0 y1 y2, j = [y0; y1; y2] /\ zlen y0 = 64 * n /\ (out <> GRAYSCALE -> zlen y1 = 64 * n /\ zlen y2 = 64 * n)) ->
  g_comps g = d_comps d1 -> g_idct g = d_idct d1 -> g_cc g = d_cc d1 -> g_in g = d_incs d1 -> g_out g = out -> g_width g = w ->
  g_chunk g = w * num_components out * 8 ->
  exists px, post_process j (g_comps g) (g_idct g) (g_cc g) (g_in g) (g_out g) (zrepeat 0 (g_chunk g)) (g_width g) = Ok px /\ zlen px = g_chunk g.
Proof.
  intros Hst Hg1 Hj -> -> -> -> -> -> ->.
  assert (Hs1 : shape d1) by (eapply shape_static; eauto).
  assert (E : d_incs d1 = d_incs d /\ d_opt d1 = d_opt d /\ d_info d1 = d_info d /\ d_hmax d1 = d_hmax d /\ d_vmax d1 = d_vmax d /\ d_cc d1 = d_cc d) by (unfold static in Hst; repeat split; congruence).
  destruct E as (E1 & E2 & E3 & E4 & E5 & Hc1).
  assert (H13 : i_comps (d_info d1) = 1 \/ i_comps (d_info d1) = 3) by (rewrite E3; destruct comps13 as [[]|[]]; auto).
  assert (Hsz1 : i_width (d_info d1) = w /\ i_height (d_info d1) = h) by (rewrite E3; exact Hsize).
  assert (Hm1 : d_hmax d1 = 1 /\ d_vmax d1 = 1) by (rewrite E4, E5; exact Hmax).
  assert (Hcc1 : d_cc d1 = choose_color_convert cpu (o_use_unsafe o)) by congruence.
  assert (Hf1 : format_ok cpu o (o_colorspace (d_opt d1)) w) by (rewrite E2; exact Hfmt).
  destruct (whole_comps d1 w h) as (c0 & cr & Ec & _); auto.
  assert (Ec' : d_comps d1 = c0 :: tl (d_comps d1)) by (rewrite Ec; reflexivity).
  pose proof (whole_job cpu o d1 w h Hg1 Hs1 Hw Hh Hsz1 Hm1 H13 Hcc1 Hf1 c0 j Ec') as W. cbv zeta in W.
  unfold geom_of in W. cbn [g_comps g_idct g_cc g_in g_out g_chunk g_width] in W. rewrite E2 in W. fold out in W.
  destruct Hsz1 as [W1 _]. destruct Hm1 as [M1 M2]. rewrite W1, M1, M2 in W. rewrite !Z.mul_1_r in W.
  apply W; [reflexivity|]. unfold fit. rewrite E2. exact Hj.
Qed.

Notation good_state := (pk d n m).


Definition plain (c : component) : Prop := c_h c = 1 /\ c_v c = 1 /\ c_stride c = 8 * n.
Lemma plain_like d1 : Forall plain (d_comps d) -> static d1 = static d -> Forall plain (d_comps d1).
Proof.
  clear. unfold static. intros Hp E. assert (map geo (d_comps d1) = map geo (d_comps d)) as Ec by congruence. clear E.
  assert (H : Forall plain (map geo (d_comps d1))) by (rewrite Ec; apply Forall_map; exact Hp). apply (proj1 (Forall_map geo _ _)) in H. exact H.
Qed.
Lemma plain_cok : Forall plain (d_comps d) -> Forall (cok d n m n m) (d_comps d).
Proof. clear. intros H. eapply Forall_impl; [|exact H]. intros c (A & B & C). unfold cok. rewrite A, B, C. lia. Qed.

Lemma plain_here : Forall plain (d_comps d) /\
  d_mcux d = n /\ d_mcuy d = m /\ u16 (i_width (d_info d) + 7) / 8 = n /\ u16 (i_height (d_info d) + 7) / 8 = m.
Proof.
  destruct Hmax as [M1 M2]. destruct Hsize as [E1 E2]. pose proof (sh_comp _ Hsh M1 M2) as F. rewrite E1 in F.
  assert (Hne : d_comps d <> []).
  { destruct Hgood as [L _]. intros E. rewrite E in L. change (zlen (@nil component)) with 0 in L. destruct comps13 as [[]|[]]; lia. }
  destruct (sh_mcu _ Hsh M1 M2 Hne) as [X Y]. rewrite E1 in X. rewrite E2 in Y. split; [exact F|]. split; [exact X|]. split; [exact Y|].
  rewrite E1, E2. unfold u16. rewrite !Z.mod_small by lia. split; reflexivity.
Qed.

Lemma finish_safe s : good_state s -> exists px s', finish_progressive_decoding (n * 64) s = (Ok px, s') /\ zlen px = w * h * num_components out.
Proof.
  intros Hp. pose proof Hp as [P1 P2 P3 P4].
  assert (E : d_incs (p_dec s) = d_incs d /\ d_opt (p_dec s) = d_opt d /\ d_info (p_dec s) = d_info d /\ d_hmax (p_dec s) = d_hmax d /\
              d_vmax (p_dec s) = d_vmax d /\ d_inter (p_dec s) = d_inter d /\ d_ratio (p_dec s) = d_ratio d) by (unfold static in P3; repeat split; congruence).
  destruct E as (E1 & E2 & E3 & E4 & E5 & E6 & E7).
  destruct Hmax as [M1 M2]. destruct Hsize as [Ew Eh].
  assert (Hpl := plain_here). destruct Hpl as (Fp & _). pose proof (plain_like (p_dec s) Fp P3) as F.
  assert (Hn : 0 < n) by (unfold n; lia). assert (Hm : 0 < m) by (unfold m; lia).
  assert (Hnc : 0 < num_components out) by (destruct out; cbn [num_components]; lia).
  assert (Hrw : 0 < w * num_components out) by (apply Z.mul_pos_pos; lia).
  assert (L : zlen (d_comps (p_dec s)) = i_comps (d_info d)) by (destruct P2 as [L _]; congruence).
  assert (Hc0 : exists c0 cr, d_comps (p_dec s) = c0 :: cr).
  { destruct (d_comps (p_dec s)) as [|c0 cr]; [|eauto]. change (zlen (@nil component)) with 0 in L. destruct comps13 as [[]|[]]; lia. }
  destruct Hc0 as (c0 & cr & Ec).
  assert (C0 : c_h c0 = 1 /\ c_v c0 = 1) by (rewrite Ec in F; apply Forall_cons_iff in F; unfold plain in F; tauto). destruct C0 as [C1 C2].
  assert (Ein : d_inter d = false) by (rewrite (sh_inter _ Hsh), M1, M2; reflexivity).
  unfold finish_progressive_decoding, bind at 1, on_dec.
  assert (Hset : exists g, finish_setup (n * 64) (p_dec s) = (Ok g, p_dec s) /\ g_comps g = d_comps (p_dec s) /\ g_ccap g = 64 * n /\ g_width g = w /\
     g_chunk g = w * num_components out * 8 /\ g_in g = d_incs (p_dec s) /\ g_out g = out /\ g_idct g = d_idct (p_dec s) /\
     g_cc g = d_cc (p_dec s) /\
     g_total g = (w + 8) * (h + 8) * num_components out /\ g_mcuw g = n * 64 /\ g_bias g = 1).
  { unfold finish_setup, set_upsampling, bind, get, ret, lift. rewrite E4, E5, M1, M2. cbn [Z.eqb andb Pos.eqb].
    rewrite E7, (sh_ratio _ Hsh), E1, E6, Ein. rewrite andb_false_r. cbn [ratio_is_h ratio_is_hv]. cbv iota beta. rewrite Ec. change (at_ (c0 :: cr) 0) with (Ok c0). cbv iota beta.
    eexists. split; [reflexivity|]. cbn [g_comps g_ccap g_width g_chunk g_in g_out g_idct g_cc g_total g_mcuw g_bias].
    unfold capacity, extra_space. rewrite ?E1, E2, E3, E4, E5, E6, Ein, Ew, Eh, M1, M2, C1, C2. fold out.
    unfold u16. rewrite !Z.mod_small by lia. repeat (split; [reflexivity || assumption || lia || ring|]). reflexivity. }
  destruct Hset as (g & Eg & I1 & I2 & I3 & I4 & I5 & I6 & I7 & I7' & I8 & I9 & I10). rewrite Eg.
  assert (Hch : g_chunk g = 8 * (w * num_components out)) by (rewrite I4; ring).
  unfold bind at 1, get. cbn [p_dec p_buf]. unfold bind at 1, lift at 1.
  assert (Hjobs : exists jobs, prog_jobs g (p_dec s) (p_buf s) = Ok jobs /\ m <= zlen jobs /\
     Forall (fun j => exists y0 y1 y2, j = [y0; y1; y2] /\ zlen y0 = 64 * n /\ (out <> GRAYSCALE -> zlen y1 = 64 * n /\ zlen y2 = 64 * n)) jobs).
  { unfold prog_jobs. replace (g_chunk g =? 0) with false by lia. rewrite I2.
    assert (Hchan : forall k, (Z.of_nat k) < i_comps (d_info d) -> zlen (chan (p_buf s) k) = 64 * (n * m)).
    { intros k Hk. destruct (zget (d_comps (p_dec s)) (Z.of_nat k)) as [ck|] eqn:Ek; [|apply zget_none in Ek; lia].
      destruct (P4 (Z.of_nat k) ck) as (c & E & Lc).
      { unfold like. replace (map geo (d_comps d)) with (map geo (d_comps (p_dec s))) by (unfold static in P3; congruence). now rewrite BaseFacts.zget_map, Ek. }
      destruct (Forall_zget _ _ _ _ Ek F) as (Q1 & Q2 & _). rewrite Q1, Q2, !Z.mul_1_r in Lc. unfold chan. unfold zget in E. replace (Z.of_nat k <? 0) with false in E by lia.
      rewrite Nat2Z.id in E. apply nth_error_nth with (d := []) in E. rewrite E. exact Lc. }
    unfold chunks_exact. replace (64 * n <=? 0) with false by lia. cbv zeta iota beta.
    assert (Hrows : m <= g_total g / g_chunk g) by (rewrite I8, Hch; apply rows_in_output; unfold m; lia).
    assert (Hchunks : forall k, Z.of_nat k < i_comps (d_info d) -> let l := chunks_n (Z.to_nat (64 * n)) (chan (p_buf s) k) in
       Forall (fun c => length c = Z.to_nat (64 * n)) l /\ m <= Z.of_nat (length l)).
    { intros k Hk. cbv zeta. destruct (chunks_many (chan (p_buf s) k) (Z.to_nat (64 * n)) ltac:(lia)) as (X1 & X2 & _). split; [exact X1|].
      eapply rows_in_plane; [exact Hn| |exact X2]. rewrite (Hchan k Hk). lia. }
    destruct comps13 as [[N1 N2]|[N1 N2]].
    - rewrite E1, N2. change (num_components GRAYSCALE =? 3) with false. cbv iota. destruct (Hchunks 0%nat ltac:(lia)) as [X1 X2].
      eexists. split; [reflexivity|]. split.
      + unfold zlen. rewrite firstn_length, map_length. lia.
      + apply DecodeInv.Forall_firstn, Forall_map. eapply Forall_impl; [|exact X1]. intros y Ly. exists y, [], []. split; [reflexivity|]. split; [cbv beta in Ly; unfold zlen; rewrite Ly; lia|].
        intros H. exfalso. apply H. destruct (sh_incs _ Hsh) as [X|[_ X]]; [congruence|exact X].
    - rewrite E1, N2. change (num_components YCbCr =? 3) with true. cbv iota.
      destruct (d_comps (p_dec s)) as [|d0 [|c1 ds]] eqn:Ed; try (unfold zlen in L; cbn [length] in L; lia).
      change (at_ (d0 :: c1 :: ds) 1) with (Ok c1). cbv iota beta. rewrite I9, I10.
      apply Forall_cons_iff in F. destruct F as [_ F]. apply Forall_cons_iff in F. destruct F as [(D1 & D2 & _) _]. rewrite D1, D2.
      replace (n * 64 * 1 * 1 * 1) with (64 * n) by ring. replace (64 * n <=? 0) with false by lia. cbv iota.
      destruct (Hchunks 0%nat ltac:(lia)) as [X1 X2]. destruct (Hchunks 1%nat ltac:(lia)) as [Y1 Y2]. destruct (Hchunks 2%nat ltac:(lia)) as [Z1 Z2].
      eexists. split; [reflexivity|]. split.
      + unfold zlen. rewrite firstn_length, map_length, zip3_length. apply min3_le; assumption.
      + apply DecodeInv.Forall_firstn, Forall_map. pose proof (zip3_Forall _ _ _ _ _ _ X1 Y1 Z1) as HZ. eapply Forall_impl; [|exact HZ].
        intros [[y b] r] (L0 & L1 & L2). exists y, b, r. unfold zlen. rewrite L0, L1, L2. split; [reflexivity|]. split; [lia|]. intros _. lia. }
  destruct Hjobs as (jobs & -> & Lj & Fj). cbv iota beta. unfold bind at 1, lift at 1.
  assert (HJ : Forall (job_ok g (fun _ _ => True)) jobs).
  { eapply Forall_impl; [|exact Fj]. intros j Hj. destruct (job_fine (p_dec s) j g P3 P2 Hj I1 I7 I7' I5 I6 I3 I4) as (px & X & Y). exists px. auto. }
  destruct (all_jobs g (w * num_components out) (fun _ _ => True) Hrw Hch _ HJ) as (os & Eos & _).
  destruct (assemble_rows g (w * num_components out) (fun _ _ => True) Hrw Hch jobs h (g_total g)) as (px & Epx & Lpx & _); [unfold m in Lj; lia|exact HJ|].
  rewrite Eos in *. cbn [rbind] in Epx. apply (f_equal (fun r => match r with Ok p => p | _ => [] end)) in Epx. cbv beta iota in Epx.
  unfold ret. eexists _, _. split; [reflexivity|].
  assert (Eo : output_len (p_dec s) = w * num_components out * h) by (unfold output_len; rewrite E2, E3, Ew, Eh; fold out; ring).
  cbn [p_dec]. rewrite Eo, Epx, Lpx. ring.
Qed.

Lemma whole_progressive rd : Forall byte rd ->
  match fst (decode_progressive (mkHst d rd)) with
  | Ok px => zlen px = w * h * num_components out
  | Err _ => True
  | _ => False
  end.
Proof.
  intros Hrd. pose proof (decode_progressive_fin (mkHst d rd) Hinv Hrd) as [_ _ Hfuel _ _]. revert Hfuel.
  unfold decode_progressive. cbn [hd_dec hd_rd].
  assert (Hpl := plain_here). destruct Hpl as (Fp & Hsides).
  assert (Hn : 0 < n) by (unfold n; lia). assert (Hm : 0 < m) by (unfold m; lia).
  assert (Ein : d_inter d = false) by (destruct Hmax as [M1 M2]; rewrite (sh_inter _ Hsh), M1, M2; reflexivity).
  unfold prog_counts. rewrite Ein. destruct Hsize as [Ew Eh]. rewrite Ew, Eh. fold n m.
  destruct (check_component_dimensions d) as [u|e|p|] eqn:Ed; cbn [rbind]; [|intros _; exact I| |].
  2:{ exfalso. eapply dims_nopanic; eauto. }
  2:{ exfalso. eapply check_dims_nofuel; eauto. }
  assert (Hfull : forall b, (forall k, 0 <= k < i_comps (d_info d) -> exists ch, zget b k = Some ch /\ zlen ch = 64 * (n * m)) -> full d n m b).
  { intros b Hb k c Hl. unfold like in Hl. pose proof (zget_some _ _ _ Hl) as Hr. unfold zlen in Hr. rewrite map_length in Hr.
    destruct Hgood as [L _]. unfold zlen in L. destruct (Hb k ltac:(lia)) as (ch & E & Lc). exists ch. split; [exact E|]. rewrite Lc.
    assert (P : plain (geo c)) by (eapply Forall_zget; [exact Hl|]; apply Forall_map; exact Fp). destruct P as (Q1 & Q2 & _).
    change (c_h (geo c)) with (c_h c) in Q1. change (c_v (geo c)) with (c_v c) in Q2. rewrite Q1, Q2, !Z.mul_1_r. reflexivity. }
  assert (Hal : exists buf, alloc_blocks (Z.to_nat (num_components (d_incs d))) 0 n m (d_comps d) [[]; []; []] = Ok buf /\ full d n m buf).
  { destruct Hgood as [L _]. assert (Hz : forall c, plain c -> n * 64 * c_v c * c_h c * m = 64 * (n * m)) by (intros c (-> & -> & _); ring).
    assert (Lz : zlen (zrepeat 0 (64 * (n * m))) = 64 * (n * m)) by (rewrite zlen_repeat; nia).
    set (z := zrepeat 0 (64 * (n * m))) in *.
    destruct comps13 as [[N1 N2]|[N1 N2]].
    - rewrite N2. change (Z.to_nat (num_components GRAYSCALE)) with 1%nat.
      destruct (d_comps d) as [|c0 cs]; [change (zlen (@nil component)) with 0 in L; lia|]. apply Forall_cons_iff in Fp. destruct Fp as [F0 _].
      cbn [alloc_blocks]. change (at_ (c0 :: cs) 0) with (Ok c0). cbv iota. rewrite (Hz c0 F0). fold z. eexists. split; [reflexivity|].
      apply Hfull. intros k Hk. assert (k = 0) as -> by lia. exists z. split; [reflexivity|exact Lz].
    - rewrite N2. change (Z.to_nat (num_components YCbCr)) with 3%nat.
      destruct (d_comps d) as [|c0 [|c1 [|c2 cs]]]; try (unfold zlen in L; cbn [length] in L; lia).
      apply Forall_cons_iff in Fp. destruct Fp as [F0 Fp]. apply Forall_cons_iff in Fp. destruct Fp as [F1 Fp]. apply Forall_cons_iff in Fp. destruct Fp as [F2 _].
      cbn [alloc_blocks]. change (0 + 1) with 1. change (1 + 1) with 2. change (at_ (c0 :: c1 :: c2 :: cs) 0) with (Ok c0). change (at_ (c0 :: c1 :: c2 :: cs) 1) with (Ok c1). change (at_ (c0 :: c1 :: c2 :: cs) 2) with (Ok c2).
      cbv iota. rewrite (Hz c0 F0), (Hz c1 F1), (Hz c2 F2). fold z. eexists. split; [reflexivity|].
      apply Hfull. intros k Hk. exists z. split; [|exact Lz]. assert (k = 0 \/ k = 1 \/ k = 2) as [-> | [-> | ->]] by lia; reflexivity. }
  destruct Hal as (buf & Eb & Fb). pose proof (alloc_blocks_ok (Z.to_nat (num_components (d_incs d))) 0 n m (d_comps d) [[]; []; []] ltac:(repeat constructor)) as Hb16. rewrite Eb in *.
  set (s0 := mkPst d (bst_new_progressive (d_ah d) (d_al d) (d_ss d) (d_se d) rd) buf).
  assert (H0 : good_state s0).
  { split; [|exact Hgood|reflexivity|exact Fb]. unfold sinv. cbn [p_dec p_st s0]. split; [exact Hinv|].
    destruct Hinv as (_ & [? ? ? ? ? ? ? ? ? ? ? ? ? ? ? ?] & _).
    split; [unfold ok_s, bst_new_progressive; cbn; lia|]. split; [unfold band2, bst_new_progressive; cbn; lia|]. split; [exact Hrd|exact Hb16]. }
  pose proof (plain_cok Fp) as Hck. assert (H3 : i_comps (d_info d) <= 3) by (destruct comps13 as [[]|[]]; lia).
  assert (W : wp (progressive_scans n) s0 (fun r _ => (forall p, r <> Panic p) /\ forall px, r = Ok px -> zlen px = w * h * num_components out)).
  { unfold progressive_scans.
    assert (Hbind : forall {A} (x : M pst A) (f : A -> M pst (list Z)) s (P : A -> pst -> Prop), wp x s (psafe d n m P) ->
      (forall a s', good_state s' -> P a s' -> wp (f a) s' (fun r _ => (forall p, r <> Panic p) /\ forall px, r = Ok px -> zlen px = w * h * num_components out)) ->
      wp (bind x f) s (fun r _ => (forall p, r <> Panic p) /\ forall px, r = Ok px -> zlen px = w * h * num_components out)).
    { intros A x f s P Hx Hf. unfold wp, bind in *. destruct (x s) as [r s1]. cbn [fst snd] in Hx. destruct Hx as (X1 & X2).
      destruct r as [a|e|p|]; cbn [fst snd]; [destruct (X2 a eq_refl); now apply Hf|split; discriminate|now specialize (X1 p)|split; discriminate]. }
    eapply Hbind; [apply (parse_entropy_safe d n m n m); auto|]. intros _ s1 H1 _.
    apply wp_bind. unfold wp at 1, getps, wp_then. cbn [fst snd].
    destruct (b_marker (p_st s1)) as [mk|]; [|split; discriminate].
    eapply Hbind; [apply modps_safe; [exact H1| | |reflexivity]; apply H1|]. intros _ s2 H2 _.
    eapply Hbind; [apply (scan_loop_safe d n m n m); auto|]. intros _ s3 H4 _. unfold wp.
    destruct (finish_safe s3 H4) as (px & s' & -> & Lpx). cbn [fst]. split; [discriminate|]. intros x Ex. injection Ex as <-. exact Lpx. }
  fold s0. unfold wp in W. destruct (progressive_scans n s0) as [r s]. cbn [fst snd] in *. destruct W as [W1 W2]. intros Hf.
  destruct r as [px|e|p|]; [now apply W2|exact I|now specialize (W1 p)|congruence].
Qed.
End whole.

Lemma progressive_safe cpu o buf d rest :
  Forall byte buf ->
  decode_headers (mkHst (new_with_options cpu o) buf) = (Ok tt, mkHst d rest) ->
  d_prog d = true ->
  num_components (d_incs d) = i_comps (d_info d) ->
  d_hmax d = 1 -> d_vmax d = 1 ->
  i_width (d_info d) <= 65527 -> i_height (d_info d) <= 65527 ->
  format_ok cpu o (o_colorspace (d_opt d)) (i_width (d_info d)) ->
  match fst (decode_buffer (new_with_options cpu o) buf) with
  | Ok px => zlen px = i_width (d_info d) * i_height (d_info d) * num_components (o_colorspace (d_opt d))
  | Err _ => True
  | _ => False
  end.
Proof.
  intros Hb E Hp Hc H1 H2 Hw Hh Hf.
  pose proof (decode_headers_step (mkHst (new_with_options cpu o) buf) (hinv_new cpu o) Hb) as W. unfold wp in W. rewrite E in W.
  destruct W as [I1 S1 _ U1 _ G1 _]. cbn [fst snd hd_dec hd_rd] in *. specialize (G1 (good_new cpu o) tt eq_refl).
  assert (Hsh : shape d).
  { apply (headers_shape _ _ (hinv_new cpu o : hinv (hd_dec (mkHst (new_with_options cpu o) buf))) Hb E). apply shape_new. }
  assert (Hcc : d_cc d = choose_color_convert cpu (o_use_unsafe o)) by (destruct U1 as (_ & _ & _ & U & _); exact U).
  assert (Hl : 0 < i_width (d_info d) /\ 0 < i_height (d_info d)).
  { destruct G1 as (_ & L & _). destruct L as [L1 L2]; [|lia]. rewrite <- Hc. destruct (d_incs d); discriminate. }
  unfold decode_buffer, on_buffer, decode_internal. unfold bind at 1. rewrite E. unfold bind, getd. cbn [hd_dec]. rewrite Hp.
  assert (Hrd : Forall byte rest) by (eapply suffix_Forall; eauto).
  pose proof (whole_progressive cpu o d (i_width (d_info d)) (i_height (d_info d)) I1 G1 Hsh ltac:(lia) ltac:(lia) ltac:(auto) ltac:(auto) Hc Hcc Hf rest Hrd) as R.
  destruct (decode_progressive (mkHst d rest)) as [r hs]. exact R.
Qed.
