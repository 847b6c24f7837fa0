(** A successful header function reads a prefix of the input and depends on nothing else:
    the same prefix followed by anything gives the same result. *)
From Coq Require Import ZArith String List Bool Lia.
From Coq Require Import ZifyBool ZifyNat ZifyN.
From Verif Require Import Base Types Huffman State Headers BaseFacts HeaderFacts SpecSegments
  TableSegments.
Import ListNotations.
Local Open Scope Z_scope.
Local Open Scope m_scope.
Ltac Zify.zify_post_hook ::= Z.div_mod_to_equations.

Definition reads {A} (m : M hst A) (d : decoder) (a : A) (d' : decoder) (x : list Z) : Prop :=
  forall t, m (mkHst d (x ++ t)) = (Ok a, mkHst d' t).
Definition rdp {A} (m : M hst A) (P : A -> list Z -> Prop) : Prop :=
  forall s a s', Forall byte (hd_rd s) -> m s = (Ok a, s') ->
    exists x, hd_rd s = (x ++ hd_rd s')%list /\ P a x /\ reads m (hd_dec s) a (hd_dec s') x.

Lemma rdp_mono {A} (m : M hst A) (P Q : A -> list Z -> Prop) :
  rdp m P -> (forall a x, P a x -> Q a x) -> rdp m Q.
Proof. intros H HPQ s a s' Hb E. destruct (H s a s' Hb E) as (x & H1 & H2 & H3). exists x. auto. Qed.
Lemma split_bytes (s s' x : list Z) : Forall byte s -> s = (x ++ s')%list -> Forall byte x /\ Forall byte s'.
Proof. intros H ->. now apply Forall_app in H. Qed.
Lemma rdp_bind {A B} (m : M hst A) (k : A -> M hst B) (P : A -> list Z -> Prop) Q :
  rdp m P -> (forall a x, P a x -> Forall byte x -> rdp (k a) (fun b y => Q b (x ++ y)%list)) -> rdp (bind m k) Q.
Proof.
  intros Hm Hk s b s' Hb E. unfold bind in E. destruct (m s) as [[a| | |] s1] eqn:E1; try discriminate.
  destruct (Hm s a s1 Hb E1) as (x & H1 & H2 & H3). destruct (split_bytes _ _ _ Hb H1) as [Hx Hb1].
  destruct (Hk a x H2 Hx s1 b s' Hb1 E) as (y & H4 & H5 & H6).
  exists (x ++ y)%list. split; [|split; [exact H5|]].
  - now rewrite <- app_assoc, <- H4.
  - intros t. unfold bind. rewrite <- app_assoc, H3. apply H6.
Qed.
Lemma rdp_ret {A} (a : A) (P : A -> list Z -> Prop) : P a [] -> rdp (ret a) P.
Proof.
  intros H s b s' _ E. unfold ret in E. injection E as <- <-. exists []. repeat split; auto.
Qed.
Lemma rdp_lift {A} (r : res A) (P : A -> list Z -> Prop) : (forall a, r = Ok a -> P a []) -> rdp (lift r) P.
Proof.
  intros H s b s' _ E. unfold lift in E. injection E as -> <-. exists []. repeat split; auto.
Qed.
Lemma rdp_fail {A} e (P : A -> list Z -> Prop) : rdp (fail e) P.
Proof. intros s b s' _ E. discriminate. Qed.
Lemma rdp_getd {B} (k : decoder -> M hst B) Q : (forall d, rdp (k d) Q) -> rdp (bind getd k) Q.
Proof.
  intros H s b s' Hb E. unfold bind, getd in E. destruct (H _ s b s' Hb E) as (x & H1 & H2 & H3).
  exists x. split; [exact H1|]. split; [exact H2|]. intros t. unfold bind, getd. apply H3.
Qed.
Lemma rdp_modd f (P : unit -> list Z -> Prop) : P tt [] -> rdp (modd f) P.
Proof.
  intros H s b s' _ E. unfold modd in E. injection E as <- <-. exists []. repeat split; auto.
Qed.
Lemma rdp_map_err {A} e (m : M hst A) P : rdp m P -> rdp (map_err e m) P.
Proof.
  intros H s a s' Hb E. unfold map_err in E. destruct (m s) as [[b| | |] s1] eqn:E1; try discriminate.
  injection E as -> ->. destruct (H s a s' Hb E1) as (x & H1 & H2 & H3). exists x.
  split; [exact H1|]. split; [exact H2|]. intros t. unfold map_err. now rewrite H3.
Qed.
Lemma rdp_byte : rdp rd_byte (fun b x => x = [b]).
Proof.
  intros s b s' _ E. unfold rd_byte in E. destruct (hd_rd s) as [|a t] eqn:Er; [discriminate|].
  injection E as <- <-. exists [a]. repeat split; auto.
Qed.
Lemma rdp_u16 : rdp rd_u16 (fun n x => exists a b, x = [a; b] /\ n = a * 256 + b).
Proof.
  intros s n s' _ E. unfold rd_u16 in E. destruct (hd_rd s) as [|a [|b t]] eqn:Er; try discriminate.
  injection E as <- <-. exists [a; b]. repeat split; auto. now exists a, b.
Qed.
Lemma rdp_exact n e : rdp (rd_exact n e) (fun l x => x = l /\ zlen x = n).
Proof.
  intros s l s' _ E. unfold rd_exact in E. destruct (slice (hd_rd s) 0 n) as [v|] eqn:Es; [|discriminate].
  injection E as <- <-. unfold slice in Es. destruct (_ && _) eqn:Eb; [|discriminate].
  rewrite Z.sub_0_r in Es. cbn [Z.to_nat skipn] in Es. injection Es as <-.
  assert (zlen (firstn (Z.to_nat n) (hd_rd s)) = n) as Hl.
  { unfold zlen in *. rewrite firstn_length. lia. }
  exists (firstn (Z.to_nat n) (hd_rd s)). split; [|split; [auto|]].
  - cbn [hd_rd]. now rewrite firstn_skipn.
  - intros t. unfold rd_exact. cbn [hd_rd hd_dec].
    remember (firstn (Z.to_nat n) (hd_rd s)) as v eqn:Ev. clear Ev.
    assert (slice (v ++ t) 0 n = Some v) as ->.
    { unfold slice. replace ((0 <=? 0) && (0 <=? n) && (n <=? zlen (v ++ t))) with true.
      - rewrite Z.sub_0_r. cbn [Z.to_nat skipn]. f_equal. rewrite firstn_app.
        unfold zlen in Hl. replace (Z.to_nat n - length v)%nat with 0%nat by lia.
        rewrite firstn_O, app_nil_r, firstn_all2; auto. lia.
      - unfold zlen in *. rewrite app_length. lia. }
    f_equal. f_equal. rewrite skipn_app. unfold zlen in Hl.
    replace (Z.to_nat n - length v)%nat with 0%nat by lia. rewrite skipn_all2 by lia. reflexivity.
Qed.

(** * Loops: the fuel only has to cover what is read *)
Definition rdpf {A} (m : nat -> M hst A) (P : A -> list Z -> Prop) : Prop :=
  forall f s a s', Forall byte (hd_rd s) -> m f s = (Ok a, s') ->
    exists x, hd_rd s = (x ++ hd_rd s')%list /\ P a x /\
      forall f', (length x < f')%nat -> reads (m f') (hd_dec s) a (hd_dec s') x.
Lemma rdp_fuel_of {A} (m : nat -> M hst A) P : rdpf m P -> rdp (bind fuel_of m) P.
Proof.
  intros H s a s' Hb E. unfold bind, fuel_of in E. destruct (H _ s a s' Hb E) as (x & H1 & H2 & H3).
  exists x. split; [exact H1|]. split; [exact H2|]. intros t. unfold bind, fuel_of. cbn [hd_rd].
  apply H3. rewrite app_length. lia.
Qed.
Lemma rdpf_bind {A B} (m : nat -> M hst A) (k : A -> M hst B) P Q :
  rdpf m P -> (forall a x, P a x -> Forall byte x -> rdp (k a) (fun b y => Q b (x ++ y)%list)) ->
  rdpf (fun f => bind (m f) k) Q.
Proof.
  intros Hm Hk f s b s' Hb E. unfold bind in E. destruct (m f s) as [[a| | |] s1] eqn:E1; try discriminate.
  destruct (Hm f s a s1 Hb E1) as (x & H1 & H2 & H3). destruct (split_bytes _ _ _ Hb H1) as [Hx Hb1].
  destruct (Hk a x H2 Hx s1 b s' Hb1 E) as (y & H4 & H5 & H6).
  exists (x ++ y)%list. split; [|split; [exact H5|]].
  - now rewrite <- app_assoc, <- H4.
  - intros f' Hf t. unfold bind. rewrite <- app_assoc. rewrite app_length in Hf.
    rewrite H3 by lia. apply H6.
Qed.

(** A loop that runs [body] until [stop] says so; every round reads something *)
Lemma rdpf_loop {A B} (loop : nat -> A -> M hst B) (stop : A -> option B) (body : A -> M hst A)
  (P : A -> A -> list Z -> Prop) (Q : A -> B -> list Z -> Prop) :
  (forall f a s, loop f a s = match stop a with
                              | Some b => (Ok b, s)
                              | None => match f with O => (Fuel, s) | S f' => bind (body a) (loop f') s end
                              end) ->
  (forall a, stop a = None -> rdp (body a) (fun a' x => x <> [] /\ P a a' x)) ->
  (forall a b, stop a = Some b -> Q a b []) ->
  (forall a a' b x y, stop a = None -> P a a' x -> Q a' b y -> Q a b (x ++ y)%list) ->
  forall a, rdpf (fun f => loop f a) (Q a).
Proof.
  intros Hloop Hbody Hstop Hstep a f. revert a. induction f as [|f IH]; intros a s b s' Hb E; rewrite Hloop in E.
  - destruct (stop a) as [b0|] eqn:Es; [|discriminate]. injection E as <- <-.
    exists []. split; [reflexivity|]. split; [now apply Hstop|]. intros f' _ t. now rewrite Hloop, Es.
  - destruct (stop a) as [b0|] eqn:Es.
    { injection E as <- <-. exists []. split; [reflexivity|]. split; [now apply Hstop|].
      intros f' _ t. now rewrite Hloop, Es. }
    unfold bind in E. destruct (body a s) as [[a'| | |] s1] eqn:E1; try discriminate.
    destruct (Hbody a Es s a' s1 Hb E1) as (x & H1 & (H2 & H2') & H3).
    destruct (split_bytes _ _ _ Hb H1) as [Hx Hb1].
    destruct (IH a' s1 b s' Hb1 E) as (y & H4 & H5 & H6).
    exists (x ++ y)%list. split; [now rewrite <- app_assoc, <- H4|]. split; [now apply (Hstep a a')|].
    intros f' Hf t. rewrite app_length in Hf. destruct x as [|x0 x]; [congruence|]. cbn [length] in Hf.
    rewrite Hloop, Es. destruct f' as [|f']; [lia|]. unfold bind. rewrite <- app_assoc, H3.
    apply H6. lia.
Qed.

(** * Tables *)
Definition dht_body (len : Z) : M hst Z :=
  info <- rd_byte ;;
  let dc_or_ac := Z.land (shr info 4) 15 in
  let index := Z.land info 15 in
  if 4 <=? index then fail (EHuffmanDecode "Invalid DHT index" [index])
  else if 1 <? dc_or_ac then fail (EHuffmanDecode "Invalid DHT position" [dc_or_ac])
  else
    counts <- rd_exact 16 (EHuffmanDecode "Could not read bytes into the buffer" []) ;;
    let len1 := len - 17 in
    let sum := fold_left Z.add counts 0 in
    if 256 <? sum then
      fail (EHuffmanDecode "Encountered Huffman table with excessive length in DHT" [])
    else if len1 <? sum then
      fail (EHuffmanDecode "Excessive Huffman table" [sum; len1])
    else
      symbols <- rd_exact sum (EFormat "Could not read symbols into the buffer" []) ;;
      d <- getd ;;
      let values := (symbols ++ zrepeat 0 (256 - sum))%list in
      t <- lift (huffman_new (0 :: counts) values (dc_or_ac =? 0) (d_prog d)) ;;
      (if dc_or_ac =? 0
       then modd (fun d => set_d_dcts (zset (d_dcts d) index (Some t)) d)
       else modd (fun d => set_d_acts (zset (d_acts d) index (Some t)) d)) ;;;
      ret (len1 - sum).

Ltac bcase :=
  match goal with
  | |- context [match ?x with _ => _ end] =>
      lazymatch x with
      | context [match _ with _ => _ end] => fail
      | _ => destruct x
      end
  end.
Lemma dht_loop_eq f len s : dht_loop f len s =
  match (if len <=? 16 then Some len else None) with
  | Some b => (Ok b, s)
  | None => match f with O => (Fuel, s) | S f' => bind (dht_body len) (dht_loop f') s end
  end.
Proof.
  destruct f; cbn [dht_loop]; destruct (len <=? 16); try reflexivity.
  unfold dht_body, bind. cbv zeta.
  destruct (rd_byte s) as [[info| | |] s1]; try reflexivity.
  destruct (4 <=? _); [reflexivity|]. destruct (1 <? _); [reflexivity|].
  destruct (rd_exact 16 _ s1) as [[counts| | |] s2]; try reflexivity.
  destruct (256 <? _); [reflexivity|]. destruct (_ <? _); [reflexivity|].
  destruct (rd_exact _ _ s2) as [[symbols| | |] s3]; try reflexivity.
  unfold getd, lift. destruct (huffman_new _ _ _ _); try reflexivity.
  now destruct (_ =? 0).
Qed.
Ltac rstep :=
  lazymatch goal with
  | |- rdp (bind getd _) _ => apply rdp_getd; intros
  | |- rdp (bind (lift _) _) _ => eapply rdp_bind; [apply rdp_lift with (P := fun _ x => x = []); reflexivity|intros ? ? -> _]
  | |- rdp (bind (modd _) _) _ => eapply rdp_bind; [apply rdp_modd with (P := fun _ x => x = []); reflexivity|intros ? ? -> _]
  | |- rdp (bind rd_byte _) _ => eapply rdp_bind; [apply rdp_byte|intros ? ? -> ?]
  | |- rdp (bind rd_u16 _) _ => eapply rdp_bind; [apply rdp_u16|intros ? ? (? & ? & -> & ?) ?]
  | |- rdp (bind (map_err _ rd_u16) _) _ => eapply rdp_bind; [apply rdp_map_err, rdp_u16|intros ? ? (? & ? & -> & ?) ?]
  | |- rdp (bind (rd_exact _ _) _) _ => eapply rdp_bind; [apply rdp_exact|intros ? ? (-> & ?) ?]
  | |- rdp (if ?b then _ else _) _ => let E := fresh "E" in destruct b eqn:E
  | |- rdp (fail _) _ => apply rdp_fail
  | |- rdp (ret _) _ => apply rdp_ret
  | |- rdp (let _ := _ in _) _ => cbv zeta
  end.
Lemma zlen_app' {A} (a b : list A) : zlen (a ++ b) = zlen a + zlen b.
Proof. unfold zlen. rewrite app_length. lia. Qed.
Lemma zlen_cons' {A} (a : A) b : zlen (a :: b) = 1 + zlen b.
Proof. unfold zlen. cbn [length]. lia. Qed.
Lemma zlen_nil' {A} : zlen (@nil A) = 0. Proof. reflexivity. Qed.
Ltac zl := repeat first [rewrite zlen_app' in *|rewrite zlen_cons' in *|rewrite zlen_nil' in *].

Lemma dht_body_reads len : rdp (dht_body len) (fun len' x => x <> [] /\ zlen x = len - len' /\ len' >= 0).
Proof.
  unfold dht_body. repeat rstep.
  - eapply rdp_bind with (P := fun _ x => x = []).
    { destruct (_ =? 0); now apply rdp_modd. }
    intros _ ? -> _. apply rdp_ret. split; [discriminate|]. zl. lia.
Qed.
Lemma rdpf_dht len : rdpf (fun f => dht_loop f len) (fun rest x => zlen x = len - rest /\ (0 <= len -> 0 <= rest)).
Proof.
  apply (rdpf_loop dht_loop (fun len => if len <=? 16 then Some len else None) dht_body
           (fun len len' x => zlen x = len - len' /\ 0 <= len')
           (fun len rest x => zlen x = len - rest /\ (0 <= len -> 0 <= rest))).
  - exact dht_loop_eq.
  - intros a _. eapply rdp_mono; [apply dht_body_reads|]. cbv beta. intros a0 x (H1 & H2 & H3). repeat split; auto; lia.
  - intros a b H. destruct (a <=? 16); [|discriminate]. injection H as <-. zl. lia.
  - intros a a' b x y _ H1 H2. zl. lia.
Qed.

(** The two bytes of a segment length agree with what was read *)
Definition full (x : list Z) : Prop := exists a b t, x = a :: b :: t /\ zlen x = a * 256 + b.
Lemma full_intro a b t : 2 + zlen t = a * 256 + b -> full (a :: b :: t).
Proof. intros H. exists a, b, t. split; [reflexivity|]. zl. lia. Qed.

Lemma parse_huffman_reads : rdp parse_huffman (fun _ x => full x).
Proof.
  unfold parse_huffman. repeat rstep.
  apply rdp_fuel_of. eapply rdpf_bind; [apply rdpf_dht|]. cbv beta. intros rest y (Hx & Hr) _. repeat rstep.
  cbn [app]. apply full_intro. zl. lia.
Qed.

Definition dqt_body (len : Z) : M hst Z :=
  info <- rd_byte ;;
  let precision := shr info 4 in
  let position := Z.land info 15 in
  let size := 64 * (precision + 1) in
  if len <? size + 1 then fail (EDqtError "Invalid QT table bytes left" [len; size + 1])
  else if precision =? 0 then
    values <- rd_exact 64 (EFormat "Could not read symbols into the buffer" []) ;;
    if 4 <=? position then fail (EDqtError "Too large table position for QT" [position])
    else
      modd (fun d => set_d_qt (zset (d_qt d) position (Some (un_zig_zag values))) d) ;;;
      ret (len - 65)
  else if precision =? 1 then
    fail (EDqtError "Support for 16 bit quantization table is not complete" [])
  else fail (EDqtError "Expected QT precision value of either 0 or 1" [precision]).
Lemma dqt_loop_eq f len s : dqt_loop f len s =
  match (if len <=? 0 then Some tt else None) with
  | Some b => (Ok b, s)
  | None => match f with O => (Fuel, s) | S f' => bind (dqt_body len) (dqt_loop f') s end
  end.
Proof.
  destruct f; cbn [dqt_loop]; destruct (len <=? 0); try reflexivity.
  unfold dqt_body, bind. cbv zeta.
  destruct (rd_byte s) as [[info| | |] s1]; try reflexivity.
  destruct (_ <? _); [reflexivity|]. destruct (_ =? 0); [|now destruct (_ =? 1)].
  destruct (rd_exact _ _ s1) as [[counts| | |] s2]; try reflexivity.
  now destruct (4 <=? _).
Qed.
Lemma dqt_body_reads len : rdp (dqt_body len) (fun len' x => x <> [] /\ zlen x = len - len' /\ 0 <= len').
Proof.
  unfold dqt_body. repeat rstep. split; [discriminate|]. zl. unfold shr in *. change (2 ^ 4) with 16 in *. lia.
Qed.
Lemma rdpf_dqt len : rdpf (fun f => dqt_loop f len) (fun _ x => 0 <= len -> zlen x = len).
Proof.
  apply (rdpf_loop dqt_loop (fun len => if len <=? 0 then Some tt else None) dqt_body
           (fun len len' x => zlen x = len - len' /\ 0 <= len')
           (fun len _ x => 0 <= len -> zlen x = len)).
  - exact dqt_loop_eq.
  - intros a _. apply dqt_body_reads.
  - intros a b H. destruct (a <=? 0) eqn:E; [|discriminate]. unfold zlen; cbn [length]. lia.
  - intros a a' b x y _ H1 H2. zl. lia.
Qed.
Lemma parse_dqt_reads : rdp parse_dqt (fun _ x => full x).
Proof.
  unfold parse_dqt. repeat rstep. apply rdp_fuel_of. intros f s u s' Hb E1.
  destruct (rdpf_dqt _ f s u s' Hb E1) as (y & H1 & H2 & H3). exists y. split; [exact H1|]. split; [|exact H3].
  apply full_intro. lia.
Qed.

(** * Frame and scan headers *)
Lemma read_components_reads : forall n, rdp (read_components n) (fun cs x => zlen x = 3 * Z.of_nat n).
Proof.
  induction n; cbn [read_components]; repeat rstep.
  - reflexivity.
  - eapply rdp_bind; [exact IHn|]. cbv beta. intros rest y Hy _. apply rdp_ret. zl. lia.
Qed.
Lemma sof_components_reads : forall cs, rdp (sof_components cs) (fun _ x => x = []).
Proof.
  induction cs as [|c cs IH]; cbn [sof_components]; [now apply rdp_ret|]. repeat rstep.
  destruct (nth _ _ _) as [qt|]; [|apply rdp_fail]. cbv zeta.
  eapply rdp_bind; [exact IH|]. intros rest y -> _. now apply rdp_ret.
Qed.
Lemma parse_sof_reads sof : rdp (parse_start_of_frame sof) (fun _ x => full x).
Proof.
  unfold parse_start_of_frame. repeat rstep.
  eapply rdp_bind with (P := fun _ x => x = []).
  { destruct (_ =? 1); [now apply rdp_modd|now apply rdp_ret]. }
  intros _ ? -> _. repeat rstep. eapply rdp_bind; [apply read_components_reads|]. cbv beta. intros comps y Hy _.
  repeat rstep. eapply rdp_bind; [apply sof_components_reads|]. intros comps' ? -> _.
  apply rdp_modd. cbn [app]. apply full_intro. zl.
  match goal with H : Forall byte [?n], E : negb (_ =? 8 + 3 * ?n) = false |- _ => inversion H; subst end.
  unfold byte in *. lia.
Qed.
Lemma sos_components_reads : forall n i seen, rdp (sos_components n i seen) (fun _ x => zlen x = 2 * Z.of_nat n).
Proof.
  induction n; intros i seen; cbn [sos_components]; repeat rstep; [reflexivity|].
  match goal with |- rdp (match ?j with Some _ => _ | None => _ end) _ => destruct j as [j'|]; [|apply rdp_fail] end. repeat rstep.
  eapply rdp_mono; [apply IHn|]. cbv beta. intros _ x Hx. zl. lia.
Qed.
Lemma parse_sos_reads : rdp parse_sos (fun _ x => full x).
Proof.
  unfold parse_sos. repeat rstep. eapply rdp_bind; [apply sos_components_reads|]. cbv beta. intros _ y Hy _.
  repeat rstep. cbn [app]. apply full_intro. zl. lia.
Qed.

(** * The header loop *)
(** [rdp], provided something is left *)
Definition rdn {A} (m : M hst A) (P : A -> list Z -> Prop) : Prop :=
  forall s a s', Forall byte (hd_rd s) -> m s = (Ok a, s') -> hd_rd s' <> [] ->
    exists x, hd_rd s = (x ++ hd_rd s')%list /\ P a x /\ reads m (hd_dec s) a (hd_dec s') x.
Lemma rdp_rdn {A} (m : M hst A) P : rdp m P -> rdn m P.
Proof. intros H s a s' Hb E _. now apply H. Qed.

Lemma skip_reads msg a b p t d : zlen (a :: b :: p) = a * 256 + b ->
  skip_segment msg (mkHst d (a :: b :: p ++ t)%list) = (Ok tt, mkHst d t).
Proof.
  intros H. zl. unfold skip_segment, bind, rd_u16. cbn [hd_rd hd_dec].
  replace (a * 256 + b <? 2) with false by (unfold zlen in *; lia).
  unfold consume. cbn [hd_rd hd_dec]. f_equal. f_equal. rewrite skipn_app.
  replace (Z.to_nat _ - _)%nat with 0%nat by (unfold zlen in *; lia).
  rewrite skipn_all2 by (unfold zlen in *; lia). reflexivity.
Qed.
Lemma skip_segment_reads msg : rdn (skip_segment msg) (fun _ x => full x).
Proof.
  intros [d rd] u s' Hb E Hne. unfold skip_segment, bind, rd_u16 in E. cbn [hd_rd hd_dec] in *.
  destruct rd as [|a [|b t]]; try discriminate. cbn [hd_rd hd_dec] in E.
  destruct (_ <? 2) eqn:El; [discriminate|]. unfold consume in E. cbn [hd_rd hd_dec] in E.
  destruct u. injection E as <-. cbn [hd_rd] in Hne.
  assert (zlen (firstn (Z.to_nat (a * 256 + b - 2)) t) = a * 256 + b - 2) as Hl.
  { unfold zlen. rewrite firstn_length.
    destruct (le_lt_dec (Z.to_nat (a * 256 + b - 2)) (length t)); [lia|].
    exfalso. apply Hne. apply skipn_all2. lia. }
  exists (a :: b :: firstn (Z.to_nat (a * 256 + b - 2)) t). split; [|split].
  - cbn [app hd_rd]. now rewrite firstn_skipn.
  - apply full_intro. lia.
  - intros t'. cbn [app hd_dec]. apply skip_reads. zl. lia.
Qed.
Lemma parse_marker_reads m : rdn (parse_marker_inner m) (fun _ x => full x).
Proof.
  destruct m; cbn [parse_marker_inner]; try apply skip_segment_reads; try (apply rdp_rdn, rdp_fail).
  - assert (rdp (match unsupported_from_int n with
                 | Some f => fail (EUnsupported f)
                 | None => fail (EFormat "Unsupported image format" [])
                 end : M hst unit) (fun _ x => full x)) as Hu by (destruct (unsupported_from_int n); apply rdp_fail).
    destruct n as [|p|p]; try (apply rdp_rdn, Hu).
    + apply rdp_rdn, parse_sof_reads.
    + destruct p as [p|p|]; try (apply rdp_rdn, Hu). destruct p; try (apply rdp_rdn, Hu).
      apply rdp_rdn. rstep. apply parse_sof_reads.
  - apply rdp_rdn, parse_huffman_reads.
  - apply rdp_rdn, parse_sos_reads.
  - apply rdp_rdn, parse_dqt_reads.
  - apply rdp_rdn. repeat rstep. apply rdp_modd. cbn [app]. apply full_intro. zl. lia.
Qed.

Definition loop_next (f : nat) (m b : Z) : M hst unit :=
  d <- getd ;;
  if o_strict (d_opt d) && (3 <? b + 1) then
    fail (EFormatStatic "[strict-mode]: Extra bytes between headers")
  else header_loop f m (b + 1).
Definition marker_body (m : Z) : M hst unit :=
  match marker_from_u8 m with
  | Some n => parse_marker_inner n
  | None => skip_segment "Found a marker with invalid length "
  end.
Lemma marker_body_reads m : rdn (marker_body m) (fun _ x => full x).
Proof. unfold marker_body. destruct (marker_from_u8 m); [apply parse_marker_reads|apply skip_segment_reads]. Qed.
Lemma marker_sos m : (match marker_from_u8 m with Some n => is_sos n | None => false end) = (m =? 218).
Proof.
  destruct (m =? 218) eqn:E.
  - now replace m with 218 by lia.
  - destruct (marker_from_u8 m) as [n|] eqn:En; [|reflexivity].
    unfold marker_from_u8 in En. destruct m as [|p|p]; try discriminate.
    repeat (destruct p as [p|p|]; try discriminate; try (injection En as <-; reflexivity)).
Qed.
Lemma header_loop_eq f last before s : header_loop (S f) last before s =
  match hd_rd s with
  | [] => (Err (EFormat "failed to fill whole buffer" []), s)
  | m :: t =>
      let s1 := mkHst (hd_dec s) t in
      if last =? 255 then
        bind (marker_body m) (fun _ => if m =? 218 then ret tt else loop_next f m 0) s1
      else loop_next f m before s1
  end.
Proof.
  cbn [header_loop]. unfold bind at 1. unfold rd_byte. destruct (hd_rd s) as [|m t]; [reflexivity|].
  cbn [hd_dec]. fold (loop_next f m 0). fold (loop_next f m before). destruct (last =? 255); [|reflexivity].
  pose proof (marker_sos m) as Hs. unfold marker_body. destruct (marker_from_u8 m) as [n|]; [|].
  - now rewrite Hs.
  - now rewrite <- Hs.
Qed.
Lemma loop_next_ok f m b s u s' : loop_next f m b s = (Ok u, s') ->
  (o_strict (d_opt (hd_dec s)) && (3 <? b + 1) = false) /\ header_loop f m (b + 1) s = (Ok u, s').
Proof.
  unfold loop_next, bind, getd. destruct (_ && _); [discriminate|]. auto.
Qed.

Lemma header_loop_reads : forall last before, rdpf (fun f => header_loop f last before) (fun _ x => x <> []).
Proof.
  intros last before f. revert last before.
  induction f as [|f IH]; intros last before s u s' Hb E; [discriminate|]. rewrite header_loop_eq in E.
  destruct (hd_rd s) as [|m t] eqn:Er; [discriminate|]. cbv zeta in E.
  inversion Hb as [|? ? Hm Ht]; subst.
  destruct (last =? 255) eqn:El.
  - unfold bind in E. destruct (marker_body m _) as [[u1| | |] s2] eqn:Eb; try discriminate.
    destruct (m =? 218) eqn:Em.
    + injection E as <- <-. assert (m = 218) as -> by lia.
      change (marker_body 218) with parse_sos in Eb.
      destruct (parse_sos_reads (mkHst (hd_dec s) t) _ _ Ht Eb) as (x & H1 & _ & H3). cbn [hd_rd hd_dec] in *.
      exists (218 :: x). split; [now rewrite H1|]. split; [discriminate|].
      intros [|f'] Hf t'; [cbn [length] in Hf; lia|]. rewrite header_loop_eq. cbn [app hd_rd hd_dec]. cbv zeta.
      rewrite El. unfold bind. change (marker_body 218) with parse_sos. rewrite H3. now destruct u1.
    + apply loop_next_ok in E. destruct E as [E1 E].
      assert (hd_rd s2 <> []) as Hne. { intros Hz. destruct f; [discriminate|]. rewrite header_loop_eq, Hz in E. discriminate. }
      destruct (marker_body_reads m (mkHst (hd_dec s) t) _ _ Ht Eb Hne) as (x & H1 & _ & H3). cbn [hd_rd hd_dec] in *.
      destruct (split_bytes _ _ _ Ht H1) as [_ Hb2].
      destruct (IH _ _ s2 u s' Hb2 E) as (y & H4 & H5 & H6).
      exists (m :: x ++ y). split; [rewrite H1, H4; now rewrite app_comm_cons, app_assoc|]. split; [discriminate|].
      intros [|f'] Hf t'; [cbn [length] in Hf; lia|]. cbn [length] in Hf. rewrite app_length in Hf.
      rewrite header_loop_eq. cbn [app hd_rd hd_dec]. cbv zeta. rewrite El. unfold bind.
      rewrite <- app_assoc, H3, Em. unfold loop_next, bind, getd. cbn [hd_dec]. rewrite E1. apply H6. lia.
  - apply loop_next_ok in E. cbn [hd_dec] in E. destruct E as [E1 E].
    destruct (IH _ _ (mkHst (hd_dec s) t) u s' Ht E) as (y & H4 & H5 & H6). cbn [hd_rd hd_dec] in *.
    exists (m :: y). split; [now rewrite H4|]. split; [discriminate|].
    intros [|f'] Hf t'; [cbn [length] in Hf; lia|]. cbn [length] in Hf.
    rewrite header_loop_eq. cbn [app hd_rd hd_dec]. cbv zeta. rewrite El.
    unfold loop_next, bind, getd. cbn [hd_dec]. rewrite E1. apply H6. lia.
Qed.
Lemma decode_headers_reads : rdp decode_headers (fun _ _ => True).
Proof.
  unfold decode_headers. repeat rstep. apply rdp_fuel_of. intros f s u s' Hb E1.
  destruct (header_loop_reads 0 0 f s u s' Hb E1) as (y & H1 & H2 & H3). exists y. auto.
Qed.
