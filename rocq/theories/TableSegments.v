(** Parsing of DHT and DQT segments. *)
From Coq Require Import ZArith String List Bool Lia.
From Coq Require Import ZifyBool ZifyNat ZifyN.
From Verif Require Import Base Types Huffman State Bitstream Headers BaseFacts HeaderFacts
  SpecHuffman SpecSegments Obs HuffmanProofs HuffmanPrefix HuffDecode.
Import ListNotations.
Local Open Scope Z_scope.
Local Open Scope m_scope.
Ltac Zify.zify_post_hook ::= Z.div_mod_to_equations.

(** * Executing the readers on known bytes *)
Lemma bind_ok {S A B} (m : M S A) (k : A -> M S B) s a s' :
  m s = (Ok a, s') -> bind m k s = k a s'.
Proof. unfold bind. intros ->. reflexivity. Qed.
Lemma bind_err {S A B} (m : M S A) (k : A -> M S B) s e s' :
  m s = (Err e, s') -> bind m k s = (Err e, s').
Proof. unfold bind. intros ->. reflexivity. Qed.

Lemma rd_byte_cons d b t : rd_byte (mkHst d (b :: t)) = (Ok b, mkHst d t).
Proof. reflexivity. Qed.
Lemma rd_u16_be16 d n t : 0 <= n <= 65535 -> rd_u16 (mkHst d (be16 n ++ t)%list) = (Ok n, mkHst d t).
Proof. intros. unfold rd_u16, be16. cbn [app hd_rd hd_dec]. do 2 f_equal. lia. Qed.
Lemma rd_exact_app d n e l t : zlen l = n -> rd_exact n e (mkHst d (l ++ t)%list) = (Ok l, mkHst d t).
Proof.
  intros <-. unfold rd_exact. cbn [hd_rd hd_dec].
  rewrite slice_in_range; [|pose proof (zlen_nonneg l); lia|
    rewrite zlen_app; pose proof (zlen_nonneg t); lia].
  change (Z.to_nat 0) with 0%nat. cbn [skipn]. rewrite Z.sub_0_r.
  unfold zlen. rewrite Nat2Z.id, firstn_app, Nat.sub_diag, firstn_all, skipn_app,
    Nat.sub_diag, skipn_all. cbn [firstn skipn]. rewrite app_nil_r. reflexivity.
Qed.
Lemma map_err_ok {S A} e (m : M S A) s a s' : m s = (Ok a, s') -> map_err e m s = (Ok a, s').
Proof. unfold map_err. intros ->. reflexivity. Qed.
Lemma blen_zlen {A} (l : list A) : blen l = zlen l.
Proof. reflexivity. Qed.

Lemma fold_left_add l : forall a, fold_left Z.add l a = a + fold_right Z.add 0 l.
Proof.
  induction l as [|x l IH]; intros a; cbn [fold_left fold_right]; [lia|]. rewrite IH. lia.
Qed.

Lemma tab_ok_implements counts symbols t :
  table_def counts symbols -> kraft counts < 65536 -> tab_ok counts symbols t ->
  implements t counts symbols.
Proof.
  intros Hd Hk Ht s Hs r. unfold r. split.
  - intros. eapply decode_huff_ok; eauto.
  - intros. eapply decode_huff_none; eauto.
Qed.

Lemma new_implements counts symbols is_dc prog t :
  table_def counts symbols ->
  huffman_new (0 :: counts) (symbols ++ zrepeat 0 (256 - zlen symbols)) is_dc prog = Ok t ->
  implements t counts symbols.
Proof.
  intros Hdef E.
  assert (kraft counts < 65536 /\ (is_dc = true -> Forall (fun s => s <= 15) symbols)) as [Hk Hs].
  { destruct (Z_lt_dec (kraft counts) 65536) as [Hk|Hk];
      [destruct (Forall_dec (fun s => s <= 15) (fun s => Z_le_dec s 15) symbols)|].
    - auto.
    - split; [assumption|]. intros ->. exfalso.
      destruct (huffman_new_err counts symbols Hdef true prog) as (e & E'); [tauto|congruence].
    - exfalso. destruct (huffman_new_err counts symbols Hdef is_dc prog) as (e & E');
        [tauto|congruence]. }
  destruct (huffman_new_ok counts symbols Hdef is_dc prog Hk Hs) as (t' & E' & Ht & _).
  rewrite E' in E. injection E as <-. now apply tab_ok_implements.
Qed.

Definition put_table (ac : bool) (dest : Z) (t : hufftable) (d : decoder) : decoder :=
  if ac then set_d_acts (zset (d_acts d) dest (Some t)) d
  else set_d_dcts (zset (d_dcts d) dest (Some t)) d.

Definition values_of (symbols : list Z) : list Z :=
  (symbols ++ zrepeat 0 (256 - zlen symbols))%list.

(** One table *)
Lemma dht_step f len d t rest :
  0 <= hf_dest t <= 3 -> table_def (hf_counts t) (hf_symbols t) ->
  zlen (huff_def_bytes t) <= len ->
  dht_loop (S f) len (mkHst d (huff_def_bytes t ++ rest)%list)
  = match huffman_new (0 :: hf_counts t) (values_of (hf_symbols t)) (negb (hf_ac t)) (d_prog d) with
    | Ok h => dht_loop f (len - zlen (huff_def_bytes t))
                (mkHst (put_table (hf_ac t) (hf_dest t) h d) rest)
    | Err e => (Err e, mkHst d rest)
    | Panic p => (Panic p, mkHst d rest)
    | Fuel => (Fuel, mkHst d rest)
    end.
Proof.
  intros Hd Hdef Hlen. destruct t as [ac dest counts symbols].
  cbn [hf_ac hf_dest hf_counts hf_symbols] in *.
  unfold huff_def_bytes in *. cbn [hf_ac hf_dest hf_counts hf_symbols] in *.
  destruct Hdef as (Hc16 & Hcb & Hsum & H256 & Hsb).
  assert (zlen counts = 16) as Hzc by (unfold zlen; lia).
  rewrite zlen_cons, zlen_app, Hzc in Hlen.
  pose proof (zlen_nonneg symbols).
  assert (zlen symbols = fold_right Z.add 0 counts) as Hzs by exact Hsum.
  cbn [dht_loop app]. replace (len <=? 16) with false by lia.
  erewrite bind_ok by apply rd_byte_cons.
  set (info := (if ac then 16 else 0) + dest).
  assert (Z.land (shr info 4) 15 = if ac then 1 else 0) as E1.
  { unfold info, shr. change 15 with (2 ^ 4 - 1). rewrite land_ones_mod by lia.
    change (2 ^ 4) with 16. destruct ac; lia. }
  assert (Z.land info 15 = dest) as E2.
  { unfold info. change 15 with (2 ^ 4 - 1). rewrite land_ones_mod by lia.
    change (2 ^ 4) with 16. destruct ac; lia. }
  cbv zeta. rewrite E1, E2. replace (4 <=? dest) with false by lia.
  replace (1 <? (if ac then 1 else 0)) with false by (destruct ac; reflexivity).
  rewrite <- app_assoc.
  erewrite bind_ok by (apply rd_exact_app; exact Hzc). cbv beta.
  rewrite fold_left_add, Z.add_0_l, <- Hzs.
  replace (256 <? zlen symbols) with false by lia.
  replace (len - 17 <? zlen symbols) with false by lia.
  erewrite bind_ok by (apply rd_exact_app; reflexivity). cbv beta.
  erewrite bind_ok by reflexivity. cbv beta. cbn [hd_dec].
  replace ((if ac then 1 else 0) =? 0) with (negb ac) by (destruct ac; reflexivity).
  change (symbols ++ zrepeat 0 (256 - zlen symbols))%list with (values_of symbols).
  destruct (huffman_new (0 :: counts) (values_of symbols) (negb ac) (d_prog d)) as [h|e|p|] eqn:E.
  - erewrite bind_ok by reflexivity. cbv beta.
    erewrite bind_ok with (a := tt) (s' := mkHst (put_table ac dest h d) rest).
    2:{ unfold put_table. destruct ac; reflexivity. }
    f_equal. rewrite zlen_cons, zlen_app. lia.
  - reflexivity.
  - reflexivity.
  - reflexivity.
Qed.

Lemma legal_kraft t : huff_def_legal t -> kraft (hf_counts t) < 65536.
Proof.
  intros (_ & (Hl & _) & (ws & Hw) & _). eapply prefix_code_kraft; eauto.
Qed.

Lemma legal_new t prog : huff_def_legal t ->
  exists h, huffman_new (0 :: hf_counts t) (values_of (hf_symbols t)) (negb (hf_ac t)) prog = Ok h
    /\ implements h (hf_counts t) (hf_symbols t).
Proof.
  intros Hl. pose proof (legal_kraft t Hl) as Hk. destruct Hl as (_ & Hdef & _ & Hdc).
  destruct (huffman_new_ok (hf_counts t) (hf_symbols t) Hdef (negb (hf_ac t)) prog Hk)
    as (h & E & Ht & _).
  { intros Hn. apply Hdc. destruct (hf_ac t); [discriminate|reflexivity]. }
  exists h. split; [exact E|]. eapply tab_ok_implements; eauto.
Qed.

Lemma slot_put ac dest t d ac' dest' : tables4 d -> 0 <= dest <= 3 -> 0 <= dest' <= 3 ->
  slot (put_table ac dest t d) ac' dest'
  = if Bool.eqb ac ac' && (dest =? dest') then Some t else slot d ac' dest'.
Proof.
  intros [H1 H2] Hd Hd'. unfold slot, put_table, zset.
  destruct ac, ac'; dsimp; cbn [Bool.eqb andb]; try reflexivity; rewrite nth_nupd, ?H1, ?H2;
    destruct (dest =? dest') eqn:E;
    [assert (Z.to_nat dest' =? Z.to_nat dest = true)%nat as -> by lia
    |assert (Z.to_nat dest' =? Z.to_nat dest = false)%nat as -> by lia
    |assert (Z.to_nat dest' =? Z.to_nat dest = true)%nat as -> by lia
    |assert (Z.to_nat dest' =? Z.to_nat dest = false)%nat as -> by lia]; cbn [andb];
    try reflexivity; assert (Z.to_nat dest <? 4 = true)%nat as -> by lia; reflexivity.
Qed.

Lemma put_table_4 ac dest t d : tables4 d -> tables4 (put_table ac dest t d).
Proof.
  intros [H1 H2]. unfold put_table, tables4. destruct ac; dsimp; rewrite ?zset_length; auto.
Qed.
Lemma put_table_same ac dest t d : same_but_huff d (put_table ac dest t d).
Proof. unfold same_but_huff, put_table. destruct ac; reflexivity. Qed.
Lemma same_trans d d' d'' : same_but_huff d d' -> same_but_huff d' d'' -> same_but_huff d d''.
Proof. unfold same_but_huff. congruence. Qed.

Lemma dht_loop_ok ts : forall f d rest, Forall huff_def_legal ts -> tables4 d ->
  (length ts <= f)%nat ->
  exists d', dht_loop f (zlen (dht_payload ts)) (mkHst d (dht_payload ts ++ rest)%list)
             = (Ok 0, mkHst d' rest) /\
    same_but_huff d d' /\ tables4 d' /\
    forall ac dest, 0 <= dest <= 3 ->
      match last_huff ts ac dest with
      | None => slot d' ac dest = slot d ac dest
      | Some t => exists h, slot d' ac dest = Some h /\ implements h (hf_counts t) (hf_symbols t)
      end.
Proof.
  induction ts as [|t ts IH]; intros f d rest Hl H4 Hf.
  - exists d. cbn [dht_payload flat_map app]. split; [destruct f; reflexivity|].
    repeat split; try apply H4.
  - inversion Hl as [|? ? Ht Hts]; subst. destruct f as [|f]; [cbn in Hf; lia|].
    cbn [dht_payload flat_map]. change (flat_map huff_def_bytes ts) with (dht_payload ts).
    rewrite <- app_assoc. rewrite dht_step; [|apply Ht|apply Ht|].
    2:{ rewrite zlen_app. pose proof (zlen_nonneg (dht_payload ts)). lia. }
    destruct (legal_new t (d_prog d) Ht) as (h & E & Hi). rewrite E.
    destruct (IH f (put_table (hf_ac t) (hf_dest t) h d) rest Hts) as (d' & E' & Hs & H4' & Hsl).
    { now apply put_table_4. }
    { cbn in Hf. lia. }
    exists d'. split.
    { rewrite <- E'. f_equal. rewrite zlen_app. lia. }
    split; [eapply same_trans; [apply put_table_same|exact Hs]|]. split; [exact H4'|].
    intros ac dest Hd. specialize (Hsl ac dest Hd). cbn [last_huff].
    destruct (last_huff ts ac dest) as [u|]; [exact Hsl|].
    rewrite slot_put in Hsl by (auto; apply Ht).
    destruct (Bool.eqb (hf_ac t) ac && (hf_dest t =? dest)); [|exact Hsl].
    exists h. auto.
Qed.

Lemma dht_payload_length ts : (length ts <= length (dht_payload ts))%nat.
Proof.
  induction ts as [|t ts IH]; [cbn; lia|].
  cbn [dht_payload flat_map length]. rewrite app_length.
  unfold huff_def_bytes at 1. cbn [length]. unfold dht_payload in IH. lia.
Qed.

Lemma parse_dht_ok ts d rest :
  Forall huff_def_legal ts -> tables4 d -> fits (dht_payload ts) ->
  exists d', parse_marker_inner DHT (mkHst d (segment (dht_payload ts) ++ rest)%list)
             = (Ok tt, mkHst d' rest) /\
    same_but_huff d d' /\ tables4 d' /\
    forall ac dest, 0 <= dest <= 3 ->
      match last_huff ts ac dest with
      | None => slot d' ac dest = slot d ac dest
      | Some t => exists h, slot d' ac dest = Some h /\ implements h (hf_counts t) (hf_symbols t)
      end.
Proof.
  intros Hl H4 Hf. unfold fits in Hf. rewrite blen_zlen in Hf.
  pose proof (zlen_nonneg (dht_payload ts)).
  cbn [parse_marker_inner]. unfold parse_huffman, segment. rewrite blen_zlen.
  rewrite <- app_assoc.
  erewrite bind_ok by (apply map_err_ok; apply rd_u16_be16; lia). cbv beta.
  replace (2 + zlen (dht_payload ts) <? 2) with false by lia.
  erewrite bind_ok by reflexivity. cbn [hd_rd]. cbv beta.
  replace (2 + zlen (dht_payload ts) - 2) with (zlen (dht_payload ts)) by lia.
  destruct (dht_loop_ok ts (S (length (dht_payload ts ++ rest))) d rest Hl H4) as (d' & E & Hr).
  { rewrite app_length. pose proof (dht_payload_length ts). lia. }
  exists d'. split; [|exact Hr]. erewrite bind_ok by exact E. reflexivity.
Qed.

(** One table: acceptance *)
Lemma parse_dht_one t d rest :
  0 <= hf_dest t <= 3 -> table_def (hf_counts t) (hf_symbols t) ->
  (exists d', parse_marker_inner DHT (mkHst d (segment (dht_payload [t]) ++ rest)%list)
             = (Ok tt, mkHst d' rest)) <->
  ((exists ws, prefix_code (hf_counts t) ws) /\
   (hf_ac t = false -> Forall (fun s => s <= 15) (hf_symbols t))).
Proof.
  intros Hd Hdef.
  assert (fits (dht_payload [t])) as Hf.
  { unfold fits. rewrite blen_zlen. cbn [dht_payload flat_map]. rewrite app_nil_r.
    unfold huff_def_bytes. rewrite zlen_cons, zlen_app.
    destruct Hdef as (Hc & _ & Hs & H256 & _). unfold zlen. lia. }
  assert (exists d', parse_marker_inner DHT (mkHst d (segment (dht_payload [t]) ++ rest)%list)
          = match huffman_new (0 :: hf_counts t) (values_of (hf_symbols t)) (negb (hf_ac t)) (d_prog d) with
            | Ok h => (Ok tt, mkHst d' rest)
            | Err e => (Err e, mkHst d' rest)
            | Panic p => (Panic p, mkHst d' rest)
            | Fuel => (Fuel, mkHst d' rest)
            end) as (d' & E).
  { unfold fits in Hf. rewrite blen_zlen in Hf.
    pose proof (zlen_nonneg (dht_payload [t])).
    cbn [parse_marker_inner]. unfold parse_huffman, segment. rewrite blen_zlen.
    rewrite <- app_assoc.
    erewrite bind_ok by (apply map_err_ok; apply rd_u16_be16; lia). cbv beta.
    replace (2 + zlen (dht_payload [t]) <? 2) with false by lia.
    erewrite bind_ok by reflexivity. cbn [hd_rd]. cbv beta.
    replace (2 + zlen (dht_payload [t]) - 2) with (zlen (dht_payload [t])) by lia.
    assert (dht_payload [t] = huff_def_bytes t) as Hpl by (cbn [dht_payload flat_map]; apply app_nil_r).
    rewrite Hpl.
    unfold bind at 1. rewrite dht_step; auto; [|lia].
    destruct (huffman_new (0 :: hf_counts t) (values_of (hf_symbols t)) (negb (hf_ac t)) (d_prog d)) as [h|e|p|].
    - eexists. rewrite Z.sub_diag. destruct (length _); reflexivity.
    - eexists; reflexivity.
    - eexists; reflexivity.
    - eexists; reflexivity. }
  rewrite E. split.
  - intros (d'' & E2).
    destruct (Z_lt_dec (kraft (hf_counts t)) 65536) as [Hk|Hk].
    + split; [eexists; now apply canonical_prefix_code with (symbols := hf_symbols t)|].
      destruct (hf_ac t) eqn:Eac; [discriminate|]. intros _.
      destruct (Forall_dec (fun s => s <= 15) (fun s => Z_le_dec s 15) (hf_symbols t)) as [Hall|Hn];
        [exact Hall|exfalso].
      destruct (huffman_new_err (hf_counts t) (hf_symbols t) Hdef true (d_prog d)) as (e & E3).
      { intros [_ H]. apply Hn. now apply H. }
      cbn [negb] in E2. unfold values_of in E2. rewrite E3 in E2. discriminate.
    + exfalso.
      destruct (huffman_new_err (hf_counts t) (hf_symbols t) Hdef (negb (hf_ac t)) (d_prog d)) as (e & E3).
      { intros [H _]. auto. }
      unfold values_of in E2. rewrite E3 in E2. discriminate.
  - intros [Hw Hs]. destruct (legal_new t (d_prog d)) as (h & E3 & _).
    { repeat split; auto; try apply Hd; apply Hdef. }
    rewrite E3. exists d'. reflexivity.
Qed.

(** * Quantization tables *)

Lemma un_zig_zag_natural a : un_zig_zag a = natural a.
Proof. vm_compute. reflexivity. Qed.

Definition put_qt (dest : Z) (q : list Z) (d : decoder) : decoder :=
  set_d_qt (zset (d_qt d) dest (Some q)) d.

Lemma dqt_step f len d t rest : quant_def_legal t -> 65 <= len ->
  dqt_loop (S f) len (mkHst d (quant_def_bytes t ++ rest)%list)
  = dqt_loop f (len - 65) (mkHst (put_qt (qd_dest t) (natural (qd_values t)) d) rest).
Proof.
  intros (Hd & Hl & Hb) Hlen. destruct t as [dest vals]. cbn [qd_dest qd_values] in *.
  unfold quant_def_bytes. cbn [qd_dest qd_values dqt_loop app].
  replace (len <=? 0) with false by lia.
  erewrite bind_ok by apply rd_byte_cons. cbv beta zeta.
  assert (shr dest 4 = 0) as -> by (unfold shr; change (2 ^ 4) with 16; lia).
  assert (Z.land dest 15 = dest) as ->.
  { change 15 with (2 ^ 4 - 1). rewrite land_ones_mod by lia. change (2 ^ 4) with 16. lia. }
  replace (len <? 64 * (0 + 1) + 1) with false by lia. change (0 =? 0) with true. cbn iota.
  erewrite bind_ok by (apply rd_exact_app; unfold zlen; lia). cbv beta.
  replace (4 <=? dest) with false by lia.
  erewrite bind_ok by reflexivity. cbv beta. cbn [hd_dec hd_rd]. rewrite un_zig_zag_natural.
  reflexivity.
Qed.

Lemma dqt_payload_length ts : Forall quant_def_legal ts ->
  zlen (dqt_payload ts) = 65 * zlen ts.
Proof.
  induction 1 as [|t ts (Hd & Hl & Hb) Hts IH]; [reflexivity|].
  cbn [dqt_payload flat_map]. rewrite zlen_app, zlen_cons. unfold dqt_payload in IH. rewrite IH.
  unfold quant_def_bytes. rewrite zlen_cons. unfold zlen at 1. lia.
Qed.

Lemma dqt_loop_ok ts : forall f d rest, Forall quant_def_legal ts -> length (d_qt d) = 4%nat ->
  (length ts <= f)%nat ->
  exists qt, dqt_loop f (zlen (dqt_payload ts)) (mkHst d (dqt_payload ts ++ rest)%list)
             = (Ok tt, mkHst (set_d_qt qt d) rest) /\ length qt = 4%nat /\
    forall dest, 0 <= dest <= 3 ->
      nth (Z.to_nat dest) qt None
      = match last_quant ts dest with
        | None => qslot d dest
        | Some t => Some (natural (qd_values t))
        end.
Proof.
  induction ts as [|t ts IH]; intros f d rest Hl H4 Hf.
  - exists (d_qt d). cbn [dqt_payload flat_map app]. split; [|auto].
    replace (set_d_qt (d_qt d) d) with d by (destruct d; reflexivity).
    destruct f; reflexivity.
  - inversion Hl as [|? ? Ht Hts]; subst. destruct f as [|f]; [cbn in Hf; lia|].
    rewrite dqt_payload_length by exact Hl. rewrite zlen_cons.
    cbn [dqt_payload flat_map]. change (flat_map quant_def_bytes ts) with (dqt_payload ts).
    rewrite <- app_assoc. pose proof (zlen_nonneg ts).
    rewrite dqt_step by (auto; lia).
    replace (65 * (1 + zlen ts) - 65) with (zlen (dqt_payload ts))
      by (rewrite dqt_payload_length by exact Hts; lia).
    destruct (IH f (put_qt (qd_dest t) (natural (qd_values t)) d) rest Hts) as (qt & E & Hq & Hs).
    { unfold put_qt. dsimp. now rewrite zset_length. }
    { cbn in Hf. lia. }
    exists qt. split; [rewrite E; reflexivity|]. split; [exact Hq|].
    intros dest Hd. rewrite Hs by exact Hd. cbn [last_quant].
    destruct (last_quant ts dest); [reflexivity|].
    unfold qslot, put_qt. dsimp. unfold zset. rewrite nth_nupd, H4.
    destruct Ht as (Hd' & _).
    destruct (qd_dest t =? dest) eqn:E'.
    + assert (Z.to_nat dest =? Z.to_nat (qd_dest t) = true)%nat as -> by lia.
      assert (Z.to_nat (qd_dest t) <? 4 = true)%nat as -> by lia. reflexivity.
    + assert (Z.to_nat dest =? Z.to_nat (qd_dest t) = false)%nat as -> by lia. reflexivity.
Qed.

Lemma parse_dqt_ok ts d rest :
  Forall quant_def_legal ts -> length (d_qt d) = 4%nat -> fits (dqt_payload ts) ->
  exists qt, parse_marker_inner DQT (mkHst d (segment (dqt_payload ts) ++ rest)%list)
             = (Ok tt, mkHst (set_d_qt qt d) rest) /\ length qt = 4%nat /\
    forall dest, 0 <= dest <= 3 ->
      nth (Z.to_nat dest) qt None
      = match last_quant ts dest with
        | None => qslot d dest
        | Some t => Some (natural (qd_values t))
        end.
Proof.
  intros Hl H4 Hf. unfold fits in Hf. rewrite blen_zlen in Hf.
  pose proof (zlen_nonneg (dqt_payload ts)).
  cbn [parse_marker_inner]. unfold parse_dqt, segment. rewrite blen_zlen. rewrite <- app_assoc.
  erewrite bind_ok by (apply map_err_ok; apply rd_u16_be16; lia). cbv beta.
  replace (2 + zlen (dqt_payload ts) <? 2) with false by lia.
  erewrite bind_ok by reflexivity. cbn [hd_rd]. cbv beta.
  replace (2 + zlen (dqt_payload ts) - 2) with (zlen (dqt_payload ts)) by lia.
  destruct (dqt_loop_ok ts (S (length (dqt_payload ts ++ rest))) d rest Hl H4) as (qt & E & Hr).
  { rewrite app_length. pose proof (dqt_payload_length ts Hl). unfold zlen in *. lia. }
  exists qt. split; [exact E|exact Hr].
Qed.
