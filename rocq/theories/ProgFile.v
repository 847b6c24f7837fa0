(** Sequences of scans read from their bytes. *)
From Coq Require Import ZArith String List Bool Lia.
From Coq Require Import ZifyBool ZifyNat ZifyN.
From Verif Require Import Base Types Huffman State Bitstream Headers Mcu McuProg.
From Verif Require Import SpecHuffman SpecSegments SpecExtend SpecBits SpecBlock SpecProg SpecFile SpecInter SpecScript SpecImage Obs ObsProg ExTools.
From Verif Require Import BaseFacts HeaderFacts HuffmanProofs HuffmanPrefix HuffDecode ExtendFacts TableSegments
  BitReader Refill Reader Feed FastAc Block ColorFacts Placement ProgFacts ProgBlocks ProgRefine ProgScan ProgScript ProgInter.
Import ListNotations.
Local Open Scope Z_scope.
Ltac Zify.zify_post_hook ::= Z.div_mod_to_equations.

(** * The encoder's bytes *)
Lemma bits8 l : length l = 8%nat -> bits_of 8 (value_of l) = l.
Proof.
  intros H. do 8 (destruct l as [|? l]; [discriminate|]). destruct l; [|discriminate].
  repeat match goal with b : bool |- _ => destruct b end; reflexivity.
Qed.
Lemma pack_from_bits bs : forall acc n, length acc = n -> (n < 8)%nat ->
  exists pad, (length pad <= 7)%nat /\ bits_of_bytes (pack_from acc n bs) = (acc ++ bs ++ pad)%list.
Proof.
  induction bs as [|b bs IH]; intros acc n Hl Hn; cbn [pack_from].
  - destruct n; [destruct acc; [|discriminate]; exists []; split; [cbn; lia|reflexivity]|].
    exists (repeat true (8 - S n)). split; [rewrite repeat_length; lia|]. cbn [bits_of_bytes flat_map app]. rewrite app_nil_r.
    apply bits8. rewrite app_length, repeat_length. lia.
  - destruct (Nat.eq_dec n 7) as [->|Hne].
    + destruct (IH [] 0%nat eq_refl ltac:(lia)) as (pad & Hpl & E). exists pad. split; [exact Hpl|].
      cbn [bits_of_bytes flat_map]. fold (bits_of_bytes (pack_from [] 0 bs)). rewrite E.
      rewrite bits8 by (rewrite app_length; cbn; lia). now rewrite <- app_assoc.
    + destruct (IH (acc ++ [b])%list (S n)) as (pad & Hpl & E); [rewrite app_length; cbn; lia|lia|].
      exists pad. split; [exact Hpl|]. rewrite <- app_assoc in E. cbn [app] in E |- *. rewrite <- E.
      do 8 (destruct n as [|n]; [try reflexivity; lia|]). lia.
Qed.
Lemma pack_bits bs : exists pad, (length pad <= 7)%nat /\ bits_of_bytes (pack bs) = (bs ++ pad)%list.
Proof. apply (pack_from_bits bs [] 0 eq_refl). lia. Qed.
Lemma value_of_byte l : (length l <= 8)%nat -> byte (value_of l).
Proof.
  intros H. pose proof (value_range l). assert (2 ^ Z.of_nat (length l) <= 2 ^ 8) by (apply Z.pow_le_mono_r; lia).
  change (2 ^ 8) with 256 in *. unfold byte. lia.
Qed.
Lemma pack_byte bs : forall acc n, length acc = n -> (n < 8)%nat -> Forall byte (pack_from acc n bs).
Proof.
  induction bs as [|b bs IH]; intros acc n Hl Hn; cbn [pack_from].
  - destruct n; [constructor|]. constructor; [|constructor]. apply value_of_byte. rewrite app_length, repeat_length. lia.
  - destruct (Nat.eq_dec n 7) as [->|Hne].
    + constructor; [apply value_of_byte; rewrite app_length; cbn; lia|]. apply IH; [reflexivity|lia].
    + assert (Forall byte (pack_from (acc ++ [b]) (S n) bs)) as H by (apply IH; [rewrite app_length; cbn|]; lia).
      do 8 (destruct n as [|n]; [try exact H; lia|]). lia.
Qed.
Lemma stuff_byte l : Forall byte l -> Forall byte (stuff l).
Proof.
  intros H. induction H as [|b l Hb _ IH]; [constructor|]. unfold stuff in *. cbn [flat_map].
  apply Forall_app. split; [|exact IH]. destruct (b =? 255); repeat (apply Forall_nil || apply Forall_cons); try exact Hb; unfold byte; lia.
Qed.

(** * A scan header *)
Definition sos_dec (k : Z) (c : component) (td ta ss se ah al : Z) (d : decoder) : decoder :=
  set_d_al al (set_d_ah ah (set_d_se se (set_d_ss ss
    (set_d_zorder (zset (d_zorder d) 0 k)
      (set_d_comps (zset (d_comps d) k (set_c_act ta (set_c_dct td c))) (set_d_nscans 1 d)))))).

Lemma parse_sos_one d rest id td ta ss se ah al k c :
  i_comps (d_info d) <> 0 -> 0 <= id <= 3 -> id <= zlen (d_comps d) ->
  find_component (Z.to_nat (i_comps (d_info d))) 0 (d_comps d) id = Ok (Some k) ->
  zget (d_comps d) k = Some c ->
  0 <= td <= 15 -> 0 <= ta <= 15 -> 0 <= ss <= 63 -> 0 <= se <= 63 -> 0 <= ah <= 13 -> 0 <= al <= 13 ->
  parse_sos (mkHst d (segment [1; id; 16 * td + ta; ss; se; 16 * ah + al] ++ rest))
  = (Ok tt, mkHst (sos_dec k c td ta ss se ah al d) rest).
Proof.
  intros Hi Hid Hid2 Hfind Hc Htd Hta Hss Hse Hah Hal.
  unfold segment. rewrite <- app_assoc. unfold parse_sos.
  erewrite bind_ok by (apply rd_u16_be16; cbn; lia). change (2 + SpecSegments.blen [1; id; 16 * td + ta; ss; se; 16 * ah + al]) with 8.
  cbn [app]. erewrite bind_ok by apply rd_byte_cons. erewrite bind_ok by reflexivity.
  change (negb (8 =? 6 + 2 * 1)) with false. change (negb ((1 <=? 1) && (1 <? 4))) with false. cbv iota.
  erewrite bind_ok by reflexivity. cbn [hd_dec d_info set_d_nscans].
  replace (i_comps (d_info d) =? 0) with false by lia.
  assert (sos_components (Z.to_nat 1) 0 [false; false; false; false]
    (mkHst (set_d_nscans 1 d) (id :: 16 * td + ta :: ss :: se :: 16 * ah + al :: rest))
    = (Ok tt, mkHst (set_d_zorder (zset (d_zorder d) 0 k)
      (set_d_comps (zset (d_comps d) k (set_c_act ta (set_c_dct td c))) (set_d_nscans 1 d)))
      (ss :: se :: 16 * ah + al :: rest))) as E.
  { change (Z.to_nat 1) with 1%nat. cbn [sos_components].
    erewrite bind_ok by apply rd_byte_cons. erewrite bind_ok by reflexivity.
    cbn [hd_dec d_comps set_d_nscans d_info]. replace (zlen (d_comps d) <? id) with false by lia.
    assert (at_ [false; false; false; false] id = Ok false) as ->.
    { assert (id = 0 \/ id = 1 \/ id = 2 \/ id = 3) as [ -> | [ -> | [ -> | -> ] ] ] by lia; reflexivity. }
    erewrite bind_ok by reflexivity. cbv iota zeta. erewrite bind_ok by apply rd_byte_cons. rewrite Hfind.
    erewrite bind_ok by reflexivity. cbv iota. unfold at_. rewrite Hc. erewrite bind_ok by reflexivity.
    erewrite bind_ok by reflexivity. unfold ret. do 2 f_equal. cbn [hd_dec d_zorder d_comps set_d_nscans].
    replace (Z.land (16 * td + ta) 15) with ta.
    2:{ change 15 with (2 ^ 4 - 1). rewrite land_ones_mod by lia. change (2 ^ 4) with 16. lia. }
    replace (Z.land (shr (16 * td + ta) 4) 15) with td.
    2:{ rewrite shr4. change 15 with (2 ^ 4 - 1). rewrite land_ones_mod by lia. change (2 ^ 4) with 16. lia. }
    reflexivity. }
  erewrite bind_ok by exact E.
  erewrite bind_ok by apply rd_byte_cons. erewrite bind_ok by reflexivity.
  erewrite bind_ok by apply rd_byte_cons. erewrite bind_ok by reflexivity.
  erewrite bind_ok by apply rd_byte_cons. cbv zeta. erewrite bind_ok by reflexivity.
  rewrite shr4. replace ((16 * ah + al) / 16) with ah by lia.
  assert (Z.land (16 * ah + al) 15 = al) as ->.
  { change 15 with (2 ^ 4 - 1). rewrite land_ones_mod by lia. change (2 ^ 4) with 16. lia. }
  replace (13 <? ah) with false by lia. erewrite bind_ok by reflexivity. replace (13 <? al) with false by lia.
  unfold ret, sos_dec. cbn [hd_dec hd_rd].
  assert (forall x, 0 <= x <= 63 -> Z.land x 63 = x) as L.
  { intros x Hx. change 63 with (2 ^ 6 - 1). rewrite land_ones_mod by lia. change (2 ^ 6) with 64. lia. }
  rewrite !L by assumption. reflexivity.
Qed.

(** * Tables *)
Lemma last_huff_app a b ac dest :
  last_huff (a ++ b) ac dest = match last_huff b ac dest with Some t => Some t | None => last_huff a ac dest end.
Proof.
  induction a as [|t a IH]; cbn [app last_huff]; [now destruct (last_huff b ac dest)|].
  rewrite IH. now destruct (last_huff b ac dest).
Qed.
Lemma last_huff_in ts ac dest t : last_huff ts ac dest = Some t -> In t ts /\ hf_ac t = ac.
Proof.
  induction ts as [|u ts IH]; cbn [last_huff]; [discriminate|]. destruct (last_huff ts ac dest) as [v|].
  - intros H. destruct (IH H). split; [now right|assumption].
  - destruct (Bool.eqb (hf_ac u) ac) eqn:E; [|discriminate]. destruct (hf_dest u =? dest); [|discriminate].
    intros H. injection H as <-. split; [now left|]. now apply eqb_prop.
Qed.

Lemma dht_loop_tables ts pg : forall f d rest tabs, Forall huff_def_legal ts -> holds_with pg d tabs -> d_prog d = pg ->
  (length ts <= f)%nat ->
  exists d', dht_loop f (zlen (dht_payload ts)) (mkHst d (dht_payload ts ++ rest)%list)
             = (Ok 0, mkHst d' rest) /\ same_but_huff d d' /\ holds_with pg d' (tabs ++ ts).
Proof.
  induction ts as [|t ts IH]; intros f d rest tabs Hl H4 Hp Hf.
  - exists d. cbn [dht_payload flat_map app]. rewrite app_nil_r. split; [destruct f; reflexivity|]. split; [reflexivity|exact H4].
  - pose proof (Forall_inv Hl) as Ht. pose proof (Forall_inv_tail Hl) as Hts. destruct f as [|f]; [cbn in Hf; lia|].
    cbn [dht_payload flat_map]. change (flat_map huff_def_bytes ts) with (dht_payload ts).
    rewrite <- app_assoc. rewrite dht_step; [|apply Ht|apply Ht|].
    2:{ rewrite zlen_app. pose proof (zlen_nonneg (dht_payload ts)). lia. }
    destruct (legal_new t (d_prog d) Ht) as (h & E & Hi). rewrite E.
    destruct (IH f (put_table (hf_ac t) (hf_dest t) h d) rest (tabs ++ [t])%list Hts) as (d' & E' & Hs & H4').
    { destruct H4 as (H4 & Hlg & Hslot). split; [now apply put_table_4|]. split; [apply Forall_app; auto|].
      intros ac dest u Hd Hu. rewrite last_huff_app in Hu. cbn [last_huff] in Hu.
      rewrite slot_put by (auto; apply Ht).
      destruct (Bool.eqb (hf_ac t) ac && (hf_dest t =? dest)) eqn:Eb; [|now apply Hslot].
      injection Hu as <-. exists h. split; [reflexivity|]. apply andb_prop in Eb. destruct Eb as [Eb _].
      apply eqb_prop in Eb. rewrite <- Eb, <- Hp. exact E. }
    { unfold put_table. destruct (hf_ac t); exact Hp. }
    { cbn in Hf. lia. }
    exists d'. split.
    { rewrite <- E'. f_equal. rewrite zlen_app. lia. }
    split; [eapply same_trans; [apply put_table_same|exact Hs]|]. rewrite <- app_assoc in H4'. exact H4'.
Qed.

Lemma parse_dht_tables pg ts d rest tabs : Forall huff_def_legal ts -> fits (dht_payload ts) ->
  holds_with pg d tabs -> d_prog d = pg ->
  exists d', parse_huffman (mkHst d (segment (dht_payload ts) ++ rest)%list) = (Ok tt, mkHst d' rest) /\
    same_but_huff d d' /\ holds_with pg d' (tabs ++ ts).
Proof.
  intros Hl Hf H4 Hp. unfold fits in Hf. rewrite blen_zlen in Hf.
  pose proof (zlen_nonneg (dht_payload ts)).
  unfold parse_huffman, segment. rewrite blen_zlen, <- app_assoc.
  erewrite bind_ok by (apply map_err_ok; apply rd_u16_be16; lia). cbv beta.
  replace (2 + zlen (dht_payload ts) <? 2) with false by lia.
  erewrite bind_ok by reflexivity. cbn [hd_rd]. cbv beta.
  replace (2 + zlen (dht_payload ts) - 2) with (zlen (dht_payload ts)) by lia.
  destruct (dht_loop_tables ts pg (S (length (dht_payload ts ++ rest))) d rest tabs Hl H4 Hp) as (d' & E & Hr).
  { rewrite app_length. pose proof (dht_payload_length ts). lia. }
  exists d'. split; [|exact Hr]. erewrite bind_ok by exact E. reflexivity.
Qed.

(** * What scans do not change *)
Lemma find_map {A B} (f : A -> B) (p : B -> bool) l : find p (map f l) = option_map f (find (fun x => p (f x)) l).
Proof. induction l as [|a l IH]; [reflexivity|]. cbn [map find]. destruct (p (f a)); [reflexivity|exact IH]. Qed.
Lemma erase_dims d : check_component_dimensions (erase d) = check_component_dimensions d.
Proof.
  unfold check_component_dimensions, erase.
  cbn [d_comps set_d_comps set_d_todo set_d_nscans set_d_zorder d_hmax set_d_al set_d_ah set_d_se set_d_ss set_d_acts set_d_dcts].
  rewrite find_map. change (fun x => is_y (c_cid (erase_c x))) with (fun x => is_y (c_cid x)).
  destruct (find _ (d_comps d)) as [y|]; [|reflexivity]. cbn [option_map]. change (c_stride (erase_c y)) with (c_stride y).
  generalize (c_stride y / d_hmax d). intros q. clear y.
  induction (d_comps d) as [|c l IH]; [reflexivity|]. cbn [map check_chroma].
  change (c_cid (erase_c c)) with (c_cid c). change (c_stride (erase_c c)) with (c_stride c).
  change (c_h (erase_c c)) with (c_h c). change (c_v (erase_c c)) with (c_v c). rewrite IH. reflexivity.
Qed.
Lemma erase_find d id : forall n j, find_component n j (map erase_c (d_comps d)) id = find_component n j (d_comps d) id.
Proof.
  induction n as [|n IH]; intros j; [reflexivity|]. cbn [find_component]. rewrite zget_map.
  destruct (zget (d_comps d) j) as [c|]; [|reflexivity]. cbn [option_map]. change (c_id (erase_c c)) with (c_id c).
  now rewrite IH.
Qed.
Lemma erase_comps d d' : erase d = erase d' -> map erase_c (d_comps d) = map erase_c (d_comps d').
Proof. intros H. now apply (f_equal d_comps) in H. Qed.
Lemma erase_zget d d' k c' : erase d = erase d' -> zget (d_comps d') k = Some c' ->
  exists c, zget (d_comps d) k = Some c /\ erase_c c = erase_c c'.
Proof.
  intros H Hc. apply erase_comps in H. apply (f_equal (fun l => zget l k)) in H. rewrite !zget_map, Hc in H.
  destruct (zget (d_comps d) k) as [c|]; [|discriminate]. exists c. split; [reflexivity|]. cbn [option_map] in H. exact (f_equal (fun o => match o with Some x => x | None => erase_c c end) H).
Qed.
Lemma same_huff_erase d d' : same_but_huff d d' -> erase d' = erase d.
Proof.
  unfold same_but_huff. intros H. unfold erase.
  assert (d_comps d' = d_comps d) as Ec by exact (f_equal d_comps H). rewrite Ec.
  replace (set_d_acts [] (set_d_dcts [] d')) with (set_d_dcts [] (set_d_acts [] d')) by reflexivity.
  now rewrite H.
Qed.
Lemma same_huff_rest d d' : same_but_huff d d' -> d_todo d' = d_todo d /\ d_zorder d' = d_zorder d.
Proof. intros H. split; [exact (f_equal d_todo H)|exact (f_equal d_zorder H)]. Qed.

Lemma erase_counts d d' : erase d = erase d' -> prog_counts d = prog_counts d'.
Proof.
  intros H. unfold prog_counts.
  rewrite (f_equal d_inter H : d_inter d = d_inter d'), (f_equal d_mcux H : d_mcux d = d_mcux d'),
    (f_equal d_mcuy H : d_mcuy d = d_mcuy d'), (f_equal d_info H : d_info d = d_info d'). reflexivity.
Qed.
Lemma erase_c_fields c c' : erase_c c = erase_c c' ->
  c_cid c = c_cid c' /\ c_id c = c_id c' /\ c_stride c = c_stride c' /\ c_v c = c_v c' /\ c_h c = c_h c'.
Proof.
  intros H. repeat split; [exact (f_equal c_cid H)|exact (f_equal c_id H)|exact (f_equal c_stride H)|exact (f_equal c_v H)|exact (f_equal c_h H)].
Qed.
Lemma frame_ok_erase d d' cs : erase d = erase d' -> frame_ok d' cs -> frame_ok d cs.
Proof.
  intros H [F1 F2 F3 F4 F5 F6 F7]. split; try assumption.
  - rewrite <- erase_dims, H, erase_dims. exact F1.
  - now rewrite (f_equal d_incs H : d_incs d = d_incs d').
  - now rewrite (f_equal d_prog H : d_prog d = d_prog d').
  - rewrite (f_equal d_info H : d_info d = d_info d'). split; [apply F5|].
    rewrite <- (proj2 F5). pose proof (erase_comps d d' H) as E. apply (f_equal (@length _)) in E. now rewrite !map_length in E.
  - intros k cd Hk. destruct (F7 k cd Hk) as (c' & Hc' & Hid & Hr & Hwh & G).
    destruct (erase_zget d d' _ _ H Hc') as (c & Hc & He).
    destruct (erase_c_fields _ _ He) as (-> & E1 & E2 & E3 & E4) || destruct (erase_c_fields _ _ He) as (E0 & E1 & E2 & E3 & E4).
    exists c. rewrite (erase_counts d d' H), E1, E2, E3, E4,
      (f_equal d_inter H : d_inter d = d_inter d'), (f_equal d_mcux H : d_mcux d = d_mcux d'),
      (f_equal d_mcuy H : d_mcuy d = d_mcuy d'), (f_equal d_info H : d_info d = d_info d').
    try rewrite E0. auto.
Qed.
Lemma planes_show_erase d d' cs Ks buf : erase d = erase d' -> planes_show d' cs Ks buf -> planes_show d cs Ks buf.
Proof.
  intros H P k cd Hk. destruct (P k cd Hk) as (c' & K & plane & Hc' & G).
  destruct (erase_zget d d' _ _ H Hc') as (c & Hc & He). destruct (erase_c_fields _ _ He) as (_ & _ & E & _).
  exists c, K, plane. rewrite E. auto.
Qed.

(** ** Several components *)
Lemma erase_c_id c c' : erase_c c = erase_c c' -> c_id c = c_id c'.
Proof. intros H. exact (f_equal c_id H). Qed.
Lemma nibbles a b : 0 <= a <= 15 -> 0 <= b <= 15 ->
  Z.land (16 * a + b) 15 = b /\ Z.land (shr (16 * a + b) 4) 15 = a /\ shr (16 * a + b) 4 = a.
Proof.
  intros Ha Hb. rewrite shr4. change 15 with (2 ^ 4 - 1). rewrite !land_ones_mod by lia. change (2 ^ 4) with 16. lia.
Qed.

Lemma find_component_ok cs k cd comps :
  length comps = length cs -> NoDup (map cd_id cs) -> nth_error cs k = Some cd ->
  (forall j cj, nth_error cs j = Some cj -> exists c, zget comps (Z.of_nat j) = Some c /\ c_id c = cd_id cj) ->
  find_component (length cs) 0 comps (cd_id cd) = Ok (Some (Z.of_nat k)).
Proof.
  intros Hl Hnd Hk Hall.
  assert (forall n j, (j <= k)%nat -> (k < j + n)%nat ->
    find_component n (Z.of_nat j) comps (cd_id cd) = Ok (Some (Z.of_nat k))) as G.
  { induction n as [|n IH]; intros j Hj Hn; [lia|]. cbn [find_component].
    assert (j < length cs)%nat as Hjl by (assert (k < length cs)%nat by (apply nth_error_Some; congruence); lia).
    destruct (nth_error cs j) as [cj|] eqn:Ej; [|apply nth_error_None in Ej; lia].
    destruct (Hall j cj Ej) as (c & Hc & Hid). rewrite Hc, Hid.
    destruct (Nat.eq_dec j k) as [->|Hne].
    - rewrite Hk in Ej. injection Ej as <-. now rewrite Z.eqb_refl.
    - assert (cd_id cj <> cd_id cd) as Hd.
      { intros E. apply Hne. eapply (proj1 (NoDup_nth_error (map cd_id cs)) Hnd); [now rewrite map_length|].
        rewrite !nth_error_map, Ej, Hk. cbn. now rewrite E. }
      replace (cd_id cj =? cd_id cd) with false by lia.
      replace (Z.of_nat j + 1) with (Z.of_nat (S j)) by lia. apply IH; lia. }
  apply (G (length cs) 0%nat); [lia|]. assert (k < length cs)%nat by (apply nth_error_Some; congruence). lia.
Qed.

Lemma forall2_len {A B} (R : A -> B -> Prop) l m : Forall2 R l m -> length l = length m.
Proof. induction 1; cbn; congruence. Qed.

(** The components are those of [cs] *)
Definition comps_of (cs : list comp_data) (comps : list component) : Prop :=
  length comps = length cs /\
  forall j cj, nth_error cs j = Some cj -> exists c, zget comps (Z.of_nat j) = Some c /\ c_id c = cd_id cj.
Lemma comps_of_erase cs l l' : map erase_c l = map erase_c l' -> comps_of cs l -> comps_of cs l'.
Proof.
  intros E [H1 H2]. split.
  - apply (f_equal (@length _)) in E. rewrite !map_length in E. lia.
  - intros j cj Hj. destruct (H2 j cj Hj) as (c & Hc & Hid). apply (f_equal (fun l => zget l (Z.of_nat j))) in E.
    rewrite !zget_map, Hc in E. destruct (zget l' (Z.of_nat j)) as [c'|]; [|discriminate].
    exists c'. split; [reflexivity|]. rewrite <- Hid. apply erase_c_id. cbn [option_map] in E. congruence.
Qed.

Lemma sos_components_ok cs : NoDup (map cd_id cs) -> (forall k cd, nth_error cs k = Some cd -> 0 <= cd_id cd <= 3) ->
  forall ks sel, NoDup ks ->
  Forall2 (fun k '(id, td, ta) => exists cd, nth_error cs k = Some cd /\ id = cd_id cd /\ 0 <= td <= 15 /\ 0 <= ta <= 15) ks sel ->
  forall i d seen, 0 <= i -> i + Z.of_nat (length ks) <= zlen (d_zorder d) ->
  comps_of cs (d_comps d) -> i_comps (d_info d) = Z.of_nat (length cs) -> zlen seen = 4 ->
  (forall k cd, In k ks -> nth_error cs k = Some cd -> cd_id cd <= zlen (d_comps d) /\ zget seen (cd_id cd) = Some false) ->
  exists zo comps,
    (forall rest, sos_components (length sel) i seen (mkHst d (flat_map (fun '(id, td, ta) => [id; 16 * td + ta]) sel ++ rest))
    = (Ok tt, mkHst (set_d_zorder zo (set_d_comps comps d)) rest)) /\
    map erase_c comps = map erase_c (d_comps d) /\ zlen zo = zlen (d_zorder d) /\
    (forall j, j < i -> zget zo j = zget (d_zorder d) j) /\
    (forall k, ~ In k ks -> zget comps (Z.of_nat k) = zget (d_comps d) (Z.of_nat k)) /\
    (forall kk, (kk < length ks)%nat -> zget zo (i + Z.of_nat kk) = Some (Z.of_nat (nth kk ks 0%nat))) /\
    Forall2 (fun k '(_, td, ta) => exists c, zget comps (Z.of_nat k) = Some c /\ c_dct c = td /\ c_act c = ta) ks sel.
Proof.
  intros Hnd Hids. induction ks as [|k ks IH]; intros sel Hks Hsel i d seen Hi Hz Hco Hic Hs Hse; inversion Hsel as [|? [[id td] ta] ? sel' Hh Hsel']; subst.
  - exists (d_zorder d), (d_comps d). split; [intros rest; cbn; now destruct d|]. repeat split; auto. cbn. lia.
  - destruct Hh as (cd & Hk & -> & Htd & Hta). inversion Hks as [|? ? Hni Hks']; subst.
    destruct (Hse k cd (or_introl eq_refl) Hk) as [Hid Hsn]. pose proof (Hids k cd Hk) as Hid3.
    destruct (proj2 Hco k cd Hk) as (c & Hc & Hcid). destruct (nibbles td ta Htd Hta) as (Nb & Na & _).
    set (c' := set_c_act ta (set_c_dct td c)).
    set (d' := set_d_zorder (zset (d_zorder d) i (Z.of_nat k)) (set_d_comps (zset (d_comps d) (Z.of_nat k) c') d)).
    assert (map erase_c (zset (d_comps d) (Z.of_nat k) c') = map erase_c (d_comps d)) as He'.
    { rewrite zset_map. apply zset_same. rewrite zget_map, Hc. reflexivity. }
    destruct (IH sel' Hks' Hsel' (i + 1) d' (zset seen (cd_id cd) true)) as (zo & comps & E & G1 & G2 & G3 & G4 & G5 & G6).
    + lia.
    + cbn [length] in Hz. unfold d'. cbn [d_zorder set_d_zorder]. rewrite zlen_zset. lia.
    + unfold d'. cbn [d_comps set_d_zorder set_d_comps]. eapply comps_of_erase; [symmetry; exact He'|exact Hco].
    + exact Hic.
    + now rewrite zlen_zset.
    + intros k2 cd2 Hin2 Hk2. destruct (Hse k2 cd2 (or_intror Hin2) Hk2) as [Hid2 Hsn2]. split.
      * unfold d'. cbn [d_comps set_d_zorder set_d_comps]. rewrite zlen_zset. exact Hid2.
      * rewrite BaseFacts.zget_zset by lia. replace (cd_id cd2 =? cd_id cd) with false; [exact Hsn2|].
        assert (cd_id cd2 <> cd_id cd); [|lia]. intros Eid. assert (k2 = k) as ->; [|contradiction].
        apply (proj1 (NoDup_nth_error (map cd_id cs)) Hnd); [rewrite map_length; apply nth_error_Some; congruence|].
        rewrite !nth_error_map, Hk2, Hk. cbn. now rewrite Eid.
    + exists zo, comps. split; [|split; [|split; [|split; [|split; [|split]]]]].
      * intros rest. cbn [length flat_map sos_components app].
        erewrite bind_ok by apply rd_byte_cons. erewrite bind_ok by reflexivity. cbn [hd_dec].
        replace (zlen (d_comps d) <? cd_id cd) with false by lia.
        unfold at_ at 1. rewrite Hsn. erewrite bind_ok by reflexivity. cbv iota zeta. erewrite bind_ok by apply rd_byte_cons.
        rewrite Hic, Nat2Z.id. rewrite (find_component_ok cs k cd (d_comps d)); [|apply Hco|exact Hnd|exact Hk|apply Hco].
        erewrite bind_ok by reflexivity. cbv iota. unfold at_. rewrite Hc. erewrite bind_ok by reflexivity.
        erewrite bind_ok by reflexivity. cbn [hd_dec hd_rd]. rewrite Nb, Na. apply E.
      * rewrite G1. unfold d'. cbn [d_comps set_d_zorder set_d_comps]. exact He'.
      * rewrite G2. unfold d'. cbn [d_zorder set_d_zorder]. now rewrite zlen_zset.
      * intros j Hj. rewrite G3 by lia. unfold d'. cbn [d_zorder set_d_zorder]. rewrite BaseFacts.zget_zset by lia.
        now replace (j =? i) with false by lia.
      * intros k2 Hk2. rewrite G4 by (intros C; apply Hk2; now right). unfold d'. cbn [d_comps set_d_zorder set_d_comps].
        rewrite BaseFacts.zget_zset by lia. replace (Z.of_nat k2 =? Z.of_nat k) with false; [reflexivity|].
        assert (k2 <> k); [intros ->; apply Hk2; now left|lia].
      * intros kk Hkk. destruct kk as [|kk]; cbn [nth].
        -- rewrite Z.add_0_r, G3 by lia. unfold d'. cbn [d_zorder set_d_zorder]. rewrite BaseFacts.zget_zset by lia.
           cbn [length] in Hz. replace ((i =? i) && (i <? zlen (d_zorder d))) with true by lia. reflexivity.
        -- cbn [length] in Hkk. replace (i + Z.of_nat (S kk)) with (i + 1 + Z.of_nat kk) by lia. apply G5. lia.
      * constructor; [|exact G6]. exists c'. rewrite G4 by exact Hni. unfold d'. cbn [d_comps set_d_zorder set_d_comps].
        split; [eapply ProgFacts.zget_zset; exact Hc|]. split; reflexivity.
Qed.

Lemma parse_sos_many cs d ks sel ah al :
  NoDup (map cd_id cs) -> (forall k cd, nth_error cs k = Some cd -> 0 <= cd_id cd <= 3 /\ cd_id cd <= Z.of_nat (length cs)) ->
  NoDup ks -> (1 <= length ks <= 3)%nat ->
  Forall2 (fun k '(id, td, ta) => exists cd, nth_error cs k = Some cd /\ id = cd_id cd /\ 0 <= td <= 15 /\ 0 <= ta <= 15) ks sel ->
  comps_of cs (d_comps d) -> i_comps (d_info d) = Z.of_nat (length cs) -> (1 <= length cs)%nat -> zlen (d_zorder d) = 4 ->
  0 <= ah <= 13 -> 0 <= al <= 13 ->
  exists zo comps,
  (forall rest, parse_sos (mkHst d (segment (Z.of_nat (length sel) :: flat_map (fun '(id, td, ta) => [id; 16 * td + ta]) sel ++ [0; 0; 16 * ah + al]) ++ rest))
  = (Ok tt, mkHst (set_d_al al (set_d_ah ah (set_d_se 0 (set_d_ss 0 (set_d_zorder zo (set_d_comps comps
      (set_d_nscans (Z.of_nat (length ks)) d))))))) rest)) /\
    map erase_c comps = map erase_c (d_comps d) /\ zlen zo = 4 /\
    (forall kk, (kk < length ks)%nat -> zget zo (Z.of_nat kk) = Some (Z.of_nat (nth kk ks 0%nat))) /\
    Forall2 (fun k '(_, td, ta) => exists c, zget comps (Z.of_nat k) = Some c /\ c_dct c = td /\ c_act c = ta) ks sel.
Proof.
  intros Hnd Hids Hks Hlk Hsel Hco Hic Hlc Hz Hah Hal.
  assert (length sel = length ks) as Hls by (symmetry; eapply forall2_len; exact Hsel).
  assert (SpecSegments.blen (Z.of_nat (length sel) :: flat_map (fun '(id, td, ta) => [id; 16 * td + ta]) sel ++ [0; 0; 16 * ah + al])
    = 4 + 2 * Z.of_nat (length sel)) as Hbl.
  { unfold SpecSegments.blen. cbn [length]. rewrite app_length. cbn [length].
    assert (length (flat_map (fun '(id, td, ta) => [id; 16 * td + ta]) sel) = (2 * length sel)%nat) as ->; [|lia].
    clear. induction sel as [|[[? ?] ?] sel IH]; [reflexivity|]. cbn [flat_map app length]. lia. }
  destruct (sos_components_ok cs Hnd (fun k cd Hk => proj1 (Hids k cd Hk)) ks sel Hks Hsel 0
    (set_d_nscans (Z.of_nat (length sel)) d) [false; false; false; false])
    as (zo & comps & E & G1 & G2 & _ & _ & G5 & G6); try assumption; try lia.
  { cbn [d_zorder set_d_nscans]. lia. }
  { reflexivity. }
  { intros k cd _ Hk. destruct (Hids k cd Hk) as [I1 I2]. split.
    - cbn [d_comps set_d_nscans]. unfold zlen. rewrite (proj1 Hco). lia.
    - assert (cd_id cd = 0 \/ cd_id cd = 1 \/ cd_id cd = 2 \/ cd_id cd = 3) as [-> |[-> |[-> | ->]]] by lia; reflexivity. }
  exists zo, comps. split; [|split; [exact G1|split; [rewrite G2; exact Hz|split; [exact G5|exact G6]]]].
  intros rest. unfold segment. rewrite <- app_assoc. unfold parse_sos.
  erewrite bind_ok by (apply rd_u16_be16; rewrite Hbl; lia). rewrite Hbl.
  cbn [app]. erewrite bind_ok by apply rd_byte_cons. erewrite bind_ok by reflexivity.
  replace (2 + (4 + 2 * Z.of_nat (length sel)) =? 6 + 2 * Z.of_nat (length sel)) with true by lia.
  replace ((1 <=? Z.of_nat (length sel)) && (Z.of_nat (length sel) <? 4)) with true by lia. cbn [negb].
  erewrite bind_ok by reflexivity. cbn [hd_dec hd_rd d_info set_d_nscans].
  replace (i_comps (d_info d) =? 0) with false by lia.
  rewrite <- app_assoc. cbn [app]. rewrite Nat2Z.id. erewrite bind_ok by apply E.
  erewrite bind_ok by apply rd_byte_cons. erewrite bind_ok by reflexivity.
  erewrite bind_ok by apply rd_byte_cons. erewrite bind_ok by reflexivity.
  erewrite bind_ok by apply rd_byte_cons. cbv zeta. erewrite bind_ok by reflexivity.
  destruct (nibbles ah al ltac:(lia) ltac:(lia)) as (N1 & _ & N3). rewrite N1, N3.
  replace (13 <? ah) with false by lia. erewrite bind_ok by reflexivity. replace (13 <? al) with false by lia.
  rewrite <- Hls. reflexivity.
Qed.

(** * The loop over the scans *)
(** Codes at which the loop stops *)
Definition stop_code (fin : Z) : Prop :=
  exists m, marker_from_u8 fin = Some m /\ m <> DHT /\ m <> SOS.
Definition next_code (fin : Z) (is : list item) : Z :=
  match is with [] => fin | Tables _ :: _ => 196 | _ => 218 end.
Definition after_code (fin : Z) (is : list item) (sfx : list Z) : list Z :=
  match is with
  | [] => sfx
  | i :: is' => skipn 2 (item_bytes i) ++ flat_map item_bytes is' ++ 255 :: fin :: sfx
  end.
Lemma items_split fin is sfx : (flat_map item_bytes is ++ 255 :: fin :: sfx = 255 :: next_code fin is :: after_code fin is sfx)%list.
Proof.
  destruct is as [|[ts|id td ta ss se ah al bits|sel ah al bits] is]; cbn [flat_map item_bytes next_code after_code app skipn]; [reflexivity| | |];
    now rewrite <- !app_assoc.
Qed.
Lemma next_code_ok fin is : stop_code fin -> next_code fin is <> 0 /\ next_code fin is <> 255 /\ marker_from_u8 (next_code fin is) <> None.
Proof.
  intros (m & Hm & _). destruct is as [|[]]; cbn [next_code]; repeat split; try discriminate; try (intros ->; discriminate Hm). congruence.
Qed.

Lemma prog_slot d ac dest h : tables4 d -> 0 <= dest <= 3 -> slot d ac dest = Some h ->
  prog_table (if ac then d_acts d else d_dcts d) dest = Ok h.
Proof.
  intros [H1 H2] Hd Hs. unfold prog_table, zget, slot in *. replace (dest <? 0) with false by lia.
  destruct ac.
  - rewrite (nth_error_nth' (d_acts d) None) by lia. now rewrite Hs.
  - rewrite (nth_error_nth' (d_dcts d) None) by lia. now rewrite Hs.
Qed.

Lemma nth_upd {A} (l : list A) k x : forall j, (k < length l)%nat ->
  nth_error (upd l k x) j = if (j =? k)%nat then Some x else nth_error l j.
Proof.
  unfold upd. revert l. induction k as [|k IH]; intros [|a l] j Hk; cbn [length] in Hk; try lia.
  - destruct j; reflexivity.
  - destruct j as [|j]; [reflexivity|]. cbn [firstn skipn app nth_error Nat.eqb]. apply IH. lia.
Qed.

(** The coefficient buffer *)
Lemma alloc_blocks_at n : forall i w h comps buf buf' j c,
  alloc_blocks n i w h comps buf = Ok buf' -> 0 <= i ->
  (i <= j < i + Z.of_nat n -> zget comps j = Some c ->
    zget buf' j = Some (zrepeat 0 (w * 64 * c_v c * c_h c * h))) /\
  (j < i -> zget buf' j = zget buf j).
Proof.
  induction n as [|n IH]; intros i w h comps buf buf' j c H Hi; cbn [alloc_blocks] in H.
  - injection H as <-. split; [lia|reflexivity].
  - unfold at_ in H. destruct (zget comps i) as [ci|] eqn:Ei; [|discriminate].
    unfold zupd in H. destruct ((i <? 0) || (zlen buf <=? i)) eqn:Eb; [discriminate|].
    change (nupd buf (Z.to_nat i) ?x) with (zset buf i x) in H.
    destruct (IH _ _ _ _ _ _ j c H ltac:(lia)) as [A B]. split.
    + intros Hj Hc. destruct (Z.eq_dec i j) as [->|Hne]; [|apply A; [lia|exact Hc]].
      rewrite B by lia. rewrite BaseFacts.zget_zset by lia. replace (_ && _) with true by lia. congruence.
    + intros Hj. rewrite B by lia. rewrite BaseFacts.zget_zset by lia. now replace ((j =? i) && _) with false by lia.
Qed.
Lemma alloc_blocks_ok n : forall i w h comps buf, 0 <= i -> i + Z.of_nat n <= zlen comps -> i + Z.of_nat n <= zlen buf ->
  exists buf', alloc_blocks n i w h comps buf = Ok buf'.
Proof.
  induction n as [|n IH]; intros i w h comps buf Hi Hc Hb; cbn [alloc_blocks]; [eauto|].
  unfold at_. destruct (zget comps i) as [c|] eqn:Ei.
  - unfold zupd. replace ((i <? 0) || (zlen buf <=? i)) with false by lia.
    change (nupd buf (Z.to_nat i) ?x) with (zset buf i x). apply IH; rewrite ?zlen_zset; lia.
  - unfold zget in Ei. replace (i <? 0) with false in Ei by lia. apply nth_error_None in Ei. unfold zlen in *. lia.
Qed.

Lemma after_code_len fin is sfx : (length is <= length (after_code fin is sfx))%nat.
Proof.
  assert (forall l, length l <= length (flat_map item_bytes l))%nat as G.
  { induction l as [|[ts|id td ta ss se ah al bits|sel ah al bits] l IH]; [cbn; lia| | |]; cbn [flat_map item_bytes length app];
      rewrite ?app_length; cbn [length]; rewrite ?app_length; lia. }
  destruct is as [|i is]; cbn [after_code length]; [lia|].
  rewrite !app_length; cbn [length]; specialize (G is); lia.
Qed.

Lemma first_planes d0 cs buf : frame_ok d0 cs ->
  alloc_blocks (Z.to_nat (num_components (d_incs d0))) 0 (fst (prog_counts d0)) (snd (prog_counts d0)) (d_comps d0)
    [[]; []; []] = Ok buf -> planes_show d0 cs (map (fun _ => nothing) cs) buf.
Proof.
  intros Hfr Ha k cd Hk. destruct (fo_comp _ _ Hfr k cd Hk) as (c0 & Hc0 & Hid & Hidr & Hwh & Hw & Hh & Hsb & Hroom).
  assert (k < length cs)%nat as Hkl by (apply nth_error_Some; congruence).
  pose proof (fo_ncomp _ _ Hfr) as Hnc.
  exists c0, nothing. eexists. split; [exact Hc0|]. split; [now rewrite nth_error_map, Hk|]. split; [|split].
  - apply (proj1 (alloc_blocks_at _ _ _ _ _ _ _ (Z.of_nat k) c0 Ha ltac:(lia))); [lia|exact Hc0].
  - unfold zlen, zrepeat. rewrite repeat_length. lia.
  - intros b i Hb Hi. unfold zrepeat. rewrite nth_repeat. reflexivity.
Qed.

(** ** Interleaved scans *)
(** The MCUs of the frame *)
Record geo_ok (d : decoder) (cs : list comp_data) (g : geometry) : Prop := {
  ge_mx : d_mcux d = g_mx g; ge_my : d_mcuy d = g_my g;
  ge_pos : 1 <= g_mx g /\ 1 <= g_my g;
  ge_comp : forall k cd c, nth_error cs k = Some cd -> zget (d_comps d) (Z.of_nat k) = Some c ->
    factor g k = (c_h c, c_v c) /\ 1 <= c_h c /\ 1 <= c_v c /\ c_stride c = 8 * (g_mx g * c_h c) /\
    cd_w cd <= g_mx g * c_h c /\ 0 < cd_h cd <= g_my g * c_v c /\
    64 * (g_mx g * c_h c * (g_my g * c_v c)) <= fst (prog_counts d) * 64 * c_v c * c_h c * snd (prog_counts d) }.
Lemma geo_ok_erase d d' cs g : erase d = erase d' -> geo_ok d' cs g -> geo_ok d cs g.
Proof.
  intros H [G1 G2 G3 G4]. split; auto.
  - rewrite <- G1. exact (f_equal d_mcux H).
  - rewrite <- G2. exact (f_equal d_mcuy H).
  - intros k cd c Hk Hc. symmetry in H. destruct (erase_zget d' d _ _ H Hc) as (c' & Hc' & He).
    rewrite <- (erase_counts d' d H).
    assert (c_h c' = c_h c) as E1 by exact (f_equal c_h He). assert (c_v c' = c_v c) as E2 by exact (f_equal c_v He).
    assert (c_stride c' = c_stride c) as E3 by exact (f_equal c_stride He).
    rewrite <- E1, <- E2, <- E3. exact (G4 k cd c' Hk Hc').
Qed.
(** There is room for all the blocks of the MCUs *)
Definition roomy (g : geometry) (cs : list comp_data) (buf : list (list Z)) : Prop :=
  forall k cd, nth_error cs k = Some cd -> exists plane, zget buf (Z.of_nat k) = Some plane /\
    64 * (g_mx g * fst (factor g k) * (g_my g * snd (factor g k))) <= zlen plane.
Lemma lens_get (a b : list (list Z)) k p : map (@length Z) b = map (@length Z) a -> zget a k = Some p ->
  exists p', zget b k = Some p' /\ zlen p' = zlen p.
Proof.
  intros E H. apply (f_equal (fun l => zget l k)) in E. rewrite !zget_map, H in E.
  destruct (zget b k) as [p'|]; [|discriminate]. exists p'. split; [reflexivity|]. cbn [option_map] in E. unfold zlen. congruence.
Qed.
Lemma roomy_lens g cs a b : map (@length Z) b = map (@length Z) a -> roomy g cs a -> roomy g cs b.
Proof.
  intros E H k cd Hk. destruct (H k cd Hk) as (p & Hp & Hl). destruct (lens_get a b _ _ E Hp) as (p' & Hp' & El).
  exists p'. rewrite El. auto.
Qed.
Lemma first_roomy d cs g buf : frame_ok d cs -> geo_ok d cs g ->
  alloc_blocks (Z.to_nat (num_components (d_incs d))) 0 (fst (prog_counts d)) (snd (prog_counts d)) (d_comps d)
    [[]; []; []] = Ok buf -> roomy g cs buf.
Proof.
  intros Hfr Hge Ha k cd Hk. destruct (fo_comp _ _ Hfr k cd Hk) as (c0 & Hc0 & _).
  destruct (ge_comp _ _ _ Hge k cd c0 Hk Hc0) as (Ef & G1 & G2 & G3 & G4 & G5 & G6).
  assert (k < length cs)%nat as Hkl by (apply nth_error_Some; congruence).
  pose proof (fo_ncomp _ _ Hfr) as Hnc. eexists. split.
  - apply (proj1 (alloc_blocks_at _ _ _ _ _ _ _ (Z.of_nat k) c0 Ha ltac:(lia))); [lia|exact Hc0].
  - rewrite Ef. cbn [fst snd]. unfold zlen, zrepeat. rewrite repeat_length. lia.
Qed.

Lemma known_next_at Ks k ss se al j K : nth_error Ks k = Some K ->
  nth_error (known_next Ks k ss se al) j = if (j =? k)%nat then Some (scan_learns K ss se al) else nth_error Ks j.
Proof. intros H. unfold known_next. rewrite H. apply nth_upd. apply nth_error_Some. congruence. Qed.
Lemma fold_known al j : forall ks Ks, NoDup ks -> (forall k, In k ks -> nth_error Ks k <> None) ->
  nth_error (fold_left (fun L k => known_next L k 0 0 al) ks Ks) j
  = if in_dec Nat.eq_dec j ks then option_map (fun K => scan_learns K 0 0 al) (nth_error Ks j) else nth_error Ks j.
Proof.
  induction ks as [|k ks IH]; intros Ks Hnd Hin; [reflexivity|]. cbn [fold_left]. inversion Hnd as [|? ? Hni Hnd']; subst.
  destruct (nth_error Ks k) as [K|] eqn:EK; [|now destruct (Hin k (or_introl eq_refl))].
  rewrite IH; [|exact Hnd'|].
  2:{ intros k' Hk'. rewrite (known_next_at Ks k 0 0 al k' K EK). destruct (k' =? k)%nat; [discriminate|]. apply Hin. now right. }
  rewrite (known_next_at Ks k 0 0 al j K EK).
  destruct (in_dec Nat.eq_dec j ks) as [H1|H1]; destruct (in_dec Nat.eq_dec j (k :: ks)) as [H2|H2];
    destruct (Nat.eqb_spec j k) as [->|Hne]; try reflexivity; try contradiction.
  - exfalso. apply H2. now right.
  - rewrite EK. reflexivity.
  - exfalso. destruct H2; [congruence|contradiction].
  - exfalso. apply H2. now left.
Qed.

(** Per component *)
Lemma sel_at tabs (R : nat -> Z * Z * Z -> Prop) : forall ks sel k, NoDup ks -> Forall2 R ks sel -> In k ks ->
  exists id td ta, R k (id, td, ta) /\ sel_code tabs ks sel k = code_at tabs false td.
Proof.
  induction ks as [|k' ks IH]; intros sel k Hnd Hf Hin; inversion Hf as [|? [[id td] ta] ? sel' H1 H2]; subst; [contradiction|].
  inversion Hnd as [|? ? Hni Hnd']; subst. cbn [sel_code]. destruct (Nat.eqb_spec k' k) as [->|Hne].
  - exists id, td, ta. auto.
  - destruct Hin as [->|Hin]; [now contradiction Hne|]. exact (IH sel' k Hnd' H2 Hin).
Qed.
Lemma forall2_both {A B} (R S : A -> B -> Prop) l m : Forall2 R l m -> Forall2 S l m -> Forall2 (fun a b => R a b /\ S a b) l m.
Proof. intros H. induction H as [|a b l m H1 H2 IH]; intros G; [constructor|]. inversion G; subst. constructor; auto. Qed.
Lemma forall2_imp {A B} (R S : A -> B -> Prop) l m : (forall a b, R a b -> S a b) -> Forall2 R l m -> Forall2 S l m.
Proof. intros H G. induction G; constructor; auto. Qed.
Lemma same_numbers cs : NoDup (map cd_id cs) -> forall ks ks' sel,
  Forall2 (fun k s => exists cd, nth_error cs k = Some cd /\ cd_id cd = fst (fst s)) ks sel ->
  Forall2 (fun k (s : Z * Z * Z) => exists cd, nth_error cs k = Some cd /\ cd_id cd = fst (fst s)) ks' sel -> ks = ks'.
Proof.
  intros Hnd ks ks' sel H. revert ks'. induction H as [|k s ks sel (cd & H1 & H2) _ IH]; intros ks' G; inversion G as [|k' ? ks2 ? (cd' & G1 & G2) G3]; subst; [reflexivity|].
  f_equal; [|now apply IH].
  apply (proj1 (NoDup_nth_error (map cd_id cs)) Hnd); [rewrite map_length; apply nth_error_Some; congruence|].
  rewrite !nth_error_map, H1, G1. cbn. congruence.
Qed.
Lemma zigzag_bounds r c : 0 <= r < 8 -> 0 <= c < 8 -> 0 <= zigzag r c < 64.
Proof.
  intros Hr Hc. 
  assert (H : forallb (fun r => forallb (fun c => (0 <=? zigzag r c) && (zigzag r c <? 64)) (zseq 8)) (zseq 8) = true)
    by (vm_compute; reflexivity).
  rewrite forallb_forall in H. specialize (H r ltac:(apply zseq_in; lia)). rewrite forallb_forall in H.
  specialize (H c ltac:(apply zseq_in; lia)). lia.
Qed.
Lemma zigzag_origin i : 0 <= i < 64 -> i <> 0 -> zigzag (i / 8) (i mod 8) <> 0.
Proof.
  intros Hi Hn.
  assert (forallb (fun i => negb (zigzag ((i + 1) / 8) ((i + 1) mod 8) =? 0)) (zseq 63) = true) as H by (vm_compute; reflexivity).
  rewrite forallb_forall in H. specialize (H (i - 1) ltac:(apply zseq_in; lia)).
  replace (i - 1 + 1) with i in H by lia. lia.
Qed.

Section Script.
  Variables (d0 : decoder) (g : geometry) (cs : list comp_data) (fin : Z) (sfx : list Z).
  Hypothesis Hfr : frame_ok d0 cs.
  Hypothesis Hge : geo_ok d0 cs g.
  Hypothesis Hcs : Forall comp_data_ok cs.
  Hypothesis Hsfx : bytes sfx.
  Hypothesis Hfin : stop_code fin.

  Definition state_ok (d : decoder) (tabs : list huff_def) : Prop :=
    erase d = erase d0 /\ holds_tables d tabs /\ zlen (d_zorder d) = 4.

  (** The decoder state in which the scan's data is read *)
  Lemma sos_state d tabs k cd c td ta ss se ah al :
    state_ok d tabs -> nth_error cs k = Some cd -> zget (d_comps d) (Z.of_nat k) = Some c ->
    cd_w cd * cd_h cd < d_todo d < 2 ^ 64 ->
    let d1 := sos_dec (Z.of_nat k) c td ta ss se ah al d in
    state_ok d1 tabs /\ d_todo d1 = d_todo d /\
    exists c0, zget (d_comps d0) (Z.of_nat k) = Some c0 /\
    scan_ready d1 (Z.of_nat k) (set_c_act ta (set_c_dct td c)) (cd_w cd) (cd_h cd) (c_stride c0 / 8).
  Proof.
    intros (He & Ht & Hz) Hk Hc Htodo d1.
    destruct (fo_comp _ _ Hfr k cd Hk) as (c0 & Hc0 & Hid & Hidr & Hwh & Hw & Hh & Hsb & Hroom).
    destruct (erase_zget d d0 _ _ He Hc0) as (c' & Hc' & Hec). rewrite Hc in Hc'. injection Hc' as <-.
    assert (erase d1 = erase d0) as He1.
    { rewrite <- He. unfold erase, d1, sos_dec.
      cbn [d_comps set_d_al set_d_ah set_d_se set_d_ss set_d_zorder set_d_comps set_d_nscans].
      assert (map erase_c (zset (d_comps d) (Z.of_nat k) (set_c_act ta (set_c_dct td c))) = map erase_c (d_comps d)) as ->.
      { rewrite zset_map. apply zset_same. rewrite zget_map, Hc. reflexivity. }
      reflexivity. }
    split; [|split; [reflexivity|]].
    { split; [exact He1|]. split; [exact Ht|]. unfold d1, sos_dec. cbn [d_zorder set_d_al set_d_ah set_d_se set_d_ss set_d_zorder].
      rewrite zlen_zset. exact Hz. }
    exists c0. split; [exact Hc0|]. split; try assumption.
    - rewrite <- erase_dims, He1, erase_dims. apply Hfr.
    - replace (d_incs d1) with (d_incs d0); [rewrite (fo_ncomp _ _ Hfr); pose proof (fo_len _ _ Hfr); lia|]. symmetry. exact (f_equal d_incs He1).
    - reflexivity.
    - unfold d1, sos_dec. cbn [d_zorder set_d_al set_d_ah set_d_se set_d_ss set_d_zorder]. rewrite zn_zset by lia.
      replace ((0 =? 0) && (0 <? zlen (d_zorder d))) with true by lia. reflexivity.
    - unfold d1, sos_dec. cbn [d_comps set_d_al set_d_ah set_d_se set_d_ss set_d_zorder set_d_comps].
      eapply ProgFacts.zget_zset. exact Hc.
    - assert (d_info d1 = d_info d0) as -> by exact (f_equal d_info He1).
      assert (d_inter d1 = d_inter d0) as -> by exact (f_equal d_inter He1).
      assert (d_mcux d1 = d_mcux d0) as -> by exact (f_equal d_mcux He1).
      assert (d_mcuy d1 = d_mcuy d0) as -> by exact (f_equal d_mcuy He1).
      change (c_cid (set_c_act ta (set_c_dct td c))) with (c_cid c).
      assert (c_cid c = c_cid c0) as -> by exact (f_equal c_cid Hec). exact Hwh.
    - change (c_stride (set_c_act ta (set_c_dct td c))) with (c_stride c).
      assert (c_stride c = c_stride c0) as -> by exact (f_equal c_stride Hec). reflexivity.
  Qed.

  (** The data of one scan *)
  Lemma data_step tabs Ks k cd td ta ss se ah al bits d1 st buf c1 c0 m rest :
    nth_error cs k = Some cd -> scan_valid cs tabs Ks k td ta ss se ah al bits ->
    state_ok d1 tabs -> planes_show d0 cs Ks buf ->
    zget (d_comps d0) (Z.of_nat k) = Some c0 ->
    scan_ready d1 (Z.of_nat k) c1 (cd_w cd) (cd_h cd) (c_stride c0 / 8) ->
    c_dct c1 = td -> c_act c1 = ta ->
    d_ss d1 = ss -> d_se d1 = se -> d_ah d1 = ah -> d_al d1 = al ->
    b_al st = al -> b_ss st = ss -> b_se st = se ->
    b_rd st = (stuff (pack bits) ++ 255 :: m :: rest)%list -> bytes (b_rd st) ->
    m <> 0 -> m <> 255 -> marker_from_u8 m <> None ->
    exists d2 st2 buf2, parse_entropy_coded_data (mkPst d1 st buf) = (Ok tt, mkPst d2 st2 buf2) /\
      state_ok d2 tabs /\ d_todo d1 - cd_w cd * cd_h cd <= d_todo d2 <= d_todo d1 /\
      planes_show d0 cs (known_next Ks k ss se al) buf2 /\ map (@length Z) buf2 = map (@length Z) buf /\
      (exists bs, feed 0 st2 bs (AtMarker m rest)) /\
      (ss = 0 -> ah = 0 -> 0 < cd_h cd ->
       dc_first_last (code_at tabs false td) al 0 (map (hd 0) (cd_blocks cd)) <= 8 -> b_marker st2 <> None).
  Proof.
    intros Hk (cd' & K & Hk' & HK & Htd & Hta & Hnext & Huse & Hdata) (He & Ht & Hz) Hpl Hc0 Hr Etd Eta Ess Ese Eah Eal B1 B2 B3 Hrd Hby M1 M2 M3.
    rewrite Hk in Hk'. injection Hk' as <-.
    destruct (Hpl k cd Hk) as (c' & K' & plane & Hc' & HK' & Hp & Hlen & Hsh).
    rewrite Hc0 in Hc'. injection Hc' as <-. rewrite HK in HK'. injection HK' as <-.
    pose proof Hcs as Hcs'. rewrite Forall_forall in Hcs'. destruct (Hcs' cd (nth_error_In _ _ Hk)) as (D1 & D2 & D3).
    assert (entropy (b_rd st) = (pack bits, AtMarker m rest)) as Hent by (rewrite Hrd; now apply entropy_stuff).
    destruct (pack_bits bits) as (pad & Hpad7 & Hpad).
    destruct Ht as (H4 & Hlg & Hslot). pose proof Hlg as Hlg'. rewrite Forall_forall in Hlg'.
    (* the tables in use *)
    assert (exists dcc dcs acc acs, table_def dcc dcs /\ table_def acc acs /\ fast_safe acc acs /\
      (if ss =? 0 then dc_ready d1 c1 dcc dcs else ac_ready d1 c1 acc acs) /\
      scan_data (code_of dcc dcs) (code_of acc acs) ss se ah al (cd_blocks cd) bits /\
      (ss = 0 -> code_of dcc dcs = code_at tabs false td))
      as (dcc & dcs & acc & acs & T1 & T2 & T3 & T4 & T5 & T6).
    { assert (table_def (1 :: repeat 0 15) [0] /\ fast_safe (1 :: repeat 0 15) [0]) as [Hdef0 Hsafe0].
      { split; [apply table_defb_ok; vm_compute; reflexivity|]. intros l c v (j & _ & _ & _ & Hv).
        apply nth_error_In in Hv. destruct Hv as [<-|[]]. cbn. lia. }
      destruct (ss =? 0) eqn:E0; destruct Huse as (t & Hlast & Hcond).
      - destruct (last_huff_in _ _ _ _ Hlast) as [Hin Hac]. pose proof (Hlg' t Hin) as Hdef.
        destruct (Hslot _ _ _ Htd Hlast) as (h & Hs & Hn).
        exists (hf_counts t), (hf_symbols t), (1 :: repeat 0 15), [0]. split; [apply Hdef|]. split; [exact Hdef0|].
        split; [exact Hsafe0|split; [|split]].
        3: { intros _. unfold code_at. now rewrite Hlast. }
        + exists h. split; [|exact Hn]. rewrite Etd. change 3 with (Z.ones 2). rewrite Z.land_ones by lia.
          rewrite Z.mod_small by (change (2 ^ 2) with 4; lia). exact (prog_slot d1 false td h H4 Htd Hs).
        + unfold scan_data in *. rewrite E0 in *. unfold code_at in Hdata. rewrite Hlast in Hdata. exact Hdata.
      - destruct (last_huff_in _ _ _ _ Hlast) as [Hin Hac]. pose proof (Hlg' t Hin) as Hdef.
        destruct (Hslot _ _ _ Hta Hlast) as (h & Hs & Hn).
        exists (1 :: repeat 0 15), [0], (hf_counts t), (hf_symbols t). split; [exact Hdef0|]. split; [apply Hdef|].
        split; [exact (Hcond eq_refl)|]. split; [|split; [|lia]].
        + exists h. split; [|exact Hn]. rewrite Eta. exact (prog_slot d1 true ta h H4 Hta Hs).
        + unfold scan_data in *. rewrite E0 in *. unfold code_at in Hdata. rewrite Hlast in Hdata. exact Hdata. }
    destruct (entropy_scan d1 st buf (Z.of_nat k) c1 (cd_w cd) (cd_h cd) (c_stride c0 / 8) (cd_blocks cd) K plane
      dcc dcs acc acs bits pad) as (mm & comps & st2 & plane' & E & Hcm & Hm & Hz' & Hsh' & Hf & Hseen);
      try assumption; try congruence;
      try (now rewrite Hent); try (unfold scan_bits; now rewrite Hent); try (rewrite Ess; assumption).
    exists (set_d_comps comps (set_d_todo mm d1)), st2, (zset buf (Z.of_nat k) plane').
    split; [exact E|]. split; [|split; [exact Hm|split; [|split; [|split]]]].
    5: { intros S0 A0 Hh0 Hs0. apply Hseen; try congruence; try lia.
         - rewrite (T6 S0), Eal. lia.
         - rewrite Hent. discriminate. }
    - split; [|split; [split; [exact H4|split; [exact Hlg|exact Hslot]]|exact Hz]].
      rewrite <- He. unfold erase. cbn [d_comps set_d_comps set_d_todo].
      assert (map erase_c comps = map erase_c (d_comps d1)) as ->.
      { assert (forall l, map erase_c l = map (fun c => set_c_act 0 (set_c_dct 0 c)) (map (set_c_pred 0) l)) as G
          by (intros l; rewrite map_map; now apply map_ext).
        rewrite !G, Hcm. reflexivity. }
      reflexivity.
    - intros j cj Hj. destruct (Hpl j cj Hj) as (c & Kj & pj & P1 & P2 & P3 & P4 & P5).
      unfold known_next. rewrite HK. exists c.
      assert (k < length Ks)%nat as Hkl by (apply nth_error_Some; congruence).
      destruct (Nat.eq_dec j k) as [->|Hne].
      + exists (scan_learns K ss se al), plane'. rewrite Hk in Hj. injection Hj as <-. rewrite Hc0 in P1. injection P1 as <-.
        split; [exact Hc0|]. split; [|split; [|split]].
        * rewrite nth_upd by exact Hkl. now rewrite Nat.eqb_refl.
        * eapply ProgFacts.zget_zset. exact P3.
        * rewrite Hz'. exact Hlen.
        * rewrite Ess, Ese, Eal in Hsh'. exact Hsh'.
      + exists Kj, pj. split; [exact P1|]. split; [|split; [|auto]].
        * rewrite nth_upd by exact Hkl. rewrite (proj2 (Nat.eqb_neq j k) Hne). exact P2.
        * rewrite BaseFacts.zget_zset by lia. replace (Z.of_nat j =? Z.of_nat k) with false by lia. exact P3.
    - apply (lens_zset buf (Z.of_nat k) plane plane' Hp). unfold zlen in Hz'. lia.
    - exists pad. rewrite Hent in Hf. exact Hf.
  Qed.

  (** The data of one interleaved scan *)
  Lemma inter_step tabs Ks ks sel ah al V bits d1 st buf m rest :
    dc_scan_valid cs tabs Ks ks sel ah al -> dc_scan_data g cs tabs ks sel ah al V bits ->
    state_ok d1 tabs -> planes_show d0 cs Ks buf -> roomy g cs buf ->
    d_nscans d1 = Z.of_nat (length ks) -> d_se d1 = 0 -> d_ah d1 = ah -> d_al d1 = al -> b_al st = al ->
    (forall kk, (kk < length ks)%nat -> zget (d_zorder d1) (Z.of_nat kk) = Some (Z.of_nat (nth kk ks 0%nat))) ->
    Forall2 (fun k '(_, td, ta) => exists c, zget (d_comps d1) (Z.of_nat k) = Some c /\ c_dct c = td /\ c_act c = ta) ks sel ->
    Z.of_nat (length (scan_units g ks)) < d_todo d1 < 2 ^ 64 ->
    b_rd st = (stuff (pack bits) ++ 255 :: m :: rest)%list -> bytes (b_rd st) ->
    m <> 0 -> m <> 255 -> marker_from_u8 m <> None ->
    exists d2 st2 buf2, parse_entropy_coded_data (mkPst d1 st buf) = (Ok tt, mkPst d2 st2 buf2) /\
      state_ok d2 tabs /\ d_todo d1 - Z.of_nat (length (scan_units g ks)) <= d_todo d2 <= d_todo d1 /\
      planes_show d0 cs (fold_left (fun L k => known_next L k 0 0 al) ks Ks) buf2 /\ map (@length Z) buf2 = map (@length Z) buf /\
      (exists bs, feed 0 st2 bs (AtMarker m rest)) /\
      (ah = 0 -> dc_units_last (sel_code tabs ks sel) al (fun _ => 0) (unit_values V (scan_units g ks)) <= 8 ->
       b_marker st2 <> None).
  Proof.
    intros (Hlen & Hnd & Hsel) (Hval & HV & Hdata) Hst Hpl Hroom Hns Hse Eah Eal Hbal Hzo Hcsel Htodo Hrd Hby M1 M2 M3.
    pose proof Hst as (He & Ht & Hz). destruct Ht as (H4 & Hlg & Hslot).
    pose proof Hcs as Hcs'. rewrite Forall_forall in Hcs'.
    assert (entropy (b_rd st) = (pack bits, AtMarker m rest)) as Hent by (rewrite Hrd; now apply entropy_stuff).
    destruct (pack_bits bits) as (pad & Hpad7 & Hpad).
    set (dflt := mkHuff [] [] [] None [] []).
    set (T := fun k => match zget (d_comps d1) (Z.of_nat k) with
                       | Some c => match prog_table (d_dcts d1) (c_dct c) with Ok h => h | _ => dflt end
                       | None => dflt end).
    set (sb := fun k => g_mx g * fst (factor g k)).
    set (real := fun u : unit_ => exists cd, nth_error cs (fst u) = Some cd /\ 0 <= fst (snd u) < cd_w cd /\ 0 <= snd (snd u) < cd_h cd).
    assert (forall k, In k ks -> exists cd c c0 K td, nth_error cs k = Some cd /\ nth_error Ks k = Some K /\
      zget (d_comps d1) (Z.of_nat k) = Some c /\ zget (d_comps d0) (Z.of_nat k) = Some c0 /\ erase_c c = erase_c c0 /\
      scan_next K 0 0 ah al /\ c_dct c = td /\
      exists t h, last_huff tabs false td = Some t /\ huff_def_legal t /\ prog_table (d_dcts d1) td = Ok h /\ T k = h /\
        dc_table h (hf_counts t) (hf_symbols t) /\ sel_code tabs ks sel k = code_of (hf_counts t) (hf_symbols t)) as Hk.
    { intros k Hin.
      destruct (sel_at tabs _ ks sel k Hnd (forall2_both _ _ _ _ Hsel Hcsel) Hin) as (id & td & ta & (A & B) & Ecode).
      destruct A as (cd & K & A1 & A2 & A3 & A4 & A5 & A6 & (t & A7 & _)). destruct B as (c & B1 & B2 & B3).
      destruct (fo_comp _ _ Hfr k cd A1) as (c0 & Hc0 & _). destruct (erase_zget d1 d0 _ _ He Hc0) as (c' & Hc' & Hec).
      rewrite B1 in Hc'. injection Hc' as <-.
      destruct (Hslot _ _ _ A4 A7) as (h & Hs & Hn). destruct (last_huff_in _ _ _ _ A7) as [Hin' _].
      rewrite Forall_forall in Hlg. pose proof (Hlg t Hin') as Hdef.
      exists cd, c, c0, K, td. repeat (split; [assumption|]). exists t, h. split; [exact A7|]. split; [exact Hdef|].
      pose proof (prog_slot d1 false td h H4 A4 Hs) as Hp. cbv iota in Hp. split; [exact Hp|]. split; [|split].
      - unfold T. rewrite B1, B2, Hp. reflexivity.
      - eapply huffman_new_dc'; [apply Hdef|exact Hn].
      - rewrite Ecode. unfold code_at. now rewrite A7. }
    destruct ks as [|k0 ks'] eqn:Eks; [cbn in Hlen; lia|]. rewrite <- Eks in *.
    assert (In k0 ks) as Hin0 by (rewrite Eks; now left).
    destruct (Hk k0 Hin0) as (_ & _ & _ & K0 & _ & _ & _ & _ & _ & _ & (Hal & Hah & Haa & _) & _).
    assert (forall k, In k ks -> 1 <= fst (factor g k) /\ 1 <= snd (factor g k)) as Hfac.
    { intros k Hin. destruct (Hk k Hin) as (cd & c & c0 & K & td & A1 & A2 & A3 & A4 & _).
      destruct (ge_comp _ _ _ Hge k cd c0 A1 A4) as (-> & G1 & G2 & _). auto. }
    assert (length ks <= length cs)%nat as Hlks.
    { apply (Nat.le_trans _ (length (seq 0 (length cs)))); [|now rewrite seq_length].
      apply NoDup_incl_length; [exact Hnd|]. intros k Hin. apply in_seq. destruct (Hk k Hin) as (cd & _ & _ & _ & _ & A1 & _).
      assert (k < length cs)%nat by (apply nth_error_Some; congruence). lia. }
    destruct (entropy_inter d1 st buf g ks V (sel_code tabs ks sel) T sb real bits pad)
      as (mm & comps & st2 & buf2 & E & Hcm & Hm & Hlens & Hnew & Hsame & Hf & Hseen); try assumption; try lia.
    - rewrite <- erase_dims, He, erase_dims. apply Hfr.
    - replace (d_incs d1) with (d_incs d0); [rewrite (fo_ncomp _ _ Hfr); lia|]. symmetry. exact (f_equal d_incs He).
    - rewrite (f_equal d_mcux He : d_mcux d1 = d_mcux d0). apply Hge.
    - rewrite (f_equal d_mcuy He : d_mcuy d1 = d_mcuy d0). apply Hge.
    - intros k Hin. destruct (Hk k Hin) as (cd & c & c0 & K & td & A1 & A2 & A3 & A4 & A5 & A6 & A7 & t & h & B1 & B2 & B3 & B4 & B5 & B6).
      destruct (ge_comp _ _ _ Hge k cd c0 A1 A4) as (Ef & G1 & G2 & G3 & _).
      destruct (Hroom k cd A1) as (plane0 & Hp0 & Hl0). exists c, plane0.
      assert (c_h c = c_h c0) as E1 by exact (f_equal c_h A5). assert (c_v c = c_v c0) as E2 by exact (f_equal c_v A5).
      assert (c_stride c = c_stride c0) as E3 by exact (f_equal c_stride A5). rewrite E1, E2, E3.
      split; [exact A3|]. split; [exact Ef|]. split; [exact G1|]. split; [exact G2|]. unfold sb. rewrite Ef in *. cbn [fst snd] in *.
      split; [exact G3|]. split; [reflexivity|]. split; [rewrite A7, B4; exact B3|]. split; [|auto].
      intros _. exists (hf_counts t), (hf_symbols t). rewrite B4. auto.
    - intros Ha. split; [lia|]. intros k x y plane0 Hin (cd' & Hcd' & Hx & Hy) Hp0. cbn [fst snd] in *.
      destruct (Hk k Hin) as (cd & c & c0 & K & td & A1 & A2 & A3 & A4 & A5 & (_ & _ & _ & A6) & _).
      rewrite A1 in Hcd'. injection Hcd' as <-. change (0 =? 0) with true in A6. cbv iota in A6. destruct A6 as [_ [A6|A6]]; [lia|].
      destruct (Hpl k cd A1) as (c' & K' & plane & P1 & P2 & P3 & P4 & P5). rewrite A4 in P1. injection P1 as <-.
      rewrite A2 in P2. injection P2 as <-. rewrite P3 in Hp0. injection Hp0 as ->.
      destruct (ge_comp _ _ _ Hge k cd c0 A1 A4) as (Ef & G1 & G2 & G3 & _).
      destruct (Hcs' cd (nth_error_In _ _ A1)) as (D1 & D2 & D3).
      assert (0 <= y * cd_w cd + x < cd_w cd * cd_h cd) as Hb by (clear - Hx Hy; nia).
      specialize (P5 (Z.to_nat (y * cd_w cd + x)) 0 ltac:(lia) ltac:(lia)). cbv zeta in P5.
      change (zigzag (0 / 8) (0 mod 8)) with 0 in P5. rewrite A6 in P5. rewrite (HV k cd x y Hin A1 Hx Hy).
      rewrite Z2Nat.id in P5 by lia. unfold block_at in P5. rewrite Z.add_0_r in P5.
      replace ((y * cd_w cd + x) mod cd_w cd) with x in P5 by (rewrite Z.add_comm, Z_mod_plus_full, Z.mod_small; lia).
      replace ((y * cd_w cd + x) / cd_w cd) with y in P5 by (rewrite Z.add_comm, Z_div_plus_full, Z.div_small; lia).
      unfold zn, sb. rewrite Ef. cbn [fst]. replace (c_stride c0 / 8) with (g_mx g * c_h c0) in P5 by (clear - G3; lia).
      rewrite P5, Eal. f_equal. destruct (nth (Z.to_nat (y * cd_w cd + x)) (cd_blocks cd) []); reflexivity.
    - rewrite Eah, Eal. exact Hdata.
    - rewrite Hent. exact M3.
    - unfold scan_bits. rewrite Hent. exact Hpad.
    - exists (set_d_comps comps (set_d_todo mm d1)), st2, buf2. split; [exact E|]. split; [|split; [exact Hm|split; [|split; [exact Hlens|split]]]].
      + split; [|split; [split; [exact H4|split; [exact Hlg|exact Hslot]]|exact Hz]].
        rewrite <- He. unfold erase. cbn [d_comps set_d_comps set_d_todo].
        assert (map erase_c comps = map erase_c (d_comps d1)) as ->.
        { assert (forall l, map erase_c l = map (fun c => set_c_act 0 (set_c_dct 0 c)) (map (set_c_pred 0) l)) as G
            by (intros l; rewrite map_map; now apply map_ext).
          rewrite !G, Hcm. reflexivity. }
        reflexivity.
      + intros j cj Hj. destruct (Hpl j cj Hj) as (c & Kj & pj & P1 & P2 & P3 & P4 & P5).
        destruct (lens_get _ _ _ _ Hlens P3) as (pj' & P3' & El).
        assert (forall k, In k ks -> nth_error Ks k <> None) as HKs.
        { intros k Hin. destruct (Hk k Hin) as (_ & _ & _ & K & _ & _ & A2 & _). congruence. }
        destruct (fo_comp _ _ Hfr j cj Hj) as (c0 & Hc0 & _ & _ & _ & Hw & _). rewrite P1 in Hc0. injection Hc0 as <-.
        destruct (ge_comp _ _ _ Hge j cj c Hj P1) as (Ef & G1 & G2 & G3 & G4 & G5 & G6).
        assert (c_stride c / 8 = g_mx g * c_h c) as Es by (clear - G3; lia).
        assert (0 <= g_mx g * c_h c) as Hs0 by lia.
        destruct (in_dec Nat.eq_dec j ks) as [Hin|Hni].
        * exists c, (scan_learns Kj 0 0 al), pj'. split; [exact P1|]. split; [|split; [exact P3'|split; [lia|]]].
          { rewrite fold_known by assumption. destruct (in_dec Nat.eq_dec j ks); [|contradiction]. now rewrite P2. }
          intros b i Hb Hi. cbv zeta. specialize (P5 b i Hb Hi). cbv zeta in P5.
          destruct (Hcs' cj (nth_error_In _ _ Hj)) as (D1 & D2 & D3).
          assert (0 <= Z.of_nat b mod cd_w cj < cd_w cj /\ 0 <= Z.of_nat b / cd_w cj < cd_h cj) as [Hx Hy].
          { split; [apply Z.mod_pos_bound; lia|]. split; [apply Z.div_pos; lia|]. apply Z.div_lt_upper_bound; lia. }
          set (x := Z.of_nat b mod cd_w cj) in *. set (y := Z.of_nat b / cd_w cj) in *.
          assert (block_at (cd_w cj) (c_stride c / 8) (Z.of_nat b) = 64 * (x + y * (g_mx g * c_h c))) as Eb by (unfold block_at; now rewrite Es).
          rewrite Eb in *. assert (0 <= x + y * (g_mx g * c_h c)) as Hpos by (apply Z.add_nonneg_nonneg; [lia|apply Z.mul_nonneg_nonneg; lia]).
          assert (sb j = g_mx g * c_h c) as Esb by (unfold sb; now rewrite Ef).
          destruct (Z.eq_dec i 0) as [->|Hn0].
          -- change (zigzag (0 / 8) (0 mod 8)) with 0 in *. unfold scan_learns, learn. cbn [Z.leb Z.compare andb Z.eqb].
             assert (In (j, (x, y)) (scan_units g ks)) as Hu.
             { apply (in_units g ks Hfac). cbn [fst snd]. rewrite Ef. cbn [fst snd]. split; [exact Hin|]. lia. }
             assert (real (j, (x, y))) as Hr by (exists cj; cbn [fst snd]; auto).
             pose proof (Hnew j x y pj' Hu Hr P3') as Hv. unfold zn in Hv. rewrite Esb in Hv. rewrite Z.add_0_r, Hv, Eal. f_equal.
             rewrite (HV j cj x y Hin Hj Hx Hy). replace (y * cd_w cj + x) with (Z.of_nat b).
             2:{ unfold x, y. pose proof (Z.div_mod (Z.of_nat b) (cd_w cj) ltac:(lia)). lia. }
             rewrite Nat2Z.id. destruct (nth b (cd_blocks cj) []); reflexivity.
          -- pose proof (zigzag_origin i Hi Hn0) as Hzz. unfold scan_learns, learn.
             assert (0 <= zigzag (i / 8) (i mod 8)) as Hzp by (apply zigzag_bounds; lia).
             replace ((0 <=? zigzag (i / 8) (i mod 8)) && (zigzag (i / 8) (i mod 8) <=? 0)) with false by (clear - Hzz Hzp; lia).
             rewrite <- P5. apply (Hsame j pj' pj _ P3' P3); [lia|].
             intros x' y' _. lia.
        * exists c, Kj, pj'. split; [exact P1|]. split; [|split; [exact P3'|split; [lia|]]].
          { rewrite fold_known by assumption. destruct (in_dec Nat.eq_dec j ks); [contradiction|exact P2]. }
          intros b i Hb Hi. cbv zeta. specialize (P5 b i Hb Hi). cbv zeta in P5. rewrite <- P5.
          apply (Hsame j pj' pj _ P3' P3).
          -- unfold block_at. rewrite Es. assert (0 <= Z.of_nat b mod cd_w cj) by (apply Z.mod_pos_bound; lia).
             assert (0 <= Z.of_nat b / cd_w cj) by (apply Z.div_pos; lia).
             assert (0 <= Z.of_nat b / cd_w cj * (g_mx g * c_h c)) by (apply Z.mul_nonneg_nonneg; lia). lia.
          -- intros x y Hu. apply (in_units g ks Hfac) in Hu. destruct Hu as (Hu & _). contradiction.
      + exists pad. rewrite Hent in Hf. exact Hf.
      + intros Ha0 Hl8. apply Hseen.
        * congruence.
        * intros Hnil. assert (In (k0, (0, 0)) (scan_units g ks)) as Hu.
          { apply (in_units g ks Hfac). cbn [fst snd]. destruct (Hfac k0 Hin0). destruct (ge_pos _ _ _ Hge).
            split; [exact Hin0|]. nia. }
          rewrite Hnil in Hu. exact Hu.
        * rewrite Eal. unfold blen. lia.
        * rewrite Hent. discriminate.
  Qed.

  (** What a scan does to the planes *)
  Definition runs (tabs : list huff_def) (Ks : list knowledge) (bits : list bool) (Ks1 : list knowledge) (b1 : Z) (short : Prop)
    (d1 : decoder) : Prop :=
    forall st buf m rest, b_al st = d_al d1 -> b_ss st = d_ss d1 -> b_se st = d_se d1 ->
    b_rd st = (stuff (pack bits) ++ 255 :: m :: rest)%list -> bytes (b_rd st) ->
    m <> 0 -> m <> 255 -> marker_from_u8 m <> None -> planes_show d0 cs Ks buf -> roomy g cs buf ->
    exists d2 st2 buf2, parse_entropy_coded_data (mkPst d1 st buf) = (Ok tt, mkPst d2 st2 buf2) /\
      state_ok d2 tabs /\ d_todo d1 - b1 <= d_todo d2 <= d_todo d1 /\
      planes_show d0 cs Ks1 buf2 /\ roomy g cs buf2 /\
      (exists bs, feed 0 st2 bs (AtMarker m rest)) /\ (short -> b_marker st2 <> None).

  Lemma scan_pos tabs Ks i Ks1 b1 : scan_ok g cs tabs Ks i Ks1 b1 -> 0 <= b1.
  Proof.
    intros [k c td ta ss se ah al bits Hk _|]; [|lia]. rewrite Forall_forall in Hcs.
    destruct (Hcs _ (nth_error_In _ _ Hk)) as (D1 & _ & _). lia.
  Qed.
  Lemma script_pos tabs Ks is Ks' n b : script g cs tabs Ks is Ks' n b -> 0 <= n /\ 0 <= b.
  Proof.
    induction 1; [lia|assumption|]. match goal with H : scan_ok _ _ _ _ _ _ _ |- _ => apply scan_pos in H end. lia.
  Qed.

  Lemma scan_runs tabs Ks it Ks1 b1 : scan_ok g cs tabs Ks it Ks1 b1 ->
    exists hdr bits, item_bytes it = ([255; 218] ++ hdr ++ stuff (pack bits))%list /\ next_code fin [it] = 218 /\
    forall d, state_ok d tabs -> b1 < d_todo d < 2 ^ 64 ->
    exists d1, (forall rest, parse_sos (mkHst d (hdr ++ rest)) = (Ok tt, mkHst d1 rest)) /\
      state_ok d1 tabs /\ d_todo d1 = d_todo d /\
      runs tabs Ks bits Ks1 b1 (exists is', short_end g cs tabs (it :: is')) d1.
  Proof.
    intros [k cd td ta ss se ah al bits Hk Hv|ks sel ah al V bits Hv Hd].
    - exists (segment [1; cd_id cd; 16 * td + ta; ss; se; 16 * ah + al]), bits. split; [reflexivity|]. split; [reflexivity|].
      intros d Hst Htodo.
      destruct (fo_comp _ _ Hfr k cd Hk) as (c0 & Hc0 & Hid & Hidr & Hwh & Hw & Hh & Hsb & Hroom).
      pose proof Hst as (He & Ht & Hz).
      destruct (erase_zget d d0 _ _ He Hc0) as (c & Hc & Hec).
      destruct (fo_comps _ _ Hfr) as [F1 F2]. pose proof (fo_len _ _ Hfr) as F3.
      assert (length (d_comps d) = length cs) as Hlc.
      { pose proof (f_equal (@length _) (erase_comps _ _ He)) as G. rewrite !map_length in G. lia. }
      assert (d_info d = d_info d0) as Hinfo by exact (f_equal d_info He).
      pose proof Hv as (_ & K & _ & HK & Htd & Hta & (Hal & Hah & _ & Hnx) & _ & _).
      assert (0 <= ss <= 63 /\ 0 <= se <= 63) as [Hss Hse] by (destruct (ss =? 0) eqn:E0; lia).
      destruct (sos_state d tabs k cd c td ta ss se ah al Hst Hk Hc Htodo) as (Hst1 & Htd1 & c0' & Hc0' & Hrd1).
      rewrite Hc0 in Hc0'. injection Hc0' as <-.
      exists (sos_dec (Z.of_nat k) c td ta ss se ah al d). split; [|split; [exact Hst1|split; [exact Htd1|]]].
      + intros rest. apply parse_sos_one; try lia; try exact Hc; try reflexivity.
        * rewrite Hinfo. lia.
        * unfold zlen. lia.
        * rewrite Hinfo, F1, Nat2Z.id. apply find_component_ok; auto; [apply Hfr|].
          intros j cj Hj. destruct (fo_comp _ _ Hfr j cj Hj) as (cj0 & G1 & G2 & _).
          destruct (erase_zget d d0 _ _ He G1) as (cj1 & G3 & G4). exists cj1. split; [exact G3|].
          rewrite <- G2. exact (f_equal c_id G4).
      + intros st buf m rest B1 B2 B3 Hrd Hby M1 M2 M3 Hpl Hro.
        destruct (data_step tabs Ks k cd td ta ss se ah al bits _ st buf _ c0 m rest
          Hk Hv Hst1 Hpl Hc0 Hrd1 eq_refl eq_refl eq_refl eq_refl eq_refl eq_refl B1 B2 B3)
          as (d2 & st3 & buf2 & E2 & Hst2 & Htd2 & Hpl2 & Hlen2 & Hf & Hseen); auto.
        exists d2, st3, buf2. do 4 (split; [assumption|]). split; [now apply (roomy_lens g cs buf)|]. split; [exact Hf|].
        intros (is' & S1 & S2 & cd2 & Hin & Hid2 & Hdd). apply Hseen; auto; [apply (ge_comp _ _ _ Hge k cd c0 Hk Hc0)|].
        replace cd with cd2; [exact Hdd|]. destruct (In_nth_error _ _ Hin) as (k2 & Hk2).
        assert (k2 = k) as ->; [|congruence].
        apply (proj1 (NoDup_nth_error (map cd_id cs)) (fo_ids _ _ Hfr)).
        * rewrite map_length. apply nth_error_Some. congruence.
        * rewrite (map_nth_error cd_id k2 cs Hk2), (map_nth_error cd_id k cs Hk). now rewrite Hid2.
    - eexists _, bits. split; [cbn [item_bytes]; reflexivity|]. split; [reflexivity|].
      intros d Hst Htodo. pose proof Hv as (Hlen & Hnd & Hsel). pose proof Hst as (He & Ht & Hz).
      destruct (fo_comps _ _ Hfr) as [F1 F2]. pose proof (fo_len _ _ Hfr) as F3.
      assert (d_info d = d_info d0) as Hinfo by exact (f_equal d_info He).
      assert (comps_of cs (d_comps d)) as Hco.
      { split.
        - pose proof (f_equal (@length _) (erase_comps _ _ He)) as G. rewrite !map_length in G. lia.
        - intros j cj Hj. destruct (fo_comp _ _ Hfr j cj Hj) as (cj0 & G1 & G2 & _).
          destruct (erase_zget d d0 _ _ He G1) as (cj1 & G3 & G4). exists cj1. split; [exact G3|].
          rewrite <- G2. exact (f_equal c_id G4). }
      assert (forall k cd, nth_error cs k = Some cd -> 0 <= cd_id cd <= 3 /\ cd_id cd <= Z.of_nat (length cs)) as Hids.
      { intros k cd Hk. destruct (fo_comp _ _ Hfr k cd Hk) as (c0 & _ & _ & Hidr & _). lia. }
      destruct ks as [|k0 ks'] eqn:Eks; [cbn in Hlen; lia|]. rewrite <- Eks in *.
      assert (0 <= ah <= 13 /\ 0 <= al <= 13) as [Hah Hal].
      { destruct (sel_at tabs _ ks sel k0 Hnd Hsel ltac:(rewrite Eks; now left)) as (id & td & ta & (cd & K & _ & _ & _ & _ & _ & (A & B & _) & _) & _). auto. }
      assert (Forall2 (fun k '(id, td, ta) => exists cd, nth_error cs k = Some cd /\ id = cd_id cd /\ 0 <= td <= 15 /\ 0 <= ta <= 15) ks sel) as Hsel'.
      { eapply forall2_imp; [|exact Hsel]. intros k [[id td] ta] (cd & K & A1 & A2 & A3 & A4 & A5 & _).
        exists cd. split; [exact A1|]. split; [exact A3|]. lia. }
      destruct (parse_sos_many cs d ks sel ah al) as (zo & comps & C0 & C1 & C2 & C3 & C4); auto; try lia; [apply Hfr|now rewrite Hinfo|].
      set (d1 := set_d_al al (set_d_ah ah (set_d_se 0 (set_d_ss 0 (set_d_zorder zo (set_d_comps comps
        (set_d_nscans (Z.of_nat (length ks)) d))))))).
      assert (state_ok d1 tabs) as Hst1.
      { split; [|split; [exact Ht|exact C2]]. rewrite <- He. unfold erase, d1.
        cbn [d_comps set_d_al set_d_ah set_d_se set_d_ss set_d_zorder set_d_comps set_d_nscans]. rewrite C1. reflexivity. }
      exists d1. split; [|split; [exact Hst1|split; [reflexivity|]]].
      + exact C0.
      + intros st buf m rest B1 B2 B3 Hrd Hby M1 M2 M3 Hpl Hro.
        destruct (inter_step tabs Ks ks sel ah al V bits d1 st buf m rest Hv Hd Hst1 Hpl Hro eq_refl eq_refl eq_refl eq_refl B1 C3 C4 Htodo Hrd Hby M1 M2 M3)
          as (d2 & st2 & buf2 & E2 & Hst2 & Htd2 & Hpl2 & Hlen2 & Hf & Hseen).
        exists d2, st2, buf2. do 4 (split; [assumption|]). split; [now apply (roomy_lens g cs buf)|]. split; [exact Hf|].
        intros (is' & S1 & ks2 & V2 & S2 & S3 & S4).
        assert (ks2 = ks) as ->.
        { eapply (same_numbers cs (fo_ids _ _ Hfr) _ _ sel S2). eapply forall2_imp; [|exact Hsel].
          intros k [[id td] ta] (cd & K & A1 & A2 & A3 & _). exists cd. auto. }
        destruct (inter_step tabs Ks ks sel ah al V2 bits d1 st buf m rest Hv S3 Hst1 Hpl Hro eq_refl eq_refl eq_refl eq_refl B1 C3 C4 Htodo Hrd Hby M1 M2 M3)
          as (d3 & st3 & buf3 & E3 & _ & _ & _ & _ & _ & Hseen3).
        rewrite E2 in E3. injection E3 as _ Es _. rewrite Es. now apply Hseen3.
  Qed.

  Lemma scan_loop_script tabs Ks is Ks' n b : script g cs tabs Ks is Ks' n b ->
    forall fuel d st buf seen m,
    (length is < fuel)%nat -> state_ok d tabs -> planes_show d0 cs Ks buf -> roomy g cs buf -> b < d_todo d < 2 ^ 64 ->
    seen + n <= o_max_scans (d_opt d0) -> b_marker st = None ->
    marker_from_u8 (next_code fin is) = Some m -> b_rd st = after_code fin is sfx -> bytes (b_rd st) ->
    exists d' st' buf' tabs', scan_loop fuel m seen (mkPst d st buf) = (Ok tt, mkPst d' st' buf') /\
      state_ok d' tabs' /\ planes_show d0 cs Ks' buf' /\ roomy g cs buf'.
  Proof.
    induction 1 as [tabs Ks|tabs Ks ts is Ks' n b Hlg Hfit Hsc IH|tabs Ks i Ks1 b1 is Ks' n b Hok Hsc IH];
      intros fuel d st buf seen m Hfuel Hst Hpl Hro Htodo Hseen Hbm Hm Hrd Hby.
    - exists d, st, buf, tabs. split; [|auto]. destruct fuel; [cbn in Hfuel; lia|]. cbn [next_code] in Hm.
      destruct Hfin as (m' & Hm' & F1 & F2). rewrite Hm in Hm'. injection Hm' as <-.
      cbn [scan_loop]. destruct m; try reflexivity; congruence.
    - injection Hm as <-. destruct fuel as [|fuel]; [cbn in Hfuel; lia|]. cbn [scan_loop].
      change (is_eoi DHT) with false. cbv iota.
      destruct Hst as (He & Ht & Hz).
      cbn [after_code item_bytes skipn app] in Hrd. rewrite items_split in Hrd.
      assert (d_prog d = true) as Hp by (rewrite <- (fo_prog _ _ Hfr); exact (f_equal d_prog He)).
      destruct (parse_dht_tables true ts d (255 :: next_code fin is :: after_code fin is sfx) tabs Hlg Hfit Ht Hp) as (d1 & E & Hs & Ht1).
      set (st1 := set_rd st (255 :: next_code fin is :: after_code fin is sfx)).
      assert (on_hd parse_huffman (mkPst d st buf) = (Ok tt, mkPst d1 st1 buf)) as Eh
        by (unfold on_hd; cbn [p_dec p_st p_buf]; rewrite Hrd, E; reflexivity).
      rewrite (bindok _ _ _ _ _ Eh).
      destruct (next_code_ok fin is Hfin) as (N0 & N1 & N2).
      destruct (marker_from_u8 (next_code fin is)) as [m|] eqn:Em; [|congruence].
      set (st2 := set_rd st1 (after_code fin is sfx)).
      assert (get_marker (mkPst d1 st1 buf) = (Ok (Some m), mkPst d1 st2 buf)) as Eg.
      { unfold get_marker. cbn [p_st]. change (b_marker st1) with (b_marker st). rewrite Hbm.
        unfold st1 at 1. cbn [b_rd set_rd scan_marker]. change (255 =? 255) with true. cbv iota.
        replace (next_code fin is =? 255) with false by lia. replace (next_code fin is =? 0) with false by lia.
        cbn [negb andb]. rewrite Em. reflexivity. }
      rewrite (bindok _ _ _ _ _ Eg). cbv iota.
      destruct (same_huff_rest _ _ Hs) as [R1 R2].
      apply IH; try assumption; try reflexivity.
      + cbn in Hfuel. lia.
      + split; [rewrite (same_huff_erase _ _ Hs); exact He|]. split; [exact Ht1|]. now rewrite R2.
      + rewrite R1. exact Htodo.
      + rewrite Hrd in Hby. unfold st2. cbn [b_rd set_rd]. unfold bytes in Hby. apply Forall_app in Hby. destruct Hby as [_ Hby].
        apply Forall_inv_tail in Hby. now apply Forall_inv_tail in Hby.
    - destruct (scan_runs _ _ _ _ _ Hok) as (hdr & bits & Hib & Hnc & Hrun). pose proof (scan_pos _ _ _ _ _ Hok) as Hb1.
      change (next_code fin (i :: is)) with (next_code fin [i]) in Hm. rewrite Hnc in Hm.
      injection Hm as <-. destruct fuel as [|fuel]; [cbn in Hfuel; lia|]. cbn [scan_loop].
      change (is_eoi SOS) with false. cbv iota.
      cbn [after_code] in Hrd. rewrite Hib in Hrd. cbn [app skipn] in Hrd. rewrite items_split, <- app_assoc in Hrd.
      destruct (script_pos _ _ _ _ _ _ Hsc) as [Hn0 Hb0].
      destruct (Hrun d Hst ltac:(lia)) as (d1 & Hps & Hst1 & Htd1 & Hr).
      set (dat := (stuff (pack bits) ++ 255 :: next_code fin is :: after_code fin is sfx)%list) in *.
      set (st1 := set_rd st dat).
      assert (on_hd parse_sos (mkPst d st buf) = (Ok tt, mkPst d1 st1 buf)) as Eh.
      { unfold on_hd; cbn [p_dec p_st p_buf]. rewrite Hrd, Hps. reflexivity. }
      rewrite (bindok _ _ _ _ _ Eh).
      erewrite bindok by reflexivity. cbn [p_dec]. erewrite bindok by reflexivity. cbn [p_dec p_st p_buf].
      set (st2 := update_progressive_params st1 (d_ah d1) (d_al d1) (d_ss d1) (d_se d1)).
      destruct (next_code_ok fin is Hfin) as (N0 & N1 & N2).
      destruct (Hr st2 buf (next_code fin is) (after_code fin is sfx) eq_refl eq_refl eq_refl eq_refl)
        as (d2 & st3 & buf2 & E2 & Hst2 & Htd2 & Hpl2 & Hro2 & (bs & Hf) & _); auto.
      { unfold st2, st1. cbn [b_rd update_progressive_params set_rd]. rewrite Hrd in Hby. unfold bytes in Hby.
        apply Forall_app in Hby. apply Hby. }
      rewrite (bindok _ _ _ _ _ E2).
      destruct (feed_marker _ _ _ _ _ d2 buf2 Hf) as (st4 & Eg & Hrd4 & _ & Hm4).
      rewrite (bindok _ _ _ _ _ Eg).
      destruct (marker_from_u8 (next_code fin is)) as [m|] eqn:Em; [|congruence]. cbv iota zeta.
      erewrite bindok by reflexivity. cbn [p_dec].
      assert (d_opt d2 = d_opt d0) as -> by exact (f_equal d_opt (proj1 Hst2)).
      replace (o_max_scans (d_opt d0) <? seen + 1) with false by lia.
      erewrite bindok by reflexivity. cbn [p_dec p_st p_buf].
      apply IH; try assumption; try reflexivity; try lia.
      + cbn in Hfuel. lia.
      + cbn [b_rd bst_reset]. rewrite Hrd4. rewrite Hrd in Hby. unfold bytes in Hby. unfold dat in Hby.
        apply Forall_app in Hby. destruct Hby as [_ Hby]. apply Forall_app in Hby. destruct Hby as [_ Hby].
        apply Forall_inv_tail in Hby. now apply Forall_inv_tail in Hby.
  Qed.

  (** The first scan, the others and what comes out of them *)
  Lemma decode_script tabs d Ks1 b1 short bits is Ks' n b :
    state_ok d tabs -> runs tabs (map (fun _ => nothing) cs) bits Ks1 b1 short d -> 0 <= b1 ->
    script g cs tabs Ks1 is Ks' n b ->
    1 + n <= o_max_scans (d_opt d0) -> b1 + b < d_todo d < 2 ^ 64 ->
    let rd := (stuff (pack bits) ++ flat_map item_bytes is ++ 255 :: fin :: sfx)%list in
    bytes rd ->
    exists s', erase (p_dec s') = erase d0 /\ planes_show d0 cs Ks' (p_buf s') /\ roomy g cs (p_buf s') /\
      (fst (decode_progressive (mkHst d rd)) = fst (finish_progressive_decoding (fst (prog_counts d0) * 64) s') \/
       fst (decode_progressive (mkHst d rd)) = Err missing_marker /\ ~ short).
  Proof.
    intros Hst Hrun Hb1 Hsc Hmax Htodo rd Hby. pose proof (proj1 Hst) as He.
    pose proof (frame_ok_erase d d0 cs He Hfr) as Hfrd. pose proof (geo_ok_erase d d0 cs g He Hge) as Hged.
    destruct (script_pos _ _ _ _ _ _ Hsc) as [Hn0 Hb0].
    destruct (fo_comps _ _ Hfrd) as [F1 F2]. pose proof (fo_len _ _ Hfrd) as F3. pose proof (fo_ncomp _ _ Hfrd) as F4.
    rewrite <- (erase_counts d d0 He).
    unfold decode_progressive. cbn [hd_dec hd_rd]. destruct (prog_counts d) as [w hh] eqn:Epc.
    unfold rbind. rewrite (fo_dims _ _ Hfrd).
    destruct (alloc_blocks_ok (Z.to_nat (num_components (d_incs d))) 0 w hh (d_comps d) [[]; []; []]) as (buf & Ha);
      [lia|unfold zlen; lia|cbn; lia|].
    rewrite Ha. pose proof (first_planes d cs buf Hfrd) as Hpl. pose proof (first_roomy d cs g buf Hfrd Hged) as Hro. rewrite Epc in Hpl, Hro.
    specialize (Hpl Ha). specialize (Hro Ha). symmetry in He. apply (planes_show_erase d0 d cs _ _ He) in Hpl.
    set (st := bst_new_progressive (d_ah d) (d_al d) (d_ss d) (d_se d) rd).
    destruct (next_code_ok fin is Hfin) as (N0 & N1 & N2).
    assert (rd = (stuff (pack bits) ++ 255 :: next_code fin is :: after_code fin is sfx)%list) as Hrd
      by (unfold rd; now rewrite items_split).
    destruct (Hrun st buf (next_code fin is) (after_code fin is sfx)) as (d2 & st2 & buf2 & E2 & Hst2 & Htd2 & Hpl2 & Hro2 & (bs & Hf) & Hseen);
      try assumption; try reflexivity.
    match goal with |- context [let '(r, s) := ?X in _] => remember X as X0 eqn:EX end.
    unfold progressive_scans in EX. rewrite (bindok _ _ _ _ _ E2) in EX.
    rewrite (bindok getps _ (mkPst d2 st2 buf2) st2 _ eq_refl) in EX.
    destruct (feed_marker _ _ _ _ _ d2 buf2 Hf) as (st4 & Eg & Hrd4 & Hmk & Hm4).
    destruct (marker_from_u8 (next_code fin is)) as [m|] eqn:Em; [|congruence].
    destruct (b_marker st2) as [m'|] eqn:Em2.
    - destruct Hmk as [Hmk|Hmk]; [discriminate|]. injection Hmk as ->.
      rewrite (bindok (modps _) _ (mkPst d2 st2 buf2) tt (mkPst d2 (set_marker st2 None) buf2) eq_refl) in EX.
      assert (b_rd st2 = after_code fin is sfx) as Hrd2.
      { unfold get_marker in Eg. cbn [p_st] in Eg. rewrite Em2 in Eg. injection Eg as <-. exact Hrd4. }
      destruct (scan_loop_script _ _ _ _ _ _ Hsc (S (length (b_rd st2))) d2 (set_marker st2 None) buf2 1 m)
        as (d3 & st3 & buf3 & tabs3 & E3 & Hst3 & Hpl3 & Hro3); try assumption; try reflexivity; try lia.
      { rewrite Hrd2. pose proof (after_code_len fin is sfx). lia. }
      { cbn [b_rd set_marker]. rewrite Hrd2. rewrite Hrd in Hby. unfold bytes in Hby.
        apply Forall_app in Hby. destruct Hby as [_ Hby]. apply Forall_inv_tail in Hby. now apply Forall_inv_tail in Hby. }
      exists (mkPst d3 st3 buf3). split; [apply Hst3|]. split; [exact Hpl3|]. split; [exact Hro3|]. left.
      rewrite (bindok _ _ _ _ _ E3) in EX. rewrite EX. cbn [fst].
      destruct (finish_progressive_decoding (w * 64) (mkPst d3 st3 buf3)) as [r s]. reflexivity.
    - destruct (scan_loop_script _ _ _ _ _ _ Hsc (S (length is)) d2 (set_rd (set_marker st2 None) (after_code fin is sfx)) buf2 1 m)
        as (d3 & st3 & buf3 & tabs3 & E3 & Hst3 & Hpl3 & Hro3); try assumption; try reflexivity; try lia.
      { cbn [b_rd set_marker set_rd]. rewrite Hrd in Hby. unfold bytes in Hby.
        apply Forall_app in Hby. destruct Hby as [_ Hby]. apply Forall_inv_tail in Hby. now apply Forall_inv_tail in Hby. }
      exists (mkPst d3 st3 buf3). split; [apply Hst3|]. split; [exact Hpl3|]. split; [exact Hro3|]. right. split; [now rewrite EX|].
      intros G. apply (Hseen G). reflexivity.
  Qed.
End Script.
