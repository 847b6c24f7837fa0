(** Baseline colour files: from the bytes to the rows of coefficients handed to the workers. *)
From Coq Require Import ZArith String List Bool Lia.
From Coq Require Import ZifyBool ZifyNat ZifyN.
From Verif Require Import Base Types Huffman State Bitstream Headers Idct Color Simd Worker Mcu McuProg Decoder.
From Verif Require Import SpecHuffman SpecSegments SpecFile SpecExtend SpecBits SpecBlock SpecProg SpecInter SpecScript SpecImage SpecBaseline SpecBaseScan Obs ObsProg ExTools.
From Verif Require GrayFile.
From Verif Require Import BaseFacts HeaderFacts HeaderInv HeaderReads HeaderItems TableSegments BlockSafe HuffDecode BitReader Reader Feed FastAc Block.
From Verif Require Import ProgFacts ProgScript ProgInter ProgFile HeaderFile ProgImage ColorFacts Placement BaseGray BaseFile BaseInter.
Import ListNotations.
Local Open Scope Z_scope.
Ltac Zify.zify_post_hook ::= Z.div_mod_to_equations.

(** * The order of the MCUs *)
Lemma zseq_app a b : 0 <= a -> 0 <= b -> zseq (a + b) = (zseq a ++ map (Z.add a) (zseq b))%list.
Proof.
  intros Ha Hb. rewrite <- (Z2Nat.id a), <- (Z2Nat.id b) by assumption. generalize (Z.to_nat a) (Z.to_nat b). intros n m. clear.
  unfold zseq. rewrite <- Nat2Z.inj_add, !Nat2Z.id, seq_app, map_app. f_equal. cbn [Nat.add]. rewrite map_map.
  assert (forall k, map Z.of_nat (seq (n + k) m) = map (fun x => Z.of_nat n + Z.of_nat x) (seq k m)) as H.
  { induction m as [|m IH]; intros k; [reflexivity|]. cbn [seq map]. f_equal; [lia|]. rewrite <- IH. now rewrite Nat.add_succ_r. }
  specialize (H 0%nat). now rewrite Nat.add_0_r in H.
Qed.
Lemma flat_map_map {A B C} (f : B -> list C) (g : A -> B) l : flat_map f (map g l) = flat_map (fun x => f (g x)) l.
Proof. induction l as [|a l IH]; [reflexivity|]. cbn [map flat_map]. now rewrite IH. Qed.
Lemma flat_map_ext_in {A B} (f g : A -> list B) l : (forall x, In x l -> f x = g x) -> flat_map f l = flat_map g l.
Proof.
  induction l as [|a l IH]; intros H; [reflexivity|]. cbn [flat_map]. rewrite H by now left. f_equal. apply IH. intros x Hx. apply H. now right.
Qed.
(** Two at a time *)
Lemma flat_two {A} (f : Z -> list A) m : 0 <= m -> flat_map f (zseq (2 * m)) = flat_map (fun i => f (2 * i) ++ f (2 * i + 1))%list (zseq m).
Proof.
  intros Hm. rewrite <- (Z2Nat.id m) by exact Hm. generalize (Z.to_nat m). intros n. clear. induction n as [|n IH]; [reflexivity|].
  replace (2 * Z.of_nat (S n)) with (2 * Z.of_nat n + 2) by lia. replace (Z.of_nat (S n)) with (Z.of_nat n + 1) by lia.
  rewrite !zseq_app by lia. rewrite !flat_map_app, IH, !flat_map_map. f_equal. change (zseq 2) with [0; 1]. change (zseq 1) with [0].
  cbn [flat_map]. rewrite !app_nil_r, !Z.add_0_r. reflexivity.
Qed.

Section order.
Variables (F : Z -> Z -> list unit_) (mx my hs vs mcuw bias : Z).
Hypothesis Hmx : 0 < mx.
Hypothesis Hmy : 0 <= my.
Hypothesis Hcase : hs = 1 /\ mcuw = mx /\ bias = 1 \/ hs = 2 /\ mcuw = 2 * mx /\ bias = 1 \/ hs = 2 /\ mcuw = mx /\ bias = 2.
Lemma mcu_order : flat_map (fun i => flat_map (F i) (zseq mx)) (zseq (hs * my)) =
  flat_map (fun i => flat_map (fun v => flat_map (fun j => F (hs * i + v + j / mx) (j mod mx)) (zseq mcuw)) (zseq bias)) (zseq my).
Proof.
  assert (Hone : forall r, flat_map (fun j => F (r + j / mx) (j mod mx)) (zseq mx) = flat_map (F r) (zseq mx)).
  { intros r. apply flat_map_ext_in. intros j Hj. apply zseq_in in Hj. rewrite Z.div_small, Z.mod_small by lia. now rewrite Z.add_0_r. }
  destruct Hcase as [(-> & -> & ->)|[(-> & -> & ->)|(-> & -> & ->)]].
  - rewrite Z.mul_1_l. apply flat_map_ext. intros i. change (zseq 1) with [0]. cbn [flat_map]. rewrite app_nil_r.
    rewrite Hone. f_equal. f_equal. lia.
  - rewrite flat_two by lia. apply flat_map_ext. intros i. change (zseq 1) with [0]. cbn [flat_map]. rewrite app_nil_r.
    replace (2 * mx) with (mx + mx) by lia. rewrite zseq_app, flat_map_app, flat_map_map by lia. rewrite Hone, Z.add_0_r. f_equal.
    rewrite <- Hone. apply flat_map_ext_in. intros j Hj. apply zseq_in in Hj.
    replace (mx + j) with (j + 1 * mx) by lia. rewrite Z.div_add, Z.mod_add by lia. f_equal. lia.
  - rewrite flat_two by lia. apply flat_map_ext. intros i. change (zseq 2) with [0; 1]. cbn [flat_map]. rewrite app_nil_r.
    rewrite !Hone, Z.add_0_r. reflexivity.
Qed.
End order.

(** * The scan header *)
Definition chosen (t : Z * Z) (c : component) : component := set_c_act (snd t) (set_c_dct (fst t) c).
Definition colour_dec (t0 t1 t2 : Z * Z) (c0 c1 c2 : component) (d : decoder) : decoder :=
  set_d_al 0 (set_d_ah 0 (set_d_se 63 (set_d_ss 0 (set_d_zorder (zset (zset (zset (d_zorder d) 0 0) 1 1) 2 2)
    (set_d_comps [chosen t0 c0; chosen t1 c1; chosen t2 c2] (set_d_nscans 3 d)))))).

Lemma sos_step n i seen d rest id td ta j c : 
  id <= zlen (d_comps d) -> at_ seen id = Ok false -> find_component (Z.to_nat (i_comps (d_info d))) 0 (d_comps d) id = Ok (Some j) ->
  zget (d_comps d) j = Some c -> 0 <= td <= 15 -> 0 <= ta <= 15 ->
  sos_components (S n) i seen (mkHst d (id :: 16 * td + ta :: rest)) =
  sos_components n (i + 1) (zset seen id true) (mkHst (set_d_zorder (zset (d_zorder d) i j) (set_d_comps (zset (d_comps d) j (chosen (td, ta) c)) d)) rest).
Proof.
  intros Hid Hs Hf Hc Htd Hta. cbn [sos_components].
  erewrite bind_ok by apply rd_byte_cons. erewrite bind_ok by reflexivity. cbn [hd_dec].
  replace (zlen (d_comps d) <? id) with false by lia. rewrite Hs. erewrite bind_ok by reflexivity. cbv iota zeta.
  erewrite bind_ok by apply rd_byte_cons. rewrite Hf. erewrite bind_ok by reflexivity. cbv iota. unfold at_. rewrite Hc.
  erewrite bind_ok by reflexivity. erewrite bind_ok by reflexivity. cbn [hd_dec hd_rd].
  destruct (nibbles td ta Htd Hta) as (Nb & Na & _). rewrite Nb, Na. reflexivity.
Qed.
Lemma find3 a b c id : find_component 3 0 [a; b; c] id =
  if c_id a =? id then Ok (Some 0) else if c_id b =? id then Ok (Some 1) else if c_id c =? id then Ok (Some 2) else Ok None.
Proof. reflexivity. Qed.
Lemma zset3 {A} (a b c x : A) : zset [a; b; c] 0 x = [x; b; c] /\ zset [a; b; c] 1 x = [a; x; c] /\ zset [a; b; c] 2 x = [a; b; x].
Proof. repeat split. Qed.
Lemma parse_sos_three d c0 c1 c2 td0 ta0 td1 ta1 td2 ta2 rest :
  d_comps d = [c0; c1; c2] -> c_id c0 = 1 -> c_id c1 = 2 -> c_id c2 = 3 -> i_comps (d_info d) = 3 ->
  0 <= td0 <= 15 -> 0 <= ta0 <= 15 -> 0 <= td1 <= 15 -> 0 <= ta1 <= 15 -> 0 <= td2 <= 15 -> 0 <= ta2 <= 15 ->
  parse_sos (mkHst d (segment [3; 1; 16 * td0 + ta0; 2; 16 * td1 + ta1; 3; 16 * td2 + ta2; 0; 63; 0] ++ rest))
  = (Ok tt, mkHst (colour_dec (td0, ta0) (td1, ta1) (td2, ta2) c0 c1 c2 d) rest).
Proof.
  intros Hd I0 I1 I2 Hic H1 H2 H3 H4 H5 H6. unfold segment. rewrite <- app_assoc. unfold parse_sos.
  erewrite bind_ok by (apply rd_u16_be16; cbn; lia).
  change (2 + SpecSegments.blen [3; 1; 16 * td0 + ta0; 2; 16 * td1 + ta1; 3; 16 * td2 + ta2; 0; 63; 0]) with 12.
  cbn [app]. erewrite bind_ok by apply rd_byte_cons. erewrite bind_ok by reflexivity.
  change (negb (12 =? 6 + 2 * 3)) with false. change (negb ((1 <=? 3) && (3 <? 4))) with false. cbv iota.
  erewrite bind_ok by reflexivity. cbn [hd_dec hd_rd d_info set_d_nscans].
  replace (i_comps (d_info d) =? 0) with false by lia. change (Z.to_nat 3) with 3%nat.
  match goal with |- bind (sos_components 3 0 ?sn) _ ?st = _ =>
    assert (sos_components 3 0 sn st = (Ok tt, mkHst (set_d_zorder (zset (zset (zset (d_zorder d) 0 0) 1 1) 2 2)
      (set_d_comps [chosen (td0, ta0) c0; chosen (td1, ta1) c1; chosen (td2, ta2) c2] (set_d_nscans 3 d))) (0 :: 63 :: 0 :: rest))) as E end.
  { assert (HF : forall a b c, c_id a = 1 -> c_id b = 2 -> c_id c = 3 -> forall i, 1 <= i <= 3 ->
      find_component (Z.to_nat (i_comps (d_info d))) 0 [a; b; c] i = Ok (Some (i - 1))).
    { intros a b c Ea Eb Ec i Hi. rewrite Hic. change (Z.to_nat 3) with 3%nat. rewrite find3, Ea, Eb, Ec.
      assert (i = 1 \/ i = 2 \/ i = 3) as [-> | [-> | ->]] by lia; reflexivity. }
    rewrite (sos_step 2 0 _ _ _ 1 td0 ta0 0 c0); auto; cbn [d_comps d_info d_zorder set_d_nscans]; rewrite Hd; try reflexivity; try (unfold zlen; cbn [length]; lia); [|now rewrite HF by (lia || assumption)].
    rewrite (proj1 (zset3 _ _ _ _)).
    rewrite (sos_step 1 _ _ _ _ 2 td1 ta1 1 c1); auto; cbn [d_comps d_info d_zorder set_d_nscans set_d_comps set_d_zorder]; try reflexivity; try (unfold zlen; cbn [length]; lia); [|now rewrite HF by (lia || assumption)].
    rewrite (proj1 (proj2 (zset3 _ _ _ _))).
    rewrite (sos_step 0 _ _ _ _ 3 td2 ta2 2 c2); auto; cbn [d_comps d_info d_zorder set_d_nscans set_d_comps set_d_zorder]; try reflexivity; try (unfold zlen; cbn [length]; lia); now rewrite HF by (lia || assumption). }
  erewrite bind_ok by exact E.
  erewrite bind_ok by apply rd_byte_cons. erewrite bind_ok by reflexivity.
  erewrite bind_ok by apply rd_byte_cons. erewrite bind_ok by reflexivity.
  erewrite bind_ok by apply rd_byte_cons. cbv zeta. erewrite bind_ok by reflexivity.
  change (shr 0 4) with 0. change (Z.land 0 15) with 0. change (13 <? 0) with false. cbv iota. erewrite bind_ok by reflexivity. reflexivity.
Qed.

(** * The set-up *)
Section layouts.
Variables (d : decoder) (c0 c1 c2 : component) (w h hs vs mx my : Z).
Hypothesis Hhs : 1 <= hs <= 2.
Hypothesis Hvs : 1 <= vs <= 2.
Hypothesis Hw : 0 < w <= 65527.
Hypothesis Hh : 0 < h <= 65527.
Hypothesis Hmx : mx = up8 w hs.
Hypothesis Hmy : my = up8 h vs.
Hypothesis Hcomps : d_comps d = [c0; c1; c2].
Hypothesis Hc0 : c_cid c0 = CY /\ c_h c0 = hs /\ c_v c0 = vs /\ c_stride c0 = hs * (mx * 8) /\ c_pred c0 = 0.
Hypothesis Hc1 : c_cid c1 = CCb /\ c_h c1 = 1 /\ c_v c1 = 1 /\ c_stride c1 = mx * 8 /\ c_pred c1 = 0 /\ c_ups c1 = UpNoOp.
Hypothesis Hc2 : c_cid c2 = CCr /\ c_h c2 = 1 /\ c_v c2 = 1 /\ c_stride c2 = mx * 8 /\ c_pred c2 = 0 /\ c_ups c2 = UpNoOp.
Hypothesis Hd : d_hmax d = hs /\ d_vmax d = vs /\ d_inter d = negb (hs =? 1) || negb (vs =? 1) /\ d_ratio d = RNone /\ d_incs d = YCbCr /\
  i_width (d_info d) = w /\ i_height (d_info d) = h /\ d_mcux d = mx /\ d_mcuy d = my /\ d_todo d = 2147483647.
Let nc := num_components (o_colorspace (d_opt d)).

Definition layout_ups : upsampler :=
  if hs =? 1 then if vs =? 1 then UpNoOp else UpVert
  else if vs =? 1 then choose_horizontal (d_isa d) (o_use_unsafe (d_opt d)) else choose_hv (d_isa d) (o_use_unsafe (d_opt d)).
Definition layout_ratio : ratio :=
  if hs =? 1 then if vs =? 1 then RNone else RV else if vs =? 1 then RH else RHV.
Definition layout_comps : list component := [c0; set_c_ups layout_ups c1; set_c_ups layout_ups c2].
Definition layout_dec : decoder := set_d_comps layout_comps (set_d_ratio layout_ratio d).
Record colour_geom (g : geom) : Prop := {
  cg_mcuw : g_mcuw g = if (hs =? 2) && (vs =? 1) then 2 * mx else mx;
  cg_mcuh : g_mcuh g = my / hs;
  cg_bias : g_bias g = if (hs =? 2) && (vs =? 2) then 2 else 1;
  cg_ccap : g_ccap g = 64 * (if (hs =? 2) && (vs =? 1) then 2 * mx else mx);
  cg_comps : g_comps g = layout_comps;
  cg_hv : g_hv g = (hs =? 2) && (vs =? 2);
  cg_ws : g_ws g = 32 * (mx * (hs * hs * vs));
  cg_in : g_in g = YCbCr;
  cg_out : g_out g = o_colorspace (d_opt d);
  cg_idct : g_idct g = d_idct d;
  cg_cc : g_cc g = d_cc d;
  cg_width : g_width g = w;
  cg_chunk : g_chunk g = 8 * hs * vs * (w * nc);
  cg_total : g_total g = (w + 8) * (h + 8) * nc + (if (hs =? 1) && (vs =? 1) then 0 else 128 * h * nc) }.

Lemma colour_setup :
  (forall c, In c [c0; c1; c2] -> exists td ta, table_at (d_dcts d) (c_dct c) = Some td /\ table_at (d_acts d) (c_act c) = Some ta) ->
  exists g, baseline_setup d = (Ok g, layout_dec) /\ colour_geom g.
Proof.
  intros Ht. destruct Hd as (D1 & D2 & D3 & D4 & D5 & D6 & D7 & D8 & D9 & D10).
  destruct Hc0 as (A1 & A2 & A3 & A4 & A5). destruct Hc1 as (B1 & B2 & B3 & B4 & B5 & B6). destruct Hc2 as (C1 & C2 & C3 & C4 & C5 & C6).
  assert (Hnc0 : 0 < nc) by (unfold nc; destruct (o_colorspace (d_opt d)); reflexivity).
  assert (Hwn : 0 < w * nc) by (apply Z.mul_pos_pos; lia).
  assert (E1 : check_component_dimensions d = Ok tt).
  { unfold check_component_dimensions. rewrite Hcomps. cbn [find]. rewrite A1. cbn [is_y check_chroma]. rewrite A1, B1, C1. cbn [is_y].
    rewrite A4, D1, B4, C4, B2, B3, C2, C3. replace (hs * (mx * 8) / hs) with (mx * 8) by (rewrite (Z.mul_comm hs), Z.div_mul; lia).
    rewrite Z.eqb_refl. reflexivity. }
  assert (E2 : check_tables d = Ok tt).
  { unfold check_tables. rewrite D5. change (Z.to_nat (num_components YCbCr)) with 3%nat. cbn [check_tables_from].
    rewrite Hcomps. change (at_ [c0; c1; c2] 0) with (Ok c0). change (at_ [c0; c1; c2] (0 + 1)) with (Ok c1). change (at_ [c0; c1; c2] (0 + 1 + 1)) with (Ok c2).
    cbv iota beta. destruct (Ht c0) as (? & ? & -> & ->); [now left|]. destruct (Ht c1) as (? & ? & -> & ->); [right; now left|].
    destruct (Ht c2) as (? & ? & -> & ->); [right; right; now left|]. reflexivity. }
  assert (E3 : (if d_inter d then set_upsampling else ret tt) d = (Ok tt, layout_dec)).
  { rewrite D3. unfold layout_dec, layout_comps, layout_ups, layout_ratio.
    assert (hs = 1 \/ hs = 2) as [Eh|Eh] by lia; assert (vs = 1 \/ vs = 2) as [Ev|Ev] by lia; rewrite Eh, Ev in *; cbn [Z.eqb Pos.eqb negb orb].
    - unfold ret. f_equal. rewrite <- D4. replace (set_c_ups UpNoOp c1) with c1 by (rewrite <- B6; destruct c1; reflexivity).
      replace (set_c_ups UpNoOp c2) with c2 by (rewrite <- C6; destruct c2; reflexivity). rewrite <- Hcomps. clear. destruct d; reflexivity.
    - unfold set_upsampling, bind, get, modify. rewrite D1, D2. cbn [Z.eqb Pos.eqb andb]. unfold set_up_samplers.
      cbn [d_comps set_d_ratio]. rewrite Hcomps. reflexivity.
    - unfold set_upsampling, bind, get, modify. rewrite D1, D2. cbn [Z.eqb Pos.eqb andb]. unfold set_up_samplers.
      cbn [d_comps set_d_ratio]. rewrite Hcomps. reflexivity.
    - unfold set_upsampling, bind, get, modify. rewrite D1, D2. cbn [Z.eqb Pos.eqb andb]. unfold set_up_samplers.
      cbn [d_comps set_d_ratio]. rewrite Hcomps. reflexivity. }
  unfold baseline_setup, bind, get, lift. rewrite E1, E2, E3. cbv iota beta.
  set (mw := if (hs =? 2) && (vs =? 1) then 2 * mx else mx). set (bi := if (hs =? 2) && (vs =? 2) then 2 else 1).
  assert (E4 : mcu_counts layout_dec = (mw, my / hs, bi)).
  { unfold mcu_counts, layout_dec. cbn [d_inter d_ratio d_mcux d_mcuy d_info set_d_comps set_d_ratio]. rewrite D3, D6, D7, D8, D9. unfold layout_ratio, mw, bi.
    assert (hs = 1 \/ hs = 2) as [Eh|Eh] by lia; assert (vs = 1 \/ vs = 2) as [Ev|Ev] by lia; rewrite Eh, Ev in *; cbn [Z.eqb Pos.eqb negb orb andb ratio_is_h ratio_is_hv];
      rewrite ?Z.div_1_r; try reflexivity; try (f_equal; f_equal; lia).
    unfold u16. rewrite !Z.mod_small by lia. rewrite Hmx, Hmy. unfold up8. rewrite ?Z.mul_1_l. f_equal. f_equal; f_equal; lia. }
  rewrite E4. cbn [d_incs layout_dec set_d_comps set_d_ratio]. rewrite D5. cbn [cs_eqb andb]. unfold ret. cbv iota beta.
  change (at_ (d_comps layout_dec) 0) with (Ok c0). cbv iota beta.
  set (g := geom_of mw (my / hs) bi c0 layout_dec).
  assert (Hg : colour_geom g).
  { unfold g, geom_of, mw, bi. split; cbn [g_mcuw g_mcuh g_bias g_ccap g_comps g_hv g_ws g_in g_out g_idct g_cc g_width g_chunk g_total]; try reflexivity.
    - lia.
    - unfold layout_dec. cbn [d_ratio set_d_comps set_d_ratio]. unfold layout_ratio.
      assert (hs = 1 \/ hs = 2) as [-> | ->] by lia; assert (vs = 1 \/ vs = 2) as [-> | ->] by lia; reflexivity.
    - rewrite A2, A3. unfold shr. change (2 ^ 1) with 2.
      assert (hs = 1 \/ hs = 2) as [-> | ->] by lia; assert (vs = 1 \/ vs = 2) as [-> | ->] by lia; cbn [Z.eqb Pos.eqb andb]; lia.
    - unfold layout_dec. cbn [d_incs set_d_comps set_d_ratio]. exact D5.
    - exact D6.
    - change (i_width (d_info layout_dec)) with (i_width (d_info d)). change (d_hmax layout_dec) with (d_hmax d). change (d_vmax layout_dec) with (d_vmax d).
      change (d_opt layout_dec) with (d_opt d). fold nc. rewrite D6, D1, D2. ring.
    - unfold capacity, extra_space. change (d_info layout_dec) with (d_info d). change (d_inter layout_dec) with (d_inter d). change (d_opt layout_dec) with (d_opt d).
      fold nc. rewrite D6, D7, D3. unfold u16. rewrite !Z.mod_small by lia.
      assert (hs = 1 \/ hs = 2) as [-> | ->] by lia; assert (vs = 1 \/ vs = 2) as [-> | ->] by lia; cbn [Z.eqb Pos.eqb andb negb orb]; ring. }
  destruct (g_chunk g =? 0) eqn:Ech.
  - exfalso. rewrite (cg_chunk g Hg) in Ech. assert (0 < 8 * hs * vs * (w * nc)) by (repeat apply Z.mul_pos_pos; lia). lia.
  - exists g. split; [reflexivity|exact Hg].
Qed.

(** * Where the blocks go *)
Definition wide (k : nat) : Z := mx * (if (k =? 0)%nat then hs else 1).
Definition high (k : nat) : Z := (if (k =? 0)%nat then vs else 1) * hs.
Definition mrow (i v j : Z) : Z := hs * i + v + j / mx.
Definition mcol (j : Z) : Z := j mod mx.
Lemma mx_pos : 0 < mx.
Proof. rewrite Hmx. unfold up8. apply Z.div_str_pos. lia. Qed.
Lemma shr_ws c : shr (32 * (mx * c)) 1 = 16 * (mx * c) /\ shr (32 * (mx * c)) 2 = 8 * (mx * c).
Proof. unfold shr. change (2 ^ 1) with 2. change (2 ^ 2) with 4. lia. Qed.

Lemma blocks_placed g k c i v j v' h' p : colour_geom g -> (k < 3)%nat -> zget layout_comps (Z.of_nat k) = Some c ->
  0 <= i -> 0 <= v < g_bias g -> 0 <= j < g_mcuw g -> 0 <= v' < c_v c -> 0 <= h' < c_h c ->
  block_start g (set_c_pred p c) v j v' h' = place wide high i k (mcol j * c_h c + h') (mrow i v j * c_v c + v') /\
  in_row wide high i k (mcol j * c_h c + h') (mrow i v j * c_v c + v').
Proof.
  intros G Hk Hc Hi Hv Hj Hv' Hh'. rewrite (cg_bias _ G) in Hv. rewrite (cg_mcuw _ G) in Hj.
  pose proof mx_pos as Hm. destruct (shr_ws (hs * hs * vs)) as [Sh1 Sh2].
  assert (Hf : c_cid c = (if (k =? 0)%nat then CY else c_cid c) /\ is_y (c_cid c) = (k =? 0)%nat /\ c_h c = (if (k =? 0)%nat then hs else 1) /\ c_v c = (if (k =? 0)%nat then vs else 1)).
  { unfold layout_comps in Hc. destruct Hc0 as (A1 & A2 & A3 & A4 & A5). destruct Hc1 as (B1 & B2 & B3 & B4 & B5 & B6). destruct Hc2 as (C1 & C2 & C3 & C4 & C5 & C6).
    destruct k as [|[|[|k]]]; [| | |lia]; injection Hc as <-; cbn [Nat.eqb c_cid c_h c_v set_c_ups]; rewrite ?A1, ?B1, ?C1; auto. }
  destruct Hf as (_ & Fy & Fh & Fv). unfold block_start. cbn [c_cid c_h c_v set_c_pred]. rewrite (cg_ws _ G), (cg_hv _ G), Fy, Fh, Fv, Sh1, Sh2. rewrite Fh in Hh'. rewrite Fv in Hv'.
  unfold place, in_row, wide, high, mcol, mrow.
  pose proof (Z.div_mod j mx ltac:(lia)) as Ej. pose proof (Z.mod_pos_bound j mx ltac:(lia)) as Hr.
  set (Q := j / mx) in *. set (M := j mod mx) in *. clearbody Q M.
  assert (HQ : 0 <= Q) by (destruct (Z.le_gt_cases 0 Q); [assumption|exfalso; assert (mx * Q <= mx * -1) by (apply Z.mul_le_mono_nonneg_l; lia); destruct ((hs =? 2) && (vs =? 1)); lia]).
  assert (HQ1 : Q < if (hs =? 2) && (vs =? 1) then 2 else 1).
  { destruct ((hs =? 2) && (vs =? 1)); (match goal with |- Q < ?b => destruct (Z.lt_ge_cases Q b) as [|L]; [assumption|exfalso; assert (mx * b <= mx * Q) by (apply Z.mul_le_mono_nonneg_l; lia); lia] end). }
  subst j. clear - Hhs Hvs Hv Hv' Hh' Hr HQ HQ1 Hm Hi Hk.
  assert (hs = 1 \/ hs = 2) as [-> | ->] by lia; assert (vs = 1 \/ vs = 2) as [-> | ->] by lia; cbn [Z.eqb Pos.eqb andb] in *;
    (destruct (k =? 0)%nat); split; try (split; lia);
    try (assert (Q = 0) as -> by lia); try (assert (v = 0) as -> by lia); try (assert (v' = 0) as -> by lia); ring.
Qed.

(** * All rows *)
Variables (q q1 q2 : Z) (B : nat -> Z -> Z -> list Z) (Td Ta : nat -> hufftable) (ft dcc dcs acc acs : nat -> list Z) (sfx : list Z) (total pad : list bool).
Let gg := image_geo (Colour hs vs q q1 q2) w h.
Let kc (k : nat) := nth k [c0; c1; c2] c0.
Hypothesis Hsel : forall k, (k < 3)%nat -> 0 <= c_dct (kc k) <= 3 /\ 0 <= c_act (kc k) <= 3 /\
  table_at (d_dcts d) (c_dct (kc k)) = Some (Td k) /\ table_at (d_acts d) (c_act (kc k)) = Some (Ta k).
Hypothesis Htab : forall k, (k < 3)%nat -> dc_table (Td k) (dcc k) (dcs k) /\ ac_table (Ta k) (ft k) (acc k) (acs k) false /\ fast_safe (acc k) (acs k).
Let cd := codes dcc dcs acc acs.
Hypothesis Htotal : encode_units cd (fun _ => 0) (image_blocks (Colour hs vs q q1 q2) w h B) = Some total.
Hypothesis Hblocks : units_pred (fun k p zz => baseline_block p zz /\ dc_fits (dcc k) (dcs k) p zz) (fun _ => 0) (image_blocks (Colour hs vs q q1 q2) w h B).
Hypothesis Hlast : 64 < last_bits cd (image_blocks (Colour hs vs q q1 q2) w h B) (Z.to_nat (hs * vs) + 3).
Hypothesis Heven : my mod hs = 0.
Hypothesis Hroom : my / hs * (8 * hs * vs * w) <= (w + 8) * (h + 8) + (if (hs =? 1) && (vs =? 1) then 0 else 128 * h).

Lemma geo_mx : g_mx gg = mx /\ g_my gg = my.
Proof. unfold gg, image_geo. cbn [g_mx g_my hmax vmax]. rewrite Hmx, Hmy. unfold up_div, up8. split; f_equal; lia. Qed.
Lemma geo_factor k : (k < 3)%nat -> factor gg k = (if (k =? 0)%nat then hs else 1, if (k =? 0)%nat then vs else 1).
Proof. intros Hk. destruct k as [|[|[|k]]]; [reflexivity|reflexivity|reflexivity|lia]. Qed.
Lemma my_pos : 0 < my.
Proof. rewrite Hmy. unfold up8. apply Z.div_str_pos. lia. Qed.
Lemma my_hs : my = hs * (my / hs).
Proof. pose proof (Z.div_mod my hs ltac:(lia)). lia. Qed.

Definition lost_last (lost : list unit_) : Prop :=
  (lost = [] \/ lost = [(2%nat, (mx - 1, my - 1))] \/ lost = [(1%nat, (mx - 1, my - 1)); (2%nat, (mx - 1, my - 1))]) /\
  (lost <> [] -> last_bits cd (image_blocks (Colour hs vs q q1 q2) w h B) (length lost) <= 64).

Lemma nc_pos : 0 < nc.
Proof. unfold nc. generalize (o_colorspace (d_opt d)). intros c. clear. destruct c; reflexivity. Qed.
Lemma rows_pos : 0 < my / hs.
Proof.
  pose proof my_pos as Pmy. pose proof my_hs as Emy. set (m := my / hs) in *. clearbody m. clear - Pmy Emy Hhs.
  destruct (Z.le_gt_cases m 0) as [L|]; [exfalso; assert (hs * m <= hs * 0) by (apply Z.mul_le_mono_nonneg_l; lia); lia|assumption].
Qed.
Lemma flat_len {A C} (f : A -> list C) n l : (forall x, length (f x) = n) -> length (flat_map f l) = (length l * n)%nat.
Proof. intros H. induction l as [|a l IH]; [reflexivity|]. cbn [flat_map length]. rewrite app_length, H, IH. reflexivity. Qed.
Lemma units_factor r c k : (k < 3)%nat -> length (mcu_units gg r c k) = if (k =? 0)%nat then (Z.to_nat vs * Z.to_nat hs)%nat else 1%nat.
Proof.
  intros Hk. unfold mcu_units. rewrite (geo_factor k Hk). cbn [fst snd]. erewrite flat_len by (intros v; unfold zseq; rewrite !map_length, seq_length; reflexivity).
  unfold zseq. rewrite map_length, seq_length. destruct (k =? 0)%nat; reflexivity.
Qed.
Lemma units_mcu r c : length (flat_map (mcu_units gg r c) [0; 1; 2]%nat) = Z.to_nat (hs * vs + 2).
Proof. cbn [flat_map]. rewrite !app_length, !units_factor by lia. cbn [Nat.eqb length]. rewrite <- Z2Nat.inj_mul by lia. rewrite (Z.mul_comm vs). rewrite Z2Nat.inj_add by lia. lia. Qed.
Lemma units_len : Z.of_nat (length (scan_units gg [0; 1; 2]%nat)) <= 2147483646.
Proof.
  destruct geo_mx as [Gx Gy]. unfold scan_units. rewrite Gx, Gy.
  rewrite (flat_len _ (Z.to_nat mx * Z.to_nat (hs * vs + 2))%nat).
  2:{ intros i. rewrite (flat_len _ (Z.to_nat (hs * vs + 2))); [|intros j; apply units_mcu]. f_equal. unfold zseq. now rewrite map_length, seq_length. }
  unfold zseq. rewrite map_length, seq_length. pose proof mx_pos as Pmx. pose proof my_pos as Pmy.
  assert (mx <= 8191 /\ my <= 8191) as [Lx Ly].
  { clear - Hmx Hmy Hw Hh Hhs Hvs. subst mx my. unfold up8. assert (hs = 1 \/ hs = 2) as [-> | ->] by lia; assert (vs = 1 \/ vs = 2) as [-> | ->] by lia; lia. }
  assert (Hf6 : 0 <= hs * vs + 2 <= 6) by (clear - Hhs Hvs; assert (hs = 1 \/ hs = 2) as [-> | ->] by lia; lia).
  set (f := hs * vs + 2) in *. clearbody f. rewrite !Nat2Z.inj_mul, !Z2Nat.id by lia. clear - Lx Ly Pmx Pmy Hf6.
  assert (mx * f <= 8191 * 6) by (apply Z.mul_le_mono_nonneg; lia). assert (my * (mx * f) <= 8191 * (8191 * 6)) by (apply Z.mul_le_mono_nonneg; lia). lia.
Qed.
Lemma flat_last {A} (f : Z -> list A) n : 0 < n -> flat_map f (zseq n) = (flat_map f (zseq (n - 1)) ++ f (n - 1))%list.
Proof.
  intros Hn. replace n with (n - 1 + 1) at 1 by lia. rewrite zseq_app, flat_map_app, flat_map_map by lia. change (zseq 1) with [0].
  cbn [flat_map]. now rewrite app_nil_r, Z.add_0_r.
Qed.
Lemma chroma_units r c k : (k = 1 \/ k = 2)%nat -> mcu_units gg r c k = [(k, (c, r))].
Proof.
  intros Hk. unfold mcu_units. rewrite (geo_factor k) by lia. replace (k =? 0)%nat with false by lia. cbn [fst snd].
  change (zseq 1) with [0]. cbn [flat_map map app]. repeat f_equal; lia.
Qed.
Lemma units_last : exists l, scan_units gg [0; 1; 2]%nat = (l ++ [(2%nat, (mx - 1, my - 1))])%list.
Proof.
  destruct geo_mx as [Gx Gy]. pose proof mx_pos as Pmx. pose proof my_pos as Pmy. unfold scan_units. rewrite Gx, Gy.
  rewrite flat_last by exact Pmy. rewrite (flat_last _ mx) by exact Pmx. set (X := flat_map _ (zseq (my - 1))). set (Y := flat_map _ (zseq (mx - 1))).
  cbn [flat_map]. rewrite app_nil_r, (chroma_units _ _ 2) by lia. eexists. now rewrite !app_assoc.
Qed.

Lemma cover_row g i k x y : colour_geom g -> 0 <= i -> (k < 3)%nat -> 0 <= x < wide k -> i * high k <= y < (i + 1) * high k ->
  In (k, (x, y)) (row_units g gg mrow mcol i).
Proof.
  intros G Hi Hk Hx Hy. pose proof mx_pos as Pmx. pose proof (geo_factor k Hk) as Fk.
  set (fh := if (k =? 0)%nat then hs else 1) in *. set (fv := if (k =? 0)%nat then vs else 1) in *.
  unfold wide in Hx. unfold high in Hy. fold fh in Hx. fold fv in Hy.
  assert (1 <= fh /\ 1 <= fv) as [Hfh Hfv] by (unfold fh, fv; destruct (k =? 0)%nat; lia).
  pose proof (Z.div_mod x fh ltac:(lia)) as Ex. pose proof (Z.mod_pos_bound x fh ltac:(lia)) as Bx.
  pose proof (Z.div_mod y fv ltac:(lia)) as Ey. pose proof (Z.mod_pos_bound y fv ltac:(lia)) as By.
  assert (HX : 0 <= x / fh < mx) by (split; [apply Z.div_pos; lia|apply Z.div_lt_upper_bound; lia]).
  assert (HI : hs * i <= y / fv < hs * i + hs).
  { split; [apply Z.div_le_lower_bound; [lia|]|apply Z.div_lt_upper_bound; [lia|]]; clear - Hy; set (a := fv * hs) in *; 
      replace (fv * (hs * i)) with (i * (fv * hs)) by ring || replace (fv * (hs * i + hs)) with ((i + 1) * (fv * hs)) by ring; fold a; lia. }
  set (X := x / fh) in *. set (I := y / fv) in *.
  assert (exists v j, 0 <= v < g_bias g /\ 0 <= j < g_mcuw g /\ mrow i v j = I /\ mcol j = X) as (v & j & Hv & Hj & Er & Ec).
  { rewrite (cg_bias _ G), (cg_mcuw _ G). unfold mrow, mcol. clearbody X I. clear - HX HI Hhs Hvs Pmx.
    assert (hs = 1 \/ hs = 2) as [-> | ->] by lia; assert (vs = 1 \/ vs = 2) as [-> | ->] by lia; cbn [Z.eqb Pos.eqb andb].
    - exists 0, X. rewrite Z.div_small, Z.mod_small by lia. lia.
    - exists 0, X. rewrite Z.div_small, Z.mod_small by lia. lia.
    - exists 0, (X + (I - 2 * i) * mx). rewrite Z.div_add, Z.mod_add, Z.div_small, Z.mod_small by lia.
      assert (I - 2 * i = 0 \/ I - 2 * i = 1) as [E|E] by lia; rewrite E; lia.
    - exists (I - 2 * i), X. rewrite Z.div_small, Z.mod_small by lia. lia. }
  unfold row_units. apply in_flat_map. exists v. split; [now apply zseq_in|]. apply in_flat_map. exists j. split; [now apply zseq_in|].
  unfold mcu. apply in_flat_map. exists k. split; [destruct k as [|[|[|k]]]; cbn; auto; lia|]. rewrite Er, Ec.
  unfold mcu_units. rewrite Fk. cbn [fst snd]. apply in_flat_map. exists (y mod fv). split; [apply zseq_in; lia|]. apply in_map_iff. exists (x mod fh).
  split; [|apply zseq_in; lia]. f_equal. f_equal; lia.
Qed.

Lemma colour_rows g rd : colour_geom g -> feed 0 (bst_new rd) (total ++ pad) (AtMarker 217 sfx) ->
  exists s lost js, decode_rows g (mkMst layout_dec (bst_new rd) [] []) = (Ok tt, s) /\ output_len (m_dec s) = w * nc * h /\
    m_jobs s = rev js /\ zlen js = my / hs /\ lost_last lost /\
    forall i, 0 <= i < my / hs -> row_ok layout_dec B wide high i lost (nth (Z.to_nat i) js []).
Proof.
  intros G Hf. pose proof mx_pos as Pmx. pose proof my_pos as Pmy. pose proof my_hs as Emy. pose proof rows_pos as Hm. destruct geo_mx as [Gx Gy].
  destruct Hd as (D1 & D2 & D3 & D4 & D5 & D6 & D7 & D8 & D9 & D10).
  pose proof nc_pos as Hnc0.
  assert (Hcase : hs = 1 /\ g_mcuw g = mx /\ g_bias g = 1 \/ hs = 2 /\ g_mcuw g = 2 * mx /\ g_bias g = 1 \/ hs = 2 /\ g_mcuw g = mx /\ g_bias g = 2).
  { rewrite (cg_mcuw _ G), (cg_bias _ G). clear - Hhs Hvs. assert (hs = 1 \/ hs = 2) as [-> | ->] by lia; assert (vs = 1 \/ vs = 2) as [-> | ->] by lia; cbn; auto. }
  assert (Hrows : scan_units gg [0; 1; 2]%nat = flat_map (row_units g gg mrow mcol) (zseq (my / hs))).
  { unfold scan_units. rewrite Gx, Gy. replace (zseq my) with (zseq (hs * (my / hs))) by (f_equal; symmetry; exact Emy). apply (mcu_order (fun i j => flat_map (mcu_units gg i j) [0; 1; 2]%nat)); auto. lia. }
  assert (Hfac : forall k, In k [0; 1; 2]%nat -> 1 <= fst (factor gg k) /\ 1 <= snd (factor gg k)).
  { intros k Hk. rewrite geo_factor by (destruct Hk as [<-|[<-|[<-|[]]]]; lia). cbn [fst snd]. destruct (k =? 0)%nat; lia. }
  pose proof units_len as Hlen.
  destruct (scan_rows g gg layout_dec layout_comps B wide high mrow mcol Td Ta ft dcc dcs acc acs sfx total pad) with (st := bst_new rd)
    as (s & lost & js & comps & t & E & Edec & Ejs & Ljs & Hlost & Hrow); auto.
  - intros k Hk. destruct (Hsel k Hk) as (S1 & S2 & S3 & S4). pose proof (geo_factor k Hk) as Fk.
    assert (exists c, zget layout_comps (Z.of_nat k) = Some c /\ c_dct c = c_dct (kc k) /\ c_act c = c_act (kc k) /\
      c_h c = (if (k =? 0)%nat then hs else 1) /\ c_v c = (if (k =? 0)%nat then vs else 1)) as (c & Zc & Cd & Ca & Ch & Cv).
    { destruct Hc0 as (A1 & A2 & A3 & A4 & A5). destruct Hc1 as (B1 & B2 & B3 & B4 & B5 & B6). destruct Hc2 as (C1 & C2 & C3 & C4 & C5 & C6).
      unfold layout_comps, kc. destruct k as [|[|[|k]]]; [| | |lia]; eexists; (split; [reflexivity|]); cbn [nth Nat.eqb c_dct c_act c_h c_v set_c_ups]; auto. }
    exists c. rewrite Cd, Ca, !land3 by lia. split; [exact Zc|]. split; [now rewrite Ch, Cv|].
    split; [rewrite Ch; destruct (k =? 0)%nat; lia|]. split; [rewrite Cv; destruct (k =? 0)%nat; lia|].
    split; [exact S3|]. split; [exact S4|].
    split; [|split; [|split]].
    + rewrite Ch, Cv, (cg_ccap _ G), (cg_bias _ G). unfold wide, high. clear - Hhs Hvs.
      assert (hs = 1 \/ hs = 2) as [-> | ->] by lia; assert (vs = 1 \/ vs = 2) as [-> | ->] by lia; destruct (k =? 0)%nat; cbn [Z.eqb Pos.eqb andb]; ring.
    + unfold wide. apply Z.mul_pos_pos; [exact Pmx|]. destruct (k =? 0)%nat; lia.
    + unfold high. apply Z.mul_pos_pos; [destruct (k =? 0)%nat; lia|lia].
    + intros i v j v' h' p Hi Hv Hj Hv' Hh'. apply (blocks_placed g k c i v j v' h' p G Hk Zc); auto. lia.
  - apply (Z.le_succ_l 0 nc). exact Hnc0.
  - rewrite (cg_mcuh _ G). exact Hm.
  - rewrite (cg_mcuh _ G). exact Hrows.
  - intros i k x y Hi Hk [Hx Hy]. apply (cover_row g); auto. exact (proj1 Hi).
  - unfold full. apply (units_nodup gg [0; 1; 2]%nat Hfac). repeat constructor; cbn; intuition congruence.
  - unfold nm, mcu. rewrite units_mcu. replace (S (Z.to_nat (hs * vs + 2))) with (Z.to_nat (hs * vs) + 3)%nat by (rewrite Z2Nat.inj_add by lia; lia). exact Hlast.
  - rewrite (cg_mcuh _ G), (cg_chunk _ G), (cg_total _ G). clear - Hroom Hnc0 Hw Hhs Hvs Hm. set (m := my / hs) in *. clearbody m.
    assert (0 < w * nc) by (apply Z.mul_pos_pos; lia). apply Z.div_le_lower_bound; [repeat apply Z.mul_pos_pos; lia|].
    set (e := if (hs =? 1) && (vs =? 1) then 0 else 128 * h) in *.
    replace (if (hs =? 1) && (vs =? 1) then 0 else 128 * h * nc) with (e * nc) by (unfold e; destruct ((hs =? 1) && (vs =? 1)); ring).
    assert (m * (8 * hs * vs * w) * nc <= ((w + 8) * (h + 8) + e) * nc) as L by (apply Z.mul_le_mono_nonneg_r; lia).
    clearbody e. clear - L. replace (8 * hs * vs * (w * nc) * m) with (m * (8 * hs * vs * w) * nc) by ring. rewrite <- Z.mul_add_distr_r. exact L.
  - intros c [<-|[<-|[<-|[]]]]; [apply Hc0|apply Hc1|apply Hc2].
  - cbn [d_todo layout_dec set_d_comps set_d_ratio]. rewrite D10. split; [|reflexivity]. apply Z.le_succ_l in Hlen || idtac. unfold full. lia.
  - exists s, lost, js. rewrite (cg_mcuh _ G) in Ljs, Hrow. split; [exact E|]. split; [|split; [exact Ejs|split; [exact Ljs|split; [|exact Hrow]]]].
    + rewrite Edec. unfold output_len, layout_dec. cbn [d_info d_opt set_d_todo set_d_comps set_d_ratio]. fold nc. rewrite D6, D7. ring.
    + split.
      * destruct Hlost as [->|(done & r & c & Ef & _ & Hl)]; [now left|].
        unfold full in Ef. destruct units_last as (l & El). rewrite El, (chroma_units _ _ 1), (chroma_units _ _ 2) in Ef by lia.
        rewrite !app_assoc in Ef. apply app_inj_tail in Ef. destruct Ef as [_ Ef]. injection Ef as -> ->. right.
        rewrite (chroma_units _ _ 1), (chroma_units _ _ 2) in Hl by lia. exact Hl.
      * intros Hne. destruct Hlost as [->|(done & r & c & Ef & Hb & Hl)]; [congruence|exact Hb].
Qed.
End layouts.
