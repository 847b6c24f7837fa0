(** Proof tools for the header parser: reduction of record updates and the weakest
    preconditions of the primitive readers. *)
From Coq Require Import ZArith String List Bool Lia.
From Coq Require Import ZifyBool ZifyNat ZifyN.
From Verif Require Import Base Types Huffman State Bitstream Headers BaseFacts.
Import ListNotations.
Local Open Scope Z_scope.
Local Open Scope m_scope.
Ltac Zify.zify_post_hook ::= Z.div_mod_to_equations.

(** Reduce projections of record updates *)
Ltac dsimp := cbn [hd_dec hd_rd
    set_c_cid set_c_v set_c_h set_c_dct set_c_act set_c_qn set_c_qt set_c_pred set_c_ups
    set_c_stride set_c_id set_i_width set_i_height set_i_density set_i_sof set_i_x set_i_y
    set_i_comps set_d_info set_d_qt set_d_dcts set_d_acts set_d_comps set_d_hmax
    set_d_vmax set_d_mcuw set_d_mcuh set_d_mcux set_d_mcuy set_d_inter set_d_ratio
    set_d_incs set_d_prog set_d_ss set_d_se set_d_ah set_d_al set_d_nscans set_d_idct
    set_d_cc set_d_zorder set_d_ri set_d_todo set_d_opt set_d_isa c_cid c_v c_h c_dct
    c_act c_qn c_qt c_pred c_ups c_stride c_id i_width i_height i_density i_sof i_x i_y
    i_comps d_info d_qt d_dcts d_acts d_comps d_hmax d_vmax d_mcuw d_mcuh d_mcux d_mcuy
    d_inter d_ratio d_incs d_prog d_ss d_se d_ah d_al d_nscans d_idct d_cc d_zorder d_ri
    d_todo d_opt d_isa
    set_out_colorspace set_use_unsafe set_threads set_max_width set_max_height
    set_max_scans set_strict_mode o_use_unsafe o_colorspace o_threads o_max_width
    o_max_height o_max_scans o_strict
    set_bits set_marker set_left set_eob set_rd bst_new bst_new_progressive
    update_progressive_params bst_reset b_buffer b_aligned b_left b_marker b_ah b_al b_ss
    b_se b_eob b_rd].
Tactic Notation "dsimp" "in" hyp(H) := cbn [hd_dec hd_rd
    set_c_cid set_c_v set_c_h set_c_dct set_c_act set_c_qn set_c_qt set_c_pred set_c_ups
    set_c_stride set_c_id set_i_width set_i_height set_i_density set_i_sof set_i_x set_i_y
    set_i_comps set_d_info set_d_qt set_d_dcts set_d_acts set_d_comps set_d_hmax
    set_d_vmax set_d_mcuw set_d_mcuh set_d_mcux set_d_mcuy set_d_inter set_d_ratio
    set_d_incs set_d_prog set_d_ss set_d_se set_d_ah set_d_al set_d_nscans set_d_idct
    set_d_cc set_d_zorder set_d_ri set_d_todo set_d_opt set_d_isa c_cid c_v c_h c_dct
    c_act c_qn c_qt c_pred c_ups c_stride c_id i_width i_height i_density i_sof i_x i_y
    i_comps d_info d_qt d_dcts d_acts d_comps d_hmax d_vmax d_mcuw d_mcuh d_mcux d_mcuy
    d_inter d_ratio d_incs d_prog d_ss d_se d_ah d_al d_nscans d_idct d_cc d_zorder d_ri
    d_todo d_opt d_isa
    set_out_colorspace set_use_unsafe set_threads set_max_width set_max_height
    set_max_scans set_strict_mode o_use_unsafe o_colorspace o_threads o_max_width
    o_max_height o_max_scans o_strict
    set_bits set_marker set_left set_eob set_rd bst_new bst_new_progressive
    update_progressive_params bst_reset b_buffer b_aligned b_left b_marker b_ah b_al b_ss
    b_se b_eob b_rd] in H.

Lemma wp_getd s (Q : res decoder -> hst -> Prop) : Q (Ok (hd_dec s)) s -> wp getd s Q.
Proof. auto. Qed.
Lemma wp_modd f s (Q : res unit -> hst -> Prop) :
  Q (Ok tt) (mkHst (f (hd_dec s)) (hd_rd s)) -> wp (modd f) s Q.
Proof. auto. Qed.
Lemma wp_rd_byte s (Q : res Z -> hst -> Prop) :
  (forall b t, hd_rd s = b :: t -> Q (Ok b) (mkHst (hd_dec s) t)) ->
  (forall e, hd_rd s = [] -> Q (Err e) s) ->
  wp rd_byte s Q.
Proof. unfold wp, rd_byte. destruct (hd_rd s) as [|b t] eqn:E; cbn; auto. Qed.
Lemma wp_rd_u16 s (Q : res Z -> hst -> Prop) :
  (forall a b t, hd_rd s = a :: b :: t -> Q (Ok (a * 256 + b)) (mkHst (hd_dec s) t)) ->
  (zlen (hd_rd s) < 2 -> Q (Err EExhaustedData) (mkHst (hd_dec s) [])) ->
  wp rd_u16 s Q.
Proof.
  unfold wp, rd_u16. intros H1 H2.
  destruct (hd_rd s) as [|a [|b t]] eqn:E; cbn; auto; apply H2; unfold zlen; cbn; lia.
Qed.
Lemma wp_map_err {S A} e (m : M S A) s (Q : res A -> S -> Prop) :
  wp m s (fun r s' => match r with Err _ => Q (Err e) s' | _ => Q r s' end) ->
  wp (map_err e m) s Q.
Proof. unfold wp, map_err. destruct (m s) as [[a|e'|p|] s']; cbn; auto. Qed.
Lemma wp_rd_exact n e s (Q : res (list Z) -> hst -> Prop) :
  (forall l t, hd_rd s = l ++ t -> zlen l = n -> Q (Ok l) (mkHst (hd_dec s) t)) ->
  (~ (0 <= n <= zlen (hd_rd s)) -> Q (Err e) s) ->
  wp (rd_exact n e) s Q.
Proof.
  unfold wp, rd_exact. intros H1 H2.
  destruct (slice (hd_rd s) 0 n) as [l|] eqn:E; cbn.
  - apply slice_some in E as (Ha & Hb & -> & Hl). cbn [skipn Z.to_nat] in *.
    replace (n - 0) with n in * by lia. change (Z.to_nat 0) with 0%nat in *. cbn [skipn] in *.
    apply H1; [symmetry; apply firstn_skipn|exact Hl].
  - apply H2. apply slice_none in E. lia.
Qed.
Lemma wp_consume n s (Q : res unit -> hst -> Prop) :
  Q (Ok tt) (mkHst (hd_dec s) (skipn (Z.to_nat n) (hd_rd s))) -> wp (consume n) s Q.
Proof. auto. Qed.
Lemma wp_fuel_of s (Q : res nat -> hst -> Prop) :
  Q (Ok (S (length (hd_rd s)))) s -> wp fuel_of s Q.
Proof. auto. Qed.

(** One step through a header function *)
Ltac wstep :=
  cbn [wp_then];
  lazymatch goal with
  | |- wp (bind _ _) _ _ => apply wp_bind
  | |- wp (ret _) _ _ => apply wp_ret
  | |- wp (fail _) _ _ => apply wp_fail
  | |- wp (panic _) _ _ => apply wp_panic
  | |- wp (lift _) _ _ => apply wp_lift
  | |- wp getd _ _ => apply wp_getd
  | |- wp (modd _) _ _ => apply wp_modd
  | |- wp rd_byte _ _ => apply wp_rd_byte
  | |- wp rd_u16 _ _ => apply wp_rd_u16
  | |- wp (map_err _ _) _ _ => apply wp_map_err
  | |- wp (rd_exact _ _) _ _ => apply wp_rd_exact
  | |- wp (consume _) _ _ => apply wp_consume
  | |- wp fuel_of _ _ => apply wp_fuel_of
  | |- wp (if _ then _ else _) _ _ => apply wp_if
  | |- wp (let _ := _ in _) _ _ => cbv zeta
  end.
