(** The pixels of baseline grayscale files are close to those of the standard. *)
From Coq Require Import ZArith String List Bool Lia Reals Lra.
From Coq Require Import ZifyBool ZifyNat ZifyN.
From Verif Require Import Base Types Huffman State Bitstream Headers Idct Color Simd Worker Mcu McuProg Decoder.
From Verif Require Import SpecHuffman SpecSegments SpecExtend SpecBits SpecBlock SpecProg SpecScript SpecImage SpecBaseline SpecIdct SpecColor SpecDct SpecPixels.
From Verif Require Import Obs ObsProg BaseFacts ColorFacts Placement IdctFacts IdctReal Strip GrayImage HeaderFile GrayFile GrayReal BaseFile.
Import ListNotations.
Local Open Scope Z_scope.
Ltac Zify.zify_post_hook ::= Z.div_mod_to_equations.

Lemma with_pred_Forall (P : Z -> list Z -> Prop) (Q : list Z -> Prop) zs : (forall p z, P p z -> Q z) ->
  forall p, with_pred P p zs -> Forall Q zs.
Proof. intros H. induction zs as [|z zs IH]; intros p Hp; [constructor|]. destruct Hp as [H1 H2]. constructor; [eauto|eapply IH; eauto]. Qed.

Lemma base_real cpu o ps q t w h tss td ta blocks bits sfx :
  baseline_gray ps q w h tss td ta blocks bits sfx ->
  w <= o_max_width o -> h <= o_max_height o -> last_quant (quants ps) q = Some t ->
  Forall (in_range (qd_values t)) blocks -> 64 * ((w + 7) / 8) < 9 * w ->
  exists px, fst (decode_buffer (new_with_options cpu o) (file 192 ps (Gray q) w h (baseline_items tss td ta bits) sfx)) = Ok px /\
    close_to (qd_values t) blocks w h px.
Proof.
  intros Hi Hmw Hmh Ht Hra Hpad.
  destruct (base_file cpu o _ _ _ _ _ _ _ _ _ _ _ Hi Hmw Hmh Ht Hpad) as (px & E & L & N).
  destruct Hi as [P1 P2 P3 P4 P5 P6 P7 P8 P9 P10 P11 P12 P13].
  exists px. split; [exact E|]. split; [exact L|]. intros a b Ha Hb m p.
  assert (Hp' : p = zn px (a * w + b)) by reflexivity. rewrite N in Hp' by assumption.
  assert (Hidx : (Z.to_nat (a / 8 * m + b / 8) < length blocks)%nat).
  { assert (0 <= a / 8 < (h + 7) / 8) by lia. assert (0 <= b / 8 < m) by (unfold m; lia).
    pose proof (block_inside ((h + 7) / 8) m (a / 8) (b / 8)). fold m in P10. lia. }
  unfold sample_exact, block_of. fold m in Hp'. rewrite Hp'.
  assert (Hq : quant_def_legal t) by (eapply quant_legal; eauto).
  destruct Hq as (_ & Q1 & Q2).
  assert (Hl : Forall (fun zz => length zz = 64%nat) blocks).
  { eapply with_pred_Forall; [|exact P12]. intros p0 z [[Hz _] _]. exact Hz. }
  rewrite Forall_forall in Hl, Hra.
  apply px_close; auto; try lia; [apply Hl|apply Hra]; now apply nth_In.
Qed.
