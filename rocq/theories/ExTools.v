(** Boolean tests that discharge the hypotheses of theorems on concrete data. *)
From Coq Require Import ZArith List Bool Lia.
From Coq Require Import ZifyBool ZifyNat ZifyN.
From Verif Require Import Base SpecHuffman SpecSegments.
Import ListNotations.
Local Open Scope Z_scope.
Ltac Zify.zify_post_hook ::= Z.div_mod_to_equations.

Lemma forallb_Forall {A} (f : A -> bool) (P : A -> Prop) l :
  (forall x, f x = true -> P x) -> forallb f l = true -> Forall P l.
Proof. intros H Hl. rewrite forallb_forall in Hl. apply Forall_forall. auto. Qed.

Definition byteb (b : Z) : bool := (0 <=? b) && (b <=? 255).
Lemma forallb_byte l : forallb byteb l = true -> Forall byte l.
Proof. apply forallb_Forall. unfold byteb, byte. intros. lia. Qed.

Definition table_defb (counts symbols : list Z) : bool :=
  Nat.eqb (length counts) 16 && forallb byteb counts &&
  (Z.of_nat (length symbols) =? fold_right Z.add 0 counts) &&
  (fold_right Z.add 0 counts <=? 256) && forallb byteb symbols.
Lemma table_defb_ok counts symbols : table_defb counts symbols = true -> table_def counts symbols.
Proof.
  unfold table_defb, table_def. intros H.
  repeat (apply andb_prop in H; let H' := fresh in destruct H as [H H']).
  split; [now apply Nat.eqb_eq|]. split; [now apply forallb_byte|]. split; [lia|]. split; [lia|].
  now apply forallb_byte.
Qed.

Lemma codes_long counts symbols :
  forallb (fun l => forallb (fun j =>
      let v := nth (Z.to_nat (shorter counts l) + j) symbols 0 in
      (v mod 16 <? 6) || (9 <? Z.of_nat l + v mod 16))
    (seq 0 (Z.to_nat (count counts l)))) (seq 1 16) = true ->
  forallb (fun l => 0 <=? shorter counts l) (seq 1 16) = true ->
  forall l c v, codeword counts symbols l c v -> 6 <= v mod 16 -> 9 < Z.of_nat l + v mod 16.
Proof.
  intros H Hs l c v (j & Hj & Hl & Hc & Hv) H6. rewrite forallb_forall in H, Hs.
  specialize (H l ltac:(apply in_seq; lia)). specialize (Hs l ltac:(apply in_seq; lia)).
  rewrite forallb_forall in H. specialize (H (Z.to_nat j) ltac:(apply in_seq; lia)). cbv zeta in H.
  apply nth_error_nth with (d := 0) in Hv.
  replace (Z.to_nat (shorter counts l) + Z.to_nat j)%nat with (Z.to_nat (shorter counts l + j)) in H by lia.
  rewrite Hv in H. apply orb_prop in H. clear - H H6. lia.
Qed.
