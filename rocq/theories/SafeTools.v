(** For the examples of C02 and C58. *)
From Coq Require Import ZArith List Bool.
From Verif Require Import SpecSafe.
Import ListNotations.
Local Open Scope Z_scope.

(** [no_sof], computed *)
Fixpoint no_sofb (rd : list Z) : bool :=
  match rd with
  | a :: ((m :: _) as t) => negb ((a =? 255) && ((m =? 192) || (m =? 194))) && no_sofb t
  | _ => true
  end.
Lemma no_sofb_ok rd : no_sofb rd = true -> no_sof rd.
Proof.
  intros H a. revert rd H. induction a as [|x a IH]; intros rd H m b E; subst rd.
  - cbn [app no_sofb] in H. apply andb_prop in H. destruct H as [H _]. apply negb_true_iff in H.
    rewrite Z.eqb_refl in H. cbn [andb] in H. apply orb_false_iff in H. destruct H as [H1 H2].
    apply Z.eqb_neq in H1, H2. auto.
  - apply (IH (a ++ 255 :: m :: b)%list) with (b := b); [|reflexivity].
    cbn [app no_sofb] in H. destruct (a ++ 255 :: m :: b)%list as [|y t] eqn:E; [reflexivity|].
    apply andb_prop in H. tauto.
Qed.
