(** Using one decoder for many files (C10).  C10_refuted is in Thm_Scan.v. *)
From Coq Require Import ZArith String List Bool Lia.
From Verif Require Import Base Types State Decoder Session.
From Verif Require Import SpecHuffman SpecSegments SpecFile SpecBlock SpecScript SpecImage SpecBaseline SpecReuse.
From Verif Require Import Reuse Thm_BaseGray.
Import ListNotations.
Local Open Scope Z_scope.

(** C10 for grayscale baseline files.  A decoder that has decoded any number of valid grayscale
    baseline files, read the headers of others, and had its output format and its number of
    threads changed, accepts the headers of a further such file and decodes it to the same
    result as a new decoder.  Missing: histories with other kinds of files, for which the claim
    is false (C10_refuted), set_limits, files that are rejected, and histories of 2^31 - 1 or
    more blocks (the counter of the restart interval is decremented for every block, without a
    restart interval too, and is not set back). *)
Theorem C10_gray_partial : forall cpu o us g,
  Forall (use_ok o) us -> gray_ok o g -> total_area us + gray_area g < 2147483647 ->
  fst (read_headers (after cpu o (map use_call us)) (gray_bytes g)) = Ok tt /\
  fst (decode_buffer (after cpu o (map use_call us)) (gray_bytes g))
    = fst (decode_buffer (new_with_options cpu o) (gray_bytes g)).
Proof. exact reuse_lemma. Qed.
Print Assumptions C10_gray_partial.

Definition doc15 : gray_doc := mkGrayDoc bg_ps 2 15 7 [[bg_act]] 0 1 bg_blk bg_code [9; 9].
Definition doc16 : gray_doc := mkGrayDoc bg_ps 2 16 8 [[bg_act]] 0 1 bg_blk bg_code [].
Definition doc_uses : list use := [URgba; UDecode doc16; URead doc16; UColorspace YCbCr; UThreads 2; UDecode doc15; UDecode doc16].
Example C10_gray_case : Forall (use_ok default_options) doc_uses /\ gray_ok default_options doc15 /\
  total_area doc_uses + gray_area doc15 = 8 /\
  match fst (decode_buffer (after Scalar default_options (map use_call doc_uses)) (gray_bytes doc15)) with
  | Ok px => firstn 9 px = [129; 129; 130; 130; 131; 131; 132; 132; 127]
  | _ => False
  end.
Proof.
  assert (H15 : gray_ok default_options doc15).
  { split; [|cbn; lia]. unfold doc15. cbn [gd_pre gd_q gd_w gd_h gd_tables gd_td gd_ta gd_blocks gd_bits gd_suffix]. apply bg_image; lia. }
  assert (H16 : gray_ok default_options doc16).
  { split; [|cbn; lia]. destruct (bg_image 16) as [A1 A2 A3 A4 A5 A6 A7 A8 A9 A10 A11 A12 A13]; try lia. split; auto; cbn; lia || constructor. }
  split; [repeat (constructor; [exact I || assumption|]); constructor|]. split; [exact H15|]. split; [reflexivity|].
  vm_compute. reflexivity.
Qed.
