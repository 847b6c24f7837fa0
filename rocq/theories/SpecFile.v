(** Shape of the header part of a JPEG file (ITU-T T.81 annex B.2): the start-of-image marker,
    marker segments, and a start-of-scan segment with whatever follows.  Nothing here refers
    to the decoder. *)
From Coq Require Import ZArith List Bool.
From Verif Require Import SpecSegments.
Import ListNotations.
Local Open Scope Z_scope.

(** A marker segment: the second byte of the marker and the payload *)
Definition mseg : Type := Z * list Z.
Definition mseg_bytes (s : mseg) : list Z := 255 :: fst s :: segment (snd s).
Definition msegs_bytes (l : list mseg) : list Z := flat_map mseg_bytes l.

(** FF is a fill byte, not a marker; DA starts the scan *)
Definition header_seg (s : mseg) : Prop :=
  byte (fst s) /\ fst s <> 255 /\ fst s <> 218 /\ Forall byte (snd s) /\ fits (snd s).
(** C0 and C2: the frame headers of baseline and progressive images *)
Definition is_frame (s : mseg) : Prop := fst s = 192 \/ fst s = 194.

(** Segments a decoder has to skip: reserved codes 02-BF, APPn E0-EF, F0-FD, comment FE *)
Definition skippable (m : Z) : Prop := 2 <= m <= 191 \/ 224 <= m <= 254.

(** Frame header payload (B.2.2): precision 8, lines, samples per line, component count and
    three bytes for each component *)
Definition frame_payload (h w : Z) (comps : list (Z * Z * Z)) : list Z :=
  8 :: be16 h ++ be16 w ++ blen comps :: flat_map (fun c => [fst (fst c); snd (fst c); snd c]) comps.
Definition comp_bytes (c : Z * Z * Z) : Prop := byte (fst (fst c)) /\ byte (snd (fst c)) /\ byte (snd c).
