(** Grayscale files whose only component has sampling factors other than 1 by 1.  A scan of one
    component is not interleaved: its blocks come row by row whatever the factors are, and the
    component has the size of the image (T.81 A.1.1, A.2.2).  Nothing here refers to the
    decoder. *)
From Coq Require Import ZArith List Bool.
From Verif Require Import SpecSegments SpecFile SpecScript SpecImage.
Import ListNotations.
Local Open Scope Z_scope.

(** The file of [Gray q], with the factors [hs] and [vs] in the frame header *)
Definition gray_at (sof : Z) (ps : list pre) (hs vs q w h : Z) (is : list item) (sfx : list Z) : list Z :=
  [255; 216] ++ msegs_bytes (map pre_seg ps) ++ mseg_bytes (sof, frame_payload h w [(1, 16 * hs + vs, q)]) ++
  flat_map item_bytes is ++ [255; 217] ++ sfx.
