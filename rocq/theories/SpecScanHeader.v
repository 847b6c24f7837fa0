(** Scan headers (ITU-T T.81 B.2.3).  Nothing here refers to the decoder. *)
From Coq Require Import ZArith List Bool.
From Verif Require Import SpecSegments SpecFile.
Import ListNotations.
Local Open Scope Z_scope.

(** A scan header: Ns, then two bytes for each component, then Ss, Se, Ah and Al.  [sel] stands
    for the bytes of the components, whether or not there are as many as Ns announces. *)
Definition scan_seg (ns : Z) (sel : list Z) (ss se ah al : Z) : mseg :=
  (218, ns :: sel ++ [ss; se; 16 * ah + al]).
(** Two bytes for each of these components: the identifier, and the first DC and AC tables *)
Definition zero_pairs (ids : list Z) : list Z := flat_map (fun id => [id; 0]) ids.
