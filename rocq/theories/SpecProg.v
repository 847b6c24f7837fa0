(** What progressive decoding should compute (T.81 G.1.2, G.2), stated without the model's
    loops. *)
From Coq Require Import ZArith String List Bool.
From Verif Require Import Base Bitstream SpecHuffman SpecExtend SpecSegments SpecBlock.
Import ListNotations.
Local Open Scope Z_scope.

(** Where block number [b] of a component starts when a row of the image has [w] blocks and a
    row of the buffer [stride] *)
Definition block_at (w stride b : Z) : Z := 64 * (b mod w + b / w * stride).

(** The first AC scan of a band over [n] blocks from number [b] on (T.81 G.1.2.2): as long as
    an end-of-band run lasts, the next block is left alone and the run gets shorter by one;
    otherwise the block is decoded by [dec], which may start a run. *)
Fixpoint run_scan (dec : list Z -> bst -> res (list Z) * bst) (pos : Z -> Z) (n : nat) (b : Z)
  (s : bst) (plane : list Z) : res (list Z) * bst :=
  match n with
  | O => (Ok plane, s)
  | S n' =>
      if 0 <? b_eob s then run_scan dec pos n' (b + 1) (set_eob s (b_eob s - 1)) plane
      else
        match dec (firstn 64 (skipn (Z.to_nat (pos b)) plane)) s with
        | (Ok blk, s') =>
            run_scan dec pos n' (b + 1) s'
              (firstn (Z.to_nat (pos b)) plane ++ blk ++ skipn (Z.to_nat (pos b) + 64) plane)
        | (r, s') => (r, s')
        end
  end.

(** Successive approximation: what is known of a coefficient after all scans down to bit [al].
    DC coefficients are shifted (T.81 G.1.2.1), AC coefficients lose the low bits of their
    magnitude (T.81 G.1.2.3). *)
Definition dc_known (al v : Z) : Z := v / 2 ^ al * 2 ^ al.
Definition ac_known (al v : Z) : Z := Z.sgn v * (Z.abs v / 2 ^ al * 2 ^ al).
(** The bits a refinement scan for bit [al] sends for a coefficient *)
Definition dc_bit (al v : Z) : bool := Z.odd (v / 2 ^ al).
Definition ac_bit (al v : Z) : bool := Z.odd (Z.abs v / 2 ^ al).

(** ** The encoder of a scan of one component.
    A band is the list of the coefficients [ss..se] of a block in zig-zag order, divided by
    [2 ^ al] ([dc_quot] rounds down, [ac_quot] towards zero). *)
Definition dc_quot (al v : Z) : Z := v / 2 ^ al.
Definition ac_quot (al v : Z) : Z := Z.sgn v * (Z.abs v / 2 ^ al).

(** First DC scan (T.81 G.1.2.1): like baseline, on the divided coefficients *)
Fixpoint encode_dc_first (dc : code) (al pred : Z) (vs : list Z) : option (list bool) :=
  match vs with
  | [] => Some []
  | v :: rest =>
      let q := dc_quot al v in
      cat_opt (dc (category (q - pred)))
        (cat_opt (Some (extra (q - pred))) (encode_dc_first dc al q rest))
  end.

(** One block of the first AC scan of a band (T.81 G.1.2.2, figures G.3, G.4): [first_band ac
    ws n b] says that [b] are bits for the band [ws] and announce that [n] more blocks have
    nothing but zeros in the band.  An encoder has a choice in the length of its runs, so this
    is a relation. *)
Inductive first_band (ac : code) : list Z -> nat -> list bool -> Prop :=
| fb_done : first_band ac [] 0 []
| fb_eob k r x c : (0 < k)%nat -> (r <= 14)%nat -> 0 <= x < 2 ^ Z.of_nat r ->
    ac (16 * Z.of_nat r) = Some c ->
    first_band ac (repeat 0 k) (Z.to_nat (2 ^ Z.of_nat r + x - 1)) (c ++ bits_of r x)
| fb_zrl rest n c b : ac 240 = Some c -> first_band ac rest n b ->
    first_band ac (repeat 0 16 ++ rest) n (c ++ b)
| fb_coef z w rest n c b : (z <= 15)%nat -> w <> 0 ->
    ac (16 * Z.of_nat z + category w) = Some c -> first_band ac rest n b ->
    first_band ac (repeat 0 z ++ w :: rest) n (c ++ extra w ++ b).

Definition all_zero (ws : list Z) : Prop := Forall (fun w => w = 0) ws.

(** The blocks of the scan one after the other *)
Inductive first_bands (ac : code) : list (list Z) -> list bool -> Prop :=
| fbs_nil : first_bands ac [] []
| fbs_band ws n b run rest b' : first_band ac ws n b -> length run = n -> Forall all_zero run ->
    first_bands ac rest b' -> first_bands ac (ws :: run ++ rest) (b ++ b').

(** One block of a refinement AC scan (T.81 G.1.2.3, figures G.7, G.8).  With [w] the
    coefficient divided by [2 ^ al], a coefficient with [|w| >= 2] was nonzero before and gets
    a correction bit, one with [|w| = 1] becomes nonzero and is announced by a symbol that
    counts the zeros skipped; the correction bits of the coefficients passed over follow. *)
Definition old_nonzero (w : Z) : bool := 2 <=? Z.abs w.
Definition corrections (ws : list Z) : list bool :=
  map (fun w => Z.odd (Z.abs w)) (filter old_nonzero ws).
Definition zeros (ws : list Z) : nat := length (filter (fun w => w =? 0) ws).
Definition no_new (ws : list Z) : Prop := Forall (fun w => w = 0 \/ 2 <= Z.abs w) ws.

Inductive refine_band (ac : code) : list Z -> nat -> list bool -> Prop :=
| rb_done : refine_band ac [] 0 []
| rb_eob ws r x c : ws <> [] -> no_new ws -> (r <= 14)%nat -> 0 <= x < 2 ^ Z.of_nat r ->
    ac (16 * Z.of_nat r) = Some c ->
    refine_band ac ws (Z.to_nat (2 ^ Z.of_nat r + x - 1)) (c ++ bits_of r x ++ corrections ws)
| rb_zrl ws rest n c b : no_new ws -> zeros ws = 15%nat -> ac 240 = Some c ->
    refine_band ac rest n b ->
    refine_band ac (ws ++ 0 :: rest) n (c ++ corrections ws ++ b)
| rb_new ws w rest n c b : no_new ws -> (zeros ws <= 15)%nat -> Z.abs w = 1 ->
    ac (16 * Z.of_nat (zeros ws) + 1) = Some c -> refine_band ac rest n b ->
    refine_band ac (ws ++ w :: rest) n (c ++ [0 <? w] ++ corrections ws ++ b).

(** The blocks of the scan one after the other; the blocks of a run contribute their
    correction bits *)
Inductive refine_bands (ac : code) : list (list Z) -> list bool -> Prop :=
| rbs_nil : refine_bands ac [] []
| rbs_band ws n b run rest b' : refine_band ac ws n b -> length run = n -> Forall no_new run ->
    refine_bands ac rest b' ->
    refine_bands ac (ws :: run ++ rest) (b ++ concat (map corrections run) ++ b').

(** ** What a plane of coefficients shows.
    [K k v] is what is known of coefficient number [k] (in zig-zag order) if its value is
    [v]. *)
Definition knowledge := Z -> Z -> Z.
Definition nothing : knowledge := fun _ _ => 0.
Definition learn (ss se : Z) (g : Z -> Z) (K : knowledge) : knowledge :=
  fun k v => if (ss <=? k) && (k <=? se) then g v else K k v.

(** [blocks] are the coefficients of the image in zig-zag order, block by block; the plane holds
    each block in natural order. *)
Definition shows (w stride : Z) (blocks : list (list Z)) (K : knowledge) (plane : list Z) : Prop :=
  forall b i, (b < length blocks)%nat -> 0 <= i < 64 ->
    let k := zigzag (i / 8) (i mod 8) in
    nth (Z.to_nat (block_at w stride (Z.of_nat b) + i)) plane 0
    = K k (nth (Z.to_nat k) (nth b blocks []) 0).

(** The coefficients [ss..se] of a block, divided *)
Definition band (al ss se : Z) (zz : list Z) : list Z :=
  map (ac_quot al) (firstn (Z.to_nat (se + 1 - ss)) (skipn (Z.to_nat ss) zz)).

(** The longest code and additional bits of a first DC scan *)
Fixpoint dc_first_fits (dc : code) (al pred : Z) (vs : list Z) : Prop :=
  match vs with
  | [] => True
  | v :: rest =>
      let q := dc_quot al v in
      let k := category (q - pred) in
      code_len dc k + k <= 16 /\ dc_first_fits dc al q rest
  end.
(** The code and the additional bits of its last block *)
Fixpoint dc_first_last (dc : code) (al pred : Z) (vs : list Z) : Z :=
  match vs with
  | [] => 0
  | v :: rest =>
      let q := dc_quot al v in
      let k := category (q - pred) in
      match rest with [] => code_len dc k + k | _ => dc_first_last dc al q rest end
  end.

(** ** One scan of one component.
    [scan_data]: the bits of a scan for the coefficients [ss..se] down to bit [al]; [ah = 0]
    marks the first scan for them (T.81 G.1.2) *)
Definition scan_data (dc ac : code) (ss se ah al : Z) (blocks : list (list Z)) (bits : list bool) : Prop :=
  if ss =? 0 then
    if ah =? 0 then
      encode_dc_first dc al 0 (map (hd 0) blocks) = Some bits /\
      dc_first_fits dc al 0 (map (hd 0) blocks)
    else bits = map (dc_bit al) (map (hd 0) blocks)
  else if ah =? 0 then first_bands ac (map (band al ss se) blocks) bits
  else refine_bands ac (map (band al ss se) blocks) bits.

(** [scan_next]: the scan may come when [K] is known: nothing of an AC band before its first
    scan, all bits but one before a refinement scan; a band does not mix DC and AC *)
Definition scan_next (K : knowledge) (ss se ah al : Z) : Prop :=
  0 <= al <= 13 /\ 0 <= ah <= 13 /\ (ah = 0 \/ ah = al + 1) /\
  if ss =? 0 then se = 0 /\ (ah = 0 \/ forall v, K 0 v = dc_known (al + 1) v)
  else 1 <= ss <= se /\ se <= 63 /\
       forall k v, ss <= k <= se -> K k v = (if ah =? 0 then 0 else ac_known (al + 1) v).

(** What is known after it *)
Definition scan_learns (K : knowledge) (ss se al : Z) : knowledge :=
  learn ss se (if ss =? 0 then dc_known al else ac_known al) K.
