(** The bytes of a sequence of progressive scans, and which sequences are valid (T.81 B.2,
    G.1.1.1).  Nothing here refers to the decoder. *)
From Coq Require Import ZArith List Bool.
From Verif Require Import SpecHuffman SpecExtend SpecSegments SpecBits SpecBlock SpecProg SpecInter.
Import ListNotations.
Local Open Scope Z_scope.

(** What may follow the frame header: Huffman tables, a scan of one component with its
    identifier, its table selectors, the spectral selection and approximation, and its bits, or
    a scan of the DC coefficients of several components with their identifiers and table
    selectors *)
Inductive item : Type :=
| Tables (ts : list huff_def)
| Scan (id td ta ss se ah al : Z) (bits : list bool)
| DcScan (sel : list (Z * Z * Z)) (ah al : Z) (bits : list bool).

Definition item_bytes (i : item) : list Z :=
  match i with
  | Tables ts => [255; 196] ++ segment (dht_payload ts)
  | Scan id td ta ss se ah al bits =>
      [255; 218] ++ segment [1; id; 16 * td + ta; ss; se; 16 * ah + al] ++ stuff (pack bits)
  | DcScan sel ah al bits =>
      [255; 218] ++
      segment (Z.of_nat (length sel) :: flat_map (fun '(id, td, ta) => [id; 16 * td + ta]) sel ++ [0; 0; 16 * ah + al]) ++
      stuff (pack bits)
  end.

(** The code last sent to a destination *)
Definition code_at (tabs : list huff_def) (ac : bool) (dest : Z) : code :=
  match last_huff tabs ac dest with
  | Some t => code_of (hf_counts t) (hf_symbols t)
  | None => fun _ => None
  end.
(** The table is there and none of its symbols of six bits or more has a code so short that
    code and bits together fit into nine bits *)
Definition usable (tabs : list huff_def) (ac : bool) (dest : Z) : Prop :=
  exists t, last_huff tabs ac dest = Some t /\
    (ac = true -> forall l c v, codeword (hf_counts t) (hf_symbols t) l c v ->
       6 <= v mod 16 -> 9 < Z.of_nat l + v mod 16).

(** A component of the image: identifier, size in blocks, coefficients *)
Record comp_data : Type := mkCompData { cd_id : Z; cd_w : Z; cd_h : Z; cd_blocks : list (list Z) }.

(** Replace element number [k] *)
Definition upd {A} (l : list A) (k : nat) (x : A) : list A := firstn k l ++ x :: skipn (S k) l.

(** A scan of component number [k] that may come when [Ks] is known *)
Definition scan_valid (cs : list comp_data) (tabs : list huff_def) (Ks : list knowledge) (k : nat)
  (td ta ss se ah al : Z) (bits : list bool) : Prop :=
  exists c K, nth_error cs k = Some c /\ nth_error Ks k = Some K /\
    0 <= td <= 3 /\ 0 <= ta <= 3 /\ scan_next K ss se ah al /\
    (if ss =? 0 then usable tabs false td else usable tabs true ta) /\
    scan_data (code_at tabs false td) (code_at tabs true ta) ss se ah al (cd_blocks c) bits.

Definition known_next (Ks : list knowledge) (k : nat) (ss se al : Z) : list knowledge :=
  match nth_error Ks k with
  | Some K => upd Ks k (scan_learns K ss se al)
  | None => Ks
  end.

(** A scan of the DC coefficients of the components with the numbers [ks] that may come *)
Definition dc_scan_valid (cs : list comp_data) (tabs : list huff_def) (Ks : list knowledge) (ks : list nat)
  (sel : list (Z * Z * Z)) (ah al : Z) : Prop :=
  (2 <= length ks <= 3)%nat /\ NoDup ks /\
  Forall2 (fun k '(id, td, ta) => exists c K, nth_error cs k = Some c /\ nth_error Ks k = Some K /\
    id = cd_id c /\ 0 <= td <= 3 /\ 0 <= ta <= 3 /\ scan_next K 0 0 ah al /\ usable tabs false td) ks sel.
(** The code for component number [k] *)
Fixpoint sel_code (tabs : list huff_def) (ks : list nat) (sel : list (Z * Z * Z)) (k : nat) : code :=
  match ks, sel with
  | k' :: ks', (_, td, _) :: sel' => if (k' =? k)%nat then code_at tabs false td else sel_code tabs ks' sel' k
  | _, _ => fun _ => None
  end.
(** The DC coefficients [V] of its blocks: component, column, row.  Those of the blocks outside
    the component are arbitrary. *)
Definition dc_scan_data (g : geometry) (cs : list comp_data) (tabs : list huff_def) (ks : list nat)
  (sel : list (Z * Z * Z)) (ah al : Z) (V : nat -> Z -> Z -> Z) (bits : list bool) : Prop :=
  (forall k x y, Z.abs (V k x y) <= 32767) /\
  (forall k c x y, In k ks -> nth_error cs k = Some c -> 0 <= x < cd_w c -> 0 <= y < cd_h c ->
     V k x y = hd 0 (nth (Z.to_nat (y * cd_w c + x)) (cd_blocks c) [])) /\
  dc_units_data (sel_code tabs ks sel) ah al (unit_values V (scan_units g ks)) bits.

(** [scan_ok g cs tabs Ks i Ks' b]: with the tables [tabs] in place and [Ks] known, the scan [i]
    is valid, has [b] blocks and teaches [Ks'] *)
Inductive scan_ok (g : geometry) (cs : list comp_data) (tabs : list huff_def) (Ks : list knowledge) :
  item -> list knowledge -> Z -> Prop :=
| so_one k c td ta ss se ah al bits :
    nth_error cs k = Some c -> scan_valid cs tabs Ks k td ta ss se ah al bits ->
    scan_ok g cs tabs Ks (Scan (cd_id c) td ta ss se ah al bits) (known_next Ks k ss se al) (cd_w c * cd_h c)
| so_dc ks sel ah al V bits :
    dc_scan_valid cs tabs Ks ks sel ah al -> dc_scan_data g cs tabs ks sel ah al V bits ->
    scan_ok g cs tabs Ks (DcScan sel ah al bits) (fold_left (fun L k => known_next L k 0 0 al) ks Ks)
      (Z.of_nat (length (scan_units g ks))).

(** [script g cs tabs Ks is Ks' n b]: with the tables [tabs] in place and [Ks] known, the items
    [is] are valid and teach [Ks']; they contain [n] scans of together [b] blocks *)
Inductive script (g : geometry) (cs : list comp_data) : list huff_def -> list knowledge -> list item ->
  list knowledge -> Z -> Z -> Prop :=
| sc_end tabs Ks : script g cs tabs Ks [] Ks 0 0
| sc_tables tabs Ks ts is Ks' n b :
    Forall huff_def_legal ts -> fits (dht_payload ts) ->
    script g cs (tabs ++ ts) Ks is Ks' n b -> script g cs tabs Ks (Tables ts :: is) Ks' n b
| sc_scan tabs Ks i Ks1 b1 is Ks' n b :
    scan_ok g cs tabs Ks i Ks1 b1 ->
    script g cs tabs Ks1 is Ks' n b -> script g cs tabs Ks (i :: is) Ks' (n + 1) (b + b1).

(** The coefficients of a component are there and fit 16 bits *)
Definition comp_data_ok (c : comp_data) : Prop :=
  Z.of_nat (length (cd_blocks c)) = cd_w c * cd_h c /\
  Forall (fun zz => length zz = 64%nat) (cd_blocks c) /\
  Forall (Forall (fun v => Z.abs v <= 32767)) (cd_blocks c).
