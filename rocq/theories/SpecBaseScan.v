(** Interleaved baseline scans and the files made of them (T.81 A.2.3, B.2, F.1.2).  Nothing
    here refers to the decoder. *)
From Coq Require Import ZArith List Bool.
From Verif Require Import Base SpecHuffman SpecSegments SpecFile SpecExtend SpecBits SpecBlock SpecInter SpecScript SpecImage SpecBaseline.
Import ListNotations.
Local Open Scope Z_scope.

(** The blocks of a scan in the order they are sent; [B k x y] is the block of component [k] in
    column [x] and row [y], coefficients in zig-zag order *)
Definition scan_blocks (B : nat -> Z -> Z -> list Z) (us : list unit_) : list (nat * list Z) :=
  map (fun u => (fst u, B (fst u) (fst (snd u)) (snd (snd u)))) us.

(** Blocks with their components: each component has its own codes (for DC and AC) and its own
    predictor *)
Fixpoint encode_units (codes : nat -> code * code) (preds : nat -> Z) (us : list (nat * list Z)) : option (list bool) :=
  match us with
  | [] => Some []
  | (k, zz) :: rest =>
      cat_opt (encode_block (fst (codes k)) (snd (codes k)) (preds k) zz)
        (encode_units codes (next_pred preds k (hd 0 zz)) rest)
  end.
(** A property of every block, its component and its predictor *)
Fixpoint units_pred (P : nat -> Z -> list Z -> Prop) (preds : nat -> Z) (us : list (nat * list Z)) : Prop :=
  match us with
  | [] => True
  | (k, zz) :: rest => P k (preds k) zz /\ units_pred P (next_pred preds k (hd 0 zz)) rest
  end.
(** How many of the bits belong to the last [n] blocks *)
Definition last_bits (codes : nat -> code * code) (us : list (nat * list Z)) (n : nat) : Z :=
  match encode_units codes (fun _ => 0) us, encode_units codes (fun _ => 0) (firstn (length us - n) us) with
  | Some a, Some b => Z.of_nat (length a) - Z.of_nat (length b)
  | _, _ => 0
  end.

(** A scan of the three components with the table selectors [sel] (for DC and AC) *)
Definition colour_scan (sel : list (Z * Z)) (bits : list bool) : list Z :=
  [255; 218] ++ segment (3 :: flat_map (fun '(id, (td, ta)) => [id; 16 * td + ta]) (zip [1; 2; 3] sel) ++ [0; 63; 0]) ++
  stuff (pack bits).
(** A baseline colour file *)
Definition colour_file (ps : list pre) (l : layout) (w h : Z) (tss : list (list huff_def)) (sel : list (Z * Z)) (bits : list bool)
  (sfx : list Z) : list Z :=
  [255; 216] ++ msegs_bytes (map pre_seg ps) ++ mseg_bytes (192, frame_payload h w (frame_comps l)) ++
  flat_map item_bytes (map Tables tss) ++ colour_scan sel bits ++ [255; 217] ++ sfx.

(** The codes selected *)
Definition sel_codes (tabs : list huff_def) (sel : list (Z * Z)) (k : nat) : code * code :=
  let '(td, ta) := nth k sel (0, 0) in (code_at tabs false td, code_at tabs true ta).

(** The blocks of a scan of all three components *)
Definition image_blocks (l : layout) (w h : Z) (B : nat -> Z -> Z -> list Z) : list (nat * list Z) :=
  scan_blocks B (scan_units (image_geo l w h) [0; 1; 2]%nat).

(** A baseline colour file of [w] by [h] pixels for the coefficients [B].  Blocks beyond the
    edges that fill up the last MCUs are arbitrary. *)
Record baseline_colour (ps : list pre) (l : layout) (w h : Z) (tss : list (list huff_def)) (sel : list (Z * Z))
  (B : nat -> Z -> Z -> list Z) (bits : list bool) (sfx : list Z) : Prop := {
  bc_pre : Forall pre_ok ps;
  bc_colour : exists hs vs q q1 q2, l = Colour hs vs q q1 q2;
  bc_layout : layout_ok l;
  bc_quants : has_quants ps l;
  bc_width : 0 < w <= 65527;
  bc_height : 0 < h <= 65527;
  bc_tables : Forall (fun ts => Forall huff_def_legal ts /\ fits (dht_payload ts)) tss;
  bc_sel : length sel = 3%nat /\
    Forall (fun '(td, ta) => 0 <= td <= 3 /\ 0 <= ta <= 3 /\
      usable (huffs ps ++ concat tss) false td /\ usable (huffs ps ++ concat tss) true ta) sel;
  bc_bits : encode_units (sel_codes (huffs ps ++ concat tss) sel) (fun _ => 0) (image_blocks l w h B) = Some bits;
  bc_blocks : units_pred (fun k p zz => baseline_block p zz /\ dc_short (fst (sel_codes (huffs ps ++ concat tss) sel k)) p zz)
                (fun _ => 0) (image_blocks l w h B);
  bc_bytes : Forall byte sfx }.
