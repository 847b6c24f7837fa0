(** Interleaved DC scans (T.81 A.2.3, G.1.2.1).  Nothing here refers to the decoder. *)
From Coq Require Import ZArith List Bool.
From Verif Require Import Base SpecHuffman SpecExtend SpecBlock SpecProg.
Import ListNotations.
Local Open Scope Z_scope.

(** Size of an image in MCUs, and the sampling factors of its components *)
Record geometry : Type := mkGeo { g_mx : Z; g_my : Z; g_factors : list (Z * Z) }.
Definition factor (g : geometry) (k : nat) : Z * Z := nth k (g_factors g) (0, 0).

(** A block: number of the component, column and row *)
Definition unit_ : Type := nat * (Z * Z).
(** The blocks of component [k] in the MCU in row [i] and column [j]: row by row *)
Definition mcu_units (g : geometry) (i j : Z) (k : nat) : list unit_ :=
  flat_map (fun v => map (fun u => (k, (j * fst (factor g k) + u, i * snd (factor g k) + v))) (zseq (fst (factor g k))))
    (zseq (snd (factor g k))).
(** The blocks of a scan of the components [ks]: MCU by MCU, and component by component in each.
    Some lie outside the component if its size is not a multiple of the sampling factors. *)
Definition scan_units (g : geometry) (ks : list nat) : list unit_ :=
  flat_map (fun i => flat_map (fun j => flat_map (mcu_units g i j) ks) (zseq (g_mx g))) (zseq (g_my g)).

(** The DC coefficients of these blocks *)
Definition unit_values (V : nat -> Z -> Z -> Z) (us : list unit_) : list (nat * Z) :=
  map (fun u => (fst u, V (fst u) (fst (snd u)) (snd (snd u)))) us.

Definition next_pred (preds : nat -> Z) (k : nat) (q : Z) : nat -> Z := fun j => if (j =? k)%nat then q else preds j.
(** First scan: differences from the block before of the same component *)
Fixpoint encode_dc_units (codes : nat -> code) (al : Z) (preds : nat -> Z) (vs : list (nat * Z)) : option (list bool) :=
  match vs with
  | [] => Some []
  | (k, v) :: rest =>
      let q := dc_quot al v in
      cat_opt (codes k (category (q - preds k)))
        (cat_opt (Some (extra (q - preds k))) (encode_dc_units codes al (next_pred preds k q) rest))
  end.
(** The longest code and additional bits *)
Fixpoint dc_units_fit (codes : nat -> code) (al : Z) (preds : nat -> Z) (vs : list (nat * Z)) : Prop :=
  match vs with
  | [] => True
  | (k, v) :: rest =>
      let q := dc_quot al v in
      let c := category (q - preds k) in
      code_len (codes k) c + c <= 16 /\ dc_units_fit codes al (next_pred preds k q) rest
  end.
(** The code and the additional bits of the last block *)
Fixpoint dc_units_last (codes : nat -> code) (al : Z) (preds : nat -> Z) (vs : list (nat * Z)) : Z :=
  match vs with
  | [] => 0
  | (k, v) :: rest =>
      let q := dc_quot al v in
      let c := category (q - preds k) in
      match rest with [] => code_len (codes k) c + c | _ => dc_units_last codes al (next_pred preds k q) rest end
  end.

(** The bits of a scan: [ah = 0] marks the first scan; a refinement scan sends one bit per block *)
Definition dc_units_data (codes : nat -> code) (ah al : Z) (vs : list (nat * Z)) (bits : list bool) : Prop :=
  if ah =? 0 then
    encode_dc_units codes al (fun _ => 0) vs = Some bits /\ dc_units_fit codes al (fun _ => 0) vs
  else bits = map (fun kv => dc_bit al (snd kv)) vs.
