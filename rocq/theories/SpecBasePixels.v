(** What a baseline colour file without subsampling says the pixels are.  Nothing here refers to
    the decoder. *)
From Coq Require Import ZArith List Bool.
From Verif Require Import Base SpecSegments SpecInter SpecScript SpecImage SpecDct SpecPixels SpecColourPixels SpecBaseScan.
Import ListNotations.
Local Open Scope Z_scope.

(** The blocks of a component, [n] in each of [m] rows, row by row *)
Definition component_blocks (n m : Z) (b : Z -> Z -> list Z) : list (list Z) :=
  flat_map (fun y => map (fun x => b x y) (zseq n)) (zseq m).
(** The three components of an image of [w] by [h] pixels: quantization tables and coefficients *)
Definition image_planes (ts : list quant_def) (w h : Z) (B : nat -> Z -> Z -> list Z) : list plane :=
  map (fun '(k, t) => mkPlane (qd_values t) (component_blocks ((w + 7) / 8) ((h + 7) / 8) (B k))) (combine (seq 0 (length ts)) ts).
(** The same coefficients, but the last blocks of the components [ks] are zero *)
Definition without_last (ks : list nat) (w h : Z) (B : nat -> Z -> Z -> list Z) (k : nat) (x y : Z) : list Z :=
  if existsb (Nat.eqb k) ks && (x =? (w + 7) / 8 - 1) && (y =? (h + 7) / 8 - 1) then repeat 0 64 else B k x y.
