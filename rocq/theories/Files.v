(** Small JPEG files, put together from segments, for examples and counterexamples. *)
From Coq Require Import ZArith List Bool.
From Verif Require Import SpecSegments.
Import ListNotations.
Local Open Scope Z_scope.

Definition seg (m : Z) (payload : list Z) : list Z := 255 :: m :: segment payload.
Definition soi : list Z := [255; 216].
Definition eoi : list Z := [255; 217].
(** A flat quantization table in slot 0 *)
Definition dqt (q : Z) : list Z := seg 219 (0 :: repeat q 64).
(** A frame header: marker (192 baseline, 194 progressive), height, width, and for every
    component its identifier and its sampling factors *)
Definition sof (m h w : Z) (cs : list (Z * Z)) : list Z :=
  seg m (8 :: be16 h ++ be16 w ++ [blen cs] ++ flat_map (fun '(i, hv) => [i; hv; 0]) cs).
(** One-symbol tables: DC symbol 0 and AC symbol 0 (EOB), both with the code 0 *)
Definition dht_dc (counts syms : list Z) : list Z := seg 196 (0 :: counts ++ syms).
Definition dht_ac (counts syms : list Z) : list Z := seg 196 (16 :: counts ++ syms).
Definition one : list Z := 1 :: repeat 0 15.
Definition dht_tiny : list Z := dht_dc one [0] ++ dht_ac one [0].
(** A scan header for the given components, all using the tables in slot 0 *)
Definition sos_at (ids : list Z) (ss se ahl : Z) : list Z :=
  seg 218 (blen ids :: flat_map (fun i => [i; 0]) ids ++ [ss; se; ahl]).
Definition sos (ids : list Z) : list Z := sos_at ids 0 63 0.
Definition dri (n : Z) : list Z := seg 221 (be16 n).

(** Bits to bytes, with stuffing and padding by ones (T.81 F.1.2.3) *)
Fixpoint bits_val (n : nat) (bs : list bool) (acc : Z) : Z :=
  match n with
  | O => acc
  | S n' => match bs with
            | [] => bits_val n' [] (2 * acc + 1)
            | b :: t => bits_val n' t (2 * acc + (if b then 1 else 0))
            end
  end.
Fixpoint pack (fuel : nat) (bs : list bool) : list Z :=
  match fuel, bs with
  | _, [] => []
  | O, _ => []
  | S f, _ =>
      let v := bits_val 8 bs 0 in
      (if v =? 255 then [255; 0] else [v]) ++ pack f (skipn 8 bs)
  end.
Definition scan (bs : list bool) : list Z := pack (length bs) bs.
(** [n] blocks of zeros under the one-symbol tables *)
Definition zero_blocks (n : nat) : list Z := scan (repeat false (2 * n)).

(** A grayscale image of [h] x [w] pixels whose coefficients are all zero *)
Definition gray_zero (h w : Z) : list Z :=
  soi ++ dqt 1 ++ sof 192 h w [(1, 17)] ++ dht_tiny ++ sos [1]
  ++ zero_blocks (Z.to_nat (((h + 7) / 8) * ((w + 7) / 8))) ++ eoi.
(** A colour image with all coefficients zero; [y] packs the sampling factors of luminance *)
Definition colour_zero (h w y : Z) : list Z :=
  let hs := y / 16 in
  let vs := y mod 16 in
  soi ++ dqt 1 ++ sof 192 h w [(1, y); (2, 17); (3, 17)] ++ dht_tiny ++ sos [1; 2; 3]
  ++ zero_blocks (Z.to_nat (((h + 8 * vs - 1) / (8 * vs)) * ((w + 8 * hs - 1) / (8 * hs)) * (hs * vs + 2)))
  ++ eoi.
