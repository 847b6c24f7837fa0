(** Byte layout of the header segments of a JPEG file (ITU-T T.81 annex B).  Nothing here
    refers to the decoder. *)
From Coq Require Import ZArith List Bool.
From Verif Require Import SpecHuffman.
Import ListNotations.
Local Open Scope Z_scope.

Definition byte (b : Z) : Prop := 0 <= b <= 255.
Definition be16 (n : Z) : list Z := [n / 256; n mod 256].
Definition blen {A} (l : list A) : Z := Z.of_nat (length l).

(** A marker segment without its two marker bytes: a length that counts itself, then the
    payload *)
Definition segment (payload : list Z) : list Z := be16 (2 + blen payload) ++ payload.
(** The payload fits the 16-bit length *)
Definition fits (payload : list Z) : Prop := 2 + blen payload <= 65535.

(** * Huffman tables (B.2.4.2) *)
Record huff_def : Type := mkHuffDef {
  hf_ac : bool;           (* Tc: 0 for DC, 1 for AC *)
  hf_dest : Z;            (* Th *)
  hf_counts : list Z;     (* L_1 .. L_16 *)
  hf_symbols : list Z }.  (* V_i,j *)

Definition huff_def_bytes (t : huff_def) : list Z :=
  ((if hf_ac t then 16 else 0) + hf_dest t) :: hf_counts t ++ hf_symbols t.
Definition dht_payload (ts : list huff_def) : list Z := flat_map huff_def_bytes ts.

(** A table definition a decoder has to accept: counts and symbols are bytes, the counts
    leave room for a prefix code, DC symbols are categories up to 15 *)
Definition huff_def_legal (t : huff_def) : Prop :=
  0 <= hf_dest t <= 3 /\ table_def (hf_counts t) (hf_symbols t) /\
  (exists ws, prefix_code (hf_counts t) ws) /\
  (hf_ac t = false -> Forall (fun s => s <= 15) (hf_symbols t)).

(** The last definition for a destination *)
Fixpoint last_huff (ts : list huff_def) (ac : bool) (dest : Z) : option huff_def :=
  match ts with
  | [] => None
  | t :: rest =>
      match last_huff rest ac dest with
      | Some u => Some u
      | None => if Bool.eqb (hf_ac t) ac && (hf_dest t =? dest) then Some t else None
      end
  end.

(** * Quantization tables (B.2.4.1), 8-bit precision *)
Record quant_def : Type := mkQuantDef {
  qd_dest : Z;            (* Tq *)
  qd_values : list Z }.   (* Q_k in zig-zag order *)

Definition quant_def_bytes (t : quant_def) : list Z := qd_dest t :: qd_values t.
Definition dqt_payload (ts : list quant_def) : list Z := flat_map quant_def_bytes ts.
Definition quant_def_legal (t : quant_def) : Prop :=
  0 <= qd_dest t <= 3 /\ length (qd_values t) = 64%nat /\ Forall byte (qd_values t).

Fixpoint last_quant (ts : list quant_def) (dest : Z) : option quant_def :=
  match ts with
  | [] => None
  | t :: rest =>
      match last_quant rest dest with
      | Some u => Some u
      | None => if qd_dest t =? dest then Some t else None
      end
  end.

(** * The zig-zag order (figure A.6), as a walk over the anti-diagonals *)

(** [zigzag u v] is the position of the coefficient in row [v], column [u] *)
Definition zigzag (row col : Z) : Z :=
  let d := row + col in
  if d <? 8 then
    d * (d + 1) / 2 + (if Z.even d then col else row)
  else
    let e := 14 - d in
    63 - (e * (e + 1) / 2 + (if Z.even d then 7 - col else 7 - row)).

(** A table sent in zig-zag order, in natural order: row [r], column [c] at index [8 r + c] *)
Definition natural (zz : list Z) : list Z :=
  map (fun i => nth (Z.to_nat (zigzag (i / 8) (i mod 8))) zz 0) (map Z.of_nat (seq 0 64)).
