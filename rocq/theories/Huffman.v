(** src/huffman.rs: construction of the Huffman decoding tables. *)
From Coq Require Import ZArith String List Bool.
From Verif Require Import Base.
Import ListNotations.
Local Open Scope Z_scope.

(** src/huffman.rs:9 *)
Definition HUFF_LOOKAHEAD : Z := 9.

(** src/huffman.rs:14-41 *)
Record hufftable : Type := mkHuff {
  h_maxcode : list Z;            (* [i32; 18] *)
  h_offset : list Z;             (* [i32; 18] *)
  h_lookup : list Z;             (* [i32; 512] *)
  h_ac_lookup : option (list Z); (* [i16; 512] *)
  h_bits : list Z;               (* [u8; 17] *)
  h_values : list Z              (* [u8; 256] *)
}.

(** src/huffman.rs:77-97: the code lengths in order, one per symbol.  The Rust array of
    257 entries is this list padded with zeros. *)
Definition huff_sizes (bits : list Z) : list Z :=
  flat_map (fun l => zrepeat l (zn bits l)) (map (fun i => i + 1) (zseq 16)).

(** src/huffman.rs:107-112, inner [while]: give consecutive codes to the symbols of
    length [si]; returns the codes, the remaining lengths and the next code. *)
Fixpoint code_run (sizes : list Z) (si code : Z) : list Z * list Z * Z :=
  match sizes with
  | s :: t => if s =? si then
                let '(cs, rest, c) := code_run t si (code + 1) in (code :: cs, rest, c)
              else ([], sizes, code)
  | [] => ([], [], code)
  end.

(** src/huffman.rs:105-124, outer [while].  [fuel] bounds the number of code lengths. *)
Fixpoint gen_codes (fuel : nat) (sizes : list Z) (si code : Z) (maxcode : list Z)
  : res (list Z * list Z) :=
  match sizes with
  | [] => Ok ([], maxcode)
  | _ =>
      match fuel with
      | O => Fuel
      | S f =>
          let '(cs, rest, code') := code_run sizes si code in
          let maxcode' := zset maxcode si (shl code' (16 - si)) in
          if 2 ^ si <=? code' then Err (EHuffmanDecode "Bad Huffman Table" [])
          else
            match gen_codes f rest (si + 1) (code' * 2) maxcode' with
            | Ok (cs', m) => Ok (cs ++ cs', m)%list
            | Err e => Err e
            | Panic p => Panic p
            | Fuel => Fuel
            end
      end
  end.

(** src/huffman.rs:127-143: offsets, and -1 in [maxcode] for unused lengths *)
Definition offset_step (bits codes : list Z) (st : list Z * list Z * Z) (l : Z)
  : list Z * list Z * Z :=
  let '(maxcode, offset, p) := st in
  if zn bits l =? 0 then (zset maxcode l (-1), offset, p)
  else (maxcode, zset offset l (p - zn codes p), p + zn bits l).

Definition fill_offsets (bits codes maxcode : list Z) : list Z * list Z :=
  let '(m, o, _) := fold_left (offset_step bits codes) (zseq 17) (maxcode, zrepeat 0 18, 0) in
  (* src/huffman.rs:145-147 *)
  (zset m 17 1048575, zset o 17 0).

(** [for _ in 0..n { table[start] = v; start += 1 }] *)
Fixpoint fill (n : nat) (table : list Z) (start v : Z) : res (list Z) :=
  match n with
  | O => Ok table
  | S n' => match zupd table start v with
            | Ok t => fill n' t (start + 1) v
            | Err e => Err e
            | Panic p => Panic p
            | Fuel => Fuel
            end
  end.

(** src/huffman.rs:158-178.  The two loops over lengths [1..=9] and the symbols of a
    length visit the symbols in order, so they are one loop over the (length, code, value)
    triples that stops at the first longer length. *)
Fixpoint fill_lookup (sizes codes values : list Z) (lookup : list Z) : res (list Z) :=
  match sizes, codes, values with
  | s :: sizes', c :: codes', v :: values' =>
      if HUFF_LOOKAHEAD <? s then Ok lookup
      else
        match fill (Z.to_nat (2 ^ (HUFF_LOOKAHEAD - s))) lookup (shl c (HUFF_LOOKAHEAD - s))
                   (Z.lor (shl s HUFF_LOOKAHEAD) v) with
        | Ok l => fill_lookup sizes' codes' values' l
        | r => r
        end
  | _, _, _ => Ok lookup
  end.

(** src/huffman.rs:182-200 *)
Fixpoint fill_fast (sizes codes : list Z) (i : Z) (fast : list Z) : res (list Z) :=
  match sizes, codes with
  | s :: sizes', c :: codes' =>
      if s <=? HUFF_LOOKAHEAD then
        match fill (Z.to_nat (2 ^ (HUFF_LOOKAHEAD - s))) fast (shl c (HUFF_LOOKAHEAD - s))
                   (i16 i) with
        | Ok f => fill_fast sizes' codes' (i + 1) f
        | r => r
        end
      else fill_fast sizes' codes' (i + 1) fast
  | _, _ => Ok fast
  end.

(** src/huffman.rs:206-255: one entry of the fast AC table; [fast_v] is [fast[i]] *)
Definition fast_ac_entry (sizes values : list Z) (is_progressive : bool) (i fast_v : Z) : Z :=
  if fast_v <? 255 then
    let rs := zn values fast_v in
    let run := Z.land (shr rs 4) 15 in
    let mag_bits := Z.land rs 15 in
    let len := zn sizes fast_v in
    if (mag_bits =? 0) && negb is_progressive then
      let new_run := if run =? 0 then 63 else run in
      i16 (shl new_run 4 + len)
    else if negb (mag_bits =? 0) && (len + mag_bits <=? HUFF_LOOKAHEAD) then
      let k0 := shr (Z.land (i16 (shl i len)) 511) (HUFF_LOOKAHEAD - mag_bits) in
      let m := 2 ^ (mag_bits - 1) in
      let k := if k0 <? m then i16 (k0 + (i16 (shl (-1) mag_bits) + 1)) else k0 in
      if (-128 <=? k) && (k <=? 127) then
        i16 (i16 (shl k 10) + shl run 4 + (len + mag_bits))
      else 0
    else 0
  else 0.

Definition fast_ac_table (sizes values fast : list Z) (is_progressive : bool) : list Z :=
  map (fun '(i, f) => fast_ac_entry sizes values is_progressive i f) (zip (zseq 512) fast).

(** src/huffman.rs:45-62 [new] and 73-276 [make_derived_table] *)
Definition huffman_new (bits values : list Z) (is_dc is_progressive : bool)
  : res hufftable :=
  let sizes := huff_sizes bits in
  if 256 <? zlen sizes then Panic "index out of bounds" (* huff_size[257] *)
  else
    let si := match sizes with s :: _ => s | [] => 0 end in
    match gen_codes 17 sizes si 0 (zrepeat 0 18) with
    | Ok (codes, maxcode0) =>
        let '(maxcode, offset) := fill_offsets bits codes maxcode0 in
        match fill_lookup sizes codes values
                (zrepeat (shl (HUFF_LOOKAHEAD + 1) HUFF_LOOKAHEAD) 512) with
        | Ok lookup =>
            if is_dc then
              (* src/huffman.rs:262-273 *)
              if existsb (fun v => 15 <? v) (firstn (length sizes) values)
              then Err (EHuffmanDecode "Bad Huffman Table" [])
              else Ok (mkHuff maxcode offset lookup None bits values)
            else
              match fill_fast sizes codes 0 (zrepeat 255 512) with
              | Ok fast =>
                  Ok (mkHuff maxcode offset lookup
                        (Some (fast_ac_table sizes values fast is_progressive)) bits values)
              | Err e => Err e
              | Panic p => Panic p
              | Fuel => Fuel
              end
        | Err e => Err e
        | Panic p => Panic p
        | Fuel => Fuel
        end
    | Err e => Err e
    | Panic p => Panic p
    | Fuel => Fuel
    end.
