(** src/bitstream.rs: the bit reader and the entropy decoding of one block. *)
From Coq Require Import ZArith String List Bool.
From Verif Require Import Base Types Huffman.
Import ListNotations.
Local Open Scope Z_scope.
Local Open Scope m_scope.

(** src/bitstream.rs:94-114 [BitStream].  The model adds one field: [b_rd], the unread
    bytes of the [Cursor<Vec<u8>>] every method receives next to [&mut self]. *)
Record bst : Type := mkBst {
  b_buffer : Z;              (* u64 *)
  b_aligned : Z;             (* u64 *)
  b_left : Z;                (* u8 *)
  b_marker : option marker;
  b_ah : Z;                  (* successive_high *)
  b_al : Z;                  (* successive_low *)
  b_ss : Z;                  (* spec_start *)
  b_se : Z;                  (* spec_end *)
  b_eob : Z;                 (* eob_run, i32 *)
  b_rd : list Z }.

Definition set_bits (s : bst) (buffer aligned left : Z) (rd : list Z) : bst :=
  mkBst buffer aligned left (b_marker s) (b_ah s) (b_al s) (b_ss s) (b_se s) (b_eob s) rd.
Definition set_marker (s : bst) (m : option marker) : bst :=
  mkBst (b_buffer s) (b_aligned s) (b_left s) m (b_ah s) (b_al s) (b_ss s) (b_se s) (b_eob s)
        (b_rd s).
Definition set_left (s : bst) (n : Z) : bst :=
  mkBst (b_buffer s) (b_aligned s) n (b_marker s) (b_ah s) (b_al s) (b_ss s) (b_se s) (b_eob s)
        (b_rd s).
Definition set_eob (s : bst) (n : Z) : bst :=
  mkBst (b_buffer s) (b_aligned s) (b_left s) (b_marker s) (b_ah s) (b_al s) (b_ss s) (b_se s) n
        (b_rd s).
Definition set_rd (s : bst) (rd : list Z) : bst :=
  mkBst (b_buffer s) (b_aligned s) (b_left s) (b_marker s) (b_ah s) (b_al s) (b_ss s) (b_se s)
        (b_eob s) rd.

(** src/bitstream.rs:119-132 [new] and 136-149 [new_progressive] *)
Definition bst_new (rd : list Z) : bst := mkBst 0 0 0 None 0 0 0 0 0 rd.
Definition bst_new_progressive (ah al ss se : Z) (rd : list Z) : bst :=
  mkBst 0 0 0 None ah al ss se 0 rd.

(** src/bitstream.rs:660-666 [update_progressive_params] *)
Definition update_progressive_params (s : bst) (ah al ss se : Z) : bst :=
  mkBst (b_buffer s) (b_aligned s) (b_left s) (b_marker s) ah al ss se (b_eob s) (b_rd s).

(** src/bitstream.rs:673-680 [reset] *)
Definition bst_reset (s : bst) : bst :=
  mkBst 0 0 0 None (b_ah s) (b_al s) (b_ss s) (b_se s) 0 (b_rd s).

(** src/bitstream.rs:696-703 [read_u8]: zero past the end of the data *)
Definition read_u8 (rd : list Z) : Z * list Z :=
  match rd with [] => (0, []) | b :: t => (b, t) end.

(** src/bitstream.rs:705-710 [has_zero] and 712-717 [has_byte], on u32 *)
Definition not_u32 (v : Z) : Z := 4294967295 - v.
Definition has_zero (v : Z) : bool :=
  let k := 2139062143 (* 0x7F7F_7F7F *) in
  negb (not_u32 (Z.lor (Z.lor (u32 (Z.land v k + k)) v) k) =? 0).
Definition has_byte (b val : Z) : bool :=
  has_zero (Z.lxor b (u32 (4294967295 / 255 * val))).

(** src/bitstream.rs:185-188: skip the 0xFF bytes of a marker *)
Fixpoint skip_ff (rd : list Z) : Z * list Z :=
  match rd with
  | [] => (0, [])
  | b :: t => if b =? 255 then skip_ff t else (b, t)
  end.

(** src/bitstream.rs:166-213, the macro [refill!]; the result is [false] when it returns
    from the enclosing function with [Ok(false)]. *)
Definition refill_byte : M bst bool :=
  fun s =>
    let '(byte, rd) := read_u8 (b_rd s) in
    let buffer := Z.lor (u64 (shl (b_buffer s) 8)) byte in
    let left := b_left s + 8 in
    if byte =? 255 then
      let '(next0, rd0) := read_u8 rd in
      let '(next, rd') := if next0 =? 255 then skip_ff rd0 else (next0, rd0) in
      if next =? 0 then (Ok true, set_bits s buffer (b_aligned s) left rd')
      else
        let buffer' := shr buffer 8 in
        let left' := left - 8 in
        let aligned := if left' =? 0 then b_aligned s else u64 (shl buffer' (64 - left')) in
        let s' := set_bits s buffer' aligned left' rd' in
        match marker_from_u8 next with
        | Some m => (Ok false, set_marker s' (Some m))
        | None => (Err (EFormat "Unknown marker 0xFF" [next]), s')
        end
    else (Ok true, set_bits s buffer (b_aligned s) left rd).

(** src/bitstream.rs:252 *)
Definition realign (s : bst) : bst :=
  set_bits s (b_buffer s) (u64 (shl (b_buffer s) (64 - b_left s))) (b_left s) (b_rd s).

(** src/bitstream.rs:159-261 [refill]; the returned flag is never used by the callers *)
Definition refill_slow : M bst unit :=
  a <- refill_byte ;;
  if negb a then ret tt else
  b <- refill_byte ;;
  if negb b then ret tt else
  c <- refill_byte ;;
  if negb c then ret tt else
  d <- refill_byte ;;
  if negb d then ret tt else
  modify realign.

Definition refill_fast (s : bst) (msb : Z) (rd : list Z) : bst :=
  let left := b_left s + 32 in
  let buffer := Z.lor (u64 (shl (b_buffer s) 32)) msb in
  set_bits s buffer (u64 (shl buffer (64 - left))) left rd.

Definition refill : M bst unit :=
  fun s =>
    match b_marker s with
    | Some _ => (Ok tt, set_left s 63)
    | None =>
        if b_left s <=? 32 then
          match b_rd s with
          | b0 :: b1 :: b2 :: b3 :: ((_ :: _) as rd) => (* position + 4 < len *)
              let msb := b0 * 16777216 + b1 * 65536 + b2 * 256 + b3 in
              if has_byte msb 255 then refill_slow s
              else (Ok tt, refill_fast s msb rd)
          | _ => refill_slow s
          end
        else (Ok tt, s)
    end.

(** src/bitstream.rs:378-381 [peek_bits] *)
Definition peek_bits (n : Z) (s : bst) : Z := shr (b_aligned s) (64 - n).

(** src/bitstream.rs:385-389 [drop_bits] *)
Definition drop_bits (n : Z) (s : bst) : bst :=
  set_bits s (b_buffer s) (u64 (shl (b_aligned s) n)) (Z.max 0 (b_left s - n)) (b_rd s).

(** [u64::rotate_left] *)
Definition rotl64 (x n : Z) : Z := Z.lor (u64 (shl x n)) (shr x (64 - n)).

(** src/bitstream.rs:394-402 [get_bits] *)
Definition get_bits (n : Z) : M bst Z :=
  fun s =>
    let a := rotl64 (b_aligned s) n in
    (Ok (Z.land a (2 ^ n - 1)), set_bits s (b_buffer s) a (Z.max 0 (b_left s - n)) (b_rd s)).

(** src/bitstream.rs:436-442 [get_bit] *)
Definition get_bit : M bst Z :=
  fun s => (Ok (shr (b_aligned s) 63), drop_bits 1 s).

(** src/bitstream.rs:685-689 [huff_extend] *)
Definition huff_extend (x s : Z) : Z :=
  x + Z.land (shr (x - 2 ^ (s - 1)) 31) (shl (-1) s + 1).

(** src/bitstream.rs:65-70: the code length loop; [n] is [17 - len] so the loop is exact *)
Fixpoint huff_len (n : nat) (symbol : Z) (maxcode : list Z) (len : Z) : Z :=
  match n with
  | O => len
  | S n' => if symbol <? zn maxcode len then len else huff_len n' symbol maxcode (len + 1)
  end.

(** src/bitstream.rs:49-90, the macro [decode_huff!]; [entry] is the lookup table entry *)
Definition decode_huff (t : hufftable) (entry : Z) : M bst Z :=
  fun s =>
    let len := shr entry HUFF_LOOKAHEAD in
    if HUFF_LOOKAHEAD <? len then
      let sym := peek_bits 16 s in
      let len' := huff_len (Z.to_nat (17 - len)) sym (h_maxcode t) len in
      if len' =? 17 then
        (Err (EHuffmanDecode "Bad Huffman Code, corrupt JPEG" [sym]), s)
      else
        let idx := Z.land (shr sym (16 - len') + zn (h_offset t) len') 255 in
        (Ok (zn (h_values t) idx), drop_bits len' s)
    else (Ok (Z.land entry 511), drop_bits len s).

(** src/bitstream.rs:272-297 [decode_dc]; returns the new prediction *)
Definition decode_dc (t : hufftable) (dc : Z) : M bst Z :=
  s <- get ;;
  (if b_left s <? 16 then refill else ret tt) ;;;
  s <- get ;;
  sym <- decode_huff t (zn (h_lookup t) (peek_bits HUFF_LOOKAHEAD s)) ;;
  diff <- (if sym =? 0 then ret 0
           else r <- get_bits sym ;; ret (huff_extend r sym)) ;;
  ret (i32 (dc + diff)).

(** src/bitstream.rs:332-371: the AC loop of [decode_mcu_block].  [pos] grows by at least
    one per iteration, so 64 iterations suffice. *)
Fixpoint decode_ac (fuel : nat) (t : hufftable) (fast : list Z) (pos : Z) (block : list Z)
  : M bst (list Z) :=
  if 64 <=? pos then ret block
  else
    match fuel with
    | O => outoffuel
    | S f =>
        refill ;;;
        s <- get ;;
        let look := peek_bits HUFF_LOOKAHEAD s in
        let fac := zn fast look in
        if negb (fac =? 0) then
          let pos' := pos + Z.land (shr fac 4) 63 in
          let block' := zset block (Z.land (unzig (Z.min pos' 63)) 63) (shr fac 10) in
          modify (drop_bits (Z.land fac 15)) ;;;
          decode_ac f t fast (pos' + 1) block'
        else
          sym <- decode_huff t (zn (h_lookup t) look) ;;
          let r := shr sym 4 in
          let size := Z.land sym 15 in
          if negb (size =? 0) then
            let pos' := pos + r in
            bits <- get_bits size ;;
            let v := i16 (huff_extend bits size) in
            let block' := zset block (Z.land (unzig (Z.land pos' 63)) 63) v in
            decode_ac f t fast (pos' + 1) block'
          else if negb (r =? 15) then ret block
          else decode_ac f t fast (pos + 16) block
    end.

(** src/bitstream.rs:314-373 [decode_mcu_block].  [*dc_prediction] is the third component
    of the result: it keeps the new value when a later AC coefficient fails. *)
Definition decode_mcu_block (dct act : hufftable) (block : list Z) (dc : Z) (s : bst)
  : res (list Z) * bst * Z :=
  match h_ac_lookup act with
  | None => (Panic "ac_lookup", s, dc)
  | Some fast =>
      match decode_dc dct dc s with
      | (Ok dc', s') =>
          let block' := zset block 0 (i16 dc') in
          let '(r, s'') := decode_ac 64 act fast 1 block' s' in (r, s'', dc')
      | (Err e, s') => (Err e, s', dc)
      | (Panic p, s') => (Panic p, s', dc)
      | (Fuel, s') => (Fuel, s', dc)
      end
  end.

(** src/bitstream.rs:407-415 [decode_prog_dc_first]; returns the coefficient and the new
    prediction *)
Definition decode_prog_dc_first (t : hufftable) (dc : Z) : M bst (Z * Z) :=
  dc' <- decode_dc t dc ;;
  s <- get ;;
  ret (i16 (i16 dc' * i16 (shl 1 (b_al s))), dc').

(** src/bitstream.rs:417-433 [decode_prog_dc_refine] *)
Definition decode_prog_dc_refine (coef : Z) : M bst Z :=
  s <- get ;;
  (if b_left s <? 1 then refill else ret tt) ;;;
  b <- get_bit ;;
  s <- get ;;
  ret (if b =? 1 then i16 (coef + i16 (shl 1 (b_al s))) else coef).

(** src/bitstream.rs:454-504: the loop of [decode_mcu_ac_first].  [k] grows by at least one
    per iteration and the loop ends above [spec_end <= 255]. *)
Fixpoint ac_first_loop (fuel : nat) (t : hufftable) (fast : list Z) (shift k : Z)
  (block : list Z) : M bst (list Z) :=
  match fuel with
  | O => outoffuel
  | S f =>
      refill ;;;
      s <- get ;;
      let look := peek_bits HUFF_LOOKAHEAD s in
      let fac := zn fast look in
      if negb (fac =? 0) then
        let k' := k + Z.land (shr fac 4) 63 in
        let block' := zset block (Z.land (unzig (Z.min k' 63)) 63)
                        (i16 (shr fac 10 * i16 (shl 1 shift))) in
        modify (drop_bits (Z.land fac 15)) ;;;
        s <- get ;;
        if b_se s <? k' + 1 then ret block'
        else ac_first_loop f t fast shift (k' + 1) block'
      else
        sym <- decode_huff t (zn (h_lookup t) look) ;;
        let r := shr sym 4 in
        let size := Z.land sym 15 in
        if negb (size =? 0) then
          let k' := k + r in
          bits <- get_bits size ;;
          let v := i16 (i16 (huff_extend bits size) * i16 (shl 1 shift)) in
          let block' := zset block (Z.land (unzig (Z.land k' 63)) 63) v in
          s <- get ;;
          if b_se s <? k' + 1 then ret block'
          else ac_first_loop f t fast shift (k' + 1) block'
        else if negb (r =? 15) then
          bits <- get_bits r ;;
          modify (fun s => set_eob s (shl 1 r + bits - 1)) ;;;
          ret block
        else
          s <- get ;;
          if b_se s <? k + 16 then ret block
          else ac_first_loop f t fast shift (k + 16) block
  end.

(** src/bitstream.rs:443-506 [decode_mcu_ac_first] *)
Definition decode_mcu_ac_first (t : hufftable) (block : list Z) : M bst (list Z) :=
  match h_ac_lookup t with
  | None => panic "ac_lookup"
  | Some fast =>
      s <- get ;; ac_first_loop 257 t fast (b_al s) (b_ss s) block
  end.

(** src/bitstream.rs:573-583 and 634-644: apply one correction bit *)
Definition correct (coef bit : Z) : Z :=
  if Z.land coef bit =? 0 then
    if 0 <=? coef then i16 (coef + bit) else i16 (coef - bit)
  else coef.

(** src/bitstream.rs:567-602, ['advance_nonzero].  [k] is a [u8] in the code; it cannot
    wrap because [spec_end <= 63] (src/headers.rs:452). *)
Fixpoint advance_nonzero (fuel : nat) (bit k r : Z) (block : list Z)
  : M bst (Z * list Z) :=
  s <- get ;;
  if b_se s <? k then ret (k, block)
  else
    match fuel with
    | O => outoffuel
    | S f =>
        let i := Z.land (unzig (Z.land k 63)) 63 in
        let coef := zn block i in
        if negb (coef =? 0) then
          b <- get_bit ;;
          let block' := if b =? 1 then zset block i (correct coef bit) else block in
          s <- get ;;
          (if b_left s <? 1 then refill else ret tt) ;;;
          advance_nonzero f bit (k + 1) r block'
        else if r - 1 <? 0 then ret (k, block)
        else advance_nonzero f bit (k + 1) (r - 1) block
    end.

(** src/bitstream.rs:518-617, ['no_eob] *)
Fixpoint refine_no_eob (fuel : nat) (t : hufftable) (bit k : Z) (block : list Z)
  : M bst (Z * list Z) :=
  match fuel with
  | O => outoffuel
  | S f =>
      refill ;;;
      s <- get ;;
      sym <- decode_huff t (zn (h_lookup t) (peek_bits HUFF_LOOKAHEAD s)) ;;
      let r := shr sym 4 in
      let size := Z.land sym 15 in
      if (size =? 0) && negb (r =? 15) then
        bits <- get_bits r ;;
        modify (fun s => set_eob s (shl 1 r + bits)) ;;;
        ret (k, block)
      else if negb (size =? 0) && negb (size =? 1) then
        fail (EHuffmanDecode "Bad Huffman code, corrupt JPEG?" [])
      else
        v <- (if size =? 0 then ret 0
              else b <- get_bit ;; ret (if b =? 1 then bit else i16 (- bit))) ;;
        '(k', block') <- advance_nonzero 256 bit k r block ;;
        let block'' := if v =? 0 then block'
                       else zset block' (Z.land (unzig (Z.land k' 63)) 63) (i16 v) in
        s <- get ;;
        if b_se s <? k' + 1 then ret (k' + 1, block'')
        else refine_no_eob f t bit (k' + 1) block''
  end.

(** src/bitstream.rs:626-652 *)
Fixpoint refine_eob (fuel : nat) (bit k : Z) (block : list Z) : M bst (list Z) :=
  s <- get ;;
  if b_se s <? k then ret block
  else
    match fuel with
    | O => outoffuel
    | S f =>
        let i := Z.land (unzig (Z.land k 63)) 63 in
        let coef := zn block i in
        block' <- (if coef =? 0 then ret block
                   else b <- get_bit ;;
                        ret (if b =? 1 then zset block i (correct coef bit) else block)) ;;
        s <- get ;;
        (if b_left s <? 1 then refill else ret tt) ;;;
        refine_eob f bit (k + 1) block'
    end.

(** src/bitstream.rs:507-658 [decode_mcu_ac_refine].  An error leaves the block as it was on
    entry in the model; the caller's decode fails and the coefficients are unobservable. *)
Definition decode_mcu_ac_refine (t : hufftable) (block : list Z) : M bst (list Z) :=
  s <- get ;;
  let bit := i16 (shl 1 (b_al s)) in
  '(k, block1) <- (if b_eob s =? 0 then refine_no_eob 257 t bit (b_ss s) block
                   else ret (b_ss s, block)) ;;
  s <- get ;;
  if 0 <? b_eob s then
    block2 <- (if existsb (fun c => negb (c =? 0)) (tl block1)
               then refill ;;; refine_eob 256 bit k block1
               else ret block1) ;;
    modify (fun s => set_eob s (b_eob s - 1)) ;;;
    ret block2
  else ret block1.
