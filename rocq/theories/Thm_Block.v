(** Theorems about decoding one block of coefficients (C21, C22). *)
From Coq Require Import ZArith String List Bool Lia.
From Verif Require Import Base Types Huffman Bitstream SpecHuffman SpecExtend SpecSegments SpecBits
  SpecBlock Obs ExTools Block BlockSafe.
Import ListNotations.
Local Open Scope Z_scope.

(** C21.  Any number of blocks encoded one after the other, starting at any bit position of a
    scan reached by a legal sequence of reads, decode to the blocks.  Missing from the full
    statement: AC codes in which a symbol of size 6 or more together with its additional bits
    is at most 9 bits long, and DC differences whose code and additional bits need more than 16
    bits; both fail, see below. *)
Theorem C21_roundtrip_partial : forall dcc dcs acc acs dct act rd os vs s pred blocks b tail,
  table_def dcc dcs -> table_def acc acs ->
  huffman_new (0 :: dcc) (dcs ++ zrepeat 0 (256 - zlen dcs)) true false = Ok dct ->
  huffman_new (0 :: acc) (acs ++ zrepeat 0 (256 - zlen acs)) false false = Ok act ->
  (forall l c v, codeword acc acs l c v -> 6 <= v mod 16 -> 9 < Z.of_nat l + v mod 16) ->
  Forall byte rd ->
  (match snd (entropy rd) with AtEnd => True | AtMarker c _ => marker_from_u8 c <> None end) ->
  legal_ops 0 (length (scan_bits rd)) os -> run_ops os (bst_new rd) = (Ok vs, s) ->
  snd (spec_ops os (scan_bits rd)) = (b ++ tail)%list ->
  encode_blocks (code_of dcc dcs) (code_of acc acs) pred blocks = Some b ->
  with_pred (fun p zz => baseline_block p zz /\
     let k := category (hd 0 zz - p) in code_len (code_of dcc dcs) k + k <= 16) pred blocks ->
  run_blocks dct act (length blocks) pred s = Ok (map natural blocks).
Proof. exact C21_lemma. Qed.
Print Assumptions C21_roundtrip_partial.

(** The luminance tables of T.81 K.3 *)
Definition k3_dcc : list Z := [0; 1; 5; 1; 1; 1; 1; 1; 1; 0; 0; 0; 0; 0; 0; 0].
Definition k3_dcs : list Z := [0; 1; 2; 3; 4; 5; 6; 7; 8; 9; 10; 11].
Definition k3_acc : list Z := [0; 2; 1; 3; 3; 2; 4; 3; 5; 5; 4; 4; 0; 0; 1; 125].
Definition k3_acs : list Z :=
  [1; 2; 3; 0; 4; 17; 5; 18; 33; 49; 65; 6; 19; 81; 97; 7; 34; 113; 20; 50; 129; 145; 161; 8; 35;
   66; 177; 193; 21; 82; 209; 240; 36; 51; 98; 114; 130; 9; 10; 22; 23; 24; 25; 26; 37; 38; 39;
   40; 41; 42; 52; 53; 54; 55; 56; 57; 58; 67; 68; 69; 70; 71; 72; 73; 74; 83; 84; 85; 86; 87; 88;
   89; 90; 99; 100; 101; 102; 103; 104; 105; 106; 115; 116; 117; 118; 119; 120; 121; 122; 131; 132;
   133; 134; 135; 136; 137; 138; 146; 147; 148; 149; 150; 151; 152; 153; 154; 162; 163; 164; 165;
   166; 167; 168; 169; 170; 178; 179; 180; 181; 182; 183; 184; 185; 186; 194; 195; 196; 197; 198;
   199; 200; 201; 202; 210; 211; 212; 213; 214; 215; 216; 217; 218; 225; 226; 227; 228; 229; 230;
   231; 232; 233; 234; 241; 242; 243; 244; 245; 246; 247; 248; 249; 250].

(** Two blocks with a 19-zero run, large coefficients and a coefficient at the end *)
Definition ex_blocks : list (list Z) :=
  [([-37; 1; 0; -2; 1023] ++ repeat 0 19 ++ [-5; 400] ++ repeat 0 37 ++ [1])%list;
   ([-300; 0; 7] ++ repeat 0 61)%list].
Definition ex_bits : list bool :=
  match encode_blocks (code_of k3_dcc k3_dcs) (code_of k3_acc k3_acs) 0 ex_blocks with
  | Some b => b | None => [] end.
(** They start three bits into the scan *)
Definition ex_scan : list Z := (stuff (pack ([true; false; true] ++ ex_bits)) ++ [255; 217])%list.

Example C21_ex :
  table_def k3_dcc k3_dcs /\ table_def k3_acc k3_acs /\
  (forall l c v, codeword k3_acc k3_acs l c v -> 6 <= v mod 16 -> 9 < Z.of_nat l + v mod 16) /\
  Forall byte ex_scan /\ snd (entropy ex_scan) = AtMarker 217 [] /\
  legal_ops 0 (length (scan_bits ex_scan)) [RRefill; RGet 3] /\
  firstn (length ex_bits) (snd (spec_ops [RRefill; RGet 3] (scan_bits ex_scan))) = ex_bits /\
  encode_blocks (code_of k3_dcc k3_dcs) (code_of k3_acc k3_acs) 0 ex_blocks = Some ex_bits /\
  with_pred (fun p zz => baseline_block p zz /\
     let k := category (hd 0 zz - p) in code_len (code_of k3_dcc k3_dcs) k + k <= 16) 0 ex_blocks /\
  match huffman_new (0 :: k3_dcc) (k3_dcs ++ zrepeat 0 (256 - zlen k3_dcs)) true false,
        huffman_new (0 :: k3_acc) (k3_acs ++ zrepeat 0 (256 - zlen k3_acs)) false false,
        run_ops [RRefill; RGet 3] (bst_new ex_scan) with
  | Ok dct, Ok act, (Ok [v], s) => v = 5 /\ run_blocks dct act 2 0 s = Ok (map natural ex_blocks)
  | _, _, _ => False
  end.
Proof.
  split; [|split; [|split; [|split; [|split; [|split; [|split; [|split; [|split]]]]]]]].
  - apply table_defb_ok. vm_compute. reflexivity.
  - apply table_defb_ok. vm_compute. reflexivity.
  - apply (codes_long k3_acc k3_acs); vm_compute; reflexivity.
  - apply forallb_byte. vm_compute. reflexivity.
  - vm_compute. reflexivity.
  - vm_compute. lia.
  - vm_compute. reflexivity.
  - vm_compute. reflexivity.
  - cbn. repeat split; try (vm_compute; discriminate); repeat constructor; vm_compute; discriminate.
  - vm_compute. auto.
Qed.

(** The two excluded cases are real: with every other hypothesis met the blocks differ. *)
Definition wrong_blocks (dcc dcs acc acs : list Z) (blocks : list (list Z)) : Prop :=
  table_def dcc dcs /\ table_def acc acs /\ with_pred baseline_block 0 blocks /\
  match encode_blocks (code_of dcc dcs) (code_of acc acs) 0 blocks,
        huffman_new (0 :: dcc) (dcs ++ zrepeat 0 (256 - zlen dcs)) true false,
        huffman_new (0 :: acc) (acs ++ zrepeat 0 (256 - zlen acs)) false false with
  | Some b, Ok dct, Ok act =>
      run_blocks dct act (length blocks) 0 (bst_new (stuff (pack b) ++ [255; 217]))
      <> Ok (map natural blocks)
  | _, _, _ => False
  end.

(** A two-bit code for the symbol 0x06: the coefficient 40 comes out as -24 *)
Theorem C21_fast_refuted : exists dcc dcs acc acs blocks, wrong_blocks dcc dcs acc acs blocks.
Proof.
  exists (1 :: repeat 0 15), [0], (1 :: 1 :: repeat 0 14), [0; 6], [0 :: 40 :: repeat 0 62].
  unfold wrong_blocks. split; [|split; [|split]].
  - apply table_defb_ok. vm_compute. reflexivity.
  - apply table_defb_ok. vm_compute. reflexivity.
  - cbn. repeat split; try (vm_compute; discriminate); repeat constructor; vm_compute; discriminate.
  - vm_compute. discriminate.
Qed.
Print Assumptions C21_fast_refuted.

(** A DC difference of 1500 whose code is 9 bits long, met with 17 bits in the window *)
Theorem C21_dc_refuted : exists dcc dcs acc acs blocks, wrong_blocks dcc dcs acc acs blocks /\
  (forall l c v, codeword acc acs l c v -> 6 <= v mod 16 -> 9 < Z.of_nat l + v mod 16).
Proof.
  exists ([1; 0; 0; 0; 0; 0; 0; 0; 1] ++ repeat 0 7)%list, [0; 11], (1 :: repeat 0 14 ++ [1])%list, [1; 0],
    [(0 :: repeat 1 15 ++ repeat 0 48)%list; (1500 :: repeat 0 63)%list].
  split; [unfold wrong_blocks; split; [|split; [|split]]|].
  - apply table_defb_ok. vm_compute. reflexivity.
  - apply table_defb_ok. vm_compute. reflexivity.
  - cbn. repeat split; try (vm_compute; discriminate); repeat constructor; vm_compute; discriminate.
  - vm_compute. discriminate.
  - apply codes_long; vm_compute; reflexivity.
Qed.
Print Assumptions C21_dc_refuted.

(** C22.  Whatever the scan bytes, the tables and the state of the reader (whose window is a
    64-bit word), baseline block decoding gives 64 16-bit values or an error. *)
Theorem C22_baseline : forall dbits dsyms abits asyms p p' dct act block dc s,
  zlen dsyms = zlen (huff_sizes dbits) -> Forall byte dsyms ->
  zlen asyms <= 256 -> Forall byte asyms ->
  huffman_new dbits (dsyms ++ zrepeat 0 (256 - zlen dsyms)) true p = Ok dct ->
  huffman_new abits (asyms ++ zrepeat 0 (256 - zlen asyms)) false p' = Ok act ->
  0 <= b_aligned s < 2 ^ 64 -> block64 block ->
  decoded block64 (fst (fst (decode_mcu_block dct act block dc s))).
Proof. exact C22_baseline_lemma. Qed.
Print Assumptions C22_baseline.

(** The four progressive decoders, for every spectral band inside a block *)
Theorem C22_progressive : forall dbits dsyms abits asyms p p' dct act block coef dc s,
  zlen dsyms = zlen (huff_sizes dbits) -> Forall byte dsyms ->
  zlen asyms <= 256 -> Forall byte asyms ->
  huffman_new dbits (dsyms ++ zrepeat 0 (256 - zlen dsyms)) true p = Ok dct ->
  huffman_new abits (asyms ++ zrepeat 0 (256 - zlen asyms)) false p' = Ok act ->
  0 <= b_aligned s < 2 ^ 64 -> 0 <= b_ss s -> b_se s <= 63 ->
  block64 block -> -32768 <= coef <= 32767 ->
  decoded (fun x => -32768 <= fst x <= 32767) (fst (decode_prog_dc_first dct dc s)) /\
  decoded (fun x => -32768 <= x <= 32767) (fst (decode_prog_dc_refine coef s)) /\
  decoded block64 (fst (decode_mcu_ac_first act block s)) /\
  decoded block64 (fst (decode_mcu_ac_refine act block s)).
Proof. exact C22_progressive_lemma. Qed.
Print Assumptions C22_progressive.

(** The model reads the tables with a total function; no index leaves the Rust arrays. *)
Theorem C22_accesses : forall bits syms is_dc prog t s,
  zlen syms <= 256 -> Forall byte syms ->
  huffman_new bits (syms ++ zrepeat 0 (256 - zlen syms)) is_dc prog = Ok t ->
  0 <= b_aligned s < 2 ^ 64 ->
  let i := peek_bits 9 s in
  0 <= i < zlen (h_lookup t) /\
  (forall l, shr (zn (h_lookup t) i) 9 <= l <= 17 ->
     0 <= l < zlen (h_maxcode t) /\ 0 <= l < zlen (h_offset t)) /\
  zlen (h_values t) = 256 /\
  (match h_ac_lookup t with Some f => 0 <= i < zlen f /\ is_dc = false | None => is_dc = true end).
Proof. exact C22_accesses_lemma. Qed.
Print Assumptions C22_accesses.

(** Garbage: one block decodes to something, the next byte string is an error. *)
Definition ex_state (rd : list Z) : bst := set_bits (bst_new rd) 0 (2 ^ 63 + 12345) 7 rd.
Example C22_ex :
  zlen k3_dcs = zlen (huff_sizes (0 :: k3_dcc)) /\ Forall byte k3_dcs /\
  zlen k3_acs <= 256 /\ Forall byte k3_acs /\
  0 <= b_aligned (ex_state []) < 2 ^ 64 /\ block64 (zrepeat 0 64) /\
  match huffman_new (0 :: k3_dcc) (k3_dcs ++ zrepeat 0 (256 - zlen k3_dcs)) true false,
        huffman_new (0 :: k3_acc) (k3_acs ++ zrepeat 0 (256 - zlen k3_acs)) false false with
  | Ok dct, Ok act =>
      (exists b, fst (fst (decode_mcu_block dct act (zrepeat 0 64) 3 (ex_state [1; 2; 3; 4; 5; 6; 7]))) = Ok b) /\
      (exists e, fst (fst (decode_mcu_block dct act (zrepeat 0 64) 3
                   (ex_state [255; 0; 255; 0; 255; 0; 255; 0; 255; 0; 255; 0]))) = Err e)
  | _, _ => False
  end.
Proof.
  split; [vm_compute; reflexivity|]. split; [apply forallb_byte; vm_compute; reflexivity|].
  split; [vm_compute; discriminate|]. split; [apply forallb_byte; vm_compute; reflexivity|].
  split; [vm_compute; split; [discriminate|reflexivity]|].
  split; [split; [reflexivity|repeat constructor; discriminate]|].
  vm_compute. split; eexists; reflexivity.
Qed.
