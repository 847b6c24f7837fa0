(** Theorems: quantization tables (C14), Huffman table segments (C15), acceptance of Huffman
    tables (C16), Huffman decoding (C17), EXTEND (C18). *)
From Coq Require Import ZArith String List Bool Lia.
From Verif Require Import Base Types Huffman State Bitstream Headers Decoder
  SpecHuffman SpecSegments SpecExtend Obs.
From Verif Require TableSegments HuffmanProofs HuffDecode HuffmanPrefix ExtendFacts.
Import ListNotations.
Local Open Scope Z_scope.

(** C14.  A DQT segment with any list of 8-bit tables, parsed in any decoder state, leaves the
    bytes after it unread, puts into each destination the values of the last table sent to it
    in natural order, and changes nothing else. *)
Theorem C14_dqt : forall ts d rest,
  Forall quant_def_legal ts -> fits (dqt_payload ts) -> length (d_qt d) = 4%nat ->
  exists qt,
    parse_marker_inner DQT (mkHst d (segment (dqt_payload ts) ++ rest))
    = (Ok tt, mkHst (set_d_qt qt d) rest) /\
    length qt = 4%nat /\
    forall dest, 0 <= dest <= 3 ->
      qslot (set_d_qt qt d) dest
      = match last_quant ts dest with
        | None => qslot d dest
        | Some t => Some (natural (qd_values t))
        end.
Proof. exact (fun ts d rest Hl Hf H4 => TableSegments.parse_dqt_ok ts d rest Hl H4 Hf). Qed.
Print Assumptions C14_dqt.

(** Two tables, the first destination sent twice *)
Definition C14_tables : list quant_def :=
  [mkQuantDef 0 (map (fun i => i + 1) (zseq 64));
   mkQuantDef 2 (map (fun i => 100 - i) (zseq 64));
   mkQuantDef 0 (map (fun i => 3 * i) (zseq 64))].
Example C14_case :
  Forall quant_def_legal C14_tables /\ fits (dqt_payload C14_tables) /\
  length (d_qt (new Scalar)) = 4%nat /\
  (let '(r, h) := parse_marker_inner DQT
        (mkHst (new Scalar) (segment (dqt_payload C14_tables) ++ [255; 217])) in
   r = Ok tt /\ hd_rd h = [255; 217] /\
   match qslot (hd_dec h) 0 with Some q => firstn 10 q = [0; 3; 15; 18; 42; 45; 81; 84; 6; 12]
   | None => False end /\
   qslot (hd_dec h) 1 = None).
Proof.
  split; [|vm_compute; repeat split; congruence].
  assert (forall f, (forall i, 0 <= i < 64 -> byte (f i)) -> Forall byte (map f (zseq 64))) as H.
  { intros f Hf. apply Forall_forall. intros x Hx. apply in_map_iff in Hx as (i & <- & Hi).
    apply Hf. unfold zseq in Hi. apply in_map_iff in Hi as (k & <- & Hk).
    apply in_seq in Hk. lia. }
  repeat constructor; cbn [qd_dest qd_values]; try lia; try reflexivity;
    apply H; unfold byte; intros; lia.
Qed.

(** C15.  A DHT segment with any list of legal tables, parsed in any decoder state, leaves the
    bytes after it unread; each destination holds a table that implements the code last sent
    to it, the other destinations and the rest of the decoder are unchanged. *)
Theorem C15_dht : forall ts d rest,
  Forall huff_def_legal ts -> fits (dht_payload ts) -> tables4 d ->
  exists d',
    parse_marker_inner DHT (mkHst d (segment (dht_payload ts) ++ rest))
    = (Ok tt, mkHst d' rest) /\
    same_but_huff d d' /\ tables4 d' /\
    forall ac dest, 0 <= dest <= 3 ->
      match last_huff ts ac dest with
      | None => slot d' ac dest = slot d ac dest
      | Some t => exists h, slot d' ac dest = Some h /\
                            implements h (hf_counts t) (hf_symbols t)
      end.
Proof. exact (fun ts d rest Hl Hf H4 => TableSegments.parse_dht_ok ts d rest Hl H4 Hf). Qed.
Print Assumptions C15_dht.

(** Table K.3 of the standard (luminance DC) and a small AC table *)
Definition K3_counts : list Z := [0; 1; 5; 1; 1; 1; 1; 1; 1; 0; 0; 0; 0; 0; 0; 0].
Definition K3_symbols : list Z := [0; 1; 2; 3; 4; 5; 6; 7; 8; 9; 10; 11].
Definition ac_counts : list Z := [0; 2; 1; 1; 0; 0; 0; 0; 0; 0; 0; 2; 0; 0; 0; 0].
Definition ac_symbols : list Z := [1; 0; 17; 2; 240; 161].
Definition C15_tables : list huff_def :=
  [mkHuffDef false 1 K3_counts K3_symbols; mkHuffDef true 0 ac_counts ac_symbols].

Ltac solve_table :=
  repeat match goal with
         | |- table_def _ _ => unfold table_def
         | |- _ /\ _ => split
         | |- Forall _ _ => repeat constructor; lia
         | |- _ => reflexivity
         | |- _ => vm_compute; congruence
         end.
Lemma K3_def : table_def K3_counts K3_symbols.
Proof. solve_table. Qed.
Lemma ac_def : table_def ac_counts ac_symbols.
Proof. solve_table. Qed.

Example C15_case : Forall huff_def_legal C15_tables /\ fits (dht_payload C15_tables) /\
  tables4 (new Scalar).
Proof.
  split; [|vm_compute; repeat split; congruence].
  apply Forall_cons; [|apply Forall_cons; [|constructor]]; unfold huff_def_legal;
    cbn [hf_dest hf_counts hf_symbols hf_ac].
  - split; [lia|]. split; [apply K3_def|]. split.
    + eexists. apply HuffmanPrefix.canonical_prefix_code with K3_symbols; [apply K3_def|].
      vm_compute. reflexivity.
    + intros _. repeat constructor; lia.
  - split; [lia|]. split; [apply ac_def|]. split; [|discriminate].
    eexists. apply HuffmanPrefix.canonical_prefix_code with ac_symbols; [apply ac_def|].
    vm_compute. reflexivity.
Qed.

(** C16.  A DHT segment with one table definition (16 counts, matching symbol list of at most
    256 bytes) is accepted if and only if there is a prefix code with these numbers of
    codewords none of which consists of ones only and, for a DC table, no symbol exceeds 15. *)
Theorem C16_accept : forall t d rest,
  0 <= hf_dest t <= 3 -> table_def (hf_counts t) (hf_symbols t) ->
  ((exists d', parse_marker_inner DHT (mkHst d (segment (dht_payload [t]) ++ rest))
              = (Ok tt, mkHst d' rest)) <->
   ((exists ws, prefix_code (hf_counts t) ws) /\
    (hf_ac t = false -> Forall (fun s => s <= 15) (hf_symbols t)))).
Proof. exact TableSegments.parse_dht_one. Qed.
Print Assumptions C16_accept.

(** Both sides occur: table K.3 is accepted, two one-bit codewords are not *)
Example C16_case :
  table_def K3_counts K3_symbols /\
  table_def (2 :: repeat 0 15) [1; 2] /\
  (fst (parse_marker_inner DHT (mkHst (new Scalar)
      (segment (dht_payload [mkHuffDef false 0 K3_counts K3_symbols])))) = Ok tt) /\
  (fst (parse_marker_inner DHT (mkHst (new Scalar)
      (segment (dht_payload [mkHuffDef false 0 (2 :: repeat 0 15) [1; 2]]))))
   = Err (EHuffmanDecode "Bad Huffman Table" [])).
Proof.
  split; [apply K3_def|]. split; [|vm_compute; auto].
  solve_table.
Qed.

(** C17.  A table built from a legal definition decodes: if the next bits are the codeword of
    a symbol, that symbol is returned and exactly these bits are consumed; if no codeword
    matches, an error is returned and nothing is consumed.  ([b_aligned] holds the next 64
    bits of the scan, most significant first.) *)
Theorem C17_decode : forall counts symbols is_dc prog t,
  table_def counts symbols ->
  huffman_new (0 :: counts) (symbols ++ zrepeat 0 (256 - zlen symbols)) is_dc prog = Ok t ->
  implements t counts symbols.
Proof.
  exact TableSegments.new_implements.
Qed.
Print Assumptions C17_decode.

(** K.3 assigns 1111110 to symbol 9; it is followed here by 01... *)
Example C17_case :
  codeword K3_counts K3_symbols 7 126 9 /\
  match huffman_new (0 :: K3_counts) (K3_symbols ++ zrepeat 0 (256 - zlen K3_symbols)) true false with
  | Ok t =>
      let s := mkBst 0 (253 * 2 ^ 56) 20 None 0 0 0 0 0 [] in
      decode_huff t (zn (h_lookup t) (peek_bits 9 s)) s
      = (Ok 9, mkBst 0 (2 ^ 63) 13 None 0 0 0 0 0 [])
  | _ => False
  end.
Proof.
  split; [|vm_compute; reflexivity].
  exists 0. vm_compute. repeat split; try congruence; repeat constructor.
Qed.

(** C18.  The value of an [s]-bit magnitude field is the one given by EXTEND, and every
    non-zero value of at most 15 bits has exactly one encoding. *)
Theorem C18_extend : forall x s, 1 <= s <= 16 -> 0 <= x < 2 ^ s ->
  huff_extend x s = extend x s.
Proof. exact ExtendFacts.huff_extend_spec. Qed.
Print Assumptions C18_extend.

Theorem C18_unique : forall v, v <> 0 -> -32768 < v < 32768 ->
  exists s x, 1 <= s <= 15 /\ 0 <= x < 2 ^ s /\ huff_extend x s = v /\
    forall s' x', 1 <= s' <= 16 -> 0 <= x' < 2 ^ s' -> huff_extend x' s' = v ->
      s' = s /\ x' = x.
Proof. exact ExtendFacts.huff_extend_unique. Qed.
Print Assumptions C18_unique.

Example C18_case : huff_extend 5 4 = -10 /\ huff_extend 10 4 = 10 /\ extend 5 4 = -10.
Proof. vm_compute. auto. Qed.
