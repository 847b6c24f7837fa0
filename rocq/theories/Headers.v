(** src/headers.rs and the header loop of src/decoder.rs. *)
From Coq Require Import ZArith String List Bool.
From Verif Require Import Base Types Huffman State.
Import ListNotations.
Local Open Scope Z_scope.
Local Open Scope m_scope.

(** The decoder together with the unread bytes of its input. *)
Record hst : Type := mkHst { hd_dec : decoder; hd_rd : list Z }.

Definition getd : M hst decoder := fun s => (Ok (hd_dec s), s).
Definition modd (f : decoder -> decoder) : M hst unit :=
  fun s => (Ok tt, mkHst (f (hd_dec s)) (hd_rd s)).

(** src/misc.rs:251-262 [read_byte].  [read_exact] on an exhausted [Cursor] fails with an
    I/O error, which src/errors.rs converts to [DecodeErrors::Format]. *)
Definition rd_byte : M hst Z :=
  fun s => match hd_rd s with
           | b :: t => (Ok b, mkHst (hd_dec s) t)
           | [] => (Err (EFormat "failed to fill whole buffer" []), s)
           end.

(** src/misc.rs:282-296 [read_u16_be] *)
Definition rd_u16 : M hst Z :=
  fun s => match hd_rd s with
           | a :: b :: t => (Ok (a * 256 + b), mkHst (hd_dec s) t)
           | _ => (Err EExhaustedData, mkHst (hd_dec s) [])
           end.

(** [r.map_err(|_| e)] *)
Definition map_err {S A} (e : err) (m : M S A) : M S A :=
  fun s => match m s with
           | (Err _, s') => (Err e, s')
           | x => x
           end.

(** [buf.read_exact(&mut tmp[..n]).map_err(|_| e)] *)
Definition rd_exact (n : Z) (e : err) : M hst (list Z) :=
  fun s => match slice (hd_rd s) 0 n with
           | Some l => (Ok l, mkHst (hd_dec s) (skipn (Z.to_nat n) (hd_rd s)))
           | None => (Err e, s)
           end.

(** [BufRead::consume] of a [Cursor]: the position may run past the end *)
Definition consume (n : Z) : M hst unit :=
  fun s => (Ok tt, mkHst (hd_dec s) (skipn (Z.to_nat n) (hd_rd s))).

(** src/headers.rs:32-111, the [while] of [parse_huffman].  Every iteration reads at least
    one byte, so [fuel] is the number of unread bytes plus one. *)
Fixpoint dht_loop (fuel : nat) (len : Z) : M hst Z :=
  if len <=? 16 then ret len
  else
    match fuel with
    | O => outoffuel
    | S f =>
        info <- rd_byte ;;
        let dc_or_ac := Z.land (shr info 4) 15 in
        let index := Z.land info 15 in
        if 4 <=? index then fail (EHuffmanDecode "Invalid DHT index" [index])
        else if 1 <? dc_or_ac then fail (EHuffmanDecode "Invalid DHT position" [dc_or_ac])
        else
          counts <- rd_exact 16 (EHuffmanDecode "Could not read bytes into the buffer" []) ;;
          let len1 := len - 17 in
          let sum := fold_left Z.add counts 0 in
          if 256 <? sum then
            fail (EHuffmanDecode "Encountered Huffman table with excessive length in DHT" [])
          else if len1 <? sum then
            fail (EHuffmanDecode "Excessive Huffman table" [sum; len1])
          else
            symbols <- rd_exact sum (EFormat "Could not read symbols into the buffer" []) ;;
            d <- getd ;;
            let values := (symbols ++ zrepeat 0 (256 - sum))%list in
            t <- lift (huffman_new (0 :: counts) values (dc_or_ac =? 0) (d_prog d)) ;;
            (if dc_or_ac =? 0
             then modd (fun d => set_d_dcts (zset (d_dcts d) index (Some t)) d)
             else modd (fun d => set_d_acts (zset (d_acts d) index (Some t)) d)) ;;;
            dht_loop f (len1 - sum)
    end.

Definition fuel_of : M hst nat := fun s => (Ok (S (length (hd_rd s))), s).

(** src/headers.rs:18-121 [parse_huffman] *)
Definition parse_huffman : M hst unit :=
  len <- map_err (EFormatStatic "Could not read Huffman length from image") rd_u16 ;;
  if len <? 2 then fail (EFormatStatic "Invalid Huffman length in image")
  else
    fuel <- fuel_of ;;
    rest <- dht_loop fuel (len - 2) ;;
    if 0 <? rest then fail (EHuffmanDecode "Bogus Huffman table definition" [])
    else ret tt.

(** src/headers.rs:533-543 [un_zig_zag] *)
Definition un_zig_zag (a : list Z) : list Z :=
  fold_left (fun out i => zset out (unzig i) (zn a i)) (zseq 64) (zrepeat 0 64).

(** src/headers.rs:140-193, the [while] of [parse_dqt] *)
Fixpoint dqt_loop (fuel : nat) (len : Z) : M hst unit :=
  if len <=? 0 then ret tt
  else
    match fuel with
    | O => outoffuel
    | S f =>
        info <- rd_byte ;;
        let precision := shr info 4 in
        let position := Z.land info 15 in
        let size := 64 * (precision + 1) in
        if len <? size + 1 then fail (EDqtError "Invalid QT table bytes left" [len; size + 1])
        else if precision =? 0 then
          values <- rd_exact 64 (EFormat "Could not read symbols into the buffer" []) ;;
          if 4 <=? position then fail (EDqtError "Too large table position for QT" [position])
          else
            modd (fun d => set_d_qt (zset (d_qt d) position (Some (un_zig_zag values))) d) ;;;
            dqt_loop f (len - 65)
        else if precision =? 1 then
          fail (EDqtError "Support for 16 bit quantization table is not complete" [])
        else fail (EDqtError "Expected QT precision value of either 0 or 1" [precision])
    end.

(** src/headers.rs:125-196 [parse_dqt] *)
Definition parse_dqt : M hst unit :=
  len <- map_err (EFormat "Could not read  DQT length" []) rd_u16 ;;
  if len <? 2 then fail (EDqtError "Invalid DQT length. Length should be greater than 2" [])
  else
    fuel <- fuel_of ;;
    dqt_loop fuel (len - 2).

(** src/headers.rs:293-302: read the component specifications *)
Fixpoint read_components (n : nat) : M hst (list component) :=
  match n with
  | O => ret []
  | S n' =>
      temp <- rd_exact 3 (EFormat "Could not read component data" []) ;;
      c <- lift (component_from (zn temp 0) (zn temp 1) (zn temp 2)) ;;
      rest <- read_components n' ;;
      ret (c :: rest)
  end.

(** src/headers.rs:306-339: one iteration of the second component loop, except for the
    quantization table of the component itself *)
Definition sof_geometry (c : component) (d : decoder) : decoder :=
  let hmax := Z.max (d_hmax d) (c_h c) in
  let vmax := Z.max (d_vmax d) (c_v c) in
  let mcuw := hmax * 8 in
  let mcuh := vmax * 8 in
  let d := set_d_vmax vmax (set_d_hmax hmax d) in
  let d := set_d_mcuh mcuh (set_d_mcuw mcuw d) in
  let d := set_d_mcux ((i_width (d_info d) + mcuw - 1) / mcuw) d in
  let d := set_d_mcuy ((i_height (d_info d) + mcuh - 1) / mcuh) d in
  if negb (hmax =? 1) || negb (vmax =? 1) then set_d_inter true d else d.

Fixpoint sof_components (cs : list component) : M hst (list component) :=
  match cs with
  | [] => ret []
  | c :: rest =>
      modd (sof_geometry c) ;;;
      d <- getd ;;
      match nth (Z.to_nat (c_qn c)) (d_qt d) None with
      | None => fail (EDqtError "No quantization table for component" [c_id c])
      | Some qt =>
          let c' := set_c_stride (c_stride c * (d_mcux d * 8)) (set_c_qt qt c) in
          rest' <- sof_components rest ;;
          ret (c' :: rest')
      end
  end.

(** src/headers.rs:200-347 [parse_start_of_frame] *)
Definition parse_start_of_frame (sof : sofmarker) : M hst unit :=
  length <- map_err (EFormat "Cannot read SOF length, exhausted data" []) rd_u16 ;;
  precision <- rd_byte ;;
  if negb (precision =? 8) then
    fail (ESofError "The library can only parse 8-bit images" [precision])
  else
  modd (fun d => set_d_info (set_i_density precision (d_info d)) d) ;;;
  height <- map_err (EFormat "Cannot read image height, exhausted data" []) rd_u16 ;;
  modd (fun d => set_d_info (set_i_height height (d_info d)) d) ;;;
  width <- map_err (EFormat "Cannot read image width, exhausted data" []) rd_u16 ;;
  modd (fun d => set_d_info (set_i_width width (d_info d)) d) ;;;
  d <- getd ;;
  if o_max_width (d_opt d) <? width then
    fail (EFormat "Image width greater than width limit" [width; o_max_width (d_opt d)])
  else if o_max_height (d_opt d) <? height then
    fail (EFormat "Image height greater than height limit" [height; o_max_height (d_opt d)])
  else if (width =? 0) || (height =? 0) then fail EZeroError
  else
  n <- rd_byte ;;
  if n =? 0 then fail (ESofError "Number of components cannot be zero." [])
  else
  let expected := 8 + 3 * n in
  if negb (length =? expected) then
    fail (ESofError "Length of start of frame differs from expected" [expected; length])
  else
  (if n =? 1
   then modd (fun d => set_d_opt (set_out_colorspace (d_opt d) GRAYSCALE)
                                 (set_d_incs GRAYSCALE d))
   else ret tt) ;;;
  modd (fun d => set_d_info (set_i_comps n (d_info d)) d) ;;;
  comps <- read_components (Z.to_nat n) ;;
  modd (fun d => set_d_info (set_i_sof sof (d_info d)) d) ;;;
  comps' <- sof_components comps ;;
  modd (fun d => set_d_comps comps' (set_d_qt [None; None; None; None] d)).

(** src/headers.rs:414-424: [while j < image.info.components]; [n] bounds the iterations and
    the result is [None] for [j == image.info.components] *)
Fixpoint find_component (n : nat) (j : Z) (comps : list component) (id : Z)
  : res (option Z) :=
  match n with
  | O => Ok None
  | S n' =>
      match zget comps j with
      | None => Panic "index out of bounds"
      | Some c => if c_id c =? id then Ok (Some j) else find_component n' (j + 1) comps id
      end
  end.

(** src/headers.rs:388-438 *)
Fixpoint sos_components (n : nat) (i : Z) (seen : list bool) : M hst unit :=
  match n with
  | O => ret tt
  | S n' =>
      id <- rd_byte ;;
      d <- getd ;;
      if zlen (d_comps d) <? id then
        fail (ESofError "Too large component ID" [id; zlen (d_comps d)])
      else
        dup <- lift (at_ seen id) ;;
        if (dup : bool) then fail (ESofError "Duplicate ID seen twice in the same component" [id])
        else
          let seen' := zset seen id true in
          y <- rd_byte ;;
          j <- lift (find_component (Z.to_nat (i_comps (d_info d))) 0 (d_comps d) id) ;;
          match j with
          | None => fail (ESofError "Invalid component id" [id; zlen (d_comps d)])
          | Some j =>
              c <- lift (at_ (d_comps d) j) ;;
              let c' := set_c_act (Z.land y 15) (set_c_dct (Z.land (shr y 4) 15) c) in
              modd (fun d => set_d_zorder (zset (d_zorder d) i j)
                               (set_d_comps (zset (d_comps d) j c') d)) ;;;
              sos_components n' (i + 1) seen'
          end
  end.

(** src/headers.rs:350-477 [parse_sos] *)
Definition parse_sos : M hst unit :=
  ls <- rd_u16 ;;
  ns <- rd_byte ;;
  modd (set_d_nscans ns) ;;;
  if negb (ls =? 6 + 2 * ns) then fail (ESosError "Bad SOS length,corrupt jpeg" [])
  else if negb ((1 <=? ns) && (ns <? 4)) then
    fail (ESosError "Number of components in start of scan" [ns])
  else
  d <- getd ;;
  if i_comps (d_info d) =? 0 then fail (ESofError "Number of components cannot be zero." [])
  else
  sos_components (Z.to_nat ns) 0 [false; false; false; false] ;;;
  ss <- rd_byte ;;
  modd (set_d_ss (Z.land ss 63)) ;;;
  se <- rd_byte ;;
  modd (set_d_se (Z.land se 63)) ;;;
  ba <- rd_byte ;;
  let ah := shr ba 4 in
  modd (set_d_ah ah) ;;;
  if 13 <? ah then
    d <- getd ;; fail (ESofError "Invalid Ah parameter" [d_al d])
  else
  let al := Z.land ba 15 in
  modd (set_d_al al) ;;;
  if 13 <? al then fail (ESofError "Invalid Al parameter" [al])
  else ret tt.

(** src/decoder.rs:397-407 and 278-289: skip a segment *)
Definition skip_segment (msg : string) : M hst unit :=
  length <- rd_u16 ;;
  if length <? 2 then fail (EFormat msg [length]) else consume (length - 2).

(** src/errors.rs:191-204 [UnsupportedSchemes::from_int].  The constants it compares with are
    two-byte markers (0xFFC1 ...), the argument is the [n] of [SOF(n)]; no match is possible
    for the values [Marker] carries. *)
Definition unsupported_from_int (n : Z) : option Z :=
  if (n =? 193) || (n =? 195) || (n =? 201) || (n =? 202) || (n =? 203) then Some n else None.

(** src/decoder.rs:304-411 [parse_marker_inner] *)
Definition parse_marker_inner (m : marker) : M hst unit :=
  match m with
  | SOF 0 => parse_start_of_frame BaselineDct
  | SOF 2 => modd (set_d_prog true) ;;; parse_start_of_frame ProgressiveDctHuffman
  | SOF v =>
      match unsupported_from_int v with
      | Some f => fail (EUnsupported f)
      | None => fail (EFormat "Unsupported image format" [])
      end
  | DQT => parse_dqt
  | DHT => parse_huffman
  | SOS => parse_sos
  | EOI => fail (EFormat "Premature End of image" [])
  | DAC => fail (EFormat "Parsing of header DAC is not supported" [])
  | DNL => fail (EFormat "Parsing of header DNL is not supported" [])
  | DRI =>
      len <- rd_u16 ;;
      if negb (len =? 4) then fail (EFormat "Bad DRI length, Corrupt JPEG" [])
      else
        n <- rd_u16 ;;
        modd (fun d => set_d_todo n (set_d_ri n d))
  | _ => skip_segment "Found a marker with invalid length"
  end.

(** src/decoder.rs:253-302, the header loop.  Every iteration reads at least one byte. *)
Fixpoint header_loop (fuel : nat) (last before : Z) : M hst unit :=
  match fuel with
  | O => outoffuel
  | S f =>
      m <- rd_byte ;;
      let next (before : Z) : M hst unit :=
        d <- getd ;;
        if o_strict (d_opt d) && (3 <? before + 1) then
          fail (EFormatStatic "[strict-mode]: Extra bytes between headers")
        else header_loop f m (before + 1) in
      if last =? 255 then
        match marker_from_u8 m with
        | Some n =>
            parse_marker_inner n ;;;
            if is_sos n then ret tt else next 0
        | None => skip_segment "Found a marker with invalid length " ;;; next 0
        end
      else next before
  end.

(** src/decoder.rs:239-303 [decode_headers_internal] *)
Definition decode_headers : M hst unit :=
  magic <- rd_u16 ;;
  if negb (magic =? 65496) then fail (EIllegalMagicBytes magic)
  else
    fuel <- fuel_of ;;
    header_loop fuel 0 0.
