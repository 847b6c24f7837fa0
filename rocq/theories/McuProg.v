(** src/mcu_prog.rs: decoding of progressive images. *)
From Coq Require Import ZArith String List Bool.
From Verif Require Import Base Types Huffman State Bitstream Headers Worker Mcu.
Import ListNotations.
Local Open Scope Z_scope.
Local Open Scope m_scope.

(** The decoder, the bit stream (with the reader inside) and the coefficients of the whole
    image, one list per component. *)
Record pst : Type := mkPst { p_dec : decoder; p_st : bst; p_buf : list (list Z) }.

Definition getp : M pst decoder := fun s => (Ok (p_dec s), s).
Definition getps : M pst bst := fun s => (Ok (p_st s), s).
Definition modp (f : decoder -> decoder) : M pst unit :=
  fun s => (Ok tt, mkPst (f (p_dec s)) (p_st s) (p_buf s)).
Definition modps (f : bst -> bst) : M pst unit :=
  fun s => (Ok tt, mkPst (p_dec s) (f (p_st s)) (p_buf s)).

(** A bit stream operation *)
Definition on_st {A} (m : M bst A) : M pst A :=
  fun s => let '(r, st) := m (p_st s) in (r, mkPst (p_dec s) st (p_buf s)).
(** A header operation *)
Definition on_hd {A} (m : M hst A) : M pst A :=
  fun s =>
    let '(r, h) := m (mkHst (p_dec s) (b_rd (p_st s))) in
    (r, mkPst (hd_dec h) (set_rd (p_st s) (hd_rd h)) (p_buf s)).
(** An operation on the decoder alone *)
Definition on_dec {A} (m : M decoder A) : M pst A :=
  fun s => let '(r, d) := m (p_dec s) in (r, mkPst d (p_st s) (p_buf s)).

Definition count_restart_p : M pst unit :=
  fun s =>
    let '(r, d, st) := tick (p_dec s) (p_st s) in (r, mkPst d st (p_buf s)).

(** src/mcu_prog.rs:436-473 [get_marker]: scan the reader; [ff] means a 0xFF was just read *)
Fixpoint scan_marker (rd : list Z) (ff : bool) : option marker * list Z :=
  match rd with
  | [] => (None, [])
  | r :: t =>
      if ff then
        if r =? 255 then scan_marker t true
        else if negb (r =? 0) then (marker_from_u8 r, t)
        else match t with [] => (None, []) | _ => scan_marker t false end
      else scan_marker t (r =? 255)
  end.
Definition get_marker : M pst (option marker) :=
  fun s =>
    let st := p_st s in
    match b_marker st with
    | Some m => (Ok (Some m), mkPst (p_dec s) (set_marker st None) (p_buf s))
    | None =>
        let '(m, rd) := scan_marker (b_rd st) false in
        (Ok m, mkPst (p_dec s) (set_rd st rd) (p_buf s))
    end.

Definition missing_marker : err := EFormatStatic "Marker missing where expected".

(** A Huffman table chosen by [.get(i)], with the two errors of src/mcu_prog.rs:311-313 *)
Definition prog_table (l : list (option hufftable)) (i : Z) : res hufftable :=
  match zget l i with
  | None => Err (EFormat "No huffman table for component" [i])
  | Some None => Err (EFormat "Huffman table at index not initialized" [i])
  | Some (Some t) => Ok t
  end.

(** Replace the coefficients [start..start+64] of component [k] *)
Definition put_block (k start : Z) (blk : list Z) : M pst unit :=
  fun s =>
    match zget (p_buf s) k with
    | None => (Panic "index out of bounds", s)
    | Some c => (Ok tt, mkPst (p_dec s) (p_st s) (zset (p_buf s) k (splice c start blk)))
    end.
(** [buffer.get_mut(k).unwrap().get_mut(start..start + 64).unwrap()] *)
Definition get_block (k start : Z) : M pst (list Z) :=
  fun s =>
    match zget (p_buf s) k with
    | None => (Panic "called `Option::unwrap()` on a `None` value", s)
    | Some c =>
        match slice c start (start + 64) with
        | None => (Panic "called `Option::unwrap()` on a `None` value", s)
        | Some b => (Ok b, s)
        end
    end.

Definition get_comp (k : Z) : M pst component :=
  d <- getp ;; lift (at_ (d_comps d) k).
Definition set_pred (k dc : Z) : M pst unit :=
  modp (fun d => set_d_comps
                   (match zget (d_comps d) k with
                    | Some c => zset (d_comps d) k (set_c_pred dc c)
                    | None => d_comps d
                    end) d).

(** src/mcu_prog.rs:316-325 and 404-411: one DC coefficient of component [k] *)
Definition prog_dc (t : hufftable) (k coef : Z) : M pst Z :=
  d <- getp ;;
  if d_ah d =? 0 then
    c <- get_comp k ;;
    '(v, dc) <- on_st (decode_prog_dc_first t (c_pred c)) ;;
    set_pred k dc ;;;
    ret v
  else on_st (decode_prog_dc_refine coef).

(** src/mcu_prog.rs:284-361: the two nested [while] loops as one loop over the block position
    ([i], [j]).  Every iteration moves the position forward. *)
Fixpoint scan_blocks (fuel : nat) (k w h i j : Z) : M pst unit :=
  if h <=? i then ret tt
  else
    match fuel with
    | O => outoffuel
    | S f =>
        if w <=? j then scan_blocks f k w h (i + 1) 0
        else
          c <- get_comp k ;;
          let start := 64 * (j + i * (c_stride c / 8)) in
          blk <- get_block k start ;;
          d <- getp ;;
          '(i', j') <-
            (if d_ss d =? 0 then
               t <- lift (prog_table (d_dcts d) (Z.land (c_dct c) 3)) ;;
               v <- prog_dc t k (zn blk 0) ;;
               put_block k start (zset blk 0 v) ;;;
               ret (i, j)
             else
               t <- lift (prog_table (d_acts d) (c_act c)) ;;
               if d_ah d =? 0 then
                 st <- getps ;;
                 if 0 <? b_eob st then
                   let p := j + b_eob st - 1 in
                   modps (fun st => set_eob st 0) ;;;
                   ret (i + p / w, p mod w)
                 else
                   b <- on_st (decode_mcu_ac_first t blk) ;;
                   put_block k start b ;;;
                   ret (i, j)
               else
                 b <- on_st (decode_mcu_ac_refine t blk) ;;
                 put_block k start b ;;;
                 ret (i, j)) ;;
          count_restart_p ;;;
          scan_blocks f k w h i' (j' + 1)
    end.

(** src/mcu_prog.rs:396-411: one coefficient of an interleaved DC scan;
    [buffer[n][position]] *)
Definition scan_dc_at (t : hufftable) (n : Z) (c : component) (i j v_samp h_samp : Z)
  : M pst unit :=
  let x2 := j * c_h c + h_samp in
  let y2 := i * c_v c + v_samp in
  let position := 64 * (x2 + y2 * c_stride c / 8) in
  s <- get ;;
  chan <- lift (at_ (p_buf s) n) ;;
  coef <- lift (at_ chan position) ;;
  v <- prog_dc t n coef ;;
  fun s =>
    (Ok tt, mkPst (p_dec s) (p_st s) (zset (p_buf s) n (zset (chan) position v))).

(** src/mcu_prog.rs:377-424: component [k] of an MCU of an interleaved DC scan *)
Definition scan_dc_component (i j k : Z) : M pst unit :=
  d <- getp ;;
  n <- lift (at_ (d_zorder d) k) ;;
  if zlen (d_comps d) <=? n then fail (EFormat "Cannot find component, corrupt image" [n])
  else
    c <- get_comp n ;;
    t <- lift (prog_table (d_dcts d) (c_dct c)) ;;
    mfor (Z.to_nat (c_v c)) 0 (fun v_samp =>
      mfor (Z.to_nat (c_h c)) 0 (fun h_samp => scan_dc_at t n c i j v_samp h_samp)) ;;;
    count_restart_p.

(** src/mcu_prog.rs:249-430 [parse_entropy_coded_data] *)
Definition parse_entropy_coded_data : M pst unit :=
  d <- getp ;;
  lift (check_component_dimensions d) ;;;
  modps bst_reset ;;;
  modp (fun d => set_d_comps (map (set_c_pred 0) (d_comps d)) d) ;;;
  d <- getp ;;
  if num_components (d_incs d) <? d_nscans d then
    fail (EFormat "Number of scans cannot be greater than number of components"
            [d_nscans d; num_components (d_incs d)])
  else if d_nscans d =? 1 then
    if negb (d_se d =? 0) && (d_ss d =? 0) then
      fail (EHuffmanDecode "Can't merge DC and AC corrupt jpeg" [])
    else
      let k := zn (d_zorder d) 0 in
      if zlen (d_comps d) <=? k then fail (EFormat "Cannot find component, corrupt image" [k])
      else
        c <- get_comp k ;;
        let '(w, h) :=
          if is_y (c_cid c) || negb (d_inter d)
          then (u16 (i_width (d_info d) + 7) / 8, u16 (i_height (d_info d) + 7) / 8)
          else (d_mcux d, d_mcuy d) in
        scan_blocks (Z.to_nat (h * (w + 1) + 1)) k w h 0 0
  else if negb (d_se d =? 0) then
    fail (EHuffmanDecode "Can't merge dc and AC corrupt jpeg" [])
  else
    mfor (Z.to_nat (d_mcuy d)) 0 (fun i =>
      mfor (Z.to_nat (d_mcux d)) 0 (fun j =>
        mfor (Z.to_nat (d_nscans d)) 0 (fun k => scan_dc_component i j k))).

(** src/mcu_prog.rs:97-128: the loop over the scans after the first.  Every iteration reads
    at least one byte. *)
Fixpoint scan_loop (fuel : nat) (m : marker) (seen : Z) : M pst unit :=
  if is_eoi m then ret tt
  else
    match fuel with
    | O => outoffuel
    | S f =>
        match m with
        | DHT =>
            on_hd parse_huffman ;;;
            o <- get_marker ;;
            match o with None => fail missing_marker | Some m' => scan_loop f m' seen end
        | SOS =>
            on_hd parse_sos ;;;
            d <- getp ;;
            modps (fun st => update_progressive_params st (d_ah d) (d_al d) (d_ss d) (d_se d)) ;;;
            parse_entropy_coded_data ;;;
            o <- get_marker ;;
            match o with
            | None => fail missing_marker
            | Some m' =>
                let seen := seen + 1 in
                d <- getp ;;
                if o_max_scans (d_opt d) <? seen then
                  fail (EFormat "Too many scans, exceeded limit" [o_max_scans (d_opt d)])
                else
                  modps bst_reset ;;;
                  scan_loop f m' seen
            end
        | _ => ret tt
        end
    end.

(** src/mcu_prog.rs:56-80: MCU counts (here the additions are on [usize]) *)
Definition prog_counts (d : decoder) : Z * Z :=
  if d_inter d then (d_mcux d, d_mcuy d)
  else ((i_width (d_info d) + 7) / 8, (i_height (d_info d) + 7) / 8).

(** src/mcu_prog.rs:76-82: allocate the coefficients of the components [i..] *)
Fixpoint alloc_blocks (n : nat) (i w h : Z) (comps : list component) (buf : list (list Z))
  : res (list (list Z)) :=
  match n with
  | O => Ok buf
  | S n' =>
      match at_ comps i with
      | Ok c =>
          match zupd buf i (zrepeat 0 (w * 64 * c_v c * c_h c * h)) with
          | Ok b => alloc_blocks n' (i + 1) w h comps b
          | r => r
          end
      | Err e => Err e
      | Panic p => Panic p
      | Fuel => Fuel
      end
  end.

(** src/mcu_prog.rs:151-167: sampled grayscale; the code sets [horizontal_sample] to the MCU
    width *)
Definition reset_grayscale_p (mcuw : Z) : M decoder unit :=
  modify (set_d_hmax 1) ;;;
  modify (set_d_vmax 1) ;;;
  modify (set_d_ratio RNone) ;;;
  set_comp0 (fun c => set_c_h mcuw (set_c_stride (mcuw * 8) (set_c_v 1 c))).

(** src/mcu_prog.rs:132-190: what [finish_progressive_decoding] computes before it divides
    the work; [mcuw] is already multiplied by 64.  [g_ccap] is [y_chunk_size], [g_mcuw] the
    adjusted [mcu_width]. *)
Definition finish_setup (mcuw : Z) : M decoder geom :=
  set_upsampling ;;;
  d <- get ;;
  let mcuw := if ratio_is_h (d_ratio d) then mcuw * 2 else mcuw in
  let bias := if ratio_is_hv (d_ratio d) then 2 else 1 in
  bias <-
    (if cs_eqb (d_incs d) GRAYSCALE && d_inter d then
       if o_strict (d_opt d) then
         fail (EFormatStatic "[strict-mode]: Grayscale image with down-sampled component.")
       else reset_grayscale_p mcuw ;;; ret 1
     else ret bias) ;;
  d <- get ;;
  c0 <- lift (at_ (d_comps d) 0) ;;
  let out := o_colorspace (d_opt d) in
  let nc := num_components out in
  let width := i_width (d_info d) in
  ret (mkGeom mcuw 0 bias (mcuw * c_v c0 * c_h c0 * bias) (d_comps d) false 0 (d_incs d) out
         (d_idct d) (d_cc d) width (width * nc * 8 * d_hmax d * d_vmax d)
         (capacity d * nc + extra_space d)).

(** src/mcu_prog.rs:185-231: the jobs; each takes a chunk of every component.  [zip] stops
    with the shortest, which may be the output. *)
Definition prog_jobs (g : geom) (d : decoder) (buf : list (list Z))
  : res (list (list (list Z))) :=
  if g_chunk g =? 0 then Panic "chunk size must be non-zero"
  else
    match chunks_exact (g_ccap g) (chan buf 0) with
    | Ok ys =>
        let n := Z.to_nat (g_total g / g_chunk g) in
        if num_components (d_incs d) =? 3 then
          match at_ (d_comps d) 1 with
          | Ok c1 =>
              let size := g_mcuw g * c_v c1 * c_h c1 * g_bias g in
              match chunks_exact size (chan buf 1), chunks_exact size (chan buf 2) with
              | Ok cbs, Ok crs =>
                  Ok (firstn n (map (fun '(y, cb, cr) => [y; cb; cr])
                                    (Color.zip3 ys cbs crs)))
              | _, _ => Panic "chunk size must be non-zero"
              end
          | Err e => Err e
          | Panic p => Panic p
          | Fuel => Fuel
          end
        else Ok (firstn n (map (fun y => [y; []; []]) ys))
    | Err e => Err e
    | Panic p => Panic p
    | Fuel => Fuel
    end.

(** src/mcu_prog.rs:132-244 [finish_progressive_decoding] *)
Definition finish_progressive_decoding (mcuw : Z) : M pst (list Z) :=
  g <- on_dec (finish_setup mcuw) ;;
  s <- get ;;
  jobs <- lift (prog_jobs g (p_dec s) (p_buf s)) ;;
  chunks <- lift (run_jobs g jobs) ;;
  ret (assemble chunks (g_total g) (output_len (p_dec s))).

(** src/mcu_prog.rs:84-130: after the allocation of the coefficients *)
Definition progressive_scans (w : Z) : M pst (list Z) :=
  parse_entropy_coded_data ;;;
  st <- getps ;;
  match b_marker st with
  | None => fail missing_marker
  | Some m =>
      modps (fun st => set_marker st None) ;;;
      scan_loop (S (length (b_rd st))) m 1 ;;;
      finish_progressive_decoding (w * 64)
  end.

(** src/mcu_prog.rs:49-130 [decode_mcu_ycbcr_progressive] *)
Definition decode_progressive : M hst (list Z) :=
  fun h =>
    let d := hd_dec h in
    let '(w, hh) := prog_counts d in
    match rbind (check_component_dimensions d) (fun _ =>
            alloc_blocks (Z.to_nat (num_components (d_incs d))) 0 w hh (d_comps d)
              [[]; []; []]) with
    | Ok buf =>
        let st := bst_new_progressive (d_ah d) (d_al d) (d_ss d) (d_se d) (hd_rd h) in
        let '(r, s) := progressive_scans w (mkPst d st buf) in
        (r, mkHst (p_dec s) (b_rd (p_st s)))
    | Err e => (Err e, h)
    | Panic p => (Panic p, h)
    | Fuel => (Fuel, h)
    end.
