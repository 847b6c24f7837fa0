(** src/mcu.rs: decoding of baseline images, and the parts of src/decoder.rs it calls. *)
From Coq Require Import ZArith String List Bool.
From Verif Require Import Base Types Huffman State Bitstream Headers Worker.
Import ListNotations.
Local Open Scope Z_scope.
Local Open Scope m_scope.

(** * Checks made before decoding *)

(** src/decoder.rs:627-645: the loop over the components *)
Fixpoint check_chroma (cs : list component) (cb_cr_width : Z) : res unit :=
  match cs with
  | [] => Ok tt
  | c :: rest =>
      if is_y (c_cid c) then check_chroma rest cb_cr_width
      else if negb (c_stride c =? cb_cr_width) then
        Err (EFormat "Invalid image width and height stride for component"
               [cb_cr_width; c_stride c])
      else if negb (c_h c =? 1) || negb (c_v c =? 1) then
        Err (EFormat "Invalid component sample for component, expected (1,1)" [c_v c; c_h c])
      else check_chroma rest cb_cr_width
  end.

(** src/decoder.rs:609-646 [check_component_dimensions] *)
Definition check_component_dimensions (d : decoder) : res unit :=
  match find (fun c => is_y (c_cid c)) (d_comps d) with
  | None => Err (EFormatStatic "Could not find Y component for the image")
  | Some y => check_chroma (d_comps d) (c_stride y / d_hmax d)
  end.

(** A component's Huffman table, [None] for an unset slot (a missing one reports the same
    kind of error, src/mcu.rs:79-113) *)
Definition table_at (l : list (option hufftable)) (i : Z) : option hufftable :=
  match zget l i with Some t => t | None => None end.

(** src/mcu.rs:74-116 [check_tables], from component [i] on *)
Fixpoint check_tables_from (n : nat) (i : Z) (d : decoder) : res unit :=
  match n with
  | O => Ok tt
  | S n' =>
      match at_ (d_comps d) i with
      | Ok c =>
          match table_at (d_dcts d) (c_dct c) with
          | None => Err (EHuffmanDecode "No DC table for component" [i])
          | Some _ =>
              match table_at (d_acts d) (c_act c) with
              | None => Err (EHuffmanDecode "No AC table for component" [i])
              | Some _ => check_tables_from n' (i + 1) d
              end
          end
      | Err e => Err e
      | Panic p => Panic p
      | Fuel => Fuel
      end
  end.
Definition check_tables (d : decoder) : res unit :=
  check_tables_from (Z.to_nat (num_components (d_incs d))) 0 d.

(** src/decoder.rs:486-509: [self.components[1..].iter_mut().for_each(..)] *)
Definition set_up_samplers (u : upsampler) : M decoder unit :=
  fun d =>
    match d_comps d with
    | [] => (Panic "slice out of bounds", d)
    | c :: rest => (Ok tt, set_d_comps (c :: map (set_c_ups u) rest) d)
    end.

(** src/decoder.rs:468-523 [set_upsampling] *)
Definition set_upsampling : M decoder unit :=
  d <- get ;;
  if (d_hmax d =? d_vmax d) && (d_hmax d =? 1) then ret tt
  else if (d_hmax d =? 2) && (d_vmax d =? 1) then
    modify (set_d_ratio RH) ;;;
    set_up_samplers (choose_horizontal (d_isa d) (o_use_unsafe (d_opt d)))
  else if (d_hmax d =? 1) && (d_vmax d =? 2) then
    modify (set_d_ratio RV) ;;;
    set_up_samplers UpVert
  else if (d_hmax d =? 2) && (d_vmax d =? 2) then
    modify (set_d_ratio RHV) ;;;
    set_up_samplers (choose_hv (d_isa d) (o_use_unsafe (d_opt d)))
  else fail (EFormat "Unknown down-sampling method, cannot continue" []).

(** src/mcu.rs:386-418 [handle_rst] *)
Definition handle_rst (d : decoder) (s : bst) : res unit * decoder * bst :=
  let d := set_d_todo (d_ri d) d in
  match b_marker s with
  | None => (Ok tt, d, s)
  | Some (RST _) => (Ok tt, set_d_comps (map (set_c_pred 0) (d_comps d)) d, bst_reset s)
  | Some EOI => (Ok tt, d, s)
  | Some _ =>
      (Err (EMCUError "Marker found in bitstream, possibly corrupt jpeg" []), d, s)
  end.

(** * Set-up *)

(** The local variables of [decode_mcu_ycbcr_baseline] that the loops read
    (src/mcu.rs:138-217). *)
Record geom : Type := mkGeom {
  g_mcuw : Z;          (* mcu_width *)
  g_mcuh : Z;          (* mcu_height *)
  g_bias : Z;
  g_ccap : Z;          (* component_capacity *)
  g_comps : list component; (* global_component *)
  g_hv : bool;         (* is_hv *)
  g_ws : Z;            (* width_stride *)
  g_in : colorspace;
  g_out : colorspace;
  g_idct : idct_kind;
  g_cc : cc_kind;
  g_width : Z;
  g_chunk : Z;         (* size of the output chunks *)
  g_total : Z }.       (* length of global_channel *)

(** src/mcu.rs:141-170: MCU counts; [info.width + 7] is u16 arithmetic *)
Definition mcu_counts (d : decoder) : Z * Z * Z :=
  if d_inter d then
    if ratio_is_h (d_ratio d) then (d_mcux d * 2, d_mcuy d / 2, 1)
    else if ratio_is_hv (d_ratio d) then (d_mcux d, d_mcuy d / 2, 2)
    else (d_mcux d, d_mcuy d, 1)
  else (u16 (i_width (d_info d) + 7) / 8, u16 (i_height (d_info d) + 7) / 8, 1).

Definition set_comp0 (f : component -> component) : M decoder unit :=
  fun d =>
    match d_comps d with
    | [] => (Panic "index out of bounds", d)
    | c :: rest => (Ok tt, set_d_comps (f c :: rest) d)
    end.

(** src/mcu.rs:185-197: a grayscale image with sampling factors other than 1x1 *)
Definition reset_grayscale (mcuw : Z) : M decoder unit :=
  modify (set_d_hmax 1) ;;;
  modify (fun d => set_d_opt (set_out_colorspace (d_opt d) GRAYSCALE) d) ;;;
  modify (set_d_vmax 1) ;;;
  modify (set_d_ratio RNone) ;;;
  set_comp0 (fun c => set_c_h 1 (set_c_stride (mcuw * 8) (set_c_v 1 c))).

(** src/mcu.rs:199 and src/mcu_prog.rs:171 [capacity]; the additions are on u16 *)
Definition capacity (d : decoder) : Z :=
  u16 (i_width (d_info d) + 8) * u16 (i_height (d_info d) + 8).

(** src/mcu.rs:208 and src/mcu_prog.rs:170 [extra_space] *)
Definition extra_space (d : decoder) : Z :=
  (if d_inter d then 1 else 0) * 128 * i_height (d_info d)
  * num_components (o_colorspace (d_opt d)).

(** src/mcu.rs:198-230: everything else computed before the loop *)
Definition geom_of (mcuw mcuh bias : Z) (c0 : component) (d : decoder) : geom :=
  let out := o_colorspace (d_opt d) in
  let nc := num_components out in
  let ccap := mcuw * 64 in
  let width := i_width (d_info d) in
  mkGeom mcuw mcuh bias ccap (d_comps d) (ratio_is_hv (d_ratio d))
    (shr (ccap * c_v c0 * c_h c0 * bias) 1) (d_incs d) out (d_idct d) (d_cc d) width
    (width * nc * 8 * d_hmax d * d_vmax d)
    (capacity d * nc + extra_space d).

(** src/mcu.rs:127-230 *)
Definition baseline_setup : M decoder geom :=
  d <- get ;;
  lift (check_component_dimensions d) ;;;
  lift (check_tables d) ;;;
  (if d_inter d then set_upsampling else ret tt) ;;;
  d <- get ;;
  let '(w, h, bias) := mcu_counts d in
  '(w, h, bias) <-
    (if cs_eqb (d_incs d) GRAYSCALE && d_inter d then
       if o_strict (d_opt d) then
         fail (EFormatStatic "[strict-mode]: Grayscale image with down-sampled component.")
       else
         let w := u16 (i_width (d_info d) + 7) / 8 in
         let h := u16 (i_height (d_info d) + 7) / 8 in
         reset_grayscale w ;;; ret (w, h, 1)
     else ret (w, h, bias)) ;;
  d <- get ;;
  c0 <- lift (at_ (d_comps d) 0) ;;
  let g := geom_of w h bias c0 d in
  if g_chunk g =? 0 then panic "chunk size must be non-zero" else ret g.

(** * The main loop *)

(** The mutable state of the loop: the decoder, the bit stream (with the reader inside), the
    coefficients of the current row and the jobs queued so far, latest first. *)
Record mst : Type := mkMst {
  m_dec : decoder;
  m_st : bst;
  m_tmp : list (list Z);
  m_jobs : list (list (list Z)) }.

Definition getm : M mst decoder := fun s => (Ok (m_dec s), s).
Definition modm (f : decoder -> decoder) : M mst unit :=
  fun s => (Ok tt, mkMst (f (m_dec s)) (m_st s) (m_tmp s) (m_jobs s)).
Definition gets : M mst bst := fun s => (Ok (m_st s), s).

(** src/mcu.rs:246-259: allocate the coefficients of a row, component [pos] on *)
Fixpoint alloc_row (cs : list component) (pos : Z) (out : colorspace) (ccap bias : Z)
  (tmp : list (list Z)) : res (list (list Z)) :=
  match cs with
  | [] => Ok tmp
  | c :: rest =>
      if pos <=? num_components out - 1 then
        match zupd tmp pos (zrepeat 0 (ccap * c_v c * c_h c * bias)) with
        | Ok t => alloc_row rest (pos + 1) out ccap bias t
        | Err e => Err e
        | Panic p => Panic p
        | Fuel => Fuel
        end
      else alloc_row rest (pos + 1) out ccap bias tmp
  end.

(** src/mcu.rs:298-322: where the block is written *)
Definition block_start (g : geom) (c : component) (v j v_samp h_samp : Z) : Z :=
  let ws := g_ws g in
  let hvws := shr ws 1 in
  let y := if is_y (c_cid c) then 1 else 0 in
  let hv := if g_hv g then 1 else 0 in
  let y_offset := y * v * (hvws + hvws * (c_v c - 1)) in
  let another_stride := ws * v_samp * (1 - hv) + hvws * v_samp * hv in
  let yet_another_stride := hv * shr ws 2 * v * (1 - y) in
  j * 64 * c_h c + h_samp * 64 + another_stride + y_offset + yet_another_stride.

(** src/mcu.rs:291-331: decode one block of component [pos] *)
Definition decode_block (g : geom) (c : component) (dct act : hufftable)
  (pos v j v_samp h_samp : Z) : M mst unit :=
  fun s =>
    let d := m_dec s in
    let dc := match zget (d_comps d) pos with Some c => c_pred c | None => 0 end in
    let upd dc := set_d_comps
                    (match zget (d_comps d) pos with
                     | Some c => zset (d_comps d) pos (set_c_pred dc c)
                     | None => d_comps d
                     end) d in
    if pos <=? num_components (o_colorspace (d_opt d)) - 1 then
      let start := block_start g c v j v_samp h_samp in
      match zget (m_tmp s) pos with
      | None => (Panic "called `Option::unwrap()` on a `None` value", s)
      | Some chan =>
          match slice chan start (start + 64) with
          | None => (Panic "called `Option::unwrap()` on a `None` value", s)
          | Some blk =>
              let '(r, st, dc') := decode_mcu_block dct act blk dc (m_st s) in
              match r with
              | Ok blk' =>
                  (Ok tt, mkMst (upd dc') st (zset (m_tmp s) pos (splice chan start blk'))
                            (m_jobs s))
              | Err e => (Err e, mkMst (upd dc') st (m_tmp s) (m_jobs s))
              | Panic p => (Panic p, mkMst (upd dc') st (m_tmp s) (m_jobs s))
              | Fuel => (Fuel, mkMst (upd dc') st (m_tmp s) (m_jobs s))
              end
          end
      end
    else
      (* component not needed, decode and discard; the contents of [tmp] are never read *)
      let '(r, st, dc') := decode_mcu_block dct act (zrepeat 0 64) dc (m_st s) in
      let s' := mkMst (upd dc') st (m_tmp s) (m_jobs s) in
      match r with
      | Ok _ => (Ok tt, s')
      | Err e => (Err e, s')
      | Panic p => (Panic p, s')
      | Fuel => (Fuel, s')
      end.

(** src/mcu.rs:286-334: the blocks of component [pos] in one MCU *)
Definition decode_component (g : geom) (c : component) (dct act : hufftable) (pos v j : Z)
  : M mst unit :=
  mfor (Z.to_nat (c_v c)) 0 (fun v_samp =>
    mfor (Z.to_nat (c_h c)) 0 (fun h_samp =>
      decode_block g c dct act pos v j v_samp h_samp)).

(** src/mcu.rs:335-340 and the same lines of src/mcu_prog.rs (355-360, 418-423): count down
    the restart interval; [todo] is a [usize] *)
Definition tick (d : decoder) (s : bst) : res unit * decoder * bst :=
  let d := set_d_todo (u64 (d_todo d - 1)) d in
  if d_todo d =? 0 then handle_rst d s else (Ok tt, d, s).

Definition count_restart : M mst unit :=
  fun s =>
    let '(r, d, st) := tick (m_dec s) (m_st s) in
    (r, mkMst d st (m_tmp s) (m_jobs s)).

(** [self.parse_marker_inner(m, reader)] inside the scan *)
Definition parse_in_scan (m : marker) : M mst unit :=
  fun s =>
    let '(r, h) := parse_marker_inner m (mkHst (m_dec s) (b_rd (m_st s))) in
    (r, mkMst (hd_dec h) (set_rd (m_st s) (hd_rd h)) (m_tmp s) (m_jobs s)).

(** src/mcu.rs:268-362: one component of one MCU; [false] means [break] *)
Definition mcu_component (g : geom) (v j pos : Z) : M mst bool :=
  d <- getm ;;
  c <- lift (at_ (d_comps d) pos) ;;
  match table_at (d_dcts d) (Z.land (c_dct c) 3) with
  | None => fail (EHuffmanDecode "No DC table for component" [pos])
  | Some dct =>
      match table_at (d_acts d) (Z.land (c_act c) 3) with
      | None => fail (EHuffmanDecode "No AC table for component" [pos])
      | Some act =>
          decode_component g c dct act pos v j ;;;
          count_restart ;;;
          st <- gets ;;
          match b_marker st with
          | None => ret true
          | Some EOI => ret false
          | Some (RST _) => ret true
          | Some m => parse_in_scan m ;;; ret true
          end
      end
  end.

(** src/mcu.rs:264-364 *)
Definition decode_mcu (g : geom) (v j : Z) : M mst unit :=
  d <- getm ;;
  mfor_break (Z.to_nat (num_components (d_incs d))) 0 (mcu_component g v j).

(** src/mcu.rs:238-382: one iteration of the row loop *)
Definition decode_row (g : geom) : M mst unit :=
  d <- getm ;;
  tmp <- lift (alloc_row (d_comps d) 0 (o_colorspace (d_opt d)) (g_ccap g) (g_bias g)
                 [[]; []; []]) ;;
  modify (fun s => mkMst (m_dec s) (m_st s) tmp (m_jobs s)) ;;;
  mfor (Z.to_nat (g_bias g)) 0 (fun v =>
    mfor (Z.to_nat (g_mcuw g)) 0 (fun j => decode_mcu g v j)) ;;;
  fun s =>
    if g_total g / g_chunk g <=? zlen (m_jobs s) then
      (Panic "called `Option::unwrap()` on a `None` value", s)
    else (Ok tt, mkMst (m_dec s) (m_st s) (m_tmp s) (m_tmp s :: m_jobs s)).

Definition decode_rows (g : geom) : M mst unit :=
  mfor (Z.to_nat (g_mcuh g)) 0 (fun _ => decode_row g).

(** * The worker jobs *)

(** src/mcu.rs:365-381: the jobs run [post_process], each on its own chunk of the output.
    They share no mutable state, so their order does not matter (see [Jobs.v]); the model
    runs them in order. *)
Fixpoint run_jobs (g : geom) (jobs : list (list (list Z))) : res (list (list Z)) :=
  match jobs with
  | [] => Ok []
  | coeff :: rest =>
      match post_process coeff (g_comps g) (g_idct g) (g_cc g) (g_in g) (g_out g)
              (zrepeat 0 (g_chunk g)) (g_width g) with
      | Ok o =>
          match run_jobs g rest with
          | Ok os => Ok (o :: os)
          | r => r
          end
      | Err e => Err e
      | Panic p => Panic p
      | Fuel => Fuel
      end
  end.

(** The output buffer after the jobs, truncated to [n] bytes (src/mcu.rs:374-380): finished
    chunks followed by the zeros of the allocation *)
Definition assemble (chunks : list (list Z)) (total n : Z) : list Z :=
  let done := concat chunks in
  firstn (Z.to_nat n) (done ++ zrepeat 0 (total - zlen done))%list.

(** src/mcu.rs:375-379: the length the output is truncated to *)
Definition output_len (d : decoder) : Z :=
  i_width (d_info d) * i_height (d_info d) * num_components (o_colorspace (d_opt d)).

(** src/mcu.rs:127-381 [decode_mcu_ycbcr_baseline].  The scope joins its threads before the
    result of the closure is looked at, so a panicking job wins over an error. *)
Definition decode_baseline : M hst (list Z) :=
  fun h =>
    match baseline_setup (hd_dec h) with
    | (Ok g, d) =>
        let '(r, s) := decode_rows g (mkMst d (bst_new (hd_rd h)) [] []) in
        let h' := mkHst (m_dec s) (b_rd (m_st s)) in
        match r with
        | Panic p => (Panic p, h')
        | Fuel => (Fuel, h')
        | _ =>
            match run_jobs g (rev (m_jobs s)) with
            | Ok chunks =>
                match r with
                | Err e => (Err e, h')
                | _ => (Ok (assemble chunks (g_total g) (output_len (m_dec s))), h')
                end
            | Err e => (Err e, h')
            | Panic p => (Panic p, h')
            | Fuel => (Fuel, h')
            end
        end
    | (Err e, d) => (Err e, mkHst d (hd_rd h))
    | (Panic p, d) => (Panic p, mkHst d (hd_rd h))
    | (Fuel, d) => (Fuel, mkHst d (hd_rd h))
    end.
