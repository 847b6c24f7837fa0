(** The worker threads: jobs that share the output buffer, each confined to its own chunk, run
    by a pool of [n] threads in any order and interleaving. *)
From Coq Require Import ZArith String List Bool.
From Verif Require Import Base Types Huffman State Bitstream Headers Worker Mcu McuProg Decoder.
Import ListNotations.
Local Open Scope Z_scope.
Local Open Scope m_scope.

(** What a job does, one memory access at a time.  It owns its coefficients and one chunk of
    the output ([chunks_exact_mut], src/mcu.rs:224-227 and src/mcu_prog.rs:188-189); offsets
    are relative to the chunk.  What it computes between two accesses is not visible to the
    other threads. *)
Inductive prog : Type :=
| PDone
| PCrash
| PWrite (off v : Z) (k : prog)
| PRead (off : Z) (k : Z -> prog).

(** A job that is alone; an access outside of the chunk is a failed bounds check *)
Fixpoint exec (p : prog) (chunk : list Z) : res (list Z) :=
  match p with
  | PDone => Ok chunk
  | PCrash => Panic "worker panicked"
  | PWrite off v k =>
      match zget chunk off with
      | Some _ => exec k (zset chunk off v)
      | None => Panic "index out of bounds"
      end
  | PRead off k =>
      match zget chunk off with
      | Some x => exec (k x) chunk
      | None => Panic "index out of bounds"
      end
  end.

(** A job as the pool sees it *)
Inductive jstate : Type :=
| Waiting (p : prog)
| Running (p : prog)
| Finished
| Crashed.
Record pool : Type := mkPool { pl_jobs : list jstate; pl_mem : list Z }.

(** The thread that runs a job, or died running it, is not available to others
    (scoped_threadpool 0.1.9: a worker whose job panics is gone) *)
Definition occupies (j : jstate) : bool :=
  match j with Running _ | Crashed => true | _ => false end.

(** One step of the pool: a free thread starts some job, or some running job makes its next
    access to the shared buffer [pl_mem], in which job [i] owns the bytes from [i * c] on.
    The jobs are sent to the threads in order and any time after they were created
    (src/mcu.rs:366-381, src/mcu_prog.rs:200-231); here any waiting job can start any time,
    which allows all of those schedules and more. *)
Inductive pstep (n : nat) (c : Z) : pool -> pool -> Prop :=
| St_start js m i p :
    nth_error js i = Some (Waiting p) -> (length (filter occupies js) < n)%nat ->
    pstep n c (mkPool js m) (mkPool (nupd js i (Running p)) m)
| St_done js m i :
    nth_error js i = Some (Running PDone) ->
    pstep n c (mkPool js m) (mkPool (nupd js i Finished) m)
| St_crash js m i :
    nth_error js i = Some (Running PCrash) ->
    pstep n c (mkPool js m) (mkPool (nupd js i Crashed) m)
| St_write js m i off v k :
    nth_error js i = Some (Running (PWrite off v k)) -> 0 <= off < c ->
    pstep n c (mkPool js m) (mkPool (nupd js i (Running k)) (zset m (Z.of_nat i * c + off) v))
| St_write_out js m i off v k :
    nth_error js i = Some (Running (PWrite off v k)) -> ~ 0 <= off < c ->
    pstep n c (mkPool js m) (mkPool (nupd js i Crashed) m)
| St_read js m i off k x :
    nth_error js i = Some (Running (PRead off k)) -> 0 <= off < c ->
    zget m (Z.of_nat i * c + off) = Some x ->
    pstep n c (mkPool js m) (mkPool (nupd js i (Running (k x))) m)
| St_read_out js m i off k :
    nth_error js i = Some (Running (PRead off k)) -> ~ 0 <= off < c ->
    pstep n c (mkPool js m) (mkPool (nupd js i Crashed) m).

Inductive psteps (n : nat) (c : Z) : pool -> pool -> Prop :=
| Ss_refl s : psteps n c s s
| Ss_step s1 s2 s3 : pstep n c s1 s2 -> psteps n c s2 s3 -> psteps n c s1 s3.

(** At the end of the scope (src/mcu.rs:230-372, src/mcu_prog.rs:205-231) the pool waits until
    nothing moves any more and panics if a worker did *)
Definition crashed (j : jstate) : bool := match j with Crashed => true | _ => false end.
Definition outcome (s : pool) : res (list Z) :=
  if existsb crashed (pl_jobs s) then Panic "Thread pool worker panicked" else Ok (pl_mem s).
Definition ended (n : nat) (c : Z) (s : pool) : Prop := forall s', ~ pstep n c s s'.

(** [r] is the outcome of one of the schedules of the jobs [ps] on a zeroed buffer *)
Definition schedule (n : nat) (c total : Z) (ps : list prog) (r : res (list Z)) : Prop :=
  exists s, psteps n c (mkPool (map Waiting ps) (zrepeat 0 total)) s /\ ended n c s /\ r = outcome s.

(** Programs whose effect, when alone, is that of [post_process] up to the panic message *)
Definition agree {A} (r r' : res A) : Prop :=
  match r, r' with
  | Panic _, Panic _ => True
  | _, _ => r = r'
  end.
Definition implements (impl : geom -> list (list Z) -> prog) : Prop :=
  forall g coeff,
    agree (exec (impl g coeff) (zrepeat 0 (g_chunk g)))
      (post_process coeff (g_comps g) (g_idct g) (g_cc g) (g_in g) (g_out g)
         (zrepeat 0 (g_chunk g)) (g_width g)).

Section Threads.
Variable impl : geom -> list (list Z) -> prog.

(** The threads of the options (src/options.rs:83-86) *)
Definition threads (d : decoder) : nat := Z.to_nat (o_threads (d_opt d)).

(** src/mcu.rs:127-381 with the threads: [decode_rows] creates the jobs *)
Definition baseline_sched (h : hst) (r : res (list Z)) : Prop :=
  match baseline_setup (hd_dec h) with
  | (Ok g, d) =>
      let '(r0, s) := decode_rows g (mkMst d (bst_new (hd_rd h)) [] []) in
      match r0 with
      | Panic p => r = Panic p
      | Fuel => r = Fuel
      | _ => exists b, schedule (threads d) (g_chunk g) (g_total g) (map (impl g) (rev (m_jobs s))) b /\
          r = match b with
              | Ok mem =>
                  match r0 with
                  | Err e => Err e
                  | _ => Ok (firstn (Z.to_nat (output_len (m_dec s))) mem)
                  end
              | x => x
              end
      end
  | (Err e, _) => r = Err e
  | (Panic p, _) => r = Panic p
  | (Fuel, _) => r = Fuel
  end.

(** src/mcu_prog.rs:84-200: up to the point where the jobs exist *)
Definition progressive_jobs (w : Z) : M pst (geom * list (list (list Z)) * Z) :=
  parse_entropy_coded_data ;;;
  st <- getps ;;
  match b_marker st with
  | None => fail missing_marker
  | Some m =>
      modps (fun st => set_marker st None) ;;;
      scan_loop (S (length (b_rd st))) m 1 ;;;
      g <- on_dec (finish_setup (w * 64)) ;;
      s <- get ;;
      jobs <- lift (prog_jobs g (p_dec s) (p_buf s)) ;;
      ret (g, jobs, output_len (p_dec s))
  end.

(** src/mcu_prog.rs:49-244 with the threads *)
Definition progressive_sched (h : hst) (r : res (list Z)) : Prop :=
  let d := hd_dec h in
  let '(w, hh) := prog_counts d in
  match rbind (check_component_dimensions d) (fun _ =>
          alloc_blocks (Z.to_nat (num_components (d_incs d))) 0 w hh (d_comps d)
            [[]; []; []]) with
  | Ok buf =>
      match progressive_jobs w (mkPst d (bst_new_progressive (d_ah d) (d_al d) (d_ss d) (d_se d) (hd_rd h)) buf) with
      | (Ok (g, jobs, n), _) => exists b, schedule (threads d) (g_chunk g) (g_total g) (map (impl g) jobs) b /\
          r = match b with
              | Ok mem => Ok (firstn (Z.to_nat n) mem)
              | x => x
              end
      | (Err e, _) => r = Err e
      | (Panic p, _) => r = Panic p
      | (Fuel, _) => r = Fuel
      end
  | Err e => r = Err e
  | Panic p => r = Panic p
  | Fuel => r = Fuel
  end.

(** src/decoder.rs:178-181 [decode_buffer], 420-434 [decode_internal]: [r] is a possible
    result *)
Definition decode_buffer_sched (d : decoder) (buf : list Z) (r : res (list Z)) : Prop :=
  match decode_headers (mkHst d buf) with
  | (Ok _, h) => if d_prog (hd_dec h) then progressive_sched h r else baseline_sched h r
  | (Err e, _) => r = Err e
  | (Panic p, _) => r = Panic p
  | (Fuel, _) => r = Fuel
  end.
End Threads.
