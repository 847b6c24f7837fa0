(** Sequences of calls on one decoder, and sequences of option setters. *)
From Coq Require Import ZArith String List Bool.
From Verif Require Import Base Types State Decoder SpecSegments.
Import ListNotations.
Local Open Scope Z_scope.

(** The calls that change a decoder (src/decoder.rs) *)
Inductive call : Type :=
| CReadHeaders (buf : list Z)
| CDecodeBuffer (buf : list Z)
| CRgba
| CSetLimits (w h : Z)
| CSetOutputColorspace (c : colorspace)
| CSetNumThreads (n : Z).

(** A buffer holds bytes; the other arguments have no influence on what follows *)
Definition legal_call (c : call) : Prop :=
  match c with
  | CReadHeaders buf | CDecodeBuffer buf => Forall byte buf
  | _ => True
  end.

(** The decoder after a call, whatever the outcome (a caller may catch a panic) *)
Definition run_call (d : decoder) (c : call) : decoder :=
  match c with
  | CReadHeaders buf => snd (read_headers d buf)
  | CDecodeBuffer buf => snd (decode_buffer d buf)
  | CRgba => rgba d
  | CSetLimits w h => set_limits w h d
  | CSetOutputColorspace c => set_output_colorspace c d
  | CSetNumThreads n => snd (set_num_threads n d)
  end.

(** A decoder after a history of calls *)
Definition after (cpu : isa) (o : options) (cs : list call) : decoder :=
  fold_left run_call cs (new_with_options cpu o).

(** The outcome is a [Result], not a panic *)
Definition returns {A} (r : res A) : Prop := match r with Ok _ | Err _ => True | _ => False end.
Definition panics {A} (r : res A) : Prop := match r with Panic _ => True | _ => False end.

(** The setters of [ZuneJpegOptions] (src/options.rs) as data *)
Inductive setter : Type :=
| StUseUnsafe (b : bool) | StColorspace (c : colorspace) | StThreads (n : Z)
| StMaxWidth (n : Z) | StMaxHeight (n : Z) | StMaxScans (n : Z) | StStrict (b : bool).
Definition run_setter (o : options) (s : setter) : options :=
  match s with
  | StUseUnsafe b => set_use_unsafe o b
  | StColorspace c => set_out_colorspace o c
  | StThreads n => set_threads o n
  | StMaxWidth n => set_max_width o n
  | StMaxHeight n => set_max_height o n
  | StMaxScans n => set_max_scans o n
  | StStrict b => set_strict_mode o b
  end.

(** The last value a list of setters passes to the setters that [pick] selects *)
Definition last_value {A} (pick : setter -> option A) (ss : list setter) : option A :=
  fold_left (fun acc s => match pick s with Some a => Some a | None => acc end) ss None.
Definition or_default {A} (o : option A) (a : A) : A := match o with Some x => x | None => a end.

(** The deprecated setters of the decoder, as setters of its options; the number of threads is
    one that fits the type of the option *)
Definition setter_call (c : call) : Prop :=
  match c with
  | CReadHeaders _ | CDecodeBuffer _ => False
  | CSetNumThreads n => 1 <= n < 2 ^ 32
  | _ => True
  end.
Definition as_setters (c : call) : list setter :=
  match c with
  | CRgba => [StColorspace RGBA]
  | CSetLimits w h => [StMaxWidth w; StMaxHeight h]
  | CSetOutputColorspace c => [StColorspace c]
  | CSetNumThreads n => [StThreads n]
  | _ => []
  end.
