(** src/upsampler/scalar.rs *)
From Coq Require Import ZArith String List Bool.
From Verif Require Import Base.
Import ListNotations.
Local Open Scope Z_scope.
Local Open Scope res_scope.

(** [(3 * a + b + 2) >> 2] on i16, wrapping *)
Definition tri (a b : Z) : Z := shr (i16 (3 * a + b + 2)) 2.

(** src/upsampler/scalar.rs:31-45: [input.windows(3)], two output samples per window *)
Fixpoint horiz_middle (input : list Z) : list Z :=
  match input with
  | a :: ((b :: c :: _) as t) => tri b a :: tri b c :: horiz_middle t
  | _ => []
  end.

(** src/upsampler/scalar.rs:5-60 [upsample_horizontal] *)
Definition upsample_horizontal (input : list Z) (output_len : Z) : res (list Z) :=
  if (4 <? output_len) && (2 <? zlen input) then
    let n := zlen input in
    let room := 2 * ((output_len - 2) / 2) in
    let head := [zn input 0; tri (zn input 0) (zn input 1)] in
    let body := firstn (Z.to_nat room) (horiz_middle input) in
    let out := splice (zrepeat 0 output_len) 0 (head ++ body)%list in
    Ok (splice out (output_len - 2) [tri (zn input (n - 2)) (zn input (n - 1)); zn input (n - 1)])
  else Panic "Too Short of a vector, cannot upsample".

(** [iter.next().unwrap_or(d)] *)
Definition next_or {A} (it : list A) (d : A) : A * list A :=
  match it with x :: t => (x, t) | [] => (d, []) end.

(** src/upsampler/scalar.rs:110-124: the zip of the two rows with the two parts of the
    output; it stops with the shortest.  [on] and [of] are the current contents. *)
Fixpoint vert_zip (near far on of : list Z) : list Z * list Z :=
  match near, far, on, of with
  | n :: near', f :: far', _ :: on', _ :: of' =>
      let '(a, b) := vert_zip near' far' on' of' in (tri n f :: a, tri f n :: b)
  | _, _, _, _ => (on, of)
  end.

(** src/upsampler/scalar.rs:93-145 *)
Fixpoint vert_loop (n : nat) (stride : Z) (near_it far_it : list (list Z))
  (rw_n rw_f : list Z) (next_row : bool) (i : Z) (out : list Z) : res (list Z) :=
  match n with
  | O => Ok out
  | S n' =>
      if (zlen out <? i) || (zlen out - i <? stride) then Panic "split_at_mut"
      else
        let rest := skipn (Z.to_nat i) out in
        let on := firstn (Z.to_nat stride) rest in
        let of := skipn (Z.to_nat stride) rest in
        let '(on', of') := vert_zip rw_n rw_f on of in
        let out' := (firstn (Z.to_nat i) out ++ on' ++ of')%list in
        let '(rw_n', near_it') := next_or near_it rw_n in
        let '(f1, far_it1) := next_or far_it rw_n' in
        let '(rw_f', far_it') := if next_row then next_or far_it1 rw_n' else (f1, far_it1) in
        vert_loop n' stride near_it' far_it' rw_n' rw_f' false (i + stride * 2) out'
  end.

(** src/upsampler/scalar.rs:64-147 [upsample_vertical] *)
Definition upsample_vertical (input : list Z) (output_len : Z) : res (list Z) :=
  let stride := shr (zlen input) 3 in
  rows <~ chunks_exact stride input ;;
  match rows with
  | [] => Panic "called `Option::unwrap()` on a `None` value"
  | r0 :: rest => vert_loop 8 stride rest rest r0 r0 true 0 (zrepeat 0 output_len)
  end.

(** src/upsampler/scalar.rs:148-166 [upsample_hv] *)
Definition upsample_hv (input : list Z) (output_len : Z) : res (list Z) :=
  first <~ upsample_vertical input (zlen input * 2) ;;
  upsample_horizontal first output_len.
