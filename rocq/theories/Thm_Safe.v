(** Theorems about scans with arbitrary, possibly damaged data (C02, C03). *)
From Coq Require Import ZArith String List Bool Lia.
From Verif Require Import Base Types State Headers Decoder SpecSegments SpecSafe SafeTools Session Files ExTools NoPanic ProgNoPanic SampledNoPanic ProgSampledNoPanic.
Import ListNotations.
Local Open Scope Z_scope.

(** C02 and C03, baseline files without subsampling.  Let the headers be accepted; let the
    frame have one or three components, none of them subsampled, and sides of at most 65527
    pixels; let the output format be one whose conversion does not panic for this width.
    Then whatever bytes follow the scan header, as long as they contain no second frame
    header, decoding ends with an error or with exactly width * height * components bytes.
    The bytes may be random, cut off anywhere, or contain any other markers.
    Missing: the cases refuted below and in [Thm_Api]; for subsampled files see
    [C02_sampled_partial]. *)
Theorem C02_scan_partial : forall cpu o buf d rest,
  Forall byte buf ->
  decode_headers (mkHst (new_with_options cpu o) buf) = (Ok tt, mkHst d rest) ->
  d_prog d = false ->
  i_comps (d_info d) = 1 \/ i_comps (d_info d) = 3 ->
  d_hmax d = 1 -> d_vmax d = 1 ->
  i_width (d_info d) <= 65527 -> i_height (d_info d) <= 65527 ->
  format_ok cpu o (o_colorspace (d_opt d)) (i_width (d_info d)) ->
  no_sof rest ->
  match fst (decode_buffer (new_with_options cpu o) buf) with
  | Ok px => zlen px = i_width (d_info d) * i_height (d_info d) * num_components (o_colorspace (d_opt d))
  | Err _ => True
  | _ => False
  end.
Proof. exact scan_safe. Qed.
Print Assumptions C02_scan_partial.

(** Colour headers followed by bytes that are no valid scan: stuffed and unstuffed FF, a
    restart marker, an APP0 segment and a restart interval, cut off before the end *)
Definition damaged : list Z :=
  [3; 77; 255; 0; 255; 211; 19; 200; 255; 224; 0; 4; 1; 2; 90; 255; 221; 0; 4; 0; 1; 128; 7].
Definition headers_16_24 : list Z :=
  soi ++ dqt 3 ++ sof 192 16 24 [(1, 17); (2, 17); (3, 17)] ++ dht_tiny ++ sos [1; 2; 3].
Definition headers_done (cpu : isa) (o : options) (buf rest : list Z) : option decoder :=
  match decode_headers (mkHst (new_with_options cpu o) buf) with
  | (Ok _, s) => if list_eq_dec Z.eq_dec (hd_rd s) rest then Some (hd_dec s) else None
  | _ => None
  end.
Lemma headers_done_ok cpu o buf rest d : headers_done cpu o buf rest = Some d ->
  decode_headers (mkHst (new_with_options cpu o) buf) = (Ok tt, mkHst d rest).
Proof.
  unfold headers_done. destruct (decode_headers _) as [[[]|e|p|] [d' rd]]; try discriminate. cbn [hd_rd hd_dec].
  destruct (list_eq_dec _ _ _) as [E|E]; [|discriminate]. congruence.
Qed.
Definition case_holds (cpu : isa) (o : options) (d : decoder) : Prop :=
  d_prog d = false /\ (i_comps (d_info d) = 1 \/ i_comps (d_info d) = 3) /\ d_hmax d = 1 /\ d_vmax d = 1 /\
  i_width (d_info d) <= 65527 /\ i_height (d_info d) <= 65527 /\
  format_ok cpu o (o_colorspace (d_opt d)) (i_width (d_info d)).
Example C02_scan_case :
  let buf := headers_16_24 ++ damaged in
  Forall byte buf /\ no_sof damaged /\
  (exists d, decode_headers (mkHst (new_with_options Avx2 default_options) buf) = (Ok tt, mkHst d damaged) /\
    case_holds Avx2 default_options d) /\
  forall k, (k <= length damaged)%nat ->
    match fst (decode_buffer (new_with_options Avx2 default_options) (headers_16_24 ++ firstn k damaged)) with
    | Ok px => zlen px = 16 * 24 * 3
    | Err _ => True
    | _ => False
    end.
Proof.
  split; [apply forallb_byte; vm_compute; reflexivity|]. split; [apply no_sofb_ok; reflexivity|].
  split.
  - destruct (headers_done Avx2 default_options (headers_16_24 ++ damaged) damaged) as [d|] eqn:E; [|vm_compute in E; discriminate].
    exists d. split; [apply headers_done_ok; exact E|].
    vm_compute in E. injection E as <-. unfold case_holds. cbn. repeat split; try lia; auto.
  - intros k Hk. do 24 (destruct k as [|k]; [vm_compute; (reflexivity || exact I)|]). exfalso. cbn [damaged length] in Hk. lia.
Qed.

(** The same for subsampled baseline files: one component with sampling factors, or three
    components of which the first has the largest sampling factors and the others are not
    luminance.  The rows a conversion handles at once must fit the width, and the lines
    written for a vertically sampled image must fit the buffer; neither is always the case,
    see [C02_narrow_refuted], [C02_gray_refuted] and [C52_wide_refuted].
    Missing: three components of which another one than the first has the largest factors. *)
Theorem C02_sampled_partial : forall cpu o buf d rest,
  Forall byte buf ->
  decode_headers (mkHst (new_with_options cpu o) buf) = (Ok tt, mkHst d rest) ->
  d_prog d = false ->
  ~ (d_hmax d = 1 /\ d_vmax d = 1) ->
  i_width (d_info d) <= 65527 -> i_height (d_info d) <= 65527 ->
  (i_comps (d_info d) = 1 /\ format_fits cpu o GRAYSCALE (i_width (d_info d)) (padded (i_width (d_info d)) 1) 8) \/
  (d_incs d = YCbCr /\ luma_first d /\
   format_fits cpu o (o_colorspace (d_opt d)) (i_width (d_info d)) (padded (i_width (d_info d)) (d_hmax d)) (8 * (d_hmax d * d_vmax d)) /\
   lines_fit (i_width (d_info d)) (i_height (d_info d)) (d_hmax d) (d_vmax d)) ->
  no_sof rest ->
  match fst (decode_buffer (new_with_options cpu o) buf) with
  | Ok px => zlen px = i_width (d_info d) * i_height (d_info d) * num_components (o_colorspace (d_opt d))
  | Err _ => True
  | _ => False
  end.
Proof. exact sampled_scan_safe. Qed.
Print Assumptions C02_sampled_partial.

(** The damaged data after the headers of a 4:2:0 image and of an image with one component and
    sampling factors 2 x 1 *)
Definition headers_420 : list Z :=
  soi ++ dqt 3 ++ sof 192 20 30 [(1, 34); (2, 17); (3, 17)] ++ dht_tiny ++ sos [1; 2; 3].
Definition headers_gray21 : list Z :=
  soi ++ dqt 3 ++ sof 192 20 30 [(1, 33)] ++ dht_tiny ++ sos [1].
Definition sampled_case_holds (cpu : isa) (o : options) (d : decoder) : Prop :=
  d_prog d = false /\ ~ (d_hmax d = 1 /\ d_vmax d = 1) /\ i_width (d_info d) <= 65527 /\ i_height (d_info d) <= 65527 /\
  ((i_comps (d_info d) = 1 /\ format_fits cpu o GRAYSCALE (i_width (d_info d)) (padded (i_width (d_info d)) 1) 8) \/
   (d_incs d = YCbCr /\ luma_first d /\
    format_fits cpu o (o_colorspace (d_opt d)) (i_width (d_info d)) (padded (i_width (d_info d)) (d_hmax d)) (8 * (d_hmax d * d_vmax d)) /\
    lines_fit (i_width (d_info d)) (i_height (d_info d)) (d_hmax d) (d_vmax d))).
Definition outcome (r : res (list Z)) : Z :=
  match r with Ok px => zlen px | Err _ => -1 | Panic _ => -2 | Fuel => -3 end.
Example C02_sampled_case :
  Forall byte (headers_420 ++ damaged) /\ Forall byte (headers_gray21 ++ damaged) /\ no_sof damaged /\
  (exists d, decode_headers (mkHst (new_with_options Avx2 default_options) (headers_420 ++ damaged)) = (Ok tt, mkHst d damaged) /\
    sampled_case_holds Avx2 default_options d) /\
  (exists d, decode_headers (mkHst (new_with_options Avx2 default_options) (headers_gray21 ++ damaged)) = (Ok tt, mkHst d damaged) /\
    sampled_case_holds Avx2 default_options d) /\
  map (fun h => outcome (fst (decode_buffer (new_with_options Avx2 default_options) h)))
    [headers_420 ++ damaged; headers_gray21 ++ damaged; headers_420 ++ zero_blocks 60; headers_gray21 ++ zero_blocks 60]
    = [-1; -1; 20 * 30 * 3; 20 * 30].
Proof.
  split; [apply forallb_byte; vm_compute; reflexivity|]. split; [apply forallb_byte; vm_compute; reflexivity|].
  split; [apply no_sofb_ok; reflexivity|]. split; [|split].
  - destruct (headers_done Avx2 default_options (headers_420 ++ damaged) damaged) as [d|] eqn:E; [|vm_compute in E; discriminate].
    exists d. split; [apply headers_done_ok; exact E|].
    vm_compute in E. injection E as <-. unfold sampled_case_holds. cbn. repeat split; try lia.
    right. split; [reflexivity|]. split; [repeat split; discriminate|]. split; [left; discriminate|].
    right. vm_compute. discriminate.
  - destruct (headers_done Avx2 default_options (headers_gray21 ++ damaged) damaged) as [d|] eqn:E; [|vm_compute in E; discriminate].
    exists d. split; [apply headers_done_ok; exact E|].
    vm_compute in E. injection E as <-. unfold sampled_case_holds. cbn. repeat split; try lia.
  - vm_compute. reflexivity.
Qed.

(** Headers of a colour image with quantization tables before and after the frame header; the
    scan is interrupted by a frame header with one component *)
Theorem C02_scan_refuted :
  exists buf, Forall byte buf /\
    returns (fst (read_headers (new_with_options Avx2 default_options) buf)) /\
    panics (fst (decode_buffer (new_with_options Avx2 default_options) buf)).
Proof.
  exists (soi ++ dqt 3 ++ sof 192 16 24 [(1, 17); (2, 17); (3, 17)] ++ dqt 3 ++ dht_tiny ++ sos [1; 2; 3]
          ++ zero_blocks 1 ++ sof 192 16 24 [(1, 17)]). split; [apply forallb_byte; vm_compute; reflexivity|].
  split; vm_compute; exact I.
Qed.
Print Assumptions C02_scan_refuted.

(** The same for progressive files, where not even a second frame header after the first scan
    does any harm: the bytes after the first scan header are arbitrary.  The input colour
    space must agree with the frame header, see below. *)
Theorem C02_progressive_partial : forall cpu o buf d rest,
  Forall byte buf ->
  decode_headers (mkHst (new_with_options cpu o) buf) = (Ok tt, mkHst d rest) ->
  d_prog d = true ->
  num_components (d_incs d) = i_comps (d_info d) ->
  d_hmax d = 1 -> d_vmax d = 1 ->
  i_width (d_info d) <= 65527 -> i_height (d_info d) <= 65527 ->
  format_ok cpu o (o_colorspace (d_opt d)) (i_width (d_info d)) ->
  match fst (decode_buffer (new_with_options cpu o) buf) with
  | Ok px => zlen px = i_width (d_info d) * i_height (d_info d) * num_components (o_colorspace (d_opt d))
  | Err _ => True
  | _ => False
  end.
Proof. exact progressive_safe. Qed.
Print Assumptions C02_progressive_partial.

(** A DC scan, then a scan header that selects coefficients 9 to 40 of the second component,
    with damaged data and a restart marker in them *)
Definition headers_prog : list Z :=
  soi ++ dqt 3 ++ sof 194 16 24 [(1, 17); (2, 17); (3, 17)] ++ dht_tiny ++ sos_at [1; 2; 3] 0 0 1.
Definition prog_case_holds (cpu : isa) (o : options) (d : decoder) : Prop :=
  d_prog d = true /\ num_components (d_incs d) = i_comps (d_info d) /\ d_hmax d = 1 /\ d_vmax d = 1 /\
  i_width (d_info d) <= 65527 /\ i_height (d_info d) <= 65527 /\
  format_ok cpu o (o_colorspace (d_opt d)) (i_width (d_info d)).
Definition damaged_scan : list Z :=
  [0; 0; 19; 255; 0; 200] ++ dht_dc one [5] ++ sos_at [2] 9 40 2 ++ [1; 200; 99; 255; 208; 3; 240; 255; 0; 71].
Example C02_progressive_case :
  let buf := headers_prog ++ damaged_scan in
  Forall byte buf /\
  (exists d, decode_headers (mkHst (new_with_options Avx2 default_options) buf) = (Ok tt, mkHst d damaged_scan) /\
    prog_case_holds Avx2 default_options d) /\
  map (fun k => outcome (fst (decode_buffer (new_with_options Avx2 default_options) (headers_prog ++ firstn k damaged_scan))))
    [2; 30; length damaged_scan]%nat = [-1; -1; 16 * 24 * 3].
Proof.
  split; [apply forallb_byte; vm_compute; reflexivity|].
  split.
  - destruct (headers_done Avx2 default_options (headers_prog ++ damaged_scan) damaged_scan) as [d|] eqn:E; [|vm_compute in E; discriminate].
    exists d. split; [apply headers_done_ok; exact E|].
    vm_compute in E. injection E as <-. unfold prog_case_holds. cbn. repeat split; try lia; auto.
  - vm_compute. reflexivity.
Qed.

(** Two frame headers before the scan: the first one declares one component, which makes the
    decoder expect grayscale data for good *)
Theorem C02_frames_refuted :
  exists buf, Forall byte buf /\
    returns (fst (read_headers (new_with_options Avx2 default_options) buf)) /\
    panics (fst (decode_buffer (new_with_options Avx2 default_options) buf)).
Proof.
  exists (soi ++ dqt 3 ++ sof 194 16 24 [(1, 17)] ++ dqt 3 ++ sof 194 16 24 [(1, 17); (2, 17); (3, 17)]
          ++ dht_tiny ++ sos_at [2] 0 0 0 ++ zero_blocks 6 ++ eoi).
  split; [apply forallb_byte; vm_compute; reflexivity|]. split; vm_compute; exact I.
Qed.
Print Assumptions C02_frames_refuted.

(** Progressive files with subsampling: one component that is not too tall, or three
    components of which the first has the largest sampling factors. *)
Theorem C02_progressive_sampled_partial : forall cpu o buf d rest,
  Forall byte buf ->
  decode_headers (mkHst (new_with_options cpu o) buf) = (Ok tt, mkHst d rest) ->
  d_prog d = true ->
  ~ (d_hmax d = 1 /\ d_vmax d = 1) ->
  i_width (d_info d) <= 65527 -> i_height (d_info d) <= 65527 ->
  (i_comps (d_info d) = 1 /\ alone d /\ not_tall (i_width (d_info d)) (i_height (d_info d)) (d_hmax d) (d_vmax d)) \/
  (d_incs d = YCbCr /\ luma_first d /\
   format_fits cpu o (o_colorspace (d_opt d)) (i_width (d_info d)) (padded (i_width (d_info d)) (d_hmax d)) (8 * (d_hmax d * d_vmax d))) ->
  match fst (decode_buffer (new_with_options cpu o) buf) with
  | Ok px => zlen px = i_width (d_info d) * i_height (d_info d) * num_components (o_colorspace (d_opt d))
  | Err _ => True
  | _ => False
  end.
Proof. exact sampled_progressive_safe. Qed.
Print Assumptions C02_progressive_sampled_partial.

(** The damaged scans after the headers of a 4:2:0 image and of an image with one component and
    sampling factors 2 x 1; and undamaged ones *)
Definition headers_prog_420 : list Z :=
  soi ++ dqt 3 ++ sof 194 20 30 [(1, 34); (2, 17); (3, 17)] ++ dht_tiny ++ sos_at [1; 2; 3] 0 0 1.
Definition headers_prog_gray (h w hv : Z) : list Z :=
  soi ++ dqt 3 ++ sof 194 h w [(1, hv)] ++ dht_tiny ++ sos_at [1] 0 0 0.
Definition prog_sampled_case_holds (cpu : isa) (o : options) (d : decoder) : Prop :=
  d_prog d = true /\ ~ (d_hmax d = 1 /\ d_vmax d = 1) /\ i_width (d_info d) <= 65527 /\ i_height (d_info d) <= 65527 /\
  ((i_comps (d_info d) = 1 /\ alone d /\ not_tall (i_width (d_info d)) (i_height (d_info d)) (d_hmax d) (d_vmax d)) \/
   (d_incs d = YCbCr /\ luma_first d /\
    format_fits cpu o (o_colorspace (d_opt d)) (i_width (d_info d)) (padded (i_width (d_info d)) (d_hmax d)) (8 * (d_hmax d * d_vmax d)))).
Example C02_progressive_sampled_case :
  let gray := headers_prog_gray 20 30 33 in
  Forall byte (headers_prog_420 ++ damaged_scan) /\ Forall byte (gray ++ damaged_scan) /\
  (exists d, decode_headers (mkHst (new_with_options Avx2 default_options) (headers_prog_420 ++ damaged_scan)) = (Ok tt, mkHst d damaged_scan) /\
    prog_sampled_case_holds Avx2 default_options d) /\
  (exists d, decode_headers (mkHst (new_with_options Avx2 default_options) (gray ++ damaged_scan)) = (Ok tt, mkHst d damaged_scan) /\
    prog_sampled_case_holds Avx2 default_options d) /\
  map (fun h => outcome (fst (decode_buffer (new_with_options Avx2 default_options) h)))
    [headers_prog_420 ++ damaged_scan; gray ++ damaged_scan; headers_prog_420 ++ repeat 0 3 ++ eoi; gray ++ repeat 0 2 ++ eoi]
    = [-1; -1; 20 * 30 * 3; 20 * 30].
Proof.
  cbv zeta. split; [apply forallb_byte; vm_compute; reflexivity|]. split; [apply forallb_byte; vm_compute; reflexivity|]. split; [|split].
  - destruct (headers_done Avx2 default_options (headers_prog_420 ++ damaged_scan) damaged_scan) as [d|] eqn:E; [|vm_compute in E; discriminate].
    exists d. split; [apply headers_done_ok; exact E|].
    vm_compute in E. injection E as <-. unfold prog_sampled_case_holds. cbn. repeat split; try lia.
    right. split; [reflexivity|]. split; [repeat split; discriminate|]. left; discriminate.
  - destruct (headers_done Avx2 default_options (headers_prog_gray 20 30 33 ++ damaged_scan) damaged_scan) as [d|] eqn:E; [|vm_compute in E; discriminate].
    exists d. split; [apply headers_done_ok; exact E|].
    vm_compute in E. injection E as <-. unfold prog_sampled_case_holds. cbn. repeat split; try lia.
    left. split; [reflexivity|]. split; [split; reflexivity|]. vm_compute. reflexivity.
  - vm_compute. reflexivity.
Qed.

(** An image of 8 x 512 pixels with one component and the sampling factors 1 x 2 is too tall:
    all its blocks are zero, and it panics *)
Theorem C02_tall_refuted : forall cpu,
  exists buf, Forall byte buf /\
    returns (fst (read_headers (new_with_options cpu default_options) buf)) /\
    panics (fst (decode_buffer (new_with_options cpu default_options) buf)).
Proof.
  intros cpu. exists (headers_prog_gray 512 8 18 ++ repeat 0 9 ++ eoi). split; [apply forallb_byte; vm_compute; reflexivity|].
  split; destruct cpu; vm_compute; exact I.
Qed.
Print Assumptions C02_tall_refuted.
