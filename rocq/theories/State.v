(** The [Decoder] state.  The setters are functional record updates, [set_f v r] is
    [r] with field [f] replaced by [v]. *)
From Coq Require Import ZArith String List Bool.
From Verif Require Import Base Types Huffman.
Import ListNotations.
Local Open Scope Z_scope.

(** The functions [Components::up_sampler] can point to (src/components.rs:107,
    src/decoder.rs:486-509, src/upsampler.rs:82-112). *)
Inductive upsampler : Type := UpNoOp | UpHoriz | UpHorizSse | UpVert | UpHV | UpHVAvx2.
(** The functions [Decoder::idct_func] can point to (src/idct.rs:40-60). *)
Inductive idct_kind : Type := IdctScalar | IdctAvx2.
(** The functions [Decoder::color_convert_16] can point to (src/color_convert.rs:61-107 with
    the fixed argument [ColorSpace::RGB] of src/decoder.rs:128). *)
Inductive cc_kind : Type := CcScalar | CcSse | CcAvx2.

(** src/components.rs:18-43 [Components] *)
Record component : Type := mkComp {
  c_cid : component_id;
  c_v : Z;
  c_h : Z;
  c_dct : Z;
  c_act : Z;
  c_qn : Z;
  c_qt : list Z;
  c_pred : Z;
  c_ups : upsampler;
  c_stride : Z;
  c_id : Z }.

Definition set_c_cid (v : component_id) (r : component) : component :=
  mkComp v (c_v r) (c_h r) (c_dct r) (c_act r) (c_qn r) (c_qt r) (c_pred r) (c_ups r) (c_stride r) (c_id r).
Definition set_c_v (v : Z) (r : component) : component :=
  mkComp (c_cid r) v (c_h r) (c_dct r) (c_act r) (c_qn r) (c_qt r) (c_pred r) (c_ups r) (c_stride r) (c_id r).
Definition set_c_h (v : Z) (r : component) : component :=
  mkComp (c_cid r) (c_v r) v (c_dct r) (c_act r) (c_qn r) (c_qt r) (c_pred r) (c_ups r) (c_stride r) (c_id r).
Definition set_c_dct (v : Z) (r : component) : component :=
  mkComp (c_cid r) (c_v r) (c_h r) v (c_act r) (c_qn r) (c_qt r) (c_pred r) (c_ups r) (c_stride r) (c_id r).
Definition set_c_act (v : Z) (r : component) : component :=
  mkComp (c_cid r) (c_v r) (c_h r) (c_dct r) v (c_qn r) (c_qt r) (c_pred r) (c_ups r) (c_stride r) (c_id r).
Definition set_c_qn (v : Z) (r : component) : component :=
  mkComp (c_cid r) (c_v r) (c_h r) (c_dct r) (c_act r) v (c_qt r) (c_pred r) (c_ups r) (c_stride r) (c_id r).
Definition set_c_qt (v : list Z) (r : component) : component :=
  mkComp (c_cid r) (c_v r) (c_h r) (c_dct r) (c_act r) (c_qn r) v (c_pred r) (c_ups r) (c_stride r) (c_id r).
Definition set_c_pred (v : Z) (r : component) : component :=
  mkComp (c_cid r) (c_v r) (c_h r) (c_dct r) (c_act r) (c_qn r) (c_qt r) v (c_ups r) (c_stride r) (c_id r).
Definition set_c_ups (v : upsampler) (r : component) : component :=
  mkComp (c_cid r) (c_v r) (c_h r) (c_dct r) (c_act r) (c_qn r) (c_qt r) (c_pred r) v (c_stride r) (c_id r).
Definition set_c_stride (v : Z) (r : component) : component :=
  mkComp (c_cid r) (c_v r) (c_h r) (c_dct r) (c_act r) (c_qn r) (c_qt r) (c_pred r) (c_ups r) v (c_id r).
Definition set_c_id (v : Z) (r : component) : component :=
  mkComp (c_cid r) (c_v r) (c_h r) (c_dct r) (c_act r) (c_qn r) (c_qt r) (c_pred r) (c_ups r) (c_stride r) v.

(** src/decoder.rs:652-668 [ImageInfo] *)
Record info : Type := mkInfo {
  i_width : Z;
  i_height : Z;
  i_density : Z;
  i_sof : sofmarker;
  i_x : Z;
  i_y : Z;
  i_comps : Z }.

Definition set_i_width (v : Z) (r : info) : info :=
  mkInfo v (i_height r) (i_density r) (i_sof r) (i_x r) (i_y r) (i_comps r).
Definition set_i_height (v : Z) (r : info) : info :=
  mkInfo (i_width r) v (i_density r) (i_sof r) (i_x r) (i_y r) (i_comps r).
Definition set_i_density (v : Z) (r : info) : info :=
  mkInfo (i_width r) (i_height r) v (i_sof r) (i_x r) (i_y r) (i_comps r).
Definition set_i_sof (v : sofmarker) (r : info) : info :=
  mkInfo (i_width r) (i_height r) (i_density r) v (i_x r) (i_y r) (i_comps r).
Definition set_i_x (v : Z) (r : info) : info :=
  mkInfo (i_width r) (i_height r) (i_density r) (i_sof r) v (i_y r) (i_comps r).
Definition set_i_y (v : Z) (r : info) : info :=
  mkInfo (i_width r) (i_height r) (i_density r) (i_sof r) (i_x r) v (i_comps r).
Definition set_i_comps (v : Z) (r : info) : info :=
  mkInfo (i_width r) (i_height r) (i_density r) (i_sof r) (i_x r) (i_y r) v.

(** src/decoder.rs:60-121 [Decoder]; [d_isa] is added: the CPU the process runs on, which
    [set_upsampling] consults again. *)
Record decoder : Type := mkDecoder {
  d_info : info;
  d_qt : list (option (list Z));
  d_dcts : list (option hufftable);
  d_acts : list (option hufftable);
  d_comps : list component;
  d_hmax : Z;
  d_vmax : Z;
  d_mcuw : Z;
  d_mcuh : Z;
  d_mcux : Z;
  d_mcuy : Z;
  d_inter : bool;
  d_ratio : ratio;
  d_incs : colorspace;
  d_prog : bool;
  d_ss : Z;
  d_se : Z;
  d_ah : Z;
  d_al : Z;
  d_nscans : Z;
  d_idct : idct_kind;
  d_cc : cc_kind;
  d_zorder : list Z;
  d_ri : Z;
  d_todo : Z;
  d_opt : options;
  d_isa : isa }.

Definition set_d_info (v : info) (r : decoder) : decoder :=
  mkDecoder v (d_qt r) (d_dcts r) (d_acts r) (d_comps r) (d_hmax r) (d_vmax r) (d_mcuw r) (d_mcuh r) (d_mcux r) (d_mcuy r) (d_inter r) (d_ratio r) (d_incs r) (d_prog r) (d_ss r) (d_se r) (d_ah r) (d_al r) (d_nscans r) (d_idct r) (d_cc r) (d_zorder r) (d_ri r) (d_todo r) (d_opt r) (d_isa r).
Definition set_d_qt (v : list (option (list Z))) (r : decoder) : decoder :=
  mkDecoder (d_info r) v (d_dcts r) (d_acts r) (d_comps r) (d_hmax r) (d_vmax r) (d_mcuw r) (d_mcuh r) (d_mcux r) (d_mcuy r) (d_inter r) (d_ratio r) (d_incs r) (d_prog r) (d_ss r) (d_se r) (d_ah r) (d_al r) (d_nscans r) (d_idct r) (d_cc r) (d_zorder r) (d_ri r) (d_todo r) (d_opt r) (d_isa r).
Definition set_d_dcts (v : list (option hufftable)) (r : decoder) : decoder :=
  mkDecoder (d_info r) (d_qt r) v (d_acts r) (d_comps r) (d_hmax r) (d_vmax r) (d_mcuw r) (d_mcuh r) (d_mcux r) (d_mcuy r) (d_inter r) (d_ratio r) (d_incs r) (d_prog r) (d_ss r) (d_se r) (d_ah r) (d_al r) (d_nscans r) (d_idct r) (d_cc r) (d_zorder r) (d_ri r) (d_todo r) (d_opt r) (d_isa r).
Definition set_d_acts (v : list (option hufftable)) (r : decoder) : decoder :=
  mkDecoder (d_info r) (d_qt r) (d_dcts r) v (d_comps r) (d_hmax r) (d_vmax r) (d_mcuw r) (d_mcuh r) (d_mcux r) (d_mcuy r) (d_inter r) (d_ratio r) (d_incs r) (d_prog r) (d_ss r) (d_se r) (d_ah r) (d_al r) (d_nscans r) (d_idct r) (d_cc r) (d_zorder r) (d_ri r) (d_todo r) (d_opt r) (d_isa r).
Definition set_d_comps (v : list component) (r : decoder) : decoder :=
  mkDecoder (d_info r) (d_qt r) (d_dcts r) (d_acts r) v (d_hmax r) (d_vmax r) (d_mcuw r) (d_mcuh r) (d_mcux r) (d_mcuy r) (d_inter r) (d_ratio r) (d_incs r) (d_prog r) (d_ss r) (d_se r) (d_ah r) (d_al r) (d_nscans r) (d_idct r) (d_cc r) (d_zorder r) (d_ri r) (d_todo r) (d_opt r) (d_isa r).
Definition set_d_hmax (v : Z) (r : decoder) : decoder :=
  mkDecoder (d_info r) (d_qt r) (d_dcts r) (d_acts r) (d_comps r) v (d_vmax r) (d_mcuw r) (d_mcuh r) (d_mcux r) (d_mcuy r) (d_inter r) (d_ratio r) (d_incs r) (d_prog r) (d_ss r) (d_se r) (d_ah r) (d_al r) (d_nscans r) (d_idct r) (d_cc r) (d_zorder r) (d_ri r) (d_todo r) (d_opt r) (d_isa r).
Definition set_d_vmax (v : Z) (r : decoder) : decoder :=
  mkDecoder (d_info r) (d_qt r) (d_dcts r) (d_acts r) (d_comps r) (d_hmax r) v (d_mcuw r) (d_mcuh r) (d_mcux r) (d_mcuy r) (d_inter r) (d_ratio r) (d_incs r) (d_prog r) (d_ss r) (d_se r) (d_ah r) (d_al r) (d_nscans r) (d_idct r) (d_cc r) (d_zorder r) (d_ri r) (d_todo r) (d_opt r) (d_isa r).
Definition set_d_mcuw (v : Z) (r : decoder) : decoder :=
  mkDecoder (d_info r) (d_qt r) (d_dcts r) (d_acts r) (d_comps r) (d_hmax r) (d_vmax r) v (d_mcuh r) (d_mcux r) (d_mcuy r) (d_inter r) (d_ratio r) (d_incs r) (d_prog r) (d_ss r) (d_se r) (d_ah r) (d_al r) (d_nscans r) (d_idct r) (d_cc r) (d_zorder r) (d_ri r) (d_todo r) (d_opt r) (d_isa r).
Definition set_d_mcuh (v : Z) (r : decoder) : decoder :=
  mkDecoder (d_info r) (d_qt r) (d_dcts r) (d_acts r) (d_comps r) (d_hmax r) (d_vmax r) (d_mcuw r) v (d_mcux r) (d_mcuy r) (d_inter r) (d_ratio r) (d_incs r) (d_prog r) (d_ss r) (d_se r) (d_ah r) (d_al r) (d_nscans r) (d_idct r) (d_cc r) (d_zorder r) (d_ri r) (d_todo r) (d_opt r) (d_isa r).
Definition set_d_mcux (v : Z) (r : decoder) : decoder :=
  mkDecoder (d_info r) (d_qt r) (d_dcts r) (d_acts r) (d_comps r) (d_hmax r) (d_vmax r) (d_mcuw r) (d_mcuh r) v (d_mcuy r) (d_inter r) (d_ratio r) (d_incs r) (d_prog r) (d_ss r) (d_se r) (d_ah r) (d_al r) (d_nscans r) (d_idct r) (d_cc r) (d_zorder r) (d_ri r) (d_todo r) (d_opt r) (d_isa r).
Definition set_d_mcuy (v : Z) (r : decoder) : decoder :=
  mkDecoder (d_info r) (d_qt r) (d_dcts r) (d_acts r) (d_comps r) (d_hmax r) (d_vmax r) (d_mcuw r) (d_mcuh r) (d_mcux r) v (d_inter r) (d_ratio r) (d_incs r) (d_prog r) (d_ss r) (d_se r) (d_ah r) (d_al r) (d_nscans r) (d_idct r) (d_cc r) (d_zorder r) (d_ri r) (d_todo r) (d_opt r) (d_isa r).
Definition set_d_inter (v : bool) (r : decoder) : decoder :=
  mkDecoder (d_info r) (d_qt r) (d_dcts r) (d_acts r) (d_comps r) (d_hmax r) (d_vmax r) (d_mcuw r) (d_mcuh r) (d_mcux r) (d_mcuy r) v (d_ratio r) (d_incs r) (d_prog r) (d_ss r) (d_se r) (d_ah r) (d_al r) (d_nscans r) (d_idct r) (d_cc r) (d_zorder r) (d_ri r) (d_todo r) (d_opt r) (d_isa r).
Definition set_d_ratio (v : ratio) (r : decoder) : decoder :=
  mkDecoder (d_info r) (d_qt r) (d_dcts r) (d_acts r) (d_comps r) (d_hmax r) (d_vmax r) (d_mcuw r) (d_mcuh r) (d_mcux r) (d_mcuy r) (d_inter r) v (d_incs r) (d_prog r) (d_ss r) (d_se r) (d_ah r) (d_al r) (d_nscans r) (d_idct r) (d_cc r) (d_zorder r) (d_ri r) (d_todo r) (d_opt r) (d_isa r).
Definition set_d_incs (v : colorspace) (r : decoder) : decoder :=
  mkDecoder (d_info r) (d_qt r) (d_dcts r) (d_acts r) (d_comps r) (d_hmax r) (d_vmax r) (d_mcuw r) (d_mcuh r) (d_mcux r) (d_mcuy r) (d_inter r) (d_ratio r) v (d_prog r) (d_ss r) (d_se r) (d_ah r) (d_al r) (d_nscans r) (d_idct r) (d_cc r) (d_zorder r) (d_ri r) (d_todo r) (d_opt r) (d_isa r).
Definition set_d_prog (v : bool) (r : decoder) : decoder :=
  mkDecoder (d_info r) (d_qt r) (d_dcts r) (d_acts r) (d_comps r) (d_hmax r) (d_vmax r) (d_mcuw r) (d_mcuh r) (d_mcux r) (d_mcuy r) (d_inter r) (d_ratio r) (d_incs r) v (d_ss r) (d_se r) (d_ah r) (d_al r) (d_nscans r) (d_idct r) (d_cc r) (d_zorder r) (d_ri r) (d_todo r) (d_opt r) (d_isa r).
Definition set_d_ss (v : Z) (r : decoder) : decoder :=
  mkDecoder (d_info r) (d_qt r) (d_dcts r) (d_acts r) (d_comps r) (d_hmax r) (d_vmax r) (d_mcuw r) (d_mcuh r) (d_mcux r) (d_mcuy r) (d_inter r) (d_ratio r) (d_incs r) (d_prog r) v (d_se r) (d_ah r) (d_al r) (d_nscans r) (d_idct r) (d_cc r) (d_zorder r) (d_ri r) (d_todo r) (d_opt r) (d_isa r).
Definition set_d_se (v : Z) (r : decoder) : decoder :=
  mkDecoder (d_info r) (d_qt r) (d_dcts r) (d_acts r) (d_comps r) (d_hmax r) (d_vmax r) (d_mcuw r) (d_mcuh r) (d_mcux r) (d_mcuy r) (d_inter r) (d_ratio r) (d_incs r) (d_prog r) (d_ss r) v (d_ah r) (d_al r) (d_nscans r) (d_idct r) (d_cc r) (d_zorder r) (d_ri r) (d_todo r) (d_opt r) (d_isa r).
Definition set_d_ah (v : Z) (r : decoder) : decoder :=
  mkDecoder (d_info r) (d_qt r) (d_dcts r) (d_acts r) (d_comps r) (d_hmax r) (d_vmax r) (d_mcuw r) (d_mcuh r) (d_mcux r) (d_mcuy r) (d_inter r) (d_ratio r) (d_incs r) (d_prog r) (d_ss r) (d_se r) v (d_al r) (d_nscans r) (d_idct r) (d_cc r) (d_zorder r) (d_ri r) (d_todo r) (d_opt r) (d_isa r).
Definition set_d_al (v : Z) (r : decoder) : decoder :=
  mkDecoder (d_info r) (d_qt r) (d_dcts r) (d_acts r) (d_comps r) (d_hmax r) (d_vmax r) (d_mcuw r) (d_mcuh r) (d_mcux r) (d_mcuy r) (d_inter r) (d_ratio r) (d_incs r) (d_prog r) (d_ss r) (d_se r) (d_ah r) v (d_nscans r) (d_idct r) (d_cc r) (d_zorder r) (d_ri r) (d_todo r) (d_opt r) (d_isa r).
Definition set_d_nscans (v : Z) (r : decoder) : decoder :=
  mkDecoder (d_info r) (d_qt r) (d_dcts r) (d_acts r) (d_comps r) (d_hmax r) (d_vmax r) (d_mcuw r) (d_mcuh r) (d_mcux r) (d_mcuy r) (d_inter r) (d_ratio r) (d_incs r) (d_prog r) (d_ss r) (d_se r) (d_ah r) (d_al r) v (d_idct r) (d_cc r) (d_zorder r) (d_ri r) (d_todo r) (d_opt r) (d_isa r).
Definition set_d_idct (v : idct_kind) (r : decoder) : decoder :=
  mkDecoder (d_info r) (d_qt r) (d_dcts r) (d_acts r) (d_comps r) (d_hmax r) (d_vmax r) (d_mcuw r) (d_mcuh r) (d_mcux r) (d_mcuy r) (d_inter r) (d_ratio r) (d_incs r) (d_prog r) (d_ss r) (d_se r) (d_ah r) (d_al r) (d_nscans r) v (d_cc r) (d_zorder r) (d_ri r) (d_todo r) (d_opt r) (d_isa r).
Definition set_d_cc (v : cc_kind) (r : decoder) : decoder :=
  mkDecoder (d_info r) (d_qt r) (d_dcts r) (d_acts r) (d_comps r) (d_hmax r) (d_vmax r) (d_mcuw r) (d_mcuh r) (d_mcux r) (d_mcuy r) (d_inter r) (d_ratio r) (d_incs r) (d_prog r) (d_ss r) (d_se r) (d_ah r) (d_al r) (d_nscans r) (d_idct r) v (d_zorder r) (d_ri r) (d_todo r) (d_opt r) (d_isa r).
Definition set_d_zorder (v : list Z) (r : decoder) : decoder :=
  mkDecoder (d_info r) (d_qt r) (d_dcts r) (d_acts r) (d_comps r) (d_hmax r) (d_vmax r) (d_mcuw r) (d_mcuh r) (d_mcux r) (d_mcuy r) (d_inter r) (d_ratio r) (d_incs r) (d_prog r) (d_ss r) (d_se r) (d_ah r) (d_al r) (d_nscans r) (d_idct r) (d_cc r) v (d_ri r) (d_todo r) (d_opt r) (d_isa r).
Definition set_d_ri (v : Z) (r : decoder) : decoder :=
  mkDecoder (d_info r) (d_qt r) (d_dcts r) (d_acts r) (d_comps r) (d_hmax r) (d_vmax r) (d_mcuw r) (d_mcuh r) (d_mcux r) (d_mcuy r) (d_inter r) (d_ratio r) (d_incs r) (d_prog r) (d_ss r) (d_se r) (d_ah r) (d_al r) (d_nscans r) (d_idct r) (d_cc r) (d_zorder r) v (d_todo r) (d_opt r) (d_isa r).
Definition set_d_todo (v : Z) (r : decoder) : decoder :=
  mkDecoder (d_info r) (d_qt r) (d_dcts r) (d_acts r) (d_comps r) (d_hmax r) (d_vmax r) (d_mcuw r) (d_mcuh r) (d_mcux r) (d_mcuy r) (d_inter r) (d_ratio r) (d_incs r) (d_prog r) (d_ss r) (d_se r) (d_ah r) (d_al r) (d_nscans r) (d_idct r) (d_cc r) (d_zorder r) (d_ri r) v (d_opt r) (d_isa r).
Definition set_d_opt (v : options) (r : decoder) : decoder :=
  mkDecoder (d_info r) (d_qt r) (d_dcts r) (d_acts r) (d_comps r) (d_hmax r) (d_vmax r) (d_mcuw r) (d_mcuh r) (d_mcux r) (d_mcuy r) (d_inter r) (d_ratio r) (d_incs r) (d_prog r) (d_ss r) (d_se r) (d_ah r) (d_al r) (d_nscans r) (d_idct r) (d_cc r) (d_zorder r) (d_ri r) (d_todo r) v (d_isa r).
Definition set_d_isa (v : isa) (r : decoder) : decoder :=
  mkDecoder (d_info r) (d_qt r) (d_dcts r) (d_acts r) (d_comps r) (d_hmax r) (d_vmax r) (d_mcuw r) (d_mcuh r) (d_mcux r) (d_mcuy r) (d_inter r) (d_ratio r) (d_incs r) (d_prog r) (d_ss r) (d_se r) (d_ah r) (d_al r) (d_nscans r) (d_idct r) (d_cc r) (d_zorder r) (d_ri r) (d_todo r) (d_opt r) v.

(** src/decoder.rs:650 [#[derive(Default)]] *)
Definition default_info : info := mkInfo 0 0 0 BaselineDct 0 0 0.

(** src/idct.rs:40-60 [choose_idct_func] *)
Definition choose_idct_func (cpu : isa) (use_unsafe : bool) : idct_kind :=
  match cpu with
  | Avx2 => if use_unsafe then IdctAvx2 else IdctScalar
  | _ => IdctScalar
  end.

(** src/color_convert.rs:61-107 [choose_ycbcr_to_rgb_convert_func(ColorSpace::RGB, ..)] *)
Definition choose_color_convert (cpu : isa) (use_unsafe : bool) : cc_kind :=
  if use_unsafe then
    match cpu with Avx2 => CcAvx2 | Sse41 => CcSse | Scalar => CcScalar end
  else CcScalar.

(** src/upsampler.rs:80-97 [choose_horizontal_samp_function] *)
Definition choose_horizontal (cpu : isa) (use_unsafe : bool) : upsampler :=
  match cpu with
  | Scalar => UpHoriz
  | _ => if use_unsafe then UpHorizSse else UpHoriz
  end.

(** src/upsampler.rs:98-112 [choose_hv_samp_function] *)
Definition choose_hv (cpu : isa) (use_unsafe : bool) : upsampler :=
  match cpu with
  | Avx2 => if use_unsafe then UpHVAvx2 else UpHV
  | _ => UpHV
  end.

(** src/decoder.rs:125-170 [Decoder::default] *)
Definition decoder_default (cpu : isa) (o : options) : decoder :=
  mkDecoder default_info [None; None; None; None] [None; None; None; None]
    [None; None; None; None] [] 1 1 0 0 0 0 false RNone YCbCr false 0 0 0 0 0
    (choose_idct_func cpu (o_use_unsafe o)) (choose_color_convert cpu (o_use_unsafe o))
    [0; 0; 0; 0] 0 2147483647 o cpu.

(** src/components.rs:49-114 [Components::from] *)
Definition is_power_of_two (n : Z) : bool := (n =? 1) || (n =? 2) || (n =? 4) || (n =? 8).
Definition component_from (a0 a1 a2 : Z) : res component :=
  let hs := shr a1 4 in
  let vs := Z.land a1 15 in
  match (match a0 with 1 => Some CY | 2 => Some CCb | 3 => Some CCr | _ => None end) with
  | None => Err (EFormat "Unknown component id found" [a0])
  | Some cid =>
      if 4 <=? a2 then Err (EFormat "Too large quantization number" [a2])
      else if negb (is_power_of_two hs) then
        Err (EFormat "Horizontal sample is not a power of two" [hs])
      else if negb (is_power_of_two vs) then
        Err (EFormat "Vertical sub-sample is not power of two" [vs])
      else Ok (mkComp cid vs hs 0 0 a2 (zrepeat 0 64) 0 UpNoOp hs a0)
  end.
