(** The tables of FuseModel.v, transcribed mechanically from
    include/scalarsite_generic/qdp_scalarsite_generic_{blas,cblas,blas_g5}{,_wrapper}.h: every thread
    function and every specialised evaluate() of the three headers, with its lines.

    Local pointer variables of a function are replaced by what they point to (xptr by element
    s.start() of x, and so on); a chain of static_casts through left(), right() and child() by its
    path. *)
From Coq Require Import ZArith List String.
From Verif Require Import KernLang KernBlas KernG5 FuseModel.
Import ListNotations.
Local Open Scope string_scope.
Local Open Scope Z_scope.

(** ** Kernels (KernBlas.v, KernG5.v) with their parameters in order *)

Definition k_add_g5ProjMinus := {| k_name := "add_g5ProjMinus"; k_code := add_g5ProjMinus; k_params := ["Out"; "X"; "Y"]; k_count := "n_4vec" |}.
Definition k_add_g5ProjPlus := {| k_name := "add_g5ProjPlus"; k_code := add_g5ProjPlus; k_params := ["Out"; "X"; "Y"]; k_count := "n_4vec" |}.
Definition k_axmbyz_g5ProjMinus := {| k_name := "axmbyz_g5ProjMinus"; k_code := axmbyz_g5ProjMinus; k_params := ["Out"; "scalep"; "InScale"; "scalep2"; "Add"]; k_count := "n_4vec" |}.
Definition k_axmbyz_g5ProjPlus := {| k_name := "axmbyz_g5ProjPlus"; k_code := axmbyz_g5ProjPlus; k_params := ["Out"; "scalep"; "InScale"; "scalep2"; "Add"]; k_count := "n_4vec" |}.
Definition k_axmbyz_ig5 := {| k_name := "axmbyz_ig5"; k_code := axmbyz_ig5; k_params := ["Out"; "scalep"; "InScale"; "scalep2"; "Add"]; k_count := "n_4vec" |}.
Definition k_axmyz_g5ProjMinus := {| k_name := "axmyz_g5ProjMinus"; k_code := axmyz_g5ProjMinus; k_params := ["Out"; "scalep"; "InScale"; "Add"]; k_count := "n_4vec" |}.
Definition k_axmyz_g5ProjPlus := {| k_name := "axmyz_g5ProjPlus"; k_code := axmyz_g5ProjPlus; k_params := ["Out"; "scalep"; "InScale"; "Add"]; k_count := "n_4vec" |}.
Definition k_axpbyz_g5 := {| k_name := "axpbyz_g5"; k_code := axpbyz_g5; k_params := ["Out"; "scalep"; "InScale"; "scalep2"; "Add"]; k_count := "n_4vec" |}.
Definition k_axpbyz_g5ProjMinus := {| k_name := "axpbyz_g5ProjMinus"; k_code := axpbyz_g5ProjMinus; k_params := ["Out"; "scalep"; "InScale"; "scalep2"; "Add"]; k_count := "n_4vec" |}.
Definition k_axpbyz_g5ProjPlus := {| k_name := "axpbyz_g5ProjPlus"; k_code := axpbyz_g5ProjPlus; k_params := ["Out"; "scalep"; "InScale"; "scalep2"; "Add"]; k_count := "n_4vec" |}.
Definition k_axpbyz_ig5 := {| k_name := "axpbyz_ig5"; k_code := axpbyz_ig5; k_params := ["Out"; "scalep"; "InScale"; "scalep2"; "Add"]; k_count := "n_4vec" |}.
Definition k_axpyz_g5ProjMinus := {| k_name := "axpyz_g5ProjMinus"; k_code := axpyz_g5ProjMinus; k_params := ["Out"; "scalep"; "InScale"; "Add"]; k_count := "n_4vec" |}.
Definition k_axpyz_g5ProjPlus := {| k_name := "axpyz_g5ProjPlus"; k_code := axpyz_g5ProjPlus; k_params := ["Out"; "scalep"; "InScale"; "Add"]; k_count := "n_4vec" |}.
Definition k_g5_axmbyz := {| k_name := "g5_axmbyz"; k_code := g5_axmbyz; k_params := ["Out"; "scalep"; "InScale"; "scalep2"; "Add"]; k_count := "n_4vec" |}.
Definition k_scal_g5 := {| k_name := "scal_g5"; k_code := scal_g5; k_params := ["Out"; "scalep"; "In"]; k_count := "n_4vec" |}.
Definition k_scal_g5ProjMinus := {| k_name := "scal_g5ProjMinus"; k_code := scal_g5ProjMinus; k_params := ["Out"; "scalep"; "In"]; k_count := "n_4vec" |}.
Definition k_scal_g5ProjPlus := {| k_name := "scal_g5ProjPlus"; k_code := scal_g5ProjPlus; k_params := ["Out"; "scalep"; "In"]; k_count := "n_4vec" |}.
Definition k_sub_g5ProjMinus := {| k_name := "sub_g5ProjMinus"; k_code := sub_g5ProjMinus; k_params := ["Out"; "X"; "Y"]; k_count := "n_4vec" |}.
Definition k_sub_g5ProjPlus := {| k_name := "sub_g5ProjPlus"; k_code := sub_g5ProjPlus; k_params := ["Out"; "X"; "Y"]; k_count := "n_4vec" |}.
Definition k_vaxmby3 := {| k_name := "vaxmby3"; k_code := vaxmby3; k_params := ["Out"; "ap"; "xp"; "bp"; "yp"]; k_count := "n_3vec" |}.
Definition k_vaxmy3 := {| k_name := "vaxmy3"; k_code := vaxmy3; k_params := ["Out"; "scalep"; "InScale"; "Sub"]; k_count := "n_3vec" |}.
Definition k_vaxpby3 := {| k_name := "vaxpby3"; k_code := vaxpby3; k_params := ["Out"; "ap"; "xp"; "bp"; "yp"]; k_count := "n_3vec" |}.
Definition k_vaxpy3 := {| k_name := "vaxpy3"; k_code := vaxpy3; k_params := ["Out"; "scalep"; "InScale"; "Add"]; k_count := "n_4vec" |}.
Definition k_vcaxmby3 := {| k_name := "vcaxmby3"; k_code := vcaxmby3; k_params := ["Out"; "ap"; "xp"; "bp"; "yp"]; k_count := "n_3vec" |}.
Definition k_vcaxmy3 := {| k_name := "vcaxmy3"; k_code := vcaxmy3; k_params := ["Out"; "scalep"; "InScale"; "Add"]; k_count := "n_3vec" |}.
Definition k_vcaxpby3 := {| k_name := "vcaxpby3"; k_code := vcaxpby3; k_params := ["Out"; "ap"; "xp"; "bp"; "yp"]; k_count := "n_3vec" |}.
Definition k_vcaxpy3 := {| k_name := "vcaxpy3"; k_code := vcaxpy3; k_params := ["Out"; "scalep"; "InScale"; "Add"]; k_count := "n_3vec" |}.
Definition k_vcscal := {| k_name := "vcscal"; k_code := vcscal; k_params := ["Out"; "scalep"; "In"]; k_count := "n_3vec" |}.
Definition k_vscal := {| k_name := "vscal"; k_code := vscal; k_params := ["Out"; "scalep"; "In"]; k_count := "n_3vec" |}.
Definition k_xmayz_g5 := {| k_name := "xmayz_g5"; k_code := xmayz_g5; k_params := ["Out"; "scalep"; "Add"; "InScale"]; k_count := "n_4vec" |}.
Definition k_xmayz_g5ProjMinus := {| k_name := "xmayz_g5ProjMinus"; k_code := xmayz_g5ProjMinus; k_params := ["Out"; "scalep"; "Add"; "InScale"]; k_count := "n_4vec" |}.
Definition k_xmayz_g5ProjPlus := {| k_name := "xmayz_g5ProjPlus"; k_code := xmayz_g5ProjPlus; k_params := ["Out"; "scalep"; "Add"; "InScale"]; k_count := "n_4vec" |}.
Definition k_xmayz_ig5 := {| k_name := "xmayz_ig5"; k_code := xmayz_ig5; k_params := ["Out"; "scalep"; "InScale"; "Add"]; k_count := "n_4vec" |}.
Definition k_xpayz_g5ProjMinus := {| k_name := "xpayz_g5ProjMinus"; k_code := xpayz_g5ProjMinus; k_params := ["Out"; "scalep"; "Add"; "InScale"]; k_count := "n_4vec" |}.
Definition k_xpayz_g5ProjPlus := {| k_name := "xpayz_g5ProjPlus"; k_code := xpayz_g5ProjPlus; k_params := ["Out"; "scalep"; "Add"; "InScale"]; k_count := "n_4vec" |}.
Definition k_xpayz_ig5 := {| k_name := "xpayz_ig5"; k_code := xpayz_ig5; k_params := ["Out"; "scalep"; "InScale"; "Add"]; k_count := "n_4vec" |}.

(** ** Thread functions *)

(** qdp_scalarsite_generic_blas_wrapper.h:24-39 *)
Definition ordered_vaxpy3_fn := {| of_fields := ["Out"; "scalep"; "InScale"; "Add"]; of_shift := ["InScale"; "Add"; "Out"]; of_kernel := inl k_vaxpy3; of_args := ["Out"; "scalep"; "InScale"; "Add"] |}.
(** qdp_scalarsite_generic_blas_wrapper.h:58-84 *)
Definition unordered_vaxpy3_y_fn := {| uf_fields := ["x"; "d"; "scalep"; "tab"; "xy_order"]; uf_flag := Some "xy_order"; uf_kernel := inl k_vaxpy3;
  uf_then := [IElem "d"; IPtr "scalep"; IElem "x"; IElem "d"]; uf_else := [IElem "d"; IPtr "scalep"; IElem "d"; IElem "x"]; uf_count := INum 1 |}.
(** qdp_scalarsite_generic_blas_wrapper.h:103-119 *)
Definition unordered_vaxpy3_z_fn := {| uf_fields := ["x"; "y"; "d"; "scalep"; "tab"]; uf_flag := None; uf_kernel := inl k_vaxpy3;
  uf_then := [IElem "d"; IPtr "scalep"; IElem "x"; IElem "y"]; uf_else := [IElem "d"; IPtr "scalep"; IElem "x"; IElem "y"]; uf_count := INum 1 |}.
(** qdp_scalarsite_generic_blas_wrapper.h:136-151 *)
Definition ordered_vaxmy3_fn := {| of_fields := ["Out"; "scalep"; "InScale"; "Sub"]; of_shift := ["InScale"; "Sub"; "Out"]; of_kernel := inl k_vaxmy3; of_args := ["Out"; "scalep"; "InScale"; "Sub"] |}.
(** qdp_scalarsite_generic_blas_wrapper.h:168-181 *)
Definition unordered_vaxmy3_y_fn := {| uf_fields := ["x"; "d"; "scalep"; "tab"]; uf_flag := None; uf_kernel := inl k_vaxmy3;
  uf_then := [IElem "d"; IPtr "scalep"; IElem "d"; IElem "x"]; uf_else := [IElem "d"; IPtr "scalep"; IElem "d"; IElem "x"]; uf_count := INum 1 |}.
(** qdp_scalarsite_generic_blas_wrapper.h:201-217 *)
Definition unordered_vaxmy3_z_fn := {| uf_fields := ["x"; "y"; "d"; "scalep"; "tab"]; uf_flag := None; uf_kernel := inl k_vaxmy3;
  uf_then := [IElem "d"; IPtr "scalep"; IElem "x"; IElem "y"]; uf_else := [IElem "d"; IPtr "scalep"; IElem "x"; IElem "y"]; uf_count := INum 1 |}.
(** qdp_scalarsite_generic_blas_wrapper.h:233-244 *)
Definition ordered_vscal_fn := {| of_fields := ["Out"; "scalep"; "In"]; of_shift := ["Out"; "In"]; of_kernel := inl k_vscal; of_args := ["Out"; "scalep"; "In"] |}.
(** qdp_scalarsite_generic_blas_wrapper.h:263-277 *)
Definition unordered_vscal_fn := {| uf_fields := ["x"; "d"; "scalep"; "tab"]; uf_flag := None; uf_kernel := inl k_vscal;
  uf_then := [IElem "d"; IPtr "scalep"; IElem "x"]; uf_else := [IElem "d"; IPtr "scalep"; IElem "x"]; uf_count := INum 1 |}.
(** qdp_scalarsite_generic_blas_wrapper.h:296-310 *)
Definition ordered_vaxpby3_fn := {| of_fields := ["Out"; "ap"; "xp"; "bp"; "yp"]; of_shift := ["Out"; "xp"; "yp"]; of_kernel := inl k_vaxpby3; of_args := ["Out"; "ap"; "xp"; "bp"; "yp"] |}.
(** qdp_scalarsite_generic_blas_wrapper.h:330-350 *)
Definition unordered_vaxpby3_fn := {| uf_fields := ["x"; "y"; "d"; "aptr"; "bptr"; "tab"]; uf_flag := None; uf_kernel := inl k_vaxpby3;
  uf_then := [IElem "d"; IPtr "aptr"; IElem "x"; IPtr "bptr"; IElem "y"]; uf_else := [IElem "d"; IPtr "aptr"; IElem "x"; IPtr "bptr"; IElem "y"]; uf_count := INum 1 |}.
(** qdp_scalarsite_generic_blas_wrapper.h:369-383 *)
Definition ordered_vaxmby3_fn := {| of_fields := ["Out"; "ap"; "xp"; "bp"; "yp"]; of_shift := ["Out"; "xp"; "yp"]; of_kernel := inl k_vaxmby3; of_args := ["Out"; "ap"; "xp"; "bp"; "yp"] |}.
(** qdp_scalarsite_generic_blas_wrapper.h:404-424 *)
Definition unordered_vaxmby3_fn := {| uf_fields := ["x"; "y"; "d"; "aptr"; "bptr"; "tab"]; uf_flag := None; uf_kernel := inl k_vaxmby3;
  uf_then := [IElem "d"; IPtr "aptr"; IElem "x"; IPtr "bptr"; IElem "y"]; uf_else := [IElem "d"; IPtr "aptr"; IElem "x"; IPtr "bptr"; IElem "y"]; uf_count := INum 1 |}.
(** qdp_scalarsite_generic_cblas_wrapper.h:23-34 *)
Definition ordered_vcscal_fn := {| of_fields := ["Out"; "scalep"; "In"]; of_shift := ["Out"; "In"]; of_kernel := inl k_vcscal; of_args := ["Out"; "scalep"; "In"] |}.
(** qdp_scalarsite_generic_cblas_wrapper.h:52-65 *)
Definition unordered_vcscal_fn := {| uf_fields := ["x"; "d"; "scalep"; "tab"]; uf_flag := None; uf_kernel := inl k_vcscal;
  uf_then := [IElem "d"; IPtr "scalep"; IElem "x"]; uf_else := [IElem "d"; IPtr "scalep"; IElem "x"]; uf_count := INum 1 |}.
(** qdp_scalarsite_generic_cblas_wrapper.h:84-97 *)
Definition ordered_vcaxpy3_fn := {| of_fields := ["Out"; "scalep"; "InScale"; "Add"]; of_shift := ["Out"; "InScale"; "Add"]; of_kernel := inl k_vcaxpy3; of_args := ["Out"; "scalep"; "InScale"; "Add"] |}.
(** qdp_scalarsite_generic_cblas_wrapper.h:115-131 *)
Definition unordered_vcaxpy3_y_fn := {| uf_fields := ["x"; "d"; "scalep"; "tab"]; uf_flag := None; uf_kernel := inl k_vcaxpy3;
  uf_then := [IElem "d"; IPtr "scalep"; IElem "x"; IElem "d"]; uf_else := [IElem "d"; IPtr "scalep"; IElem "x"; IElem "d"]; uf_count := INum 1 |}.
(** qdp_scalarsite_generic_cblas_wrapper.h:151-169 *)
Definition unordered_vcaxpy3_z_fn := {| uf_fields := ["x"; "y"; "d"; "scalep"; "tab"]; uf_flag := None; uf_kernel := inl k_vcaxpy3;
  uf_then := [IElem "d"; IPtr "scalep"; IElem "x"; IElem "y"]; uf_else := [IElem "d"; IPtr "scalep"; IElem "x"; IElem "y"]; uf_count := INum 1 |}.
(** qdp_scalarsite_generic_cblas_wrapper.h:189-202 *)
Definition ordered_vcaxmy3_fn := {| of_fields := ["Out"; "scalep"; "InScale"; "Sub"]; of_shift := ["Out"; "InScale"; "Sub"]; of_kernel := inl k_vcaxmy3; of_args := ["Out"; "scalep"; "InScale"; "Sub"] |}.
(** qdp_scalarsite_generic_cblas_wrapper.h:222-240 *)
Definition unordered_vcaxmy3_fn := {| uf_fields := ["x"; "y"; "d"; "scalep"; "tab"]; uf_flag := None; uf_kernel := inl k_vcaxmy3;
  uf_then := [IElem "d"; IPtr "scalep"; IElem "x"; IElem "y"]; uf_else := [IElem "d"; IPtr "scalep"; IElem "x"; IElem "y"]; uf_count := INum 1 |}.
(** qdp_scalarsite_generic_cblas_wrapper.h:259-273 *)
Definition ordered_vcaxpby3_fn := {| of_fields := ["Out"; "ap"; "xp"; "bp"; "yp"]; of_shift := ["Out"; "xp"; "yp"]; of_kernel := inl k_vcaxpby3; of_args := ["Out"; "ap"; "xp"; "bp"; "yp"] |}.
(** qdp_scalarsite_generic_cblas_wrapper.h:295-314 *)
Definition unordered_vcaxpby3_fn := {| uf_fields := ["x"; "y"; "d"; "aptr"; "bptr"; "tab"]; uf_flag := None; uf_kernel := inl k_vcaxpby3;
  uf_then := [IElem "d"; IPtr "aptr"; IElem "x"; IPtr "bptr"; IElem "y"]; uf_else := [IElem "d"; IPtr "aptr"; IElem "x"; IPtr "bptr"; IElem "y"]; uf_count := INum 1 |}.
(** qdp_scalarsite_generic_cblas_wrapper.h:333-347 *)
Definition ordered_vcaxmby3_fn := {| of_fields := ["Out"; "ap"; "xp"; "bp"; "yp"]; of_shift := ["Out"; "xp"; "yp"]; of_kernel := inl k_vcaxmby3; of_args := ["Out"; "ap"; "xp"; "bp"; "yp"] |}.
(** qdp_scalarsite_generic_cblas_wrapper.h:369-388 *)
Definition unordered_vcaxmby3_fn := {| uf_fields := ["x"; "y"; "d"; "aptr"; "bptr"; "tab"]; uf_flag := None; uf_kernel := inl k_vcaxmby3;
  uf_then := [IElem "d"; IPtr "aptr"; IElem "x"; IPtr "bptr"; IElem "y"]; uf_else := [IElem "d"; IPtr "aptr"; IElem "x"; IPtr "bptr"; IElem "y"]; uf_count := INum 1 |}.
(** qdp_scalarsite_generic_blas_g5_wrapper.h:25-42 *)
Definition ordered_vaypx3_g5_fn := {| of_fields := ["Out"; "scalep"; "Add"; "InScale"; "func"]; of_shift := ["InScale"; "Add"; "Out"]; of_kernel := inr "func"; of_args := ["Out"; "scalep"; "Add"; "InScale"] |}.
(** qdp_scalarsite_generic_blas_g5_wrapper.h:65-80 *)
Definition unordered_vaypx3_g5_y_fn := {| uf_fields := ["x"; "d"; "aptr"; "Ns"; "tab"; "func"]; uf_flag := None; uf_kernel := inr "func";
  uf_then := [IElem "d"; IPtr "aptr"; IElem "d"; IElem "x"]; uf_else := [IElem "d"; IPtr "aptr"; IElem "d"; IElem "x"]; uf_count := IPtr "Ns" |}.
(** qdp_scalarsite_generic_blas_g5_wrapper.h:105-125 *)
Definition unordered_vaypx3_g5_z_fn := {| uf_fields := ["x"; "y"; "d"; "aptr"; "Ns"; "tab"; "func"]; uf_flag := None; uf_kernel := inr "func";
  uf_then := [IElem "d"; IPtr "aptr"; IElem "x"; IElem "y"]; uf_else := [IElem "d"; IPtr "aptr"; IElem "x"; IElem "y"]; uf_count := IPtr "Ns" |}.
(** qdp_scalarsite_generic_blas_g5_wrapper.h:142-158 *)
Definition ordered_vadd3_g5_fn := {| of_fields := ["Out"; "X"; "Y"; "func"]; of_shift := ["X"; "Y"; "Out"]; of_kernel := inr "func"; of_args := ["Out"; "X"; "Y"] |}.
(** qdp_scalarsite_generic_blas_g5_wrapper.h:177-191 *)
Definition unordered_vadd3_g5_fn := {| uf_fields := ["x"; "d"; "Ns"; "tab"; "func"]; uf_flag := None; uf_kernel := inr "func";
  uf_then := [IElem "d"; IElem "d"; IElem "x"]; uf_else := [IElem "d"; IElem "d"; IElem "x"]; uf_count := IPtr "Ns" |}.
(** qdp_scalarsite_generic_blas_g5_wrapper.h:210-227 *)
Definition ordered_vaxpy3_g5_fn := {| of_fields := ["Out"; "scalep"; "InScale"; "Add"; "func"]; of_shift := ["Out"; "InScale"; "Add"]; of_kernel := inr "func"; of_args := ["Out"; "scalep"; "InScale"; "Add"] |}.
(** qdp_scalarsite_generic_blas_g5_wrapper.h:251-269 *)
Definition unordered_vaxpy3_g5_fn := {| uf_fields := ["x"; "y"; "d"; "aptr"; "Ns"; "tab"; "func"]; uf_flag := None; uf_kernel := inr "func";
  uf_then := [IElem "d"; IPtr "aptr"; IElem "x"; IElem "y"]; uf_else := [IElem "d"; IPtr "aptr"; IElem "x"; IElem "y"]; uf_count := IPtr "Ns" |}.
(** qdp_scalarsite_generic_blas_g5_wrapper.h:288-303 *)
Definition ordered_vscal_g5_fn := {| of_fields := ["Out"; "scalep"; "In"; "func"]; of_shift := ["Out"; "In"]; of_kernel := inr "func"; of_args := ["Out"; "scalep"; "In"] |}.
(** qdp_scalarsite_generic_blas_g5_wrapper.h:325-341 *)
Definition unordered_vscal_g5_fn := {| uf_fields := ["x"; "d"; "aptr"; "Ns"; "tab"; "func"]; uf_flag := None; uf_kernel := inr "func";
  uf_then := [IElem "d"; IPtr "aptr"; IElem "x"]; uf_else := [IElem "d"; IPtr "aptr"; IElem "x"]; uf_count := IPtr "Ns" |}.
(** qdp_scalarsite_generic_blas_g5_wrapper.h:363-381 *)
Definition ordered_vaxpby3_g5_fn := {| of_fields := ["Out"; "scalep"; "InScale"; "scalep2"; "Add"; "func"]; of_shift := ["Out"; "InScale"; "Add"]; of_kernel := inr "func"; of_args := ["Out"; "scalep"; "InScale"; "scalep2"; "Add"] |}.
(** qdp_scalarsite_generic_blas_g5_wrapper.h:407-426 *)
Definition unordered_vaxpby3_g5_fn := {| uf_fields := ["x"; "y"; "d"; "aptr"; "bptr"; "Ns"; "tab"; "func"]; uf_flag := None; uf_kernel := inr "func";
  uf_then := [IElem "d"; IPtr "aptr"; IElem "x"; IPtr "bptr"; IElem "y"]; uf_else := [IElem "d"; IPtr "aptr"; IElem "x"; IPtr "bptr"; IElem "y"]; uf_count := IPtr "Ns" |}.
(** qdp_scalarsite_generic_blas_g5_wrapper.h:445-459 *)
Definition ordered_scal_g5_fn := {| of_fields := ["Out"; "scalep"; "In"]; of_shift := ["Out"; "In"]; of_kernel := inl k_scal_g5; of_args := ["Out"; "scalep"; "In"] |}.
(** qdp_scalarsite_generic_blas_g5_wrapper.h:478-493 *)
Definition unordered_scal_g5_fn := {| uf_fields := ["x"; "d"; "aptr"; "Ns"; "tab"]; uf_flag := None; uf_kernel := inl k_scal_g5;
  uf_then := [IElem "d"; IPtr "aptr"; IElem "x"]; uf_else := [IElem "d"; IPtr "aptr"; IElem "x"]; uf_count := IPtr "Ns" |}.
(** qdp_scalarsite_generic_blas_g5_wrapper.h:514-531 *)
Definition ordered_xOpayz_g5_fn := {| of_fields := ["Out"; "scalep"; "InScale"; "Add"; "func"]; of_shift := ["Out"; "InScale"; "Add"]; of_kernel := inr "func"; of_args := ["Out"; "scalep"; "InScale"; "Add"] |}.
(** qdp_scalarsite_generic_blas_g5_wrapper.h:556-574 *)
Definition unordered_xOpayz_g5_fn := {| uf_fields := ["x"; "y"; "d"; "aptr"; "Ns"; "tab"; "func"]; uf_flag := None; uf_kernel := inr "func";
  uf_then := [IElem "d"; IPtr "aptr"; IElem "x"; IElem "y"]; uf_else := [IElem "d"; IPtr "aptr"; IElem "x"; IElem "y"]; uf_count := IPtr "Ns" |}.
(** qdp_scalarsite_generic_blas_g5_wrapper.h:595-613 *)
Definition ordered_axOpbyz_g5_fn := {| of_fields := ["Out"; "scalep"; "InScale"; "scalep2"; "Add"; "func"]; of_shift := ["Out"; "InScale"; "Add"]; of_kernel := inr "func"; of_args := ["Out"; "scalep"; "InScale"; "scalep2"; "Add"] |}.
(** qdp_scalarsite_generic_blas_g5_wrapper.h:638-657 *)
Definition unordered_axOpbyz_g5_fn := {| uf_fields := ["x"; "y"; "d"; "aptr"; "bptr"; "Ns"; "tab"; "func"]; uf_flag := None; uf_kernel := inr "func";
  uf_then := [IElem "d"; IPtr "aptr"; IElem "x"; IPtr "bptr"; IElem "y"]; uf_else := [IElem "d"; IPtr "aptr"; IElem "x"; IPtr "bptr"; IElem "y"]; uf_count := IPtr "Ns" |}.
(** qdp_scalarsite_generic_blas_g5_wrapper.h:677-694 *)
Definition ordered_xOpayz_ig5_fn := {| of_fields := ["Out"; "scalep"; "InScale"; "Add"; "func"]; of_shift := ["Out"; "InScale"; "Add"]; of_kernel := inr "func"; of_args := ["Out"; "scalep"; "InScale"; "Add"] |}.
(** qdp_scalarsite_generic_blas_g5_wrapper.h:718-736 *)
Definition unordered_xOpayz_ig5_y_fn := {| uf_fields := ["x"; "y"; "d"; "aptr"; "Ns"; "tab"; "func"]; uf_flag := None; uf_kernel := inr "func";
  uf_then := [IElem "d"; IPtr "aptr"; IElem "x"; IElem "y"]; uf_else := [IElem "d"; IPtr "aptr"; IElem "x"; IElem "y"]; uf_count := IPtr "Ns" |}.
(** qdp_scalarsite_generic_blas_g5_wrapper.h:760-776 *)
Definition unordered_xOpayz_ig5_z_fn := {| uf_fields := ["x"; "d"; "aptr"; "Ns"; "tab"; "func"]; uf_flag := None; uf_kernel := inr "func";
  uf_then := [IElem "d"; IPtr "aptr"; IElem "d"; IElem "x"]; uf_else := [IElem "d"; IPtr "aptr"; IElem "d"; IElem "x"]; uf_count := IPtr "Ns" |}.

(** ** Specialisations *)

(** qdp_scalarsite_generic_blas.h:53-111 *)
Definition evaluate_r_53 := {| s_op := OpAddAssign; s_rhs := (Bin OpMultiply (Ref LReal) (Ref LVec));
  s_objs := [("x", [R]); ("a", [L])];
  s_scal := [("aptr", SId "a")];
  s_ord := ordered_vaxpy3_fn; s_ord_args := [IElem "d"; IPtr "aptr"; IElem "x"; IElem "d"];
  s_unord := unordered_vaxpy3_y_fn; s_unord_args := [IObj "x"; IObj "d"; IPtr "aptr"; ITab; INum 1] |}.
(** qdp_scalarsite_generic_blas.h:116-172 *)
Definition evaluate_r_116 := {| s_op := OpSubtractAssign; s_rhs := (Bin OpMultiply (Ref LReal) (Ref LVec));
  s_objs := [("x", [R]); ("a", [L])];
  s_scal := [("aptr", SNeg "a")];
  s_ord := ordered_vaxpy3_fn; s_ord_args := [IElem "d"; IPtr "aptr"; IElem "x"; IElem "d"];
  s_unord := unordered_vaxpy3_y_fn; s_unord_args := [IObj "x"; IObj "d"; IPtr "aptr"; ITab; INum 1] |}.
(** qdp_scalarsite_generic_blas.h:177-252 *)
Definition evaluate_r_177 := {| s_op := OpAssign; s_rhs := (Bin OpAdd (Bin OpMultiply (Ref LReal) (Ref LVec)) (Ref LVec));
  s_objs := [("y", [R]); ("a", [L; L]); ("x", [L; R])];
  s_scal := [("aptr", SId "a")];
  s_ord := ordered_vaxpy3_fn; s_ord_args := [IElem "d"; IPtr "aptr"; IElem "x"; IElem "y"];
  s_unord := unordered_vaxpy3_z_fn; s_unord_args := [IObj "x"; IObj "y"; IObj "d"; IPtr "aptr"; ITab] |}.
(** qdp_scalarsite_generic_blas.h:258-336 *)
Definition evaluate_r_258 := {| s_op := OpAssign; s_rhs := (Bin OpAdd (Ref LVec) (Bin OpMultiply (Ref LReal) (Ref LVec)));
  s_objs := [("y", [L]); ("a", [R; L]); ("x", [R; R])];
  s_scal := [("aptr", SId "a")];
  s_ord := ordered_vaxpy3_fn; s_ord_args := [IElem "d"; IPtr "aptr"; IElem "x"; IElem "y"];
  s_unord := unordered_vaxpy3_z_fn; s_unord_args := [IObj "x"; IObj "y"; IObj "d"; IPtr "aptr"; ITab] |}.
(** qdp_scalarsite_generic_blas.h:341-414 *)
Definition evaluate_r_341 := {| s_op := OpAssign; s_rhs := (Bin OpSubtract (Bin OpMultiply (Ref LReal) (Ref LVec)) (Ref LVec));
  s_objs := [("y", [R]); ("a", [L; L]); ("x", [L; R])];
  s_scal := [("aptr", SId "a")];
  s_ord := ordered_vaxmy3_fn; s_ord_args := [IElem "d"; IPtr "aptr"; IElem "x"; IElem "y"];
  s_unord := unordered_vaxmy3_z_fn; s_unord_args := [IObj "x"; IObj "y"; IObj "d"; IPtr "aptr"; ITab] |}.
(** qdp_scalarsite_generic_blas.h:418-494 *)
Definition evaluate_r_418 := {| s_op := OpAssign; s_rhs := (Bin OpSubtract (Ref LVec) (Bin OpMultiply (Ref LReal) (Ref LVec)));
  s_objs := [("y", [L]); ("a", [R; L]); ("x", [R; R])];
  s_scal := [("aptr", SNeg "a")];
  s_ord := ordered_vaxpy3_fn; s_ord_args := [IElem "d"; IPtr "aptr"; IElem "x"; IElem "y"];
  s_unord := unordered_vaxpy3_z_fn; s_unord_args := [IObj "x"; IObj "y"; IObj "d"; IPtr "aptr"; ITab] |}.
(** qdp_scalarsite_generic_blas.h:499-561 *)
Definition evaluate_r_499 := {| s_op := OpAddAssign; s_rhs := (Bin OpMultiply (Ref LVec) (Ref LReal));
  s_objs := [("x", [L]); ("a", [R])];
  s_scal := [("aptr", SId "a")];
  s_ord := ordered_vaxpy3_fn; s_ord_args := [IElem "d"; IPtr "aptr"; IElem "x"; IElem "d"];
  s_unord := unordered_vaxpy3_y_fn; s_unord_args := [IObj "x"; IObj "d"; IPtr "aptr"; ITab; INum 1] |}.
(** qdp_scalarsite_generic_blas.h:567-628 *)
Definition evaluate_r_567 := {| s_op := OpSubtractAssign; s_rhs := (Bin OpMultiply (Ref LVec) (Ref LReal));
  s_objs := [("x", [L]); ("a", [R])];
  s_scal := [("aptr", SNeg "a")];
  s_ord := ordered_vaxpy3_fn; s_ord_args := [IElem "d"; IPtr "aptr"; IElem "x"; IElem "d"];
  s_unord := unordered_vaxpy3_y_fn; s_unord_args := [IObj "x"; IObj "d"; IPtr "aptr"; ITab; INum 1] |}.
(** qdp_scalarsite_generic_blas.h:634-712 *)
Definition evaluate_r_634 := {| s_op := OpAssign; s_rhs := (Bin OpAdd (Bin OpMultiply (Ref LVec) (Ref LReal)) (Ref LVec));
  s_objs := [("y", [R]); ("a", [L; R]); ("x", [L; L])];
  s_scal := [("aptr", SId "a")];
  s_ord := ordered_vaxpy3_fn; s_ord_args := [IElem "d"; IPtr "aptr"; IElem "x"; IElem "y"];
  s_unord := unordered_vaxpy3_z_fn; s_unord_args := [IObj "x"; IObj "y"; IObj "d"; IPtr "aptr"; ITab] |}.
(** qdp_scalarsite_generic_blas.h:718-798 *)
Definition evaluate_r_718 := {| s_op := OpAssign; s_rhs := (Bin OpAdd (Ref LVec) (Bin OpMultiply (Ref LVec) (Ref LReal)));
  s_objs := [("y", [L]); ("a", [R; R]); ("x", [R; L])];
  s_scal := [("aptr", SId "a")];
  s_ord := ordered_vaxpy3_fn; s_ord_args := [IElem "d"; IPtr "aptr"; IElem "x"; IElem "y"];
  s_unord := unordered_vaxpy3_z_fn; s_unord_args := [IObj "x"; IObj "y"; IObj "d"; IPtr "aptr"; ITab] |}.
(** qdp_scalarsite_generic_blas.h:804-877 *)
Definition evaluate_r_804 := {| s_op := OpAssign; s_rhs := (Bin OpSubtract (Bin OpMultiply (Ref LVec) (Ref LReal)) (Ref LVec));
  s_objs := [("y", [R]); ("a", [L; R]); ("x", [L; L])];
  s_scal := [("aptr", SId "a")];
  s_ord := ordered_vaxmy3_fn; s_ord_args := [IElem "d"; IPtr "aptr"; IElem "x"; IElem "y"];
  s_unord := unordered_vaxmy3_z_fn; s_unord_args := [IObj "x"; IObj "y"; IObj "d"; IPtr "aptr"; ITab] |}.
(** qdp_scalarsite_generic_blas.h:883-960 *)
Definition evaluate_r_883 := {| s_op := OpAssign; s_rhs := (Bin OpSubtract (Ref LVec) (Bin OpMultiply (Ref LVec) (Ref LReal)));
  s_objs := [("y", [L]); ("a", [R; R]); ("x", [R; L])];
  s_scal := [("aptr", SNeg "a")];
  s_ord := ordered_vaxpy3_fn; s_ord_args := [IElem "d"; IPtr "aptr"; IElem "x"; IElem "y"];
  s_unord := unordered_vaxpy3_z_fn; s_unord_args := [IObj "x"; IObj "y"; IObj "d"; IPtr "aptr"; ITab] |}.
(** qdp_scalarsite_generic_blas.h:965-1028 *)
Definition evaluate_r_965 := {| s_op := OpAssign; s_rhs := (Bin OpAdd (Ref LVec) (Ref LVec));
  s_objs := [("x", [L]); ("y", [R])];
  s_scal := [("one", SOne)];
  s_ord := ordered_vaxpy3_fn; s_ord_args := [IElem "d"; IPtr "one"; IElem "x"; IElem "y"];
  s_unord := unordered_vaxpy3_z_fn; s_unord_args := [IObj "x"; IObj "y"; IObj "d"; IPtr "one"; ITab] |}.
(** qdp_scalarsite_generic_blas.h:1032-1092 *)
Definition evaluate_r_1032 := {| s_op := OpAssign; s_rhs := (Bin OpSubtract (Ref LVec) (Ref LVec));
  s_objs := [("x", [L]); ("y", [R])];
  s_scal := [("one", SOne)];
  s_ord := ordered_vaxmy3_fn; s_ord_args := [IElem "d"; IPtr "one"; IElem "x"; IElem "y"];
  s_unord := unordered_vaxmy3_z_fn; s_unord_args := [IObj "x"; IObj "y"; IObj "d"; IPtr "one"; ITab] |}.
(** qdp_scalarsite_generic_blas.h:1097-1153 *)
Definition evaluate_r_1097 := {| s_op := OpAssign; s_rhs := (Bin OpMultiply (Ref LReal) (Ref LVec));
  s_objs := [("x", [R]); ("a", [L])];
  s_scal := [("aptr", SId "a")];
  s_ord := ordered_vscal_fn; s_ord_args := [IElem "d"; IPtr "aptr"; IElem "x"];
  s_unord := unordered_vscal_fn; s_unord_args := [IObj "x"; IObj "d"; IPtr "aptr"; ITab] |}.
(** qdp_scalarsite_generic_blas.h:1157-1212 *)
Definition evaluate_r_1157 := {| s_op := OpAssign; s_rhs := (Bin OpMultiply (Ref LVec) (Ref LReal));
  s_objs := [("x", [L]); ("a", [R])];
  s_scal := [("aptr", SId "a")];
  s_ord := ordered_vscal_fn; s_ord_args := [IElem "d"; IPtr "aptr"; IElem "x"];
  s_unord := unordered_vscal_fn; s_unord_args := [IObj "x"; IObj "d"; IPtr "aptr"; ITab] |}.
(** qdp_scalarsite_generic_blas.h:1217-1271 *)
Definition evaluate_r_1217 := {| s_op := OpMultiplyAssign; s_rhs := (Un OpIdentity (Ref LReal));
  s_objs := [("a", [C])];
  s_scal := [("ar", SId "a")];
  s_ord := ordered_vscal_fn; s_ord_args := [IElem "d"; IPtr "ar"; IElem "d"];
  s_unord := unordered_vscal_fn; s_unord_args := [IObj "d"; IObj "d"; IPtr "ar"; ITab] |}.
(** qdp_scalarsite_generic_blas.h:1276-1329 *)
Definition evaluate_r_1276 := {| s_op := OpDivideAssign; s_rhs := (Un OpIdentity (Ref LReal));
  s_objs := [("a", [C])];
  s_scal := [("ar", SInv "a")];
  s_ord := ordered_vscal_fn; s_ord_args := [IElem "d"; IPtr "ar"; IElem "d"];
  s_unord := unordered_vscal_fn; s_unord_args := [IObj "d"; IObj "d"; IPtr "ar"; ITab] |}.
(** qdp_scalarsite_generic_blas.h:1334-1395 *)
Definition evaluate_r_1334 := {| s_op := OpAddAssign; s_rhs := (Un OpIdentity (Ref LVec));
  s_objs := [("x", [C])];
  s_scal := [("one", SOne)];
  s_ord := ordered_vaxpy3_fn; s_ord_args := [IElem "d"; IPtr "one"; IElem "d"; IElem "x"];
  s_unord := unordered_vaxpy3_y_fn; s_unord_args := [IObj "x"; IObj "d"; IPtr "one"; ITab; INum 0] |}.
(** qdp_scalarsite_generic_blas.h:1400-1456 *)
Definition evaluate_r_1400 := {| s_op := OpSubtractAssign; s_rhs := (Un OpIdentity (Ref LVec));
  s_objs := [("x", [C])];
  s_scal := [("one", SOne)];
  s_ord := ordered_vaxmy3_fn; s_ord_args := [IElem "d"; IPtr "one"; IElem "d"; IElem "x"];
  s_unord := unordered_vaxmy3_y_fn; s_unord_args := [IObj "x"; IObj "d"; IPtr "one"; ITab] |}.
(** qdp_scalarsite_generic_blas.h:1462-1547 *)
Definition evaluate_r_1462 := {| s_op := OpAssign; s_rhs := (Bin OpAdd (Bin OpMultiply (Ref LReal) (Ref LVec)) (Bin OpMultiply (Ref LReal) (Ref LVec)));
  s_objs := [("a", [L; L]); ("x", [L; R]); ("b", [R; L]); ("y", [R; R])];
  s_scal := [("aptr", SRef "a"); ("bptr", SRef "b")];
  s_ord := ordered_vaxpby3_fn; s_ord_args := [IElem "d"; IPtr "aptr"; IElem "x"; IPtr "bptr"; IElem "y"];
  s_unord := unordered_vaxpby3_fn; s_unord_args := [IObj "x"; IObj "y"; IObj "d"; IPtr "aptr"; IPtr "bptr"; ITab] |}.
(** qdp_scalarsite_generic_blas.h:1553-1645 *)
Definition evaluate_r_1553 := {| s_op := OpAssign; s_rhs := (Bin OpAdd (Bin OpMultiply (Ref LVec) (Ref LReal)) (Bin OpMultiply (Ref LReal) (Ref LVec)));
  s_objs := [("x", [L; L]); ("a", [L; R]); ("b", [R; L]); ("y", [R; R])];
  s_scal := [("aptr", SRef "a"); ("bptr", SRef "b")];
  s_ord := ordered_vaxpby3_fn; s_ord_args := [IElem "d"; IPtr "aptr"; IElem "x"; IPtr "bptr"; IElem "y"];
  s_unord := unordered_vaxpby3_fn; s_unord_args := [IObj "x"; IObj "y"; IObj "d"; IPtr "aptr"; IPtr "bptr"; ITab] |}.
(** qdp_scalarsite_generic_blas.h:1650-1748 *)
Definition evaluate_r_1650 := {| s_op := OpAssign; s_rhs := (Bin OpAdd (Bin OpMultiply (Ref LReal) (Ref LVec)) (Bin OpMultiply (Ref LVec) (Ref LReal)));
  s_objs := [("a", [L; L]); ("x", [L; R]); ("y", [R; L]); ("b", [R; R])];
  s_scal := [("aptr", SRef "a"); ("bptr", SRef "b")];
  s_ord := ordered_vaxpby3_fn; s_ord_args := [IElem "d"; IPtr "aptr"; IElem "x"; IPtr "bptr"; IElem "y"];
  s_unord := unordered_vaxpby3_fn; s_unord_args := [IObj "x"; IObj "y"; IObj "d"; IPtr "aptr"; IPtr "bptr"; ITab] |}.
(** qdp_scalarsite_generic_blas.h:1753-1838 *)
Definition evaluate_r_1753 := {| s_op := OpAssign; s_rhs := (Bin OpAdd (Bin OpMultiply (Ref LVec) (Ref LReal)) (Bin OpMultiply (Ref LVec) (Ref LReal)));
  s_objs := [("x", [L; L]); ("a", [L; R]); ("y", [R; L]); ("b", [R; R])];
  s_scal := [("aptr", SRef "a"); ("bptr", SRef "b")];
  s_ord := ordered_vaxpby3_fn; s_ord_args := [IElem "d"; IPtr "aptr"; IElem "x"; IPtr "bptr"; IElem "y"];
  s_unord := unordered_vaxpby3_fn; s_unord_args := [IObj "x"; IObj "y"; IObj "d"; IPtr "aptr"; IPtr "bptr"; ITab] |}.
(** qdp_scalarsite_generic_blas.h:1843-1928 *)
Definition evaluate_r_1843 := {| s_op := OpAssign; s_rhs := (Bin OpSubtract (Bin OpMultiply (Ref LReal) (Ref LVec)) (Bin OpMultiply (Ref LReal) (Ref LVec)));
  s_objs := [("a", [L; L]); ("x", [L; R]); ("b", [R; L]); ("y", [R; R])];
  s_scal := [("aptr", SRef "a"); ("bptr", SRef "b")];
  s_ord := ordered_vaxmby3_fn; s_ord_args := [IElem "d"; IPtr "aptr"; IElem "x"; IPtr "bptr"; IElem "y"];
  s_unord := unordered_vaxmby3_fn; s_unord_args := [IObj "x"; IObj "y"; IObj "d"; IPtr "aptr"; IPtr "bptr"; ITab] |}.
(** qdp_scalarsite_generic_blas.h:1934-2026 *)
Definition evaluate_r_1934 := {| s_op := OpAssign; s_rhs := (Bin OpSubtract (Bin OpMultiply (Ref LVec) (Ref LReal)) (Bin OpMultiply (Ref LReal) (Ref LVec)));
  s_objs := [("x", [L; L]); ("a", [L; R]); ("b", [R; L]); ("y", [R; R])];
  s_scal := [("aptr", SRef "a"); ("bptr", SRef "b")];
  s_ord := ordered_vaxmby3_fn; s_ord_args := [IElem "d"; IPtr "aptr"; IElem "x"; IPtr "bptr"; IElem "y"];
  s_unord := unordered_vaxmby3_fn; s_unord_args := [IObj "x"; IObj "y"; IObj "d"; IPtr "aptr"; IPtr "bptr"; ITab] |}.
(** qdp_scalarsite_generic_blas.h:2031-2129 *)
Definition evaluate_r_2031 := {| s_op := OpAssign; s_rhs := (Bin OpSubtract (Bin OpMultiply (Ref LReal) (Ref LVec)) (Bin OpMultiply (Ref LVec) (Ref LReal)));
  s_objs := [("a", [L; L]); ("x", [L; R]); ("y", [R; L]); ("b", [R; R])];
  s_scal := [("aptr", SRef "a"); ("bptr", SRef "b")];
  s_ord := ordered_vaxmby3_fn; s_ord_args := [IElem "d"; IPtr "aptr"; IElem "x"; IPtr "bptr"; IElem "y"];
  s_unord := unordered_vaxmby3_fn; s_unord_args := [IObj "x"; IObj "y"; IObj "d"; IPtr "aptr"; IPtr "bptr"; ITab] |}.
(** qdp_scalarsite_generic_blas.h:2134-2219 *)
Definition evaluate_r_2134 := {| s_op := OpAssign; s_rhs := (Bin OpSubtract (Bin OpMultiply (Ref LVec) (Ref LReal)) (Bin OpMultiply (Ref LVec) (Ref LReal)));
  s_objs := [("x", [L; L]); ("a", [L; R]); ("y", [R; L]); ("b", [R; R])];
  s_scal := [("aptr", SRef "a"); ("bptr", SRef "b")];
  s_ord := ordered_vaxmby3_fn; s_ord_args := [IElem "d"; IPtr "aptr"; IElem "x"; IPtr "bptr"; IElem "y"];
  s_unord := unordered_vaxmby3_fn; s_unord_args := [IObj "x"; IObj "y"; IObj "d"; IPtr "aptr"; IPtr "bptr"; ITab] |}.
(** qdp_scalarsite_generic_cblas.h:29-82 *)
Definition evaluate_c_29 := {| s_op := OpMultiplyAssign; s_rhs := (Un OpIdentity (Ref LCplx));
  s_objs := [("a", [C])];
  s_scal := [("a_start", SRef "a")];
  s_ord := ordered_vcscal_fn; s_ord_args := [IElem "d"; IPtr "a_start"; IElem "d"];
  s_unord := unordered_vcscal_fn; s_unord_args := [IObj "d"; IObj "d"; IPtr "a_start"; ITab] |}.
(** qdp_scalarsite_generic_cblas.h:88-150 *)
Definition evaluate_c_88 := {| s_op := OpAssign; s_rhs := (Bin OpMultiply (Ref LCplx) (Ref LVec));
  s_objs := [("a", [L]); ("x", [R])];
  s_scal := [("a_start", SRef "a")];
  s_ord := ordered_vcscal_fn; s_ord_args := [IElem "d"; IPtr "a_start"; IElem "x"];
  s_unord := unordered_vcscal_fn; s_unord_args := [IObj "x"; IObj "d"; IPtr "a_start"; ITab] |}.
(** qdp_scalarsite_generic_cblas.h:155-213 *)
Definition evaluate_c_155 := {| s_op := OpAssign; s_rhs := (Bin OpMultiply (Ref LVec) (Ref LCplx));
  s_objs := [("a", [R]); ("x", [L])];
  s_scal := [("a_start", SRef "a")];
  s_ord := ordered_vcscal_fn; s_ord_args := [IElem "d"; IPtr "a_start"; IElem "x"];
  s_unord := unordered_vcscal_fn; s_unord_args := [IObj "x"; IObj "d"; IPtr "a_start"; ITab] |}.
(** qdp_scalarsite_generic_cblas.h:221-280 *)
Definition evaluate_c_221 := {| s_op := OpAddAssign; s_rhs := (Bin OpMultiply (Ref LCplx) (Ref LVec));
  s_objs := [("x", [R]); ("a", [L])];
  s_scal := [("ar", SRef "a")];
  s_ord := ordered_vcaxpy3_fn; s_ord_args := [IElem "d"; IPtr "ar"; IElem "x"; IElem "d"];
  s_unord := unordered_vcaxpy3_y_fn; s_unord_args := [IObj "x"; IObj "d"; IPtr "ar"; ITab] |}.
(** qdp_scalarsite_generic_cblas.h:285-342 *)
Definition evaluate_c_285 := {| s_op := OpAddAssign; s_rhs := (Bin OpMultiply (Ref LVec) (Ref LCplx));
  s_objs := [("x", [L]); ("a", [R])];
  s_scal := [("ar", SRef "a")];
  s_ord := ordered_vcaxpy3_fn; s_ord_args := [IElem "d"; IPtr "ar"; IElem "x"; IElem "d"];
  s_unord := unordered_vcaxpy3_y_fn; s_unord_args := [IObj "x"; IObj "d"; IPtr "ar"; ITab] |}.
(** qdp_scalarsite_generic_cblas.h:347-408 *)
Definition evaluate_c_347 := {| s_op := OpSubtractAssign; s_rhs := (Bin OpMultiply (Ref LCplx) (Ref LVec));
  s_objs := [("x", [R]); ("a", [L])];
  s_scal := [("ar", SNegC "a")];
  s_ord := ordered_vcaxpy3_fn; s_ord_args := [IElem "d"; IPtr "ar"; IElem "x"; IElem "d"];
  s_unord := unordered_vcaxpy3_y_fn; s_unord_args := [IObj "x"; IObj "d"; IPtr "ar"; ITab] |}.
(** qdp_scalarsite_generic_cblas.h:413-472 *)
Definition evaluate_c_413 := {| s_op := OpSubtractAssign; s_rhs := (Bin OpMultiply (Ref LVec) (Ref LCplx));
  s_objs := [("x", [L]); ("a", [R])];
  s_scal := [("ar", SNegC "a")];
  s_ord := ordered_vcaxpy3_fn; s_ord_args := [IElem "d"; IPtr "ar"; IElem "x"; IElem "d"];
  s_unord := unordered_vcaxpy3_y_fn; s_unord_args := [IObj "x"; IObj "d"; IPtr "ar"; ITab] |}.
(** qdp_scalarsite_generic_cblas.h:477-555 *)
Definition evaluate_c_477 := {| s_op := OpAssign; s_rhs := (Bin OpAdd (Bin OpMultiply (Ref LCplx) (Ref LVec)) (Ref LVec));
  s_objs := [("y", [R]); ("a", [L; L]); ("x", [L; R])];
  s_scal := [("ar", SRef "a")];
  s_ord := ordered_vcaxpy3_fn; s_ord_args := [IElem "d"; IPtr "ar"; IElem "x"; IElem "y"];
  s_unord := unordered_vcaxpy3_z_fn; s_unord_args := [IObj "x"; IObj "y"; IObj "d"; IPtr "ar"; ITab] |}.
(** qdp_scalarsite_generic_cblas.h:560-638 *)
Definition evaluate_c_560 := {| s_op := OpAssign; s_rhs := (Bin OpAdd (Bin OpMultiply (Ref LVec) (Ref LCplx)) (Ref LVec));
  s_objs := [("y", [R]); ("a", [L; R]); ("x", [L; L])];
  s_scal := [("ar", SRef "a")];
  s_ord := ordered_vcaxpy3_fn; s_ord_args := [IElem "d"; IPtr "ar"; IElem "x"; IElem "y"];
  s_unord := unordered_vcaxpy3_z_fn; s_unord_args := [IObj "x"; IObj "y"; IObj "d"; IPtr "ar"; ITab] |}.
(** qdp_scalarsite_generic_cblas.h:643-720 *)
Definition evaluate_c_643 := {| s_op := OpAssign; s_rhs := (Bin OpSubtract (Bin OpMultiply (Ref LCplx) (Ref LVec)) (Ref LVec));
  s_objs := [("y", [R]); ("a", [L; L]); ("x", [L; R])];
  s_scal := [("ar", SRef "a")];
  s_ord := ordered_vcaxmy3_fn; s_ord_args := [IElem "d"; IPtr "ar"; IElem "x"; IElem "y"];
  s_unord := unordered_vcaxmy3_fn; s_unord_args := [IObj "x"; IObj "y"; IObj "d"; IPtr "ar"; ITab] |}.
(** qdp_scalarsite_generic_cblas.h:725-804 *)
Definition evaluate_c_725 := {| s_op := OpAssign; s_rhs := (Bin OpSubtract (Bin OpMultiply (Ref LVec) (Ref LCplx)) (Ref LVec));
  s_objs := [("y", [R]); ("a", [L; R]); ("x", [L; L])];
  s_scal := [("ar", SRef "a")];
  s_ord := ordered_vcaxmy3_fn; s_ord_args := [IElem "d"; IPtr "ar"; IElem "x"; IElem "y"];
  s_unord := unordered_vcaxmy3_fn; s_unord_args := [IObj "x"; IObj "y"; IObj "d"; IPtr "ar"; ITab] |}.
(** qdp_scalarsite_generic_cblas.h:810-888 *)
Definition evaluate_c_810 := {| s_op := OpAssign; s_rhs := (Bin OpAdd (Ref LVec) (Bin OpMultiply (Ref LCplx) (Ref LVec)));
  s_objs := [("y", [L]); ("a", [R; L]); ("x", [R; R])];
  s_scal := [("ar", SRef "a")];
  s_ord := ordered_vcaxpy3_fn; s_ord_args := [IElem "d"; IPtr "ar"; IElem "x"; IElem "y"];
  s_unord := unordered_vcaxpy3_z_fn; s_unord_args := [IObj "x"; IObj "y"; IObj "d"; IPtr "ar"; ITab] |}.
(** qdp_scalarsite_generic_cblas.h:894-975 *)
Definition evaluate_c_894 := {| s_op := OpAssign; s_rhs := (Bin OpAdd (Ref LVec) (Bin OpMultiply (Ref LVec) (Ref LCplx)));
  s_objs := [("y", [L]); ("a", [R; R]); ("x", [R; L])];
  s_scal := [("ar", SRef "a")];
  s_ord := ordered_vcaxpy3_fn; s_ord_args := [IElem "d"; IPtr "ar"; IElem "x"; IElem "y"];
  s_unord := unordered_vcaxpy3_z_fn; s_unord_args := [IObj "x"; IObj "y"; IObj "d"; IPtr "ar"; ITab] |}.
(** qdp_scalarsite_generic_cblas.h:980-1061 *)
Definition evaluate_c_980 := {| s_op := OpAssign; s_rhs := (Bin OpSubtract (Ref LVec) (Bin OpMultiply (Ref LCplx) (Ref LVec)));
  s_objs := [("y", [L]); ("a", [R; L]); ("x", [R; R])];
  s_scal := [("ar", SNegC "a")];
  s_ord := ordered_vcaxpy3_fn; s_ord_args := [IElem "d"; IPtr "ar"; IElem "x"; IElem "y"];
  s_unord := unordered_vcaxpy3_z_fn; s_unord_args := [IObj "x"; IObj "y"; IObj "d"; IPtr "ar"; ITab] |}.
(** qdp_scalarsite_generic_cblas.h:1067-1149 *)
Definition evaluate_c_1067 := {| s_op := OpAssign; s_rhs := (Bin OpSubtract (Ref LVec) (Bin OpMultiply (Ref LVec) (Ref LCplx)));
  s_objs := [("y", [L]); ("a", [R; R]); ("x", [R; L])];
  s_scal := [("ar", SNegC "a")];
  s_ord := ordered_vcaxpy3_fn; s_ord_args := [IElem "d"; IPtr "ar"; IElem "x"; IElem "y"];
  s_unord := unordered_vcaxpy3_z_fn; s_unord_args := [IObj "x"; IObj "y"; IObj "d"; IPtr "ar"; ITab] |}.
(** qdp_scalarsite_generic_cblas.h:1155-1242 *)
Definition evaluate_c_1155 := {| s_op := OpAssign; s_rhs := (Bin OpAdd (Bin OpMultiply (Ref LCplx) (Ref LVec)) (Bin OpMultiply (Ref LCplx) (Ref LVec)));
  s_objs := [("a", [L; L]); ("x", [L; R]); ("b", [R; L]); ("y", [R; R])];
  s_scal := [("aptr", SRef "a"); ("bptr", SRef "b")];
  s_ord := ordered_vcaxpby3_fn; s_ord_args := [IElem "d"; IPtr "aptr"; IElem "x"; IPtr "bptr"; IElem "y"];
  s_unord := unordered_vcaxpby3_fn; s_unord_args := [IObj "x"; IObj "y"; IObj "d"; IPtr "aptr"; IPtr "bptr"; ITab] |}.
(** qdp_scalarsite_generic_cblas.h:1248-1341 *)
Definition evaluate_c_1248 := {| s_op := OpAssign; s_rhs := (Bin OpAdd (Bin OpMultiply (Ref LVec) (Ref LCplx)) (Bin OpMultiply (Ref LCplx) (Ref LVec)));
  s_objs := [("x", [L; L]); ("a", [L; R]); ("b", [R; L]); ("y", [R; R])];
  s_scal := [("aptr", SRef "a"); ("bptr", SRef "b")];
  s_ord := ordered_vcaxpby3_fn; s_ord_args := [IElem "d"; IPtr "aptr"; IElem "x"; IPtr "bptr"; IElem "y"];
  s_unord := unordered_vcaxpby3_fn; s_unord_args := [IObj "x"; IObj "y"; IObj "d"; IPtr "aptr"; IPtr "bptr"; ITab] |}.
(** qdp_scalarsite_generic_cblas.h:1346-1445 *)
Definition evaluate_c_1346 := {| s_op := OpAssign; s_rhs := (Bin OpAdd (Bin OpMultiply (Ref LCplx) (Ref LVec)) (Bin OpMultiply (Ref LVec) (Ref LCplx)));
  s_objs := [("a", [L; L]); ("x", [L; R]); ("y", [R; L]); ("b", [R; R])];
  s_scal := [("aptr", SRef "a"); ("bptr", SRef "b")];
  s_ord := ordered_vcaxpby3_fn; s_ord_args := [IElem "d"; IPtr "aptr"; IElem "x"; IPtr "bptr"; IElem "y"];
  s_unord := unordered_vcaxpby3_fn; s_unord_args := [IObj "x"; IObj "y"; IObj "d"; IPtr "aptr"; IPtr "bptr"; ITab] |}.
(** qdp_scalarsite_generic_cblas.h:1450-1536 *)
Definition evaluate_c_1450 := {| s_op := OpAssign; s_rhs := (Bin OpAdd (Bin OpMultiply (Ref LVec) (Ref LCplx)) (Bin OpMultiply (Ref LVec) (Ref LCplx)));
  s_objs := [("x", [L; L]); ("a", [L; R]); ("y", [R; L]); ("b", [R; R])];
  s_scal := [("aptr", SRef "a"); ("bptr", SRef "b")];
  s_ord := ordered_vcaxpby3_fn; s_ord_args := [IElem "d"; IPtr "aptr"; IElem "x"; IPtr "bptr"; IElem "y"];
  s_unord := unordered_vcaxpby3_fn; s_unord_args := [IObj "x"; IObj "y"; IObj "d"; IPtr "aptr"; IPtr "bptr"; ITab] |}.
(** qdp_scalarsite_generic_cblas.h:1541-1628 *)
Definition evaluate_c_1541 := {| s_op := OpAssign; s_rhs := (Bin OpSubtract (Bin OpMultiply (Ref LCplx) (Ref LVec)) (Bin OpMultiply (Ref LCplx) (Ref LVec)));
  s_objs := [("a", [L; L]); ("x", [L; R]); ("b", [R; L]); ("y", [R; R])];
  s_scal := [("aptr", SRef "a"); ("bptr", SRef "b")];
  s_ord := ordered_vcaxmby3_fn; s_ord_args := [IElem "d"; IPtr "aptr"; IElem "x"; IPtr "bptr"; IElem "y"];
  s_unord := unordered_vcaxmby3_fn; s_unord_args := [IObj "x"; IObj "y"; IObj "d"; IPtr "aptr"; IPtr "bptr"; ITab] |}.
(** qdp_scalarsite_generic_cblas.h:1634-1727 *)
Definition evaluate_c_1634 := {| s_op := OpAssign; s_rhs := (Bin OpSubtract (Bin OpMultiply (Ref LVec) (Ref LCplx)) (Bin OpMultiply (Ref LCplx) (Ref LVec)));
  s_objs := [("x", [L; L]); ("a", [L; R]); ("b", [R; L]); ("y", [R; R])];
  s_scal := [("aptr", SRef "a"); ("bptr", SRef "b")];
  s_ord := ordered_vcaxmby3_fn; s_ord_args := [IElem "d"; IPtr "aptr"; IElem "x"; IPtr "bptr"; IElem "y"];
  s_unord := unordered_vcaxmby3_fn; s_unord_args := [IObj "x"; IObj "y"; IObj "d"; IPtr "aptr"; IPtr "bptr"; ITab] |}.
(** qdp_scalarsite_generic_cblas.h:1732-1831 *)
Definition evaluate_c_1732 := {| s_op := OpAssign; s_rhs := (Bin OpSubtract (Bin OpMultiply (Ref LCplx) (Ref LVec)) (Bin OpMultiply (Ref LVec) (Ref LCplx)));
  s_objs := [("a", [L; L]); ("x", [L; R]); ("y", [R; L]); ("b", [R; R])];
  s_scal := [("aptr", SRef "a"); ("bptr", SRef "b")];
  s_ord := ordered_vcaxmby3_fn; s_ord_args := [IElem "d"; IPtr "aptr"; IElem "x"; IPtr "bptr"; IElem "y"];
  s_unord := unordered_vcaxmby3_fn; s_unord_args := [IObj "x"; IObj "y"; IObj "d"; IPtr "aptr"; IPtr "bptr"; ITab] |}.
(** qdp_scalarsite_generic_cblas.h:1836-1922 *)
Definition evaluate_c_1836 := {| s_op := OpAssign; s_rhs := (Bin OpSubtract (Bin OpMultiply (Ref LVec) (Ref LCplx)) (Bin OpMultiply (Ref LVec) (Ref LCplx)));
  s_objs := [("x", [L; L]); ("a", [L; R]); ("y", [R; L]); ("b", [R; R])];
  s_scal := [("aptr", SRef "a"); ("bptr", SRef "b")];
  s_ord := ordered_vcaxmby3_fn; s_ord_args := [IElem "d"; IPtr "aptr"; IElem "x"; IPtr "bptr"; IElem "y"];
  s_unord := unordered_vcaxmby3_fn; s_unord_args := [IObj "x"; IObj "y"; IObj "d"; IPtr "aptr"; IPtr "bptr"; ITab] |}.
(** qdp_scalarsite_generic_blas_g5.h:51-113 *)
Definition evaluate_g_51 := {| s_op := OpAddAssign; s_rhs := (Bin OpMultiply (Ref LReal) (Un FnChiralProjectPlus (Ref LVec)));
  s_objs := [("x", [R; C]); ("a", [L])];
  s_scal := [("aptr", SId "a")];
  s_ord := ordered_vaypx3_g5_fn; s_ord_args := [IElem "d"; IPtr "aptr"; IElem "d"; IElem "x"; IFun k_xpayz_g5ProjPlus];
  s_unord := unordered_vaypx3_g5_y_fn; s_unord_args := [IObj "x"; IObj "d"; IPtr "aptr"; INum 1; ITab; IFun k_xpayz_g5ProjPlus] |}.
(** qdp_scalarsite_generic_blas_g5.h:118-178 *)
Definition evaluate_g_118 := {| s_op := OpAddAssign; s_rhs := (Bin OpMultiply (Ref LReal) (Un FnChiralProjectMinus (Ref LVec)));
  s_objs := [("x", [R; C]); ("a", [L])];
  s_scal := [("aptr", SId "a")];
  s_ord := ordered_vaypx3_g5_fn; s_ord_args := [IElem "d"; IPtr "aptr"; IElem "d"; IElem "x"; IFun k_xpayz_g5ProjMinus];
  s_unord := unordered_vaypx3_g5_y_fn; s_unord_args := [IObj "x"; IObj "d"; IPtr "aptr"; INum 1; ITab; IFun k_xpayz_g5ProjMinus] |}.
(** qdp_scalarsite_generic_blas_g5.h:184-243 *)
Definition evaluate_g_184 := {| s_op := OpSubtractAssign; s_rhs := (Bin OpMultiply (Ref LReal) (Un FnChiralProjectPlus (Ref LVec)));
  s_objs := [("x", [R; C]); ("a", [L])];
  s_scal := [("aptr", SId "a")];
  s_ord := ordered_vaypx3_g5_fn; s_ord_args := [IElem "d"; IPtr "aptr"; IElem "d"; IElem "x"; IFun k_xmayz_g5ProjPlus];
  s_unord := unordered_vaypx3_g5_y_fn; s_unord_args := [IObj "x"; IObj "d"; IPtr "aptr"; INum 1; ITab; IFun k_xmayz_g5ProjPlus] |}.
(** qdp_scalarsite_generic_blas_g5.h:248-308 *)
Definition evaluate_g_248 := {| s_op := OpSubtractAssign; s_rhs := (Bin OpMultiply (Ref LReal) (Un FnChiralProjectMinus (Ref LVec)));
  s_objs := [("x", [R; C]); ("a", [L])];
  s_scal := [("aptr", SId "a")];
  s_ord := ordered_vaypx3_g5_fn; s_ord_args := [IElem "d"; IPtr "aptr"; IElem "d"; IElem "x"; IFun k_xmayz_g5ProjMinus];
  s_unord := unordered_vaypx3_g5_y_fn; s_unord_args := [IObj "x"; IObj "d"; IPtr "aptr"; INum 1; ITab; IFun k_xmayz_g5ProjMinus] |}.
(** qdp_scalarsite_generic_blas_g5.h:314-368 *)
Definition evaluate_g_314 := {| s_op := OpAddAssign; s_rhs := (Un FnChiralProjectPlus (Ref LVec));
  s_objs := [("x", [C])];
  s_scal := [];
  s_ord := ordered_vadd3_g5_fn; s_ord_args := [IElem "d"; IElem "d"; IElem "x"; IFun k_add_g5ProjPlus];
  s_unord := unordered_vadd3_g5_fn; s_unord_args := [IObj "x"; IObj "d"; INum 1; ITab; IFun k_add_g5ProjPlus] |}.
(** qdp_scalarsite_generic_blas_g5.h:374-428 *)
Definition evaluate_g_374 := {| s_op := OpAddAssign; s_rhs := (Un FnChiralProjectMinus (Ref LVec));
  s_objs := [("x", [C])];
  s_scal := [];
  s_ord := ordered_vadd3_g5_fn; s_ord_args := [IElem "d"; IElem "d"; IElem "x"; IFun k_add_g5ProjMinus];
  s_unord := unordered_vadd3_g5_fn; s_unord_args := [IObj "x"; IObj "d"; INum 1; ITab; IFun k_add_g5ProjMinus] |}.
(** qdp_scalarsite_generic_blas_g5.h:434-487 *)
Definition evaluate_g_434 := {| s_op := OpSubtractAssign; s_rhs := (Un FnChiralProjectPlus (Ref LVec));
  s_objs := [("x", [C])];
  s_scal := [];
  s_ord := ordered_vadd3_g5_fn; s_ord_args := [IElem "d"; IElem "d"; IElem "x"; IFun k_sub_g5ProjPlus];
  s_unord := unordered_vadd3_g5_fn; s_unord_args := [IObj "x"; IObj "d"; INum 1; ITab; IFun k_sub_g5ProjPlus] |}.
(** qdp_scalarsite_generic_blas_g5.h:493-546 *)
Definition evaluate_g_493 := {| s_op := OpSubtractAssign; s_rhs := (Un FnChiralProjectMinus (Ref LVec));
  s_objs := [("x", [C])];
  s_scal := [];
  s_ord := ordered_vadd3_g5_fn; s_ord_args := [IElem "d"; IElem "d"; IElem "x"; IFun k_sub_g5ProjMinus];
  s_unord := unordered_vadd3_g5_fn; s_unord_args := [IObj "x"; IObj "d"; INum 1; ITab; IFun k_sub_g5ProjMinus] |}.
(** qdp_scalarsite_generic_blas_g5.h:551-634 *)
Definition evaluate_g_551 := {| s_op := OpAssign; s_rhs := (Bin OpAdd (Ref LVec) (Bin OpMultiply (Ref LReal) (Un FnChiralProjectPlus (Ref LVec))));
  s_objs := [("x", [L]); ("a", [R; L]); ("y", [R; R; C])];
  s_scal := [("aptr", SId "a")];
  s_ord := ordered_vaypx3_g5_fn; s_ord_args := [IElem "d"; IPtr "aptr"; IElem "x"; IElem "y"; IFun k_xpayz_g5ProjPlus];
  s_unord := unordered_vaypx3_g5_z_fn; s_unord_args := [IObj "x"; IObj "y"; IObj "d"; IPtr "aptr"; INum 1; ITab; IFun k_xpayz_g5ProjPlus] |}.
(** qdp_scalarsite_generic_blas_g5.h:639-722 *)
Definition evaluate_g_639 := {| s_op := OpAssign; s_rhs := (Bin OpAdd (Ref LVec) (Bin OpMultiply (Ref LReal) (Un FnChiralProjectMinus (Ref LVec))));
  s_objs := [("x", [L]); ("a", [R; L]); ("y", [R; R; C])];
  s_scal := [("aptr", SId "a")];
  s_ord := ordered_vaypx3_g5_fn; s_ord_args := [IElem "d"; IPtr "aptr"; IElem "x"; IElem "y"; IFun k_xpayz_g5ProjMinus];
  s_unord := unordered_vaypx3_g5_z_fn; s_unord_args := [IObj "x"; IObj "y"; IObj "d"; IPtr "aptr"; INum 1; ITab; IFun k_xpayz_g5ProjMinus] |}.
(** qdp_scalarsite_generic_blas_g5.h:727-810 *)
Definition evaluate_g_727 := {| s_op := OpAssign; s_rhs := (Bin OpSubtract (Ref LVec) (Bin OpMultiply (Ref LReal) (Un FnChiralProjectPlus (Ref LVec))));
  s_objs := [("x", [L]); ("a", [R; L]); ("y", [R; R; C])];
  s_scal := [("aptr", SId "a")];
  s_ord := ordered_vaypx3_g5_fn; s_ord_args := [IElem "d"; IPtr "aptr"; IElem "x"; IElem "y"; IFun k_xmayz_g5ProjPlus];
  s_unord := unordered_vaypx3_g5_z_fn; s_unord_args := [IObj "x"; IObj "y"; IObj "d"; IPtr "aptr"; INum 1; ITab; IFun k_xmayz_g5ProjPlus] |}.
(** qdp_scalarsite_generic_blas_g5.h:815-897 *)
Definition evaluate_g_815 := {| s_op := OpAssign; s_rhs := (Bin OpSubtract (Ref LVec) (Bin OpMultiply (Ref LReal) (Un FnChiralProjectMinus (Ref LVec))));
  s_objs := [("x", [L]); ("a", [R; L]); ("y", [R; R; C])];
  s_scal := [("aptr", SId "a")];
  s_ord := ordered_vaypx3_g5_fn; s_ord_args := [IElem "d"; IPtr "aptr"; IElem "x"; IElem "y"; IFun k_xmayz_g5ProjMinus];
  s_unord := unordered_vaypx3_g5_z_fn; s_unord_args := [IObj "x"; IObj "y"; IObj "d"; IPtr "aptr"; INum 1; ITab; IFun k_xmayz_g5ProjMinus] |}.
(** qdp_scalarsite_generic_blas_g5.h:902-980 *)
Definition evaluate_g_902 := {| s_op := OpAssign; s_rhs := (Bin OpAdd (Bin OpMultiply (Ref LReal) (Ref LVec)) (Un FnChiralProjectPlus (Ref LVec)));
  s_objs := [("y", [R; C]); ("a", [L; L]); ("x", [L; R])];
  s_scal := [("aptr", SId "a")];
  s_ord := ordered_vaxpy3_g5_fn; s_ord_args := [IElem "d"; IPtr "aptr"; IElem "x"; IElem "y"; IFun k_axpyz_g5ProjPlus];
  s_unord := unordered_vaxpy3_g5_fn; s_unord_args := [IObj "x"; IObj "y"; IObj "d"; IPtr "aptr"; INum 1; ITab; IFun k_axpyz_g5ProjPlus] |}.
(** qdp_scalarsite_generic_blas_g5.h:985-1064 *)
Definition evaluate_g_985 := {| s_op := OpAssign; s_rhs := (Bin OpAdd (Bin OpMultiply (Ref LReal) (Ref LVec)) (Un FnChiralProjectMinus (Ref LVec)));
  s_objs := [("y", [R; C]); ("a", [L; L]); ("x", [L; R])];
  s_scal := [("aptr", SId "a")];
  s_ord := ordered_vaxpy3_g5_fn; s_ord_args := [IElem "d"; IPtr "aptr"; IElem "x"; IElem "y"; IFun k_axpyz_g5ProjMinus];
  s_unord := unordered_vaxpy3_g5_fn; s_unord_args := [IObj "x"; IObj "y"; IObj "d"; IPtr "aptr"; INum 1; ITab; IFun k_axpyz_g5ProjMinus] |}.
(** qdp_scalarsite_generic_blas_g5.h:1070-1150 *)
Definition evaluate_g_1070 := {| s_op := OpAssign; s_rhs := (Bin OpSubtract (Bin OpMultiply (Ref LReal) (Ref LVec)) (Un FnChiralProjectPlus (Ref LVec)));
  s_objs := [("y", [R; C]); ("a", [L; L]); ("x", [L; R])];
  s_scal := [("aptr", SId "a")];
  s_ord := ordered_vaxpy3_g5_fn; s_ord_args := [IElem "d"; IPtr "aptr"; IElem "x"; IElem "y"; IFun k_axmyz_g5ProjPlus];
  s_unord := unordered_vaxpy3_g5_fn; s_unord_args := [IObj "x"; IObj "y"; IObj "d"; IPtr "aptr"; INum 1; ITab; IFun k_axmyz_g5ProjPlus] |}.
(** qdp_scalarsite_generic_blas_g5.h:1155-1232 *)
Definition evaluate_g_1155 := {| s_op := OpAssign; s_rhs := (Bin OpSubtract (Bin OpMultiply (Ref LReal) (Ref LVec)) (Un FnChiralProjectMinus (Ref LVec)));
  s_objs := [("y", [R; C]); ("a", [L; L]); ("x", [L; R])];
  s_scal := [("aptr", SId "a")];
  s_ord := ordered_vaxpy3_g5_fn; s_ord_args := [IElem "d"; IPtr "aptr"; IElem "x"; IElem "y"; IFun k_axmyz_g5ProjMinus];
  s_unord := unordered_vaxpy3_g5_fn; s_unord_args := [IObj "x"; IObj "y"; IObj "d"; IPtr "aptr"; INum 1; ITab; IFun k_axmyz_g5ProjMinus] |}.
(** qdp_scalarsite_generic_blas_g5.h:1237-1298 *)
Definition evaluate_g_1237 := {| s_op := OpAssign; s_rhs := (Bin OpMultiply (Ref LReal) (Un FnChiralProjectPlus (Ref LVec)));
  s_objs := [("x", [R; C]); ("a", [L])];
  s_scal := [("aptr", SId "a")];
  s_ord := ordered_vscal_g5_fn; s_ord_args := [IElem "d"; IPtr "aptr"; IElem "x"; IFun k_scal_g5ProjPlus];
  s_unord := unordered_vscal_g5_fn; s_unord_args := [IObj "x"; IObj "d"; IPtr "aptr"; INum 1; ITab; IFun k_scal_g5ProjPlus] |}.
(** qdp_scalarsite_generic_blas_g5.h:1303-1363 *)
Definition evaluate_g_1303 := {| s_op := OpAssign; s_rhs := (Bin OpMultiply (Ref LReal) (Un FnChiralProjectMinus (Ref LVec)));
  s_objs := [("x", [R; C]); ("a", [L])];
  s_scal := [("aptr", SId "a")];
  s_ord := ordered_vscal_g5_fn; s_ord_args := [IElem "d"; IPtr "aptr"; IElem "x"; IFun k_scal_g5ProjMinus];
  s_unord := unordered_vscal_g5_fn; s_unord_args := [IObj "x"; IObj "d"; IPtr "aptr"; INum 1; ITab; IFun k_scal_g5ProjMinus] |}.
(** qdp_scalarsite_generic_blas_g5.h:1368-1462 *)
Definition evaluate_g_1368 := {| s_op := OpAssign; s_rhs := (Bin OpAdd (Bin OpMultiply (Ref LReal) (Ref LVec)) (Bin OpMultiply (Ref LReal) (Un FnChiralProjectPlus (Ref LVec))));
  s_objs := [("a", [L; L]); ("x", [L; R]); ("b", [R; L]); ("y", [R; R; C])];
  s_scal := [("aptr", SRef "a"); ("bptr", SRef "b")];
  s_ord := ordered_vaxpby3_g5_fn; s_ord_args := [IElem "d"; IPtr "aptr"; IElem "x"; IPtr "bptr"; IElem "y"; IFun k_axpbyz_g5ProjPlus];
  s_unord := unordered_vaxpby3_g5_fn; s_unord_args := [IObj "x"; IObj "y"; IObj "d"; IPtr "aptr"; IPtr "bptr"; INum 1; ITab; IFun k_axpbyz_g5ProjPlus] |}.
(** qdp_scalarsite_generic_blas_g5.h:1467-1559 *)
Definition evaluate_g_1467 := {| s_op := OpAssign; s_rhs := (Bin OpAdd (Bin OpMultiply (Ref LReal) (Ref LVec)) (Bin OpMultiply (Ref LReal) (Un FnChiralProjectMinus (Ref LVec))));
  s_objs := [("a", [L; L]); ("x", [L; R]); ("b", [R; L]); ("y", [R; R; C])];
  s_scal := [("aptr", SRef "a"); ("bptr", SRef "b")];
  s_ord := ordered_vaxpby3_g5_fn; s_ord_args := [IElem "d"; IPtr "aptr"; IElem "x"; IPtr "bptr"; IElem "y"; IFun k_axpbyz_g5ProjMinus];
  s_unord := unordered_vaxpby3_g5_fn; s_unord_args := [IObj "x"; IObj "y"; IObj "d"; IPtr "aptr"; IPtr "bptr"; INum 1; ITab; IFun k_axpbyz_g5ProjMinus] |}.
(** qdp_scalarsite_generic_blas_g5.h:1564-1655 *)
Definition evaluate_g_1564 := {| s_op := OpAssign; s_rhs := (Bin OpSubtract (Bin OpMultiply (Ref LReal) (Ref LVec)) (Bin OpMultiply (Ref LReal) (Un FnChiralProjectPlus (Ref LVec))));
  s_objs := [("a", [L; L]); ("x", [L; R]); ("b", [R; L]); ("y", [R; R; C])];
  s_scal := [("aptr", SRef "a"); ("bptr", SRef "b")];
  s_ord := ordered_vaxpby3_g5_fn; s_ord_args := [IElem "d"; IPtr "aptr"; IElem "x"; IPtr "bptr"; IElem "y"; IFun k_axmbyz_g5ProjPlus];
  s_unord := unordered_vaxpby3_g5_fn; s_unord_args := [IObj "x"; IObj "y"; IObj "d"; IPtr "aptr"; IPtr "bptr"; INum 1; ITab; IFun k_axmbyz_g5ProjPlus] |}.
(** qdp_scalarsite_generic_blas_g5.h:1660-1750 *)
Definition evaluate_g_1660 := {| s_op := OpAssign; s_rhs := (Bin OpSubtract (Bin OpMultiply (Ref LReal) (Ref LVec)) (Bin OpMultiply (Ref LReal) (Un FnChiralProjectMinus (Ref LVec))));
  s_objs := [("a", [L; L]); ("x", [L; R]); ("b", [R; L]); ("y", [R; R; C])];
  s_scal := [("aptr", SRef "a"); ("bptr", SRef "b")];
  s_ord := ordered_vaxpby3_g5_fn; s_ord_args := [IElem "d"; IPtr "aptr"; IElem "x"; IPtr "bptr"; IElem "y"; IFun k_axmbyz_g5ProjMinus];
  s_unord := unordered_vaxpby3_g5_fn; s_unord_args := [IObj "x"; IObj "y"; IObj "d"; IPtr "aptr"; IPtr "bptr"; INum 1; ITab; IFun k_axmbyz_g5ProjMinus] |}.
(** qdp_scalarsite_generic_blas_g5.h:1755-1830 *)
Definition evaluate_g_1755 := {| s_op := OpAssign; s_rhs := (Bin OpMultiply (Ref LReal) (Bin OpGammaConstMultiply GConst (Ref LVec)));
  s_objs := [("a", [L]); ("x", [R; R])];
  s_scal := [("aptr", SId "a")];
  s_ord := ordered_scal_g5_fn; s_ord_args := [IElem "d"; IPtr "aptr"; IElem "x"];
  s_unord := unordered_scal_g5_fn; s_unord_args := [IObj "x"; IObj "d"; IPtr "aptr"; INum 1; ITab] |}.
(** qdp_scalarsite_generic_blas_g5.h:1837-1926 *)
Definition evaluate_g_1837 := {| s_op := OpAssign; s_rhs := (Bin OpSubtract (Ref LVec) (Bin OpMultiply (Ref LReal) (Bin OpGammaConstMultiply GConst (Ref LVec))));
  s_objs := [("x", [L]); ("a", [R; L]); ("y", [R; R; R])];
  s_scal := [("aptr", SId "a")];
  s_ord := ordered_xOpayz_g5_fn; s_ord_args := [IElem "d"; IPtr "aptr"; IElem "x"; IElem "y"; IFun k_xmayz_g5];
  s_unord := unordered_xOpayz_g5_fn; s_unord_args := [IObj "x"; IObj "y"; IObj "d"; IPtr "aptr"; INum 1; ITab; IFun k_xmayz_g5] |}.
(** qdp_scalarsite_generic_blas_g5.h:1933-2033 *)
Definition evaluate_g_1933 := {| s_op := OpAssign; s_rhs := (Bin OpAdd (Bin OpMultiply (Ref LReal) (Ref LVec)) (Bin OpMultiply (Ref LReal) (Bin OpGammaConstMultiply GConst (Ref LVec))));
  s_objs := [("a", [L; L]); ("x", [L; R]); ("b", [R; L]); ("y", [R; R; R])];
  s_scal := [("aptr", SRef "a"); ("bptr", SRef "b")];
  s_ord := ordered_axOpbyz_g5_fn; s_ord_args := [IElem "d"; IPtr "aptr"; IElem "x"; IPtr "bptr"; IElem "y"; IFun k_axpbyz_g5];
  s_unord := unordered_axOpbyz_g5_fn; s_unord_args := [IObj "x"; IObj "y"; IObj "d"; IPtr "aptr"; IPtr "bptr"; INum 1; ITab; IFun k_axpbyz_g5] |}.
(** qdp_scalarsite_generic_blas_g5.h:2039-2136 *)
Definition evaluate_g_2039 := {| s_op := OpAssign; s_rhs := (Bin OpGammaConstMultiply GConst (Bin OpSubtract (Bin OpMultiply (Ref LReal) (Ref LVec)) (Bin OpMultiply (Ref LReal) (Ref LVec))));
  s_objs := [("a", [R; L; L]); ("x", [R; L; R]); ("b", [R; R; L]); ("y", [R; R; R])];
  s_scal := [("aptr", SRef "a"); ("bptr", SRef "b")];
  s_ord := ordered_axOpbyz_g5_fn; s_ord_args := [IElem "d"; IPtr "aptr"; IElem "x"; IPtr "bptr"; IElem "y"; IFun k_g5_axmbyz];
  s_unord := unordered_axOpbyz_g5_fn; s_unord_args := [IObj "x"; IObj "y"; IObj "d"; IPtr "aptr"; IPtr "bptr"; INum 1; ITab; IFun k_g5_axmbyz] |}.
(** qdp_scalarsite_generic_blas_g5.h:2144-2256 *)
Definition evaluate_g_2144 := {| s_op := OpAssign; s_rhs := (Bin OpAdd (Bin OpMultiply (Ref LReal) (Ref LVec)) (Bin OpMultiply (Ref LReal) (Bin OpGammaConstMultiply GConst (Un FnTimesI (Ref LVec)))));
  s_objs := [("a", [L; L]); ("x", [L; R]); ("b", [R; L]); ("y", [R; R; R; C])];
  s_scal := [("aptr", SRef "a"); ("bptr", SRef "b")];
  s_ord := ordered_axOpbyz_g5_fn; s_ord_args := [IElem "d"; IPtr "aptr"; IElem "x"; IPtr "bptr"; IElem "y"; IFun k_axpbyz_ig5];
  s_unord := unordered_axOpbyz_g5_fn; s_unord_args := [IObj "x"; IObj "y"; IObj "d"; IPtr "aptr"; IPtr "bptr"; INum 1; ITab; IFun k_axpbyz_ig5] |}.
(** qdp_scalarsite_generic_blas_g5.h:2262-2374 *)
Definition evaluate_g_2262 := {| s_op := OpAssign; s_rhs := (Bin OpSubtract (Bin OpMultiply (Ref LReal) (Ref LVec)) (Bin OpMultiply (Ref LReal) (Bin OpGammaConstMultiply GConst (Un FnTimesI (Ref LVec)))));
  s_objs := [("a", [L; L]); ("x", [L; R]); ("b", [R; L]); ("y", [R; R; R; C])];
  s_scal := [("aptr", SRef "a"); ("bptr", SRef "b")];
  s_ord := ordered_axOpbyz_g5_fn; s_ord_args := [IElem "d"; IPtr "aptr"; IElem "x"; IPtr "bptr"; IElem "y"; IFun k_axmbyz_ig5];
  s_unord := unordered_axOpbyz_g5_fn; s_unord_args := [IObj "x"; IObj "y"; IObj "d"; IPtr "aptr"; IPtr "bptr"; INum 1; ITab; IFun k_axmbyz_ig5] |}.
(** qdp_scalarsite_generic_blas_g5.h:2380-2481 *)
Definition evaluate_g_2380 := {| s_op := OpAssign; s_rhs := (Bin OpAdd (Ref LVec) (Bin OpMultiply (Ref LReal) (Bin OpGammaConstMultiply GConst (Un FnTimesI (Ref LVec)))));
  s_objs := [("x", [L]); ("a", [R; L]); ("y", [R; R; R; C])];
  s_scal := [("aptr", SId "a")];
  s_ord := ordered_xOpayz_ig5_fn; s_ord_args := [IElem "d"; IPtr "aptr"; IElem "x"; IElem "y"; IFun k_xpayz_ig5];
  s_unord := unordered_xOpayz_ig5_y_fn; s_unord_args := [IObj "x"; IObj "y"; IObj "d"; IPtr "aptr"; INum 1; ITab; IFun k_xpayz_ig5] |}.
(** qdp_scalarsite_generic_blas_g5.h:2487-2590 *)
Definition evaluate_g_2487 := {| s_op := OpAssign; s_rhs := (Bin OpSubtract (Ref LVec) (Bin OpMultiply (Ref LReal) (Bin OpGammaConstMultiply GConst (Un FnTimesI (Ref LVec)))));
  s_objs := [("x", [L]); ("a", [R; L]); ("y", [R; R; R; C])];
  s_scal := [("aptr", SId "a")];
  s_ord := ordered_xOpayz_ig5_fn; s_ord_args := [IElem "d"; IPtr "aptr"; IElem "x"; IElem "y"; IFun k_xmayz_ig5];
  s_unord := unordered_xOpayz_ig5_y_fn; s_unord_args := [IObj "x"; IObj "y"; IObj "d"; IPtr "aptr"; INum 1; ITab; IFun k_xmayz_ig5] |}.
(** qdp_scalarsite_generic_blas_g5.h:2598-2697 *)
Definition evaluate_g_2598 := {| s_op := OpAddAssign; s_rhs := (Bin OpMultiply (Ref LReal) (Bin OpGammaConstMultiply GConst (Un FnTimesI (Ref LVec))));
  s_objs := [("a", [L]); ("x", [R; R; C])];
  s_scal := [("aptr", SId "a")];
  s_ord := ordered_xOpayz_ig5_fn; s_ord_args := [IElem "d"; IPtr "aptr"; IElem "d"; IElem "x"; IFun k_xpayz_ig5];
  s_unord := unordered_xOpayz_ig5_z_fn; s_unord_args := [IObj "x"; IObj "d"; IPtr "aptr"; INum 1; ITab; IFun k_xpayz_ig5] |}.
(** qdp_scalarsite_generic_blas_g5.h:2704-2804 *)
Definition evaluate_g_2704 := {| s_op := OpSubtractAssign; s_rhs := (Bin OpMultiply (Ref LReal) (Bin OpGammaConstMultiply GConst (Un FnTimesI (Ref LVec))));
  s_objs := [("a", [L]); ("x", [R; R; C])];
  s_scal := [("aptr", SId "a")];
  s_ord := ordered_xOpayz_ig5_fn; s_ord_args := [IElem "d"; IPtr "aptr"; IElem "d"; IElem "x"; IFun k_xmayz_ig5];
  s_unord := unordered_xOpayz_ig5_z_fn; s_unord_args := [IObj "x"; IObj "d"; IPtr "aptr"; INum 1; ITab; IFun k_xmayz_ig5] |}.

Definition specials : list special := [
  evaluate_r_53;
  evaluate_r_116;
  evaluate_r_177;
  evaluate_r_258;
  evaluate_r_341;
  evaluate_r_418;
  evaluate_r_499;
  evaluate_r_567;
  evaluate_r_634;
  evaluate_r_718;
  evaluate_r_804;
  evaluate_r_883;
  evaluate_r_965;
  evaluate_r_1032;
  evaluate_r_1097;
  evaluate_r_1157;
  evaluate_r_1217;
  evaluate_r_1276;
  evaluate_r_1334;
  evaluate_r_1400;
  evaluate_r_1462;
  evaluate_r_1553;
  evaluate_r_1650;
  evaluate_r_1753;
  evaluate_r_1843;
  evaluate_r_1934;
  evaluate_r_2031;
  evaluate_r_2134;
  evaluate_c_29;
  evaluate_c_88;
  evaluate_c_155;
  evaluate_c_221;
  evaluate_c_285;
  evaluate_c_347;
  evaluate_c_413;
  evaluate_c_477;
  evaluate_c_560;
  evaluate_c_643;
  evaluate_c_725;
  evaluate_c_810;
  evaluate_c_894;
  evaluate_c_980;
  evaluate_c_1067;
  evaluate_c_1155;
  evaluate_c_1248;
  evaluate_c_1346;
  evaluate_c_1450;
  evaluate_c_1541;
  evaluate_c_1634;
  evaluate_c_1732;
  evaluate_c_1836;
  evaluate_g_51;
  evaluate_g_118;
  evaluate_g_184;
  evaluate_g_248;
  evaluate_g_314;
  evaluate_g_374;
  evaluate_g_434;
  evaluate_g_493;
  evaluate_g_551;
  evaluate_g_639;
  evaluate_g_727;
  evaluate_g_815;
  evaluate_g_902;
  evaluate_g_985;
  evaluate_g_1070;
  evaluate_g_1155;
  evaluate_g_1237;
  evaluate_g_1303;
  evaluate_g_1368;
  evaluate_g_1467;
  evaluate_g_1564;
  evaluate_g_1660;
  evaluate_g_1755;
  evaluate_g_1837;
  evaluate_g_1933;
  evaluate_g_2039;
  evaluate_g_2144;
  evaluate_g_2262;
  evaluate_g_2380;
  evaluate_g_2487;
  evaluate_g_2598;
  evaluate_g_2704].
