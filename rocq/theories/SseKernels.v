From Coq Require Import List Bool Arith NArith ZArith Lia.
From Verif Require Import SseMachine.
Import ListNotations.
Open Scope nat_scope.

(** The double precision kernels of SSE builds: the loops over matrices and spinors of
    lib/scalarsite_sse/*_double.cc, instruction by instruction.  Every local variable of
    type __m128d is a register, every REAL64* a pointer register; the numbers stand for
    the variable names of the C++ code (the same name in two functions has the same
    number, which is harmless: a function starts with no register set). *)

(** Variables of type __m128d; [r_t_..] are the locals of the complex multiplication macros. *)
Definition r_sum1 : N := 1.
Definition r_sum2 : N := 2.
Definition r_sum3 : N := 3.
Definition r_sum4 : N := 4.
Definition r_tmp1 : N := 5.
Definition r_tmp5 : N := 6.
Definition r_tmp2 : N := 7.
Definition r_tmp6 : N := 8.
Definition r_tmp3 : N := 9.
Definition r_tmp7 : N := 10.
Definition r_tmp4 : N := 11.
Definition r_tmp8 : N := 12.
Definition r_t_t1 : N := 13.
Definition r_t_t2 : N := 14.
Definition r_t_t3 : N := 15.
Definition r_t_t4 : N := 16.
Definition r_tmp9 : N := 17.
Definition r_tmp10 : N := 18.
Definition r_tmp11 : N := 19.
Definition r_tmp12 : N := 20.
Definition r_a_sse : N := 21.
Definition r_b_sse : N := 22.
Definition r_y1 : N := 23.
Definition r_x1 : N := 24.
Definition r_z1 : N := 25.
Definition r_y2 : N := 26.
Definition r_x2 : N := 27.
Definition r_z2 : N := 28.
Definition r_y3 : N := 29.
Definition r_x3 : N := 30.
Definition r_z3 : N := 31.
Definition r_scalar : N := 32.
Definition r_add1 : N := 33.
Definition r_in1 : N := 34.
Definition r_out1 : N := 35.
Definition r_add2 : N := 36.
Definition r_in2 : N := 37.
Definition r_out2 : N := 38.
Definition r_add3 : N := 39.
Definition r_in3 : N := 40.
Definition r_out3 : N := 41.
Definition r_x4 : N := 42.
Definition r_z4 : N := 43.
Definition r_x5 : N := 44.
Definition r_z5 : N := 45.
Definition r_x6 : N := 46.
Definition r_z6 : N := 47.
Definition r_t_t5 : N := 48.
Definition r_m1_1 : N := 49.
Definition r_m1_2 : N := 50.
Definition r_m1_3 : N := 51.
Definition r_m2_1 : N := 52.
Definition r_m2_2 : N := 53.
Definition r_m2_3 : N := 54.
Definition r_m3_11 : N := 55.
Definition r_m3_12 : N := 56.
Definition r_m3_13 : N := 57.
Definition r_res1 : N := 58.
Definition r_res2 : N := 59.
Definition r_res3 : N := 60.
Definition r_m3_21 : N := 61.
Definition r_m3_22 : N := 62.
Definition r_m3_23 : N := 63.
Definition r_tmp13 : N := 64.
Definition r_tmp14 : N := 65.
Definition r_tmp15 : N := 66.
Definition r_mfact : N := 67.
Definition r_m1_11 : N := 68.
Definition r_m1_12 : N := 69.
Definition r_m1_13 : N := 70.
Definition r_m1_21 : N := 71.
Definition r_m1_22 : N := 72.
Definition r_m1_23 : N := 73.
Definition r_m1_31 : N := 74.
Definition r_m1_32 : N := 75.
Definition r_m1_33 : N := 76.

(** Variables of type REAL64*. *)
Definition p_in : N := 1.
Definition p_vecptr : N := 2.
Definition p_sum : N := 3.
Definition p_x_p : N := 4.
Definition p_x : N := 5.
Definition p_y_p : N := 6.
Definition p_y : N := 7.
Definition p_a : N := 8.
Definition p_b : N := 9.
Definition p_z_p : N := 10.
Definition p_z : N := 11.
Definition p_scalep : N := 12.
Definition p_in_p : N := 13.
Definition p_InScale : N := 14.
Definition p_add_p : N := 15.
Definition p_Add : N := 16.
Definition p_out_p : N := 17.
Definition p_Out : N := 18.
Definition p_m1_p : N := 19.
Definition p_m1 : N := 20.
Definition p_m2_p : N := 21.
Definition p_m2 : N := 22.
Definition p_m3_p : N := 23.
Definition p_m3 : N := 24.
Definition p_m : N := 25.

(** lib/scalarsite_sse/sse_blas_vaxpy4_double.cc 15-17 (the same in vaxpbyz4 and vaxmbyz4) *)
Definition L2BY2 : nat := 1365.

(** lib/scalarsite_sse/sse_blas_local_vcdot_double.cc 19-30 (SSE2) and 51-60 (SSE3) *)
Definition vcdot_CONJMUL (w : isa) (z x y : N) : list instr :=
  match w with
  | SSE2 => [MulPd r_t_t1 x y;
      Shuffle r_t_t2 r_t_t1 r_t_t1 1;
      Shuffle r_t_t3 y y 1;
      AddPd z r_t_t1 r_t_t2;
      MulPd r_t_t2 x r_t_t3;
      Shuffle r_t_t3 r_t_t2 r_t_t2 1;
      SubPd r_t_t3 r_t_t2 r_t_t3;
      Shuffle z z r_t_t3 2]
  | SSE3 => [MulPd r_t_t1 x y;
      HAddPd z r_t_t1 r_t_t1;
      Shuffle r_t_t1 x x 1;
      MulPd r_t_t1 y r_t_t1;
      HSubPd r_t_t1 r_t_t1 r_t_t1;
      Shuffle z z r_t_t1 2]
  end.

(** lib/scalarsite_sse/sse_blas_local_vcdot_double.cc 32-44 (SSE2) and 62-72 (SSE3) *)
Definition vcdot_CONJMADD (w : isa) (z x y : N) : list instr :=
  match w with
  | SSE2 => [MulPd r_t_t1 x y;
      Shuffle r_t_t2 r_t_t1 r_t_t1 1;
      Shuffle r_t_t3 y y 1;
      AddPd r_t_t4 r_t_t1 r_t_t2;
      MulPd r_t_t2 x r_t_t3;
      Shuffle r_t_t3 r_t_t2 r_t_t2 1;
      SubPd r_t_t3 r_t_t2 r_t_t3;
      Shuffle r_t_t4 r_t_t4 r_t_t3 2;
      AddPd z z r_t_t4]
  | SSE3 => [MulPd r_t_t1 x y;
      HAddPd r_t_t1 r_t_t1 r_t_t1;
      Shuffle r_t_t2 x x 1;
      MulPd r_t_t2 y r_t_t2;
      HSubPd r_t_t2 r_t_t2 r_t_t2;
      Shuffle r_t_t1 r_t_t1 r_t_t2 2;
      AddPd z z r_t_t1]
  end.

(** lib/scalarsite_sse/sse_linalg_m_eq_hh_double.cc 25-38 (SSE2) and 60-71 (SSE3) *)
Definition hh_CCMUL (w : isa) (z x y : N) : list instr :=
  match w with
  | SSE2 => [SetPd r_t_t4 (-1) 1;
      MulPd r_t_t1 x y;
      Shuffle r_t_t2 r_t_t1 r_t_t1 1;
      Shuffle r_t_t3 y y 1;
      SubPd z r_t_t1 r_t_t2;
      MulPd r_t_t2 x r_t_t3;
      Shuffle r_t_t3 r_t_t2 r_t_t2 1;
      AddPd r_t_t3 r_t_t2 r_t_t3;
      Shuffle z z r_t_t3 2;
      MulPd z z r_t_t4]
  | SSE3 => [SetPd r_t_t2 (-1) 1;
      MulPd r_t_t1 x y;
      HSubPd z r_t_t1 r_t_t1;
      Shuffle r_t_t1 y y 1;
      MulPd r_t_t1 x r_t_t1;
      HAddPd r_t_t1 r_t_t1 r_t_t1;
      Shuffle z z r_t_t1 2;
      MulPd z z r_t_t2]
  end.

(** lib/scalarsite_sse/sse_linalg_m_eq_hh_double.cc 40-54 (SSE2) and 72-84 (SSE3) *)
Definition hh_CCMADD (w : isa) (z x y : N) : list instr :=
  match w with
  | SSE2 => [SetPd r_t_t5 (-1) 1;
      MulPd r_t_t1 x y;
      Shuffle r_t_t2 r_t_t1 r_t_t1 1;
      Shuffle r_t_t3 y y 1;
      SubPd r_t_t4 r_t_t1 r_t_t2;
      MulPd r_t_t2 x r_t_t3;
      Shuffle r_t_t3 r_t_t2 r_t_t2 1;
      AddPd r_t_t3 r_t_t2 r_t_t3;
      Shuffle r_t_t4 r_t_t4 r_t_t3 2;
      MulPd r_t_t4 r_t_t5 r_t_t4;
      AddPd z z r_t_t4]
  | SSE3 => [SetPd r_t_t3 (-1) 1;
      MulPd r_t_t1 x y;
      HSubPd r_t_t1 r_t_t1 r_t_t1;
      Shuffle r_t_t2 y y 1;
      MulPd r_t_t2 x r_t_t2;
      HAddPd r_t_t2 r_t_t2 r_t_t2;
      Shuffle r_t_t1 r_t_t1 r_t_t2 2;
      MulPd r_t_t1 r_t_t3 r_t_t1;
      AddPd z z r_t_t1]
  end.

(** lib/scalarsite_sse/sse_linalg_m_eq_hm_double.cc 20-31 (SSE2) and 52-61 (SSE3) *)
Definition hm_CONJMUL (w : isa) (z x y : N) : list instr :=
  match w with
  | SSE2 => [MulPd r_t_t1 x y;
      Shuffle r_t_t2 r_t_t1 r_t_t1 1;
      Shuffle r_t_t3 y y 1;
      AddPd z r_t_t1 r_t_t2;
      MulPd r_t_t2 x r_t_t3;
      Shuffle r_t_t3 r_t_t2 r_t_t2 1;
      SubPd r_t_t3 r_t_t2 r_t_t3;
      Shuffle z z r_t_t3 2]
  | SSE3 => [MulPd r_t_t1 x y;
      HAddPd z r_t_t1 r_t_t1;
      Shuffle r_t_t1 x x 1;
      MulPd r_t_t1 y r_t_t1;
      HSubPd r_t_t1 r_t_t1 r_t_t1;
      Shuffle z z r_t_t1 2]
  end.

(** lib/scalarsite_sse/sse_linalg_m_eq_hm_double.cc 33-45 (SSE2) and 63-73 (SSE3) *)
Definition hm_CONJMADD (w : isa) (z x y : N) : list instr :=
  match w with
  | SSE2 => [MulPd r_t_t1 x y;
      Shuffle r_t_t2 r_t_t1 r_t_t1 1;
      Shuffle r_t_t3 y y 1;
      AddPd r_t_t4 r_t_t1 r_t_t2;
      MulPd r_t_t2 x r_t_t3;
      Shuffle r_t_t3 r_t_t2 r_t_t2 1;
      SubPd r_t_t3 r_t_t2 r_t_t3;
      Shuffle r_t_t4 r_t_t4 r_t_t3 2;
      AddPd z z r_t_t4]
  | SSE3 => [MulPd r_t_t1 x y;
      HAddPd r_t_t1 r_t_t1 r_t_t1;
      Shuffle r_t_t2 x x 1;
      MulPd r_t_t2 y r_t_t2;
      HSubPd r_t_t2 r_t_t2 r_t_t2;
      Shuffle r_t_t1 r_t_t1 r_t_t2 2;
      AddPd z z r_t_t1]
  end.

(** lib/scalarsite_sse/sse_linalg_m_eq_mh_double.cc 20-31 (SSE2) and 52-61 (SSE3) *)
Definition mh_CONJMUL (w : isa) (z x y : N) : list instr :=
  match w with
  | SSE2 => [MulPd r_t_t1 x y;
      Shuffle r_t_t2 r_t_t1 r_t_t1 1;
      Shuffle r_t_t3 y y 1;
      AddPd z r_t_t1 r_t_t2;
      MulPd r_t_t2 x r_t_t3;
      Shuffle r_t_t3 r_t_t2 r_t_t2 1;
      SubPd r_t_t3 r_t_t2 r_t_t3;
      Shuffle z z r_t_t3 2]
  | SSE3 => [MulPd r_t_t1 x y;
      HAddPd z r_t_t1 r_t_t1;
      Shuffle r_t_t1 x x 1;
      MulPd r_t_t1 y r_t_t1;
      HSubPd r_t_t1 r_t_t1 r_t_t1;
      Shuffle z z r_t_t1 2]
  end.

(** lib/scalarsite_sse/sse_linalg_m_eq_mh_double.cc 33-45 (SSE2) and 63-73 (SSE3) *)
Definition mh_CONJMADD (w : isa) (z x y : N) : list instr :=
  match w with
  | SSE2 => [MulPd r_t_t1 x y;
      Shuffle r_t_t2 r_t_t1 r_t_t1 1;
      Shuffle r_t_t3 y y 1;
      AddPd r_t_t4 r_t_t1 r_t_t2;
      MulPd r_t_t2 x r_t_t3;
      Shuffle r_t_t3 r_t_t2 r_t_t2 1;
      SubPd r_t_t3 r_t_t2 r_t_t3;
      Shuffle r_t_t4 r_t_t4 r_t_t3 2;
      AddPd z z r_t_t4]
  | SSE3 => [MulPd r_t_t1 x y;
      HAddPd r_t_t1 r_t_t1 r_t_t1;
      Shuffle r_t_t2 x x 1;
      MulPd r_t_t2 y r_t_t2;
      HSubPd r_t_t2 r_t_t2 r_t_t2;
      Shuffle r_t_t1 r_t_t1 r_t_t2 2;
      AddPd z z r_t_t1]
  end.

(** lib/scalarsite_sse/sse_linalg_m_eq_mm_double.cc 19-30 (SSE2) and 54-63 (SSE3) *)
Definition mm_CMUL (w : isa) (z x y : N) : list instr :=
  match w with
  | SSE2 => [MulPd r_t_t1 x y;
      Shuffle r_t_t2 r_t_t1 r_t_t1 1;
      Shuffle r_t_t3 y y 1;
      SubPd z r_t_t1 r_t_t2;
      MulPd r_t_t2 x r_t_t3;
      Shuffle r_t_t3 r_t_t2 r_t_t2 1;
      AddPd r_t_t3 r_t_t2 r_t_t3;
      Shuffle z z r_t_t3 2]
  | SSE3 => [MulPd r_t_t1 x y;
      HSubPd z r_t_t1 r_t_t1;
      Shuffle r_t_t1 y y 1;
      MulPd r_t_t1 x r_t_t1;
      HAddPd r_t_t1 r_t_t1 r_t_t1;
      Shuffle z z r_t_t1 2]
  end.

(** lib/scalarsite_sse/sse_linalg_m_eq_mm_double.cc 33-45 (SSE2) and 65-75 (SSE3) *)
Definition mm_CMADD (w : isa) (z x y : N) : list instr :=
  match w with
  | SSE2 => [MulPd r_t_t1 x y;
      Shuffle r_t_t2 r_t_t1 r_t_t1 1;
      Shuffle r_t_t3 y y 1;
      SubPd r_t_t4 r_t_t1 r_t_t2;
      MulPd r_t_t2 x r_t_t3;
      Shuffle r_t_t3 r_t_t2 r_t_t2 1;
      AddPd r_t_t3 r_t_t2 r_t_t3;
      Shuffle r_t_t4 r_t_t4 r_t_t3 2;
      AddPd z z r_t_t4]
  | SSE3 => [MulPd r_t_t1 x y;
      HSubPd r_t_t1 r_t_t1 r_t_t1;
      Shuffle r_t_t2 y y 1;
      MulPd r_t_t2 x r_t_t2;
      HAddPd r_t_t2 r_t_t2 r_t_t2;
      Shuffle r_t_t1 r_t_t1 r_t_t2 2;
      AddPd z z r_t_t1]
  end.

(** the loop of [local_sumsq4], lib/scalarsite_sse/sse_blas_local_sumsq_double.cc 14-97, from line 35 *)
Definition local_sumsq4_loop : list instr :=
   [Load true r_tmp1 p_in 0; MulPd r_tmp5 r_tmp1 r_tmp1; AddPd r_sum1 r_sum1 r_tmp5;
    Load true r_tmp2 p_in 2; MulPd r_tmp6 r_tmp2 r_tmp2; AddPd r_sum2 r_sum2 r_tmp6;
    Load true r_tmp3 p_in 4; MulPd r_tmp7 r_tmp3 r_tmp3; AddPd r_sum3 r_sum3 r_tmp7;
    Load true r_tmp4 p_in 6; MulPd r_tmp8 r_tmp4 r_tmp4; AddPd r_sum4 r_sum4 r_tmp8;
    Load true r_tmp1 p_in 8; MulPd r_tmp5 r_tmp1 r_tmp1; AddPd r_sum1 r_sum1 r_tmp5;
    Load true r_tmp2 p_in 10; MulPd r_tmp6 r_tmp2 r_tmp2; AddPd r_sum2 r_sum2 r_tmp6;
    Load true r_tmp3 p_in 12; MulPd r_tmp7 r_tmp3 r_tmp3; AddPd r_sum3 r_sum3 r_tmp7;
    Load true r_tmp4 p_in 14; MulPd r_tmp8 r_tmp4 r_tmp4; AddPd r_sum4 r_sum4 r_tmp8;
    Load true r_tmp1 p_in 16; MulPd r_tmp5 r_tmp1 r_tmp1; AddPd r_sum1 r_sum1 r_tmp5;
    Load true r_tmp2 p_in 18; MulPd r_tmp6 r_tmp2 r_tmp2; AddPd r_sum2 r_sum2 r_tmp6;
    Load true r_tmp3 p_in 20; MulPd r_tmp7 r_tmp3 r_tmp3; AddPd r_sum3 r_sum3 r_tmp7;
    Load true r_tmp4 p_in 22; MulPd r_tmp8 r_tmp4 r_tmp4; AddPd r_sum4 r_sum4 r_tmp8;
    Bump p_in 24].

(** lib/scalarsite_sse/sse_blas_local_sumsq_double.cc 14-97; arguments sum, vecptr, n_4spin. *)
Definition local_sumsq4 : kernel :=
  {| k_pre := [SetZero r_sum1; SetZero r_sum2; SetZero r_sum3;
        SetZero r_sum4; MovePtr p_in p_vecptr];
     k_times := fun n => n;
     k_body := fun _ => local_sumsq4_loop;
     k_post := [AddPd r_sum1 r_sum1 r_sum2; AddPd r_sum3 r_sum3 r_sum4; AddPd r_sum1 r_sum1 r_sum3;
        Shuffle r_tmp1 r_sum1 r_sum1 1; AddPd r_sum1 r_tmp1 r_sum1; StoreL p_sum 0 r_sum1] |}.

(** the loop of [local_vcdot4], lib/scalarsite_sse/sse_blas_local_vcdot_double.cc 95-192, from line 117 *)
Definition local_vcdot4_loop (w : isa) : list instr :=
   [Load true r_tmp1 p_x_p 0; Load true r_tmp2 p_y_p 0] ++
   vcdot_CONJMADD w r_sum1 r_tmp1 r_tmp2 ++
   [Load true r_tmp3 p_x_p 2; Load true r_tmp4 p_y_p 2] ++
   vcdot_CONJMADD w r_sum2 r_tmp3 r_tmp4 ++
   [Load true r_tmp5 p_x_p 4; Load true r_tmp6 p_y_p 4] ++
   vcdot_CONJMADD w r_sum3 r_tmp5 r_tmp6 ++
   [Load true r_tmp7 p_x_p 6; Load true r_tmp8 p_y_p 6] ++
   vcdot_CONJMADD w r_sum4 r_tmp7 r_tmp8 ++
   [Load true r_tmp1 p_x_p 8; Load true r_tmp2 p_y_p 8] ++
   vcdot_CONJMADD w r_sum1 r_tmp1 r_tmp2 ++
   [Load true r_tmp3 p_x_p 10; Load true r_tmp4 p_y_p 10] ++
   vcdot_CONJMADD w r_sum2 r_tmp3 r_tmp4 ++
   [Load true r_tmp5 p_x_p 12; Load true r_tmp6 p_y_p 12] ++
   vcdot_CONJMADD w r_sum3 r_tmp5 r_tmp6 ++
   [Load true r_tmp7 p_x_p 14; Load true r_tmp8 p_y_p 14] ++
   vcdot_CONJMADD w r_sum4 r_tmp7 r_tmp8 ++
   [Load true r_tmp1 p_x_p 16; Load true r_tmp2 p_y_p 16] ++
   vcdot_CONJMADD w r_sum1 r_tmp1 r_tmp2 ++
   [Load true r_tmp3 p_x_p 18; Load true r_tmp4 p_y_p 18] ++
   vcdot_CONJMADD w r_sum2 r_tmp3 r_tmp4 ++
   [Load true r_tmp5 p_x_p 20; Load true r_tmp6 p_y_p 20] ++
   vcdot_CONJMADD w r_sum3 r_tmp5 r_tmp6 ++
   [Load true r_tmp7 p_x_p 22; Load true r_tmp8 p_y_p 22] ++
   vcdot_CONJMADD w r_sum4 r_tmp7 r_tmp8 ++
   [Bump p_x_p 24; Bump p_y_p 24].

(** lib/scalarsite_sse/sse_blas_local_vcdot_double.cc 95-192; arguments sum, y, x, n_4spin. *)
Definition local_vcdot4 (w : isa) : kernel :=
  {| k_pre := [SetZero r_sum1; SetZero r_sum2; SetZero r_sum3;
        SetZero r_sum4; MovePtr p_x_p p_x; MovePtr p_y_p p_y];
     k_times := fun n => n;
     k_body := fun _ => local_vcdot4_loop w;
     k_post := [AddPd r_sum1 r_sum1 r_sum2; AddPd r_sum3 r_sum3 r_sum4; AddPd r_sum1 r_sum1 r_sum3;
        Store false p_sum 0 r_sum1] |}.

(** the loop of [local_vcdot_real4], lib/scalarsite_sse/sse_blas_local_vcdot_real_double.cc 34-142, from line 57 *)
Definition local_vcdot_real4_loop : list instr :=
   [Load true r_tmp1 p_x_p 0; Load true r_tmp2 p_y_p 0; MulPd r_tmp3 r_tmp1 r_tmp2;
    AddPd r_sum1 r_sum1 r_tmp3; Load true r_tmp4 p_x_p 2; Load true r_tmp5 p_y_p 2;
    MulPd r_tmp6 r_tmp4 r_tmp5; AddPd r_sum2 r_sum2 r_tmp6; Load true r_tmp7 p_x_p 4;
    Load true r_tmp8 p_y_p 4; MulPd r_tmp9 r_tmp7 r_tmp8; AddPd r_sum3 r_sum3 r_tmp9;
    Load true r_tmp10 p_x_p 6; Load true r_tmp11 p_y_p 6; MulPd r_tmp12 r_tmp10 r_tmp11;
    AddPd r_sum4 r_sum4 r_tmp12; Load true r_tmp1 p_x_p 8; Load true r_tmp2 p_y_p 8;
    MulPd r_tmp3 r_tmp1 r_tmp2; AddPd r_sum1 r_sum1 r_tmp3; Load true r_tmp4 p_x_p 10;
    Load true r_tmp5 p_y_p 10; MulPd r_tmp6 r_tmp4 r_tmp5; AddPd r_sum2 r_sum2 r_tmp6;
    Load true r_tmp7 p_x_p 12; Load true r_tmp8 p_y_p 12; MulPd r_tmp9 r_tmp7 r_tmp8;
    AddPd r_sum3 r_sum3 r_tmp9; Load true r_tmp10 p_x_p 14; Load true r_tmp11 p_y_p 14;
    MulPd r_tmp12 r_tmp10 r_tmp11; AddPd r_sum4 r_sum4 r_tmp12; Load true r_tmp1 p_x_p 16;
    Load true r_tmp2 p_y_p 16; MulPd r_tmp3 r_tmp1 r_tmp2; AddPd r_sum1 r_sum1 r_tmp3;
    Load true r_tmp4 p_x_p 18; Load true r_tmp5 p_y_p 18; MulPd r_tmp6 r_tmp4 r_tmp5;
    AddPd r_sum2 r_sum2 r_tmp6; Load true r_tmp7 p_x_p 20; Load true r_tmp8 p_y_p 20;
    MulPd r_tmp9 r_tmp7 r_tmp8; AddPd r_sum3 r_sum3 r_tmp9; Load true r_tmp10 p_x_p 22;
    Load true r_tmp11 p_y_p 22; MulPd r_tmp12 r_tmp10 r_tmp11; AddPd r_sum4 r_sum4 r_tmp12;
    Bump p_x_p 24; Bump p_y_p 24].

(** lib/scalarsite_sse/sse_blas_local_vcdot_real_double.cc 34-142; arguments sum, y, x, n_4spin. *)
Definition local_vcdot_real4 : kernel :=
  {| k_pre := [SetZero r_sum1; SetZero r_sum2; SetZero r_sum3;
        SetZero r_sum4; MovePtr p_x_p p_x; MovePtr p_y_p p_y];
     k_times := fun n => n;
     k_body := fun _ => local_vcdot_real4_loop;
     k_post := [AddPd r_sum1 r_sum1 r_sum2; AddPd r_sum3 r_sum3 r_sum4; AddPd r_sum1 r_sum1 r_sum3;
        Shuffle r_tmp1 r_sum1 r_sum1 1; AddPd r_sum1 r_tmp1 r_sum1; StoreH p_sum 0 r_sum1] |}.

(** the loop for few sites of [vaxmbyz4], lib/scalarsite_sse/sse_blas_vaxmbyz4_double.cc 19-145, from line 65 *)
Definition vaxmbyz4_loop : list instr :=
   [Load true r_y1 p_y_p 0; Load true r_x1 p_x_p 0; MulPd r_z1 r_a_sse r_x1;
    MulPd r_tmp1 r_b_sse r_y1; SubPd r_z1 r_z1 r_tmp1; Store true p_z_p 0 r_z1;
    Load true r_y2 p_y_p 2; Load true r_x2 p_x_p 2; MulPd r_z2 r_a_sse r_x2;
    MulPd r_tmp2 r_b_sse r_y2; SubPd r_z2 r_z2 r_tmp2; Store true p_z_p 2 r_z2;
    Load true r_y3 p_y_p 4; Load true r_x3 p_x_p 4; MulPd r_z3 r_a_sse r_x3;
    MulPd r_tmp3 r_b_sse r_y3; SubPd r_z3 r_z3 r_tmp3; Store true p_z_p 4 r_z3;
    Load true r_y1 p_y_p 6; Load true r_x1 p_x_p 6; MulPd r_z1 r_a_sse r_x1;
    MulPd r_tmp1 r_b_sse r_y1; SubPd r_z1 r_z1 r_tmp1; Store true p_z_p 6 r_z1;
    Bump p_x_p 8; Bump p_y_p 8; Bump p_z_p 8].

(** the loop for many sites of [vaxmbyz4], lib/scalarsite_sse/sse_blas_vaxmbyz4_double.cc 19-145, from line 104 *)
Definition vaxmbyz4_loop2 : list instr :=
   [Load true r_y1 p_y_p 0; Load true r_x1 p_x_p 0; MulPd r_z1 r_a_sse r_x1;
    MulPd r_tmp1 r_b_sse r_y1; SubPd r_z1 r_z1 r_tmp1; Store true p_z_p 0 r_z1;
    Load true r_y2 p_y_p 2; Load true r_x2 p_x_p 2; MulPd r_z2 r_a_sse r_x2;
    MulPd r_tmp2 r_b_sse r_y2; SubPd r_z2 r_z2 r_tmp2; Store true p_z_p 2 r_z2;
    Load true r_y3 p_y_p 4; Load true r_x3 p_x_p 4; MulPd r_z3 r_a_sse r_x3;
    MulPd r_tmp3 r_b_sse r_y3; SubPd r_z3 r_z3 r_tmp3; Store true p_z_p 4 r_z3;
    Load true r_y1 p_y_p 6; Load true r_x1 p_x_p 6; MulPd r_z1 r_a_sse r_x1;
    MulPd r_tmp1 r_b_sse r_y1; SubPd r_z1 r_z1 r_tmp1; Store true p_z_p 6 r_z1;
    Bump p_x_p 8; Bump p_y_p 8; Bump p_z_p 8].

(** lib/scalarsite_sse/sse_blas_vaxmbyz4_double.cc 19-145; arguments z, a, x, b, y, n_4vec. The prefetches, which have no effect on values, are left out, and so is the difference between streaming and ordinary stores. *)
Definition vaxmbyz4 : kernel :=
  {| k_pre := [LoadSd r_a_sse p_a 0; LoadSd r_b_sse p_b 0; SetZero r_tmp1;
        Shuffle r_tmp1 r_a_sse r_a_sse 1; AddPd r_a_sse r_a_sse r_tmp1; SetZero r_tmp2;
        Shuffle r_tmp2 r_b_sse r_b_sse 1; AddPd r_b_sse r_b_sse r_tmp2; MovePtr p_x_p p_x;
        MovePtr p_y_p p_y; MovePtr p_z_p p_z];
     k_times := fun n => 3 * n;
     k_body := fun n => if n <? L2BY2 then vaxmbyz4_loop else vaxmbyz4_loop2;
     k_post := [] |}.

(** the loop for few sites of [vaxmby4], lib/scalarsite_sse/sse_blas_vaxmbyz4_double.cc 147-268, from line 190 *)
Definition vaxmby4_loop : list instr :=
   [Load true r_y1 p_y_p 0; Load true r_x1 p_x_p 0; MulPd r_z1 r_a_sse r_x1;
    MulPd r_tmp1 r_b_sse r_y1; SubPd r_z1 r_z1 r_tmp1; Store true p_y_p 0 r_z1;
    Load true r_y2 p_y_p 2; Load true r_x2 p_x_p 2; MulPd r_z2 r_a_sse r_x2;
    MulPd r_tmp2 r_b_sse r_y2; SubPd r_z2 r_z2 r_tmp2; Store true p_y_p 2 r_z2;
    Load true r_y3 p_y_p 4; Load true r_x3 p_x_p 4; MulPd r_z3 r_a_sse r_x3;
    MulPd r_tmp3 r_b_sse r_y3; SubPd r_z3 r_z3 r_tmp3; Store true p_y_p 4 r_z3;
    Load true r_y1 p_y_p 6; Load true r_x1 p_x_p 6; MulPd r_z1 r_a_sse r_x1;
    MulPd r_tmp1 r_b_sse r_y1; SubPd r_z1 r_z1 r_tmp1; Store true p_y_p 6 r_z1;
    Bump p_x_p 8; Bump p_y_p 8].

(** the loop for many sites of [vaxmby4], lib/scalarsite_sse/sse_blas_vaxmbyz4_double.cc 147-268, from line 228 *)
Definition vaxmby4_loop2 : list instr :=
   [Load true r_y1 p_y_p 0; Load true r_x1 p_x_p 0; MulPd r_z1 r_a_sse r_x1;
    MulPd r_tmp1 r_b_sse r_y1; SubPd r_z1 r_z1 r_tmp1; Store true p_y_p 0 r_z1;
    Load true r_y2 p_y_p 2; Load true r_x2 p_x_p 2; MulPd r_z2 r_a_sse r_x2;
    MulPd r_tmp2 r_b_sse r_y2; SubPd r_z2 r_z2 r_tmp2; Store true p_y_p 2 r_z2;
    Load true r_y3 p_y_p 4; Load true r_x3 p_x_p 4; MulPd r_z3 r_a_sse r_x3;
    MulPd r_tmp3 r_b_sse r_y3; SubPd r_z3 r_z3 r_tmp3; Store true p_y_p 4 r_z3;
    Load true r_y1 p_y_p 6; Load true r_x1 p_x_p 6; MulPd r_z1 r_a_sse r_x1;
    MulPd r_tmp1 r_b_sse r_y1; SubPd r_z1 r_z1 r_tmp1; Store true p_y_p 6 r_z1;
    Bump p_x_p 8; Bump p_y_p 8].

(** lib/scalarsite_sse/sse_blas_vaxmbyz4_double.cc 147-268; arguments y, a, x, b, n_4vec. The prefetches, which have no effect on values, are left out. *)
Definition vaxmby4 : kernel :=
  {| k_pre := [LoadSd r_a_sse p_a 0; LoadSd r_b_sse p_b 0; SetZero r_tmp1;
        Shuffle r_tmp1 r_a_sse r_a_sse 1; AddPd r_a_sse r_a_sse r_tmp1; SetZero r_tmp2;
        Shuffle r_tmp2 r_b_sse r_b_sse 1; AddPd r_b_sse r_b_sse r_tmp2; MovePtr p_x_p p_x;
        MovePtr p_y_p p_y];
     k_times := fun n => 3 * n;
     k_body := fun n => if n <? L2BY2 then vaxmby4_loop else vaxmby4_loop2;
     k_post := [] |}.

(** the loop of [vaxmyz4], lib/scalarsite_sse/sse_blas_vaxmyz4_double.cc 14-56, from line 47 *)
Definition vaxmyz4_loop : list instr :=
   [Load true r_add1 p_add_p 0; Load true r_in1 p_in_p 0; MulPd r_tmp1 r_scalar r_in1;
    SubPd r_out1 r_tmp1 r_add1; Store true p_out_p 0 r_out1; Bump p_add_p 2;
    Bump p_in_p 2; Bump p_out_p 2].

(** lib/scalarsite_sse/sse_blas_vaxmyz4_double.cc 14-56; arguments Out, scalep, InScale, Add, n_4vec. Simplified: the loop counts i in steps of 2 and adds it to the pointers; here the pointers advance. *)
Definition vaxmyz4 : kernel :=
  {| k_pre := [LoadSd r_scalar p_scalep 0; SetZero r_tmp1; Shuffle r_tmp1 r_scalar r_scalar 1;
        AddPd r_scalar r_scalar r_tmp1; MovePtr p_in_p p_InScale; MovePtr p_add_p p_Add;
        MovePtr p_out_p p_Out];
     k_times := fun n => 12 * n;
     k_body := fun _ => vaxmyz4_loop;
     k_post := [] |}.

(** the loop of [vaxmy4], lib/scalarsite_sse/sse_blas_vaxmyz4_double.cc 59-170, from line 91 *)
Definition vaxmy4_loop : list instr :=
   [Load true r_add1 p_out_p 0; Load true r_in1 p_in_p 0; MulPd r_tmp1 r_scalar r_in1;
    SubPd r_out1 r_tmp1 r_add1; Store true p_out_p 0 r_out1; Load true r_add2 p_out_p 2;
    Load true r_in2 p_in_p 2; MulPd r_tmp2 r_scalar r_in2; SubPd r_out2 r_tmp2 r_add2;
    Store true p_out_p 2 r_out2; Load true r_add3 p_out_p 4; Load true r_in3 p_in_p 4;
    MulPd r_tmp3 r_scalar r_in3; SubPd r_out3 r_tmp3 r_add3; Store true p_out_p 4 r_out3;
    Load true r_add1 p_out_p 6; Load true r_in1 p_in_p 6; MulPd r_tmp1 r_scalar r_in1;
    SubPd r_out1 r_tmp1 r_add1; Store true p_out_p 6 r_out1; Load true r_add2 p_out_p 8;
    Load true r_in2 p_in_p 8; MulPd r_tmp2 r_scalar r_in2; SubPd r_out2 r_tmp2 r_add2;
    Store true p_out_p 8 r_out2; Load true r_add3 p_out_p 10; Load true r_in3 p_in_p 10;
    MulPd r_tmp3 r_scalar r_in3; SubPd r_out3 r_tmp3 r_add3; Store true p_out_p 10 r_out3;
    Load true r_add1 p_out_p 12; Load true r_in1 p_in_p 12; MulPd r_tmp1 r_scalar r_in1;
    SubPd r_out1 r_tmp1 r_add1; Store true p_out_p 12 r_out1; Load true r_add2 p_out_p 14;
    Load true r_in2 p_in_p 14; MulPd r_tmp2 r_scalar r_in2; SubPd r_out2 r_tmp2 r_add2;
    Store true p_out_p 14 r_out2; Load true r_add3 p_out_p 16; Load true r_in3 p_in_p 16;
    MulPd r_tmp3 r_scalar r_in3; SubPd r_out3 r_tmp3 r_add3; Store true p_out_p 16 r_out3;
    Load true r_add1 p_out_p 18; Load true r_in1 p_in_p 18; MulPd r_tmp1 r_scalar r_in1;
    SubPd r_out1 r_tmp1 r_add1; Store true p_out_p 18 r_out1; Load true r_add2 p_out_p 20;
    Load true r_in2 p_in_p 20; MulPd r_tmp2 r_scalar r_in2; SubPd r_out2 r_tmp2 r_add2;
    Store true p_out_p 20 r_out2; Load true r_add3 p_out_p 22; Load true r_in3 p_in_p 22;
    MulPd r_tmp3 r_scalar r_in3; SubPd r_out3 r_tmp3 r_add3; Store true p_out_p 22 r_out3;
    Bump p_out_p 24; Bump p_in_p 24].

(** lib/scalarsite_sse/sse_blas_vaxmyz4_double.cc 59-170; arguments Out, scalep, InScale, n_4spin. *)
Definition vaxmy4 : kernel :=
  {| k_pre := [LoadSd r_scalar p_scalep 0; SetZero r_tmp1; Shuffle r_tmp1 r_scalar r_scalar 1;
        AddPd r_scalar r_scalar r_tmp1; MovePtr p_in_p p_InScale; MovePtr p_out_p p_Out];
     k_times := fun n => n;
     k_body := fun _ => vaxmy4_loop;
     k_post := [] |}.

(** the loop for few sites of [vaxpbyz4], lib/scalarsite_sse/sse_blas_vaxpbyz4_double.cc 20-138, from line 65 *)
Definition vaxpbyz4_loop : list instr :=
   [Load true r_y1 p_y_p 0; Load true r_x1 p_x_p 0; MulPd r_z1 r_a_sse r_x1;
    MulPd r_tmp1 r_b_sse r_y1; AddPd r_z1 r_z1 r_tmp1; Store true p_z_p 0 r_z1;
    Load true r_y2 p_y_p 2; Load true r_x2 p_x_p 2; MulPd r_z2 r_a_sse r_x2;
    MulPd r_tmp2 r_b_sse r_y2; AddPd r_z2 r_z2 r_tmp2; Store true p_z_p 2 r_z2;
    Load true r_y3 p_y_p 4; Load true r_x3 p_x_p 4; MulPd r_z3 r_a_sse r_x3;
    MulPd r_tmp3 r_b_sse r_y3; AddPd r_z3 r_z3 r_tmp3; Store true p_z_p 4 r_z3;
    Load true r_y1 p_y_p 6; Load true r_x1 p_x_p 6; MulPd r_z1 r_a_sse r_x1;
    MulPd r_tmp1 r_b_sse r_y1; AddPd r_z1 r_z1 r_tmp1; Store true p_z_p 6 r_z1;
    Bump p_x_p 8; Bump p_y_p 8; Bump p_z_p 8].

(** the loop for many sites of [vaxpbyz4], lib/scalarsite_sse/sse_blas_vaxpbyz4_double.cc 20-138, from line 102 *)
Definition vaxpbyz4_loop2 : list instr :=
   [Load true r_y1 p_y_p 0; Load true r_x1 p_x_p 0; MulPd r_tmp1 r_b_sse r_y1;
    MulPd r_z1 r_a_sse r_x1; AddPd r_z1 r_z1 r_tmp1; Store true p_z_p 0 r_z1;
    Load true r_y2 p_y_p 2; Load true r_x2 p_x_p 2; MulPd r_tmp2 r_b_sse r_y2;
    MulPd r_z2 r_a_sse r_x2; AddPd r_z2 r_z2 r_tmp2; Store true p_z_p 2 r_z2;
    Load true r_y3 p_y_p 4; Load true r_x3 p_x_p 4; MulPd r_tmp3 r_b_sse r_y3;
    MulPd r_z3 r_a_sse r_x3; AddPd r_z3 r_z3 r_tmp3; Store true p_z_p 4 r_z3;
    Load true r_y1 p_y_p 6; Load true r_x1 p_x_p 6; MulPd r_tmp1 r_b_sse r_y1;
    MulPd r_z1 r_a_sse r_x1; AddPd r_z1 r_z1 r_tmp1; Store true p_z_p 6 r_z1;
    Bump p_x_p 8; Bump p_y_p 8; Bump p_z_p 8].

(** lib/scalarsite_sse/sse_blas_vaxpbyz4_double.cc 20-138; arguments z, a, x, b, y, n_4vec. The prefetches, which have no effect on values, are left out, and so is the difference between streaming and ordinary stores. *)
Definition vaxpbyz4 : kernel :=
  {| k_pre := [LoadSd r_a_sse p_a 0; LoadSd r_b_sse p_b 0; SetZero r_tmp1;
        Shuffle r_tmp1 r_a_sse r_a_sse 1; AddPd r_a_sse r_a_sse r_tmp1; SetZero r_tmp2;
        Shuffle r_tmp2 r_b_sse r_b_sse 1; AddPd r_b_sse r_b_sse r_tmp2; MovePtr p_x_p p_x;
        MovePtr p_y_p p_y; MovePtr p_z_p p_z];
     k_times := fun n => 3 * n;
     k_body := fun n => if n <? L2BY2 then vaxpbyz4_loop else vaxpbyz4_loop2;
     k_post := [] |}.

(** the loop for few sites of [vaxpby4], lib/scalarsite_sse/sse_blas_vaxpbyz4_double.cc 142-329, from line 185 *)
Definition vaxpby4_loop : list instr :=
   [Load true r_y1 p_y_p 0; Load true r_x1 p_x_p 0; MulPd r_tmp1 r_b_sse r_y1;
    MulPd r_z1 r_a_sse r_x1; AddPd r_z1 r_z1 r_tmp1; Store true p_y_p 0 r_z1;
    Load true r_y2 p_y_p 2; Load true r_x2 p_x_p 2; MulPd r_tmp2 r_b_sse r_y2;
    MulPd r_z2 r_a_sse r_x2; AddPd r_z2 r_z2 r_tmp2; Store true p_y_p 2 r_z2;
    Load true r_y3 p_y_p 4; Load true r_x3 p_x_p 4; MulPd r_tmp3 r_b_sse r_y3;
    MulPd r_z3 r_a_sse r_x3; AddPd r_z3 r_z3 r_tmp3; Store true p_y_p 4 r_z3;
    Load true r_y1 p_y_p 6; Load true r_x1 p_x_p 6; MulPd r_z1 r_a_sse r_x1;
    MulPd r_tmp1 r_b_sse r_y1; AddPd r_z1 r_z1 r_tmp1; Store true p_y_p 6 r_z1;
    Bump p_x_p 8; Bump p_y_p 8].

(** the loop for many sites of [vaxpby4], lib/scalarsite_sse/sse_blas_vaxpbyz4_double.cc 142-329, from line 221 *)
Definition vaxpby4_loop2 : list instr :=
   [Load true r_y1 p_y_p 0; Load true r_x1 p_x_p 0; MulPd r_z1 r_a_sse r_x1;
    MulPd r_tmp1 r_b_sse r_y1; AddPd r_z1 r_z1 r_tmp1; Store true p_y_p 0 r_z1;
    Load true r_y2 p_y_p 2; Load true r_x2 p_x_p 2; MulPd r_z2 r_a_sse r_x2;
    MulPd r_tmp2 r_b_sse r_y2; AddPd r_z2 r_z2 r_tmp2; Store true p_y_p 2 r_z2;
    Load true r_y3 p_y_p 4; Load true r_x3 p_x_p 4; MulPd r_z3 r_a_sse r_x3;
    MulPd r_tmp3 r_b_sse r_y3; AddPd r_z3 r_z3 r_tmp3; Store true p_y_p 4 r_z3;
    Load true r_y1 p_y_p 6; Load true r_x1 p_x_p 6; MulPd r_z1 r_a_sse r_x1;
    MulPd r_tmp1 r_b_sse r_y1; AddPd r_z1 r_z1 r_tmp1; Store true p_y_p 6 r_z1;
    Bump p_x_p 8; Bump p_y_p 8].

(** lib/scalarsite_sse/sse_blas_vaxpbyz4_double.cc 142-329; arguments y, a, x, b, n_4vec. The prefetches, which have no effect on values, are left out. *)
Definition vaxpby4 : kernel :=
  {| k_pre := [LoadSd r_a_sse p_a 0; LoadSd r_b_sse p_b 0; SetZero r_tmp1;
        Shuffle r_tmp1 r_a_sse r_a_sse 1; AddPd r_a_sse r_a_sse r_tmp1; SetZero r_tmp2;
        Shuffle r_tmp2 r_b_sse r_b_sse 1; AddPd r_b_sse r_b_sse r_tmp2; MovePtr p_x_p p_x;
        MovePtr p_y_p p_y];
     k_times := fun n => 3 * n;
     k_body := fun n => if n <? L2BY2 then vaxpby4_loop else vaxpby4_loop2;
     k_post := [] |}.

(** the loop for few sites of [vaxpy4], lib/scalarsite_sse/sse_blas_vaxpy4_double.cc 20-125, from line 57 *)
Definition vaxpy4_loop : list instr :=
   [Load true r_add1 p_out_p 0; Load true r_in1 p_in_p 0; MulPd r_tmp1 r_scalar r_in1;
    AddPd r_out1 r_tmp1 r_add1; Store true p_out_p 0 r_out1; Load true r_add2 p_out_p 2;
    Load true r_in2 p_in_p 2; MulPd r_tmp2 r_scalar r_in2; AddPd r_out2 r_tmp2 r_add2;
    Store true p_out_p 2 r_out2; Load true r_add3 p_out_p 4; Load true r_in3 p_in_p 4;
    MulPd r_tmp3 r_scalar r_in3; AddPd r_out3 r_tmp3 r_add3; Store true p_out_p 4 r_out3;
    Load true r_add1 p_out_p 6; Load true r_in1 p_in_p 6; MulPd r_tmp1 r_scalar r_in1;
    AddPd r_out1 r_tmp1 r_add1; Store true p_out_p 6 r_out1; Bump p_out_p 8;
    Bump p_in_p 8].

(** the loop for many sites of [vaxpy4], lib/scalarsite_sse/sse_blas_vaxpy4_double.cc 20-125, from line 92 *)
Definition vaxpy4_loop2 : list instr :=
   [Load true r_add1 p_out_p 0; Load true r_in1 p_in_p 0; MulPd r_tmp1 r_scalar r_in1;
    AddPd r_out1 r_tmp1 r_add1; Store true p_out_p 0 r_out1; Load true r_add2 p_out_p 2;
    Load true r_in2 p_in_p 2; MulPd r_tmp2 r_scalar r_in2; AddPd r_out2 r_tmp2 r_add2;
    Store true p_out_p 2 r_out2; Load true r_add3 p_out_p 4; Load true r_in3 p_in_p 4;
    MulPd r_tmp3 r_scalar r_in3; AddPd r_out3 r_tmp3 r_add3; Store true p_out_p 4 r_out3;
    Load true r_add1 p_out_p 6; Load true r_in1 p_in_p 6; MulPd r_tmp1 r_scalar r_in1;
    AddPd r_out1 r_tmp1 r_add1; Store true p_out_p 6 r_out1; Bump p_out_p 8;
    Bump p_in_p 8].

(** lib/scalarsite_sse/sse_blas_vaxpy4_double.cc 20-125; arguments Out, scalep, InScale, n_4spin. The prefetches, which have no effect on values, are left out. *)
Definition vaxpy4 : kernel :=
  {| k_pre := [LoadSd r_scalar p_scalep 0; SetZero r_tmp1; Shuffle r_tmp1 r_scalar r_scalar 1;
        AddPd r_scalar r_scalar r_tmp1; MovePtr p_in_p p_InScale; MovePtr p_out_p p_Out];
     k_times := fun n => 3 * n;
     k_body := fun n => if n <? L2BY2 then vaxpy4_loop else vaxpy4_loop2;
     k_post := [] |}.

(** the loop for few sites of [vaxpyz4], lib/scalarsite_sse/sse_blas_vaxpy4_double.cc 129-239, from line 172 *)
Definition vaxpyz4_loop : list instr :=
   [Load true r_add1 p_add_p 0; Load true r_in1 p_in_p 0; MulPd r_tmp1 r_scalar r_in1;
    AddPd r_out1 r_tmp1 r_add1; Store true p_out_p 0 r_out1; Load true r_add2 p_add_p 2;
    Load true r_in2 p_in_p 2; MulPd r_tmp2 r_scalar r_in2; AddPd r_out2 r_tmp2 r_add2;
    Store true p_out_p 2 r_out2; Load true r_add3 p_add_p 4; Load true r_in3 p_in_p 4;
    MulPd r_tmp3 r_scalar r_in3; AddPd r_out3 r_tmp3 r_add3; Store true p_out_p 4 r_out3;
    Load true r_add1 p_add_p 6; Load true r_in1 p_in_p 6; MulPd r_tmp1 r_scalar r_in1;
    AddPd r_out1 r_tmp1 r_add1; Store true p_out_p 6 r_out1; Bump p_out_p 8;
    Bump p_in_p 8; Bump p_add_p 8].

(** the loop for many sites of [vaxpyz4], lib/scalarsite_sse/sse_blas_vaxpy4_double.cc 129-239, from line 204 *)
Definition vaxpyz4_loop2 : list instr :=
   [Load true r_add1 p_add_p 0; Load true r_in1 p_in_p 0; MulPd r_tmp1 r_scalar r_in1;
    AddPd r_out1 r_tmp1 r_add1; Store true p_out_p 0 r_out1; Load true r_add2 p_add_p 2;
    Load true r_in2 p_in_p 2; MulPd r_tmp2 r_scalar r_in2; AddPd r_out2 r_tmp2 r_add2;
    Store true p_out_p 2 r_out2; Load true r_add3 p_add_p 4; Load true r_in3 p_in_p 4;
    MulPd r_tmp3 r_scalar r_in3; AddPd r_out3 r_tmp3 r_add3; Store true p_out_p 4 r_out3;
    Load true r_add1 p_add_p 6; Load true r_in1 p_in_p 6; MulPd r_tmp1 r_scalar r_in1;
    AddPd r_out1 r_tmp1 r_add1; Store true p_out_p 6 r_out1; Bump p_out_p 8;
    Bump p_in_p 8; Bump p_add_p 8].

(** lib/scalarsite_sse/sse_blas_vaxpy4_double.cc 129-239; arguments Out, scalep, InScale, Add, n_4vec. The prefetches, which have no effect on values, are left out, and so is the difference between streaming and ordinary stores. *)
Definition vaxpyz4 : kernel :=
  {| k_pre := [LoadSd r_scalar p_scalep 0; SetZero r_tmp1; Shuffle r_tmp1 r_scalar r_scalar 1;
        AddPd r_scalar r_scalar r_tmp1; MovePtr p_in_p p_InScale; MovePtr p_add_p p_Add;
        MovePtr p_out_p p_Out];
     k_times := fun n => 3 * n;
     k_body := fun n => if n <? L2BY2 then vaxpyz4_loop else vaxpyz4_loop2;
     k_post := [] |}.

(** the loop of [vaypx4], lib/scalarsite_sse/sse_blas_vaypx4_double.cc 13-55, from line 47 *)
Definition vaypx4_loop : list instr :=
   [Load true r_add1 p_out_p 0; Load true r_in1 p_in_p 0; MulPd r_tmp1 r_scalar r_add1;
    AddPd r_out1 r_tmp1 r_in1; Store true p_out_p 0 r_out1; Bump p_in_p 2;
    Bump p_out_p 2].

(** lib/scalarsite_sse/sse_blas_vaypx4_double.cc 13-55; arguments Out, scalep, InScale, n_4spin. Simplified: the loop counts i in steps of 2 and adds it to the pointers; here the pointers advance. *)
Definition vaypx4 : kernel :=
  {| k_pre := [LoadSd r_scalar p_scalep 0; SetZero r_tmp1; Shuffle r_tmp1 r_scalar r_scalar 1;
        AddPd r_scalar r_scalar r_tmp1; MovePtr p_in_p p_InScale; MovePtr p_out_p p_Out];
     k_times := fun n => 12 * n;
     k_body := fun _ => vaypx4_loop;
     k_post := [] |}.

(** the loop of [vscal4], lib/scalarsite_sse/sse_blas_vscal4_double.cc 14-109, from line 54 *)
Definition vscal4_loop : list instr :=
   [Load true r_x1 p_x_p 0; MulPd r_z1 r_scalar r_x1; Load true r_x2 p_x_p 2;
    MulPd r_z2 r_scalar r_x2; Load true r_x3 p_x_p 4; MulPd r_z3 r_scalar r_x3;
    Load true r_x4 p_x_p 6; MulPd r_z4 r_scalar r_x4; Load true r_x5 p_x_p 8;
    MulPd r_z5 r_scalar r_x5; Load true r_x6 p_x_p 10; MulPd r_z6 r_scalar r_x6;
    Store true p_z_p 0 r_z1; Store true p_z_p 2 r_z2; Store true p_z_p 4 r_z3;
    Store true p_z_p 6 r_z4; Store true p_z_p 8 r_z5; Store true p_z_p 10 r_z6;
    Load true r_x1 p_x_p 12; MulPd r_z1 r_scalar r_x1; Load true r_x2 p_x_p 14;
    MulPd r_z2 r_scalar r_x2; Load true r_x3 p_x_p 16; MulPd r_z3 r_scalar r_x3;
    Load true r_x4 p_x_p 18; MulPd r_z4 r_scalar r_x4; Load true r_x5 p_x_p 20;
    MulPd r_z5 r_scalar r_x5; Load true r_x6 p_x_p 22; MulPd r_z6 r_scalar r_x6;
    Store true p_z_p 12 r_z1; Store true p_z_p 14 r_z2; Store true p_z_p 16 r_z3;
    Store true p_z_p 18 r_z4; Store true p_z_p 20 r_z5; Store true p_z_p 22 r_z6;
    Bump p_x_p 24; Bump p_z_p 24].

(** lib/scalarsite_sse/sse_blas_vscal4_double.cc 14-109; arguments z, a, x, n_4spin. *)
Definition vscal4 : kernel :=
  {| k_pre := [LoadSd r_scalar p_a 0; SetZero r_tmp1; Shuffle r_tmp1 r_scalar r_scalar 1;
        AddPd r_scalar r_scalar r_tmp1; MovePtr p_x_p p_x; MovePtr p_z_p p_z];
     k_times := fun n => n;
     k_body := fun _ => vscal4_loop;
     k_post := [] |}.

(** the loop of [ssed_m_eq_hh_u], lib/scalarsite_sse/sse_linalg_m_eq_hh_double.cc 91-210, from line 111 *)
Definition ssed_m_eq_hh_u_loop (w : isa) : list instr :=
   [Load false r_m1_1 p_m1_p 0; Load false r_m1_2 p_m1_p 2; Load false r_m1_3 p_m1_p 4;
    Load false r_m2_1 p_m2_p 0; Load false r_m2_2 p_m2_p 6; Load false r_m2_3 p_m2_p 12] ++
   hh_CCMUL w r_m3_11 r_m2_1 r_m1_1 ++
   [Load false r_m1_1 p_m1_p 6] ++
   hh_CCMADD w r_m3_11 r_m2_2 r_m1_2 ++
   [Load false r_m1_2 p_m1_p 8] ++
   hh_CCMADD w r_m3_11 r_m2_3 r_m1_3 ++
   [Load false r_m1_3 p_m1_p 10] ++
   hh_CCMUL w r_m3_12 r_m2_1 r_m1_1 ++
   [Load false r_m1_1 p_m1_p 12] ++
   hh_CCMADD w r_m3_12 r_m2_2 r_m1_2 ++
   [Load false r_m1_2 p_m1_p 14] ++
   hh_CCMADD w r_m3_12 r_m2_3 r_m1_3 ++
   [Load false r_m1_3 p_m1_p 16] ++
   hh_CCMUL w r_m3_13 r_m2_1 r_m1_1 ++
   [Load false r_m2_1 p_m2_p 2] ++
   hh_CCMADD w r_m3_13 r_m2_2 r_m1_2 ++
   [Load false r_m2_2 p_m2_p 8] ++
   hh_CCMADD w r_m3_13 r_m2_3 r_m1_3 ++
   [Load false r_m2_3 p_m2_p 14; Store false p_m3_p 0 r_m3_11; Store false p_m3_p 2 r_m3_12;
    Store false p_m3_p 4 r_m3_13; Load false r_m1_1 p_m1_p 0; Load false r_m1_2 p_m1_p 2;
    Load false r_m1_3 p_m1_p 4] ++
   hh_CCMUL w r_m3_11 r_m2_1 r_m1_1 ++
   [Load false r_m1_1 p_m1_p 6] ++
   hh_CCMADD w r_m3_11 r_m2_2 r_m1_2 ++
   [Load false r_m1_2 p_m1_p 8] ++
   hh_CCMADD w r_m3_11 r_m2_3 r_m1_3 ++
   [Load false r_m1_3 p_m1_p 10] ++
   hh_CCMUL w r_m3_12 r_m2_1 r_m1_1 ++
   [Load false r_m1_1 p_m1_p 12] ++
   hh_CCMADD w r_m3_12 r_m2_2 r_m1_2 ++
   [Load false r_m1_2 p_m1_p 14] ++
   hh_CCMADD w r_m3_12 r_m2_3 r_m1_3 ++
   [Load false r_m1_3 p_m1_p 16] ++
   hh_CCMUL w r_m3_13 r_m2_1 r_m1_1 ++
   [Load false r_m2_1 p_m2_p 4] ++
   hh_CCMADD w r_m3_13 r_m2_2 r_m1_2 ++
   [Load false r_m2_2 p_m2_p 10] ++
   hh_CCMADD w r_m3_13 r_m2_3 r_m1_3 ++
   [Load false r_m2_3 p_m2_p 16; Store false p_m3_p 6 r_m3_11; Store false p_m3_p 8 r_m3_12;
    Store false p_m3_p 10 r_m3_13; Load false r_m1_1 p_m1_p 0; Load false r_m1_2 p_m1_p 2;
    Load false r_m1_3 p_m1_p 4] ++
   hh_CCMUL w r_m3_11 r_m2_1 r_m1_1 ++
   [Load false r_m1_1 p_m1_p 6] ++
   hh_CCMADD w r_m3_11 r_m2_2 r_m1_2 ++
   [Load false r_m1_2 p_m1_p 8] ++
   hh_CCMADD w r_m3_11 r_m2_3 r_m1_3 ++
   [Load false r_m1_3 p_m1_p 10] ++
   hh_CCMUL w r_m3_12 r_m2_1 r_m1_1 ++
   [Load false r_m1_1 p_m1_p 12] ++
   hh_CCMADD w r_m3_12 r_m2_2 r_m1_2 ++
   [Load false r_m1_2 p_m1_p 14] ++
   hh_CCMADD w r_m3_12 r_m2_3 r_m1_3 ++
   [Load false r_m1_3 p_m1_p 16] ++
   hh_CCMUL w r_m3_13 r_m2_1 r_m1_1 ++
   hh_CCMADD w r_m3_13 r_m2_2 r_m1_2 ++
   hh_CCMADD w r_m3_13 r_m2_3 r_m1_3 ++
   [Store false p_m3_p 12 r_m3_11; Store false p_m3_p 14 r_m3_12; Store false p_m3_p 16 r_m3_13;
    Bump p_m1_p 18; Bump p_m2_p 18; Bump p_m3_p 18].

(** lib/scalarsite_sse/sse_linalg_m_eq_hh_double.cc 91-210; arguments m3, m2, m1, n_mat. *)
Definition ssed_m_eq_hh_u (w : isa) : kernel :=
  {| k_pre := [MovePtr p_m1_p p_m1; MovePtr p_m2_p p_m2; MovePtr p_m3_p p_m3];
     k_times := fun n => n;
     k_body := fun _ => ssed_m_eq_hh_u_loop w;
     k_post := [] |}.

(** the loop of [ssed_m_peq_ahh_u], lib/scalarsite_sse/sse_linalg_m_eq_hh_double.cc 213-393, from line 247 *)
Definition ssed_m_peq_ahh_u_loop (w : isa) : list instr :=
   [Load false r_m1_1 p_m1_p 0; Load false r_m1_2 p_m1_p 2; Load false r_m1_3 p_m1_p 4;
    Load false r_m2_1 p_m2_p 0; Load false r_m2_2 p_m2_p 6; Load false r_m2_3 p_m2_p 12;
    Load false r_res1 p_m3_p 0; Load false r_res2 p_m3_p 2; Load false r_res3 p_m3_p 4] ++
   hh_CCMUL w r_m3_11 r_m2_1 r_m1_1 ++
   [Load false r_m1_1 p_m1_p 6] ++
   hh_CCMADD w r_m3_11 r_m2_2 r_m1_2 ++
   [Load false r_m1_2 p_m1_p 8] ++
   hh_CCMADD w r_m3_11 r_m2_3 r_m1_3 ++
   [Load false r_m1_3 p_m1_p 10; MulPd r_m3_11 r_scalar r_m3_11; AddPd r_m3_11 r_res1 r_m3_11] ++
   hh_CCMUL w r_m3_12 r_m2_1 r_m1_1 ++
   [Load false r_m1_1 p_m1_p 12] ++
   hh_CCMADD w r_m3_12 r_m2_2 r_m1_2 ++
   [Load false r_m1_2 p_m1_p 14] ++
   hh_CCMADD w r_m3_12 r_m2_3 r_m1_3 ++
   [Load false r_m1_3 p_m1_p 16; MulPd r_m3_12 r_scalar r_m3_12; AddPd r_m3_12 r_res2 r_m3_12] ++
   hh_CCMUL w r_m3_13 r_m2_1 r_m1_1 ++
   [Load false r_m2_1 p_m2_p 2] ++
   hh_CCMADD w r_m3_13 r_m2_2 r_m1_2 ++
   [Load false r_m2_2 p_m2_p 8] ++
   hh_CCMADD w r_m3_13 r_m2_3 r_m1_3 ++
   [Load false r_m2_3 p_m2_p 14; MulPd r_m3_13 r_scalar r_m3_13; AddPd r_m3_13 r_res3 r_m3_13;
    Store false p_m3_p 0 r_m3_11; Store false p_m3_p 2 r_m3_12; Store false p_m3_p 4 r_m3_13;
    Load false r_res1 p_m3_p 6; Load false r_res2 p_m3_p 8; Load false r_res3 p_m3_p 10;
    Load false r_m1_1 p_m1_p 0; Load false r_m1_2 p_m1_p 2; Load false r_m1_3 p_m1_p 4] ++
   hh_CCMUL w r_m3_11 r_m2_1 r_m1_1 ++
   [Load false r_m1_1 p_m1_p 6] ++
   hh_CCMADD w r_m3_11 r_m2_2 r_m1_2 ++
   [Load false r_m1_2 p_m1_p 8] ++
   hh_CCMADD w r_m3_11 r_m2_3 r_m1_3 ++
   [Load false r_m1_3 p_m1_p 10; MulPd r_m3_11 r_scalar r_m3_11; AddPd r_m3_11 r_res1 r_m3_11] ++
   hh_CCMUL w r_m3_12 r_m2_1 r_m1_1 ++
   [Load false r_m1_1 p_m1_p 12] ++
   hh_CCMADD w r_m3_12 r_m2_2 r_m1_2 ++
   [Load false r_m1_2 p_m1_p 14] ++
   hh_CCMADD w r_m3_12 r_m2_3 r_m1_3 ++
   [Load false r_m1_3 p_m1_p 16; MulPd r_m3_12 r_scalar r_m3_12; AddPd r_m3_12 r_res2 r_m3_12] ++
   hh_CCMUL w r_m3_13 r_m2_1 r_m1_1 ++
   [Load false r_m2_1 p_m2_p 4] ++
   hh_CCMADD w r_m3_13 r_m2_2 r_m1_2 ++
   [Load false r_m2_2 p_m2_p 10] ++
   hh_CCMADD w r_m3_13 r_m2_3 r_m1_3 ++
   [Load false r_m2_3 p_m2_p 16; MulPd r_m3_13 r_scalar r_m3_13; AddPd r_m3_13 r_res3 r_m3_13;
    Store false p_m3_p 6 r_m3_11; Store false p_m3_p 8 r_m3_12; Store false p_m3_p 10 r_m3_13;
    Load false r_res1 p_m3_p 12; Load false r_res2 p_m3_p 14; Load false r_res3 p_m3_p 16;
    Load false r_m1_1 p_m1_p 0; Load false r_m1_2 p_m1_p 2; Load false r_m1_3 p_m1_p 4] ++
   hh_CCMUL w r_m3_11 r_m2_1 r_m1_1 ++
   [Load false r_m1_1 p_m1_p 6] ++
   hh_CCMADD w r_m3_11 r_m2_2 r_m1_2 ++
   [Load false r_m1_2 p_m1_p 8] ++
   hh_CCMADD w r_m3_11 r_m2_3 r_m1_3 ++
   [Load false r_m1_3 p_m1_p 10; MulPd r_m3_11 r_scalar r_m3_11; AddPd r_m3_11 r_res1 r_m3_11] ++
   hh_CCMUL w r_m3_12 r_m2_1 r_m1_1 ++
   [Load false r_m1_1 p_m1_p 12] ++
   hh_CCMADD w r_m3_12 r_m2_2 r_m1_2 ++
   [Load false r_m1_2 p_m1_p 14] ++
   hh_CCMADD w r_m3_12 r_m2_3 r_m1_3 ++
   [Load false r_m1_3 p_m1_p 16; MulPd r_m3_12 r_scalar r_m3_12; AddPd r_m3_12 r_res2 r_m3_12] ++
   hh_CCMUL w r_m3_13 r_m2_1 r_m1_1 ++
   hh_CCMADD w r_m3_13 r_m2_2 r_m1_2 ++
   hh_CCMADD w r_m3_13 r_m2_3 r_m1_3 ++
   [MulPd r_m3_13 r_scalar r_m3_13; AddPd r_m3_13 r_res3 r_m3_13; Store false p_m3_p 12 r_m3_11;
    Store false p_m3_p 14 r_m3_12; Store false p_m3_p 16 r_m3_13; Bump p_m1_p 18;
    Bump p_m2_p 18; Bump p_m3_p 18].

(** lib/scalarsite_sse/sse_linalg_m_eq_hh_double.cc 213-393; arguments m3, a, m2, m1, n_mat. *)
Definition ssed_m_peq_ahh_u (w : isa) : kernel :=
  {| k_pre := [LoadSd r_scalar p_a 0; SetZero r_tmp1; Shuffle r_tmp1 r_scalar r_scalar 1;
        AddPd r_scalar r_scalar r_tmp1; MovePtr p_m1_p p_m1; MovePtr p_m2_p p_m2;
        MovePtr p_m3_p p_m3];
     k_times := fun n => n;
     k_body := fun _ => ssed_m_peq_ahh_u_loop w;
     k_post := [] |}.

(** the loop of [ssed_m_eq_hh], lib/scalarsite_sse/sse_linalg_m_eq_hh_double.cc 398-518, from line 419 *)
Definition ssed_m_eq_hh_loop (w : isa) : list instr :=
   [Load true r_m1_1 p_m1_p 0; Load true r_m1_2 p_m1_p 2; Load true r_m1_3 p_m1_p 4;
    Load true r_m2_1 p_m2_p 0; Load true r_m2_2 p_m2_p 6; Load true r_m2_3 p_m2_p 12] ++
   hh_CCMUL w r_m3_11 r_m2_1 r_m1_1 ++
   [Load true r_m1_1 p_m1_p 6] ++
   hh_CCMADD w r_m3_11 r_m2_2 r_m1_2 ++
   [Load true r_m1_2 p_m1_p 8] ++
   hh_CCMADD w r_m3_11 r_m2_3 r_m1_3 ++
   [Load true r_m1_3 p_m1_p 10] ++
   hh_CCMUL w r_m3_12 r_m2_1 r_m1_1 ++
   [Load true r_m1_1 p_m1_p 12] ++
   hh_CCMADD w r_m3_12 r_m2_2 r_m1_2 ++
   [Load true r_m1_2 p_m1_p 14] ++
   hh_CCMADD w r_m3_12 r_m2_3 r_m1_3 ++
   [Load true r_m1_3 p_m1_p 16] ++
   hh_CCMUL w r_m3_13 r_m2_1 r_m1_1 ++
   [Load true r_m2_1 p_m2_p 2] ++
   hh_CCMADD w r_m3_13 r_m2_2 r_m1_2 ++
   [Load true r_m2_2 p_m2_p 8] ++
   hh_CCMADD w r_m3_13 r_m2_3 r_m1_3 ++
   [Load true r_m2_3 p_m2_p 14; Store true p_m3_p 0 r_m3_11; Store true p_m3_p 2 r_m3_12;
    Store true p_m3_p 4 r_m3_13; Load true r_m1_1 p_m1_p 0; Load true r_m1_2 p_m1_p 2;
    Load true r_m1_3 p_m1_p 4] ++
   hh_CCMUL w r_m3_11 r_m2_1 r_m1_1 ++
   [Load true r_m1_1 p_m1_p 6] ++
   hh_CCMADD w r_m3_11 r_m2_2 r_m1_2 ++
   [Load true r_m1_2 p_m1_p 8] ++
   hh_CCMADD w r_m3_11 r_m2_3 r_m1_3 ++
   [Load true r_m1_3 p_m1_p 10] ++
   hh_CCMUL w r_m3_12 r_m2_1 r_m1_1 ++
   [Load true r_m1_1 p_m1_p 12] ++
   hh_CCMADD w r_m3_12 r_m2_2 r_m1_2 ++
   [Load true r_m1_2 p_m1_p 14] ++
   hh_CCMADD w r_m3_12 r_m2_3 r_m1_3 ++
   [Load true r_m1_3 p_m1_p 16] ++
   hh_CCMUL w r_m3_13 r_m2_1 r_m1_1 ++
   [Load true r_m2_1 p_m2_p 4] ++
   hh_CCMADD w r_m3_13 r_m2_2 r_m1_2 ++
   [Load true r_m2_2 p_m2_p 10] ++
   hh_CCMADD w r_m3_13 r_m2_3 r_m1_3 ++
   [Load true r_m2_3 p_m2_p 16; Store true p_m3_p 6 r_m3_11; Store true p_m3_p 8 r_m3_12;
    Store true p_m3_p 10 r_m3_13; Load true r_m1_1 p_m1_p 0; Load true r_m1_2 p_m1_p 2;
    Load true r_m1_3 p_m1_p 4] ++
   hh_CCMUL w r_m3_11 r_m2_1 r_m1_1 ++
   [Load true r_m1_1 p_m1_p 6] ++
   hh_CCMADD w r_m3_11 r_m2_2 r_m1_2 ++
   [Load true r_m1_2 p_m1_p 8] ++
   hh_CCMADD w r_m3_11 r_m2_3 r_m1_3 ++
   [Load true r_m1_3 p_m1_p 10] ++
   hh_CCMUL w r_m3_12 r_m2_1 r_m1_1 ++
   [Load true r_m1_1 p_m1_p 12] ++
   hh_CCMADD w r_m3_12 r_m2_2 r_m1_2 ++
   [Load true r_m1_2 p_m1_p 14] ++
   hh_CCMADD w r_m3_12 r_m2_3 r_m1_3 ++
   [Load true r_m1_3 p_m1_p 16] ++
   hh_CCMUL w r_m3_13 r_m2_1 r_m1_1 ++
   hh_CCMADD w r_m3_13 r_m2_2 r_m1_2 ++
   hh_CCMADD w r_m3_13 r_m2_3 r_m1_3 ++
   [Store true p_m3_p 12 r_m3_11; Store true p_m3_p 14 r_m3_12; Store true p_m3_p 16 r_m3_13;
    Bump p_m1_p 18; Bump p_m2_p 18; Bump p_m3_p 18].

(** lib/scalarsite_sse/sse_linalg_m_eq_hh_double.cc 398-518; arguments m3, m2, m1, n_mat. *)
Definition ssed_m_eq_hh (w : isa) : kernel :=
  {| k_pre := [MovePtr p_m1_p p_m1; MovePtr p_m2_p p_m2; MovePtr p_m3_p p_m3];
     k_times := fun n => n;
     k_body := fun _ => ssed_m_eq_hh_loop w;
     k_post := [] |}.

(** the loop of [ssed_m_peq_ahh], lib/scalarsite_sse/sse_linalg_m_eq_hh_double.cc 521-700, from line 554 *)
Definition ssed_m_peq_ahh_loop (w : isa) : list instr :=
   [Load true r_m1_1 p_m1_p 0; Load true r_m1_2 p_m1_p 2; Load true r_m1_3 p_m1_p 4;
    Load true r_m2_1 p_m2_p 0; Load true r_m2_2 p_m2_p 6; Load true r_m2_3 p_m2_p 12;
    Load true r_res1 p_m3_p 0; Load true r_res2 p_m3_p 2; Load true r_res3 p_m3_p 4] ++
   hh_CCMUL w r_m3_11 r_m2_1 r_m1_1 ++
   [Load true r_m1_1 p_m1_p 6] ++
   hh_CCMADD w r_m3_11 r_m2_2 r_m1_2 ++
   [Load true r_m1_2 p_m1_p 8] ++
   hh_CCMADD w r_m3_11 r_m2_3 r_m1_3 ++
   [Load true r_m1_3 p_m1_p 10; MulPd r_m3_11 r_scalar r_m3_11; AddPd r_m3_11 r_res1 r_m3_11] ++
   hh_CCMUL w r_m3_12 r_m2_1 r_m1_1 ++
   [Load true r_m1_1 p_m1_p 12] ++
   hh_CCMADD w r_m3_12 r_m2_2 r_m1_2 ++
   [Load true r_m1_2 p_m1_p 14] ++
   hh_CCMADD w r_m3_12 r_m2_3 r_m1_3 ++
   [Load true r_m1_3 p_m1_p 16; MulPd r_m3_12 r_scalar r_m3_12; AddPd r_m3_12 r_res2 r_m3_12] ++
   hh_CCMUL w r_m3_13 r_m2_1 r_m1_1 ++
   [Load true r_m2_1 p_m2_p 2] ++
   hh_CCMADD w r_m3_13 r_m2_2 r_m1_2 ++
   [Load true r_m2_2 p_m2_p 8] ++
   hh_CCMADD w r_m3_13 r_m2_3 r_m1_3 ++
   [Load true r_m2_3 p_m2_p 14; MulPd r_m3_13 r_scalar r_m3_13; AddPd r_m3_13 r_res3 r_m3_13;
    Store true p_m3_p 0 r_m3_11; Store true p_m3_p 2 r_m3_12; Store true p_m3_p 4 r_m3_13;
    Load true r_res1 p_m3_p 6; Load true r_res2 p_m3_p 8; Load true r_res3 p_m3_p 10;
    Load true r_m1_1 p_m1_p 0; Load true r_m1_2 p_m1_p 2; Load true r_m1_3 p_m1_p 4] ++
   hh_CCMUL w r_m3_11 r_m2_1 r_m1_1 ++
   [Load true r_m1_1 p_m1_p 6] ++
   hh_CCMADD w r_m3_11 r_m2_2 r_m1_2 ++
   [Load true r_m1_2 p_m1_p 8] ++
   hh_CCMADD w r_m3_11 r_m2_3 r_m1_3 ++
   [Load true r_m1_3 p_m1_p 10; MulPd r_m3_11 r_scalar r_m3_11; AddPd r_m3_11 r_res1 r_m3_11] ++
   hh_CCMUL w r_m3_12 r_m2_1 r_m1_1 ++
   [Load true r_m1_1 p_m1_p 12] ++
   hh_CCMADD w r_m3_12 r_m2_2 r_m1_2 ++
   [Load true r_m1_2 p_m1_p 14] ++
   hh_CCMADD w r_m3_12 r_m2_3 r_m1_3 ++
   [Load true r_m1_3 p_m1_p 16; MulPd r_m3_12 r_scalar r_m3_12; AddPd r_m3_12 r_res2 r_m3_12] ++
   hh_CCMUL w r_m3_13 r_m2_1 r_m1_1 ++
   [Load true r_m2_1 p_m2_p 4] ++
   hh_CCMADD w r_m3_13 r_m2_2 r_m1_2 ++
   [Load true r_m2_2 p_m2_p 10] ++
   hh_CCMADD w r_m3_13 r_m2_3 r_m1_3 ++
   [Load true r_m2_3 p_m2_p 16; MulPd r_m3_13 r_scalar r_m3_13; AddPd r_m3_13 r_res3 r_m3_13;
    Store true p_m3_p 6 r_m3_11; Store true p_m3_p 8 r_m3_12; Store true p_m3_p 10 r_m3_13;
    Load true r_res1 p_m3_p 12; Load true r_res2 p_m3_p 14; Load true r_res3 p_m3_p 16;
    Load true r_m1_1 p_m1_p 0; Load true r_m1_2 p_m1_p 2; Load true r_m1_3 p_m1_p 4] ++
   hh_CCMUL w r_m3_11 r_m2_1 r_m1_1 ++
   [Load true r_m1_1 p_m1_p 6] ++
   hh_CCMADD w r_m3_11 r_m2_2 r_m1_2 ++
   [Load true r_m1_2 p_m1_p 8] ++
   hh_CCMADD w r_m3_11 r_m2_3 r_m1_3 ++
   [Load true r_m1_3 p_m1_p 10; MulPd r_m3_11 r_scalar r_m3_11; AddPd r_m3_11 r_res1 r_m3_11] ++
   hh_CCMUL w r_m3_12 r_m2_1 r_m1_1 ++
   [Load true r_m1_1 p_m1_p 12] ++
   hh_CCMADD w r_m3_12 r_m2_2 r_m1_2 ++
   [Load true r_m1_2 p_m1_p 14] ++
   hh_CCMADD w r_m3_12 r_m2_3 r_m1_3 ++
   [Load true r_m1_3 p_m1_p 16; MulPd r_m3_12 r_scalar r_m3_12; AddPd r_m3_12 r_res2 r_m3_12] ++
   hh_CCMUL w r_m3_13 r_m2_1 r_m1_1 ++
   hh_CCMADD w r_m3_13 r_m2_2 r_m1_2 ++
   hh_CCMADD w r_m3_13 r_m2_3 r_m1_3 ++
   [MulPd r_m3_13 r_scalar r_m3_13; AddPd r_m3_13 r_res3 r_m3_13; Store true p_m3_p 12 r_m3_11;
    Store true p_m3_p 14 r_m3_12; Store true p_m3_p 16 r_m3_13; Bump p_m1_p 18;
    Bump p_m2_p 18; Bump p_m3_p 18].

(** lib/scalarsite_sse/sse_linalg_m_eq_hh_double.cc 521-700; arguments m3, a, m2, m1, n_mat. *)
Definition ssed_m_peq_ahh (w : isa) : kernel :=
  {| k_pre := [LoadSd r_scalar p_a 0; SetZero r_tmp1; Shuffle r_tmp1 r_scalar r_scalar 1;
        AddPd r_scalar r_scalar r_tmp1; MovePtr p_m1_p p_m1; MovePtr p_m2_p p_m2;
        MovePtr p_m3_p p_m3];
     k_times := fun n => n;
     k_body := fun _ => ssed_m_peq_ahh_loop w;
     k_post := [] |}.

(** the loop of [ssed_m_eq_hm_u], lib/scalarsite_sse/sse_linalg_m_eq_hm_double.cc 83-196, from line 104 *)
Definition ssed_m_eq_hm_u_loop (w : isa) : list instr :=
   [Load false r_m2_1 p_m2_p 0; Load false r_m2_2 p_m2_p 6; Load false r_m2_3 p_m2_p 12;
    Load false r_tmp1 p_m1_p 0; Load false r_tmp2 p_m1_p 2; Load false r_tmp3 p_m1_p 4] ++
   hm_CONJMUL w r_m3_11 r_tmp1 r_m2_1 ++
   [Load false r_tmp1 p_m1_p 6] ++
   hm_CONJMUL w r_m3_12 r_tmp2 r_m2_1 ++
   [Load false r_tmp2 p_m1_p 8] ++
   hm_CONJMUL w r_m3_13 r_tmp3 r_m2_1 ++
   [Load false r_tmp3 p_m1_p 10] ++
   hm_CONJMADD w r_m3_11 r_tmp1 r_m2_2 ++
   [Load false r_tmp1 p_m1_p 12] ++
   hm_CONJMADD w r_m3_12 r_tmp2 r_m2_2 ++
   [Load false r_tmp2 p_m1_p 14] ++
   hm_CONJMADD w r_m3_13 r_tmp3 r_m2_2 ++
   [Load false r_tmp3 p_m1_p 16] ++
   hm_CONJMADD w r_m3_11 r_tmp1 r_m2_3 ++
   [Store false p_m3_p 0 r_m3_11] ++
   hm_CONJMADD w r_m3_12 r_tmp2 r_m2_3 ++
   [Store false p_m3_p 2 r_m3_12] ++
   hm_CONJMADD w r_m3_13 r_tmp3 r_m2_3 ++
   [Store false p_m3_p 4 r_m3_13; Load false r_m2_1 p_m2_p 2; Load false r_m2_2 p_m2_p 8;
    Load false r_m2_3 p_m2_p 14; Load false r_tmp1 p_m1_p 0; Load false r_tmp2 p_m1_p 2;
    Load false r_tmp3 p_m1_p 4] ++
   hm_CONJMUL w r_m3_11 r_tmp1 r_m2_1 ++
   [Load false r_tmp1 p_m1_p 6] ++
   hm_CONJMUL w r_m3_12 r_tmp2 r_m2_1 ++
   [Load false r_tmp2 p_m1_p 8] ++
   hm_CONJMUL w r_m3_13 r_tmp3 r_m2_1 ++
   [Load false r_tmp3 p_m1_p 10] ++
   hm_CONJMADD w r_m3_11 r_tmp1 r_m2_2 ++
   [Load false r_tmp1 p_m1_p 12] ++
   hm_CONJMADD w r_m3_12 r_tmp2 r_m2_2 ++
   [Load false r_tmp2 p_m1_p 14] ++
   hm_CONJMADD w r_m3_13 r_tmp3 r_m2_2 ++
   [Load false r_tmp3 p_m1_p 16] ++
   hm_CONJMADD w r_m3_11 r_tmp1 r_m2_3 ++
   [Store false p_m3_p 6 r_m3_11] ++
   hm_CONJMADD w r_m3_12 r_tmp2 r_m2_3 ++
   [Store false p_m3_p 8 r_m3_12] ++
   hm_CONJMADD w r_m3_13 r_tmp3 r_m2_3 ++
   [Store false p_m3_p 10 r_m3_13; Load false r_m2_1 p_m2_p 4; Load false r_m2_2 p_m2_p 10;
    Load false r_m2_3 p_m2_p 16; Load false r_tmp1 p_m1_p 0; Load false r_tmp2 p_m1_p 2;
    Load false r_tmp3 p_m1_p 4] ++
   hm_CONJMUL w r_m3_11 r_tmp1 r_m2_1 ++
   [Load false r_tmp1 p_m1_p 6] ++
   hm_CONJMUL w r_m3_12 r_tmp2 r_m2_1 ++
   [Load false r_tmp2 p_m1_p 8] ++
   hm_CONJMUL w r_m3_13 r_tmp3 r_m2_1 ++
   [Load false r_tmp3 p_m1_p 10] ++
   hm_CONJMADD w r_m3_11 r_tmp1 r_m2_2 ++
   [Load false r_tmp1 p_m1_p 12] ++
   hm_CONJMADD w r_m3_12 r_tmp2 r_m2_2 ++
   [Load false r_tmp2 p_m1_p 14] ++
   hm_CONJMADD w r_m3_13 r_tmp3 r_m2_2 ++
   [Load false r_tmp3 p_m1_p 16] ++
   hm_CONJMADD w r_m3_11 r_tmp1 r_m2_3 ++
   [Store false p_m3_p 12 r_m3_11] ++
   hm_CONJMADD w r_m3_12 r_tmp2 r_m2_3 ++
   [Store false p_m3_p 14 r_m3_12] ++
   hm_CONJMADD w r_m3_13 r_tmp3 r_m2_3 ++
   [Store false p_m3_p 16 r_m3_13; Bump p_m1_p 18; Bump p_m2_p 18;
    Bump p_m3_p 18].

(** lib/scalarsite_sse/sse_linalg_m_eq_hm_double.cc 83-196; arguments m3, m2, m1, n_mat. *)
Definition ssed_m_eq_hm_u (w : isa) : kernel :=
  {| k_pre := [MovePtr p_m1_p p_m1; MovePtr p_m2_p p_m2; MovePtr p_m3_p p_m3];
     k_times := fun n => n;
     k_body := fun _ => ssed_m_eq_hm_u_loop w;
     k_post := [] |}.

(** the loop of [ssed_m_peq_ahm_u], lib/scalarsite_sse/sse_linalg_m_eq_hm_double.cc 199-362, from line 229 *)
Definition ssed_m_peq_ahm_u_loop (w : isa) : list instr :=
   [Load false r_res1 p_m3_p 0; Load false r_res2 p_m3_p 2; Load false r_res3 p_m3_p 4;
    Load false r_m2_1 p_m2_p 0; Load false r_m2_2 p_m2_p 6; Load false r_m2_3 p_m2_p 12;
    Load false r_tmp1 p_m1_p 0; Load false r_tmp2 p_m1_p 2; Load false r_tmp3 p_m1_p 4] ++
   hm_CONJMUL w r_m3_11 r_tmp1 r_m2_1 ++
   [Load false r_tmp1 p_m1_p 6] ++
   hm_CONJMUL w r_m3_12 r_tmp2 r_m2_1 ++
   [Load false r_tmp2 p_m1_p 8] ++
   hm_CONJMUL w r_m3_13 r_tmp3 r_m2_1 ++
   [Load false r_tmp3 p_m1_p 10] ++
   hm_CONJMADD w r_m3_11 r_tmp1 r_m2_2 ++
   [Load false r_tmp1 p_m1_p 12] ++
   hm_CONJMADD w r_m3_12 r_tmp2 r_m2_2 ++
   [Load false r_tmp2 p_m1_p 14] ++
   hm_CONJMADD w r_m3_13 r_tmp3 r_m2_2 ++
   [Load false r_tmp3 p_m1_p 16] ++
   hm_CONJMADD w r_m3_11 r_tmp1 r_m2_3 ++
   hm_CONJMADD w r_m3_12 r_tmp2 r_m2_3 ++
   hm_CONJMADD w r_m3_13 r_tmp3 r_m2_3 ++
   [MulPd r_m3_11 r_scalar r_m3_11; AddPd r_m3_11 r_res1 r_m3_11; MulPd r_m3_12 r_scalar r_m3_12;
    AddPd r_m3_12 r_res2 r_m3_12; MulPd r_m3_13 r_scalar r_m3_13; AddPd r_m3_13 r_res3 r_m3_13;
    Store false p_m3_p 0 r_m3_11; Store false p_m3_p 2 r_m3_12; Store false p_m3_p 4 r_m3_13;
    Load false r_res1 p_m3_p 6; Load false r_res2 p_m3_p 8; Load false r_res3 p_m3_p 10;
    Load false r_m2_1 p_m2_p 2; Load false r_m2_2 p_m2_p 8; Load false r_m2_3 p_m2_p 14;
    Load false r_tmp1 p_m1_p 0; Load false r_tmp2 p_m1_p 2; Load false r_tmp3 p_m1_p 4] ++
   hm_CONJMUL w r_m3_11 r_tmp1 r_m2_1 ++
   [Load false r_tmp1 p_m1_p 6] ++
   hm_CONJMUL w r_m3_12 r_tmp2 r_m2_1 ++
   [Load false r_tmp2 p_m1_p 8] ++
   hm_CONJMUL w r_m3_13 r_tmp3 r_m2_1 ++
   [Load false r_tmp3 p_m1_p 10] ++
   hm_CONJMADD w r_m3_11 r_tmp1 r_m2_2 ++
   [Load false r_tmp1 p_m1_p 12] ++
   hm_CONJMADD w r_m3_12 r_tmp2 r_m2_2 ++
   [Load false r_tmp2 p_m1_p 14] ++
   hm_CONJMADD w r_m3_13 r_tmp3 r_m2_2 ++
   [Load false r_tmp3 p_m1_p 16] ++
   hm_CONJMADD w r_m3_11 r_tmp1 r_m2_3 ++
   hm_CONJMADD w r_m3_12 r_tmp2 r_m2_3 ++
   hm_CONJMADD w r_m3_13 r_tmp3 r_m2_3 ++
   [MulPd r_m3_11 r_scalar r_m3_11; AddPd r_m3_11 r_res1 r_m3_11; MulPd r_m3_12 r_scalar r_m3_12;
    AddPd r_m3_12 r_res2 r_m3_12; MulPd r_m3_13 r_scalar r_m3_13; AddPd r_m3_13 r_res3 r_m3_13;
    Store false p_m3_p 6 r_m3_11; Store false p_m3_p 8 r_m3_12; Store false p_m3_p 10 r_m3_13;
    Load false r_res1 p_m3_p 12; Load false r_res2 p_m3_p 14; Load false r_res3 p_m3_p 16;
    Load false r_m2_1 p_m2_p 4; Load false r_m2_2 p_m2_p 10; Load false r_m2_3 p_m2_p 16;
    Load false r_tmp1 p_m1_p 0; Load false r_tmp2 p_m1_p 2; Load false r_tmp3 p_m1_p 4] ++
   hm_CONJMUL w r_m3_11 r_tmp1 r_m2_1 ++
   [Load false r_tmp1 p_m1_p 6] ++
   hm_CONJMUL w r_m3_12 r_tmp2 r_m2_1 ++
   [Load false r_tmp2 p_m1_p 8] ++
   hm_CONJMUL w r_m3_13 r_tmp3 r_m2_1 ++
   [Load false r_tmp3 p_m1_p 10] ++
   hm_CONJMADD w r_m3_11 r_tmp1 r_m2_2 ++
   [Load false r_tmp1 p_m1_p 12] ++
   hm_CONJMADD w r_m3_12 r_tmp2 r_m2_2 ++
   [Load false r_tmp2 p_m1_p 14] ++
   hm_CONJMADD w r_m3_13 r_tmp3 r_m2_2 ++
   [Load false r_tmp3 p_m1_p 16] ++
   hm_CONJMADD w r_m3_11 r_tmp1 r_m2_3 ++
   hm_CONJMADD w r_m3_12 r_tmp2 r_m2_3 ++
   hm_CONJMADD w r_m3_13 r_tmp3 r_m2_3 ++
   [MulPd r_m3_11 r_scalar r_m3_11; AddPd r_m3_11 r_res1 r_m3_11; MulPd r_m3_12 r_scalar r_m3_12;
    AddPd r_m3_12 r_res2 r_m3_12; MulPd r_m3_13 r_scalar r_m3_13; AddPd r_m3_13 r_res3 r_m3_13;
    Store false p_m3_p 12 r_m3_11; Store false p_m3_p 14 r_m3_12; Store false p_m3_p 16 r_m3_13;
    Bump p_m1_p 18; Bump p_m2_p 18; Bump p_m3_p 18].

(** lib/scalarsite_sse/sse_linalg_m_eq_hm_double.cc 199-362; arguments m3, a, m2, m1, n_mat. *)
Definition ssed_m_peq_ahm_u (w : isa) : kernel :=
  {| k_pre := [LoadSd r_scalar p_a 0; SetZero r_tmp1; Shuffle r_tmp1 r_scalar r_scalar 1;
        AddPd r_scalar r_scalar r_tmp1; MovePtr p_m1_p p_m1; MovePtr p_m2_p p_m2;
        MovePtr p_m3_p p_m3];
     k_times := fun n => n;
     k_body := fun _ => ssed_m_peq_ahm_u_loop w;
     k_post := [] |}.

(** the loop of [ssed_m_eq_hm], lib/scalarsite_sse/sse_linalg_m_eq_hm_double.cc 368-481, from line 389 *)
Definition ssed_m_eq_hm_loop (w : isa) : list instr :=
   [Load true r_m2_1 p_m2_p 0; Load true r_m2_2 p_m2_p 6; Load true r_m2_3 p_m2_p 12;
    Load true r_tmp1 p_m1_p 0; Load true r_tmp2 p_m1_p 2; Load true r_tmp3 p_m1_p 4] ++
   hm_CONJMUL w r_m3_11 r_tmp1 r_m2_1 ++
   [Load true r_tmp1 p_m1_p 6] ++
   hm_CONJMUL w r_m3_12 r_tmp2 r_m2_1 ++
   [Load true r_tmp2 p_m1_p 8] ++
   hm_CONJMUL w r_m3_13 r_tmp3 r_m2_1 ++
   [Load true r_tmp3 p_m1_p 10] ++
   hm_CONJMADD w r_m3_11 r_tmp1 r_m2_2 ++
   [Load true r_tmp1 p_m1_p 12] ++
   hm_CONJMADD w r_m3_12 r_tmp2 r_m2_2 ++
   [Load true r_tmp2 p_m1_p 14] ++
   hm_CONJMADD w r_m3_13 r_tmp3 r_m2_2 ++
   [Load true r_tmp3 p_m1_p 16] ++
   hm_CONJMADD w r_m3_11 r_tmp1 r_m2_3 ++
   [Store true p_m3_p 0 r_m3_11] ++
   hm_CONJMADD w r_m3_12 r_tmp2 r_m2_3 ++
   [Store true p_m3_p 2 r_m3_12] ++
   hm_CONJMADD w r_m3_13 r_tmp3 r_m2_3 ++
   [Store true p_m3_p 4 r_m3_13; Load true r_m2_1 p_m2_p 2; Load true r_m2_2 p_m2_p 8;
    Load true r_m2_3 p_m2_p 14; Load true r_tmp1 p_m1_p 0; Load true r_tmp2 p_m1_p 2;
    Load true r_tmp3 p_m1_p 4] ++
   hm_CONJMUL w r_m3_11 r_tmp1 r_m2_1 ++
   [Load true r_tmp1 p_m1_p 6] ++
   hm_CONJMUL w r_m3_12 r_tmp2 r_m2_1 ++
   [Load true r_tmp2 p_m1_p 8] ++
   hm_CONJMUL w r_m3_13 r_tmp3 r_m2_1 ++
   [Load true r_tmp3 p_m1_p 10] ++
   hm_CONJMADD w r_m3_11 r_tmp1 r_m2_2 ++
   [Load true r_tmp1 p_m1_p 12] ++
   hm_CONJMADD w r_m3_12 r_tmp2 r_m2_2 ++
   [Load true r_tmp2 p_m1_p 14] ++
   hm_CONJMADD w r_m3_13 r_tmp3 r_m2_2 ++
   [Load true r_tmp3 p_m1_p 16] ++
   hm_CONJMADD w r_m3_11 r_tmp1 r_m2_3 ++
   [Store true p_m3_p 6 r_m3_11] ++
   hm_CONJMADD w r_m3_12 r_tmp2 r_m2_3 ++
   [Store true p_m3_p 8 r_m3_12] ++
   hm_CONJMADD w r_m3_13 r_tmp3 r_m2_3 ++
   [Store true p_m3_p 10 r_m3_13; Load true r_m2_1 p_m2_p 4; Load true r_m2_2 p_m2_p 10;
    Load true r_m2_3 p_m2_p 16; Load true r_tmp1 p_m1_p 0; Load true r_tmp2 p_m1_p 2;
    Load true r_tmp3 p_m1_p 4] ++
   hm_CONJMUL w r_m3_11 r_tmp1 r_m2_1 ++
   [Load true r_tmp1 p_m1_p 6] ++
   hm_CONJMUL w r_m3_12 r_tmp2 r_m2_1 ++
   [Load true r_tmp2 p_m1_p 8] ++
   hm_CONJMUL w r_m3_13 r_tmp3 r_m2_1 ++
   [Load true r_tmp3 p_m1_p 10] ++
   hm_CONJMADD w r_m3_11 r_tmp1 r_m2_2 ++
   [Load true r_tmp1 p_m1_p 12] ++
   hm_CONJMADD w r_m3_12 r_tmp2 r_m2_2 ++
   [Load true r_tmp2 p_m1_p 14] ++
   hm_CONJMADD w r_m3_13 r_tmp3 r_m2_2 ++
   [Load true r_tmp3 p_m1_p 16] ++
   hm_CONJMADD w r_m3_11 r_tmp1 r_m2_3 ++
   [Store true p_m3_p 12 r_m3_11] ++
   hm_CONJMADD w r_m3_12 r_tmp2 r_m2_3 ++
   [Store true p_m3_p 14 r_m3_12] ++
   hm_CONJMADD w r_m3_13 r_tmp3 r_m2_3 ++
   [Store true p_m3_p 16 r_m3_13; Bump p_m1_p 18; Bump p_m2_p 18;
    Bump p_m3_p 18].

(** lib/scalarsite_sse/sse_linalg_m_eq_hm_double.cc 368-481; arguments m3, m2, m1, n_mat. *)
Definition ssed_m_eq_hm (w : isa) : kernel :=
  {| k_pre := [MovePtr p_m1_p p_m1; MovePtr p_m2_p p_m2; MovePtr p_m3_p p_m3];
     k_times := fun n => n;
     k_body := fun _ => ssed_m_eq_hm_loop w;
     k_post := [] |}.

(** the loop of [ssed_m_peq_ahm], lib/scalarsite_sse/sse_linalg_m_eq_hm_double.cc 484-647, from line 514 *)
Definition ssed_m_peq_ahm_loop (w : isa) : list instr :=
   [Load true r_res1 p_m3_p 0; Load true r_res2 p_m3_p 2; Load true r_res3 p_m3_p 4;
    Load true r_m2_1 p_m2_p 0; Load true r_m2_2 p_m2_p 6; Load true r_m2_3 p_m2_p 12;
    Load true r_tmp1 p_m1_p 0; Load true r_tmp2 p_m1_p 2; Load true r_tmp3 p_m1_p 4] ++
   hm_CONJMUL w r_m3_11 r_tmp1 r_m2_1 ++
   [Load true r_tmp1 p_m1_p 6] ++
   hm_CONJMUL w r_m3_12 r_tmp2 r_m2_1 ++
   [Load true r_tmp2 p_m1_p 8] ++
   hm_CONJMUL w r_m3_13 r_tmp3 r_m2_1 ++
   [Load true r_tmp3 p_m1_p 10] ++
   hm_CONJMADD w r_m3_11 r_tmp1 r_m2_2 ++
   [Load true r_tmp1 p_m1_p 12] ++
   hm_CONJMADD w r_m3_12 r_tmp2 r_m2_2 ++
   [Load true r_tmp2 p_m1_p 14] ++
   hm_CONJMADD w r_m3_13 r_tmp3 r_m2_2 ++
   [Load true r_tmp3 p_m1_p 16] ++
   hm_CONJMADD w r_m3_11 r_tmp1 r_m2_3 ++
   hm_CONJMADD w r_m3_12 r_tmp2 r_m2_3 ++
   hm_CONJMADD w r_m3_13 r_tmp3 r_m2_3 ++
   [MulPd r_m3_11 r_scalar r_m3_11; AddPd r_m3_11 r_res1 r_m3_11; MulPd r_m3_12 r_scalar r_m3_12;
    AddPd r_m3_12 r_res2 r_m3_12; MulPd r_m3_13 r_scalar r_m3_13; AddPd r_m3_13 r_res3 r_m3_13;
    Store true p_m3_p 0 r_m3_11; Store true p_m3_p 2 r_m3_12; Store true p_m3_p 4 r_m3_13;
    Load true r_res1 p_m3_p 6; Load true r_res2 p_m3_p 8; Load true r_res3 p_m3_p 10;
    Load true r_m2_1 p_m2_p 2; Load true r_m2_2 p_m2_p 8; Load true r_m2_3 p_m2_p 14;
    Load true r_tmp1 p_m1_p 0; Load true r_tmp2 p_m1_p 2; Load true r_tmp3 p_m1_p 4] ++
   hm_CONJMUL w r_m3_11 r_tmp1 r_m2_1 ++
   [Load true r_tmp1 p_m1_p 6] ++
   hm_CONJMUL w r_m3_12 r_tmp2 r_m2_1 ++
   [Load true r_tmp2 p_m1_p 8] ++
   hm_CONJMUL w r_m3_13 r_tmp3 r_m2_1 ++
   [Load true r_tmp3 p_m1_p 10] ++
   hm_CONJMADD w r_m3_11 r_tmp1 r_m2_2 ++
   [Load true r_tmp1 p_m1_p 12] ++
   hm_CONJMADD w r_m3_12 r_tmp2 r_m2_2 ++
   [Load true r_tmp2 p_m1_p 14] ++
   hm_CONJMADD w r_m3_13 r_tmp3 r_m2_2 ++
   [Load true r_tmp3 p_m1_p 16] ++
   hm_CONJMADD w r_m3_11 r_tmp1 r_m2_3 ++
   hm_CONJMADD w r_m3_12 r_tmp2 r_m2_3 ++
   hm_CONJMADD w r_m3_13 r_tmp3 r_m2_3 ++
   [MulPd r_m3_11 r_scalar r_m3_11; AddPd r_m3_11 r_res1 r_m3_11; MulPd r_m3_12 r_scalar r_m3_12;
    AddPd r_m3_12 r_res2 r_m3_12; MulPd r_m3_13 r_scalar r_m3_13; AddPd r_m3_13 r_res3 r_m3_13;
    Store true p_m3_p 6 r_m3_11; Store true p_m3_p 8 r_m3_12; Store true p_m3_p 10 r_m3_13;
    Load true r_res1 p_m3_p 12; Load true r_res2 p_m3_p 14; Load true r_res3 p_m3_p 16;
    Load true r_m2_1 p_m2_p 4; Load true r_m2_2 p_m2_p 10; Load true r_m2_3 p_m2_p 16;
    Load true r_tmp1 p_m1_p 0; Load true r_tmp2 p_m1_p 2; Load true r_tmp3 p_m1_p 4] ++
   hm_CONJMUL w r_m3_11 r_tmp1 r_m2_1 ++
   [Load true r_tmp1 p_m1_p 6] ++
   hm_CONJMUL w r_m3_12 r_tmp2 r_m2_1 ++
   [Load true r_tmp2 p_m1_p 8] ++
   hm_CONJMUL w r_m3_13 r_tmp3 r_m2_1 ++
   [Load true r_tmp3 p_m1_p 10] ++
   hm_CONJMADD w r_m3_11 r_tmp1 r_m2_2 ++
   [Load true r_tmp1 p_m1_p 12] ++
   hm_CONJMADD w r_m3_12 r_tmp2 r_m2_2 ++
   [Load true r_tmp2 p_m1_p 14] ++
   hm_CONJMADD w r_m3_13 r_tmp3 r_m2_2 ++
   [Load true r_tmp3 p_m1_p 16] ++
   hm_CONJMADD w r_m3_11 r_tmp1 r_m2_3 ++
   hm_CONJMADD w r_m3_12 r_tmp2 r_m2_3 ++
   hm_CONJMADD w r_m3_13 r_tmp3 r_m2_3 ++
   [MulPd r_m3_11 r_scalar r_m3_11; AddPd r_m3_11 r_res1 r_m3_11; MulPd r_m3_12 r_scalar r_m3_12;
    AddPd r_m3_12 r_res2 r_m3_12; MulPd r_m3_13 r_scalar r_m3_13; AddPd r_m3_13 r_res3 r_m3_13;
    Store true p_m3_p 12 r_m3_11; Store true p_m3_p 14 r_m3_12; Store true p_m3_p 16 r_m3_13;
    Bump p_m1_p 18; Bump p_m2_p 18; Bump p_m3_p 18].

(** lib/scalarsite_sse/sse_linalg_m_eq_hm_double.cc 484-647; arguments m3, a, m2, m1, n_mat. *)
Definition ssed_m_peq_ahm (w : isa) : kernel :=
  {| k_pre := [LoadSd r_scalar p_a 0; SetZero r_tmp1; Shuffle r_tmp1 r_scalar r_scalar 1;
        AddPd r_scalar r_scalar r_tmp1; MovePtr p_m1_p p_m1; MovePtr p_m2_p p_m2;
        MovePtr p_m3_p p_m3];
     k_times := fun n => n;
     k_body := fun _ => ssed_m_peq_ahm_loop w;
     k_post := [] |}.

(** the loop of [ssed_m_eq_mh_u], lib/scalarsite_sse/sse_linalg_m_eq_mh_double.cc 81-227, from line 102 *)
Definition ssed_m_eq_mh_u_loop (w : isa) : list instr :=
   [Load false r_m2_1 p_m2_p 0; Load false r_m2_2 p_m2_p 2; Load false r_m2_3 p_m2_p 4;
    Load false r_m1_1 p_m1_p 0; Load false r_m1_2 p_m1_p 2; Load false r_m1_3 p_m1_p 4] ++
   mh_CONJMUL w r_m3_11 r_m2_1 r_m1_1 ++
   [Load false r_m1_1 p_m1_p 6] ++
   mh_CONJMADD w r_m3_11 r_m2_2 r_m1_2 ++
   [Load false r_m1_2 p_m1_p 8] ++
   mh_CONJMADD w r_m3_11 r_m2_3 r_m1_3 ++
   [Load false r_m1_3 p_m1_p 10; Store false p_m3_p 0 r_m3_11] ++
   mh_CONJMUL w r_m3_11 r_m2_1 r_m1_1 ++
   [Load false r_m1_1 p_m1_p 12] ++
   mh_CONJMADD w r_m3_11 r_m2_2 r_m1_2 ++
   [Load false r_m1_2 p_m1_p 14] ++
   mh_CONJMADD w r_m3_11 r_m2_3 r_m1_3 ++
   [Load false r_m1_3 p_m1_p 16; Store false p_m3_p 2 r_m3_11] ++
   mh_CONJMUL w r_m3_11 r_m2_1 r_m1_1 ++
   [Load false r_m2_1 p_m2_p 6] ++
   mh_CONJMADD w r_m3_11 r_m2_2 r_m1_2 ++
   [Load false r_m2_2 p_m2_p 8] ++
   mh_CONJMADD w r_m3_11 r_m2_3 r_m1_3 ++
   [Load false r_m2_3 p_m2_p 10; Store false p_m3_p 4 r_m3_11; Load false r_m1_1 p_m1_p 0;
    Load false r_m1_2 p_m1_p 2; Load false r_m1_3 p_m1_p 4] ++
   mh_CONJMUL w r_m3_11 r_m2_1 r_m1_1 ++
   [Load false r_m1_1 p_m1_p 6] ++
   mh_CONJMADD w r_m3_11 r_m2_2 r_m1_2 ++
   [Load false r_m1_2 p_m1_p 8] ++
   mh_CONJMADD w r_m3_11 r_m2_3 r_m1_3 ++
   [Load false r_m1_3 p_m1_p 10; Store false p_m3_p 6 r_m3_11] ++
   mh_CONJMUL w r_m3_11 r_m2_1 r_m1_1 ++
   [Load false r_m1_1 p_m1_p 12] ++
   mh_CONJMADD w r_m3_11 r_m2_2 r_m1_2 ++
   [Load false r_m1_2 p_m1_p 14] ++
   mh_CONJMADD w r_m3_11 r_m2_3 r_m1_3 ++
   [Load false r_m1_3 p_m1_p 16; Store false p_m3_p 8 r_m3_11] ++
   mh_CONJMUL w r_m3_11 r_m2_1 r_m1_1 ++
   [Load false r_m2_1 p_m2_p 12] ++
   mh_CONJMADD w r_m3_11 r_m2_2 r_m1_2 ++
   [Load false r_m2_2 p_m2_p 14] ++
   mh_CONJMADD w r_m3_11 r_m2_3 r_m1_3 ++
   [Load false r_m2_3 p_m2_p 16; Store false p_m3_p 10 r_m3_11; Load false r_m1_1 p_m1_p 0;
    Load false r_m1_2 p_m1_p 2; Load false r_m1_3 p_m1_p 4] ++
   mh_CONJMUL w r_m3_11 r_m2_1 r_m1_1 ++
   [Load false r_m1_1 p_m1_p 6] ++
   mh_CONJMADD w r_m3_11 r_m2_2 r_m1_2 ++
   [Load false r_m1_2 p_m1_p 8] ++
   mh_CONJMADD w r_m3_11 r_m2_3 r_m1_3 ++
   [Load false r_m1_3 p_m1_p 10; Store false p_m3_p 12 r_m3_11] ++
   mh_CONJMUL w r_m3_11 r_m2_1 r_m1_1 ++
   [Load false r_m1_1 p_m1_p 12] ++
   mh_CONJMADD w r_m3_11 r_m2_2 r_m1_2 ++
   [Load false r_m1_2 p_m1_p 14] ++
   mh_CONJMADD w r_m3_11 r_m2_3 r_m1_3 ++
   [Load false r_m1_3 p_m1_p 16; Store false p_m3_p 14 r_m3_11] ++
   mh_CONJMUL w r_m3_11 r_m2_1 r_m1_1 ++
   mh_CONJMADD w r_m3_11 r_m2_2 r_m1_2 ++
   mh_CONJMADD w r_m3_11 r_m2_3 r_m1_3 ++
   [Store false p_m3_p 16 r_m3_11; Bump p_m1_p 18; Bump p_m2_p 18;
    Bump p_m3_p 18].

(** lib/scalarsite_sse/sse_linalg_m_eq_mh_double.cc 81-227; arguments m3, m2, m1, n_mat. *)
Definition ssed_m_eq_mh_u (w : isa) : kernel :=
  {| k_pre := [MovePtr p_m1_p p_m1; MovePtr p_m2_p p_m2; MovePtr p_m3_p p_m3];
     k_times := fun n => n;
     k_body := fun _ => ssed_m_eq_mh_u_loop w;
     k_post := [] |}.

(** the loop of [ssed_m_peq_amh_u], lib/scalarsite_sse/sse_linalg_m_eq_mh_double.cc 230-408, from line 258 *)
Definition ssed_m_peq_amh_u_loop (w : isa) : list instr :=
   [Load false r_m2_1 p_m2_p 0; MulPd r_m2_1 r_scalar r_m2_1; Load false r_m2_2 p_m2_p 2;
    MulPd r_m2_2 r_scalar r_m2_2; Load false r_m2_3 p_m2_p 4; MulPd r_m2_3 r_scalar r_m2_3;
    Load false r_tmp1 p_m3_p 0; Load false r_m1_1 p_m1_p 0; Load false r_m1_2 p_m1_p 2;
    Load false r_m1_3 p_m1_p 4] ++
   mh_CONJMUL w r_m3_11 r_m2_1 r_m1_1 ++
   [Load false r_m1_1 p_m1_p 6] ++
   mh_CONJMADD w r_m3_11 r_m2_2 r_m1_2 ++
   [Load false r_m1_2 p_m1_p 8] ++
   mh_CONJMADD w r_m3_11 r_m2_3 r_m1_3 ++
   [Load false r_m1_3 p_m1_p 10; AddPd r_tmp1 r_tmp1 r_m3_11; Store false p_m3_p 0 r_tmp1;
    Load false r_tmp2 p_m3_p 2] ++
   mh_CONJMUL w r_m3_11 r_m2_1 r_m1_1 ++
   [Load false r_m1_1 p_m1_p 12] ++
   mh_CONJMADD w r_m3_11 r_m2_2 r_m1_2 ++
   [Load false r_m1_2 p_m1_p 14] ++
   mh_CONJMADD w r_m3_11 r_m2_3 r_m1_3 ++
   [Load false r_m1_3 p_m1_p 16; AddPd r_tmp2 r_tmp2 r_m3_11; Store false p_m3_p 2 r_tmp2;
    Load false r_tmp1 p_m3_p 4] ++
   mh_CONJMUL w r_m3_11 r_m2_1 r_m1_1 ++
   [Load false r_m2_1 p_m2_p 6; MulPd r_m2_1 r_scalar r_m2_1] ++
   mh_CONJMADD w r_m3_11 r_m2_2 r_m1_2 ++
   [Load false r_m2_2 p_m2_p 8; MulPd r_m2_2 r_scalar r_m2_2] ++
   mh_CONJMADD w r_m3_11 r_m2_3 r_m1_3 ++
   [Load false r_m2_3 p_m2_p 10; MulPd r_m2_3 r_scalar r_m2_3; AddPd r_tmp1 r_tmp1 r_m3_11;
    Store false p_m3_p 4 r_tmp1; Load false r_tmp2 p_m3_p 6; Load false r_m1_1 p_m1_p 0;
    Load false r_m1_2 p_m1_p 2; Load false r_m1_3 p_m1_p 4] ++
   mh_CONJMUL w r_m3_11 r_m2_1 r_m1_1 ++
   [Load false r_m1_1 p_m1_p 6] ++
   mh_CONJMADD w r_m3_11 r_m2_2 r_m1_2 ++
   [Load false r_m1_2 p_m1_p 8] ++
   mh_CONJMADD w r_m3_11 r_m2_3 r_m1_3 ++
   [Load false r_m1_3 p_m1_p 10; AddPd r_tmp2 r_tmp2 r_m3_11; Store false p_m3_p 6 r_tmp2;
    Load false r_tmp1 p_m3_p 8] ++
   mh_CONJMUL w r_m3_11 r_m2_1 r_m1_1 ++
   [Load false r_m1_1 p_m1_p 12] ++
   mh_CONJMADD w r_m3_11 r_m2_2 r_m1_2 ++
   [Load false r_m1_2 p_m1_p 14] ++
   mh_CONJMADD w r_m3_11 r_m2_3 r_m1_3 ++
   [Load false r_m1_3 p_m1_p 16; AddPd r_tmp1 r_tmp1 r_m3_11; Store false p_m3_p 8 r_tmp1;
    Load false r_tmp2 p_m3_p 10] ++
   mh_CONJMUL w r_m3_11 r_m2_1 r_m1_1 ++
   [Load false r_m2_1 p_m2_p 12; MulPd r_m2_1 r_scalar r_m2_1] ++
   mh_CONJMADD w r_m3_11 r_m2_2 r_m1_2 ++
   [Load false r_m2_2 p_m2_p 14; MulPd r_m2_2 r_scalar r_m2_2] ++
   mh_CONJMADD w r_m3_11 r_m2_3 r_m1_3 ++
   [Load false r_m2_3 p_m2_p 16; MulPd r_m2_3 r_scalar r_m2_3; AddPd r_tmp2 r_tmp2 r_m3_11;
    Store false p_m3_p 10 r_tmp2; Load false r_tmp1 p_m3_p 12; Load false r_m1_1 p_m1_p 0;
    Load false r_m1_2 p_m1_p 2; Load false r_m1_3 p_m1_p 4] ++
   mh_CONJMUL w r_m3_11 r_m2_1 r_m1_1 ++
   [Load false r_m1_1 p_m1_p 6] ++
   mh_CONJMADD w r_m3_11 r_m2_2 r_m1_2 ++
   [Load false r_m1_2 p_m1_p 8] ++
   mh_CONJMADD w r_m3_11 r_m2_3 r_m1_3 ++
   [Load false r_m1_3 p_m1_p 10; AddPd r_tmp1 r_tmp1 r_m3_11; Store false p_m3_p 12 r_tmp1;
    Load false r_tmp2 p_m3_p 14; Load false r_tmp1 p_m3_p 16] ++
   mh_CONJMUL w r_m3_11 r_m2_1 r_m1_1 ++
   [Load false r_m1_1 p_m1_p 12] ++
   mh_CONJMADD w r_m3_11 r_m2_2 r_m1_2 ++
   [Load false r_m1_2 p_m1_p 14] ++
   mh_CONJMADD w r_m3_11 r_m2_3 r_m1_3 ++
   [Load false r_m1_3 p_m1_p 16; AddPd r_tmp2 r_tmp2 r_m3_11; Store false p_m3_p 14 r_tmp2] ++
   mh_CONJMUL w r_m3_11 r_m2_1 r_m1_1 ++
   mh_CONJMADD w r_m3_11 r_m2_2 r_m1_2 ++
   mh_CONJMADD w r_m3_11 r_m2_3 r_m1_3 ++
   [AddPd r_tmp1 r_tmp1 r_m3_11; Store false p_m3_p 16 r_tmp1; Bump p_m1_p 18;
    Bump p_m2_p 18; Bump p_m3_p 18].

(** lib/scalarsite_sse/sse_linalg_m_eq_mh_double.cc 230-408; arguments m3, a, m2, m1, n_mat. *)
Definition ssed_m_peq_amh_u (w : isa) : kernel :=
  {| k_pre := [LoadSd r_scalar p_a 0; SetZero r_tmp1; Shuffle r_tmp1 r_scalar r_scalar 1;
        AddPd r_scalar r_scalar r_tmp1; MovePtr p_m1_p p_m1; MovePtr p_m2_p p_m2;
        MovePtr p_m3_p p_m3];
     k_times := fun n => n;
     k_body := fun _ => ssed_m_peq_amh_u_loop w;
     k_post := [] |}.

(** the loop of [ssed_m_eq_mh], lib/scalarsite_sse/sse_linalg_m_eq_mh_double.cc 414-560, from line 435 *)
Definition ssed_m_eq_mh_loop (w : isa) : list instr :=
   [Load true r_m2_1 p_m2_p 0; Load true r_m2_2 p_m2_p 2; Load true r_m2_3 p_m2_p 4;
    Load true r_m1_1 p_m1_p 0; Load true r_m1_2 p_m1_p 2; Load true r_m1_3 p_m1_p 4] ++
   mh_CONJMUL w r_m3_11 r_m2_1 r_m1_1 ++
   [Load true r_m1_1 p_m1_p 6] ++
   mh_CONJMADD w r_m3_11 r_m2_2 r_m1_2 ++
   [Load true r_m1_2 p_m1_p 8] ++
   mh_CONJMADD w r_m3_11 r_m2_3 r_m1_3 ++
   [Load true r_m1_3 p_m1_p 10; Store true p_m3_p 0 r_m3_11] ++
   mh_CONJMUL w r_m3_11 r_m2_1 r_m1_1 ++
   [Load true r_m1_1 p_m1_p 12] ++
   mh_CONJMADD w r_m3_11 r_m2_2 r_m1_2 ++
   [Load true r_m1_2 p_m1_p 14] ++
   mh_CONJMADD w r_m3_11 r_m2_3 r_m1_3 ++
   [Load true r_m1_3 p_m1_p 16; Store true p_m3_p 2 r_m3_11] ++
   mh_CONJMUL w r_m3_11 r_m2_1 r_m1_1 ++
   [Load true r_m2_1 p_m2_p 6] ++
   mh_CONJMADD w r_m3_11 r_m2_2 r_m1_2 ++
   [Load true r_m2_2 p_m2_p 8] ++
   mh_CONJMADD w r_m3_11 r_m2_3 r_m1_3 ++
   [Load true r_m2_3 p_m2_p 10; Store true p_m3_p 4 r_m3_11; Load true r_m1_1 p_m1_p 0;
    Load true r_m1_2 p_m1_p 2; Load true r_m1_3 p_m1_p 4] ++
   mh_CONJMUL w r_m3_11 r_m2_1 r_m1_1 ++
   [Load true r_m1_1 p_m1_p 6] ++
   mh_CONJMADD w r_m3_11 r_m2_2 r_m1_2 ++
   [Load true r_m1_2 p_m1_p 8] ++
   mh_CONJMADD w r_m3_11 r_m2_3 r_m1_3 ++
   [Load true r_m1_3 p_m1_p 10; Store true p_m3_p 6 r_m3_11] ++
   mh_CONJMUL w r_m3_11 r_m2_1 r_m1_1 ++
   [Load true r_m1_1 p_m1_p 12] ++
   mh_CONJMADD w r_m3_11 r_m2_2 r_m1_2 ++
   [Load true r_m1_2 p_m1_p 14] ++
   mh_CONJMADD w r_m3_11 r_m2_3 r_m1_3 ++
   [Load true r_m1_3 p_m1_p 16; Store true p_m3_p 8 r_m3_11] ++
   mh_CONJMUL w r_m3_11 r_m2_1 r_m1_1 ++
   [Load true r_m2_1 p_m2_p 12] ++
   mh_CONJMADD w r_m3_11 r_m2_2 r_m1_2 ++
   [Load true r_m2_2 p_m2_p 14] ++
   mh_CONJMADD w r_m3_11 r_m2_3 r_m1_3 ++
   [Load true r_m2_3 p_m2_p 16; Store true p_m3_p 10 r_m3_11; Load true r_m1_1 p_m1_p 0;
    Load true r_m1_2 p_m1_p 2; Load true r_m1_3 p_m1_p 4] ++
   mh_CONJMUL w r_m3_11 r_m2_1 r_m1_1 ++
   [Load true r_m1_1 p_m1_p 6] ++
   mh_CONJMADD w r_m3_11 r_m2_2 r_m1_2 ++
   [Load true r_m1_2 p_m1_p 8] ++
   mh_CONJMADD w r_m3_11 r_m2_3 r_m1_3 ++
   [Load true r_m1_3 p_m1_p 10; Store true p_m3_p 12 r_m3_11] ++
   mh_CONJMUL w r_m3_11 r_m2_1 r_m1_1 ++
   [Load true r_m1_1 p_m1_p 12] ++
   mh_CONJMADD w r_m3_11 r_m2_2 r_m1_2 ++
   [Load true r_m1_2 p_m1_p 14] ++
   mh_CONJMADD w r_m3_11 r_m2_3 r_m1_3 ++
   [Load true r_m1_3 p_m1_p 16; Store true p_m3_p 14 r_m3_11] ++
   mh_CONJMUL w r_m3_11 r_m2_1 r_m1_1 ++
   mh_CONJMADD w r_m3_11 r_m2_2 r_m1_2 ++
   mh_CONJMADD w r_m3_11 r_m2_3 r_m1_3 ++
   [Store true p_m3_p 16 r_m3_11; Bump p_m1_p 18; Bump p_m2_p 18;
    Bump p_m3_p 18].

(** lib/scalarsite_sse/sse_linalg_m_eq_mh_double.cc 414-560; arguments m3, m2, m1, n_mat. *)
Definition ssed_m_eq_mh (w : isa) : kernel :=
  {| k_pre := [MovePtr p_m1_p p_m1; MovePtr p_m2_p p_m2; MovePtr p_m3_p p_m3];
     k_times := fun n => n;
     k_body := fun _ => ssed_m_eq_mh_loop w;
     k_post := [] |}.

(** the loop of [ssed_m_peq_amh], lib/scalarsite_sse/sse_linalg_m_eq_mh_double.cc 563-741, from line 591 *)
Definition ssed_m_peq_amh_loop (w : isa) : list instr :=
   [Load true r_m2_1 p_m2_p 0; MulPd r_m2_1 r_scalar r_m2_1; Load true r_m2_2 p_m2_p 2;
    MulPd r_m2_2 r_scalar r_m2_2; Load true r_m2_3 p_m2_p 4; MulPd r_m2_3 r_scalar r_m2_3;
    Load true r_tmp1 p_m3_p 0; Load true r_m1_1 p_m1_p 0; Load true r_m1_2 p_m1_p 2;
    Load true r_m1_3 p_m1_p 4] ++
   mh_CONJMUL w r_m3_11 r_m2_1 r_m1_1 ++
   [Load true r_m1_1 p_m1_p 6] ++
   mh_CONJMADD w r_m3_11 r_m2_2 r_m1_2 ++
   [Load true r_m1_2 p_m1_p 8] ++
   mh_CONJMADD w r_m3_11 r_m2_3 r_m1_3 ++
   [Load true r_m1_3 p_m1_p 10; AddPd r_tmp1 r_tmp1 r_m3_11; Store true p_m3_p 0 r_tmp1;
    Load true r_tmp2 p_m3_p 2] ++
   mh_CONJMUL w r_m3_11 r_m2_1 r_m1_1 ++
   [Load true r_m1_1 p_m1_p 12] ++
   mh_CONJMADD w r_m3_11 r_m2_2 r_m1_2 ++
   [Load true r_m1_2 p_m1_p 14] ++
   mh_CONJMADD w r_m3_11 r_m2_3 r_m1_3 ++
   [Load true r_m1_3 p_m1_p 16; AddPd r_tmp2 r_tmp2 r_m3_11; Store true p_m3_p 2 r_tmp2;
    Load true r_tmp1 p_m3_p 4] ++
   mh_CONJMUL w r_m3_11 r_m2_1 r_m1_1 ++
   [Load true r_m2_1 p_m2_p 6; MulPd r_m2_1 r_scalar r_m2_1] ++
   mh_CONJMADD w r_m3_11 r_m2_2 r_m1_2 ++
   [Load true r_m2_2 p_m2_p 8; MulPd r_m2_2 r_scalar r_m2_2] ++
   mh_CONJMADD w r_m3_11 r_m2_3 r_m1_3 ++
   [Load true r_m2_3 p_m2_p 10; MulPd r_m2_3 r_scalar r_m2_3; AddPd r_tmp1 r_tmp1 r_m3_11;
    Store true p_m3_p 4 r_tmp1; Load true r_tmp2 p_m3_p 6; Load true r_m1_1 p_m1_p 0;
    Load true r_m1_2 p_m1_p 2; Load true r_m1_3 p_m1_p 4] ++
   mh_CONJMUL w r_m3_11 r_m2_1 r_m1_1 ++
   [Load true r_m1_1 p_m1_p 6] ++
   mh_CONJMADD w r_m3_11 r_m2_2 r_m1_2 ++
   [Load true r_m1_2 p_m1_p 8] ++
   mh_CONJMADD w r_m3_11 r_m2_3 r_m1_3 ++
   [Load true r_m1_3 p_m1_p 10; AddPd r_tmp2 r_tmp2 r_m3_11; Store true p_m3_p 6 r_tmp2;
    Load true r_tmp1 p_m3_p 8] ++
   mh_CONJMUL w r_m3_11 r_m2_1 r_m1_1 ++
   [Load true r_m1_1 p_m1_p 12] ++
   mh_CONJMADD w r_m3_11 r_m2_2 r_m1_2 ++
   [Load true r_m1_2 p_m1_p 14] ++
   mh_CONJMADD w r_m3_11 r_m2_3 r_m1_3 ++
   [Load true r_m1_3 p_m1_p 16; AddPd r_tmp1 r_tmp1 r_m3_11; Store true p_m3_p 8 r_tmp1;
    Load true r_tmp2 p_m3_p 10] ++
   mh_CONJMUL w r_m3_11 r_m2_1 r_m1_1 ++
   [Load true r_m2_1 p_m2_p 12; MulPd r_m2_1 r_scalar r_m2_1] ++
   mh_CONJMADD w r_m3_11 r_m2_2 r_m1_2 ++
   [Load true r_m2_2 p_m2_p 14; MulPd r_m2_2 r_scalar r_m2_2] ++
   mh_CONJMADD w r_m3_11 r_m2_3 r_m1_3 ++
   [Load true r_m2_3 p_m2_p 16; MulPd r_m2_3 r_scalar r_m2_3; AddPd r_tmp2 r_tmp2 r_m3_11;
    Store true p_m3_p 10 r_tmp2; Load true r_tmp1 p_m3_p 12; Load true r_m1_1 p_m1_p 0;
    Load true r_m1_2 p_m1_p 2; Load true r_m1_3 p_m1_p 4] ++
   mh_CONJMUL w r_m3_11 r_m2_1 r_m1_1 ++
   [Load true r_m1_1 p_m1_p 6] ++
   mh_CONJMADD w r_m3_11 r_m2_2 r_m1_2 ++
   [Load true r_m1_2 p_m1_p 8] ++
   mh_CONJMADD w r_m3_11 r_m2_3 r_m1_3 ++
   [Load true r_m1_3 p_m1_p 10; AddPd r_tmp1 r_tmp1 r_m3_11; Store true p_m3_p 12 r_tmp1;
    Load true r_tmp2 p_m3_p 14; Load true r_tmp1 p_m3_p 16] ++
   mh_CONJMUL w r_m3_11 r_m2_1 r_m1_1 ++
   [Load true r_m1_1 p_m1_p 12] ++
   mh_CONJMADD w r_m3_11 r_m2_2 r_m1_2 ++
   [Load true r_m1_2 p_m1_p 14] ++
   mh_CONJMADD w r_m3_11 r_m2_3 r_m1_3 ++
   [Load true r_m1_3 p_m1_p 16; AddPd r_tmp2 r_tmp2 r_m3_11; Store true p_m3_p 14 r_tmp2] ++
   mh_CONJMUL w r_m3_11 r_m2_1 r_m1_1 ++
   mh_CONJMADD w r_m3_11 r_m2_2 r_m1_2 ++
   mh_CONJMADD w r_m3_11 r_m2_3 r_m1_3 ++
   [AddPd r_tmp1 r_tmp1 r_m3_11; Store true p_m3_p 16 r_tmp1; Bump p_m1_p 18;
    Bump p_m2_p 18; Bump p_m3_p 18].

(** lib/scalarsite_sse/sse_linalg_m_eq_mh_double.cc 563-741; arguments m3, a, m2, m1, n_mat. *)
Definition ssed_m_peq_amh (w : isa) : kernel :=
  {| k_pre := [LoadSd r_scalar p_a 0; SetZero r_tmp1; Shuffle r_tmp1 r_scalar r_scalar 1;
        AddPd r_scalar r_scalar r_tmp1; MovePtr p_m1_p p_m1; MovePtr p_m2_p p_m2;
        MovePtr p_m3_p p_m3];
     k_times := fun n => n;
     k_body := fun _ => ssed_m_peq_amh_loop w;
     k_post := [] |}.

(** the loop of [ssed_m_eq_mm], lib/scalarsite_sse/sse_linalg_m_eq_mm_double.cc 82-200, from line 105 *)
Definition ssed_m_eq_mm_loop (w : isa) : list instr :=
   [Load true r_m2_1 p_m2_p 0; Load true r_m1_1 p_m1_p 0; Load true r_m1_2 p_m1_p 2;
    Load true r_m1_3 p_m1_p 4] ++
   mm_CMUL w r_m3_11 r_m2_1 r_m1_1 ++
   mm_CMUL w r_m3_12 r_m2_1 r_m1_2 ++
   mm_CMUL w r_m3_13 r_m2_1 r_m1_3 ++
   [Load true r_m2_1 p_m2_p 2; Load true r_m1_1 p_m1_p 6; Load true r_m1_2 p_m1_p 8;
    Load true r_m1_3 p_m1_p 10] ++
   mm_CMADD w r_m3_11 r_m2_1 r_m1_1 ++
   mm_CMADD w r_m3_12 r_m2_1 r_m1_2 ++
   mm_CMADD w r_m3_13 r_m2_1 r_m1_3 ++
   [Load true r_m2_1 p_m2_p 4; Load true r_m1_1 p_m1_p 12; Load true r_m1_2 p_m1_p 14;
    Load true r_m1_3 p_m1_p 16] ++
   mm_CMADD w r_m3_11 r_m2_1 r_m1_1 ++
   [Store true p_m3_p 0 r_m3_11] ++
   mm_CMADD w r_m3_12 r_m2_1 r_m1_2 ++
   [Store true p_m3_p 2 r_m3_12] ++
   mm_CMADD w r_m3_13 r_m2_1 r_m1_3 ++
   [Store true p_m3_p 4 r_m3_13; Load true r_m2_2 p_m2_p 6; Load true r_m2_1 p_m2_p 12;
    Load true r_m1_1 p_m1_p 0; Load true r_m1_2 p_m1_p 2; Load true r_m1_3 p_m1_p 4] ++
   mm_CMUL w r_m3_21 r_m2_2 r_m1_1 ++
   mm_CMUL w r_m3_22 r_m2_2 r_m1_2 ++
   mm_CMUL w r_m3_23 r_m2_2 r_m1_3 ++
   mm_CMUL w r_m3_11 r_m2_1 r_m1_1 ++
   mm_CMUL w r_m3_12 r_m2_1 r_m1_2 ++
   mm_CMUL w r_m3_13 r_m2_1 r_m1_3 ++
   [Load true r_m2_2 p_m2_p 8; Load true r_m2_1 p_m2_p 14; Load true r_m1_1 p_m1_p 6;
    Load true r_m1_2 p_m1_p 8; Load true r_m1_3 p_m1_p 10] ++
   mm_CMADD w r_m3_21 r_m2_2 r_m1_1 ++
   mm_CMADD w r_m3_22 r_m2_2 r_m1_2 ++
   mm_CMADD w r_m3_23 r_m2_2 r_m1_3 ++
   mm_CMADD w r_m3_11 r_m2_1 r_m1_1 ++
   mm_CMADD w r_m3_12 r_m2_1 r_m1_2 ++
   mm_CMADD w r_m3_13 r_m2_1 r_m1_3 ++
   [Load true r_m2_2 p_m2_p 10; Load true r_m2_1 p_m2_p 16; Load true r_m1_1 p_m1_p 12;
    Load true r_m1_2 p_m1_p 14; Load true r_m1_3 p_m1_p 16] ++
   mm_CMADD w r_m3_21 r_m2_2 r_m1_1 ++
   [Store true p_m3_p 6 r_m3_21] ++
   mm_CMADD w r_m3_22 r_m2_2 r_m1_2 ++
   [Store true p_m3_p 8 r_m3_22] ++
   mm_CMADD w r_m3_23 r_m2_2 r_m1_3 ++
   [Store true p_m3_p 10 r_m3_23] ++
   mm_CMADD w r_m3_11 r_m2_1 r_m1_1 ++
   [Store true p_m3_p 12 r_m3_11] ++
   mm_CMADD w r_m3_12 r_m2_1 r_m1_2 ++
   [Store true p_m3_p 14 r_m3_12] ++
   mm_CMADD w r_m3_13 r_m2_1 r_m1_3 ++
   [Store true p_m3_p 16 r_m3_13; Bump p_m1_p 18; Bump p_m2_p 18;
    Bump p_m3_p 18].

(** lib/scalarsite_sse/sse_linalg_m_eq_mm_double.cc 82-200; arguments m3, m2, m1, n_mat. *)
Definition ssed_m_eq_mm (w : isa) : kernel :=
  {| k_pre := [MovePtr p_m1_p p_m1; MovePtr p_m2_p p_m2; MovePtr p_m3_p p_m3];
     k_times := fun n => n;
     k_body := fun _ => ssed_m_eq_mm_loop w;
     k_post := [] |}.

(** the loop of [ssed_m_peq_amm], lib/scalarsite_sse/sse_linalg_m_eq_mm_double.cc 203-364, from line 238 *)
Definition ssed_m_peq_amm_loop (w : isa) : list instr :=
   [Load true r_m3_11 p_m3_p 0; Load true r_m3_12 p_m3_p 2; Load true r_m3_13 p_m3_p 4;
    Load true r_m2_1 p_m2_p 0; MulPd r_m2_1 r_m2_1 r_scalar; Load true r_m1_1 p_m1_p 0;
    Load true r_m1_2 p_m1_p 2; Load true r_m1_3 p_m1_p 4] ++
   mm_CMADD w r_m3_11 r_m2_1 r_m1_1 ++
   mm_CMADD w r_m3_12 r_m2_1 r_m1_2 ++
   mm_CMADD w r_m3_13 r_m2_1 r_m1_3 ++
   [Load true r_m2_1 p_m2_p 2; MulPd r_m2_1 r_m2_1 r_scalar; Load true r_m1_1 p_m1_p 6;
    Load true r_m1_2 p_m1_p 8; Load true r_m1_3 p_m1_p 10] ++
   mm_CMADD w r_m3_11 r_m2_1 r_m1_1 ++
   mm_CMADD w r_m3_12 r_m2_1 r_m1_2 ++
   mm_CMADD w r_m3_13 r_m2_1 r_m1_3 ++
   [Load true r_m2_1 p_m2_p 4; MulPd r_m2_1 r_m2_1 r_scalar; Load true r_m1_1 p_m1_p 12;
    Load true r_m1_2 p_m1_p 14; Load true r_m1_3 p_m1_p 16] ++
   mm_CMADD w r_m3_11 r_m2_1 r_m1_1 ++
   [Store true p_m3_p 0 r_m3_11] ++
   mm_CMADD w r_m3_12 r_m2_1 r_m1_2 ++
   [Store true p_m3_p 2 r_m3_12] ++
   mm_CMADD w r_m3_13 r_m2_1 r_m1_3 ++
   [Store true p_m3_p 4 r_m3_13; Load true r_m3_21 p_m3_p 6; Load true r_m3_22 p_m3_p 8;
    Load true r_m3_23 p_m3_p 10; Load true r_m3_11 p_m3_p 12; Load true r_m3_12 p_m3_p 14;
    Load true r_m3_13 p_m3_p 16; Load true r_m2_2 p_m2_p 6; MulPd r_m2_2 r_m2_2 r_scalar;
    Load true r_m2_1 p_m2_p 12; MulPd r_m2_1 r_m2_1 r_scalar; Load true r_m1_1 p_m1_p 0;
    Load true r_m1_2 p_m1_p 2; Load true r_m1_3 p_m1_p 4] ++
   mm_CMADD w r_m3_21 r_m2_2 r_m1_1 ++
   mm_CMADD w r_m3_22 r_m2_2 r_m1_2 ++
   mm_CMADD w r_m3_23 r_m2_2 r_m1_3 ++
   mm_CMADD w r_m3_11 r_m2_1 r_m1_1 ++
   mm_CMADD w r_m3_12 r_m2_1 r_m1_2 ++
   mm_CMADD w r_m3_13 r_m2_1 r_m1_3 ++
   [Load true r_m2_2 p_m2_p 8; MulPd r_m2_2 r_m2_2 r_scalar; Load true r_m2_1 p_m2_p 14;
    MulPd r_m2_1 r_m2_1 r_scalar; Load true r_m1_1 p_m1_p 6; Load true r_m1_2 p_m1_p 8;
    Load true r_m1_3 p_m1_p 10] ++
   mm_CMADD w r_m3_21 r_m2_2 r_m1_1 ++
   mm_CMADD w r_m3_22 r_m2_2 r_m1_2 ++
   mm_CMADD w r_m3_23 r_m2_2 r_m1_3 ++
   mm_CMADD w r_m3_11 r_m2_1 r_m1_1 ++
   mm_CMADD w r_m3_12 r_m2_1 r_m1_2 ++
   mm_CMADD w r_m3_13 r_m2_1 r_m1_3 ++
   [Load true r_m2_2 p_m2_p 10; MulPd r_m2_2 r_m2_2 r_scalar; Load true r_m2_1 p_m2_p 16;
    MulPd r_m2_1 r_m2_1 r_scalar; Load true r_m1_1 p_m1_p 12; Load true r_m1_2 p_m1_p 14;
    Load true r_m1_3 p_m1_p 16] ++
   mm_CMADD w r_m3_21 r_m2_2 r_m1_1 ++
   [Store true p_m3_p 6 r_m3_21] ++
   mm_CMADD w r_m3_22 r_m2_2 r_m1_2 ++
   [Store true p_m3_p 8 r_m3_22] ++
   mm_CMADD w r_m3_23 r_m2_2 r_m1_3 ++
   [Store true p_m3_p 10 r_m3_23] ++
   mm_CMADD w r_m3_11 r_m2_1 r_m1_1 ++
   [Store true p_m3_p 12 r_m3_11] ++
   mm_CMADD w r_m3_12 r_m2_1 r_m1_2 ++
   [Store true p_m3_p 14 r_m3_12] ++
   mm_CMADD w r_m3_13 r_m2_1 r_m1_3 ++
   [Store true p_m3_p 16 r_m3_13; Bump p_m1_p 18; Bump p_m2_p 18;
    Bump p_m3_p 18].

(** lib/scalarsite_sse/sse_linalg_m_eq_mm_double.cc 203-364; arguments m3, a, m2, m1, n_mat. *)
Definition ssed_m_peq_amm (w : isa) : kernel :=
  {| k_pre := [LoadSd r_scalar p_a 0; SetZero r_tmp1; Shuffle r_tmp1 r_scalar r_scalar 1;
        AddPd r_scalar r_scalar r_tmp1; MovePtr p_m1_p p_m1; MovePtr p_m2_p p_m2;
        MovePtr p_m3_p p_m3];
     k_times := fun n => n;
     k_body := fun _ => ssed_m_peq_amm_loop w;
     k_post := [] |}.

(** the loop of [ssed_m_eq_mm_u], lib/scalarsite_sse/sse_linalg_m_eq_mm_double.cc 372-490, from line 395 *)
Definition ssed_m_eq_mm_u_loop (w : isa) : list instr :=
   [Load false r_m2_1 p_m2_p 0; Load false r_m1_1 p_m1_p 0; Load false r_m1_2 p_m1_p 2;
    Load false r_m1_3 p_m1_p 4] ++
   mm_CMUL w r_m3_11 r_m2_1 r_m1_1 ++
   mm_CMUL w r_m3_12 r_m2_1 r_m1_2 ++
   mm_CMUL w r_m3_13 r_m2_1 r_m1_3 ++
   [Load false r_m2_1 p_m2_p 2; Load false r_m1_1 p_m1_p 6; Load false r_m1_2 p_m1_p 8;
    Load false r_m1_3 p_m1_p 10] ++
   mm_CMADD w r_m3_11 r_m2_1 r_m1_1 ++
   mm_CMADD w r_m3_12 r_m2_1 r_m1_2 ++
   mm_CMADD w r_m3_13 r_m2_1 r_m1_3 ++
   [Load false r_m2_1 p_m2_p 4; Load false r_m1_1 p_m1_p 12; Load false r_m1_2 p_m1_p 14;
    Load false r_m1_3 p_m1_p 16] ++
   mm_CMADD w r_m3_11 r_m2_1 r_m1_1 ++
   [Store false p_m3_p 0 r_m3_11] ++
   mm_CMADD w r_m3_12 r_m2_1 r_m1_2 ++
   [Store false p_m3_p 2 r_m3_12] ++
   mm_CMADD w r_m3_13 r_m2_1 r_m1_3 ++
   [Store false p_m3_p 4 r_m3_13; Load false r_m2_2 p_m2_p 6; Load false r_m2_1 p_m2_p 12;
    Load false r_m1_1 p_m1_p 0; Load false r_m1_2 p_m1_p 2; Load false r_m1_3 p_m1_p 4] ++
   mm_CMUL w r_m3_21 r_m2_2 r_m1_1 ++
   mm_CMUL w r_m3_22 r_m2_2 r_m1_2 ++
   mm_CMUL w r_m3_23 r_m2_2 r_m1_3 ++
   mm_CMUL w r_m3_11 r_m2_1 r_m1_1 ++
   mm_CMUL w r_m3_12 r_m2_1 r_m1_2 ++
   mm_CMUL w r_m3_13 r_m2_1 r_m1_3 ++
   [Load false r_m2_2 p_m2_p 8; Load false r_m2_1 p_m2_p 14; Load false r_m1_1 p_m1_p 6;
    Load false r_m1_2 p_m1_p 8; Load false r_m1_3 p_m1_p 10] ++
   mm_CMADD w r_m3_21 r_m2_2 r_m1_1 ++
   mm_CMADD w r_m3_22 r_m2_2 r_m1_2 ++
   mm_CMADD w r_m3_23 r_m2_2 r_m1_3 ++
   mm_CMADD w r_m3_11 r_m2_1 r_m1_1 ++
   mm_CMADD w r_m3_12 r_m2_1 r_m1_2 ++
   mm_CMADD w r_m3_13 r_m2_1 r_m1_3 ++
   [Load false r_m2_2 p_m2_p 10; Load false r_m2_1 p_m2_p 16; Load false r_m1_1 p_m1_p 12;
    Load false r_m1_2 p_m1_p 14; Load false r_m1_3 p_m1_p 16] ++
   mm_CMADD w r_m3_21 r_m2_2 r_m1_1 ++
   [Store false p_m3_p 6 r_m3_21] ++
   mm_CMADD w r_m3_22 r_m2_2 r_m1_2 ++
   [Store false p_m3_p 8 r_m3_22] ++
   mm_CMADD w r_m3_23 r_m2_2 r_m1_3 ++
   [Store false p_m3_p 10 r_m3_23] ++
   mm_CMADD w r_m3_11 r_m2_1 r_m1_1 ++
   [Store false p_m3_p 12 r_m3_11] ++
   mm_CMADD w r_m3_12 r_m2_1 r_m1_2 ++
   [Store false p_m3_p 14 r_m3_12] ++
   mm_CMADD w r_m3_13 r_m2_1 r_m1_3 ++
   [Store false p_m3_p 16 r_m3_13; Bump p_m1_p 18; Bump p_m2_p 18;
    Bump p_m3_p 18].

(** lib/scalarsite_sse/sse_linalg_m_eq_mm_double.cc 372-490; arguments m3, m2, m1, n_mat. *)
Definition ssed_m_eq_mm_u (w : isa) : kernel :=
  {| k_pre := [MovePtr p_m1_p p_m1; MovePtr p_m2_p p_m2; MovePtr p_m3_p p_m3];
     k_times := fun n => n;
     k_body := fun _ => ssed_m_eq_mm_u_loop w;
     k_post := [] |}.

(** the loop of [ssed_m_peq_amm_u], lib/scalarsite_sse/sse_linalg_m_eq_mm_double.cc 493-654, from line 528 *)
Definition ssed_m_peq_amm_u_loop (w : isa) : list instr :=
   [Load false r_m3_11 p_m3_p 0; Load false r_m3_12 p_m3_p 2; Load false r_m3_13 p_m3_p 4;
    Load false r_m2_1 p_m2_p 0; MulPd r_m2_1 r_m2_1 r_scalar; Load false r_m1_1 p_m1_p 0;
    Load false r_m1_2 p_m1_p 2; Load false r_m1_3 p_m1_p 4] ++
   mm_CMADD w r_m3_11 r_m2_1 r_m1_1 ++
   mm_CMADD w r_m3_12 r_m2_1 r_m1_2 ++
   mm_CMADD w r_m3_13 r_m2_1 r_m1_3 ++
   [Load false r_m2_1 p_m2_p 2; MulPd r_m2_1 r_m2_1 r_scalar; Load false r_m1_1 p_m1_p 6;
    Load false r_m1_2 p_m1_p 8; Load false r_m1_3 p_m1_p 10] ++
   mm_CMADD w r_m3_11 r_m2_1 r_m1_1 ++
   mm_CMADD w r_m3_12 r_m2_1 r_m1_2 ++
   mm_CMADD w r_m3_13 r_m2_1 r_m1_3 ++
   [Load false r_m2_1 p_m2_p 4; MulPd r_m2_1 r_m2_1 r_scalar; Load false r_m1_1 p_m1_p 12;
    Load false r_m1_2 p_m1_p 14; Load false r_m1_3 p_m1_p 16] ++
   mm_CMADD w r_m3_11 r_m2_1 r_m1_1 ++
   [Store false p_m3_p 0 r_m3_11] ++
   mm_CMADD w r_m3_12 r_m2_1 r_m1_2 ++
   [Store false p_m3_p 2 r_m3_12] ++
   mm_CMADD w r_m3_13 r_m2_1 r_m1_3 ++
   [Store false p_m3_p 4 r_m3_13; Load false r_m3_21 p_m3_p 6; Load false r_m3_22 p_m3_p 8;
    Load false r_m3_23 p_m3_p 10; Load false r_m3_11 p_m3_p 12; Load false r_m3_12 p_m3_p 14;
    Load false r_m3_13 p_m3_p 16; Load false r_m2_2 p_m2_p 6; MulPd r_m2_2 r_m2_2 r_scalar;
    Load false r_m2_1 p_m2_p 12; MulPd r_m2_1 r_m2_1 r_scalar; Load false r_m1_1 p_m1_p 0;
    Load false r_m1_2 p_m1_p 2; Load false r_m1_3 p_m1_p 4] ++
   mm_CMADD w r_m3_21 r_m2_2 r_m1_1 ++
   mm_CMADD w r_m3_22 r_m2_2 r_m1_2 ++
   mm_CMADD w r_m3_23 r_m2_2 r_m1_3 ++
   mm_CMADD w r_m3_11 r_m2_1 r_m1_1 ++
   mm_CMADD w r_m3_12 r_m2_1 r_m1_2 ++
   mm_CMADD w r_m3_13 r_m2_1 r_m1_3 ++
   [Load false r_m2_2 p_m2_p 8; MulPd r_m2_2 r_m2_2 r_scalar; Load false r_m2_1 p_m2_p 14;
    MulPd r_m2_1 r_m2_1 r_scalar; Load false r_m1_1 p_m1_p 6; Load false r_m1_2 p_m1_p 8;
    Load false r_m1_3 p_m1_p 10] ++
   mm_CMADD w r_m3_21 r_m2_2 r_m1_1 ++
   mm_CMADD w r_m3_22 r_m2_2 r_m1_2 ++
   mm_CMADD w r_m3_23 r_m2_2 r_m1_3 ++
   mm_CMADD w r_m3_11 r_m2_1 r_m1_1 ++
   mm_CMADD w r_m3_12 r_m2_1 r_m1_2 ++
   mm_CMADD w r_m3_13 r_m2_1 r_m1_3 ++
   [Load false r_m2_2 p_m2_p 10; MulPd r_m2_2 r_m2_2 r_scalar; Load false r_m2_1 p_m2_p 16;
    MulPd r_m2_1 r_m2_1 r_scalar; Load false r_m1_1 p_m1_p 12; Load false r_m1_2 p_m1_p 14;
    Load false r_m1_3 p_m1_p 16] ++
   mm_CMADD w r_m3_21 r_m2_2 r_m1_1 ++
   [Store false p_m3_p 6 r_m3_21] ++
   mm_CMADD w r_m3_22 r_m2_2 r_m1_2 ++
   [Store false p_m3_p 8 r_m3_22] ++
   mm_CMADD w r_m3_23 r_m2_2 r_m1_3 ++
   [Store false p_m3_p 10 r_m3_23] ++
   mm_CMADD w r_m3_11 r_m2_1 r_m1_1 ++
   [Store false p_m3_p 12 r_m3_11] ++
   mm_CMADD w r_m3_12 r_m2_1 r_m1_2 ++
   [Store false p_m3_p 14 r_m3_12] ++
   mm_CMADD w r_m3_13 r_m2_1 r_m1_3 ++
   [Store false p_m3_p 16 r_m3_13; Bump p_m1_p 18; Bump p_m2_p 18;
    Bump p_m3_p 18].

(** lib/scalarsite_sse/sse_linalg_m_eq_mm_double.cc 493-654; arguments m3, a, m2, m1, n_mat. *)
Definition ssed_m_peq_amm_u (w : isa) : kernel :=
  {| k_pre := [LoadSd r_scalar p_a 0; SetZero r_tmp1; Shuffle r_tmp1 r_scalar r_scalar 1;
        AddPd r_scalar r_scalar r_tmp1; MovePtr p_m1_p p_m1; MovePtr p_m2_p p_m2;
        MovePtr p_m3_p p_m3];
     k_times := fun n => n;
     k_body := fun _ => ssed_m_peq_amm_u_loop w;
     k_post := [] |}.

(** the loop of [ssed_m_eq_scal_m], lib/scalarsite_sse/sse_linalg_m_eq_scal_m_double.cc 14-86, from line 46 *)
Definition ssed_m_eq_scal_m_loop : list instr :=
   [Load false r_tmp1 p_m1_p 0; MulPd r_tmp2 r_scalar r_tmp1; Store false p_m2_p 0 r_tmp2;
    Load false r_tmp3 p_m1_p 2; MulPd r_tmp4 r_scalar r_tmp3; Store false p_m2_p 2 r_tmp4;
    Load false r_tmp5 p_m1_p 4; MulPd r_tmp6 r_scalar r_tmp5; Store false p_m2_p 4 r_tmp6;
    Load false r_tmp7 p_m1_p 6; MulPd r_tmp8 r_scalar r_tmp7; Store false p_m2_p 6 r_tmp8;
    Load false r_tmp9 p_m1_p 8; MulPd r_tmp10 r_scalar r_tmp9; Store false p_m2_p 8 r_tmp10;
    Load false r_tmp11 p_m1_p 10; MulPd r_tmp12 r_scalar r_tmp11; Store false p_m2_p 10 r_tmp12;
    Load false r_tmp13 p_m1_p 12; MulPd r_tmp14 r_scalar r_tmp13; Store false p_m2_p 12 r_tmp14;
    Load false r_tmp15 p_m1_p 14; MulPd r_tmp4 r_scalar r_tmp15; Store false p_m2_p 14 r_tmp4;
    Load false r_tmp5 p_m1_p 16; MulPd r_tmp6 r_scalar r_tmp5; Store false p_m2_p 16 r_tmp6;
    Bump p_m1_p 18; Bump p_m2_p 18].

(** lib/scalarsite_sse/sse_linalg_m_eq_scal_m_double.cc 14-86; arguments m2, a, m1, n_mat. *)
Definition ssed_m_eq_scal_m : kernel :=
  {| k_pre := [LoadSd r_scalar p_a 0; SetZero r_tmp1; Shuffle r_tmp1 r_scalar r_scalar 1;
        AddPd r_scalar r_scalar r_tmp1; MovePtr p_m1_p p_m1; MovePtr p_m2_p p_m2];
     k_times := fun n => n;
     k_body := fun _ => ssed_m_eq_scal_m_loop;
     k_post := [] |}.

(** the loop of [ssed_m_muleq_scal], lib/scalarsite_sse/sse_linalg_m_eq_scal_m_double.cc 89-160, from line 120 *)
Definition ssed_m_muleq_scal_loop : list instr :=
   [Load false r_tmp1 p_m1_p 0; MulPd r_tmp2 r_scalar r_tmp1; Store false p_m1_p 0 r_tmp2;
    Load false r_tmp3 p_m1_p 2; MulPd r_tmp4 r_scalar r_tmp3; Store false p_m1_p 2 r_tmp4;
    Load false r_tmp5 p_m1_p 4; MulPd r_tmp6 r_scalar r_tmp5; Store false p_m1_p 4 r_tmp6;
    Load false r_tmp7 p_m1_p 6; MulPd r_tmp8 r_scalar r_tmp7; Store false p_m1_p 6 r_tmp8;
    Load false r_tmp9 p_m1_p 8; MulPd r_tmp10 r_scalar r_tmp9; Store false p_m1_p 8 r_tmp10;
    Load false r_tmp11 p_m1_p 10; MulPd r_tmp12 r_scalar r_tmp11; Store false p_m1_p 10 r_tmp12;
    Load false r_tmp13 p_m1_p 12; MulPd r_tmp14 r_scalar r_tmp13; Store false p_m1_p 12 r_tmp14;
    Load false r_tmp15 p_m1_p 14; MulPd r_tmp4 r_scalar r_tmp15; Store false p_m1_p 14 r_tmp4;
    Load false r_tmp5 p_m1_p 16; MulPd r_tmp6 r_scalar r_tmp5; Store false p_m1_p 16 r_tmp6;
    Bump p_m1_p 18].

(** lib/scalarsite_sse/sse_linalg_m_eq_scal_m_double.cc 89-160; arguments m, a, n_mat. *)
Definition ssed_m_muleq_scal : kernel :=
  {| k_pre := [LoadSd r_scalar p_a 0; SetZero r_tmp1; Shuffle r_tmp1 r_scalar r_scalar 1;
        AddPd r_scalar r_scalar r_tmp1; MovePtr p_m1_p p_m];
     k_times := fun n => n;
     k_body := fun _ => ssed_m_muleq_scal_loop;
     k_post := [] |}.

(** the loop of [ssed_m_peq_m], lib/scalarsite_sse/sse_linalg_m_peq_m_double.cc 20-92, from line 43 *)
Definition ssed_m_peq_m_loop : list instr :=
   [Load false r_tmp1 p_m1_p 0; Load false r_tmp2 p_m2_p 0; AddPd r_tmp3 r_tmp1 r_tmp2;
    Store false p_m2_p 0 r_tmp3; Load false r_tmp4 p_m1_p 2; Load false r_tmp5 p_m2_p 2;
    AddPd r_tmp6 r_tmp4 r_tmp5; Store false p_m2_p 2 r_tmp6; Load false r_tmp7 p_m1_p 4;
    Load false r_tmp8 p_m2_p 4; AddPd r_tmp9 r_tmp7 r_tmp8; Store false p_m2_p 4 r_tmp9;
    Load false r_tmp10 p_m1_p 6; Load false r_tmp11 p_m2_p 6; AddPd r_tmp12 r_tmp10 r_tmp11;
    Store false p_m2_p 6 r_tmp12; Load false r_tmp13 p_m1_p 8; Load false r_tmp14 p_m2_p 8;
    AddPd r_tmp15 r_tmp13 r_tmp14; Store false p_m2_p 8 r_tmp15; Load false r_tmp1 p_m1_p 10;
    Load false r_tmp2 p_m2_p 10; AddPd r_tmp3 r_tmp1 r_tmp2; Store false p_m2_p 10 r_tmp3;
    Load false r_tmp4 p_m1_p 12; Load false r_tmp5 p_m2_p 12; AddPd r_tmp6 r_tmp4 r_tmp5;
    Store false p_m2_p 12 r_tmp6; Load false r_tmp7 p_m1_p 14; Load false r_tmp8 p_m2_p 14;
    AddPd r_tmp9 r_tmp7 r_tmp8; Store false p_m2_p 14 r_tmp9; Load false r_tmp10 p_m1_p 16;
    Load false r_tmp11 p_m2_p 16; AddPd r_tmp12 r_tmp10 r_tmp11; Store false p_m2_p 16 r_tmp12;
    Bump p_m1_p 18; Bump p_m2_p 18].

(** lib/scalarsite_sse/sse_linalg_m_peq_m_double.cc 20-92; arguments m2, m1, n_mat. *)
Definition ssed_m_peq_m : kernel :=
  {| k_pre := [MovePtr p_m1_p p_m1; MovePtr p_m2_p p_m2];
     k_times := fun n => n;
     k_body := fun _ => ssed_m_peq_m_loop;
     k_post := [] |}.

(** the loop of [ssed_m_meq_m], lib/scalarsite_sse/sse_linalg_m_peq_m_double.cc 95-165, from line 117 *)
Definition ssed_m_meq_m_loop : list instr :=
   [Load false r_tmp1 p_m1_p 0; Load false r_tmp2 p_m2_p 0; SubPd r_tmp3 r_tmp2 r_tmp1;
    Store false p_m2_p 0 r_tmp3; Load false r_tmp4 p_m1_p 2; Load false r_tmp5 p_m2_p 2;
    SubPd r_tmp6 r_tmp5 r_tmp4; Store false p_m2_p 2 r_tmp6; Load false r_tmp7 p_m1_p 4;
    Load false r_tmp8 p_m2_p 4; SubPd r_tmp9 r_tmp8 r_tmp7; Store false p_m2_p 4 r_tmp9;
    Load false r_tmp10 p_m1_p 6; Load false r_tmp11 p_m2_p 6; SubPd r_tmp12 r_tmp11 r_tmp10;
    Store false p_m2_p 6 r_tmp12; Load false r_tmp13 p_m1_p 8; Load false r_tmp14 p_m2_p 8;
    SubPd r_tmp15 r_tmp14 r_tmp13; Store false p_m2_p 8 r_tmp15; Load false r_tmp1 p_m1_p 10;
    Load false r_tmp2 p_m2_p 10; SubPd r_tmp3 r_tmp2 r_tmp1; Store false p_m2_p 10 r_tmp3;
    Load false r_tmp4 p_m1_p 12; Load false r_tmp5 p_m2_p 12; SubPd r_tmp6 r_tmp5 r_tmp4;
    Store false p_m2_p 12 r_tmp6; Load false r_tmp7 p_m1_p 14; Load false r_tmp8 p_m2_p 14;
    SubPd r_tmp9 r_tmp8 r_tmp7; Store false p_m2_p 14 r_tmp9; Load false r_tmp10 p_m1_p 16;
    Load false r_tmp11 p_m2_p 16; SubPd r_tmp12 r_tmp11 r_tmp10; Store false p_m2_p 16 r_tmp12;
    Bump p_m1_p 18; Bump p_m2_p 18].

(** lib/scalarsite_sse/sse_linalg_m_peq_m_double.cc 95-165; arguments m2, m1, n_mat. *)
Definition ssed_m_meq_m : kernel :=
  {| k_pre := [MovePtr p_m1_p p_m1; MovePtr p_m2_p p_m2];
     k_times := fun n => n;
     k_body := fun _ => ssed_m_meq_m_loop;
     k_post := [] |}.

(** the loop of [ssed_m_peq_h], lib/scalarsite_sse/sse_linalg_m_peq_m_double.cc 169-256, from line 194 *)
Definition ssed_m_peq_h_loop : list instr :=
   [Load false r_m1_11 p_m1_p 0; Load false r_m1_12 p_m1_p 2; Load false r_m1_13 p_m1_p 4;
    Load false r_m1_21 p_m1_p 6; Load false r_m1_22 p_m1_p 8; Load false r_m1_23 p_m1_p 10;
    Load false r_m1_31 p_m1_p 12; Load false r_m1_32 p_m1_p 14; Load false r_m1_33 p_m1_p 16;
    Load false r_tmp1 p_m2_p 0; MulPd r_tmp2 r_mfact r_m1_11; AddPd r_tmp3 r_tmp1 r_tmp2;
    Store false p_m2_p 0 r_tmp3; Load false r_tmp4 p_m2_p 2; MulPd r_tmp5 r_mfact r_m1_21;
    AddPd r_tmp6 r_tmp4 r_tmp5; Store false p_m2_p 2 r_tmp6; Load false r_tmp1 p_m2_p 4;
    MulPd r_tmp2 r_mfact r_m1_31; AddPd r_tmp3 r_tmp1 r_tmp2; Store false p_m2_p 4 r_tmp3;
    Load false r_tmp4 p_m2_p 6; MulPd r_tmp5 r_mfact r_m1_12; AddPd r_tmp6 r_tmp4 r_tmp5;
    Store false p_m2_p 6 r_tmp6; Load false r_tmp1 p_m2_p 8; MulPd r_tmp2 r_mfact r_m1_22;
    AddPd r_tmp3 r_tmp1 r_tmp2; Store false p_m2_p 8 r_tmp3; Load false r_tmp4 p_m2_p 10;
    MulPd r_tmp5 r_mfact r_m1_32; AddPd r_tmp6 r_tmp4 r_tmp5; Store false p_m2_p 10 r_tmp6;
    Load false r_tmp4 p_m2_p 12; MulPd r_tmp5 r_mfact r_m1_13; AddPd r_tmp6 r_tmp4 r_tmp5;
    Store false p_m2_p 12 r_tmp6; Load false r_tmp1 p_m2_p 14; MulPd r_tmp2 r_mfact r_m1_23;
    AddPd r_tmp3 r_tmp1 r_tmp2; Store false p_m2_p 14 r_tmp3; Load false r_tmp4 p_m2_p 16;
    MulPd r_tmp5 r_mfact r_m1_33; AddPd r_tmp6 r_tmp4 r_tmp5; Store false p_m2_p 16 r_tmp6;
    Bump p_m1_p 18; Bump p_m2_p 18].

(** lib/scalarsite_sse/sse_linalg_m_peq_m_double.cc 169-256; arguments m2, m1, n_mat. *)
Definition ssed_m_peq_h : kernel :=
  {| k_pre := [SetPd r_mfact (-1) 1; MovePtr p_m1_p p_m1; MovePtr p_m2_p p_m2];
     k_times := fun n => n;
     k_body := fun _ => ssed_m_peq_h_loop;
     k_post := [] |}.

(** the loop of [ssed_m_meq_h], lib/scalarsite_sse/sse_linalg_m_peq_m_double.cc 259-345, from line 284 *)
Definition ssed_m_meq_h_loop : list instr :=
   [Load false r_m1_11 p_m1_p 0; Load false r_m1_12 p_m1_p 2; Load false r_m1_13 p_m1_p 4;
    Load false r_m1_21 p_m1_p 6; Load false r_m1_22 p_m1_p 8; Load false r_m1_23 p_m1_p 10;
    Load false r_m1_31 p_m1_p 12; Load false r_m1_32 p_m1_p 14; Load false r_m1_33 p_m1_p 16;
    Load false r_tmp1 p_m2_p 0; MulPd r_tmp2 r_mfact r_m1_11; SubPd r_tmp3 r_tmp1 r_tmp2;
    Store false p_m2_p 0 r_tmp3; Load false r_tmp4 p_m2_p 2; MulPd r_tmp5 r_mfact r_m1_21;
    SubPd r_tmp6 r_tmp4 r_tmp5; Store false p_m2_p 2 r_tmp6; Load false r_tmp1 p_m2_p 4;
    MulPd r_tmp2 r_mfact r_m1_31; SubPd r_tmp3 r_tmp1 r_tmp2; Store false p_m2_p 4 r_tmp3;
    Load false r_tmp4 p_m2_p 6; MulPd r_tmp5 r_mfact r_m1_12; SubPd r_tmp6 r_tmp4 r_tmp5;
    Store false p_m2_p 6 r_tmp6; Load false r_tmp1 p_m2_p 8; MulPd r_tmp2 r_mfact r_m1_22;
    SubPd r_tmp3 r_tmp1 r_tmp2; Store false p_m2_p 8 r_tmp3; Load false r_tmp4 p_m2_p 10;
    MulPd r_tmp5 r_mfact r_m1_32; SubPd r_tmp6 r_tmp4 r_tmp5; Store false p_m2_p 10 r_tmp6;
    Load false r_tmp4 p_m2_p 12; MulPd r_tmp5 r_mfact r_m1_13; SubPd r_tmp6 r_tmp4 r_tmp5;
    Store false p_m2_p 12 r_tmp6; Load false r_tmp1 p_m2_p 14; MulPd r_tmp2 r_mfact r_m1_23;
    SubPd r_tmp3 r_tmp1 r_tmp2; Store false p_m2_p 14 r_tmp3; Load false r_tmp4 p_m2_p 16;
    MulPd r_tmp5 r_mfact r_m1_33; SubPd r_tmp6 r_tmp4 r_tmp5; Store false p_m2_p 16 r_tmp6;
    Bump p_m1_p 18; Bump p_m2_p 18].

(** lib/scalarsite_sse/sse_linalg_m_peq_m_double.cc 259-345; arguments m2, m1, n_mat. *)
Definition ssed_m_meq_h : kernel :=
  {| k_pre := [SetPd r_mfact (-1) 1; MovePtr p_m1_p p_m1; MovePtr p_m2_p p_m2];
     k_times := fun n => n;
     k_body := fun _ => ssed_m_meq_h_loop;
     k_post := [] |}.
