From Coq Require Import List NArith.
From Verif Require Import SseMachine Sse4Machine.
Import ListNotations.
Open Scope N_scope.

(** The kernels of lib/scalarsite_sse/qdp_scalarsite_sse.cc, statement by statement.
    Registers: the local variables and the temporaries t1, t2, ... of nested expressions. *)
Definition r4_vscalep : N := 0.
Definition r4_t1 : N := 1.
Definition r4_t2 : N := 2.
Definition r4_t3 : N := 3.
Definition r4_t4 : N := 4.
Definition r4_va : N := 5.
Definition r4_vb : N := 6.
Definition r4_t5 : N := 7.
Definition r4_vsum : N := 8.
Definition r4_vsum2 : N := 9.
Definition r4_tmp1 : N := 10.
Definition r4_tmp3 : N := 11.
Definition r4_tmp2 : N := 12.
Definition r4_lower_2 : N := 13.
Definition r4_upper_2 : N := 14.
Definition r4_dat_sq : N := 15.
Definition r4_dat_sq2 : N := 16.
Definition r4_tmp4 : N := 17.
Definition r4_tmp5 : N := 18.
Definition r4_tmp6 : N := 19.
Definition r4_tmp7 : N := 20.
Definition r4_result_re : N := 21.
Definition r4_result_im : N := 22.
Definition r4_v1_0r : N := 23.
Definition r4_v2_0r : N := 24.
Definition r4_v1_0i : N := 25.
Definition r4_v2_0i : N := 26.
Definition r4_v1_1r : N := 27.
Definition r4_v2_1r : N := 28.
Definition r4_v1_1i : N := 29.
Definition r4_v2_1i : N := 30.
Definition r4_v1_2r : N := 31.
Definition r4_v2_2r : N := 32.
Definition r4_v1_2i : N := 33.
Definition r4_v2_2i : N := 34.
Definition r4_result : N := 35.
(** Pointers: the parameters (num is a copy of In in local_sumsq_24_48, line 1365). *)
Definition p4_scalep : N := 0.
Definition p4_InScale : N := 1.
Definition p4_Add : N := 2.
Definition p4_Out : N := 3.
Definition p4_Sub : N := 4.
Definition p4_In1 : N := 5.
Definition p4_In2 : N := 6.
Definition p4_In : N := 7.
Definition p4_a : N := 8.
Definition p4_b : N := 9.
Definition p4_x : N := 10.
Definition p4_y : N := 11.
Definition p4_num : N := 12.
Definition p4_V1 : N := 13.
Definition p4_V2 : N := 14.
Definition p4_Out_re : N := 15.
Definition p4_Out_im : N := 16.

Open Scope nat_scope.

(** Lines 1176-1179. *)
Definition vaxpy3_pre : list instr4 :=
  [ LoadSs r4_vscalep p4_scalep;
    ShufPs r4_vscalep r4_vscalep r4_vscalep 0 ].

(** Lines 1182-1189. *)
Definition vaxpy3_body : list instr4 :=
  [ LoadPs r4_t1 p4_InScale 0;
    MulV r4_t2 r4_vscalep r4_t1;
    LoadPs r4_t3 p4_Add 0;
    AddV r4_t4 r4_t2 r4_t3;
    StorePs p4_Out 0 r4_t4;
    LoadPs r4_t1 p4_InScale 4;
    MulV r4_t2 r4_vscalep r4_t1;
    LoadPs r4_t3 p4_Add 4;
    AddV r4_t4 r4_t2 r4_t3;
    StorePs p4_Out 4 r4_t4;
    LoadPs r4_t1 p4_InScale 8;
    MulV r4_t2 r4_vscalep r4_t1;
    LoadPs r4_t3 p4_Add 8;
    AddV r4_t4 r4_t2 r4_t3;
    StorePs p4_Out 8 r4_t4;
    LoadPs r4_t1 p4_InScale 12;
    MulV r4_t2 r4_vscalep r4_t1;
    LoadPs r4_t3 p4_Add 12;
    AddV r4_t4 r4_t2 r4_t3;
    StorePs p4_Out 12 r4_t4;
    LoadPs r4_t1 p4_InScale 16;
    MulV r4_t2 r4_vscalep r4_t1;
    LoadPs r4_t3 p4_Add 16;
    AddV r4_t4 r4_t2 r4_t3;
    StorePs p4_Out 16 r4_t4;
    LoadPs r4_t1 p4_InScale 20;
    MulV r4_t2 r4_vscalep r4_t1;
    LoadPs r4_t3 p4_Add 20;
    AddV r4_t4 r4_t2 r4_t3;
    StorePs p4_Out 20 r4_t4;
    Bump4 p4_Out 24;
    Bump4 p4_InScale 24;
    Bump4 p4_Add 24 ].

(** Lines 1204-1206. *)
Definition vaxmy3_pre : list instr4 :=
  [ LoadSs r4_vscalep p4_scalep;
    ShufPs r4_vscalep r4_vscalep r4_vscalep 0 ].

(** Lines 1209-1216. *)
Definition vaxmy3_body : list instr4 :=
  [ LoadPs r4_t1 p4_InScale 0;
    MulV r4_t2 r4_vscalep r4_t1;
    LoadPs r4_t3 p4_Sub 0;
    SubV r4_t4 r4_t2 r4_t3;
    StorePs p4_Out 0 r4_t4;
    LoadPs r4_t1 p4_InScale 4;
    MulV r4_t2 r4_vscalep r4_t1;
    LoadPs r4_t3 p4_Sub 4;
    SubV r4_t4 r4_t2 r4_t3;
    StorePs p4_Out 4 r4_t4;
    LoadPs r4_t1 p4_InScale 8;
    MulV r4_t2 r4_vscalep r4_t1;
    LoadPs r4_t3 p4_Sub 8;
    SubV r4_t4 r4_t2 r4_t3;
    StorePs p4_Out 8 r4_t4;
    LoadPs r4_t1 p4_InScale 12;
    MulV r4_t2 r4_vscalep r4_t1;
    LoadPs r4_t3 p4_Sub 12;
    SubV r4_t4 r4_t2 r4_t3;
    StorePs p4_Out 12 r4_t4;
    LoadPs r4_t1 p4_InScale 16;
    MulV r4_t2 r4_vscalep r4_t1;
    LoadPs r4_t3 p4_Sub 16;
    SubV r4_t4 r4_t2 r4_t3;
    StorePs p4_Out 16 r4_t4;
    LoadPs r4_t1 p4_InScale 20;
    MulV r4_t2 r4_vscalep r4_t1;
    LoadPs r4_t3 p4_Sub 20;
    SubV r4_t4 r4_t2 r4_t3;
    StorePs p4_Out 20 r4_t4;
    Bump4 p4_Out 24;
    Bump4 p4_InScale 24;
    Bump4 p4_Sub 24 ].

(** Lines 1232-1239. *)
Definition vadd_body : list instr4 :=
  [ LoadPs r4_t1 p4_In1 0;
    LoadPs r4_t2 p4_In2 0;
    AddV r4_t3 r4_t1 r4_t2;
    StorePs p4_Out 0 r4_t3;
    LoadPs r4_t1 p4_In1 4;
    LoadPs r4_t2 p4_In2 4;
    AddV r4_t3 r4_t1 r4_t2;
    StorePs p4_Out 4 r4_t3;
    LoadPs r4_t1 p4_In1 8;
    LoadPs r4_t2 p4_In2 8;
    AddV r4_t3 r4_t1 r4_t2;
    StorePs p4_Out 8 r4_t3;
    LoadPs r4_t1 p4_In1 12;
    LoadPs r4_t2 p4_In2 12;
    AddV r4_t3 r4_t1 r4_t2;
    StorePs p4_Out 12 r4_t3;
    LoadPs r4_t1 p4_In1 16;
    LoadPs r4_t2 p4_In2 16;
    AddV r4_t3 r4_t1 r4_t2;
    StorePs p4_Out 16 r4_t3;
    LoadPs r4_t1 p4_In1 20;
    LoadPs r4_t2 p4_In2 20;
    AddV r4_t3 r4_t1 r4_t2;
    StorePs p4_Out 20 r4_t3;
    Bump4 p4_Out 24;
    Bump4 p4_In1 24;
    Bump4 p4_In2 24 ].

(** Lines 1255-1262. *)
Definition vsub_body : list instr4 :=
  [ LoadPs r4_t1 p4_In1 0;
    LoadPs r4_t2 p4_In2 0;
    SubV r4_t3 r4_t1 r4_t2;
    StorePs p4_Out 0 r4_t3;
    LoadPs r4_t1 p4_In1 4;
    LoadPs r4_t2 p4_In2 4;
    SubV r4_t3 r4_t1 r4_t2;
    StorePs p4_Out 4 r4_t3;
    LoadPs r4_t1 p4_In1 8;
    LoadPs r4_t2 p4_In2 8;
    SubV r4_t3 r4_t1 r4_t2;
    StorePs p4_Out 8 r4_t3;
    LoadPs r4_t1 p4_In1 12;
    LoadPs r4_t2 p4_In2 12;
    SubV r4_t3 r4_t1 r4_t2;
    StorePs p4_Out 12 r4_t3;
    LoadPs r4_t1 p4_In1 16;
    LoadPs r4_t2 p4_In2 16;
    SubV r4_t3 r4_t1 r4_t2;
    StorePs p4_Out 16 r4_t3;
    LoadPs r4_t1 p4_In1 20;
    LoadPs r4_t2 p4_In2 20;
    SubV r4_t3 r4_t1 r4_t2;
    StorePs p4_Out 20 r4_t3;
    Bump4 p4_Out 24;
    Bump4 p4_In1 24;
    Bump4 p4_In2 24 ].

(** Lines 1276-1278. *)
Definition vscal_pre : list instr4 :=
  [ LoadSs r4_vscalep p4_scalep;
    ShufPs r4_vscalep r4_vscalep r4_vscalep 0 ].

(** Lines 1281-1288. *)
Definition vscal_body : list instr4 :=
  [ LoadPs r4_t1 p4_In 0;
    MulV r4_t2 r4_vscalep r4_t1;
    StorePs p4_Out 0 r4_t2;
    LoadPs r4_t1 p4_In 4;
    MulV r4_t2 r4_vscalep r4_t1;
    StorePs p4_Out 4 r4_t2;
    LoadPs r4_t1 p4_In 8;
    MulV r4_t2 r4_vscalep r4_t1;
    StorePs p4_Out 8 r4_t2;
    LoadPs r4_t1 p4_In 12;
    MulV r4_t2 r4_vscalep r4_t1;
    StorePs p4_Out 12 r4_t2;
    LoadPs r4_t1 p4_In 16;
    MulV r4_t2 r4_vscalep r4_t1;
    StorePs p4_Out 16 r4_t2;
    LoadPs r4_t1 p4_In 20;
    MulV r4_t2 r4_vscalep r4_t1;
    StorePs p4_Out 20 r4_t2;
    Bump4 p4_Out 24;
    Bump4 p4_In 24 ].

(** Lines 1303-1308. *)
Definition vaxpby3_pre : list instr4 :=
  [ LoadSs r4_va p4_a;
    LoadSs r4_vb p4_b;
    ShufPs r4_va r4_va r4_va 0;
    ShufPs r4_vb r4_vb r4_vb 0 ].

(** Lines 1311-1318. *)
Definition vaxpby3_body : list instr4 :=
  [ LoadPs r4_t1 p4_x 0;
    MulV r4_t2 r4_va r4_t1;
    LoadPs r4_t3 p4_y 0;
    MulV r4_t4 r4_vb r4_t3;
    AddV r4_t5 r4_t2 r4_t4;
    StorePs p4_Out 0 r4_t5;
    LoadPs r4_t1 p4_x 4;
    MulV r4_t2 r4_va r4_t1;
    LoadPs r4_t3 p4_y 4;
    MulV r4_t4 r4_vb r4_t3;
    AddV r4_t5 r4_t2 r4_t4;
    StorePs p4_Out 4 r4_t5;
    LoadPs r4_t1 p4_x 8;
    MulV r4_t2 r4_va r4_t1;
    LoadPs r4_t3 p4_y 8;
    MulV r4_t4 r4_vb r4_t3;
    AddV r4_t5 r4_t2 r4_t4;
    StorePs p4_Out 8 r4_t5;
    LoadPs r4_t1 p4_x 12;
    MulV r4_t2 r4_va r4_t1;
    LoadPs r4_t3 p4_y 12;
    MulV r4_t4 r4_vb r4_t3;
    AddV r4_t5 r4_t2 r4_t4;
    StorePs p4_Out 12 r4_t5;
    LoadPs r4_t1 p4_x 16;
    MulV r4_t2 r4_va r4_t1;
    LoadPs r4_t3 p4_y 16;
    MulV r4_t4 r4_vb r4_t3;
    AddV r4_t5 r4_t2 r4_t4;
    StorePs p4_Out 16 r4_t5;
    LoadPs r4_t1 p4_x 20;
    MulV r4_t2 r4_va r4_t1;
    LoadPs r4_t3 p4_y 20;
    MulV r4_t4 r4_vb r4_t3;
    AddV r4_t5 r4_t2 r4_t4;
    StorePs p4_Out 20 r4_t5;
    Bump4 p4_Out 24;
    Bump4 p4_x 24;
    Bump4 p4_y 24 ].

(** Lines 1333-1337. *)
Definition vaxmby3_pre : list instr4 :=
  [ LoadSs r4_va p4_a;
    LoadSs r4_vb p4_b;
    ShufPs r4_va r4_va r4_va 0;
    ShufPs r4_vb r4_vb r4_vb 0 ].

(** Lines 1340-1347. *)
Definition vaxmby3_body : list instr4 :=
  [ LoadPs r4_t1 p4_x 0;
    MulV r4_t2 r4_va r4_t1;
    LoadPs r4_t3 p4_y 0;
    MulV r4_t4 r4_vb r4_t3;
    SubV r4_t5 r4_t2 r4_t4;
    StorePs p4_Out 0 r4_t5;
    LoadPs r4_t1 p4_x 4;
    MulV r4_t2 r4_va r4_t1;
    LoadPs r4_t3 p4_y 4;
    MulV r4_t4 r4_vb r4_t3;
    SubV r4_t5 r4_t2 r4_t4;
    StorePs p4_Out 4 r4_t5;
    LoadPs r4_t1 p4_x 8;
    MulV r4_t2 r4_va r4_t1;
    LoadPs r4_t3 p4_y 8;
    MulV r4_t4 r4_vb r4_t3;
    SubV r4_t5 r4_t2 r4_t4;
    StorePs p4_Out 8 r4_t5;
    LoadPs r4_t1 p4_x 12;
    MulV r4_t2 r4_va r4_t1;
    LoadPs r4_t3 p4_y 12;
    MulV r4_t4 r4_vb r4_t3;
    SubV r4_t5 r4_t2 r4_t4;
    StorePs p4_Out 12 r4_t5;
    LoadPs r4_t1 p4_x 16;
    MulV r4_t2 r4_va r4_t1;
    LoadPs r4_t3 p4_y 16;
    MulV r4_t4 r4_vb r4_t3;
    SubV r4_t5 r4_t2 r4_t4;
    StorePs p4_Out 16 r4_t5;
    LoadPs r4_t1 p4_x 20;
    MulV r4_t2 r4_va r4_t1;
    LoadPs r4_t3 p4_y 20;
    MulV r4_t4 r4_vb r4_t3;
    SubV r4_t5 r4_t2 r4_t4;
    StorePs p4_Out 20 r4_t5;
    Bump4 p4_Out 24;
    Bump4 p4_x 24;
    Bump4 p4_y 24 ].

(** Lines 1359-1371. *)
Definition sumsq_pre : list instr4 :=
  [ ZeroPd r4_vsum;
    ZeroPd r4_vsum2;
    LoadPs r4_tmp1 p4_num 0;
    Bump4 p4_num 4 ].

(** Lines 1374-1449. *)
Definition sumsq_body : list instr4 :=
  [ LoadPs r4_tmp3 p4_num 0;
    Bump4 p4_num 4;
    ShufPs r4_tmp2 r4_tmp1 r4_tmp1 14;
    CvtPsPd r4_lower_2 r4_tmp1;
    CvtPsPd r4_upper_2 r4_tmp2;
    MulV r4_dat_sq r4_lower_2 r4_lower_2;
    AddV r4_vsum r4_vsum r4_dat_sq;
    MulV r4_dat_sq2 r4_upper_2 r4_upper_2;
    AddV r4_vsum2 r4_vsum2 r4_dat_sq2;
    LoadPs r4_tmp4 p4_num 0;
    Bump4 p4_num 4;
    ShufPs r4_tmp2 r4_tmp3 r4_tmp3 14;
    CvtPsPd r4_lower_2 r4_tmp3;
    CvtPsPd r4_upper_2 r4_tmp2;
    MulV r4_dat_sq r4_lower_2 r4_lower_2;
    AddV r4_vsum r4_vsum r4_dat_sq;
    MulV r4_dat_sq2 r4_upper_2 r4_upper_2;
    AddV r4_vsum2 r4_vsum2 r4_dat_sq2;
    LoadPs r4_tmp5 p4_num 0;
    Bump4 p4_num 4;
    ShufPs r4_tmp2 r4_tmp4 r4_tmp4 14;
    CvtPsPd r4_lower_2 r4_tmp4;
    CvtPsPd r4_upper_2 r4_tmp2;
    MulV r4_dat_sq r4_lower_2 r4_lower_2;
    AddV r4_vsum r4_vsum r4_dat_sq;
    MulV r4_dat_sq2 r4_upper_2 r4_upper_2;
    AddV r4_vsum2 r4_vsum2 r4_dat_sq2;
    LoadPs r4_tmp6 p4_num 0;
    Bump4 p4_num 4;
    ShufPs r4_tmp2 r4_tmp5 r4_tmp5 14;
    CvtPsPd r4_lower_2 r4_tmp5;
    CvtPsPd r4_upper_2 r4_tmp2;
    MulV r4_dat_sq r4_lower_2 r4_lower_2;
    AddV r4_vsum r4_vsum r4_dat_sq;
    MulV r4_dat_sq2 r4_upper_2 r4_upper_2;
    AddV r4_vsum2 r4_vsum2 r4_dat_sq2;
    LoadPs r4_tmp7 p4_num 0;
    Bump4 p4_num 4;
    ShufPs r4_tmp2 r4_tmp6 r4_tmp6 14;
    CvtPsPd r4_lower_2 r4_tmp6;
    CvtPsPd r4_upper_2 r4_tmp2;
    MulV r4_dat_sq r4_lower_2 r4_lower_2;
    AddV r4_vsum r4_vsum r4_dat_sq;
    MulV r4_dat_sq2 r4_upper_2 r4_upper_2;
    AddV r4_vsum2 r4_vsum2 r4_dat_sq2;
    LoadPs r4_tmp1 p4_num 0;
    Bump4 p4_num 4;
    ShufPs r4_tmp2 r4_tmp7 r4_tmp7 14;
    CvtPsPd r4_lower_2 r4_tmp7;
    CvtPsPd r4_upper_2 r4_tmp2;
    MulV r4_dat_sq r4_lower_2 r4_lower_2;
    AddV r4_vsum r4_vsum r4_dat_sq;
    MulV r4_dat_sq2 r4_upper_2 r4_upper_2;
    AddV r4_vsum2 r4_vsum2 r4_dat_sq2 ].

(** Lines 1452-1530. *)
Definition sumsq_last : list instr4 :=
  [ LoadPs r4_tmp3 p4_num 0;
    Bump4 p4_num 4;
    ShufPs r4_tmp2 r4_tmp1 r4_tmp1 14;
    CvtPsPd r4_lower_2 r4_tmp1;
    CvtPsPd r4_upper_2 r4_tmp2;
    MulV r4_dat_sq r4_lower_2 r4_lower_2;
    AddV r4_vsum r4_vsum r4_dat_sq;
    MulV r4_dat_sq2 r4_upper_2 r4_upper_2;
    AddV r4_vsum2 r4_vsum2 r4_dat_sq2;
    LoadPs r4_tmp4 p4_num 0;
    Bump4 p4_num 4;
    ShufPs r4_tmp2 r4_tmp3 r4_tmp3 14;
    CvtPsPd r4_lower_2 r4_tmp3;
    CvtPsPd r4_upper_2 r4_tmp2;
    MulV r4_dat_sq r4_lower_2 r4_lower_2;
    AddV r4_vsum r4_vsum r4_dat_sq;
    MulV r4_dat_sq2 r4_upper_2 r4_upper_2;
    AddV r4_vsum2 r4_vsum2 r4_dat_sq2;
    LoadPs r4_tmp5 p4_num 0;
    Bump4 p4_num 4;
    ShufPs r4_tmp2 r4_tmp4 r4_tmp4 14;
    CvtPsPd r4_lower_2 r4_tmp4;
    CvtPsPd r4_upper_2 r4_tmp2;
    MulV r4_dat_sq r4_lower_2 r4_lower_2;
    AddV r4_vsum r4_vsum r4_dat_sq;
    MulV r4_dat_sq2 r4_upper_2 r4_upper_2;
    AddV r4_vsum2 r4_vsum2 r4_dat_sq2;
    LoadPs r4_tmp6 p4_num 0;
    Bump4 p4_num 4;
    ShufPs r4_tmp2 r4_tmp5 r4_tmp5 14;
    CvtPsPd r4_lower_2 r4_tmp5;
    CvtPsPd r4_upper_2 r4_tmp2;
    MulV r4_dat_sq r4_lower_2 r4_lower_2;
    AddV r4_vsum r4_vsum r4_dat_sq;
    MulV r4_dat_sq2 r4_upper_2 r4_upper_2;
    AddV r4_vsum2 r4_vsum2 r4_dat_sq2;
    LoadPs r4_tmp7 p4_num 0;
    Bump4 p4_num 4;
    ShufPs r4_tmp2 r4_tmp6 r4_tmp6 14;
    CvtPsPd r4_lower_2 r4_tmp6;
    CvtPsPd r4_upper_2 r4_tmp2;
    MulV r4_dat_sq r4_lower_2 r4_lower_2;
    AddV r4_vsum r4_vsum r4_dat_sq;
    MulV r4_dat_sq2 r4_upper_2 r4_upper_2;
    AddV r4_vsum2 r4_vsum2 r4_dat_sq2;
    ShufPs r4_tmp2 r4_tmp7 r4_tmp7 14;
    CvtPsPd r4_lower_2 r4_tmp7;
    CvtPsPd r4_upper_2 r4_tmp2;
    MulV r4_dat_sq r4_lower_2 r4_lower_2;
    AddV r4_vsum r4_vsum r4_dat_sq;
    MulV r4_dat_sq2 r4_upper_2 r4_upper_2;
    AddV r4_vsum2 r4_vsum2 r4_dat_sq2 ].

(** Lines 1531-1553. *)
Definition sumsq_tail : list instr4 :=
  [ AddV r4_vsum r4_vsum r4_vsum2;
    ShufPd r4_lower_2 r4_vsum r4_vsum 1;
    AddV r4_upper_2 r4_lower_2 r4_vsum;
    StoreHPd p4_Out r4_upper_2 ].

(** Lines 1582-1583. *)
Definition vcdot_zero : list instr4 :=
  [ ZeroS r4_result_re;
    ZeroS r4_result_im ].

(** Lines 1587-1596. *)
Definition vcdot_pre : list instr4 :=
  [ LoadS r4_v1_0r p4_V1;
    LoadS r4_v2_0r p4_V2;
    LoadS r4_v1_0i p4_V1;
    LoadS r4_v2_0i p4_V2;
    LoadS r4_v1_1r p4_V1;
    LoadS r4_v2_1r p4_V2 ].

(** Lines 1598-1628. *)
Definition vcdot_body : list instr4 :=
  [ MulV r4_t1 r4_v1_0r r4_v2_0r;
    AddV r4_result_re r4_result_re r4_t1;
    LoadS r4_v1_1i p4_V1;
    MulV r4_t1 r4_v1_0i r4_v2_0r;
    SubV r4_result_im r4_result_im r4_t1;
    LoadS r4_v2_1i p4_V2;
    MulV r4_t1 r4_v1_0r r4_v2_0i;
    AddV r4_result_im r4_result_im r4_t1;
    LoadS r4_v1_2r p4_V1;
    MulV r4_t1 r4_v1_0i r4_v2_0i;
    AddV r4_result_re r4_result_re r4_t1;
    LoadS r4_v2_2r p4_V2;
    MulV r4_t1 r4_v1_1r r4_v2_1r;
    AddV r4_result_re r4_result_re r4_t1;
    LoadS r4_v1_2i p4_V1;
    MulV r4_t1 r4_v1_1i r4_v2_1r;
    SubV r4_result_im r4_result_im r4_t1;
    LoadS r4_v2_2i p4_V2;
    MulV r4_t1 r4_v1_1r r4_v2_1i;
    AddV r4_result_im r4_result_im r4_t1;
    LoadS r4_v1_0r p4_V1;
    MulV r4_t1 r4_v1_1i r4_v2_1i;
    AddV r4_result_re r4_result_re r4_t1;
    LoadS r4_v2_0r p4_V2;
    MulV r4_t1 r4_v1_2r r4_v2_2r;
    AddV r4_result_re r4_result_re r4_t1;
    LoadS r4_v1_0i p4_V1;
    MulV r4_t1 r4_v1_2i r4_v2_2r;
    SubV r4_result_im r4_result_im r4_t1;
    LoadS r4_v2_0i p4_V2;
    MulV r4_t1 r4_v1_2r r4_v2_2i;
    AddV r4_result_im r4_result_im r4_t1;
    LoadS r4_v1_1r p4_V1;
    MulV r4_t1 r4_v1_2i r4_v2_2i;
    AddV r4_result_re r4_result_re r4_t1;
    LoadS r4_v2_1r p4_V2 ].

(** Lines 1631-1655. *)
Definition vcdot_last : list instr4 :=
  [ MulV r4_t1 r4_v1_0r r4_v2_0r;
    AddV r4_result_re r4_result_re r4_t1;
    LoadS r4_v1_1i p4_V1;
    MulV r4_t1 r4_v1_0i r4_v2_0r;
    SubV r4_result_im r4_result_im r4_t1;
    LoadS r4_v2_1i p4_V2;
    MulV r4_t1 r4_v1_0r r4_v2_0i;
    AddV r4_result_im r4_result_im r4_t1;
    LoadS r4_v1_2r p4_V1;
    MulV r4_t1 r4_v1_0i r4_v2_0i;
    AddV r4_result_re r4_result_re r4_t1;
    LoadS r4_v2_2r p4_V2;
    MulV r4_t1 r4_v1_1r r4_v2_1r;
    AddV r4_result_re r4_result_re r4_t1;
    LoadS r4_v1_2i p4_V1;
    MulV r4_t1 r4_v1_1i r4_v2_1r;
    SubV r4_result_im r4_result_im r4_t1;
    LoadS r4_v2_2i p4_V2;
    MulV r4_t1 r4_v1_1r r4_v2_1i;
    AddV r4_result_im r4_result_im r4_t1;
    MulV r4_t1 r4_v1_1i r4_v2_1i;
    AddV r4_result_re r4_result_re r4_t1;
    MulV r4_t1 r4_v1_2r r4_v2_2r;
    AddV r4_result_re r4_result_re r4_t1;
    MulV r4_t1 r4_v1_2i r4_v2_2r;
    SubV r4_result_im r4_result_im r4_t1;
    MulV r4_t1 r4_v1_2r r4_v2_2i;
    AddV r4_result_im r4_result_im r4_t1;
    MulV r4_t1 r4_v1_2i r4_v2_2i;
    AddV r4_result_re r4_result_re r4_t1 ].

(** Lines 1656-1657. *)
Definition vcdot_store : list instr4 :=
  [ StoreS p4_Out_re r4_result_re;
    StoreS p4_Out_im r4_result_im ].

(** Lines 1682-1682. *)
Definition vcdot_real_zero : list instr4 :=
  [ ZeroS r4_result ].

(** Lines 1686-1705. *)
Definition vcdot_real_pre : list instr4 :=
  [ LoadS r4_v1_0r p4_V1;
    LoadS r4_v2_0r p4_V2;
    LoadS r4_v1_0i p4_V1;
    LoadS r4_v2_0i p4_V2;
    LoadS r4_v1_1r p4_V1;
    LoadS r4_v2_1r p4_V2;
    LoadS r4_v1_1i p4_V1;
    LoadS r4_v2_1i p4_V2;
    LoadS r4_v1_2r p4_V1;
    LoadS r4_v2_2r p4_V2;
    LoadS r4_v1_2i p4_V1;
    LoadS r4_v2_2i p4_V2 ].

(** Lines 1707-1732. *)
Definition vcdot_real_body : list instr4 :=
  [ MulV r4_t1 r4_v1_0r r4_v2_0r;
    AddV r4_result r4_result r4_t1;
    LoadS r4_v1_0r p4_V1;
    LoadS r4_v2_0r p4_V2;
    MulV r4_t1 r4_v1_0i r4_v2_0i;
    AddV r4_result r4_result r4_t1;
    LoadS r4_v1_0i p4_V1;
    LoadS r4_v2_0i p4_V2;
    MulV r4_t1 r4_v1_1r r4_v2_1r;
    AddV r4_result r4_result r4_t1;
    LoadS r4_v1_1r p4_V1;
    LoadS r4_v2_1r p4_V2;
    MulV r4_t1 r4_v1_1i r4_v2_1i;
    AddV r4_result r4_result r4_t1;
    LoadS r4_v1_1i p4_V1;
    LoadS r4_v2_1i p4_V2;
    MulV r4_t1 r4_v1_2r r4_v2_2r;
    AddV r4_result r4_result r4_t1;
    LoadS r4_v1_2r p4_V1;
    LoadS r4_v2_2r p4_V2;
    MulV r4_t1 r4_v1_2i r4_v2_2i;
    AddV r4_result r4_result r4_t1;
    LoadS r4_v1_2i p4_V1;
    LoadS r4_v2_2i p4_V2 ].

(** Lines 1735-1743. *)
Definition vcdot_real_last : list instr4 :=
  [ MulV r4_t1 r4_v1_0r r4_v2_0r;
    AddV r4_result r4_result r4_t1;
    MulV r4_t1 r4_v1_0i r4_v2_0i;
    AddV r4_result r4_result r4_t1;
    MulV r4_t1 r4_v1_1r r4_v2_1r;
    AddV r4_result r4_result r4_t1;
    MulV r4_t1 r4_v1_1i r4_v2_1i;
    AddV r4_result r4_result r4_t1;
    MulV r4_t1 r4_v1_2r r4_v2_2r;
    AddV r4_result r4_result r4_t1;
    MulV r4_t1 r4_v1_2i r4_v2_2i;
    AddV r4_result r4_result r4_t1 ].

(** Lines 1744-1744. *)
Definition vcdot_real_store : list instr4 :=
  [ StoreS p4_Out r4_result ].
