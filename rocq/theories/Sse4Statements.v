From Coq Require Import List Bool Arith NArith ZArith Lia.
From Coq Require Import Ring Ring_theory InitialRing.
From Verif Require Import SseMachine SseSpec SseEval SseFields SseBlasSpec SseBlasProofs Sse4Machine Sse4Kernels Sse4Eval Sse4Proofs.
Import ListNotations.
Open Scope nat_scope.

Section Lines.
  Context {V : Type} (ar : arith V).

  (** The lines of the kernels. *)
  Definition line_axpy (w : bool) (py : N) (k : nat) : list instr4 :=
    [ LoadPs r4_t1 p4_InScale k; MulV r4_t2 r4_vscalep r4_t1; LoadPs r4_t3 py k;
      (if w then AddV r4_t4 r4_t2 r4_t3 else SubV r4_t4 r4_t2 r4_t3); StorePs p4_Out k r4_t4 ].
  Definition line_op (w : bool) (k : nat) : list instr4 :=
    [ LoadPs r4_t1 p4_In1 k; LoadPs r4_t2 p4_In2 k;
      (if w then AddV r4_t3 r4_t1 r4_t2 else SubV r4_t3 r4_t1 r4_t2); StorePs p4_Out k r4_t3 ].
  Definition line_scal (k : nat) : list instr4 :=
    [ LoadPs r4_t1 p4_In k; MulV r4_t2 r4_vscalep r4_t1; StorePs p4_Out k r4_t2 ].
  Definition line_axby (w : bool) (k : nat) : list instr4 :=
    [ LoadPs r4_t1 p4_x k; MulV r4_t2 r4_va r4_t1; LoadPs r4_t3 p4_y k; MulV r4_t4 r4_vb r4_t3;
      (if w then AddV r4_t5 r4_t2 r4_t4 else SubV r4_t5 r4_t2 r4_t4); StorePs p4_Out k r4_t5 ].
  Definition line_copy (g : assign) (k : nat) : list instr4 :=
    match g with
    | OpEq => [ LoadPs r4_t1 p4_In k; StorePs p4_Out k r4_t1 ]
    | OpAdd => [ LoadPs r4_t1 p4_Out k; LoadPs r4_t2 p4_In k; AddV r4_t3 r4_t1 r4_t2; StorePs p4_Out k r4_t3 ]
    | OpSub => [ LoadPs r4_t1 p4_Out k; LoadPs r4_t2 p4_In k; SubV r4_t3 r4_t1 r4_t2; StorePs p4_Out k r4_t3 ]
    end.

  Definition inv_scale (a : V) (rg : N -> option (list V)) : Prop := rg r4_vscalep = Some [a; a; a; a].
  Definition inv_two (a b : V) (rg : N -> option (list V)) : Prop :=
    rg r4_va = Some [a; a; a; a] /\ rg r4_vb = Some [b; b; b; b].
  Definition inv_none (rg : N -> option (list V)) : Prop := True.

  Definition plus (w : bool) : V -> V -> V := if w then a_add ar else a_sub ar.

  Lemma good_axpy w a d x y py : good_line ar d x y (fun u v => plus w (a_mul ar a u) v) p4_Out p4_InScale py (inv_scale a) (line_axpy w py).
  Proof.
    intros k rg pt m o I P1 P2 P3 A D1 D2 D3.
    destruct (load4_ok m x _ A D2) as (x0 & x1 & x2 & x3 & L & X0 & X1 & X2 & X3).
    destruct (load4_ok m y _ A D3) as (y0 & y1 & y2 & y3 & L' & Y0 & Y1 & Y2 & Y3).
    destruct (store4_ok d x y (fun u v => plus w (a_mul ar a u) v) m _ x0 x1 x2 x3 y0 y1 y2 y3 A D1 X0 X1 X2 X3 Y0 Y1 Y2 Y3) as [m' [E W]].
    unfold line_axpy. cbn [run4 exec4 regs4 ptrs4 mem4]. rewrite P2. rewrite L.
    cbn [run4 exec4 regs4 ptrs4 mem4]. rewrite !ap4. cbn [N.eqb Pos.eqb r4_vscalep r4_t1]. unfold inv_scale in I.
    rewrite I.
    cbn [lanes run4 exec4 regs4 ptrs4 mem4]. rewrite P3, L'. cbn [run4 exec4 regs4 ptrs4 mem4].
    destruct w; (eexists; exists m'; split; [|split; [|exact W]]).
    1, 3: cbn [run4 exec4 regs4 ptrs4 mem4 plus] in *; rewrite ?ap4; cbn [N.eqb Pos.eqb r4_t2 r4_t3 r4_t4 lanes regs4 ptrs4 mem4 run4 exec4];
        rewrite ?ap4; cbn [N.eqb Pos.eqb r4_t4]; rewrite P1, E; reflexivity.
    all: unfold inv_scale; rewrite !ap4; cbn [N.eqb Pos.eqb r4_t1 r4_t2 r4_t3 r4_t4 r4_vscalep]; exact I.
  Qed.

  Lemma good_op w d x y : good_line ar d x y (plus w) p4_Out p4_In1 p4_In2 inv_none (line_op w).
  Proof.
    intros k rg pt m o I P1 P2 P3 A D1 D2 D3.
    destruct (load4_ok m x _ A D2) as (x0 & x1 & x2 & x3 & L & X0 & X1 & X2 & X3).
    destruct (load4_ok m y _ A D3) as (y0 & y1 & y2 & y3 & L' & Y0 & Y1 & Y2 & Y3).
    destruct (store4_ok d x y (plus w) m _ x0 x1 x2 x3 y0 y1 y2 y3 A D1 X0 X1 X2 X3 Y0 Y1 Y2 Y3) as [m' [E W]].
    unfold line_op. cbn [run4 exec4 regs4 ptrs4 mem4]. rewrite P2, L.
    cbn [run4 exec4 regs4 ptrs4 mem4]. rewrite P3, L'. cbn [run4 exec4 regs4 ptrs4 mem4].
    destruct w; (eexists; exists m'; (split; [|split; [exact Logic.I|exact W]])); cbn [run4 exec4 regs4 ptrs4 mem4 plus] in *; rewrite ?ap4; cbn [N.eqb Pos.eqb r4_t1 r4_t2 r4_t3 lanes regs4 ptrs4 mem4 run4 exec4];
        rewrite ?ap4; cbn [N.eqb Pos.eqb r4_t3]; rewrite P1, E; reflexivity.
  Qed.

  Lemma good_scal a d x : good_line ar d x x (fun u _ => a_mul ar a u) p4_Out p4_In p4_In (inv_scale a) line_scal.
  Proof.
    intros k rg pt m o I P1 P2 P3 A D1 D2 D3.
    destruct (load4_ok m x _ A D2) as (x0 & x1 & x2 & x3 & L & X0 & X1 & X2 & X3).
    destruct (store4_ok d x x (fun u _ => a_mul ar a u) m _ x0 x1 x2 x3 x0 x1 x2 x3 A D1 X0 X1 X2 X3 X0 X1 X2 X3) as [m' [E W]].
    unfold line_scal. cbn [run4 exec4 regs4 ptrs4 mem4]. rewrite P2, L.
    cbn [run4 exec4 regs4 ptrs4 mem4]. rewrite !ap4. cbn [N.eqb Pos.eqb r4_vscalep r4_t1]. unfold inv_scale in I.
    rewrite I.
    cbn [lanes run4 exec4 regs4 ptrs4 mem4]. rewrite P1, !ap4. cbn [N.eqb Pos.eqb r4_t2]. cbn beta in E. rewrite E.
    eexists; exists m'; (split; [reflexivity|split; [|exact W]]).
    unfold inv_scale. rewrite !ap4. cbn [N.eqb Pos.eqb r4_t1 r4_t2 r4_vscalep]. exact I.
  Qed.

  Lemma good_axby w a b d x y : good_line ar d x y (fun u v => plus w (a_mul ar a u) (a_mul ar b v)) p4_Out p4_x p4_y (inv_two a b) (line_axby w).
  Proof.
    intros k rg pt m o [I I'] P1 P2 P3 A D1 D2 D3.
    destruct (load4_ok m x _ A D2) as (x0 & x1 & x2 & x3 & L & X0 & X1 & X2 & X3).
    destruct (load4_ok m y _ A D3) as (y0 & y1 & y2 & y3 & L' & Y0 & Y1 & Y2 & Y3).
    destruct (store4_ok d x y (fun u v => plus w (a_mul ar a u) (a_mul ar b v)) m _ x0 x1 x2 x3 y0 y1 y2 y3 A D1 X0 X1 X2 X3 Y0 Y1 Y2 Y3) as [m' [E W]].

    unfold line_axby. cbn [run4 exec4 regs4 ptrs4 mem4]. rewrite P2, L.
    cbn [run4 exec4 regs4 ptrs4 mem4]. rewrite !ap4. cbn [N.eqb Pos.eqb r4_va r4_t1]. rewrite I.
    cbn [lanes run4 exec4 regs4 ptrs4 mem4]. rewrite P3, L'. cbn [run4 exec4 regs4 ptrs4 mem4].
    rewrite !ap4. cbn [N.eqb Pos.eqb r4_vb r4_t1 r4_t2 r4_t3]. rewrite I'. cbn [lanes run4 exec4 regs4 ptrs4 mem4].
    destruct w; (eexists; exists m'; split; [|split; [|exact W]]).
    1, 3: cbn [run4 exec4 regs4 ptrs4 mem4 plus] in *; rewrite ?ap4; cbn [N.eqb Pos.eqb r4_t2 r4_t3 r4_t4 lanes regs4 ptrs4 mem4 run4 exec4];
        rewrite ?ap4; cbn [N.eqb Pos.eqb r4_t5]; rewrite P1, E; reflexivity.
    all: unfold inv_two; rewrite !ap4; cbn [N.eqb Pos.eqb r4_t1 r4_t2 r4_t3 r4_t4 r4_t5 r4_va r4_vb]; split; assumption.
  Qed.

  Definition cword (g : assign) (z x : V) : V :=
    match g with OpEq => x | OpAdd => a_add ar z x | OpSub => a_sub ar z x end.

  Lemma good_copy g d x : good_line ar d d x (cword g) p4_Out p4_Out p4_In inv_none (line_copy g).
  Proof.
    intros k rg pt m o I P1 P2 P3 A D1 D2 D3.
    destruct (load4_ok m d _ A D1) as (z0 & z1 & z2 & z3 & L & X0 & X1 & X2 & X3).
    destruct (load4_ok m x _ A D3) as (y0 & y1 & y2 & y3 & L' & Y0 & Y1 & Y2 & Y3).
    destruct (store4_ok d d x (cword g) m _ z0 z1 z2 z3 y0 y1 y2 y3 A D1 X0 X1 X2 X3 Y0 Y1 Y2 Y3) as [m' [E W]].
    destruct g; unfold line_copy; cbn [cword] in E; cbn [run4 exec4 regs4 ptrs4 mem4]; rewrite ?P1, ?L, ?P3, ?L';
      cbn [run4 exec4 regs4 ptrs4 mem4]; rewrite ?P3, ?L'; cbn [run4 exec4 regs4 ptrs4 mem4];
      rewrite ?ap4; cbn [N.eqb Pos.eqb r4_t1 r4_t2 r4_t3 lanes regs4 ptrs4 mem4 run4 exec4]; rewrite ?ap4;
      cbn [N.eqb Pos.eqb r4_t1 r4_t2 r4_t3 lanes regs4 ptrs4 mem4 run4 exec4]; rewrite ?P1, E;
      (eexists; exists m'; (split; [reflexivity|split; [exact Logic.I|exact W]])).
  Qed.

  (** ** One call of a kernel *)
  Ltac bumps := 
    intros rg pt m o P1 P2 P3; cbn [run4 exec4 regs4 ptrs4 mem4]; rewrite ?P1, ?P2, ?P3;
    cbn [run4 exec4 regs4 ptrs4 mem4]; rewrite ?ap4; 
    cbn [N.eqb Pos.eqb p4_Out p4_InScale p4_Add p4_Sub p4_In1 p4_In2 p4_In p4_x p4_y] in *;
    rewrite ?P1, ?P2, ?P3; cbn [run4 exec4 regs4 ptrs4 mem4]; rewrite ?ap4;
    cbn [N.eqb Pos.eqb p4_Out p4_InScale p4_Add p4_Sub p4_In1 p4_In2 p4_In p4_x p4_y] in *;
    rewrite ?P1, ?P2, ?P3; cbn [run4 exec4 regs4 ptrs4 mem4]; 
    eexists; (split; [reflexivity|]); rewrite ?ap4;
    cbn [N.eqb Pos.eqb p4_Out p4_InScale p4_Add p4_Sub p4_In1 p4_In2 p4_In p4_x p4_y];
    repeat split; reflexivity.

  Lemma body_axpy a d x y : good_body ar d x y (fun u v => a_add ar (a_mul ar a u) v) p4_Out p4_InScale p4_Add (inv_scale a) 6 vaxpy3_body.
  Proof.
    change vaxpy3_body with (flat_map (line_axpy true p4_Add) (map (fun i => 4 * i) (seq 0 6)) ++ [Bump4 p4_Out 24; Bump4 p4_InScale 24; Bump4 p4_Add 24]).
    apply body_of_lines; [apply (good_axpy true)|]. bumps.
  Qed.
  Lemma body_axmy a d x y : good_body ar d x y (fun u v => a_sub ar (a_mul ar a u) v) p4_Out p4_InScale p4_Sub (inv_scale a) 6 vaxmy3_body.
  Proof.
    change vaxmy3_body with (flat_map (line_axpy false p4_Sub) (map (fun i => 4 * i) (seq 0 6)) ++ [Bump4 p4_Out 24; Bump4 p4_InScale 24; Bump4 p4_Sub 24]).
    apply body_of_lines; [apply (good_axpy false)|]. bumps.
  Qed.
  Lemma body_add d x y : good_body ar d x y (a_add ar) p4_Out p4_In1 p4_In2 inv_none 6 vadd_body.
  Proof.
    change vadd_body with (flat_map (line_op true) (map (fun i => 4 * i) (seq 0 6)) ++ [Bump4 p4_Out 24; Bump4 p4_In1 24; Bump4 p4_In2 24]).
    apply body_of_lines; [apply (good_op true)|]. bumps.
  Qed.
  Lemma body_sub d x y : good_body ar d x y (a_sub ar) p4_Out p4_In1 p4_In2 inv_none 6 vsub_body.
  Proof.
    change vsub_body with (flat_map (line_op false) (map (fun i => 4 * i) (seq 0 6)) ++ [Bump4 p4_Out 24; Bump4 p4_In1 24; Bump4 p4_In2 24]).
    apply body_of_lines; [apply (good_op false)|]. bumps.
  Qed.
  Lemma body_scal a d x : good_body ar d x x (fun u _ => a_mul ar a u) p4_Out p4_In p4_In (inv_scale a) 6 vscal_body.
  Proof.
    change vscal_body with (flat_map line_scal (map (fun i => 4 * i) (seq 0 6)) ++ [Bump4 p4_Out 24; Bump4 p4_In 24]).
    apply body_of_lines; [apply good_scal|]. bumps.
  Qed.
  Lemma body_axpby a b d x y : good_body ar d x y (fun u v => a_add ar (a_mul ar a u) (a_mul ar b v)) p4_Out p4_x p4_y (inv_two a b) 6 vaxpby3_body.
  Proof.
    change vaxpby3_body with (flat_map (line_axby true) (map (fun i => 4 * i) (seq 0 6)) ++ [Bump4 p4_Out 24; Bump4 p4_x 24; Bump4 p4_y 24]).
    apply body_of_lines; [apply (good_axby true)|]. bumps.
  Qed.
  Lemma body_axmby a b d x y : good_body ar d x y (fun u v => a_sub ar (a_mul ar a u) (a_mul ar b v)) p4_Out p4_x p4_y (inv_two a b) 6 vaxmby3_body.
  Proof.
    change vaxmby3_body with (flat_map (line_axby false) (map (fun i => 4 * i) (seq 0 6)) ++ [Bump4 p4_Out 24; Bump4 p4_x 24; Bump4 p4_y 24]).
    apply body_of_lines; [apply (good_axby false)|]. bumps.
  Qed.
  Lemma body_copy g d x : good_body ar d d x (cword g) p4_Out p4_Out p4_In inv_none 1 (copy_body g).
  Proof.
    replace (copy_body g) with (flat_map (line_copy g) (map (fun i => 4 * i) (seq 0 1)) ++ [Bump4 p4_Out 4; Bump4 p4_In 4]) by (destruct g; reflexivity).
    apply body_of_lines; [apply good_copy|]. bumps.
  Qed.
End Lines.
