(** The element-wise kernels: the values asked for by the symbolic executor. *)
From Coq Require Import ZArith List String Bool Lia Ring.
From Verif Require Import Base KernLang KernSym KernSound KernSpec KernRun KernBlas KernG5.
Import ListNotations.
Local Open Scope string_scope.
Local Open Scope Z_scope.

Lemma lval_mod k n c a b m : (a mod m =? 0) && (b mod m =? 0) && (0 <? m) = true ->
  lval k n (Lin c a b) mod m = c mod m.
Proof.
  rewrite !andb_true_iff, !Z.eqb_eq, Z.ltb_lt. intros [[A B] M]. unfold lval; cbn [c0 ck cn].
  rewrite (Z.div_mod a m), (Z.div_mod b m) by lia. rewrite A, B.
  replace (c + (m * (a / m) + 0) * k + (m * (b / m) + 0) * n) with (c + (a / m * k + b / m * n) * m) by ring.
  apply Z.mod_add. lia.
Qed.
Lemma lval_succ k n c a b : lval k n (Lin c a b) + 1 = lval k n (Lin (c + 1) a b).
Proof. unfold lval; cbn [c0 ck cn]. ring. Qed.
Lemma lval_pred k n c a b : lval k n (Lin c a b) - 1 = lval k n (Lin (c - 1) a b).
Proof. unfold lval; cbn [c0 ck cn]. ring. Qed.

Lemma lval_lit k n c : lval k n (Lin c 0 0) = c.
Proof. unfold lval; cbn [c0 ck cn]. ring. Qed.

Ltac closed_z :=
  repeat match goal with
  | |- context [Lin (Z.add ?c ?d) _ _] => let r := eval vm_compute in (Z.add c d) in change (Z.add c d) with r
  | |- context [Lin (Z.sub ?c ?d) _ _] => let r := eval vm_compute in (Z.sub c d) in change (Z.sub c d) with r
  | |- context [if ?b then _ else _] => let r := eval vm_compute in b in change b with r; cbv iota
  end.
Ltac each tac :=
  repeat (apply Forall_cons;
          [ unfold value_ok; cbn [fst snd value_ok1 vden]; try (let j := fresh "j" in let Hj := fresh "Hj" in intros j Hj); tac | ]);
  apply Forall_nil.
Ltac elementwise_with tac :=
  match goal with
  | |- elementwise _ _ _ _ _ ?c ?ps ?cnt ?out ?sc ?ar _ =>
      let r := eval vm_compute in (elementwise_check c ps cnt out sc ar) in
      match r with
      | Some ?l =>
          apply elementwise_ok with (v := l);
          [ vm_cast_no_check (eq_refl (Some l)) | intros X n Hn; each tac ]
      end
  end.
Ltac vector_value :=
  unfold vplus, vminus, scale, cscale, P_plus, P_minus, g5, times_i, upper, re_part;
  rewrite ?lval_succ, ?lval_pred, ?lval_mod by reflexivity;
  closed_z; rewrite ?lval_lit.

Section Kernels.
  Context {R : Type} (rO rI : R) (radd rmul rsub : R -> R -> R) (ropp : R -> R).
  Context (RT : ring_theory rO rI radd rmul rsub ropp eq).
  Add Ring R_ring : RT.
  Notation elementwise := (elementwise rO radd rmul rsub ropp).
  Notation vplus := (vplus radd).
  Notation vminus := (vminus rsub).
  Notation scale := (scale rmul).
  Notation cscale := (cscale radd rmul rsub).
  Notation P_plus := (P_plus rO).
  Notation P_minus := (P_minus rO).
  Notation g5 := (g5 ropp).
  Notation times_i := (times_i ropp).
  Ltac kernel := elementwise_with ltac:(vector_value; ring).

  Lemma vaxpy3_ok : elementwise vaxpy3 ["Out"; "scalep"; "InScale"; "Add"] "n_4vec" "Out" [("scalep", 1)] [("InScale", 0); ("Add", 0)]
    (fun X => vplus (scale (X "scalep") (X "InScale")) (X "Add")).
  Proof. kernel. Qed.
  Lemma vaxmy3_ok : elementwise vaxmy3 ["Out"; "scalep"; "InScale"; "Sub"] "n_3vec" "Out" [("scalep", 1)] [("InScale", 0); ("Sub", 0)]
    (fun X => vminus (scale (X "scalep") (X "InScale")) (X "Sub")).
  Proof. kernel. Qed.
  Lemma vaxpby3_ok : elementwise vaxpby3 ["Out"; "ap"; "xp"; "bp"; "yp"] "n_3vec" "Out" [("ap", 1); ("bp", 1)] [("xp", 0); ("yp", 0)]
    (fun X => vplus (scale (X "ap") (X "xp")) (scale (X "bp") (X "yp"))).
  Proof. kernel. Qed.
  Lemma vaxmby3_ok : elementwise vaxmby3 ["Out"; "ap"; "xp"; "bp"; "yp"] "n_3vec" "Out" [("ap", 1); ("bp", 1)] [("xp", 0); ("yp", 0)]
    (fun X => vminus (scale (X "ap") (X "xp")) (scale (X "bp") (X "yp"))).
  Proof. kernel. Qed.
  Lemma vscal_ok : elementwise vscal ["Out"; "scalep"; "In"] "n_3vec" "Out" [("scalep", 1)] [("In", 0)]
    (fun X => scale (X "scalep") (X "In")).
  Proof. kernel. Qed.
  Lemma vadd_ok : elementwise vadd ["Out"; "In1"; "In2"] "n_3vec" "Out" [] [("In1", 0); ("In2", 0)]
    (fun X => vplus (X "In1") (X "In2")).
  Proof. kernel. Qed.
  Lemma vsub_ok : elementwise vsub ["Out"; "In1"; "In2"] "n_3vec" "Out" [] [("In1", 0); ("In2", 0)]
    (fun X => vminus (X "In1") (X "In2")).
  Proof. kernel. Qed.
  Lemma vcscal_ok : elementwise vcscal ["Out"; "scalep"; "In"] "n_3vec" "Out" [("scalep", 2)] [("In", 0)]
    (fun X => cscale (X "scalep") (X "In")).
  Proof. kernel. Qed.
  Lemma vcaxpy3_ok : elementwise vcaxpy3 ["Out"; "scalep"; "InScale"; "Add"] "n_3vec" "Out" [("scalep", 2)] [("InScale", 0); ("Add", 0)]
    (fun X => vplus (cscale (X "scalep") (X "InScale")) (X "Add")).
  Proof. kernel. Qed.
  Lemma vcaxmy3_ok : elementwise vcaxmy3 ["Out"; "scalep"; "InScale"; "Add"] "n_3vec" "Out" [("scalep", 2)] [("InScale", 0); ("Add", 0)]
    (fun X => vminus (cscale (X "scalep") (X "InScale")) (X "Add")).
  Proof. kernel. Qed.
  Lemma vcaxpby3_ok : elementwise vcaxpby3 ["Out"; "ap"; "xp"; "bp"; "yp"] "n_3vec" "Out" [("ap", 2); ("bp", 2)] [("xp", 0); ("yp", 0)]
    (fun X => vplus (cscale (X "ap") (X "xp")) (cscale (X "bp") (X "yp"))).
  Proof. kernel. Qed.
  Lemma vcaxmby3_ok : elementwise vcaxmby3 ["Out"; "ap"; "xp"; "bp"; "yp"] "n_3vec" "Out" [("ap", 2); ("bp", 2)] [("xp", 0); ("yp", 0)]
    (fun X => vminus (cscale (X "ap") (X "xp")) (cscale (X "bp") (X "yp"))).
  Proof. kernel. Qed.
  Lemma axpyz_g5ProjPlus_ok : elementwise axpyz_g5ProjPlus ["Out"; "scalep"; "InScale"; "Add"] "n_4vec" "Out" [("scalep", 1)] [("InScale", 0); ("Add", 1)]
    (fun X => vplus (scale (X "scalep") (X "InScale")) (P_plus (X "Add"))).
  Proof. kernel. Qed.
  Lemma axmyz_g5ProjPlus_ok : elementwise axmyz_g5ProjPlus ["Out"; "scalep"; "InScale"; "Add"] "n_4vec" "Out" [("scalep", 1)] [("InScale", 0); ("Add", 0)]
    (fun X => vminus (scale (X "scalep") (X "InScale")) (P_plus (X "Add"))).
  Proof. kernel. Qed.
  Lemma xpayz_g5ProjPlus_ok : elementwise xpayz_g5ProjPlus ["Out"; "scalep"; "Add"; "InScale"] "n_4vec" "Out" [("scalep", 1)] [("InScale", 0); ("Add", 2)]
    (fun X => vplus (X "Add") (scale (X "scalep") (P_plus (X "InScale")))).
  Proof. kernel. Qed.
  Lemma xmayz_g5ProjPlus_ok : elementwise xmayz_g5ProjPlus ["Out"; "scalep"; "Add"; "InScale"] "n_4vec" "Out" [("scalep", 1)] [("InScale", 0); ("Add", 2)]
    (fun X => vminus (X "Add") (scale (X "scalep") (P_plus (X "InScale")))).
  Proof. kernel. Qed.
  Lemma add_g5ProjPlus_ok : elementwise add_g5ProjPlus ["Out"; "X"; "Y"] "n_4vec" "Out" [] [("X", 2); ("Y", 0)]
    (fun X => vplus (X "X") (P_plus (X "Y"))).
  Proof. kernel. Qed.
  Lemma sub_g5ProjPlus_ok : elementwise sub_g5ProjPlus ["Out"; "X"; "Y"] "n_4vec" "Out" [] [("X", 2); ("Y", 0)]
    (fun X => vminus (X "X") (P_plus (X "Y"))).
  Proof. kernel. Qed.
  Lemma scal_g5ProjPlus_ok : elementwise scal_g5ProjPlus ["Out"; "scalep"; "In"] "n_4vec" "Out" [("scalep", 1)] [("In", 0)]
    (fun X => scale (X "scalep") (P_plus (X "In"))).
  Proof. kernel. Qed.
  Lemma axpbyz_g5ProjPlus_ok : elementwise axpbyz_g5ProjPlus ["Out"; "scalep"; "InScale"; "scalep2"; "Add"] "n_4vec" "Out" [("scalep", 1); ("scalep2", 1)] [("InScale", 0); ("Add", 1)]
    (fun X => vplus (scale (X "scalep") (X "InScale")) (scale (X "scalep2") (P_plus (X "Add")))).
  Proof. kernel. Qed.
  Lemma axmbyz_g5ProjPlus_ok : elementwise axmbyz_g5ProjPlus ["Out"; "scalep"; "InScale"; "scalep2"; "Add"] "n_4vec" "Out" [("scalep", 1); ("scalep2", 1)] [("InScale", 0); ("Add", 1)]
    (fun X => vminus (scale (X "scalep") (X "InScale")) (scale (X "scalep2") (P_plus (X "Add")))).
  Proof. kernel. Qed.
  Lemma axpyz_g5ProjMinus_ok : elementwise axpyz_g5ProjMinus ["Out"; "scalep"; "InScale"; "Add"] "n_4vec" "Out" [("scalep", 1)] [("InScale", 0); ("Add", 0)]
    (fun X => vplus (scale (X "scalep") (X "InScale")) (P_minus (X "Add"))).
  Proof. kernel. Qed.
  Lemma axmyz_g5ProjMinus_ok : elementwise axmyz_g5ProjMinus ["Out"; "scalep"; "InScale"; "Add"] "n_4vec" "Out" [("scalep", 1)] [("InScale", 0); ("Add", 0)]
    (fun X => vminus (scale (X "scalep") (X "InScale")) (P_minus (X "Add"))).
  Proof. kernel. Qed.
  Lemma xpayz_g5ProjMinus_ok : elementwise xpayz_g5ProjMinus ["Out"; "scalep"; "Add"; "InScale"] "n_4vec" "Out" [("scalep", 1)] [("InScale", 0); ("Add", 0)]
    (fun X => vplus (X "Add") (scale (X "scalep") (P_minus (X "InScale")))).
  Proof. kernel. Qed.
  Lemma xmayz_g5ProjMinus_ok : elementwise xmayz_g5ProjMinus ["Out"; "scalep"; "Add"; "InScale"] "n_4vec" "Out" [("scalep", 1)] [("InScale", 0); ("Add", 0)]
    (fun X => vminus (X "Add") (scale (X "scalep") (P_minus (X "InScale")))).
  Proof. kernel. Qed.
  Lemma add_g5ProjMinus_ok : elementwise add_g5ProjMinus ["Out"; "X"; "Y"] "n_4vec" "Out" [] [("X", 0); ("Y", 0)]
    (fun X => vplus (X "X") (P_minus (X "Y"))).
  Proof. kernel. Qed.
  Lemma sub_g5ProjMinus_ok : elementwise sub_g5ProjMinus ["Out"; "X"; "Y"] "n_4vec" "Out" [] [("X", 0); ("Y", 0)]
    (fun X => vminus (X "X") (P_minus (X "Y"))).
  Proof. kernel. Qed.
  Lemma scal_g5ProjMinus_ok : elementwise scal_g5ProjMinus ["Out"; "scalep"; "In"] "n_4vec" "Out" [("scalep", 1)] [("In", 0)]
    (fun X => scale (X "scalep") (P_minus (X "In"))).
  Proof. kernel. Qed.
  Lemma axpbyz_g5ProjMinus_ok : elementwise axpbyz_g5ProjMinus ["Out"; "scalep"; "InScale"; "scalep2"; "Add"] "n_4vec" "Out" [("scalep", 1); ("scalep2", 1)] [("InScale", 0); ("Add", 0)]
    (fun X => vplus (scale (X "scalep") (X "InScale")) (scale (X "scalep2") (P_minus (X "Add")))).
  Proof. kernel. Qed.
  Lemma axmbyz_g5ProjMinus_ok : elementwise axmbyz_g5ProjMinus ["Out"; "scalep"; "InScale"; "scalep2"; "Add"] "n_4vec" "Out" [("scalep", 1); ("scalep2", 1)] [("InScale", 0); ("Add", 0)]
    (fun X => vminus (scale (X "scalep") (X "InScale")) (scale (X "scalep2") (P_minus (X "Add")))).
  Proof. kernel. Qed.
  Lemma scal_g5_ok : elementwise scal_g5 ["Out"; "scalep"; "In"] "n_4vec" "Out" [("scalep", 1)] [("In", 0)]
    (fun X => scale (X "scalep") (g5 (X "In"))).
  Proof. kernel. Qed.
  Lemma axpbyz_g5_ok : elementwise axpbyz_g5 ["Out"; "scalep"; "InScale"; "scalep2"; "Add"] "n_4vec" "Out" [("scalep", 1); ("scalep2", 1)] [("InScale", 0); ("Add", 0)]
    (fun X => vplus (scale (X "scalep") (X "InScale")) (scale (X "scalep2") (g5 (X "Add")))).
  Proof. kernel. Qed.
  Lemma xmayz_g5_ok : elementwise xmayz_g5 ["Out"; "scalep"; "Add"; "InScale"] "n_4vec" "Out" [("scalep", 1)] [("InScale", 0); ("Add", 0)]
    (fun X => vminus (X "Add") (scale (X "scalep") (g5 (X "InScale")))).
  Proof. kernel. Qed.
  Lemma g5_axmbyz_ok : elementwise g5_axmbyz ["Out"; "scalep"; "InScale"; "scalep2"; "Add"] "n_4vec" "Out" [("scalep", 1); ("scalep2", 1)] [("InScale", 0); ("Add", 0)]
    (fun X => g5 (vminus (scale (X "scalep") (X "InScale")) (scale (X "scalep2") (X "Add")))).
  Proof. kernel. Qed.
  Lemma axpbyz_ig5_ok : elementwise axpbyz_ig5 ["Out"; "scalep"; "InScale"; "scalep2"; "Add"] "n_4vec" "Out" [("scalep", 1); ("scalep2", 1)] [("InScale", 0); ("Add", 0)]
    (fun X => vplus (scale (X "scalep") (X "InScale")) (scale (X "scalep2") (times_i (g5 (X "Add"))))).
  Proof. kernel. Qed.
  Lemma axmbyz_ig5_ok : elementwise axmbyz_ig5 ["Out"; "scalep"; "InScale"; "scalep2"; "Add"] "n_4vec" "Out" [("scalep", 1); ("scalep2", 1)] [("InScale", 0); ("Add", 0)]
    (fun X => vminus (scale (X "scalep") (X "InScale")) (scale (X "scalep2") (times_i (g5 (X "Add"))))).
  Proof. kernel. Qed.
  Lemma xpayz_ig5_ok : elementwise xpayz_ig5 ["Out"; "scalep"; "InScale"; "Add"] "n_4vec" "Out" [("scalep", 1)] [("InScale", 0); ("Add", 0)]
    (fun X => vplus (X "InScale") (scale (X "scalep") (times_i (g5 (X "Add"))))).
  Proof. kernel. Qed.
  Lemma xmayz_ig5_ok : elementwise xmayz_ig5 ["Out"; "scalep"; "InScale"; "Add"] "n_4vec" "Out" [("scalep", 1)] [("InScale", 0); ("Add", 0)]
    (fun X => vminus (X "InScale") (scale (X "scalep") (times_i (g5 (X "Add"))))).
  Proof. kernel. Qed.
End Kernels.
