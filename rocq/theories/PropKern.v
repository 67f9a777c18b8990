(** C53, C55, C76: the hand-unrolled kernels. *)
From Coq Require Import ZArith List String Bool Lia Ring.
From Verif Require Import Base GammaModel GammaSpec KernLang KernBlas KernG5 KernSpin KernSpec.
From Verif Require Import KernVec KernSums KernNorm KernHalf KernBound.
Import ListNotations.
Local Open Scope string_scope.
Local Open Scope Z_scope.

(** * C55  The kernels compute the vectors they stand for

    [elementwise kernel parameters count output scalars arrays f] (KernSpec.v): for every memory,
    every addresses (an array may be the output itself) and every number of sites, the call
    ends normally, the output holds [f] of the old contents and nothing else changed.
    The number beside an array is how many reals it must have beyond the last site. *)

(** Real combinations: a x + y, a x - y, a x + b y, a x - b y, a x, x + y, x - y. *)
Theorem C55_real_kernels : forall (R : Type) (rO rI : R) (radd rmul rsub : R -> R -> R) (ropp : R -> R),
  ring_theory rO rI radd rmul rsub ropp eq ->
  let elementwise := elementwise rO radd rmul rsub ropp in
  let vplus := vplus radd in let vminus := vminus rsub in
  let scale := scale rmul in let cscale := cscale radd rmul rsub in
  let P_plus := P_plus rO in let P_minus := P_minus rO in let g5 := g5 ropp in let times_i := times_i ropp in
  elementwise vaxpy3 ["Out"; "scalep"; "InScale"; "Add"] "n_4vec" "Out" [("scalep", 1)] [("InScale", 0); ("Add", 0)]
    (fun X => vplus (scale (X "scalep") (X "InScale")) (X "Add")) /\
  elementwise vaxmy3 ["Out"; "scalep"; "InScale"; "Sub"] "n_3vec" "Out" [("scalep", 1)] [("InScale", 0); ("Sub", 0)]
    (fun X => vminus (scale (X "scalep") (X "InScale")) (X "Sub")) /\
  elementwise vaxpby3 ["Out"; "ap"; "xp"; "bp"; "yp"] "n_3vec" "Out" [("ap", 1); ("bp", 1)] [("xp", 0); ("yp", 0)]
    (fun X => vplus (scale (X "ap") (X "xp")) (scale (X "bp") (X "yp"))) /\
  elementwise vaxmby3 ["Out"; "ap"; "xp"; "bp"; "yp"] "n_3vec" "Out" [("ap", 1); ("bp", 1)] [("xp", 0); ("yp", 0)]
    (fun X => vminus (scale (X "ap") (X "xp")) (scale (X "bp") (X "yp"))) /\
  elementwise vscal ["Out"; "scalep"; "In"] "n_3vec" "Out" [("scalep", 1)] [("In", 0)]
    (fun X => scale (X "scalep") (X "In")) /\
  elementwise vadd ["Out"; "In1"; "In2"] "n_3vec" "Out" [] [("In1", 0); ("In2", 0)]
    (fun X => vplus (X "In1") (X "In2")) /\
  elementwise vsub ["Out"; "In1"; "In2"] "n_3vec" "Out" [] [("In1", 0); ("In2", 0)]
    (fun X => vminus (X "In1") (X "In2")).
Proof.
  intros R rO rI radd rmul rsub ropp RT. cbv zeta.
  split; [exact (vaxpy3_ok rO rI radd rmul rsub ropp RT)|].
  split; [exact (vaxmy3_ok rO rI radd rmul rsub ropp RT)|].
  split; [exact (vaxpby3_ok rO rI radd rmul rsub ropp RT)|].
  split; [exact (vaxmby3_ok rO rI radd rmul rsub ropp RT)|].
  split; [exact (vscal_ok rO rI radd rmul rsub ropp RT)|].
  split; [exact (vadd_ok rO rI radd rmul rsub ropp RT)|].
  exact (vsub_ok rO rI radd rmul rsub ropp RT).
Qed.
Print Assumptions C55_real_kernels.

(** Complex factors. *)
Theorem C55_complex_kernels : forall (R : Type) (rO rI : R) (radd rmul rsub : R -> R -> R) (ropp : R -> R),
  ring_theory rO rI radd rmul rsub ropp eq ->
  let elementwise := elementwise rO radd rmul rsub ropp in
  let vplus := vplus radd in let vminus := vminus rsub in
  let scale := scale rmul in let cscale := cscale radd rmul rsub in
  let P_plus := P_plus rO in let P_minus := P_minus rO in let g5 := g5 ropp in let times_i := times_i ropp in
  elementwise vcscal ["Out"; "scalep"; "In"] "n_3vec" "Out" [("scalep", 2)] [("In", 0)]
    (fun X => cscale (X "scalep") (X "In")) /\
  elementwise vcaxpy3 ["Out"; "scalep"; "InScale"; "Add"] "n_3vec" "Out" [("scalep", 2)] [("InScale", 0); ("Add", 0)]
    (fun X => vplus (cscale (X "scalep") (X "InScale")) (X "Add")) /\
  elementwise vcaxmy3 ["Out"; "scalep"; "InScale"; "Add"] "n_3vec" "Out" [("scalep", 2)] [("InScale", 0); ("Add", 0)]
    (fun X => vminus (cscale (X "scalep") (X "InScale")) (X "Add")) /\
  elementwise vcaxpby3 ["Out"; "ap"; "xp"; "bp"; "yp"] "n_3vec" "Out" [("ap", 2); ("bp", 2)] [("xp", 0); ("yp", 0)]
    (fun X => vplus (cscale (X "ap") (X "xp")) (cscale (X "bp") (X "yp"))) /\
  elementwise vcaxmby3 ["Out"; "ap"; "xp"; "bp"; "yp"] "n_3vec" "Out" [("ap", 2); ("bp", 2)] [("xp", 0); ("yp", 0)]
    (fun X => vminus (cscale (X "ap") (X "xp")) (cscale (X "bp") (X "yp"))).
Proof.
  intros R rO rI radd rmul rsub ropp RT. cbv zeta.
  split; [exact (vcscal_ok rO rI radd rmul rsub ropp RT)|].
  split; [exact (vcaxpy3_ok rO rI radd rmul rsub ropp RT)|].
  split; [exact (vcaxmy3_ok rO rI radd rmul rsub ropp RT)|].
  split; [exact (vcaxpby3_ok rO rI radd rmul rsub ropp RT)|].
  exact (vcaxmby3_ok rO rI radd rmul rsub ropp RT).
Qed.
Print Assumptions C55_complex_kernels.

(** With the upper ([P_plus]) or lower ([P_minus]) two spin components of one operand. *)
Theorem C55_projected_kernels : forall (R : Type) (rO rI : R) (radd rmul rsub : R -> R -> R) (ropp : R -> R),
  ring_theory rO rI radd rmul rsub ropp eq ->
  let elementwise := elementwise rO radd rmul rsub ropp in
  let vplus := vplus radd in let vminus := vminus rsub in
  let scale := scale rmul in let cscale := cscale radd rmul rsub in
  let P_plus := P_plus rO in let P_minus := P_minus rO in let g5 := g5 ropp in let times_i := times_i ropp in
  elementwise axpyz_g5ProjPlus ["Out"; "scalep"; "InScale"; "Add"] "n_4vec" "Out" [("scalep", 1)] [("InScale", 0); ("Add", 1)]
    (fun X => vplus (scale (X "scalep") (X "InScale")) (P_plus (X "Add"))) /\
  elementwise axmyz_g5ProjPlus ["Out"; "scalep"; "InScale"; "Add"] "n_4vec" "Out" [("scalep", 1)] [("InScale", 0); ("Add", 0)]
    (fun X => vminus (scale (X "scalep") (X "InScale")) (P_plus (X "Add"))) /\
  elementwise xpayz_g5ProjPlus ["Out"; "scalep"; "Add"; "InScale"] "n_4vec" "Out" [("scalep", 1)] [("InScale", 0); ("Add", 2)]
    (fun X => vplus (X "Add") (scale (X "scalep") (P_plus (X "InScale")))) /\
  elementwise xmayz_g5ProjPlus ["Out"; "scalep"; "Add"; "InScale"] "n_4vec" "Out" [("scalep", 1)] [("InScale", 0); ("Add", 2)]
    (fun X => vminus (X "Add") (scale (X "scalep") (P_plus (X "InScale")))) /\
  elementwise add_g5ProjPlus ["Out"; "X"; "Y"] "n_4vec" "Out" [] [("X", 2); ("Y", 0)]
    (fun X => vplus (X "X") (P_plus (X "Y"))) /\
  elementwise sub_g5ProjPlus ["Out"; "X"; "Y"] "n_4vec" "Out" [] [("X", 2); ("Y", 0)]
    (fun X => vminus (X "X") (P_plus (X "Y"))) /\
  elementwise scal_g5ProjPlus ["Out"; "scalep"; "In"] "n_4vec" "Out" [("scalep", 1)] [("In", 0)]
    (fun X => scale (X "scalep") (P_plus (X "In"))) /\
  elementwise axpbyz_g5ProjPlus ["Out"; "scalep"; "InScale"; "scalep2"; "Add"] "n_4vec" "Out" [("scalep", 1); ("scalep2", 1)] [("InScale", 0); ("Add", 1)]
    (fun X => vplus (scale (X "scalep") (X "InScale")) (scale (X "scalep2") (P_plus (X "Add")))) /\
  elementwise axmbyz_g5ProjPlus ["Out"; "scalep"; "InScale"; "scalep2"; "Add"] "n_4vec" "Out" [("scalep", 1); ("scalep2", 1)] [("InScale", 0); ("Add", 1)]
    (fun X => vminus (scale (X "scalep") (X "InScale")) (scale (X "scalep2") (P_plus (X "Add")))) /\
  elementwise axpyz_g5ProjMinus ["Out"; "scalep"; "InScale"; "Add"] "n_4vec" "Out" [("scalep", 1)] [("InScale", 0); ("Add", 0)]
    (fun X => vplus (scale (X "scalep") (X "InScale")) (P_minus (X "Add"))) /\
  elementwise axmyz_g5ProjMinus ["Out"; "scalep"; "InScale"; "Add"] "n_4vec" "Out" [("scalep", 1)] [("InScale", 0); ("Add", 0)]
    (fun X => vminus (scale (X "scalep") (X "InScale")) (P_minus (X "Add"))) /\
  elementwise xpayz_g5ProjMinus ["Out"; "scalep"; "Add"; "InScale"] "n_4vec" "Out" [("scalep", 1)] [("InScale", 0); ("Add", 0)]
    (fun X => vplus (X "Add") (scale (X "scalep") (P_minus (X "InScale")))) /\
  elementwise xmayz_g5ProjMinus ["Out"; "scalep"; "Add"; "InScale"] "n_4vec" "Out" [("scalep", 1)] [("InScale", 0); ("Add", 0)]
    (fun X => vminus (X "Add") (scale (X "scalep") (P_minus (X "InScale")))) /\
  elementwise add_g5ProjMinus ["Out"; "X"; "Y"] "n_4vec" "Out" [] [("X", 0); ("Y", 0)]
    (fun X => vplus (X "X") (P_minus (X "Y"))) /\
  elementwise sub_g5ProjMinus ["Out"; "X"; "Y"] "n_4vec" "Out" [] [("X", 0); ("Y", 0)]
    (fun X => vminus (X "X") (P_minus (X "Y"))) /\
  elementwise scal_g5ProjMinus ["Out"; "scalep"; "In"] "n_4vec" "Out" [("scalep", 1)] [("In", 0)]
    (fun X => scale (X "scalep") (P_minus (X "In"))) /\
  elementwise axpbyz_g5ProjMinus ["Out"; "scalep"; "InScale"; "scalep2"; "Add"] "n_4vec" "Out" [("scalep", 1); ("scalep2", 1)] [("InScale", 0); ("Add", 0)]
    (fun X => vplus (scale (X "scalep") (X "InScale")) (scale (X "scalep2") (P_minus (X "Add")))) /\
  elementwise axmbyz_g5ProjMinus ["Out"; "scalep"; "InScale"; "scalep2"; "Add"] "n_4vec" "Out" [("scalep", 1); ("scalep2", 1)] [("InScale", 0); ("Add", 0)]
    (fun X => vminus (scale (X "scalep") (X "InScale")) (scale (X "scalep2") (P_minus (X "Add")))).
Proof.
  intros R rO rI radd rmul rsub ropp RT. cbv zeta.
  split; [exact (axpyz_g5ProjPlus_ok rO rI radd rmul rsub ropp RT)|].
  split; [exact (axmyz_g5ProjPlus_ok rO rI radd rmul rsub ropp RT)|].
  split; [exact (xpayz_g5ProjPlus_ok rO rI radd rmul rsub ropp RT)|].
  split; [exact (xmayz_g5ProjPlus_ok rO rI radd rmul rsub ropp RT)|].
  split; [exact (add_g5ProjPlus_ok rO rI radd rmul rsub ropp RT)|].
  split; [exact (sub_g5ProjPlus_ok rO rI radd rmul rsub ropp RT)|].
  split; [exact (scal_g5ProjPlus_ok rO rI radd rmul rsub ropp RT)|].
  split; [exact (axpbyz_g5ProjPlus_ok rO rI radd rmul rsub ropp RT)|].
  split; [exact (axmbyz_g5ProjPlus_ok rO rI radd rmul rsub ropp RT)|].
  split; [exact (axpyz_g5ProjMinus_ok rO rI radd rmul rsub ropp RT)|].
  split; [exact (axmyz_g5ProjMinus_ok rO rI radd rmul rsub ropp RT)|].
  split; [exact (xpayz_g5ProjMinus_ok rO rI radd rmul rsub ropp RT)|].
  split; [exact (xmayz_g5ProjMinus_ok rO rI radd rmul rsub ropp RT)|].
  split; [exact (add_g5ProjMinus_ok rO rI radd rmul rsub ropp RT)|].
  split; [exact (sub_g5ProjMinus_ok rO rI radd rmul rsub ropp RT)|].
  split; [exact (scal_g5ProjMinus_ok rO rI radd rmul rsub ropp RT)|].
  split; [exact (axpbyz_g5ProjMinus_ok rO rI radd rmul rsub ropp RT)|].
  exact (axmbyz_g5ProjMinus_ok rO rI radd rmul rsub ropp RT).
Qed.
Print Assumptions C55_projected_kernels.

(** With gamma_5 or i gamma_5 on one operand. *)
Theorem C55_gamma5_kernels : forall (R : Type) (rO rI : R) (radd rmul rsub : R -> R -> R) (ropp : R -> R),
  ring_theory rO rI radd rmul rsub ropp eq ->
  let elementwise := elementwise rO radd rmul rsub ropp in
  let vplus := vplus radd in let vminus := vminus rsub in
  let scale := scale rmul in let cscale := cscale radd rmul rsub in
  let P_plus := P_plus rO in let P_minus := P_minus rO in let g5 := g5 ropp in let times_i := times_i ropp in
  elementwise scal_g5 ["Out"; "scalep"; "In"] "n_4vec" "Out" [("scalep", 1)] [("In", 0)]
    (fun X => scale (X "scalep") (g5 (X "In"))) /\
  elementwise axpbyz_g5 ["Out"; "scalep"; "InScale"; "scalep2"; "Add"] "n_4vec" "Out" [("scalep", 1); ("scalep2", 1)] [("InScale", 0); ("Add", 0)]
    (fun X => vplus (scale (X "scalep") (X "InScale")) (scale (X "scalep2") (g5 (X "Add")))) /\
  elementwise xmayz_g5 ["Out"; "scalep"; "Add"; "InScale"] "n_4vec" "Out" [("scalep", 1)] [("InScale", 0); ("Add", 0)]
    (fun X => vminus (X "Add") (scale (X "scalep") (g5 (X "InScale")))) /\
  elementwise g5_axmbyz ["Out"; "scalep"; "InScale"; "scalep2"; "Add"] "n_4vec" "Out" [("scalep", 1); ("scalep2", 1)] [("InScale", 0); ("Add", 0)]
    (fun X => g5 (vminus (scale (X "scalep") (X "InScale")) (scale (X "scalep2") (X "Add")))) /\
  elementwise axpbyz_ig5 ["Out"; "scalep"; "InScale"; "scalep2"; "Add"] "n_4vec" "Out" [("scalep", 1); ("scalep2", 1)] [("InScale", 0); ("Add", 0)]
    (fun X => vplus (scale (X "scalep") (X "InScale")) (scale (X "scalep2") (times_i (g5 (X "Add"))))) /\
  elementwise axmbyz_ig5 ["Out"; "scalep"; "InScale"; "scalep2"; "Add"] "n_4vec" "Out" [("scalep", 1); ("scalep2", 1)] [("InScale", 0); ("Add", 0)]
    (fun X => vminus (scale (X "scalep") (X "InScale")) (scale (X "scalep2") (times_i (g5 (X "Add"))))) /\
  elementwise xpayz_ig5 ["Out"; "scalep"; "InScale"; "Add"] "n_4vec" "Out" [("scalep", 1)] [("InScale", 0); ("Add", 0)]
    (fun X => vplus (X "InScale") (scale (X "scalep") (times_i (g5 (X "Add"))))) /\
  elementwise xmayz_ig5 ["Out"; "scalep"; "InScale"; "Add"] "n_4vec" "Out" [("scalep", 1)] [("InScale", 0); ("Add", 0)]
    (fun X => vminus (X "InScale") (scale (X "scalep") (times_i (g5 (X "Add"))))).
Proof.
  intros R rO rI radd rmul rsub ropp RT. cbv zeta.
  split; [exact (scal_g5_ok rO rI radd rmul rsub ropp RT)|].
  split; [exact (axpbyz_g5_ok rO rI radd rmul rsub ropp RT)|].
  split; [exact (xmayz_g5_ok rO rI radd rmul rsub ropp RT)|].
  split; [exact (g5_axmbyz_ok rO rI radd rmul rsub ropp RT)|].
  split; [exact (axpbyz_ig5_ok rO rI radd rmul rsub ropp RT)|].
  split; [exact (axmbyz_ig5_ok rO rI radd rmul rsub ropp RT)|].
  split; [exact (xpayz_ig5_ok rO rI radd rmul rsub ropp RT)|].
  exact (xmayz_ig5_ok rO rI radd rmul rsub ropp RT).
Qed.
Print Assumptions C55_gamma5_kernels.

(** Norm and inner products (conj(V1) V2), real and complex. *)
Theorem C55_sum_kernels : forall (R : Type) (rO rI : R) (radd rmul rsub : R -> R -> R) (ropp : R -> R),
  ring_theory rO rI radd rmul rsub ropp eq ->
  let reduces := reduces rO radd rmul rsub ropp in
  reduces local_sumsq ["Out"; "In"] "n_3vec" ["In"]
    [("Out", fun X n => sumsq rO radd rmul (X "In") (24 * n))] /\
  reduces l_vcdot_real ["Out"; "V1"; "V2"] "n_3vec" ["V1"; "V2"]
    [("Out", fun X n => dot_re rO radd rmul (X "V1") (X "V2") (12 * n))] /\
  reduces l_vcdot ["Out_re"; "Out_im"; "V1"; "V2"] "n_3vec" ["V1"; "V2"]
    [("Out_re", fun X n => dot_re rO radd rmul (X "V1") (X "V2") (12 * n));
     ("Out_im", fun X n => dot_im rO radd rmul rsub (X "V1") (X "V2") (12 * n))].
Proof.
  intros R rO rI radd rmul rsub ropp RT. cbv zeta.
  split; [eapply local_sumsq_ok; eauto|].
  split; [eapply l_vcdot_real_ok; eauto|].
  eapply l_vcdot_ok; eauto.
Qed.
Print Assumptions C55_sum_kernels.

(** The kernels with a norm handle six reals per count (a colour vector), where their
    namesakes above handle 24. *)
Theorem C55_norm_kernels : forall (R : Type) (rO rI : R) (radd rmul rsub : R -> R -> R) (ropp : R -> R),
  ring_theory rO rI radd rmul rsub ropp eq ->
  let with_norm := with_norm rO radd rmul rsub ropp in
  with_norm vaxpy3_norm ["Out"; "scalep"; "InScale"; "Add"; "norm"] "n_3vec" ["scalep"] ["InScale"; "Add"]
    (fun X => vplus radd (scale rmul (X "scalep") (X "InScale")) (X "Add")) /\
  with_norm vaxmby3_norm ["Out"; "ap"; "xp"; "bp"; "yp"; "norm"] "n_3vec" ["ap"; "bp"] ["xp"; "yp"]
    (fun X => vminus rsub (scale rmul (X "ap") (X "xp")) (scale rmul (X "bp") (X "yp"))).
Proof.
  intros R rO rI radd rmul rsub ropp RT. cbv zeta.
  split; [eapply vaxpy3_norm_ok; eauto|].
  eapply vaxmby3_norm_ok; eauto.
Qed.
Print Assumptions C55_norm_kernels.

(** The vectors named above are the spin projections and gamma_5 of C53 and C52. *)
Theorem C55_spin_parts : forall (R : Type) (rO : R) (radd rsub : R -> R -> R) (ropp : R -> R),
  let O := rcomplex_ops rO radd rsub ropp in
  forall (x : @vec R) (s c : Z), 0 <= c < 3 ->
  spinor (P_plus rO x) s c = chiralProjectPlus_vec O (spinor x s c) /\
  spinor (P_minus rO x) s c = chiralProjectMinus_vec O (spinor x s c) /\
  gamma_vec O DeGrandRossi 15 (spinor x s c) = Some (spinor (g5 ropp x) s c) /\
  spinor (times_i ropp x) s c = vmap (e_timesI O) (spinor x s c).
Proof. intros. now apply spin_parts. Qed.
Print Assumptions C55_spin_parts.

(** Two sites, integers, the output being one of the operands. *)
Example C55_case :
  let m := fun (b : nat) (o : Z) =>
    match b with
    | O => if (0 <=? o) && (o <? 50) then Some o else None
    | 1%nat => if (0 <=? o) && (o <? 48) then Some (100 + o) else None
    | _ => if o =? 0 then Some 3 else None
    end in
  let adr := fun x => if String.eqb x "scalep" then (2%nat, 0) else if String.eqb x "InScale" then (1%nat, 0) else (0%nat, 0) in
  (has m (adr "Out") 48 /\ has m (adr "scalep") 1 /\ has m (adr "InScale") 48 /\ has m (adr "Add") 50 /\
   adr "Add" = adr "Out" /\ apart (adr "InScale") (adr "Out") /\ apart (adr "scalep") (adr "Out")) /\
  match call 0 Z.add Z.mul Z.sub Z.opp xpayz_g5ProjPlus
          (map (fun x => (x, adr x)) ["Out"; "scalep"; "Add"; "InScale"]) [("n_4vec", 2)] m with
  | Val m' => map (fun i => cell m' (adr "Out") i) [0; 11; 12; 24; 47] =
              [Some 300; Some (11 + 333); Some 12; Some (24 + 372); Some 47]
  | _ => False
  end.
Proof.
  cbv zeta. split; [|vm_compute; reflexivity]. unfold has, cell, apart. cbn.
  repeat split; try discriminate; intros i Hi; replace (0 <=? i) with true by (symmetry; apply Z.leb_le; lia);
    cbn [andb]; try (destruct (Z.ltb_spec i 50); [discriminate|lia]); try (destruct (Z.ltb_spec i 48); [discriminate|lia]).
  destruct (Z.eqb_spec i 0); [discriminate|lia].
Qed.

(** * C53  The spin kernels *)

(** [projects mu s kernel] (KernSpec.v): on any number of sites the kernel stores the half
    spinors [spinProject(v, mu, s)] of C53; likewise for the other two. *)
Theorem C53_project_kernels : forall (R : Type) (rO rI : R) (radd rmul rsub : R -> R -> R) (ropp : R -> R),
  ring_theory rO rI radd rmul rsub ropp eq ->
  let projects := projects rO radd rmul rsub ropp in
  projects 0 1 inlineSpinProjDir0Plus /\
  projects 0 (-1) inlineSpinProjDir0Minus /\
  projects 1 1 inlineSpinProjDir1Plus /\
  projects 1 (-1) inlineSpinProjDir1Minus /\
  projects 2 1 inlineSpinProjDir2Plus /\
  projects 2 (-1) inlineSpinProjDir2Minus /\
  projects 3 1 inlineSpinProjDir3Plus /\
  projects 3 (-1) inlineSpinProjDir3Minus.
Proof.
  intros R rO rI radd rmul rsub ropp RT. cbv zeta.
  split; [exact (inlineSpinProjDir0Plus_ok rO rI radd rmul rsub ropp RT)|].
  split; [exact (inlineSpinProjDir0Minus_ok rO rI radd rmul rsub ropp RT)|].
  split; [exact (inlineSpinProjDir1Plus_ok rO rI radd rmul rsub ropp RT)|].
  split; [exact (inlineSpinProjDir1Minus_ok rO rI radd rmul rsub ropp RT)|].
  split; [exact (inlineSpinProjDir2Plus_ok rO rI radd rmul rsub ropp RT)|].
  split; [exact (inlineSpinProjDir2Minus_ok rO rI radd rmul rsub ropp RT)|].
  split; [exact (inlineSpinProjDir3Plus_ok rO rI radd rmul rsub ropp RT)|].
  exact (inlineSpinProjDir3Minus_ok rO rI radd rmul rsub ropp RT).
Qed.
Print Assumptions C53_project_kernels.

Theorem C53_reconstruct_kernels : forall (R : Type) (rO rI : R) (radd rmul rsub : R -> R -> R) (ropp : R -> R),
  ring_theory rO rI radd rmul rsub ropp eq ->
  let reconstructs := reconstructs rO radd rmul rsub ropp in
  reconstructs 0 1 inlineSpinReconDir0Plus /\
  reconstructs 0 (-1) inlineSpinReconDir0Minus /\
  reconstructs 1 1 inlineSpinReconDir1Plus /\
  reconstructs 1 (-1) inlineSpinReconDir1Minus /\
  reconstructs 2 1 inlineSpinReconDir2Plus /\
  reconstructs 2 (-1) inlineSpinReconDir2Minus /\
  reconstructs 3 1 inlineSpinReconDir3Plus /\
  reconstructs 3 (-1) inlineSpinReconDir3Minus.
Proof.
  intros R rO rI radd rmul rsub ropp RT. cbv zeta.
  split; [exact (inlineSpinReconDir0Plus_ok rO rI radd rmul rsub ropp RT)|].
  split; [exact (inlineSpinReconDir0Minus_ok rO rI radd rmul rsub ropp RT)|].
  split; [exact (inlineSpinReconDir1Plus_ok rO rI radd rmul rsub ropp RT)|].
  split; [exact (inlineSpinReconDir1Minus_ok rO rI radd rmul rsub ropp RT)|].
  split; [exact (inlineSpinReconDir2Plus_ok rO rI radd rmul rsub ropp RT)|].
  split; [exact (inlineSpinReconDir2Minus_ok rO rI radd rmul rsub ropp RT)|].
  split; [exact (inlineSpinReconDir3Plus_ok rO rI radd rmul rsub ropp RT)|].
  exact (inlineSpinReconDir3Minus_ok rO rI radd rmul rsub ropp RT).
Qed.
Print Assumptions C53_reconstruct_kernels.

Theorem C53_add_reconstruct_kernels : forall (R : Type) (rO rI : R) (radd rmul rsub : R -> R -> R) (ropp : R -> R),
  ring_theory rO rI radd rmul rsub ropp eq ->
  let adds_reconstruction := adds_reconstruction rO radd rmul rsub ropp in
  adds_reconstruction 0 1 inlineAddSpinReconDir0Plus /\
  adds_reconstruction 0 (-1) inlineAddSpinReconDir0Minus /\
  adds_reconstruction 1 1 inlineAddSpinReconDir1Plus /\
  adds_reconstruction 1 (-1) inlineAddSpinReconDir1Minus /\
  adds_reconstruction 2 1 inlineAddSpinReconDir2Plus /\
  adds_reconstruction 2 (-1) inlineAddSpinReconDir2Minus /\
  adds_reconstruction 3 1 inlineAddSpinReconDir3Plus /\
  adds_reconstruction 3 (-1) inlineAddSpinReconDir3Minus.
Proof.
  intros R rO rI radd rmul rsub ropp RT. cbv zeta.
  split; [exact (inlineAddSpinReconDir0Plus_ok rO rI radd rmul rsub ropp RT)|].
  split; [exact (inlineAddSpinReconDir0Minus_ok rO rI radd rmul rsub ropp RT)|].
  split; [exact (inlineAddSpinReconDir1Plus_ok rO rI radd rmul rsub ropp RT)|].
  split; [exact (inlineAddSpinReconDir1Minus_ok rO rI radd rmul rsub ropp RT)|].
  split; [exact (inlineAddSpinReconDir2Plus_ok rO rI radd rmul rsub ropp RT)|].
  split; [exact (inlineAddSpinReconDir2Minus_ok rO rI radd rmul rsub ropp RT)|].
  split; [exact (inlineAddSpinReconDir3Plus_ok rO rI radd rmul rsub ropp RT)|].
  exact (inlineAddSpinReconDir3Minus_ok rO rI radd rmul rsub ropp RT).
Qed.
Print Assumptions C53_add_reconstruct_kernels.

(** * C76  The kernels stay within the sites they are given

    [in_bounds kernel ...] (KernSpec.v): if the arrays have 24 reals for each of the [n] sites, the call
    touches no other address. *)
Theorem C76_in_bounds : forall (R : Type) (rO rI : R) (radd rmul rsub : R -> R -> R) (ropp : R -> R),
  ring_theory rO rI radd rmul rsub ropp eq ->
  let in_bounds := in_bounds rO radd rmul rsub ropp in
  in_bounds vaxpy3 ["Out"; "scalep"; "InScale"; "Add"] "n_4vec" "Out" [("scalep", 1)] ["InScale"; "Add"] /\
  in_bounds vaxmy3 ["Out"; "scalep"; "InScale"; "Sub"] "n_3vec" "Out" [("scalep", 1)] ["InScale"; "Sub"] /\
  in_bounds vaxpby3 ["Out"; "ap"; "xp"; "bp"; "yp"] "n_3vec" "Out" [("ap", 1); ("bp", 1)] ["xp"; "yp"] /\
  in_bounds vaxmby3 ["Out"; "ap"; "xp"; "bp"; "yp"] "n_3vec" "Out" [("ap", 1); ("bp", 1)] ["xp"; "yp"] /\
  in_bounds vscal ["Out"; "scalep"; "In"] "n_3vec" "Out" [("scalep", 1)] ["In"] /\
  in_bounds vadd ["Out"; "In1"; "In2"] "n_3vec" "Out" [] ["In1"; "In2"] /\
  in_bounds vsub ["Out"; "In1"; "In2"] "n_3vec" "Out" [] ["In1"; "In2"] /\
  in_bounds vcscal ["Out"; "scalep"; "In"] "n_3vec" "Out" [("scalep", 2)] ["In"] /\
  in_bounds vcaxpy3 ["Out"; "scalep"; "InScale"; "Add"] "n_3vec" "Out" [("scalep", 2)] ["InScale"; "Add"] /\
  in_bounds vcaxmy3 ["Out"; "scalep"; "InScale"; "Add"] "n_3vec" "Out" [("scalep", 2)] ["InScale"; "Add"] /\
  in_bounds vcaxpby3 ["Out"; "ap"; "xp"; "bp"; "yp"] "n_3vec" "Out" [("ap", 2); ("bp", 2)] ["xp"; "yp"] /\
  in_bounds vcaxmby3 ["Out"; "ap"; "xp"; "bp"; "yp"] "n_3vec" "Out" [("ap", 2); ("bp", 2)] ["xp"; "yp"] /\
  in_bounds axmyz_g5ProjPlus ["Out"; "scalep"; "InScale"; "Add"] "n_4vec" "Out" [("scalep", 1)] ["InScale"; "Add"] /\
  in_bounds scal_g5ProjPlus ["Out"; "scalep"; "In"] "n_4vec" "Out" [("scalep", 1)] ["In"] /\
  in_bounds axpyz_g5ProjMinus ["Out"; "scalep"; "InScale"; "Add"] "n_4vec" "Out" [("scalep", 1)] ["InScale"; "Add"] /\
  in_bounds axmyz_g5ProjMinus ["Out"; "scalep"; "InScale"; "Add"] "n_4vec" "Out" [("scalep", 1)] ["InScale"; "Add"] /\
  in_bounds xpayz_g5ProjMinus ["Out"; "scalep"; "Add"; "InScale"] "n_4vec" "Out" [("scalep", 1)] ["InScale"; "Add"] /\
  in_bounds xmayz_g5ProjMinus ["Out"; "scalep"; "Add"; "InScale"] "n_4vec" "Out" [("scalep", 1)] ["InScale"; "Add"] /\
  in_bounds add_g5ProjMinus ["Out"; "X"; "Y"] "n_4vec" "Out" [] ["X"; "Y"] /\
  in_bounds sub_g5ProjMinus ["Out"; "X"; "Y"] "n_4vec" "Out" [] ["X"; "Y"] /\
  in_bounds scal_g5ProjMinus ["Out"; "scalep"; "In"] "n_4vec" "Out" [("scalep", 1)] ["In"] /\
  in_bounds axpbyz_g5ProjMinus ["Out"; "scalep"; "InScale"; "scalep2"; "Add"] "n_4vec" "Out" [("scalep", 1); ("scalep2", 1)] ["InScale"; "Add"] /\
  in_bounds axmbyz_g5ProjMinus ["Out"; "scalep"; "InScale"; "scalep2"; "Add"] "n_4vec" "Out" [("scalep", 1); ("scalep2", 1)] ["InScale"; "Add"] /\
  in_bounds scal_g5 ["Out"; "scalep"; "In"] "n_4vec" "Out" [("scalep", 1)] ["In"] /\
  in_bounds axpbyz_g5 ["Out"; "scalep"; "InScale"; "scalep2"; "Add"] "n_4vec" "Out" [("scalep", 1); ("scalep2", 1)] ["InScale"; "Add"] /\
  in_bounds xmayz_g5 ["Out"; "scalep"; "Add"; "InScale"] "n_4vec" "Out" [("scalep", 1)] ["InScale"; "Add"] /\
  in_bounds g5_axmbyz ["Out"; "scalep"; "InScale"; "scalep2"; "Add"] "n_4vec" "Out" [("scalep", 1); ("scalep2", 1)] ["InScale"; "Add"] /\
  in_bounds axpbyz_ig5 ["Out"; "scalep"; "InScale"; "scalep2"; "Add"] "n_4vec" "Out" [("scalep", 1); ("scalep2", 1)] ["InScale"; "Add"] /\
  in_bounds axmbyz_ig5 ["Out"; "scalep"; "InScale"; "scalep2"; "Add"] "n_4vec" "Out" [("scalep", 1); ("scalep2", 1)] ["InScale"; "Add"] /\
  in_bounds xpayz_ig5 ["Out"; "scalep"; "InScale"; "Add"] "n_4vec" "Out" [("scalep", 1)] ["InScale"; "Add"] /\
  in_bounds xmayz_ig5 ["Out"; "scalep"; "InScale"; "Add"] "n_4vec" "Out" [("scalep", 1)] ["InScale"; "Add"].
Proof.
  intros R rO rI radd rmul rsub ropp RT. cbv zeta.
  split; [eapply elementwise_in_bounds; exact (vaxpy3_ok rO rI radd rmul rsub ropp RT)|].
  split; [eapply elementwise_in_bounds; exact (vaxmy3_ok rO rI radd rmul rsub ropp RT)|].
  split; [eapply elementwise_in_bounds; exact (vaxpby3_ok rO rI radd rmul rsub ropp RT)|].
  split; [eapply elementwise_in_bounds; exact (vaxmby3_ok rO rI radd rmul rsub ropp RT)|].
  split; [eapply elementwise_in_bounds; exact (vscal_ok rO rI radd rmul rsub ropp RT)|].
  split; [eapply elementwise_in_bounds; exact (vadd_ok rO rI radd rmul rsub ropp RT)|].
  split; [eapply elementwise_in_bounds; exact (vsub_ok rO rI radd rmul rsub ropp RT)|].
  split; [eapply elementwise_in_bounds; exact (vcscal_ok rO rI radd rmul rsub ropp RT)|].
  split; [eapply elementwise_in_bounds; exact (vcaxpy3_ok rO rI radd rmul rsub ropp RT)|].
  split; [eapply elementwise_in_bounds; exact (vcaxmy3_ok rO rI radd rmul rsub ropp RT)|].
  split; [eapply elementwise_in_bounds; exact (vcaxpby3_ok rO rI radd rmul rsub ropp RT)|].
  split; [eapply elementwise_in_bounds; exact (vcaxmby3_ok rO rI radd rmul rsub ropp RT)|].
  split; [eapply elementwise_in_bounds; exact (axmyz_g5ProjPlus_ok rO rI radd rmul rsub ropp RT)|].
  split; [eapply elementwise_in_bounds; exact (scal_g5ProjPlus_ok rO rI radd rmul rsub ropp RT)|].
  split; [eapply elementwise_in_bounds; exact (axpyz_g5ProjMinus_ok rO rI radd rmul rsub ropp RT)|].
  split; [eapply elementwise_in_bounds; exact (axmyz_g5ProjMinus_ok rO rI radd rmul rsub ropp RT)|].
  split; [eapply elementwise_in_bounds; exact (xpayz_g5ProjMinus_ok rO rI radd rmul rsub ropp RT)|].
  split; [eapply elementwise_in_bounds; exact (xmayz_g5ProjMinus_ok rO rI radd rmul rsub ropp RT)|].
  split; [eapply elementwise_in_bounds; exact (add_g5ProjMinus_ok rO rI radd rmul rsub ropp RT)|].
  split; [eapply elementwise_in_bounds; exact (sub_g5ProjMinus_ok rO rI radd rmul rsub ropp RT)|].
  split; [eapply elementwise_in_bounds; exact (scal_g5ProjMinus_ok rO rI radd rmul rsub ropp RT)|].
  split; [eapply elementwise_in_bounds; exact (axpbyz_g5ProjMinus_ok rO rI radd rmul rsub ropp RT)|].
  split; [eapply elementwise_in_bounds; exact (axmbyz_g5ProjMinus_ok rO rI radd rmul rsub ropp RT)|].
  split; [eapply elementwise_in_bounds; exact (scal_g5_ok rO rI radd rmul rsub ropp RT)|].
  split; [eapply elementwise_in_bounds; exact (axpbyz_g5_ok rO rI radd rmul rsub ropp RT)|].
  split; [eapply elementwise_in_bounds; exact (xmayz_g5_ok rO rI radd rmul rsub ropp RT)|].
  split; [eapply elementwise_in_bounds; exact (g5_axmbyz_ok rO rI radd rmul rsub ropp RT)|].
  split; [eapply elementwise_in_bounds; exact (axpbyz_ig5_ok rO rI radd rmul rsub ropp RT)|].
  split; [eapply elementwise_in_bounds; exact (axmbyz_ig5_ok rO rI radd rmul rsub ropp RT)|].
  split; [eapply elementwise_in_bounds; exact (xpayz_ig5_ok rO rI radd rmul rsub ropp RT)|].
  eapply elementwise_in_bounds; exact (xmayz_ig5_ok rO rI radd rmul rsub ropp RT).
Qed.
Print Assumptions C76_in_bounds.

(** False of seven kernels: after the last site they load one or two reals more. *)
Theorem C76_over_read_refuted :
  let in_bounds := in_bounds 0 Z.add Z.mul Z.sub Z.opp in
  ~ in_bounds axpyz_g5ProjPlus ["Out"; "scalep"; "InScale"; "Add"] "n_4vec" "Out" [("scalep", 1)] ["InScale"; "Add"] /\
  ~ in_bounds xpayz_g5ProjPlus ["Out"; "scalep"; "Add"; "InScale"] "n_4vec" "Out" [("scalep", 1)] ["InScale"; "Add"] /\
  ~ in_bounds xmayz_g5ProjPlus ["Out"; "scalep"; "Add"; "InScale"] "n_4vec" "Out" [("scalep", 1)] ["InScale"; "Add"] /\
  ~ in_bounds add_g5ProjPlus ["Out"; "X"; "Y"] "n_4vec" "Out" [] ["X"; "Y"] /\
  ~ in_bounds sub_g5ProjPlus ["Out"; "X"; "Y"] "n_4vec" "Out" [] ["X"; "Y"] /\
  ~ in_bounds axpbyz_g5ProjPlus ["Out"; "scalep"; "InScale"; "scalep2"; "Add"] "n_4vec" "Out" [("scalep", 1); ("scalep2", 1)] ["InScale"; "Add"] /\
  ~ in_bounds axmbyz_g5ProjPlus ["Out"; "scalep"; "InScale"; "scalep2"; "Add"] "n_4vec" "Out" [("scalep", 1); ("scalep2", 1)] ["InScale"; "Add"].
Proof.
  cbv zeta. repeat split; apply over_read; vm_compute; reflexivity.
Qed.
Print Assumptions C76_over_read_refuted.
