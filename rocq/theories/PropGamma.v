(** Properties of the gamma matrices and of spin projection. *)
From Coq Require Import ZArith List Lia Ring_theory InitialRing.
From Verif Require Import Base GammaModel GammaSpec GammaProofs GammaAlgebra SpinProofs.
Import ListNotations.

(** * C52  The Clifford algebra *)

(** The matrices the products are compared with are the Clifford algebra:
    generators square to one, anticommute and are hermitian. *)
Theorem C52_generators : forall b mu nu, mu < 4 -> nu < 4 ->
  adjoint (generator b mu) = generator b mu /\
  madd (mmul (generator b mu) (generator b nu)) (mmul (generator b nu) (generator b mu)) =
    (if Nat.eqb mu nu then mscale (2, 0)%Z unit_matrix else zero_matrix).
Proof.
  intros b mu nu Hm Hn. revert mu Hm. destruct b; apply below4; revert nu Hn; apply below4;
    split; reflexivity.
Qed.
Print Assumptions C52_generators.
(** The sixteen matrices are traceless except the unit, and distinct up to sign. *)
Theorem C52_traces : forall b n, n < 16 ->
  mtrace (Gamma b n) = (if Nat.eqb n 0 then (4, 0)%Z else g0) /\
  mmul (adjoint (Gamma b n)) (Gamma b n) = unit_matrix.
Proof. intros b n Hn. revert n Hn. destruct b; apply below16; split; reflexivity. Qed.
Print Assumptions C52_traces.

(** Gamma(n) * v is the product of the explicit 4x4 matrix with v, over any
    elements with a multiplication by i: real and imaginary parts in any ring,
    and any number of them (colour vectors, colour matrices, inner grids). *)
Theorem C52_vector : forall T (O : elem_ops T), elem_laws O -> forall b n v, n < 16 ->
  exists w, gamma_vec O b n v = Some w /\ is_mat_vec O (Gamma b n) v w.
Proof. intros. now apply vec_ok. Qed.
Print Assumptions C52_vector.
Theorem C52_left : forall T (O : elem_ops T), elem_laws O -> forall b n x, n < 16 ->
  exists y, gamma_mat O b n x = Some y /\ is_mat_mat O (Gamma b n) x y.
Proof. intros. now apply mat_ok. Qed.
Print Assumptions C52_left.
Theorem C52_right : forall T (O : elem_ops T), elem_laws O -> forall b n x, n < 16 ->
  exists y, mat_gamma O b n x = Some y /\ is_mat_right O x (Gamma b n) y.
Proof. intros. now apply right_ok. Qed.
Print Assumptions C52_right.

(** The elements the library uses meet the laws. *)
Theorem C52_elements : forall R (rO rI : R) radd rmul rsub ropp,
  ring_theory rO rI radd rmul rsub ropp (@eq R) ->
  forall n, elem_laws (tuple_ops (rcomplex_ops rO radd rsub ropp) n).
Proof. intros. apply tuple_laws. eapply rcomplex_laws. eassumption. Qed.
Print Assumptions C52_elements.

(** Sixteen products from four: only the laws of unary minus and of
    multiplication by i are needed here, so this and the next four theorems also
    hold of floating point numbers, bit by bit. *)
Theorem C52_products : forall T (O : elem_ops T), unary_laws O -> forall b n v, n < 16 ->
  gamma_vec O b n v =
  then_gamma O b 0 (Nat.testbit n 0) (then_gamma O b 1 (Nat.testbit n 1)
    (then_gamma O b 2 (Nat.testbit n 2) (then_gamma O b 3 (Nat.testbit n 3) (Some v)))).
Proof. intros. now apply products. Qed.
Print Assumptions C52_products.
(** Gamma(m) Gamma(n) = +/- Gamma(m xor n). *)
Theorem C52_group : forall T (O : elem_ops T), unary_laws O -> forall b m n v, m < 16 -> n < 16 ->
  exists w u x,
    gamma_vec O b n v = Some w /\ gamma_vec O b m w = Some u /\
    gamma_vec O b (Nat.lxor m n) v = Some x /\
    u = (if odd_swaps m n then vmap (e_neg O) x else x).
Proof. intros. now apply group_law. Qed.
Print Assumptions C52_group.
(** gamma_mu gamma_mu v = v, and gamma_mu gamma_nu v = - gamma_nu gamma_mu v. *)
Theorem C52_clifford : forall T (O : elem_ops T), unary_laws O ->
  forall b mu nu v, mu < 4 -> nu < 4 ->
  exists a b1 c d,
    gamma_vec O b (2 ^ nu) v = Some a /\ gamma_vec O b (2 ^ mu) a = Some b1 /\
    gamma_vec O b (2 ^ mu) v = Some c /\ gamma_vec O b (2 ^ nu) c = Some d /\
    (mu = nu -> b1 = v) /\ (mu <> nu -> b1 = vmap (e_neg O) d).
Proof.
  intros T O U b mu nu v Hm Hn.
  assert (P : forall k, k < 4 -> 2 ^ k < 16) by (apply below4; cbn; lia).
  destruct (group_law O U b (2 ^ mu) (2 ^ nu) v (P _ Hm) (P _ Hn)) as [a [b1 [x [E1 [E2 [E3 E4]]]]]].
  destruct (group_law O U b (2 ^ nu) (2 ^ mu) v (P _ Hn) (P _ Hm)) as [c [d [y [F1 [F2 [F3 F4]]]]]].
  exists a, b1, c, d. repeat (split; [assumption|]).
  rewrite Nat.lxor_comm in F3. rewrite E3 in F3. injection F3 as <-.
  split.
  - intros ->. rewrite Nat.lxor_nilpotent in E3.
    assert (X : x = v) by (destruct v; destruct b; cbv in E3; congruence).
    rewrite E4, X. clear - Hn. revert nu Hn. apply below4; reflexivity.
  - intros NE. rewrite E4, F4.
    assert (NN : forall z : quad T, vmap (e_neg O) (vmap (e_neg O) z) = z).
    { intros [p q r s]. unfold vmap. cbn. now rewrite !(neg_neg _ U). }
    clear - NE Hm Hn NN.
    destruct mu as [|[|[|[|mu]]]]; try lia; destruct nu as [|[|[|[|nu]]]]; try lia;
      cbn; try reflexivity; now rewrite NN.
Qed.
Print Assumptions C52_clifford.
(** Left multiplication of a spin matrix acts on its columns; (Gamma(m) x)
    Gamma(n) = Gamma(m) (x Gamma(n)). *)
Theorem C52_columns : forall T (O : elem_ops T) b n m, n < 16 ->
  exists y, gamma_mat O b n m = Some y /\
    forall j, j < 4 -> gamma_vec O b n (column m j) = Some (column y j).
Proof. intros. now apply mat_columns. Qed.
Print Assumptions C52_columns.
Theorem C52_associative : forall T (O : elem_ops T), unary_laws O ->
  forall b m n x, m < 16 -> n < 16 ->
  exists y z w, mat_gamma O b n x = Some y /\ gamma_mat O b m y = Some w /\
                gamma_mat O b m x = Some z /\ mat_gamma O b n z = Some w.
Proof. intros. now apply left_right_commute. Qed.
Print Assumptions C52_associative.
Theorem C52_right_group : forall T (O : elem_ops T), unary_laws O ->
  forall b m n x, m < 16 -> n < 16 ->
  exists y z w, mat_gamma O b n x = Some y /\ mat_gamma O b m y = Some z /\
    mat_gamma O b (Nat.lxor n m) x = Some w /\
    z = (if odd_swaps n m then vmap (vmap (e_neg O)) w else w).
Proof. intros. now apply right_group. Qed.
Print Assumptions C52_right_group.

(** <gamma_mu u, v> = <u, gamma_mu v> and <Gamma(n) u, Gamma(n) v> = <u, v>. *)
Theorem C52_hermitian : forall R (rO rI : R) radd rmul rsub ropp,
  ring_theory rO rI radd rmul rsub ropp (@eq R) -> forall b mu u v, mu < 4 ->
  let O := rcomplex_ops rO radd rsub ropp in
  exists gu gv, gamma_vec O b (2 ^ mu) u = Some gu /\ gamma_vec O b (2 ^ mu) v = Some gv /\
    hermitian_product radd rmul rsub gu v = hermitian_product radd rmul rsub u gv.
Proof. intros. eapply hermitian; eassumption. Qed.
Print Assumptions C52_hermitian.
Theorem C52_unitary : forall R (rO rI : R) radd rmul rsub ropp,
  ring_theory rO rI radd rmul rsub ropp (@eq R) -> forall b n u v, n < 16 ->
  let O := rcomplex_ops rO radd rsub ropp in
  exists gu gv, gamma_vec O b n u = Some gu /\ gamma_vec O b n v = Some gv /\
    hermitian_product radd rmul rsub gu gv = hermitian_product radd rmul rsub u v.
Proof. intros. eapply unitary; eassumption. Qed.
Print Assumptions C52_unitary.

(** The index of the run-time form Gamma(m) may be any int: for 0..15 it is the
    compile-time product, outside that range nothing is checked. *)
Theorem C52_runtime : forall T (O : elem_ops T) b n v x, n < 16 ->
  gamma_type_vec O b (Z.of_nat n) v = of_option (gamma_vec O b n v) /\
  gamma_type_mat O b (Z.of_nat n) x = of_option (gamma_mat O b n x) /\
  mat_gamma_type O b (Z.of_nat n) x = of_option (mat_gamma O b n x).
Proof.
  intros T O b n v x Hn. revert n Hn. destruct b; apply below16; repeat split; reflexivity.
Qed.
Print Assumptions C52_runtime.
Theorem C52_runtime_refuted : forall T (O : elem_ops T) b m v x, (m < 0 \/ 16 <= m)%Z ->
  gamma_type_vec O b m v = Undef /\ gamma_type_mat O b m x = Undef /\
  mat_gamma_type O b m x = Undef.
Proof.
  intros T O b m v x H. unfold gamma_type_vec, gamma_type_mat, mat_gamma_type, call.
  destruct (m <? 0)%Z eqn:E; [repeat split; reflexivity|].
  apply Z.ltb_ge in E. destruct H as [H|H]; [lia|].
  rewrite !(proj2 (nth_error_None _ (Z.to_nat m))) by (destruct b; cbn; lia).
  repeat split; reflexivity.
Qed.
Print Assumptions C52_runtime_refuted.

(** Complex numbers over the integers, three colours. *)
Example C52_case :
  let O := tuple_ops (rcomplex_ops 0%Z Z.add Z.sub Z.opp) 1 in
  elem_laws O /\ unary_laws O /\
  gamma_vec O DeGrandRossi 5 (Quad ((1, 2)%Z, tt) ((3, 4)%Z, tt) ((5, 6)%Z, tt) ((7, 8)%Z, tt))
  = Some (Quad ((-3, -4)%Z, tt) ((1, 2)%Z, tt) ((-7, -8)%Z, tt) ((5, 6)%Z, tt)).
Proof.
  cbv zeta. assert (L : elem_laws (tuple_ops (rcomplex_ops 0%Z Z.add Z.sub Z.opp) 1)).
  { apply (C52_elements Z 0%Z 1%Z Z.add Z.mul Z.sub Z.opp). exact InitialRing.Zth. }
  split; [exact L|]. split; [apply laws_unary; exact L|]. reflexivity.
Qed.

(** * C53  Spin projection *)

(** spinReconstruct(spinProject(v,mu,s),mu,s) = (1 + s gamma_mu) v, and the half
    spinor is its upper half. *)
Theorem C53_project_reconstruct : forall T (O : elem_ops T), elem_laws O -> forall mu s v,
  (0 <= mu < 4)%Z -> (s = 1 \/ s = -1)%Z ->
  exists h w g,
    spinProject O v mu s = Val h /\ spinReconstruct O h mu s = Val w /\
    gamma_vec O DeGrandRossi (2 ^ Z.to_nat mu) v = Some g /\
    w = vmap2 (plus_minus O s) v g /\ h = (el w 0, el w 1).
Proof. intros. now apply reconstruct_project. Qed.
Print Assumptions C53_project_reconstruct.
(** spinProject(spinReconstruct(h,mu,s),mu,s) = 2 h. *)
Theorem C53_reconstruct_project : forall T (O : elem_ops T), elem_laws O -> forall mu s h,
  (0 <= mu < 4)%Z -> (s = 1 \/ s = -1)%Z ->
  exists w, spinReconstruct O h mu s = Val w /\
    spinProject O w mu s = Val (e_add O (fst h) (fst h), e_add O (snd h) (snd h)).
Proof. intros. now apply project_reconstruct. Qed.
Print Assumptions C53_reconstruct_project.
(** Any other direction or sign stops the program. *)
Theorem C53_abort : forall T (O : elem_ops T) mu s v h,
  ~ ((0 <= mu < 4)%Z /\ (s = 1 \/ s = -1)%Z) ->
  spinProject O v mu s = Abort /\ spinReconstruct O h mu s = Abort.
Proof. intros. split; [now apply project_abort|now apply reconstruct_abort]. Qed.
Print Assumptions C53_abort.
(** chiralProjectPlus/Minus are (1 +/- Gamma(15))/2, on vectors and matrices. *)
Theorem C53_chiral : forall T (O : elem_ops T), elem_laws O -> forall v m,
  (exists g, gamma_vec O DeGrandRossi 15 v = Some g /\
    vmap (fun x => e_add O x x) (chiralProjectPlus_vec O v) = vmap2 (e_add O) v g /\
    vmap (fun x => e_add O x x) (chiralProjectMinus_vec O v) = vmap2 (e_sub O) v g /\
    vmap2 (e_add O) (chiralProjectPlus_vec O v) (chiralProjectMinus_vec O v) = v) /\
  (exists g, gamma_mat O DeGrandRossi 15 m = Some g /\
    vmap (vmap (fun x => e_add O x x)) (chiralProjectPlus_mat O m) = vmap2 (vmap2 (e_add O)) m g /\
    vmap (vmap (fun x => e_add O x x)) (chiralProjectMinus_mat O m) = vmap2 (vmap2 (e_sub O)) m g /\
    vmap2 (vmap2 (e_add O)) (chiralProjectPlus_mat O m) (chiralProjectMinus_mat O m) = m).
Proof. intros. split; [now apply chiral_vec|now apply chiral_mat]. Qed.
Print Assumptions C53_chiral.
Example C53_case :
  let O := rcomplex_ops 0%Z Z.add Z.sub Z.opp in
  match spinProject O (Quad (1, 2) (3, 4) (5, 6) (7, 8))%Z 2 (-1) with
  | Val h => h = ((7, -3), (-5, 11))%Z /\
      spinReconstruct O h 2 (-1) = Val (Quad (7, -3) (-5, 11) (3, 7) (11, 5))%Z
  | _ => False
  end.
Proof. vm_compute. split; reflexivity. Qed.
