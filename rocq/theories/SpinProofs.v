From Coq Require Import ZArith List Lia Ring Ring_theory Bool.
From Verif Require Import Base GammaModel GammaSpec GammaProofs GammaAlgebra.
Import ListNotations.

(** * The element types satisfy the laws *)

Section ComplexLaws.
Context {R : Type} (rO rI : R) (radd rmul rsub : R -> R -> R) (ropp : R -> R).
Context (Rth : ring_theory rO rI radd rmul rsub ropp (@eq R)).
Add Ring Rr : Rth.

Lemma rcomplex_laws : elem_laws (rcomplex_ops rO radd rsub ropp).
Proof.
  constructor; intros; repeat match goal with x : (R * R)%type |- _ => destruct x end; cbn;
  f_equal; ring.
Qed.
End ComplexLaws.

Lemma tuple_laws : forall T (O : elem_ops T) n, elem_laws O -> elem_laws (tuple_ops O n).
Proof.
  intros T O n L. induction n as [|n IH]; cbn.
  - constructor; intros; repeat match goal with x : unit |- _ => destruct x end; reflexivity.
  - constructor; intros; repeat match goal with x : (T * tuple T n)%type |- _ => destruct x end;
    cbn; f_equal.
    all: first [ apply (add_assoc _ L) | apply (add_assoc _ IH)
               | apply (add_comm _ L) | apply (add_comm _ IH)
               | apply (add_zero _ L) | apply (add_zero _ IH)
               | apply (add_neg _ L) | apply (add_neg _ IH)
               | apply (sub_is _ L) | apply (sub_is _ IH)
               | apply (timesI_add _ L) | apply (timesI_add _ IH)
               | apply (timesI_sq _ L) | apply (timesI_sq _ IH)
               | apply (timesMI_is _ L) | apply (timesMI_is _ IH) ].
Qed.

(** * Spin projection *)

Section Proj.
Context {T : Type} (O : elem_ops T) (L : elem_laws O).


Lemma reconstruct_project : forall mu s v,
  (0 <= mu < 4)%Z -> (s = 1 \/ s = -1)%Z ->
  exists h w g,
    spinProject O v mu s = Val h /\ spinReconstruct O h mu s = Val w /\
    gamma_vec O DeGrandRossi (2 ^ Z.to_nat mu) v = Some g /\
    w = vmap2 (plus_minus O s) v g /\ h = (el w 0, el w 1).
Proof.
  intros mu s [x0 x1 x2 x3] Hmu Hs.
  assert (C : (mu = 0 \/ mu = 1 \/ mu = 2 \/ mu = 3)%Z) by lia.
  pose proof (laws_unary O L) as U.
  destruct C as [-> | [-> | [-> | ->]]]; destruct Hs as [-> | ->];
  (eexists; eexists; eexists; split; [reflexivity|]; split; [reflexivity|];
   split; [reflexivity|]; split; [|];
   cbv -[e_neg e_timesI e_timesMinusI e_add e_sub]; f_equal);
  repeat rewrite (sub_is O L); repeat rewrite (neg_add O L); repeat rewrite (timesI_add O L);
  repeat rewrite (timesMinusI_is O U);
  repeat rewrite (timesI_add O L);
  repeat first [ rewrite (timesI_neg O U) | rewrite (timesI_twice O U)
               | rewrite (neg_neg O U) | rewrite (neg_add O L) ];
  try reflexivity; apply (add_comm O L).
Qed.

Lemma project_reconstruct : forall mu s h,
  (0 <= mu < 4)%Z -> (s = 1 \/ s = -1)%Z ->
  exists w, spinReconstruct O h mu s = Val w /\
    spinProject O w mu s = Val (e_add O (fst h) (fst h), e_add O (snd h) (snd h)).
Proof.
  intros mu s [x0 x1] Hmu Hs.
  assert (C : (mu = 0 \/ mu = 1 \/ mu = 2 \/ mu = 3)%Z) by lia.
  pose proof (laws_unary O L) as U.
  destruct C as [-> | [-> | [-> | ->]]]; destruct Hs as [-> | ->];
  (eexists; split; [reflexivity|]; cbv -[e_neg e_timesI e_timesMinusI e_add e_sub]; do 2 f_equal);
  repeat rewrite (sub_is O L); repeat rewrite (timesMinusI_is O U);
  repeat first [ rewrite (timesI_neg O U) | rewrite (timesI_twice O U)
               | rewrite (neg_neg O U) | rewrite (neg_add O L) ]; reflexivity.
Qed.

(** Outside the documented arguments the program ends. *)
Lemma project_abort : forall mu s v,
  ~ ((0 <= mu < 4)%Z /\ (s = 1 \/ s = -1)%Z) -> spinProject O v mu s = Abort.
Proof.
  intros mu s v H. unfold spinProject.
  destruct (s =? -1)%Z eqn:E1; [apply Z.eqb_eq in E1 | destruct (s =? 1)%Z eqn:E2; [apply Z.eqb_eq in E2 | reflexivity]];
  (destruct mu as [|p|p]; [exfalso; lia | | reflexivity]);
  (destruct p as [[[]|[]|]|[[]|[]|]|]; try reflexivity; exfalso; lia).
Qed.
Lemma reconstruct_abort : forall mu s v,
  ~ ((0 <= mu < 4)%Z /\ (s = 1 \/ s = -1)%Z) -> spinReconstruct O v mu s = Abort.
Proof.
  intros mu s v H. unfold spinReconstruct.
  destruct (s =? -1)%Z eqn:E1; [apply Z.eqb_eq in E1 | destruct (s =? 1)%Z eqn:E2; [apply Z.eqb_eq in E2 | reflexivity]];
  (destruct mu as [|p|p]; [exfalso; lia | | reflexivity]);
  (destruct p as [[[]|[]|]|[[]|[]|]|]; try reflexivity; exfalso; lia).
Qed.

Lemma chiral_vec : forall v, exists g, gamma_vec O DeGrandRossi 15 v = Some g /\
  vmap (fun x => e_add O x x) (chiralProjectPlus_vec O v) = vmap2 (e_add O) v g /\
  vmap (fun x => e_add O x x) (chiralProjectMinus_vec O v) = vmap2 (e_sub O) v g /\
  vmap2 (e_add O) (chiralProjectPlus_vec O v) (chiralProjectMinus_vec O v) = v.
Proof.
  intros [x0 x1 x2 x3]. eexists. split; [reflexivity|].
  pose proof (laws_unary O L) as U.
  cbv -[e_neg e_timesI e_timesMinusI e_add e_sub e_zero].
  repeat split; f_equal; rewrite ?(sub_is O L), ?(neg_neg O U), ?(add_zero O L), ?(add_neg O L),
    ?(zero_add O L); reflexivity.
Qed.

Lemma chiral_mat : forall m, exists g, gamma_mat O DeGrandRossi 15 m = Some g /\
  vmap (vmap (fun x => e_add O x x)) (chiralProjectPlus_mat O m) = vmap2 (vmap2 (e_add O)) m g /\
  vmap (vmap (fun x => e_add O x x)) (chiralProjectMinus_mat O m) = vmap2 (vmap2 (e_sub O)) m g /\
  vmap2 (vmap2 (e_add O)) (chiralProjectPlus_mat O m) (chiralProjectMinus_mat O m) = m.
Proof.
  intros [[] [] [] []]. eexists. split; [reflexivity|].
  pose proof (laws_unary O L) as U.
  cbv -[e_neg e_timesI e_timesMinusI e_add e_sub e_zero].
  repeat split; repeat (match goal with |- Quad _ _ _ _ = Quad _ _ _ _ => f_equal end); rewrite ?(sub_is O L), ?(neg_neg O U), ?(add_zero O L), ?(add_neg O L),
    ?(zero_add O L); reflexivity.
Qed.

End Proj.

(** * Hermiticity and unitarity for complex components *)

Section Hermitian.
Context {R : Type} (rO rI : R) (radd rmul rsub : R -> R -> R) (ropp : R -> R).
Context (Rth : ring_theory rO rI radd rmul rsub ropp (@eq R)).
Add Ring Rr2 : Rth.
Let O := rcomplex_ops rO radd rsub ropp.

Lemma hermitian : forall b mu u v, mu < 4 ->
  exists gu gv, gamma_vec O b (2 ^ mu) u = Some gu /\ gamma_vec O b (2 ^ mu) v = Some gv /\
    hermitian_product radd rmul rsub gu v = hermitian_product radd rmul rsub u gv.
Proof.
  intros b mu [[] [] [] []] [[] [] [] []] H. revert mu H.
  destruct b; apply below4; eexists; eexists; (split; [reflexivity|]; split; [reflexivity|]);
  cbv; f_equal; ring.
Qed.

Lemma unitary : forall b n u v, n < 16 ->
  exists gu gv, gamma_vec O b n u = Some gu /\ gamma_vec O b n v = Some gv /\
    hermitian_product radd rmul rsub gu gv = hermitian_product radd rmul rsub u v.
Proof.
  intros b n [[] [] [] []] [[] [] [] []] H. revert n H.
  destruct b; apply below16; eexists; eexists; (split; [reflexivity|]; split; [reflexivity|]);
  cbv; f_equal; ring.
Qed.
End Hermitian.
