From Coq Require Import ZArith List Lia Ring Ring_theory.
From Verif Require Import Base GammaModel GammaSpec.
Import ListNotations.

Lemma below4 : forall (P : nat -> Prop), P 0 -> P 1 -> P 2 -> P 3 -> forall i, i < 4 -> P i.
Proof. intros P H0 H1 H2 H3 i Hi. do 4 (destruct i as [|i]; [assumption|]). lia. Qed.

Lemma below16 : forall (P : nat -> Prop),
  P 0 -> P 1 -> P 2 -> P 3 -> P 4 -> P 5 -> P 6 -> P 7 ->
  P 8 -> P 9 -> P 10 -> P 11 -> P 12 -> P 13 -> P 14 -> P 15 -> forall i, i < 16 -> P i.
Proof. intros. do 16 (destruct i as [|i]; [assumption|]). lia. Qed.

Section Laws.
Context {T : Type} (O : elem_ops T) (L : elem_laws O).

Lemma zero_add : forall x, e_add O (e_zero O) x = x.
Proof. intros. rewrite (add_comm O L). apply (add_zero O L). Qed.

Lemma neg_unique : forall x y, e_add O x y = e_zero O -> y = e_neg O x.
Proof.
  intros x y H.
  rewrite <- (zero_add y), <- (add_neg O L x), (add_comm O L x).
  rewrite <- (add_assoc O L), H. apply (add_zero O L).
Qed.

Lemma law_neg_neg : forall x, e_neg O (e_neg O x) = x.
Proof.
  intros. symmetry. apply neg_unique. rewrite (add_comm O L). apply (add_neg O L).
Qed.

Lemma neg_zero : e_neg O (e_zero O) = e_zero O.
Proof. symmetry. apply neg_unique. apply (add_zero O L). Qed.

Lemma neg_add : forall x y, e_neg O (e_add O x y) = e_add O (e_neg O x) (e_neg O y).
Proof.
  intros. symmetry. apply neg_unique.
  rewrite (add_assoc O L), <- (add_assoc O L x y), (add_comm O L y), (add_assoc O L x).
  rewrite (add_neg O L), zero_add. apply (add_neg O L).
Qed.

Lemma timesI_zero : e_timesI O (e_zero O) = e_zero O.
Proof.
  assert (H : e_add O (e_timesI O (e_zero O)) (e_timesI O (e_zero O)) = e_timesI O (e_zero O)).
  { rewrite <- (timesI_add O L). now rewrite (add_zero O L). }
  set (z := e_timesI O (e_zero O)) in *.
  rewrite <- (add_zero O L z), <- (add_neg O L z), (add_assoc O L), H. reflexivity.
Qed.

Lemma law_timesI_neg : forall x, e_timesI O (e_neg O x) = e_neg O (e_timesI O x).
Proof.
  intros. apply neg_unique. rewrite <- (timesI_add O L), (add_neg O L). apply timesI_zero.
Qed.

Lemma laws_unary : unary_laws O.
Proof.
  constructor.
  - apply law_neg_neg.
  - apply (timesI_sq O L).
  - apply law_timesI_neg.
  - apply (timesMI_is O L).
Qed.

Lemma gs_0 : forall x, gscale O (0, 0)%Z x = e_zero O.
Proof. intros. unfold gscale. cbn. apply (add_zero O L). Qed.
Lemma gs_1 : forall x, gscale O (1, 0)%Z x = x.
Proof. intros. unfold gscale. cbn. now rewrite !(add_zero O L). Qed.
Lemma gs_m1 : forall x, gscale O (-1, 0)%Z x = e_neg O x.
Proof. intros. unfold gscale. cbn. now rewrite !(add_zero O L). Qed.
Lemma gs_i : forall x, gscale O (0, 1)%Z x = e_timesI O x.
Proof. intros. unfold gscale. cbn. now rewrite !(add_zero O L), zero_add. Qed.
Lemma gs_mi : forall x, gscale O (0, -1)%Z x = e_timesMinusI O x.
Proof. intros. unfold gscale. cbn. now rewrite !(add_zero O L), zero_add, (timesMI_is O L). Qed.

Ltac eval_entries :=
  repeat match goal with
  | |- context [gscale O (entry ?M ?i ?k) ?x] =>
      let e := eval vm_compute in (entry M i k) in
      change (gscale O (entry M i k) x) with (gscale O e x)
  end.
Ltac act :=
  unfold sum4; eval_entries;
  rewrite ?gs_0, ?gs_1, ?gs_m1, ?gs_i, ?gs_mi, ?(add_zero O L), ?zero_add, ?(add_zero O L);
  reflexivity.

Lemma vec_ok : forall b n v, n < 16 ->
  exists w, gamma_vec O b n v = Some w /\ is_mat_vec O (Gamma b n) v w.
Proof.
  intros b n v H. revert n H. destruct b; apply below16;
    (eexists; split; [reflexivity|]; unfold is_mat_vec; apply below4; act).
Qed.

Ltac by_index := 
  let i := fresh in let j := fresh in let Hi := fresh in let Hj := fresh in
  intros i j Hi Hj; revert i Hi; apply below4; revert j Hj; apply below4.

Lemma mat_ok : forall b n m, n < 16 ->
  exists w, gamma_mat O b n m = Some w /\ is_mat_mat O (Gamma b n) m w.
Proof.
  intros b n m H. revert n H. destruct b; apply below16;
    (eexists; split; [reflexivity|]; unfold is_mat_mat; by_index; act).
Qed.

Lemma right_ok : forall b n m, n < 16 ->
  exists w, mat_gamma O b n m = Some w /\ is_mat_right O m (Gamma b n) w.
Proof.
  intros b n m H. revert n H. destruct b; apply below16;
    (eexists; split; [reflexivity|]; unfold is_mat_right; by_index; act).
Qed.
End Laws.
