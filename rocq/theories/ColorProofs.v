From Coq Require Import List ZArith Lia Ring Ring_theory.
From Verif Require Import Base ColorModel ColorSpec.
Import ListNotations.

Lemma below3 : forall (P : nat -> Prop), P 0 -> P 1 -> P 2 -> forall i, i < 3 -> P i.
Proof. intros P H0 H1 H2 i Hi. do 3 (destruct i as [|i]; [assumption|]). lia. Qed.

Section Ring.
Context {R : Type} (rO rI : R) (add mul sub : R -> R -> R) (neg : R -> R).
Context (Rth : ring_theory rO rI add mul sub neg (@eq R)).
Add Ring Rr : Rth.

Lemma contract3_ok : forall s1 s2 s3,
  colorContract_mat3 add mul sub s1 s2 s3 = contract3 rO add mul neg s1 s2 s3.
Proof. intros. cbv. ring. Qed.

Lemma contract2_ok : forall s1 s2 a b, a < 3 -> b < 3 ->
  quarkContractXX3 add mul sub s1 s2 a b = contract2 rO add mul neg s1 s2 a b.
Proof.
  intros s1 s2 a b Ha Hb. revert a Ha. apply below3; revert b Hb; apply below3; cbv; ring.
Qed.

Lemma triple_ok : forall s1 s2 s3,
  colorContract_vec3 add mul sub s1 s2 s3 = triple_product rO add mul neg s1 s2 s3.
Proof. intros. cbv. ring. Qed.

Lemma cross_ok : forall s1 s2 i, i < 3 ->
  colorCrossProduct mul sub s1 s2 i = cross rO add mul neg s1 s2 i.
Proof. intros s1 s2. apply below3; cbv; ring. Qed.

Lemma fold_acc : forall (f : nat -> R) l d,
  fold_left (fun d i => add d (f i)) l d = add d (fold_right (fun i s => add (f i) s) rO l).
Proof.
  intros f l. induction l as [|x l IH]; intros d; cbn.
  - ring.
  - rewrite IH. ring.
Qed.

Lemma vector_contract_ok : forall n s1 s2, 0 < n ->
  colorVectorContract add mul n s1 s2 = sum_over rO add n (fun i => mul (s1 i) (s2 i)).
Proof.
  intros n s1 s2 H. destruct n as [|n]; [lia|]. unfold colorVectorContract, sum_over.
  rewrite (fold_acc (fun i => mul (s1 i) (s2 i))). cbn [seq fold_right].
  replace (S n - 1) with n by lia. reflexivity.
Qed.

Definition spin_sum (f : nat -> nat -> nat -> R) (a b : nat) : R :=
  sum_over rO add 4 (fun k => f k a b).

Lemma accumulate_ok : forall f a b,
  accumulate add f a b = sum_over rO add 4 (fun k => f k a b).
Proof. intros. unfold accumulate, cadd. cbn. ring. Qed.

Lemma sum_ext : forall n (f g : nat -> R), (forall i, i < n -> f i = g i) ->
  sum_over rO add n f = sum_over rO add n g.
Proof.
  intros n f g H. unfold sum_over.
  assert (G : forall m k, k + m = n ->
    fold_right (fun i s => add (f i) s) rO (seq k m) = fold_right (fun i s => add (g i) s) rO (seq k m)).
  { induction m as [|m IH]; intros k Hk; cbn; [reflexivity|].
    rewrite IH by lia. rewrite H by lia. reflexivity. }
  apply G. lia.
Qed.

Lemma trace13_ok : forall l r a b, a < 3 -> b < 3 ->
  traceSpinQuarkContract13 add mul sub l r a b =
  sum_over rO add 4 (fun j => quarkContract13 add mul sub l r j j a b).
Proof.
  intros l r a b Ha Hb.
  unfold traceSpinQuarkContract13, quarkContract13, cadd, accumulate, sum_over.
  cbn [seq fold_left fold_right]. unfold cadd. ring.
Qed.

Lemma contract_det : forall U,
  contract3 rO add mul neg U U U =
  (fun d => add d (add d (add d (add d (add d d))))) (determinant rO add mul neg U).
Proof. intros. cbv. ring. Qed.

Lemma contract_left : forall V s1 s2 s3,
  contract3 rO add mul neg (product3 rO add mul V s1) (product3 rO add mul V s2)
            (product3 rO add mul V s3) =
  mul (determinant rO add mul neg V) (contract3 rO add mul neg s1 s2 s3).
Proof. intros. cbv. ring. Qed.

End Ring.
