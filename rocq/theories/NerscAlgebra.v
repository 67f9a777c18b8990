(** The third row of a matrix of SU(3). *)
From Coq Require Import List Arith NArith ZArith Bool Lia Ring.
From Verif Require Import Base LayoutModel IoModel LatIoModel NerscModel NerscSpec NerscProofs.
Import ListNotations.
Local Open Scope nat_scope.

Section Algebra.
  Context {A : Type} (rO rI : A) (radd rmul rsub : A -> A -> A) (ropp : A -> A).
  Context (Rth : ring_theory rO rI radd rmul rsub ropp (@eq A)).
  Add Ring Aring : Rth.

  Notation times := (times radd rmul rsub).
  Notation cross := (cross_product radd rmul rsub).
  Notation dot := (dot radd rmul rsub).
  Notation det := (det radd rmul rsub).
  Notation bar := (bar ropp).
  Notation one := (one rO rI).
  Notation zero := (zero rO).

  Lemma bar_bar x : bar (bar x) = x.
  Proof. destruct x. unfold NerscSpec.bar. cbn [fst snd]. f_equal. ring. Qed.

  Definition neg (x : A * A) : A * A := (ropp (fst x), ropp (snd x)).
  Lemma complex_ring : ring_theory zero one (plus radd) times (minus rsub) neg (@eq (A * A)).
  Proof.
    split; intros; unfold NerscSpec.zero, NerscSpec.one, plus, minus, NerscSpec.times, neg;
      repeat match goal with x : A * A |- _ => destruct x end; cbn [fst snd]; f_equal; ring.
  Qed.
  Add Ring Cring : complex_ring.

  (** adj(U) U U^+ = det(U) U^+, last column. *)
  Lemma adjugate (U : @cmatrix A) j : j < 3 ->
    plus radd (plus radd (times (cross (U 1) (U 2) j) (dot (U 0) (fun k => bar (U 2 k))))
                         (times (cross (U 2) (U 0) j) (dot (U 1) (fun k => bar (U 2 k)))))
              (times (cross (U 0) (U 1) j) (dot (U 2) (fun k => bar (U 2 k))))
    = times (det U) (bar (U 2 j)).
  Proof.
    intros H. unfold NerscSpec.det, NerscSpec.dot.
    destruct j as [|[|[|j]]]; [| | |lia]; unfold cross_product; ring.
  Qed.

  Lemma third_row_det U : unitary rO rI radd rmul rsub ropp U ->
    (forall j, j < 3 -> U 2 j = bar (cross (U 0) (U 1) j)) <-> det U = one.
  Proof.
    intros HU. split.
    - intros H. unfold NerscSpec.det.
      pose proof (HU 2 2 ltac:(lia) ltac:(lia)) as E. cbn [Nat.eqb] in E. rewrite <- E. unfold NerscSpec.dot.
      rewrite (H 0), (H 1), (H 2), !bar_bar by lia. reflexivity.
    - intros D j Hj. pose proof (adjugate U j Hj) as E.
      rewrite (HU 0 2), (HU 1 2), (HU 2 2) in E by lia. cbn [Nat.eqb] in E. rewrite D in E.
      rewrite <- (bar_bar (U 2 j)). f_equal.
      assert (E1 : times one (bar (U 2 j)) = bar (U 2 j)).
      { unfold NerscSpec.times, NerscSpec.one. destruct (bar (U 2 j)). cbn [fst snd]. f_equal; ring. }
      rewrite E1 in E. rewrite <- E. unfold NerscSpec.times, NerscSpec.one, NerscSpec.zero, plus.
      destruct (cross (U 1) (U 2) j), (cross (U 2) (U 0) j), (cross (U 0) (U 1) j). cbn [fst snd]. f_equal; ring.
  Qed.

  Lemma matrix_third l : length l = 12 -> let V := matrix_of rO radd rmul rsub 12 l in
    forall j, j < 3 -> V 2 j = bar (cross (V 0) (V 1) j).
  Proof.
    intros H. do 12 (destruct l as [|? l]; [discriminate|]). destruct l; [|discriminate]. clear H.
    intros V j Hj. unfold V, matrix_of. cbn.
    destruct j as [|[|[|j]]]; [| | |lia]; cbn; unfold minus, NerscSpec.times, NerscSpec.bar; cbn [fst snd]; f_equal; ring.
  Qed.

  Theorem reconstruct U : unitary rO rI radd rmul rsub ropp U ->
    exists V, unpack rO radd rmul rsub 12 (numbers 2 U) = Val V /\
      ((forall i j, i < 3 -> j < 3 -> V i j = U i j) <-> det U = one).
  Proof.
    intros HU. set (V := matrix_of rO radd rmul rsub 12 (numbers 2 U)). exists V.
    assert (HM : mat_ok 12) by now left.
    split; [apply unpack_val; [exact HM|reflexivity]|].
    assert (E : forall i j, i < 2 -> j < 3 -> V i j = U i j).
    { intros i j Hi Hj. destruct i as [|[|i]]; [| |lia]; destruct j as [|[|[|j]]]; try lia; cbn; now destruct (U _ _). }
    rewrite <- third_row_det by exact HU.
    assert (C : forall j, j < 3 -> V 2 j = bar (cross (U 0) (U 1) j)).
    { intros j Hj. unfold V. rewrite matrix_third by (auto; reflexivity). fold V.
      destruct j as [|[|[|j]]]; [| | |lia]; unfold cross_product; rewrite !E by lia; reflexivity. }
    split.
    - intros H j Hj. rewrite <- C by exact Hj. symmetry. apply H; lia.
    - intros H i j Hi Hj. destruct (Nat.lt_ge_cases i 2); [now apply E|]. replace i with 2 by lia. rewrite C by exact Hj. symmetry. now apply H.
  Qed.
End Algebra.
