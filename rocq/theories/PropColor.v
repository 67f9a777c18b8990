(** C54: the colour contractions. *)
From Coq Require Import ZArith List Bool Lia Ring_theory InitialRing.
From Verif Require Import Base ColorModel ColorSpec ColorProofs.
Import ListNotations.

Section C54.
Context {R : Type} (rO rI : R) (add mul sub : R -> R -> R) (neg : R -> R).
Context (Rth : ring_theory rO rI add mul sub neg (@eq R)).

(** colorContract of three colour matrices is the double epsilon contraction;
    there is one only for three colours, with any other number the call stops the
    program. *)
Theorem C54_color_contract : forall nc s1 s2 s3,
  colorContract_mat add mul sub nc s1 s2 s3 =
  if Nat.eqb nc 3 then Val (contract3 rO add mul neg s1 s2 s3) else Abort.
Proof.
  intros. destruct nc as [|[|[|[|nc]]]]; try reflexivity.
  cbn [colorContract_mat Nat.eqb]. f_equal. eapply contract3_ok. eassumption.
Qed.

(** quarkContractXX likewise: every component. *)
Theorem C54_quark_contract_color : forall nc s1 s2,
  if Nat.eqb nc 3
  then exists d, quarkContractXX add mul sub nc s1 s2 = Val d /\
       forall a b, a < 3 -> b < 3 -> d a b = contract2 rO add mul neg s1 s2 a b
  else quarkContractXX add mul sub nc s1 s2 = Abort.
Proof.
  intros. destruct nc as [|[|[|[|nc]]]]; try reflexivity.
  cbn [Nat.eqb]. eexists. split; [reflexivity|]. intros. eapply contract2_ok; eassumption.
Qed.

(** quarkContractAB: the colour indices are contracted with the two epsilons,
    the spin indices in the positions A and B of S1_{12} S2_{34} are set equal
    and summed; the other two are those of the result, in order. *)
Definition spin_sum (f : nat -> R) : R := sum_over rO add 4 f.
Theorem C54_quark_contract : forall (s1 s2 : nat -> nat -> nat -> nat -> R) i j a b, a < 3 -> b < 3 ->
  let eps2 := contract2 rO add mul neg in
  quarkContract12 add mul sub s1 s2 i j a b = spin_sum (fun k => eps2 (s1 k k) (s2 i j) a b) /\
  quarkContract13 add mul sub s1 s2 i j a b = spin_sum (fun k => eps2 (s1 k i) (s2 k j) a b) /\
  quarkContract14 add mul sub s1 s2 i j a b = spin_sum (fun k => eps2 (s1 k i) (s2 j k) a b) /\
  quarkContract23 add mul sub s1 s2 i j a b = spin_sum (fun k => eps2 (s1 i k) (s2 k j) a b) /\
  quarkContract24 add mul sub s1 s2 i j a b = spin_sum (fun k => eps2 (s1 i k) (s2 j k) a b) /\
  quarkContract34 add mul sub s1 s2 i j a b = spin_sum (fun k => eps2 (s1 i j) (s2 k k) a b).
Proof.
  intros s1 s2 i j a b Ha Hb eps2. unfold spin_sum.
  repeat split; etransitivity; try (eapply accumulate_ok; eassumption);
    eapply sum_ext; intros k Hk; eapply contract2_ok; eassumption.
Qed.

(** traceSpinQuarkContract13 is the spin trace of quarkContract13. *)
Theorem C54_trace : forall (l r : nat -> nat -> nat -> nat -> R) a b, a < 3 -> b < 3 ->
  traceSpinQuarkContract13 add mul sub l r a b =
  spin_sum (fun j => quarkContract13 add mul sub l r j j a b).
Proof. intros. eapply trace13_ok; eassumption. Qed.

(** The contractions of colour vectors. *)
Theorem C54_vectors : forall s1 s2 s3 i, i < 3 ->
  colorContract_vec3 add mul sub s1 s2 s3 = triple_product rO add mul neg s1 s2 s3 /\
  colorCrossProduct mul sub s1 s2 i = cross rO add mul neg s1 s2 i.
Proof. intros. split; [eapply triple_ok|eapply cross_ok]; eassumption. Qed.
Theorem C54_vector_contract : forall n s1 s2, 0 < n ->
  colorVectorContract add mul n s1 s2 = sum_over rO add n (fun i => mul (s1 i) (s2 i)).
Proof. intros. eapply vector_contract_ok; eassumption. Qed.

(** What the contraction is for: colorContract(U,U,U) = 6 det U, and rotating
    all three quarks by V multiplies it by det V, so that a baryon is gauge
    invariant. *)
Theorem C54_determinant : forall U,
  colorContract_mat3 add mul sub U U U =
  (fun d => add d (add d (add d (add d (add d d))))) (determinant rO add mul neg U).
Proof.
  intros. etransitivity; [eapply contract3_ok; eassumption|]. eapply contract_det; eassumption.
Qed.
Theorem C54_gauge : forall V s1 s2 s3,
  colorContract_mat3 add mul sub (product3 rO add mul V s1) (product3 rO add mul V s2)
                     (product3 rO add mul V s3) =
  mul (determinant rO add mul neg V) (colorContract_mat3 add mul sub s1 s2 s3).
Proof.
  intros. etransitivity; [eapply contract3_ok; eassumption|].
  rewrite (contract3_ok rO rI add mul sub neg Rth s1). eapply contract_left; eassumption.
Qed.
End C54.
Print Assumptions C54_color_contract.
Print Assumptions C54_quark_contract_color.
Print Assumptions C54_quark_contract.
Print Assumptions C54_trace.
Print Assumptions C54_vectors.
Print Assumptions C54_vector_contract.
Print Assumptions C54_determinant.
Print Assumptions C54_gauge.

(** The manual (docs/manual.tex 2792-2797) and the comment in
    include/QDPOperators.h 1783-1790 give quarkContract24 the formula of quarkContract14,
    source1_{rho alpha} source2_{beta rho}; the code does not compute that. *)
Definition q1 (i j a b : nat) : Z := if Nat.eqb i 0 && Nat.eqb j 1 && Nat.eqb a 0 && Nat.eqb b 0 then 1 else 0.
Definition q2 (i j a b : nat) : Z := if Nat.eqb i 2 && Nat.eqb j 1 && Nat.eqb a 1 && Nat.eqb b 1 then 1 else 0.
Theorem C54_documented24_refuted :
  exists i j a b, i < 4 /\ j < 4 /\ a < 3 /\ b < 3 /\
  quarkContract24 Z.add Z.mul Z.sub q1 q2 i j a b <>
  spin_sum 0%Z Z.add (fun k => contract2 0%Z Z.add Z.mul Z.opp (q1 k i) (q2 j k) a b).
Proof. exists 0, 2, 2, 2. repeat (split; [lia|]). vm_compute. discriminate. Qed.
Print Assumptions C54_documented24_refuted.

(** Integers form such a ring; a contraction that is not zero. *)
Example C54_case :
  ring_theory 0%Z 1%Z Z.add Z.mul Z.sub Z.opp (@eq Z) /\
  (let U := fun i j => if Nat.eqb i j then 2%Z else if Nat.eqb i 0 then 1%Z else 0%Z in
   colorContract_mat Z.add Z.mul Z.sub 3 U U U = Val 48%Z) /\
  quarkContract24 Z.add Z.mul Z.sub q1 q2 0 2 2 2 = 1%Z.
Proof. split; [exact InitialRing.Zth|]. split; vm_compute; reflexivity. Qed.
