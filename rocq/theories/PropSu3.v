(** C55: the 3x3 matrix and vector products. *)
From Coq Require Import ZArith List String Bool Lia Ring.
From Verif Require Import Base KernLang KernSpec KernSu3 KernSu3Spec KernSu3Ok.
Import ListNotations.
Local Open Scope string_scope.
Local Open Scope Z_scope.

(** [computes code la lb lc P] (KernSu3Spec.v): for every memory and all addresses of the operands and of
    the result, the result overlapping neither operand, the code ends normally, [P] holds between the
    contents of the operands and of the result, and nothing else changed. *)
Theorem C55_su3_products : forall (R : Type) (rO rI : R) (radd rmul rsub : R -> R -> R) (ropp : R -> R),
  ring_theory rO rI radd rmul rsub ropp eq ->
  let computes := computes rO radd rmul rsub ropp in
  let is_product := is_product radd rmul rsub in
  let adj := adj ropp in
  computes mult_su3_nn 18 18 18 (fun a b c => is_product (mat a) (mat b) (mat c)) /\
  computes mult_su3_an 18 18 18 (fun a b c => is_product (adj a) (mat b) (mat c)) /\
  computes mult_su3_na 18 18 18 (fun a b c => is_product (mat a) (adj b) (mat c)) /\
  computes mult_su3_aa 18 18 18 (fun a b c => is_product (adj a) (adj b) (mat c)).
Proof.
  intros R rO rI radd rmul rsub ropp RT. cbv zeta.
  split; [exact (mult_su3_nn_ok rO rI radd rmul rsub ropp RT)|].
  split; [exact (mult_su3_an_ok rO rI radd rmul rsub ropp RT)|].
  split; [exact (mult_su3_na_ok rO rI radd rmul rsub ropp RT)|].
  exact (mult_su3_aa_ok rO rI radd rmul rsub ropp RT).
Qed.
Print Assumptions C55_su3_products.

Theorem C55_su3_vectors : forall (R : Type) (rO rI : R) (radd rmul rsub : R -> R -> R) (ropp : R -> R),
  ring_theory rO rI radd rmul rsub ropp eq ->
  let computes := computes rO radd rmul rsub ropp in
  let is_image := is_image radd rmul rsub in
  let adj := adj ropp in
  computes mult_su3_mat_vec 18 6 6 (fun a b c => is_image (mat a) (num b) (num c)) /\
  computes mult_adj_su3_mat_vec 18 6 6 (fun a b c => is_image (adj a) (num b) (num c)) /\
  computes add_su3_vector 6 6 6 (fun a b c => forall i, 0 <= i < 3 -> num c i = c_plus radd (num a i) (num b i)).
Proof.
  intros R rO rI radd rmul rsub ropp RT. cbv zeta.
  split; [exact (mult_su3_mat_vec_ok rO rI radd rmul rsub ropp RT)|].
  split; [exact (mult_adj_su3_mat_vec_ok rO rI radd rmul rsub ropp RT)|].
  eapply add_su3_vector_ok; eauto.
Qed.
Print Assumptions C55_su3_vectors.

(** A concrete product of integer matrices meeting the hypotheses. *)
Example C55_su3_case :
  let m := fun (b : nat) (o : Z) =>
    match b with
    | O => if (0 <=? o) && (o <? 18) then Some (o * o) else None
    | _ => if (0 <=? o) && (o <? 36) then Some (3 - o) else None
    end in
  let aa : ptr := (0%nat, 0) in let bb : ptr := (1%nat, 0) in let cc : ptr := (1%nat, 18) in
  (has m aa 18 /\ has m bb 18 /\ has m cc 18 /\ disjoint aa 18 cc 18 /\ disjoint bb 18 cc 18) /\
  match call 0 Z.add Z.mul Z.sub Z.opp mult_su3_an [("aa", aa); ("bb", bb); ("cc", cc)] [] m with
  | Val m' => mat (value 0 m' cc) 0 1 =
      sum3 Z.add (fun x => c_times Z.add Z.mul Z.sub (c_conj Z.opp (mat (value 0 m aa) x 0)) (mat (value 0 m bb) x 1))
      /\ mat (value 0 m' cc) 0 1 = (-4086, 159)
  | _ => False
  end.
Proof.
  cbv zeta. split; [|vm_compute; split; reflexivity].
  assert (D : forall a b c d (x : option Z), x <> None -> a <= b -> c < d -> (if (a <=? b) && (c <? d) then x else None) <> None).
  { intros a b c d x Hx H1 H2. destruct (Z.leb_spec a b); [|lia]. destruct (Z.ltb_spec c d); [exact Hx|lia]. }
  split; [intros i Hi; apply D; [discriminate|cbn [fst snd] in *; lia..]|].
  split; [intros i Hi; apply D; [discriminate|cbn [fst snd] in *; lia..]|].
  split; [intros i Hi; apply D; [discriminate|cbn [fst snd] in *; lia..]|].
  split; intros i j Hi Hj [E1 E2]; cbn [fst snd] in *; [discriminate|lia].
Qed.
