(** The 3x3 products compute what they should. *)
From Coq Require Import ZArith List String Bool Lia Ring.
From Verif Require Import Base KernLang KernSym KernSound KernSpec KernLine KernSu3 KernSu3Spec.
Import ListNotations.
Local Open Scope string_scope.
Local Open Scope Z_scope.

Section Su3.
  Context {R : Type} (rO rI : R) (radd rmul rsub : R -> R -> R) (ropp : R -> R).
  Context (RT : ring_theory rO rI radd rmul rsub ropp eq).
  Add Ring R_ring : RT.

  Definition three (aa bb cc : ptr) (x : string) : ptr :=
    if String.eqb x "aa" then aa else if String.eqb x "bb" then bb else cc.

  Definition written (l : Z) (c : list (Z * lexp)) : bool :=
    forallb (fun k => match zget (Z.of_nat k) c with Some _ => true | None => false end) (List.seq 0 (Z.to_nat l)).
  Definition covers (l : Z) (c : list (Z * lexp)) : bool :=
    forallb (fun p => (0 <=? fst p) && (fst p <? l)) c.

  Lemma computes_ok c la lb lc s (P : @vec R -> @vec R -> @vec R -> Prop) :
    lexec [("aa", la); ("bb", lb); ("cc", lc)] "cc" c (Lst [] []) = Some s ->
    written lc (KernLine.lc s) = true -> covers lc (KernLine.lc s) = true ->
    (forall (X : string -> @vec R) (C : @vec R),
       (forall z e, zget z (KernLine.lc s) = Some e -> C z = lden rO radd rmul rsub ropp X e) -> P (X "aa") (X "bb") C) ->
    computes rO radd rmul rsub ropp c la lb lc P.
  Proof.
    intros E W V H m aa bb cc Ha Hb Hc Da Db.
    destruct (line_ok [("aa", la); ("bb", lb); ("cc", lc)] "cc" rO radd rmul rsub ropp (three aa bb cc) m) with
      (c := c) (s := s) (lo := lc) as (m' & C1 & C2 & C3).
    - intros p l [I|[I|[I|[]]]]; inv I; assumption.
    - intros p l lo i j I Io N Hi Hj.
      assert (lo = lc) by (destruct Io as [Io|[Io|[Io|[]]]]; congruence). subst lo.
      destruct I as [I|[I|[I|[]]]]; inv I; [now apply Da|now apply Db|congruence].
    - exact E.
    - reflexivity.
    - unfold written in W. rewrite forallb_forall in W.
      assert (G : forall i, 0 <= i < lc -> exists e, zget i (KernLine.lc s) = Some e).
      { intros i Hi. specialize (W (Z.to_nat i)). rewrite Z2Nat.id in W by lia.
        destruct (zget i (KernLine.lc s)); [eauto|]. discriminate W. apply in_seq. lia. }
      exists m'. split; [exact C1|]. split; [|split].
      + intros i Hi. change cc with (three aa bb cc "cc"). rewrite (C2 i Hi).
        destruct (G i Hi) as [e ->]. discriminate.
      + apply (H (fun p => value rO m (three aa bb cc p))). intros z e Z. unfold value.
        change cc with (three aa bb cc "cc"). rewrite (C2 z); [now rewrite Z|].
        unfold covers in V. rewrite forallb_forall in V.
        assert (I : In (z, e) (KernLine.lc s)).
        { clear - Z. induction (KernLine.lc s) as [|[y u] t IH]; cbn in *; [discriminate|].
          destruct (Z.eqb_spec y z); [inv Z; auto|right; auto]. }
        specialize (V _ I). cbn in V. rewrite andb_true_iff, Z.leb_le, Z.ltb_lt in V. lia.
      + exact C3.
  Qed.

  Lemma three_cases i : 0 <= i < 3 -> i = 0 \/ i = 1 \/ i = 2.
  Proof. lia. Qed.

  Ltac line la lb lc0 c :=
    let r := eval vm_compute in (lexec [("aa", la); ("bb", lb); ("cc", lc0)] "cc" c (Lst [] [])) in
    match r with Some ?st =>
      apply computes_ok with (s := st);
      [ vm_cast_no_check (eq_refl (Some st)) | vm_compute; reflexivity | vm_compute; reflexivity | intros X C H ]
    end.
  Ltac consts :=
    repeat match goal with
    | |- context [Z.mul (Zpos ?a) (Zpos ?b)] =>
        let r := eval vm_compute in (Z.mul (Zpos a) (Zpos b)) in change (Z.mul (Zpos a) (Zpos b)) with r
    | |- context [Z.mul (Zpos ?a) 0] => change (Z.mul (Zpos a) 0) with 0
    | |- context [Z.add (Zpos ?a) (Zpos ?b)] =>
        let r := eval vm_compute in (Z.add (Zpos a) (Zpos b)) in change (Z.add (Zpos a) (Zpos b)) with r
    | |- context [Z.add 0 ?b] => change (Z.add 0 b) with b
    | |- context [Z.add (Zpos ?b) 0] => change (Z.add (Zpos b) 0) with (Zpos b)
    end.
  Ltac finish C H :=
    unfold mat, adj, num, sum3, c_conj, c_times, c_plus; cbn [fst snd];
    unfold mat, adj, num, sum3, c_conj, c_times, c_plus; cbn [fst snd]; consts;
    match goal with |- (C ?u, C ?v) = _ => rewrite (H u _ eq_refl), (H v _ eq_refl) end;
    cbn [lden]; f_equal; ring.

  Lemma mult_su3_nn_ok : computes rO radd rmul rsub ropp mult_su3_nn 18 18 18 (fun a b c =>
    is_product radd rmul rsub (mat a) (mat b) (mat c)).
  Proof.
    line 18 18 18 mult_su3_nn. unfold is_product.
    intros i j Hi Hj. destruct (three_cases i Hi) as [-> | [-> | ->]]; destruct (three_cases j Hj) as [-> | [-> | ->]]; finish C H.
  Qed.
  Lemma mult_su3_an_ok : computes rO radd rmul rsub ropp mult_su3_an 18 18 18 (fun a b c =>
    is_product radd rmul rsub (adj ropp a) (mat b) (mat c)).
  Proof.
    line 18 18 18 mult_su3_an. unfold is_product.
    intros i j Hi Hj. destruct (three_cases i Hi) as [-> | [-> | ->]]; destruct (three_cases j Hj) as [-> | [-> | ->]]; finish C H.
  Qed.
  Lemma mult_su3_na_ok : computes rO radd rmul rsub ropp mult_su3_na 18 18 18 (fun a b c =>
    is_product radd rmul rsub (mat a) (adj ropp b) (mat c)).
  Proof.
    line 18 18 18 mult_su3_na. unfold is_product.
    intros i j Hi Hj. destruct (three_cases i Hi) as [-> | [-> | ->]]; destruct (three_cases j Hj) as [-> | [-> | ->]]; finish C H.
  Qed.
  Lemma mult_su3_aa_ok : computes rO radd rmul rsub ropp mult_su3_aa 18 18 18 (fun a b c =>
    is_product radd rmul rsub (adj ropp a) (adj ropp b) (mat c)).
  Proof.
    line 18 18 18 mult_su3_aa. unfold is_product.
    intros i j Hi Hj. destruct (three_cases i Hi) as [-> | [-> | ->]]; destruct (three_cases j Hj) as [-> | [-> | ->]]; finish C H.
  Qed.
  Lemma mult_su3_mat_vec_ok : computes rO radd rmul rsub ropp mult_su3_mat_vec 18 6 6 (fun a b c =>
    is_image radd rmul rsub (mat a) (num b) (num c)).
  Proof.
    line 18 6 6 mult_su3_mat_vec. unfold is_image.
    intros i Hi. destruct (three_cases i Hi) as [-> | [-> | ->]]; finish C H.
  Qed.
  Lemma mult_adj_su3_mat_vec_ok : computes rO radd rmul rsub ropp mult_adj_su3_mat_vec 18 6 6 (fun a b c =>
    is_image radd rmul rsub (adj ropp a) (num b) (num c)).
  Proof.
    line 18 6 6 mult_adj_su3_mat_vec. unfold is_image.
    intros i Hi. destruct (three_cases i Hi) as [-> | [-> | ->]]; finish C H.
  Qed.
  Lemma add_su3_vector_ok : computes rO radd rmul rsub ropp add_su3_vector 6 6 6 (fun a b c =>
    forall i, 0 <= i < 3 -> num c i = c_plus radd (num a i) (num b i)).
  Proof.
    line 6 6 6 add_su3_vector.
    intros i Hi. destruct (three_cases i Hi) as [-> | [-> | ->]]; finish C H.
  Qed.
End Su3.
