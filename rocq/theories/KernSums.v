(** Norms and inner products. *)
From Coq Require Import ZArith List String Bool Lia Ring.
From Verif Require Import Base KernLang KernSym KernSound KernSpec KernRun KernBlas KernVec.
Import ListNotations.
Local Open Scope string_scope.
Local Open Scope Z_scope.

Section Sums.
  Context {R : Type} (rO rI : R) (radd rmul rsub : R -> R -> R) (ropp : R -> R).
  Context (RT : ring_theory rO rI radd rmul rsub ropp eq).
  Add Ring R_ring : RT.

  Definition reduces_check (c : stmt) (params : list string) (cnt : string) (arrays outs accs : list string)
    : option (vcs * vcs) :=
    let one := map (fun q => (q, lconst 1)) outs in
    do (s, v) <- sexec [] accs c (start params [(cnt, Lin 0 0 1)] outs []);
    do (s0, v0) <- sexec [] accs c (start params [(cnt, lconst 0)] outs []);
    if list_eqb (fun a b => String.eqb (fst a) (fst b) && lin_eqb (snd a) (snd b)) (sw s) one
       && list_eqb (fun a b => String.eqb (fst a) (fst b) && lin_eqb (snd a) (snd b)) (sw s0) one
       && forallb (fun x => existsb (String.eqb x) (outs ++ arrays)) params
       && (names_ok params outs [] [] && accesses_ok (one ++ map (fun x => (x, Lin 0 0 24)) arrays) v
           && forallb (closed_vc params) v)
       && (names_ok params outs [] [] && accesses_ok (one ++ map (fun x => (x, lconst 0)) arrays) v0
           && forallb (closed_vc params) v0)
    then Some (filter is_value v, filter is_value v0) else None.

  Definition look (outs : list (string * ((string -> @vec R) -> Z -> R))) (q : string) : (string -> @vec R) -> Z -> R :=
    match get q outs with Some f => f | None => fun _ _ => rO end.

  Lemma look_in outs q f : NoDup (map fst outs) -> In (q, f) outs -> look outs q = f.
  Proof.
    intros N I. unfold look. destruct (get_some _ _ _ I) as [f' E]. rewrite E.
    apply get_in in E. apply (nodup_in _ _ _ _ N E I).
  Qed.

  Theorem reduces_ok : forall c params cnt arrays outs accs (acc : (string -> @vec R) -> string -> Z -> R) v v0,
    reduces_check c params cnt arrays (map fst outs) accs = Some (v, v0) ->
    (forall X n, 1 <= n -> Forall (value_ok rO radd rmul rsub ropp X (fun q _ => look outs q X n) (acc X) n) v) ->
    (forall X, Forall (value_ok rO radd rmul rsub ropp X (fun q _ => look outs q X 0) (acc X) 1) v0) ->
    reduces rO radd rmul rsub ropp c params cnt arrays outs.
  Proof.
    intros c params cnt arrays outs accs acc v v0 E HV HV0 m adr n Hn Ho Hoo Ha Hao.
    unfold reduces_check in E. dob E. destruct p as [s v1]. dob E. destruct p as [s0 v2].
    match type of E with (if ?b then _ else _) = _ => destruct b eqn:B; [|discriminate] end. inv E.
    rewrite !andb_true_iff in B. destruct B as [[[[W W0] Hp] B1] B0].
    rewrite <- !andb_true_iff in B1, B0. apply sw_eqb in W, W0. rewrite forallb_forall in Hp.
    assert (Hnd : NoDup (map fst outs)).
    { unfold names_ok in B1. rewrite !andb_true_iff in B1. now apply nodupb_ok. }
    assert (Hal : forall r q, In r params -> In q (map fst outs) -> r <> q -> ~ In r (@nil string) ->
              apart (adr r) (adr q) \/ (In (r, q) [] /\ adr r = adr q)).
    { intros r q Ir Iq N _. left. apply in_map_iff in Iq as ([q' f] & Q & Iq). cbn in Q; subst q'.
      specialize (Hp _ Ir). apply existsb_eqb in Hp. apply in_app_iff in Hp as [Hp|Hp].
      - apply in_map_iff in Hp as ([r' f'] & Q & Hp). cbn in Q; subst r'. eapply Hoo; eauto.
      - eapply Hao; eauto. }
    assert (Fin : forall n' m', 1 <= n' ->
      (forall q w i, In (q, w) (map (fun q => (q, lconst 1)) (map fst outs)) -> 0 <= i < lval 0 n' w ->
         cell m' (adr q) i = Some (look outs q (fun x => value rO m (adr x)) n)) ->
      (forall b o, (forall q w, In (q, w) (map (fun q => (q, lconst 1)) (map fst outs)) ->
          ~ (b = fst (adr q) /\ snd (adr q) <= o < snd (adr q) + lval 0 n' w)) ->
         (forall l, In l (@nil string) -> In l params -> b <> fst (adr l)) -> m' b o = m b o) ->
      (forall q f, In (q, f) outs -> cell m' (adr q) 0 = Some (f (fun x => value rO m (adr x)) n)) /\
      (forall b o, (forall q f, In (q, f) outs -> ~ (b = fst (adr q) /\ o = snd (adr q))) -> m' b o = m b o)).
    { intros n' m' _ C2 C3. split.
      - intros q f I. rewrite <- (look_in outs q f Hnd I).
        apply (C2 q (lconst 1)); [|rewrite lval_const; lia].
        apply in_map_iff. exists q. split; [auto|]. apply in_map_iff. now exists (q, f).
      - intros b o N. apply C3; [|easy]. intros q w I. apply in_map_iff in I as (q' & Q & I). inv Q.
        apply in_map_iff in I as ([q' f] & Q & I). cbn in Q; subst q'. rewrite lval_const.
        intros [Eb D]. apply (N q f I). split; [auto|lia]. }
    destruct (Z.eq_dec n 0) as [->|Hn0].
    - destruct (run_values rO radd rmul rsub ropp c params cnt (lconst 0) (map fst outs) [] [] accs s0 v2
                  (map (fun q => (q, lconst 1)) (map fst outs) ++ map (fun x => (x, lconst 0)) arrays) m adr 1
                  (fun q _ => look outs q (fun x => value rO m (adr x)) 0) (acc (fun x => value rO m (adr x))))
        as (m' & C1 & C2 & C3).
      + lia.
      + exact E1.
      + exact B0.
      + intros p l I. apply in_app_iff in I as [I|I]; apply in_map_iff in I as (q & Q & I); inv Q.
        * rewrite lval_const. apply in_map_iff in I as ([q f] & Q & I). cbn in Q; subst q. eauto.
        * intros i. rewrite lval_const. lia.
      + exact Hal.
      + easy.
      + apply HV0.
      + rewrite W0 in *. exists m'. split; [exact C1|]. apply (Fin 1); [lia|exact C2|exact C3].
    - destruct (run_values rO radd rmul rsub ropp c params cnt (Lin 0 0 1) (map fst outs) [] [] accs s v1
                  (map (fun q => (q, lconst 1)) (map fst outs) ++ map (fun x => (x, Lin 0 0 24)) arrays) m adr n
                  (fun q _ => look outs q (fun x => value rO m (adr x)) n) (acc (fun x => value rO m (adr x))))
        as (m' & C1 & C2 & C3).
      + lia.
      + exact E0.
      + exact B1.
      + intros p l I. apply in_app_iff in I as [I|I]; apply in_map_iff in I as (q & Q & I); inv Q.
        * rewrite lval_const. apply in_map_iff in I as ([q f] & Q & I). cbn in Q; subst q. eauto.
        * intros i Hi. apply (Ha p I). unfold lval in Hi; cbn [c0 ck cn] in Hi. lia.
      + exact Hal.
      + easy.
      + apply HV. lia.
      + rewrite W in *. replace (lval 0 n (Lin 0 0 1)) with n in C1 by (unfold lval; cbn [c0 ck cn]; lia).
        exists m'. split; [exact C1|]. apply (Fin n); [lia|exact C2|exact C3].
  Qed.

  Lemma sum_step f j : 0 <= j -> sum rO radd f (Z.to_nat (j + 1)) = radd (sum rO radd f (Z.to_nat j)) (f j).
  Proof.
    intros H. replace (Z.to_nat (j + 1)) with (S (Z.to_nat j)) by lia. cbn. now rewrite Z2Nat.id.
  Qed.
  Lemma lval_ck1 k n : lval k n (Lin 0 1 0) = k.
  Proof. unfold lval; cbn [c0 ck cn]. lia. Qed.
  Lemma lval_ck2 k n c : lval k n (Lin c 2 0) = 2 * k + c.
  Proof. unfold lval; cbn [c0 ck cn]. lia. Qed.
  Lemma lval_n n c : lval 0 n (Lin 0 0 c) = c * n.
  Proof. unfold lval; cbn [c0 ck cn]. lia. Qed.

  Ltac reduction a acc0 tac :=
    match goal with
    | |- reduces _ _ _ _ _ ?c ?ps ?cnt ?ar ?os =>
        let os' := eval cbn in (map fst os) in
        let r := eval vm_compute in (reduces_check c ps cnt ar os' a) in
        match r with
        | Some (?l, ?l0) =>
            apply reduces_ok with (accs := a) (acc := acc0) (v := l) (v0 := l0);
            [ vm_cast_no_check (eq_refl (Some (l, l0)))
            | intros X n Hn; each tac
            | intros X; each tac ]
        end
    end.

  Lemma local_sumsq_ok : reduces rO radd rmul rsub ropp local_sumsq ["Out"; "In"] "n_3vec" ["In"]
    [("Out", fun X n => sumsq rO radd rmul (X "In") (24 * n))].
  Proof.
    reduction ["result"]
      (fun (X : string -> @vec R) (_ : string) k => sumsq rO radd rmul (X "In") k)
      ltac:(cbn [look get String.eqb Ascii.eqb Bool.eqb]; unfold sumsq;
            rewrite ?sum_step by lia; rewrite ?lval_ck1, ?lval_n; try reflexivity; ring).
  Qed.

  Lemma l_vcdot_real_ok : reduces rO radd rmul rsub ropp l_vcdot_real ["Out"; "V1"; "V2"] "n_3vec" ["V1"; "V2"]
    [("Out", fun X n => dot_re rO radd rmul (X "V1") (X "V2") (12 * n))].
  Proof.
    reduction ["result"]
      (fun (X : string -> @vec R) (_ : string) k => dot_re rO radd rmul (X "V1") (X "V2") k)
      ltac:(cbn [look get String.eqb Ascii.eqb Bool.eqb]; unfold dot_re;
            rewrite ?sum_step by lia; rewrite ?lval_ck1, ?lval_n, ?lval_ck2, ?Z.add_0_r; try reflexivity; ring).
  Qed.

  Lemma l_vcdot_ok : reduces rO radd rmul rsub ropp l_vcdot ["Out_re"; "Out_im"; "V1"; "V2"] "n_3vec" ["V1"; "V2"]
    [("Out_re", fun X n => dot_re rO radd rmul (X "V1") (X "V2") (12 * n));
     ("Out_im", fun X n => dot_im rO radd rmul rsub (X "V1") (X "V2") (12 * n))].
  Proof.
    reduction ["result_re"; "result_im"]
      (fun (X : string -> @vec R) (a : string) k =>
         if String.eqb a "result_re" then dot_re rO radd rmul (X "V1") (X "V2") k
         else dot_im rO radd rmul rsub (X "V1") (X "V2") k)
      ltac:(cbn [look get String.eqb Ascii.eqb Bool.eqb]; unfold dot_re, dot_im;
            rewrite ?sum_step by lia; rewrite ?lval_ck1, ?lval_n, ?lval_ck2, ?Z.add_0_r; try reflexivity; ring).
  Qed.
End Sums.
