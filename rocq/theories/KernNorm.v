(** The two kernels that compute a vector and its norm in one pass. *)
From Coq Require Import ZArith List String Bool Lia Ring.
From Verif Require Import Base KernLang KernSym KernSound KernSpec KernRun KernBlas KernVec KernSums.
Import ListNotations.
Local Open Scope string_scope.
Local Open Scope Z_scope.

Section Norm.
  Context {R : Type} (rO rI : R) (radd rmul rsub : R -> R -> R) (ropp : R -> R).
  Context (RT : ring_theory rO rI radd rmul rsub ropp eq).
  Add Ring R_ring : RT.

  Definition norm_lims (l : lin) (scalars arrays : list string) : list (string * lin) :=
    ("Out", l) :: ("norm", lconst 1) :: map (fun s => (s, lconst 1)) scalars ++ map (fun x => (x, l)) arrays.
  Definition norm_half (c : stmt) (params : list string) (cnt : string) (scalars arrays : list string) (nl l : lin)
    : option vcs :=
    let al := map (fun x => (x, "Out")) arrays in
    do (s, v) <- sexec al ["norm_out"] c (start params [(cnt, nl)] ["Out"; "norm"] []);
    if list_eqb (fun a b => String.eqb (fst a) (fst b) && lin_eqb (snd a) (snd b)) (sw s) [("Out", l); ("norm", lconst 1)]
       && forallb (fun x => existsb (String.eqb x) (["Out"; "norm"] ++ scalars ++ arrays)) params
       && (names_ok params ["Out"; "norm"] [] al && accesses_ok (norm_lims l scalars arrays) v
           && forallb (closed_vc params) v)
    then Some (filter is_value v) else None.

  Definition norm_g (f : @vec R) (n : Z) (q : string) (i : Z) : R :=
    if String.eqb q "norm" then sumsq rO radd rmul f (6 * n) else f i.

  Lemma norm_run c params cnt scalars arrays (f : (string -> @vec R) -> @vec R) (nl l : lin) v :
    norm_half c params cnt scalars arrays nl l = Some v ->
    forall (m : memory R) (adr : string -> ptr) (n k : Z),
      1 <= k -> lval 0 k nl = n -> lval 0 k l = 6 * n ->
      Forall (value_ok rO radd rmul rsub ropp (fun x => value rO m (adr x)) (norm_g (f (fun x => value rO m (adr x))) n)
                       (fun _ j => sumsq rO radd rmul (f (fun x => value rO m (adr x))) (6 * j)) k) v ->
      has m (adr "Out") (6 * n) -> has m (adr "norm") 1 -> apart (adr "norm") (adr "Out") ->
      (forall s, In s scalars -> has m (adr s) 1 /\ apart (adr s) (adr "Out") /\ apart (adr s) (adr "norm")) ->
      (forall x, In x arrays -> has m (adr x) (6 * n) /\ apart (adr x) (adr "norm") /\
                               (adr x = adr "Out" \/ apart (adr x) (adr "Out"))) ->
      exists m',
        call rO radd rmul rsub ropp c (map (fun x => (x, adr x)) params) [(cnt, n)] m = Val m' /\
        (forall i, 0 <= i < 6 * n -> cell m' (adr "Out") i = Some (f (fun x => value rO m (adr x)) i)) /\
        cell m' (adr "norm") 0 = Some (sumsq rO radd rmul (f (fun x => value rO m (adr x))) (6 * n)) /\
        (forall b o, ~ (b = fst (adr "Out") /\ snd (adr "Out") <= o < snd (adr "Out") + 6 * n) ->
           ~ (b = fst (adr "norm") /\ o = snd (adr "norm")) -> m' b o = m b o).
  Proof.
    intros E m adr n k Hk Hn Hl HV Ho Hno Hap Hs Ha.
    unfold norm_half in E. dob E. destruct p as [s v1].
    match type of E with (if ?b then _ else _) = _ => destruct b eqn:B; [|discriminate] end. inv E.
    rewrite !andb_true_iff in B. destruct B as [[W Hp] B1].
    rewrite <- !andb_true_iff in B1. apply sw_eqb in W. rewrite forallb_forall in Hp.
    set (X := fun x => value rO m (adr x)) in *.
    destruct (run_values rO radd rmul rsub ropp c params cnt nl ["Out"; "norm"] []
                (map (fun x => (x, "Out")) arrays) ["norm_out"] s v1 (norm_lims l scalars arrays) m adr k
                (norm_g (f X) (lval 0 k nl)) (fun _ j => sumsq rO radd rmul (f X) (6 * j))) as (m' & C1 & C2 & C3).
    - exact Hk.
    - exact E0.
    - exact B1.
    - intros p w [I|[I|I]]; [inv I; now rewrite Hl|inv I; now rewrite lval_const|].
      apply in_app_iff in I as [I|I]; apply in_map_iff in I as (x & Q & I); inv Q.
      + rewrite lval_const. now apply Hs.
      + rewrite Hl. now apply Ha.
    - intros r q Ir Iq N _. specialize (Hp _ Ir). apply existsb_eqb in Hp. cbn [app] in Hp. destruct Hp as [Hp|[Hp|Hp]]; subst.
      + destruct Iq as [<-|[<-|[]]]; [congruence|]. left. unfold apart in *. congruence.
      + destruct Iq as [<-|[<-|[]]]; [|congruence]. left. auto.
      + apply in_app_iff in Hp as [Hp|Hp].
        * left. destruct (Hs _ Hp) as (_ & A & A'). destruct Iq as [<-|[<-|[]]]; auto.
        * destruct (Ha _ Hp) as (_ & A & [A'|A']); destruct Iq as [<-|[<-|[]]]; auto.
          right. split; [|auto]. apply in_map_iff. eauto.
    - easy.
    - exact HV.
    - exists m'. split; [exact C1|]. rewrite W in *.
      split; [|split].
      + intros i Hi. apply (C2 "Out" l i); [now left|lia].
      + apply (C2 "norm" (lconst 1) 0); [right; now left|]. rewrite lval_const. lia.
      + intros b o N1 N2. apply C3; [|easy]. intros q w [I|[I|[]]]; inv I.
        * now rewrite Hl.
        * rewrite lval_const. intros [A B]. apply N2. split; [auto|lia].
  Qed.

  Theorem with_norm_ok c params cnt scalars arrays f v v0 :
    norm_half c params cnt scalars arrays (Lin 0 0 1) (Lin 0 0 6) = Some v ->
    norm_half c params cnt scalars arrays (lconst 0) (lconst 0) = Some v0 ->
    (forall X n, 1 <= n -> Forall (value_ok rO radd rmul rsub ropp X (norm_g (f X) n)
                               (fun _ j => sumsq rO radd rmul (f X) (6 * j)) n) v) ->
    (forall X, Forall (value_ok rO radd rmul rsub ropp X (norm_g (f X) 0)
                               (fun _ j => sumsq rO radd rmul (f X) (6 * j)) 1) v0) ->
    with_norm rO radd rmul rsub ropp c params cnt scalars arrays f.
  Proof.
    intros E E0 HV HV0 m adr n out norm Hn H1 H2 H3 H4 H5. destruct (Z.eq_dec n 0) as [->|N].
    - apply norm_run with (scalars := scalars) (arrays := arrays) (k := 1) (nl := lconst 0) (l := lconst 0) (v := v0); auto; lia.
    - apply norm_run with (scalars := scalars) (arrays := arrays) (k := n) (nl := Lin 0 0 1) (l := Lin 0 0 6) (v := v); auto.
      + lia.
      + unfold lval; cbn [c0 ck cn]; lia.
      + apply HV. lia.
  Qed.

  Lemma sumsq_step6 (x : @vec R) j : 0 <= j ->
    sumsq rO radd rmul x (6 * (j + 1)) =
    radd (radd (radd (radd (radd (radd (sumsq rO radd rmul x (6 * j)) (rmul (x (6 * j)) (x (6 * j))))
      (rmul (x (6 * j + 1)) (x (6 * j + 1)))) (rmul (x (6 * j + 2)) (x (6 * j + 2))))
      (rmul (x (6 * j + 3)) (x (6 * j + 3)))) (rmul (x (6 * j + 4)) (x (6 * j + 4)))) (rmul (x (6 * j + 5)) (x (6 * j + 5))).
  Proof.
    intros H. unfold sumsq. replace (6 * (j + 1)) with (6 * j + 5 + 1) by lia.
    rewrite sum_step by lia. replace (6 * j + 5) with (6 * j + 4 + 1) at 1 by lia.
    rewrite sum_step by lia. replace (6 * j + 4) with (6 * j + 3 + 1) at 1 by lia.
    rewrite sum_step by lia. replace (6 * j + 3) with (6 * j + 2 + 1) at 1 by lia.
    rewrite sum_step by lia. replace (6 * j + 2) with (6 * j + 1 + 1) at 1 by lia.
    rewrite sum_step by lia. rewrite sum_step by lia. reflexivity.
  Qed.
  Lemma lval_6 k n c : lval k n (Lin c 6 0) = 6 * k + c.
  Proof. unfold lval; cbn [c0 ck cn]. lia. Qed.
  Lemma lval_n1 n : lval 0 n (Lin 0 0 1) = n.
  Proof. unfold lval; cbn [c0 ck cn]. lia. Qed.

  Ltac norm_value :=
    unfold norm_g; cbn [String.eqb Ascii.eqb Bool.eqb]; rewrite ?sumsq_step6 by lia;
    unfold vplus, vminus, scale;
    rewrite ?lval_lit, ?lval_6, ?lval_n1, ?lval_ck1, ?Z.add_0_r; try reflexivity; ring.
  Ltac norm_kernel :=
    match goal with
    | |- with_norm _ _ _ _ _ ?c ?ps ?cnt ?sc ?ar _ =>
        let r := eval vm_compute in (norm_half c ps cnt sc ar (Lin 0 0 1) (Lin 0 0 6)) in
        let r0 := eval vm_compute in (norm_half c ps cnt sc ar (lconst 0) (lconst 0)) in
        match r with Some ?l => match r0 with Some ?l0 =>
          apply with_norm_ok with (v := l) (v0 := l0);
          [ vm_cast_no_check (eq_refl (Some l)) | vm_cast_no_check (eq_refl (Some l0))
          | intros X n Hn; each norm_value | intros X; each norm_value ]
        end end
    end.

  Lemma vaxpy3_norm_ok : with_norm rO radd rmul rsub ropp vaxpy3_norm
    ["Out"; "scalep"; "InScale"; "Add"; "norm"] "n_3vec" ["scalep"] ["InScale"; "Add"]
    (fun X => vplus radd (scale rmul (X "scalep") (X "InScale")) (X "Add")).
  Proof. norm_kernel. Qed.
  Lemma vaxmby3_norm_ok : with_norm rO radd rmul rsub ropp vaxmby3_norm
    ["Out"; "ap"; "xp"; "bp"; "yp"; "norm"] "n_3vec" ["ap"; "bp"] ["xp"; "yp"]
    (fun X => vminus rsub (scale rmul (X "ap") (X "xp")) (scale rmul (X "bp") (X "yp"))).
  Proof. norm_kernel. Qed.
End Norm.
