From Coq Require Import List Bool Arith NArith ZArith Lia Permutation.
From Coq Require Import Ring Ring_theory InitialRing Ring_polynom.
From Verif Require Import EvalModel SseMachine SseKernels SseSpec SseEval SseProofs SseMatrix SseFields SseElem
  SseBlasSpec SseBlas.
Import ListNotations.
Open Scope nat_scope.

(** ** Fermions as 24 words *)
Definition fword {V} (A : fermion V) (j : nat) : V :=
  let z := A (j / 6) ((j mod 6) / 2) in if Nat.odd j then snd z else fst z.

Lemma fword_at {V} (A : fermion V) s c : s < 4 -> c < 3 ->
  fword A (6 * s + 2 * c) = fst (A s c) /\ fword A (6 * s + 2 * c + 1) = snd (A s c).
Proof.
  intros Hs Hc. destruct s as [|[|[|[|s]]]]; try lia; destruct c as [|[|[|c]]]; try lia; split; reflexivity.
Qed.

Lemma word_place j : j < 24 -> exists s c, s < 4 /\ c < 3 /\ (j = 6 * s + 2 * c \/ j = 6 * s + 2 * c + 1).
Proof.
  intros Hj. exists (j / 6), ((j mod 6) / 2).
  pose proof (Nat.div_mod j 6 ltac:(lia)). pose proof (Nat.mod_upper_bound j 6 ltac:(lia)).
  pose proof (Nat.div_mod (j mod 6) 2 ltac:(lia)). pose proof (Nat.mod_upper_bound (j mod 6) 2 ltac:(lia)). lia.
Qed.

Lemma ferm_words {V} (m : mem V) b o A : ferm_at m b o A <-> words_at m b o 24 (fword A).
Proof.
  split.
  - intros H j Hj. destruct (word_place j Hj) as [s [c [Hs [Hc E]]]]. destruct (H s c Hs Hc) as [K1 K2].
    destruct (fword_at A s c Hs Hc) as [W1 W2].
    destruct E as [-> | ->]; [rewrite W1, <- K1|rewrite W2, <- K2]; f_equal; lia.
  - intros H s c Hs Hc. destruct (fword_at A s c Hs Hc) as [W1 W2].
    split; [rewrite <- W1, <- (H (6 * s + 2 * c)) by lia|rewrite <- W2, <- (H (6 * s + 2 * c + 1)) by lia]; f_equal; lia.
Qed.

Definition field_word {V} (F : nat -> fermion V) (j : nat) : V := fword (F (j / 24)) (j mod 24).

Lemma field_words {V} (m : mem V) b vol F : field_at m b vol F <-> words_at m b 0 (24 * vol) (field_word F).
Proof.
  split.
  - intros H j Hj. pose proof (Nat.div_mod j 24 ltac:(lia)) as DM. pose proof (Nat.mod_upper_bound j 24 ltac:(lia)) as U.
    assert (Hi : j / 24 < vol) by (apply Nat.div_lt_upper_bound; lia).
    specialize (H _ Hi). rewrite ferm_words in H. unfold field_word. rewrite <- (H _ U). f_equal. lia.
  - intros H i Hi. rewrite ferm_words. intros j Hj. specialize (H (24 * i + j) ltac:(lia)). cbn [Nat.add] in H.
    rewrite H. unfold field_word.
    rewrite (Nat.mul_comm 24), Nat.div_add_l, Nat.div_small, Nat.add_0_r by lia.
    rewrite (Nat.add_comm (i * 24)), Nat.mod_add, Nat.mod_small by lia. reflexivity.
Qed.

(** ** The words the kernels write *)
Definition kword {V} (ar : arith V) (k : vkind) (a b z x y : V) : V :=
  match k with
  | Kaxpyz => a_add ar (a_mul ar a x) y
  | Kaxmyz => a_sub ar (a_mul ar a x) y
  | Kaxpy => a_add ar z (a_mul ar a x)
  | Kaxmy => a_sub ar (a_mul ar a x) z
  | Kaxpbyz => a_add ar (a_mul ar a x) (a_mul ar b y)
  | Kaxmbyz => a_sub ar (a_mul ar a x) (a_mul ar b y)
  | Kaxpby => a_add ar (a_mul ar a x) (a_mul ar b z)
  | Kaxmby => a_sub ar (a_mul ar a x) (a_mul ar b z)
  | Kscal => a_mul ar a x
  end.

Definition three (k : vkind) : bool := match k with Kaxpyz | Kaxmyz | Kaxpbyz | Kaxmbyz => true | _ => false end.
Definition ksz (k : vkind) : nat := match k with Kaxmyz => 2 | Kaxmy | Kscal => 24 | _ => 8 end.
Definition kpz (k : vkind) : N :=
  match k with Kaxpyz | Kaxmyz | Kaxpy | Kaxmy => p_out_p | Kaxpby | Kaxmby => p_y_p | _ => p_z_p end.
Definition kpx (k : vkind) : N :=
  match k with Kaxpyz | Kaxmyz | Kaxpy | Kaxmy => p_in_p | _ => p_x_p end.
Definition kpy (k : vkind) : N :=
  match k with Kaxpyz | Kaxmyz => p_add_p | Kaxpbyz | Kaxmbyz => p_y_p | _ => kpx k end.
Definition ksreg {V} (ar : arith V) (k : vkind) (a b : V) : list (N * (V * V)) :=
  match k with
  | Kaxpbyz | Kaxmbyz | Kaxpby | Kaxmby => [(r_a_sse, splat ar a); (r_b_sse, splat ar b)]
  | _ => [(r_scalar, splat ar a)]
  end.

Lemma sub_two {A} k (v : A) k' v' l : get k l = Some v -> get k' l = Some v' -> sub [(k, v); (k', v')] l.
Proof.
  intros H H' q u. cbn. destruct (N.eqb q k) eqn:E.
  - apply N.eqb_eq in E. subst q. intros X. injection X as <-. exact H.
  - destruct (N.eqb q k') eqn:E'; [|discriminate]. apply N.eqb_eq in E'. subst q. intros X. injection X as <-. exact H'.
Qed.

Lemma odd24 s : Nat.odd (24 * s) = false.
Proof. rewrite Nat.odd_mul. reflexivity. Qed.

Section Blas.
  Variable R : cring.
  Let ar := arith_of R.
  Add Ring cring_ring_b : (claw R).

  Definition kchecks (k : vkind) (n : nat) : bool :=
    forallb (fun p => let '(nw, cx, cy) := p in
      check (k_body (vkernel k) n) [] (lp3 (kpz k) (kpx k) (kpy k) cx cy) (ksz k) nw
        (ksreg ear k (var 0) (var 1)) (swin 2 (ksz k) nw) (ksreg ear k (var 0) (var 1))
        (elem_out 2 (ksz k) nw cx cy (kword ear k (var 0) (var 1))))
      (if three k then three_pats else two_pats).

  Lemma kchecks_ok k n : kchecks k n = true.
  Proof.
    destruct k; unfold kchecks; cbn [vkernel k_body vaxpyz4 vaxmyz4 vaxpy4 vaxmy4 vaxpbyz4 vaxmbyz4 vaxpby4 vaxmby4 vscal4];
      try (destruct (n <? L2BY2)); vm_compute; reflexivity.
  Qed.

  Lemma blas_call k kb d x y s n (m : mem R) a b fz fx fy :
    m kb 0 = Some a -> m kb 1 = Some b ->
    words_at m d (24 * s) (24 * n) fz -> words_at m x (24 * s) (24 * n) fx ->
    words_at m y (24 * s) (24 * n) fy ->
    exists m', call ar (vkernel k) (vargs k kb d x y s) n m = Some m' /\
      words_at m' d (24 * s) (24 * n) (fun j => kword ar k a b (fz j) (fx j) (fy j)) /\
      only m m' d (24 * s) (24 * n).
  Proof.
    intros Ha Hb Hz Hx Hy.
    set (T := k_times (vkernel k) n).
    assert (HT : T * ksz k = 24 * n) by (unfold T; destruct k; cbn [vkernel k_times ksz vaxpyz4 vaxmyz4 vaxpy4 vaxmy4 vaxpbyz4 vaxmbyz4 vaxpby4 vaxmby4 vscal4]; lia).
    set (y' := if three k then y else x). set (fy' := if three k then fy else fx).
    destruct (elem_call R (vkernel k) n (vargs k kb d x y s) (ksz k) T
                (if three k then three_pats else two_pats) (kpz k) (kpx k) (kpy k)
                (d, 24 * s) (x, 24 * s) (y', 24 * s) [a; b] m
                (ksreg ear k (var 0) (var 1)) (ksreg ar k a b)
                (kword ear k (var 0) (var 1)) (kword ar k a b) fz fx fy') as [m' [E1 [E2 E3]]].
    - destruct k; (split; [reflexivity|cbn; lia]).
    - destruct k; reflexivity.
    - reflexivity.
    - unfold vargs. generalize (24 * s). intros o.
      destruct k; eexists; (split; [lazy; rewrite ?Ha, ?Hb; lazy; reflexivity|]);
        (split; [first [apply sub_two; reflexivity | apply sub_one; reflexivity]|]); repeat split.
    - cbn [snd]. rewrite odd24. auto.
    - intros nw cx cy H. pose proof (kchecks_ok k n) as C. unfold kchecks in C. rewrite forallb_forall in C.
      exact (C _ H).
    - intros nw cx cy F H. destruct k; cbn [three] in H;
        repeat (destruct H as [H|H]; [injection H as <- <- <-; (split; [reflexivity|split; reflexivity])|]); destruct H.
    - unfold y'. destruct (three k); [left; reflexivity|right; split; reflexivity].
    - unfold same_or_apart. cbn [fst snd]. destruct (Nat.eq_dec d x) as [E|N]; [left; f_equal; exact E|right; left; exact N].
    - unfold same_or_apart. cbn [fst snd]. destruct (Nat.eq_dec d y') as [E|N]; [left; f_equal; exact E|right; left; exact N].
    - unfold same_or_apart. cbn [fst snd]. destruct (Nat.eq_dec x y') as [E|N]; [left; f_equal; exact E|right; left; exact N].
    - rewrite HT. exact Hz.
    - rewrite HT. exact Hx.
    - rewrite HT. unfold y', fy'. destruct (three k); assumption.
    - rewrite HT in E2, E3. cbn [fst snd] in E2, E3. exists m'. split; [exact E1|]. split; [|exact E3].
      intros j Hj. rewrite (E2 j Hj). f_equal. unfold fy'. destruct k; reflexivity.
  Qed.
End Blas.

(** ** Calls one after the other *)
Section Calls.
  Context {V : Type} (ar : arith V) (k : kernel) (args : nat -> list (N * (nat * nat))).
  Variables (d vol : nat) (m0 : mem V) (f : nat -> V -> V).

  Definition wstate (m : mem V) (g : nat -> V) : Prop :=
    words_at m d 0 (24 * vol) g /\ forall b o, b <> d \/ 24 * vol <= o -> m b o = m0 b o.

  Hypothesis Hcall : forall s n m g, (forall i, i < n -> s + i < vol) -> wstate m g ->
    exists m', call ar k (args s) n m = Some m' /\
      words_at m' d (24 * s) (24 * n) (fun j => f (24 * s + j) (g (24 * s + j))) /\
      only m m' d (24 * s) (24 * n).

  Lemma run_words cs : NoDup (visited cs) -> (forall i, In i (visited cs) -> i < vol) ->
    forall m g, wstate m g -> exists m', run_calls ar k args cs m = Some m' /\
      wstate m' (fun j => if isin (j / 24) (visited cs) then f j (g j) else g j).
  Proof.
    induction cs as [|[s n] cs IH]; intros Hnd Hin m g Hst.
    - exists m. split; [reflexivity|exact Hst].
    - cbn [visited flat_map fst snd] in Hnd, Hin. fold (visited cs) in Hnd, Hin.
      assert (Hvol : forall i, i < n -> s + i < vol).
      { intros i Hi. apply Hin. apply in_or_app. left. apply in_seq. lia. }
      destruct (Hcall s n m g Hvol Hst) as [m1 [E1 [E2 E3]]].
      set (g1 := fun j => if isin (j / 24) (seq s n) then f j (g j) else g j).
      destruct (NoDup_app_inv _ _ Hnd) as [N1 [N2 N3]].
      destruct (IH N2 (fun i Hi => Hin i (in_or_app _ _ _ (or_intror Hi))) m1 g1) as [m2 [E4 E5]].
      { destruct Hst as [St1 St2]. split.
        - intros j Hj. unfold g1.
          pose proof (Nat.div_mod j 24 ltac:(lia)) as DM. pose proof (Nat.mod_upper_bound j 24 ltac:(lia)) as U.
          destruct (isin (j / 24) (seq s n)) eqn:I.
          + apply isin_in, in_seq in I. specialize (E2 (j - 24 * s) ltac:(lia)). cbn beta in E2.
            replace (24 * s + (j - 24 * s)) with j in E2 by lia. exact E2.
          + rewrite <- (St1 j Hj). apply E3. intros [_ X].
            assert (isin (j / 24) (seq s n) = true) by (apply isin_in, in_seq; lia). congruence.
        - intros b o Hbo. rewrite <- (St2 b o Hbo). apply E3. intros [-> X].
          destruct Hbo as [Hbo|Hbo]; [congruence|].
          assert (s + (n - 1) < vol) by (apply Hvol; lia). lia. }
      exists m2. cbn [run_calls]. rewrite E1. split; [exact E4|].
      destruct E5 as [E5 E6]. split; [|exact E6].
      intros j Hj. rewrite (E5 j Hj). f_equal. unfold g1.
      cbn [visited flat_map fst snd]. fold (visited cs). unfold isin. rewrite existsb_app. fold (isin (j / 24) (seq s n)).
      fold (isin (j / 24) (visited cs)).
      destruct (isin (j / 24) (seq s n)) eqn:I1, (isin (j / 24) (visited cs)) eqn:I2; try reflexivity.
      exfalso. apply isin_in in I1, I2. exact (N3 _ I1 I2).
  Qed.
End Calls.

(** ** The statements *)
Section Statements.
  Variable R : cring.
  Let ar := arith_of R.
  Add Ring cring_ring_s : (claw R).

  Definition mword (o : vop) (a b ia z x y : R) : R :=
    match o with
    | PlusAX => a_add ar z (a_mul ar a x) | MinusAX => a_sub ar z (a_mul ar a x)
    | AXplusY => a_add ar (a_mul ar a x) y | AXminusY => a_sub ar (a_mul ar a x) y
    | YminusAX => a_sub ar y (a_mul ar a x) | XplusY => a_add ar x y | XminusY => a_sub ar x y
    | AX | XA => a_mul ar a x | TimesA => a_mul ar a z | OverA => a_mul ar ia z
    | PlusX => a_add ar z x | MinusX => a_sub ar z x
    | AXplusBY => a_add ar (a_mul ar a x) (a_mul ar b y)
    | AXminusBY => a_sub ar (a_mul ar a x) (a_mul ar b y)
    end.

  Lemma meaning_word o a b ia (D X Y : fermion R) j :
    fword (meaning ar o a b ia D X Y) j = mword o a b ia (fword D j) (fword X j) (fword Y j).
  Proof. unfold fword. destruct o; destruct (Nat.odd j); reflexivity. Qed.

  Lemma scalar_ok o ip a b ia z x y : (ip = true -> z = y) ->
    kword ar (vkind_of o ip) (vscalar ar o a ia) b z
      (match o with TimesA | OverA => z | _ => x end) y = mword o a b ia z x y.
  Proof. intros H. destruct ip; [rewrite H by reflexivity|]; destruct o; cbn; ring. Qed.

  Lemma statement o s kb d x y a b ia vol (m : mem R) fz fx fy cs :
    d <> kb -> x <> kb -> y <> kb ->
    words_at m d 0 (24 * vol) fz -> words_at m x 0 (24 * vol) fx -> words_at m y 0 (24 * vol) fy ->
    NoDup (visited cs) -> (forall i, In i (visited cs) -> i < vol) ->
    exists m', evaluate_vop ar o s kb d x y a b ia cs m = Some m' /\
      words_at m' d 0 (24 * vol)
        (fun j => if isin (j / 24) (visited cs) then mword o a b ia (fz j) (fx j) (fy j) else fz j) /\
      (forall b' o', b' <> kb -> b' <> d \/ 24 * vol <= o' -> m' b' o' = m b' o').
  Proof.
    intros Kd Kx Ky Hz Hx Hy Hnd Hvol. unfold evaluate_vop.
    set (ip := is_ordered s && (d =? y)). set (k := vkind_of o ip). set (x' := operand o d x).
    set (sa := vscalar ar o a ia). set (m0 := setm (setm m kb 0 sa) kb 1 b).
    assert (Out : forall b' o', b' <> kb -> m0 b' o' = m b' o').
    { intros b' o' H. unfold m0, setm. apply Nat.eqb_neq in H. rewrite H. reflexivity. }
    set (f := fun j v => kword ar k sa b v (if x' =? d then v else fx j) (if y =? d then v else fy j)).
    assert (Hx' : x' <> d -> words_at m x' 0 (24 * vol) fx).
    { intros H. unfold x', operand in *. destruct o; try exact Hx; contradiction H; reflexivity. }
    destruct (run_words ar (vkernel k) (vargs k kb d x' y) d vol m0 f) with (cs := cs) (m := m0) (g := fz)
      as [m' [E1 [E2 E3]]]; auto.
    - intros s1 n m1 g Hs [St1 St2].
      assert (St3 : forall o', m1 kb o' = m0 kb o') by (intros o'; apply St2; left; congruence).
      assert (Fr : forall b' h, b' <> d -> b' <> kb -> words_at m b' 0 (24 * vol) h -> words_at m1 b' 0 (24 * vol) h).
      { intros b' h H1 H2 H3 j Hj. rewrite St2 by (left; exact H1). rewrite Out by exact H2. exact (H3 j Hj). }
      assert (Sub : forall b' h, words_at m1 b' 0 (24 * vol) h -> words_at m1 b' (24 * s1) (24 * n) (fun j => h (24 * s1 + j))).
      { intros b' h H j Hj. apply H.
        assert (X : s1 + (j / 24) < vol) by (apply Hs; apply Nat.div_lt_upper_bound; lia).
        pose proof (Nat.div_mod j 24 ltac:(lia)). pose proof (Nat.mod_upper_bound j 24 ltac:(lia)). lia. }
      destruct (blas_call R k kb d x' y s1 n m1 sa b (fun j => g (24 * s1 + j))
                  (fun j => if x' =? d then g (24 * s1 + j) else fx (24 * s1 + j))
                  (fun j => if y =? d then g (24 * s1 + j) else fy (24 * s1 + j))) as [m2 [F1 [F2 F3]]].
      + rewrite St3. unfold m0, setm. now rewrite Nat.eqb_refl.
      + rewrite St3. unfold m0, setm. now rewrite !Nat.eqb_refl.
      + apply Sub, St1.
      + destruct (x' =? d) eqn:X.
        * apply Nat.eqb_eq in X. rewrite X. apply Sub, St1.
        * apply Nat.eqb_neq in X. apply Sub, Fr; [exact X| |apply Hx'; exact X].
          unfold x', operand. destruct o; assumption.
      + destruct (y =? d) eqn:X.
        * apply Nat.eqb_eq in X. rewrite X. apply Sub, St1.
        * apply Nat.eqb_neq in X. apply Sub, Fr; assumption.
      + exists m2. split; [exact F1|]. split; [exact F2|exact F3].
    - split; [|reflexivity]. intros j Hj. rewrite Out by exact Kd. exact (Hz j Hj).
    - exists m'. split; [exact E1|]. split.
      + intros j Hj. rewrite (E2 j Hj). f_equal. destruct (isin (j / 24) (visited cs)); [|reflexivity].
        unfold f, k, sa.
        assert (Sx : x = d -> fx j = fz j).
        { intros E. specialize (Hz j Hj). specialize (Hx j Hj). rewrite E in Hx. congruence. }
        assert (Sy : y = d -> fy j = fz j).
        { intros E. specialize (Hz j Hj). specialize (Hy j Hj). rewrite E in Hy. congruence. }
        rewrite <- (scalar_ok o ip a b ia (fz j) (fx j) (fy j)).
        2: { unfold ip. intros H. apply andb_true_iff in H. destruct H as [_ H]. apply Nat.eqb_eq in H. symmetry. apply Sy. congruence. }
        f_equal.
        * unfold x', operand. destruct o; try (rewrite Nat.eqb_refl; reflexivity);
            (destruct (x =? d) eqn:X; [apply Nat.eqb_eq in X; symmetry; apply Sx; exact X|reflexivity]).
        * destruct (y =? d) eqn:X; [apply Nat.eqb_eq in X; symmetry; apply Sy; exact X|reflexivity].
      + intros b' o' H1 H2. rewrite (E3 b' o' H2). apply Out, H1.
  Qed.
End Statements.
