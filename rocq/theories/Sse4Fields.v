From Coq Require Import List Bool Arith NArith ZArith Lia.
From Coq Require Import Ring Ring_theory InitialRing.
From Verif Require Import SseMachine SseSpec SseEval SseFields SseBlasSpec SseBlasProofs
  Sse4Machine Sse4Kernels Sse4Eval Sse4Proofs Sse4Statements.
Import ListNotations.
Open Scope nat_scope.

(** ** Statements on fields of fermions *)
Section Calls.
  Context {V : Type} (ar : arith V).

  (** The operands of the kernel, and what it does to a number. *)
  Definition op1 (o : vop) (d x y : nat) : nat :=
    match o with TimesA | OverA | PlusX | MinusX => d | _ => x end.
  Definition op2 (o : vop) (d x y : nat) : nat :=
    match o with PlusAX | MinusAX | TimesA | OverA => d | AX | XA | PlusX | MinusX => x | _ => y end.
  Definition fop (o : vop) (a b u v : V) : V :=
    match o with
    | PlusAX | MinusAX | AXplusY | YminusAX => a_add ar (a_mul ar a u) v
    | AXminusY => a_sub ar (a_mul ar a u) v
    | XplusY | PlusX => a_add ar u v
    | XminusY | MinusX => a_sub ar u v
    | AX | XA | TimesA | OverA => a_mul ar a u
    | AXplusBY => a_add ar (a_mul ar a u) (a_mul ar b v)
    | AXminusBY => a_sub ar (a_mul ar a u) (a_mul ar b v)
    end.

  Lemma mod24 s : (24 * s) mod 4 = 0.
  Proof. replace (24 * s) with (6 * s * 4) by lia. apply Nat.mod_mul. lia. Qed.

  Lemma call_ok o kb d x y s n (m : mem V) a b : m kb 0 = Some a -> m kb 1 = Some b ->
    defd m d (24 * s) (24 * s + 24 * n) -> defd m (op1 o d x y) (24 * s) (24 * s + 24 * n) ->
    defd m (op2 o d x y) (24 * s) (24 * s + 24 * n) ->
    exists m', call4 ar (kernel_of o) (args_of o kb d x y s) n m = Some m' /\
      elemw d (op1 o d x y) (op2 o d x y) (fop o a b) (24 * s) (24 * s + 24 * n) m m'.
  Proof.
    intros Ha Hb D1 D2 D3. pose proof (mod24 s) as A. unfold args_of. generalize dependent (24 * s). intros q D1 D2 D3 A.
    assert (Fin : forall pre body args X Y F pd px py inv rg,
      good_body ar d X Y F pd px py inv 6 body -> inv rg ->
      run4 ar pre (start4 args m) = Some (St4 rg (fun p => get p args) m) ->
      get pd args = Some (d, q) -> get px args = Some (X, q) -> get py args = Some (Y, q) ->
      defd m X q (q + 24 * n) -> defd m Y q (q + 24 * n) ->
      exists m', call4 ar (K4 pre body) args n m = Some m' /\ elemw d X Y F q (q + 24 * n) m m').
    { intros pre body args X Y F pd px py inv rg G I E G1 G2 G3 DX DY.
      destruct (loop_ok ar d X Y F pd px py inv 6 body G n rg (fun p => get p args) m q I G1 G2 G3 A D1 DX DY) as (s' & E' & W).
      exists (mem4 s'). unfold call4. cbn [pre4 body4]. rewrite E. rewrite E'. split; [reflexivity|exact W]. }
    destruct o; cbn [op1 op2 kernel_of] in *;
    [ eapply Fin with (1 := body_axpy ar a d x d) | eapply Fin with (1 := body_axpy ar a d x d)
    | eapply Fin with (1 := body_axpy ar a d x y) | eapply Fin with (1 := body_axmy ar a d x y)
    | eapply Fin with (1 := body_axpy ar a d x y) | eapply Fin with (1 := body_add ar d x y)
    | eapply Fin with (1 := body_sub ar d x y) | eapply Fin with (1 := body_scal ar a d x)
    | eapply Fin with (1 := body_scal ar a d x) | eapply Fin with (1 := body_scal ar a d d)
    | eapply Fin with (1 := body_scal ar a d d) | eapply Fin with (1 := body_add ar d d x)
    | eapply Fin with (1 := body_sub ar d d x) | eapply Fin with (1 := body_axpby ar a b d x y)
    | eapply Fin with (1 := body_axmby ar a b d x y) ];
    try reflexivity; try assumption;
    try (unfold start4; cbn [run4 exec4 regs4 ptrs4 mem4 vaxpy3_pre vaxmy3_pre vscal_pre vaxpby3_pre vaxmby3_pre];
         cbn [get N.eqb Pos.eqb p4_scalep p4_Out p4_InScale p4_Add p4_Sub p4_In p4_In1 p4_In2 p4_a p4_b p4_x p4_y];
         rewrite ?Ha; cbn [run4 exec4 regs4 ptrs4 mem4]; rewrite ?ap4; cbn [get N.eqb Pos.eqb p4_scalep p4_Out p4_InScale p4_Add p4_Sub p4_In p4_In1 p4_In2 p4_a p4_b p4_x p4_y r4_vscalep r4_va r4_vb];
         rewrite ?Hb; cbn [run4 exec4 regs4 ptrs4 mem4]; rewrite ?ap4; cbn [N.eqb Pos.eqb r4_va r4_vb r4_vscalep shuf_ps Nat.modulo Nat.div Nat.divmod fst snd nth_error run4 exec4 regs4 ptrs4 mem4];
         rewrite ?ap4; cbn [N.eqb Pos.eqb r4_va r4_vb r4_vscalep]; reflexivity);
    try exact Logic.I;
    try (unfold inv_scale, inv_two; rewrite ?ap4; cbn [N.eqb Pos.eqb r4_va r4_vb r4_vscalep]; repeat split; reflexivity).
  Qed.

  (** One after the other. *)
  Lemma run_ok4 o kb d x y vol a b cs : d <> kb ->
    NoDup (visited cs) -> (forall i, In i (visited cs) -> i < vol) -> forall m : mem V,
    m kb 0 = Some a -> m kb 1 = Some b ->
    defd m d 0 (24 * vol) -> defd m (op1 o d x y) 0 (24 * vol) -> defd m (op2 o d x y) 0 (24 * vol) ->
    exists m', run_calls4 ar (kernel_of o) (args_of o kb d x y) cs m = Some m' /\
      forall b' q, m' b' q = if (b' =? d) && isin (q / 24) (visited cs)
        then lift2 (fop o a b) (m (op1 o d x y) q) (m (op2 o d x y) q) else m b' q.
  Proof.
    intros Nd. induction cs as [|[s n] cs IH]; intros Hnd Hin m Ha Hb D1 D2 D3.
    - exists m. split; [reflexivity|]. intros b' q. cbn. rewrite andb_false_r. reflexivity.
    - cbn [visited flat_map fst snd] in Hnd, Hin. fold (visited cs) in Hnd, Hin.
      assert (Hvol : forall i, i < n -> s + i < vol).
      { intros i Hi. apply Hin. apply in_or_app. left. apply in_seq. lia. }
      destruct (NoDup_app_inv _ _ Hnd) as [N1 [N2 N3]].
      assert (Top : n = 0 \/ 24 * s + 24 * n <= 24 * vol).
      { destruct n; [now left|right]. specialize (Hvol n ltac:(lia)). lia. }
      assert (Sub : forall c, defd m c 0 (24 * vol) -> defd m c (24 * s) (24 * s + 24 * n)).
      { intros c Hc q Hq. apply Hc. lia. }
      destruct (call_ok o kb d x y s n m a b Ha Hb (Sub _ D1) (Sub _ D2) (Sub _ D3)) as [m1 [E1 W1]].
      assert (Rng : forall q, ((24 * s <=? q) && (q <? 24 * s + 24 * n)) = isin (q / 24) (seq s n)).
      { intros q. pose proof (Nat.div_mod q 24 ltac:(lia)) as DM. pose proof (Nat.mod_upper_bound q 24 ltac:(lia)) as U.
        destruct (isin (q / 24) (seq s n)) eqn:I.
        - apply isin_in, in_seq in I. destruct (Nat.leb_spec (24 * s) q); [|lia]. destruct (Nat.ltb_spec q (24 * s + 24 * n)); [reflexivity|lia].
        - destruct (Nat.leb_spec (24 * s) q); [|reflexivity]. destruct (Nat.ltb_spec q (24 * s + 24 * n)); [|reflexivity].
          assert (isin (q / 24) (seq s n) = true) by (apply isin_in, in_seq; lia). congruence. }
      assert (Kb : forall q, m1 kb q = m kb q).
      { intros q. rewrite W1. rewrite (proj2 (Nat.eqb_neq kb d)) by congruence. reflexivity. }
      destruct (IH N2 (fun i Hi => Hin i (in_or_app _ _ _ (or_intror Hi))) m1) as [m2 [E2 W2]].
      { rewrite Kb. exact Ha. } { rewrite Kb. exact Hb. }
      { apply (elemw_defd _ _ _ _ _ _ _ _ _ _ _ W1); auto. }
      { apply (elemw_defd _ _ _ _ _ _ _ _ _ _ _ W1); auto. }
      { apply (elemw_defd _ _ _ _ _ _ _ _ _ _ _ W1); auto. }
      exists m2. cbn [run_calls4]. rewrite E1. split; [exact E2|].
      intros b' q. rewrite W2. cbn [visited flat_map fst snd]. fold (visited cs).
      unfold isin at 2. rewrite existsb_app. fold (isin (q / 24) (seq s n)). fold (isin (q / 24) (visited cs)).
      assert (Old : isin (q / 24) (seq s n) = false -> forall c, m1 c q = m c q).
      { intros I c. rewrite W1, Rng, I, andb_false_r. reflexivity. }
      destruct (isin (q / 24) (seq s n)) eqn:I1; cbn [orb].
      + destruct (isin (q / 24) (visited cs)) eqn:I2.
        { exfalso. apply isin_in in I1, I2. exact (N3 _ I1 I2). }
        rewrite andb_false_r. rewrite W1, Rng, I1. reflexivity.
      + rewrite !(Old eq_refl). reflexivity.
  Qed.
End Calls.

Section Statement4.
  Variable R : cring.
  Let ar := arith_of R.
  Add Ring cring_ring_4 : (claw R).

  Lemma fop_ok o a b ia z x y : 
    fop ar o (scalar_of ar o a ia) b
      (match o with TimesA | OverA | PlusX | MinusX => z | _ => x end)
      (match o with PlusAX | MinusAX | TimesA | OverA => z | AX | XA | PlusX | MinusX => x | _ => y end) =
    mword R o a b ia z x y.
  Proof. destruct o; cbn; ring. Qed.

  Lemma words_defd (m : mem R) b n f : words_at m b 0 n f -> defd m b 0 n.
  Proof. intros H q Hq. specialize (H q ltac:(lia)). cbn [Nat.add] in H. rewrite H. discriminate. Qed.

  Lemma statement4 o kb d x y a b ia vol (m : mem R) fz fx fy cs :
    d <> kb -> x <> kb -> y <> kb ->
    words_at m d 0 (24 * vol) fz -> words_at m x 0 (24 * vol) fx -> words_at m y 0 (24 * vol) fy ->
    NoDup (visited cs) -> (forall i, In i (visited cs) -> i < vol) ->
    exists m', evaluate_vop4 ar o kb d x y a b ia cs m = Some m' /\
      words_at m' d 0 (24 * vol)
        (fun j => if isin (j / 24) (visited cs) then mword R o a b ia (fz j) (fx j) (fy j) else fz j) /\
      (forall b' o', b' <> kb -> b' <> d \/ 24 * vol <= o' -> m' b' o' = m b' o').
  Proof.
    intros Kd Kx Ky Hz Hx Hy Hnd Hvol. unfold evaluate_vop4.
    set (sa := scalar_of ar o a ia). set (m0 := setm (setm m kb 0 sa) kb 1 b).
    assert (Out : forall b' o', b' <> kb -> m0 b' o' = m b' o').
    { intros b' o' H. unfold m0, setm. apply Nat.eqb_neq in H. rewrite H. reflexivity. }
    assert (W : forall b' h, b' <> kb -> words_at m b' 0 (24 * vol) h -> words_at m0 b' 0 (24 * vol) h).
    { intros b' h H E j Hj. rewrite Out by exact H. exact (E j Hj). }
    destruct (run_ok4 ar o kb d x y vol sa b cs Kd Hnd Hvol m0) as [m' [E1 E2]].
    - unfold m0, setm. now rewrite Nat.eqb_refl.
    - unfold m0, setm. now rewrite !Nat.eqb_refl.
    - apply (words_defd _ _ _ fz), W; assumption.
    - destruct o; cbn [op1]; first [apply (words_defd _ _ _ fz), W; assumption | apply (words_defd _ _ _ fx), W; assumption].
    - destruct o; cbn [op2]; first [apply (words_defd _ _ _ fz), W; assumption | apply (words_defd _ _ _ fx), W; assumption
                                   | apply (words_defd _ _ _ fy), W; assumption].
    - exists m'. split; [exact E1|]. split.
      + intros j Hj. rewrite E2. rewrite Nat.eqb_refl. cbn [andb Nat.add].
        pose proof (W _ _ Kd Hz j Hj) as Z0. pose proof (W _ _ Kx Hx j Hj) as X0. pose proof (W _ _ Ky Hy j Hj) as Y0.
        cbn [Nat.add] in Z0, X0, Y0.
        destruct (isin (j / 24) (visited cs)); [|exact Z0].
        rewrite <- fop_ok. fold sa. destruct o; cbn [op1 op2]; rewrite ?Z0, ?X0, ?Y0; reflexivity.
      + intros b' o' H1 H2. rewrite E2. rewrite <- (Out b' o' H1).
        destruct ((b' =? d) && isin (o' / 24) (visited cs)) eqn:I; [|reflexivity].
        apply andb_true_iff in I. destruct I as [I1 I2]. apply Nat.eqb_eq in I1. apply isin_in in I2. apply Hvol in I2.
        destruct H2 as [H2|H2]; [congruence|]. 
        pose proof (Nat.div_mod o' 24 ltac:(lia)). pose proof (Nat.mod_upper_bound o' 24 ltac:(lia)). lia.
  Qed.
End Statement4.
