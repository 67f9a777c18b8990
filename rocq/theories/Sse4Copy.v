From Coq Require Import List Bool Arith NArith ZArith Lia.
From Verif Require Import SseMachine SseSpec SseEval SseFields SseProofs SseMatrix SseElem SseCopy SseBlasSpec
  Sse4Machine Sse4Kernels Sse4Eval Sse4Proofs Sse4Statements Sse4Fields.
Import ListNotations.
Open Scope nat_scope.

(** ** d = l, d += l, d -= l on fields of colour matrices *)
Section Copy4.
  Context {V : Type} (ar : arith V).

  Lemma copy_words_ok g d l n : forall o (m : mem V), defd m d o (o + n) -> defd m l o (o + n) ->
    exists m', copy_words ar g d l o n m = Some m' /\ elemw d d l (cword ar g) o (o + n) m m'.
  Proof.
    induction n as [|n IH]; intros o m D L.
    - exists m. split; [reflexivity|]. rewrite Nat.add_0_r. apply elemw_nil.
    - cbn [copy_words]. pose proof (D o ltac:(lia)) as D0. pose proof (L o ltac:(lia)) as L0.
      destruct (m d o) as [z|] eqn:Z; [|congruence]. destruct (m l o) as [u|] eqn:U; [|congruence].
      set (m1 := setm m d o _).
      assert (W1 : elemw d d l (cword ar g) o (o + 1) m m1).
      { intros b q. unfold m1, setm. destruct (b =? d) eqn:B; cbn [andb]; [|reflexivity].
        destruct (Nat.eqb_spec q o) as [->|N].
        - rewrite Nat.leb_refl. replace (o <? o + 1) with true by (symmetry; apply Nat.ltb_lt; lia). cbn [andb].
          rewrite Z, U. reflexivity.
        - destruct (Nat.leb_spec o q), (Nat.ltb_spec q (o + 1)); cbn [andb]; try reflexivity. lia. }
      destruct (IH (S o) m1) as [m2 [E2 W2]].
      { apply (elemw_defd _ _ _ _ _ _ _ _ _ _ _ W1); intros q Hq; first [apply D|apply L]; lia. }
      { apply (elemw_defd _ _ _ _ _ _ _ _ _ _ _ W1); intros q Hq; first [apply D; lia|apply L; lia]. }
      exists m2. split; [exact E2|].
      apply elemw_app with (mid := o + 1) (m1 := m1); [lia|lia|exact W1|].
      replace (o + S n) with (S o + n) by lia. replace (o + 1) with (S o) by lia. exact W2.
  Qed.

  Lemma ordered_copy g d l a b (m : mem V) : Nat.even a = true ->
    defd m d (18 * a) (18 * a + 18 * (S b - a)) -> defd m l (18 * a) (18 * a + 18 * (S b - a)) ->
    exists m', evaluate_copy4 ar g (Ordered a b) d l m = Some m' /\
      elemw d d l (cword ar g) (18 * a) (18 * a + 18 * (S b - a)) m m'.
  Proof.
    intros Ev D L. unfold evaluate_copy4. set (t := (S b - a) * 3 * 3 * 2).
    assert (T : 18 * (S b - a) = t) by (unfold t; lia). rewrite T in *. clearbody t.
    pose proof (Nat.div_mod t 4 ltac:(lia)) as DM. pose proof (Nat.mod_upper_bound t 4 ltac:(lia)) as U.
    assert (A : (18 * a) mod 4 = 0).
    { apply Nat.even_spec in Ev. destruct Ev as [c ->]. replace (18 * (2 * c)) with (9 * c * 4) by lia. apply Nat.mod_mul. lia. }
    generalize dependent (18 * a). intros o D L A.
    destruct (loop_ok ar d d l (cword ar g) p4_Out p4_Out p4_In inv_none 1 (copy_body g) (body_copy ar g d l) (t / 4)
                (fun _ => None) (fun p => get p [(p4_Out, (d, o)); (p4_In, (l, o))]) m o Logic.I eq_refl eq_refl eq_refl A)
      as (s' & E & W).
    { intros q Hq. apply D. lia. } { intros q Hq. apply D. lia. } { intros q Hq. apply L. lia. }
    replace (4 * 1 * (t / 4)) with (4 * (t / 4)) in W by lia.
    unfold call4, start4. cbn [pre4 body4 run4]. rewrite E.
    assert (D4 : defd m d o (o + 4 * (t / 4))) by (intros q Hq; apply D; lia).
    assert (L4 : defd m l o (o + 4 * (t / 4))) by (intros q Hq; apply L; lia).
    destruct (copy_words_ok g d l (t mod 4) (o + 4 * (t / 4)) (mem4 s')) as [m2 [E2 W2]].
    { apply (elemw_defd _ _ _ _ _ _ _ _ _ _ _ W D4 L4). intros q Hq. apply D. lia. }
    { apply (elemw_defd _ _ _ _ _ _ _ _ _ _ _ W D4 L4). intros q Hq. apply L. lia. }
    exists m2. split; [exact E2|].
    apply elemw_app with (mid := o + 4 * (t / 4)) (m1 := mem4 s'); [lia|lia|exact W|].
    replace (o + t) with (o + 4 * (t / 4) + t mod 4) by lia. exact W2.
  Qed.

  Lemma load4_odd (m : mem V) b a : Nat.odd a = true -> load4 m b (18 * a + 0) = None.
  Proof.
    intros H. unfold load4. apply Nat.odd_spec in H. destruct H as [c ->].
    replace (18 * (2 * c + 1) + 0) with (2 + (9 * c + 4) * 4) by lia. rewrite Nat.mod_add by lia. reflexivity.
  Qed.

  (** A subset that begins at an odd site: the first access is not aligned. *)
  Lemma ordered_copy_odd g d l a b (m : mem V) : Nat.odd a = true -> a <= b ->
    evaluate_copy4 ar g (Ordered a b) d l m = None.
  Proof.
    intros Ho Hab. unfold evaluate_copy4. set (t := (S b - a) * 3 * 3 * 2).
    assert (T : 18 <= t) by (unfold t; lia). clearbody t.
    assert (Q : exists k, t / 4 = S k).
    { destruct (t / 4) eqn:E; [|eauto]. pose proof (Nat.div_mod t 4 ltac:(lia)). pose proof (Nat.mod_upper_bound t 4 ltac:(lia)). lia. }
    destruct Q as [k ->].
    destruct g; unfold call4, start4; cbn [pre4 body4 run4 loop4 copy_body exec4 regs4 ptrs4 mem4 get N.eqb Pos.eqb p4_Out p4_In];
      rewrite load4_odd by exact Ho; reflexivity.
  Qed.

  Lemma copy_sites_ok g d l tab : NoDup tab -> forall (m : mem V),
    (forall i, In i tab -> defd m d (18 * i) (18 * i + 18) /\ defd m l (18 * i) (18 * i + 18)) ->
    exists m', copy_sites ar g d l tab m = Some m' /\
      forall b q, m' b q = if (b =? d) && isin (q / 18) tab then lift2 (cword ar g) (m d q) (m l q) else m b q.
  Proof.
    induction tab as [|i tab IH]; intros Hnd m D.
    - exists m. split; [reflexivity|]. intros b q. cbn. rewrite andb_false_r. reflexivity.
    - inversion Hnd as [|? ? Hni Hnd']; subst.
      destruct (D i (or_introl eq_refl)) as [D1 L1].
      destruct (copy_words_ok g d l 18 (18 * i) m D1 L1) as [m1 [E1 W1]].
      assert (Rng : forall q, ((18 * i <=? q) && (q <? 18 * i + 18)) = (q / 18 =? i)).
      { intros q. pose proof (Nat.div_mod q 18 ltac:(lia)) as DM. pose proof (Nat.mod_upper_bound q 18 ltac:(lia)) as U.
        destruct (Nat.eqb_spec (q / 18) i), (Nat.leb_spec (18 * i) q), (Nat.ltb_spec q (18 * i + 18)); cbn [andb]; try reflexivity; lia. }
      destruct (IH Hnd' m1) as [m2 [E2 W2]].
      { intros i' Hi'. destruct (D i' (or_intror Hi')) as [Q1 Q2].
        split; apply (elemw_defd _ _ _ _ _ _ _ _ _ _ _ W1 D1 L1); assumption. }
      exists m2. cbn [copy_sites]. rewrite E1. split; [exact E2|].
      intros b q. rewrite W2. unfold isin at 2. cbn [existsb]. fold (isin (q / 18) tab).
      destruct (q / 18 =? i) eqn:I1; cbn [orb].
      + destruct (isin (q / 18) tab) eqn:I2.
        { exfalso. apply isin_in in I2. apply Nat.eqb_eq in I1. rewrite I1 in I2. contradiction. }
        rewrite andb_false_r, W1, Rng, I1. reflexivity.
      + rewrite !W1, Rng, I1, !andb_false_r. reflexivity.
  Qed.

  Lemma copy_fields g s d l vol (m : mem V) : NoDup (sites s) -> (forall i, In i (sites s) -> i < vol) ->
    (forall a b, s = Ordered a b -> Nat.even a = true) ->
    defd m d 0 (18 * vol) -> defd m l 0 (18 * vol) ->
    exists m', evaluate_copy4 ar g s d l m = Some m' /\
      forall b q, m' b q = if (b =? d) && isin (q / 18) (sites s) then lift2 (cword ar g) (m d q) (m l q) else m b q.
  Proof.
    intros Hnd Hvol Hev D L. destruct s as [a b|tab]; cbn [sites] in *.
    - assert (Top : 18 * a + 18 * (S b - a) <= 18 * vol \/ S b - a = 0).
      { destruct (S b - a) eqn:E; [now right|left]. specialize (Hvol (a + n)). assert (a + n < vol) by (apply Hvol, in_seq; lia). lia. }
      destruct (ordered_copy g d l a b m (Hev _ _ eq_refl)) as [m' [E W]].
      { intros q Hq. apply D. lia. } { intros q Hq. apply L. lia. }
      exists m'. split; [exact E|]. intros b' q. rewrite W. 
      replace ((18 * a <=? q) && (q <? 18 * a + 18 * (S b - a))) with (isin (q / 18) (seq a (S b - a))); [reflexivity|].
      pose proof (Nat.div_mod q 18 ltac:(lia)) as DM. pose proof (Nat.mod_upper_bound q 18 ltac:(lia)) as U.
      destruct (isin (q / 18) (seq a (S b - a))) eqn:I.
      + apply isin_in, in_seq in I. destruct (Nat.leb_spec (18 * a) q), (Nat.ltb_spec q (18 * a + 18 * (S b - a))); cbn [andb]; try reflexivity; lia.
      + destruct (Nat.leb_spec (18 * a) q); [|reflexivity]. destruct (Nat.ltb_spec q (18 * a + 18 * (S b - a))); [|reflexivity].
        assert (isin (q / 18) (seq a (S b - a)) = true) by (apply isin_in, in_seq; lia). congruence.
    - apply copy_sites_ok; [exact Hnd|]. intros i Hi. apply Hvol in Hi.
      split; intros q Hq; [apply D|apply L]; lia.
  Qed.
End Copy4.

Section Matrix4.
  Variable R : cring.
  Let ar := arith_of R.

  Lemma word_assigned g (D X : matrix R) j : j < 18 -> word (assigned ar g D X) j = cword ar g (word D j) (word X j).
  Proof.
    intros H. do 18 (destruct j as [|j]; [destruct g; reflexivity|]). lia.
  Qed.
End Matrix4.
