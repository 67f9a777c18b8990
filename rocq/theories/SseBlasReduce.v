From Coq Require Import List Bool Arith NArith ZArith Lia Permutation.
From Coq Require Import Ring Ring_theory InitialRing.
From Verif Require Import EvalModel EvalProofs SseMachine SseKernels SseSpec SseEval SseFields
  SseBlasSpec SseBlas SseBlasProofs SseBlasSums.
Import ListNotations.
Open Scope nat_scope.

Section Reduce.
  Variable R : cring.
  Let ar := arith_of R.
  Add Ring cring_ring_d : (claw R).

  Lemma total_front n f : total ar (S n) f = a_add ar (f 0) (total ar n (fun i => f (S i))).
  Proof.
    induction n as [|n IH]; [cbn; ring|]. change (total ar (S (S n)) f) with (a_add ar (total ar (S n) f) (f (S n))).
    rewrite IH. cbn. ring.
  Qed.

  Lemma total_ext n f g : (forall i, i < n -> f i = g i) -> total ar n f = total ar n g.
  Proof. induction n as [|k IH]; intros H; [reflexivity|]. cbn. rewrite IH, H by auto. reflexivity. Qed.

  Lemma total_add n k f : total ar (n + k) f = a_add ar (total ar n f) (total ar k (fun i => f (n + i))).
  Proof.
    induction k as [|k IH].
    - rewrite Nat.add_0_r. cbn. ring.
    - rewrite Nat.add_succ_r. cbn [total]. rewrite IH. cbn. ring.
  Qed.

  Lemma total_over n a f : total ar n (fun i => f (a + i)) = sum_over ar (seq a n) f.
  Proof.
    revert a. induction n as [|n IH]; intros a; [reflexivity|].
    rewrite total_front. change (sum_over ar (seq a (S n)) f) with (a_add ar (f a) (sum_over ar (seq (S a) n) f)).
    rewrite Nat.add_0_r. f_equal. rewrite <- (IH (S a)). apply total_ext. intros i _. f_equal. lia.
  Qed.

  Lemma total_cuts (cut : nat -> nat) k f : cut 0 = 0 -> (forall i, cut i <= cut (i + 1)) ->
    total ar k (fun t => total ar (cut (t + 1) - cut t) (fun i => f (cut t + i))) = total ar (cut k) f.
  Proof.
    intros H0 Hm. induction k as [|k IH]; [rewrite H0; reflexivity|].
    cbn [total]. rewrite IH. rewrite <- total_add. f_equal. specialize (Hm k). replace (S k) with (k + 1) by lia. lia.
  Qed.

  Lemma add_results_ok r rb c n : forall i (m : mem R) acc val,
    (forall j, j < n -> m rb (parts r * (i + j) + c) = Some (val (i + j))) ->
    add_results ar r rb c i n m acc = Some (a_add ar acc (total ar n (fun j => val (i + j)))).
  Proof.
    induction n as [|n IH]; intros i m acc val H.
    - cbn. f_equal. ring.
    - cbn [add_results]. pose proof (H 0 ltac:(lia)) as H0. rewrite Nat.add_0_r in H0. rewrite H0.
      rewrite (IH (S i) m _ val).
      + f_equal. rewrite total_front. rewrite Nat.add_0_r.
        rewrite (total_ext n (fun j => val (i + S j)) (fun j => val (S i + j))) by (intros; f_equal; lia). cbn. ring.
      + intros j Hj. replace (S i + j) with (i + S j) by lia. apply H. lia.
  Qed.

  Section Field.
    Variables (w : isa) (r : red) (rb x y a vol : nat) (X Y : nat -> fermion R).
    Definition value (c i : nat) : R := site_part ar r (X i) (Y i) c.

    Lemma chunks_ok cs : NoDup (map snd cs) ->
      (forall lo hi id, In (lo, hi, id) cs -> forall i, i < hi - lo -> a + lo + i < vol) ->
      x <> rb -> y <> rb -> forall m : mem R,
      field_at m x vol X -> field_at m y vol Y ->
      (forall id c, In id (map snd cs) -> c < parts r -> m rb (parts r * id + c) <> None) ->
      exists m', run_chunks ar (rkernel w r) r rb x y a cs m = Some m' /\
        (forall lo hi id c, In (lo, hi, id) cs -> c < parts r ->
           m' rb (parts r * id + c) = Some (total ar (hi - lo) (fun i => value c (a + lo + i)))) /\
        (forall b o, (b = rb -> forall id c, In id (map snd cs) -> c < parts r -> o <> parts r * id + c) -> m' b o = m b o).
    Proof.
      intros Hnd Hvol Nx Ny. induction cs as [|[[lo hi] id] cs IH]; intros m HX HY Hrb.
      - exists m. split; [reflexivity|]. split; [intros ? ? ? ? []|reflexivity].
      - inversion Hnd as [|? ? Hni Hnd']; subst. cbn [snd map] in *.
        assert (Hv : forall i, i < hi - lo -> a + lo + i < vol) by (apply (Hvol lo hi id); now left).
        destruct (red_call R w r rb (parts r * id) x y (a + lo) (hi - lo) m X Y) as [m1 [E1 [E2 E3]]].
        { intros i Hi. apply HX, Hv, Hi. } { intros i Hi. apply HY, Hv, Hi. }
        { intros c Hc. apply Hrb; [now left|exact Hc]. }
        assert (Fr : forall b vol' Z, b <> rb -> field_at m b vol' Z -> field_at m1 b vol' Z).
        { intros b vol' Z Nb H i Hi s c Hs Hc. destruct (H i Hi s c Hs Hc) as [K1 K2].
          rewrite <- K1, <- K2. split; apply E3; intros [K _]; congruence. }
        assert (Dis : forall id' c, id' <> id -> c < parts r -> ~ (parts r * id <= parts r * id' + c < parts r * id + parts r)).
        { intros id' c N Hc. destruct r; cbn [parts] in *; lia. }
        destruct (IH Hnd' (fun lo' hi' id' H => Hvol lo' hi' id' (or_intror H)) m1) as [m2 [F1 [F2 F3]]].
        { apply Fr; assumption. } { apply Fr; assumption. }
        { intros id' c Hin Hc. rewrite E3; [apply Hrb; [now right|exact Hc]|].
          intros [_ K]. apply (Dis id' c) in K; auto. intros ->. contradiction. }
        exists m2. cbn [run_chunks]. fold ar in E1. rewrite E1. split; [exact F1|]. split.
        + intros lo' hi' id' c [K|K] Hc.
          * injection K as <- <- <-. rewrite F3; [apply E2, Hc|].
            intros _ id' c' Hin Hc' K. assert (N : id' <> id) by (intros ->; contradiction).
            apply (Dis id' c' N Hc'). lia.
          * apply F2; assumption.
        + intros b o Hbo. rewrite F3.
          * apply E3. intros [-> K]. apply (Hbo eq_refl id (o - parts r * id)); [now left|lia|lia].
          * intros Eb id' c Hin Hc. apply Hbo; [exact Eb|now right|exact Hc].
    Qed.
  End Field.

  (** The sum over an ordered subset: the sites' values, and what was in the results array
      for the threads that made no call. *)
  Lemma ordered_value w r s0 e0 threads rb tb x y c vol (m : mem R) X Y old cs :
    r <> InnerReal -> 0 < threads -> Permutation cs (dispatch threads (S e0 - s0)) ->
    (forall i, s0 <= i <= e0 -> i < vol) -> x <> rb -> y <> rb ->
    field_at m x vol X -> field_at m y vol Y -> c < parts r ->
    (forall i c', i < threads -> c' < parts r -> m rb (parts r * i + c') = Some (old i c')) ->
    reduce ar w r (Ordered s0 e0) threads rb tb x y c cs m =
      Some (a_add ar (total ar (S e0 - s0) (fun i => site_part ar r (X (s0 + i)) (Y (s0 + i)) c))
              (total ar (threads - (S e0 - s0)) (fun j => old (S e0 - s0 + j) c))).
  Proof.
    intros Hr HT HP Hvol Nx Ny HX HY Hc Hold. set (n := S e0 - s0) in *.
    set (act := active_threads threads n).
    assert (Hact : act <= threads /\ act = Nat.min threads n).
    { unfold act, active_threads. destruct (n <? threads) eqn:E; [apply Nat.ltb_lt in E|apply Nat.ltb_ge in E]; lia. }
    assert (D : dispatch threads n = map (fun k => (cut n act k, cut n act (k + 1), k)) (seq 0 act)) by (apply dispatch_active; exact HT).
    assert (Ids : map snd (dispatch threads n) = seq 0 act).
    { rewrite D, map_map. cbn [snd]. apply map_id. }
    assert (Pid : Permutation (map snd cs) (seq 0 act)) by (rewrite <- Ids; apply Permutation_map; exact HP).
    assert (Mono : forall k, cut n act k <= cut n act (k + 1)).
    { intros k. unfold cut. destruct act; [cbn; lia|]. apply Nat.div_le_mono; lia. }
    assert (Top : 0 < act -> forall k, k < act -> cut n act (k + 1) <= n).
    { intros Ha k Hk. unfold cut. apply Nat.div_le_upper_bound; nia. }
    destruct (chunks_ok w r rb x y s0 vol X Y cs) with (m := m) as [m' [E1 [E2 E3]]]; auto.
    { apply (Permutation_NoDup (Permutation_sym Pid)). apply seq_NoDup. }
    { intros lo hi id Hin i Hi. apply (Permutation_in _ HP) in Hin. rewrite D in Hin. apply in_map_iff in Hin.
      destruct Hin as [k [K Hk]]. injection K as <- <- <-. apply in_seq in Hk.
      pose proof (Top ltac:(lia) k ltac:(lia)). apply Hvol. lia. }
    { intros id c' Hin Hc'. apply (Permutation_in _ Pid) in Hin. apply in_seq in Hin. rewrite (Hold id c') by lia. discriminate. }
    set (val := fun i => if i <? act then total ar (cut n act (i + 1) - cut n act i) (fun j => value r X Y c (s0 + cut n act i + j)) else old i c).
    assert (V : forall i, i < threads -> m' rb (parts r * i + c) = Some (val i)).
    { intros i Hi. unfold val. destruct (i <? act) eqn:I.
      - apply Nat.ltb_lt in I. rewrite (E2 (cut n act i) (cut n act (i + 1)) i c); auto.
        apply (Permutation_in _ (Permutation_sym HP)). rewrite D. apply in_map_iff. exists i. split; [reflexivity|apply in_seq; lia].
      - apply Nat.ltb_ge in I. rewrite E3; [apply Hold; assumption|].
        intros _ id c' Hin Hc' K. apply (Permutation_in _ Pid) in Hin. apply in_seq in Hin.
        destruct r; cbn [parts] in *; lia. }
    assert (Goal1 : reduce ar w r (Ordered s0 e0) threads rb tb x y c cs m = Some (total ar threads val)).
    { transitivity (match m' rb c with Some v => add_results ar r rb c 1 (threads - 1) m' v | None => None end).
      - unfold reduce. destruct r; [| |contradiction Hr; reflexivity]; unfold ar in *; rewrite E1; reflexivity.
      - pose proof (V 0 HT) as V0. rewrite Nat.mul_0_r in V0. cbn [Nat.add] in V0. rewrite V0.
        rewrite (add_results_ok r rb c (threads - 1) 1 m' (val 0) val).
        + f_equal. replace threads with (S (threads - 1)) at 2 by lia. rewrite total_front. reflexivity.
        + intros j Hj. apply V. lia. }
    rewrite Goal1. f_equal.
    replace threads with (act + (threads - act)) at 1 by lia. rewrite total_add. f_equal.
    - transitivity (total ar act (fun i => total ar (cut n act (i + 1) - cut n act i) (fun j => value r X Y c (s0 + (cut n act i + j))))).
      + apply total_ext. intros i Hi. unfold val. apply Nat.ltb_lt in Hi. rewrite Hi. apply total_ext. intros j _. f_equal. lia.
      + rewrite (total_cuts (cut n act) act (fun i => value r X Y c (s0 + i))).
        * replace (cut n act act) with n; [reflexivity|]. destruct (Nat.eq_dec act 0) as [E|E].
          -- rewrite E. assert (n = 0) as -> by (destruct Hact; lia). reflexivity.
          -- unfold cut. symmetry. apply Nat.div_mul. exact E.
        * unfold cut. rewrite Nat.mul_0_r. destruct act; reflexivity.
        * exact Mono.
    - replace (threads - act) with (threads - n) by lia. apply total_ext. intros j Hj. unfold val.
      replace (act + j <? act) with false by (symmetry; apply Nat.ltb_ge; lia). f_equal. lia.
  Qed.

  Lemma real_ordered w s0 e0 threads rb tb x y vol (m : mem R) X Y cs :
    (forall i, s0 <= i <= e0 -> i < vol) -> 
    field_at m x vol X -> field_at m y vol Y -> m tb 0 <> None ->
    reduce ar w InnerReal (Ordered s0 e0) threads rb tb x y 0 cs m =
      Some (total ar (S e0 - s0) (fun i => site_part ar InnerReal (X (s0 + i)) (Y (s0 + i)) 0)).
  Proof.
    intros Hvol HX HY Ht.
    destruct (red_call R w InnerReal tb 0 x y s0 (S e0 - s0) m X Y) as [m' [E1 [E2 E3]]].
    - intros i Hi. apply HX, Hvol. lia.
    - intros i Hi. apply HY, Hvol. lia.
    - intros c Hc. cbn [parts] in Hc. replace c with 0 by lia. exact Ht.
    - cbn [reduce]. fold ar in E1. rewrite E1. exact (E2 0 ltac:(cbn; lia)).
  Qed.

  (** Calls into the temporary. *)
  Lemma sum_calls_ok w r tb c (l : list (nat * nat * nat * nat)) (FX FY : nat -> nat -> nat -> fermion R) :
    c < parts r -> forall (m : mem R) acc,
    (forall c', c' < parts r -> m tb c' <> None) ->
    (forall x y s n, In (x, y, s, n) l -> x <> tb /\ y <> tb /\
       (forall i, i < n -> ferm_at m x (24 * (s + i)) (FX x y (s + i))) /\
       (forall i, i < n -> ferm_at m y (24 * (s + i)) (FY x y (s + i)))) ->
    sum_calls ar (rkernel w r) tb c (map (fun p => let '(x, y, s, n) := p in (rargs r tb 0 x y s, n)) l) m acc =
    Some (a_add ar acc (fold_right (fun p t => let '(x, y, s, n) := p in
      a_add ar (total ar n (fun i => site_part ar r (FX x y (s + i)) (FY x y (s + i)) c)) t) (a_ofZ ar 0) l)).
  Proof.
    intros Hc. induction l as [|[[[x y] s] n] l IH]; intros m acc Ht Hl.
    - cbn. f_equal. ring.
    - destruct (Hl x y s n (or_introl eq_refl)) as [Nx [Ny [HX HY]]].
      destruct (red_call R w r tb 0 x y s n m (FX x y) (FY x y) HX HY Ht) as [m' [E1 [E2 E3]]].
      cbn [map sum_calls]. fold ar in E1. rewrite E1. pose proof (E2 c Hc) as E2c. cbn [Nat.add] in E2c. rewrite E2c.
      rewrite IH.
      + f_equal. cbn [fold_right]. fold ar. match goal with |- context [fold_right ?f ?z l] => generalize (fold_right f z l) end.
        match goal with |- context [total ?u ?v ?g] => generalize (total u v g) end. intros u v. cbn. ring.
      + intros c' Hc'. pose proof (E2 c' Hc') as K. cbn [Nat.add] in K. rewrite K. discriminate.
      + intros x' y' s' n' Hin. destruct (Hl x' y' s' n' (or_intror Hin)) as [Nx' [Ny' [HX' HY']]].
        split; [exact Nx'|]. split; [exact Ny'|]. split; intros i Hi.
        * specialize (HX' i Hi). intros s1 c1 Hs1 Hc1. destruct (HX' s1 c1 Hs1 Hc1) as [K1 K2]. rewrite <- K1, <- K2.
          split; apply E3; intros [K _]; congruence.
        * specialize (HY' i Hi). intros s1 c1 Hs1 Hc1. destruct (HY' s1 c1 Hs1 Hc1) as [K1 K2]. rewrite <- K1, <- K2.
          split; apply E3; intros [K _]; congruence.
  Qed.

  Lemma listed_value w r tab threads rb tb x y c vol (m : mem R) X Y cs :
    (forall i, In i tab -> i < vol) -> x <> tb -> y <> tb ->
    field_at m x vol X -> field_at m y vol Y -> c < parts r ->
    (forall c', c' < parts r -> m tb c' <> None) ->
    reduce ar w r (Listed tab) threads rb tb x y c cs m =
      Some (sum_over ar tab (fun i => site_part ar r (X i) (Y i) c)).
  Proof.
    intros Hvol Nx Ny HX HY Hc Ht.
    pose proof (sum_calls_ok w r tb c (map (fun i => (x, y, i, 1)) tab) (fun _ _ => X) (fun _ _ => Y) Hc m (a_ofZ ar 0) Ht) as K.
    rewrite map_map in K. cbn beta iota in K. 
    replace (reduce ar w r (Listed tab) threads rb tb x y c cs m)
      with (sum_calls ar (rkernel w r) tb c (map (fun i => (rargs r tb 0 x y i, 1)) tab) m (a_ofZ ar 0)) by (destruct r; reflexivity).
    rewrite K.
    - f_equal. transitivity (fold_right (fun p t => let '(_, _, i, _) := p in a_add ar (site_part ar r (X i) (Y i) c) t) (a_ofZ ar 0) (map (fun i => (x, y, i, 1)) tab)).
      + clear. induction tab as [|i l IH]; [cbn; ring|]. cbn [map fold_right]. rewrite <- IH. cbn [total]. rewrite Nat.add_0_r.
        match goal with |- context [fold_right ?f ?z ?l] => generalize (fold_right f z l) end.
        generalize (site_part ar r (X i) (Y i) c). intros u v. cbn. ring.
      + clear. induction tab as [|i l IH]; [reflexivity|]. cbn [map fold_right sum_over]. now rewrite IH.
    - intros x' y' s n Hin. apply in_map_iff in Hin. destruct Hin as [i [E Hi]]. injection E as <- <- <- <-.
      split; [exact Nx|]. split; [exact Ny|].
      split; intros j Hj; replace (i + j) with i by lia; [apply HX|apply HY]; apply Hvol, Hi.
  Qed.

  Lemma array_value w r vol tb c l (m : mem R) (F : nat -> nat -> fermion R) :
    c < parts r -> (forall c', c' < parts r -> m tb c' <> None) ->
    (forall x y, In (x, y) l -> x <> tb /\ y <> tb /\ field_at m x vol (F x) /\ field_at m y vol (F y)) ->
    reduce_array ar w r vol tb c l m =
      Some (fold_right (fun p t => a_add ar (total ar vol (fun i => site_part ar r (F (fst p) i) (F (snd p) i) c)) t) (a_ofZ ar 0) l).
  Proof.
    intros Hc Ht Hl.
    pose proof (sum_calls_ok w r tb c (map (fun p => (fst p, snd p, 0, vol)) l) (fun x _ => F x) (fun _ y => F y) Hc m (a_ofZ ar 0) Ht) as K.
    rewrite map_map in K. cbn beta iota in K. unfold reduce_array. rewrite K.
    - f_equal. clear. induction l as [|p l IH]; [cbn; ring|].
      cbn [map fold_right]. rewrite <- IH. cbn [Nat.add].
      match goal with |- context [fold_right ?f ?z ?l] => generalize (fold_right f z l) end.
      match goal with |- context [total ?u ?v ?g] => generalize (total u v g) end. intros u v. cbn. ring.
    - intros x y s n Hin. apply in_map_iff in Hin. destruct Hin as [[x' y'] [E Hi]]. cbn [fst snd] in E. injection E as <- <- <- <-.
      destruct (Hl _ _ Hi) as [N1 [N2 [H1 H2]]]. split; [exact N1|]. split; [exact N2|]. cbn [Nat.add].
      split; intros j Hj; [apply H1|apply H2]; exact Hj.
  Qed.
End Reduce.
