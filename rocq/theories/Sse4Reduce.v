From Coq Require Import List Bool Arith NArith ZArith Lia Permutation.
From Coq Require Import Ring Ring_theory InitialRing.
From Verif Require Import EvalModel EvalProofs SseMachine SseSpec SseEval SseFields
  SseBlasSpec SseBlas SseBlasProofs SseBlasSums SseBlasReduce
  Sse4Machine Sse4Kernels Sse4Eval Sse4Proofs Sse4Sums.
Import ListNotations.
Open Scope nat_scope.

Section Reduce4.
  Variable R : cring.
  Let ar := arith_of R.
  Add Ring cring_ring_6 : (claw R).

  Lemma field_word_at (F : nat -> fermion R) i j : j < 24 -> field_word F (24 * i + j) = fword (F i) j.
  Proof.
    intros H. unfold field_word. rewrite (Nat.mul_comm 24), Nat.div_add_l, Nat.div_small, Nat.add_0_r by lia.
    rewrite (Nat.add_comm (i * 24)), Nat.mod_add, Nat.mod_small by lia. reflexivity.
  Qed.

  Lemma squares_sites (F : nat -> fermion R) n :
    squares R (field_word F) 0 (24 * n) = total ar n (fun i => site_norm ar (F i)).
  Proof.
    induction n as [|n IH]; [reflexivity|]. replace (24 * S n) with (24 * n + 24) by lia.
    rewrite squares_app, IH. cbn [total]. f_equal. cbn [Nat.add]. unfold squares.
    rewrite (total_ext R 24 _ (fun j => a_mul (arith_of R) (fword (F n) j) (fword (F n) j))).
    - unfold site_norm, components, fword. cbn. ring.
    - intros j Hj. rewrite field_word_at by exact Hj. reflexivity.
  Qed.

  Lemma dots_sites p (F G : nat -> fermion R) n :
    dots R p (field_word F) (field_word G) 0 (n * 4) =
    total ar n (fun i => if p =? 0 then fst (site_dot ar (F i) (G i)) else snd (site_dot ar (F i) (G i))).
  Proof.
    induction n as [|n IH]; [reflexivity|]. replace (S n * 4) with (n * 4 + 4) by lia.
    rewrite dots_app, IH. cbn [total]. f_equal. cbn [Nat.add]. unfold dots.
    rewrite (total_ext R 4 _ (fun t => dot3 R p (fword (F n)) (fword (G n)) (6 * t))).
    - destruct (p =? 0) eqn:P; unfold dot3; rewrite P; unfold site_dot, components, fword; cbn; ring.
    - intros t Ht. unfold dot3. apply (total_ext R). intros c Hc.
      replace (6 * (n * 4) + 6 * t + 2 * c) with (24 * n + (6 * t + 2 * c)) by lia.
      rewrite <- Nat.add_assoc. rewrite !field_word_at by lia. reflexivity.
  Qed.

  Lemma sites_words (m : mem R) b s n (X : nat -> fermion R) :
    (forall i, i < n -> ferm_at m b (24 * (s + i)) (X (s + i))) ->
    words_at m b (24 * s) (24 * n) (field_word (fun i => X (s + i))).
  Proof.
    intros H j Hj. pose proof (Nat.div_mod j 24 ltac:(lia)) as DM. pose proof (Nat.mod_upper_bound j 24 ltac:(lia)) as U.
    assert (Hi : j / 24 < n) by (apply Nat.div_lt_upper_bound; lia).
    specialize (H _ Hi). rewrite ferm_words in H. unfold field_word. rewrite <- (H _ U). f_equal. lia.
  Qed.

  (** One call. *)
  Lemma sum_call_ok r rb ro x y s n (m : mem R) (X Y : nat -> fermion R) :
    (r = Norm2 -> 0 < n) ->
    (forall i, i < n -> ferm_at m x (24 * (s + i)) (X (s + i))) ->
    (forall i, i < n -> ferm_at m y (24 * (s + i)) (Y (s + i))) ->
    (forall c, c < parts r -> m rb (ro + c) <> None) ->
    exists m', sum_call ar r rb ro x y s n m = Some m' /\
      (forall c, c < parts r -> m' rb (ro + c) = Some (total ar n (fun i => site_part ar r (X (s + i)) (Y (s + i)) c))) /\
      only m m' rb ro (parts r).
  Proof.
    intros Hn HX HY Hrb. apply sites_words in HX. apply sites_words in HY.
    pose proof (Hrb 0 ltac:(destruct r; cbn; lia)) as H0. rewrite Nat.add_0_r in H0.
    destruct r; unfold sum_call.
    - destruct n as [|k]; [specialize (Hn eq_refl); lia|].
      destruct (sq_call R m x rb ro (24 * s) (24 * S k) _
        ltac:(replace (24 * s) with (6 * s * 4) by lia; apply Nat.mod_mul; lia) HX _ k eq_refl eq_refl H0) as (s' & E1 & E2 & E3).
      fold ar in E1. rewrite E1. exists (mem4 s'). split; [reflexivity|]. split.
      + intros c Hc. cbn [parts] in Hc. replace (ro + c) with ro by lia. rewrite E2. f_equal. rewrite squares_sites. reflexivity.
      + intros b q N. apply E3. intros [-> ->]. apply N. cbn [parts]. lia.
    - destruct (dot_call R m x y rb ro (24 * s) (24 * n) _ _ HX HY (n * 4) ltac:(lia) H0 (Hrb 1 ltac:(cbn; lia))) as (s' & E1 & E2 & E3 & E4).
      fold ar in E1. rewrite E1. exists (mem4 s'). split; [reflexivity|]. split.
      + intros c Hc. cbn [parts] in Hc. destruct c as [|[|c]]; [| |lia].
        * rewrite Nat.add_0_r, E2. f_equal. rewrite dots_sites. reflexivity.
        * rewrite E3. f_equal. rewrite dots_sites. reflexivity.
      + intros b q N. apply E4. intros [-> K]. apply N. cbn [parts]. lia.
    - destruct (real_call R m x y rb ro (24 * s) (24 * n) _ _ HX HY (n * 4) ltac:(lia) H0) as (s' & E1 & E2 & E3).
      fold ar in E1. rewrite E1. exists (mem4 s'). split; [reflexivity|]. split.
      + intros c Hc. cbn [parts] in Hc. replace (ro + c) with ro by lia. rewrite E2. f_equal. rewrite dots_sites. reflexivity.
      + intros b q N. apply E3. intros [-> ->]. apply N. cbn [parts]. lia.
  Qed.

  Section Field.
    Variables (rb x a vol : nat) (X : nat -> fermion R).
    Definition value4 (i : nat) : R := site_norm ar (X i).

    Lemma chunks_ok4 cs : NoDup (map snd cs) ->
      (forall lo hi id, In (lo, hi, id) cs -> lo < hi /\ forall i, i < hi - lo -> a + lo + i < vol) ->
      x <> rb -> forall m : mem R, field_at m x vol X ->
      (forall id, In id (map snd cs) -> m rb id <> None) ->
      exists m', norm_chunks ar rb x a cs m = Some m' /\
        (forall lo hi id, In (lo, hi, id) cs -> m' rb id = Some (total ar (hi - lo) (fun i => value4 (a + lo + i)))) /\
        (forall b o, (b = rb -> ~ In o (map snd cs)) -> m' b o = m b o).
    Proof.
      intros Hnd Hvol Nx. induction cs as [|[[lo hi] id] cs IH]; intros m HX Hrb.
      - exists m. split; [reflexivity|]. split; [intros ? ? ? []|reflexivity].
      - inversion Hnd as [|? ? Hni Hnd']; subst. cbn [snd map] in *.
        destruct (Hvol lo hi id (or_introl eq_refl)) as [Hlt Hv].
        destruct (sum_call_ok Norm2 rb id x x (a + lo) (hi - lo) m X X) as [m1 [E1 [E2 E3]]].
        { intros _. lia. } { intros i Hi. apply HX, Hv, Hi. } { intros i Hi. apply HX, Hv, Hi. }
        { intros c Hc. cbn [parts] in Hc. replace (id + c) with id by lia. apply Hrb. now left. }
        assert (HX1 : field_at m1 x vol X).
        { intros i Hi s c Hs Hc. destruct (HX i Hi s c Hs Hc) as [K1 K2].
          rewrite <- K1, <- K2. split; apply E3; intros [K _]; congruence. }
        destruct (IH Hnd' (fun lo' hi' id' H => Hvol lo' hi' id' (or_intror H)) m1 HX1) as [m2 [F1 [F2 F3]]].
        { intros id' Hin. rewrite E3; [apply Hrb; now right|]. intros [_ K]. cbn [parts] in K.
          assert (id' = id) by lia. subst. contradiction. }
        exists m2. cbn [norm_chunks]. rewrite E1. split; [exact F1|]. split.
        + intros lo' hi' id' [K|K].
          * injection K as <- <- <-. rewrite F3; [|intros _; exact Hni].
            specialize (E2 0 ltac:(cbn; lia)). rewrite Nat.add_0_r in E2. exact E2.
          * apply F2; assumption.
        + intros b o Hbo. rewrite F3.
          * apply E3. intros [-> K]. cbn [parts] in K. apply (Hbo eq_refl). left. lia.
          * intros Eb K. apply (Hbo Eb). now right.
    Qed.
  End Field.

  (** norm2 over an ordered subset: the sites' values, and what was in the results array for
      the threads that made no call. *)
  Lemma ordered_norm s0 e0 threads rb tb x y c vol (m : mem R) X old cs :
    0 < threads -> Permutation cs (dispatch threads (S e0 - s0)) ->
    (forall i, s0 <= i <= e0 -> i < vol) -> x <> rb -> field_at m x vol X ->
    (forall i, i < threads -> m rb i = Some (old i)) ->
    reduce4 ar Norm2 (Ordered s0 e0) threads rb tb x y c cs m =
      Some (a_add ar (total ar (S e0 - s0) (fun i => site_norm ar (X (s0 + i))))
              (total ar (threads - (S e0 - s0)) (fun j => old (S e0 - s0 + j)))).
  Proof.
    intros HT HP Hvol Nx HX Hold. set (n := S e0 - s0) in *.
    set (act := active_threads threads n).
    assert (Hact : act <= threads /\ act = Nat.min threads n).
    { unfold act, active_threads. destruct (n <? threads) eqn:E; [apply Nat.ltb_lt in E|apply Nat.ltb_ge in E]; lia. }
    assert (D : dispatch threads n = map (fun k => (cut n act k, cut n act (k + 1), k)) (seq 0 act)) by (apply dispatch_active; exact HT).
    assert (Ids : map snd (dispatch threads n) = seq 0 act).
    { rewrite D, map_map. cbn [snd]. apply map_id. }
    assert (Pid : Permutation (map snd cs) (seq 0 act)) by (rewrite <- Ids; apply Permutation_map; exact HP).
    assert (Mono : forall k, cut n act k <= cut n act (k + 1)).
    { intros k. unfold cut. destruct act; [cbn; lia|]. apply Nat.div_le_mono; lia. }
    assert (Strict : forall k, 0 < act -> cut n act k < cut n act (k + 1)).
    { intros k Ha. unfold cut. assert (n * k + 1 * act <= n * (k + 1)) as L by lia.
      apply (Nat.div_le_mono _ _ act) in L; [|lia]. rewrite Nat.div_add in L by lia. lia. }
    assert (Top : 0 < act -> forall k, k < act -> cut n act (k + 1) <= n).
    { intros Ha k Hk. unfold cut. apply Nat.div_le_upper_bound; nia. }
    destruct (chunks_ok4 rb x s0 vol X cs) with (m := m) as [m' [E1 [E2 E3]]]; auto.
    { apply (Permutation_NoDup (Permutation_sym Pid)). apply seq_NoDup. }
    { intros lo hi id Hin. apply (Permutation_in _ HP) in Hin. rewrite D in Hin. apply in_map_iff in Hin.
      destruct Hin as [k [K Hk]]. injection K as <- <- <-. apply in_seq in Hk. split; [apply Strict; lia|]. intros i Hi.
      pose proof (Top ltac:(lia) k ltac:(lia)). apply Hvol. lia. }
    { intros id Hin. apply (Permutation_in _ Pid) in Hin. apply in_seq in Hin. rewrite (Hold id) by lia. discriminate. }
    set (val := fun i => if i <? act then total ar (cut n act (i + 1) - cut n act i) (fun j => value4 X (s0 + cut n act i + j)) else old i).
    assert (V : forall i, i < threads -> m' rb i = Some (val i)).
    { intros i Hi. unfold val. destruct (i <? act) eqn:I.
      - apply Nat.ltb_lt in I. rewrite (E2 (cut n act i) (cut n act (i + 1)) i); auto.
        apply (Permutation_in _ (Permutation_sym HP)). rewrite D. apply in_map_iff. exists i. split; [reflexivity|apply in_seq; lia].
      - apply Nat.ltb_ge in I. rewrite E3; [apply Hold; assumption|].
        intros _ Hin. apply (Permutation_in _ Pid) in Hin. apply in_seq in Hin. lia. }
    assert (Goal1 : reduce4 ar Norm2 (Ordered s0 e0) threads rb tb x y c cs m = Some (total ar threads val)).
    { cbn [reduce4]. rewrite E1, (V 0 HT).
      pose proof (add_results_ok R Norm2 rb 0 (threads - 1) 1 m' (val 0) val) as K. fold ar in K. rewrite K.
      - f_equal. replace threads with (S (threads - 1)) at 2 by lia. symmetry. exact (total_front R _ _).
      - intros j Hj. cbn [parts]. rewrite Nat.mul_1_l, Nat.add_0_r. apply V. lia. }
    rewrite Goal1. f_equal.
    replace threads with (act + (threads - act)) at 1 by lia.
    etransitivity; [exact (total_add R act (threads - act) val)|]. fold ar. f_equal.
    - transitivity (total ar act (fun i => total ar (cut n act (i + 1) - cut n act i) (fun j => value4 X (s0 + (cut n act i + j))))).
      + apply (total_ext R). intros i Hi. unfold val. apply Nat.ltb_lt in Hi. rewrite Hi. apply (total_ext R). intros j _. f_equal. lia.
      + etransitivity; [apply (total_cuts R (cut n act) act (fun i => value4 X (s0 + i)))|].
        * unfold cut. rewrite Nat.mul_0_r. destruct act; reflexivity.
        * exact Mono.
        * replace (cut n act act) with n; [reflexivity|]. destruct (Nat.eq_dec act 0) as [E|E].
          -- rewrite E. assert (n = 0) as -> by (destruct Hact; lia). reflexivity.
          -- unfold cut. symmetry. apply Nat.div_mul. exact E.
    - replace (threads - act) with (threads - n) by lia. apply (total_ext R). intros j Hj. unfold val.
      replace (act + j <? act) with false by (symmetry; apply Nat.ltb_ge; lia). f_equal. lia.
  Qed.

  (** The inner products over an ordered subset. *)
  Lemma ordered_inner r s0 e0 threads rb tb x y c vol (m : mem R) X Y cs :
    r <> Norm2 -> (forall i, s0 <= i <= e0 -> i < vol) ->
    field_at m x vol X -> field_at m y vol Y -> c < parts r -> (forall c', c' < parts r -> m tb c' <> None) ->
    reduce4 ar r (Ordered s0 e0) threads rb tb x y c cs m =
      Some (total ar (S e0 - s0) (fun i => site_part ar r (X (s0 + i)) (Y (s0 + i)) c)).
  Proof.
    intros Hr Hvol HX HY Hc Ht.
    destruct (sum_call_ok r tb 0 x y s0 (S e0 - s0) m X Y) as [m' [E1 [E2 E3]]].
    - intros ->. contradiction Hr; reflexivity.
    - intros i Hi. apply HX, Hvol. lia.
    - intros i Hi. apply HY, Hvol. lia.
    - exact Ht.
    - transitivity (match sum_call ar r tb 0 x y s0 (S e0 - s0) m with Some m' => m' tb c | None => None end).
      + destruct r; [contradiction Hr; reflexivity|reflexivity|reflexivity].
      + rewrite E1. exact (E2 c Hc).
  Qed.

  (** Calls into the temporary. *)
  Lemma add_calls_ok r tb c (l : list (nat * nat * nat * nat)) (FX FY : nat -> nat -> nat -> fermion R) :
    c < parts r -> forall (m : mem R) acc,
    (forall c', c' < parts r -> m tb c' <> None) ->
    (forall x y s n, In (x, y, s, n) l -> (r = Norm2 -> 0 < n) /\ x <> tb /\ y <> tb /\
       (forall i, i < n -> ferm_at m x (24 * (s + i)) (FX x y (s + i))) /\
       (forall i, i < n -> ferm_at m y (24 * (s + i)) (FY x y (s + i)))) ->
    add_calls ar r tb c l m acc =
    Some (a_add ar acc (fold_right (fun p t => let '(x, y, s, n) := p in
      a_add ar (total ar n (fun i => site_part ar r (FX x y (s + i)) (FY x y (s + i)) c)) t) (a_ofZ ar 0) l)).
  Proof.
    intros Hc. induction l as [|[[[x y] s] n] l IH]; intros m acc Ht Hl.
    - cbn. f_equal. ring.
    - destruct (Hl x y s n (or_introl eq_refl)) as [Hn [Nx [Ny [HX HY]]]].
      destruct (sum_call_ok r tb 0 x y s n m (FX x y) (FY x y) Hn HX HY Ht) as [m' [E1 [E2 E3]]].
      cbn [add_calls]. rewrite E1. pose proof (E2 c Hc) as E2c. cbn [Nat.add] in E2c. rewrite E2c.
      rewrite IH.
      + f_equal. cbn [fold_right]. match goal with |- context [fold_right ?f ?z l] => generalize (fold_right f z l) end.
        match goal with |- context [total ?u ?v ?g] => generalize (total u v g) end. intros u v. cbn. ring.
      + intros c' Hc'. pose proof (E2 c' Hc') as K. cbn [Nat.add] in K. rewrite K. discriminate.
      + intros x' y' s' n' Hin. destruct (Hl x' y' s' n' (or_intror Hin)) as [Hn' [Nx' [Ny' [HX' HY']]]].
        split; [exact Hn'|]. split; [exact Nx'|]. split; [exact Ny'|]. split; intros i Hi.
        * specialize (HX' i Hi). intros s1 c1 Hs1 Hc1. destruct (HX' s1 c1 Hs1 Hc1) as [K1 K2]. rewrite <- K1, <- K2.
          split; apply E3; intros [K _]; congruence.
        * specialize (HY' i Hi). intros s1 c1 Hs1 Hc1. destruct (HY' s1 c1 Hs1 Hc1) as [K1 K2]. rewrite <- K1, <- K2.
          split; apply E3; intros [K _]; congruence.
  Qed.

  Lemma listed_value4 r tab threads rb tb x y c vol (m : mem R) X Y cs :
    (forall i, In i tab -> i < vol) -> x <> tb -> y <> tb ->
    field_at m x vol X -> field_at m y vol Y -> c < parts r ->
    (forall c', c' < parts r -> m tb c' <> None) ->
    reduce4 ar r (Listed tab) threads rb tb x y c cs m =
      Some (sum_over ar tab (fun i => site_part ar r (X i) (Y i) c)).
  Proof.
    intros Hvol Nx Ny HX HY Hc Ht.
    pose proof (add_calls_ok r tb c (map (fun i => (x, y, i, 1)) tab) (fun _ _ => X) (fun _ _ => Y) Hc m (a_ofZ ar 0) Ht) as K.
    replace (reduce4 ar r (Listed tab) threads rb tb x y c cs m)
      with (add_calls ar r tb c (map (fun i => (x, y, i, 1)) tab) m (a_ofZ ar 0)) by (destruct r; reflexivity).
    rewrite K.
    - f_equal. clear. induction tab as [|i l IH]; [cbn; ring|]. cbn [map fold_right sum_over] in *.
      unfold sum_over in *. cbn [fold_right]. rewrite <- IH. cbn [total]. rewrite Nat.add_0_r.
      match goal with |- context [fold_right ?f ?z ?l] => generalize (fold_right f z l) end.
      generalize (site_part ar r (X i) (Y i) c). intros u v. cbn. ring.
    - intros x' y' s n Hin. apply in_map_iff in Hin. destruct Hin as [i [E Hi]]. injection E as <- <- <- <-.
      split; [lia|]. split; [exact Nx|]. split; [exact Ny|].
      split; intros j Hj; replace (i + j) with i by lia; [apply HX|apply HY]; apply Hvol, Hi.
  Qed.

  Lemma array_value4 r s vol tb c l (m : mem R) (F : nat -> nat -> fermion R) :
    (forall i, In i (sites s) -> i < vol) -> (forall a b, s = Ordered a b -> r = Norm2 -> a <= b) ->
    c < parts r -> (forall c', c' < parts r -> m tb c' <> None) ->
    (forall x y, In (x, y) l -> x <> tb /\ y <> tb /\ field_at m x vol (F x) /\ field_at m y vol (F y)) ->
    reduce_array4 ar r s tb c l m =
      Some (fold_right (fun p t => a_add ar (sum_over ar (sites s) (fun i => site_part ar r (F (fst p) i) (F (snd p) i) c)) t) (a_ofZ ar 0) l).
  Proof.
    intros Hvol Hab Hc Ht Hl. unfold reduce_array4.
    match goal with |- add_calls _ _ _ _ ?L _ _ = _ =>
      pose proof (add_calls_ok r tb c L (fun x _ => F x) (fun _ y => F y) Hc m (a_ofZ ar 0) Ht) as K end.
    rewrite K; clear K.
    - f_equal. clear. match goal with |- a_add ar _ ?t = ?u => enough (E : t = u) by (rewrite E; generalize u; intros; cbn; ring) end.
      induction l as [|p l IH]; [reflexivity|]. cbn [flat_map]. rewrite fold_right_app. cbn [fold_right]. rewrite IH.
      match goal with |- context [fold_right (fun p t => a_add ar (sum_over _ _ _) t) ?z l] => generalize (fold_right (fun p t => a_add ar (sum_over ar (sites s) (fun i => site_part ar r (F (fst p) i) (F (snd p) i) c)) t) z l) end.
      clear IH. intros z. destruct s as [a b|tab]; cbn [sites fold_right].
      + f_equal. exact (total_over R (S b - a) a (fun i => site_part ar r (F (fst p) i) (F (snd p) i) c)).
      + induction tab as [|i tab IHt]; [cbn; ring|]. cbn [map fold_right]. rewrite IHt. unfold sum_over. cbn [fold_right total].
        rewrite Nat.add_0_r. match goal with |- context [fold_right ?f ?z tab] => generalize (fold_right f z tab) end.
        generalize (site_part ar r (F (fst p) i) (F (snd p) i) c). intros u v. cbn. ring.
    - intros x y s1 n Hin. apply in_flat_map in Hin. destruct Hin as [[x' y'] [Hi Hin]]. cbn [fst snd] in Hin.
      destruct (Hl _ _ Hi) as [N1 [N2 [H1 H2]]]. destruct s as [a b|tab].
      + destruct Hin as [E|[]]. assert (Q : x = x' /\ y = y' /\ s1 = a /\ n = S b - a) by (repeat split; congruence). destruct Q as (-> & -> & -> & ->). cbn [sites] in Hvol.
        split; [intros Hr; specialize (Hab a b eq_refl Hr); lia|]. split; [exact N1|]. split; [exact N2|].
        split; intros j Hj; [apply H1|apply H2]; apply Hvol, in_seq; lia.
      + apply in_map_iff in Hin. destruct Hin as [i [E Hin]]. injection E as <- <- <- <-. cbn [sites] in Hvol.
        split; [lia|]. split; [exact N1|]. split; [exact N2|].
        split; intros j Hj; replace (i + j) with i by lia; [apply H1|apply H2]; apply Hvol, Hin.
  Qed.
End Reduce4.
