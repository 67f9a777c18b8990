From Coq Require Import List ZArith Bool Lia.
From Verif Require Import Base TimerModel TimerSpec.
Import ListNotations.
Local Open Scope Z_scope.

Definition has_reset (h : list click) : bool := existsb (fun c => match c with Reset => true | _ => false end) h.
Lemma no_reset_all h : has_reset h = false -> since_reset h = h.
Proof.
  destruct h as [|c h]; [reflexivity|]. unfold has_reset. cbn [existsb since_reset]. intros H. apply orb_false_iff in H. destruct H as [H1 H2].
  rewrite H2. destruct c; [reflexivity|reflexivity|discriminate].
Qed.
Lemma since_cons c h : has_reset (c :: h) = true ->
  since_reset (c :: h) = if has_reset h then since_reset h else h.
Proof.
  unfold has_reset. cbn [existsb since_reset]. intros H. destruct (existsb _ h) eqn:E; [reflexivity|]. destruct c; cbn in H; try discriminate. reflexivity.
Qed.

(** The state of the watch fits the interval going on. *)
Definition fitting (w : watch) (run : option (option timeval)) : Prop :=
  match run with
  | None => startedP w = false
  | Some None => startedP w = true /\ state_ok w = false
  | Some (Some t) => startedP w = true /\ state_ok w = true /\ t_start w = Some t
  end.
Lemma start_fits w t : fitting (start w t) (Some t) /\ microseconds (start w t) = microseconds w.
Proof. destruct t; cbn; auto. Qed.
Lemma stop_idle w t : fitting w None -> stop w t = Val w.
Proof. intros H. unfold stop. cbn in H. now rewrite H. Qed.
Lemma stop_good w a b : fitting w (Some (Some a)) ->
  exists w', stop w (Some b) = Val w' /\ fitting w' None /\ microseconds w' = microseconds w + length_us (Some a, Some b).
Proof.
  intros (H1 & H2 & H3). unfold stop. rewrite H1, H2, H3. unfold calc_duration. cbn [negb].
  unfold length_us, us. destruct (fst b <? fst a) eqn:E.
  - eexists. split; [reflexivity|]. split; [reflexivity|]. unfold microseconds. cbn [w_sec w_usec]. lia.
  - destruct (snd b <? snd a) eqn:E2; (eexists; split; [reflexivity|]; split; [reflexivity|]; unfold microseconds; cbn [w_sec w_usec]; lia).
Qed.
Lemma stop_bad w a b : fitting w (Some a) -> ~ measured (a, b) -> stop w b = Undef.
Proof.
  unfold measured. cbn [fst snd]. intros F N. destruct a as [a|].
  - destruct b as [b|]; [exfalso; apply N; split; discriminate|]. destruct F as (H & _). unfold stop. now rewrite H.
  - destruct F as [H1 H2]. unfold stop. rewrite H1. destruct b; [|reflexivity]. rewrite H2. reflexivity.
Qed.

Lemma watch_runs h : forall w run, fitting w run -> Forall measured (intervals run h) ->
  exists w', click_all w h = Val w' /\
    microseconds w' = (if has_reset h then 0 else microseconds w)
                      + sum_z (map length_us (intervals (if has_reset h then None else run) (since_reset h))).
Proof.
  induction h as [|c h IH]; intros w run F M.
  - exists w. split; [reflexivity|]. cbn. lia.
  - destruct c as [t|t|]; cbn [click_all click_one bind intervals] in *.
    + destruct (start_fits w t) as [F' E]. destruct (IH _ _ F' M) as (w' & R & T). exists w'. split; [exact R|]. rewrite T, E.
      destruct (has_reset h) eqn:Hr.
      * change (has_reset (Start t :: h)) with (has_reset h). rewrite Hr. rewrite since_cons by exact Hr. now rewrite Hr.
      * change (has_reset (Start t :: h)) with (has_reset h). rewrite Hr. rewrite !no_reset_all by exact Hr. reflexivity.
    + change (has_reset (Stop t :: h)) with (has_reset h). destruct run as [t0|].
      * inversion M as [|x y M1 M2]; subst. destruct t0 as [a|]; [|destruct M1 as [X _]; now elim X]. destruct t as [b|]; [|destruct M1 as [_ X]; now elim X].
        destruct (stop_good w a b F) as (w1 & S1 & F1 & E1). rewrite S1. cbn [bind]. destruct (IH _ _ F1 M2) as (w' & R & T).
        exists w'. split; [exact R|]. rewrite T. destruct (has_reset h) eqn:Hr.
        -- rewrite since_cons by exact Hr. now rewrite Hr.
        -- rewrite !no_reset_all by exact Hr. cbn [intervals map sum_z fold_right]. rewrite E1. unfold sum_z. lia.
      * rewrite (stop_idle w t F). cbn [bind]. destruct (IH _ _ F M) as (w' & R & T). exists w'. split; [exact R|]. rewrite T.
        destruct (has_reset h) eqn:Hr.
        -- rewrite since_cons by exact Hr. now rewrite Hr.
        -- rewrite !no_reset_all by exact Hr. reflexivity.
    + change (has_reset (Reset :: h)) with true. cbv iota. destruct (IH (reset w) None eq_refl M) as (w' & R & T). exists w'. split; [exact R|].
      rewrite T. rewrite since_cons by reflexivity. destruct (has_reset h) eqn:Hr; [reflexivity|]. rewrite no_reset_all by exact Hr. reflexivity.
Qed.
Lemma watch_garbage h : forall w run, fitting w run -> ~ Forall measured (intervals run h) -> click_all w h = Undef.
Proof.
  induction h as [|c h IH]; intros w run F M; [exfalso; apply M; constructor|].
  destruct c as [t|t|]; cbn [click_all click_one bind intervals] in *.
  - exact (IH _ _ (proj1 (start_fits w t)) M).
  - destruct run as [t0|].
    + assert (D : measured (t0, t) \/ ~ measured (t0, t)).
      { unfold measured. destruct t0, t; cbn; intuition congruence. }
      destruct D as [D|D]; [|now rewrite (stop_bad w t0 t F D)].
      assert (M2 : ~ Forall measured (intervals None h)) by (intros X; apply M; now constructor).
      destruct D as [D1 D2]. destruct t0 as [a|]; [|now elim D1]. destruct t as [b|]; [|now elim D2].
      destruct (stop_good w a b F) as (w1 & S1 & F1 & E1). rewrite S1. cbn [bind]. exact (IH _ _ F1 M2).
    + rewrite (stop_idle w t F). exact (IH _ _ F M).
  - exact (IH (reset w) None eq_refl M).
Qed.

(** With a good clock. *)
Definition run_from (from : Z) (run : option (option timeval)) : Prop :=
  match run with
  | None => True
  | Some (Some t) => proper t /\ us t <= from
  | Some None => False
  end.
Lemma later_second a b : proper a -> proper b -> us a <= us b -> (fst b <? fst a) = false.
Proof. unfold proper, us. intros A B H. apply Z.ltb_ge. nia. Qed.
Lemma good_intervals h : forall from run, good_clock from (readings h) -> run_from from run ->
  Forall measured (intervals run h)
  /\ 0 <= sum_z (map length_us (intervals run h))
     <= last_reading from (readings h) - match run with Some (Some t) => us t | _ => from end
  /\ Forall (fun i => match i with (Some a, Some b) => length_us i = us b - us a /\ us a <= us b | _ => False end) (intervals run h)
  /\ from <= last_reading from (readings h).
Proof.
  induction h as [|c h IH]; intros from run G R.
  - cbn. repeat split; try constructor; try lia. destruct run as [[t|]|]; cbn in R; [lia|contradiction|lia].
  - destruct c as [t|t|]; cbn [readings good_clock last_reading intervals] in *.
    + destruct t as [t|]; [|contradiction]. destruct G as (P & L & G). destruct (IH (us t) (Some (Some t)) G ltac:(split; [exact P|lia])) as (A & B & C & D).
      repeat split; auto; try lia. destruct run as [[t'|]|]; cbn in R; [lia|contradiction|lia].
    + destruct t as [t|]; [|contradiction]. destruct G as (P & L & G).
      destruct (IH (us t) None G I) as (A & B & C & D). cbn in B. destruct run as [[a|]|]; cbn in R; [|contradiction|].
      * destruct R as [Pa La]. assert (E : length_us (Some a, Some t) = us t - us a).
        { unfold length_us. rewrite later_second; [reflexivity|assumption|assumption|lia]. }
        split; [constructor; [split; discriminate|exact A]|]. split.
        -- cbn [map sum_z fold_right]. rewrite E. fold (sum_z (map length_us (intervals None h))). lia.
        -- split; [constructor; [split; [exact E|lia]|exact C]|lia].
      * repeat split; auto; lia.
    + destruct (IH from None G I) as (A & B & C & D). cbn in B. repeat split; auto; try lia.
      destruct run as [[t'|]|]; cbn in R; [lia|contradiction|lia].
Qed.
Lemma good_suffix h : forall from, good_clock from (readings h) ->
  exists from', from <= from' /\ good_clock from' (readings (since_reset h))
    /\ last_reading from' (readings (since_reset h)) = last_reading from (readings h).
Proof.
  induction h as [|c h IH]; intros from G; [exists from; cbn; auto with zarith|].
  destruct (has_reset (c :: h)) eqn:Hr.
  - rewrite since_cons by exact Hr. 
    assert (X : exists f, from <= f /\ good_clock f (readings h) /\ last_reading f (readings h) = last_reading from (readings (c :: h))).
    { destruct c as [t|t|]; cbn [readings good_clock last_reading] in *.
      - destruct t as [t|]; [|contradiction]. exists (us t). intuition.
      - destruct t as [t|]; [|contradiction]. exists (us t). intuition.
      - exists from. auto with zarith. }
    destruct X as (f & L & G' & E). destruct (has_reset h).
    + destruct (IH f G') as (f' & L' & G'' & E'). exists f'. split; [lia|]. split; [exact G''|congruence].
    + exists f. auto.
  - rewrite no_reset_all by exact Hr. exists from. auto with zarith.
Qed.

(** * Profiling *)
Lemma act_app h1 : forall p h2, act_all p (h1 ++ h2) = bind (act_all p h1) (fun p => act_all p h2).
Proof.
  induction h1 as [|a h1 IH]; intros p h2; [reflexivity|]. cbn [app act_all]. destruct (act_one p a); [|reflexivity|reflexivity]. cbn [bind]. apply IH.
Qed.
Lemma upd_same o e t : upd o e t e = Some t.
Proof. unfold upd. now rewrite Nat.eqb_refl. Qed.
Lemma upd_other o e t x : x <> e -> upd o e t x = o x.
Proof. intros H. unfold upd. destruct (Nat.eqb_spec x e); [contradiction|reflexivity]. Qed.
Lemma register_keeps p e q : register p e = Val q -> level q = level p /\ infos q = infos p /\ objs q = objs p.
Proof. unfold register. destruct (queue p) as [|[s es] r]; intros H; [discriminate|]. injection H as <-. auto. Qed.

(** What one expression's object holds after a history. *)
Definition tallied (e : nat) (h : list act) (t : tally) : Prop :=
  count t = Z.of_nat (length (times_left e h)) /\ time t = ulong (sum_z (times_left e h) - sum_z (times_entered e h)).
Lemma ulong_add a b : ulong (ulong a + b) = ulong (a + b).
Proof. unfold ulong. now rewrite Zplus_mod_idemp_l. Qed.
Lemma ulong_sub a b : ulong (ulong a - b) = ulong (a - b).
Proof. unfold ulong. now rewrite Zminus_mod_idemp_l. Qed.
Lemma times_left_app e h1 h2 : times_left e (h1 ++ h2) = times_left e h1 ++ times_left e h2.
Proof.
  induction h1 as [|a h1 IH]; [reflexivity|]. destruct a; cbn [app times_left]; try exact IH. destruct (Nat.eqb e0 e); cbn; now rewrite IH.
Qed.
Lemma times_entered_app e h1 h2 : times_entered e (h1 ++ h2) = times_entered e h1 ++ times_entered e h2.
Proof.
  induction h1 as [|a h1 IH]; [reflexivity|]. destruct a; cbn [app times_entered]; try exact IH. destruct (Nat.eqb e0 e); cbn; now rewrite IH.
Qed.
Lemma pushes_app h1 h2 : pushes (h1 ++ h2) = pushes h1 ++ pushes h2.
Proof. induction h1 as [|a h1 IH]; [reflexivity|]. destruct a; cbn [app pushes]; rewrite ?IH; reflexivity. Qed.
Lemma sum_app a b : sum_z (a ++ b) = sum_z a + sum_z b.
Proof. unfold sum_z. induction a as [|x a IH]; cbn [app fold_right]; lia. Qed.

Lemma sum_one t : sum_z [t] = t.
Proof. cbn. lia. Qed.
Lemma objects h : forall p, act_all start_prof h = Val p -> forall e,
  match objs p e with
  | None => times_entered e h = [] /\ times_left e h = []
  | Some t => times_entered e h <> [] /\ tallied e h t
  end.
Proof.
  induction h as [|a h IH] using rev_ind; intros p R e.
  - injection R as <-. cbn. auto.
  - rewrite act_app in R. destruct (act_all start_prof h) as [p0| |]; try discriminate. cbn [bind act_all] in R.
    destruct (act_one p0 a) as [p1| |] eqn:A; try discriminate. cbn [bind] in R. injection R as <-.
    specialize (IH p0 eq_refl e). rewrite times_left_app, times_entered_app. unfold tallied in *. rewrite times_left_app, times_entered_app.
    destruct a as [l s| |l|x t|x t|]; cbn [act_one times_left times_entered] in *; rewrite ?app_nil_r.
    + injection A as <-. exact IH.
    + unfold pop in A. destruct (infos p0); [discriminate|]. injection A as <-. exact IH.
    + injection A as <-. exact IH.
    + unfold enter in A. destruct (Nat.eqb_spec x e) as [->|N].
      * destruct (objs p0 e) as [ta|] eqn:O.
        -- injection A as <-. cbn [objs]. rewrite upd_same. destruct IH as (I1 & I2 & I3). split; [now destruct (times_entered e h)|].
           cbn [count time]. split; [exact I2|]. rewrite I3, ulong_sub, sum_app, sum_one. f_equal. lia.
        -- destruct IH as [I1 I2]. rewrite I1, I2. assert (Q : exists q, p1 = mkProf (level q) (infos q) (queue q) (upd (objs q) e (mkTally (ulong (0 - t)) 0))).
           { destruct (0 <? level p0); [|injection A as <-; now exists p0]. destruct (register p0 e) as [q| |]; try discriminate. cbn [bind] in A. injection A as <-. now exists q. }
           destruct Q as [q ->]. cbn [objs]. rewrite upd_same. split; [discriminate|]. split; [reflexivity|]. cbn [app time]. rewrite sum_one. f_equal.
      * assert (O : objs p1 e = objs p0 e).
        { destruct (objs p0 x) as [ta|] eqn:O; [injection A as <-; cbn [objs]; apply upd_other; congruence|].
          destruct (0 <? level p0); [|injection A as <-; cbn [objs]; apply upd_other; congruence].
          destruct (register p0 x) as [q| |] eqn:G; try discriminate. cbn [bind] in A. injection A as <-. cbn [objs].
          rewrite upd_other by congruence. now destruct (register_keeps _ _ _ G) as (_ & _ & ->). }
        rewrite O, app_nil_r. exact IH.
    + unfold leave in A. destruct (objs p0 x) as [ta|] eqn:O; [|discriminate]. injection A as <-. cbn [objs].
      destruct (Nat.eqb_spec x e) as [->|N].
      * rewrite upd_same. rewrite O in IH. destruct IH as (I1 & I2 & I3). split; [exact I1|]. cbn [count time]. rewrite app_length, I2, I3, ulong_add, sum_app, sum_one. cbn [length].
        split; [lia|f_equal; lia].
      * rewrite upd_other by congruence. rewrite app_nil_r. exact IH.
    + injection A as <-. exact IH.
Qed.

(** What a step does to the queue. *)
Lemma queue_step p a q : act_one p a = Val q ->
  match a with
  | Push l s => queue q = (s, []) :: queue p
  | Print => queue q = []
  | Enter e t => match objs p e with
                 | Some _ => queue q = queue p
                 | None => if 0 <? level p then exists s es r, queue p = (s, es) :: r /\ queue q = (s, es ++ [e]) :: r
                           else queue q = queue p
                 end
  | _ => queue q = queue p
  end.
Proof.
  destruct a as [l s| |l|x t|x t|]; cbn [act_one]; intros A.
  - now injection A as <-.
  - unfold pop in A. destruct (infos p); [discriminate|]. now injection A as <-.
  - now injection A as <-.
  - unfold enter in A. destruct (objs p x); [now injection A as <-|]. destruct (0 <? level p); [|now injection A as <-].
    unfold register in A. destruct (queue p) as [|[s es] r]; [discriminate|]. cbn [bind] in A. injection A as <-. now exists s, es, r.
  - unfold leave in A. destruct (objs p x); [|discriminate]. now injection A as <-.
  - now injection A as <-.
Qed.
Lemma registered_cons p s es r : queue p = (s, es) :: r -> registered p = concat (map snd (rev r)) ++ es.
Proof. unfold registered. intros ->. cbn [rev]. rewrite map_app, concat_app. cbn. now rewrite app_nil_r. Qed.

Definition no_print (h : list act) : Prop := ~ In Print h.
(** Every registered expression has its object, and is registered once. *)
Lemma registered_known h : forall p, act_all start_prof h = Val p ->
  NoDup (registered p) /\ (forall e, In e (registered p) -> objs p e <> None)
  /\ (no_print h -> map fst (rev (queue p)) = pushes h).
Proof.
  induction h as [|a h IH] using rev_ind; intros p R.
  - injection R as <-. cbn. repeat split; [constructor|contradiction].
  - rewrite act_app in R. destruct (act_all start_prof h) as [p0| |] eqn:R0; try discriminate. cbn [bind act_all] in R.
    destruct (act_one p0 a) as [p1| |] eqn:A; try discriminate. cbn [bind] in R. injection R as <-.
    destruct (IH p0 eq_refl) as (I1 & I2 & I3). pose proof (queue_step _ _ _ A) as Q. rewrite pushes_app.
    assert (O : forall e, objs p0 e <> None -> objs p1 e <> None).
    { intros e. pose proof (objects _ _ R0 e) as B0.
      assert (R1 : act_all start_prof (h ++ [a]) = Val p1) by (rewrite act_app, R0; cbn [bind act_all]; now rewrite A).
      pose proof (objects _ _ R1 e) as B1. intros H. destruct (objs p0 e); [|congruence]. destruct (objs p1 e); [discriminate|].
      destruct B1 as [B1 _]. rewrite times_entered_app in B1. apply app_eq_nil in B1. destruct B0 as [B0 _], B1 as [B1 _]. contradiction. }
    assert (NP : no_print (h ++ [a]) -> no_print h) by (intros H X; apply H; apply in_or_app; now left).
    assert (Same : queue p1 = queue p0 -> pushes [a] = [] ->
       NoDup (registered p1) /\ (forall e, In e (registered p1) -> objs p1 e <> None)
       /\ (no_print (h ++ [a]) -> map fst (rev (queue p1)) = pushes h ++ pushes [a])).
    { intros E Pn. unfold registered. rewrite E. split; [exact I1|]. split; [intros e H; apply O; now apply I2|]. intros H. rewrite Pn, app_nil_r. apply I3. now apply NP. }
    destruct a as [l s| |l|x t|x t|].
    + unfold registered. rewrite Q. cbn [rev]. rewrite !map_app, concat_app. cbn. rewrite app_nil_r. fold (registered p0).
      split; [exact I1|]. split; [intros e H; apply O; now apply I2|]. intros H. now rewrite I3 by now apply NP.
    + now apply Same.
    + now apply Same.
    + destruct (objs p0 x) as [ta|] eqn:Ox; [now apply Same|]. destruct (0 <? level p0) eqn:L; [|now apply Same].
      destruct Q as (s & es & r & Q0 & Q1). rewrite (registered_cons _ _ _ _ Q1). rewrite app_assoc. rewrite (registered_cons _ _ _ _ Q0) in I1, I2.
      split.
      * apply NoDup_rev in I1. rewrite <- (rev_involutive ((_ ++ es) ++ [x])). apply NoDup_rev. rewrite rev_app_distr. cbn. constructor; [|exact I1].
        rewrite <- in_rev. intros H. now apply (I2 x H).
      * split.
        -- intros e H. apply in_app_or in H. destruct H as [H|[->|[]]]; [apply O; now apply I2|].
           cbn [act_one] in A. unfold enter in A. rewrite Ox, L in A. destruct (register p0 e) as [q| |]; try discriminate. cbn [bind] in A. injection A as <-.
           cbn [objs]. rewrite upd_same. discriminate.
        -- intros H. rewrite Q1. cbn [rev]. rewrite map_app. cbn. rewrite app_nil_r. rewrite <- I3 by now apply NP. rewrite Q0. cbn [rev]. now rewrite map_app.
    + now apply Same.
    + unfold registered. rewrite Q. cbn. split; [constructor|]. split; [contradiction|]. intros H. exfalso. apply H. apply in_or_app. right. now left.
Qed.

(** Once constructed, an object is never registered again; the section it is in stays. *)
Lemma stays h2 : forall p q, act_all p h2 = Val q -> no_print h2 -> forall e, objs p e <> None ->
  objs q e <> None
  /\ (In e (registered q) -> In e (registered p))
  /\ (forall n s es, nth_error (rev (queue p)) n = Some (s, es) -> In e es -> exists es', nth_error (rev (queue q)) n = Some (s, es') /\ In e es').
Proof.
  induction h2 as [|a h2 IH]; intros p q R NP e Oe.
  - injection R as <-. split; [exact Oe|]. split; [auto|]. intros n s es H1 H2. now exists es.
  - cbn [act_all] in R. destruct (act_one p a) as [p1| |] eqn:A; try discriminate. cbn [bind] in R.
    assert (NP2 : no_print h2) by (intros X; apply NP; now right).
    assert (O1 : objs p1 e <> None).
    { destruct a as [l s| |l|x t|x t|]; cbn [act_one] in A.
      - now injection A as <-.
      - unfold pop in A. destruct (infos p); [discriminate|]. now injection A as <-.
      - now injection A as <-.
      - unfold enter in A. destruct (Nat.eq_dec e x) as [->|N].
        + destruct (objs p x); [|congruence]. injection A as <-. cbn [objs]. now rewrite upd_same.
        + destruct (objs p x); [injection A as <-; cbn [objs]; now rewrite upd_other|].
          destruct (0 <? level p); [|injection A as <-; cbn [objs]; now rewrite upd_other].
          destruct (register p x) as [r| |] eqn:G; try discriminate. cbn [bind] in A. injection A as <-. cbn [objs]. rewrite upd_other by exact N.
          now destruct (register_keeps _ _ _ G) as (_ & _ & ->).
      - unfold leave in A. destruct (objs p x); [|discriminate]. injection A as <-. cbn [objs]. unfold upd. destruct (Nat.eqb e x); [discriminate|exact Oe].
      - now injection A as <-. }
    destruct (IH p1 q R NP2 e O1) as (J1 & J2 & J3). split; [exact J1|]. pose proof (queue_step _ _ _ A) as Q.
    assert (Same : queue p1 = queue p -> (In e (registered q) -> In e (registered p)) /\
       (forall n s es, nth_error (rev (queue p)) n = Some (s, es) -> In e es -> exists es', nth_error (rev (queue q)) n = Some (s, es') /\ In e es')).
    { intros E. unfold registered in *. rewrite E in *. auto. }
    destruct a as [l s| |l|x t|x t|].
    + split.
      * intros H. apply J2 in H. unfold registered in *. rewrite Q in H. cbn [rev] in H. rewrite map_app, concat_app in H. cbn in H. now rewrite app_nil_r in H.
      * intros n s' es H1 H2. apply (J3 n s' es); [|exact H2]. rewrite Q. cbn [rev]. rewrite nth_error_app1; [exact H1|]. apply nth_error_Some. congruence.
    + now apply Same.
    + now apply Same.
    + destruct (objs p x) as [ta|] eqn:Ox; [now apply Same|]. destruct (0 <? level p) eqn:L; [|now apply Same].
      destruct Q as (s & es & r & Q0 & Q1). split.
      * intros H. apply J2 in H. rewrite (registered_cons _ _ _ _ Q1), app_assoc in H. rewrite (registered_cons _ _ _ _ Q0).
        apply in_app_or in H. destruct H as [H|[->|[]]]; [exact H|]. congruence.
      * intros n s' es' H1 H2. rewrite Q0 in H1. cbn [rev] in H1. destruct (Nat.lt_ge_cases n (length (rev r))) as [Ln|Ln].
        -- rewrite nth_error_app1 in H1 by exact Ln. apply (J3 n s' es'); [|exact H2]. rewrite Q1. cbn [rev]. now rewrite nth_error_app1 by exact Ln.
        -- rewrite nth_error_app2 in H1 by exact Ln. destruct (n - length (rev r))%nat as [|k] eqn:D; [|destruct k; discriminate].
           cbn in H1. injection H1 as <- <-. apply (J3 n s (es ++ [x])); [|apply in_or_app; now left]. rewrite Q1. cbn [rev].
           rewrite nth_error_app2 by exact Ln. now rewrite D.
    + now apply Same.
    + exfalso. apply NP. now left.
Qed.

Lemma first_time h1 e t h2 p1 p : times_entered e h1 = [] -> act_all start_prof h1 = Val p1 ->
  act_all start_prof (h1 ++ Enter e t :: h2) = Val p -> no_print (h1 ++ Enter e t :: h2) ->
  (0 < level p1 -> exists s es, nth_error (rev (queue p)) (length (pushes h1) - 1) = Some (s, es) /\ In e es /\ last (pushes h1) 0%nat = s /\ pushes h1 <> [])
  /\ (level p1 <= 0 -> ~ In e (registered p)).
Proof.
  intros T R1 R NP. change (Enter e t :: h2) with ([Enter e t] ++ h2) in *. rewrite app_assoc, act_app in R.
  destruct (act_all start_prof (h1 ++ [Enter e t])) as [p2| |] eqn:R2; try discriminate. cbn [bind] in R.
  pose proof (objects _ _ R2 e) as O2. assert (E2 : objs p2 e <> None).
  { destruct (objs p2 e); [discriminate|]. destruct O2 as [O2 _]. rewrite times_entered_app in O2. cbn in O2. rewrite Nat.eqb_refl in O2. destruct (times_entered e h1); discriminate. }
  assert (N2 : no_print h2) by (intros X; apply NP; apply in_or_app; right; apply in_or_app; now right).
  assert (N1 : no_print h1) by (intros X; apply NP; apply in_or_app; now left).
  destruct (stays _ _ _ R N2 e E2) as (_ & K2 & K3). rewrite act_app, R1 in R2. cbn [bind act_all] in R2.
  destruct (act_one p1 (Enter e t)) as [p2'| |] eqn:A; try discriminate. cbn [bind] in R2. injection R2 as ->.
  pose proof (queue_step _ _ _ A) as Q. pose proof (objects _ _ R1 e) as O1. cbv iota in Q. assert (E1 : objs p1 e = None).
  { destruct (objs p1 e); [|reflexivity]. destruct O1 as [O1 _]. contradiction. }
  rewrite E1 in Q. destruct (registered_known _ _ R1) as (_ & I2 & I3). specialize (I3 N1). split.
  - intros L. apply Z.ltb_lt in L. rewrite L in Q. destruct Q as (s & es & r & Q0 & Q1).
    assert (Len : length (pushes h1) = S (length (rev r))).
    { rewrite <- I3, map_length, Q0. cbn [rev]. rewrite app_length. cbn. lia. }
    destruct (K3 (length (pushes h1) - 1)%nat s (es ++ [e])) as (es' & K & K').
    + rewrite Q1. cbn [rev]. rewrite nth_error_app2 by lia. replace (length (pushes h1) - 1 - length (rev r))%nat with 0%nat by lia. reflexivity.
    + apply in_or_app. right. now left.
    + exists s, es'. split; [exact K|]. split; [exact K'|]. split.
      * rewrite <- I3, Q0. cbn [rev]. rewrite map_app. cbn [map fst]. now rewrite last_last.
      * intros X. rewrite X in Len. discriminate.
  - intros L. destruct (0 <? level p1) eqn:L'; [apply Z.ltb_lt in L'; lia|]. intros H. apply K2 in H. unfold registered in H. rewrite Q in H.
    now apply (I2 e H).
Qed.

(** The report. *)
Lemma lines_in p es e c t : In (e, c, t) (lines_of p es) <-> In e es /\ objs p e = Some (mkTally t c) /\ 0 < c.
Proof.
  induction es as [|x es IH]; [cbn; tauto|]. cbn [lines_of]. unfold line_of. destruct (objs p x) as [ta|] eqn:O.
  - destruct (0 <? count ta) eqn:C.
    + cbn [In]. rewrite IH. apply Z.ltb_lt in C. split.
      * intros [H|H]; [injection H as <- <- <-|tauto]. destruct ta. cbn in *. auto.
      * intros ([->|H1] & H2 & H3); [|tauto]. left. rewrite H2 in O. injection O as <-. reflexivity.
    + rewrite IH. apply Z.ltb_ge in C. cbn [In]. split; [tauto|]. intros ([->|H1] & H2 & H3); [|tauto]. rewrite H2 in O. injection O as <-. cbn in C. lia.
  - rewrite IH. cbn [In]. split; [tauto|]. intros ([->|H1] & H2 & H3); [congruence|tauto].
Qed.
Lemma printed_in p q s ls : In (s, ls) (printed p q) -> exists es, In (s, es) q /\ ls = lines_of p es.
Proof.
  induction q as [|[s' es] q IH]; [contradiction|]. cbn [printed]. destruct es as [|e es].
  - intros H. destruct (IH H) as (es & H1 & H2). exists es. split; [now right|exact H2].
  - intros [H|H]; [|destruct (IH H) as (es' & H1 & H2); exists es'; split; [now right|exact H2]]. injection H as <- <-. exists (e :: es). split; [now left|reflexivity].
Qed.
Lemma in_printed p q s es : In (s, es) q -> es <> [] -> In (s, lines_of p es) (printed p q).
Proof.
  induction q as [|[s' es'] q IH]; [contradiction|]. intros [H|H] N; cbn [printed].
  - injection H as -> ->. destruct es; [congruence|]. now left.
  - destruct es'; [now apply IH|]. right. now apply IH.
Qed.
Lemma lines_sub p es : forall x, In x (map (fun l => fst (fst l)) (lines_of p es)) -> In x es.
Proof.
  intros x H. apply in_map_iff in H. destruct H as (((e & c) & t) & <- & H). apply lines_in in H. cbn. tauto.
Qed.
Lemma lines_nodup p es : NoDup es -> NoDup (map (fun l => fst (fst l)) (lines_of p es)).
Proof.
  induction es as [|e es IH]; intros H; [constructor|]. inversion H as [|x y N1 N2]; subst. cbn [lines_of]. unfold line_of.
  destruct (objs p e) as [ta|]; [|now apply IH]. destruct (0 <? count ta); [|now apply IH]. cbn [map]. constructor; [|now apply IH].
  cbn [fst]. intros X. apply lines_sub in X. contradiction.
Qed.
Lemma nodup_app {A} (a b : list A) : NoDup (a ++ b) <-> NoDup a /\ NoDup b /\ (forall x, In x a -> ~ In x b).
Proof.
  induction a as [|x a IH]; cbn [app].
  - split; [intros H; repeat split; [constructor|exact H|contradiction]|tauto].
  - split.
    + intros H. inversion H as [|y z N1 N2]; subst. apply IH in N2. destruct N2 as (H1 & H2 & H3). repeat split.
      * constructor; [|exact H1]. intros X. apply N1. apply in_or_app. now left.
      * exact H2.
      * intros y [->|Hy] Hb; [|now apply (H3 y)]. apply N1. apply in_or_app. now right.
    + intros (H1 & H2 & H3). inversion H1 as [|y z N1 N2]; subst. constructor.
      * intros X. apply in_app_or in X. destruct X as [X|X]; [contradiction|]. apply (H3 x); [now left|exact X].
      * apply IH. repeat split; [exact N2|exact H2|]. intros y Hy. apply H3. now right.
Qed.
Lemma printed_nodup p q : NoDup (concat (map snd q)) ->
  NoDup (expressions (printed p q)) /\ (forall x, In x (expressions (printed p q)) -> In x (concat (map snd q))).
Proof.
  induction q as [|[s es] q IH]; intros H; [split; [constructor|auto]|]. cbn [map snd concat] in H. apply nodup_app in H. destruct H as (H1 & H2 & H3).
  destruct (IH H2) as [I1 I2]. cbn [printed]. destruct es as [|e es].
  - split; [exact I1|]. intros x Hx. cbn. now apply I2.
  - unfold expressions in *. cbn [map concat snd]. split.
    + apply nodup_app. split; [now apply lines_nodup|]. split; [exact I1|]. intros x Hx Hy. apply (H3 x); [now apply lines_sub with (p := p)|now apply I2].
    + intros x Hx. apply in_app_or in Hx. apply in_or_app. destruct Hx as [Hx|Hx]; [left; now apply lines_sub with (p := p)|right; now apply I2].
Qed.

(** Levels. *)
Lemma enter_keeps p e t q : enter p e t = Val q -> level q = level p /\ infos q = infos p.
Proof.
  unfold enter. destruct (objs p e); [intros H; injection H as <-; auto|]. destruct (0 <? level p); [|intros H; injection H as <-; auto].
  destruct (register p e) as [r| |] eqn:G; try discriminate. cbn [bind]. intros H. injection H as <-. destruct (register_keeps _ _ _ G) as (A & B & _). auto.
Qed.
Lemma leave_keeps p e t q : leave p e t = Val q -> level q = level p /\ infos q = infos p.
Proof. unfold leave. destruct (objs p e); [|discriminate]. intros H. injection H as <-. auto. Qed.
Lemma balanced_keeps h : balanced h -> forall p q, act_all p h = Val q -> infos q = infos p.
Proof.
  induction 1 as [|l h _ IH|e t h _ IH|e t h _ IH|l s h h' _ IH _ IH']; intros p q R; cbn [act_all act_one bind] in R.
  - now injection R as <-.
  - rewrite (IH _ _ R). reflexivity.
  - destruct (enter p e t) as [r| |] eqn:E; try discriminate. cbn [bind] in R. rewrite (IH _ _ R). now apply enter_keeps in E.
  - destruct (leave p e t) as [r| |] eqn:E; try discriminate. cbn [bind] in R. rewrite (IH _ _ R). now apply leave_keeps in E.
  - rewrite act_app in R. destruct (act_all (push p l s) h) as [r| |] eqn:E; try discriminate. cbn [bind act_all act_one] in R.
    pose proof (IH _ _ E) as I. cbn [push infos] in I. unfold pop in R. rewrite I in R. cbn [bind] in R. rewrite (IH' _ _ R). reflexivity.
Qed.
