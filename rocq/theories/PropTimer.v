(** C93: stopwatches and profiling. *)
From Coq Require Import List ZArith Bool Lia.
From Verif Require Import Base TimerModel TimerSpec TimerProofs.
Import ListNotations.
Local Open Scope Z_scope.

(** For every history of starts, stops and resets: if the clock could be read at both ends of every interval, the time shown is
    the sum of the intervals since the last reset; otherwise the program adds up values that were never set. *)
Theorem C93_watch (h : list click) :
  (Forall measured (intervals None h) ->
     exists w, click_all new_watch h = Val w
               /\ microseconds w = sum_z (map length_us (intervals None (since_reset h))))
  /\ (~ Forall measured (intervals None h) -> click_all new_watch h = Undef).
Proof.
  split; intros M.
  - destruct (watch_runs h new_watch None eq_refl M) as (w & R & T). exists w. split; [exact R|]. rewrite T. destruct (has_reset h); cbn; lia.
  - now apply watch_garbage with (run := None).
Qed.
Print Assumptions C93_watch.

(** With a clock that works and does not run backwards the time shown is the sum of end minus start over the intervals since
    the last reset, is not negative, and is not more than the time between the first and the last reading. *)
Theorem C93_watch_good (h : list click) (from : Z) : good_clock from (readings h) ->
  exists w, click_all new_watch h = Val w
    /\ microseconds w = sum_z (map (fun i => match i with (Some a, Some b) => us b - us a | _ => 0 end) (intervals None (since_reset h)))
    /\ 0 <= microseconds w <= last_reading from (readings h) - from.
Proof.
  intros G. destruct (good_intervals h from None G I) as (A & _ & _ & _). destruct (proj1 (C93_watch h) A) as (w & R & T). exists w. split; [exact R|].
  destruct (good_suffix h from G) as (f & L & G' & E). destruct (good_intervals _ f None G' I) as (_ & B & C & D). cbn beta iota in B. rewrite T. split.
  - f_equal. apply map_ext_in. intros i Hi. rewrite Forall_forall in C. specialize (C i Hi). destruct i as [[a|] [b|]]; try contradiction. apply C.
  - lia.
Qed.
Print Assumptions C93_watch_good.
Example C93_watch_good_applies :
  let h := [Start (Some (5, 10)); Reset; Stop (Some (5, 20)); Start (Some (6, 999999)); Stop (Some (8, 0)); Start (Some (8, 1)); Start (Some (8, 2)); Stop (Some (8, 9))] in
  good_clock 5000000 (readings h) /\ exists w, click_all new_watch h = Val w /\ microseconds w = 1000008.
Proof.
  cbn. split; [unfold proper, us; cbn; lia|]. eexists. split; reflexivity.
Qed.

(** A clock set back: within the second the time shown goes down, over a second the interval counts nothing. *)
Theorem C93_watch_back_refuted (a b : timeval) : proper a -> proper b -> us b < us a ->
  exists w, click_all new_watch [Start (Some a); Stop (Some b)] = Val w
    /\ (fst a = fst b -> microseconds w = us b - us a /\ microseconds w < 0)
    /\ (fst a <> fst b -> microseconds w = 0).
Proof.
  intros Pa Pb L. destruct (proj1 (C93_watch [Start (Some a); Stop (Some b)])) as (w & R & T).
  { cbn. constructor; [split; discriminate|constructor]. }
  exists w. split; [exact R|]. rewrite T. cbn [since_reset existsb intervals map sum_z fold_right orb length_us]. unfold us, proper in *. split; intros E.
  - rewrite E, Z.ltb_irrefl. lia.
  - assert (H : fst b < fst a) by nia. apply Z.ltb_lt in H. rewrite H. lia.
Qed.
Print Assumptions C93_watch_back_refuted.
Example C93_watch_back_applies : proper (5, 10) /\ proper (5, 9) /\ us (5, 9) < us (5, 10).
Proof. unfold proper, us. cbn. lia. Qed.

(** A clock that cannot be read once, at the start or the stop of an interval, makes the time shown undefined. *)
Theorem C93_watch_failed_refuted (t : timeval) (h : list click) :
  click_all new_watch (Start None :: Stop (Some t) :: h) = Undef /\ click_all new_watch (Start (Some t) :: Stop None :: h) = Undef.
Proof. split; apply C93_watch; cbn; intros H; inversion H as [|x y [H1 H2] H3]; subst; cbn in *; congruence. Qed.
Print Assumptions C93_watch_failed_refuted.

(** Profiling.  The report names each expression at most once, with the number of times it was completed and, modulo 2^64,
    the time spent in it, whatever sections were opened and closed. *)
Theorem C93_report (h : list act) (p : prof) : act_all start_prof h = Val p ->
  NoDup (expressions (report p))
  /\ forall s ls e c t, In (s, ls) (report p) -> In (e, c, t) ls ->
       c = Z.of_nat (length (times_left e h)) /\ 0 < c
       /\ t = (sum_z (times_left e h) - sum_z (times_entered e h)) mod 2 ^ 64.
Proof.
  intros R. destruct (registered_known _ _ R) as (N & _ & _). split; [now apply printed_nodup|].
  intros s ls e c t H1 H2. apply printed_in in H1. destruct H1 as (es & _ & ->). apply lines_in in H2. destruct H2 as (_ & O & C).
  pose proof (objects _ _ R e) as B. rewrite O in B. destruct B as (_ & B1 & B2). cbn in B1, B2. auto.
Qed.
Print Assumptions C93_report.

(** An expression is in the report exactly when it was completed and the level was positive when it was first met; it is listed
    under the section opened last before that. *)
Theorem C93_section (h1 h2 : list act) (e : nat) (now : Z) (p1 p : prof) :
  times_entered e h1 = [] -> act_all start_prof h1 = Val p1 ->
  act_all start_prof (h1 ++ Enter e now :: h2) = Val p -> ~ In Print (h1 ++ Enter e now :: h2) ->
  (0 < level p1 -> times_left e (h1 ++ Enter e now :: h2) <> [] ->
     pushes h1 <> [] /\ exists ls c t, In (last (pushes h1) 0%nat, ls) (report p) /\ In (e, c, t) ls)
  /\ (level p1 <= 0 -> ~ In e (expressions (report p))).
Proof.
  intros T R1 R NP. destruct (first_time h1 e now h2 p1 p T R1 R NP) as [A B]. split.
  - intros L C. destruct (A L) as (s & es & H1 & H2 & H3 & H4). split; [exact H4|].
    pose proof (objects _ _ R e) as O. destruct (objs p e) as [[t c]|] eqn:Oe; [|destruct O as [_ O]; contradiction].
    destruct O as (_ & O1 & _). cbn in O1. exists (lines_of p es), c, t. rewrite H3. split.
    + apply in_printed; [now apply nth_error_In in H1|]. intros ->. contradiction.
    + apply lines_in. split; [exact H2|]. split; [exact Oe|]. destruct (times_left e _); [congruence|]. cbn [length] in O1. lia.
  - intros L H. apply (B L). destruct (registered_known _ _ R) as (N & _ & _). now apply (printed_nodup p _ N).
Qed.
Print Assumptions C93_section.
Example C93_section_applies :
  exists p1 p, act_all start_prof [Push 0 7%nat; SetLevel 1; Push 1 8%nat; Pop] = Val p1 /\ 0 < level p1
    /\ act_all start_prof ([Push 0 7%nat; SetLevel 1; Push 1 8%nat; Pop] ++ Enter 3 100 :: [Leave 3 130; Enter 3 200; Leave 3 205]) = Val p
    /\ report p = [(8%nat, [(3%nat, 2, 35)])].
Proof. eexists. eexists. split; [lazy; reflexivity|]. split; [lazy; reflexivity|]. split; [lazy; reflexivity|]. lazy. reflexivity. Qed.

(** Leaving a section does not bring back the level from before it: the level is that of the section left, for every state and
    everything done inside. *)
Theorem C93_level_refuted (p q : prof) (l : Z) (s : nat) (body : list act) : balanced body ->
  act_all p (Push l s :: body ++ [Pop]) = Val q -> level q = l.
Proof.
  intros B R. cbn [act_all act_one bind] in R. rewrite act_app in R. destruct (act_all (push p l s) body) as [r| |] eqn:E; try discriminate.
  pose proof (balanced_keeps _ B _ _ E) as I. cbn [push infos] in I. cbn [bind act_all act_one] in R. unfold pop in R. rewrite I in R. cbn [bind] in R. now injection R as <-.
Qed.
Print Assumptions C93_level_refuted.
Example C93_level_applies : exists p q,
  act_all start_prof [Push 3 1%nat] = Val p /\ level p = 3
  /\ act_all p (Push 0 2%nat :: [SetLevel 1; Enter 5 10; Leave 5 11] ++ [Pop]) = Val q /\ level q = 0
  /\ balanced [SetLevel 1; Enter 5 10; Leave 5 11].
Proof.
  eexists. eexists. split; [lazy; reflexivity|]. split; [lazy; reflexivity|]. split; [lazy; reflexivity|]. split; [lazy; reflexivity|].
  repeat constructor.
Qed.

(** Closing a section that is not open ends the program. *)
Theorem C93_unmatched (body h : list act) (p : prof) : balanced body -> act_all start_prof body = Val p ->
  act_all start_prof (body ++ Pop :: h) = Abort.
Proof.
  intros B R. rewrite act_app, R. cbn [bind act_all act_one]. unfold pop. rewrite (balanced_keeps _ B _ _ R). reflexivity.
Qed.
Print Assumptions C93_unmatched.

(** After the profile has been printed, the first new expression met with a positive level ends the program. *)
Theorem C93_printed_refuted (h h' : list act) (p : prof) (e : nat) (now : Z) :
  act_all start_prof h = Val p -> times_entered e h = [] -> 0 < level p ->
  act_all start_prof (h ++ Print :: Enter e now :: h') = Abort.
Proof.
  intros R T L. rewrite act_app, R. cbn [bind act_all act_one]. unfold enter. cbn [print objs level].
  pose proof (objects _ _ R e) as O. destruct (objs p e); [destruct O; contradiction|]. apply Z.ltb_lt in L. rewrite L. reflexivity.
Qed.
Print Assumptions C93_printed_refuted.
Example C93_printed_applies : exists p, act_all start_prof [Push 1 0%nat; Enter 1 5; Leave 1 6] = Val p /\ times_entered 2 [Push 1 0%nat; Enter 1 5; Leave 1 6] = [] /\ 0 < level p.
Proof. eexists. split; [lazy; reflexivity|]. split; lazy; reflexivity. Qed.
