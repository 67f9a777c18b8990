(** C88: the command line and the life of the library. *)
From Coq Require Import List Bool Arith ZArith NArith String Lia.
From Verif Require Import Base NerscHeader XmlModel XmlSpec XmlProofs XmlOne StartModel StartSpec StartProofs.
Import ListNotations.
Local Open Scope nat_scope.
Local Notation length := List.length.

(** A command line made of parts in order is accepted, whatever program name is in front; each setting is what the last
    part about it says, and all other arguments are left alone. *)
Theorem C88_options {F} (scan_f : tok -> option F) eight nd profiling prog items :
  Forall (in_order (options_par profiling) nd) items -> ~ In (txt "-h") (prog :: List.concat (map words items)) ->
  command_line_par scan_f eight nd profiling (prog :: List.concat (map words items)) = Val (settings scan_f eight items).
Proof. apply line_items. apply step_par_good. Qed.
Theorem C88_options_one {F} (scan_f : tok -> option F) eight nd profiling prog items :
  Forall (in_order (options_one profiling) nd) items -> ~ In (txt "-h") (prog :: List.concat (map words items)) ->
  command_line_one scan_f eight profiling (prog :: List.concat (map words items)) = Val (settings scan_f eight items).
Proof. apply line_items. apply step_one_good. Qed.
(** -h, wherever it is and whatever else the line says, ends the program *)
Theorem C88_help {F} (scan_f : tok -> option F) eight nd profiling argv : In (txt "-h") argv ->
  command_line_par scan_f eight nd profiling argv = Abort /\ command_line_one scan_f eight profiling argv = Abort.
Proof. intros H. split; now apply line_help. Qed.
(** FALSE: a line that is not in order is reported. It never is: the outcome is undefined, in both builds. *)
Theorem C88_reported_refuted {F} (scan_f : tok -> option F) eight nd profiling prog args : ~ In (txt "-h") (prog :: args) ->
  ((forall items, Forall (in_order (options_par profiling) nd) items -> args <> List.concat (map words items)) ->
   command_line_par scan_f eight nd profiling (prog :: args) = Undef) /\
  ((forall items, Forall (in_order (options_one profiling) nd) items -> args <> List.concat (map words items)) ->
   command_line_one scan_f eight profiling (prog :: args) = Undef).
Proof. intros HN. split; intros H; eapply line_undef; eauto using step_par_good, step_one_good. Qed.
(** The message about a missing argument is never reached *)
Theorem C88_message_refuted {F} (scan_f : tok -> option F) eight nd profiling prog args : ~ In (txt "-h") (prog :: args) ->
  command_line_par scan_f eight nd profiling (prog :: args) <> Abort /\ command_line_one scan_f eight profiling (prog :: args) <> Abort.
Proof.
  intros HN. split; intros E.
  - destruct (parse_found scan_f nd _ _ (step_par_good scan_f nd profiling) (length (prog :: args)) (prog :: args) (defaults eight) 1) as [(items & HF & W)|U]; [apply Nat.le_sub_l| |].
    + cbn [skipn] in W. subst args. rewrite C88_options in E by assumption. discriminate.
    + unfold command_line_par, command_line in E. rewrite no_help in E by exact HN. discriminate (eq_trans (eq_sym U) E).
  - destruct (parse_found scan_f nd _ _ (step_one_good scan_f nd profiling) (length (prog :: args)) (prog :: args) (defaults eight) 1) as [(items & HF & W)|U]; [apply Nat.le_sub_l| |].
    + cbn [skipn] in W. subst args. rewrite (C88_options_one scan_f eight nd) in E by assumption. discriminate.
    + unfold command_line_one, command_line in E. rewrite no_help in E by exact HN. discriminate (eq_trans (eq_sym U) E).
Qed.
(** Options at the end of a line without all of their arguments, and options with a word instead of a number *)
Theorem C88_missing_refuted {F} (scan_f : tok -> option F) eight nd profiling prog items few :
  Forall (in_order (options_par profiling) nd) items -> ~ In (txt "-h") (prog :: List.concat (map words items) ++ few) ->
  ((few = [txt "-poolsize"] \/ few = [txt "-bind"] \/ (profiling = true /\ few = [txt "-p"])) \/
   (exists o l, (o = txt "-geom" \/ o = txt "-iogeom") /\ few = o :: l /\ length l < nd) \/
   (exists o w rest, ((profiling = true /\ o = txt "-p") \/ (0 < nd /\ (o = txt "-geom" \/ o = txt "-iogeom"))) /\ few = o :: w :: rest /\ forall z, ~ number w z)) ->
  command_line_par scan_f eight nd profiling (prog :: List.concat (map words items) ++ few) = Undef.
Proof.
  intros HF HN H. unfold command_line_par, command_line. rewrite no_help by exact HN.
  set (argv := prog :: List.concat (map words items) ++ few) in *.
  assert (G : forall items fuel c i, Forall (in_order (options_par profiling) nd) items -> skipn i argv = List.concat (map words items) ++ few ->
    length argv - i <= fuel -> parse (step_par scan_f nd profiling) fuel argv c i = Undef).
  { clearbody argv. clear HF items HN.
    assert (N0 : few <> []).
    { destruct H as [[->|[->|[_ ->]]]|[(o & l & _ & -> & _)|(o & w & r & _ & -> & _)]]; discriminate. }
    induction items as [|it items IH]; intros fuel c i HF S L.
    - cbn [map List.concat app] in S. destruct few as [|o l]; [congruence|]. pose proof (skipn_length i argv) as E. rewrite S in E. cbn [length] in E.
      destruct fuel as [|k]; [lia|]. cbn [parse]. destruct (Nat.ltb_spec i (length argv)); [|lia].
      assert (U : step_par scan_f nd profiling argv c i = Undef).
      { unfold step_par. rewrite (arg_at _ _ _ _ S). cbn [bind].
        assert (AN : l = [] -> arg argv (Datatypes.S i) = Undef) by (intros ->; now rewrite (arg_next _ _ _ _ S)).
        assert (IN : forall n argv i, int_at argv (Datatypes.S i) = Undef -> ints_at (Datatypes.S n) argv i = Undef) by (intros n a j X; cbn [ints_at]; now rewrite X).
        assert (SH : forall n argv i t r, skipn i argv = t :: r -> length r < n -> ints_at n argv i = Undef).
        { clear. induction n as [|n IH]; intros argv i t r S L; [lia|]. cbn [ints_at].
          destruct (int_at_found argv (Datatypes.S i)) as [(t' & r' & z & S' & NU)|U]; [|now rewrite U].
          rewrite (int_at_ok _ _ _ _ _ S' NU). cbn [bind]. rewrite (IH _ _ _ _ S'); [reflexivity|].
          rewrite (skip_next _ _ _ _ S) in S'. subst r. cbn [length] in L. lia. }
        destruct H as [[H|[H|[P H]]]|[(o' & l' & HO & H & HL)|(o' & w & r & HO & H & HW)]]; inversion H; subst.
        - change (same (txt "-poolsize") (txt "-V")) with false. change (same (txt "-poolsize") (txt "-p")) with false. rewrite andb_false_r, same_refl. now rewrite AN.
        - change (same (txt "-bind") (txt "-V")) with false. change (same (txt "-bind") (txt "-p")) with false. rewrite andb_false_r.
          change (same (txt "-bind") (txt "-poolsize")) with false. change (same (txt "-bind") (txt "-geom")) with false. change (same (txt "-bind") (txt "-iogeom")) with false.
          rewrite same_refl. now rewrite AN.
        - change (same (txt "-p") (txt "-V")) with false. rewrite same_refl. cbn [andb]. unfold int_at. now rewrite AN.
        - specialize (SH nd _ _ _ _ S HL). destruct HO as [->| ->].
          + change (same (txt "-geom") (txt "-V")) with false. change (same (txt "-geom") (txt "-p")) with false. rewrite andb_false_r.
            change (same (txt "-geom") (txt "-poolsize")) with false. rewrite same_refl. now rewrite SH.
          + change (same (txt "-iogeom") (txt "-V")) with false. change (same (txt "-iogeom") (txt "-p")) with false. rewrite andb_false_r.
            change (same (txt "-iogeom") (txt "-poolsize")) with false. change (same (txt "-iogeom") (txt "-geom")) with false. rewrite same_refl. now rewrite SH.
        - assert (IW : int_at argv (Datatypes.S i) = Undef).
          { destruct (int_at_found argv (Datatypes.S i)) as [(t' & r' & z & S' & NU)|U]; [|exact U].
            rewrite (skip_next _ _ _ _ S) in S'. inversion S'; subst. now destruct (HW z). }
          destruct HO as [[P ->]|[HD [->| ->]]].
          + change (same (txt "-p") (txt "-V")) with false. rewrite same_refl, P. cbn [andb]. now rewrite IW.
          + destruct nd as [|n]; [lia|]. change (same (txt "-geom") (txt "-V")) with false. change (same (txt "-geom") (txt "-p")) with false. rewrite andb_false_r.
            change (same (txt "-geom") (txt "-poolsize")) with false. rewrite same_refl. now rewrite IN.
          + destruct nd as [|n]; [lia|]. change (same (txt "-iogeom") (txt "-V")) with false. change (same (txt "-iogeom") (txt "-p")) with false. rewrite andb_false_r.
            change (same (txt "-iogeom") (txt "-poolsize")) with false. change (same (txt "-iogeom") (txt "-geom")) with false. rewrite same_refl. now rewrite IN. }
      rewrite U. reflexivity.
    - inversion HF as [|x y O HF']; subst. cbn [map List.concat] in S. rewrite <- app_assoc in S. pose proof (words_some scan_f it).
      pose proof (skipn_length i argv) as E. rewrite S, app_length in E. destruct fuel as [|k]; [lia|]. cbn [parse].
      destruct (Nat.ltb_spec i (length argv)); [|lia]. rewrite (proj1 (step_par_good scan_f nd profiling) _ _ c _ _ O S). cbn [bind].
      destruct (Nat.leb_spec (length argv) (i + length (words it) - 1)); [lia|]. apply IH; [assumption| |lia].
      replace (Datatypes.S (i + length (words it) - 1)) with (i + length (words it)) by lia. now apply skip_words. }
  apply (G items); [exact HF|reflexivity|lia].
Qed.
(** FALSE: a pool size that is not a number is reported. It is passed over in silence, with the argument. *)
Theorem C88_pool_refuted {F} (scan_f : tok -> option F) eight nd profiling prog t : scan_f t = None -> ~ In (txt "-h") [prog; t] ->
  command_line_par scan_f eight nd profiling [prog; txt "-poolsize"; t] = Val (defaults eight).
Proof.
  intros H HN. change [prog; txt "-poolsize"; t] with (prog :: List.concat (map words [Pool t])). rewrite C88_options.
  - unfold settings, latest. cbn [fold_left]. rewrite H. reflexivity.
  - constructor; [|constructor]. split; [|exact I]. unfold options_par. rewrite in_app_iff. cbn. auto.
  - cbn [words map List.concat app In] in *. intros [E|[E|[E|[]]]]; [apply HN; auto|discriminate|apply HN; auto].
Qed.

(** ** Life of the library *)
(** Started and stopped in turn, any number of times, the library works, and QDP_isInitialized tells whether it runs *)
Theorem C88_life h : alternating false h ->
  exists s s', run do_one h born = Val s /\ run do_par h born = Val s' /\
  is_initialized s = is_initialized s' /\ (is_initialized s = true <-> exists h0, h = h0 ++ [Start]).
Proof.
  assert (G : forall h b s, alternating b h -> inited s = b -> (b = true -> arrays s = Live) ->
    exists s', run do_one h s = Val s' /\ run do_par h s = Val s' /\
      (h = [] /\ s' = s \/ (exists h0, h = h0 ++ [Start] /\ s' = mkLife true Live) \/ exists h0, h = h0 ++ [Stop] /\ s' = mkLife false Freed)).
  { clear. induction h as [|o h IH]; intros b s H I A; [exists s; auto|]. destruct o; cbn [alternating] in H; [destruct H as [-> H]|destruct H as [-> H]|contradiction].
    - destruct (IH true (mkLife true Live) H eq_refl (fun _ => eq_refl)) as (s' & R1 & R2 & C). exists s'. cbn [run do_one do_par]. unfold init_one, init_par. rewrite I. cbn [bind].
      split; [exact R1|]. split; [exact R2|]. right. destruct C as [[-> ->]|[(h0 & -> & ->)|(h0 & -> & ->)]].
      + left. now exists [].
      + left. now exists (Start :: h0).
      + right. now exists (Start :: h0).
    - destruct (IH false (mkLife false Freed) H eq_refl) as (s' & R1 & R2 & C); [discriminate|]. exists s'. cbn [run do_one do_par]. unfold finalize_one, finalize_par. rewrite I, (A eq_refl). cbn [bind delete negb].
      split; [exact R1|]. split; [exact R2|]. right. destruct C as [[-> ->]|[(h0 & -> & ->)|(h0 & -> & ->)]].
      + right. now exists [].
      + left. now exists (Stop :: h0).
      + right. now exists (Stop :: h0). }
  intros H. destruct (G h false born H eq_refl) as (s & R1 & R2 & C); [discriminate|]. exists s, s. split; [exact R1|]. split; [exact R2|]. split; [reflexivity|].
  destruct C as [[-> ->]|[(h0 & -> & ->)|(h0 & -> & ->)]].
  - split; [discriminate|]. intros (h0 & E). destruct h0; discriminate.
  - split; [intros _; now exists h0|reflexivity].
  - split; [discriminate|]. intros (h1 & E). apply app_inj_tail in E. destruct E as [_ E]. discriminate.
Qed.
Lemma run_app d h1 : forall h2 s, run d (h1 ++ h2) s = bind (run d h1 s) (run d h2).
Proof. induction h1 as [|o h IH]; intros h2 s; [reflexivity|]. cbn [app run]. destruct (d o s); cbn [bind]; auto. Qed.
(** Starting a library that runs ends the program, in both builds *)
Theorem C88_start_twice h h' : alternating false (h ++ [Start]) ->
  run do_one (h ++ [Start; Start] ++ h') born = Abort /\ run do_par (h ++ [Start; Start] ++ h') born = Abort.
Proof.
  intros H.
  assert (G : forall h b s, alternating b (h ++ [Start]) -> inited s = b -> (b = true -> arrays s = Live) ->
    run do_one (h ++ [Start; Start] ++ h') s = Abort /\ run do_par (h ++ [Start; Start] ++ h') s = Abort).
  { clear. induction h as [|o h IH]; intros b s H I A.
    - destruct H as [-> _]. cbn [app run do_one do_par]. unfold init_one, init_par. rewrite I. split; reflexivity.
    - destruct o; cbn [app alternating] in H; [destruct H as [-> H]|destruct H as [-> H]|contradiction].
      + cbn [app run do_one do_par]. unfold init_one, init_par. rewrite I. cbn [bind]. exact (IH true (mkLife true Live) H eq_refl (fun _ => eq_refl)).
      + cbn [app run do_one do_par]. unfold finalize_one, finalize_par. rewrite I, (A eq_refl). cbn [bind delete negb]. apply (IH false (mkLife false Freed) H eq_refl). discriminate. }
  apply (G h false born H eq_refl). discriminate.
Qed.
(** In the parallel build no history of calls is undefined: what is wrong ends the program *)
Theorem C88_parallel_safe h : run do_par h born <> Undef.
Proof.
  assert (G : forall h s, (inited s = true -> arrays s = Live) -> run do_par h s <> Undef).
  { clear. induction h as [|o h IH]; intros s A; [discriminate|]. cbn [run]. destruct o; cbn [do_par].
    - unfold init_par. destruct (inited s); [discriminate|]. apply IH. reflexivity.
    - unfold finalize_par. destruct (inited s); [|discriminate]. rewrite (A eq_refl). cbn [negb delete bind]. apply IH. discriminate.
    - discriminate. }
  apply G. discriminate.
Qed.
(** FALSE in the build for one node: stopping a library that has been stopped, or QDP_abort after QDP_finalize, deletes
    the arrays a second time. Without any start before it nothing happens. *)
Theorem C88_stop_twice_refuted h o h' : alternating false (h ++ [Start; Stop]) -> o = Stop \/ o = Panic ->
  run do_one (h ++ [Start; Stop; o] ++ h') born = Undef /\ run do_par (h ++ [Start; Stop; o] ++ h') born = Abort.
Proof.
  intros H HO.
  assert (G : forall h b s, alternating b (h ++ [Start; Stop]) -> inited s = b -> (b = true -> arrays s = Live) ->
    run do_one (h ++ [Start; Stop; o] ++ h') s = Undef /\ run do_par (h ++ [Start; Stop; o] ++ h') s = Abort).
  { clear H. clear h. induction h as [|o' h IH]; intros b s H I A.
    - destruct H as [-> _]. cbn [app run do_one do_par]. unfold init_one, init_par. rewrite I. destruct HO as [->| ->]; split; reflexivity.
    - destruct o'; cbn [app alternating] in H; [destruct H as [-> H]|destruct H as [-> H]|contradiction].
      + cbn [app run do_one do_par]. unfold init_one, init_par. rewrite I. cbn [bind]. exact (IH true (mkLife true Live) H eq_refl (fun _ => eq_refl)).
      + cbn [app run do_one do_par]. unfold finalize_one, finalize_par. rewrite I, (A eq_refl). cbn [bind delete negb]. apply (IH false (mkLife false Freed) H eq_refl). discriminate. }
  apply (G h false born H eq_refl). discriminate.
Qed.

(** ** Examples *)
Definition gb (t : tok) : option N := match scan_dec t with Val (Some (z, _)) => Some (Z.to_N z) | _ => None end.
Lemma digits_number s : dec_digits s -> (Z.of_N (dec_value s) < 2 ^ 31)%Z -> number s (Z.of_N (dec_value s)).
Proof.
  intros D L. split; [unfold is_int; split; [|exact L]; pose proof (N2Z.is_nonneg (dec_value s)); lia|]. exists [], [], s, false, (dec_value s).
  split; [now rewrite app_nil_r|]. split; [constructor|]. split; [now constructor|]. split; [reflexivity|discriminate].
Qed.
Definition line : list item :=
  [Other (txt "-i"); Other (txt "in.xml"); Geom [(txt "1", 1%Z); (txt "2", 2%Z)]; Verbose; Pool (txt "12"); Geom [(txt "4", 4%Z); (txt "8", 8%Z)]; Bind (txt "16:4") (Some 16%Z) (Some 4%Z); Pool (txt "much")].
Example C88_example_ok : Forall (in_order (options_par false) 2) line /\ ~ In (txt "-h") (txt "prog" :: List.concat (map words line)).
Proof.
  assert (D : forall c, (48 <= c <= 57)%N -> number [c] (Z.of_N (c - 48))).
  { intros c H. replace (c - 48)%N with (dec_value [c]) by (unfold dec_value; cbn [fold_left]; lia). apply digits_number; [split; [discriminate|constructor; [exact H|constructor]]|].
    change (dec_value [c]) with (10 * 0 + (c - 48))%N. lia. }
  assert (B : begins (txt "16:4") 16 (txt ":4")).
  { exists [], (txt "16"), false, 16%N. split; [reflexivity|]. split; [constructor|]. split; [apply (num_plain (txt "16")); split; [discriminate|repeat constructor; cbn; lia]|].
    split; [reflexivity|]. intros c r E. inversion E; subst. lia. }
  split.
  - constructor; [split; [|exact I]; intros H; cbn in H; intuition discriminate|]. constructor; [split; [|exact I]; intros H; cbn in H; intuition discriminate|].
    constructor; [split; [cbn; auto|split; [reflexivity|constructor; [apply (D 49%N); lia|constructor; [apply (D 50%N); lia|constructor]]]]|].
    constructor; [split; [cbn; auto|exact I]|]. constructor; [split; [cbn; auto|exact I]|].
    constructor; [split; [cbn; auto|split; [reflexivity|constructor; [apply (D 52%N); lia|constructor; [apply (D 56%N); lia|constructor]]]]|].
    constructor; [split; [cbn; auto 6|]|].
    { apply pair_both with (txt "4"); [unfold is_int; lia|exact B|apply (D 52%N); lia]. }
    constructor; [split; [cbn; auto|exact I]|constructor].
  - cbn. intuition discriminate.
Qed.
Example C88_example : command_line_par gb 8%N 2 false (txt "prog" :: List.concat (map words line))
  = Val (mkConfig true None 12%N (Some [4%Z; 8%Z]) None true 16%Z 4%Z).
Proof. exact (eq_trans (C88_options gb 8%N 2 false (txt "prog") line (proj1 C88_example_ok) (proj2 C88_example_ok)) eq_refl). Qed.
Example C88_example_short : command_line_par gb 8%N 4 false [txt "prog"; txt "-geom"; txt "2"; txt "2"] = Undef /\
  command_line_par gb 8%N 2 false [txt "prog"; txt "-geom"; txt "2"; txt "-V"] = Undef /\ command_line_one gb 8%N true [txt "prog"; txt "-p"] = Undef.
Proof. split; [|split]; reflexivity. Qed.
Example C88_life_example : alternating false [Start; Stop; Start; Stop] /\ run do_one [Start; Stop; Start; Stop; Panic] born = Undef.
Proof. repeat split. Qed.

Print Assumptions C88_options.
Print Assumptions C88_options_one.
Print Assumptions C88_help.
Print Assumptions C88_reported_refuted.
Print Assumptions C88_message_refuted.
Print Assumptions C88_missing_refuted.
Print Assumptions C88_pool_refuted.
Print Assumptions C88_life.
Print Assumptions C88_start_twice.
Print Assumptions C88_parallel_safe.
Print Assumptions C88_stop_twice_refuted.
