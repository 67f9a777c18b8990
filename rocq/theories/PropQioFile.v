From Coq Require Import List Bool Arith NArith Lia.
From Verif Require Import QioFileSpec QioFileModel QioFileProofs QioFileLost.
Import ListNotations.

(** C101: the files of QDPFileReader and QDPFileWriter. *)
Section Prop101.
  Context {H D : Type}.

  (** Every careful program sees what the specification says, leaves the disk as it says, also
      when it is stopped by an error, and QIO has nothing open when all objects are closed. *)
  Theorem C101_follows : forall excl (d : nat -> option (content H D)) l,
    careful excl (start d) l = true ->
    match spec_run excl (start d) l, run excl (world0 d) l with
    | SDone s xs, Done w ys => ys = xs /\ (forall p, disk w p = s_disk s p) /\
                               (all_closed s -> forall st, In st (hs w) -> st = HGone)
    | SStopped s xs, Stopped w ys => ys = xs /\ (forall p, disk w p = s_disk s p)
    | _, _ => False
    end.
  Proof.
    intros excl d l C. pose proof (run_follows excl l _ _ (agrees_start d) C) as R.
    destruct (spec_run excl (start d) l) as [s xs|s xs], (run excl (world0 d) l) as [w ys|w ys|]; try contradiction.
    - destruct R as [-> G]. split; [reflexivity|]. split; [intro p; rewrite (ag_disk _ _ G); reflexivity|].
      intros A st I. apply In_nth_error in I. destruct I as [h N]. apply (agrees_closed _ _ G A h st N).
    - destruct R as [-> G]. split; [reflexivity|]. intro p. rewrite (ag_disk _ _ G). reflexivity.
  Qed.

  Lemma careful_copies : forall excl l (s s' : state H D) xs,
    careful excl s l = true -> spec_run excl s l = SDone s' xs -> forallb (fun x => negb (copies x)) l = true.
  Proof.
    induction l as [|x l IH]; intros s s' xs C S; [reflexivity|]. cbn in C, S.
    apply andb_prop in C. destruct C as [C1 C2].
    destruct (spec_step excl s x) as [s1 y|s1]; [|discriminate].
    destruct (spec_run excl s1 l) as [s2 ys|s2 ys] eqn:R; [|discriminate].
    cbn. rewrite (IH _ _ _ C2 R), andb_true_r. destruct x; try reflexivity. discriminate.
  Qed.

  (** FALSE of programs that are not careful.  Opening a writer that is open: the first file
      is never finished, whatever the program does afterwards. *)
  Theorem C101_reopen : forall excl (d : nat -> option (content H D)) l s xs o a p rs q m l',
    careful excl (start d) l = true -> spec_run excl (start d) l = SDone s xs ->
    the s o = Some a -> s_file a = Some (Wr p rs) ->
    match run excl (world0 d) (l ++ OpenWrite o q m :: l') with
    | Done w _ => disk w p = Some Unfinished
    | Stopped w _ => disk w p = Some Unfinished
    | NoMeaning => True
    end.
  Proof.
    intros excl d l s xs o a p rs q m l' C S T F.
    pose proof (run_follows excl l _ _ (agrees_start d) C) as R. rewrite S in R.
    pose proof (careful_copies _ _ _ _ _ C S) as Nc.
    rewrite run_app. pose proof (run_tidy excl l _ (world0_tidy d)) as Ti. pose proof (run_apart excl l _ Nc (world0_apart d)) as Ap.
    destruct (run excl (world0 d) l) as [w ys|w ys|]; try contradiction. destruct R as [_ G].
    destruct (the_some _ _ _ _ G T) as (b & E & Eo & Es & [K St]). rewrite F in St.
    destruct St as (_ & _ & (h & Hh & N) & _). cbn [h_of] in N.
    assert (W : writes w h p) by (exists rs; exact N).
    cbn [run]. destruct (step excl w (OpenWrite o q m)) as [w' y|w'|] eqn:X; [| |exact I].
    - pose proof (step_moves excl w (OpenWrite o q m)) as M. rewrite X in M.
      pose proof (run_forgotten excl l' w' h p (moves_tidy _ _ M Ti)
        (reopen_forgets excl w o b h p _ w' y (ex_intro _ q (ex_intro _ m eq_refl)) Ap Eo Hh W X)) as Z.
      destruct (run excl w' l'); exact Z.
    - pose proof (step_moves excl w (OpenWrite o q m)) as M. rewrite X in M. subst w'. apply (proj1 Ti _ _ W).
  Qed.

  (** while (!in.eof()) in.read(...): eof() is always false, the program is stopped behind the
      last record of every file. *)
  Definition loop (n : nat) : list (op H D) := concat (repeat [Eof 0; Read 0] n).
  Theorem C101_eof_refuted : forall excl (d : nat -> option (content H D)) p rs n,
    d p = Some (Whole rs) -> length rs < n ->
    match run excl (world0 d) (Make Reader :: OpenRead 0 p :: loop n) with
    | Stopped w xs => xs = Nothing :: Nothing :: flat_map (fun r => [Bool false; GotRecord r]) rs ++ [Bool false]
    | _ => False
    end.
  Proof.
    intros excl d p rs n E L. cbn [run step objs world0 obj_at app nth_error disk o_kind]. rewrite E.
    cbn [put opened length hs world0 app o_kind].
    assert (X : forall rs n, length rs < n ->
      match run excl {| disk := d; hs := [HRead p rs];
                        objs := [Some {| o_kind := Reader; o_state := Some goodbit; o_iop := true; o_h := Some 0 |}] |} (loop n) with
      | Stopped w xs => xs = flat_map (fun r => [Bool false; GotRecord r]) rs ++ [Bool false]
      | _ => False
      end).
    { clear. induction rs as [|r rs IH]; intros [|n] L; cbn in L; try lia.
      - reflexivity.
      - specialize (IH n ltac:(lia)). unfold loop in *. cbn [repeat concat app run step objs obj_at nth_error o_kind handle_at o_h hs].
        cbn [put disk]. destruct (run excl _ _) as [w xs|w xs|]; try contradiction. rewrite IH. reflexivity. }
    specialize (X rs n L). unfold opened in *. cbn [o_kind] in *.
    destruct (run excl _ (loop n)) as [w xs|w xs|]; try contradiction. rewrite X. reflexivity.
  Qed.

  (** The specification lets the loop end: eof() is true behind the last record. *)
  Theorem C101_eof_expected : forall excl (d : nat -> option (content H D)) p rs,
    d p = Some (Whole rs) ->
    match spec_run excl (start d) (Make Reader :: OpenRead 0 p :: loop (length rs) ++ [Eof 0]) with
    | SDone s xs => xs = Nothing :: Nothing :: flat_map (fun r => [Bool false; GotRecord r]) rs ++ [Bool true]
    | _ => False
    end.
  Proof.
    intros excl d p rs E. cbn [spec_run spec_step start the s_objs app nth_error closed_disk s_file s_disk]. rewrite E.
    cbn [put s_kind].
    assert (X : forall rs, match spec_run excl {| s_disk := d; s_objs := [Some {| s_kind := Reader; s_file := Some (Rd p rs); s_bad := false |}] |}
        (loop (length rs) ++ [Eof 0]) with
      | SDone s xs => xs = flat_map (fun r => [Bool false; GotRecord r]) rs ++ [Bool true]
      | _ => False
      end).
    { clear. induction rs as [|r rs IH]; [reflexivity|].
      unfold loop in *. cbn [length repeat concat app spec_run spec_step the s_objs nth_error s_file with_obj with_file put s_kind s_bad s_disk].
      destruct (spec_run excl _ _) as [s xs|s xs]; try contradiction. rewrite IH. reflexivity. }
    specialize (X rs). destruct (spec_run excl _ (loop (length rs) ++ [Eof 0])) as [s xs|s xs]; try contradiction.
    rewrite X. reflexivity.
  Qed.
End Prop101.

(** ** Witnesses *)
Definition tape (p : nat) : option (content nat nat) := if p =? 1 then Some (Whole [(10, 11); (20, 21)]) else None.

(** The file opened first is lost; the specification finishes it. *)
Definition reopening : list (op nat nat) :=
  [Make Writer; OpenWrite 0 2 Truncate; Write 0 (5, 6) true; OpenWrite 0 3 Truncate; Close 0 true; Destroy 0 true].
Theorem C101_reopen_refuted :
  match spec_run true (start tape) reopening, run true (world0 tape) reopening with
  | SDone s _, Done w _ => s_disk s 2 = Some (Whole [(5, 6)]) /\ disk w 2 = Some Unfinished /\
                           exists st, In st (hs w) /\ st <> HGone
  | _, _ => False
  end.
Proof. split; [reflexivity|]. split; [reflexivity|]. exists (HWrite 2 [(5, 6)]). split; [left; reflexivity|discriminate]. Qed.

(** Reading from a closed reader, writing to a writer that was never opened: the
    specification stops the program, the code uses a pointer that has no value. *)
Theorem C101_closed_refuted :
  run true (world0 tape) [Make Reader; OpenRead 0 1; Close 0 true; Read 0] = NoMeaning /\
  run true (world0 tape) [Make Writer; Write 0 (5, 6) true] = NoMeaning /\
  match spec_run true (start tape) [Make Reader; OpenRead 0 1; Close 0 true; Read 0] with
  | SStopped _ xs => xs = [Nothing; Nothing; Nothing] | SDone _ _ => False end /\
  match spec_run true (start tape) [Make Writer; Write 0 (5, 6) true] with
  | SStopped _ xs => xs = [Nothing] | SDone _ _ => False end.
Proof. repeat split. Qed.

(** bad() of a new object is not defined; of an object that was closed without any error it
    is true. *)
Theorem C101_bad_refuted :
  run true (world0 tape) [Make Reader; Bad 0] = NoMeaning /\
  match spec_run true (start tape) [Make Reader; Bad 0] with
  | SDone _ xs => xs = [Nothing; Bool false] | _ => False end /\
  match run true (world0 tape) [Make Reader; OpenRead 0 1; Read 0; Close 0 true; Bad 0] with
  | Done _ xs => xs = [Nothing; Nothing; GotRecord (10, 11); Nothing; Bool true] | _ => False end /\
  match spec_run true (start tape) [Make Reader; OpenRead 0 1; Read 0; Close 0 true; Bad 0] with
  | SDone _ xs => xs = [Nothing; Nothing; GotRecord (10, 11); Nothing; Bool false] | _ => False end.
Proof. repeat split. Qed.

(** A close that fails is not reported: the program sees the same as when it succeeds, but
    the file is not finished. *)
Definition closing (ok : bool) : list (op nat nat) :=
  [Make Writer; OpenWrite 0 2 Truncate; Write 0 (5, 6) true; Close 0 ok; IsOpen 0; Bad 0; Destroy 0 true].
Theorem C101_close_refuted :
  match run true (world0 tape) (closing true), run true (world0 tape) (closing false) with
  | Done w xs, Done w' xs' => xs' = xs /\ disk w 2 = Some (Whole [(5, 6)]) /\ disk w' 2 = Some Unfinished
  | _, _ => False
  end.
Proof. repeat split. Qed.

(** Two copies close one file twice. *)
Theorem C101_copy_refuted :
  run true (world0 tape) [Make Reader; OpenRead 0 1; Copy 0; Destroy 1 true; Destroy 0 true] = NoMeaning.
Proof. reflexivity. Qed.

(** ** Careful programs exist *)
Definition careful_program : list (op nat nat) :=
  [Make Writer; OpenWrite 0 2 Create; Write 0 (5, 6) true; IsOpen 0; Bad 0; Close 0 true;
   OpenWrite 0 2 Append; Write 0 (7, 8) true; Destroy 0 true;
   Make Reader; Make Reader; OpenRead 1 2; OpenRead 2 2; Header 1; Header 1; Read 1; Eof 1; Read 2; Read 1; IsOpen 1;
   Destroy 1 true; Close 2 true; OpenRead 2 1; Read 2; Close 2 true; Destroy 2 true].
Example C101_careful :
  careful true (start tape) careful_program = true /\
  match run true (world0 tape) careful_program with
  | Done w xs => disk w 2 = Some (Whole [(5, 6); (7, 8)]) /\
      xs = [Nothing; Nothing; Nothing; Bool true; Bool false; Nothing; Nothing; Nothing; Nothing;
            Nothing; Nothing; Nothing; Nothing; GotHeader 5; GotHeader 5; GotRecord (5, 6); Bool false;
            GotRecord (5, 6); GotRecord (7, 8); Bool true; Nothing; Nothing; Nothing; GotRecord (10, 11); Nothing; Nothing]
  | _ => False
  end.
Proof. vm_compute. auto. Qed.

(** A careful program that is stopped: two records are written, the disk is full. *)
Example C101_careful_stop :
  let l := [Make Writer; OpenWrite 0 2 Truncate; Write 0 (5, 6) true; Write 0 (7, 8) false] in
  careful true (start tape) l = true /\
  match run true (world0 tape) l with
  | Stopped w xs => xs = [Nothing; Nothing; Nothing] /\ disk w 2 = Some Unfinished
  | _ => False
  end.
Proof. repeat split. Qed.

(** The hypotheses of C101_reopen. *)
Example C101_reopen_case :
  careful true (start tape) [Make Writer; OpenWrite 0 2 Truncate; Write 0 (5, 6) true] = true /\
  match spec_run true (start tape) [Make Writer; OpenWrite 0 2 Truncate; Write 0 (5, 6) true] with
  | SDone s _ => exists a, the s 0 = Some a /\ s_file a = Some (Wr 2 [(5, 6)])
  | _ => False
  end.
Proof. split; [reflexivity|]. eexists. split; reflexivity. Qed.

Print Assumptions C101_follows.
Print Assumptions C101_reopen.
Print Assumptions C101_eof_refuted.
Print Assumptions C101_eof_expected.
Print Assumptions C101_reopen_refuted.
Print Assumptions C101_closed_refuted.
Print Assumptions C101_bad_refuted.
Print Assumptions C101_close_refuted.
Print Assumptions C101_copy_refuted.
