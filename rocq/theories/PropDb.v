(** C96: the key-value database on several nodes. *)
From Coq Require Import List ZArith Bool Arith Lia.
From Verif Require Import DbModel DbSpec DbProofs.
Import ListNotations.

Section Prop96.
Context {Arg P St : Type} (back : method -> Arg -> St -> St * reply P).
Notation execV := (exec Arg P St back).
Notation aloneV := (alone Arg P St back).
Notation call := (call Arg P).
Notation c_meth := (c_meth Arg P).
Notation c_arg := (c_arg Arg P).
Notation c_old := (c_old Arg P).
Notation got_ret := (got_ret P).
Notation got_val := (got_val P).

(** ** Programs that do not fetch contents *)
(** Whatever the database library does: a program run on any number of nodes leaves the database in the state in which one
    process leaves it (so it gets the same calls in the same order, once each), and ends on every node with the value with
    which it ends for one process, as long as it does not fetch contents by key. *)
Theorem C96_nodes {A} (p : prog Arg P A) n s : (forall m, In m (called Arg P St back p s) -> ~ In m fetching) ->
  run Arg P St back p (repeat p n) s =
  match alone_run Arg P St back p s with Fine s' a => Fine s' (a, repeat a n) | Stop s' => Stop s' | Undefined => Undefined end.
Proof.
  intros H. apply run_repeat. intros m I. left. unfold is_in. destruct (in_dec method_dec m fetching) as [F|F]; [|reflexivity]. now destruct (H m I).
Qed.
(** On one node also those that do, but for binaryKeysAndData. *)
Theorem C96_one {A} (p : prog Arg P A) s : ~ In MBinaryKeysAndData (called Arg P St back p s) ->
  run Arg P St back p [] s =
  match alone_run Arg P St back p s with Fine s' a => Fine s' (a, []) | Stop s' => Stop s' | Undefined => Undefined end.
Proof.
  intros H. apply (run_repeat Arg P St back p 0). intros m I. right. split; [reflexivity|]. now intros ->.
Qed.
(** The arguments of the other nodes do not matter, and all nodes get what the primary gets. *)
Theorem C96_arguments c others s : (forall d, In d others -> c_meth d = c_meth c) -> ~ In (c_meth c) fetching ->
  match aloneV c s with
  | Fine s' r => exists rs, execV c others s = Fine s' (r, rs) /\ List.length rs = List.length others /\
      forall i d x, nth_error others i = Some d -> nth_error rs i = Some x ->
        got_ret x = got_ret r /\ got_val x = if is_in (c_meth c) filling then got_val r else c_old d
  | Stop s' => execV c others s = Stop s'
  | Undefined => False
  end.
Proof.
  intros S F. assert (K : forallb (fun d => alike (body (c_meth c)) (body (c_meth d))) others = true).
  { apply forallb_forall. intros d I. rewrite (S d I). apply alike_refl. }
  unfold exec. rewrite K. unfold alone. destruct (c_meth c) eqn:M; try (exfalso; apply F; cbn; tauto); cbn [body execs exec1]; rewrite M;
    destruct (back _ (c_arg c) s) as [s' r]; cbn [execs exec1 e_ret e_val]; rewrite ?map_map; cbn [e_ret e_val];
    repeat match goal with |- context [is_in ?m ?l] => let b := eval vm_compute in (is_in m l) in change (is_in m l) with b end; cbn [andb];
    try (match goal with |- context [forallb ?f (?e :: map ?g others)] =>
      assert (Q : forallb f (e :: map g others) = Z.eqb (r_ret P r) 0)
        by (cbn; destruct (Z.eqb (r_ret P r) 0) eqn:Z0; [cbn; apply forallb_forall; intros e' I'; apply in_map_iff in I'; destruct I' as (d & <- & _); exact Z0|reflexivity]); rewrite Q end;
      destruct (Z.eqb (r_ret P r) 0); cbn [negb]; [|reflexivity]); cbn [execs exec1]; rewrite ?map_map; cbn [e_ret e_val].
  all: unfold leave at 1; rewrite M; cbn [returns_ret fills e_ret e_val got_val got_ret].
  all: eexists; split; [reflexivity|]; split; [rewrite map_length, combine_length, map_length; apply Nat.min_id|].
  all: intros i d x D X; rewrite nth_error_map in X; assert (Dm : c_meth d = c_meth c) by (rewrite M; apply S; now apply nth_error_In in D).
  all: match type of X with context [nth_error (combine _ (map ?g _)) _] =>
      assert (N : nth_error (combine others (map g others)) i = Some (d, g d))
        by (clear -D; revert i D; induction others as [|o l IH]; intros [|i] D; cbn in *; try discriminate; [now injection D as ->|now apply IH]); rewrite N in X end.
  all: cbn [option_map fst snd] in X; injection X as <-; unfold leave; rewrite Dm, M; cbn; auto.
Qed.

(** ** Contents *)
(** FALSE: data can be fetched on several nodes. The program ends. *)
Theorem C96_fetch_refuted c d others s : c_meth d = c_meth c -> (forall d', In d' others -> c_meth d' = c_meth c) -> In (c_meth c) fetching ->
  execV c (d :: others) s = Stop (fst (back (c_meth c) (c_arg c) s)).
Proof.
  intros D S F. unfold exec. assert (K : forallb (fun e => alike (body (c_meth c)) (body (c_meth e))) (d :: others) = true).
  { apply forallb_forall. intros e [<- |I]; [rewrite D|rewrite (S e I)]; apply alike_refl. }
  rewrite K. cbn in F. destruct F as [E|[E|[E|[E|[E|[]]]]]]; rewrite <- E; cbn [body execs exec1]; rewrite <- E; destruct (back _ (c_arg c) s); reflexivity.
Qed.
(** FALSE: binaryKeysAndData gives the keys and data, at least on one node. The vectors of the caller stay as they were,
    whatever is in the database. *)
Theorem C96_binary_refuted c s : c_meth c = MBinaryKeysAndData ->
  execV c [] s = Fine (fst (back MBinaryKeysAndData (c_arg c) s)) (mkResult None (c_old c), []).
Proof. intros M. unfold exec. rewrite M. cbn [forallb body execs exec1 map]. rewrite M. destruct (back _ (c_arg c) s) as [s' r]. unfold leave. cbn. rewrite M. reflexivity. Qed.

(** ** The life of a database object *)
(** From construction to destruction the library gets the two settings, the calls of the user, and a close. *)
Theorem C96_life {A} cache one none old (use : prog Arg P A) s :
  let s1 := fst (back MSetMaxNumberConfigs one (fst (back MSetCacheSize cache s))) in
  alone_run Arg P St back (life Arg P cache one none old use) s =
  match alone_run Arg P St back use s1 with
  | Fine s2 a => let (s3, r) := back MClose none s2 in if Z.eqb (r_ret P r) 0 then Fine s3 a else Stop s3
  | Stop s2 => Stop s2
  | Undefined => Undefined
  end.
Proof.
  cbn zeta. unfold life. cbn [alone_run]. unfold alone at 1. cbn [DbModel.c_meth DbModel.c_arg]. destruct (back MSetCacheSize cache s) as [s0 r0]. cbn [fst].
  change (is_in MSetCacheSize must_succeed) with false. cbn [andb]. unfold alone at 1. cbn [DbModel.c_meth DbModel.c_arg]. destruct (back MSetMaxNumberConfigs one s0) as [s1 r1]. cbn [fst].
  change (is_in MSetMaxNumberConfigs must_succeed) with false. cbn [andb]. rewrite run_bind.
  destruct (alone_run Arg P St back use s1) as [s2 a|s2|]; [|reflexivity|reflexivity]. cbn [alone_run]. unfold alone. cbn [DbModel.c_meth DbModel.c_arg].
  destruct (back MClose none s2) as [s3 r3]. change (is_in MClose must_succeed) with true. cbn [andb]. now destruct (Z.eqb (r_ret P r3) 0).
Qed.
(** A database that is not open when its object is destroyed is closed all the same - one never opened, or already closed by
    the user: if the library refuses that, the program ends there. *)
Theorem C96_close_again {A} cache one none old (use : prog Arg P A) (isopen : St -> bool) s n :
  (forall a t, isopen t = false -> r_ret P (snd (back MClose a t)) <> 0%Z) ->
  (forall m, In m (called Arg P St back (life Arg P cache one none old use) s) -> ~ In m fetching) ->
  (forall s2 a, alone_run Arg P St back use (fst (back MSetMaxNumberConfigs one (fst (back MSetCacheSize cache s)))) = Fine s2 a -> isopen s2 = false) ->
  exists s', run Arg P St back (life Arg P cache one none old use) (repeat (life Arg P cache one none old use) n) s = Stop s'.
Proof.
  intros R F O. rewrite C96_nodes by exact F. rewrite C96_life. cbn zeta.
  destruct (alone_run Arg P St back use _) as [s2 a|s2|] eqn:E; [|now exists s2|now apply alone_defined in E].
  specialize (R none s2 (O _ _ eq_refl)). destruct (back MClose none s2) as [s3 r]. cbn in R.
  destruct (Z.eqb_spec (r_ret P r) 0); [contradiction|]. now exists s3.
Qed.
End Prop96.

(** ** A database *)
(** Keys and data are numbers; it must be open, and inserting a key again replaces its data. *)
Record mem := mkMem { m_open : bool; m_user : nat; m_data : list (nat * nat) }.
Definition lib (m : method) (a : nat * nat) (s : mem) : mem * reply (list nat) :=
  match m with
  | MOpen => (mkMem true (m_user s) (m_data s), mkReply 0 None)
  | MClose => (mkMem false (m_user s) (m_data s), mkReply (if m_open s then 0 else -1) None)
  | MInsert => if m_open s then (mkMem true (m_user s) (a :: m_data s), mkReply 0 None) else (s, mkReply (-1) None)
  | MExist => (s, mkReply (if existsb (fun e => Nat.eqb (fst e) (fst a)) (m_data s) then 1 else 0) None)
  | MGet => match find (fun e => Nat.eqb (fst e) (fst a)) (m_data s) with
            | Some e => (s, mkReply 0 (Some [snd e]))
            | None => (s, mkReply (-1) None)
            end
  | MKeys => (s, mkReply 0 (Some (map fst (m_data s))))
  | MBinaryKeysAndData => (s, mkReply 0 (Some (map snd (m_data s))))
  | MInsertUserdata => (mkMem (m_open s) (fst a) (m_data s), mkReply 0 None)
  | MGetUserdata => (s, mkReply 0 (Some [m_user s]))
  | _ => (s, mkReply 0 None)
  end.
Notation prog96 := (prog (nat * nat) (list nat)).
Definition do (m : method) (a b : nat) {A} (k : result (list nat) -> prog96 A) : prog96 A := Do (mkCall m (a, b) []) k.
(** Open, insert two pairs, ask for one key, keep user data and read them. *)
Definition session : prog96 (option Z * list nat) :=
  do MOpen 0 0 (fun _ => do MInsert 7 70 (fun _ => do MInsert 8 80 (fun _ => do MExist 7 0 (fun e =>
  do MInsertUserdata 5 0 (fun _ => do MGetUserdata 0 0 (fun u => Ret (got_ret _ e, got_val _ u))))))).
Definition whole : prog96 (option Z * list nat) := life _ _ (50, 0) (1, 0) (0, 0) [] session.
Definition run96 {A} (p : prog96 A) n := run _ _ _ lib p (repeat p n) (mkMem false 0 []).
Example C96_case_nodes : (forall m, In m (called _ _ _ lib whole (mkMem false 0 [])) -> ~ In m fetching) /\
  run96 whole 3 = Fine (mkMem false 5 [(8, 80); (7, 70)]) ((Some 1%Z, [5]), repeat (Some 1%Z, [5]) 3).
Proof.
  split; [|reflexivity]. vm_compute. intros m H F. repeat (destruct H as [<- |H]; [repeat (destruct F as [F|F]; [discriminate F|]); destruct F|]). destruct H.
Qed.
(** Fetching: on one node, and on two. *)
Definition fetch : prog96 (option Z * list nat) := do MOpen 0 0 (fun _ => do MInsert 7 70 (fun _ => do MGet 7 0 (fun e => Ret (got_ret _ e, got_val _ e)))).
Example C96_case_fetch : run96 fetch 0 = Fine (mkMem true 0 [(7, 70)]) ((Some 0%Z, [70]), []) /\ run96 fetch 1 = Stop (mkMem true 0 [(7, 70)]).
Proof. split; reflexivity. Qed.
Example C96_case_binary : run96 (do MOpen 0 0 (fun _ => do MInsert 7 70 (fun _ => do MBinaryKeysAndData 0 0 (fun e => Ret (got_val _ e))))) 0
  = Fine (mkMem true 0 [(7, 70)]) ([], []).
Proof. reflexivity. Qed.
(** Closed by the user, closed again by the destructor. *)
Example C96_case_close : run96 (life _ _ (50, 0) (1, 0) (0, 0) [] (do MOpen 0 0 (fun _ => do MClose 0 0 (fun _ => Ret tt)))) 1 = Stop (mkMem false 0 []).
Proof. reflexivity. Qed.
Example C96_case_refuses : forall a t, m_open t = false -> r_ret _ (snd (lib MClose a t)) <> 0%Z.
Proof. intros a t H. cbn. rewrite H. discriminate. Qed.

Print Assumptions C96_nodes.
Print Assumptions C96_one.
Print Assumptions C96_arguments.
Print Assumptions C96_fetch_refuted.
Print Assumptions C96_binary_refuted.
Print Assumptions C96_life.
Print Assumptions C96_close_again.
