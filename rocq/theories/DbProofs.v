(** Proofs for databases on several nodes. *)
From Coq Require Import List ZArith Bool Arith Lia.
From Verif Require Import DbModel DbSpec.
Import ListNotations.

Lemma alike_refl l : alike l l = true.
Proof. induction l as [|[] l IH]; cbn; auto. Qed.
Section Proofs.
Variable Arg P St : Type.
Variable back : method -> Arg -> St -> St * reply P.
Notation execV := (exec Arg P St back).
Notation aloneV := (alone Arg P St back).
Notation call := (call Arg P).
Notation c_meth := (c_meth Arg P).
Notation c_arg := (c_arg Arg P).
Notation c_old := (c_old Arg P).

Definition all_of (n : nat) (o : outcome St (result P)) : outcome St (result P * list (result P)) :=
  match o with Fine s r => Fine s (r, repeat r n) | Stop s => Stop s | Undefined => Undefined end.
Lemma map_repeat {X Y} (f : X -> Y) x n : map f (repeat x n) = repeat (f x) n.
Proof. induction n; cbn; congruence. Qed.
Lemma combine_repeat {X Y} (x : X) (y : Y) n : combine (repeat x n) (repeat y n) = repeat (x, y) n.
Proof. induction n; cbn; congruence. Qed.
Lemma forallb_repeat {X} (f : X -> bool) x n : f x = true -> forallb f (repeat x n) = true.
Proof. intros H. induction n; cbn; [reflexivity|]. now rewrite H. Qed.
Lemma forallb_repeat_ret (e : env P) n : forallb (fun e => Z.eqb (e_ret P e) 0) (e :: repeat e n) = Z.eqb (e_ret P e) 0.
Proof. cbn. destruct (Z.eqb (e_ret P e) 0) eqn:E; [|reflexivity]. cbn. now apply forallb_repeat. Qed.

(** A method called with the same arguments on all nodes. *)
Lemma exec_repeat c n s : is_in (c_meth c) fetching = false \/ n = 0 /\ c_meth c <> MBinaryKeysAndData -> execV c (repeat c n) s = all_of n (aloneV c s).
Proof.
  intros H. unfold exec. rewrite forallb_repeat by apply alike_refl. unfold alone. rewrite map_repeat.
  destruct H as [H|[-> H]].
  - destruct (c_meth c) eqn:M; try discriminate H; cbn [body execs exec1]; rewrite ?M; destruct (back _ (c_arg c) s) as [s' r]; cbn [execs exec1 e_ret e_val];
      rewrite ?map_repeat; cbn [e_ret e_val];
      try (assert (F : forallb (fun e => Z.eqb (e_ret P e) 0) (mkEnv P (r_ret P r) match r_val P r with Some v => v | None => e_val P (start Arg P c) end
             :: repeat (mkEnv P (r_ret P r) (e_val P (start Arg P c))) n) = Z.eqb (r_ret P r) 0)
        by (cbn; destruct (Z.eqb (r_ret P r) 0) eqn:E; [cbn; apply forallb_repeat; exact E|reflexivity]); rewrite ?F);
      cbn [is_in]; repeat match goal with |- context [is_in ?m ?l] => let b := eval vm_compute in (is_in m l) in change (is_in m l) with b end; cbn [andb];
      try (destruct (Z.eqb (r_ret P r) 0); cbn [negb]; [|reflexivity]);
      cbn [execs all_of exec1]; rewrite ?map_repeat, ?combine_repeat, ?map_repeat; cbn [fst snd e_ret e_val]; unfold leave; rewrite M; cbn; reflexivity.
  - destruct (c_meth c) eqn:M; try (now destruct H); cbn [repeat map body execs exec1]; rewrite ?M; destruct (back _ (c_arg c) s) as [s' r]; cbn [execs exec1 e_ret e_val map combine forallb];
      repeat match goal with |- context [is_in ?m ?l] => let b := eval vm_compute in (is_in m l) in change (is_in m l) with b end; cbn [andb negb];
      try (destruct (Z.eqb (r_ret P r) 0); cbn [andb negb]; [|reflexivity]);
      unfold leave; rewrite M; cbn; reflexivity.
Qed.
Lemma heads_repeat {A} c (k : result P -> prog Arg P A) n : heads Arg P (repeat (Do c k) n) = Some (repeat (c, k) n).
Proof. induction n; cbn; [reflexivity|]. now rewrite IHn. Qed.
Lemma values_repeat {A} (a : A) n : values Arg P (repeat (Ret a) n) = Some (repeat a n).
Proof. induction n; cbn; [reflexivity|]. now rewrite IHn. Qed.
Lemma run_repeat {A} (p : prog Arg P A) n : forall s,
  (forall m, In m (called Arg P St back p s) -> is_in m fetching = false \/ n = 0 /\ m <> MBinaryKeysAndData) ->
  run Arg P St back p (repeat p n) s =
  match alone_run Arg P St back p s with Fine s' a => Fine s' (a, repeat a n) | Stop s' => Stop s' | Undefined => Undefined end.
Proof.
  induction p as [a|c k IH]; intros s H; cbn [run alone_run].
  - now rewrite values_repeat.
  - rewrite heads_repeat, map_repeat. cbn [fst]. cbn [called] in H. rewrite exec_repeat by (apply H; now left).
    unfold all_of. destruct (aloneV c s) as [s' r|s'|] eqn:E; [|reflexivity|reflexivity].
    rewrite combine_repeat, map_repeat. cbn [fst snd]. apply IH. intros m I. apply H. now right.
Qed.
Lemma run_bind {A B} (p : prog Arg P A) (g : A -> prog Arg P B) : forall s,
  alone_run Arg P St back (bind Arg P p g) s =
  match alone_run Arg P St back p s with Fine s' a => alone_run Arg P St back (g a) s' | Stop s' => Stop s' | Undefined => Undefined end.
Proof.
  induction p as [a|c k IH]; intros s; cbn [bind alone_run]; [reflexivity|].
  destruct (aloneV c s) as [s' r|s'|]; [apply IH|reflexivity|reflexivity].
Qed.
Lemma alone_defined {A} (p : prog Arg P A) : forall s, alone_run Arg P St back p s <> Undefined.
Proof.
  induction p as [a|c k IH]; intros s; cbn [alone_run]; [discriminate|]. unfold alone. destruct (back _ _ s) as [s' r].
  destruct (_ && _); [discriminate|apply IH].
Qed.
End Proofs.
