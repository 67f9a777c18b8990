From Coq Require Import List Bool Arith Lia.
From Verif Require Import SingletonModel SingletonSpec SingletonProofs SingletonExit.
Import ListNotations.
Open Scope nat_scope.

(** C104: singletons over the life of a program. *)

Definition called (h : list op) : list nat :=
  flat_map (fun x => match x with Call k => [k] | AtExit _ => [] end) h.

(** In main, Instance always returns if constructors do not call it in circles: dead references
    and failing asserts are for the end of the program only. *)
Lemma main_returns P rank : (forall k j, In j (ctor P k) -> rank j < rank k) ->
  forall f k s, rank k < f -> (forall j, dead s j = false) ->
  exists o s', instance P f k s = Returns o s' /\ forall j, dead s' j = false.
Proof.
  intros RK. induction f as [|f IH]; intros k s F D; [lia|]. cbn [instance].
  destruct (inst s k) as [o|]; [eauto|]. unfold revive. rewrite D.
  assert (ALL : forall ks, (forall j, In j ks -> rank j < f) -> forall t, (forall j, dead t j = false) ->
    exists o s', call_all (instance P f) ks t = Returns o s' /\ forall j, dead s' j = false).
  { induction ks as [|j ks IHks]; intros H t DT; cbn [call_all]; [eauto|].
    destruct (IH j t (H j (or_introl eq_refl)) DT) as (o1 & t1 & E1 & D1). rewrite E1.
    apply IHks; [|exact D1]. intros j' I. apply H. now right. }
  destruct (ALL (ctor P k)) with (t := s) as (o1 & s1 & E1 & D1); [|exact D|].
  { intros j I. pose proof (RK k j I). lia. }
  rewrite E1. unfold create. eauto.
Qed.

Theorem C104_main P rank depth h : no_circles P rank depth ->
  exists rs s, main_program P depth h [] initial = (rs, Returns 0 s) /\ map fst (rev rs) = called h.
Proof.
  intros [RK F].
  assert (G : forall h rs s, (forall j, dead s j = false) ->
    exists rs' s', main_program P depth h rs s = (rs', Returns 0 s') /\ map fst (rev rs') = map fst (rev rs) ++ called h).
  { clear h. induction h as [|[k|ks] h IH]; intros rs s D; cbn [main_program called flat_map].
    - exists rs, s. split; [reflexivity|]. now rewrite app_nil_r.
    - destruct (main_returns P rank RK depth k s (F k) D) as (o & s1 & E & D1). rewrite E.
      destruct (IH ((k, o) :: rs) s1 D1) as (rs' & s' & E' & Q). exists rs', s'. split; [exact E'|].
      rewrite Q. cbn [rev]. rewrite map_app, <- app_assoc. reflexivity.
    - apply IH. exact D. }
  destruct (G h [] initial (fun _ => eq_refl)) as (rs & s & E & Q). exists rs, s. split; [exact E|exact Q].
Qed.

(** Whatever the program, the calls of main return the same object exactly if they are for the
    same singleton, and all these objects are alive when main ends. *)
Theorem C104_one_object P f h rs x s : main_program P f h [] initial = (rs, Returns x s) ->
  (forall k o, In (k, o) rs -> alive o k (log s)) /\
  (forall k o k' o', In (k, o) rs -> In (k', o') rs -> (k = k' <-> o = o')).
Proof.
  intros E. destruct (J_main P f h [] initial (J_initial P) (fun _ _ B => match B with end) _ _ E) as [A B].
  specialize (A s eq_refl). specialize (B x s eq_refl). destruct A as (A1 & A2 & A3 & A4).
  split; [intros k o I; apply A1; auto|].
  intros k o k' o' I I'. pose proof (B _ _ I) as Q. pose proof (B _ _ I') as Q'. split; intros W; subst; [congruence|].
  apply (made_fun P (log s) o' k k' A3); [apply (A1 _ _ Q)|apply (A1 _ _ Q')].
Qed.

(** Whatever the program, and also if it ends with a dead reference or a failing assert:
    Instance returns objects that are alive only, and objects are destroyed at most once. *)
Theorem C104_alive P f h rs r : main_program P f h [] initial = (rs, r) ->
  (forall s, after r = Some s -> well_behaved (pol P) (log s)) /\
  (forall x s n s', r = Returns x s -> after (exit_program P n f s) = Some s' -> well_behaved (pol P) (log s')).
Proof.
  intros E. destruct (J_main P f h [] initial (J_initial P) (fun _ _ B => match B with end) _ _ E) as [A B].
  split; [intros s Q; apply (A s Q)|].
  intros x s n s' -> Q. apply (J_exit P f n s (A s eq_refl) s' Q).
Qed.

(** Careful programs end properly: every handler returns, and the objects with policy
    DefaultLifetime are destroyed in the reverse order of their construction, all of them. *)
Theorem C104_careful P rank depth h : no_circles P rank depth -> careful P h ->
  exists rs s s', main_program P depth h [] initial = (rs, Returns 0 s) /\
    exit_program P (length (handlers s)) depth s = Returns 0 s' /\
    gones (pol P) (log s) = [] /\ mades (pol P) (log s') = mades (pol P) (log s) /\
    gones (pol P) (log s') = rev (mades (pol P) (log s)).
Proof.
  intros [RK F] (NP & DT & ND & U).
  destruct (M_main P rank RK NP depth h F U [] initial (M_initial P)) as (rs & s & E & HC & D & G).
  destruct (C_exit P rank RK NP DT ND depth F (length (handlers s)) s HC (le_n _)) as (s' & E' & HC' & H' & W).
  exists rs, s, s'. split; [exact E|]. split; [exact E'|]. split; [exact G|].
  assert (Q : mades (pol P) (log s') = rev (gones (pol P) (log s'))).
  { destruct HC' as (_ & _ & _ & _ & _ & _ & Q). rewrite H' in Q. cbn [order map] in Q. rewrite app_nil_r in Q. now apply some_inj. }
  split; [exact W|]. rewrite <- W, Q, rev_involutive. reflexivity.
Qed.

(** Without care: singleton 0, made first, whose destructor uses singleton 1 (a log, say), made
    later.  The program is terminated by an exception at exit and 0 is not destroyed. *)
Definition log_user : program :=
  Program (fun _ => DefaultLifetime) (fun _ => []) (fun k => if k =? 0 then [1] else []) false.
Theorem C104_dead_reference_refuted : exists s s',
  main_program log_user 2 [Call 0; Call 1] [] initial = ([(1, 1); (0, 0)], Returns 0 s) /\
  exit_program log_user (length (handlers s)) 2 s = Throws s' /\
  alive 0 0 (log s').
Proof.
  eexists _, _. split; [vm_compute; reflexivity|]. split; [vm_compute; reflexivity|]. unfold alive; cbn. split; [auto 10|].
  intros k' Q. repeat (destruct Q as [Q|Q]; [discriminate|]). exact Q.
Qed.

(** The policy PhoenixSingleton for the log instead: the program ends, but the object made
    anew during exit is not destroyed, unless ATEXIT_FIXED is defined. *)
Definition phoenix_log (fixed : bool) : program :=
  Program (fun k => if k =? 0 then DefaultLifetime else PhoenixSingleton) (fun _ => []) (fun k => if k =? 0 then [1] else []) fixed.
Theorem C104_phoenix_refuted :
  (exists s s', main_program (phoenix_log false) 2 [Call 0; Call 1] [] initial = ([(1, 1); (0, 0)], Returns 0 s) /\
    exit_program (phoenix_log false) (length (handlers s)) 2 s = Returns 0 s' /\ alive 2 1 (log s')) /\
  (exists s s', main_program (phoenix_log true) 2 [Call 0; Call 1] [] initial = ([(1, 1); (0, 0)], Returns 0 s) /\
    exit_program (phoenix_log true) (S (length (handlers s))) 2 s = Returns 0 s' /\
    forall o k, In (Made o k) (log s') -> In (Gone o k) (log s')).
Proof.
  split.
  - eexists _, _. split; [vm_compute; reflexivity|]. split; [vm_compute; reflexivity|]. unfold alive; cbn. split; [auto 10|].
    intros k' Q. repeat (destruct Q as [Q|Q]; [discriminate|]). exact Q.
  - eexists _, _. split; [vm_compute; reflexivity|]. split; [vm_compute; reflexivity|]. cbn. intros o k Q.
    repeat (destruct Q as [Q|Q]; [try discriminate; injection Q as <- <-; tauto|]). destruct Q.
Qed.

(** A careful program: the allocator (0, never destroyed, include/qdp_allocator.h), a cache (1)
    built on it and a table (2) built on both, whose destructors free memory. *)
Definition tables : program :=
  Program (fun k => if k =? 0 then NoDestroy else DefaultLifetime)
    (fun k => if k =? 1 then [0] else if k =? 2 then [0; 1] else [])
    (fun k => if k =? 1 then [0] else if k =? 2 then [1; 0] else []) false.
Example C104_careful_case : no_circles tables (fun k => if k <? 3 then k else 0) 3 /\ careful tables [AtExit [0]; Call 2; Call 1; AtExit [0]; Call 0].
Proof.
  split; [split|split; [|split; [|split]]].
  - intros [|[|[|k]]] j; cbn; try tauto; intros [<-|I]; cbn; try lia; try tauto; destruct I as [<-|[]]; cbn; lia.
  - intros [|[|[|k]]]; cbn; lia.
  - intros [|k]; discriminate.
  - intros [|[|[|k]]] j; cbn; try tauto; intros [<-|I]; cbn; try tauto; destruct I as [<-|[]]; cbn; tauto.
  - intros [|k] j; cbn; [tauto|discriminate].
  - intros ks j I J. cbn in I. repeat (destruct I as [I|I]; [try discriminate; injection I as <-; destruct J as [<-|[]]; reflexivity|]). destruct I.
Qed.
Example C104_careful_run : exists s s',
  main_program tables 3 [AtExit [0]; Call 2; Call 1; AtExit [0]; Call 0] [] initial = ([(0, 0); (1, 1); (2, 2)], Returns 0 s) /\
  exit_program tables (length (handlers s)) 3 s = Returns 0 s' /\
  mades (pol tables) (log s) = [2; 1] /\ gones (pol tables) (log s') = [1; 2].
Proof. eexists _, _. split; [vm_compute; reflexivity|]. split; [vm_compute; reflexivity|]. split; reflexivity. Qed.

Print Assumptions C104_main.
Print Assumptions C104_one_object.
Print Assumptions C104_alive.
Print Assumptions C104_careful.
Print Assumptions C104_dead_reference_refuted.
Print Assumptions C104_phoenix_refuted.
