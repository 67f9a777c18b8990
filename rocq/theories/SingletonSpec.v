From Coq Require Import List Bool Arith.
From Verif Require Import SingletonModel.
Import ListNotations.
Open Scope nat_scope.

(** What a program may expect of its singletons.  [log] is what happened, newest first; only
    its events and the policies are shared with the model. *)

(** No event concerns object [o]. *)
Definition fresh (o : nat) (l : list event) : Prop :=
  forall k, ~ In (Made o k) l /\ ~ In (Used o k) l /\ ~ In (Gone o k) l.

(** Object [o] of singleton [k] was made and not destroyed yet. *)
Definition alive (o k : nat) (l : list event) : Prop :=
  In (Made o k) l /\ forall k', ~ In (Gone o k') l.

(** Objects are made once, returned only while they are alive and destroyed at most once, and
    never if the policy is NoDestroy. *)
Fixpoint well_behaved (pol : nat -> policy) (l : list event) : Prop :=
  match l with
  | [] => True
  | Made o k :: r => fresh o r /\ well_behaved pol r
  | Used o k :: r => alive o k r /\ well_behaved pol r
  | Gone o k :: r => alive o k r /\ pol k <> NoDestroy /\ well_behaved pol r
  end.

(** The objects with policy DefaultLifetime that were made, and destroyed, newest first. *)
Fixpoint mades (pol : nat -> policy) (l : list event) : list nat :=
  match l with
  | [] => []
  | Made o k :: r => match pol k with DefaultLifetime => o :: mades pol r | _ => mades pol r end
  | _ :: r => mades pol r
  end.
Fixpoint gones (pol : nat -> policy) (l : list event) : list nat :=
  match l with
  | [] => []
  | Gone o k :: r => match pol k with DefaultLifetime => o :: gones pol r | _ => gones pol r end
  | _ :: r => gones pol r
  end.

(** A program whose constructors do not call Instance in circles, *)
Definition no_circles (P : program) (rank : nat -> nat) (depth : nat) : Prop :=
  (forall k j, In j (ctor P k) -> rank j < rank k) /\ (forall k, rank k < depth).

(** and which is careful about the end: destructors use what the constructor used or what is
    never destroyed, singletons that are never destroyed are built from such only, functions
    given to atexit use such only, and no policy is PhoenixSingleton. *)
Definition careful (P : program) (h : list op) : Prop :=
  (forall k, pol P k <> PhoenixSingleton) /\
  (forall k j, In j (dtor P k) -> pol P j = NoDestroy \/ In j (ctor P k)) /\
  (forall k j, pol P k = NoDestroy -> In j (ctor P k) -> pol P j = NoDestroy) /\
  (forall ks j, In (AtExit ks) h -> In j ks -> pol P j = NoDestroy).
