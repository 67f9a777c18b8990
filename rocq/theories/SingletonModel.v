From Coq Require Import List Bool Arith.
Import ListNotations.
Open Scope nat_scope.

(** SingletonHolder (include/qdp_singleton.h 362-457) with its lifetime policies, over the
    whole life of a program: calls of Instance in main, then the functions registered with
    std::atexit, last registered first.  Singletons (types T) are numbered, and so are the
    objects in the order in which they are made.  Simplified: one thread; allocation and
    atexit succeed; whatever the creation policy, Create makes a new object and Destroy ends
    it (include/qdp_singleton.h 174-241).  SingletonWithLongevity is left out: its helpers
    pTrackerArray, elements and AtExitFn (94-96, 125) are defined nowhere, so that programs
    that use it do not link. *)

(** The lifetime policies (include/qdp_singleton.h 250-294, 339-348). *)
Inductive policy := DefaultLifetime | PhoenixSingleton | NoDestroy.

(** What a program consists of: the policies, the singletons on which the constructor and the
    destructor of T call Instance, and whether ATEXIT_FIXED is defined (273, 281, 287, 292). *)
Record program := Program {
  pol : nat -> policy;
  ctor : nat -> list nat;
  dtor : nat -> list nat;
  atexit_fixed : bool }.

(** What is registered with atexit: DestroySingleton of a singleton, or a function of the
    program (or the destructor of a static object) that calls Instance. *)
Inductive handler := Destroy (k : nat) | UserFn (ks : list nat).

(** What happens, newest first: object [o] of singleton [k] is made, returned by Instance, or
    its destructor has ended. *)
Inductive event := Made (o k : nat) | Used (o k : nat) | Gone (o k : nat).

Record state := State {
  inst : nat -> option nat;      (* pInstance_, 390-391 *)
  dead : nat -> bool;            (* destroyed_, 400 *)
  once : nat -> bool;            (* destroyedOnce_, 288 *)
  handlers : list handler;
  next : nat;
  log : list event }.

Definition set {A} (f : nat -> A) (k : nat) (v : A) : nat -> A := fun j => if j =? k then v else f j.

(** Static data before main (390-400, 293). *)
Definition initial : state := State (fun _ => None) (fun _ => false) (fun _ => false) [] 0 [].

(** A call ends, throws logic_error("Dead Reference Detected"), fails assert(!destroyed_) or
    does not end within the given number of nested calls. *)
Inductive result := Returns (o : nat) (s : state) | Throws (s : state) | Asserts (s : state) | Deeper.

Section Holder.
  Variable P : program.

  (** pInstance_ = Create(), after its constructor ran, and ScheduleDestruction (441-443):
      DefaultLifetime 253-254, PhoenixSingleton 271-277, NoDestroy 342-343. *)
  Definition create (k : nat) (s : state) : result :=
    let o := next s in
    let reg := match pol P k with
               | DefaultLifetime => true
               | PhoenixSingleton => atexit_fixed P || negb (once s k)
               | NoDestroy => false
               end in
    Returns o (State (set (inst s) k (Some o)) (dead s) (once s)
                 (if reg then Destroy k :: handlers s else handlers s) (S o) (Used o k :: Made o k :: log s)).

  (** Calls of Instance one after the other. *)
  Fixpoint call_all (call : nat -> state -> result) (ks : list nat) (s : state) : result :=
    match ks with
    | [] => Returns 0 s
    | k :: ks' => match call k s with Returns _ s' => call_all call ks' s' | r => r end
    end.

  (** If destroyed_ is set: OnDeadReference (DefaultLifetime 256-257, PhoenixSingleton 279-284,
      NoDestroy 346-347), then destroyed_ = false (436-440).  [None]: logic_error. *)
  Definition revive (k : nat) (s : state) : option state :=
    if dead s k then
      match pol P k with
      | DefaultLifetime => None
      | PhoenixSingleton =>
          Some (State (inst s) (set (dead s) k false) (if atexit_fixed P then once s else set (once s) k true)
                  (handlers s) (next s) (log s))
      | NoDestroy => Some (State (inst s) (set (dead s) k false) (once s) (handlers s) (next s) (log s))
      end
    else Some s.

  (** Instance and MakeInstance (410-445).  [fuel] bounds the depth of constructors that call
      Instance. *)
  Fixpoint instance (fuel k : nat) (s : state) : result :=
    match fuel with
    | 0 => Deeper
    | S f =>
        match inst s k with
        | Some o => Returns o (State (inst s) (dead s) (once s) (handlers s) (next s) (Used o k :: log s))
        | None =>
            match revive k s with
            | None => Throws s
            | Some s0 => match call_all (instance f) (ctor P k) s0 with Returns _ s' => create k s' | r => r end
            end
        end
    end.

  (** DestroySingleton (451-457): the destructor runs while pInstance_ still points to the
      object; deleting a null pointer does nothing. *)
  Definition destroy_singleton (fuel k : nat) (s : state) : result :=
    if dead s k then Asserts s
    else
      match inst s k with
      | None => Returns 0 (State (inst s) (set (dead s) k true) (once s) (handlers s) (next s) (log s))
      | Some o =>
          match call_all (instance fuel) (dtor P k) s with
          | Returns _ s' =>
              Returns o (State (set (inst s') k None) (set (dead s') k true) (once s') (handlers s') (next s') (Gone o k :: log s'))
          | r => r
          end
      end.

  (** exit: handlers one after the other, those registered meanwhile included (the C library's
      exit).  An exception ends the program (std::terminate). *)
  Fixpoint exit_program (n fuel : nat) (s : state) : result :=
    match handlers s with
    | [] => Returns 0 s
    | h :: hs =>
        match n with
        | 0 => Deeper
        | S n' =>
            let s0 := State (inst s) (dead s) (once s) hs (next s) (log s) in
            match match h with Destroy k => destroy_singleton fuel k s0 | UserFn ks => call_all (instance fuel) ks s0 end with
            | Returns _ s' => exit_program n' fuel s'
            | r => r
            end
        end
    end.

  (** main: calls of Instance and of atexit in some order.  The results of the calls, newest
      first. *)
  Inductive op := Call (k : nat) | AtExit (ks : list nat).
  Fixpoint main_program (fuel : nat) (h : list op) (rs : list (nat * nat)) (s : state) : list (nat * nat) * result :=
    match h with
    | [] => (rs, Returns 0 s)
    | Call k :: h' =>
        match instance fuel k s with
        | Returns o s' => main_program fuel h' ((k, o) :: rs) s'
        | r => (rs, r)
        end
    | AtExit ks :: h' =>
        main_program fuel h' rs (State (inst s) (dead s) (once s) (UserFn ks :: handlers s) (next s) (log s))
    end.
End Holder.
