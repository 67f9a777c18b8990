(** Outcomes of a modelled C++ call. *)

(** [Val v]: normal return; [Abort]: QDP_abort / QDP_error_exit / exit(1) was reached;
    [Undef]: the C++ standard gives no meaning (uninitialised or dangling read, index out
    of bounds, signed overflow). *)
Inductive res (A : Type) :=
| Val (a : A)
| Abort
| Undef.
Arguments Val {A} a.
Arguments Abort {A}.
Arguments Undef {A}.

Definition bind {A B} (r : res A) (f : A -> res B) : res B :=
  match r with Val a => f a | Abort => Abort | Undef => Undef end.

Definition of_option {A} (o : option A) : res A :=
  match o with Some a => Val a | None => Undef end.

(** Run a list of computations in order, collecting the results. *)
Fixpoint mapM {A B} (f : A -> res B) (l : list A) : res (list B) :=
  match l with
  | nil => Val nil
  | cons a l' => bind (f a) (fun b => bind (mapM f l') (fun bs => Val (cons b bs)))
  end.
