(** What a database used by a program should do: what the database library does when one process uses it. *)
From Coq Require Import List ZArith Bool.
From Verif Require Import DbModel.
Import ListNotations.

(** Methods that fetch contents with a key or all of them; methods that ask for a number; methods that must succeed. *)
Definition fetching : list method := [MGet; MGetBinary; MKeys; MKeysAndData; MBinaryKeysAndData].
Definition asking : list method := [MGetMaxUserInfoLen; MGetMaxNumberConfigs; MFileExists; MExist; MGet; MGetBinary].
Definition filling : list method := fetching ++ [MStorageName; MGetUserdata].
Definition must_succeed : list method := [MOpen; MClose; MInsert; MInsertBinary; MInsertUserdata; MGetUserdata].
Definition method_dec (a b : method) : {a = b} + {a <> b}.
Proof. decide equality. Defined.
Definition is_in (m : method) (l : list method) : bool := if in_dec method_dec m l then true else false.

Section Spec.
Variable Arg P St : Type.
Variable back : method -> Arg -> St -> St * reply P.
(** One call by one process: the number asked for, and the variables filled. *)
Definition alone (c : call Arg P) (s : St) : outcome St (result P) :=
  let (s', r) := back (c_meth Arg P c) (c_arg Arg P c) s in
  if is_in (c_meth Arg P c) must_succeed && negb (Z.eqb (r_ret P r) 0) then Stop s'
  else Fine s' (mkResult (if is_in (c_meth Arg P c) asking then Some (r_ret P r) else None)
                         (if is_in (c_meth Arg P c) filling then match r_val P r with Some v => v | None => c_old Arg P c end else c_old Arg P c)).
(** A program run by one process, and the methods it calls. *)
Fixpoint alone_run {A} (p : prog Arg P A) (s : St) : outcome St A :=
  match p with
  | Ret a => Fine s a
  | Do c k => match alone c s with Fine s' r => alone_run (k r) s' | Stop s' => Stop s' | Undefined => Undefined end
  end.
Fixpoint called {A} (p : prog Arg P A) (s : St) : list method :=
  match p with
  | Ret a => []
  | Do c k => c_meth Arg P c :: match alone c s with Fine s' r => called (k r) s' | _ => [] end
  end.
End Spec.
