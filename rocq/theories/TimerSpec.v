(** What is said about stopwatches and profiling. *)
From Coq Require Import List ZArith Bool.
From Verif Require Import TimerModel.
Import ListNotations.
Local Open Scope Z_scope.

(** A point in time in microseconds. *)
Definition us (t : timeval) : Z := fst t * 1000000 + snd t.
Definition proper (t : timeval) : Prop := 0 <= snd t < 1000000.
(** The intervals measured in a history: from the latest start to the stop that follows it; [run] is the start of the one
    going on. *)
Fixpoint intervals (run : option (option timeval)) (h : list click) : list (option timeval * option timeval) :=
  match h with
  | [] => []
  | Start t :: h => intervals (Some t) h
  | Stop t :: h => match run with Some t0 => (t0, t) :: intervals None h | None => intervals None h end
  | Reset :: h => intervals None h
  end.
(** What follows the last reset. *)
Fixpoint since_reset (h : list click) : list click :=
  match h with
  | [] => []
  | c :: h' => if existsb (fun c => match c with Reset => true | _ => false end) h' then since_reset h'
               else match c with Reset => h' | _ => h end
  end.
(** The clock could be read at both ends. *)
Definition measured (i : option timeval * option timeval) : Prop := fst i <> None /\ snd i <> None.
(** The length of an interval; an interval that ends in an earlier second than it starts in counts 0. *)
Definition length_us (i : option timeval * option timeval) : Z :=
  match i with
  | (Some a, Some b) => if fst b <? fst a then 0 else us b - us a
  | _ => 0
  end.
Definition sum_z (l : list Z) : Z := fold_right Z.add 0 l.
(** The readings of the clock in a history. *)
Fixpoint readings (h : list click) : list (option timeval) :=
  match h with
  | [] => []
  | Start t :: h | Stop t :: h => t :: readings h
  | Reset :: h => readings h
  end.
(** The clock works and does not run backwards: every reading is one and none is before [from]. *)
Fixpoint good_clock (from : Z) (l : list (option timeval)) : Prop :=
  match l with
  | [] => True
  | Some t :: l => proper t /\ from <= us t /\ good_clock (us t) l
  | None :: l => False
  end.
(** The time of the last reading. *)
Fixpoint last_reading (from : Z) (l : list (option timeval)) : Z :=
  match l with
  | [] => from
  | Some t :: l => last_reading (us t) l
  | None :: l => last_reading from l
  end.

(** Profiling: how often an expression was left, and the times at which it was left and entered. *)
Fixpoint times_left (e : nat) (h : list act) : list Z :=
  match h with
  | [] => []
  | Leave x t :: h => if Nat.eqb x e then t :: times_left e h else times_left e h
  | _ :: h => times_left e h
  end.
Fixpoint times_entered (e : nat) (h : list act) : list Z :=
  match h with
  | [] => []
  | Enter x t :: h => if Nat.eqb x e then t :: times_entered e h else times_entered e h
  | _ :: h => times_entered e h
  end.
(** The sections opened. *)
Fixpoint pushes (h : list act) : list nat :=
  match h with
  | [] => []
  | Push _ s :: h => s :: pushes h
  | _ :: h => pushes h
  end.
(** All expressions in the profile, section by section, oldest first. *)
Definition registered (p : prof) : list nat := concat (map snd (rev (queue p))).
(** Histories in which every section opened is closed. *)
Inductive balanced : list act -> Prop :=
| bal_nil : balanced []
| bal_level l h : balanced h -> balanced (SetLevel l :: h)
| bal_enter e t h : balanced h -> balanced (Enter e t :: h)
| bal_leave e t h : balanced h -> balanced (Leave e t :: h)
| bal_section l s h h' : balanced h -> balanced h' -> balanced (Push l s :: h ++ Pop :: h').
(** What printProfile says, as expressions only. *)
Definition expressions (r : list (nat * list (nat * Z * Z))) : list nat := concat (map (fun x => map (fun l => fst (fst l)) (snd x)) r).
