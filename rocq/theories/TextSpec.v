(** What is said about text input and output. *)
From Coq Require Import List Arith NArith ZArith Bool.
From Verif Require Import Base NerscHeader XmlModel XmlSpec TextModel.
Import ListNotations.

(** Words that text can carry: not empty, no white space, no NUL. *)
Definition carried (s : list N) : Prop := s <> [] /\ Forall (fun c => is_space c = false /\ c <> 0%N) s.
(** The values of a type that text can carry: all numbers, visible characters, such words. *)
Definition fine (t : tkind) (v : tval) : Prop :=
  match t, v with
  | TInt k, I z => in_kind k z
  | TCh, C c => is_space c = false
  | TWord, W s => carried s
  | _, _ => False
  end.
(** One thing written and read: its type, the variable it is read into, its value, the white space written after it. *)
Record piece := mkP { ptype : tkind; pvar : nat; pval : tval; psep : list N }.
Definition fine_piece (p : piece) : Prop := fine (ptype p) (pval p) /\ psep p <> [] /\ spaces (psep p).
Definition written (l : list piece) : list N := flat_map (fun p => show (pval p) ++ psep p) l.
Definition program (l : list piece) : list (tkind * nat) := map (fun p => (ptype p, pvar p)) l.

(** A file opened, written to piece by piece, closed. *)
Definition session (s : nat * list (list N)) : list fcmd := FOpen (fst s) :: map FWrite (snd s) ++ [FClose].
(** What a file holds after a number of such: what the last one of its name wrote, else what it held before. *)
Fixpoint holds (l : list (nat * list (list N))) (before : option (list N)) (name : nat) : option (list N) :=
  match l with
  | [] => before
  | s :: l => holds l (if Nat.eqb (fst s) name then Some (concat (snd s)) else before) name
  end.
