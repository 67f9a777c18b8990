(** What is said about arrays written piece by piece: documents as trees, and the programs that write one. *)
From Coq Require Import String.
From Coq Require Import List ZArith.
From Verif Require Import XmlModel ArrWriteModel.
Import ListNotations.

(** A document is a sequence of trees, each with its opening mark, its content and its closing mark. *)
Inductive node := El (s : string) (l : list node) | Words (b : list N).
Fixpoint marks (n : node) : list mark :=
  match n with
  | El s l => Op s :: flat_map marks l ++ [Cl s]
  | Words b => [Tx b]
  end.
Definition document (l : list node) : list mark := flat_map marks l.
Definition well_formed (m : list mark) : Prop := exists l, m = document l.

(** What a program writes inside an element: groups with push and pop, tags with openTag and closeTag, text. *)
Inductive item := Group (s : string) (l : list item) | Tagged (s : string) (l : list item) | Plain (b : list N).
Fixpoint commands (i : item) : list cmd :=
  match i with
  | Group s l => Push s :: flat_map commands l ++ [Pop]
  | Tagged s l => Tag s :: flat_map commands l ++ [EndTag]
  | Plain b => [Text b]
  end.
Fixpoint tree (i : item) : node :=
  match i with
  | Group s l => El s (map tree l)
  | Tagged s l => El s (map tree l)
  | Plain b => Words b
  end.
(** One element of the array: push with any name, the content, pop. *)
Definition element (e : string * list item) : list cmd := Push (fst e) :: flat_map commands (snd e) ++ [Pop].
(** The array: push with its name, the elements. *)
Definition array_of (name : string) (l : list (string * list item)) : list cmd := Push name :: flat_map element l.
(** The tree that write(xml, name, array) makes of an array: a tag per element, "elem". *)
Definition array_tree (name : string) (l : list (string * list item)) : node :=
  El name (map (fun e => El "elem" (map tree (snd e))) l).

(** The tags open at the end of a document, innermost first; [None]: a closing mark that does not fit. *)
Fixpoint open_tags (m : list mark) (st : list string) : option (list string) :=
  match m with
  | [] => Some st
  | Op s :: m => open_tags m (s :: st)
  | Tx _ :: m => open_tags m st
  | Cl s :: m => match st with t :: st => if String.eqb s t then open_tags m st else None | [] => None end
  end.
Definition only_array (l : list cmd) : Prop := forall c, In c l -> match c with OutPush _ | OutPop => False | _ => True end.
