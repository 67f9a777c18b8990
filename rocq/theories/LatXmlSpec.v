(** What a user expects to find in the XML of a lattice field.  From the model: objects, trees and
    the layout's place of a site. *)
From Coq Require Import String List Arith Bool.
From Verif Require Import Base LayoutModel LatIoModel LatXmlModel.
Import ListNotations.
Local Open Scope nat_scope.

(** A query like "Vector/elem[@row='1']" or "Seed/elem[3]": the name, required attributes, and the
    position among those that match. *)
Record query := Query { q_name : string; q_attrs : list attr; q_nth : option nat }.

Section Words.
  Variable W : Type.

  Definition has (al : list attr) (a : attr) : bool :=
    existsb (fun x => String.eqb (fst x) (fst a) && if list_eq_dec Nat.eq_dec (snd x) (snd a) then true else false) al.
  Definition fits (q : query) (t : tree W) : bool :=
    match t with Tag _ s al _ => String.eqb s (q_name q) && forallb (has al) (q_attrs q) | Txt _ _ => false end.
  Definition inside (t : tree W) : list (tree W) := match t with Tag _ _ _ k => k | Txt _ _ => [] end.
  Definition matching (q : query) (ks : list (tree W)) : list (tree W) :=
    match q_nth q with
    | None => filter (fits q) ks
    | Some i => match nth_error (filter (fits q) ks) i with Some t => [t] | None => [] end
    end.
  (** The contents of all elements at the end of a path. *)
  Fixpoint select (p : list query) (ks : list (tree W)) : list (list (tree W)) :=
    match p with [] => [ks] | q :: p' => flat_map (fun t => select p' (inside t)) (matching q ks) end.

  (** The parts of an object, and the paths to them. *)
  Inductive part := Re | Im | Row (i : nat) | Spin (i : nat) | At (i j : nat) | Limb (i : nat).
  Fixpoint component (d : obj W) (p : list part) : option W :=
    match d, p with
    | Num _ w, [] => Some w
    | Cplx _ a _, Re :: p' => component a p'
    | Cplx _ _ b, Im :: p' => component b p'
    | Vec _ false n e, Row i :: p' | Vec _ true n e, Spin i :: p' => if i <? n then component (e i) p' else None
    | Mat _ n e, At i j :: p' => if (i <? n) && (j <? n) then component (e i j) p' else None
    | Seed _ e, Limb i :: p' => if i <? 4 then component (e i) p' else None
    | _, _ => None
    end.
  Definition steps (x : part) : list query :=
    match x with
    | Re => [Query "re" [] None]
    | Im => [Query "im" [] None]
    | Row i => [Query "Vector" [] None; Query "elem" [("row"%string, [i])] None]
    | Spin i => [Query "SpinVector" [] None; Query "elem" [("row"%string, [i])] None]
    | At i j => [Query "Matrix" [] None; Query "elem" [("row"%string, [i]); ("col"%string, [j])] None]
    | Limb i => [Query "Seed" [] None; Query "elem" [] (Some i)]
    end.
  Definition path (p : list part) : list query := flat_map steps p.

  Definition by_coord (c : list nat) : list query := [Query "OLattice" [] None; Query "elem" [("coord"%string, c)] None].
  Definition by_number (n : nat) : list query := [Query "OLattice" [] None; Query "elem" [("site"%string, [n])] None].

  (** The value of a field at a site. *)
  Definition xvalue (b : build) (F : xfield W) (c : list nat) : obj W := F (l_node (lay_of b) c) (l_lin (lay_of b) c).

  (** [w'] is [w] with [t] added at the end of the innermost open element. *)
  Definition added (t : tree W) (w w' : writer W) : Prop :=
    exists s al k r, w = (s, al, k) :: r /\ w' = (s, al, k ++ [t]) :: r.
End Words.
