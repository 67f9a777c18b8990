(** Specification of records in QIO files. *)
From Coq Require Import List Arith NArith Bool.
From Verif Require Import Base LayoutModel LayoutSpec CrcModel IoSpec LatIoModel LatIoSpec QioModel.
Import ListNotations.
Local Open Scope nat_scope.

Definition floating (w : wt) : Prop := w = Float \/ w = Double.
(** Word types between which a value can be carried over: the same, or both floating point. *)
Definition compatible (w1 w2 : wt) : Prop := w1 = w2 \/ floating w1 /\ floating w2.

(** The same object with another precision. *)
Definition same_shape (t1 t2 : ty) : Prop := t_nmemb t1 = t_nmemb t2.

(** Words have at least one byte. *)
Definition ty_ok (t : ty) : Prop := 0 < wsize (t_word t).

(** A field whose sites hold objects of type [t]. *)
Definition holds (t : ty) (b : build) (F : field) : Prop := field_ok (wsize (t_word t)) (t_nmemb t) b F.

(** [c] lies in the hypercube with the given corners. *)
Definition in_cube (lower upper c : list nat) : Prop :=
  length lower = length c /\ length upper = length c /\
  forall mu, mu < length c -> get lower mu <= get c mu <= get upper mu.

(** [u] is the value [v] of word type [w1] in word type [w2]. *)
Definition carried (widen narrow : N -> N) (w1 w2 : wt) (v u : elem) : Prop :=
  (w1 = w2 -> u = v) /\ (w1 = Float -> w2 = Double -> u = map widen v) /\ (w1 = Double -> w2 = Float -> u = map narrow v).

(** One site of an array of lattices in the file: the lattices one after the other. *)
Definition array_bytes (size : nat) (b : build) (Fs : list field) (cs : list (list nat)) : list N :=
  concat (map (fun c => concat (map (fun F => site_bytes size (field_at b F c)) Fs)) cs).

(** The first [n] scalars of node 0 hold objects of type [t]. *)
Definition scalars_ok (t : ty) (n : nat) (F : field) : Prop := forall i, i < n -> site_ok (wsize (t_word t)) (t_nmemb t) (F 0 i).
