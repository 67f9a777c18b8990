(** What a gauge archive should contain, and what reading it should give.  Only the data types of the model
    (builds, configurations) and the layout's nodeNumber and linearSiteIndex are used. *)
From Coq Require Import List Arith NArith ZArith Bool.
From Verif Require Import Base LayoutModel LayoutSpec CrcModel IoModel IoSpec LatIoModel LatIoSpec NerscModel.
Import ListNotations.
Local Open Scope nat_scope.

Section Spec.
  Context {A : Type}.

  (** Direction [dd] at site [c]. *)
  Definition link_at (b : build) (u : @gauge A) (dd : nat) (c : list nat) : @cmatrix A :=
    u dd (l_node (lay_of b) c) (l_lin (lay_of b) c).

  (** 12 numbers are two rows, 18 are three; the numbers row by row, real before imaginary part. *)
  Definition rows_of (mat_size : nat) : nat := mat_size / 6.
  Definition numbers (rows : nat) (m : @cmatrix A) : list A :=
    flat_map (fun i => flat_map (fun j => [fst (m i j); snd (m i j)]) (seq 0 3)) (seq 0 rows).

  (** The order of the sites in a file: first coordinate fastest, in 3-d checkerboard builds time fastest. *)
  Definition site_order (b : build) : list (list nat) :=
    match build_kind b with CB3D => all_sites_t (build_size b) | _ => all_sites (build_size b) end.

  (** The words of a link, all words of a file, as bytes, and their sum. *)
  Definition all_words (b : build) (Nd : nat) (w : nat -> list nat -> list N) : list N :=
    flat_map (fun c => flat_map (fun dd => w dd c) (seq 0 Nd)) (site_order b).
  Definition sum_of (ws : list N) : N := (fold_right N.add 0 ws mod 2 ^ 32)%N.

  (** The two 32-bit halves of a 64-bit word; a 32-bit word itself. *)
  Definition parts (size : nat) (v : N) : list N :=
    if size =? 8 then [(v mod 2 ^ 32)%N; (v / 2 ^ 32)%N] else [v].

  Section Algebra.
    Context (rO rI : A) (radd rmul rsub : A -> A -> A) (ropp : A -> A).
    Definition plus (a b : A * A) : A * A := (radd (fst a) (fst b), radd (snd a) (snd b)).
    Definition minus (a b : A * A) : A * A := (rsub (fst a) (fst b), rsub (snd a) (snd b)).
    Definition times (a b : A * A) : A * A :=
      (rsub (rmul (fst a) (fst b)) (rmul (snd a) (snd b)), radd (rmul (fst a) (snd b)) (rmul (snd a) (fst b))).
    Definition bar (a : A * A) : A * A := (fst a, ropp (snd a)).
    Definition one : A * A := (rI, rO).
    Definition zero : A * A := (rO, rO).

    Definition cross_product (x y : nat -> A * A) (j : nat) : A * A :=
      match j with
      | 0 => minus (times (x 1) (y 2)) (times (x 2) (y 1))
      | 1 => minus (times (x 2) (y 0)) (times (x 0) (y 2))
      | _ => minus (times (x 0) (y 1)) (times (x 1) (y 0))
      end.
    Definition dot (x y : nat -> A * A) : A * A :=
      plus (plus (times (x 0) (y 0)) (times (x 1) (y 1))) (times (x 2) (y 2)).
    Definition det (U : @cmatrix A) : A * A := dot (U 2) (cross_product (U 0) (U 1)).
    (** The rows are orthonormal. *)
    Definition unitary (U : @cmatrix A) : Prop :=
      forall i j, i < 3 -> j < 3 -> dot (U i) (fun k => bar (U j k)) = if i =? j then one else zero.
  End Algebra.
End Spec.
