From Coq Require Import List Bool Arith NArith ZArith.
From Verif Require Import SseMachine SseSpec SseBlasSpec SseSpinMachine.
Import ListNotations.
Open Scope nat_scope.

(** What spin projections and reconstructions are meant to compute.  Only the names of the
    four directions and of the three operations are shared with the model of the kernels. *)

(** 1, i, -1, -i. *)
Inductive unit4 := U1 | UI | Um1 | UmI.

(** The gamma matrices of QDP++ (the comments in sse_spin_proj_inlines.h write out 1 + gamma):
    each row has one entry that is not zero; its column and the entry. *)
Definition gamma (mu : dirn) (s : nat) : nat * unit4 :=
  nth s (match mu with
         | Dir0 => [(3, UI); (2, UI); (1, UmI); (0, UmI)]
         | Dir1 => [(3, Um1); (2, U1); (1, U1); (0, Um1)]
         | Dir2 => [(2, UI); (3, UmI); (0, UmI); (1, UI)]
         | Dir3 => [(2, U1); (3, U1); (0, U1); (1, U1)]
         end) (0, U1).

(** A half spinor has spin components 0 and 1 only, with the same layout. *)
Definition half_at {V} (m : mem V) (b o : nat) (A : fermion V) : Prop :=
  forall s c, s < 2 -> c < 3 ->
    m b (o + 6 * s + 2 * c) = Some (fst (A s c)) /\
    m b (o + 6 * s + 2 * c + 1) = Some (snd (A s c)).

Section Spin.
  Context {V : Type} (ar : arith V).
  Definition zneg (x : cplx V) : cplx V := (a_sub ar (a_ofZ ar 0) (fst x), a_sub ar (a_ofZ ar 0) (snd x)).
  Definition ztimes (u : unit4) (x : cplx V) : cplx V :=
    match u with
    | U1 => x
    | UI => (a_sub ar (a_ofZ ar 0) (snd x), fst x)
    | Um1 => zneg x
    | UmI => (snd x, a_sub ar (a_ofZ ar 0) (fst x))
    end.
  (** gamma_mu A. *)
  Definition gmul (mu : dirn) (A : fermion V) : fermion V :=
    fun s c => ztimes (snd (gamma mu s)) (A (fst (gamma mu s)) c).
  (** + or - *)
  Definition zsign (plus : bool) (x : cplx V) : cplx V := if plus then x else zneg x.

  (** (1 + gamma_mu) A or (1 - gamma_mu) A; the projection is its upper two components. *)
  Definition one_pm (mu : dirn) (plus : bool) (A : fermion V) : fermion V :=
    fun s c => zadd ar (A s c) (zsign plus (gmul mu A s c)).

  (** The reconstruction of half spinor [H]: the spinor with upper components [H] on which
      gamma_mu is 1 (or -1). *)
  Definition reconstructs (mu : dirn) (plus : bool) (H W : fermion V) : Prop :=
    (forall s c, s < 2 -> c < 3 -> W s c = H s c) /\
    (forall s c, s < 4 -> c < 3 -> W s c = zsign plus (gmul mu W s c)).
End Spin.
