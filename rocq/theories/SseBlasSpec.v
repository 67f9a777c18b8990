From Coq Require Import List Bool Arith NArith ZArith.
From Verif Require Import SseMachine SseSpec.
Import ListNotations.
Open Scope nat_scope.

(** What statements on LatticeDiracFermionD and the sums over them are meant to compute.
    Independent of the kernels. *)

(** A fermion: spin 0..3, colour 0..2. *)
Definition fermion (V : Type) : Type := nat -> nat -> cplx V.

(** In memory: 24 numbers, colours of spin 0 first, real before imaginary part. *)
Definition ferm_at {V} (m : mem V) (b o : nat) (A : fermion V) : Prop :=
  forall s c, s < 4 -> c < 3 ->
    m b (o + 6 * s + 2 * c) = Some (fst (A s c)) /\
    m b (o + 6 * s + 2 * c + 1) = Some (snd (A s c)).
(** A field: [vol] of them. *)
Definition field_at {V} (m : mem V) (b vol : nat) (F : nat -> fermion V) : Prop :=
  forall i, i < vol -> ferm_at m b (24 * i) (F i).

(** The statements; a and b are real numbers, x and y fields, d the field assigned to. *)
Inductive vop :=
| PlusAX    (* d += a*x, d += x*a *)
| MinusAX   (* d -= a*x, d -= x*a *)
| AXplusY   (* d = a*x + y, d = x*a + y, d = y + a*x, d = y + x*a *)
| AXminusY  (* d = a*x - y, d = x*a - y *)
| YminusAX  (* d = y - a*x, d = y - x*a *)
| XplusY    (* d = x + y *)
| XminusY   (* d = x - y *)
| AX        (* d = a*x *)
| XA        (* d = x*a *)
| TimesA    (* d *= a *)
| OverA     (* d /= a *)
| PlusX     (* d += x *)
| MinusX    (* d -= x *)
| AXplusBY  (* d = a*x + b*y, and with x*a or y*b *)
| AXminusBY (* d = a*x - b*y, and with x*a or y*b *).

Section Spec.
  Context {V : Type} (ar : arith V).
  Definition fadd (A B : fermion V) : fermion V := fun s c => zadd ar (A s c) (B s c).
  Definition fsub (A B : fermion V) : fermion V := fun s c => zsub ar (A s c) (B s c).
  Definition fscale (a : V) (A : fermion V) : fermion V := fun s c => zscale ar a (A s c).

  (** The new value of d at a site; [ia] is 1/a. *)
  Definition meaning (o : vop) (a b ia : V) (D X Y : fermion V) : fermion V :=
    match o with
    | PlusAX => fadd D (fscale a X)
    | MinusAX => fsub D (fscale a X)
    | AXplusY => fadd (fscale a X) Y
    | AXminusY => fsub (fscale a X) Y
    | YminusAX => fsub Y (fscale a X)
    | XplusY => fadd X Y
    | XminusY => fsub X Y
    | AX | XA => fscale a X
    | TimesA => fscale a D
    | OverA => fscale ia D
    | PlusX => fadd D X
    | MinusX => fsub D X
    | AXplusBY => fadd (fscale a X) (fscale b Y)
    | AXminusBY => fsub (fscale a X) (fscale b Y)
    end.

  (** Sums over the twelve components of a site. *)
  Definition components : list (nat * nat) :=
    flat_map (fun s => map (fun c => (s, c)) [0; 1; 2]) [0; 1; 2; 3].
  Definition site_norm (A : fermion V) : V :=
    fold_right (fun p r => a_add ar
      (a_add ar (a_mul ar (fst (A (fst p) (snd p))) (fst (A (fst p) (snd p))))
                (a_mul ar (snd (A (fst p) (snd p))) (snd (A (fst p) (snd p))))) r)
      (a_ofZ ar 0) components.
  (** Sum of conj(A_i) B_i. *)
  Definition site_dot (A B : fermion V) : cplx V :=
    fold_right (fun p r => zadd ar (zmul ar (zconj ar (A (fst p) (snd p))) (B (fst p) (snd p))) r)
      (a_ofZ ar 0, a_ofZ ar 0) components.

  (** norm2(x), innerProduct(x,y), innerProductReal(x,y); part 0 of a result is the (real
      part of the) number, part 1 the imaginary part. *)
End Spec.
Inductive red := Norm2 | Inner | InnerReal.
Section Reductions.
  Context {V : Type} (ar : arith V).
  Definition parts (r : red) : nat := match r with Inner => 2 | _ => 1 end.
  Definition site_part (r : red) (A B : fermion V) (c : nat) : V :=
    match r with
    | Norm2 => site_norm ar A
    | Inner => if c =? 0 then fst (site_dot ar A B) else snd (site_dot ar A B)
    | InnerReal => fst (site_dot ar A B)
    end.
  (** Sum over a list of sites. *)
  Definition sum_over (l : list nat) (f : nat -> V) : V :=
    fold_right (fun i r => a_add ar (f i) r) (a_ofZ ar 0) l.
End Reductions.
