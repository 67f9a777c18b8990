(** What evaluate(d, op, rhs, s) should do, from the expression alone. *)
From Coq Require Import ZArith List String Bool.
From Verif Require Import Base SetModel SetSpec KernLang KernSpec FuseModel.
Import ListNotations.
Local Open Scope Z_scope.

Section Spec.
  Context {R : Type} (rO : R) (radd rmul rsub rdiv : R -> R -> R) (ropp : R -> R).
  Notation vec := (@vec R).

  (** Number or lattice: a product or sum with a lattice operand is a lattice. *)
  Definition join (a b : leaf) : leaf :=
    match a, b with LVec, _ | _, LVec => LVec | LCplx, _ | _, LCplx => LCplx | LReal, LReal => LReal end.
  Fixpoint kind (e : shape) : leaf :=
    match e with Ref k => k | Un _ e => kind e | Bin _ l r => join (kind l) (kind r) | GConst => LReal end.

  (** The value of an expression whose operands are [X]: element [24 s + j] is component [j] at site [s]
      (KernSpec.v: [P_plus], [g5], [times_i], [scale], [cscale]). *)
  Fixpoint meaning (X : path -> vec) (p : path) (e : shape) : vec :=
    match e with
    | Ref _ => X p
    | Un OpIdentity e => meaning X (p ++ [C]) e
    | Un FnChiralProjectPlus e => P_plus rO (meaning X (p ++ [C]) e)
    | Un FnChiralProjectMinus e => P_minus rO (meaning X (p ++ [C]) e)
    | Un FnTimesI e => times_i ropp (meaning X (p ++ [C]) e)
    | Bin OpAdd l r => vplus radd (meaning X (p ++ [L]) l) (meaning X (p ++ [FuseModel.R]) r)
    | Bin OpSubtract l r => vminus rsub (meaning X (p ++ [L]) l) (meaning X (p ++ [FuseModel.R]) r)
    | Bin OpGammaConstMultiply _ r => g5 ropp (meaning X (p ++ [FuseModel.R]) r)
    | Bin OpMultiply l r =>
        let x := meaning X (p ++ [L]) l in
        let y := meaning X (p ++ [FuseModel.R]) r in
        match kind l, kind r with
        | LReal, _ => scale rmul x y
        | LCplx, _ => cscale radd rmul rsub x y
        | LVec, LReal => scale rmul y x
        | LVec, LCplx => cscale radd rmul rsub y x
        | LVec, LVec => fun _ => rO                      (* there is no such product *)
        end
    | GConst => fun _ => rO
    end.

  (** d op rhs, with [old] the contents of d. *)
  Definition assigned (op : assign) (old : vec) (k : leaf) (rhs : vec) : vec :=
    match op with
    | OpAssign => rhs
    | OpAddAssign => vplus radd old rhs
    | OpSubtractAssign => vminus rsub old rhs
    | OpMultiplyAssign => match k with LReal => scale rmul rhs old | _ => cscale radd rmul rsub rhs old end
    | OpDivideAssign => fun i => rdiv (old i) (rhs 0)
    end.

  (** The operands of an expression. *)
  Fixpoint operands (p : path) (e : shape) : list (path * leaf) :=
    match e with
    | Ref k => [(p, k)]
    | Un _ e => operands (p ++ [C]) e
    | Bin _ l r => operands (p ++ [L]) l ++ operands (p ++ [FuseModel.R]) r
    | GConst => []
    end.

  (** [m'] is [m] with [f] in the elements of [d] at the given sites and nothing else changed. *)
  Definition assigned_at (m m' : memory R) (d : ptr) (sites : list nat) (f : vec) : Prop :=
    (forall i j, In i sites -> 0 <= j < 24 ->
       cell m' d (24 * Z.of_nat i + j) = Some (f (24 * Z.of_nat i + j))) /\
    (forall b o, (forall i j, In i sites -> 0 <= j < 24 -> (b, o) <> forward d (24 * Z.of_nat i + j)) ->
       m' b o = m b o).

  (** The seven kernels that read up to two reals beyond the last site (C76). *)
  Definition over_reads (k : string) : bool :=
    among k ["axpyz_g5ProjPlus"; "xpayz_g5ProjPlus"; "xmayz_g5ProjPlus"; "add_g5ProjPlus"; "sub_g5ProjPlus";
             "axpbyz_g5ProjPlus"; "axmbyz_g5ProjPlus"]%string.
  Definition slack (sp : special) : Z :=
    if existsb (fun it => match it with IFun k => over_reads (k_name k) | _ => false end) (s_ord_args sp) then 2 else 0.

  (** The operands are there: [V] sites (and the slack) for the destination and every lattice
      operand, which is the destination itself or a different object; numbers and local
      variables are different objects. *)
  Definition operands_ok (m : memory R) (d : ptr) (env : path -> ptr) (loc : nat) (V : nat) (sp : special) : Prop :=
    has m d (24 * Z.of_nat V + slack sp) /\ fst d <> loc /\
    forall q k, In (q, k) (operands [] (s_rhs sp)) ->
      fst (env q) <> loc /\
      match k with
      | LVec => has m (env q) (24 * Z.of_nat V + slack sp) /\ (env q = d \/ apart (env q) d)
      | LReal => has m (env q) 1 /\ apart (env q) d
      | LCplx => has m (env q) 2 /\ apart (env q) d
      end.

  (** A subset of a lattice of [V] sites, as built by Set::make (C06, C07). *)
  Definition good_subset (V : nat) (s : subset) : Prop :=
    flags_exact s /\ NoDup (s_table s) /\ Forall (fun i => (i < V)%nat) (s_table s).
End Spec.
