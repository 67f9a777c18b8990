(** A symbolic executor for the kernel language of KernLang.v.  Nothing here models code of
    /repo: it is the proof method for the kernels.  It runs a kernel once, with the number of
    sites [n] left symbolic, finds the invariant of the (single) long loop by itself, and
    returns what has to be checked; KernSound.v proves that it may be trusted. *)
From Coq Require Import ZArith List String Bool.
From Verif Require Import Base KernLang.
Import ListNotations.
Local Open Scope Z_scope.

(** Integers: [c0 + ck * k + cn * n], [k] the number of rounds the loop has made. *)
Record lin := Lin { c0 : Z; ck : Z; cn : Z }.

Definition lval (k n : Z) (l : lin) : Z := c0 l + ck l * k + cn l * n.
Definition lin_eqb (a b : lin) : bool := (c0 a =? c0 b) && (ck a =? ck b) && (cn a =? cn b).
Definition ladd (a b : lin) : lin := Lin (c0 a + c0 b) (ck a + ck b) (cn a + cn b).
Definition lsub (a b : lin) : lin := Lin (c0 a - c0 b) (ck a - ck b) (cn a - cn b).
Definition lconst (z : Z) : lin := Lin z 0 0.
Definition is_const (a : lin) : bool := (ck a =? 0) && (cn a =? 0).
Definition lmul (a b : lin) : option lin :=
  if is_const a then Some (Lin (c0 a * c0 b) (c0 a * ck b) (c0 a * cn b))
  else if is_const b then Some (Lin (c0 b * c0 a) (c0 b * ck a) (c0 b * cn a))
  else None.

(** [w <= o] for all [k], [n]. *)
Definition lin_leb (w o : lin) : bool := (ck w =? ck o) && (cn w =? cn o) && (c0 w <=? c0 o).

(** Values: what array [p] held at index [o] when the kernel was entered; the value of an
    accumulator after so many rounds. *)
Inductive sexp :=
| SIn (p : string) (o : lin)
| SAcc (x : string) (o : lin)
| SZero
| SAdd (a b : sexp)
| SSub (a b : sexp)
| SMul (a b : sexp)
| SNeg (a : sexp).

Record sst := Sst {
  sv : list (string * sexp);
  si : list (string * lin);
  sp : list (string * (string * lin));
  sw : list (string * lin);                  (* output arrays: cells [0, w) are written *)
  sl : list (string * list (Z * sexp))       (* scratch arrays: cells with known contents *)
}.

(** To be checked: this cell exists; the value stored into output cell [o] of [q]; start and step of an
    accumulator.  Tagged with the number of rounds for which it is to hold, if in the loop. *)
Inductive vc :=
| Acc (p : string) (o : lin)
| Wr (q : string) (o : lin) (e : sexp)
| Init (x : string) (e : sexp)
| Step (x : string) (e : sexp).
Definition vcs := list (option lin * vc).

Fixpoint get {A} (x : string) (l : list (string * A)) : option A :=
  match l with
  | [] => None
  | (y, a) :: l' => if String.eqb y x then Some a else get x l'
  end.

Definition del {A} (x : string) (l : list (string * A)) : list (string * A) :=
  filter (fun p => negb (String.eqb (fst p) x)) l.
Definition put {A} (x : string) (a : A) (l : list (string * A)) : list (string * A) := (x, a) :: del x l.
Definition repl {A} (x : string) (a : A) (l : list (string * A)) : list (string * A) :=
  map (fun p => if String.eqb (fst p) x then (fst p, a) else p) l.

Fixpoint zget {A} (z : Z) (l : list (Z * A)) : option A :=
  match l with
  | [] => None
  | (y, a) :: l' => if y =? z then Some a else zget z l'
  end.

Definition obind {A B} (o : option A) (f : A -> option B) : option B :=
  match o with Some a => f a | None => None end.
Notation "'do' x <- e ; f" := (obind e (fun x => f))
  (at level 200, x pattern, e at level 100, f at level 200).

Section Run.
  (** [al]: (r, q) when the caller may pass the same address for [r] and the output [q];
      [accs]: the accumulators. *)
  Context (al : list (string * string)) (accs : list string).

  Fixpoint sieval (s : sst) (e : iexp) : option lin :=
    match e with
    | IV x => get x (si s)
    | IC n => Some (lconst n)
    | IAdd a b => do x <- sieval s a; do y <- sieval s b; Some (ladd x y)
    | ISub a b => do x <- sieval s a; do y <- sieval s b; Some (lsub x y)
    | IMul a b => do x <- sieval s a; do y <- sieval s b; lmul x y
    end.

  Definition s_int (s : sst) x l := Sst (sv s) (put x l (si s)) (sp s) (sw s) (sl s).
  Definition s_ptr (s : sst) x l := Sst (sv s) (si s) (put x l (sp s)) (sw s) (sl s).
  Definition s_var (s : sst) x l := Sst (put x l (sv s)) (si s) (sp s) (sw s) (sl s).

  Definition slocate (s : sst) (l : place) : option (string * lin * sst) :=
    match l with
    | At p i => do (r, o) <- get p (sp s); do k <- sieval s i; Some (r, ladd o k, s)
    | AtInc p i =>
        do (r, o) <- get p (sp s); do k <- get i (si s);
        Some (r, ladd o k, s_int s i (ladd k (lconst 1)))
    | AtNext p => do (r, o) <- get p (sp s); Some (r, o, s_ptr s p (r, ladd o (lconst 1)))
    end.

  Definition aliased (r q : string) : bool :=
    String.eqb r q || existsb (fun p => String.eqb (fst p) r && String.eqb (snd p) q) al.

  Definition sload (s : sst) (r : string) (o : lin) : option (sexp * vcs) :=
    match get r (sl s) with
    | Some c => if is_const o then do e <- zget (c0 o) c; Some (e, []) else None
    | None =>
        if forallb (fun p => negb (aliased r (fst p)) || lin_leb (snd p) o) (sw s)
        then Some (SIn r o, [(None, Acc r o)]) else None
    end.

  Definition sstore (s : sst) (r : string) (o : lin) (e : sexp) : option (sst * vcs) :=
    match get r (sl s) with
    | Some c =>
        if is_const o
        then Some (Sst (sv s) (si s) (sp s) (sw s) (repl r ((c0 o, e) :: c) (sl s)), [(None, Acc r o)])
        else None
    | None =>
        do w <- get r (sw s);
        if lin_eqb w o
        then Some (Sst (sv s) (si s) (sp s) (repl r (ladd w (lconst 1)) (sw s)) (sl s),
                   [(None, Acc r o); (None, Wr r o e)])
        else None
    end.

  Fixpoint seval (s : sst) (e : exp) : option (sexp * sst * vcs) :=
    match e with
    | V x => do v <- get x (sv s); Some (v, s, [])
    | Rd l => do (r, o, s1) <- slocate s l; do (v, c) <- sload s1 r o; Some (v, s1, c)
    | Zero => Some (SZero, s, [])
    | Add a b => do (x, s1, c1) <- seval s a; do (y, s2, c2) <- seval s1 b; Some (SAdd x y, s2, c1 ++ c2)
    | Sub a b => do (x, s1, c1) <- seval s a; do (y, s2, c2) <- seval s1 b; Some (SSub x y, s2, c1 ++ c2)
    | Mul a b => do (x, s1, c1) <- seval s a; do (y, s2, c2) <- seval s1 b; Some (SMul x y, s2, c1 ++ c2)
    | Neg a => do (x, s1, c1) <- seval s a; Some (SNeg x, s1, c1)
    end.

  (** The invariant: what is common to the states before ([e]) and after ([e']) the first round. *)
  Definition gen_lin (a b : lin) : option lin :=
    if (ck a =? 0) && (ck b =? 0) && (cn a =? cn b) then Some (Lin (c0 a) (c0 b - c0 a) (cn a)) else None.

  Fixpoint gen_sexp (a b : sexp) : option sexp :=
    match a, b with
    | SIn p o, SIn q u => if String.eqb p q then do l <- gen_lin o u; Some (SIn p l) else None
    | SZero, SZero => Some SZero
    | SAdd x y, SAdd x' y' => do u <- gen_sexp x x'; do v <- gen_sexp y y'; Some (SAdd u v)
    | SSub x y, SSub x' y' => do u <- gen_sexp x x'; do v <- gen_sexp y y'; Some (SSub u v)
    | SMul x y, SMul x' y' => do u <- gen_sexp x x'; do v <- gen_sexp y y'; Some (SMul u v)
    | SNeg x, SNeg x' => do u <- gen_sexp x x'; Some (SNeg u)
    | _, _ => None
    end.

  Definition is_acc (x : string) : bool := existsb (String.eqb x) accs.
  Definition rounds : lin := Lin 0 1 0.

  Fixpoint gen_sv (l l' : list (string * sexp)) : list (string * sexp) :=
    match l with
    | [] => []
    | (x, e) :: t =>
        if is_acc x then (x, SAcc x rounds) :: gen_sv t l'
        else match get x l' with
             | Some e' => match gen_sexp e e' with Some g => (x, g) :: gen_sv t l' | None => gen_sv t l' end
             | None => gen_sv t l'
             end
    end.

  Fixpoint gen_si (l l' : list (string * lin)) : list (string * lin) :=
    match l with
    | [] => []
    | (x, e) :: t =>
        match get x l' with
        | Some e' => match gen_lin e e' with Some g => (x, g) :: gen_si t l' | None => gen_si t l' end
        | None => gen_si t l'
        end
    end.

  Fixpoint gen_sp (l l' : list (string * (string * lin))) : list (string * (string * lin)) :=
    match l with
    | [] => []
    | (x, (r, e)) :: t =>
        match get x l' with
        | Some (r', e') =>
            if String.eqb r r' then
              match gen_lin e e' with Some g => (x, (r, g)) :: gen_sp t l' | None => gen_sp t l' end
            else gen_sp t l'
        | None => gen_sp t l'
        end
    end.

  Fixpoint gen_sw (l l' : list (string * lin)) : option (list (string * lin)) :=
    match l, l' with
    | [], [] => Some []
    | (q, e) :: t, (q', e') :: t' =>
        if String.eqb q q' then do g <- gen_lin e e'; do r <- gen_sw t t'; Some ((q, g) :: r) else None
    | _, _ => None
    end.

  Definition gen (s s' : sst) : option sst :=
    do w <- gen_sw (sw s) (sw s');
    Some (Sst (gen_sv (sv s) (sv s')) (gen_si (si s) (si s')) (gen_sp (sp s) (sp s')) w
              (map (fun p => (fst p, [])) (sl s))).

  Definition inits (s : sst) : vcs :=
    flat_map (fun p => if is_acc (fst p) then [(None, Init (fst p) (snd p))] else []) (sv s).

  (** One round later. *)
  Definition shift (l : lin) : lin := Lin (c0 l + ck l) (ck l) (cn l).
  Fixpoint shift_sexp (e : sexp) : sexp :=
    match e with
    | SIn p o => SIn p (shift o)
    | SAcc x o => SAcc x (shift o)
    | SZero => SZero
    | SAdd a b => SAdd (shift_sexp a) (shift_sexp b)
    | SSub a b => SSub (shift_sexp a) (shift_sexp b)
    | SMul a b => SMul (shift_sexp a) (shift_sexp b)
    | SNeg a => SNeg (shift_sexp a)
    end.

  Fixpoint sexp_eqb (a b : sexp) : bool :=
    match a, b with
    | SIn p o, SIn q u => String.eqb p q && lin_eqb o u
    | SAcc x o, SAcc y u => String.eqb x y && lin_eqb o u
    | SZero, SZero => true
    | SAdd x y, SAdd x' y' => sexp_eqb x x' && sexp_eqb y y'
    | SSub x y, SSub x' y' => sexp_eqb x x' && sexp_eqb y y'
    | SMul x y, SMul x' y' => sexp_eqb x x' && sexp_eqb y y'
    | SNeg x, SNeg x' => sexp_eqb x x'
    | _, _ => false
    end.

  Fixpoint list_eqb {A} (f : A -> A -> bool) (a b : list A) : bool :=
    match a, b with
    | [], [] => true
    | x :: a', y :: b' => f x y && list_eqb f a' b'
    | _, _ => false
    end.

  (** Does the body lead from the invariant to the invariant one round later? *)
  Definition preserved (inv s : sst) : bool :=
    forallb (fun p => if is_acc (fst p)
                      then sexp_eqb (snd p) (SAcc (fst p) rounds)
                           && match get (fst p) (sv s) with Some _ => true | None => false end
                      else match get (fst p) (sv s) with Some e => sexp_eqb e (shift_sexp (snd p)) | None => false end)
            (sv inv)
    && forallb (fun p => match get (fst p) (si s) with Some l => lin_eqb l (shift (snd p)) | None => false end) (si inv)
    && forallb (fun p => match get (fst p) (sp s) with
                         | Some (r, l) => String.eqb r (fst (snd p)) && lin_eqb l (shift (snd (snd p)))
                         | None => false end) (sp inv)
    && list_eqb (fun a b => String.eqb (fst a) (fst b) && lin_eqb (snd a) (shift (snd b))) (sw s) (sw inv)
    && list_eqb (fun a b => String.eqb (fst a) (fst b)) (sl s) (sl inv).

  Definition steps (inv s : sst) : vcs :=
    flat_map (fun p => if is_acc (fst p)
                       then match get (fst p) (sv s) with Some e => [(None, Step (fst p) e)] | None => [] end
                       else []) (sv inv).

  (** After the loop: [K] rounds. *)
  Definition subst (K l : lin) : lin := Lin (c0 l + ck l * c0 K) 0 (cn l + ck l * cn K).
  Fixpoint subst_sexp (K : lin) (e : sexp) : sexp :=
    match e with
    | SIn p o => SIn p (subst K o)
    | SAcc x o => SAcc x (subst K o)
    | SZero => SZero
    | SAdd a b => SAdd (subst_sexp K a) (subst_sexp K b)
    | SSub a b => SSub (subst_sexp K a) (subst_sexp K b)
    | SMul a b => SMul (subst_sexp K a) (subst_sexp K b)
    | SNeg a => SNeg (subst_sexp K a)
    end.
  Definition after (K : lin) (s : sst) : sst :=
    Sst (map (fun p => (fst p, subst_sexp K (snd p))) (sv s))
        (map (fun p => (fst p, subst K (snd p))) (si s))
        (map (fun p => (fst p, (fst (snd p), subst K (snd (snd p))))) (sp s))
        (map (fun p => (fst p, subst K (snd p))) (sw s)) (sl s).

  Definition untagged (l : vcs) : bool := forallb (fun p => match fst p with None => true | Some _ => false end) l.
  Definition tag (K : lin) (l : vcs) : vcs := map (fun p => (Some K, snd p)) l.

  (** Number of rounds of the long loop, from its bounds. *)
  Definition srounds (a b : lin) (step : positive) : option lin :=
    let d := lsub b a in
    if (ck d =? 0) && (cn d mod Zpos step =? 0) then
      let K := Lin ((c0 d + Zpos step - 1) / Zpos step) 0 (cn d / Zpos step) in
      if (0 <=? cn K) && (0 <=? c0 K + cn K) then Some K else None
    else None.

  Definition advance (i : string) (step : positive) (s : sst) : option sst :=
    do k <- get i (si s); Some (s_int s i (ladd k (lconst (Zpos step)))).

  Fixpoint sexec (c : stmt) (s : sst) : option (sst * vcs) :=
    match c with
    | Skip => Some (s, [])
    | Seq c1 c2 => do (s1, v1) <- sexec c1 s; do (s2, v2) <- sexec c2 s1; Some (s2, v1 ++ v2)
    | Assign x e => do (v, s1, c1) <- seval s e; Some (s_var s1 x v, c1)
    | Store l e =>
        do (v, s1, c1) <- seval s e; do (r, o, s2) <- slocate s1 l;
        do (s3, c2) <- sstore s2 r o v; Some (s3, c1 ++ c2)
    | StoreAdd l e =>
        do (v, s1, c1) <- seval s e; do (r, o, s2) <- slocate s1 l;
        do (w, c2) <- sload s2 r o; do (s3, c3) <- sstore s2 r o (SAdd w v); Some (s3, c1 ++ c2 ++ c3)
    | StoreSub l e =>
        do (v, s1, c1) <- seval s e; do (r, o, s2) <- slocate s1 l;
        do (w, c2) <- sload s2 r o; do (s3, c3) <- sstore s2 r o (SSub w v); Some (s3, c1 ++ c2 ++ c3)
    | Int i e => do v <- sieval s e; Some (s_int s i v, [])
    | Ptr p q e => do (r, o) <- get q (sp s); do k <- sieval s e; Some (s_ptr s p (r, ladd o k), [])
    | IfPos e c1 =>
        do v <- sieval s e;
        if is_const v && negb (0 <? c0 v) then Some (s, [])
        else if (ck v =? 0) && (0 <=? cn v) && (0 <? c0 v + cn v) then sexec c1 s
        else None
    | For i a b step body =>
        do x <- sieval s a; do y <- sieval s b;
        if is_const x && is_const y then
          (fix loop (n : nat) (s : sst) : option (sst * vcs) :=
             match n with
             | O => Some (s, [])
             | S n' =>
                 do (s1, v1) <- sexec body s; do s2 <- advance i step s1;
                 do (s3, v2) <- loop n' s2; Some (s3, v1 ++ v2)
             end) (trips (c0 x) (c0 y) step) (s_int s i x)
        else
          do K <- srounds x y step;
          let s0 := s_int s i x in
          do (s1, _) <- sexec body s0; do s2 <- advance i step s1;
          do inv <- gen s0 s2;
          do (s3, v) <- sexec body inv; do s4 <- advance i step s3;
          if preserved inv s4 && untagged v
          then Some (after K inv, inits s0 ++ tag K v ++ tag K (steps inv s4))
          else None
    end.

  (** Start of a call: pointers at their roots, the int arguments, nothing written. *)
  Definition start (roots : list string) (is : list (string * lin)) (outs scratch : list string) : sst :=
    Sst [] is (map (fun r => (r, (r, lconst 0))) roots) (map (fun q => (q, lconst 0)) outs)
        (map (fun l => (l, [])) scratch).

End Run.
