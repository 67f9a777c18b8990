(** The nested types of a site: PScalar, PMatrix (PSpinMatrix, PColorMatrix) and
    PVector (PSpinVector, PColorVector) around RScalar or RComplex
    (include/qdp_primscalar.h, qdp_primmatrix.h, qdp_primspinmat.h,
    qdp_primcolormat.h, qdp_primvector.h, qdp_primspinvec.h, qdp_reality.h).

    C++ nests templates to any depth; the model is a tree with the operations
    as recursive functions, each clause being one overload.  [Bad] is the result
    where no overload exists, i.e. where the program does not compile.  Loops
    "d = f(0); for(k=1; k < N; ++k) d += f(k)" are [accum]; the order of the
    additions is kept.  Element types are an arbitrary ring-like type R:
    rounding and float/double conversions are not modelled. *)
From Coq Require Import List PeanoNat Bool.
From Verif Require Import Base ComplexModel.
Import ListNotations.

Inductive kind := Spin | Colour.
Definition kind_eqb (a b : kind) : bool :=
  match a, b with Spin, Spin | Colour, Colour => true | _, _ => false end.

Section Tensor.
Context {R : Type} (rO rI : R) (radd rmul rsub rdiv : R -> R -> R) (ropp : R -> R).
Local Notation cx := (R * R)%type.

(** RScalar (qdp_reality.h 29), RComplex (252), PScalar (qdp_primscalar.h 29),
    PMatrix<T,N,C> (qdp_primmatrix.h 34; elem(i,j)), PVector<T,N,C>
    (qdp_primvector.h 31; elem(i)); the [kind] says spin or colour. *)
Inductive val :=
  | Rv (x : R)
  | Cv (z : cx)
  | Sv (v : val)
  | Mv (k : kind) (n : nat) (f : nat -> nat -> val)
  | Vv (k : kind) (n : nat) (f : nat -> val)
  | Bad.

Definition same (k : kind) (n : nat) (k' : kind) (n' : nat) : bool := kind_eqb k k' && Nat.eqb n n'.

(** operator+ : RScalar qdp_reality.h 862-872, RComplex 1840-1870, PScalar
    qdp_primscalar.h 411, PMatrix qdp_primmatrix.h 388 (matrix + matrix), 407
    (matrix + scalar: on the diagonal), 426; PVector qdp_primvector.h 378,
    qdp_primspinvec.h 227.  The compound += on the accumulators below does the
    same (qdp_primmatrix.h 66-76, qdp_reality.h 332-338). *)
Fixpoint vadd (l r : val) {struct l} : val :=
  match l, r with
  | Rv a, Rv b => Rv (radd a b)
  | Rv a, Cv b => Cv (c_add_sc radd a b)
  | Cv a, Rv b => Cv (c_add_cs radd a b)
  | Cv a, Cv b => Cv (c_add radd a b)
  | Sv a, Sv b => Sv (vadd a b)
  | Mv k n f, Mv k' n' g =>
      if same k n k' n' then Mv k n (fun i j => vadd (f i j) (g i j)) else Bad
  | Mv k n f, Sv b => Mv k n (fun i j => if Nat.eqb i j then vadd (f i i) b else f i j)
  | Sv a, Mv k n g => Mv k n (fun i j => if Nat.eqb i j then vadd a (g i i) else g i j)
  | Vv k n f, Vv k' n' g => if same k n k' n' then Vv k n (fun i => vadd (f i) (g i)) else Bad
  | _, _ => Bad
  end.

(** Unary minus: qdp_reality.h 1828, qdp_primscalar.h 403, qdp_primmatrix.h 368,
    qdp_primvector.h 366, qdp_primspinvec.h 215. *)
Fixpoint vneg (l : val) : val :=
  match l with
  | Rv a => Rv (ropp a)
  | Cv a => Cv (c_neg ropp a)
  | Sv a => Sv (vneg a)
  | Mv k n f => Mv k n (fun i j => vneg (f i j))
  | Vv k n f => Vv k n (fun i => vneg (f i))
  | Bad => Bad
  end.

(** operator- : qdp_reality.h 1874-1904, qdp_primscalar.h 419, qdp_primmatrix.h
    446, 465, 484 (scalar - matrix negates the other elements),
    qdp_primvector.h 390, qdp_primspinvec.h 239. *)
Fixpoint vsub (l r : val) {struct l} : val :=
  match l, r with
  | Rv a, Rv b => Rv (rsub a b)
  | Rv a, Cv b => Cv (c_sub_sc rsub ropp a b)
  | Cv a, Rv b => Cv (c_sub_cs rsub a b)
  | Cv a, Cv b => Cv (c_sub rsub a b)
  | Sv a, Sv b => Sv (vsub a b)
  | Mv k n f, Mv k' n' g =>
      if same k n k' n' then Mv k n (fun i j => vsub (f i j) (g i j)) else Bad
  | Mv k n f, Sv b => Mv k n (fun i j => if Nat.eqb i j then vsub (f i i) b else f i j)
  | Sv a, Mv k n g => Mv k n (fun i j => if Nat.eqb i j then vsub a (g i i) else vneg (g i j))
  | Vv k n f, Vv k' n' g => if same k n k' n' then Vv k n (fun i => vsub (f i) (g i)) else Bad
  | _, _ => Bad
  end.

(** d = g(0); for(k=1; k < n; ++k) d += g(k); *)
Definition accum (n : nat) (g : nat -> val) : val :=
  fold_left (fun d k => vadd d (g k)) (seq 1 (n - 1)) (g 0).
(** d = g(0,0); for(k=1; k < n; ++k) d += g(0,k);
    for(j=1; j < n; ++j) for(k=0; k < n; ++k) d += g(j,k);
    (qdp_primmatrix.h 1055-1072, 1614-1628, 1644-1660; qdp_primspinmat.h
    391-409). *)
Definition accum2 (n : nat) (g : nat -> nat -> val) : val :=
  let d := g 0 0 in
  let d := fold_left (fun d k => vadd d (g 0 k)) (seq 1 (n - 1)) d in
  fold_left (fun d j => fold_left (fun d k => vadd d (g j k)) (seq 0 n) d) (seq 1 (n - 1)) d.

(** operator* : qdp_reality.h 892 and 1908-1938; qdp_primscalar.h 427;
    qdp_primmatrix.h 504, 578 and 651; qdp_primvector.h 403, 428 and 453;
    qdp_primspinvec.h 252, 277, 302-320. *)
Fixpoint vmul (l r : val) {struct l} : val :=
  match l, r with
  | Rv a, Rv b => Rv (rmul a b)
  | Rv a, Cv b => Cv (c_mul_sc rmul a b)
  | Cv a, Rv b => Cv (c_mul_cs rmul a b)
  | Cv a, Cv b => Cv (c_mul radd rmul rsub a b)
  | Sv a, Sv b => Sv (vmul a b)
  | Mv k n f, Sv b => Mv k n (fun i j => vmul (f i j) b)
  | Sv a, Mv k n g => Mv k n (fun i j => vmul a (g i j))
  | Mv k n f, Mv k' n' g =>
      if same k n k' n' then Mv k n (fun i j => accum n (fun x => vmul (f i x) (g x j))) else Bad
  | Vv k n f, Sv b => Vv k n (fun i => vmul (f i) b)
  | Sv a, Vv k n g => Vv k n (fun i => vmul a (g i))
  | Mv k n f, Vv k' n' g =>
      if same k n k' n' then Vv k n (fun i => accum n (fun x => vmul (f i x) (g x))) else Bad
  | _, _ => Bad
  end.

(** adjMultiply: qdp_reality.h 902 and 1942; qdp_primscalar.h 435;
    qdp_primmatrix.h 522, 596, 674; qdp_primvector.h 440, 470;
    qdp_primspinvec.h 289, 337-354. *)
Fixpoint vadjMultiply (l r : val) {struct l} : val :=
  match l, r with
  | Rv a, Rv b => Rv (rmul a b)
  | Cv a, Cv b => Cv (c_adjMultiply radd rmul rsub a b)
  | Sv a, Sv b => Sv (vadjMultiply a b)
  | Mv k n f, Sv b => Mv k n (fun i j => vadjMultiply (f j i) b)
  | Sv a, Mv k n g => Mv k n (fun i j => vadjMultiply a (g i j))
  | Mv k n f, Mv k' n' g =>
      if same k n k' n' then Mv k n (fun i j => accum n (fun x => vadjMultiply (f x i) (g x j))) else Bad
  | Sv a, Vv k n g => Vv k n (fun i => vadjMultiply a (g i))
  | Mv k n f, Vv k' n' g =>
      if same k n k' n' then Vv k n (fun i => accum n (fun x => vadjMultiply (f x i) (g x))) else Bad
  | _, _ => Bad
  end.

(** multiplyAdj: qdp_reality.h 913 and 1961; qdp_primscalar.h 443 (the overload
    for PSpinVector at 451 cannot be instantiated); qdp_primmatrix.h 540, 614,
    697; qdp_primvector.h 415; qdp_primspinvec.h 264. *)
Fixpoint vmultiplyAdj (l r : val) {struct l} : val :=
  match l, r with
  | Rv a, Rv b => Rv (rmul a b)
  | Cv a, Cv b => Cv (c_multiplyAdj radd rmul rsub a b)
  | Sv a, Sv b => Sv (vmultiplyAdj a b)
  | Mv k n f, Sv b => Mv k n (fun i j => vmultiplyAdj (f i j) b)
  | Sv a, Mv k n g => Mv k n (fun i j => vmultiplyAdj a (g j i))
  | Mv k n f, Mv k' n' g =>
      if same k n k' n' then Mv k n (fun i j => accum n (fun x => vmultiplyAdj (f i x) (g j x))) else Bad
  | Vv k n f, Sv b => Vv k n (fun i => vmultiplyAdj (f i) b)
  | _, _ => Bad
  end.

(** adjMultiplyAdj: qdp_reality.h 924 and 1979; qdp_primscalar.h 459;
    qdp_primmatrix.h 558, 632, 720. *)
Fixpoint vadjMultiplyAdj (l r : val) {struct l} : val :=
  match l, r with
  | Rv a, Rv b => Rv (rmul a b)
  | Cv a, Cv b => Cv (c_adjMultiplyAdj radd rmul rsub ropp a b)
  | Sv a, Sv b => Sv (vadjMultiplyAdj a b)
  | Mv k n f, Sv b => Mv k n (fun i j => vadjMultiplyAdj (f j i) b)
  | Sv a, Mv k n g => Mv k n (fun i j => vadjMultiplyAdj a (g j i))
  | Mv k n f, Mv k' n' g =>
      if same k n k' n' then Mv k n (fun i j => accum n (fun x => vadjMultiplyAdj (f x i) (g j x))) else Bad
  | _, _ => Bad
  end.

(** adj: qdp_reality.h 1112 and 2077, qdp_primscalar.h 643, qdp_primmatrix.h 846. *)
Fixpoint vadj (l : val) : val :=
  match l with
  | Rv a => Rv a
  | Cv a => Cv (c_adj ropp a)
  | Sv a => Sv (vadj a)
  | Mv k n f => Mv k n (fun i j => vadj (f j i))
  | _ => Bad
  end.
(** conj: qdp_reality.h 1124 and 2094, qdp_primscalar.h 652, qdp_primmatrix.h
    866, qdp_primvector.h 620, qdp_primspinvec.h 503. *)
Fixpoint vconj (l : val) : val :=
  match l with
  | Rv a => Rv a
  | Cv a => Cv (c_conj ropp a)
  | Sv a => Sv (vconj a)
  | Mv k n f => Mv k n (fun i j => vconj (f i j))
  | Vv k n f => Vv k n (fun i => vconj (f i))
  | Bad => Bad
  end.
(** transpose: qdp_reality.h 1133 and 2105, qdp_primscalar.h 661,
    qdp_primmatrix.h 886. *)
Fixpoint vtranspose (l : val) : val :=
  match l with
  | Rv a => Rv a
  | Cv a => Cv (c_transpose a)
  | Sv a => Sv (vtranspose a)
  | Mv k n f => Mv k n (fun i j => vtranspose (f j i))
  | _ => Bad
  end.

(** trace, realTrace, imagTrace: qdp_reality.h 1152-1192 (imagTrace of an
    RScalar returns the number itself) and 2129-2167; qdp_primscalar.h 671-690;
    qdp_primmatrix.h 907-960. *)
Fixpoint vtrace (l : val) : val :=
  match l with
  | Rv a => Rv a
  | Cv a => Cv (c_trace a)
  | Sv a => Sv (vtrace a)
  | Mv k n f => Sv (accum n (fun i => vtrace (f i i)))
  | _ => Bad
  end.
Fixpoint vrealTrace (l : val) : val :=
  match l with
  | Rv a => Rv a
  | Cv a => Rv (c_realTrace a)
  | Sv a => Sv (vrealTrace a)
  | Mv k n f => Sv (accum n (fun i => vrealTrace (f i i)))
  | _ => Bad
  end.
Fixpoint vimagTrace (l : val) : val :=
  match l with
  | Rv a => Rv a
  | Cv a => Rv (c_imagTrace a)
  | Sv a => Sv (vimagTrace a)
  | Mv k n f => Sv (accum n (fun i => vimagTrace (f i i)))
  | _ => Bad
  end.

(** real, imag: qdp_reality.h 1209-1230 and 2191-2210; qdp_primscalar.h 764-780;
    qdp_primmatrix.h 1242-1275; qdp_primvector.h 501-520; qdp_primspinvec.h
    384-405. *)
Fixpoint vreal (l : val) : val :=
  match l with
  | Rv a => Rv a
  | Cv a => Rv (fst a)
  | Sv a => Sv (vreal a)
  | Mv k n f => Mv k n (fun i j => vreal (f i j))
  | Vv k n f => Vv k n (fun i => vreal (f i))
  | Bad => Bad
  end.
Fixpoint vimag (l : val) : val :=
  match l with
  | Rv a => Rv rO
  | Cv a => Rv (snd a)
  | Sv a => Sv (vimag a)
  | Mv k n f => Mv k n (fun i j => vimag (f i j))
  | Vv k n f => Vv k n (fun i => vimag (f i))
  | Bad => Bad
  end.
(** timesI, timesMinusI: qdp_reality.h 2219-2285; qdp_primscalar.h 995-1010;
    qdp_primmatrix.h 1300-1335; qdp_primvector.h 633-655; qdp_primspinvec.h
    516-540. *)
Fixpoint vtimesI (l : val) : val :=
  match l with
  | Rv a => Cv (c_timesI_s rO a)
  | Cv a => Cv (c_timesI ropp a)
  | Sv a => Sv (vtimesI a)
  | Mv k n f => Mv k n (fun i j => vtimesI (f i j))
  | Vv k n f => Vv k n (fun i => vtimesI (f i))
  | Bad => Bad
  end.
Fixpoint vtimesMinusI (l : val) : val :=
  match l with
  | Rv a => Cv (c_timesMinusI_s rO ropp a)
  | Cv a => Cv (c_timesMinusI ropp a)
  | Sv a => Sv (vtimesMinusI a)
  | Mv k n f => Mv k n (fun i j => vtimesMinusI (f i j))
  | Vv k n f => Vv k n (fun i => vtimesMinusI (f i))
  | Bad => Bad
  end.

(** traceMultiply: qdp_reality.h 1197 and 2171; qdp_primscalar.h 723;
    qdp_primmatrix.h 1055-1110. *)
Fixpoint vtraceMultiply (l r : val) {struct l} : val :=
  match l, r with
  | Rv a, Rv b => Rv (rmul a b)
  | Cv a, Cv b => Cv (c_traceMultiply radd rmul rsub a b)
  | Sv a, Sv b => Sv (vtraceMultiply a b)
  | Mv k n f, Mv k' n' g =>
      if same k n k' n' then Sv (accum2 n (fun j x => vtraceMultiply (f j x) (g x j))) else Bad
  | Mv k n f, Sv b => Sv (accum n (fun x => vtraceMultiply (f x x) b))
  | Sv a, Mv k n g => Sv (accum n (fun x => vtraceMultiply a (g x x)))
  | _, _ => Bad
  end.

(** traceSpin and traceColor: qdp_primspinmat.h 370 and qdp_primcolormat.h 300
    (the trace is taken here and goes no deeper), otherwise element by element:
    qdp_primscalar.h 698-710, qdp_primmatrix.h 967-1000. *)
Fixpoint vtraceK (q : kind) (l : val) {struct l} : val :=
  match l with
  | Sv a => Sv (vtraceK q a)
  | Mv k n f =>
      if kind_eqb k q then Sv (accum n (fun i => f i i))
      else Mv k n (fun i j => vtraceK q (f i j))
  | _ => Bad
  end.
(** traceSpinMultiply and traceColorMultiply: qdp_primspinmat.h 391-450 and
    qdp_primcolormat.h 322-380; qdp_primmatrix.h 1118-1240; qdp_primscalar.h 731
    and 739, which call traceMultiply. *)
Fixpoint vtraceKMultiply (q : kind) (l r : val) {struct l} : val :=
  match l, r with
  | Sv a, Sv b => Sv (vtraceMultiply a b)
  | Mv k n f, Mv k' n' g =>
      if same k n k' n' then
        if kind_eqb k q then Sv (accum2 n (fun j x => vmul (f j x) (g x j)))
        else Mv k n (fun i j => accum n (fun x => vtraceKMultiply q (f i x) (g x j)))
      else Bad
  | Mv k n f, Sv b =>
      if kind_eqb k q then Sv (accum n (fun x => vmul (f x x) b))
      else Mv k n (fun i j => vtraceKMultiply q (f i j) b)
  | Sv a, Mv k n g =>
      if kind_eqb k q then Sv (accum n (fun x => vmul a (g x x)))
      else Mv k n (fun i j => vtraceKMultiply q a (g i j))
  | _, _ => Bad
  end.

(** localNorm2: qdp_reality.h 1635 and 2385; qdp_primscalar.h 1437;
    qdp_primmatrix.h 1614; qdp_primvector.h 887; qdp_primspinvec.h 729. *)
Fixpoint vlocalNorm2 (l : val) : val :=
  match l with
  | Rv a => Rv (rmul a a)
  | Cv a => Rv (c_localNorm2 radd rmul a)
  | Sv a => Sv (vlocalNorm2 a)
  | Mv k n f => Sv (accum2 n (fun i j => vlocalNorm2 (f i j)))
  | Vv k n f => Sv (accum n (fun i => vlocalNorm2 (f i)))
  | Bad => Bad
  end.
(** localInnerProduct: qdp_reality.h 1655 and 2405; qdp_primscalar.h 1483;
    qdp_primmatrix.h 1644 (column by column), 1667, 1686; qdp_primvector.h 912;
    qdp_primspinvec.h 943. *)
Fixpoint vlocalInnerProduct (l r : val) {struct l} : val :=
  match l, r with
  | Rv a, Rv b => Rv (rmul a b)
  | Cv a, Cv b => Cv (c_localInnerProduct radd rmul rsub a b)
  | Sv a, Sv b => Sv (vlocalInnerProduct a b)
  | Mv k n f, Mv k' n' g =>
      if same k n k' n' then Sv (accum2 n (fun j x => vlocalInnerProduct (f x j) (g x j))) else Bad
  | Mv k n f, Sv b => Sv (accum n (fun x => vlocalInnerProduct (f x x) b))
  | Sv a, Mv k n g => Sv (accum n (fun x => vlocalInnerProduct a (g x x)))
  | Vv k n f, Vv k' n' g =>
      if same k n k' n' then Sv (accum n (fun x => vlocalInnerProduct (f x) (g x))) else Bad
  | _, _ => Bad
  end.
(** localInnerProductReal: qdp_reality.h 1675 and 2428; qdp_primscalar.h 1502;
    qdp_primmatrix.h 1715 and 1757 (1738, for matrix and scalar, indexes the
    scalar and cannot be instantiated); qdp_primvector.h 940;
    qdp_primspinvec.h 956. *)
Fixpoint vlocalInnerProductReal (l r : val) {struct l} : val :=
  match l, r with
  | Rv a, Rv b => Rv (rmul a b)
  | Cv a, Cv b => Rv (c_localInnerProductReal radd rmul a b)
  | Sv a, Sv b => Sv (vlocalInnerProductReal a b)
  | Mv k n f, Mv k' n' g =>
      if same k n k' n' then Sv (accum2 n (fun j x => vlocalInnerProductReal (f x j) (g x j))) else Bad
  | Sv a, Mv k n g => Sv (accum n (fun x => vlocalInnerProductReal a (g x x)))
  | Vv k n f, Vv k' n' g =>
      if same k n k' n' then Sv (accum n (fun x => vlocalInnerProductReal (f x) (g x))) else Bad
  | _, _ => Bad
  end.

(** outerProduct: qdp_reality.h 1416 and 2288-2320; qdp_primscalar.h 755;
    qdp_primspinmat.h 512; qdp_primcolormat.h 416. *)
Fixpoint vouterProduct (l r : val) {struct l} : val :=
  match l, r with
  | Rv a, Rv b => Rv (rmul a b)
  | Cv a, Cv b => Cv (c_outerProduct radd rmul rsub a b)
  | Cv a, Rv b => Cv (c_outerProduct_cs rmul a b)
  | Rv a, Cv b => Cv (c_outerProduct_sc rmul ropp a b)
  | Sv a, Sv b => Sv (vouterProduct a b)
  | Vv k n f, Vv k' n' g =>
      if same k n k' n' then Mv k n (fun i j => vouterProduct (f i) (g j)) else Bad
  | _, _ => Bad
  end.
(** traceSpinOuterProduct: qdp_primscalar.h 747, qdp_primspinmat.h 535. *)
Fixpoint vtraceSpinOuterProduct (l r : val) {struct l} : val :=
  match l, r with
  | Sv a, Sv b => Sv (vtraceSpinOuterProduct a b)
  | Vv Spin n f, Vv Spin n' g =>
      if Nat.eqb n n' then Sv (accum n (fun i => vouterProduct (f i) (g i))) else Bad
  | _, _ => Bad
  end.

End Tensor.
Arguments Bad {R}.
