(** Complex numbers: RComplex<T> (include/qdp_reality.h), with RScalar<T>
    operands.

    A value is the pair (real(), imag()); an RScalar is its element.  T is any
    type with +, -, *, / and unary minus: the formulas are copied from the C++
    functions and nothing is assumed here.  The conversions between float and
    double that mixed expressions involve are not modelled. *)
From Coq Require Import List.
From Verif Require Import Base.
Import ListNotations.

Section Complex.
Context {R : Type} (rO rI : R) (radd rmul rsub rdiv : R -> R -> R) (ropp : R -> R).
Local Notation "x + y" := (radd x y).
Local Notation "x - y" := (rsub x y).
Local Notation "x * y" := (rmul x y).
Local Notation "x / y" := (rdiv x y).
Local Notation "- x" := (ropp x).
Local Notation cx := (R * R)%type.
Local Notation re := (@fst R R).
Local Notation im := (@snd R R).

(** 1828-1836 operator-, 1840-1848 operator+, 1851-1859 and 1862-1870 the mixed
    sums, 1874-1904 the differences. *)
Definition c_neg (l : cx) : cx := (- re l, - im l).
Definition c_add (l r : cx) : cx := (re l + re r, im l + im r).
Definition c_add_cs (l : cx) (r : R) : cx := (re l + r, im l).
Definition c_add_sc (l : R) (r : cx) : cx := (l + re r, im r).
Definition c_sub (l r : cx) : cx := (re l - re r, im l - im r).
Definition c_sub_cs (l : cx) (r : R) : cx := (re l - r, im l).
Definition c_sub_sc (l : R) (r : cx) : cx := (l - re r, - im r).

(** 1908-1916 operator*, 1919-1927 and 1930-1938 with a scalar. *)
Definition c_mul (l r : cx) : cx := (re l * re r - im l * im r, re l * im r + im l * re r).
Definition c_mul_sc (l : R) (r : cx) : cx := (l * re r, l * im r).
Definition c_mul_cs (l : cx) (r : R) : cx := (re l * r, im l * r).

(** 1942-1958 adjMultiply, 1961-1976 multiplyAdj, 1979-1995 adjMultiplyAdj. *)
Definition c_adjMultiply (l r : cx) : cx :=
  (re l * re r + im l * im r, re l * im r - im l * re r).
Definition c_multiplyAdj (l r : cx) : cx :=
  (re l * re r + im l * im r, im l * re r - re l * im r).
Definition c_adjMultiplyAdj (l r : cx) : cx :=
  (re l * re r - im l * im r, - (re l * im r + im l * re r)).

(** 1998-2008, 2011-2021, 2024-2034: operator/. *)
Definition c_div (l r : cx) : cx :=
  let tmp := rI / (re r * re r + im r * im r) in
  ((re l * re r + im l * im r) * tmp, (im l * re r - re l * im r) * tmp).
Definition c_div_cs (l : cx) (r : R) : cx :=
  let tmp := rI / r in (re l * tmp, im l * tmp).
Definition c_div_sc (l : R) (r : cx) : cx :=
  let tmp := rI / (re r * re r + im r * im r) in
  (l * re r * tmp, - l * im r * tmp).

(** 2077-2090 adj, 2094-2101 conj, 2105-2113 transpose, 2127-2135 trace,
    2145-2152 realTrace, 2160-2167 imagTrace, 2169-2178 traceMultiply. *)
Definition c_adj (l : cx) : cx := (re l, - im l).
Definition c_conj (l : cx) : cx := (re l, - im l).
Definition c_transpose (l : cx) : cx := (re l, im l).
Definition c_trace (l : cx) : cx := (re l, im l).
Definition c_realTrace (l : cx) : R := re l.
Definition c_imagTrace (l : cx) : R := im l.
Definition c_traceMultiply (l r : cx) : cx := (re l * re r - im l * im r, re l * im r + im l * re r).

(** 2184-2215 real, imag, cmplx; 2219-2285 timesI, timesMinusI (of a scalar and
    of a complex number). *)
Definition c_cmplx (a b : R) : cx := (a, b).
Definition c_timesI (s : cx) : cx := (- im s, re s).
Definition c_timesMinusI (s : cx) : cx := (im s, - re s).
Definition c_timesI_s (s : R) : cx := (rO, s).
Definition c_timesMinusI_s (s : R) : cx := (rO, - s).

(** 2288-2320: outerProduct. *)
Definition c_outerProduct (l r : cx) : cx :=
  (re l * re r + im l * im r, im l * re r - re l * im r).
Definition c_outerProduct_cs (l : cx) (r : R) : cx := (re l * r, im l * r).
Definition c_outerProduct_sc (l : R) (r : cx) : cx := (l * re r, - l * im r).

(** 2383-2388 localNorm2, 2403-2411 localInnerProduct, 2426-2431
    localInnerProductReal; the scalar versions (1633-1690, and qdp_wordtypes /
    qdp_simpleword.h for the word itself) are s*s and s1*s2. *)
Definition c_localNorm2 (s : cx) : R := re s * re s + im s * im s.
Definition c_localInnerProduct (l r : cx) : cx :=
  (re l * re r + im l * im r, re l * im r - im l * re r).
Definition c_localInnerProductReal (l r : cx) : R := re l * re r + im l * im r.

(** 2462-2471 where. *)
Definition c_where (a : bool) (b c : cx) : cx :=
  ((if a then re b else re c), (if a then im b else im c)).

(** * Assignments (lines 262-372)

    Variables are numbered; the left and right operands may be the same
    variable, and each C++ statement reads what the previous one left. *)
Definition store := nat -> cx.
Definition put (x : nat) (v : cx) (s : store) : store :=
  fun y => if Nat.eqb x y then v else s y.
Definition put_re (x : nat) (v : R) (s : store) : store := put x (v, im (s x)) s.
Definition put_im (x : nat) (v : R) (s : store) : store := put x (re (s x), v) s.

(** 322-328: real() = rhs.real(); imag() = rhs.imag(). *)
Definition a_assign (x y : nat) (s : store) : store :=
  let s := put_re x (re (s y)) s in put_im x (im (s y)) s.
(** 332-338: real() += rhs.real(); imag() += rhs.imag(). *)
Definition a_add (x y : nat) (s : store) : store :=
  let s := put_re x (re (s x) + re (s y)) s in put_im x (im (s x) + im (s y)) s.
(** 342-348. *)
Definition a_sub (x y : nat) (s : store) : store :=
  let s := put_re x (re (s x) - re (s y)) s in put_im x (im (s x) - im (s y)) s.
(** 352-361: RComplex<T> d; d = *this * rhs; real() = d.real(); imag() =
    d.imag(). *)
Definition a_mul (x y : nat) (s : store) : store :=
  let d := c_mul (s x) (s y) in put_im x (im d) (put_re x (re d) s).
(** 365-374. *)
Definition a_div (x y : nat) (s : store) : store :=
  let d := c_div (s x) (s y) in put_im x (im d) (put_re x (re d) s).
(** 271-318: with an RScalar on the right. *)
Definition a_assign_s (x : nat) (r : R) (s : store) : store := put_im x rO (put_re x r s).
Definition a_add_s (x : nat) (r : R) (s : store) : store := put_re x (re (s x) + r) s.
Definition a_sub_s (x : nat) (r : R) (s : store) : store := put_re x (re (s x) - r) s.
Definition a_mul_s (x : nat) (r : R) (s : store) : store :=
  let s := put_re x (re (s x) * r) s in put_im x (im (s x) * r) s.
Definition a_div_s (x : nat) (r : R) (s : store) : store :=
  let s := put_re x (re (s x) / r) s in put_im x (im (s x) / r) s.

End Complex.
