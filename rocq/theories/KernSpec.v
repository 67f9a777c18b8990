(** What the vector kernels should compute, independently of their code.

    A lattice fermion is stored as 24 reals per site: 4 spins of 3 colours of (re, im),
    i.e. element [24 s + 6 a + 2 c + r].  A "vector" here is a function from element number to
    value; a complex number is a pair of neighbouring elements. *)
From Coq Require Import ZArith List String Bool.
From Verif Require Import Base GammaModel GammaSpec KernLang.
Import ListNotations.
Local Open Scope Z_scope.

Section Spec.
  Context {R : Type} (rO : R) (radd rmul rsub : R -> R -> R) (ropp : R -> R).

  (** ** Memory *)
  Definition cell (m : memory R) (p : ptr) (i : Z) : option R := m (fst p) (snd p + i).
  Definition value (m : memory R) (p : ptr) (i : Z) : R := match cell m p i with Some v => v | None => rO end.
  (** [p] points to at least [len] reals. *)
  Definition has (m : memory R) (p : ptr) (len : Z) : Prop := forall i, 0 <= i < len -> cell m p i <> None.
  (** In different objects. *)
  Definition apart (p q : ptr) : Prop := fst p <> fst q.
  (** [m'] is [m] with [f 0 .. f (len-1)] at [p]; nothing else has changed. *)
  Definition stored (m m' : memory R) (p : ptr) (len : Z) (f : Z -> R) : Prop :=
    (forall i, 0 <= i < len -> cell m' p i = Some (f i)) /\
    (forall b o, ~ (b = fst p /\ snd p <= o < snd p + len) -> m' b o = m b o).

  (** ** Vectors *)
  Definition vec := Z -> R.
  Definition upper (i : Z) : bool := i mod 24 <? 12.            (* spins 0 and 1 *)
  Definition re_part (i : Z) : bool := i mod 2 =? 0.
  Definition P_plus (x : vec) : vec := fun i => if upper i then x i else rO.
  Definition P_minus (x : vec) : vec := fun i => if upper i then rO else x i.
  Definition g5 (x : vec) : vec := fun i => if upper i then x i else ropp (x i).
  Definition times_i (x : vec) : vec := fun i => if re_part i then ropp (x (i + 1)) else x (i - 1).
  (** Complex number [a] (its two elements) times a vector. *)
  Definition cscale (a x : vec) : vec := fun i =>
    if re_part i then rsub (rmul (a 0) (x i)) (rmul (a 1) (x (i + 1)))
    else radd (rmul (a 0) (x i)) (rmul (a 1) (x (i - 1))).
  Definition scale (a x : vec) : vec := fun i => rmul (a 0) (x i).
  Definition vplus (x y : vec) : vec := fun i => radd (x i) (y i).
  Definition vminus (x y : vec) : vec := fun i => rsub (x i) (y i).

  (** [f 0 + .. + f (k-1)] *)
  Fixpoint sum (f : Z -> R) (k : nat) : R :=
    match k with O => rO | S k' => radd (sum f k') (f (Z.of_nat k')) end.
  Definition sumsq (x : vec) (len : Z) : R := sum (fun i => rmul (x i) (x i)) (Z.to_nat len).
  (** Real and imaginary part of sum over [len] complex numbers of conj(x) y. *)
  Definition dot_re (x y : vec) (len : Z) : R :=
    sum (fun j => radd (rmul (x (2 * j)) (y (2 * j))) (rmul (x (2 * j + 1)) (y (2 * j + 1)))) (Z.to_nat len).
  Definition dot_im (x y : vec) (len : Z) : R :=
    sum (fun j => rsub (rmul (x (2 * j)) (y (2 * j + 1))) (rmul (x (2 * j + 1)) (y (2 * j)))) (Z.to_nat len).

  (** ** What a kernel is asked to do *)

  (** The kernel [c] with pointer parameters [out], [scalars] (each of so many reals) and
      [arrays], and the number of sites [cnt], stores [f] of its inputs at [out], for every memory,
      every number of sites and every choice of addresses in which each of the arrays is either
      the same as [out] or a different object.  [more]: how many reals beyond the last site an
      array must have. *)
  Definition elementwise (c : stmt) (params : list string) (cnt : string) (out : string)
             (scalars : list (string * Z)) (arrays : list (string * Z))
             (f : (string -> vec) -> vec) : Prop :=
    forall (m : memory R) (adr : string -> ptr) (n : Z),
      0 <= n ->
      has m (adr out) (24 * n) ->
      (forall s l, In (s, l) scalars -> has m (adr s) l /\ apart (adr s) (adr out)) ->
      (forall x more, In (x, more) arrays ->
         has m (adr x) (24 * n + (if n =? 0 then 0 else more)) /\
         (adr x = adr out \/ apart (adr x) (adr out))) ->
      exists m',
        call rO radd rmul rsub ropp c (map (fun x => (x, adr x)) params) [(cnt, n)] m = Val m' /\
        stored m m' (adr out) (24 * n) (f (fun x => value m (adr x))).

  (** With 24 reals for every site in each of the arrays, the call does not leave them. *)
  Definition in_bounds (c : stmt) (params : list string) (cnt : string) (out : string)
             (scalars : list (string * Z)) (arrays : list string) : Prop :=
    forall (m : memory R) (adr : string -> ptr) (n : Z),
      0 <= n ->
      has m (adr out) (24 * n) ->
      (forall s l, In (s, l) scalars -> has m (adr s) l /\ apart (adr s) (adr out)) ->
      (forall x, In x arrays -> has m (adr x) (24 * n) /\ (adr x = adr out \/ apart (adr x) (adr out))) ->
      exists m', call rO radd rmul rsub ropp c (map (fun x => (x, adr x)) params) [(cnt, n)] m = Val m'.

  (** The kernel stores results [f] (one real each) at [outs]. *)
  Definition reduces (c : stmt) (params : list string) (cnt : string) (arrays : list string)
             (outs : list (string * ((string -> vec) -> Z -> R))) : Prop :=
    forall (m : memory R) (adr : string -> ptr) (n : Z),
      0 <= n ->
      (forall q f, In (q, f) outs -> has m (adr q) 1) ->
      (forall q f q' f', In (q, f) outs -> In (q', f') outs -> q <> q' -> apart (adr q) (adr q')) ->
      (forall x, In x arrays -> has m (adr x) (24 * n)) ->
      (forall x q f, In x arrays -> In (q, f) outs -> apart (adr x) (adr q)) ->
      exists m',
        call rO radd rmul rsub ropp c (map (fun x => (x, adr x)) params) [(cnt, n)] m = Val m' /\
        (forall q f, In (q, f) outs -> cell m' (adr q) 0 = Some (f (fun x => value m (adr x)) n)) /\
        (forall b o, (forall q f, In (q, f) outs -> ~ (b = fst (adr q) /\ o = snd (adr q))) -> m' b o = m b o).

  (** The kernel stores the first [6 n] elements of [f] at "Out" and the sum of their squares at
      "norm". *)
  Definition with_norm (c : stmt) (params : list string) (cnt : string) (scalars arrays : list string)
             (f : (string -> vec) -> vec) : Prop :=
    forall (m : memory R) (adr : string -> ptr) (n : Z),
      let out := adr "Out"%string in
      let norm := adr "norm"%string in
      0 <= n ->
      has m out (6 * n) -> has m norm 1 -> apart norm out ->
      (forall s, In s scalars -> has m (adr s) 1 /\ apart (adr s) out /\ apart (adr s) norm) ->
      (forall x, In x arrays -> has m (adr x) (6 * n) /\ apart (adr x) norm /\ (adr x = out \/ apart (adr x) out)) ->
      exists m',
        call rO radd rmul rsub ropp c (map (fun x => (x, adr x)) params) [(cnt, n)] m = Val m' /\
        (forall i, 0 <= i < 6 * n -> cell m' out i = Some (f (fun x => value m (adr x)) i)) /\
        cell m' norm 0 = Some (sumsq (f (fun x => value m (adr x))) (6 * n)) /\
        (forall b o, ~ (b = fst out /\ snd out <= o < snd out + 6 * n) -> ~ (b = fst norm /\ o = snd norm) ->
           m' b o = m b o).

  (** ** Spinors *)

  (** The four (two) spin components of colour [c] at site [s]. *)
  Definition spinor (x : vec) (s c : Z) : quad (R * R) :=
    let e a := (x (24 * s + (6 * a + 2 * c)), x (24 * s + (6 * a + 2 * c + 1))) in Quad (e 0) (e 1) (e 2) (e 3).
  Definition half_spinor (x : vec) (s c : Z) : (R * R) * (R * R) :=
    let e a := (x (12 * s + (6 * a + 2 * c)), x (12 * s + (6 * a + 2 * c + 1))) in (e 0, e 1).

  (** A kernel from vectors of [lin] reals per site at "src" to vectors of [lout] reals per site at
      "dst", with a local array [tmp] of [ltmp] reals.  [P n src old new]: what has to hold between the source,
      the old and the new destination for [n] sites. *)
  Definition spin_kernel (c : stmt) (tmp : string) (ltmp lin lout : Z) (P : Z -> vec -> vec -> vec -> Prop) : Prop :=
    forall (m : memory R) (src dst t : ptr) (n : Z),
      0 <= n -> has m src (lin * n) -> has m dst (lout * n) -> has m t ltmp ->
      apart src dst -> apart t src -> apart t dst ->
      exists m',
        call rO radd rmul rsub ropp c [("src", src); ("dst", dst); (tmp, t)]%string [("n_vec", n)]%string m = Val m' /\
        (forall i, 0 <= i < lout * n -> cell m' dst i <> None) /\
        P n (value m src) (value m dst) (value m' dst) /\
        (forall b o, b <> fst t -> ~ (b = fst dst /\ snd dst <= o < snd dst + lout * n) -> m' b o = m b o).

  (** ** The three families of spin kernels, for direction [mu] and sign [s] *)
  Notation O := (rcomplex_ops rO radd rsub ropp).
  Definition projects (mu s : Z) (c : stmt) : Prop :=
    spin_kernel c "tmp_spinor"%string 24 24 12 (fun n src old new =>
      forall site col, 0 <= site < n -> 0 <= col < 3 ->
        spinProject O (spinor src site col) mu s = Val (half_spinor new site col)).
  Definition reconstructs (mu s : Z) (c : stmt) : Prop :=
    spin_kernel c "tmp_hspinor"%string 12 12 24 (fun n src old new =>
      forall site col, 0 <= site < n -> 0 <= col < 3 ->
        spinReconstruct O (half_spinor src site col) mu s = Val (spinor new site col)).
  Definition adds_reconstruction (mu s : Z) (c : stmt) : Prop :=
    spin_kernel c "tmp_hspinor"%string 12 12 24 (fun n src old new =>
      forall site col, 0 <= site < n -> 0 <= col < 3 ->
        exists w, spinReconstruct O (half_spinor src site col) mu s = Val w /\
                  spinor new site col = vmap2 (e_add O) (spinor old site col) w).
End Spec.
