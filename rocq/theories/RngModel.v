(** Model of the random number generator: include/qdp_primseed.h, lib/qdp_random.cc,
    include/qdp_random.h and the random() functions of include/qdp_scalar_specific.h and
    include/qdp_parscalar_specific.h; and of lib/qdp_rannyu.cc. *)
From Coq Require Import List Arith ZArith Bool Permutation.
From Verif Require Import Base LayoutModel EvalModel.
Import ListNotations.
Local Open Scope Z_scope.

(** int addition; see [imul] in EvalModel.v. *)
Definition iadd (x y : Z) : res Z := if fits (x + y) then Val (x + y) else Undef.

(** ** Seeds: PSeed, include/qdp_primseed.h:34-104: four int limbs. *)
Record seed := mkSeed { e0 : Z; e1 : Z; e2 : Z; e3 : Z }.

(** PSeed::assign(PScalar), include/qdp_primseed.h:51-62; >> is the arithmetic shift. *)
Definition seed_of_int (n : Z) : seed :=
  mkSeed (Z.land n 4095) (Z.land (Z.shiftr n 12) 4095) (Z.land (Z.shiftr n 24) 4095) 0.

(** PSeed * PSeed, include/qdp_primseed.h:337-386, every int operation checked. *)
Definition seed_mul (s1 s2 : seed) : res seed :=
  bind (imul (e3 s1) (e0 s2)) (fun i3 =>
  bind (imul (e2 s1) (e1 s2)) (fun p => bind (iadd i3 p) (fun i3 =>
  bind (imul (e1 s1) (e2 s2)) (fun p => bind (iadd i3 p) (fun i3 =>
  bind (imul (e0 s1) (e3 s2)) (fun p => bind (iadd i3 p) (fun i3 =>
  bind (imul (e2 s1) (e0 s2)) (fun i2 =>
  bind (imul (e1 s1) (e1 s2)) (fun p => bind (iadd i2 p) (fun i2 =>
  bind (imul (e0 s1) (e2 s2)) (fun p => bind (iadd i2 p) (fun i2 =>
  bind (imul (e1 s1) (e0 s2)) (fun i1 =>
  bind (imul (e0 s1) (e1 s2)) (fun p => bind (iadd i1 p) (fun i1 =>
  bind (imul (e0 s1) (e0 s2)) (fun i0 =>
  bind (iadd i1 (Z.shiftr i0 12)) (fun i1 =>
  bind (iadd i2 (Z.shiftr i1 12)) (fun i2 =>
  bind (iadd i3 (Z.shiftr i2 12)) (fun i3 =>
  Val (mkSeed (Z.land i0 4095) (Z.land i1 4095) (Z.land i2 4095) (Z.land i3 2047))))))))))))))))))))).

(** The same without overflow checks; equal to [seed_mul] on seeds with in-range limbs
    (RngProofs.v, [seed_mul_smul]).  The rest of the model uses this version. *)
Definition smul (s1 s2 : seed) : seed :=
  let i3 := e3 s1 * e0 s2 + e2 s1 * e1 s2 + e1 s1 * e2 s2 + e0 s1 * e3 s2 in
  let i2 := e2 s1 * e0 s2 + e1 s1 * e1 s2 + e0 s1 * e2 s2 in
  let i1 := e1 s1 * e0 s2 + e0 s1 * e1 s2 in
  let i0 := e0 s1 * e0 s2 in
  let i1 := i1 + Z.shiftr i0 12 in
  let i2 := i2 + Z.shiftr i1 12 in
  let i3 := i3 + Z.shiftr i2 12 in
  mkSeed (Z.land i0 4095) (Z.land i1 4095) (Z.land i2 4095) (Z.land i3 2047).

(** PSeed | PSeed, 393-406, and PSeed | PScalar, 415-425. *)
Definition seed_or (l r : seed) : seed :=
  mkSeed (Z.lor (e0 l) (e0 r)) (Z.lor (e1 l) (e1 r)) (Z.lor (e2 l) (e2 r)) (Z.lor (e3 l) (e3 r)).
Definition seed_or_int (l : seed) (r : Z) : seed := seed_or l (seed_of_int r).

(** PSeed << PScalar, 438-464. *)
Definition seed_shl (s1 : seed) (n : Z) : seed :=
  let i0 := Z.shiftl (e0 s1) n in
  let i1 := Z.shiftl (e1 s1) n in
  let i2 := Z.shiftl (e2 s1) n in
  let i3 := Z.shiftl (e3 s1) n in
  let i1 := Z.lor i1 (Z.land (Z.shiftr i0 12) 4095) in
  let i2 := Z.lor i2 (Z.land (Z.shiftr i1 12) 4095) in
  let i3 := Z.lor i3 (Z.land (Z.shiftr i2 12) 4095) in
  mkSeed (Z.land i0 4095) (Z.land i1 4095) (Z.land i2 4095) (Z.land i3 2047).

(** PSeed == PSeed, 276-286, and !=, 294-304. *)
Definition seed_eq (l r : seed) : bool :=
  (e0 l =? e0 r) && (e1 l =? e1 r) && (e2 l =? e2 r) && (e3 l =? e3 r).
Definition seed_ne (l r : seed) : bool :=
  negb (e0 l =? e0 r) || negb (e1 l =? e1 r) || negb (e2 l =? e2 r) || negb (e3 l =? e3 r).

(** ** initRNG, lib/qdp_random.cc *)

(** numbits, 29-40.  The recursion bound 33 is never reached: iceiling overflows before. *)
Fixpoint numbits_loop (fuel : nat) (iceiling num x : Z) : res Z :=
  match fuel with
  | O => Undef
  | S f => if iceiling <=? x
           then bind (imul iceiling 2) (fun c => numbits_loop f c (num + 1) x)
           else Val num
  end.
Definition numbits (x : Z) : res Z := numbits_loop 33 2 1 x.

(** ran_mult, 65-70. *)
Definition ran_mult : seed :=
  let seed_tmp3 := seed_of_int 1222 in
  let seed_tmp2 := seed_or_int (seed_shl seed_tmp3 12) 1498 in
  let seed_tmp1 := seed_or_int (seed_shl seed_tmp2 12) 712 in
  seed_or_int (seed_shl seed_tmp1 12) 1645.

(** lexoc at the site with coordinates [c], 83-92 (latticeCoordinate(m) is the m-th
    coordinate of the site). *)
Definition lexoc (L c : list nat) : Z :=
  fold_left (fun acc m => acc * Z.of_nat (get L m) + Z.of_nat (get c m))
            (rev (seq 0 (length L - 1))) (Z.of_nat (get c (length L - 1))) + 1.

(** The loops 113-123 (one site of it) and 141-152. *)
Fixpoint pow_loop (nbits : nat) (lex : Z) (tmp laa : seed) : seed :=
  match nbits with
  | O => tmp
  | S n => let lbit := 0 <? Z.land lex 1 in
           pow_loop n (Z.shiftr lex 1) (if lbit then smul tmp laa else tmp) (smul laa laa)
  end.

Record rng := { r_mult : seed; r_mult_n : seed; r_latt : list seed }.

(** initRNG, 54-166, on node [node]; [r_latt] is *lattice_ran_mult. *)
Definition initRNG (lay : layout) (node : nat) : res rng :=
  let v := Z.of_nat (vol (l_size lay)) in
  bind (numbits v) (fun nbits =>
  let nb := Z.to_nat nbits in
  Val {| r_mult := ran_mult;
         r_mult_n := pow_loop nb v ran_mult ran_mult;
         r_latt := map (fun i => pow_loop nb (lexoc (l_size lay) (l_coord lay node i)) (seed_of_int 1) ran_mult)
                       (seq 0 (l_sites lay)) |}).

(** initDefaultRNG, 44-50. *)
Definition default_seed : seed := seed_of_int 11.

(** ** Drawing numbers *)

Section Draw.
  Context {R : Type}.
  (** seedToFloat followed by the conversions of sranf and fill_random; see [seedToFloat32]
      and [seedToFloat64] below. *)
  Variable conv : seed -> R.

  (** sranf, lib/qdp_random.cc:195-235: the number, the new seed, the new skewed seed. *)
  Definition sranf (sd skewed_seed seed_mult : seed) : R * seed * seed :=
    (conv skewed_seed, smul sd seed_mult, smul skewed_seed seed_mult).

  (** fill_random of a site type made of [k] words (include/qdp_random.h:54-65,
      qdp_reality.h:1772-1774, 2533-2536, qdp_primmatrix.h:1559-1565, qdp_primvector.h:835-839):
      one sranf per word, in order.  Returns the words and the final seed. *)
  Fixpoint fill_random (k : nat) (sd skewed_seed seed_mult : seed) : list R * seed :=
    match k with
    | O => ([], sd)
    | S k' => let '(x, sd', sk') := sranf sd skewed_seed seed_mult in
              let '(xs, sd'') := fill_random k' sd' sk' seed_mult in
              (x :: xs, sd'')
    end.

  (** random(OScalar), include/qdp_scalar_specific.h:323-333: the number and the new
      RNG::ran_seed. *)
  Definition random_scalar (g : rng) (k : nat) (ran_seed : seed) : list R * seed :=
    fill_random k ran_seed (smul ran_seed (r_mult g)) (r_mult g).

  (** One iteration of random(OLattice, Subset), include/qdp_scalar_specific.h:350-355. *)
  Definition site_fill (g : rng) (k : nat) (ran_seed : seed) (i : nat) : list R * seed :=
    fill_random k ran_seed (smul ran_seed (nth i (r_latt g) (mkSeed 0 0 0 0))) (r_mult_n g).

  (** The thread-private variable seed after the thread's iterations; None: still
      uninitialised. *)
  Definition thread_seed (g : rng) (k : nat) (tab : list nat) (ran_seed : seed) (iters : list nat)
    : option seed :=
    match rev iters with
    | [] => None
    | j :: _ => Some (snd (site_fill g k ran_seed (nth j tab 0%nat)))
    end.

  (** The critical sections, entered in the order [order] of the threads; the last writer
      wins.  [guard]: the test myId < nodeSites of the multi-node version
      (include/qdp_parscalar_specific.h:539-545), absent in the single-process version
      (include/qdp_scalar_specific.h:357-360). *)
  Definition write_back (guard : bool) (g : rng) (k : nat) (tab : list nat) (ran_seed : seed)
      (chunks : list (list nat)) (order : list nat) : res seed :=
    fold_left (fun acc t => if guard && (length tab <=? t)%nat then acc
                            else of_option (thread_seed g k tab ran_seed (nth t chunks [])))
              order (Val ran_seed).

  (** random(OLattice d, Subset s), include/qdp_scalar_specific.h:338-363 and
      include/qdp_parscalar_specific.h:516-547: iterations distributed over the threads in
      the way [chunks], site loops interleaved, barrier, then the critical sections. *)
  Definition random_run (guard : bool) (g : rng) (k : nat) (tab : list nat)
      (chunks : list (list nat)) (order : list nat)
      (dflt : list R) (d : list (list R)) (ran_seed : seed) (d' : list (list R)) (r' : res seed) : Prop :=
    chunks <> [] /\
    Permutation (concat chunks) (seq 0 (length tab)) /\
    Permutation order (seq 0 (length chunks)) /\
    parfor_run (fun _ i => fst (site_fill g k ran_seed i)) dflt chunks tab d d' /\
    r' = write_back guard g k tab ran_seed chunks order.

  (** A program drawing numbers; setrn and savern (lib/qdp_random.cc:177-187) read and write
      ran_seed, so a history between them is a sequence of draws. *)
  Inductive draw :=
  | DScalar (k : nat)
  | DLattice (k : nat) (tab : list nat).
  Inductive drawn :=
  | OutScalar (words : list R)
  | OutLattice (field : list (list R)).
  Inductive draws (guard : bool) (g : rng) : seed -> list draw -> list drawn -> seed -> Prop :=
  | draws_nil : forall s, draws guard g s [] [] s
  | draws_scalar : forall s k ws s1 h o s',
      random_scalar g k s = (ws, s1) ->
      draws guard g s1 h o s' ->
      draws guard g s (DScalar k :: h) (OutScalar ws :: o) s'
  | draws_lattice : forall s k tab chunks order dflt d d' s1 h o s',
      (forall i, In i tab -> (i < length d)%nat) ->
      random_run guard g k tab chunks order dflt d s d' (Val s1) ->
      draws guard g s1 h o s' ->
      draws guard g s (DLattice k tab :: h) (OutLattice d' :: o) s'.

  (** gaussian(OLattice d, Subset s), include/qdp_scalar_specific.h:385-402: two random
      fields, combined site by site by fill_gaussian ([gauss]). *)
  Definition gaussian_run (gauss : list R -> list R -> list R) (guard : bool) (g : rng) (k : nat)
      (tab : list nat) (dflt : list R) (d : list (list R)) (ran_seed : seed) (d' : list (list R))
      (s' : seed) : Prop :=
    exists ch1 o1 ch2 o2 ch3 r1 r2 r1' r2' s1,
      length r1 = length d /\ length r2 = length d /\
      random_run guard g k tab ch1 o1 dflt r1 ran_seed r1' (Val s1) /\
      random_run guard g k tab ch2 o2 dflt r2 s1 r2' (Val s') /\
      Permutation (concat ch3) (seq 0 (length tab)) /\
      parfor_run (fun _ i => gauss (nth i r1' dflt) (nth i r2' dflt)) dflt ch3 tab d d'.
End Draw.

(** ** seedToFloat

    Floating-point numbers are represented by integers in units of 2^-47.  All
    multiplications by 2^-11 and 2^-12 are exact (no operand is below 2^-47), so only the
    additions round.  [rne p n]: round-to-nearest, ties to even, to [p] significant bits. *)
Definition rne (p n : Z) : Z :=
  let k := Z.log2 n + 1 - p in
  if k <=? 0 then n
  else let q := n / 2 ^ k in
       let r := n mod 2 ^ k in
       let half := 2 ^ (k - 1) in
       (if (r <? half) || ((r =? half) && Z.even q) then q else q + 1) * 2 ^ k.

(** seedToFloat, include/qdp_primseed.h:473-504, with [p] significant bits (24 for float, 53
    for double), in units of 2^-47: after each addition the value is scaled down, which is
    represented by giving the next limb a higher weight. *)
Definition seedToFloat (p : Z) (s : seed) : Z :=
  let d := rne p (e0 s) in
  let fs2 := rne p (e1 s * 2 ^ 12 + d) in
  let fs2 := rne p (e2 s * 2 ^ 24 + fs2) in
  rne p (e3 s * 2 ^ 36 + fs2).

(** sranf returns float: lib/qdp_random.cc:222-226 casts the Real (float or double,
    depending on the base precision) to float; float to float is the identity. *)
Definition number32 (s : seed) : Z := seedToFloat 24 s.
Definition number64 (s : seed) : Z := rne 24 (seedToFloat 53 s).

(** ** RANNYU, lib/qdp_rannyu.cc *)

(** A seed ll[0..3]. *)
Record ranny := mkR { ll0 : Z; ll1 : Z; ll2 : Z; ll3 : Z }.

(** __rand, 37-52, with m = {0,1,3513,821}: the new state.  int operations checked. *)
Definition rannyu_step (l : ranny) : res ranny :=
  bind (imul (ll0 l) 821) (fun a => bind (imul (ll1 l) 3513) (fun b => bind (iadd a b) (fun a =>
  bind (imul (ll2 l) 1) (fun b => bind (iadd a b) (fun a =>
  bind (imul (ll3 l) 0) (fun b => bind (iadd a b) (fun ii0 =>
  bind (imul (ll1 l) 821) (fun a => bind (imul (ll2 l) 3513) (fun b => bind (iadd a b) (fun a =>
  bind (imul (ll3 l) 1) (fun b => bind (iadd a b) (fun ii1 =>
  bind (imul (ll2 l) 821) (fun a => bind (imul (ll3 l) 3513) (fun b => bind (iadd a b) (fun ii2 =>
  bind (imul (ll3 l) 821) (fun a => bind (iadd a 1) (fun ii3 =>
  bind (iadd ii2 (Z.shiftr ii3 12)) (fun ii2 =>
  bind (iadd ii1 (Z.shiftr ii2 12)) (fun ii1 =>
  bind (iadd ii0 (Z.shiftr ii1 12)) (fun s =>
  Val (mkR (Z.shiftr s 12) (Z.land ii1 4095) (Z.land ii2 4095) (Z.land ii3 4095)))))))))))))))))))))).

(** ran, line 51, in units of 2^-48 (exact in double as long as ll[0] < 2^17). *)
Definition rannyu_ran (l : ranny) : Z :=
  ll0 l * 2 ^ 36 + ll1 l * 2 ^ 24 + ll2 l * 2 ^ 12 + ll3 l.

(** The hidden state: ran_seed and inited, 27-29. *)
Record rstate := { rs_seed : option ranny; rs_inited : bool }.
Definition rannyu_start : rstate := {| rs_seed := None; rs_inited := false |}.
Definition rannyu_default : ranny := mkR 13 15 1 17.
(** random(), 57-73. *)
Definition rannyu_random (st : rstate) : res (Z * rstate) :=
  let st := if rs_inited st then st else {| rs_seed := Some rannyu_default; rs_inited := true |} in
  bind (of_option (rs_seed st)) (fun l =>
  bind (rannyu_step l) (fun l' => Val (rannyu_ran l', {| rs_seed := Some l'; rs_inited := rs_inited st |}))).
(** setrn, 77-86, for an array of four elements. *)
Definition rannyu_setrn (st : rstate) (iseed : ranny) : rstate :=
  {| rs_seed := Some iseed; rs_inited := rs_inited st |}.
(** savern, 90-93. *)
Definition rannyu_savern (st : rstate) : option ranny := rs_seed st.
(** random(RNGState_t), 97-106: the state is passed along. *)
Definition rannyu_pure (l : ranny) : res (Z * ranny) :=
  bind (rannyu_step l) (fun l' => Val (rannyu_ran l', l')).
