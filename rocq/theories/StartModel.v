(** Starting and stopping the library: the command line taken by QDP_initialize and the life of the library between
    QDP_initialize, QDP_finalize and QDP_abort.
    lib/qdp_parscalar_init.cc 39-363 (parallel build), lib/qdp_scalar_init.cc 26-172 (build for one node).

    Characters are numbers (ASCII). A program argument is the list of its characters without the final zero; the array
    of arguments ends in a null pointer, and reading through it is undefined.
    Simplified: messages on stderr, profiling output, threads and the calls into QMP are left out except where stated;
    the options of USE_REMOTE_QIO (-cd, -rti, -rtinode) are left out. The number of sscanf "%f" is a parameter. *)
From Coq Require Import List Bool Arith ZArith NArith String Lia.
From Verif Require Import Base NerscHeader.
Import ListNotations.
Local Open Scope nat_scope.
Local Notation length := List.length.

Definition tok := list N.
(** strcmp(a, b) == 0 *)
Fixpoint same (a b : tok) : bool :=
  match a, b with
  | [], [] => true
  | x :: a', y :: b' => (x =? y)%N && same a' b'
  | _, _ => false
  end.

(** What the command line sets: QMP_verboseP, the argument of setProgramProfileLevel (if called), pool_size_in_gb,
    logical_geom if setGeomP, logical_iogeom if setIOGeomP, threadbind, n_cores and n_threads_per_core. *)
Record config (F : Type) := mkConfig {
  verbose : bool; level : option Z; pool : F; geom : option (list Z); iogeom : option (list Z);
  bound : bool; cores : Z; threads : Z }.
Arguments mkConfig {F}. Arguments verbose {F}. Arguments level {F}. Arguments pool {F}. Arguments geom {F}.
Arguments iogeom {F}. Arguments bound {F}. Arguments cores {F}. Arguments threads {F}.

Section Start.
  Context {F : Type} (scan_f : tok -> option F) (eight : F) (nd : nat) (profiling : bool).

  (** The values before the loop: lib/qdp_parscalar_init.cc 52 and 62-75 (n_cores, n_threads_per_core: 33-34) *)
  Definition defaults : config F := mkConfig false None eight None None false (-1)%Z (-1)%Z.

  (** ( *argv)[i], given to sscanf: the null pointer at the end is undefined *)
  Definition arg (argv : list tok) (i : nat) : res tok := of_option (nth_error argv i).
  (** int uu; sscanf(( *argv)[++i], "%d", &uu); then uu is used: undefined if nothing was converted.
      lib/qdp_parscalar_init.cc 127-129, 142-144, 152-154 *)
  Definition int_at (argv : list tok) (i : nat) : res Z :=
    bind (arg argv i) (fun t => bind (scan_dec t) (fun o => of_option (option_map fst o))).
  (** for(int j=0; j < n; j++) with ++i before each: 140-145, 150-155 *)
  Fixpoint ints_at (n : nat) (argv : list tok) (i : nat) : res (list Z * nat) :=
    match n with
    | O => Val ([], i)
    | S k => bind (int_at argv (S i)) (fun z => bind (ints_at k argv (S i)) (fun '(l, j) => Val (z :: l, j)))
    end.
  (** sscanf(( *argv)[++i], "%d:%d", &n_cores, &n_threads_per_core): what is not converted keeps its value. 160 *)
  Definition scan_pair (t : tok) : res (option Z * option Z) :=
    bind (scan_dec t) (fun o =>
    match o with
    | None => Val (None, None)
    | Some (a, r) =>
        match r with
        | c :: r' => if (c =? 58)%N then bind (scan_dec r') (fun o' => Val (Some a, option_map fst o')) else Val (Some a, None)
        | [] => Val (Some a, None)
        end
    end).
  Definition or_else {A} (o : option A) (d : A) : A := match o with Some a => a | None => d end.

  (** The body of the loop, parallel build: 120-196 up to the check at its end *)
  Definition step_par (argv : list tok) (c : config F) (i : nat) : res (config F * nat) :=
    bind (arg argv i) (fun t =>
    if same t (txt "-V") then Val (mkConfig true (level c) (pool c) (geom c) (iogeom c) (bound c) (cores c) (threads c), i)
    else if profiling && same t (txt "-p") then
      bind (int_at argv (S i)) (fun z => Val (mkConfig (verbose c) (Some z) (pool c) (geom c) (iogeom c) (bound c) (cores c) (threads c), S i))
    else if same t (txt "-poolsize") then
      bind (arg argv (S i)) (fun t' => Val (mkConfig (verbose c) (level c) (or_else (scan_f t') (pool c)) (geom c) (iogeom c) (bound c) (cores c) (threads c), S i))
    else if same t (txt "-geom") then
      bind (ints_at nd argv i) (fun '(l, j) => Val (mkConfig (verbose c) (level c) (pool c) (Some l) (iogeom c) (bound c) (cores c) (threads c), j))
    else if same t (txt "-iogeom") then
      bind (ints_at nd argv i) (fun '(l, j) => Val (mkConfig (verbose c) (level c) (pool c) (geom c) (Some l) (bound c) (cores c) (threads c), j))
    else if same t (txt "-bind") then
      bind (arg argv (S i)) (fun t' => bind (scan_pair t') (fun '(a, b) =>
        Val (mkConfig (verbose c) (level c) (pool c) (geom c) (iogeom c) true (or_else a (cores c)) (or_else b (threads c)), S i)))
    else Val (c, i)).
  (** The body of the loop, build for one node: lib/qdp_scalar_init.cc 107-121 up to the check at its end. The argument is
      looked at again, at the new place, after -p. *)
  Definition step_one (argv : list tok) (c : config F) (i : nat) : res (config F * nat) :=
    bind (arg argv i) (fun t =>
    bind (if profiling && same t (txt "-p") then
            bind (int_at argv (S i)) (fun z => Val (mkConfig (verbose c) (Some z) (pool c) (geom c) (iogeom c) (bound c) (cores c) (threads c), S i))
          else Val (c, i)) (fun '(c, i) =>
    bind (arg argv i) (fun t =>
    if same t (txt "-poolsize") then
      bind (arg argv (S i)) (fun t' => Val (mkConfig (verbose c) (level c) (or_else (scan_f t') (pool c)) (geom c) (iogeom c) (bound c) (cores c) (threads c), S i))
    else Val (c, i)))).

  (** for (int i=1; i < *argc; i++) { step; if (i >= *argc) "missing argument at the end", abort }: 118-196; scalar 105-127.
      [fuel]: one turn per argument is enough. *)
  Fixpoint parse (step : list tok -> config F -> nat -> res (config F * nat)) (fuel : nat) (argv : list tok) (c : config F) (i : nat)
    : res (config F) :=
    match fuel with
    | O => Val c
    | S k =>
        if i <? length argv then
          bind (step argv c i) (fun '(c, i) => if length argv <=? i then Abort else parse step k argv c (S i))
        else Val c
    end.
  (** Look for -h, from argument 0 on: then usage and abort (54-60, 79-113; before the layout is set up every node takes
      itself for the primary one); scalar 77-101: usage and exit *)
  Definition command_line (step : list tok -> config F -> nat -> res (config F * nat)) (argv : list tok) : res (config F) :=
    if existsb (fun t => same t (txt "-h")) argv then Abort else parse step (length argv) argv defaults 1.
  Definition command_line_par := command_line step_par.
  Definition command_line_one := command_line step_one.
End Start.

(** ** The life of the library.
    The flag isInit and the two arrays of ThreadReductions, allocated by QDP_initialize and deleted by QDP_finalize; both
    are always treated alike and are one here. *)
Inductive block := Null | Live | Freed.
Record life := mkLife { inited : bool; arrays : block }.
(** Before the first call: isInit = false; the pointers are static and null *)
Definition born : life := mkLife false Null.
(** delete[] p: nothing for a null pointer, undefined for memory already deleted *)
Definition delete (b : block) : res block := match b with Null => Val Null | Live => Val Freed | Freed => Undef end.
(** QDP_finalize of the build for one node: lib/qdp_scalar_init.cc 135-163. The pointers are compared with null but
    not set to null. *)
Definition finalize_one (s : life) : res life :=
  bind (match arrays s with Null => Val Null | b => delete b end) (fun b => Val (mkLife false b)).
(** QDP_abort of the build for one node: QDP_finalize, then exit: 166-170 *)
Definition abort_one (s : life) : res life := bind (finalize_one s) (fun _ => Abort).
(** QDP_initialize of the build for one node, with a command line in order: 27-128; QDP_error_exit ends in QDP_abort
    (lib/qdp_util.cc 92-112) *)
Definition init_one (s : life) : res life := if inited s then abort_one s else Val (mkLife true Live).
(** QDP_finalize of the parallel build: lib/qdp_parscalar_init.cc 325-356; QDP_abort is QMP_abort: 359-362 *)
Definition finalize_par (s : life) : res life :=
  if negb (inited s) then Abort else bind (delete (arrays s)) (fun b => Val (mkLife false b)).
Definition abort_par (s : life) : res life := Abort.
(** QDP_initialize of the parallel build: 40-318. Simplified: QMP starts again after it has been stopped. *)
Definition init_par (s : life) : res life := if inited s then Abort else Val (mkLife true Live).

Inductive op := Start | Stop | Panic.
Definition do_one (o : op) (s : life) : res life := match o with Start => init_one s | Stop => finalize_one s | Panic => abort_one s end.
Definition do_par (o : op) (s : life) : res life := match o with Start => init_par s | Stop => finalize_par s | Panic => abort_par s end.
(** A program that makes these calls in this order *)
Fixpoint run (d : op -> life -> res life) (h : list op) (s : life) : res life :=
  match h with [] => Val s | o :: h' => bind (d o s) (run d h') end.
(** QDP_isInitialized: lib/qdp_parscalar_init.cc 322, lib/qdp_scalar_init.cc 131 *)
Definition is_initialized (s : life) : bool := inited s.
