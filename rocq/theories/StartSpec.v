(** What a command line says, without reference to the loop that reads it. *)
From Coq Require Import List Bool ZArith NArith String.
From Verif Require Import NerscHeader XmlModel XmlSpec StartModel.
Import ListNotations.
Local Open Scope nat_scope.

(** [begins t z rest]: the argument starts with the number [z] (spaces and a sign allowed before the digits) and goes on
    with [rest], which does not begin with a digit *)
Definition begins (t : tok) (z : Z) (rest : tok) : Prop :=
  exists ws num neg m, t = ws ++ num ++ rest /\ spaces ws /\ numeral num neg m /\ z = signed_value neg m /\
  forall c r, rest = c :: r -> ~ (48 <= c <= 57)%N.
Definition is_int (z : Z) : Prop := (- 2 ^ 31 <= z < 2 ^ 31)%Z.
(** an argument with the number [z] in front *)
Definition number (t : tok) (z : Z) : Prop := is_int z /\ exists rest, begins t z rest.
(** [pair_text t a b]: the two numbers that an argument of the form c:s gives, each one if it is there *)
Inductive pair_text (t : tok) : option Z -> option Z -> Prop :=
| pair_none : (forall z rest, ~ begins t z rest) -> pair_text t None None
| pair_one a rest : is_int a -> begins t a rest -> (forall r, rest <> 58%N :: r) -> pair_text t (Some a) None
| pair_colon a rest : is_int a -> begins t a (58%N :: rest) -> (forall z r, ~ begins rest z r) -> pair_text t (Some a) None
| pair_both a rest b : is_int a -> begins t a (58%N :: rest) -> number rest b -> pair_text t (Some a) (Some b).

(** The parts of a command line *)
Inductive item :=
| Verbose                                   (** -V *)
| Level (t : tok) (z : Z)                   (** -p t *)
| Pool (t : tok)                            (** -poolsize t *)
| Geom (l : list (tok * Z))                 (** -geom t1 ... tNd *)
| IoGeom (l : list (tok * Z))               (** -iogeom t1 ... tNd *)
| Bind (t : tok) (a b : option Z)           (** -bind t *)
| Other (t : tok).                          (** anything else *)
Definition words (i : item) : list tok :=
  match i with
  | Verbose => [txt "-V"]
  | Level t _ => [txt "-p"; t]
  | Pool t => [txt "-poolsize"; t]
  | Geom l => txt "-geom" :: map fst l
  | IoGeom l => txt "-iogeom" :: map fst l
  | Bind t _ _ => [txt "-bind"; t]
  | Other t => [t]
  end.
Definition options_par (profiling : bool) : list tok :=
  (if profiling then [txt "-p"] else []) ++ [txt "-V"; txt "-poolsize"; txt "-geom"; txt "-iogeom"; txt "-bind"].
Definition options_one (profiling : bool) : list tok := (if profiling then [txt "-p"] else []) ++ [txt "-poolsize"].
(** A part in order: the option exists in this build, and where numbers are needed there are numbers *)
Definition in_order (options : list tok) (nd : nat) (i : item) : Prop :=
  match i with
  | Other t => ~ In t options
  | _ => In (hd [] (words i)) options
  end /\
  match i with
  | Level t z => number t z
  | Geom l | IoGeom l => List.length l = nd /\ Forall (fun p => number (fst p) (snd p)) l
  | Bind t a b => pair_text t a b
  | _ => True
  end.

(** The last part that says something about a setting decides; the default if none does *)
Definition latest {A} (f : item -> option A) (d : A) (l : list item) : A :=
  fold_left (fun a i => match f i with Some x => x | None => a end) l d.
Definition settings {F} (scan_f : tok -> option F) (eight : F) (l : list item) : config F :=
  mkConfig
    (latest (fun i => match i with Verbose => Some true | _ => None end) false l)
    (latest (fun i => match i with Level _ z => Some (Some z) | _ => None end) None l)
    (latest (fun i => match i with Pool t => scan_f t | _ => None end) eight l)
    (latest (fun i => match i with Geom g => Some (Some (map snd g)) | _ => None end) None l)
    (latest (fun i => match i with IoGeom g => Some (Some (map snd g)) | _ => None end) None l)
    (latest (fun i => match i with Bind _ _ _ => Some true | _ => None end) false l)
    (latest (fun i => match i with Bind _ a _ => a | _ => None end) (-1)%Z l)
    (latest (fun i => match i with Bind _ _ b => b | _ => None end) (-1)%Z l).

(** Histories of calls in which the library is stopped exactly when it runs: start, stop, start, stop, ... *)
Fixpoint alternating (running : bool) (h : list op) : Prop :=
  match h with
  | [] => True
  | Start :: h' => running = false /\ alternating true h'
  | Stop :: h' => running = true /\ alternating false h'
  | Panic :: _ => False
  end.
