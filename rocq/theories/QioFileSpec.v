From Coq Require Import List Bool Arith.
Import ListNotations.

(** What a user of QDPFileReader and QDPFileWriter (include/qdp_qdpio.h 320-418, 560-720)
    believes about files and objects, in terms of the public functions only. *)

Inductive kind := Reader | Writer.
(** QDPIO_CREATE, QDPIO_OPEN, QDPIO_APPEND. *)
Inductive mode := Create | Truncate | Append.

Section Spec.
  (** a record: user metadata and data *)
  Context {H D : Type}.
  Definition entry := (H * D)%type.

  (** A file on the disk: a list of records, or a file that nobody finished. *)
  Inductive content := Whole (rs : list entry) | Unfinished.

  (** The statements of a program.  Objects are numbered in the order they are made.  [ok] is
      the answer of the disk: false when it is full, say. *)
  Inductive op :=
  | Make (k : kind)
  | OpenRead (o p : nat)
  | OpenWrite (o p : nat) (m : mode)
  | Close (o : nat) (ok : bool)
  | Destroy (o : nat) (ok : bool)
  | Header (o : nat)
  | Read (o : nat)
  | Write (o : nat) (r : entry) (ok : bool)
  | IsOpen (o : nat)
  | Eof (o : nat)
  | Bad (o : nat)
  | Clear (o : nat) (bad : bool)
  | Copy (o : nat).

  Inductive out := Nothing | Bool (b : bool) | GotHeader (h : H) | GotRecord (r : entry).

  (** The file an object has open: the records not yet read, or the records of the file. *)
  Inductive sfile := Rd (p : nat) (rest : list entry) | Wr (p : nat) (rs : list entry).
  Record sobj := { s_kind : kind; s_file : option sfile; s_bad : bool }.
  Record state := { s_disk : nat -> option content; s_objs : list (option sobj) }.

  Inductive sres := SRan (s : state) (x : out) | SStop (s : state).

  Definition upd {A} (f : nat -> A) (k : nat) (v : A) : nat -> A := fun i => if i =? k then v else f i.
  Fixpoint put {A} (l : list A) (i : nat) (v : A) : list A :=
    match l, i with
    | [], _ => []
    | _ :: t, 0 => v :: t
    | x :: t, S i' => x :: put t i' v
    end.

  Definition the (s : state) (o : nat) : option sobj :=
    match nth_error (s_objs s) o with Some (Some a) => Some a | _ => None end.
  Definition with_obj (s : state) (o : nat) (a : option sobj) : state :=
    {| s_disk := s_disk s; s_objs := put (s_objs s) o a |}.
  Definition with_file (a : sobj) (f : option sfile) : sobj :=
    {| s_kind := s_kind a; s_file := f; s_bad := s_bad a |}.

  (** Closing puts what was written on the disk. *)
  Definition closed_disk (s : state) (a : sobj) : nat -> option content :=
    match s_file a with Some (Wr p rs) => upd (s_disk s) p (Some (Whole rs)) | _ => s_disk s end.

  (** [excl]: opening an existing file with QDPIO_CREATE is an error. *)
  Definition opened_write (excl : bool) (c : option content) (m : mode) : option (list entry) :=
    match c, m with
    | Some (Whole rs), Append => Some rs
    | Some _, Create => if excl then None else Some []
    | _, _ => Some []
    end.

  Definition spec_step (excl : bool) (s : state) (x : op) : sres :=
    match x with
    | Make k => SRan {| s_disk := s_disk s;
                        s_objs := s_objs s ++ [Some {| s_kind := k; s_file := None; s_bad := false |}] |} Nothing
    | OpenRead o p =>                                    (* the file it had is closed first *)
        match the s o with
        | Some a =>
            match closed_disk s a p with
            | Some (Whole rs) =>
                SRan {| s_disk := closed_disk s a;
                        s_objs := put (s_objs s) o (Some {| s_kind := s_kind a; s_file := Some (Rd p rs); s_bad := false |}) |}
                     Nothing
            | _ => SStop {| s_disk := closed_disk s a; s_objs := s_objs s |}
            end
        | None => SStop s
        end
    | OpenWrite o p m =>
        match the s o with
        | Some a =>
            match opened_write excl (closed_disk s a p) m with
            | Some rs =>
                SRan {| s_disk := upd (closed_disk s a) p (Some Unfinished);
                        s_objs := put (s_objs s) o (Some {| s_kind := s_kind a; s_file := Some (Wr p rs); s_bad := false |}) |}
                     Nothing
            | None => SStop {| s_disk := closed_disk s a; s_objs := s_objs s |}
            end
        | None => SStop s
        end
    | Close o ok =>
        match the s o with
        | Some a => if ok then SRan {| s_disk := closed_disk s a; s_objs := put (s_objs s) o (Some (with_file a None)) |} Nothing
                    else SStop s
        | None => SStop s
        end
    | Destroy o ok =>
        match the s o with
        | Some a => if ok then SRan {| s_disk := closed_disk s a; s_objs := put (s_objs s) o None |} Nothing
                    else SStop s
        | None => SStop s
        end
    | Header o =>
        match the s o with
        | Some a => match s_file a with
                    | Some (Rd p (r :: rest)) => SRan s (GotHeader (fst r))
                    | _ => SStop s
                    end
        | None => SStop s
        end
    | Read o =>
        match the s o with
        | Some a => match s_file a with
                    | Some (Rd p (r :: rest)) => SRan (with_obj s o (Some (with_file a (Some (Rd p rest))))) (GotRecord r)
                    | _ => SStop s
                    end
        | None => SStop s
        end
    | Write o r ok =>
        match the s o with
        | Some a => match s_file a, ok with
                    | Some (Wr p rs), true => SRan (with_obj s o (Some (with_file a (Some (Wr p (rs ++ [r])))))) Nothing
                    | _, _ => SStop s
                    end
        | None => SStop s
        end
    | IsOpen o =>
        match the s o with
        | Some a => SRan s (Bool (match s_file a with Some _ => true | None => false end))
        | None => SStop s
        end
    | Eof o =>
        match the s o with
        | Some a => SRan s (Bool (match s_file a with Some (Rd _ (_ :: _)) => false | _ => true end))
        | None => SStop s
        end
    | Bad o => match the s o with Some a => SRan s (Bool (s_bad a)) | None => SStop s end
    | Clear o b =>
        match the s o with
        | Some a => SRan (with_obj s o (Some {| s_kind := s_kind a; s_file := s_file a; s_bad := b |})) Nothing
        | None => SStop s
        end
    | Copy o =>
        match the s o with
        | Some a => SRan {| s_disk := s_disk s; s_objs := s_objs s ++ [Some a] |} Nothing
        | None => SStop s
        end
    end.

  Inductive sfinal := SDone (s : state) (xs : list out) | SStopped (s : state) (xs : list out).

  Fixpoint spec_run (excl : bool) (s : state) (l : list op) : sfinal :=
    match l with
    | [] => SDone s []
    | x :: l' =>
        match spec_step excl s x with
        | SRan s' y => match spec_run excl s' l' with
                       | SDone s'' ys => SDone s'' (y :: ys)
                       | SStopped s'' ys => SStopped s'' (y :: ys)
                       end
        | SStop s' => SStopped s' []
        end
    end.

  Definition start (disk : nat -> option content) : state := {| s_disk := disk; s_objs := [] |}.

  (** ** Careful programs

      Files: a file that somebody reads is not opened for writing, and a file that somebody
      writes (or left unfinished) is not opened at all. *)
  Definition is_read (s : state) (p : nat) : bool :=
    existsb (fun a => match a with Some a => match s_file a with Some (Rd q _) => q =? p | _ => false end | None => false end)
            (s_objs s).
  Definition is_whole (c : option content) : bool := match c with Some Unfinished => false | _ => true end.
  Definition is_kind (k k' : kind) : bool := match k, k' with Reader, Reader | Writer, Writer => true | _, _ => false end.
  Definition is_none {A} (x : option A) : bool := match x with None => true | _ => false end.

  Definition careful_step (s : state) (x : op) : bool :=
    match x with
    | Make _ => true
    | OpenRead o p =>
        match the s o with
        | Some a => is_kind (s_kind a) Reader && is_none (s_file a) && is_whole (s_disk s p)
        | None => false
        end
    | OpenWrite o p _ =>
        match the s o with
        | Some a => is_kind (s_kind a) Writer && is_none (s_file a) && is_whole (s_disk s p) && negb (is_read s p)
        | None => false
        end
    | Close o ok | Destroy o ok =>
        match the s o with Some _ => ok | None => false end
    | Header o | Read o =>
        match the s o with
        | Some a => match s_file a with Some (Rd _ _) => true | _ => false end
        | None => false
        end
    | Write o _ _ =>
        match the s o with
        | Some a => match s_file a with Some (Wr _ _) => true | _ => false end
        | None => false
        end
    | IsOpen o | Clear o _ => match the s o with Some _ => true | None => false end
    | Eof o =>                                           (* not at the end, not when closed *)
        match the s o with
        | Some a => match s_file a with Some (Rd _ (_ :: _)) => true | _ => false end
        | None => false
        end
    | Bad o =>                                           (* not when closed *)
        match the s o with Some a => negb (is_none (s_file a)) | None => false end
    | Copy _ => false
    end.

  Fixpoint careful (excl : bool) (s : state) (l : list op) : bool :=
    match l with
    | [] => true
    | x :: l' => careful_step s x &&
                 match spec_step excl s x with SRan s' _ => careful excl s' l' | SStop _ => true end
    end.

  (** Nothing is open. *)
  Definition all_closed (s : state) : Prop :=
    forall o a, the s o = Some a -> s_file a = None.
End Spec.
Arguments content H D : clear implicits.
Arguments op H D : clear implicits.
Arguments state H D : clear implicits.
Arguments entry H D : clear implicits.
Arguments out H D : clear implicits.
Arguments sfile H D : clear implicits.
Arguments sobj H D : clear implicits.
