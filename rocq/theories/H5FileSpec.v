(** What a user believes about HDF5Reader and HDF5Writer objects: an object is closed or has one file open, with
    a working group; the contents of a file change only through a writer that has it open. *)
From Coq Require Import String List Bool Arith NArith.
Import ListNotations.

Section Spec.
  Variable T : Type.
  Variable empty : T.
  (** The paths of the groups of a tree. *)
  Variable grp : T -> list string -> bool.

  (** A name in the file system: nothing, some other file, an HDF5 file. *)
  Inductive content := Nothing | Other (b : list N) | Hdf5 (t : T).
  (** An object: a reader or a writer; the file it has open and its working group. *)
  Record view := mkView { v_writer : bool; v_open : option (string * list string) }.
  Record world := mkW { files : string -> content; objs : nat -> option view }.
  (** A program goes on, or it is stopped by an error and leaves the world as it is then. *)
  Inductive result := Goes (w : world) | Stops (w : world).

  Definition setf (w : world) (n : string) (c : content) : world :=
    mkW (fun m => if string_dec m n then c else files w m) (objs w).
  Definition seto (w : world) (i : nat) (v : option view) : world :=
    mkW (files w) (fun j => if Nat.eq_dec j i then v else objs w j).

  Inductive act :=
  | AMake (writer : bool) (i : nat) | ARead (i : nat) (n : string) | AWrite (i : nat) (n : string) (trunc : bool)
  | AClose (i : nat) | AEnd (i : nat) | AGo (i : nat) (p : list string) | AUp (i : nat) | AEdit (i : nat) (f : T -> T).

  (** One action; [None]: it makes no sense for this object.  Opening closes what is open; it fails for a file
      that is not an HDF5 file, except that a writer makes a new file when there is none, and puts an empty HDF5
      file in the place of whatever is there when it truncates. *)
  Definition does (w : world) (a : act) : option result :=
    match a with
    | AMake wr i => match objs w i with None => Some (Goes (seto w i (Some (mkView wr None)))) | Some _ => None end
    | ARead i n =>
        match objs w i with
        | Some (mkView false _) =>
            Some (let w1 := seto w i (Some (mkView false None)) in
                  match files w n with
                  | Hdf5 _ => Goes (seto w1 i (Some (mkView false (Some (n, [])))))
                  | _ => Stops w1
                  end)
        | _ => None
        end
    | AWrite i n trunc =>
        match objs w i with
        | Some (mkView true _) =>
            Some (let w1 := seto w i (Some (mkView true None)) in
                  let w2 := seto w1 i (Some (mkView true (Some (n, [])))) in
                  match files w n, trunc with
                  | Nothing, _ | _, true => Goes (setf w2 n (Hdf5 empty))
                  | Hdf5 _, false => Goes w2
                  | Other _, false => Stops w1
                  end)
        | _ => None
        end
    | AClose i => match objs w i with
                  | Some v => Some (Goes (seto w i (Some (mkView (v_writer v) None))))
                  | None => None
                  end
    | AEnd i => match objs w i with Some _ => Some (Goes (seto w i None)) | None => None end
    | AGo i p =>
        match objs w i with
        | Some (mkView wr (Some (n, q))) =>
            match files w n with
            | Hdf5 t => Some (Goes (if grp t p then seto w i (Some (mkView wr (Some (n, p)))) else w))
            | _ => None
            end
        | _ => None
        end
    | AUp i =>
        match objs w i with
        | Some (mkView wr (Some (n, q))) => Some (Goes (seto w i (Some (mkView wr (Some (n, removelast q))))))
        | _ => None
        end
    | AEdit i f =>
        match objs w i with
        | Some (mkView true (Some (n, q))) =>
            match files w n with Hdf5 t => Some (Goes (setf w n (Hdf5 (f t)))) | _ => None end
        | _ => None
        end
    end.

  (** What the property asks of the program: no file is opened while another object has it open, and what
      is written removes no group. *)
  Definition alone (w : world) (i : nat) (n : string) : Prop :=
    forall j v q, j <> i -> objs w j = Some v -> v_open v <> Some (n, q).
  Definition proper (w : world) (a : act) : Prop :=
    match a with
    | ARead i n | AWrite i n _ => alone w i n
    | AEdit _ f => forall t p, grp t p = true -> grp (f t) p = true
    | _ => True
    end.
  (** A history of actions from one world to the next result. *)
  Inductive history : world -> list act -> result -> Prop :=
  | h_done w : history w [] (Goes w)
  | h_stop w a as' w' : proper w a -> does w a = Some (Stops w') -> history w (a :: as') (Stops w')
  | h_go w a as' w' r : proper w a -> does w a = Some (Goes w') -> history w' as' r -> history w (a :: as') r.
End Spec.
Arguments Nothing {T}. Arguments Other {T} b. Arguments Hdf5 {T} t.
Arguments Goes {T} w. Arguments Stops {T} w.
Arguments AMake {T} writer i. Arguments ARead {T} i n. Arguments AWrite {T} i n trunc. Arguments AClose {T} i.
Arguments AEnd {T} i. Arguments AGo {T} i p. Arguments AUp {T} i. Arguments AEdit {T} i f.
