From Coq Require Import List Bool Arith NArith.
From Verif Require Import QioFileSpec.
Import ListNotations.

(** QDPFileReader and QDPFileWriter, lib/qdp_qdpio.cc 104-288 and 292-570, include/qdp_qdpio.h
    320-418 and 560-720.  The data of records are the subject of QioModel; here a record is a
    pair of metadata and data.  The metadata of the file, the I/O nodes and serial or parallel
    I/O are left out.

    The QIO library is a contract:
    - QIO_open_read and QIO_open_write give a new handle, or NULL when the file is missing or
      (a matter of the version, [excl]) when QIO_CREAT finds a file.  A file that is being
      written or read is not opened for writing, and one being written not for reading: the
      contract says nothing about it.
    - QIO_read_record_info reports the next record without moving; QIO_read_record_data moves.
    - what was written is a file once QIO_close_write succeeds.
    - a handle that was closed, or never opened, must not be used. *)

Section Model.
  Context {H D : Type}.

  (** A handle of QIO. *)
  Inductive hstate := HRead (p : nat) (rest : list (entry H D)) | HWrite (p : nat) (rs : list (entry H D)) | HGone.

  (** The data members, qdp_qdpio.h 413-417 and 716-720: iostate, iop, qio_in or qio_out; None:
      not initialised. *)
  Record obj := { o_kind : kind; o_state : option N; o_iop : bool; o_h : option nat }.
  Record world := { disk : nat -> option (content H D); hs : list hstate; objs : list (option obj) }.

  Inductive res := Ran (w : world) (x : out H D) | Stop (w : world) | Undefined.

  Definition obj_at (w : world) (o : nat) : option obj :=
    match nth_error (objs w) o with Some (Some b) => Some b | _ => None end.
  Definition handle_at (w : world) (b : obj) : option (nat * hstate) :=
    match o_h b with
    | Some h => match nth_error (hs w) h with Some st => Some (h, st) | None => None end
    | None => None
    end.

  Definition goodbit : N := 0.
  Definition badbit : N := 256.

  (** QIO: somebody reads the file. *)
  Definition h_reads (p : nat) (h : hstate) : bool := match h with HRead q _ => q =? p | _ => false end.

  (** QIO_close_read, QIO_close_write. *)
  Definition qio_close (k : kind) (w : world) (b : obj) (ok : bool) : option ((nat -> option (content H D)) * list hstate) :=
    match handle_at w b, k with
    | Some (h, HRead p _), Reader => Some (disk w, put (hs w) h HGone)
    | Some (h, HWrite p rs), Writer =>
        Some (if ok then upd (disk w) p (Some (Whole rs)) else disk w, put (hs w) h HGone)
    | _, _ => None
    end.

  (** close(), lib/qdp_qdpio.cc 181-191 and 487-497: the status is ignored. *)
  Definition close_obj (w : world) (o : nat) (ok : bool) : option world :=
    match obj_at w o with
    | Some b =>
        let b' := {| o_kind := o_kind b; o_state := Some badbit; o_iop := false; o_h := o_h b |} in
        if o_iop b
        then match qio_close (o_kind b) w b ok with
             | Some (d, l) => Some {| disk := d; hs := l; objs := put (objs w) o (Some b') |}
             | None => None
             end
        else Some {| disk := disk w; hs := hs w; objs := put (objs w) o (Some b') |}
    | None => None
    end.

  (** The object after a successful open, 154-177 and 463-484. *)
  Definition opened (b : obj) (h : nat) : obj :=
    {| o_kind := o_kind b; o_state := Some goodbit; o_iop := true; o_h := Some h |}.

  Definition step (excl : bool) (w : world) (x : op H D) : res :=
    match x with
    | Make k =>                                          (* 106, 294 *)
        Ran {| disk := disk w; hs := hs w;
               objs := objs w ++ [Some {| o_kind := k; o_state := None; o_iop := false; o_h := None |}] |} Nothing
    | OpenRead o p =>                                    (* 113-178; the handle the object had is overwritten, 154 *)
        match obj_at w o with
        | Some b =>
            match o_kind b, disk w p with
            | Reader, Some (Whole rs) =>
                Ran {| disk := disk w; hs := hs w ++ [HRead p rs];
                       objs := put (objs w) o (Some (opened b (length (hs w)))) |} Nothing
            | Reader, None => Stop w                     (* QDP_abort, 159 *)
            | _, _ => Undefined
            end
        | None => Undefined
        end
    | OpenWrite o p m =>                                 (* 353-485 *)
        match obj_at w o with
        | Some b =>
            match o_kind b with
            | Writer =>
                if existsb (h_reads p) (hs w) then Undefined else
                match disk w p with
                | Some Unfinished => Undefined
                | c =>
                    match c, m with
                    | Some _, Create => if excl then Stop w   (* QDP_abort, 471 *)
                                        else Ran {| disk := upd (disk w) p (Some Unfinished); hs := hs w ++ [HWrite p []];
                                                    objs := put (objs w) o (Some (opened b (length (hs w)))) |} Nothing
                    | Some (Whole rs), Append =>
                        Ran {| disk := upd (disk w) p (Some Unfinished); hs := hs w ++ [HWrite p rs];
                               objs := put (objs w) o (Some (opened b (length (hs w)))) |} Nothing
                    | _, _ =>
                        Ran {| disk := upd (disk w) p (Some Unfinished); hs := hs w ++ [HWrite p []];
                               objs := put (objs w) o (Some (opened b (length (hs w)))) |} Nothing
                    end
                end
            | Reader => Undefined
            end
        | None => Undefined
        end
    | Close o ok =>
        match close_obj w o ok with Some w' => Ran w' Nothing | None => Undefined end
    | Destroy o ok =>                                    (* ~QDPFileReader() {close();}, 204, 508 *)
        match close_obj w o ok with
        | Some w' => Ran {| disk := disk w'; hs := hs w'; objs := put (objs w') o None |} Nothing
        | None => Undefined
        end
    | Header o =>                                        (* 221-241; is_open() is not asked *)
        match obj_at w o with
        | Some b => match o_kind b, handle_at w b with
                    | Reader, Some (h, HRead p (r :: rest)) => Ran w (GotHeader (fst r))
                    | Reader, Some (h, HRead p []) => Stop w   (* 228-231 *)
                    | _, _ => Undefined
                    end
        | None => Undefined
        end
    | Read o =>                                          (* 249-288; qdp_qdpio.h 853-920, 945-1020, 1227-1300, 1327-1400 *)
        match obj_at w o with
        | Some b => match o_kind b, handle_at w b with
                    | Reader, Some (h, HRead p (r :: rest)) =>
                        Ran {| disk := disk w; hs := put (hs w) h (HRead p rest); objs := objs w |} (GotRecord r)
                    | Reader, Some (h, HRead p []) => Stop w
                    | _, _ => Undefined
                    end
        | None => Undefined
        end
    | Write o r ok =>                                    (* 528-568; qdp_qdpio.h 1060-1160, 1470-1670 *)
        match obj_at w o with
        | Some b => match o_kind b, handle_at w b with
                    | Writer, Some (h, HWrite p rs) =>
                        if ok then Ran {| disk := disk w; hs := put (hs w) h (HWrite p (rs ++ [r])); objs := objs w |} Nothing
                        else Stop w                      (* 559-561 *)
                    | _, _ => Undefined
                    end
        | None => Undefined
        end
    | IsOpen o => match obj_at w o with Some b => Ran w (Bool (o_iop b)) | None => Undefined end   (* 193, 499 *)
    | Eof o =>                                           (* 195: return false *)
        match obj_at w o with
        | Some b => match o_kind b with Reader => Ran w (Bool false) | Writer => Undefined end
        | None => Undefined
        end
    | Bad o =>                                           (* 197, 501: return iostate *)
        match obj_at w o with
        | Some b => match o_state b with Some st => Ran w (Bool (negb (st =? 0)%N)) | None => Undefined end
        | None => Undefined
        end
    | Clear o bad =>                                     (* 199-202, 503-506; [bad]: QDPIO_badbit or QDPIO_goodbit *)
        match obj_at w o with
        | Some b => Ran {| disk := disk w; hs := hs w;
                           objs := put (objs w) o (Some {| o_kind := o_kind b; o_state := Some (if bad then badbit else goodbit);
                                                            o_iop := o_iop b; o_h := o_h b |}) |} Nothing
        | None => Undefined
        end
    | Copy o =>                                          (* the copy constructor of the compiler *)
        match obj_at w o with
        | Some b => Ran {| disk := disk w; hs := hs w; objs := objs w ++ [Some b] |} Nothing
        | None => Undefined
        end
    end.

  Inductive final := Done (w : world) (xs : list (out H D)) | Stopped (w : world) (xs : list (out H D)) | NoMeaning.

  Fixpoint run (excl : bool) (w : world) (l : list (op H D)) : final :=
    match l with
    | [] => Done w []
    | x :: l' =>
        match step excl w x with
        | Ran w' y => match run excl w' l' with
                      | Done w'' ys => Done w'' (y :: ys)
                      | Stopped w'' ys => Stopped w'' (y :: ys)
                      | NoMeaning => NoMeaning
                      end
        | Stop w' => Stopped w' []
        | Undefined => NoMeaning
        end
    end.

  Definition world0 (d : nat -> option (content H D)) : world := {| disk := d; hs := []; objs := [] |}.
End Model.
Arguments world H D : clear implicits.
Arguments hstate H D : clear implicits.
