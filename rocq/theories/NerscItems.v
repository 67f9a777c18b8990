(** The lines an archive header can have, in any order, and what each of them says. *)
From Coq Require Import String List Arith NArith ZArith Bool.
From Verif Require Import Base NerscHeader NerscHeaderSpec.
Import ListNotations.
Local Open Scope nat_scope.

Inductive text_name := EnsembleId | EnsembleLabel | Creator | CreatorMachine | CreatorHardware | CreationDate | ArchiveDate.
Inductive word_format := Ieee32Big | Ieee32 | Ieee64Big.
Inductive item :=
| ChecksumIs (c : N) | PlaquetteIs (s : list N) | LinkTraceIs (s : list N) | SequenceNumberIs (z : Z)
| ThreeRows | TwoRows | WordsAre (f : word_format) | TextIs (k : text_name) (s : list N)
| SizeIs (i : nat) (z : Z) | BoundaryIs (i : nat) (z : Z) | OtherIs (name value : list N).

Definition name_of (k : text_name) : string :=
  match k with
  | EnsembleId => "ENSEMBLE_ID" | EnsembleLabel => "ENSEMBLE_LABEL" | Creator => "CREATOR" | CreatorMachine => "CREATOR_MACHINE"
  | CreatorHardware => "CREATOR_HARDWARE" | CreationDate => "CREATION_DATE" | ArchiveDate => "ARCHIVE_DATE"
  end.
Definition format_of (f : word_format) : string :=
  match f with Ieee32Big => "IEEE32BIG" | Ieee32 => "IEEE32" | Ieee64Big => "IEEE64BIG" end.
Definition direction (i : nat) : string := match i with 1 => "1" | 2 => "2" | 3 => "3" | _ => "4" end.

(** A line: name, " = ", value. *)
Definition entry (name value : list N) : list N := name ++ txt " = " ++ value.
Definition line_of (x : item) : list N :=
  match x with
  | ChecksumIs c => entry (txt "CHECKSUM") (show_nat 16 c)
  | PlaquetteIs s => entry (txt "PLAQUETTE") s
  | LinkTraceIs s => entry (txt "LINK_TRACE") s
  | SequenceNumberIs z => entry (txt "SEQUENCE_NUMBER") (show_int z)
  | ThreeRows => entry (txt "DATATYPE") (txt "4D_SU3_GAUGE_3x3")
  | TwoRows => entry (txt "DATATYPE") (txt "4D_SU3_GAUGE")
  | WordsAre f => entry (txt "FLOATING_POINT") (txt (format_of f))
  | TextIs k s => entry (txt (name_of k)) s
  | SizeIs i z => entry (txt "DIMENSION_" ++ txt (direction i)) (show_int z)
  | BoundaryIs i z => entry (txt "BOUNDARY_" ++ txt (direction i)) (show_int z)
  | OtherIs name value => entry name value
  end.

(** Names without a meaning: no white space, no "=", none of the names with a meaning, nor one of the six that
    are recognised by their beginning followed by more. *)
Definition starts (p s : list N) : Prop := exists r, s = p ++ r.
Definition meaningless (name : list N) : Prop :=
  name <> [] /\ (forall c, In c name -> c <> 61%N /\ c <> 32%N /\ ~ (9 <= c <= 13)%N) /\ name <> txt "DATATYPE" /\ name <> txt "FLOATING_POINT" /\
  (forall k, name <> txt (name_of k)) /\
  forall p, In p ["PLAQUETTE"; "LINK_TRACE"; "CHECKSUM"; "SEQUENCE_NUMBER"; "DIMENSION_"; "BOUNDARY_"]%string -> ~ starts (txt p) name.
Definition visible (s : list N) : Prop := forall c, nth_error s 0 = Some c -> c <> 32%N /\ ~ (9 <= c <= 13)%N.
Definition item_ok (x : item) : Prop :=
  match x with
  | ChecksumIs c => (c < 2 ^ 32)%N
  | PlaquetteIs s | LinkTraceIs s => one_line s /\ visible s
  | SequenceNumberIs z => int_value z
  | TextIs _ s => one_line s /\ nth_error s 0 <> Some 32%N
  | SizeIs i z | BoundaryIs i z => 1 <= i <= 4 /\ int_value z
  | OtherIs name value => one_line name /\ one_line value /\ meaningless name
  | ThreeRows | TwoRows | WordsAre _ => True
  end.

Definition replace {X} (i : nat) (x : X) (l : list X) : list X := map (fun p => if fst p =? i then x else snd p) (combine (seq 1 (length l)) l).

Section Means.
  Context {F : Type} (strtod : list N -> option F).
  Definition means (x : item) (h : @header F) : header :=
    match x with
    | ChecksumIs c => set_checksum c h
    | PlaquetteIs s => match strtod s with Some v => set_w_plaq v h | None => h end
    | LinkTraceIs s => match strtod s with Some v => set_link v h | None => h end
    | SequenceNumberIs z => set_sequence_number z h
    | ThreeRows => set_mat_size 18 h
    | TwoRows => set_mat_size 12 h
    | WordsAre Ieee64Big => set_float_size 8 h
    | WordsAre _ => set_float_size 4 h
    | TextIs EnsembleId s => set_ensemble_id s h
    | TextIs EnsembleLabel s => set_ensemble_label s h
    | TextIs Creator s => set_creator s h
    | TextIs CreatorMachine s | TextIs CreatorHardware s => set_creator_hardware s h
    | TextIs CreationDate s => set_creation_date s h
    | TextIs ArchiveDate s => set_archive_date s h
    | SizeIs i z => set_nrow (replace i (Some z) (nrow h)) h
    | BoundaryIs i z => set_boundary (replace i z (boundary h)) h
    | OtherIs _ _ => h
    end.
  (** The lattice sizes among the lines. *)
  Definition sizes (xs : list item) : list (nat * Z) := flat_map (fun x => match x with SizeIs i z => [(i, z)] | _ => [] end) xs.
  (** The text of the header. *)
  Definition header_file (xs : list item) : list N :=
    concat (map (fun l => l ++ [10%N]) (txt "BEGIN_HEADER" :: map line_of xs ++ [txt "END_HEADER"])).
End Means.
