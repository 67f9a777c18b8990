(** What reading the text header of a gauge archive should give.  Only the data type [header] and the
    conversion [txt] of literals are taken from the model. *)
From Coq Require Import String List Arith NArith ZArith Bool.
From Verif Require Import Base NerscHeader.
Import ListNotations.
Local Open Scope nat_scope.

(** Characters, no end of line and no NUL. *)
Definition one_line (s : list N) : Prop := Forall (fun c => (c < 256)%N) s /\ ~ In 10%N s /\ ~ In 0%N s.
(** Together with its name such a text has [n] characters. *)
Definition line_length (name : string) (s : list N) : nat := length (txt name) + 3 + length s.
(** A text without the blanks in front. *)
Definition unindented (s s' : list N) : Prop :=
  exists n, s = repeat 32%N n ++ s' /\ nth_error s' 0 <> Some 32%N.
Definition int_value (z : Z) : Prop := (- 2 ^ 31 <= z < 2 ^ 31)%Z.

Section Spec.
  Context {F : Type} (show : F -> list N).

  (** A printed number is one short line that does not start with white space. *)
  Definition prints_well : Prop := forall x, one_line (show x) /\ length (show x) < 100 /\
    exists c r, show x = c :: r /\ ~ (9 <= c <= 13)%N /\ c <> 32%N.

  (** The texts of a header with their names in the file. *)
  Definition texts (h : @header F) : list (string * list N) :=
    [("ENSEMBLE_ID"%string, ensemble_id h); ("ENSEMBLE_LABEL"%string, ensemble_label h); ("CREATOR"%string, creator h);
     ("CREATOR_HARDWARE"%string, creator_hardware h); ("CREATION_DATE"%string, creation_date h);
     ("ARCHIVE_DATE"%string, archive_date h)].

  (** A header that can be written. *)
  Definition header_ok (L : list nat) (h : @header F) : Prop :=
    length L = 4 /\ Forall (fun l => int_value (Z.of_nat l)) L /\
    length (boundary h) = 4 /\ Forall (fun x => x = 1%Z \/ x = (-1)%Z) (boundary h) /\
    (checksum h < 2 ^ 32)%N /\ int_value (sequence_number h) /\
    Forall (fun p => one_line (snd p)) (texts h).
  Definition lines_fit (h : @header F) : Prop := Forall (fun p => line_length (fst p) (snd p) < 128) (texts h).
End Spec.
