(** Gauge archives as bytes. *)
From Coq Require Import List Arith NArith ZArith Bool.
From Verif Require Import Base LayoutModel LayoutSpec CrcModel IoModel IoSpec LatIoModel LatIoSpec NerscModel NerscSpec.
Import ListNotations.
Local Open Scope nat_scope.

(** The bytes of a file in groups of four, as numbers, most significant byte first. *)
Fixpoint words32 (bytes : list N) : list N :=
  match bytes with
  | b0 :: b1 :: b2 :: b3 :: rest => (b0 * 2 ^ 24 + b1 * 2 ^ 16 + b2 * 2 ^ 8 + b3)%N :: words32 rest
  | _ => []
  end.

Definition is_byte (x : N) : Prop := (x < 256)%N.

(** The number of bytes of the links: [number_size] bytes per number, [mat_size] numbers per matrix, four matrices per site. *)
Definition payload_size (number_size mat_size : nat) (L : list nat) : nat := number_size * mat_size * 4 * volume L.

(** [file'] is [file] with one group of four bytes replaced by a different one. *)
Definition one_group_changed (file file' : list N) : Prop :=
  exists before group group' after, file = before ++ group ++ after /\ file' = before ++ group' ++ after /\
    length before mod 4 = 0 /\ length group = 4 /\ length group' = 4 /\ group <> group'.
(** [file'] is [file] with one byte replaced by a different one. *)
Definition one_byte_changed (file file' : list N) : Prop :=
  exists before b b' after, file = before ++ b :: after /\ file' = before ++ b' :: after /\ b <> b'.

(** What a machine that reads a file site by site into one buffer, turning every number into its own byte order, and does not notice
    the end of the file, takes the file to be: at the end of the file the buffer still holds the previous site, turned around on
    machines with the least significant byte first. *)
Fixpoint reversed (number_size n : nat) (bytes : list N) : list N :=
  match n with O => [] | S k => rev (firstn number_size bytes) ++ reversed number_size k (skipn number_size bytes) end.
Definition left_over (e : endian) (number_size n : nat) (site : list N) : list N :=
  match e with BigE => site | LittleE => reversed number_size n site end.
(** [n] numbers per site, [previous] the last site read, [links] the rest of the file, [sites] the number of sites still to be read. *)
Fixpoint continued (e : endian) (number_size n sites : nat) (previous links : list N) : list N :=
  match sites with
  | O => []
  | S k =>
      let got := firstn (number_size * n) links in
      let site := got ++ skipn (length got) (left_over e number_size n previous) in
      site ++ continued e number_size n k site (skipn (number_size * n) links)
  end.
(** The whole file, of which at least one site can be read. *)
Definition taken_for (e : endian) (number_size mat_size : nat) (L : list nat) (links : list N) : list N :=
  let n := mat_size * 4 in
  firstn (number_size * n) links ++ continued e number_size n (volume L - 1) (firstn (number_size * n) links) (skipn (number_size * n) links).
