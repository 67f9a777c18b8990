(** Specification for binary input and output: which objects can be written. *)
From Coq Require Import List Arith NArith Bool Sorting.Sorted.
From Verif Require Import Base CrcModel IoModel CrcSpec.
Import ListNotations.
Local Open Scope N_scope.

(** A strict order, as std::map requires of operator< of its keys. *)
Definition strict_order {A} (lt : A -> A -> bool) : Prop :=
  (forall a, lt a a = false) /\
  (forall a b c, lt a b = true -> lt b c = true -> lt a c = true).

(** A size that fits into an int. *)
Definition int_size (n : nat) : Prop := N.of_nat n < 2 ^ 31.

(** A string that fits on a line of at most [max] characters (terminator included): no newline,
    no NUL, fewer than [max] characters. *)
Definition line_ok (max : nat) (s : list N) : Prop := ~ In 10 s /\ ~ In 0 s /\ (length s < max)%nat.

(** [v] is an object of C++ type [t]: primitives of 1, 2, 4, 8 or 16 bytes, strings of chars,
    arrays whose extents are ints and which hold as many elements as the extents say, maps
    sorted by key. *)
Inductive has_type (klt : value -> value -> bool) : ty -> value -> Prop :=
| ht_prim size n : In size [1; 2; 4; 8; 16]%nat -> n < 2 ^ (8 * N.of_nat size) ->
    has_type klt (TPrim size) (VPrim n)
| ht_desc s : bytes_ok s -> int_size (length s) -> has_type klt TDesc (VDesc s)
| ht_line max s : bytes_ok s -> line_ok max s -> has_type klt (TLine max) (VDesc s)
| ht_seq t l : int_size (length l) -> Forall (has_type klt t) l -> has_type klt (TSeq t) (VSeq l)
| ht_multi d t ns F : length ns = d -> Forall int_size ns -> length F = fold_right Nat.mul 1%nat ns ->
    Forall (has_type klt t) F -> has_type klt (TMulti d t) (VMulti ns F)
| ht_nd t ns F : ns <> [] -> int_size (length ns) -> Forall int_size ns ->
    length F = fold_right Nat.mul 1%nat ns -> Forall (has_type klt t) F ->
    has_type klt (TNd t) (VNd ns F)
| ht_map k t l : int_size (length l) -> Forall (fun p => has_type klt k (fst p)) l ->
    Forall (fun p => has_type klt t (snd p)) l ->
    StronglySorted (fun p q => klt (fst p) (fst q) = true) l -> has_type klt (TMap k t) (VMap l)
| ht_pair a b x y : has_type klt a x -> has_type klt b y -> has_type klt (TPair a b) (VPair x y).

(** A word as bytes, most significant first. *)
Definition big_endian_bytes (size : nat) (v : N) : list N :=
  map (fun i => v / 2 ^ (8 * N.of_nat (size - 1 - i)) mod 256) (seq 0 size).

(** The bytes of a stream from [p] on, [n] of them. *)
Definition window (p n : nat) (st : stream) : list N := firstn n (skipn p (s_data st)).
