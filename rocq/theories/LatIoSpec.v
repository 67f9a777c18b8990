(** Specification for the input and output of lattice fields.  Only the data types of the model
    (builds, fields) and the layout's nodeNumber and linearSiteIndex are used. *)
From Coq Require Import List Arith NArith ZArith Bool.
From Verif Require Import Base LayoutModel LayoutSpec SetModel CrcModel IoModel IoSpec LatIoModel.
Import ListNotations.
Local Open Scope nat_scope.

(** All sites of a lattice, first coordinate fastest. *)
Fixpoint all_sites (L : list nat) : list (list nat) :=
  match L with
  | [] => [[]]
  | l :: L' => flat_map (fun c' => map (fun x => x :: c') (seq 0 l)) (all_sites L')
  end.

(** All sites, last coordinate (time) fastest, then the first, and so on. *)
Definition all_sites_t (L : list nat) : list (list nat) :=
  map (fun c => tl c ++ [hd 0 c]) (all_sites (rot L)).

(** The value of a field at a site. *)
Definition field_at (b : build) (F : field) (c : list nat) : elem :=
  F (l_node (lay_of b) c) (l_lin (lay_of b) c).

(** The machine and the lattice fit. *)
Definition build_ok (b : build) : Prop :=
  match b with Single k L => adm1 k L | Multi _ k M L => admP k M L end.

(** Every site holds [nmemb] words of [size] bytes. *)
Definition site_ok (size nmemb : nat) (w : elem) : Prop :=
  length w = nmemb /\ Forall (fun v => (v < 2 ^ (8 * N.of_nat size))%N) w.
Definition field_ok (size nmemb : nat) (b : build) (F : field) : Prop :=
  forall c, in_lattice (build_size b) c -> site_ok size nmemb (field_at b F c).

(** A site as stored in a file: big-endian words. *)
Definition site_bytes (size : nat) (w : elem) : list N := concat (map (big_endian_bytes size) w).
(** The given sites of a field as stored in a file. *)
Definition sites_bytes (size : nat) (b : build) (F : field) (cs : list (list nat)) : list N :=
  concat (map (fun c => site_bytes size (field_at b F c)) cs).

(** The buffer for a run of sites along the first direction of a node's sublattice is at least as
    long as an int, or the machine does not use the clear-to-send messages. *)
Definition strip_room (b : build) (bytes_per_site : nat) : Prop :=
  match b with
  | Single _ _ => True
  | Multi grid _ M L => grid = true \/ 4 <= bytes_per_site * (get L 0 / get (mgrid M) 0)
  end.
(** The same for a single site. *)
Definition site_room (b : build) (bytes_per_site : nat) : Prop :=
  match b with Single _ _ => True | Multi grid _ _ _ => grid = true \/ 4 <= bytes_per_site end.

(** Runs of sites that are consecutive in the order of a 3-d checkerboard file and as long as a node's
    first extent never cross a node boundary. *)
Definition runs_on_one_node (b : build) : Prop :=
  match b with
  | Single _ _ => True
  | Multi _ _ M L =>
      forall j i c c', i < get L 0 / get (mgrid M) 0 ->
        nth_error (all_sites_t L) (j * (get L 0 / get (mgrid M) 0)) = Some c ->
        nth_error (all_sites_t L) (j * (get L 0 / get (mgrid M) 0) + i) = Some c' ->
        l_node (lay_of b) c' = l_node (lay_of b) c
  end.

(** [colours] is what a Set made with the function [colour] holds on every node. *)
Definition colouring (b : build) (num : nat) (colour : list nat -> Z) (colours : nat -> list nat) : Prop :=
  forall q, q < l_nodes (lay_of b) ->
    lat_color (lay_of b) q {| sf_num := num; sf_col := fun c => Val (colour c) |} = Val (colours q).

(** A stream that can be written at its current position, and the effect of writing [bs] there: the
    bytes are replaced (or appended), nothing else changes, the checksum covers them. *)
Definition writable (st : stream) : Prop :=
  s_fail st = false /\ (s_joint st = true -> s_get st = s_put st) /\ s_put st <= length (s_data st).
Definition wrote (bs : list N) (st st' : stream) : Prop :=
  s_data st' = firstn (s_put st) (s_data st) ++ bs ++ skipn (s_put st + length bs) (s_data st) /\
  s_put st' = s_put st + length bs /\
  s_crc st' = option_map (fun c => crc32 c (Some bs)) (s_crc st) /\ writable st'.
(** A stream positioned at the bytes [bs], and the effect of reading them. *)
Definition readable (bs : list N) (st : stream) : Prop :=
  s_fail st = false /\ (s_joint st = true -> s_get st = s_put st) /\
  s_get st <= length (s_data st) /\ exists rest, skipn (s_get st) (s_data st) = bs ++ rest.
Definition was_read (bs : list N) (st st' : stream) : Prop :=
  s_data st' = s_data st /\ s_get st' = s_get st + length bs /\
  s_crc st' = option_map (fun c => crc32 c (Some bs)) (s_crc st).
