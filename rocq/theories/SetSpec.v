(** Specification of subsets. *)
From Coq Require Import List Arith ZArith Sorted.
From Verif Require Import Base LayoutModel LayoutSpec SetModel.
Import ListNotations.
Local Open Scope nat_scope.

(** The family [ss] is the partition of the sites of [node] by the colouring [colour]
    into [n] classes: table [cb] lists, strictly ascending, exactly the local sites whose
    coordinates have colour [cb]. *)
Definition is_partition (lay : layout) (node n : nat) (colour : list nat -> Z)
    (ss : list subset) : Prop :=
  length ss = n /\
  forall cb s, nth_error ss cb = Some s ->
    StronglySorted lt (s_table s) /\
    forall i, In i (s_table s) <->
              i < l_sites lay /\ colour (l_coord lay node i) = Z.of_nat cb.

(** Every local site lies in exactly one table, and the sizes add up. *)
Definition covers_once (lay : layout) (ss : list subset) : Prop :=
  (forall i, i < l_sites lay ->
     exists! cb, exists s, nth_error ss cb = Some s /\ In i (s_table s)) /\
  list_sum (map (fun s => length (s_table s)) ss) = l_sites lay.

(** The sites start, start+1, ..., end. *)
Definition run_of (a b : nat) : list nat := seq a (S b - a).

(** The flags of a subset describe its table. *)
Definition flags_exact (s : subset) : Prop :=
  (s_ordRep s = true <-> exists a n, s_table s = seq a (S n)) /\
  (s_ordRep s = true ->
     exists a b, a <= b /\ s_start s = Z.of_nat a /\ s_end s = Z.of_nat b /\
                 s_table s = run_of a b) /\
  (s_ordRep s = false -> s_start s = (-1)%Z /\ s_end s = (-1)%Z).

(** Nearest neighbour of [c] in direction [mu], forward, on the torus [L]. *)
Definition neighbour (L c : list nat) (mu : nat) : list nat :=
  upd mu ((get c mu + 1) mod get L mu) c.

(** Operation [op] writes to object [id]. *)
Definition targets (op : set_op) (id : nat) : Prop :=
  match op with
  | OMake i _ => i = id | OCopy i _ => i = id | OAssign i _ => i = id | ODestroy i => i = id
  end.

(** Colours of the predefined sets. *)
Definition rb_colour (c : list nat) : Z := Z.of_nat (coord_sum (length c) c mod 2).
Definition rb3_colour (c : list nat) : Z := Z.of_nat (coord_sum 3 c mod 2).
Definition mcb_colour (c : list nat) : Z := Z.of_nat (colour32 c).
