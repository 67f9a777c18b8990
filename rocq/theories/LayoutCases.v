(** Computable sufficient conditions, used by the non-vacuity examples. *)
From Coq Require Import List Arith Bool Lia.
From Verif Require Import Base LayoutModel LayoutSpec LayoutProofs LayoutOk.
Import ListNotations.
Local Open Scope nat_scope.

Lemma positive_b L : forallb (fun x => 0 <? x) L = true -> positive L.
Proof.
  intros H i Hi. rewrite forallb_forall in H. apply Nat.ltb_lt. apply H. unfold get.
  apply nth_In. exact Hi.
Qed.

Definition adm1_b (k : layout_kind) (L : list nat) : bool :=
  (0 <? length L) && forallb (fun x => 0 <? x) L &&
  match k with
  | LEXICO => true | CB2 => Nat.even (get L 0)
  | CB3D => (2 <=? length L) && Nat.even (get L 0)
  | CB32 => (get L 0 mod 4 =? 0) && forallb (fun i => get L i mod 2 =? 0) (seq 1 (length L - 1)) end.

Lemma adm1_case k L : adm1_b k L = true -> adm1 k L.
Proof.
  unfold adm1_b, adm1. rewrite !andb_true_iff. intros ((A & B) & C).
  split; [apply Nat.ltb_lt; exact A|]. split; [apply positive_b; exact B|].
  destruct k; auto.
  - apply Nat.even_spec. exact C.
  - apply andb_true_iff in C as [C D]. split; [apply Nat.leb_le; exact C|apply Nat.even_spec; exact D].
  - apply andb_true_iff in C as [C D]. split.
    + apply Nat.mod_divide; [discriminate|]. apply Nat.eqb_eq, C.
    + intros i Hi. rewrite forallb_forall in D. apply Nat.mod_divide; [discriminate|]. apply Nat.eqb_eq, D, in_seq. lia.
Qed.

Definition admP_b (k : layout_kind) (G L : list nat) : bool :=
  par_kind k && (2 <=? length L) && forallb (fun x => 0 <? x) L && forallb (fun x => 0 <? x) G &&
  (length G =? length L) &&
  forallb (fun i => get L i mod (get G i * min_extent k i) =? 0) (seq 0 (length L)).

Lemma admP_case k G L : admP_b k G L = true -> admP k (lex_machine G) L.
Proof.
  unfold admP_b, admP. rewrite !andb_true_iff. intros (((((A & B) & C) & D) & E) & F).
  apply Nat.leb_le in B. apply positive_b in C. apply positive_b in D. apply Nat.eqb_eq in E.
  split; [exact A|]. split; [lia|]. split; [exact C|]. split; [intros; exact B|].
  split; [apply lex_machine_ok; [lia|exact D]|]. split; [exact E|].
  intros i Hi. rewrite forallb_forall in F. specialize (F i ltac:(apply in_seq; lia)).
  apply Nat.eqb_eq in F. apply Nat.mod_divide; [|exact F].
  specialize (D i ltac:(lia)). unfold min_extent. destruct k, i; cbn [lex_machine mgrid] in *; lia.
Qed.

Lemma in_lattice_2 a b c : in_lattice [a;b] c -> exists x y, c = [x;y] /\ x < a /\ y < b.
Proof.
  intros H. apply in_lattice_get in H as [E G]. destruct c as [|x [|y [|? ?]]]; try discriminate.
  exists x, y. split; [reflexivity|]. split; [apply (G 0)|apply (G 1)]; cbn; lia.
Qed.
Lemma in_lattice_2i a b x y : x < a -> y < b -> in_lattice [a;b] [x;y].
Proof.
  intros. apply in_lattice_get. split; [reflexivity|].
  intros [|[|i]] Hi; cbn in *; lia.
Qed.
