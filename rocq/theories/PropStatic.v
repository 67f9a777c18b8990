(** C92: the numbers of colours and spins that records of data files carry. *)
From Coq Require Import List Arith Bool Lia.
From Verif Require Import StaticModel StaticSpec StaticProofs.
Import ListNotations.

(** For every type and every order of initialisation a program can have, the number in main is the right one exactly when
    the members come inner ones first; in every other order it is 0. *)
Theorem C92_exact (t : qt) (order : list qt) :
  (possible (spin_steps t) order ->
     (inner_first order (spin_steps t) -> in_main spins_set order t = spins t)
     /\ (~ inner_first order (spin_steps t) -> in_main spins_set order t = 0))
  /\ (possible (color_steps t) order ->
     (inner_first order (color_steps t) -> in_main colors_set order t = colors t)
     /\ (~ inner_first order (color_steps t) -> in_main colors_set order t = 0)).
Proof.
  split; intros H.
  - exact (zero_or_right spins_set spin_steps spins spins_fit _ t order (le_n _) H).
  - exact (zero_or_right colors_set color_steps colors colors_fit _ t order (le_n _) H).
Qed.
Print Assumptions C92_exact.

(** With at most one member to set from another, the number is right in every order. *)
Theorem C92_one_step (t : qt) (order : list qt) :
  (length (spin_steps t) <= 1 -> possible (spin_steps t) order -> in_main spins_set order t = spins t)
  /\ (length (color_steps t) <= 1 -> possible (color_steps t) order -> in_main colors_set order t = colors t).
Proof.
  split; intros L H; apply C92_exact; try exact H; now apply short_steps.
Qed.
Print Assumptions C92_one_step.
Example C92_one_step_applies :
  length (spin_steps propagator) <= 1 /\ length (color_steps propagator) <= 1
  /\ length (spin_steps fermion) <= 1 /\ length (color_steps fermion) <= 1 /\ length (color_steps color_matrix) <= 1
  /\ possible (color_steps propagator) [color_matrix; propagator]
  /\ spins propagator = 4 /\ colors propagator = 3.
Proof.
  cbn. split; [lia|]. split; [lia|]. split; [lia|]. split; [lia|]. split; [lia|]. split; [|split; reflexivity].
  split; [|intros x [<-|[]]; right; now left].
  constructor; [intros [H|[]]; discriminate|]. constructor; [intros []|constructor].
Qed.

(** With two or more there is always an order that gives 0, and one that gives the right number: the text of the program does
    not say which. *)
Theorem C92_order_refuted (t : qt) :
  (2 <= length (spin_steps t) ->
     exists bad good, possible (spin_steps t) bad /\ in_main spins_set bad t = 0
                      /\ possible (spin_steps t) good /\ in_main spins_set good t = spins t)
  /\ (2 <= length (color_steps t) ->
     exists bad good, possible (color_steps t) bad /\ in_main colors_set bad t = 0
                      /\ possible (color_steps t) good /\ in_main colors_set good t = colors t).
Proof.
  split; intros L.
  - pose proof (spin_steps_nodup t) as ND. exists (spin_steps t), (rev (spin_steps t)).
    assert (P1 : possible (spin_steps t) (spin_steps t)) by (split; [exact ND|apply incl_refl]).
    assert (P2 : possible (spin_steps t) (rev (spin_steps t))) by (split; [now apply NoDup_rev|intros x; apply in_rev]).
    split; [exact P1|]. split; [apply C92_exact; [exact P1|now apply outer_first_fails]|]. split; [exact P2|].
    apply C92_exact; [exact P2|now apply rev_inner_first].
  - pose proof (color_steps_nodup t) as ND. exists (color_steps t), (rev (color_steps t)).
    assert (P1 : possible (color_steps t) (color_steps t)) by (split; [exact ND|apply incl_refl]).
    assert (P2 : possible (color_steps t) (rev (color_steps t))) by (split; [now apply NoDup_rev|intros x; apply in_rev]).
    split; [exact P1|]. split; [apply C92_exact; [exact P1|now apply outer_first_fails]|]. split; [exact P2|].
    apply C92_exact; [exact P2|now apply rev_inner_first].
Qed.
Print Assumptions C92_order_refuted.
(** Which types of the library these are: the number of spins of colour matrices, real and complex numbers, the number of
    colours of spin matrices, real and complex numbers. *)
Example C92_order_refuted_applies :
  2 <= length (spin_steps color_matrix) /\ spins color_matrix = 1
  /\ 2 <= length (spin_steps real_t) /\ 2 <= length (color_steps real_t)
  /\ 2 <= length (spin_steps complex_t) /\ 2 <= length (color_steps complex_t)
  /\ 2 <= length (color_steps spin_matrix) /\ colors spin_matrix = 1.
Proof. cbn. repeat split; lia. Qed.
