(** C106, continued: archives are accepted by every build. *)
From Coq Require Import String List Arith NArith ZArith Bool Ascii Lia Ring_theory.
From Verif Require Import Base LayoutModel LayoutSpec LayoutProofs LayoutOk LayoutCases CrcModel IoModel IoSpec
  LatIoModel LatIoSpec NerscModel NerscSpec NerscAlgebra NerscHeader NerscHeaderSpec PropNersc PlaqArchive.
From Verif Require PlaqSpec PropPlaq.
Import ListNotations.
Local Open Scope nat_scope.

(** A configuration of SU(3) matrices of single precision numbers, written by one build and read by another:
    if printing a number and reading it back stays within the tolerance, the archive passes all checks and the
    links are the same.  The plaquette in the header is that of the configuration. *)
Theorem C106_archive : forall R (rO rI : R) radd rmul rsub rdiv ropp ofZ (Rth : ring_theory rO rI radd rmul rsub ropp eq)
  junk narrow cast (show : R -> list N) strtod close e1 e2 b1 b2 h h0 u u0,
  let mesplq := measured rO radd rmul rsub rdiv ropp ofZ junk in
  prints_well show -> (forall x, (narrow x < 2 ^ 32)%N) -> build_ok b1 -> build_ok b2 -> build_size b1 = build_size b2 ->
  (build_kind b1 = CB3D <-> build_kind b2 = CB3D) -> mat_size h = 12 -> header_ok (build_size b1) h -> lines_fit h ->
  (forall dd c, dd < 4 -> in_lattice (build_size b1) c ->
     unitary rO rI radd rmul rsub ropp (link_at b1 u dd c) /\ det radd rmul rsub (link_at b1 u dd c) = one rO rI /\
     Forall (fun x => cast 4 (narrow x) = x) (numbers 2 (link_at b1 u dd c))) ->
  (PropPlaq.divisor (build_size b1) 3 < 2 ^ 31)%Z ->
  (forall x, exists y, strtod (show x) = Some y /\ close y x = true) ->
  exists h1 st h2 G, writeArchiv show (build_size b1) narrow mesplq e1 b1 h u = Val (h1, st) /\
    w_plaq h1 = rmul (PlaqSpec.plaquettes rO radd rmul rsub ropp 3 (build_size b1) (link_at b1 u))
                     (rdiv (ofZ 2%Z) (ofZ (PropPlaq.divisor (build_size b1) 3))) /\
    readArchiv strtod (build_size b2) rO radd rmul rsub cast mesplq close e2 b2 h0 u0 (s_data st) = Val (h2, G) /\
    forall dd c i j, dd < 4 -> in_lattice (build_size b2) c -> i < 3 -> j < 3 -> link_at b2 G dd c i j = link_at b1 u dd c i j.
Proof.
  intros R rO rI radd rmul rsub rdiv ropp ofZ Rth junk narrow cast show strtod close e1 e2 b1 b2 h h0 u u0 mesplq
    HS HN HB1 HB2 ES EK EM HO HF HU HD HP.
  assert (L4 : List.length (build_size b1) = 4) by (destruct HO; assumption).
  destruct (C44_archive R R rO rI radd rmul rsub ropp Rth narrow cast show strtod mesplq (fun _ _ => true) e1 e2 b1 b2 h h0 u u0
              HS HN HB1 HB2 ES EK EM HO HF) as (h1 & st & h2 & G & E1 & E2 & W1 & W2 & P1 & P2 & _).
  destruct (C44_archive_exact R R rO rI radd rmul rsub ropp Rth narrow cast show strtod mesplq (fun _ _ => true) e1 e2 b1 b2 h h0 u u0
              HS HN HB1 HB2 ES EK EM HO HF HU) as (h1' & st' & h2' & G' & E1' & E2' & EG).
  rewrite E1 in E1'. injection E1' as <- <-. cbn [andb] in E2, E2'. rewrite E2 in E2'. injection E2' as <- <-.
  assert (M1 := measured_ok rO rI radd rmul rsub ropp Rth rdiv ofZ junk b1 u HB1 ltac:(rewrite L4; repeat constructor) HD).
  assert (M2 := measured_ok rO rI radd rmul rsub ropp Rth rdiv ofZ junk b2 G HB2 ltac:(rewrite <- ES, L4; repeat constructor)
    ltac:(rewrite <- ES; exact HD)).
  fold mesplq in M1, M2.
  assert (Q : mesplq b2 G = mesplq b1 u).
  { rewrite M1, M2, <- ES. destruct (plaquettes_same rO rI radd rmul rsub ropp Rth 3 (build_size b1) (link_at b2 G) (link_at b1 u)) as [-> ->];
      [|reflexivity]. rewrite L4. intros. apply EG; auto. now rewrite <- ES. }
  exists h1, st, h2, G. split; [exact E1|]. split; [rewrite W1, M1; reflexivity|]. split; [|exact EG].
  rewrite (read_close _ _ _ _ _ _ _ _ close _ _ _ _ _ _ _ E2), Q, <- W1, <- W2.
  destruct (HP (w_plaq h1)) as (y & Y & C). destruct (HP (link h1)) as (z & Z & D).
  rewrite (P1 y Y), (P2 z Z), C, D. reflexivity.
Qed.
Print Assumptions C106_archive.

(** A case: two nodes and checkerboards write, a single process with lexicographic order reads; numbers are
    printed as 0 or 1, and all that are not zero count as close. *)
Definition show_z (x : Z) : list N := show_case (negb (x =? 0)%Z).
Definition strtod_z (l : list N) : option Z := option_map (fun b : bool => if b then 1%Z else 0%Z) (strtod_case l).
Definition close_z (x y : Z) : bool := Bool.eqb (x =? 0)%Z (y =? 0)%Z.
Definition header_z : @header Z :=
  {| nrow := [Some 2; Some 2; Some 2; Some 2]%Z; boundary := [1; 1; 1; -1]%Z; w_plaq := 0%Z; link := 0%Z; mat_size := 12; float_size := 8;
     checksum := 0; sequence_number := 17; ensemble_id := txt "  u"; ensemble_label := txt "v w"; creator := txt "x"; creator_hardware := txt "y";
     creation_date := txt "z"; archive_date := txt "" |}.
Example C106_archive_case : let b1 := Multi false CB2 (lex_machine [2;1;1;1]) [4;2;2;2] in let b2 := Single LEXICO [4;2;2;2] in
  let u := fun _ _ _ => su3_case in
  prints_well show_z /\ build_ok b1 /\ build_ok b2 /\ build_size b1 = build_size b2 /\ (build_kind b1 = CB3D <-> build_kind b2 = CB3D) /\
  mat_size header_z = 12 /\ header_ok (build_size b1) header_z /\ lines_fit header_z /\
  (forall dd c, unitary 0%Z 1%Z Z.add Z.mul Z.sub Z.opp (link_at b1 u dd c) /\ det Z.add Z.mul Z.sub (link_at b1 u dd c) = one 0%Z 1%Z /\
     Forall (fun x => cast_case 4 (narrow_case x) = x) (numbers 2 (link_at b1 u dd c))) /\
  (PropPlaq.divisor (build_size b1) 3 < 2 ^ 31)%Z /\
  (forall x, exists y, strtod_z (show_z x) = Some y /\ close_z y x = true).
Proof.
  intros b1 b2 u. split; [intros x; apply show_case_ok|]. split; [apply admP_case; reflexivity|]. split; [apply adm1_case; reflexivity|].
  split; [reflexivity|]. split; [split; discriminate|]. split; [reflexivity|].
  split; [exact header_case_ok|]. split; [exact header_case_fits|]. split.
  - intros dd c. change (link_at b1 u dd c) with su3_case. split; [|split; [reflexivity|repeat constructor]].
    intros i j Hi Hj. destruct i as [|[|[|]]], j as [|[|[|]]]; try lia; reflexivity.
  - split; [reflexivity|]. intros x. unfold show_z, strtod_z, close_z. destruct (x =? 0)%Z eqn:E; eexists; split; reflexivity.
Qed.
