(** C105: XML output of lattice fields. *)
From Coq Require Import String List Arith ZArith Bool Lia.
From Verif Require Import Base LayoutModel LayoutSpec LayoutProofs LayoutOk LayoutCases LatIoModel LatIoSpec LatIoProofs LatIoOk
  LatXmlModel LatXmlSpec LatXmlProofs.
Import ListNotations.
Local Open Scope nat_scope.
Local Notation length := List.length.

(** Whatever is in the buffers of nodes that pass messages on, writing a field adds one element to
    the document.  Every part of the value at every site is found there by the coordinates of the
    site, once, and there are as many elements as sites. *)
Theorem C105_written : forall W b (F : xfield W) stray w, build_ok b -> w <> [] ->
  exists t w', put_lattice W b F stray w = Some w' /\ added W t w w' /\
    (forall c p x, in_lattice (build_size b) c -> component W (xvalue W b F c) p = Some x ->
       select W (by_coord c ++ path p) [t] = [[Txt W x]]) /\
    length (select W [Query "OLattice" [] None; Query "elem" [] None] [t]) = volume (build_size b) /\
    length (inside W t) = volume (build_size b).
Proof.
  intros W b F stray w HB HW. destruct w as [|[[s al] k] r]; [contradiction|].
  exists (document W b F). eexists. split; [apply (lattice_adds W b F stray HB)|].
  split; [exists s, al, k, r; auto|]. split; [|split].
  - intros c p x Hc Hp. destruct (size_ok b HB) as [A B].
    pose proof (crtesn_local_site (build_kind b) c (build_size b) A Hc) as E.
    pose proof (local_site_bound b c HB Hc) as N.
    destruct (select_site W b F _ HB N) as [S _]. unfold crt in S.
    change (l_kind (lay_of b)) with (build_kind b) in S. change (l_size (lay_of b)) with (build_size b) in S.
    rewrite E in S. rewrite select_app, S. cbn [flat_map]. rewrite (select_component W p _ x Hp). reflexivity.
  - unfold document. rewrite select_under, map_length. unfold matching. cbn [q_nth].
    rewrite (filter_all W b F). now rewrite map_length, seq_length.
  - unfold document. cbn [inside]. now rewrite map_length, seq_length.
Qed.

(** The number given as "site" is the lexicographic one, except in 3-d checkerboard builds. *)
Theorem C105_numbers : forall W b (F : xfield W) stray w, build_ok b -> build_kind b <> CB3D -> w <> [] ->
  exists t w', put_lattice W b F stray w = Some w' /\ added W t w w' /\
    forall c p x, in_lattice (build_size b) c -> component W (xvalue W b F c) p = Some x ->
      select W (by_number (lexnum (build_size b) c) ++ path p) [t] = [[Txt W x]].
Proof.
  intros W b F stray w HB HK HW. destruct w as [|[[s al] k] r]; [contradiction|].
  exists (document W b F). eexists. split; [apply (lattice_adds W b F stray HB)|].
  split; [exists s, al, k, r; auto|]. intros c p x Hc Hp. destruct (size_ok b HB) as [A B].
  pose proof (crtesn_local_site (build_kind b) c (build_size b) A Hc) as E.
  pose proof (local_site_bound b c HB Hc) as N.
  destruct (select_site W b F _ HB N) as [_ S]. unfold crt in S.
  change (l_kind (lay_of b)) with (build_kind b) in S. change (l_size (lay_of b)) with (build_size b) in S.
  rewrite E in S. rewrite <- (local_site_lexnum (build_kind b)) by (auto; apply in_lattice_get in Hc; tauto).
  rewrite select_app, S. cbn [flat_map]. rewrite (select_component W p _ x Hp). reflexivity.
Qed.

(** The document does not depend on the layout, the number of nodes or the machine. *)
Theorem C105_portable : forall W b1 b2 (F1 F2 : xfield W) stray1 stray2 w,
  build_ok b1 -> build_ok b2 -> build_size b1 = build_size b2 -> build_kind b1 <> CB3D -> build_kind b2 <> CB3D ->
  (forall c, in_lattice (build_size b1) c -> xvalue W b1 F1 c = xvalue W b2 F2 c) -> w <> [] ->
  put_lattice W b1 F1 stray1 w = put_lattice W b2 F2 stray2 w /\ put_lattice W b1 F1 stray1 w <> None.
Proof.
  intros W b1 b2 F1 F2 stray1 stray2 w H1 H2 EL K1 K2 HV HW. destruct w as [|[[s al] k] r]; [contradiction|].
  rewrite (lattice_adds W b1 F1 stray1 H1), (lattice_adds W b2 F2 stray2 H2). split; [|discriminate].
  assert (E : document W b1 F1 = document W b2 F2); [|now rewrite E].
  unfold document. rewrite <- EL. f_equal. apply map_ext_in. intros n I. apply in_seq in I. destruct I as [_ I]. cbn in I.
  assert (Q : crt (lay_of b1) n = crt (lay_of b2) n).
  { unfold crt. change (l_kind (lay_of b1)) with (build_kind b1). change (l_kind (lay_of b2)) with (build_kind b2).
    change (l_size (lay_of b1)) with (build_size b1). change (l_size (lay_of b2)) with (build_size b2). rewrite <- EL.
    destruct (size_ok b1 H1) as [A _].
    pose proof (order_lex_nth (build_kind b1) (build_size b1) n K1 A I) as Q1.
    pose proof (order_lex_nth (build_kind b2) (build_size b1) n K2 A I) as Q2. congruence. }
  unfold site_tree. rewrite <- Q. rewrite HV by (apply crt_in; auto). reflexivity.
Qed.

(** In 3-d checkerboard builds the numbers are others: element number 1 is the site next in time. *)
Theorem C105_cb3d_refuted : exists b (F : xfield nat) w', build_ok b /\ build_size b = [4; 4; 4; 4] /\
  put_lattice nat b F (fun _ _ => None) [(""%string, [], [])] = Some w' /\
  (forall c, in_lattice (build_size b) c -> xvalue nat b F c = Num nat (lexnum (build_size b) c)) /\
  exists t, added nat t [(""%string, [], [])] w' /\ select nat (by_number 1) [t] = [[Txt nat 64]].
Proof.
  set (b := Single CB3D [4; 4; 4; 4]).
  assert (HB : build_ok b) by (apply adm1_case; reflexivity).
  set (F := (fun _ i => Num nat (lexnum [4; 4; 4; 4] (l_coord (lay_of b) 0 i))) : xfield nat).
  exists b, F. eexists. split; [exact HB|]. split; [reflexivity|].
  split; [exact (lattice_adds nat b F _ HB _ _ _ _)|]. split.
  - intros c Hc. unfold xvalue, F. f_equal. destruct (lay_ok b HB) as (_ & _ & B & _). destruct (B c Hc) as [_ E].
    cbn [fst snd] in E. f_equal. exact E.
  - exists (document nat b F). split; [eexists _, _, _, _; split; reflexivity|].
    destruct (select_site nat b F 1 HB) as [_ S]; [vm_compute; lia|]. rewrite S. vm_compute. reflexivity.
Qed.

(** Spinors of colour vectors of complex numbers on four nodes with a checkerboarded layout. *)
Definition spinor (i : nat) : obj nat :=
  Vec nat true 4 (fun s => Vec nat false 3 (fun c => Cplx nat (Num nat (100 * i + 10 * s + c)) (Num nat (7 * i + s + c)))).
Example C105_case :
  let b := Multi false CB2 (lex_machine [2; 2]) [8; 4] in let F := (fun q i => spinor (8 * q + i)) : xfield nat in
  build_ok b /\ build_kind b <> CB3D /\ in_lattice (build_size b) [5; 3] /\
  component nat (xvalue nat b F [5; 3]) [Spin 3; Row 1; Im] = Some 186 /\
  match put_lattice nat b F (fun _ q => Some (spinor q)) [("file"%string, [], [Txt nat 0])] with
  | Some [(_, _, [Txt _ 0; t])] =>
      select nat (by_coord [5; 3] ++ path [Spin 3; Row 1; Im]) [t] = [[Txt nat 186]] /\
      select nat (by_number 29 ++ path [Spin 3; Row 1; Im]) [t] = [[Txt nat 186]]
  | _ => False
  end.
Proof.
  intros b F. split; [apply admP_case; reflexivity|]. split; [discriminate|]. split; [repeat constructor|].
  vm_compute. repeat split.
Qed.

Print Assumptions C105_written.
Print Assumptions C105_numbers.
Print Assumptions C105_portable.
Print Assumptions C105_cb3d_refuted.
