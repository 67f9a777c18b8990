(** C97: HDF5Reader and HDF5Writer objects open, hold and close files as a user believes. *)
From Coq Require Import String List Bool Arith NArith Lia.
From Verif Require Import H5DirModel H5FileModel H5FileSpec H5FileProofs.
Import ListNotations.

Section C97.
  Variable T : Type.
  Variable empty : T.
  Variable grp : T -> path -> bool.
  (** The root is a group, and what contains a group is a group. *)
  Definition trees : Prop := (forall t, grp t [] = true) /\ (forall t p, grp t p = true -> grp t (removelast p) = true).

  (** A program starts: there are no objects, and the user knows what is on the disk. *)
  Definition starts (d : string -> entry T) (w : world T) : Prop :=
    (forall i, objs T w i = None) /\ (forall n, same T (files T w n) (d n)).
  (** The objects see what the user believes; the files that no writer has open are on the disk ([saved]); when
      nothing is open, nothing is left open in HDF5. *)
  Definition agrees (w : world T) (x : st5 T) : Prop :=
    (forall i v n q, objs T w i = Some v -> v_open v = Some (n, q) ->
       exists t, files T w n = Hdf5 t /\ sees T x i = Some (q, t)) /\
    saved T w (disk T (s_lib T x)) /\
    ((forall i v, objs T w i = Some v -> v_open v = None) -> hs T (s_lib T x) = [] /\ forall n, live T (s_lib T x) n = None).

  (** Every program that never has a file open in two objects does what the user believes. *)
  Theorem C97_follows d w acts r : trees -> starts d w -> history T empty grp w acts r ->
    match r with
    | Goes w' => exists x, run5 T empty grp (start5 T d) (map (op_of T) acts) = Fine x /\ agrees w' x
    | Stops w' => exists d', run5 T empty grp (start5 T d) (map (op_of T) acts) = Exit d' /\ saved T w' d'
    end.
  Proof.
    intros [G1 G2] [S1 S2] H.
    assert (R0 : Rel T grp w (start5 T d)).
    { constructor; simpl.
      - split; simpl; [constructor|intros h []].
      - intro i. rewrite S1. exact I.
      - intro n. apply S2.
      - intros h [].
      - intros h [].
      - intros i j v v' n q q' A. rewrite S1 in A. discriminate. }
    pose proof (run_rel T empty grp G1 G2 w acts r H _ R0) as K. destruct r as [w'|w'].
    - destruct K as [x [E R]]. exists x. split; [exact E|]. split; [|split].
      + intros i v n q A B. destruct (obj_of _ _ _ _ _ _ R A) as [o [O1 [O2 O3]]]. rewrite B in O3.
        destruct O3 as [f [c [k [t [P1 [P2 [P3 [P4 [P5 [P6 P7]]]]]]]]]]. exists t.
        pose proof (r_live _ _ _ _ R n) as M. rewrite P6 in M. destruct M as [M _]. split; [exact M|].
        unfold sees. rewrite O1, P2. destruct (r_ids _ _ _ _ R) as [N _]. pose proof (in_find T _ _ N P4) as F. simpl in F.
        rewrite F. simpl. rewrite P6. destruct k; simpl in P5; subst q; reflexivity.
      + intros n A. apply (rel_disk T grp w' x n R A).
      + intro A. assert (L : forall n, live T (s_lib T x) n = None).
        { intro n. apply (not_live T grp w' x n R). intros i v q B C. rewrite (A _ _ B) in C. discriminate. }
        split; [|exact L]. destruct (hs T (s_lib T x)) as [|h r] eqn:Hh; [reflexivity|]. exfalso.
        apply (r_handles _ _ _ _ R h); [rewrite Hh; now left|apply L].
    - destruct K as [d' [E S]]. exists d'. auto.
  Qed.

  (** What opening does to a file, whatever the rest of the program: a reader changes no file. *)
  Theorem C97_reader d w acts w' : trees -> starts d w -> history T empty grp w acts (Goes w') ->
    (forall a, In a acts -> match a with AWrite _ _ _ => False | _ => True end) -> forall n, files T w' n = files T w n.
  Proof.
    intros G [S1 _] H. assert (W : forall i v, objs T w i = Some v -> v_writer v = true -> v_open v = None) by (intros i v A; rewrite S1 in A; discriminate).
    clear S1. remember (Goes w') as r eqn:Er. revert W Er. induction H as [w|w a as' w1 P D|w a as' w1 r P D H IH]; intros W Er NW n.
    - inversion Er; subst. reflexivity.
    - discriminate.
    - assert (E1 : files T w1 n = files T w n /\ (forall i v, objs T w1 i = Some v -> v_writer v = true -> v_open v = None)).
      { clear IH H. assert (NWa := NW a (or_introl eq_refl)).
        assert (SO : forall i v0, v_writer v0 = false \/ v_open v0 = None -> forall j v, objs T (seto T w i (Some v0)) j = Some v -> v_writer v = true -> v_open v = None).
        { intros i v0 Z j v A B. simpl in A. destruct (Nat.eq_dec j i); [|eapply W; eauto]. inversion A; subst v0. destruct Z; congruence. }
        destruct a as [wr i|i m|i m tr|i|i|i p|i|i f]; simpl in D.
        - destruct (objs T w i); [discriminate|]. inversion D; subst w1. split; [reflexivity|]. apply SO. auto.
        - destruct (objs T w i) as [[[|] vo]|]; try discriminate. destruct (files T w m); try discriminate. inversion D; subst w1. split; [reflexivity|].
          intros j v A B. simpl in A. destruct (Nat.eq_dec j i); [inversion A; subst v; discriminate|]. eapply W; eauto.
        - destruct NWa.
        - destruct (objs T w i) as [v0|]; [|discriminate]. inversion D; subst w1. split; [reflexivity|]. apply SO. auto.
        - destruct (objs T w i) as [v0|]; [|discriminate]. inversion D; subst w1. split; [reflexivity|].
          intros j v A B. simpl in A. destruct (Nat.eq_dec j i); [discriminate|]. eapply W; eauto.
        - destruct (objs T w i) as [[wr [[m q]|]]|] eqn:Hv; try discriminate. destruct (files T w m); try discriminate. inversion D; subst w1.
          destruct (grp t p); [|auto]. split; [reflexivity|]. apply SO. left. destruct wr; [|reflexivity].
          pose proof (W _ _ Hv eq_refl) as X. discriminate.
        - destruct (objs T w i) as [[wr [[m q]|]]|] eqn:Hv; try discriminate. inversion D; subst w1. split; [reflexivity|].
          apply SO. left. destruct wr; [|reflexivity]. pose proof (W _ _ Hv eq_refl) as X. discriminate.
        - destruct (objs T w i) as [[[|] [[m q]|]]|] eqn:Hv; try discriminate. pose proof (W _ _ Hv eq_refl) as X. discriminate. }
      destruct E1 as [E1 E2]. rewrite <- E1. apply IH; auto. intros a' A. apply NW. now right.
  Qed.

  (** FALSE when two objects have one file open: closing one takes the working group of the other, unless that
      is the file itself; what the other does then has no meaning. *)
  Theorem C97_shared_refuted x i j o o' f h c g y : i <> j ->
    s_objs T x i = Some o -> o_file o = Some f -> find_h T (s_lib T x) f = Some h ->
    s_objs T x j = Some o' -> o_cur o' = Some c -> find_h T (s_lib T x) c = Some g ->
    h_name g = h_name h -> h_kind g <> KFile ->
    step5 T empty grp x (Close i) = Fine y ->
    sees T y j = None /\ step5 T empty grp y (Pop j) = Wrong /\ (forall p, step5 T empty grp y (Cd j p) = Wrong) /\
    (forall e, step5 T empty grp y (Edit j e) = Wrong).
  Proof.
    intros D O OF F O' OC C N K E. simpl in E. rewrite O, OF in E. inversion E; subst y; clear E.
    apply (lost T empty grp _ j o' c).
    - simpl. unfold uobj. destruct (Nat.eqb_neq j i) as [_ X]. rewrite X by auto. exact O'.
    - exact OC.
    - simpl. eapply close_lib_gone; eauto.
  Qed.
  (** FALSE for copies of an object: closing one closes the file of the other. *)
  Theorem C97_copy_refuted x i j o f h c g y : i <> j ->
    s_objs T x i = Some o -> o_file o = Some f -> find_h T (s_lib T x) f = Some h ->
    o_cur o = Some c -> find_h T (s_lib T x) c = Some g -> c = f \/ (h_name g = h_name h /\ h_kind g <> KFile) ->
    run5 T empty grp x [Copy i j; Close i] = Fine y ->
    sees T y j = None /\ step5 T empty grp y (Pop j) = Wrong /\ (forall p, step5 T empty grp y (Cd j p) = Wrong) /\
    (forall e, step5 T empty grp y (Edit j e) = Wrong).
  Proof.
    intros D O OF F OC C X E. simpl in E. rewrite O in E. simpl in E. unfold uobj in E at 1.
    destruct (Nat.eqb_neq i j) as [_ Y]. rewrite (Y D) in E. rewrite O, OF in E. inversion E; subst y; clear E.
    apply (lost T empty grp _ j o c).
    - simpl. unfold uobj. destruct (Nat.eqb_neq j i) as [_ Z]. rewrite Z by auto. rewrite Nat.eqb_refl. reflexivity.
    - exact OC.
    - simpl. eapply close_lib_gone; eauto.
  Qed.
  (** FALSE for an object that is closed: its functions do not report an error, they have no meaning. *)
  Theorem C97_closed_refuted x i o f h c g y :
    s_objs T x i = Some o -> o_file o = Some f -> find_h T (s_lib T x) f = Some h ->
    o_cur o = Some c -> find_h T (s_lib T x) c = Some g -> c = f \/ (h_name g = h_name h /\ h_kind g <> KFile) ->
    step5 T empty grp x (Close i) = Fine y ->
    sees T y i = None /\ step5 T empty grp y (Pop i) = Wrong /\ (forall p, step5 T empty grp y (Cd i p) = Wrong) /\
    (forall e, step5 T empty grp y (Edit i e) = Wrong).
  Proof.
    intros O OF F OC C X E. simpl in E. rewrite O, OF in E. inversion E; subst y; clear E.
    apply (lost T empty grp _ i (closed o) c).
    - simpl. unfold uobj. rewrite Nat.eqb_refl. reflexivity.
    - exact OC.
    - simpl. eapply close_lib_gone; eauto.
  Qed.
  (** FALSE for the assignment of objects: the file of the object that is assigned to is never closed. *)
  Theorem C97_assign_refuted d n m t t' : n <> m -> d n = Tree t -> d m = Tree t' ->
    exists x, run5 T empty grp (start5 T d) [New false 0; OpenR 0 n; New false 1; OpenR 1 m; Copy 0 1; Destroy 0; Destroy 1] = Fine x /\
      (forall i, s_objs T x i = None) /\ live T (s_lib T x) m = Some (false, t').
  Proof.
    intros D N M. assert (Enm : (n =? m)%string = false) by (apply String.eqb_neq; exact D).
    assert (Emn : (m =? n)%string = false) by (apply String.eqb_neq; auto).
    cbv -[String.eqb]. repeat (first [rewrite N | rewrite M | rewrite Enm | rewrite Emn | rewrite String.eqb_refl]; cbv -[String.eqb]).
    eexists. split; [reflexivity|]. split.
    - intros [|[|i]]; reflexivity.
    - repeat (first [rewrite Enm | rewrite Emn | rewrite String.eqb_refl]; cbv -[String.eqb]). reflexivity.
  Qed.
  (** FALSE when the program is stopped by another object: the file of a writer that wrote is not saved. *)
  Theorem C97_exit_refuted d n m f : n <> m -> d m = Absent \/ (exists b, d m = Plain b) ->
    exists d', run5 T empty grp (start5 T d) [New true 0; OpenW 0 n true; Edit 0 f; New false 1; OpenR 1 m] = Exit d' /\ d' n = Torn.
  Proof.
    intros D M. assert (Enm : (n =? m)%string = false) by (apply String.eqb_neq; exact D).
    assert (Emn : (m =? n)%string = false) by (apply String.eqb_neq; auto).
    assert (E : exists y, run5 T empty grp (start5 T d) [New true 0; OpenW 0 n true] = Fine y /\
              s_lib T y = mkLib T (disk T (s_lib T y)) (live T (s_lib T y)) [mkHandle 0 n KFile] 1 /\ live T (s_lib T y) n = Some (true, empty) /\
              disk T (s_lib T y) m = d m /\ s_objs T y = uobj (uobj (fun _ => None) 0 (Some (fresh true))) 0 (Some (mkObj true (Some 0) (Some 0)))).
    { unfold start5. simpl. unfold open_writer, exists_file, is_hdf5, h5_fcreate, opened. simpl.
      destruct (d n) eqn:N; simpl; rewrite ?N, ?upd_same; simpl; eexists; (split; [reflexivity|]); simpl; rewrite ?upd_same; repeat split;
        rewrite ?upd_other by auto; reflexivity. }
    destruct E as [y [E [L [V [Dm O]]]]].
    change [New true 0; OpenW 0 n true; Edit 0 f; New false 1; OpenR 1 m] with ([New true 0; OpenW 0 n true] ++ [Edit 0 f; New false 1; OpenR 1 m]).
    assert (RA : forall cs x, run5 T empty grp x (cs ++ [Edit 0 f; New false 1; OpenR 1 m]) =
              match run5 T empty grp x cs with Fine z => run5 T empty grp z [Edit 0 f; New false 1; OpenR 1 m] | r => r end).
    { induction cs as [|c cs IH]; intro x; [reflexivity|]. simpl app. simpl run5 at 1. simpl run5 at 2. destruct (step5 T empty grp x c); auto. }
    rewrite RA, E. destruct y as [l ob]. simpl in *. subst ob. simpl. rewrite L. unfold find_h. simpl. rewrite V. simpl.
    unfold open_reader, check_exists, exists_file, is_hdf5, error_exit. simpl. rewrite !upd_other by auto. rewrite Dm.
    destruct M as [M|[b M]]; rewrite M; simpl; eexists; (split; [reflexivity|]); apply upd_same.
  Qed.
End C97.

(** *** Examples *)
(** Trees as lists of groups. *)
Definition ex_grp (t : list path) (p : path) : bool := forallb (fun k => existsb (peq (firstn k p)) t) (seq 1 (length p)).
Lemma ex_removelast (p : path) k : k <= length (removelast p) -> firstn k (removelast p) = firstn k p.
Proof.
  revert k. induction p as [|a p IH]; intros k H; [reflexivity|]. destruct p as [|b p].
  - simpl in H. assert (k = 0) by lia. subst. reflexivity.
  - change (removelast (a :: b :: p)) with (a :: removelast (b :: p)) in *. destruct k as [|k]; [reflexivity|].
    cbn [length] in H. cbn [firstn]. rewrite IH by lia. reflexivity.
Qed.
Lemma ex_length (p : path) : length (removelast p) <= length p.
Proof. induction p as [|a [|b p] IH]; [simpl; lia|simpl; lia|]. change (removelast (a :: b :: p)) with (a :: removelast (b :: p)). simpl in *. lia. Qed.
Example ex_trees : trees (list path) ex_grp.
Proof.
  split; [reflexivity|]. intros t p H. unfold ex_grp in *. rewrite forallb_forall in *. intros k K. apply in_seq in K.
  rewrite ex_removelast by lia. apply H. apply in_seq. pose proof (ex_length p). lia.
Qed.
Definition ex_add (p : path) (t : list path) : list path := p :: t.
Lemma ex_add_ok p t q : ex_grp t q = true -> ex_grp (ex_add p t) q = true.
Proof.
  unfold ex_grp. rewrite !forallb_forall. intros H k K. apply H in K. simpl. rewrite K. apply orb_true_r.
Qed.
Definition ex_world : world (list path) := mkW _ (fun n => if string_dec n "b" then Other [1%N] else Nothing) (fun _ => None).
Definition ex_disk (n : string) : entry (list path) := if string_dec n "b" then Plain [1%N] else Absent.
Example ex_starts : starts (list path) ex_disk ex_world.
Proof. split; [reflexivity|]. intro n. unfold ex_disk. simpl. destruct (string_dec n "b"); simpl; auto. Qed.
Definition ex_acts : list (act (list path)) :=
  [AMake true 0; AWrite 0 "a" false; AEdit 0 (ex_add ["g"]); AGo 0 ["g"]; AWrite 0 "b" true; AMake false 1; ARead 1 "a"; AGo 1 ["g"]]%string.
(** A writer makes a file with a group and goes on to another file; a reader opens the first and enters the
    group. *)
Example ex_history : exists w, history _ [] ex_grp ex_world ex_acts (Goes w) /\
  objs _ w 1 = Some (mkView false (Some ("a", ["g"])))%string /\ files _ w "a"%string = Hdf5 [["g"%string]] /\ files _ w "b"%string = Hdf5 [].
Proof.
  eexists. split.
  - unfold ex_acts. repeat (eapply h_go; [|reflexivity|]); try exact I; try apply h_done.
    + intros j v q A B. simpl in B. destruct (Nat.eq_dec j 0); [contradiction|]. discriminate.
    + intros t p. apply ex_add_ok.
    + intros j v q A B. simpl in B. destruct (Nat.eq_dec j 0); [contradiction|]. discriminate.
    + intros j v q A B. simpl in B. destruct (Nat.eq_dec j 1); [contradiction|].
      destruct (Nat.eq_dec j 0); [|discriminate]. inversion B; subst v. discriminate.
  - split; [reflexivity|]. split; reflexivity.
Qed.
(** The same program with the functions of the model. *)
Example ex_run : exists x, run5 _ [] ex_grp (start5 _ ex_disk) (map (op_of _) ex_acts) = Fine x /\
  sees _ x 1 = Some (["g"], [["g"]])%string /\ disk _ (s_lib _ x) "a"%string = Tree [["g"%string]].
Proof. eexists. split; [vm_compute; reflexivity|]. split; vm_compute; reflexivity. Qed.
(** A program that stops. *)
Example ex_stop : exists w, history _ [] ex_grp ex_world [AMake true 0; AWrite 0 "b"%string false] (Stops w).
Proof.
  eexists. eapply h_go; [exact I|reflexivity|]. eapply h_stop; [|reflexivity]. intros j v q A B. simpl in B. destruct (Nat.eq_dec j 0); [contradiction|discriminate].
Qed.
(** Two readers of one file, one of them in a group. *)
Example ex_shared : exists x o o' h g, 
  run5 _ [] ex_grp (start5 _ (fun _ => Tree [["g"%string]])) [New false 0; OpenR 0 "a"; New false 1; OpenR 1 "a"; Cd 1 ["g"]]%string = Fine x /\
  s_objs _ x 0 = Some o /\ o_file o = Some 0 /\ find_h _ (s_lib _ x) 0 = Some h /\ s_objs _ x 1 = Some o' /\ o_cur o' = Some 2 /\
  find_h _ (s_lib _ x) 2 = Some g /\ h_name g = h_name h /\ h_kind g = KGroup ["g"%string] /\ sees _ x 1 = Some (["g"], [["g"]])%string.
Proof. do 5 eexists. split; [vm_compute; reflexivity|]. repeat (split; [vm_compute; reflexivity|]). vm_compute; reflexivity. Qed.

Print Assumptions C97_follows.
Print Assumptions C97_reader.
Print Assumptions C97_shared_refuted.
Print Assumptions C97_copy_refuted.
Print Assumptions C97_closed_refuted.
Print Assumptions C97_assign_refuted.
Print Assumptions C97_exit_refuted.
