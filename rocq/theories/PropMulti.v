(** C46-C49, C68-C70: the array containers. *)
From Coq Require Import List Arith ZArith Bool Lia.
From Verif Require Import Base MultiModel MultiSpec MultiProofs MultiOk MultiMore.
Import ListNotations.

(** ** C46 *)
Theorem C46_order (T : Type) (teq tlt tgt : T -> T -> bool) : total_order teq tlt tgt ->
  let lt := marr_lt teq tlt in
  (forall a b, lt a b = true <-> lex (fun x y => tlt x y = true) a b) /\
  (forall a, lt a a = false) /\
  (forall a b c, lt a b = true -> lt b c = true -> lt a c = true) /\
  (forall a b, a = b \/ lt a b = true \/ lt b a = true) /\
  (forall a b, marr_gt teq tgt a b = lt b a) /\
  (forall a b, a <> [] -> (marr_eq teq a b = true <-> a = b)) /\
  (forall a b, marr_ne teq a b = negb (marr_eq teq a b)) /\
  (forall a b, a <> [] -> (marr_le teq tlt a b = true <-> lt a b = true \/ a = b)) /\
  (forall a b, a <> [] -> (marr_ge teq tgt a b = true <-> lt b a = true \/ a = b)).
Proof.
  intros O. cbv zeta. split; [apply lt_lex with (tgt := tgt); assumption|].
  assert (LT : forall a b, marr_lt teq tlt a b = true <-> lex (fun x y => tlt x y = true) a b) by (apply lt_lex with (tgt := tgt); assumption).
  assert (EQ : forall a b, a <> [] -> (marr_eq teq a b = true <-> a = b)).
  { intros a b N. rewrite (eq_list _ _ _ O). tauto. }
  split; [|split; [|split; [|split; [|split; [|split; [|split]]]]]].
  - intros a. destruct (marr_lt teq tlt a a) eqn:E; [|reflexivity]. apply LT in E. exfalso. exact (lex_irrefl _ _ _ O a E).
  - intros a b c. rewrite !LT. apply (lex_trans _ _ _ O).
  - intros a b. rewrite !LT. apply (lex_total _ _ _ O).
  - intros a b. apply gt_lt. assumption.
  - assumption.
  - reflexivity.
  - intros a b N. unfold marr_le. rewrite orb_true_iff, (EQ a b N). reflexivity.
  - intros a b N. unfold marr_ge. rewrite orb_true_iff, (EQ a b N), (gt_lt _ _ _ O). reflexivity.
Qed.
Print Assumptions C46_order.

(** Two empty arrays are not equal, and none of <, ==, >, <=, >= holds between them; the same
    happens to arrays that begin with an empty array. *)
Theorem C46_empty_refuted (T : Type) (teq tlt tgt : T -> T -> bool) :
  marr_lt teq tlt [] [] = false /\ marr_eq teq [] [] = false /\ marr_gt teq tgt [] [] = false /\
  marr_le teq tlt [] [] = false /\ marr_ge teq tgt [] [] = false /\ marr_ne teq [] [] = true /\
  forall a, let a := [] :: a in
  marr_eq (marr_eq teq) a a = false /\ marr_lt (marr_eq teq) (marr_lt teq tlt) a a = false /\
  marr_gt (marr_eq teq) (marr_gt teq tgt) a a = false.
Proof.
  do 6 (split; [reflexivity|]). intros a. cbv zeta. split; [|split; reflexivity].
  unfold marr_eq at 1. rewrite Nat.eqb_refl. reflexivity.
Qed.
Print Assumptions C46_empty_refuted.

Example C46_case : total_order Z.eqb Z.ltb Z.gtb /\
  marr_lt Z.eqb Z.ltb [1; 5]%Z [2]%Z = true /\ marr_lt Z.eqb Z.ltb [1]%Z [1; -3]%Z = true /\ marr_ge Z.eqb Z.gtb [1; 2]%Z [1; 2]%Z = true.
Proof.
  split; [|vm_compute; auto]. split.
  - apply Z.eqb_eq.
  - intros. apply Z.gtb_ltb.
  - apply Z.ltb_irrefl.
  - intros x y z. rewrite !Z.ltb_lt. lia.
  - intros x y. rewrite !Z.ltb_lt. lia.
Qed.

(** ** C47 *)
Theorem C47_indexing (dims : list nat) : rank_ok dims ->
  elements dims = volume dims /\
  (forall ix, in_range dims ix -> call_offset dims ix < volume dims) /\
  (forall ix jx, in_range dims ix -> in_range dims jx -> call_offset dims ix = call_offset dims jx -> ix = jx) /\
  (forall p, p < volume dims -> exists ix, in_range dims ix /\ call_offset dims ix = p) /\
  (forall ix jx, in_range dims ix -> in_range dims jx -> before ix jx -> call_offset dims ix < call_offset dims jx) /\
  (forall ix, in_range dims ix -> bracket_offset dims ix = call_offset dims ix) /\
  (2 <= length dims -> forall ix i, in_range dims (ix ++ [i]) -> slice_offset dims ix + i = call_offset dims (ix ++ [i])).
Proof.
  intros R. assert (C : forall ix, in_range dims ix -> call_offset dims ix = pos dims ix) by (intros; apply call_pos; assumption).
  split; [apply elements_volume|]. split; [|split; [|split; [|split; [|split]]]].
  - intros ix I. rewrite C by assumption. apply pos_lt. assumption.
  - intros ix jx I J. rewrite !C by assumption. apply pos_inj; assumption.
  - intros p P. destruct (pos_onto dims p P) as (ix & I & E). exists ix. rewrite C by assumption. auto.
  - intros ix jx I J B. rewrite !C by assumption. apply pos_mono; assumption.
  - intros ix I. rewrite C by assumption. apply bracket_pos; assumption.
  - intros L ix i I. rewrite C by assumption. apply slice_pos; [|assumption]. unfold rank_ok in R. lia.
Qed.
Print Assumptions C47_indexing.
Example C47_case : rank_ok [2; 3; 4; 2; 3] /\ in_range [2; 3; 4; 2; 3] [1; 2; 0; 1; 2] /\
  call_offset [2; 3; 4; 2; 3] [1; 2; 0; 1; 2] = 125 /\ bracket_offset [2; 3; 4; 2; 3] [1; 2; 0; 1; 2] = 125.
Proof. split; [unfold rank_ok; cbn; lia|]. split; [repeat constructor|]. vm_compute. auto. Qed.

(** ** C48 *)
Theorem C48_packed (nz : list nat) : nz <> [] ->
  nd_elements nz = Val (volume nz) /\
  (forall ix, in_range nz ix -> exists p, nd_packed nz ix = Val p /\ p < volume nz /\ nd_getElem (volume nz) p = Val p) /\
  (forall ix jx p, in_range nz ix -> in_range nz jx -> nd_packed nz ix = Val p -> nd_packed nz jx = Val p -> ix = jx) /\
  (forall p, p < volume nz -> exists ix, in_range nz ix /\ nd_packed nz ix = Val p) /\
  (forall ind, length ind <> length nz -> nd_packed nz ind = Abort) /\
  (forall off, volume nz <= off -> nd_getElem (volume nz) off = Abort).
Proof.
  intros N. split; [apply nd_elements_volume; assumption|]. split; [|split; [|split; [|split]]].
  - intros ix I. exists (pos nz ix). assert (L := pos_lt _ _ I). split; [apply nd_packed_pos; assumption|]. split; [assumption|].
    unfold nd_getElem. apply Nat.leb_gt in L. rewrite L. reflexivity.
  - intros ix jx p I J. rewrite !nd_packed_pos by assumption. intros E1 E2. apply (pos_inj nz); congruence.
  - intros p P. destruct (pos_onto nz p P) as (ix & I & E). exists ix. split; [assumption|]. rewrite nd_packed_pos by assumption. congruence.
  - intros ind L. unfold nd_packed. apply Nat.eqb_neq in L. rewrite L. reflexivity.
  - intros off L. unfold nd_getElem. apply Nat.leb_le in L. rewrite L. reflexivity.
Qed.
Print Assumptions C48_packed.
(** a(i,j,..) and a[{i,j,..}] agree for one index, and otherwise only for some shapes. *)
Theorem C48_agreement :
  (forall n ix, in_range [n] ix -> nd_call [n] ix = nd_packed [n] ix) /\
  (forall n0 n1, 0 < n0 -> 0 < n1 ->
     (forall ix, in_range [n0; n1] ix -> nd_call [n0; n1] ix = nd_packed [n0; n1] ix) <-> (n0 = 1 \/ n0 = n1)) /\
  (forall n0 n1 n2, 0 < n0 -> 0 < n1 -> 0 < n2 ->
     (forall ix, in_range [n0; n1; n2] ix -> nd_call [n0; n1; n2] ix = nd_packed [n0; n1; n2] ix) <-> ((n0 = 1 /\ n1 = 1) \/ n0 = n2)) /\
  (forall n0 n1 n2 n3, 0 < n0 -> 0 < n1 -> 0 < n2 -> 0 < n3 ->
     (forall ix, in_range [n0; n1; n2; n3] ix -> nd_call [n0; n1; n2; n3] ix = nd_packed [n0; n1; n2; n3] ix) <->
     ((n0 = 1 \/ n0 = n3) /\ (n1 = 1 \/ n0 * n1 = n2 * n3) /\ (n2 = 1 \/ n0 = n3))).
Proof.
  split; [|split; [|split]].
  - intros n ix R. rewrite (nd_packed_cons _ _ _ R). unfold in_range in R. dims_cases. cbn [nd_call pos volume fold_right]. f_equal. lia.
  - exact nd_agree2.
  - exact nd_agree3.
  - exact nd_agree4.
Qed.
Print Assumptions C48_agreement.
(** A matrix with more rows than columns is accessed beyond its memory; one with fewer has two elements
    in the same place. *)
Theorem C48_refuted :
  (forall n0 n1, 0 < n1 -> n1 < n0 -> exists ix p, in_range [n0; n1] ix /\ nd_call [n0; n1] ix = Val p /\ volume [n0; n1] <= p) /\
  (forall n0 n1, 1 < n0 -> n0 < n1 -> exists ix jx, in_range [n0; n1] ix /\ in_range [n0; n1] jx /\ ix <> jx /\ nd_call [n0; n1] ix = nd_call [n0; n1] jx).
Proof.
  split.
  - intros n0 n1 P L. exists [n0 - 1; n1 - 1], (n1 - 1 + n0 * (n0 - 1)).
    split; [repeat constructor; lia|]. split; [reflexivity|]. cbn [volume fold_right]. nia.
  - intros n0 n1 P L. exists [0; n0], [1; 0]. split; [repeat constructor; lia|]. split; [repeat constructor; lia|]. split; [discriminate|].
    cbn [nd_call]. f_equal. lia.
Qed.
Print Assumptions C48_refuted.

(** ** C49 *)
Theorem C49_values (T : Type) (dflt : option T) (p : list (stmt T)) : sound dflt p no_arrays ->
  match meaning_all dflt p no_arrays with
  | Val s => exists st, exec_all dflt p empty_state = Val st /\ shows st s
  | Abort => exec_all dflt p empty_state = Abort
  | Undef => True
  end.
Proof.
  intros SD. assert (K := exec_all_ok dflt p _ _ _ inv_start SD). unfold empty_state.
  destruct (meaning_all dflt p no_arrays) as [s| |]; [|exact K|exact I].
  destruct K as (vs & h & E & I0). exists (mkState vs h). split; [exact E|]. apply inv_shows. exact I0.
Qed.
Print Assumptions C49_values.
(** Nothing leaks: when every array is gone, so is all memory. *)
Theorem C49_no_leak (T : Type) (dflt : option T) (p : list (stmt T)) s : sound dflt p no_arrays ->
  meaning_all dflt p no_arrays = Val s -> (forall x, s x = None) ->
  exists st, exec_all dflt p empty_state = Val st /\ Forall (fun b => b = None) (mem st).
Proof.
  intros SD M NONE. assert (K := exec_all_ok dflt p _ _ _ inv_start SD). rewrite M in K. destruct K as (vs & h & E & I0).
  exists (mkState vs h). split; [exact E|]. cbn [mem]. apply Forall_forall. intros [l|] IN; [|reflexivity]. exfalso.
  apply In_nth_error in IN. destruct IN as [b B]. destruct (inv_live _ _ _ I0 b l B) as (x & a & X & _).
  assert (G := inv_good _ _ _ I0 x). rewrite X, NONE in G. exact G.
Qed.
Print Assumptions C49_no_leak.
(** An array of rank 2 or more assigned to itself loses its elements. *)
Theorem C49_self_assignment_refuted (T : Type) (dflt : option T) (p : list (stmt T)) s x v : sound dflt p no_arrays ->
  meaning_all dflt p no_arrays = Val s -> s x = Some v -> 2 <= length (v_dims v) ->
  exists st, exec_all dflt (p ++ [SAssign x x]) empty_state = Val st /\
    forall ix, in_range (v_dims v) ix -> read_elem x ix st = Val dflt.
Proof.
  intros SD M S R. assert (K := exec_all_ok dflt p _ _ _ inv_start SD). rewrite M in K. destruct K as (vs & h & E & I0).
  destruct (self_assign dflt vs h s x v I0 S R) as (st & Q & RD). exists st. split; [|exact RD]. unfold empty_state. revert E Q. clear.
  generalize (mkState (fun _ : nat => @None arr) (@nil (option (list (option T))))). induction p as [|c p IH]; intros st0 E Q; cbn [app exec_all] in *.
  - injection E as ->. rewrite Q. reflexivity.
  - destruct (exec dflt c st0); cbn [bind] in *; try discriminate. apply IH; assumption.
Qed.
Print Assumptions C49_self_assignment_refuted.
Theorem C49_multiNd (T : Type) (dflt : option T) :
  (forall (s : ndarr) nz l h, holds s nz l h ->
     exists a h', nd_copy dflt s h = Val (a, h') /\ holds a nz l h' /\ holds s nz l h' /\ separate a s) /\
  (forall (a s : ndarr) nz l nz' l' h, holds a nz' l' h -> holds s nz l h -> separate a s ->
     exists a' h', nd_assign dflt false a s h = Val (a', h') /\ holds a' nz l h' /\ holds s nz l h' /\
       (forall b o, nd_F a = Some (b, o) -> nth_error h' b = Some None)).
Proof. split; [apply nd_copy_ok|apply nd_assign_ok]. Qed.
Print Assumptions C49_multiNd.
(** Self-assignment loses the elements of a multiNd as well, and a default-constructed one cannot be copied. *)
Theorem C49_multiNd_refuted (T : Type) (dflt : option T) :
  (forall (a : ndarr) nz l h, holds a nz l h ->
     exists a' h', nd_assign dflt true a a h = Val (a', h') /\ holds a' nz (repeat dflt (volume nz)) h') /\
  (forall h, nd_copy dflt nd_default h = Undef) /\
  (forall (a : ndarr) nz l h, holds a nz l h -> nd_assign dflt false a nd_default h = Undef).
Proof.
  split; [apply nd_self|]. split; [reflexivity|]. intros a nz l h (_ & _ & _ & _ & b & F & H).
  unfold nd_assign, nd_resize, delete_array. rewrite F, H. reflexivity.
Qed.
Print Assumptions C49_multiNd_refuted.
Theorem C49_concat (T : Type) (d : T) (l r : list T) : marr_concat d l r = l ++ r.
Proof. apply concat_app. Qed.
Print Assumptions C49_concat.

(** A program that uses every statement. *)
Definition demo : list (stmt Z) :=
  [SSizes 0 [2; 3]; SFill 0 (Const 7%Z); SSet 0 [1; 2] 5%Z; SCopy 1 0; SSizes 2 [3]; SFill 2 (ElemOf 0 [1; 2]); SSet 2 [1] 9%Z;
   SRow 0 1 2; SAssign 1 0; SDefault 3 1; SAssign 3 2; SAssign 3 3; SOp Z.add 3 2; SOpScalar Z.mul 3 (ElemOf 0 [0; 0]);
   SResize 2 [4]; SBinary Z.sub 4 3 3; SBinaryScalar Z.mul 5 3 (ElemOf 3 [0]); SScalarOver Z.sub 6 (Const 100%Z) 3; SEnd 1].
Example C49_case : sound None demo no_arrays /\
  match exec_all None demo empty_state with
  | Val st => map (fun ix => read_elem 0 ix st) [[0; 0]; [0; 2]; [1; 0]; [1; 1]; [1; 2]] = map Val [Some 7; Some 7; Some 5; Some 9; Some 5]%Z /\
              map (fun i => read_elem 3 [i] st) [0; 1; 2] = map Val [Some 70; Some 126; Some 70]%Z /\
              map (fun i => read_elem 5 [i] st) [0; 1; 2] = map Val [Some 4900; Some 8820; Some 4900]%Z /\
              map (fun i => read_elem 6 [i] st) [0; 1; 2] = map Val [Some 30; Some (-26); Some 30]%Z /\
              read_elem 2 [3] st = Val None
  | _ => False
  end.
Proof.
  split; [|vm_compute; auto]. unfold demo. cbn [sound meaning].
  repeat (split; [first [exact I | discriminate | (intros _ v E; injection E as <-; reflexivity) | (intros v E; injection E as <-; reflexivity)]|]; cbn); exact I.
Qed.

(** ** C68: a scalar operand *)
Theorem C68_scalar_operand_refuted (T : Type) (dflt : option T) (p : list (stmt T)) s x v n k f : sound dflt p no_arrays ->
  meaning_all dflt p no_arrays = Val s -> s x = Some v -> v_dims v = [n] -> k < n ->
  exists st, exec_all dflt (p ++ [SOpScalar f x (ElemOf x [k])]) empty_state = Val st /\
    (forall i, i < k -> read_elem x [i] st = Val (both f (v_elem v [i]) (v_elem v [k]))) /\
    (forall i, k < i -> i < n -> read_elem x [i] st = Val (both f (v_elem v [i]) (both f (v_elem v [k]) (v_elem v [k])))).
Proof.
  intros SD M S D K0. assert (K := exec_all_ok dflt p _ _ _ inv_start SD). rewrite M in K. destruct K as (vs & h & E & I0).
  destruct (op_alias dflt vs h s x v n k f I0 S D K0) as (st & Q & RD). exists st. split; [|split].
  - unfold empty_state. revert E Q. clear.
    generalize (mkState (fun _ : nat => @None arr) (@nil (option (list (option T))))). induction p as [|c p IH]; intros st0 E Q; cbn [app exec_all] in *.
    + injection E as ->. rewrite Q. reflexivity.
    + destruct (exec dflt c st0); cbn [bind] in *; try discriminate. apply IH; assumption.
  - intros i H. rewrite RD by lia. unfold aliased. apply Nat.ltb_lt in H. rewrite H. reflexivity.
  - intros i H H'. rewrite RD by lia. unfold aliased. destruct (Nat.ltb_spec i k); [lia|]. destruct (Nat.eqb_spec i k); [lia|]. reflexivity.
Qed.
Print Assumptions C68_scalar_operand_refuted.
(** a *= a[0] on (2,3,4) gives (4,12,16) instead of (4,6,8). *)
Example C68_case :
  let p := [SSizes 0 [3]; SSet 0 [0] 2%Z; SSet 0 [1] 3%Z; SSet 0 [2] 4%Z] in
  sound None p no_arrays /\
  match exec_all None (p ++ [SOpScalar Z.mul 0 (ElemOf 0 [0])]) empty_state with
  | Val st => map (fun i => read_elem 0 [i] st) [0; 1; 2] = map Val [Some 4; Some 12; Some 16]%Z
  | _ => False
  end.
Proof. intros p. split; [unfold p; cbn; auto 6|vm_compute; reflexivity]. Qed.

(** ** C69: assignment to a part *)
Theorem C69_part_refuted (T : Type) (dflt : option T) (p : list (stmt T)) s x y v w j : sound dflt p no_arrays ->
  meaning_all dflt p no_arrays = Val s -> s x = Some v -> s y = Some w -> 3 <= length (v_dims v) ->
  length (v_dims v) = S (length (v_dims w)) ->
  exec_all dflt (p ++ [SRow x j y]) empty_state = Abort.
Proof.
  intros SD M S W R L. assert (K := exec_all_ok dflt p _ _ _ inv_start SD). rewrite M in K. destruct K as (vs & h & E & I0).
  assert (Q := part_aborts dflt vs h s x y v w j I0 S W R L). unfold empty_state. revert E Q. clear.
  generalize (mkState (fun _ : nat => @None arr) (@nil (option (list (option T))))). induction p as [|c p IH]; intros st0 E Q; cbn [app exec_all] in *.
  - injection E as ->. rewrite Q. reflexivity.
  - destruct (exec dflt c st0); cbn [bind] in *; try discriminate. apply IH; assumption.
Qed.
Print Assumptions C69_part_refuted.
Example C69_case :
  exec_all (@None Z) [SSizes 0 [2; 2; 2]; SFill 0 (Const 1%Z); SSizes 1 [2; 2]; SFill 1 (Const 2%Z); SRow 0 1 1] empty_state = Abort.
Proof. vm_compute. reflexivity. Qed.

(** ** C70: norm2 *)
Fixpoint sum_squares {T} (add mul : T -> T -> T) (acc : T) (l : list T) : T :=
  match l with [] => acc | x :: l => sum_squares add mul (add acc (mul x x)) l end.
Lemma norm2_go (T : Type) (add mul : T -> T -> T) b (l : list T) h : nth_error h b = Some (Some (map Some l)) ->
  forall m i acc, i + length m = length l -> skipn i l = m ->
  (fix go (n i : nat) (nn : option T) : res (option T) :=
     match n with
     | 0 => Val nn
     | S n' => bind (load (Some (b, 0)) i h) (fun x => go n' (S i) (lift2 add nn (lift2 mul x x)))
     end) (length m) i (Some acc) = Val (Some (sum_squares add mul acc m)).
Proof.
  intros H. induction m as [|x m IH]; intros i acc L SK; [reflexivity|]. cbn [length].
  assert (N : nth_error l i = Some x).
  { clear - SK. revert l SK. induction i as [|i IH]; intros [|y l] SK; cbn in SK; try discriminate; [injection SK as -> _; reflexivity|].
    cbn. auto. }
  assert (LD : load (Some (b, 0)) i h = Val (Some x)).
  { unfold load. rewrite H. cbn [Nat.add]. rewrite (map_nth_error _ _ _ N). reflexivity. }
  rewrite LD. cbn [bind lift2 sum_squares].
  apply IH; [cbn [length] in L; lia|]. clear - SK. revert l SK. induction i as [|i IH]; intros [|y l] SK; cbn in *; try discriminate; [congruence|].
  apply (IH l SK).
Qed.
Theorem C70_norm2 (T : Type) (add mul : T -> T -> T) a b x (l : list T) h :
  a_dims a = [length (x :: l)] -> a_F a = Some (b, 0) -> nth_error h b = Some (Some (map Some (x :: l))) ->
  norm2 add mul a h = Val (Some (sum_squares add mul (mul x x) l)).
Proof.
  intros D F H. unfold norm2. rewrite F, D.
  assert (LD : load (Some (b, 0)) 0 h = Val (Some x)) by (unfold load; rewrite H; reflexivity).
  rewrite LD. cbn [bind lift2].
  rewrite elements_volume, volume1. cbn [length]. rewrite Nat.sub_succ, Nat.sub_0_r.
  apply (norm2_go T add mul b (x :: l) h H l 1); reflexivity.
Qed.
Print Assumptions C70_norm2.
(** The norm of an empty array is read from outside of it. *)
Theorem C70_empty_refuted (T : Type) (add mul : T -> T -> T) a b (h : heap T) :
  a_dims a = [0] -> a_F a = None \/ (a_F a = Some (b, 0) /\ nth_error h b = Some (Some [])) -> norm2 add mul a h = Undef.
Proof.
  intros D [F|[F H]]; unfold norm2; rewrite F; [reflexivity|]. cbn [load]. rewrite H. reflexivity.
Qed.
Print Assumptions C70_empty_refuted.
Example C70_case : norm2 Z.add Z.mul (mkArr false [3] (Some (0, 0))) [Some [Some 1; Some 2; Some 3]]%Z = Val (Some 14%Z).
Proof. reflexivity. Qed.
