(** The statements the array containers get wrong, and multiNd. *)
From Coq Require Import List Arith Bool Lia.
From Verif Require Import Base MultiModel MultiSpec MultiProofs MultiOk.
Import ListNotations.

Section More.
  Context {T : Type}.
  Variable dflt : option T.

  (** *** Self-assignment *)
  Lemma self_assign vs h (s : @vstate T) x v : Inv vs h s -> s x = Some v -> 2 <= length (v_dims v) ->
    exists st, exec dflt (SAssign x x) (mkState vs h) = Val st /\
      forall ix, in_range (v_dims v) ix -> read_elem x ix st = Val dflt.
  Proof.
    intros I0 S R. destruct (inv_get _ _ _ _ _ I0 S) as (a0 & X & G). assert (D : a_dims a0 = v_dims v) by apply G.
    assert (RK : rank_ok (v_dims v)) by apply G.
    destruct (resize_ok dflt _ _ _ _ _ (v_dims v) I0 S RK) as (a & a1 & h1 & X1 & R1 & D1 & F1 & I1).
    assert (a = a0) by congruence. subst a0. cbn [exec]. rewrite X, Nat.eqb_refl. cbn [of_option bind]. unfold assign.
    assert (EA : (match a_dims a with [_] => assign1 dflt a a h | _ => assignN dflt true a a h end) = assignN dflt true a a h).
    { rewrite D. destruct (v_dims v) as [|m [|? ?]]; cbn [length] in R; try reflexivity. lia. }
    rewrite EA. unfold assignN. rewrite D, R1. cbn [bind].
    destruct (copy_elements_ok _ _ _ x x a1 a1 (mkV true (v_dims v) (fun _ => dflt)) (mkV true (v_dims v) (fun _ => dflt)) I1
                (var_same _ _ _) (var_same _ _ _) (upd_same _ _ _) (upd_same _ _ _) eq_refl) as (h2 & C2 & I2).
    rewrite C2. cbn [bind]. eexists. split; [reflexivity|]. intros ix I. assert (SH := inv_shows _ _ _ I2 x). cbn [vars] in SH.
    rewrite var_same, upd_same in SH. destruct SH as [_ K]. cbn [v_dims v_elem] in K. auto.
  Qed.

  (** *** A scalar operand inside the array *)
  Definition aliased (f : T -> T -> T) (k i : nat) (e : nat -> option T) : option T :=
    if i <? k then both f (e i) (e k)
    else if i =? k then both f (e k) (e k)
    else both f (e i) (both f (e k) (e k)).
  Lemma op_alias vs h (s : @vstate T) x v n k f : Inv vs h s -> s x = Some v -> v_dims v = [n] -> k < n ->
    exists st, exec dflt (SOpScalar f x (ElemOf x [k])) (mkState vs h) = Val st /\
      forall i, i < n -> read_elem x [i] st = Val (aliased f k i (fun i => v_elem v [i])).
  Proof.
    intros I0 S D K. destruct (inv_get _ _ _ _ _ I0 S) as (a & X & G). destruct G as (G1 & G2 & G3 & G4).
    rewrite D in *. assert (IR : forall i, i < n -> in_range [n] [i]) by (intros; repeat constructor; assumption).
    assert (P : forall i, pos [n] [i] = i) by (intros; cbn; lia).
    destruct (v_alloc v) eqn:AL; [|destruct G4 as [_ V]; rewrite volume1 in V; lia].
    destruct G4 as (b & l & F & H & Q & R). rewrite volume1 in Q.
    assert (LN : forall i, i < n -> nth_error l i = Some (v_elem v [i])) by (intros i Hi; rewrite <- (R [i] (IR i Hi)), P; reflexivity).
    cbn [exec]. rewrite X. cbn [of_option bind get_operand vars]. rewrite X. cbn [of_option bind].
    unfold op_scalar, null. rewrite F, elements_volume, G2, volume1. cbn [call_offset].
    pose (g := fun i (c : option T) => if i <? k then both f c (v_elem v [k]) else if i =? k then both f c c else both f c (both f (v_elem v [k]) (v_elem v [k]))).
    destruct (elementwise vs h s x a v 0 n g
       (fun i (h : heap T) => bind (load (Some (b, 0)) i h) (fun x0 => bind (read_operand (Elem (Some (b, 0)) k) h) (fun y => store (Some (b, 0)) i (lift2 f x0 y) h)))
       (fun ix => g (pos [n] ix) (v_elem v ix)) I0 X S) as (h2 & C2 & I2).
    - rewrite D, volume1. lia.
    - intros b' l' F' H' Q' i c Hi C. assert (b' = b) by congruence. subst b'. assert (l' = l) by congruence. subst l'.
      rewrite (turn_load_same b 0 i _ c h l H C). cbn [bind read_operand].
      assert (Hb := nth_some_lt _ _ _ H).
      rewrite (load_ok b 0 k _ (mix 0 i g l) (if k <? i then g k (v_elem v [k]) else v_elem v [k])).
      + cbn [bind]. apply (turn_store0 b i _ g c h l n); try assumption; [lia|]. cbn [Nat.add] in C. rewrite LN in C by assumption. injection C as <-.
        unfold g. rewrite Nat.ltb_irrefl, Nat.eqb_refl.
        destruct (Nat.ltb_spec k i), (Nat.ltb_spec i k), (Nat.eqb_spec i k); try lia; subst; reflexivity.
      + rewrite nth_set by assumption. rewrite Nat.eqb_refl. reflexivity.
      + rewrite mix_nth. cbn [Nat.add]. rewrite LN by assumption. cbn [option_map]. rewrite Nat.sub_0_r. cbn [Nat.leb andb].
        destruct (k <? i); reflexivity.
    - intros ix I. rewrite D in *. rewrite whole by (assumption || (rewrite volume1; reflexivity)). rewrite Nat.sub_0_r. reflexivity.
    - rewrite C2. cbn [bind]. eexists. split; [reflexivity|]. intros i Hi. assert (SH := inv_shows _ _ _ I2 x). cbn [vars] in SH.
      rewrite X, upd_same in SH. destruct SH as [_ J]. cbn [v_dims v_elem] in J. rewrite D in J. rewrite (J [i] (IR i Hi)), P. f_equal.
      unfold g, aliased. destruct (i <? k); [reflexivity|]. destruct (Nat.eqb_spec i k); [subst|]; reflexivity.
  Qed.

  (** *** Assignment to a part of an array of rank 3 or more *)
  Lemma part_aborts vs h (s : @vstate T) x y v w j : Inv vs h s -> s x = Some v -> s y = Some w -> 3 <= length (v_dims v) ->
    length (v_dims v) = S (length (v_dims w)) -> exec dflt (SRow x j y) (mkState vs h) = Abort.
  Proof.
    intros I0 S W R L. destruct (inv_get _ _ _ _ _ I0 S) as (a & X & G). destruct (inv_get _ _ _ _ _ I0 W) as (a' & Y & GW).
    assert (DY : a_dims a' = v_dims w) by apply GW.
    cbn [exec]. rewrite X, Y. cbn [of_option bind]. unfold assign_row, assign. rewrite DY.
    destruct (v_dims w) as [|m1 [|m2 r]]; cbn [length] in L; try lia. unfold assignN, resize, sub_array, ctor_view. cbn [a_copymem bind]. reflexivity.
  Qed.

  (** *** multiNd *)
  (** An array with sizes [nz] whose elements in memory order are [l]. *)
  Definition holds (a : ndarr) (nz : list nat) (l : list (option T)) (h : heap T) : Prop :=
    nz <> [] /\ nd_nz a = nz /\ nd_sz a = Some (volume nz) /\ length l = volume nz /\
    exists b, nd_F a = Some (b, 0) /\ nth_error h b = Some (Some l).
  Definition separate (a b : ndarr) : Prop := match nd_F a, nd_F b with Some p, Some q => fst p <> fst q | _, _ => True end.

  Lemma nd_fresh_copy (s : ndarr) nz l h n : holds s nz l h -> n = length h ->
    exists h', nd_copy_elements (mkNd nz (Some (volume nz)) (Some (n, 0))) s (h ++ [Some (repeat dflt (volume nz))]) = Val h' /\
      nth_error h' n = Some (Some l) /\ forall b, b <> n -> nth_error h' b = nth_error h b.
  Proof.
    intros (N & E1 & E2 & L & b & F & H) ->. unfold nd_copy_elements. cbn [nd_sz of_option bind nd_F]. rewrite F.
    pose (g := fun (i : nat) (_ : option T) => nth i l None). pose (h0 := h ++ [Some (repeat dflt (volume nz))]). fold h0.
    assert (B0 : nth_error h0 (length h) = Some (Some (repeat dflt (volume nz)))) by (unfold h0; rewrite nth_snoc, Nat.eqb_refl; reflexivity).
    assert (Hb := nth_some_lt _ _ _ H).
    assert (B1 : nth_error h0 b = Some (Some l)) by (unfold h0; rewrite nth_snoc; destruct (Nat.eqb_spec b (length h)); [lia|assumption]).
    exists (set_nth (length h) (Some (mix 0 (volume nz) g (repeat dflt (volume nz)))) h0). split; [|split].
    - apply loop_ok; [assumption|rewrite repeat_length; lia|]. intros i c Hi C.
      destruct (nth_error l i) as [d|] eqn:E; [|apply nth_error_None in E; lia].
      rewrite (turn_load_other (length h) b 0 i h0 (repeat dflt (volume nz)) l d); try assumption; [|lia]. cbn [bind].
      apply (turn_store (length h) 0 i d g c h0 (repeat dflt (volume nz)) (volume nz)); try assumption; [rewrite repeat_length; lia|].
      unfold g. symmetry. apply nth_error_nth. assumption.
    - rewrite nth_set by (eapply nth_some_lt; eassumption). rewrite Nat.eqb_refl. f_equal. f_equal. apply list_ext. intros k.
      rewrite mix_nth. cbn [Nat.leb andb Nat.add]. rewrite Nat.sub_0_r. destruct (Nat.lt_ge_cases k (volume nz)) as [Hk|Hk].
      + rewrite nth_repeat by assumption. cbn [option_map]. apply Nat.ltb_lt in Hk. rewrite Hk. apply Nat.ltb_lt in Hk. unfold g.
        destruct (nth_error l k) eqn:E; [|apply nth_error_None in E; lia]. f_equal. apply nth_error_nth. assumption.
      + replace (nth_error (repeat dflt (volume nz)) k) with (@None (option T)) by (symmetry; apply nth_error_None; rewrite repeat_length; assumption).
        cbn. symmetry. apply nth_error_None. lia.
    - intros b' NB. rewrite nth_set by (eapply nth_some_lt; eassumption). destruct (Nat.eqb_spec b' (length h)); [contradiction|].
      unfold h0. rewrite nth_snoc. destruct (Nat.eqb_spec b' (length h)); [contradiction|reflexivity].
  Qed.
  Lemma nd_copy_ok (s : ndarr) nz l h : holds s nz l h ->
    exists a h', nd_copy dflt s h = Val (a, h') /\ holds a nz l h' /\ holds s nz l h' /\ separate a s.
  Proof.
    intros HS. destruct (nd_fresh_copy s nz l h (length h) HS eq_refl) as (h' & C & B & O).
    assert (HS' := HS). destruct HS' as (N & E1 & E2 & L & b & F & H). assert (Hb := nth_some_lt _ _ _ H).
    exists (mkNd nz (Some (volume nz)) (Some (length h, 0))), h'. unfold nd_copy, nd_resize. cbn [nd_F delete_array bind].
    rewrite E1, (nd_elements_volume nz N). cbn [bind new_array]. rewrite C. cbn [bind]. split; [reflexivity|]. split; [|split].
    - split; [assumption|]. split; [reflexivity|]. split; [reflexivity|]. split; [assumption|]. exists (length h). auto.
    - split; [assumption|]. split; [assumption|]. split; [assumption|]. split; [assumption|]. exists b. split; [assumption|]. rewrite O by lia. assumption.
    - unfold separate. rewrite F. cbn. lia.
  Qed.
  Lemma nd_assign_ok (a s : ndarr) nz l nz' l' h : holds a nz' l' h -> holds s nz l h -> separate a s ->
    exists a' h', nd_assign dflt false a s h = Val (a', h') /\ holds a' nz l h' /\ holds s nz l h' /\
      (forall b o, nd_F a = Some (b, o) -> nth_error h' b = Some None).
  Proof.
    intros HA HS SEP. destruct HA as (_ & _ & _ & _ & ba & FA & HA). assert (Hba := nth_some_lt _ _ _ HA).
    unfold nd_assign, nd_resize. unfold delete_array. rewrite FA, HA. cbn [bind].
    assert (HS' := HS). destruct HS' as (N & E1 & E2 & L & b & F & H). unfold separate in SEP. rewrite FA, F in SEP. cbn [fst] in SEP.
    assert (HS1 : holds s nz l (set_nth ba None h)).
    { split; [assumption|]. split; [assumption|]. split; [assumption|]. split; [assumption|]. exists b. split; [assumption|].
      rewrite nth_set by assumption. destruct (Nat.eqb_spec b ba); [congruence|assumption]. }
    rewrite E1, (nd_elements_volume nz N). cbn [bind new_array].
    destruct (nd_fresh_copy s nz l _ _ HS1 eq_refl) as (h' & C & B & O). rewrite C. cbn [bind].
    eexists _, h'. split; [reflexivity|]. split; [|split].
    - split; [assumption|]. split; [reflexivity|]. split; [reflexivity|]. split; [assumption|]. eexists. split; [reflexivity|assumption].
    - split; [assumption|]. split; [assumption|]. split; [assumption|]. split; [assumption|]. exists b. split; [assumption|].
      assert (Hb := nth_some_lt _ _ _ H). rewrite O by (rewrite set_nth_length by assumption; lia).
      rewrite nth_set by assumption. destruct (Nat.eqb_spec b ba); [congruence|assumption].
    - intros b' o' E. injection E as <- _. rewrite O by (rewrite set_nth_length by assumption; lia).
      rewrite nth_set by assumption. rewrite Nat.eqb_refl. reflexivity.
  Qed.
  Lemma nd_self (a : ndarr) nz l h : holds a nz l h ->
    exists a' h', nd_assign dflt true a a h = Val (a', h') /\ holds a' nz (repeat dflt (volume nz)) h'.
  Proof.
    intros (N & E1 & E2 & L & b & F & H). assert (Hb := nth_some_lt _ _ _ H).
    unfold nd_assign, nd_resize. unfold delete_array. rewrite F, H. cbn [bind]. rewrite E1, (nd_elements_volume nz N). cbn [bind new_array].
    unfold nd_copy_elements. cbn [nd_sz of_option bind nd_F].
    pose (n := length (set_nth b None h)). pose (h0 := set_nth b None h ++ [Some (repeat dflt (volume nz))]). fold n h0.
    assert (B0 : nth_error h0 n = Some (Some (repeat dflt (volume nz)))) by (unfold h0, n; rewrite nth_snoc, Nat.eqb_refl; reflexivity).
    rewrite (loop_ok n 0 (volume nz) (fun _ c => c) (repeat dflt (volume nz)) h0); [|assumption|rewrite repeat_length; lia|].
    - cbn [bind]. eexists _, _. split; [reflexivity|]. split; [assumption|]. split; [reflexivity|]. split; [reflexivity|]. split; [apply repeat_length|].
      exists n. split; [reflexivity|]. rewrite nth_set by (eapply nth_some_lt; eassumption). rewrite Nat.eqb_refl. f_equal. f_equal.
      apply list_ext. intros k. rewrite mix_nth. destruct (nth_error (repeat dflt (volume nz)) k); [|reflexivity]. cbn [option_map].
      match goal with |- context [if ?b then _ else _] => destruct b end; reflexivity.
    - intros i c Hi C. rewrite (turn_load_same n 0 i _ c h0 _ B0 C). cbn [bind].
      apply (turn_store n 0 i c (fun _ c => c) c h0 (repeat dflt (volume nz)) (volume nz)); try assumption; [rewrite repeat_length; lia|reflexivity].
  Qed.
End More.

(** *** Rank-specific access to multiNd *)
Lemma nd_packed_cons n ns ix : in_range (n :: ns) ix -> nd_packed (n :: ns) ix = Val (pos (n :: ns) ix).
Proof. apply nd_packed_pos. discriminate. Qed.
Lemma nd_agree2 n0 n1 : 0 < n0 -> 0 < n1 ->
  (forall ix, in_range [n0; n1] ix -> nd_call [n0; n1] ix = nd_packed [n0; n1] ix) <-> (n0 = 1 \/ n0 = n1).
Proof.
  intros P0 P1. split.
  - intros H. destruct (Nat.eq_dec n0 1); [auto|]. right.
    assert (R : in_range [n0; n1] [1; 0]) by (repeat constructor; lia).
    specialize (H _ R). rewrite (nd_packed_cons _ _ _ R) in H. cbn in H. injection H as H. lia.
  - intros C ix R. rewrite (nd_packed_cons _ _ _ R). unfold in_range in R. dims_cases. cbn [nd_call pos volume fold_right]. f_equal.
    destruct C; [assert (x = 0) by lia|]; subst; nia.
Qed.
Lemma nd_agree3 n0 n1 n2 : 0 < n0 -> 0 < n1 -> 0 < n2 ->
  (forall ix, in_range [n0; n1; n2] ix -> nd_call [n0; n1; n2] ix = nd_packed [n0; n1; n2] ix) <-> ((n0 = 1 /\ n1 = 1) \/ n0 = n2).
Proof.
  intros P0 P1 P2. split.
  - intros H. destruct (Nat.eq_dec n0 n2); [auto|]. left. split.
    + destruct (Nat.eq_dec n0 1); [assumption|]. exfalso.
      assert (R : in_range [n0; n1; n2] [1; 0; 0]) by (repeat constructor; lia).
      specialize (H _ R). rewrite (nd_packed_cons _ _ _ R) in H. cbn in H. injection H as H. nia.
    + destruct (Nat.eq_dec n1 1); [assumption|]. exfalso.
      assert (R : in_range [n0; n1; n2] [0; 1; 0]) by (repeat constructor; lia).
      specialize (H _ R). rewrite (nd_packed_cons _ _ _ R) in H. cbn in H. injection H as H. lia.
  - intros C ix R. rewrite (nd_packed_cons _ _ _ R). unfold in_range in R. dims_cases. cbn [nd_call pos volume fold_right]. f_equal.
    destruct C as [[-> ->]|]; [assert (x = 0) by lia; assert (x0 = 0) by lia|]; subst; ring.
Qed.
Lemma nd_agree4 n0 n1 n2 n3 : 0 < n0 -> 0 < n1 -> 0 < n2 -> 0 < n3 ->
  (forall ix, in_range [n0; n1; n2; n3] ix -> nd_call [n0; n1; n2; n3] ix = nd_packed [n0; n1; n2; n3] ix) <->
  ((n0 = 1 \/ n0 = n3) /\ (n1 = 1 \/ n0 * n1 = n2 * n3) /\ (n2 = 1 \/ n0 = n3)).
Proof.
  intros P0 P1 P2 P3. split.
  - intros H. split; [|split].
    + destruct (Nat.eq_dec n0 1); [auto|]. right.
      assert (R : in_range [n0; n1; n2; n3] [1; 0; 0; 0]) by (repeat constructor; lia).
      specialize (H _ R). rewrite (nd_packed_cons _ _ _ R) in H. cbn in H. injection H as H.
      assert (n0 * (n1 * n2) = n3 * (n1 * n2)) by nia. assert (n1 * n2 <> 0) by nia. eapply Nat.mul_cancel_r; eassumption.
    + destruct (Nat.eq_dec n1 1); [auto|]. right.
      assert (R : in_range [n0; n1; n2; n3] [0; 1; 0; 0]) by (repeat constructor; lia).
      specialize (H _ R). rewrite (nd_packed_cons _ _ _ R) in H. cbn in H. injection H as H. nia.
    + destruct (Nat.eq_dec n2 1); [auto|]. right.
      assert (R : in_range [n0; n1; n2; n3] [0; 0; 1; 0]) by (repeat constructor; lia).
      specialize (H _ R). rewrite (nd_packed_cons _ _ _ R) in H. cbn in H. injection H as H. nia.
  - intros (C0 & C1 & C2) ix R. rewrite (nd_packed_cons _ _ _ R). unfold in_range in R. dims_cases.
    cbn [nd_call pos volume fold_right]. f_equal.
    assert (E0 : x * n0 * (n1 * n2) = x * n3 * (n1 * n2)) by (destruct C0; [assert (x = 0) by lia|]; subst; reflexivity).
    assert (E1 : x0 * (n0 * n1) = x0 * (n2 * n3)) by (destruct C1 as [|C1]; [assert (x0 = 0) by lia; subst; reflexivity|rewrite C1; reflexivity]).
    assert (E2 : x1 * n0 = x1 * n3) by (destruct C2; [assert (x1 = 0) by lia|]; subst; reflexivity).
    nia.
Qed.
