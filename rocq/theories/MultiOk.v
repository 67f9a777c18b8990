(** Programs on arrays compute the expected values. *)
From Coq Require Import List Arith Bool Lia.
From Verif Require Import Base MultiModel MultiSpec MultiProofs.
Import ListNotations.

Section Ok.
  Context {T : Type}.
  Variable dflt : option T.
  Implicit Types (h : heap T) (a : arr) (v : @avalue T) (vs : nat -> option arr) (s : @vstate T).

  Definition good h a v : Prop :=
    a_copymem a = false /\ a_dims a = v_dims v /\ rank_ok (v_dims v) /\
    if v_alloc v then
      exists b l, a_F a = Some (b, 0) /\ nth_error h b = Some (Some l) /\ length l = volume (v_dims v) /\
                  forall ix, in_range (v_dims v) ix -> nth_error l (pos (v_dims v) ix) = Some (v_elem v ix)
    else a_F a = None /\ volume (v_dims v) = 0.
  Record Inv vs h s : Prop := {
    inv_good : forall x, match vs x, s x with None, None => True | Some a, Some v => good h a v | _, _ => False end;
    inv_own : forall x y a b blk, vs x = Some a -> vs y = Some b ->
              a_F a = Some (blk, 0) -> a_F b = Some (blk, 0) -> x = y;
    inv_live : forall blk l, nth_error h blk = Some (Some l) -> exists x a, vs x = Some a /\ a_F a = Some (blk, 0) }.

  Lemma inv_start : Inv (fun _ => None) [] no_arrays.
  Proof.
    split; [intros x; exact I|discriminate|]. intros [|blk] l H; discriminate.
  Qed.
  Lemma inv_ext vs vs' h s s' : Inv vs h s -> (forall x, vs' x = vs x) -> (forall x, s' x = s x) -> Inv vs' h s'.
  Proof.
    intros [A B C] E F. split.
    - intros x. rewrite E, F. apply A.
    - intros x y. rewrite !E. apply B.
    - intros blk l H. destruct (C blk l H) as (x & a & P & Q). exists x, a. rewrite E. auto.
  Qed.
  Lemma inv_get vs h s x v : Inv vs h s -> s x = Some v -> exists a, vs x = Some a /\ good h a v.
  Proof. intros [A _ _] E. specialize (A x). rewrite E in A. destruct (vs x) as [a|]; [|contradiction]. eauto. Qed.
  Lemma inv_none vs h s x : Inv vs h s -> s x = None -> vs x = None.
  Proof. intros [A _ _] E. specialize (A x). rewrite E in A. destruct (vs x); [contradiction|reflexivity]. Qed.

  Lemma good_frame h h' a v : good h a v ->
    (forall b, a_F a = Some (b, 0) -> nth_error h' b = nth_error h b) -> good h' a v.
  Proof.
    intros (A & B & C & D) F. split; [assumption|]. split; [assumption|]. split; [assumption|].
    destruct (v_alloc v); [|assumption]. destruct D as (b & l & P & Q & R & S). exists b, l.
    rewrite (F b P). auto.
  Qed.
  Lemma good_ext h a v e : good h a v -> (forall ix, in_range (v_dims v) ix -> e ix = v_elem v ix) -> good h a (mkV (v_alloc v) (v_dims v) e).
  Proof.
    intros (A & B & C & D) E. split; [assumption|]. split; [assumption|]. split; [assumption|]. cbn [v_alloc v_dims v_elem].
    destruct (v_alloc v); [|assumption]. destruct D as (b & l & P & Q & R & S). exists b, l. split; [assumption|]. split; [assumption|].
    split; [assumption|]. intros ix I. rewrite E by assumption. auto.
  Qed.

  (** Changing the contents of the block of x. *)
  Lemma inv_modify vs h s x a b l l' v' : Inv vs h s -> vs x = Some a -> a_F a = Some (b, 0) -> nth_error h b = Some (Some l) ->
    good (set_nth b (Some l') h) a v' -> Inv vs (set_nth b (Some l') h) (upd x (Some v') s).
  Proof.
    intros [A B C] X F H G. assert (L := nth_some_lt _ _ _ H). split.
    - intros y. unfold upd. destruct (Nat.eqb_spec y x) as [->|N].
      + rewrite X. assumption.
      + specialize (A y). destruct (vs y) as [a'|] eqn:Y, (s y); try assumption.
        apply (good_frame h); [assumption|]. intros b' F'. rewrite nth_set by assumption.
        destruct (Nat.eqb_spec b' b) as [->|]; [|reflexivity]. exfalso. apply N. symmetry. eapply B; eassumption.
    - exact B.
    - intros blk l0. rewrite nth_set by assumption. destruct (Nat.eqb_spec blk b) as [->|]; [intros _; eauto|apply C].
  Qed.
  Lemma inv_modify0 vs h s x a v' : Inv vs h s -> vs x = Some a -> good h a v' -> Inv vs h (upd x (Some v') s).
  Proof.
    intros [A B C] X G. split; [|assumption|assumption]. intros y. unfold upd. destruct (Nat.eqb_spec y x) as [->|N]; [now rewrite X|apply A].
  Qed.

  Lemma inv_free vs h s x v : Inv vs h s -> s x = Some v ->
    exists a h', vs x = Some a /\ a_copymem a = false /\ delete_array (a_F a) h = Val h' /\ Inv (set_var x None vs) h' (upd x None s).
  Proof.
    intros I0 E. destruct (inv_get _ _ _ _ _ I0 E) as (a & X & G). destruct I0 as [A B C].
    destruct G as (G1 & G2 & G3 & G4). destruct (v_alloc v).
    - destruct G4 as (b & l & F & H & _ & _). exists a, (set_nth b None h). split; [assumption|]. split; [assumption|].
      assert (L := nth_some_lt _ _ _ H). split; [unfold delete_array; rewrite F, H; reflexivity|]. split.
      + intros y. unfold set_var, upd. destruct (Nat.eqb_spec y x) as [->|N]; [exact I|].
        specialize (A y). destruct (vs y) as [a'|] eqn:Y, (s y); try assumption. apply (good_frame h); [assumption|].
        intros b' F'. rewrite nth_set by assumption. destruct (Nat.eqb_spec b' b) as [->|]; [|reflexivity].
        exfalso. apply N. symmetry. eapply B; eassumption.
      + unfold set_var. intros y z a1 a2 blk. destruct (y =? x); [discriminate|]. destruct (z =? x); [discriminate|]. apply B.
      + intros blk l0. rewrite nth_set by assumption. destruct (Nat.eqb_spec blk b) as [->|N]; [discriminate|]. intros K.
        destruct (C _ _ K) as (y & a' & P & Q). exists y, a'. split; [|assumption]. unfold set_var.
        destruct (Nat.eqb_spec y x) as [->|]; [congruence|assumption].
    - destruct G4 as [F _]. exists a, h. split; [assumption|]. split; [assumption|]. split; [rewrite F; reflexivity|]. split.
      + intros y. unfold set_var, upd. destruct (y =? x); [exact I|apply A].
      + unfold set_var. intros y z a1 a2 blk. destruct (y =? x); [discriminate|]. destruct (z =? x); [discriminate|]. apply B.
      + intros blk l0 K. destruct (C _ _ K) as (y & a' & P & Q). exists y, a'. split; [|assumption]. unfold set_var.
        destruct (Nat.eqb_spec y x) as [->|]; [congruence|assumption].
  Qed.
  Lemma nth_snoc {A} (l : list A) x k : nth_error (l ++ [x]) k = if k =? length l then Some x else nth_error l k.
  Proof.
    destruct (Nat.eqb_spec k (length l)) as [->|N].
    - rewrite nth_error_app2 by lia. rewrite Nat.sub_diag. reflexivity.
    - destruct (Nat.lt_ge_cases k (length l)); [apply nth_error_app1; assumption|].
      rewrite nth_error_app2 by lia. destruct (k - length l) as [|d] eqn:E; [lia|].
      replace (nth_error l k) with (@None A) by (symmetry; apply nth_error_None; lia). destruct d; reflexivity.
  Qed.
  Lemma nth_repeat {A} (d : A) n k : k < n -> nth_error (repeat d n) k = Some d.
  Proof. revert n. induction k as [|k IH]; intros [|n] H; try lia; cbn; [reflexivity|apply IH; lia]. Qed.
  Lemma inv_alloc vs h s x dims : Inv vs h s -> s x = None -> rank_ok dims ->
    Inv (set_var x (Some (mkArr false dims (Some (length h, 0)))) vs) (h ++ [Some (repeat dflt (volume dims))])
        (upd x (Some (mkV true dims (fun _ => dflt))) s).
  Proof.
    intros I0 E R. assert (X := inv_none _ _ _ _ I0 E). destruct I0 as [A B C].
    assert (NEW : forall y a, vs y = Some a -> a_F a = Some (length h, 0) -> False).
    { intros y a Y F. specialize (A y). rewrite Y in A. destruct (s y) as [v|]; [|assumption]. destruct A as (_ & _ & _ & G).
      destruct (v_alloc v); [|destruct G; congruence]. destruct G as (b & l & P & Q & _). rewrite P in F. injection F as ->.
      apply nth_some_lt in Q. lia. }
    split.
    - intros y. unfold set_var, upd. destruct (Nat.eqb_spec y x) as [->|N].
      + split; [reflexivity|]. split; [reflexivity|]. split; [assumption|]. cbn [v_alloc v_dims v_elem a_F].
        exists (length h), (repeat dflt (volume dims)). split; [reflexivity|]. split; [rewrite nth_snoc, Nat.eqb_refl; reflexivity|].
        split; [apply repeat_length|]. intros ix I. apply nth_repeat. apply pos_lt. assumption.
      + specialize (A y). destruct (vs y) as [a|] eqn:Y, (s y); try assumption. apply (good_frame h); [assumption|].
        intros b F. rewrite nth_snoc. destruct (Nat.eqb_spec b (length h)) as [->|]; [|reflexivity]. exfalso. eapply NEW; eassumption.
    - unfold set_var. intros y z a1 a2 blk. destruct (Nat.eqb_spec y x), (Nat.eqb_spec z x); subst; try reflexivity.
      + intros H1 H2 F1 F2. exfalso. injection H1 as <-. cbn in F1. injection F1 as <-. eapply NEW; eassumption.
      + intros H1 H2 F1 F2. exfalso. injection H2 as <-. cbn in F2. injection F2 as <-. eapply NEW; eassumption.
      + apply B.
    - intros blk l. rewrite nth_snoc. destruct (Nat.eqb_spec blk (length h)) as [->|N].
      + intros _. exists x. eexists. unfold set_var. rewrite Nat.eqb_refl. split; reflexivity.
      + intros K. destruct (C _ _ K) as (y & a & P & Q). exists y, a. split; [|assumption]. unfold set_var.
        destruct (Nat.eqb_spec y x) as [->|]; [congruence|assumption].
  Qed.

  Lemma resize_ok vs h s x v dims : Inv vs h s -> s x = Some v -> rank_ok dims ->
    exists a a' h', vs x = Some a /\ resize dflt dims a h = Val (a', h') /\ a_dims a' = dims /\ a_F a' = Some (length h, 0) /\
      Inv (set_var x (Some a') vs) h' (upd x (Some (mkV true dims (fun _ => dflt))) s).
  Proof.
    intros I0 E R. destruct (inv_free _ _ _ _ _ I0 E) as (a & h1 & X & M & D & I1).
    assert (N : upd x None s x = None) by (unfold upd; rewrite Nat.eqb_refl; reflexivity).
    assert (I2 := inv_alloc _ _ _ x dims I1 N R).
    exists a, (mkArr false dims (Some (length h1, 0))), (h1 ++ [Some (repeat dflt (volume dims))]).
    split; [assumption|]. split.
    { unfold resize. rewrite M, D. cbn [bind new_array]. rewrite elements_volume. reflexivity. }
    split; [reflexivity|]. split.
    { cbn [a_F]. f_equal. f_equal. revert D. unfold delete_array. destruct (a_F a) as [[b [|o]]|]; [|discriminate|intros Q; injection Q as <-; reflexivity].
      destruct (nth_error h b) as [[l|]|] eqn:H; try discriminate. intros Q. injection Q as <-.
      apply set_nth_length. eapply nth_some_lt. eassumption. }
    apply (inv_ext _ _ _ _ _ I2).
    - intros y. unfold set_var. destruct (y =? x); reflexivity.
    - intros y. unfold upd. destruct (y =? x); reflexivity.
  Qed.

  (** A loop over the elements of x. *)
  Lemma elementwise vs h s x a v o n (g : nat -> option T -> option T) body e' : Inv vs h s -> vs x = Some a -> s x = Some v ->
    o + n <= volume (v_dims v) ->
    (forall b l, a_F a = Some (b, 0) -> nth_error h b = Some (Some l) -> length l = volume (v_dims v) ->
       forall i c, i < n -> nth_error l (o + i) = Some c ->
       body i (set_nth b (Some (mix o i g l)) h) = Val (set_nth b (Some (set_nth (o + i) (g i c) (mix o i g l))) h)) ->
    (forall ix, in_range (v_dims v) ix ->
       e' ix = if (o <=? pos (v_dims v) ix) && (pos (v_dims v) ix <? o + n)
               then g (pos (v_dims v) ix - o) (v_elem v ix) else v_elem v ix) ->
    exists h', for_loop n 0 body h = Val h' /\ Inv vs h' (upd x (Some (mkV (v_alloc v) (v_dims v) e')) s).
  Proof.
    intros I0 X S L B E. assert (G := inv_good _ _ _ I0 x). rewrite X, S in G. destruct G as (G1 & G2 & G3 & G4).
    destruct (v_alloc v) eqn:AL.
    - destruct G4 as (b & l & F & H & Q & R). exists (set_nth b (Some (mix o n g l)) h).
      rewrite <- Q in L. split; [apply loop_ok; auto; intros; apply B; auto|].
      apply (inv_modify _ _ _ _ a b l); [assumption..|]. split; [assumption|]. split; [assumption|]. split; [assumption|].
      cbn [v_alloc v_dims v_elem]. exists b, (mix o n g l). split; [assumption|]. split.
      { rewrite nth_set by (eapply nth_some_lt; eassumption). rewrite Nat.eqb_refl. reflexivity. }
      split; [rewrite mix_length; assumption|]. intros ix I. rewrite mix_nth, R by assumption. cbn [option_map]. rewrite E by assumption. reflexivity.
    - destruct G4 as [F V]. assert (n = 0) by lia. subst n. exists h. split; [reflexivity|].
      apply (inv_modify0 _ _ _ _ a); [assumption..|]. split; [assumption|]. split; [assumption|]. split; [assumption|].
      cbn [v_alloc v_dims]. auto.
  Qed.
  Lemma whole dims ix n (A : Type) (p q : A) : in_range dims ix -> n = volume dims ->
    (if (0 <=? pos dims ix) && (pos dims ix <? 0 + n) then p else q) = p.
  Proof.
    intros I ->. assert (H := pos_lt _ _ I). cbn [Nat.add]. apply Nat.ltb_lt in H. rewrite H. reflexivity.
  Qed.
  Lemma pos_ix dims i : i < volume dims -> exists ix, in_range dims ix /\ pos dims ix = i.
  Proof. apply pos_onto. Qed.

  (** The elements of an array in memory order. *)
  Definition contents (dims : list nat) (e : list nat -> option T) (l : list (option T)) : Prop :=
    length l = volume dims /\ forall ix, in_range dims ix -> nth_error l (pos dims ix) = Some (e ix).
  Lemma good_contents h a v : good h a v -> exists l, contents (v_dims v) (v_elem v) l /\
    (v_alloc v = true -> exists b, a_F a = Some (b, 0) /\ nth_error h b = Some (Some l)).
  Proof.
    intros (A & B & C & D). destruct (v_alloc v).
    - destruct D as (b & l & P & Q & R & S). exists l. split; [split; assumption|]. intros _. exists b. auto.
    - destruct D as [_ V]. exists []. split; [|discriminate]. split; [cbn; congruence|]. intros ix I. apply pos_lt in I. lia.
  Qed.
  Lemma contents_nth dims e l ix : contents dims e l -> in_range dims ix -> nth (pos dims ix) l None = e ix.
  Proof. intros [A B] I. apply nth_error_nth. auto. Qed.

  (** Element i of y, read while x is being changed. *)
  Lemma read_while vs h s x y a b l w a' lw i c g m : Inv vs h s -> vs x = Some a -> a_F a = Some (b, 0) -> nth_error h b = Some (Some l) ->
    vs y = Some a' -> s y = Some w -> contents (v_dims w) (v_elem w) lw ->
    (v_alloc w = true -> exists b, a_F a' = Some (b, 0) /\ nth_error h b = Some (Some lw)) ->
    nth_error lw i = Some c -> (x = y -> m = mix 0 i g l) ->
    load (a_F a') i (set_nth b (Some m) h) = Val c.
  Proof.
    intros I0 X F H Y W [CL CR] AL N SELF. assert (i < volume (v_dims w)) by (rewrite <- CL; eapply nth_some_lt; eassumption).
    assert (G := inv_good _ _ _ I0 y). rewrite Y, W in G. destruct G as (G1 & G2 & G3 & G4).
    destruct (v_alloc w); [|destruct G4; lia]. destruct (AL eq_refl) as (b' & F' & H'). rewrite F'.
    destruct (Nat.eq_dec x y) as [E|NE].
    - subst y. assert (a' = a) by congruence. subst a'. assert (b' = b) by congruence. subst b'. assert (lw = l) by congruence. subst lw.
      rewrite (SELF eq_refl). apply turn_load_same; assumption.
    - apply (turn_load_other b b' 0 i h l lw); [|assumption..]. intros ->. apply NE. eapply (inv_own _ _ _ I0); eassumption.
  Qed.
  Lemma turn_store0 b i (e : option T) g c h l n :
    nth_error h b = Some (Some l) -> nth_error l i = Some c -> n <= length l -> e = g i c -> i < n ->
    store (Some (b, 0)) i e (set_nth b (Some (mix 0 i g l)) h) =
    Val (set_nth b (Some (set_nth (0 + i) (g i c) (mix 0 i g l))) h).
  Proof. intros. eapply (turn_store b 0); eassumption. Qed.

  Lemma copy_elements_ok vs h s x y a a' v w : Inv vs h s -> vs x = Some a -> vs y = Some a' -> s x = Some v -> s y = Some w ->
    v_dims v = v_dims w ->
    exists h', copy_elements a a' h = Val h' /\ Inv vs h' (upd x (Some (mkV (v_alloc v) (v_dims v) (v_elem w))) s).
  Proof.
    intros I0 X Y S W D. assert (G := inv_good _ _ _ I0 x). rewrite X, S in G. destruct G as (G1 & G2 & G3 & _).
    assert (GW := inv_good _ _ _ I0 y). rewrite Y, W in GW. destruct (good_contents _ _ _ GW) as (lw & CW & AW).
    unfold copy_elements. rewrite elements_volume, G2.
    apply (elementwise vs h s x a v 0 _ (fun i _ => nth i lw None)); [assumption..|lia| |].
    - intros b l F H Q i c I C. destruct (nth_error lw i) as [d|] eqn:E.
      2:{ exfalso. apply nth_error_None in E. destruct CW as [K _]. rewrite K, <- D in E. lia. }
      rewrite (read_while vs h s x y a b l w a' lw i d (fun i _ => nth i lw None)); try assumption; [|reflexivity].
      cbn [bind]. rewrite F. apply (turn_store0 b i d (fun i _ => nth i lw None) c h l (volume (v_dims v))); try assumption; [lia|].
      symmetry. apply nth_error_nth. assumption.
    - intros ix I. rewrite whole by (assumption || reflexivity). rewrite Nat.sub_0_r. rewrite D in *. symmetry. apply contents_nth; assumption.
  Qed.

  (** *** Scalar operands *)
  Lemma fill_ok vs h s x a v sc op e : Inv vs h s -> vs x = Some a -> s x = Some v ->
    get_operand sc (mkState vs h) = Val op -> scalar_value sc s = Val e ->
    if v_alloc v then exists h', fill op a h = Val h' /\ Inv vs h' (upd x (Some (mkV true (v_dims v) (fun _ => e))) s)
    else fill op a h = Abort.
  Proof.
    intros I0 X S OP SC. assert (G := inv_good _ _ _ I0 x). rewrite X, S in G. destruct G as (G1 & G2 & G3 & G4).
    unfold fill, null. destruct (v_alloc v) eqn:AL; [|destruct G4 as [-> _]; reflexivity].
    destruct G4 as (b & l & F & H & Q & R). rewrite F, elements_volume, G2. rewrite <- AL.
    apply (elementwise vs h s x a v 0 _ (fun _ _ => e)); [assumption..|lia| |].
    2:{ intros ix I. rewrite whole by (assumption || reflexivity). reflexivity. }
    intros b' l' F' H' Q' i c I C. assert (b' = b) by congruence. subst b'. assert (l' = l) by congruence. subst l'. clear F' H' Q'.
    assert (RD : read_operand op (set_nth b (Some (mix 0 i (fun _ _ => e) l)) h) = Val e).
    { destruct sc as [t|y jx].
      - cbn in OP, SC. injection OP as <-. injection SC as <-. reflexivity.
      - cbn [get_operand vars] in OP. cbn [scalar_value] in SC. destruct (s y) as [w|] eqn:W; [|discriminate]. cbn [of_option bind] in SC.
        destruct (in_rangeb (v_dims w) jx) eqn:IR; [|discriminate]. injection SC as <-. apply in_range_dec in IR.
        destruct (inv_get _ _ _ _ _ I0 W) as (a' & Y & GW). rewrite Y in OP. cbn [of_option bind] in OP. injection OP as <-.
        cbn [read_operand]. destruct (good_contents _ _ _ GW) as (lw & CW & AW). destruct GW as (W1 & W2 & W3 & W4).
        rewrite W2, (call_pos _ _ W3 IR). destruct (Nat.eq_dec x y) as [E|NE].
        + subst y. assert (a' = a) by congruence. subst a'. assert (w = v) by congruence. subst w. rewrite F.
          apply (load_ok b 0 _ _ (mix 0 i (fun _ _ => v_elem v jx) l)).
          * rewrite nth_set by (eapply nth_some_lt; eassumption). rewrite Nat.eqb_refl. reflexivity.
          * rewrite mix_nth. cbn [Nat.add]. rewrite R by assumption. cbn [option_map].
            match goal with |- context [if ?b then _ else _] => destruct b end; reflexivity.
        + apply (read_while vs h s x y a b l w a' lw _ _ (fun _ _ => None)); try assumption; [destruct CW as [_ K]; auto|congruence]. }
    rewrite RD. cbn [bind]. apply (turn_store0 b i e (fun _ _ => e) c h l (volume (v_dims v))); try assumption; [lia|reflexivity].
  Qed.

  Lemma op_scalar_ok vs h s x a v f sc op e : Inv vs h s -> vs x = Some a -> s x = Some v ->
    match sc with ElemOf y _ => x <> y | Const _ => True end ->
    get_operand sc (mkState vs h) = Val op -> scalar_value sc s = Val e ->
    if v_alloc v then exists h', op_scalar f op a h = Val h' /\ Inv vs h' (upd x (Some (mkV true (v_dims v) (fun ix => both f (v_elem v ix) e))) s)
    else op_scalar f op a h = Abort.
  Proof.
    intros I0 X S NE OP SC. assert (G := inv_good _ _ _ I0 x). rewrite X, S in G. destruct G as (G1 & G2 & G3 & G4).
    unfold op_scalar, null. destruct (v_alloc v) eqn:AL; [|destruct G4 as [-> _]; reflexivity].
    destruct G4 as (b & l & F & H & Q & R). rewrite F, elements_volume, G2. rewrite <- AL.
    apply (elementwise vs h s x a v 0 _ (fun _ c => both f c e)); [assumption..|lia| |].
    2:{ intros ix I. rewrite whole by (assumption || reflexivity). reflexivity. }
    intros b' l' F' H' Q' i c I C. assert (b' = b) by congruence. subst b'. assert (l' = l) by congruence. subst l'. clear F' H' Q'.
    rewrite (turn_load_same b 0 i _ c h l H C). cbn [bind].
    assert (RD : forall m, read_operand op (set_nth b (Some m) h) = Val e).
    { intros m. destruct sc as [t|y jx].
      - cbn in OP, SC. injection OP as <-. injection SC as <-. reflexivity.
      - cbn [get_operand vars] in OP. cbn [scalar_value] in SC. destruct (s y) as [w|] eqn:W; [|discriminate]. cbn [of_option bind] in SC.
        destruct (in_rangeb (v_dims w) jx) eqn:IR; [|discriminate]. injection SC as <-. apply in_range_dec in IR.
        destruct (inv_get _ _ _ _ _ I0 W) as (a' & Y & GW). rewrite Y in OP. cbn [of_option bind] in OP. injection OP as <-.
        cbn [read_operand]. destruct (good_contents _ _ _ GW) as (lw & CW & AW). destruct GW as (W1 & W2 & W3 & W4).
        rewrite W2, (call_pos _ _ W3 IR).
        apply (read_while vs h s x y a b l w a' lw _ _ (fun _ _ => None)); try assumption; [destruct CW as [_ K]; auto|congruence]. }
    rewrite RD. cbn [bind]. apply (turn_store0 b i _ (fun _ c => both f c e) c h l (volume (v_dims v))); try assumption; [lia|reflexivity].
  Qed.

  Lemma volume1 n : volume [n] = n. Proof. cbn. lia. Qed.
  Lemma op_array_ok vs h s x y a a' v w f : Inv vs h s -> vs x = Some a -> vs y = Some a' -> s x = Some v -> s y = Some w ->
    length (v_dims v) = 1 -> length (v_dims w) = 1 ->
    if same_list (v_dims v) (v_dims w)
    then exists h', op_array f a a' h = Val h' /\ Inv vs h' (upd x (Some (mkV (v_alloc v) (v_dims v) (fun ix => both f (v_elem v ix) (v_elem w ix)))) s)
    else op_array f a a' h = Abort.
  Proof.
    intros I0 X Y S W D1 D2. assert (G := inv_good _ _ _ I0 x). rewrite X, S in G. destruct G as (G1 & G2 & G3 & _).
    assert (GW := inv_good _ _ _ I0 y). rewrite Y, W in GW. destruct (good_contents _ _ _ GW) as (lw & CW & AW). destruct GW as (W1 & W2 & W3 & _).
    unfold op_array. rewrite !elements_volume, G2, W2.
    destruct (same_list (v_dims v) (v_dims w)) eqn:E.
    - apply same_list_eq in E. rewrite E, Nat.eqb_refl. cbn [negb]. rewrite <- E.
      apply (elementwise vs h s x a v 0 _ (fun i c => both f c (nth i lw None))); [assumption..|lia| |].
      + intros b l F H Q i c I C. destruct (nth_error lw i) as [d|] eqn:N.
        2:{ exfalso. apply nth_error_None in N. destruct CW as [K _]. rewrite K, <- E in N. lia. }
        rewrite F. rewrite (turn_load_same b 0 i _ c h l H C). cbn [bind].
        rewrite (read_while vs h s x y a b l w a' lw i d (fun i c => both f c (nth i lw None))); try assumption; [|reflexivity].
        cbn [bind]. apply (turn_store0 b i _ (fun i c => both f c (nth i lw None)) c h l (volume (v_dims v))); try assumption; [lia|].
        rewrite (nth_error_nth _ _ _ N). reflexivity.
      + intros ix I. rewrite whole by (assumption || reflexivity). rewrite Nat.sub_0_r. f_equal. rewrite E in *. symmetry. apply contents_nth; assumption.
    - replace (volume (v_dims v) =? volume (v_dims w)) with false; [reflexivity|].
      destruct (v_dims v) as [|n [|? ?]], (v_dims w) as [|m [|? ?]]; try discriminate. rewrite !volume1. cbn in E.
      rewrite andb_true_r in E. congruence.
  Qed.

  (** *** Assignment *)
  Lemma upd_same x (v : option avalue) s : upd x v s x = v. Proof. unfold upd. rewrite Nat.eqb_refl. reflexivity. Qed.
  Lemma upd_other x y (v : option avalue) s : y <> x -> upd x v s y = s y.
  Proof. intros N. unfold upd. destruct (Nat.eqb_spec y x); [contradiction|reflexivity]. Qed.
  Lemma var_same x (a : option arr) vs : set_var x a vs x = a. Proof. unfold set_var. rewrite Nat.eqb_refl. reflexivity. Qed.
  Lemma var_other x y (a : option arr) vs : y <> x -> set_var x a vs y = vs y.
  Proof. intros N. unfold set_var. destruct (Nat.eqb_spec y x); [contradiction|reflexivity]. Qed.

  Lemma assign_ok vs h s x y a a' v w : Inv vs h s -> vs x = Some a -> vs y = Some a' -> s x = Some v -> s y = Some w ->
    length (v_dims v) = length (v_dims w) -> (x = y -> length (v_dims v) = 1) ->
    exists a2 h2, assign dflt (x =? y) a a' h = Val (a2, h2) /\
      Inv (set_var x (Some a2) vs) h2
          (upd x (Some (mkV (if length (v_dims v) =? 1 then (if same_list (v_dims v) (v_dims w) then v_alloc v else true) else true)
                            (v_dims w) (v_elem w))) s).
  Proof.
    intros I0 X Y S W L NS. assert (GX := inv_good _ _ _ I0 x). rewrite X, S in GX.
    assert (GY := inv_good _ _ _ I0 y). rewrite Y, W in GY.
    assert (DX : a_dims a = v_dims v) by apply GX. assert (DY : a_dims a' = v_dims w) by apply GY.
    assert (RW : rank_ok (v_dims w)) by apply GY.
    (* resizing, then copying from a different array *)
    assert (RES : x <> y -> exists a1 h1, resize dflt (a_dims a') a h = Val (a1, h1) /\ a_dims a1 = v_dims w /\
        exists h2, copy_elements a1 a' h1 = Val h2 /\ Inv (set_var x (Some a1) vs) h2 (upd x (Some (mkV true (v_dims w) (v_elem w))) s)).
    { intros N. rewrite DY. destruct (resize_ok _ _ _ _ _ (v_dims w) I0 S RW) as (a0 & a1 & h1 & X0 & R1 & D1 & F1 & I1).
      assert (a0 = a) by congruence. subst a0. exists a1, h1. split; [assumption|]. split; [assumption|].
      destruct (copy_elements_ok _ _ _ x y a1 a' (mkV true (v_dims w) (fun _ => dflt)) w I1 (var_same _ _ _)) as (h2 & C2 & I2).
      - rewrite var_other by congruence. assumption.
      - apply upd_same.
      - rewrite upd_other by congruence. assumption.
      - reflexivity.
      - exists h2. split; [assumption|]. apply (inv_ext _ _ _ _ _ I2); [reflexivity|].
        intros z. unfold upd. destruct (z =? x); reflexivity. }
    unfold assign. destruct (length (v_dims v) =? 1) eqn:R1.
    - apply Nat.eqb_eq in R1. destruct (v_dims w) as [|m [|? ?]] eqn:EW; cbn [length] in L; try lia.
      destruct (v_dims v) as [|n [|? ?]] eqn:EV; cbn [length] in R1; try lia.
      rewrite DY. unfold assign1. rewrite DX, DY, !elements_volume, !volume1.
      cbn [same_list]. rewrite andb_true_r. destruct (Nat.eqb_spec n m) as [->|N]; cbn [bind].
      + destruct (copy_elements_ok _ _ _ x y a a' v w I0 X Y S W) as (h2 & C2 & I2); [congruence|].
        rewrite C2. cbn [bind]. exists a, h2. split; [reflexivity|]. apply (inv_ext _ _ _ _ _ I2).
        * intros z. unfold set_var. destruct (Nat.eqb_spec z x); congruence.
        * intros z. unfold upd. rewrite EV. destruct (z =? x); reflexivity.
      + destruct RES as (a1 & h1 & Q & D1 & h2 & C2 & I2); [intros ->; congruence|].
        rewrite DY in Q. rewrite Q. cbn [bind]. rewrite C2. cbn [bind]. exists a1, h2. auto.
    - apply Nat.eqb_neq in R1. assert (N : x <> y) by (intros E; apply R1; auto).
      destruct (Nat.eqb_spec x y); [contradiction|].
      destruct RES as (a1 & h1 & Q & D1 & h2 & C2 & I2); [assumption|].
      assert (EA : (match a_dims a' with [_] => assign1 dflt a a' h | _ => assignN dflt false a a' h end) = assignN dflt false a a' h).
      { rewrite DY. destruct (v_dims w) as [|m [|? ?]]; cbn [length] in L; try reflexivity. lia. }
      rewrite EA. unfold assignN. rewrite Q. cbn [bind]. rewrite C2. cbn [bind]. exists a1, h2. auto.
  Qed.

  Lemma row_ok vs h s x y a a' v w j : Inv vs h s -> vs x = Some a -> vs y = Some a' -> s x = Some v -> s y = Some w ->
    length (v_dims v) = 2 -> length (v_dims w) = 1 -> j < hd 0 (v_dims v) ->
    if same_list (tl (v_dims v)) (v_dims w)
    then exists h', assign_row dflt a j a' h = Val h' /\
         Inv vs h' (upd x (Some (mkV (v_alloc v) (v_dims v) (fun ix => if hd 0 ix =? j then v_elem w (tl ix) else v_elem v ix))) s)
    else assign_row dflt a j a' h = Abort.
  Proof.
    intros I0 X Y S W R2 R1 J. assert (G := inv_good _ _ _ I0 x). rewrite X, S in G. destruct G as (G1 & G2 & G3 & G4).
    assert (GW := inv_good _ _ _ I0 y). rewrite Y, W in GW. destruct (good_contents _ _ _ GW) as (lw & CW & AW). destruct GW as (W1 & W2 & W3 & W4).
    destruct (v_dims v) as [|n2 [|n1 [|? ?]]] eqn:EV; cbn [length] in R2; try lia.
    destruct (v_dims w) as [|m [|? ?]] eqn:EW; cbn [length] in R1; try lia.
    cbn [hd tl same_list] in *. rewrite andb_true_r.
    assert (N : x <> y) by (intros ->; assert (v = w) by congruence; subst; congruence).
    unfold assign_row, assign, sub_array, ctor_view. rewrite G2, W2. cbn [tl sub_offset]. unfold assign1. cbn [a_dims]. rewrite W2, !elements_volume, !volume1.
    destruct (Nat.eqb_spec n1 m) as [->|NE]; cbn [bind]; [|unfold resize; reflexivity].
    assert (EQ : forall r : res (heap T), bind (bind (bind r (fun h => Val (mkArr true [m] (shift_ptr (a_F a) (sub2 m j)), h)))
               (fun '(a0, h0) => Val (a0, h0))) (fun '(_, h0) => Val h0) = r) by (intros [?| |]; reflexivity).
    replace (bind _ _) with (copy_elements (mkArr true [m] (shift_ptr (a_F a) (sub2 m j))) a' h)
      by (destruct (copy_elements (mkArr true [m] (shift_ptr (a_F a) (sub2 m j))) a' h); reflexivity).
    clear EQ. unfold copy_elements. cbn [a_dims a_F]. rewrite elements_volume, volume1. rewrite <- EV.
    assert (V : volume (v_dims v) = n2 * m) by (rewrite EV; cbn; lia).
    assert (IX : forall ix, in_range (v_dims v) ix -> exists r i, ix = [r; i] /\ r < n2 /\ i < m /\ pos (v_dims v) ix = r * m + i).
    { intros ix I. rewrite EV in *. inversion I as [|r n' ix' d' Hr I' E1 E2]; subst. inversion I' as [|i n'' ix'' d'' Hi I'' E3 E4]; subst.
      inversion I''; subst. exists r, i. split; [reflexivity|]. split; [assumption|]. split; [assumption|]. cbn. lia. }
    apply (elementwise vs h s x a v (j * m) m (fun i _ => nth i lw None)); [assumption..| | |].
    - rewrite V. nia.
    - intros b l F H Q i c I C. destruct (nth_error lw i) as [d|] eqn:E.
      2:{ exfalso. apply nth_error_None in E. destruct CW as [K _]. rewrite K, volume1 in E. lia. }
      rewrite <- EW in CW.
      rewrite (read_while vs h s x y a b l w a' lw i d (fun i _ => nth i lw None)); try assumption; [|congruence].
      cbn [bind]. rewrite F. cbn [shift_ptr option_map fst snd Nat.add]. unfold sub2.
      apply (turn_store b (j * m) i d (fun i _ => nth i lw None) c h l m); try assumption.
      + rewrite Q, V. nia.
      + symmetry. apply nth_error_nth. assumption.
    - intros ix I. destruct (IX ix I) as (r & i & -> & Hr & Hi & ->). cbn [hd tl].
      destruct (Nat.eqb_spec r j) as [->|NE].
      + replace ((j * m <=? j * m + i) && (j * m + i <? j * m + m)) with true.
        * replace (j * m + i - j * m) with i by lia. symmetry. destruct CW as [_ K]. apply nth_error_nth.
          rewrite <- (K [i]); [f_equal; cbn; lia|]. constructor; [assumption|constructor].
        * symmetry. apply andb_true_intro. split; [apply Nat.leb_le|apply Nat.ltb_lt]; lia.
      + replace ((j * m <=? r * m + i) && (r * m + i <? j * m + m)) with false; [reflexivity|].
        symmetry. apply andb_false_iff. destruct (Nat.lt_ge_cases r j).
        * left. apply Nat.leb_gt. nia.
        * right. apply Nat.ltb_ge. nia.
  Qed.

  Lemma rank_okb_ok dims : rank_okb dims = true -> rank_ok dims.
  Proof. unfold rank_okb, rank_ok. intros H. apply andb_prop in H. destruct H as [A B]. apply Nat.leb_le in A, B. lia. Qed.
  Lemma volume_zeros n : 1 <= n -> volume (repeat 0 n) = 0.
  Proof. destruct n; [lia|reflexivity]. Qed.

  Lemma ctor_copy_ok vs h s x y a' w : Inv vs h s -> vs y = Some a' -> s y = Some w -> s x = None ->
    exists c h', ctor_copy dflt a' h = Val (c, h') /\ Inv (set_var x (Some c) vs) h' (upd x (Some (mkV true (v_dims w) (v_elem w))) s).
  Proof.
    intros I0 Y W E. assert (GW := inv_good _ _ _ I0 y). rewrite Y, W in GW. unfold ctor_copy, resize.
    cbn [a_copymem a_F delete_array bind new_array]. rewrite elements_volume.
    assert (D : a_dims a' = v_dims w) by apply GW. rewrite D. assert (R : rank_ok (v_dims w)) by apply GW.
    assert (I1 := inv_alloc _ _ _ x _ I0 E R). assert (N : y <> x) by congruence.
    destruct (copy_elements_ok _ _ _ x y _ a' (mkV true (v_dims w) (fun _ => dflt)) w I1 (var_same _ _ _)) as (h2 & C2 & I2).
    - rewrite var_other by assumption. assumption.
    - apply upd_same.
    - rewrite upd_other by assumption. assumption.
    - reflexivity.
    - rewrite C2. cbn [bind]. eexists _, _. split; [reflexivity|]. apply (inv_ext _ _ _ _ _ I2); [reflexivity|].
      intros z. unfold upd. destruct (z =? x); reflexivity.
  Qed.
  (** An operand keeps its meaning when a new array is declared. *)
  Lemma operand_fresh vs h s sc e x v c h' : Inv vs h s -> scalar_value sc s = Val e -> s x = None ->
    exists op, get_operand sc (mkState vs h) = Val op /\ match sc with ElemOf y _ => x <> y | Const _ => True end /\
      get_operand sc (mkState (set_var x (Some c) vs) h') = Val op /\ scalar_value sc (upd x (Some v) s) = Val e.
  Proof.
    intros I0 SC E. destruct sc as [t|y ix].
    - cbn in SC. injection SC as <-. exists (Temp t). split; [reflexivity|]. split; [exact I|]. split; reflexivity.
    - cbn [scalar_value] in SC. destruct (s y) as [w|] eqn:W; [|discriminate]. cbn [of_option bind] in SC.
      destruct (inv_get _ _ _ _ _ I0 W) as (a' & Y & _). assert (N : y <> x) by congruence.
      cbn [get_operand vars scalar_value]. rewrite (var_other x y _ vs N), Y, (upd_other x y _ s N), W. cbn [of_option bind].
      eexists. split; [reflexivity|]. split; [congruence|]. split; [reflexivity|assumption].
  Qed.

  Theorem exec_ok c vs h s : Inv vs h s -> sound_stmt c s ->
    match meaning dflt c s with
    | Val s' => exists vs' h', exec dflt c (mkState vs h) = Val (mkState vs' h') /\ Inv vs' h' s'
    | Abort => exec dflt c (mkState vs h) = Abort
    | Undef => True
    end.
  Proof.
    intros I0 SD. destruct c as [x rank|x dims|x y|x dims|x y|x sc|x ix e|f x y|f x sc|x j y|f x y z|f x y sc|f x sc y|x]; cbn [meaning exec].
    - (* SDefault *)
      destruct (rank_okb (repeat 0 rank)) eqn:R; [|exact I]. apply rank_okb_ok in R. unfold declare. destruct (s x) eqn:E; [exact I|].
      eexists _, _. split; [reflexivity|]. assert (X := inv_none _ _ _ _ I0 E). destruct I0 as [A B C]. split.
      + intros y. unfold set_var, upd. destruct (y =? x); [|apply A]. split; [reflexivity|]. split; [reflexivity|]. split; [assumption|].
        cbn. split; [reflexivity|]. apply volume_zeros. unfold rank_ok in R. rewrite repeat_length in R. lia.
      + unfold set_var. intros y z a b blk. destruct (y =? x), (z =? x); try apply B; intros H1 H2 F1 F2; try (injection H1 as <-; discriminate); injection H2 as <-; discriminate.
      + intros blk l K. destruct (C _ _ K) as (y & a & P & Q). exists y, a. split; [|assumption]. rewrite var_other; [assumption|congruence].
    - (* SSizes *)
      destruct (rank_okb dims) eqn:R; [|exact I]. apply rank_okb_ok in R. unfold declare. destruct (s x) eqn:E; [exact I|].
      unfold ctor_sizes, resize. cbn [a_copymem a_F delete_array bind new_array]. rewrite elements_volume.
      eexists _, _. split; [reflexivity|]. apply inv_alloc; assumption.
    - (* SCopy *)
      destruct (s y) as [w|] eqn:W; [|exact I]. cbn [of_option bind]. unfold declare. destruct (s x) eqn:E; [exact I|].
      destruct (inv_get _ _ _ _ _ I0 W) as (a' & Y & _). rewrite Y. cbn [of_option bind].
      destruct (ctor_copy_ok _ _ _ _ _ _ _ I0 Y W E) as (c & h1 & Q & I1). rewrite Q. cbn [bind]. eexists _, _. split; [reflexivity|assumption].
    - (* SResize *)
      destruct (s x) as [v|] eqn:E; [|exact I]. cbn [of_option bind]. destruct (length dims =? length (v_dims v)) eqn:L; [|exact I].
      apply Nat.eqb_eq in L. destruct (inv_get _ _ _ _ _ I0 E) as (a & X & G).
      assert (R : rank_ok dims) by (unfold rank_ok; rewrite L; apply G).
      destruct (resize_ok _ _ _ _ _ dims I0 E R) as (a0 & a1 & h1 & X0 & R1 & D1 & F1 & I1). rewrite X0. cbn [of_option bind]. rewrite R1. cbn [bind].
      eexists _, _. split; [reflexivity|assumption].
    - (* SAssign *)
      destruct (s x) as [v|] eqn:E; [|exact I]. destruct (s y) as [w|] eqn:W; [|exact I]. cbn [of_option bind].
      destruct (length (v_dims v) =? length (v_dims w)) eqn:L; [|exact I]. apply Nat.eqb_eq in L.
      destruct (inv_get _ _ _ _ _ I0 E) as (a & X & _). destruct (inv_get _ _ _ _ _ I0 W) as (a' & Y & _). rewrite X, Y. cbn [of_option bind].
      cbn [sound_stmt] in SD.
      destruct (assign_ok _ _ _ _ _ _ _ _ _ I0 X Y E W L) as (a2 & h2 & Q & I2); [intros K; apply (SD K); assumption|].
      rewrite Q. cbn [bind]. eexists _, _. split; [reflexivity|assumption].
    - (* SFill *)
      destruct (s x) as [v|] eqn:E; [|exact I]. cbn [of_option bind]. destruct (scalar_value sc s) as [e| |] eqn:SC; cbn [bind]; [|destruct sc as [|y ix]; cbn in SC; try discriminate|exact I].
      2:{ destruct (s y) as [w|]; cbn in SC; [destruct (in_rangeb (v_dims w) ix)|]; discriminate. }
      destruct (inv_get _ _ _ _ _ I0 E) as (a & X & _). rewrite X. cbn [of_option bind].
      assert (OP : exists op, get_operand sc (mkState vs h) = Val op).
      { destruct sc as [t|y ix]; [eexists; reflexivity|]. cbn [scalar_value] in SC. destruct (s y) as [w|] eqn:W; [|discriminate].
        destruct (inv_get _ _ _ _ _ I0 W) as (a' & Y & _). cbn [get_operand vars]. rewrite Y. eexists. reflexivity. }
      destruct OP as [op OP]. rewrite OP. cbn [bind]. assert (K := fill_ok _ _ _ _ _ _ _ _ _ I0 X E OP SC).
      destruct (v_alloc v).
      + destruct K as (h2 & Q & I2). rewrite Q. cbn [bind]. eexists _, _. split; [reflexivity|assumption].
      + rewrite K. reflexivity.
    - (* SSet *)
      destruct (s x) as [v|] eqn:E; [|exact I]. cbn [of_option bind]. destruct (in_rangeb (v_dims v) ix) eqn:R; [|exact I]. apply in_range_dec in R.
      destruct (inv_get _ _ _ _ _ I0 E) as (a & X & G). rewrite X. cbn [of_option bind]. destruct G as (G1 & G2 & G3 & G4).
      assert (P := pos_lt _ _ R). destruct (v_alloc v) eqn:AL; [|destruct G4; lia].
      destruct G4 as (b & l & F & H & Q & K). rewrite G2, (call_pos _ _ G3 R), F. rewrite (store_ok b 0 _ _ h l H) by (cbn [Nat.add]; lia). cbn [bind].
      eexists _, _. split; [reflexivity|]. apply (inv_modify _ _ _ _ a b l); [assumption..|]. split; [assumption|]. split; [assumption|]. split; [assumption|].
      cbn [v_alloc v_dims v_elem]. eexists b, _. split; [assumption|]. split; [rewrite nth_set by (eapply nth_some_lt; eassumption); rewrite Nat.eqb_refl; reflexivity|].
      cbn [Nat.add]. split; [rewrite set_nth_length by lia; assumption|]. intros jx RJ. rewrite nth_set by lia.
      destruct (same_list jx ix) eqn:SL.
      + apply same_list_eq in SL. subst jx. rewrite Nat.eqb_refl. reflexivity.
      + destruct (Nat.eqb_spec (pos (v_dims v) jx) (pos (v_dims v) ix)) as [EP|]; [|auto].
        apply pos_inj in EP; [|assumption..]. apply same_list_eq in EP. congruence.
    - (* SOp *)
      destruct (s x) as [v|] eqn:E; [|exact I]. destruct (s y) as [w|] eqn:W; [|exact I]. cbn [of_option bind].
      destruct ((length (v_dims v) =? 1) && (length (v_dims w) =? 1)) eqn:L; [|exact I]. apply andb_prop in L. destruct L as [L1 L2]. apply Nat.eqb_eq in L1, L2.
      destruct (inv_get _ _ _ _ _ I0 E) as (a & X & _). destruct (inv_get _ _ _ _ _ I0 W) as (a' & Y & _). rewrite X, Y. cbn [of_option bind].
      assert (K := op_array_ok _ _ _ _ _ _ _ _ _ f I0 X Y E W L1 L2). destruct (same_list (v_dims v) (v_dims w)).
      + destruct K as (h2 & Q & I2). rewrite Q. cbn [bind]. eexists _, _. split; [reflexivity|assumption].
      + rewrite K. reflexivity.
    - (* SOpScalar *)
      destruct (s x) as [v|] eqn:E; [|exact I]. cbn [of_option bind]. destruct (scalar_value sc s) as [e| |] eqn:SC; cbn [bind]; [|destruct sc as [|y ix]; cbn in SC; try discriminate|exact I].
      2:{ destruct (s y) as [w|]; cbn in SC; [destruct (in_rangeb (v_dims w) ix)|]; discriminate. }
      destruct (length (v_dims v) =? 1) eqn:L; [|exact I].
      destruct (inv_get _ _ _ _ _ I0 E) as (a & X & _). rewrite X. cbn [of_option bind].
      assert (OP : exists op, get_operand sc (mkState vs h) = Val op).
      { destruct sc as [t|y ix]; [eexists; reflexivity|]. cbn [scalar_value] in SC. destruct (s y) as [w|] eqn:W; [|discriminate].
        destruct (inv_get _ _ _ _ _ I0 W) as (a' & Y & _). cbn [get_operand vars]. rewrite Y. eexists. reflexivity. }
      destruct OP as [op OP]. rewrite OP. cbn [bind].
      assert (NE : match sc with ElemOf y _ => x <> y | Const _ => True end) by (destruct sc; [exact I|exact SD]).
      assert (K := op_scalar_ok _ _ _ _ _ _ f _ _ _ I0 X E NE OP SC). destruct (v_alloc v).
      + destruct K as (h2 & Q & I2). rewrite Q. cbn [bind]. eexists _, _. split; [reflexivity|assumption].
      + rewrite K. reflexivity.
    - (* SRow *)
      destruct (s x) as [v|] eqn:E; [|exact I]. destruct (s y) as [w|] eqn:W; [|exact I]. cbn [of_option bind].
      destruct ((length (v_dims v) =? S (length (v_dims w))) && (j <? hd 0 (v_dims v))) eqn:L; [|exact I].
      apply andb_prop in L. destruct L as [L1 L2]. apply Nat.eqb_eq in L1. apply Nat.ltb_lt in L2. cbn [sound_stmt] in SD. assert (R2 := SD v E).
      destruct (inv_get _ _ _ _ _ I0 E) as (a & X & _). destruct (inv_get _ _ _ _ _ I0 W) as (a' & Y & _). rewrite X, Y. cbn [of_option bind].
      assert (K := row_ok _ _ _ _ _ _ _ _ _ j I0 X Y E W R2 ltac:(lia) L2). destruct (same_list (tl (v_dims v)) (v_dims w)).
      + destruct K as (h2 & Q & I2). rewrite Q. cbn [bind]. eexists _, _. split; [reflexivity|assumption].
      + rewrite K. reflexivity.
    - (* SBinary *)
      destruct (s y) as [v|] eqn:V; [|exact I]. destruct (s z) as [w|] eqn:W; [|exact I]. cbn [of_option bind].
      destruct ((length (v_dims v) =? 1) && (length (v_dims w) =? 1)) eqn:L; [|exact I]. apply andb_prop in L. destruct L as [L1 L2]. apply Nat.eqb_eq in L1, L2.
      unfold declare. destruct (s x) eqn:E; [exact I|]. cbn [bind].
      destruct (inv_get _ _ _ _ _ I0 V) as (a & Y & _). destruct (inv_get _ _ _ _ _ I0 W) as (b & Z & _). rewrite Y, Z. cbn [of_option bind].
      destruct (ctor_copy_ok _ _ _ _ _ _ _ I0 Y V E) as (c & h1 & Q & I1). unfold binary_array. rewrite Q. cbn [bind].
      assert (N : z <> x) by congruence.
      assert (K := op_array_ok _ _ _ x z c b _ w f I1 (var_same _ _ _) ltac:(rewrite var_other by assumption; exact Z) (upd_same _ _ _)
                     ltac:(rewrite upd_other by assumption; exact W) L1 L2). cbn [v_dims v_elem v_alloc] in K. destruct (same_list (v_dims v) (v_dims w)).
      + destruct K as (h2 & Q2 & I2). rewrite Q2. cbn [bind]. eexists _, _. split; [reflexivity|]. apply (inv_ext _ _ _ _ _ I2); [reflexivity|].
        intros u. unfold upd. destruct (u =? x); reflexivity.
      + rewrite K. reflexivity.
    - (* SBinaryScalar *)
      destruct (s y) as [v|] eqn:V; [|exact I]. cbn [of_option bind]. destruct (scalar_value sc s) as [e| |] eqn:SC; cbn [bind]; [|destruct sc as [|y' ix]; cbn in SC; try discriminate|exact I].
      2:{ destruct (s y') as [w|]; cbn in SC; [destruct (in_rangeb (v_dims w) ix)|]; discriminate. }
      destruct (length (v_dims v) =? 1) eqn:L; [|exact I]. unfold declare. destruct (s x) eqn:E; [exact I|].
      destruct (inv_get _ _ _ _ _ I0 V) as (a & Y & _). rewrite Y. cbn [of_option bind].
      destruct (ctor_copy_ok _ _ _ _ _ _ _ I0 Y V E) as (c & h1 & Q & I1).
      destruct (operand_fresh _ _ _ _ _ x (mkV true (v_dims v) (v_elem v)) c h1 I0 SC E) as (op & OP & NE & OP1 & SC1).
      rewrite OP. cbn [bind]. unfold binary_scalar. rewrite Q. cbn [bind].
      assert (K := op_scalar_ok _ _ _ x c _ f sc op e I1 (var_same _ _ _) (upd_same _ _ _) NE OP1 SC1). cbn [v_alloc v_dims v_elem] in K.
      destruct K as (h2 & Q2 & I2). rewrite Q2. cbn [bind]. eexists _, _. split; [reflexivity|]. apply (inv_ext _ _ _ _ _ I2); [reflexivity|].
      intros u. unfold upd. destruct (u =? x); reflexivity.
    - (* SScalarOver *)
      destruct (s y) as [v|] eqn:V; [|exact I]. cbn [of_option bind]. destruct (scalar_value sc s) as [e| |] eqn:SC; cbn [bind]; [|destruct sc as [|y' ix]; cbn in SC; try discriminate|exact I].
      2:{ destruct (s y') as [w|]; cbn in SC; [destruct (in_rangeb (v_dims w) ix)|]; discriminate. }
      destruct (length (v_dims v) =? 1) eqn:L; [|exact I]. apply Nat.eqb_eq in L. unfold declare. destruct (s x) eqn:E; [exact I|].
      destruct (inv_get _ _ _ _ _ I0 V) as (a & Y & G). rewrite Y. cbn [of_option bind].
      assert (D : a_dims a = v_dims v) by apply G. assert (R : rank_ok (v_dims v)) by apply G.
      assert (I1 := inv_alloc _ _ _ x _ I0 E R).
      destruct (operand_fresh _ _ _ _ _ x (mkV true (v_dims v) (fun _ => dflt)) (mkArr false (v_dims v) (Some (length h, 0)))
                  (h ++ [Some (repeat dflt (volume (v_dims v)))]) I0 SC E) as (op & OP & NE & OP1 & SC1).
      rewrite OP. cbn [bind]. unfold scalar_div, ctor_sizes, resize. cbn [a_copymem a_F delete_array bind new_array]. rewrite elements_volume, D.
      assert (K := fill_ok _ _ _ x _ _ sc op e I1 (var_same _ _ _) (upd_same _ _ _) OP1 SC1). cbn [v_alloc v_dims v_elem] in K.
      destruct K as (h2 & Q2 & I2). rewrite Q2. cbn [bind]. assert (N : y <> x) by congruence.
      assert (K := op_array_ok _ _ _ x y _ a _ v f I2 (var_same _ _ _) ltac:(rewrite var_other by assumption; exact Y) (upd_same _ _ _)
                     ltac:(rewrite !upd_other by assumption; exact V) L L). cbn [v_dims v_elem v_alloc] in K.
      assert (SL : same_list (v_dims v) (v_dims v) = true) by (apply same_list_eq; reflexivity). rewrite SL in K.
      destruct K as (h3 & Q3 & I3). rewrite Q3. cbn [bind]. eexists _, _. split; [reflexivity|]. apply (inv_ext _ _ _ _ _ I3); [reflexivity|].
      intros u. unfold upd. destruct (u =? x); reflexivity.
    - (* SEnd *)
      destruct (s x) as [v|] eqn:E; [|exact I]. cbn [of_option bind]. destruct (inv_free _ _ _ _ _ I0 E) as (a & h1 & X & M & D & I1).
      rewrite X. cbn [of_option bind]. unfold dtor. rewrite M, D. cbn [bind]. eexists _, _. split; [reflexivity|assumption].
  Qed.

  Theorem exec_all_ok p : forall vs h s, Inv vs h s -> sound dflt p s ->
    match meaning_all dflt p s with
    | Val s' => exists vs' h', exec_all dflt p (mkState vs h) = Val (mkState vs' h') /\ Inv vs' h' s'
    | Abort => exec_all dflt p (mkState vs h) = Abort
    | Undef => True
    end.
  Proof.
    induction p as [|c p IH]; intros vs h s I0 SD; cbn [meaning_all exec_all].
    - eexists _, _. split; [reflexivity|assumption].
    - cbn [sound] in SD. destruct SD as [S1 S2]. assert (K := exec_ok c _ _ _ I0 S1). destruct (meaning dflt c s) as [s1| |]; cbn [bind].
      + destruct K as (vs1 & h1 & Q & I1). rewrite Q. cbn [bind]. apply IH; assumption.
      + rewrite K. reflexivity.
      + exact I.
  Qed.

  Lemma inv_shows vs h s : Inv vs h s -> shows (mkState vs h) s.
  Proof.
    intros I0 x. assert (G := inv_good _ _ _ I0 x). cbn [vars]. destruct (vs x) as [a|] eqn:X, (s x) as [v|] eqn:S; try assumption.
    destruct G as (G1 & G2 & G3 & G4). split; [assumption|]. intros ix R. unfold read_elem. cbn [vars mem]. rewrite X. cbn [of_option bind].
    rewrite G2, (call_pos _ _ G3 R). destruct (v_alloc v).
    - destruct G4 as (b & l & F & H & Q & K). rewrite F. apply (load_ok b 0 _ _ l); [assumption|]. cbn [Nat.add]. auto.
    - destruct G4 as [_ V]. apply pos_lt in R. lia.
  Qed.
End Ok.
