(** Proofs about the nested types: every operation is the corresponding
    operation on matrices of complex numbers. *)
From Coq Require Import List PeanoNat Bool Lia Ring Ring_theory.
From Verif Require Import Base ComplexModel PropComplex TensorModel TensorSpec.
Import ListNotations.
Set Default Timeout 120.

Lemma same_iff k n k' n' : same k n k' n' = true <-> k = k' /\ n = n'.
Proof.
  unfold same. rewrite andb_true_iff, Nat.eqb_eq.
  destruct k, k'; cbn; intuition congruence.
Qed.
Lemma same_refl k n : same k n k n = true.
Proof. now apply same_iff. Qed.
Lemma ty_eqb_eq : forall a b, ty_eqb a b = true -> a = b.
Proof.
  induction a; destruct b; cbn; intros H; try discriminate; trivial.
  - f_equal. auto.
  - apply andb_true_iff in H as [H1 H2]. apply same_iff in H1 as [-> ->]. f_equal. auto.
  - apply andb_true_iff in H as [H1 H2]. apply same_iff in H1 as [-> ->]. f_equal. auto.
Qed.

Lemma dims_pos t : forall Is Js, pos t -> dims t Is Js -> Forall (lt 0) Is /\ Forall (lt 0) Js.
Proof.
  induction t; intros [|a Is] [|b Js]; cbn; intros; try tauto; try (split; constructor; fail).
  - destruct H0 as (-> & ? & ?). destruct (IHt _ _ H H1). split; now constructor.
  - destruct H as [? ?], H0 as (-> & -> & ?). destruct (IHt _ _ H1 H0). split; now constructor.
  - destruct H as [? ?], H0 as (-> & -> & ?). destruct (IHt _ _ H1 H0). split; constructor; auto.
Qed.
Lemma dims_own t : pos t -> dims t (rows t) (cols t).
Proof. induction t; cbn; intuition. Qed.
Lemma square_cols t : square t -> cols t = rows t.
Proof. induction t; cbn; intros; try tauto; f_equal; auto. Qed.
Lemma dims_square t : forall Is Js, square t -> dims t Is Js -> Is = Js.
Proof.
  induction t; intros [|a Is] [|b Js]; cbn; intros; try tauto; f_equal; try apply IHt; tauto || lia.
Qed.
Lemma dims_sym t : forall Is Js, square t -> dims t Is Js -> dims t Js Is.
Proof.
  induction t; intros [|a Is] [|b Js]; cbn; intros; intuition.
Qed.

Lemma inb_cons_l I a Is : inb I (a :: Is) -> exists i J, I = i :: J /\ i < a /\ inb J Is.
Proof. intros H. inversion H; subst. eauto. Qed.
Lemma inb_nil I : inb I [] -> I = [].
Proof. intros H. now inversion H. Qed.
Lemma in_box ns : forall K, In K (box ns) <-> inb K ns.
Proof.
  induction ns as [|n ns IH]; intros K; cbn.
  - split; [intros [<-|[]]; constructor | intros H; left; symmetry; now apply inb_nil].
  - rewrite in_flat_map. split.
    + intros (k & Hk & H). apply in_map_iff in H as (K' & <- & H). apply in_seq in Hk.
      constructor; [lia | now apply IH].
    + intros H. apply inb_cons_l in H as (k & K' & -> & Hk & H). exists k. split; [apply in_seq; lia|].
      apply in_map, IH, H.
Qed.

Section Proofs.
Set Default Proof Using "All".
Context {R : Type} (rO rI : R) (radd rmul rsub : R -> R -> R) (ropp : R -> R).
Context (Rth : ring_theory rO rI radd rmul rsub ropp (@eq R)).
Local Notation cadd := (c_add radd).
Local Notation cmul := (c_mul radd rmul rsub).
Local Notation cneg := (c_neg ropp).
Local Notation csub := (c_sub rsub).
Local Notation cconj := (c_conj ropp).
Local Notation c0 := (rO, rO).
Local Notation c1 := (rI, rO).
Local Notation cx := (R * R)%type.
Local Notation val := (@val R).
Local Notation typed := (@typed R).
Local Notation eqv := (@eqv R).
Local Notation entry := (@entry R rO).
Local Notation csum := (@csum R rO radd).
Local Notation vadd := (vadd radd).
Local Notation vneg := (vneg ropp).
Local Notation vsub := (vsub rsub ropp).
Local Notation accum := (accum radd).
Local Notation accum2 := (accum2 radd).
Local Notation vmul := (vmul radd rmul rsub).

Lemma cring : ring_theory c0 c1 cadd cmul csub cneg (@eq cx).
Proof. exact (C72_ring rO rI radd rmul rsub ropp Rth). Qed.
Add Ring Rr : Rth.
Add Ring Cr : cring.

(** * Sums *)
Lemma csum_cons {A} (a : A) l f : csum (a :: l) f = cadd (f a) (csum l f).
Proof. reflexivity. Qed.
Lemma csum_nil {A} (f : A -> cx) : csum [] f = c0.
Proof. reflexivity. Qed.
Opaque TensorSpec.csum.
Ltac csum_ind l := induction l as [|? l IHl]; intros; rewrite ?csum_cons, ?csum_nil.
Lemma csum_ext {A} (l : list A) f g : (forall a, In a l -> f a = g a) -> csum l f = csum l g.
Proof. induction l; intros H; [reflexivity|]. rewrite !csum_cons, IHl, H; auto with datatypes. Qed.
Lemma csum_app {A} (l l' : list A) f : csum (l ++ l') f = cadd (csum l f) (csum l' f).
Proof. csum_ind l; cbn [app]; rewrite ?csum_cons, ?IHl; ring. Qed.
Lemma csum_map {A B} (g : A -> B) l f : csum (map g l) f = csum l (fun a => f (g a)).
Proof. csum_ind l; cbn [map]; rewrite ?csum_cons, ?IHl; reflexivity. Qed.
Lemma csum_flat_map {A B} (g : A -> list B) l f :
  csum (flat_map g l) f = csum l (fun a => csum (g a) f).
Proof. csum_ind l; cbn [flat_map]; rewrite ?csum_app, ?IHl; reflexivity. Qed.
Lemma csum_0 {A} (l : list A) : csum l (fun _ => c0) = c0.
Proof. csum_ind l; rewrite ?IHl; ring. Qed.
Lemma csum_zero {A} (l : list A) f : (forall a, f a = c0) -> csum l f = c0.
Proof. intros H. csum_ind l; rewrite ?IHl, ?H; ring. Qed.
Lemma csum_add {A} (l : list A) f g : csum l (fun a => cadd (f a) (g a)) = cadd (csum l f) (csum l g).
Proof. csum_ind l; rewrite ?IHl; ring. Qed.
Lemma csum_mul_l {A} (l : list A) z f : csum l (fun a => cmul z (f a)) = cmul z (csum l f).
Proof. csum_ind l; rewrite ?IHl; ring. Qed.
Lemma csum_mul_r {A} (l : list A) z f : csum l (fun a => cmul (f a) z) = cmul (csum l f) z.
Proof. csum_ind l; rewrite ?IHl; ring. Qed.
Lemma csum_swap {A B} (l : list A) (l' : list B) f :
  csum l (fun a => csum l' (fun b => f a b)) = csum l' (fun b => csum l (fun a => f a b)).
Proof.
  csum_ind l.
  - symmetry. apply csum_0.
  - rewrite IHl, <- csum_add. apply csum_ext. reflexivity.
Qed.
Lemma conj_add w z : cconj (cadd w z) = cadd (cconj w) (cconj z).
Proof. apply (C72_conjugate rO rI radd rmul rsub ropp Rth rO). Qed.
Lemma conj_mul w z : cconj (cmul w z) = cmul (cconj w) (cconj z).
Proof. apply (C72_conjugate rO rI radd rmul rsub ropp Rth rO). Qed.
Lemma conj_0 : cconj c0 = c0.
Proof. unfold c_conj. cbn. f_equal. ring. Qed.
Lemma conj_invol z : cconj (cconj z) = z.
Proof. apply (C72_conjugate rO rI radd rmul rsub ropp Rth rO z z). Qed.
Lemma csum_conj {A} (l : list A) f : csum l (fun a => cconj (f a)) = cconj (csum l f).
Proof. csum_ind l; [symmetry; apply conj_0|]. now rewrite IHl, conj_add. Qed.
Lemma csum_neg {A} (l : list A) f : csum l (fun a => cneg (f a)) = cneg (csum l f).
Proof. csum_ind l; rewrite ?IHl; ring. Qed.
Lemma csum_delta n i (f : nat -> cx) : i < n ->
  csum (seq 0 n) (fun k => if Nat.eqb i k then f k else c0) = f i.
Proof.
  intros Hi.
  assert (G : forall m s, csum (seq s m) (fun k => if Nat.eqb i k then f k else c0)
            = if Nat.leb s i && Nat.ltb i (s + m) then f i else c0).
  { induction m; intros s; cbn [seq].
    - replace (Nat.leb s i && Nat.ltb i (s + 0)) with false; [reflexivity|].
      symmetry. destruct (Nat.leb_spec s i); [|reflexivity]. cbn. apply Nat.ltb_ge. lia.
    - change (cadd (if Nat.eqb i s then f s else c0) (csum (seq (S s) m) (fun k => if Nat.eqb i k then f k else c0)) =
        if Nat.leb s i && Nat.ltb i (s + S m) then f i else c0).
      rewrite IHm.
      destruct (Nat.eqb_spec i s) as [->|N].
      + replace (Nat.leb (S s) s) with false by (symmetry; apply Nat.leb_gt; lia).
        replace (Nat.leb s s && Nat.ltb s (s + S m)) with true
          by (symmetry; apply andb_true_iff; split; [apply Nat.leb_le|apply Nat.ltb_lt]; lia).
        cbn [andb]. ring.
      + replace (Nat.leb (S s) i && Nat.ltb i (S s + m)) with (Nat.leb s i && Nat.ltb i (s + S m)); [ring|].
        apply eq_true_iff_eq. rewrite !andb_true_iff, !Nat.leb_le, !Nat.ltb_lt. lia. }
  rewrite G. replace (Nat.leb 0 i && Nat.ltb i (0 + n)) with true; [reflexivity|].
  symmetry. apply andb_true_iff. split; [apply Nat.leb_le|apply Nat.ltb_lt]; lia.
Qed.
Lemma csum_delta' n i (f : nat -> cx) : i < n ->
  csum (seq 0 n) (fun k => if Nat.eqb k i then f k else c0) = f i.
Proof.
  intros H. rewrite <- (csum_delta n i f H). apply csum_ext. intros a _. now rewrite Nat.eqb_sym.
Qed.
Lemma csum_box_cons n ns f :
  csum (box (n :: ns)) f = csum (seq 0 n) (fun k => csum (box ns) (fun K => f (k :: K))).
Proof.
  cbn [box]. rewrite csum_flat_map. apply csum_ext. intros. apply csum_map.
Qed.
Lemma csum_one {A} (a : A) f : csum [a] f = f a.
Proof. rewrite csum_cons, csum_nil. ring. Qed.

(** * Typed objects *)
Lemma eqv_refl : forall t x, typed t x -> eqv t x x.
Proof. induction t; destruct x; cbn; intuition. Qed.
Lemma eqv_sym : forall t x y, eqv t x y -> eqv t y x.
Proof. induction t; destruct x, y; cbn; intuition. Qed.
Lemma eqv_trans : forall t x y z, eqv t x y -> eqv t y z -> eqv t x z.
Proof.
  induction t; intros x y z H1 H2; destruct x; try contradiction; destruct y; try contradiction;
    destruct z; try contradiction; revert H1 H2; cbn; try congruence; eauto.
  - intros (-> & -> & <- & <- & E) (_ & _ & <- & <- & F). repeat split; eauto.
  - intros (-> & -> & <- & <- & E) (_ & _ & <- & <- & F). repeat split; eauto.
Qed.
Lemma eqv_typed : forall t x y, eqv t x y -> typed t x.
Proof. induction t; destruct x, y; cbn; intuition eauto. Qed.
Lemma eqv_typed_r t x y : eqv t x y -> typed t y.
Proof. intros. eapply eqv_typed, eqv_sym; eauto. Qed.
Lemma eqv_entry : forall t x y, eqv t x y -> forall Is Js I J, dims t Is Js -> inb I Is -> inb J Js ->
  entry x I J = entry y I J.
Proof.
  induction t; destruct x, y; cbn [eqv]; try tauto; intros E [|a Is] [|b Js] I J D HI HJ;
    cbn [dims] in D; try tauto; try (now subst).
  - apply inb_cons_l in HI as (i & I' & -> & Hi & HI), HJ as (j & J' & -> & Hj & HJ). cbn.
    destruct D as (_ & _ & D). destruct (Nat.eqb i j); [eauto|reflexivity].
  - apply inb_cons_l in HI as (i & I' & -> & Hi & HI), HJ as (j & J' & -> & Hj & HJ). cbn.
    destruct D as (-> & -> & D), E as (_ & _ & _ & _ & E). eapply IHt; eauto.
  - apply inb_cons_l in HI as (i & I' & -> & Hi & HI), HJ as (j & J' & -> & Hj & HJ). cbn.
    destruct D as (-> & -> & D), E as (_ & _ & _ & _ & E). eapply IHt; eauto.
Qed.
(** An object is determined by its entries. *)
Lemma eqv_ext : forall t x y Is Js, pos t -> typed t x -> typed t y -> dims t Is Js ->
  (forall I J, inb I Is -> inb J Js -> entry x I J = entry y I J) -> eqv t x y.
Proof.
  induction t; destruct x, y; cbn [typed]; try tauto; intros [|a Is] [|b Js] P Hx Hy D E;
    cbn [dims] in D; try tauto; cbn [eqv].
  - specialize (E [] [] (Forall2_nil _) (Forall2_nil _)). cbn in E. congruence.
  - specialize (E [] [] (Forall2_nil _) (Forall2_nil _)). cbn in E. congruence.
  - destruct D as (-> & Hb & D). eapply IHt; eauto. intros I J HI HJ.
    specialize (E (0 :: I) (0 :: J)). cbn in E. apply E; constructor; auto.
  - destruct D as (-> & -> & D), Hx as (-> & -> & Hx), Hy as (-> & -> & Hy), P as [Pn P].
    repeat split. intros i j Hi Hj. eapply IHt; eauto. intros I J HI HJ.
    specialize (E (i :: I) (j :: J)). cbn in E. apply E; constructor; auto.
  - destruct D as (-> & -> & D), Hx as (-> & -> & Hx), Hy as (-> & -> & Hy), P as [Pn P].
    repeat split. intros i Hi. eapply IHt; eauto. intros I J HI HJ.
    specialize (E (i :: I) (0 :: J)). cbn in E. apply E; constructor; auto.
Qed.

(** * Addition *)
Lemma add_typed : forall t x y, typed t x -> typed t y -> typed t (vadd x y).
Proof.
  induction t; destruct x, y; cbn; try tauto; auto.
  - intros (-> & -> & Hx) (-> & -> & Hy). rewrite same_refl. cbn. repeat split; auto.
  - intros (-> & -> & Hx) (-> & -> & Hy). rewrite same_refl. cbn. repeat split; auto.
Qed.
Lemma add_entry : forall t x y, typed t x -> typed t y -> forall Is Js I J,
  dims t Is Js -> inb I Is -> inb J Js -> entry (vadd x y) I J = cadd (entry x I J) (entry y I J).
Proof.
  induction t; destruct x, y; cbn [typed]; try tauto; intros Hx Hy [|a Is] [|b Js] I J D HI HJ;
    cbn [dims] in D; try tauto.
  - cbn. unfold c_add. cbn. f_equal. ring.
  - apply inb_cons_l in HI as (i & I' & -> & Hi & HI), HJ as (j & J' & -> & Hj & HJ). cbn.
    destruct D as (_ & _ & D). destruct (Nat.eqb i j); [eauto|ring].
  - apply inb_cons_l in HI as (i & I' & -> & Hi & HI), HJ as (j & J' & -> & Hj & HJ).
    destruct D as (-> & -> & D), Hx as (-> & -> & Hx), Hy as (-> & -> & Hy). cbn. rewrite same_refl. cbn.
    eapply IHt; eauto.
  - apply inb_cons_l in HI as (i & I' & -> & Hi & HI), HJ as (j & J' & -> & Hj & HJ).
    destruct D as (-> & -> & D), Hx as (-> & -> & Hx), Hy as (-> & -> & Hy). cbn. rewrite same_refl. cbn.
    eapply IHt; eauto.
Qed.
Lemma fold_add_ok : forall t (g : nat -> val) l d, typed t d -> (forall k, In k l -> typed t (g k)) ->
  typed t (fold_left (fun d k => vadd d (g k)) l d) /\
  forall Is Js I J, dims t Is Js -> inb I Is -> inb J Js ->
    entry (fold_left (fun d k => vadd d (g k)) l d) I J = cadd (entry d I J) (csum l (fun k => entry (g k) I J)).
Proof.
  intros t g. induction l as [|k l IH]; cbn [fold_left]; intros d Hd Hg.
  - split; [trivial|]. intros. rewrite csum_nil. ring.
  - destruct (IH (vadd d (g k))) as [T E]; [apply add_typed; [trivial|apply Hg; now left]|intros; apply Hg; now right|].
    split; [trivial|]. intros. erewrite E by eauto. erewrite add_entry; eauto; [|apply Hg; now left].
    rewrite csum_cons. ring.
Qed.
Lemma accum_ok t n g : 0 < n -> (forall k, k < n -> typed t (g k)) ->
  typed t (accum n g) /\
  forall Is Js I J, dims t Is Js -> inb I Is -> inb J Js ->
    entry (accum n g) I J = csum (seq 0 n) (fun k => entry (g k) I J).
Proof.
  intros Hn Hg. unfold TensorModel.accum.
  destruct (fold_add_ok t g (seq 1 (n - 1)) (g 0)) as [T E];
    [apply Hg; lia | intros k Hk; apply in_seq in Hk; apply Hg; lia |].
  split; [trivial|]. intros. erewrite E by eauto.
  destruct n; [lia|]. cbn [seq]. replace (S n - 1) with n by lia. reflexivity.
Qed.
Lemma accum_ext t n g h : 0 < n -> (forall k, k < n -> eqv t (g k) (h k)) ->
  eqv t (accum n g) (accum n h).
Proof.
  assert (A : forall t x x' y y', eqv t x x' -> eqv t y y' -> eqv t (vadd x y) (vadd x' y')).
  { clear. induction t; intros x x' y y' H1 H2; destruct x; try contradiction; destruct x'; try contradiction;
      destruct y; try contradiction; destruct y'; try contradiction; revert H1 H2; cbn; try congruence.
    - eauto.
    - intros (-> & -> & <- & <- & E) (-> & -> & <- & <- & F). rewrite same_refl. repeat split; auto.
    - intros (-> & -> & <- & <- & E) (-> & -> & <- & <- & F). rewrite same_refl. repeat split; auto. }
  intros Hn H. unfold TensorModel.accum.
  assert (G : forall l d d', eqv t d d' -> (forall k, In k l -> eqv t (g k) (h k)) ->
    eqv t (fold_left (fun d k => vadd d (g k)) l d) (fold_left (fun d k => vadd d (h k)) l d')).
  { induction l; cbn; intros d d' Hd Hl; [trivial|]. apply IHl; auto. }
  apply G; [apply H; lia|]. intros k Hk. apply in_seq in Hk. apply H. lia.
Qed.
Lemma accum2_ok t n g : 0 < n -> (forall j k, j < n -> k < n -> typed t (g j k)) ->
  typed t (accum2 n g) /\
  forall Is Js I J, dims t Is Js -> inb I Is -> inb J Js ->
    entry (accum2 n g) I J = csum (seq 0 n) (fun j => csum (seq 0 n) (fun k => entry (g j k) I J)).
Proof.
  intros Hn Hg. unfold TensorModel.accum2.
  destruct (fold_add_ok t (g 0) (seq 1 (n - 1)) (g 0 0)) as [T E];
    [apply Hg; lia | intros k Hk; apply in_seq in Hk; apply Hg; lia |].
  assert (G : forall l d, typed t d -> (forall j, In j l -> j < n) ->
    typed t (fold_left (fun d j => fold_left (fun d k => vadd d (g j k)) (seq 0 n) d) l d) /\
    forall Is Js I J, dims t Is Js -> inb I Is -> inb J Js ->
      entry (fold_left (fun d j => fold_left (fun d k => vadd d (g j k)) (seq 0 n) d) l d) I J
      = cadd (entry d I J) (csum l (fun j => csum (seq 0 n) (fun k => entry (g j k) I J)))).
  { induction l as [|j l IH]; cbn [fold_left]; intros d Hd Hl.
    - split; [trivial|]. intros. rewrite csum_nil. ring.
    - destruct (fold_add_ok t (g j) (seq 0 n) d) as [T' E'];
        [trivial | intros k Hk; apply in_seq in Hk; apply Hg; [apply Hl; now left|lia] |].
      destruct (IH _ T') as [T'' E'']; [intros; apply Hl; now right|].
      split; [trivial|]. intros. erewrite E'' by eauto. erewrite E' by eauto.
      change (csum (j :: l) (fun j0 => csum (seq 0 n) (fun k => entry (g j0 k) I J)))
        with (cadd (csum (seq 0 n) (fun k => entry (g j k) I J))
               (csum l (fun j0 => csum (seq 0 n) (fun k => entry (g j0 k) I J)))). ring. }
  destruct (G (seq 1 (n - 1)) _ T) as [T' E']; [intros j Hj; apply in_seq in Hj; lia|].
  split; [trivial|]. intros. erewrite E' by eauto. erewrite E by eauto.
  destruct n; [lia|]. replace (S n - 1) with n by lia. cbn [seq].
  change (csum (0 :: seq 1 n) (fun j => csum (0 :: seq 1 n) (fun k => entry (g j k) I J)))
    with (cadd (cadd (entry (g 0 0) I J) (csum (seq 1 n) (fun k => entry (g 0 k) I J)))
           (csum (seq 1 n) (fun j => csum (0 :: seq 1 n) (fun k => entry (g j k) I J)))).
  reflexivity.
Qed.

(** * Sums of mixed types, differences *)
Lemma sum_dims : forall a b t, sum_ty a b = Some t -> forall Is Js, dims a Is Js -> dims b Is Js -> dims t Is Js.
Proof.
  induction a; destruct b; cbn; intros t E [|x Is] [|y Js]; cbn; try tauto; try discriminate;
    try (intros; inversion E; subst; cbn; trivial; fail).
  - destruct (sum_ty a b) as [t'|] eqn:F; [|discriminate]. inversion E; subst. cbn. intuition eauto.
  - destruct (sum_ty a b) as [t'|] eqn:F; [|discriminate]. destruct (ty_eqb t' b) eqn:G; [|discriminate].
    apply ty_eqb_eq in G. subst. inversion E; subst. cbn. intuition eauto.
  - destruct (sum_ty a b) as [t'|] eqn:F; [|discriminate]. destruct (ty_eqb t' a) eqn:G; [|discriminate].
    apply ty_eqb_eq in G. subst. inversion E; subst. cbn. intuition eauto.
  - destruct (same k n k0 n0) eqn:S; [|discriminate]. destruct (sum_ty a b) as [t'|] eqn:F; [|discriminate].
    inversion E; subst. cbn. intuition eauto.
  - destruct (same k n k0 n0) eqn:S; [|discriminate]. destruct (sum_ty a b) as [t'|] eqn:F; [|discriminate].
    inversion E; subst. cbn. intuition eauto.
Qed.
Ltac idx HI HJ := apply inb_cons_l in HI as (i & I' & -> & Hi & HI), HJ as (j & J' & -> & Hj & HJ).

Lemma neg_ok : forall t x, typed t x -> typed t (vneg x) /\
  forall Is Js I J, dims t Is Js -> inb I Is -> inb J Js -> entry (vneg x) I J = cneg (entry x I J).
Proof.
  induction t; intros x Hx; destruct x; try contradiction; cbn [TensorSpec.typed] in Hx.
  - split; [exact Coq.Init.Logic.I|]. intros. cbn. unfold c_neg. cbn. f_equal. ring.
  - split; [exact Coq.Init.Logic.I|]. intros. reflexivity.
  - split; [now apply IHt|]. intros [|a Is] [|b Js] I J D HI HJ; cbn [dims] in D; try tauto. idx HI HJ. cbn.
    destruct D as (_ & _ & D). destruct (Nat.eqb i j).
    + eapply IHt; eauto.
    + unfold c_neg. cbn. f_equal; ring.
  - destruct Hx as (-> & -> & Hx). split; [cbn; repeat split; intros; now apply IHt, Hx|].
    intros [|a Is] [|b Js] I J D HI HJ; cbn [dims] in D; try tauto. idx HI HJ. cbn.
    destruct D as (-> & -> & D). eapply IHt; eauto.
  - destruct Hx as (-> & -> & Hx). split; [cbn; repeat split; intros; now apply IHt, Hx|].
    intros [|a Is] [|b Js] I J D HI HJ; cbn [dims] in D; try tauto. idx HI HJ. cbn.
    destruct D as (-> & -> & D). eapply IHt; eauto.
Qed.

Lemma add_ok : forall a b t x y, sum_ty a b = Some t -> typed a x -> typed b y -> typed t (vadd x y) /\
  forall Is Js I J, dims a Is Js -> dims b Is Js -> inb I Is -> inb J Js ->
    entry (vadd x y) I J = cadd (entry x I J) (entry y I J).
Proof.
  induction a; destruct b; cbn [sum_ty]; intros t x y E Hx Hy; try discriminate;
    destruct x; try contradiction; destruct y; try contradiction; cbn [typed] in Hx, Hy.
  1-4: inversion E; subst; split; [exact Coq.Init.Logic.I|]; intros; cbn; unfold c_add, c_add_sc, c_add_cs; cbn; f_equal; ring.
  - destruct (sum_ty a b) as [t'|] eqn:F; [|discriminate]. inversion E; subst. cbn [TensorModel.vadd].
    destruct (IHa _ _ _ _ F Hx Hy) as [T G].
    split; [exact T|]. intros [|p Is] [|q Js] I J D D' HI HJ; cbn [dims] in D, D'; try tauto. idx HI HJ. cbn.
    destruct (Nat.eqb i j); [eapply G; intuition eauto|ring].
  - destruct (sum_ty a b) as [t'|] eqn:F; [|discriminate]. destruct (ty_eqb t' b) eqn:G; [|discriminate].
    apply ty_eqb_eq in G. subst. inversion E; subst. cbn [TensorModel.vadd].
    destruct Hy as (-> & -> & Hy).
    split; [cbn; repeat split; intros i j Hi Hj; destruct (Nat.eqb_spec i j); [subst; eapply IHa; eauto|auto]|].
    intros [|p Is] [|q Js] I J D D' HI HJ; cbn [dims] in D, D'; try tauto. idx HI HJ. cbn.
    destruct D as (<- & _ & D), D' as (-> & _ & D'). destruct (Nat.eqb_spec i j).
    + subst. eapply IHa; eauto.
    + ring.
  - destruct (sum_ty a b) as [t'|] eqn:F; [|discriminate]. destruct (ty_eqb t' a) eqn:G; [|discriminate].
    apply ty_eqb_eq in G. subst. inversion E; subst. cbn [TensorModel.vadd].
    destruct Hx as (-> & -> & Hx).
    split; [cbn; repeat split; intros i j Hi Hj; destruct (Nat.eqb_spec i j); [subst; eapply IHa; eauto|auto]|].
    intros [|p Is] [|q Js] I J D D' HI HJ; cbn [dims] in D, D'; try tauto. idx HI HJ. cbn.
    destruct D as (-> & -> & D), D' as (_ & _ & D'). destruct (Nat.eqb_spec i j).
    + subst. eapply IHa; eauto.
    + ring.
  - destruct (same k n k0 n0) eqn:S; [|discriminate]. destruct (sum_ty a b) as [t'|] eqn:F; [|discriminate].
    inversion E; subst. destruct Hx as (<- & <- & Hx), Hy as (<- & <- & Hy). cbn [TensorModel.vadd]. rewrite S.
    apply same_iff in S as [<- <-].
    split; [cbn; repeat split; intros; eapply IHa; eauto|].
    intros [|p Is] [|q Js] I J D D' HI HJ; cbn [dims] in D, D'; try tauto. idx HI HJ. cbn.
    destruct D as (-> & -> & D), D' as (_ & _ & D'). eapply IHa; eauto.
  - destruct (same k n k0 n0) eqn:S; [|discriminate]. destruct (sum_ty a b) as [t'|] eqn:F; [|discriminate].
    inversion E; subst. destruct Hx as (<- & <- & Hx), Hy as (<- & <- & Hy). cbn [TensorModel.vadd]. rewrite S.
    apply same_iff in S as [<- <-].
    split; [cbn; repeat split; intros; eapply IHa; eauto|].
    intros [|p Is] [|q Js] I J D D' HI HJ; cbn [dims] in D, D'; try tauto. idx HI HJ. cbn.
    destruct D as (-> & -> & D), D' as (_ & _ & D'). eapply IHa; eauto.
Qed.
Lemma sub_ok : forall a b t x y, sum_ty a b = Some t -> typed a x -> typed b y -> typed t (vsub x y) /\
  forall Is Js I J, dims a Is Js -> dims b Is Js -> inb I Is -> inb J Js ->
    entry (vsub x y) I J = csub (entry x I J) (entry y I J).
Proof.
  induction a; destruct b; cbn [sum_ty]; intros t x y E Hx Hy; try discriminate;
    destruct x; try contradiction; destruct y; try contradiction; cbn [typed] in Hx, Hy.
  1-4: inversion E; subst; split; [exact Coq.Init.Logic.I|]; intros; cbn; unfold c_sub, c_sub_sc, c_sub_cs; cbn; f_equal; ring.
  - destruct (sum_ty a b) as [t'|] eqn:F; [|discriminate]. inversion E; subst. cbn [TensorModel.vsub].
    destruct (IHa _ _ _ _ F Hx Hy) as [T G].
    split; [exact T|]. intros [|p Is] [|q Js] I J D D' HI HJ; cbn [dims] in D, D'; try tauto. idx HI HJ. cbn.
    destruct (Nat.eqb i j); [eapply G; intuition eauto|ring].
  - destruct (sum_ty a b) as [t'|] eqn:F; [|discriminate]. destruct (ty_eqb t' b) eqn:G; [|discriminate].
    apply ty_eqb_eq in G. subst. inversion E; subst. cbn [TensorModel.vsub].
    destruct Hy as (-> & -> & Hy).
    split; [cbn; repeat split; intros i j Hi Hj; destruct (Nat.eqb_spec i j); [subst; eapply IHa; eauto|apply neg_ok; auto]|].
    intros [|p Is] [|q Js] I J D D' HI HJ; cbn [dims] in D, D'; try tauto. idx HI HJ. cbn.
    destruct D as (<- & _ & D), D' as (-> & _ & D'). destruct (Nat.eqb_spec i j).
    + subst. eapply IHa; eauto.
    + destruct (neg_ok b (f i j) (Hy i j Hi Hj)) as [_ N]. erewrite N by eauto. ring.
  - destruct (sum_ty a b) as [t'|] eqn:F; [|discriminate]. destruct (ty_eqb t' a) eqn:G; [|discriminate].
    apply ty_eqb_eq in G. subst. inversion E; subst. cbn [TensorModel.vsub].
    destruct Hx as (-> & -> & Hx).
    split; [cbn; repeat split; intros i j Hi Hj; destruct (Nat.eqb_spec i j); [subst; eapply IHa; eauto|auto]|].
    intros [|p Is] [|q Js] I J D D' HI HJ; cbn [dims] in D, D'; try tauto. idx HI HJ. cbn.
    destruct D as (-> & -> & D), D' as (_ & _ & D'). destruct (Nat.eqb_spec i j).
    + subst. eapply IHa; eauto.
    + ring.
  - destruct (same k n k0 n0) eqn:S; [|discriminate]. destruct (sum_ty a b) as [t'|] eqn:F; [|discriminate].
    inversion E; subst. destruct Hx as (<- & <- & Hx), Hy as (<- & <- & Hy). cbn [TensorModel.vsub]. rewrite S.
    apply same_iff in S as [<- <-].
    split; [cbn; repeat split; intros; eapply IHa; eauto|].
    intros [|p Is] [|q Js] I J D D' HI HJ; cbn [dims] in D, D'; try tauto. idx HI HJ. cbn.
    destruct D as (-> & -> & D), D' as (_ & _ & D'). eapply IHa; eauto.
  - destruct (same k n k0 n0) eqn:S; [|discriminate]. destruct (sum_ty a b) as [t'|] eqn:F; [|discriminate].
    inversion E; subst. destruct Hx as (<- & <- & Hx), Hy as (<- & <- & Hy). cbn [TensorModel.vsub]. rewrite S.
    apply same_iff in S as [<- <-].
    split; [cbn; repeat split; intros; eapply IHa; eauto|].
    intros [|p Is] [|q Js] I J D D' HI HJ; cbn [dims] in D, D'; try tauto. idx HI HJ. cbn.
    destruct D as (-> & -> & D), D' as (_ & _ & D'). eapply IHa; eauto.
Qed.

(** * Products *)
Lemma delta_l n i (u : nat -> list nat -> cx) (v : nat -> list nat -> cx) L : i < n ->
  csum (seq 0 n) (fun k => csum L (fun K => cmul (if Nat.eqb i k then u k K else c0) (v k K)))
  = csum L (fun K => cmul (u i K) (v i K)).
Proof.
  intros Hi. rewrite <- (csum_delta n i (fun k => csum L (fun K => cmul (u k K) (v k K))) Hi).
  apply csum_ext. intros k _. destruct (Nat.eqb i k); [reflexivity|].
  apply csum_zero. intros. ring.
Qed.
Lemma delta_r n j (u : nat -> list nat -> cx) (v : nat -> list nat -> cx) L : j < n ->
  csum (seq 0 n) (fun k => csum L (fun K => cmul (u k K) (if Nat.eqb k j then v k K else c0)))
  = csum L (fun K => cmul (u j K) (v j K)).
Proof.
  intros Hj. rewrite <- (csum_delta n j (fun k => csum L (fun K => cmul (u k K) (v k K))) Hj).
  apply csum_ext. intros k _. rewrite (Nat.eqb_sym k j). destruct (Nat.eqb j k); [reflexivity|].
  apply csum_zero. intros. ring.
Qed.

Lemma prod_dims : forall a b t, prod_ty a b = Some t -> forall Is Ks Js,
  dims a Is Ks -> dims b Ks Js -> dims t Is Js.
Proof.
  induction a; destruct b; cbn [prod_ty]; intros t E Is Ks Js D D'; try discriminate;
    destruct Is as [|p Is], Ks as [|q Ks]; cbn [dims] in D; try contradiction;
    destruct Js as [|r Js]; cbn [dims] in D'; try contradiction; try (inversion E; exact Coq.Init.Logic.I);
    try (destruct (same k n k0 n0) eqn:S; [|discriminate]; apply same_iff in S as [<- <-]);
    destruct (prod_ty a b) as [t'|] eqn:F; try discriminate; inversion E; subst; cbn [dims];
    decompose [and] D; decompose [and] D'; subst; repeat split; auto; try lia; eapply IHa; eauto.
Qed.
Lemma prod_pos : forall a b t, prod_ty a b = Some t -> pos a -> pos b -> pos t.
Proof.
  induction a; destruct b; cbn [prod_ty]; intros t E D D'; try discriminate;
    try (inversion E; exact Coq.Init.Logic.I);
    try (destruct (same k n k0 n0) eqn:S; [|discriminate]; apply same_iff in S as [<- <-]);
    destruct (prod_ty a b) as [t'|] eqn:F; try discriminate; inversion E; subst; cbn [pos] in *;
    intuition eauto.
Qed.

Lemma mul_ok : forall a b t x y, prod_ty a b = Some t -> pos a -> pos b -> typed a x -> typed b y ->
  typed t (vmul x y) /\
  forall Is Ks Js I J, dims a Is Ks -> dims b Ks Js -> inb I Is -> inb J Js ->
    entry (vmul x y) I J = csum (box Ks) (fun K => cmul (entry x I K) (entry y K J)).
Proof.
  induction a; destruct b; cbn [prod_ty]; intros t x y E Pa Pb Hx Hy; try discriminate;
    destruct x; try contradiction; destruct y; try contradiction; cbn [TensorSpec.typed pos] in *.
  1-4: inversion E; subst; split; [exact Coq.Init.Logic.I|]; intros [|] [|] [|] I J D D' HI HJ; try contradiction;
    cbn [box]; rewrite csum_one; cbn; unfold c_mul, c_mul_sc, c_mul_cs; cbn; f_equal; ring.
  - (* S S *)
    destruct (prod_ty a b) as [t'|] eqn:F; [|discriminate]. inversion E; subst.
    destruct (IHa _ _ _ _ F Pa Pb Hx Hy) as [T G]. split; [exact T|].
    intros [|p Is] [|q Ks] [|r Js] I J D D' HI HJ; cbn [dims] in D, D'; try tauto. idx HI HJ.
    destruct D as (<- & _ & D), D' as (<- & _ & D'). rewrite csum_box_cons. cbn.
    rewrite (delta_l p i (fun _ K => entry x I' K) (fun k K => if Nat.eqb k j then entry y K J' else c0) (box Ks) Hi).
    destruct (Nat.eqb i j).
    + eapply G; eauto.
    + symmetry. apply csum_zero. intros. ring.
  - (* S M *)
    destruct (prod_ty a b) as [t'|] eqn:F; [|discriminate]. inversion E; subst.
    destruct Hy as (<- & <- & Hy), Pb as [Pn Pb].
    split; [cbn; repeat split; intros; eapply IHa; eauto|].
    intros [|p Is] [|q Ks] [|r Js] I J D D' HI HJ; cbn [dims] in D, D'; try tauto. idx HI HJ.
    destruct D as (-> & _ & D), D' as (-> & -> & D'). rewrite csum_box_cons. cbn.
    rewrite (delta_l n i (fun _ K => entry x I' K) (fun k K => entry (f k j) K J') (box Ks) Hi).
    eapply IHa; eauto.
  - (* S V *)
    destruct (prod_ty a b) as [t'|] eqn:F; [|discriminate]. inversion E; subst.
    destruct Hy as (<- & <- & Hy), Pb as [Pn Pb].
    split; [cbn; repeat split; intros; eapply IHa; eauto|].
    intros [|p Is] [|q Ks] [|r Js] I J D D' HI HJ; cbn [dims] in D, D'; try tauto. idx HI HJ.
    destruct D as (-> & _ & D), D' as (-> & -> & D'). rewrite csum_box_cons. cbn.
    rewrite (delta_l n i (fun _ K => entry x I' K) (fun k K => entry (f k) K J') (box Ks) Hi).
    eapply IHa; eauto.
  - (* M S *)
    destruct (prod_ty a b) as [t'|] eqn:F; [|discriminate]. inversion E; subst.
    destruct Hx as (<- & <- & Hx), Pa as [Pn Pa].
    split; [cbn; repeat split; intros; eapply IHa; eauto|].
    intros [|p Is] [|q Ks] [|r Js] I J D D' HI HJ; cbn [dims] in D, D'; try tauto. idx HI HJ.
    destruct D as (-> & -> & D), D' as (<- & _ & D'). rewrite csum_box_cons. cbn.
    rewrite (delta_r n j (fun k K => entry (f i k) I' K) (fun _ K => entry y K J') (box Ks) Hj).
    eapply IHa; eauto.
  - (* M M *)
    destruct (same k n k0 n0) eqn:S; [|discriminate]. destruct (prod_ty a b) as [t'|] eqn:F; [|discriminate].
    inversion E; subst. destruct Hx as (<- & <- & Hx), Hy as (<- & <- & Hy). cbn [TensorModel.vmul]. rewrite S.
    apply same_iff in S as [<- <-]. destruct Pa as [Pn Pa], Pb as [_ Pb].
    split.
    + cbn. repeat split. intros i j Hi Hj. apply accum_ok; [trivial|]. intros. eapply IHa; eauto.
    + intros [|p Is] [|q Ks] [|r Js] I J D D' HI HJ; cbn [dims] in D, D'; try tauto. idx HI HJ.
      destruct D as (-> & -> & D), D' as (_ & -> & D'). rewrite csum_box_cons. cbn.
      destruct (accum_ok t' n (fun x => vmul (f i x) (f0 x j)) Pn) as [_ A]; [intros; eapply IHa; eauto|].
      erewrite A; eauto using prod_dims. apply csum_ext. intros k' Hk. apply in_seq in Hk.
      eapply IHa; eauto; [apply Hx|apply Hy]; lia.
  - (* M V *)
    destruct (same k n k0 n0) eqn:S; [|discriminate]. destruct (prod_ty a b) as [t'|] eqn:F; [|discriminate].
    inversion E; subst. destruct Hx as (<- & <- & Hx), Hy as (<- & <- & Hy). cbn [TensorModel.vmul]. rewrite S.
    apply same_iff in S as [<- <-]. destruct Pa as [Pn Pa], Pb as [_ Pb].
    split.
    + cbn. repeat split. intros i Hi. apply accum_ok; [trivial|]. intros. eapply IHa; eauto.
    + intros [|p Is] [|q Ks] [|r Js] I J D D' HI HJ; cbn [dims] in D, D'; try tauto. idx HI HJ.
      destruct D as (-> & -> & D), D' as (_ & -> & D'). rewrite csum_box_cons. cbn.
      destruct (accum_ok t' n (fun x => vmul (f i x) (f0 x)) Pn) as [_ A]; [intros; eapply IHa; eauto|].
      erewrite A; eauto using prod_dims. apply csum_ext. intros k' Hk. apply in_seq in Hk.
      eapply IHa; eauto; [apply Hx|apply Hy]; lia.
  - (* V S *)
    destruct (prod_ty a b) as [t'|] eqn:F; [|discriminate]. inversion E; subst.
    destruct Hx as (<- & <- & Hx), Pa as [Pn Pa].
    split; [cbn; repeat split; intros; eapply IHa; eauto|].
    intros [|p Is] [|q Ks] [|r Js] I J D D' HI HJ; cbn [dims] in D, D'; try tauto. idx HI HJ.
    destruct D as (-> & -> & D), D' as (<- & _ & D'). rewrite csum_box_cons.
    cbn -[seq]. 
    rewrite (delta_r 1 j (fun k K => entry (f i) I' K) (fun _ K => entry y K J') (box Ks) Hj).
    eapply IHa; eauto.
Qed.
End Proofs.
