From Coq Require Import List Arith Bool Lia.
From Verif Require Import StaticModel StaticSpec.
Import ListNotations.

Lemma split_same {A} (t : A) : forall a l, ~ In t a -> ~ In t l -> forall b c, a ++ t :: b = l ++ t :: c -> a = l /\ b = c.
Proof.
  induction a as [|x a IHa]; intros l Na Nl b c G; destruct l as [|y l]; cbn [app] in G.
  - injection G as G. auto.
  - injection G as G1 G2. exfalso. apply Nl. now left.
  - injection G as G1 G2. exfalso. apply Na. now left.
  - injection G as G1 G2. subst y.
    destruct (IHa l (fun Z => Na (or_intror Z)) (fun Z => Nl (or_intror Z)) b c G2) as [-> ->]. auto.
Qed.

(** General facts for a setting in which every member is set from a smaller type. *)
Section General.
Context (set : qt -> setting).
Definition run_from (v : values) (order : list qt) : values := fold_left (init_one set) order v.

Lemma untouched order : forall v t, ~ In t order -> run_from v order t = v t.
Proof.
  induction order as [|a order IH]; intros v t H; [reflexivity|]. cbn [run_from fold_left]. fold (run_from (init_one set v a) order).
  rewrite IH by (intros X; apply H; now right). unfold init_one. destruct (set a); [reflexivity|].
  destruct (qt_eq_dec t a) as [->|]; [|reflexivity]. exfalso. apply H. now left.
Qed.
Lemma constant order : forall v t k, set t = Constant k -> run_from v order t = v t.
Proof.
  induction order as [|a order IH]; intros v t k H; [reflexivity|]. cbn [run_from fold_left]. fold (run_from (init_one set v a) order).
  rewrite (IH _ _ k H). unfold init_one. destruct (set a) eqn:E; [reflexivity|].
  destruct (qt_eq_dec t a) as [->|]; [congruence|reflexivity].
Qed.
Lemma run_app v l1 l2 : run_from v (l1 ++ l2) = run_from (run_from v l1) l2.
Proof. unfold run_from. now rewrite fold_left_app. Qed.
Lemma at_its_turn v l1 t u l2 : set t = From u -> ~ In t l2 ->
  run_from v (l1 ++ t :: l2) t = run_from v l1 u.
Proof.
  intros S N. rewrite run_app. change (t :: l2) with ([t] ++ l2). rewrite run_app, untouched by exact N.
  cbn [run_from fold_left]. unfold init_one. rewrite S. destruct (qt_eq_dec t t); [reflexivity|congruence].
Qed.
Lemma in_main_run order : in_main set order = run_from (at_load set) order.
Proof. reflexivity. Qed.

(** A member that comes after the one it is set from gets the final value of that one; one that comes before gets 0. *)
Lemma main_from order t u : set t = From u -> NoDup order -> In t order ->
  (forall k, set u = Constant k -> in_main set order t = k)
  /\ (forall w, set u = From w -> In u order ->
        (before order u t -> in_main set order t = in_main set order u)
        /\ (~ before order u t -> in_main set order t = 0)).
Proof.
  intros S ND I. destruct (in_split _ _ I) as (l1 & l2 & E). rewrite in_main_run.
  assert (N : ~ In t l1 /\ ~ In t l2).
  { rewrite E in ND. apply NoDup_remove_2 in ND. split; intros X; apply ND; apply in_or_app; auto. }
  assert (T : run_from (at_load set) order t = run_from (at_load set) l1 u) by (rewrite E; now apply at_its_turn).
  split.
  - intros k Hk. rewrite T, (constant _ _ _ k Hk). unfold at_load. now rewrite Hk.
  - intros w Hw Iu. split.
    + intros (m1 & m2 & m3 & E').
      assert (X : m1 ++ u :: m2 = l1 /\ m3 = l2).
      { assert (G : (m1 ++ u :: m2) ++ t :: m3 = l1 ++ t :: l2) by (rewrite <- E, E', <- app_assoc; reflexivity).
        assert (N' : ~ In t (m1 ++ u :: m2)).
        { intros X. rewrite E' in ND. replace (m1 ++ u :: m2 ++ t :: m3) with ((m1 ++ u :: m2) ++ t :: m3) in ND by (rewrite <- app_assoc; reflexivity).
          apply NoDup_remove_2 in ND. apply ND. apply in_or_app. now left. }
        exact (split_same t _ _ N' (proj1 N) _ _ G). }
      destruct X as [X1 X2]. rewrite T. rewrite E. rewrite run_app. rewrite (untouched (t :: l2)); [reflexivity|].
      intros X. rewrite E, <- X1 in ND. rewrite <- app_assoc in ND. cbn [app] in ND. apply NoDup_remove_2 in ND. apply ND.
      apply in_or_app. right. apply in_or_app. now right.
    + intros NB. rewrite T. rewrite untouched; [unfold at_load; now rewrite Hw|].
      intros X. apply NB. destruct (in_split _ _ X) as (a & b & E1). exists a, b, l2. rewrite E, E1, <- app_assoc. reflexivity.
Qed.
End General.

(** The two settings at once: [steps] and [right] fit [set]. *)
Definition fits (set : qt -> setting) (steps : qt -> list qt) (right : qt -> nat) : Prop :=
  forall t, match set t with
            | Constant k => steps t = [] /\ right t = k
            | From u => steps t = t :: steps u /\ right t = right u
            end.
Lemma spins_fit : fits spins_set spin_steps spins.
Proof. intros []; split; reflexivity. Qed.
Lemma colors_fit : fits colors_set color_steps colors.
Proof. intros []; split; reflexivity. Qed.

Section Fit.
Context (set : qt -> setting) (steps : qt -> list qt) (right : qt -> nat) (Fit : fits set steps right).

Lemma zero_or_right n : forall t order, length (steps t) <= n -> possible (steps t) order ->
  (inner_first order (steps t) -> in_main set order t = right t)
  /\ (~ inner_first order (steps t) -> in_main set order t = 0).
Proof.
  induction n as [|n IH]; intros t order Hn [ND Inc]; pose proof (Fit t) as Ft.
  - destruct (steps t) as [|a r] eqn:E; [|cbn in Hn; lia]. destruct (set t) as [k|u] eqn:S; [|destruct Ft; discriminate].
    destruct Ft as [_ R]. split; [|intros X; exfalso; apply X; exact I]. intros _. rewrite in_main_run, (constant _ _ _ _ k S). unfold at_load. now rewrite S.
  - destruct (set t) as [k|u] eqn:S.
    + destruct Ft as [E R]. rewrite E. split; [|intros X; exfalso; apply X; exact I]. intros _. rewrite in_main_run, (constant _ _ _ _ k S). unfold at_load. now rewrite S.
    + destruct Ft as [E R]. rewrite E in *. cbn [length] in Hn.
      assert (It : In t order) by (apply Inc; now left).
      destruct (main_from set order t u S ND It) as [A B].
      assert (Pu : possible (steps u) order) by (split; [exact ND|intros x Hx; apply Inc; now right]).
      destruct (IH u order ltac:(lia) Pu) as [P Q]. pose proof (Fit u) as Fu. destruct (set u) as [k|w] eqn:Su.
      * destruct Fu as [Eu Ru]. rewrite Eu. split; [|intros X; exfalso; apply X; exact I]. intros _. rewrite (A k eq_refl), R. now symmetry.
      * destruct Fu as [Eu Ru]. assert (Iu : In u order) by (apply Inc; right; rewrite Eu; now left).
        destruct (B w eq_refl Iu) as [B1 B2]. rewrite Eu in *. cbn [inner_first]. split.
        -- intros [X Y]. rewrite B1 by exact X. rewrite R. now apply P.
        -- intros X. destruct (in_dec qt_eq_dec u order) as [_|]; [|contradiction].
           assert (D : before order u t \/ ~ before order u t).
           { destruct (in_split _ _ It) as (l1 & l2 & El). destruct (in_dec qt_eq_dec u l1) as [i|i].
             - left. destruct (in_split _ _ i) as (a & b & Ea). exists a, b, l2. rewrite El, Ea, <- app_assoc. reflexivity.
             - right. intros (m1 & m2 & m3 & Em). apply i.
               assert (G : (m1 ++ u :: m2) ++ t :: m3 = l1 ++ t :: l2) by (rewrite <- El, Em, <- app_assoc; reflexivity).
               assert (N' : ~ In t (m1 ++ u :: m2)).
               { intros Z. rewrite Em in ND. replace (m1 ++ u :: m2 ++ t :: m3) with ((m1 ++ u :: m2) ++ t :: m3) in ND by (rewrite <- app_assoc; reflexivity).
                 apply NoDup_remove_2 in ND. apply ND. apply in_or_app. now left. }
               assert (N1 : ~ In t l1).
               { intros Z. rewrite El in ND. apply NoDup_remove_2 in ND. apply ND. apply in_or_app. now left. }
               rewrite <- (proj1 (split_same t _ _ N' N1 _ _ G)). apply in_or_app. right. now left. }
           destruct D as [D|D]; [|now apply B2]. rewrite B1 by exact D. apply Q. tauto.
Qed.
End Fit.

Lemma rev_inner_first l : NoDup l -> inner_first (rev l) l.
Proof.
  intros _. assert (H : forall pre, inner_first (rev l ++ pre) l).
  { induction l as [|a l IH]; intros pre; [exact I|]. cbn [inner_first rev]. destruct l as [|b l]; [exact I|]. split.
    - exists (rev l), [], pre. cbn [rev]. rewrite <- !app_assoc. reflexivity.
    - rewrite <- app_assoc. apply IH. }
  specialize (H []). now rewrite app_nil_r in H.
Qed.

(** The steps are distinct: each is smaller than the one before. *)
Fixpoint size (t : qt) : nat :=
  match t with
  | RScalar | RComplex => 0
  | Wrap _ t | SpinVector _ t | SpinMatrix _ t | ColorVector _ t | ColorMatrix _ t => 1 + size t
  end.
Lemma spin_steps_small t : forall u, In u (spin_steps t) -> size u <= size t.
Proof. induction t; intros u H; cbn [spin_steps In size] in *; try contradiction; destruct H as [<-|H]; cbn [size]; try lia; specialize (IHt u H); lia. Qed.
Lemma color_steps_small t : forall u, In u (color_steps t) -> size u <= size t.
Proof. induction t; intros u H; cbn [color_steps In size] in *; try contradiction; destruct H as [<-|H]; cbn [size]; try lia; specialize (IHt u H); lia. Qed.
Lemma spin_steps_nodup t : NoDup (spin_steps t).
Proof.
  induction t; cbn [spin_steps]; try constructor; try assumption; intros H; apply spin_steps_small in H; cbn [size] in H; lia.
Qed.
Lemma color_steps_nodup t : NoDup (color_steps t).
Proof.
  induction t; cbn [color_steps]; try constructor; try assumption; intros H; apply color_steps_small in H; cbn [size] in H; lia.
Qed.

Lemma outer_first_fails l : NoDup l -> 2 <= length l -> ~ inner_first l l.
Proof.
  intros ND L. destruct l as [|a [|b l]]; cbn [length] in L; try lia. cbn [inner_first].
  intros [(l1 & l2 & l3 & E) _]. inversion ND as [|x y N1 N2]; subst. destruct l1 as [|c l1]; cbn [app] in E; injection E as E1 E2.
  - subst b. apply N1. now left.
  - subst c. apply N1. rewrite E2. apply in_or_app. right. right. apply in_or_app. right. now left.
Qed.
Lemma short_steps order l : length l <= 1 -> inner_first order l.
Proof. destruct l as [|a [|b l]]; cbn [length]; intros H; try exact I. lia. Qed.
