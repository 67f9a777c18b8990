From Coq Require Import List Arith ZArith Bool Lia Ring Ring_theory Permutation Setoid Morphisms.
From Verif Require Import Base ComplexModel PropComplex LayoutModel LayoutSpec LayoutProofs LayoutOk LayoutInt MapModel MapSpec MapProofs MapNN
  TensorModel TensorSpec TensorProofs LatIoModel LatIoSpec LatIoProofs LatIoOk IoNodeProofs NerscProofs PlaqModel PlaqSpec.
Import ListNotations.
Local Open Scope nat_scope.

Lemma combine_maps {A B C} (f : A -> B) (g : A -> C) l : combine (map f l) (map g l) = map (fun a => (f a, g a)) l.
Proof. induction l; cbn; congruence. Qed.

Section P.
Set Default Proof Using "All".
Context {R : Type} (rO rI : R) (radd rmul rsub : R -> R -> R) (ropp : R -> R).
Context (Rth : ring_theory rO rI radd rmul rsub ropp (@eq R)).
Local Notation cx := (R * R)%type.
Local Notation cmul := (c_mul radd rmul rsub).
Local Notation cadd := (c_add radd).
Local Notation conj := (c_conj ropp).
Local Notation val := (@val R).
Local Notation rsum := (rsum rO radd).
Local Notation csum := (csum rO radd).
Local Notation psum := (psum rO radd).
Local Notation zero_val := (zero_val rO).
Local Notation cs := (TensorSpec.csum rO radd).
Local Notation VMUL := (vmul radd rmul rsub).
Add Ring Rrp : Rth.
Add Ring Crp : (cring rO rI radd rmul rsub ropp Rth).
Local Notation csum_ext := (csum_ext rO rI radd rmul rsub ropp Rth).
Local Notation csum_mul_l := (csum_mul_l rO rI radd rmul rsub ropp Rth).
Local Notation csum_mul_r := (csum_mul_r rO rI radd rmul rsub ropp Rth).
Local Notation csum_swap := (csum_swap rO rI radd rmul rsub ropp Rth).
Local Notation csum_conj := (csum_conj rO rI radd rmul rsub ropp Rth).
Local Notation conj_mul := (conj_mul rO rI radd rmul rsub ropp Rth).
Local Notation conj_invol := (conj_invol rO rI radd rmul rsub ropp Rth).
Local Notation csum_delta := (csum_delta rO rI radd rmul rsub ropp Rth).

Lemma csum_cs n f : csum n f = cs (seq 0 n) f.
Proof.
  unfold PlaqSpec.csum. induction (seq 0 n) as [|i l IH]; [reflexivity|].
  change (cs (i :: l) f) with (cadd (f i) (cs l f)). rewrite <- IH. reflexivity.
Qed.

(** ** Sums over sites *)
Lemma rsum_app {A} (l m : list A) f : rsum (l ++ m) f = radd (rsum l f) (rsum m f).
Proof. induction l as [|a l IH]; [change (rsum m f = radd rO (rsum m f)); ring|]. change (radd (f a) (rsum (l ++ m) f) = radd (radd (f a) (rsum l f)) (rsum m f)). rewrite IH. ring. Qed.
Lemma rsum_ext {A} (l : list A) f g : (forall a, In a l -> f a = g a) -> rsum l f = rsum l g.
Proof.
  induction l as [|a l IH]; intros H; [reflexivity|]. change (radd (f a) (rsum l f) = radd (g a) (rsum l g)).
  rewrite H by now left. rewrite IH by (intros; apply H; now right). reflexivity.
Qed.
Lemma rsum_map {A B} (h : A -> B) l f : rsum (map h l) f = rsum l (fun a => f (h a)).
Proof. induction l as [|a l IH]; [reflexivity|]. change (radd (f (h a)) (rsum (map h l) f) = radd (f (h a)) (rsum l (fun a => f (h a)))). now rewrite IH. Qed.
Lemma rsum_flat {A B} (h : A -> list B) l f : rsum (flat_map h l) f = rsum l (fun a => rsum (h a) f).
Proof. induction l as [|a l IH]; [reflexivity|]. cbn [flat_map]. rewrite rsum_app, IH. reflexivity. Qed.
Lemma rsum_perm {A} (l m : list A) f : Permutation l m -> rsum l f = rsum m f.
Proof.
  induction 1; [reflexivity| | |congruence].
  - change (radd (f x) (rsum l f) = radd (f x) (rsum l' f)). congruence.
  - change (radd (f y) (radd (f x) (rsum l f)) = radd (f x) (radd (f y) (rsum l f))). ring.
Qed.

Lemma fold_words {A} (l : list A) (f : A -> R) r :
  fold_left (vadd radd) (map (fun a => Sv (Sv (Rv (f a)))) l) (Sv (Sv (Rv r))) = Sv (Sv (Rv (radd r (rsum l f)))).
Proof.
  revert r. induction l as [|a l IH]; intros r.
  - cbn. do 3 f_equal. ring.
  - cbn [map fold_left TensorModel.vadd]. rewrite IH. change (rsum (a :: l) f) with (radd (f a) (rsum l f)). do 3 f_equal. ring.
Qed.
Lemma sites_perm lay : layout_ok lay ->
  Permutation (flat_map (fun q => map (l_coord lay q) (seq 0 (l_sites lay))) (seq 0 (l_nodes lay))) (all_sites (l_size lay)).
Proof.
  intros (Hn & Hp & H1 & H2). apply NoDup_Permutation; [|apply all_sites_nodup|].
  - apply (NoDup_map_inv (fun c => (l_node lay c, l_lin lay c))).
    replace (map _ _) with (list_prod (seq 0 (l_nodes lay)) (seq 0 (l_sites lay))).
    2:{ assert (forall l, (forall q, In q l -> q < l_nodes lay) -> list_prod l (seq 0 (l_sites lay)) =
        map (fun c => (l_node lay c, l_lin lay c)) (flat_map (fun q => map (l_coord lay q) (seq 0 (l_sites lay))) l)) as K.
      { induction l as [|q l IH]; intros Hl; [reflexivity|]. cbn [list_prod flat_map]. rewrite map_app, IH by (intros; apply Hl; now right).
        f_equal. rewrite map_map. apply map_ext_in. intros i Hi. apply in_seq in Hi.
        destruct (H2 (q, i)) as [_ E]; [cbn; split; [apply Hl; now left|lia]|]. cbn [fst snd] in E. now rewrite E. }
      apply K. intros q Hq. apply in_seq in Hq. lia. }
    apply NoDup_list_prod; apply seq_NoDup.
  - intros c. rewrite in_flat_map, all_sites_in. split.
    + intros (q & Hq & Hc). apply in_map_iff in Hc as (i & <- & Hi). apply in_seq in Hq, Hi.
      destruct (H2 (q, i)) as [E _]; [cbn; lia|]. exact E.
    + intros Hc. destruct (H1 c Hc) as [[A B] E]. cbn [fst snd] in *. exists (l_node lay c). split; [apply in_seq; lia|].
      apply in_map_iff. exists (l_lin lay c). split; [exact E|apply in_seq; lia].
Qed.
Lemma psum_stored lay h : layout_ok lay ->
  psum (stored_all lay (fun c => Sv (Sv (Rv (h c))))) = Sv (Sv (Rv (rsum (all_sites (l_size lay)) h))).
Proof.
  intros Hl. unfold PlaqModel.psum, stored_all. rewrite map_map.
  rewrite (map_ext _ (fun q => Sv (Sv (Rv (rsum (seq 0 (l_sites lay)) (fun i => h (l_coord lay q i))))))).
  2:{ intros q. unfold stored, PlaqModel.zero_val. rewrite (fold_words (seq 0 (l_sites lay)) (fun i => h (l_coord lay q i))). do 3 f_equal. ring. }
  unfold PlaqModel.zero_val at 1. rewrite fold_words. do 3 f_equal.
  rewrite <- (rsum_perm _ _ h (sites_perm lay Hl)), rsum_flat.
  rewrite (rsum_ext (seq 0 (l_nodes lay)) _ (fun a => rsum (map (l_coord lay a) (seq 0 (l_sites lay))) h)); [ring|].
  intros q _. now rewrite rsum_map.
Qed.

(** ** Site loops *)
Lemma each1_stored lay f (p : list nat -> val) : each1 f (stored_all lay p) = stored_all lay (fun c => f (p c)).
Proof. unfold each1, stored_all, stored. rewrite map_map. apply map_ext. intros q. now rewrite map_map. Qed.
Lemma each2_stored lay f (p q : list nat -> val) :
  each2 f (stored_all lay p) (stored_all lay q) = stored_all lay (fun c => f (p c) (q c)).
Proof.
  unfold each2, zip, stored_all, stored. rewrite combine_maps, map_map. apply map_ext. intros n. cbn [fst snd].
  now rewrite combine_maps, map_map.
Qed.
Lemma build_layout b : build_ok b -> layout_ok (lay_of b).
Proof. destruct b; cbn; [apply scalar_layout_ok|apply par_layout_ok]. Qed.
Lemma pshift_ok b (p : list nat -> val) mu : build_ok b -> mu < length (build_size b) ->
  pshift b (stored_all (lay_of b) p) 1%Z mu = Val (stored_all (lay_of b) (fun c => p (ahead (build_size b) mu c))).
Proof.
  intros HB Hm. destruct b as [k L|g k M L]; cbn [pshift lay_of].
  - cbn [nth_error stored_all]. unfold stored_all. cbn [l_nodes scalar_layout seq map nth_error of_option bind].
    pose proof (shift1_ok (scalar_layout k L) (scalar_layout_ok k L HB) eq_refl p true mu Hm) as E.
    cbn [sign_of] in E. rewrite E. reflexivity.
  - exact (shiftP_ok k M L HB true mu Hm p).
Qed.

(** ** Matrices *)
Section N.
  Variable n : nat.
  Hypothesis Hn : 0 < n.
  Definition isM (v : val) (f : nat -> nat -> cx) : Prop :=
    exists h, v = Sv (Mv Colour n h) /\ forall i j, i < n -> j < n -> h i j = Cv (f i j).
  Definition mmul (f g : nat -> nat -> cx) i j := cs (seq 0 n) (fun k => cmul (f i k) (g k j)).
  Definition madj (f : nat -> nat -> cx) i j := conj (f j i).
  Definition mtr (f : nat -> nat -> cx) := cs (seq 0 n) (fun i => f i i).

  Lemma fold_cv (h : nat -> val) f l z : (forall k, In k l -> h k = Cv (f k)) ->
    fold_left (fun d k => vadd radd d (h k)) l (Cv z) = Cv (cadd z (cs l f)).
  Proof.
    revert z. induction l as [|a l IH]; intros z H.
    - cbn. f_equal. destruct z. cbv [c_add]. cbn. f_equal; ring.
    - cbn [fold_left]. rewrite H by now left. cbn [TensorModel.vadd]. rewrite IH by (intros; apply H; now right).
      change (cs (a :: l) f) with (cadd (f a) (cs l f)). f_equal. ring.
  Qed.
  Lemma accum_cv h f : (forall k, k < n -> h k = Cv (f k)) -> accum radd n h = Cv (cs (seq 0 n) f).
  Proof.
    intros H. unfold accum. rewrite (H 0 Hn), (fold_cv h f).
    - f_equal. destruct n as [|m]; [lia|]. rewrite Nat.sub_succ, Nat.sub_0_r. reflexivity.
    - intros k Hk. apply in_seq in Hk. apply H. lia.
  Qed.
  Lemma isM_mul v w f g : isM v f -> isM w g -> isM (VMUL v w) (mmul f g).
  Proof.
    intros (h & -> & H) (h' & -> & H'). cbn [vmul]. rewrite same_refl. eexists. split; [reflexivity|].
    intros i j Hi Hj. cbn beta. apply accum_cv. intros k Hk. rewrite H, H' by assumption. reflexivity.
  Qed.
  Lemma isM_adj v f : isM v f -> isM (vadj ropp v) (madj f).
  Proof. intros (h & -> & H). cbn [vadj]. eexists. split; [reflexivity|]. intros i j Hi Hj. cbn beta. rewrite H by assumption. reflexivity. Qed.
  Lemma isM_trace v f : isM v f -> vreal (vtrace radd v) = Sv (Sv (Rv (fst (mtr f)))).
  Proof.
    intros (h & -> & H). cbn [vtrace]. rewrite (accum_cv _ (fun i => f i i)); [reflexivity|].
    intros k Hk. rewrite H by assumption. cbn [vtrace]. destruct (f k k). reflexivity.
  Qed.
  Lemma isM_own f : isM (Sv (Mv Colour n (fun i j => Cv (f i j)))) f.
  Proof. eexists. split; [reflexivity|]. reflexivity. Qed.
  Lemma isM_unique v f g : isM v f -> isM v g -> forall i j, i < n -> j < n -> f i j = g i j.
  Proof. intros (h & E & H) (h' & E' & H') i j Hi Hj. rewrite E in E'. injection E' as <-. specialize (H i j Hi Hj). specialize (H' i j Hi Hj). congruence. Qed.

  Definition meq (f g : nat -> nat -> cx) : Prop := forall i j, i < n -> j < n -> f i j = g i j.
  Global Instance meq_eq : Equivalence meq.
  Proof.
    split.
    - intros f i j _ _. reflexivity.
    - intros f g H i j Hi Hj. symmetry. now apply H.
    - intros f g h H H' i j Hi Hj. rewrite H by assumption. now apply H'.
  Qed.
  Global Instance mmul_p : Proper (meq ==> meq ==> meq) mmul.
  Proof.
    intros f f' H g g' H' i j Hi Hj. unfold mmul. apply csum_ext. intros k Hk. apply in_seq in Hk.
    rewrite H, H' by lia. reflexivity.
  Qed.
  Global Instance madj_p : Proper (meq ==> meq) madj.
  Proof. intros f f' H i j Hi Hj. unfold madj. now rewrite H. Qed.
  Lemma mtr_p f f' : meq f f' -> mtr f = mtr f'.
  Proof. intros H. unfold mtr. apply csum_ext. intros k Hk. apply in_seq in Hk. apply H; lia. Qed.
  Lemma mmul_assoc f g h : meq (mmul (mmul f g) h) (mmul f (mmul g h)).
  Proof.
    intros i j Hi Hj. unfold mmul.
    rewrite (csum_ext (seq 0 n) _ (fun k => cs (seq 0 n) (fun l => cmul (cmul (f i l) (g l k)) (h k j)))) by (intros; now rewrite csum_mul_r).
    rewrite csum_swap. apply csum_ext. intros l _. rewrite <- csum_mul_l. apply csum_ext. intros. ring.
  Qed.
  Lemma madj_mul f g : meq (madj (mmul f g)) (mmul (madj g) (madj f)).
  Proof. intros i j Hi Hj. unfold madj, mmul. rewrite <- csum_conj. apply csum_ext. intros. rewrite conj_mul. ring. Qed.
  Lemma madj_adj f : meq (madj (madj f)) f.
  Proof. intros i j _ _. apply conj_invol. Qed.
  Lemma mtr_cyclic f g : mtr (mmul f g) = mtr (mmul g f).
  Proof. unfold mtr, mmul. rewrite csum_swap. apply csum_ext. intros. apply csum_ext. intros. ring. Qed.

  Definition mone (i j : nat) : cx := if i =? j then (rI, rO) else (rO, rO).
  Lemma mone_l f : meq (mmul mone f) f.
  Proof.
    intros i j Hi Hj. unfold mmul, mone. rewrite (csum_ext _ _ (fun k => if i =? k then f k j else (rO, rO))).
    - rewrite csum_delta by exact Hi. reflexivity.
    - intros k _. destruct (i =? k); ring.
  Qed.
  Lemma cancel g f : meq (mmul (madj g) g) mone -> meq (mmul (madj g) (mmul g f)) f.
  Proof. intros H. rewrite <- mmul_assoc, H. apply mone_l. Qed.

  Lemma gauge_trace a b c d U V S T :
    meq (mmul (madj a) a) mone -> meq (mmul (madj b) b) mone -> meq (mmul (madj c) c) mone -> meq (mmul (madj d) d) mone ->
    mtr (mmul (mmul (mmul a U) (madj b)) (mmul (mmul (mmul (mmul b V) (madj d)) (madj (mmul (mmul c S) (madj d)))) (madj (mmul (mmul a T) (madj c)))))
    = mtr (mmul U (mmul (mmul V (madj S)) (madj T))).
  Proof.
    intros Ha Hb Hc Hd. transitivity (mtr (mmul a (mmul U (mmul V (mmul (madj S) (mmul (madj T) (madj a))))))).
    - apply mtr_p. rewrite !madj_mul, !madj_adj, !mmul_assoc.
      now rewrite !cancel by assumption.
    - rewrite mtr_cyclic. apply mtr_p. rewrite !mmul_assoc, Ha. 
      assert (E : meq (mmul (madj T) mone) (madj T)).
      { rewrite <- (madj_adj mone). rewrite <- madj_mul. apply madj_p.
        transitivity (mmul mone T); [|apply mone_l]. apply mmul_p; [|reflexivity].
        intros i j _ _. unfold madj, mone. rewrite Nat.eqb_sym. destruct (i =? j); cbv [c_conj]; cbn; f_equal; ring. }
      now rewrite E.
  Qed.
End N.
End P.
