(** The laws of the nested types. *)
From Coq Require Import List PeanoNat Bool Lia Ring Ring_theory.
From Verif Require Import Base ComplexModel PropComplex TensorModel TensorSpec TensorProofs.
Import ListNotations.
Set Default Timeout 120.

Section Laws.
Set Default Proof Using "All".
Context {R : Type} (rO rI : R) (radd rmul rsub : R -> R -> R) (ropp : R -> R).
Context (Rth : ring_theory rO rI radd rmul rsub ropp (@eq R)).
Local Notation cadd := (c_add radd).
Local Notation cmul := (c_mul radd rmul rsub).
Local Notation cneg := (c_neg ropp).
Local Notation csub := (c_sub rsub).
Local Notation cconj := (c_conj ropp).
Local Notation c0 := (rO, rO).
Local Notation c1 := (rI, rO).
Local Notation cx := (R * R)%type.
Local Notation val := (@val R).
Local Notation typed := (@typed R).
Local Notation eqv := (@eqv R).
Local Notation entry := (@entry R rO).
Local Notation number := (@number R rO).
Local Notation csum := (@csum R rO radd).
Local Notation vadd := (vadd radd).
Local Notation vneg := (vneg ropp).
Local Notation vsub := (vsub rsub ropp).
Local Notation accum := (accum radd).
Local Notation accum2 := (accum2 radd).
Local Notation vmul := (vmul radd rmul rsub).
Local Notation vadj := (vadj ropp).
Local Notation vconj := (vconj ropp).
Local Notation vtrace := (vtrace radd).
Local Notation vadjMultiply := (vadjMultiply radd rmul rsub).
Local Notation vmultiplyAdj := (vmultiplyAdj radd rmul rsub).
Local Notation vadjMultiplyAdj := (vadjMultiplyAdj radd rmul rsub ropp).
Local Notation vtraceMultiply := (vtraceMultiply radd rmul rsub).
Local Notation vlocalInnerProduct := (vlocalInnerProduct radd rmul rsub).
Local Notation vlocalInnerProductReal := (vlocalInnerProductReal radd rmul).
Local Notation vlocalNorm2 := (vlocalNorm2 radd rmul).
Local Notation vouterProduct := (vouterProduct radd rmul rsub ropp).
Add Ring Rr2 : Rth.
Add Ring Cr2 : (cring rO rI radd rmul rsub ropp Rth).
Local Notation prod_dims := (prod_dims rO rI radd rmul rsub ropp Rth).
Local Notation prod_pos := (prod_pos rO rI radd rmul rsub ropp Rth).
Local Notation sum_dims := (sum_dims rO rI radd rmul rsub ropp Rth).
Local Notation csum_cons := (csum_cons rO rI radd rmul rsub ropp Rth).
Local Notation csum_nil := (csum_nil rO rI radd rmul rsub ropp Rth).
Local Notation csum_ext := (csum_ext rO rI radd rmul rsub ropp Rth).
Local Notation csum_app := (csum_app rO rI radd rmul rsub ropp Rth).
Local Notation csum_map := (csum_map rO rI radd rmul rsub ropp Rth).
Local Notation csum_flat_map := (csum_flat_map rO rI radd rmul rsub ropp Rth).
Local Notation csum_0 := (csum_0 rO rI radd rmul rsub ropp Rth).
Local Notation csum_zero := (csum_zero rO rI radd rmul rsub ropp Rth).
Local Notation csum_add := (csum_add rO rI radd rmul rsub ropp Rth).
Local Notation csum_mul_l := (csum_mul_l rO rI radd rmul rsub ropp Rth).
Local Notation csum_mul_r := (csum_mul_r rO rI radd rmul rsub ropp Rth).
Local Notation csum_swap := (csum_swap rO rI radd rmul rsub ropp Rth).
Local Notation conj_add := (conj_add rO rI radd rmul rsub ropp Rth).
Local Notation conj_mul := (conj_mul rO rI radd rmul rsub ropp Rth).
Local Notation conj_0 := (conj_0 rO rI radd rmul rsub ropp Rth).
Local Notation conj_invol := (conj_invol rO rI radd rmul rsub ropp Rth).
Local Notation csum_conj := (csum_conj rO rI radd rmul rsub ropp Rth).
Local Notation csum_neg := (csum_neg rO rI radd rmul rsub ropp Rth).
Local Notation csum_delta := (csum_delta rO rI radd rmul rsub ropp Rth).
Local Notation csum_delta' := (csum_delta' rO rI radd rmul rsub ropp Rth).
Local Notation csum_box_cons := (csum_box_cons rO rI radd rmul rsub ropp Rth).
Local Notation csum_one := (csum_one rO rI radd rmul rsub ropp Rth).
Local Notation eqv_refl := (eqv_refl rO rI radd rmul rsub ropp Rth).
Local Notation eqv_sym := (eqv_sym rO rI radd rmul rsub ropp Rth).
Local Notation eqv_trans := (eqv_trans rO rI radd rmul rsub ropp Rth).
Local Notation eqv_typed := (eqv_typed rO rI radd rmul rsub ropp Rth).
Local Notation eqv_typed_r := (eqv_typed_r rO rI radd rmul rsub ropp Rth).
Local Notation eqv_entry := (eqv_entry rO rI radd rmul rsub ropp Rth).
Local Notation eqv_ext := (eqv_ext rO rI radd rmul rsub ropp Rth).
Local Notation add_typed := (add_typed rO rI radd rmul rsub ropp Rth).
Local Notation add_entry := (add_entry rO rI radd rmul rsub ropp Rth).
Local Notation fold_add_ok := (fold_add_ok rO rI radd rmul rsub ropp Rth).
Local Notation accum_ok := (accum_ok rO rI radd rmul rsub ropp Rth).
Local Notation accum_ext := (accum_ext rO rI radd rmul rsub ropp Rth).
Local Notation accum2_ok := (accum2_ok rO rI radd rmul rsub ropp Rth).
Local Notation neg_ok := (neg_ok rO rI radd rmul rsub ropp Rth).
Local Notation add_ok := (add_ok rO rI radd rmul rsub ropp Rth).
Local Notation sub_ok := (sub_ok rO rI radd rmul rsub ropp Rth).
Local Notation delta_l := (delta_l rO rI radd rmul rsub ropp Rth).
Local Notation delta_r := (delta_r rO rI radd rmul rsub ropp Rth).
Local Notation mul_ok := (mul_ok rO rI radd rmul rsub ropp Rth).
Ltac idx HI HJ := apply inb_cons_l in HI as (i & I' & -> & Hi & HI), HJ as (j & J' & -> & Hj & HJ).
Ltac prods Hs F E := try (match type of E with context [same ?a ?b ?c ?d] => destruct (same a b c d) eqn:Hs end; [|discriminate]; apply same_iff in Hs as [<- <-]);
  match type of E with context [prod_ty ?a ?b] => destruct (prod_ty a b) as [t'|] eqn:F; [|discriminate]; inversion E; subst; clear E end.

(** * Conjugates and adjoints *)
Lemma conj_ok : forall t x, typed t x -> typed t (vconj x) /\
  forall Is Js I J, dims t Is Js -> inb I Is -> inb J Js -> entry (vconj x) I J = cconj (entry x I J).
Proof.
  induction t; intros x Hx; destruct x; try contradiction; cbn [TensorSpec.typed] in Hx.
  - split; [exact Coq.Init.Logic.I|]. intros. cbn. unfold c_conj. cbn. f_equal. ring.
  - split; [exact Coq.Init.Logic.I|]. intros. reflexivity.
  - split; [now apply IHt|]. intros [|a Is] [|b Js] I J D HI HJ; cbn [dims] in D; try tauto. idx HI HJ. cbn.
    destruct D as (_ & _ & D). destruct (Nat.eqb i j).
    + eapply IHt; eauto.
    + unfold c_conj. cbn. f_equal; ring.
  - destruct Hx as (-> & -> & Hx). split; [cbn; repeat split; intros; now apply IHt, Hx|].
    intros [|a Is] [|b Js] I J D HI HJ; cbn [dims] in D; try tauto. idx HI HJ. cbn.
    destruct D as (-> & -> & D). eapply IHt; eauto.
  - destruct Hx as (-> & -> & Hx). split; [cbn; repeat split; intros; now apply IHt, Hx|].
    intros [|a Is] [|b Js] I J D HI HJ; cbn [dims] in D; try tauto. idx HI HJ. cbn.
    destruct D as (-> & -> & D). eapply IHt; eauto.
Qed.
Lemma adj_ok : forall t x, square t -> typed t x -> typed t (vadj x) /\
  forall Is Js I J, dims t Is Js -> inb I Is -> inb J Js -> entry (vadj x) I J = cconj (entry x J I).
Proof.
  induction t; intros x Sq Hx; destruct x; try contradiction; cbn [TensorSpec.typed square] in *.
  - split; [exact Coq.Init.Logic.I|]. intros. cbn. unfold c_conj. cbn. f_equal. ring.
  - split; [exact Coq.Init.Logic.I|]. intros. reflexivity.
  - split; [now apply IHt|]. intros [|a Is] [|b Js] I J D HI HJ; cbn [dims] in D; try tauto. idx HI HJ. cbn.
    destruct D as (_ & _ & D). rewrite (Nat.eqb_sym j i). destruct (Nat.eqb i j).
    + eapply IHt; eauto.
    + unfold c_conj. cbn. f_equal; ring.
  - destruct Hx as (-> & -> & Hx). split; [cbn; repeat split; intros; now apply IHt; auto|].
    intros [|a Is] [|b Js] I J D HI HJ; cbn [dims] in D; try tauto. idx HI HJ. cbn.
    destruct D as (-> & -> & D). eapply IHt; eauto.
Qed.
Lemma transpose_ok : forall t x, square t -> typed t x -> typed t (vtranspose x) /\
  forall Is Js I J, dims t Is Js -> inb I Is -> inb J Js -> entry (vtranspose x) I J = entry x J I.
Proof.
  induction t; intros x Sq Hx; destruct x; try contradiction; cbn [TensorSpec.typed square] in *.
  - split; [exact Coq.Init.Logic.I|]. reflexivity.
  - split; [exact Coq.Init.Logic.I|]. intros. cbn. now destruct z.
  - split; [now apply IHt|]. intros [|a Is] [|b Js] I J D HI HJ; cbn [dims] in D; try tauto. idx HI HJ. cbn.
    destruct D as (_ & _ & D). rewrite (Nat.eqb_sym j i). destruct (Nat.eqb i j); [|reflexivity].
    eapply IHt; eauto.
  - destruct Hx as (-> & -> & Hx). split; [cbn; repeat split; intros; now apply IHt; auto|].
    intros [|a Is] [|b Js] I J D HI HJ; cbn [dims] in D; try tauto. idx HI HJ. cbn.
    destruct D as (-> & -> & D). eapply IHt; eauto.
Qed.

(** * Fused products *)
Lemma eqv_M k n t (f g : nat -> nat -> val) : (forall i j, i < n -> j < n -> eqv t (f i j) (g i j)) ->
  eqv (TM k n t) (Mv k n f) (Mv k n g).
Proof. cbn. repeat split; auto. Qed.
Lemma eqv_V k n t (f g : nat -> val) : (forall i, i < n -> eqv t (f i) (g i)) ->
  eqv (TV k n t) (Vv k n f) (Vv k n g).
Proof. cbn. repeat split; auto. Qed.
Ltac fused IHa :=
  repeat match goal with H : _ = _ /\ _ = _ /\ _ |- _ => destruct H as (<- & <- & ?) | H : _ /\ _ |- _ => destruct H end;
  cbn [TensorModel.vadjMultiply TensorModel.vmultiplyAdj TensorModel.vadjMultiplyAdj TensorModel.vmul TensorModel.vadj]; rewrite ?same_refl; first [apply eqv_M | apply eqv_V | cbn [TensorSpec.eqv]]; intros;
  try (apply accum_ext; [trivial|]; intros); eapply IHa; eauto.

Lemma adjMultiply_ok : forall a b t x y, prod_ty a b = Some t -> pos a -> pos b -> square a -> iscx a = iscx b ->
  typed a x -> typed b y -> eqv t (vadjMultiply x y) (vmul (vadj x) y).
Proof.
  induction a; destruct b; cbn [prod_ty]; intros t x y E Pa Pb Sa Cx Hx Hy; try discriminate; try contradiction;
    destruct x; try contradiction; destruct y; try contradiction; cbn [TensorSpec.typed pos square iscx] in *.
  - inversion E; subst. reflexivity.
  - inversion E; subst. cbn. unfold c_adjMultiply, c_mul, c_adj. cbn. f_equal; ring.
  - prods Hs F E. fused IHa.
  - prods Hs F E. fused IHa.
  - prods Hs F E. fused IHa.
  - prods Hs F E. fused IHa.
  - prods Hs F E. fused IHa.
  - prods Hs F E. fused IHa.
Qed.
Lemma multiplyAdj_ok : forall a b t x y, prod_ty a b = Some t -> pos a -> pos b -> square b -> iscx a = iscx b ->
  typed a x -> typed b y -> eqv t (vmultiplyAdj x y) (vmul x (vadj y)).
Proof.
  induction a; destruct b; cbn [prod_ty]; intros t x y E Pa Pb Sa Cx Hx Hy; try discriminate; try contradiction;
    destruct x; try contradiction; destruct y; try contradiction; cbn [TensorSpec.typed pos square iscx] in *.
  - inversion E; subst. reflexivity.
  - inversion E; subst. cbn. unfold c_multiplyAdj, c_mul, c_adj. cbn. f_equal; ring.
  - prods Hs F E. fused IHa.
  - prods Hs F E. fused IHa.
  - prods Hs F E. fused IHa.
  - prods Hs F E. fused IHa.
  - prods Hs F E. fused IHa.
Qed.
Lemma adjMultiplyAdj_ok : forall a b t x y, prod_ty a b = Some t -> pos a -> pos b -> square a -> square b ->
  iscx a = iscx b ->
  typed a x -> typed b y -> eqv t (vadjMultiplyAdj x y) (vmul (vadj x) (vadj y)).
Proof.
  induction a; destruct b; cbn [prod_ty]; intros t x y E Pa Pb Sa Sb Cx Hx Hy; try discriminate; try contradiction;
    destruct x; try contradiction; destruct y; try contradiction; cbn [TensorSpec.typed pos square iscx] in *.
  - inversion E; subst. reflexivity.
  - inversion E; subst. cbn. unfold c_adjMultiplyAdj, c_mul, c_adj. cbn. f_equal; ring.
  - prods Hs F E. fused IHa.
  - prods Hs F E. fused IHa.
  - prods Hs F E. fused IHa.
  - prods Hs F E. fused IHa.
Qed.

(** * Congruence *)
Lemma prod_some_dims : forall a b t, prod_ty a b = Some t -> pos a -> pos b ->
  exists Is Ks Js, dims a Is Ks /\ dims b Ks Js.
Proof.
  induction a; destruct b; cbn [prod_ty]; intros t E Pa Pb; try discriminate;
    try (exists [], [], []; split; exact Coq.Init.Logic.I);
    prods Hs F E; cbn [pos] in *; destruct (IHa _ _ F) as (Is & Ks & Js & D & D'); try tauto.
  - exists (1 :: Is), (1 :: Ks), (1 :: Js). cbn. auto 10.
  - exists (n :: Is), (n :: Ks), (n :: Js). cbn. intuition.
  - exists (n :: Is), (n :: Ks), (1 :: Js). cbn. intuition.
  - exists (n :: Is), (n :: Ks), (n :: Js). cbn. intuition.
  - exists (n :: Is), (n :: Ks), (n :: Js). cbn. intuition.
  - exists (n :: Is), (n :: Ks), (1 :: Js). cbn. intuition.
  - exists (n :: Is), (1 :: Ks), (1 :: Js). cbn. intuition.
Qed.
Lemma mul_eqv a b t x x' y y' : prod_ty a b = Some t -> pos a -> pos b -> eqv a x x' -> eqv b y y' ->
  eqv t (vmul x y) (vmul x' y').
Proof.
  intros E Pa Pb Hx Hy. destruct (prod_some_dims _ _ _ E Pa Pb) as (Is & Ks & Js & D & D').
  destruct (mul_ok a b t x y E Pa Pb) as [T G]; eauto using eqv_typed.
  destruct (mul_ok a b t x' y' E Pa Pb) as [T' G']; eauto using eqv_typed_r.
  eapply eqv_ext; eauto using prod_pos, prod_dims.
  intros I J HI HJ. erewrite G, G' by eauto. apply csum_ext. intros K HK. apply in_box in HK.
  f_equal; eapply eqv_entry; eauto.
Qed.

(** * Associativity *)
Lemma triple_dims : forall a b c ab abc, prod_ty a b = Some ab -> prod_ty ab c = Some abc ->
  pos a -> pos b -> pos c ->
  exists bc Is Ls Ks Js, prod_ty b c = Some bc /\ prod_ty a bc = Some abc /\
    dims a Is Ls /\ dims b Ls Ks /\ dims c Ks Js.
Proof.
  induction a; destruct b; cbn [prod_ty]; intros c ab abc E E2 Pa Pb Pc; try discriminate.
  1-4: inversion E; subst; destruct c; try discriminate; eexists; exists [], [], [], []; cbn in *; repeat split; auto.
  all: prods Hs F E; destruct c; cbn [prod_ty] in E2; try discriminate;
    try (match type of E2 with context [same ?a ?b ?c ?d] => destruct (same a b c d) eqn:Hs end; [|discriminate]; apply same_iff in Hs as [<- <-]);
    match type of E2 with context [prod_ty ?a ?b] => destruct (prod_ty a b) as [t2|] eqn:F2; [|discriminate]; inversion E2; subst end;
    cbn [pos] in *;
    (match type of F2 with prod_ty _ ?c = _ =>
       destruct (IHa b c _ _ F F2) as (bc & Is & Ls & Ks & Js & G1 & G2 & D1 & D2 & D3); try tauto end);
    cbn [prod_ty]; rewrite ?G1, ?same_refl; cbn [option_map]; eexists.
  all: try (exists (1 :: Is), (1 :: Ls), (1 :: Ks), (1 :: Js); split; [reflexivity|]; cbn [prod_ty dims];
              rewrite ?G2, ?same_refl; cbn [option_map]; repeat split; auto; try tauto; lia).
  all: try (exists (n :: Is), (n :: Ls), (n :: Ks), (n :: Js); split; [reflexivity|]; cbn [prod_ty dims];
              rewrite ?G2, ?same_refl; cbn [option_map]; repeat split; auto; try tauto; lia).
  all: try (exists (n :: Is), (n :: Ls), (n :: Ks), (1 :: Js); split; [reflexivity|]; cbn [prod_ty dims];
              rewrite ?G2, ?same_refl; cbn [option_map]; repeat split; auto; try tauto; lia).
  all: try (exists (n :: Is), (n :: Ls), (1 :: Ks), (1 :: Js); split; [reflexivity|]; cbn [prod_ty dims];
              rewrite ?G2, ?same_refl; cbn [option_map]; repeat split; auto; try tauto; lia).
  all: try (exists (n :: Is), (1 :: Ls), (1 :: Ks), (1 :: Js); split; [reflexivity|]; cbn [prod_ty dims];
              rewrite ?G2, ?same_refl; cbn [option_map]; repeat split; auto; try tauto; lia).
Qed.
Lemma mul_assoc a b c ab abc x y z : prod_ty a b = Some ab -> prod_ty ab c = Some abc ->
  pos a -> pos b -> pos c -> typed a x -> typed b y -> typed c z ->
  eqv abc (vmul (vmul x y) z) (vmul x (vmul y z)).
Proof.
  intros E E2 Pa Pb Pc Hx Hy Hz.
  destruct (triple_dims _ _ _ _ _ E E2 Pa Pb Pc) as (bc & Is & Ls & Ks & Js & G1 & G2 & D1 & D2 & D3).
  pose proof (prod_pos _ _ _ E Pa Pb). pose proof (prod_pos _ _ _ G1 Pb Pc).
  destruct (mul_ok _ _ _ x y E Pa Pb Hx Hy) as [T1 M1].
  destruct (mul_ok _ _ _ y z G1 Pb Pc Hy Hz) as [T2 M2].
  destruct (mul_ok _ _ _ (vmul x y) z E2) as [T3 M3]; auto.
  destruct (mul_ok _ _ _ x (vmul y z) G2) as [T4 M4]; auto.
  assert (dims ab Is Ks) by eauto using prod_dims. assert (dims bc Ls Js) by eauto using prod_dims.
  eapply eqv_ext; eauto using prod_pos, prod_dims.
  intros I J HI HJ. erewrite M3, M4 by eauto.
  transitivity (csum (box Ks) (fun K => csum (box Ls) (fun L => cmul (cmul (entry x I L) (entry y L K)) (entry z K J)))).
  - apply csum_ext. intros K HK. apply in_box in HK. erewrite M1 by eauto.
    rewrite csum_mul_r. reflexivity.
  - rewrite csum_swap. apply csum_ext. intros L HL. apply in_box in HL.
    erewrite M2 by eauto. rewrite <- csum_mul_l. apply csum_ext. intros. ring.
Qed.

(** * Distributivity *)
Lemma mul_add_l a b t x x' y : prod_ty a b = Some t -> pos a -> pos b -> typed a x -> typed a x' -> typed b y ->
  eqv t (vmul (vadd x x') y) (vadd (vmul x y) (vmul x' y)).
Proof.
  intros E Pa Pb Hx Hx' Hy. destruct (prod_some_dims _ _ _ E Pa Pb) as (Is & Ks & Js & D & D').
  pose proof (add_typed _ _ _ Hx Hx') as Ha.
  destruct (mul_ok a b t x y E) as [T G]; auto.
  destruct (mul_ok a b t x' y E) as [T' G']; auto.
  destruct (mul_ok a b t (vadd x x') y E) as [T2 G2]; auto.
  eapply eqv_ext; eauto using prod_pos, prod_dims, add_typed.
  intros I J HI HJ. erewrite G2 by eauto.
  erewrite (add_entry t); eauto using prod_dims. erewrite G, G' by eauto.
  rewrite <- csum_add. apply csum_ext. intros K HK. apply in_box in HK.
  erewrite (add_entry a); eauto. ring.
Qed.
Lemma mul_add_r a b t x y y' : prod_ty a b = Some t -> pos a -> pos b -> typed a x -> typed b y -> typed b y' ->
  eqv t (vmul x (vadd y y')) (vadd (vmul x y) (vmul x y')).
Proof.
  intros E Pa Pb Hx Hy Hy'. destruct (prod_some_dims _ _ _ E Pa Pb) as (Is & Ks & Js & D & D').
  pose proof (add_typed _ _ _ Hy Hy') as Ha.
  destruct (mul_ok a b t x y E) as [T G]; auto.
  destruct (mul_ok a b t x y' E) as [T' G']; auto.
  destruct (mul_ok a b t x (vadd y y') E) as [T2 G2]; auto.
  eapply eqv_ext; eauto using prod_pos, prod_dims, add_typed.
  intros I J HI HJ. erewrite G2 by eauto.
  erewrite (add_entry t); eauto using prod_dims. erewrite G, G' by eauto.
  rewrite <- csum_add. apply csum_ext. intros K HK. apply in_box in HK.
  erewrite (add_entry b); eauto. ring.
Qed.

(** * The adjoint of a product *)
Lemma prod_square : forall a b t, prod_ty a b = Some t -> square a -> square b ->
  prod_ty b a = Some t /\ square t.
Proof.
  induction a; destruct b; cbn [prod_ty]; intros t E Sa Sb; try discriminate; try contradiction;
    try (inversion E; subst; split; [reflexivity|exact Coq.Init.Logic.I]);
    prods Hs F E; cbn [square] in *; destruct (IHa _ _ F) as [G Sq]; auto; rewrite G, ?same_refl; split; auto.
Qed.
Lemma adj_mul a b t x y : prod_ty a b = Some t -> pos a -> pos b -> square a -> square b -> typed a x -> typed b y ->
  eqv t (vadj (vmul x y)) (vmul (vadj y) (vadj x)).
Proof.
  intros E Pa Pb Sa Sb Hx Hy. destruct (prod_square _ _ _ E Sa Sb) as [E' St].
  destruct (prod_some_dims _ _ _ E Pa Pb) as (Is & Ks & Js & D & D').
  pose proof (dims_square _ _ _ Sa D). pose proof (dims_square _ _ _ Sb D'). subst Ks Js.
  assert (Dt : dims t Is Is) by eauto using prod_dims.
  destruct (mul_ok a b t x y E) as [T G]; auto.
  destruct (adj_ok a x) as [Ta Ga]; auto. destruct (adj_ok b y) as [Tb Gb]; auto.
  destruct (adj_ok t (vmul x y)) as [T1 G1]; auto.
  destruct (mul_ok b a t (vadj y) (vadj x) E') as [T2 G2]; auto.
  eapply eqv_ext; eauto using prod_pos.
  intros I J HI HJ. erewrite G1, G2, G by eauto.
  rewrite <- csum_conj. apply csum_ext. intros K HK. apply in_box in HK.
  rewrite conj_mul. erewrite Ga, Gb by eauto. ring.
Qed.
Lemma transpose_mul a b t x y : prod_ty a b = Some t -> pos a -> pos b -> square a -> square b -> typed a x -> typed b y ->
  eqv t (vtranspose (vmul x y)) (vmul (vtranspose y) (vtranspose x)).
Proof.
  intros E Pa Pb Sa Sb Hx Hy. destruct (prod_square _ _ _ E Sa Sb) as [E' St].
  destruct (prod_some_dims _ _ _ E Pa Pb) as (Is & Ks & Js & D & D').
  pose proof (dims_square _ _ _ Sa D). pose proof (dims_square _ _ _ Sb D'). subst Ks Js.
  assert (Dt : dims t Is Is) by eauto using prod_dims.
  destruct (mul_ok a b t x y E) as [T G]; auto.
  destruct (transpose_ok a x) as [Ta Ga]; auto. destruct (transpose_ok b y) as [Tb Gb]; auto.
  destruct (transpose_ok t (vmul x y)) as [T1 G1]; auto.
  destruct (mul_ok b a t (vtranspose y) (vtranspose x) E') as [T2 G2]; auto.
  eapply eqv_ext; eauto using prod_pos.
  intros I J HI HJ. erewrite G1, G2, G by eauto.
  apply csum_ext. intros K HK. apply in_box in HK. erewrite Ga, Gb by eauto. ring.
Qed.
Lemma conj_mul_ok a b t x y : prod_ty a b = Some t -> pos a -> pos b -> typed a x -> typed b y ->
  eqv t (vconj (vmul x y)) (vmul (vconj x) (vconj y)).
Proof.
  intros E Pa Pb Hx Hy.
  destruct (prod_some_dims _ _ _ E Pa Pb) as (Is & Ks & Js & D & D').
  assert (Dt : dims t Is Js) by eauto using prod_dims.
  destruct (mul_ok a b t x y E) as [T G]; auto.
  destruct (conj_ok a x) as [Ta Ga]; auto. destruct (conj_ok b y) as [Tb Gb]; auto.
  destruct (conj_ok t (vmul x y)) as [T1 G1]; auto.
  destruct (mul_ok a b t (vconj x) (vconj y) E) as [T2 G2]; auto.
  eapply eqv_ext; eauto using prod_pos.
  intros I J HI HJ. erewrite G1, G2, G by eauto.
  rewrite <- csum_conj. apply csum_ext. intros K HK. apply in_box in HK.
  rewrite conj_mul. erewrite Ga, Gb by eauto. reflexivity.
Qed.
Lemma adj_involutive t x : square t -> typed t x -> eqv t (vadj (vadj x)) x.
Proof.
  revert x. induction t; intros x Sq Hx; destruct x; try contradiction; cbn [TensorSpec.typed square] in *; cbn.
  - reflexivity.
  - unfold c_adj. destruct z. cbn. f_equal. ring.
  - auto.
  - destruct Hx as (-> & -> & Hx). repeat split; auto.
Qed.
End Laws.
