(** Traces, inner products and outer products of the nested types. *)
From Coq Require Import List PeanoNat Bool Lia Ring Ring_theory.
From Verif Require Import Base ComplexModel PropComplex TensorModel TensorSpec TensorProofs TensorLaws.
Import ListNotations.
Set Default Timeout 120.

Section Traces.
Set Default Proof Using "All".
Context {R : Type} (rO rI : R) (radd rmul rsub : R -> R -> R) (ropp : R -> R).
Context (Rth : ring_theory rO rI radd rmul rsub ropp (@eq R)).
Local Notation cadd := (c_add radd).
Local Notation cmul := (c_mul radd rmul rsub).
Local Notation cneg := (c_neg ropp).
Local Notation csub := (c_sub rsub).
Local Notation cconj := (c_conj ropp).
Local Notation c0 := (rO, rO).
Local Notation c1 := (rI, rO).
Local Notation cx := (R * R)%type.
Local Notation val := (@val R).
Local Notation typed := (@typed R).
Local Notation eqv := (@eqv R).
Local Notation entry := (@entry R rO).
Local Notation number := (@number R rO).
Local Notation csum := (@csum R rO radd).
Local Notation vadd := (vadd radd).
Local Notation vneg := (vneg ropp).
Local Notation vsub := (vsub rsub ropp).
Local Notation accum := (accum radd).
Local Notation accum2 := (accum2 radd).
Local Notation vmul := (vmul radd rmul rsub).
Local Notation vadj := (vadj ropp).
Local Notation vconj := (vconj ropp).
Local Notation vtrace := (vtrace radd).
Local Notation vadjMultiply := (vadjMultiply radd rmul rsub).
Local Notation vmultiplyAdj := (vmultiplyAdj radd rmul rsub).
Local Notation vadjMultiplyAdj := (vadjMultiplyAdj radd rmul rsub ropp).
Local Notation vtraceMultiply := (vtraceMultiply radd rmul rsub).
Local Notation vlocalInnerProduct := (vlocalInnerProduct radd rmul rsub).
Local Notation vlocalInnerProductReal := (vlocalInnerProductReal radd rmul).
Local Notation vlocalNorm2 := (vlocalNorm2 radd rmul).
Local Notation vouterProduct := (vouterProduct radd rmul rsub ropp).
Add Ring Rr3 : Rth.
Add Ring Cr3 : (cring rO rI radd rmul rsub ropp Rth).
Local Notation prod_dims := (prod_dims rO rI radd rmul rsub ropp Rth).
Local Notation prod_pos := (prod_pos rO rI radd rmul rsub ropp Rth).
Local Notation sum_dims := (sum_dims rO rI radd rmul rsub ropp Rth).
Local Notation csum_cons := (csum_cons rO rI radd rmul rsub ropp Rth).
Local Notation csum_nil := (csum_nil rO rI radd rmul rsub ropp Rth).
Local Notation csum_ext := (csum_ext rO rI radd rmul rsub ropp Rth).
Local Notation csum_app := (csum_app rO rI radd rmul rsub ropp Rth).
Local Notation csum_map := (csum_map rO rI radd rmul rsub ropp Rth).
Local Notation csum_flat_map := (csum_flat_map rO rI radd rmul rsub ropp Rth).
Local Notation csum_0 := (csum_0 rO rI radd rmul rsub ropp Rth).
Local Notation csum_zero := (csum_zero rO rI radd rmul rsub ropp Rth).
Local Notation csum_add := (csum_add rO rI radd rmul rsub ropp Rth).
Local Notation csum_mul_l := (csum_mul_l rO rI radd rmul rsub ropp Rth).
Local Notation csum_mul_r := (csum_mul_r rO rI radd rmul rsub ropp Rth).
Local Notation csum_swap := (csum_swap rO rI radd rmul rsub ropp Rth).
Local Notation conj_add := (conj_add rO rI radd rmul rsub ropp Rth).
Local Notation conj_mul := (conj_mul rO rI radd rmul rsub ropp Rth).
Local Notation conj_0 := (conj_0 rO rI radd rmul rsub ropp Rth).
Local Notation conj_invol := (conj_invol rO rI radd rmul rsub ropp Rth).
Local Notation csum_conj := (csum_conj rO rI radd rmul rsub ropp Rth).
Local Notation csum_neg := (csum_neg rO rI radd rmul rsub ropp Rth).
Local Notation csum_delta := (csum_delta rO rI radd rmul rsub ropp Rth).
Local Notation csum_delta' := (csum_delta' rO rI radd rmul rsub ropp Rth).
Local Notation csum_box_cons := (csum_box_cons rO rI radd rmul rsub ropp Rth).
Local Notation csum_one := (csum_one rO rI radd rmul rsub ropp Rth).
Local Notation eqv_refl := (eqv_refl rO rI radd rmul rsub ropp Rth).
Local Notation eqv_sym := (eqv_sym rO rI radd rmul rsub ropp Rth).
Local Notation eqv_trans := (eqv_trans rO rI radd rmul rsub ropp Rth).
Local Notation eqv_typed := (eqv_typed rO rI radd rmul rsub ropp Rth).
Local Notation eqv_typed_r := (eqv_typed_r rO rI radd rmul rsub ropp Rth).
Local Notation eqv_entry := (eqv_entry rO rI radd rmul rsub ropp Rth).
Local Notation eqv_ext := (eqv_ext rO rI radd rmul rsub ropp Rth).
Local Notation add_typed := (add_typed rO rI radd rmul rsub ropp Rth).
Local Notation add_entry := (add_entry rO rI radd rmul rsub ropp Rth).
Local Notation fold_add_ok := (fold_add_ok rO rI radd rmul rsub ropp Rth).
Local Notation accum_ok := (accum_ok rO rI radd rmul rsub ropp Rth).
Local Notation accum_ext := (accum_ext rO rI radd rmul rsub ropp Rth).
Local Notation accum2_ok := (accum2_ok rO rI radd rmul rsub ropp Rth).
Local Notation neg_ok := (neg_ok rO rI radd rmul rsub ropp Rth).
Local Notation add_ok := (add_ok rO rI radd rmul rsub ropp Rth).
Local Notation sub_ok := (sub_ok rO rI radd rmul rsub ropp Rth).
Local Notation delta_l := (delta_l rO rI radd rmul rsub ropp Rth).
Local Notation delta_r := (delta_r rO rI radd rmul rsub ropp Rth).
Local Notation mul_ok := (mul_ok rO rI radd rmul rsub ropp Rth).
Local Notation conj_ok := (conj_ok rO rI radd rmul rsub ropp Rth).
Local Notation adj_ok := (adj_ok rO rI radd rmul rsub ropp Rth).
Local Notation transpose_ok := (transpose_ok rO rI radd rmul rsub ropp Rth).
Local Notation eqv_M := (eqv_M rO rI radd rmul rsub ropp Rth).
Local Notation eqv_V := (eqv_V rO rI radd rmul rsub ropp Rth).
Local Notation adjMultiply_ok := (adjMultiply_ok rO rI radd rmul rsub ropp Rth).
Local Notation multiplyAdj_ok := (multiplyAdj_ok rO rI radd rmul rsub ropp Rth).
Local Notation adjMultiplyAdj_ok := (adjMultiplyAdj_ok rO rI radd rmul rsub ropp Rth).
Local Notation prod_some_dims := (prod_some_dims rO rI radd rmul rsub ropp Rth).
Local Notation mul_eqv := (mul_eqv rO rI radd rmul rsub ropp Rth).
Local Notation triple_dims := (triple_dims rO rI radd rmul rsub ropp Rth).
Local Notation mul_assoc := (mul_assoc rO rI radd rmul rsub ropp Rth).
Local Notation mul_add_l := (mul_add_l rO rI radd rmul rsub ropp Rth).
Local Notation mul_add_r := (mul_add_r rO rI radd rmul rsub ropp Rth).
Local Notation prod_square := (prod_square rO rI radd rmul rsub ropp Rth).
Local Notation adj_mul := (adj_mul rO rI radd rmul rsub ropp Rth).
Local Notation transpose_mul := (transpose_mul rO rI radd rmul rsub ropp Rth).
Local Notation conj_mul_ok := (conj_mul_ok rO rI radd rmul rsub ropp Rth).
Local Notation adj_involutive := (adj_involutive rO rI radd rmul rsub ropp Rth).
Local Notation vrealTrace := (vrealTrace radd).
Local Notation vimagTrace := (vimagTrace radd).
Local Notation vtimesI := (vtimesI rO ropp).
Local Notation vtimesMinusI := (vtimesMinusI rO ropp).
Local Notation vimag := (vimag rO).

Ltac idx HI HJ := apply inb_cons_l in HI as (i & I' & -> & Hi & HI), HJ as (j & J' & -> & Hj & HJ).
Ltac dsame E Hs := match type of E with context [same ?a ?b ?c ?d] => destruct (same a b c d) eqn:Hs; [|discriminate]; apply same_iff in Hs as [<- <-] end.
Ltac dopt E F := match type of E with context [option_map _ ?o] => destruct o as [t'|] eqn:F; [|discriminate]; inversion E; subst; clear E end.

(** * Scalars *)
Definition zeros (l : list nat) : list nat := map (fun _ => 0) l.
Lemma zeros_inb l : Forall (lt 0) l -> inb (zeros l) l.
Proof. induction 1; constructor; auto. Qed.
Lemma trace_pos t : pos (trace_ty t).
Proof. induction t; cbn; auto. Qed.
Lemma number_entry : forall t x I, typed (trace_ty t) x -> entry x I I = number x.
Proof.
  induction t; intros x I Hx; destruct x; try contradiction; try reflexivity; cbn; rewrite Nat.eqb_refl; now apply IHt.
Qed.
Lemma number_accum t n g : 0 < n -> (forall k, k < n -> typed (trace_ty t) (g k)) ->
  typed (trace_ty t) (accum n g) /\ number (accum n g) = csum (seq 0 n) (fun k => number (g k)).
Proof.
  intros Hn Hg. destruct (accum_ok (trace_ty t) n g Hn Hg) as [T E]. split; [trivial|].
  pose proof (dims_own _ (trace_pos t)) as D. destruct (dims_pos _ _ _ (trace_pos t) D) as [Z _].
  assert (SC : cols (trace_ty t) = rows (trace_ty t)) by (apply square_cols; clear; induction t; cbn; auto).
  rewrite SC in D.
  rewrite <- (number_entry t (accum n g) (zeros (rows (trace_ty t))) T).
  erewrite E by eauto using zeros_inb. apply csum_ext. intros k Hk. apply in_seq in Hk.
  apply (number_entry t). apply Hg. lia.
Qed.
Lemma number_accum2 t n g : 0 < n -> (forall j k, j < n -> k < n -> typed (trace_ty t) (g j k)) ->
  typed (trace_ty t) (accum2 n g) /\
  number (accum2 n g) = csum (seq 0 n) (fun j => csum (seq 0 n) (fun k => number (g j k))).
Proof.
  intros Hn Hg. destruct (accum2_ok (trace_ty t) n g Hn Hg) as [T E]. split; [trivial|].
  pose proof (dims_own _ (trace_pos t)) as D. destruct (dims_pos _ _ _ (trace_pos t) D) as [Z _].
  assert (SC : cols (trace_ty t) = rows (trace_ty t)) by (apply square_cols; clear; induction t; cbn; auto).
  rewrite SC in D.
  rewrite <- (number_entry t (accum2 n g) (zeros (rows (trace_ty t))) T).
  erewrite E by eauto using zeros_inb. apply csum_ext. intros j Hj. apply csum_ext. intros k Hk.
  apply in_seq in Hj, Hk. apply (number_entry t). apply Hg; lia.
Qed.
(** A scalar object is its number. *)
Lemma number_eqv : forall t x y, typed (trace_ty t) x -> typed (trace_ty t) y -> number x = number y ->
  eqv (trace_ty t) x y.
Proof.
  induction t; intros x y Hx Hy E; destruct x; try contradiction; destruct y; try contradiction; cbn in *;
    try congruence; auto.
Qed.
Lemma eqv_number : forall t x y, eqv (trace_ty t) x y -> number x = number y.
Proof.
  induction t; intros x y E; destruct x; try contradiction; destruct y; try contradiction; cbn in *;
    try congruence; auto.
Qed.
Lemma csum_seq1 f : csum (seq 0 1) f = f 0.
Proof. cbn [seq]. apply csum_one. Qed.

(** * Traces *)
Lemma trace_ok : forall t x, square t -> pos t -> typed t x -> typed (trace_ty t) (vtrace x) /\
  number (vtrace x) = csum (box (rows t)) (fun I => entry x I I).
Proof.
  induction t; intros x Sq P Hx; destruct x; try contradiction; cbn [TensorSpec.typed square pos trace_ty rows TensorModel.vtrace] in *.
  - split; [exact Coq.Init.Logic.I|]. cbn [box]. rewrite csum_one. reflexivity.
  - split; [exact Coq.Init.Logic.I|]. cbn [box]. rewrite csum_one. cbn. now destruct z.
  - destruct (IHt x Sq P Hx) as [T E]. split; [exact T|]. cbn [TensorSpec.number].
    rewrite E, csum_box_cons, csum_seq1. reflexivity.
  - destruct Hx as (<- & <- & Hx), P as [Pn P]. cbn [TensorSpec.number].
    destruct (number_accum t n (fun i => vtrace (f i i)) Pn) as [T E]; [intros; apply IHt; auto|].
    split; [exact T|]. rewrite E, csum_box_cons. apply csum_ext. intros k' Hk. apply in_seq in Hk.
    apply IHt; auto; apply Hx; lia.
Qed.
Lemma prod_own : forall a b t, prod_ty a b = Some t -> pos a -> pos b -> square a -> square b ->
  dims a (rows t) (rows t) /\ dims b (rows t) (rows t).
Proof.
  induction a; destruct b; cbn [prod_ty]; intros t E Pa Pb Sa Sb; try discriminate; try contradiction;
    try (inversion E; subst; split; exact Coq.Init.Logic.I); try dsame E Hs; dopt E F; cbn [pos square] in *;
    (edestruct (IHa b t'); intuition eauto); cbn [dims rows]; repeat split; auto; try tauto; lia.
Qed.
Lemma trace_mul a b t x y : prod_ty a b = Some t -> pos a -> pos b -> square a -> square b -> typed a x -> typed b y ->
  number (vtrace (vmul x y)) =
  csum (box (rows t)) (fun I => csum (box (rows t)) (fun K => cmul (entry x I K) (entry y K I))).
Proof.
  intros E Pa Pb Sa Sb Hx Hy. destruct (prod_square _ _ _ E Sa Sb) as [_ St].
  destruct (mul_ok a b t x y E) as [T G]; auto. destruct (prod_own _ _ _ E Pa Pb Sa Sb) as [D D'].
  destruct (trace_ok t (vmul x y)) as [T1 ->]; eauto using prod_pos.
  apply csum_ext. intros I HI. apply in_box in HI. eapply G; eauto.
Qed.
Lemma trace_cyclic a b t x y : prod_ty a b = Some t -> pos a -> pos b -> square a -> square b -> typed a x -> typed b y ->
  eqv (trace_ty t) (vtrace (vmul x y)) (vtrace (vmul y x)).
Proof.
  intros E Pa Pb Sa Sb Hx Hy. destruct (prod_square _ _ _ E Sa Sb) as [E' St].
  destruct (mul_ok a b t x y E) as [T _]; auto. destruct (mul_ok b a t y x E') as [T' _]; auto.
  apply number_eqv; try (apply trace_ok; eauto using prod_pos; fail).
  rewrite (trace_mul a b t), (trace_mul b a t); auto. rewrite csum_swap. apply csum_ext. intros. apply csum_ext. intros. ring.
Qed.
Lemma traceMultiply_num : forall a b t x y, prod_ty a b = Some t -> pos a -> pos b -> square a -> square b ->
  iscx a = iscx b -> typed a x -> typed b y ->
  typed (trace_ty t) (vtraceMultiply x y) /\
  number (vtraceMultiply x y) =
  csum (box (rows t)) (fun I => csum (box (rows t)) (fun K => cmul (entry x I K) (entry y K I))).
Proof.
  induction a; destruct b; cbn [prod_ty]; intros t x y E Pa Pb Sa Sb Cx Hx Hy; try discriminate; try contradiction;
    destruct x; try contradiction; destruct y; try contradiction; cbn [TensorSpec.typed pos square iscx] in *.
  - inversion E; subst. split; [exact Coq.Init.Logic.I|]. cbn [rows box]. rewrite !csum_one. cbn. unfold c_mul. cbn. f_equal; ring.
  - inversion E; subst. split; [exact Coq.Init.Logic.I|]. cbn [rows box]. rewrite !csum_one. reflexivity.
  - dopt E F. destruct (IHa _ _ _ _ F Pa Pb Sa Sb Cx Hx Hy) as [T G]. split; [exact T|].
    cbn [TensorModel.vtraceMultiply TensorSpec.number rows].
    rewrite G, csum_box_cons, csum_seq1. apply csum_ext. intros I _. rewrite csum_box_cons, csum_seq1. reflexivity.
  - dopt E F. destruct Hy as (<- & <- & Hy), Pb as [Pn Pb].
    cbn [TensorModel.vtraceMultiply TensorSpec.number rows trace_ty].
    destruct (number_accum t' n (fun i => vtraceMultiply x (f i i)) Pn) as [T G]; [intros; eapply IHa; eauto|].
    split; [exact T|]. rewrite G, csum_box_cons. apply csum_ext. intros i Hi. apply in_seq in Hi.
    destruct (IHa _ _ x (f i i) F Pa Pb Sa Sb Cx Hx) as [_ ->]; [apply Hy; lia|].
    apply csum_ext. intros I _. rewrite csum_box_cons.
    rewrite <- (delta_l n i (fun _ K => entry x I K) (fun k' K => entry (f k' i) K I) (box (rows t'))) by lia.
    reflexivity.
  - dopt E F. destruct Hx as (<- & <- & Hx), Pa as [Pn Pa].
    cbn [TensorModel.vtraceMultiply TensorSpec.number rows trace_ty].
    destruct (number_accum t' n (fun i => vtraceMultiply (f i i) y) Pn) as [T G]; [intros; eapply IHa; eauto|].
    split; [exact T|]. rewrite G, csum_box_cons. apply csum_ext. intros i Hi. apply in_seq in Hi.
    destruct (IHa _ _ (f i i) y F Pa Pb Sa Sb Cx) as [_ ->]; [apply Hx; lia|trivial|].
    apply csum_ext. intros I _. rewrite csum_box_cons.
    rewrite <- (delta_r n i (fun k' K => entry (f i k') I K) (fun _ K => entry y K I) (box (rows t'))) by lia.
    reflexivity.
  - dsame E Hs. dopt E F. destruct Hx as (<- & <- & Hx), Hy as (<- & <- & Hy), Pa as [Pn Pa], Pb as [_ Pb].
    cbn [TensorModel.vtraceMultiply rows trace_ty]. rewrite same_refl. cbn [TensorSpec.number].
    destruct (number_accum2 t' n (fun j x => vtraceMultiply (f j x) (f0 x j)) Pn) as [T G]; [intros; eapply IHa; eauto|].
    split; [exact T|]. rewrite G, csum_box_cons. apply csum_ext. intros i Hi. apply in_seq in Hi.
    transitivity (csum (seq 0 n) (fun k' => csum (box (rows t')) (fun I => csum (box (rows t')) (fun K => cmul (entry (f i k') I K) (entry (f0 k' i) K I))))).
    + apply csum_ext. intros k' Hk. apply in_seq in Hk. eapply IHa; eauto; [apply Hx|apply Hy]; lia.
    + rewrite csum_swap. apply csum_ext. intros I _. rewrite csum_box_cons. reflexivity.
Qed.
Lemma traceMultiply_ok a b t x y : prod_ty a b = Some t -> pos a -> pos b -> square a -> square b ->
  iscx a = iscx b -> typed a x -> typed b y ->
  eqv (trace_ty t) (vtraceMultiply x y) (vtrace (vmul x y)).
Proof.
  intros E Pa Pb Sa Sb Cx Hx Hy. destruct (traceMultiply_num a b t x y) as [T G]; auto.
  destruct (mul_ok a b t x y E) as [T' _]; auto.
  apply number_eqv; [trivial|apply trace_ok; eauto using prod_pos; eapply prod_square; eauto|].
  rewrite G. symmetry. now apply (trace_mul a b t).
Qed.

(** * Real parts *)
Lemma real_ok : forall t x, typed t x -> typed (real_ty t) (vreal x) /\
  forall Is Js I J, dims t Is Js -> inb I Is -> inb J Js -> entry (vreal x) I J = (fst (entry x I J), rO).
Proof.
  induction t; intros x Hx; destruct x; try contradiction; cbn [TensorSpec.typed] in Hx.
  - split; [exact Coq.Init.Logic.I|]. reflexivity.
  - split; [exact Coq.Init.Logic.I|]. reflexivity.
  - split; [now apply IHt|]. intros [|a Is] [|b Js] I J D HI HJ; cbn [dims] in D; try tauto. idx HI HJ. cbn.
    destruct D as (_ & _ & D). destruct (Nat.eqb i j); [|reflexivity]. eapply IHt; eauto.
  - destruct Hx as (-> & -> & Hx). split; [cbn; repeat split; intros; now apply IHt, Hx|].
    intros [|a Is] [|b Js] I J D HI HJ; cbn [dims] in D; try tauto. idx HI HJ. cbn.
    destruct D as (-> & -> & D). eapply IHt; eauto.
  - destruct Hx as (-> & -> & Hx). split; [cbn; repeat split; intros; now apply IHt, Hx|].
    intros [|a Is] [|b Js] I J D HI HJ; cbn [dims] in D; try tauto. idx HI HJ. cbn.
    destruct D as (-> & -> & D). eapply IHt; eauto.
Qed.
Lemma imag_ok : forall t x, typed t x -> typed (real_ty t) (vimag x) /\
  forall Is Js I J, dims t Is Js -> inb I Is -> inb J Js -> entry (vimag x) I J = (snd (entry x I J), rO).
Proof.
  induction t; intros x Hx; destruct x; try contradiction; cbn [TensorSpec.typed] in Hx.
  - split; [exact Coq.Init.Logic.I|]. reflexivity.
  - split; [exact Coq.Init.Logic.I|]. reflexivity.
  - split; [now apply IHt|]. intros [|a Is] [|b Js] I J D HI HJ; cbn [dims] in D; try tauto. idx HI HJ. cbn.
    destruct D as (_ & _ & D). destruct (Nat.eqb i j); [|reflexivity]. eapply IHt; eauto.
  - destruct Hx as (-> & -> & Hx). split; [cbn; repeat split; intros; now apply IHt, Hx|].
    intros [|a Is] [|b Js] I J D HI HJ; cbn [dims] in D; try tauto. idx HI HJ. cbn.
    destruct D as (-> & -> & D). eapply IHt; eauto.
  - destruct Hx as (-> & -> & Hx). split; [cbn; repeat split; intros; now apply IHt, Hx|].
    intros [|a Is] [|b Js] I J D HI HJ; cbn [dims] in D; try tauto. idx HI HJ. cbn.
    destruct D as (-> & -> & D). eapply IHt; eauto.
Qed.
Lemma timesI_ok : forall t x, typed t x -> typed (complex_ty t) (vtimesI x) /\
  forall Is Js I J, dims t Is Js -> inb I Is -> inb J Js -> entry (vtimesI x) I J = cmul (rO, rI) (entry x I J).
Proof.
  induction t; intros x Hx; destruct x; try contradiction; cbn [TensorSpec.typed] in Hx.
  - split; [exact Coq.Init.Logic.I|]. intros. cbn. unfold c_mul, c_timesI_s. cbn. f_equal; ring.
  - split; [exact Coq.Init.Logic.I|]. intros. cbn. unfold c_mul, c_timesI. cbn. f_equal; ring.
  - split; [now apply IHt|]. intros [|a Is] [|b Js] I J D HI HJ; cbn [dims] in D; try tauto. idx HI HJ. cbn.
    destruct D as (_ & _ & D). destruct (Nat.eqb i j); [|ring]. eapply IHt; eauto.
  - destruct Hx as (-> & -> & Hx). split; [cbn; repeat split; intros; now apply IHt, Hx|].
    intros [|a Is] [|b Js] I J D HI HJ; cbn [dims] in D; try tauto. idx HI HJ. cbn.
    destruct D as (-> & -> & D). eapply IHt; eauto.
  - destruct Hx as (-> & -> & Hx). split; [cbn; repeat split; intros; now apply IHt, Hx|].
    intros [|a Is] [|b Js] I J D HI HJ; cbn [dims] in D; try tauto. idx HI HJ. cbn.
    destruct D as (-> & -> & D). eapply IHt; eauto.
Qed.
Lemma timesMinusI_ok : forall t x, typed t x -> typed (complex_ty t) (vtimesMinusI x) /\
  forall Is Js I J, dims t Is Js -> inb I Is -> inb J Js -> entry (vtimesMinusI x) I J = cmul (rO, ropp rI) (entry x I J).
Proof.
  induction t; intros x Hx; destruct x; try contradiction; cbn [TensorSpec.typed] in Hx.
  - split; [exact Coq.Init.Logic.I|]. intros. cbn. unfold c_mul, c_timesMinusI_s. cbn. f_equal; ring.
  - split; [exact Coq.Init.Logic.I|]. intros. cbn. unfold c_mul, c_timesMinusI. cbn. f_equal; ring.
  - split; [now apply IHt|]. intros [|a Is] [|b Js] I J D HI HJ; cbn [dims] in D; try tauto. idx HI HJ. cbn.
    destruct D as (_ & _ & D). destruct (Nat.eqb i j); [|ring]. eapply IHt; eauto.
  - destruct Hx as (-> & -> & Hx). split; [cbn; repeat split; intros; now apply IHt, Hx|].
    intros [|a Is] [|b Js] I J D HI HJ; cbn [dims] in D; try tauto. idx HI HJ. cbn.
    destruct D as (-> & -> & D). eapply IHt; eauto.
  - destruct Hx as (-> & -> & Hx). split; [cbn; repeat split; intros; now apply IHt, Hx|].
    intros [|a Is] [|b Js] I J D HI HJ; cbn [dims] in D; try tauto. idx HI HJ. cbn.
    destruct D as (-> & -> & D). eapply IHt; eauto.
Qed.
Lemma real_trace_ty t : real_ty (trace_ty t) = trace_ty (real_ty t).
Proof. induction t; cbn; congruence. Qed.
Lemma number_real : forall t x, typed (trace_ty t) x -> number (vreal x) = (fst (number x), rO).
Proof. induction t; intros x Hx; destruct x; try contradiction; cbn in *; auto. Qed.
Lemma number_imag : forall t x, typed (trace_ty t) x -> number (vimag x) = (snd (number x), rO).
Proof. induction t; intros x Hx; destruct x; try contradiction; cbn in *; auto. Qed.
Lemma fst_csum {A} (l : list A) f : (fst (csum l f), rO) = csum l (fun a => (fst (f a), rO)).
Proof.
  induction l; rewrite ?csum_cons, ?csum_nil; [reflexivity|]. rewrite <- IHl. unfold c_add. cbn. f_equal. ring.
Qed.
Lemma snd_csum {A} (l : list A) f : (snd (csum l f), rO) = csum l (fun a => (snd (f a), rO)).
Proof.
  induction l; rewrite ?csum_cons, ?csum_nil; [reflexivity|]. rewrite <- IHl. unfold c_add. cbn. f_equal. ring.
Qed.
Lemma realTrace_num : forall t x, square t -> pos t -> typed t x -> typed (trace_ty (real_ty t)) (vrealTrace x) /\
  number (vrealTrace x) = (fst (number (vtrace x)), rO).
Proof.
  induction t; intros x Sq P Hx; destruct x; try contradiction; cbn [TensorSpec.typed square pos trace_ty real_ty] in *.
  - now split.
  - now split.
  - destruct (IHt x Sq P Hx) as [T E]. split; [exact T|exact E].
  - destruct Hx as (<- & <- & Hx), P as [Pn P]. cbn [TensorSpec.number TensorModel.vrealTrace TensorModel.vtrace].
    destruct (number_accum (real_ty t) n (fun i => vrealTrace (f i i)) Pn) as [T E]; [intros; apply IHt; auto|].
    destruct (number_accum t n (fun i => vtrace (f i i)) Pn) as [T' E']; [intros; apply trace_ok; auto|].
    split; [exact T|]. rewrite E, E', fst_csum. apply csum_ext. intros k' Hk. apply in_seq in Hk.
    apply IHt; auto; apply Hx; lia.
Qed.
Lemma imagTrace_num : forall t x, square t -> pos t -> iscx t = true -> typed t x -> typed (trace_ty (real_ty t)) (vimagTrace x) /\
  number (vimagTrace x) = (snd (number (vtrace x)), rO).
Proof.
  induction t; intros x Sq P Cx Hx; destruct x; try contradiction; cbn [TensorSpec.typed square pos trace_ty real_ty iscx] in *.
  - discriminate.
  - now split.
  - destruct (IHt x Sq P Cx Hx) as [T E]. split; [exact T|exact E].
  - destruct Hx as (<- & <- & Hx), P as [Pn P]. cbn [TensorSpec.number TensorModel.vimagTrace TensorModel.vtrace].
    destruct (number_accum (real_ty t) n (fun i => vimagTrace (f i i)) Pn) as [T E]; [intros; apply IHt; auto|].
    destruct (number_accum t n (fun i => vtrace (f i i)) Pn) as [T' E']; [intros; apply trace_ok; auto|].
    split; [exact T|]. rewrite E, E', snd_csum. apply csum_ext. intros k' Hk. apply in_seq in Hk.
    apply IHt; auto; apply Hx; lia.
Qed.
(** imagTrace of a real object is its trace. *)
Lemma imagTrace_real : forall t x, square t -> pos t -> iscx t = false -> typed t x ->
  typed (trace_ty t) (vimagTrace x) /\ number (vimagTrace x) = number (vtrace x).
Proof.
  induction t; intros x Sq P Cx Hx; destruct x; try contradiction; cbn [TensorSpec.typed square pos trace_ty iscx] in *.
  - now split.
  - discriminate.
  - destruct (IHt x Sq P Cx Hx) as [T E]. split; [exact T|exact E].
  - destruct Hx as (<- & <- & Hx), P as [Pn P]. cbn [TensorSpec.number TensorModel.vimagTrace TensorModel.vtrace].
    destruct (number_accum t n (fun i => vimagTrace (f i i)) Pn) as [T E]; [intros; apply IHt; auto|].
    destruct (number_accum t n (fun i => vtrace (f i i)) Pn) as [T' E']; [intros; apply trace_ok; auto|].
    split; [exact T|]. rewrite E, E'. apply csum_ext. intros k' Hk. apply in_seq in Hk.
    apply IHt; auto; apply Hx; lia.
Qed.

(** * Inner products *)
Lemma ip_pos : forall a b t, ip_ty a b = Some t -> pos a -> pos b -> pos t.
Proof.
  induction a; destruct b; cbn [ip_ty]; intros t E Pa Pb; try discriminate;
    try (inversion E; exact Coq.Init.Logic.I); try dsame E Hs; dopt E F; cbn [pos] in *; intuition eauto.
Qed.
Lemma ip_ok : forall a b t x y, ip_ty a b = Some t -> pos a -> pos b -> typed a x -> typed b y ->
  typed (trace_ty t) (vlocalInnerProduct x y) /\
  number (vlocalInnerProduct x y) =
  csum (box (rows t)) (fun I => csum (box (cols t)) (fun J => cmul (cconj (entry x I J)) (entry y I J))).
Proof.
  induction a; destruct b; cbn [ip_ty]; intros t x y E Pa Pb Hx Hy; try discriminate;
    destruct x; try contradiction; destruct y; try contradiction; cbn [TensorSpec.typed pos] in *.
  - inversion E; subst. split; [exact Coq.Init.Logic.I|]. cbn [rows cols box]. rewrite !csum_one. cbn.
    unfold c_mul, c_conj. cbn. f_equal; ring.
  - inversion E; subst. split; [exact Coq.Init.Logic.I|]. cbn [rows cols box]. rewrite !csum_one. cbn.
    unfold c_mul, c_conj, c_localInnerProduct. cbn. f_equal; ring.
  - dopt E F. destruct (IHa _ _ _ _ F Pa Pb Hx Hy) as [T G]. split; [exact T|].
    cbn [TensorModel.vlocalInnerProduct TensorSpec.number rows cols].
    rewrite G, csum_box_cons, csum_seq1. apply csum_ext. intros I _. rewrite csum_box_cons, csum_seq1. reflexivity.
  - dopt E F. destruct Hy as (<- & <- & Hy), Pb as [Pn Pb].
    cbn [TensorModel.vlocalInnerProduct TensorSpec.number rows cols trace_ty].
    destruct (number_accum t' n (fun i => vlocalInnerProduct x (f i i)) Pn) as [T G]; [intros; eapply IHa; eauto|].
    split; [exact T|]. rewrite G, csum_box_cons. apply csum_ext. intros i Hi. apply in_seq in Hi.
    destruct (IHa _ _ x (f i i) F Pa Pb Hx) as [_ ->]; [apply Hy; lia|].
    apply csum_ext. intros I _. rewrite csum_box_cons.
    rewrite <- (delta_l n i (fun _ J => cconj (entry x I J)) (fun k' J => entry (f i k') I J) (box (cols t'))) by lia.
    apply csum_ext. intros j _. apply csum_ext. intros J _. cbn. destruct (Nat.eqb i j); [reflexivity|]. now rewrite conj_0.
  - dopt E F. destruct Hx as (<- & <- & Hx), Pa as [Pn Pa].
    cbn [TensorModel.vlocalInnerProduct TensorSpec.number rows cols trace_ty].
    destruct (number_accum t' n (fun i => vlocalInnerProduct (f i i) y) Pn) as [T G]; [intros; eapply IHa; eauto|].
    split; [exact T|]. rewrite G, csum_box_cons. apply csum_ext. intros i Hi. apply in_seq in Hi.
    destruct (IHa _ _ (f i i) y F Pa Pb) as [_ ->]; [apply Hx; lia|trivial|].
    apply csum_ext. intros I _. rewrite csum_box_cons.
    rewrite <- (delta_r n i (fun k' J => cconj (entry (f i k') I J)) (fun _ J => entry y I J) (box (cols t'))) by lia.
    apply csum_ext. intros j _. apply csum_ext. intros J _. cbn. now rewrite (Nat.eqb_sym i j).
  - dsame E Hs. dopt E F. destruct Hx as (<- & <- & Hx), Hy as (<- & <- & Hy), Pa as [Pn Pa], Pb as [_ Pb].
    cbn [TensorModel.vlocalInnerProduct rows cols trace_ty]. rewrite same_refl. cbn [TensorSpec.number].
    destruct (number_accum2 t' n (fun j x => vlocalInnerProduct (f x j) (f0 x j)) Pn) as [T G]; [intros; eapply IHa; eauto|].
    split; [exact T|]. rewrite G, csum_swap, csum_box_cons. apply csum_ext. intros i Hi. apply in_seq in Hi.
    transitivity (csum (seq 0 n) (fun k' => csum (box (rows t')) (fun I => csum (box (cols t')) (fun J => cmul (cconj (entry (f i k') I J)) (entry (f0 i k') I J))))).
    + apply csum_ext. intros k' Hk. apply in_seq in Hk. eapply IHa; eauto; [apply Hx|apply Hy]; lia.
    + rewrite csum_swap. apply csum_ext. intros I _. rewrite csum_box_cons. reflexivity.
  - dsame E Hs. dopt E F. destruct Hx as (<- & <- & Hx), Hy as (<- & <- & Hy), Pa as [Pn Pa], Pb as [_ Pb].
    cbn [TensorModel.vlocalInnerProduct rows cols trace_ty]. rewrite same_refl. cbn [TensorSpec.number].
    destruct (number_accum t' n (fun x => vlocalInnerProduct (f x) (f0 x)) Pn) as [T G]; [intros; eapply IHa; eauto|].
    split; [exact T|]. rewrite G, csum_box_cons. apply csum_ext. intros i Hi. apply in_seq in Hi.
    destruct (IHa _ _ (f i) (f0 i) F Pa Pb) as [_ ->]; [apply Hx; lia|apply Hy; lia|].
    apply csum_ext. intros I _. rewrite csum_box_cons, csum_seq1. reflexivity.
Qed.
Lemma ip_real_num : forall a b t x y, ip_ty a b = Some t -> no_ms a b -> pos a -> pos b -> typed a x -> typed b y ->
  typed (trace_ty (real_ty t)) (vlocalInnerProductReal x y) /\
  number (vlocalInnerProductReal x y) = (fst (number (vlocalInnerProduct x y)), rO).
Proof.
  induction a; destruct b; cbn [ip_ty no_ms]; intros t x y E N Pa Pb Hx Hy; try discriminate; try contradiction;
    destruct x; try contradiction; destruct y; try contradiction; cbn [TensorSpec.typed pos] in *.
  - inversion E; subst. now split.
  - inversion E; subst. now split.
  - dopt E F. destruct (IHa _ _ _ _ F N Pa Pb Hx Hy) as [T G]. split; [exact T|exact G].
  - dopt E F. destruct Hy as (<- & <- & Hy), Pb as [Pn Pb].
    cbn [TensorModel.vlocalInnerProduct TensorModel.vlocalInnerProductReal TensorSpec.number trace_ty real_ty].
    destruct (number_accum (real_ty t') n (fun i => vlocalInnerProductReal x (f i i)) Pn) as [T G]; [intros; eapply IHa; eauto|].
    destruct (number_accum t' n (fun i => vlocalInnerProduct x (f i i)) Pn) as [T' G']; [intros; eapply ip_ok; eauto|].
    split; [exact T|]. rewrite G, G', fst_csum. apply csum_ext. intros i Hi. apply in_seq in Hi.
    eapply IHa; eauto; apply Hy; lia.
  - dsame E Hs. dopt E F. destruct Hx as (<- & <- & Hx), Hy as (<- & <- & Hy), Pa as [Pn Pa], Pb as [_ Pb].
    cbn [TensorModel.vlocalInnerProduct TensorModel.vlocalInnerProductReal trace_ty real_ty]. rewrite same_refl. cbn [TensorSpec.number].
    destruct (number_accum2 (real_ty t') n (fun j x => vlocalInnerProductReal (f x j) (f0 x j)) Pn) as [T G]; [intros; eapply IHa; eauto|].
    destruct (number_accum2 t' n (fun j x => vlocalInnerProduct (f x j) (f0 x j)) Pn) as [T' G']; [intros; eapply ip_ok; eauto|].
    split; [exact T|]. rewrite G, G', fst_csum. apply csum_ext. intros i Hi. rewrite fst_csum. apply csum_ext. intros j Hj.
    apply in_seq in Hi, Hj. eapply IHa; eauto; [apply Hx|apply Hy]; lia.
  - dsame E Hs. dopt E F. destruct Hx as (<- & <- & Hx), Hy as (<- & <- & Hy), Pa as [Pn Pa], Pb as [_ Pb].
    cbn [TensorModel.vlocalInnerProduct TensorModel.vlocalInnerProductReal trace_ty real_ty]. rewrite same_refl. cbn [TensorSpec.number].
    destruct (number_accum (real_ty t') n (fun x => vlocalInnerProductReal (f x) (f0 x)) Pn) as [T G]; [intros; eapply IHa; eauto|].
    destruct (number_accum t' n (fun x => vlocalInnerProduct (f x) (f0 x)) Pn) as [T' G']; [intros; eapply ip_ok; eauto|].
    split; [exact T|]. rewrite G, G', fst_csum. apply csum_ext. intros i Hi. apply in_seq in Hi.
    eapply IHa; eauto; [apply Hx|apply Hy]; lia.
Qed.
Lemma norm2_ok : forall t x, pos t -> typed t x -> typed (trace_ty (real_ty t)) (vlocalNorm2 x) /\
  number (vlocalNorm2 x) =
  csum (box (rows t)) (fun I => csum (box (cols t)) (fun J => cmul (cconj (entry x I J)) (entry x I J))).
Proof.
  induction t; intros x P Hx; destruct x; try contradiction; cbn [TensorSpec.typed pos rows cols] in *.
  - split; [exact Coq.Init.Logic.I|]. cbn [box]. rewrite !csum_one. cbn. unfold c_mul, c_conj. cbn. f_equal; ring.
  - split; [exact Coq.Init.Logic.I|]. cbn [box]. rewrite !csum_one. cbn. unfold c_mul, c_conj, c_localNorm2. cbn. f_equal; ring.
  - destruct (IHt _ P Hx) as [T G]. split; [exact T|].
    cbn [TensorModel.vlocalNorm2 TensorSpec.number].
    rewrite G, csum_box_cons, csum_seq1. apply csum_ext. intros I _. rewrite csum_box_cons, csum_seq1. reflexivity.
  - destruct Hx as (<- & <- & Hx), P as [Pn P].
    cbn [TensorModel.vlocalNorm2 trace_ty TensorSpec.number real_ty].
    destruct (number_accum2 (real_ty t) n (fun i j => vlocalNorm2 (f i j)) Pn) as [T G]; [intros; eapply IHt; eauto|].
    split; [exact T|]. rewrite G, csum_box_cons. apply csum_ext. intros i Hi. apply in_seq in Hi.
    transitivity (csum (seq 0 n) (fun k' => csum (box (rows t)) (fun I => csum (box (cols t)) (fun J => cmul (cconj (entry (f i k') I J)) (entry (f i k') I J))))).
    + apply csum_ext. intros k' Hk. apply in_seq in Hk. eapply IHt; eauto; apply Hx; lia.
    + rewrite csum_swap. apply csum_ext. intros I _. rewrite csum_box_cons. reflexivity.
  - destruct Hx as (<- & <- & Hx), P as [Pn P].
    cbn [TensorModel.vlocalNorm2 trace_ty TensorSpec.number real_ty].
    destruct (number_accum (real_ty t) n (fun i => vlocalNorm2 (f i)) Pn) as [T G]; [intros; eapply IHt; eauto|].
    split; [exact T|]. rewrite G, csum_box_cons. apply csum_ext. intros i Hi. apply in_seq in Hi.
    destruct (IHt (f i) P) as [_ ->]; [apply Hx; lia|].
    apply csum_ext. intros I _. rewrite csum_box_cons, csum_seq1. reflexivity.
Qed.

(** trace(adj(x) y) is the inner product. *)
Lemma ip_prod : forall a b t, prod_ty a b = Some t -> square a -> square b -> iscx a = iscx b -> ip_ty a b = Some t.
Proof.
  induction a; destruct b; cbn [prod_ty ip_ty]; intros t E Sa Sb Cx; try discriminate; try contradiction; auto;
    try (dsame E Hs); dopt E F; cbn [square iscx] in *; rewrite (IHa _ _ F); auto.
Qed.
Lemma ip_trace a b t x y : prod_ty a b = Some t -> pos a -> pos b -> square a -> square b ->
  iscx a = iscx b -> typed a x -> typed b y ->
  eqv (trace_ty t) (vlocalInnerProduct x y) (vtrace (vmul (vadj x) y)).
Proof.
  intros E Pa Pb Sa Sb Cx Hx Hy. destruct (adj_ok a x) as [Ta Ga]; auto.
  destruct (mul_ok a b t (vadj x) y E) as [T' _]; auto. destruct (prod_square _ _ _ E Sa Sb) as [_ St].
  destruct (ip_ok a b t x y) as [T G]; eauto using ip_prod.
  apply number_eqv; [trivial|apply trace_ok; eauto using prod_pos|].
  rewrite G, (trace_mul a b t); auto. rewrite (square_cols t St), csum_swap.
  destruct (prod_own _ _ _ E Pa Pb Sa Sb) as [D D'].
  apply csum_ext. intros I HI. apply csum_ext. intros J HJ. apply in_box in HI, HJ.
  erewrite Ga by eauto. reflexivity.
Qed.

(** <u, m v> = <adj(m) u, v> *)
Lemma act_dims : forall m t, prod_ty m t = Some t -> square m -> pos t -> forall Is Js, dims t Is Js -> dims m Is Is.
Proof.
  induction m; destruct t; cbn [prod_ty]; intros E Sq P [|p Is] [|q Js] D; cbn [dims square pos] in *; try discriminate; try contradiction; auto.
  - dopt E F. destruct D as (_ & ? & D). repeat split; auto. eapply IHm; eauto.
  - dopt E F. destruct D as (-> & _ & D), P. repeat split; auto. eapply IHm; eauto.
  - dopt E F. destruct D as (-> & _ & D), P. repeat split; auto. eapply IHm; eauto.
  - dopt E F.
  - dsame E Hs. dopt E F. destruct D as (-> & _ & D), P. repeat split; auto. eapply IHm; eauto.
  - dsame E Hs. dopt E F. destruct D as (-> & _ & D), P. repeat split; auto. eapply IHm; eauto.
Qed.
Lemma ip_adjoint m t t' u v x : prod_ty m t = Some t -> ip_ty t t = Some t' -> pos m -> pos t -> square m ->
  typed m x -> typed t u -> typed t v ->
  eqv (trace_ty t') (vlocalInnerProduct u (vmul x v)) (vlocalInnerProduct (vmul (vadj x) u) v).
Proof.
  intros E F Pm Pt Sm Hx Hu Hv. destruct (adj_ok m x) as [Ta Ga]; auto.
  assert (Ft : t' = t). { revert F. clear. revert t'. induction t; cbn; intros t' F; try (inversion F; reflexivity);
    try rewrite same_refl in F; destruct (ip_ty t t) eqn:G; try discriminate; inversion F; f_equal; auto. }
  subst t'.
  destruct (mul_ok m t t x v E) as [T1 G1]; auto. destruct (mul_ok m t t (vadj x) u E) as [T2 G2]; auto.
  destruct (ip_ok t t t u (vmul x v)) as [T3 G3]; auto. destruct (ip_ok t t t (vmul (vadj x) u) v) as [T4 G4]; auto.
  apply number_eqv; auto. rewrite G3, G4.
  pose proof (dims_own t Pt) as D. pose proof (act_dims m t E Sm Pt _ _ D) as Dm.
  transitivity (csum (box (rows t)) (fun I => csum (box (cols t)) (fun J => csum (box (rows t)) (fun K =>
     cmul (cconj (entry u I J)) (cmul (entry x I K) (entry v K J)))))).
  - apply csum_ext. intros I HI. apply csum_ext. intros J HJ. apply in_box in HI, HJ. erewrite G1 by eauto.
    now rewrite csum_mul_l.
  - symmetry. transitivity (csum (box (rows t)) (fun K => csum (box (cols t)) (fun J => csum (box (rows t)) (fun I =>
     cmul (cconj (entry u I J)) (cmul (entry x I K) (entry v K J)))))).
    + apply csum_ext. intros K HK. apply csum_ext. intros J HJ. apply in_box in HK, HJ. erewrite G2 by eauto.
      rewrite <- csum_conj, <- csum_mul_r. apply csum_ext. intros I HI. apply in_box in HI. erewrite Ga by eauto.
      rewrite conj_mul, conj_invol. ring.
    + rewrite csum_swap. symmetry. rewrite csum_swap. apply csum_ext. intros J HJ. rewrite csum_swap. reflexivity.
Qed.

(** * Outer products *)
Lemma outer_ok : forall a b t x y, outer_ty a b = Some t -> typed a x -> typed b y ->
  typed t (vouterProduct x y) /\
  forall I J, inb I (rows t) -> inb J (rows t) ->
    entry (vouterProduct x y) I J = cmul (entry x I (zeros (cols a))) (cconj (entry y J (zeros (cols b)))).
Proof.
  induction a; destruct b; cbn [outer_ty]; intros t x y E Hx Hy; try discriminate;
    destruct x; try contradiction; destruct y; try contradiction; cbn [TensorSpec.typed pos] in *.
  1-4: inversion E; subst; split; [exact Coq.Init.Logic.I|]; intros; cbn;
    unfold c_mul, c_conj, c_outerProduct, c_outerProduct_cs, c_outerProduct_sc; cbn; f_equal; ring.
  - dopt E F. destruct (IHa _ _ _ _ F Hx Hy) as [T G]. split; [exact T|].
    intros I J HI HJ. cbn [rows] in *. idx HI HJ. assert (i = 0) by lia. assert (j = 0) by lia. subst.
    cbn. now apply G.
  - dsame E Hs. dopt E F. destruct Hx as (<- & <- & Hx), Hy as (<- & <- & Hy).
    cbn [TensorModel.vouterProduct]. rewrite same_refl.
    split; [cbn; repeat split; intros; eapply IHa; eauto|].
    intros I J HI HJ. cbn [rows] in *. idx HI HJ. cbn. eapply IHa; eauto.
Qed.
Lemma traceSpinOuter_ok n a b t x y : 0 < n -> outer_ty a b = Some t -> typed (TV Spin n a) x -> typed (TV Spin n b) y ->
  eqv (TS t) (vtraceSpinOuterProduct radd rmul rsub ropp x y) (vtraceK radd Spin (vouterProduct x y)).
Proof.
  intros Hn E Hx Hy. destruct x; try contradiction; destruct y; try contradiction.
  destruct Hx as (<- & <- & Hx), Hy as (<- & <- & Hy). cbn. rewrite Nat.eqb_refl. cbn.
  apply eqv_refl. apply accum_ok; [trivial|]. intros. eapply outer_ok; eauto.
Qed.
End Traces.
