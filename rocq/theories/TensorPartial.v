(** Traces over spin or colour alone, and their fused forms. *)
From Coq Require Import List PeanoNat Bool Lia Ring Ring_theory.
From Verif Require Import Base ComplexModel PropComplex TensorModel TensorSpec TensorProofs TensorLaws TensorTrace.
Import ListNotations.
Set Default Timeout 120.

Section Partial.
Set Default Proof Using "All".
Context {R : Type} (rO rI : R) (radd rmul rsub : R -> R -> R) (ropp : R -> R).
Context (Rth : ring_theory rO rI radd rmul rsub ropp (@eq R)).
Local Notation cadd := (c_add radd).
Local Notation cmul := (c_mul radd rmul rsub).
Local Notation cneg := (c_neg ropp).
Local Notation csub := (c_sub rsub).
Local Notation cconj := (c_conj ropp).
Local Notation c0 := (rO, rO).
Local Notation c1 := (rI, rO).
Local Notation cx := (R * R)%type.
Local Notation val := (@val R).
Local Notation typed := (@typed R).
Local Notation eqv := (@eqv R).
Local Notation entry := (@entry R rO).
Local Notation number := (@number R rO).
Local Notation csum := (@csum R rO radd).
Local Notation vadd := (vadd radd).
Local Notation vneg := (vneg ropp).
Local Notation vsub := (vsub rsub ropp).
Local Notation accum := (accum radd).
Local Notation accum2 := (accum2 radd).
Local Notation vmul := (vmul radd rmul rsub).
Local Notation vadj := (vadj ropp).
Local Notation vconj := (vconj ropp).
Local Notation vtrace := (vtrace radd).
Local Notation vadjMultiply := (vadjMultiply radd rmul rsub).
Local Notation vmultiplyAdj := (vmultiplyAdj radd rmul rsub).
Local Notation vadjMultiplyAdj := (vadjMultiplyAdj radd rmul rsub ropp).
Local Notation vtraceMultiply := (vtraceMultiply radd rmul rsub).
Local Notation vlocalInnerProduct := (vlocalInnerProduct radd rmul rsub).
Local Notation vlocalInnerProductReal := (vlocalInnerProductReal radd rmul).
Local Notation vlocalNorm2 := (vlocalNorm2 radd rmul).
Local Notation vouterProduct := (vouterProduct radd rmul rsub ropp).
Add Ring Rr4 : Rth.
Add Ring Cr4 : (cring rO rI radd rmul rsub ropp Rth).
Local Notation prod_dims := (prod_dims rO rI radd rmul rsub ropp Rth).
Local Notation prod_pos := (prod_pos rO rI radd rmul rsub ropp Rth).
Local Notation sum_dims := (sum_dims rO rI radd rmul rsub ropp Rth).
Local Notation csum_cons := (csum_cons rO rI radd rmul rsub ropp Rth).
Local Notation csum_nil := (csum_nil rO rI radd rmul rsub ropp Rth).
Local Notation csum_ext := (csum_ext rO rI radd rmul rsub ropp Rth).
Local Notation csum_app := (csum_app rO rI radd rmul rsub ropp Rth).
Local Notation csum_map := (csum_map rO rI radd rmul rsub ropp Rth).
Local Notation csum_flat_map := (csum_flat_map rO rI radd rmul rsub ropp Rth).
Local Notation csum_0 := (csum_0 rO rI radd rmul rsub ropp Rth).
Local Notation csum_zero := (csum_zero rO rI radd rmul rsub ropp Rth).
Local Notation csum_add := (csum_add rO rI radd rmul rsub ropp Rth).
Local Notation csum_mul_l := (csum_mul_l rO rI radd rmul rsub ropp Rth).
Local Notation csum_mul_r := (csum_mul_r rO rI radd rmul rsub ropp Rth).
Local Notation csum_swap := (csum_swap rO rI radd rmul rsub ropp Rth).
Local Notation conj_add := (conj_add rO rI radd rmul rsub ropp Rth).
Local Notation conj_mul := (conj_mul rO rI radd rmul rsub ropp Rth).
Local Notation conj_0 := (conj_0 rO rI radd rmul rsub ropp Rth).
Local Notation conj_invol := (conj_invol rO rI radd rmul rsub ropp Rth).
Local Notation csum_conj := (csum_conj rO rI radd rmul rsub ropp Rth).
Local Notation csum_neg := (csum_neg rO rI radd rmul rsub ropp Rth).
Local Notation csum_delta := (csum_delta rO rI radd rmul rsub ropp Rth).
Local Notation csum_delta' := (csum_delta' rO rI radd rmul rsub ropp Rth).
Local Notation csum_box_cons := (csum_box_cons rO rI radd rmul rsub ropp Rth).
Local Notation csum_one := (csum_one rO rI radd rmul rsub ropp Rth).
Local Notation eqv_refl := (eqv_refl rO rI radd rmul rsub ropp Rth).
Local Notation eqv_sym := (eqv_sym rO rI radd rmul rsub ropp Rth).
Local Notation eqv_trans := (eqv_trans rO rI radd rmul rsub ropp Rth).
Local Notation eqv_typed := (eqv_typed rO rI radd rmul rsub ropp Rth).
Local Notation eqv_typed_r := (eqv_typed_r rO rI radd rmul rsub ropp Rth).
Local Notation eqv_entry := (eqv_entry rO rI radd rmul rsub ropp Rth).
Local Notation eqv_ext := (eqv_ext rO rI radd rmul rsub ropp Rth).
Local Notation add_typed := (add_typed rO rI radd rmul rsub ropp Rth).
Local Notation add_entry := (add_entry rO rI radd rmul rsub ropp Rth).
Local Notation fold_add_ok := (fold_add_ok rO rI radd rmul rsub ropp Rth).
Local Notation accum_ok := (accum_ok rO rI radd rmul rsub ropp Rth).
Local Notation accum_ext := (accum_ext rO rI radd rmul rsub ropp Rth).
Local Notation accum2_ok := (accum2_ok rO rI radd rmul rsub ropp Rth).
Local Notation neg_ok := (neg_ok rO rI radd rmul rsub ropp Rth).
Local Notation add_ok := (add_ok rO rI radd rmul rsub ropp Rth).
Local Notation sub_ok := (sub_ok rO rI radd rmul rsub ropp Rth).
Local Notation delta_l := (delta_l rO rI radd rmul rsub ropp Rth).
Local Notation delta_r := (delta_r rO rI radd rmul rsub ropp Rth).
Local Notation mul_ok := (mul_ok rO rI radd rmul rsub ropp Rth).
Local Notation conj_ok := (conj_ok rO rI radd rmul rsub ropp Rth).
Local Notation adj_ok := (adj_ok rO rI radd rmul rsub ropp Rth).
Local Notation transpose_ok := (transpose_ok rO rI radd rmul rsub ropp Rth).
Local Notation eqv_M := (eqv_M rO rI radd rmul rsub ropp Rth).
Local Notation eqv_V := (eqv_V rO rI radd rmul rsub ropp Rth).
Local Notation adjMultiply_ok := (adjMultiply_ok rO rI radd rmul rsub ropp Rth).
Local Notation multiplyAdj_ok := (multiplyAdj_ok rO rI radd rmul rsub ropp Rth).
Local Notation adjMultiplyAdj_ok := (adjMultiplyAdj_ok rO rI radd rmul rsub ropp Rth).
Local Notation prod_some_dims := (prod_some_dims rO rI radd rmul rsub ropp Rth).
Local Notation mul_eqv := (mul_eqv rO rI radd rmul rsub ropp Rth).
Local Notation triple_dims := (triple_dims rO rI radd rmul rsub ropp Rth).
Local Notation mul_assoc := (mul_assoc rO rI radd rmul rsub ropp Rth).
Local Notation mul_add_l := (mul_add_l rO rI radd rmul rsub ropp Rth).
Local Notation mul_add_r := (mul_add_r rO rI radd rmul rsub ropp Rth).
Local Notation prod_square := (prod_square rO rI radd rmul rsub ropp Rth).
Local Notation adj_mul := (adj_mul rO rI radd rmul rsub ropp Rth).
Local Notation transpose_mul := (transpose_mul rO rI radd rmul rsub ropp Rth).
Local Notation conj_mul_ok := (conj_mul_ok rO rI radd rmul rsub ropp Rth).
Local Notation adj_involutive := (adj_involutive rO rI radd rmul rsub ropp Rth).
Local Notation vrealTrace := (vrealTrace radd).
Local Notation vimagTrace := (vimagTrace radd).
Local Notation vtimesI := (vtimesI rO ropp).
Local Notation vtimesMinusI := (vtimesMinusI rO ropp).
Local Notation vimag := (vimag rO).

Local Notation number_entry := (number_entry rO rI radd rmul rsub ropp Rth).
Local Notation number_accum := (number_accum rO rI radd rmul rsub ropp Rth).
Local Notation number_eqv := (number_eqv rO rI radd rmul rsub ropp Rth).
Local Notation eqv_number := (eqv_number rO rI radd rmul rsub ropp Rth).
Local Notation trace_ok := (trace_ok rO rI radd rmul rsub ropp Rth).
Local Notation traceMultiply_num := (traceMultiply_num rO rI radd rmul rsub ropp Rth).
Local Notation traceMultiply_ok := (traceMultiply_ok rO rI radd rmul rsub ropp Rth).
Local Notation real_ok := (real_ok rO rI radd rmul rsub ropp Rth).
Local Notation imag_ok := (imag_ok rO rI radd rmul rsub ropp Rth).
Local Notation timesI_ok := (timesI_ok rO rI radd rmul rsub ropp Rth).
Local Notation timesMinusI_ok := (timesMinusI_ok rO rI radd rmul rsub ropp Rth).
Local Notation realTrace_num := (realTrace_num rO rI radd rmul rsub ropp Rth).
Local Notation imagTrace_num := (imagTrace_num rO rI radd rmul rsub ropp Rth).
Local Notation ip_ok := (ip_ok rO rI radd rmul rsub ropp Rth).
Local Notation ip_real_num := (ip_real_num rO rI radd rmul rsub ropp Rth).
Local Notation ip_trace := (ip_trace rO rI radd rmul rsub ropp Rth).
Local Notation outer_ok := (outer_ok rO rI radd rmul rsub ropp Rth).
Local Notation norm2_ok := (norm2_ok rO rI radd rmul rsub ropp Rth).
Local Notation number_real := (number_real rO rI radd rmul rsub ropp Rth).
Local Notation vtraceK := (vtraceK radd).
Local Notation vtraceKMultiply := (vtraceKMultiply radd rmul rsub).
Ltac idx HI HJ := apply inb_cons_l in HI as (i & I' & -> & Hi & HI), HJ as (j & J' & -> & Hj & HJ).
Ltac dsame E Hs := match type of E with context [same ?a ?b ?c ?d] => destruct (same a b c d) eqn:Hs; [|discriminate]; apply same_iff in Hs as [<- <-] end.
Ltac dopt E F := match type of E with context [option_map _ ?o] => let u := fresh "u" in destruct o as [u|] eqn:F; [|discriminate]; inversion E; subst; clear E end.


(** * Partial traces *)
Lemma trK_pos q : forall t t', trK_ty q t = Some t' -> pos t -> pos t'.
Proof.
  induction t; cbn [trK_ty]; intros t' E P; try discriminate.
  - dopt E F. cbn [pos] in *. eauto.
  - destruct P. destruct (kind_eqb k q); [inversion E; subst; trivial|]. dopt E F. cbn [pos]. eauto.
Qed.
Lemma level_trK q : forall t t', trK_ty q t = Some t' -> exists p n, level q t = Some (p, n).
Proof.
  induction t; cbn [trK_ty level]; intros t' E; try discriminate.
  - dopt E F. destruct (IHt _ eq_refl) as (p & n & ->). cbn. eauto.
  - destruct (kind_eqb k q); [eauto|]. dopt E F. destruct (IHt _ eq_refl) as (p & m & ->). cbn. eauto.
Qed.
Lemma traceK_ok q : forall t t' x, trK_ty q t = Some t' -> pos t -> typed t x ->
  typed t' (vtraceK q x) /\
  forall p n, level q t = Some (p, n) -> forall I J, inb I (rows t') -> inb J (cols t') ->
    entry (vtraceK q x) I J = csum (seq 0 n) (fun i => entry x (set_at p i I) (set_at p i J)).
Proof.
  induction t; cbn [trK_ty level]; intros t' x E P Hx; try discriminate; destruct x; try contradiction; cbn [TensorSpec.typed pos] in *.
  - dopt E F. destruct (IHt _ x eq_refl P Hx) as [T G]. split; [exact T|].
    intros p n L I J HI HJ. cbn [rows cols] in *. idx HI HJ. assert (i = 0) by lia. assert (j = 0) by lia. subst.
    destruct (level q t) as [[p' n']|] eqn:L'; [|discriminate]. inversion L; subst.
    cbn. now apply (G p' n).
  - destruct P as [Pn P], Hx as (<- & <- & Hx). cbn [TensorModel.vtraceK]. destruct (kind_eqb k q).
    + inversion E; subst. destruct (accum_ok t n (fun i => f i i) Pn) as [T G]; [auto|]. split; [exact T|].
      intros p m L I J HI HJ. inversion L; subst. cbn [rows cols] in *. idx HI HJ. assert (i = 0) by lia. assert (j = 0) by lia. subst.
      cbn. eapply G; eauto using dims_own.
    + dopt E F. split; [cbn; repeat split; intros; eapply IHt; eauto|].
      intros p m L I J HI HJ. destruct (level q t) as [[p' n']|] eqn:L'; [|discriminate]. inversion L; subst.
      cbn [rows cols] in *. idx HI HJ. cbn. eapply IHt; eauto.
Qed.
Lemma traceK_eqv q t t' x y : trK_ty q t = Some t' -> eqv t x y -> pos t -> eqv t' (vtraceK q x) (vtraceK q y).
Proof.
  revert t' x y; induction t; cbn [trK_ty]; intros t' x y E H P; try discriminate; destruct x; try contradiction; destruct y; try contradiction;
    cbn [TensorSpec.eqv pos] in *.
  - dopt E F. cbn. eauto.
  - destruct P as [Pn P], H as (<- & <- & <- & <- & H). cbn [TensorModel.vtraceK]. destruct (kind_eqb k q).
    + inversion E; subst. cbn. apply accum_ext; auto.
    + dopt E F. cbn. repeat split; auto.
Qed.
(** The partial trace is linear. *)
Lemma traceK_accum q t t' n g : trK_ty q t = Some t' -> pos t -> 0 < n -> (forall k, k < n -> typed t (g k)) ->
  eqv t' (accum n (fun x => vtraceK q (g x))) (vtraceK q (accum n g)).
Proof.
  intros E P Pn Hg. destruct (level_trK q t t' E) as (p & m & L). pose proof (trK_pos _ _ _ E P) as P'.
  destruct (accum_ok t n g Pn Hg) as [T G]. destruct (traceK_ok q t t' (accum n g) E P T) as [T1 G1].
  destruct (accum_ok t' n (fun x => vtraceK q (g x)) Pn) as [T2 G2]; [intros; eapply traceK_ok; eauto|].
  pose proof (dims_own t' P') as D'. apply (eqv_ext t' _ _ (rows t') (cols t')); auto.
  intros I J HI HJ. erewrite G1, G2 by eauto.
  assert (Hset : forall i, i < m -> inb (set_at p i I) (rows t) /\ inb (set_at p i J) (cols t)).
  { clear - HI HJ L E. intros i Hi. revert t t' E p m L I J HI HJ Hi. induction t; cbn [trK_ty level]; intros t' E p m L I J HI HJ Hi; try discriminate.
    - dopt E F. destruct (level q t) as [[p' n']|] eqn:L'; [|discriminate]. inversion L; subst. cbn [rows cols] in *. 
      apply inb_cons_l in HI as (i0 & I' & -> & Hi0 & HI), HJ as (j0 & J' & -> & Hj0 & HJ). cbn.
      destruct (IHt _ eq_refl _ _ eq_refl _ _ HI HJ Hi). split; now constructor.
    - destruct (kind_eqb k q).
      + inversion L; inversion E; subst. cbn [rows cols] in *.
        apply inb_cons_l in HI as (i0 & I' & -> & Hi0 & HI), HJ as (j0 & J' & -> & Hj0 & HJ). cbn. split; now constructor.
      + dopt E F. destruct (level q t) as [[p' n']|] eqn:L'; [|discriminate]. inversion L; subst. cbn [rows cols] in *. 
        apply inb_cons_l in HI as (i0 & I' & -> & Hi0 & HI), HJ as (j0 & J' & -> & Hj0 & HJ). cbn.
        destruct (IHt _ eq_refl _ _ eq_refl _ _ HI HJ Hi). split; now constructor. }
  transitivity (csum (seq 0 n) (fun k => csum (seq 0 m) (fun i => entry (g k) (set_at p i I) (set_at p i J)))).
  - apply csum_ext. intros k Hk. apply in_seq in Hk. eapply traceK_ok; eauto. apply Hg; lia.
  - rewrite csum_swap. apply csum_ext. intros i Hi. apply in_seq in Hi. destruct (Hset i) as [S1 S2]; [lia|].
    symmetry. eapply G; eauto using dims_own.
Qed.

(** * Fused partial traces *)
(** The level of kind q is outermost. *)
Lemma traceKM_top q n a b t x y : prod_ty a b = Some (TM q n t) -> pos a -> pos b -> typed a x -> typed b y ->
  eqv (TS t) (vtraceKMultiply q x y) (vtraceK q (vmul x y)).
Proof.
  intros E Pa Pb Hx Hy. assert (K : kind_eqb q q = true) by now destruct q.
  destruct (mul_ok a b _ x y E) as [T _]; auto.
  destruct a; destruct b; cbn [prod_ty] in E; try discriminate; try (destruct (same _ _ _ _) eqn:Hs in E; [apply same_iff in Hs as [<- <-]|discriminate]);
    match type of E with option_map _ ?o = _ => destruct o as [t'|] eqn:F; [|discriminate]; inversion E; subst; clear E end;
    destruct x; try contradiction; destruct y; try contradiction; cbn [TensorSpec.typed pos] in *.
  - destruct Hy as (<- & <- & Hy), Pb as [Pn Pb]. cbn. rewrite K. cbn. apply eqv_refl. apply accum_ok; [trivial|].
    intros. eapply mul_ok; eauto.
  - destruct Hx as (<- & <- & Hx), Pa as [Pn Pa]. cbn. rewrite K. cbn. apply eqv_refl. apply accum_ok; [trivial|].
    intros. eapply mul_ok; eauto.
  - destruct Hx as (<- & <- & Hx), Hy as (<- & <- & Hy), Pa as [Pn Pa], Pb as [_ Pb].
    cbn [TensorModel.vtraceKMultiply TensorModel.vmul]. rewrite same_refl, K. cbn [TensorModel.vtraceK]. rewrite K. cbn [TensorSpec.eqv].
    assert (Tm : forall i j, i < n -> j < n -> typed t (vmul (f i j) (f0 j i))) by (intros; eapply mul_ok; eauto).
    assert (Pt : pos t) by eauto using prod_pos.
    destruct (accum2_ok t n (fun j x => vmul (f j x) (f0 x j)) Pn) as [T1 G1]; [auto|].
    destruct (accum_ok t n (fun i => accum n (fun x => vmul (f i x) (f0 x i))) Pn) as [T2 G2];
      [intros; apply accum_ok; auto|].
    apply (eqv_ext t _ _ (rows t) (cols t)); auto using dims_own.
    intros I J HI HJ. erewrite G1, G2 by eauto using dims_own. apply csum_ext. intros j Hj. apply in_seq in Hj.
    symmetry. apply (proj2 (accum_ok t n (fun k => vmul (f j k) (f0 k j)) Pn (fun k Hk => Tm j k ltac:(lia) Hk)) _ _ I J (dims_own t Pt)); auto.
Qed.
(** The level of kind q is innermost: the full trace is the partial one. *)
Lemma traceKM_inner q n b0 a b x y : (b0 = TR \/ b0 = TC) -> prod_ty a b = Some (TM q n b0) ->
  pos a -> pos b -> square a -> square b -> iscx a = iscx b -> typed a x -> typed b y ->
  eqv (TS b0) (vtraceMultiply x y) (vtraceK q (vmul x y)).
Proof.
  intros B E Pa Pb Sa Sb Cx Hx Hy.
  pose proof (traceMultiply_ok a b _ x y E Pa Pb Sa Sb Cx Hx Hy) as H.
  destruct (mul_ok a b _ x y E) as [T _]; auto. pose proof (prod_pos _ _ _ E Pa Pb) as [Pn _].
  replace (trace_ty (TM q n b0)) with (TS b0) in H by now destruct B as [-> | ->].
  eapply eqv_trans; [exact H|]. destruct (vmul x y); try contradiction. cbn in T. destruct T as (<- & <- & T). cbn.
  replace (kind_eqb q q) with true by now destruct q. cbn. apply accum_ext; [trivial|]. intros k Hk.
  specialize (T k k Hk Hk). destruct B as [-> | ->]; destruct (f k k); try contradiction; try reflexivity; now destruct z.
Qed.
Definition col (c : ty) : Prop := c = TS TR \/ c = TS TC \/ exists m, c = TM Colour m TR \/ c = TM Colour m TC.
Lemma site_inv a : site a -> exists c, col c /\ (a = TS c \/ exists n, a = TM Spin n c).
Proof.
  unfold col. destruct a as [| |a|k n a|k n a]; try contradiction; [|destruct k; try contradiction];
    destruct a as [| |a|k' n' a|k' n' a]; try contradiction; try (destruct k'; try contradiction);
    destruct a; try contradiction; intros _; eexists; eauto 12.
Qed.
Lemma col_square c : col c -> square c.
Proof. intros [-> | [-> | [m [-> | ->]]]]; exact Coq.Init.Logic.I. Qed.
Lemma col_prod q c d t t2 : col c -> col d -> prod_ty c d = Some t -> trK_ty q t = Some t2 ->
  exists m b0, t = TM q m b0 /\ t2 = TS b0 /\ (b0 = TR \/ b0 = TC).
Proof.
  intros C D E K. destruct C as [-> | [-> | [m [-> | ->]]]], D as [-> | [-> | [m' [-> | ->]]]]; cbn in E;
    try (destruct (Nat.eqb _ _) in E; [|discriminate]); inversion E; subst; cbn in K; destruct q; cbn in K; try discriminate;
    inversion K; subst; eauto 8.
Qed.
Lemma traceKM_ok q a b t t' x y : site a -> site b -> iscx a = iscx b -> pos a -> pos b ->
  prod_ty a b = Some t -> trK_ty q t = Some t' -> typed a x -> typed b y ->
  eqv t' (vtraceKMultiply q x y) (vtraceK q (vmul x y)).
Proof.
  intros Sa Sb Cx Pa Pb E K Hx Hy. assert (Kr : kind_eqb q q = true) by now destruct q.
  destruct (site_inv a Sa) as (c & Cc & A), (site_inv b Sb) as (d & Cd & B). clear Sa Sb.
  destruct A as [-> | [na ->]], B as [-> | [nb ->]]; cbn [prod_ty] in E;
    try (destruct (same _ _ _ _) eqn:Hs in E; [apply same_iff in Hs as [_ <-]|discriminate]);
    dopt E F; destruct x; try contradiction; destruct y; try contradiction; cbn [TensorSpec.typed pos iscx trK_ty] in *.
  - dopt K G. destruct (col_prod q _ _ _ _ Cc Cd F G) as (m & b0 & -> & -> & B0).
    cbn [TensorModel.vtraceKMultiply TensorModel.vmul TensorModel.vtraceK TensorSpec.eqv].
    eapply traceKM_inner; eauto using col_square.
  - destruct (kind_eqb Spin q) eqn:Kq.
    + inversion K; subst. destruct q; [|discriminate]. apply (traceKM_top Spin nb (TS c) (TM Spin nb d)); auto. cbn. now rewrite F.
    + dopt K G. destruct (col_prod q _ _ _ _ Cc Cd F G) as (m & b0 & -> & -> & B0).
      destruct Hy as (<- & <- & Hy), Pb as [Pn Pb]. destruct q; [discriminate|]. cbn. repeat split; intros. now apply (traceKM_top Colour m c d); [..|apply Hy].
  - destruct (kind_eqb Spin q) eqn:Kq.
    + inversion K; subst. destruct q; [|discriminate]. apply (traceKM_top Spin na (TM Spin na c) (TS d)); auto. cbn. now rewrite F.
    + dopt K G. destruct (col_prod q _ _ _ _ Cc Cd F G) as (m & b0 & -> & -> & B0).
      destruct Hx as (<- & <- & Hx), Pa as [Pn Pa]. destruct q; [discriminate|]. cbn. repeat split; intros. now apply (traceKM_top Colour m c d); [..|apply Hx|].
  - destruct (kind_eqb Spin q) eqn:Kq.
    + inversion K; subst. destruct q; [|discriminate]. apply (traceKM_top Spin na (TM Spin na c) (TM Spin na d)); auto. cbn. now rewrite Nat.eqb_refl, F.
    + dopt K G. destruct (col_prod q _ _ _ _ Cc Cd F G) as (m & b0 & -> & -> & B0).
      destruct Hx as (<- & <- & Hx), Hy as (<- & <- & Hy), Pa as [Pn Pa], Pb as [_ Pb]. cbn [TensorModel.vtraceKMultiply TensorModel.vmul].
      rewrite same_refl, Kq. cbn [TensorModel.vtraceK]. rewrite Kq. cbn [TensorSpec.eqv]. repeat split; intros i j Hi Hj.
      change (eqv (TS b0) (accum na (fun x => vtraceKMultiply q (f i x) (f0 x j))) (vtraceK q (accum na (fun x => vmul (f i x) (f0 x j)))));
      eapply eqv_trans; [apply (accum_ext (TS b0)) with (h := fun x => vtraceK q (vmul (f i x) (f0 x j))); [trivial|]; intros; apply (traceKM_top q m c d); auto|].
      apply (traceK_accum q (TM q m b0)); auto.
      * eapply prod_pos; eauto.
      * intros. eapply mul_ok; eauto.
Qed.
End Partial.
