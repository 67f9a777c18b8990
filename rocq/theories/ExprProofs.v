(** The rewriting of expression trees does not change their value. *)
From Coq Require Import List PeanoNat Bool Lia Ring Ring_theory.
From Verif Require Import Base ComplexModel PropComplex TensorModel TensorSpec TensorProofs TensorLaws TensorTrace TensorPartial ExprModel ExprSpec.
Import ListNotations.
Set Default Timeout 120.

Section Expr.
Set Default Proof Using "All".
Context {R : Type} (rO rI : R) (radd rmul rsub : R -> R -> R) (ropp : R -> R).
Context (Rth : ring_theory rO rI radd rmul rsub ropp (@eq R)).
Local Notation cadd := (c_add radd).
Local Notation cmul := (c_mul radd rmul rsub).
Local Notation cneg := (c_neg ropp).
Local Notation csub := (c_sub rsub).
Local Notation cconj := (c_conj ropp).
Local Notation c0 := (rO, rO).
Local Notation c1 := (rI, rO).
Local Notation cx := (R * R)%type.
Local Notation val := (@val R).
Local Notation typed := (@typed R).
Local Notation eqv := (@eqv R).
Local Notation entry := (@entry R rO).
Local Notation number := (@number R rO).
Local Notation csum := (@csum R rO radd).
Local Notation vadd := (vadd radd).
Local Notation vneg := (vneg ropp).
Local Notation vsub := (vsub rsub ropp).
Local Notation accum := (accum radd).
Local Notation accum2 := (accum2 radd).
Local Notation vmul := (vmul radd rmul rsub).
Local Notation vadj := (vadj ropp).
Local Notation vconj := (vconj ropp).
Local Notation vtrace := (vtrace radd).
Local Notation vadjMultiply := (vadjMultiply radd rmul rsub).
Local Notation vmultiplyAdj := (vmultiplyAdj radd rmul rsub).
Local Notation vadjMultiplyAdj := (vadjMultiplyAdj radd rmul rsub ropp).
Local Notation vtraceMultiply := (vtraceMultiply radd rmul rsub).
Local Notation vlocalInnerProduct := (vlocalInnerProduct radd rmul rsub).
Local Notation vlocalInnerProductReal := (vlocalInnerProductReal radd rmul).
Local Notation vlocalNorm2 := (vlocalNorm2 radd rmul).
Local Notation vouterProduct := (vouterProduct radd rmul rsub ropp).
Add Ring Rr5 : Rth.
Add Ring Cr5 : (cring rO rI radd rmul rsub ropp Rth).
Local Notation prod_dims := (prod_dims rO rI radd rmul rsub ropp Rth).
Local Notation prod_pos := (prod_pos rO rI radd rmul rsub ropp Rth).
Local Notation sum_dims := (sum_dims rO rI radd rmul rsub ropp Rth).
Local Notation csum_cons := (csum_cons rO rI radd rmul rsub ropp Rth).
Local Notation csum_nil := (csum_nil rO rI radd rmul rsub ropp Rth).
Local Notation csum_ext := (csum_ext rO rI radd rmul rsub ropp Rth).
Local Notation csum_app := (csum_app rO rI radd rmul rsub ropp Rth).
Local Notation csum_map := (csum_map rO rI radd rmul rsub ropp Rth).
Local Notation csum_flat_map := (csum_flat_map rO rI radd rmul rsub ropp Rth).
Local Notation csum_0 := (csum_0 rO rI radd rmul rsub ropp Rth).
Local Notation csum_zero := (csum_zero rO rI radd rmul rsub ropp Rth).
Local Notation csum_add := (csum_add rO rI radd rmul rsub ropp Rth).
Local Notation csum_mul_l := (csum_mul_l rO rI radd rmul rsub ropp Rth).
Local Notation csum_mul_r := (csum_mul_r rO rI radd rmul rsub ropp Rth).
Local Notation csum_swap := (csum_swap rO rI radd rmul rsub ropp Rth).
Local Notation conj_add := (conj_add rO rI radd rmul rsub ropp Rth).
Local Notation conj_mul := (conj_mul rO rI radd rmul rsub ropp Rth).
Local Notation conj_0 := (conj_0 rO rI radd rmul rsub ropp Rth).
Local Notation conj_invol := (conj_invol rO rI radd rmul rsub ropp Rth).
Local Notation csum_conj := (csum_conj rO rI radd rmul rsub ropp Rth).
Local Notation csum_neg := (csum_neg rO rI radd rmul rsub ropp Rth).
Local Notation csum_delta := (csum_delta rO rI radd rmul rsub ropp Rth).
Local Notation csum_delta' := (csum_delta' rO rI radd rmul rsub ropp Rth).
Local Notation csum_box_cons := (csum_box_cons rO rI radd rmul rsub ropp Rth).
Local Notation csum_one := (csum_one rO rI radd rmul rsub ropp Rth).
Local Notation eqv_refl := (eqv_refl rO rI radd rmul rsub ropp Rth).
Local Notation eqv_sym := (eqv_sym rO rI radd rmul rsub ropp Rth).
Local Notation eqv_trans := (eqv_trans rO rI radd rmul rsub ropp Rth).
Local Notation eqv_typed := (eqv_typed rO rI radd rmul rsub ropp Rth).
Local Notation eqv_typed_r := (eqv_typed_r rO rI radd rmul rsub ropp Rth).
Local Notation eqv_entry := (eqv_entry rO rI radd rmul rsub ropp Rth).
Local Notation eqv_ext := (eqv_ext rO rI radd rmul rsub ropp Rth).
Local Notation add_typed := (add_typed rO rI radd rmul rsub ropp Rth).
Local Notation add_entry := (add_entry rO rI radd rmul rsub ropp Rth).
Local Notation fold_add_ok := (fold_add_ok rO rI radd rmul rsub ropp Rth).
Local Notation accum_ok := (accum_ok rO rI radd rmul rsub ropp Rth).
Local Notation accum_ext := (accum_ext rO rI radd rmul rsub ropp Rth).
Local Notation accum2_ok := (accum2_ok rO rI radd rmul rsub ropp Rth).
Local Notation neg_ok := (neg_ok rO rI radd rmul rsub ropp Rth).
Local Notation add_ok := (add_ok rO rI radd rmul rsub ropp Rth).
Local Notation sub_ok := (sub_ok rO rI radd rmul rsub ropp Rth).
Local Notation delta_l := (delta_l rO rI radd rmul rsub ropp Rth).
Local Notation delta_r := (delta_r rO rI radd rmul rsub ropp Rth).
Local Notation mul_ok := (mul_ok rO rI radd rmul rsub ropp Rth).
Local Notation conj_ok := (conj_ok rO rI radd rmul rsub ropp Rth).
Local Notation adj_ok := (adj_ok rO rI radd rmul rsub ropp Rth).
Local Notation transpose_ok := (transpose_ok rO rI radd rmul rsub ropp Rth).
Local Notation eqv_M := (eqv_M rO rI radd rmul rsub ropp Rth).
Local Notation eqv_V := (eqv_V rO rI radd rmul rsub ropp Rth).
Local Notation adjMultiply_ok := (adjMultiply_ok rO rI radd rmul rsub ropp Rth).
Local Notation multiplyAdj_ok := (multiplyAdj_ok rO rI radd rmul rsub ropp Rth).
Local Notation adjMultiplyAdj_ok := (adjMultiplyAdj_ok rO rI radd rmul rsub ropp Rth).
Local Notation prod_some_dims := (prod_some_dims rO rI radd rmul rsub ropp Rth).
Local Notation mul_eqv := (mul_eqv rO rI radd rmul rsub ropp Rth).
Local Notation triple_dims := (triple_dims rO rI radd rmul rsub ropp Rth).
Local Notation mul_assoc := (mul_assoc rO rI radd rmul rsub ropp Rth).
Local Notation mul_add_l := (mul_add_l rO rI radd rmul rsub ropp Rth).
Local Notation mul_add_r := (mul_add_r rO rI radd rmul rsub ropp Rth).
Local Notation prod_square := (prod_square rO rI radd rmul rsub ropp Rth).
Local Notation adj_mul := (adj_mul rO rI radd rmul rsub ropp Rth).
Local Notation transpose_mul := (transpose_mul rO rI radd rmul rsub ropp Rth).
Local Notation conj_mul_ok := (conj_mul_ok rO rI radd rmul rsub ropp Rth).
Local Notation adj_involutive := (adj_involutive rO rI radd rmul rsub ropp Rth).
Local Notation vrealTrace := (vrealTrace radd).
Local Notation vimagTrace := (vimagTrace radd).
Local Notation vtimesI := (vtimesI rO ropp).
Local Notation vtimesMinusI := (vtimesMinusI rO ropp).
Local Notation vimag := (vimag rO).

Local Notation number_entry := (number_entry rO rI radd rmul rsub ropp Rth).
Local Notation number_accum := (number_accum rO rI radd rmul rsub ropp Rth).
Local Notation number_eqv := (number_eqv rO rI radd rmul rsub ropp Rth).
Local Notation eqv_number := (eqv_number rO rI radd rmul rsub ropp Rth).
Local Notation trace_ok := (trace_ok rO rI radd rmul rsub ropp Rth).
Local Notation traceMultiply_num := (traceMultiply_num rO rI radd rmul rsub ropp Rth).
Local Notation traceMultiply_ok := (traceMultiply_ok rO rI radd rmul rsub ropp Rth).
Local Notation real_ok := (real_ok rO rI radd rmul rsub ropp Rth).
Local Notation imag_ok := (imag_ok rO rI radd rmul rsub ropp Rth).
Local Notation timesI_ok := (timesI_ok rO rI radd rmul rsub ropp Rth).
Local Notation timesMinusI_ok := (timesMinusI_ok rO rI radd rmul rsub ropp Rth).
Local Notation realTrace_num := (realTrace_num rO rI radd rmul rsub ropp Rth).
Local Notation imagTrace_num := (imagTrace_num rO rI radd rmul rsub ropp Rth).
Local Notation ip_ok := (ip_ok rO rI radd rmul rsub ropp Rth).
Local Notation ip_real_num := (ip_real_num rO rI radd rmul rsub ropp Rth).
Local Notation ip_trace := (ip_trace rO rI radd rmul rsub ropp Rth).
Local Notation outer_ok := (outer_ok rO rI radd rmul rsub ropp Rth).
Local Notation norm2_ok := (norm2_ok rO rI radd rmul rsub ropp Rth).
Local Notation number_real := (number_real rO rI radd rmul rsub ropp Rth).
Local Notation vtraceK := (vtraceK radd).
Local Notation vtraceKMultiply := (vtraceKMultiply radd rmul rsub).
Local Notation traceK_ok := (traceK_ok rO rI radd rmul rsub ropp Rth).
Local Notation traceK_eqv := (traceK_eqv rO rI radd rmul rsub ropp Rth).
Local Notation traceKM_ok := (traceKM_ok rO rI radd rmul rsub ropp Rth).
Local Notation traceSpinOuter_ok := (traceSpinOuter_ok rO rI radd rmul rsub ropp Rth).
Local Notation trK_pos := (trK_pos rO rI radd rmul rsub ropp Rth).
Local Notation ip_pos := (ip_pos rO rI radd rmul rsub ropp Rth).
Local Notation trace_pos := (trace_pos rO rI radd rmul rsub ropp Rth).
Local Notation real_trace_ty := (real_trace_ty rO rI radd rmul rsub ropp Rth).
Local Notation number_imag := (number_imag rO rI radd rmul rsub ropp Rth).
Local Notation zeros_inb := (zeros_inb rO rI radd rmul rsub ropp Rth).
Ltac idx HI HJ := apply inb_cons_l in HI as (i & I' & -> & Hi & HI), HJ as (j & J' & -> & Hj & HJ).
Ltac dsame E Hs := match type of E with context [same ?a ?b ?c ?d] => destruct (same a b c d) eqn:Hs; [|discriminate]; apply same_iff in Hs as [<- <-] end.
Ltac dopt E F := match type of E with context [option_map _ ?o] => let u := fresh "u" in destruct o as [u|] eqn:F; [|discriminate]; inversion E; subst; clear E end.



Variable env : nat -> val.
Variable G : nat -> ty.
Hypothesis env_ok : forall i, pos (G i) /\ typed (G i) (env i).
Local Notation ev := (eval rO radd rmul rsub ropp env).

(** * Congruence *)
Lemma sum_own : forall a b t, sum_ty a b = Some t -> pos a -> pos b ->
  pos t /\ dims t (rows t) (cols t) /\ dims a (rows t) (cols t) /\ dims b (rows t) (cols t).
Proof.
  assert (A : forall a b t, sum_ty a b = Some t -> pos a -> pos b ->
    pos t /\ dims a (rows t) (cols t) /\ dims b (rows t) (cols t)).
  { induction a; destruct b; cbn [sum_ty]; intros t E Pa Pb; try discriminate;
      try (inversion E; subst; repeat split; exact Coq.Init.Logic.I); cbn [pos] in *.
    - dopt E F. destruct (IHa _ _ F Pa Pb) as (P & D & D'). cbn. repeat split; auto; lia.
    - destruct Pb as [Pn Pb]. destruct (sum_ty a b) as [u|] eqn:F; [|discriminate]. destruct (ty_eqb u b) eqn:Ub; [|discriminate].
      apply ty_eqb_eq in Ub. inversion E; subst. destruct (IHa _ _ F Pa Pb) as (P & D & D'). cbn. repeat split; auto.
    - destruct Pa as [Pn Pa]. destruct (sum_ty a b) as [u|] eqn:F; [|discriminate]. destruct (ty_eqb u a) eqn:Ub; [|discriminate].
      apply ty_eqb_eq in Ub. inversion E; subst. destruct (IHa _ _ F Pa Pb) as (P & D & D'). cbn. repeat split; auto.
    - dsame E Hs. dopt E F. destruct Pa as [Pn Pa], Pb as [_ Pb]. destruct (IHa _ _ F Pa Pb) as (P & D & D'). cbn. repeat split; auto.
    - dsame E Hs. dopt E F. destruct Pa as [Pn Pa], Pb as [_ Pb]. destruct (IHa _ _ F Pa Pb) as (P & D & D'). cbn. repeat split; auto. }
  intros a b t E Pa Pb. destruct (A a b t E Pa Pb) as (P & D & D'). auto using dims_own.
Qed.
Lemma neg_eqv : forall t x y, eqv t x y -> eqv t (vneg x) (vneg y).
Proof.
  induction t; intros x y E; destruct x; try contradiction; destruct y; try contradiction;
  cbn [TensorSpec.eqv] in E; try (subst; reflexivity); try (now apply IHt);
  destruct E as (<- & <- & <- & <- & E); first [apply eqv_M | apply eqv_V]; intros; apply IHt, E; auto.
Qed.
Lemma conj_eqv : forall t x y, eqv t x y -> eqv t (vconj x) (vconj y).
Proof.
  induction t; intros x y E; destruct x; try contradiction; destruct y; try contradiction;
  cbn [TensorSpec.eqv] in E; try (subst; reflexivity); try (now apply IHt);
  destruct E as (<- & <- & <- & <- & E); first [apply eqv_M | apply eqv_V]; intros; apply IHt, E; auto.
Qed.
Lemma real_eqv : forall t x y, eqv t x y -> eqv (real_ty t) (vreal x) (vreal y).
Proof.
  induction t; intros x y E; destruct x; try contradiction; destruct y; try contradiction;
  cbn [TensorSpec.eqv] in E; try (subst; reflexivity); try (now apply IHt);
  destruct E as (<- & <- & <- & <- & E); first [apply eqv_M | apply eqv_V]; intros; apply IHt, E; auto.
Qed.
Lemma imag_eqv : forall t x y, eqv t x y -> eqv (real_ty t) (vimag x) (vimag y).
Proof.
  induction t; intros x y E; destruct x; try contradiction; destruct y; try contradiction;
  cbn [TensorSpec.eqv] in E; try (subst; reflexivity); try (now apply IHt);
  destruct E as (<- & <- & <- & <- & E); first [apply eqv_M | apply eqv_V]; intros; apply IHt, E; auto.
Qed.
Lemma timesI_eqv : forall t x y, eqv t x y -> eqv (complex_ty t) (vtimesI x) (vtimesI y).
Proof.
  induction t; intros x y E; destruct x; try contradiction; destruct y; try contradiction;
  cbn [TensorSpec.eqv] in E; try (subst; reflexivity); try (now apply IHt);
  destruct E as (<- & <- & <- & <- & E); first [apply eqv_M | apply eqv_V]; intros; apply IHt, E; auto.
Qed.
Lemma timesMinusI_eqv : forall t x y, eqv t x y -> eqv (complex_ty t) (vtimesMinusI x) (vtimesMinusI y).
Proof.
  induction t; intros x y E; destruct x; try contradiction; destruct y; try contradiction;
  cbn [TensorSpec.eqv] in E; try (subst; reflexivity); try (now apply IHt);
  destruct E as (<- & <- & <- & <- & E); first [apply eqv_M | apply eqv_V]; intros; apply IHt, E; auto.
Qed.
Lemma adj_eqv : forall t x y, square t -> eqv t x y -> eqv t (vadj x) (vadj y).
Proof.
  induction t; intros x y Sq E; destruct x; try contradiction; destruct y; try contradiction;
  cbn [TensorSpec.eqv square] in *; try (subst; reflexivity); try (now apply IHt);
  destruct E as (<- & <- & <- & <- & E); first [apply eqv_M | apply eqv_V]; intros; apply IHt; auto.
Qed.
Lemma transpose_eqv : forall t x y, square t -> eqv t x y -> eqv t (vtranspose x) (vtranspose y).
Proof.
  induction t; intros x y Sq E; destruct x; try contradiction; destruct y; try contradiction;
  cbn [TensorSpec.eqv square] in *; try (subst; reflexivity); try (now apply IHt);
  destruct E as (<- & <- & <- & <- & E); first [apply eqv_M | apply eqv_V]; intros; apply IHt; auto.
Qed.
Lemma trace_eqv t x y : square t -> pos t -> eqv t x y -> eqv (trace_ty t) (vtrace x) (vtrace y).
Proof.
  intros Sq P E. pose proof (eqv_typed _ _ _ E) as Hx. pose proof (eqv_typed_r _ _ _ E) as Hy.
  destruct (trace_ok t x) as [T1 G1]; auto. destruct (trace_ok t y) as [T2 G2]; auto.
  apply number_eqv; auto. rewrite G1, G2. apply csum_ext. intros I HI. apply in_box in HI.
  pose proof (dims_own t P) as D. rewrite (square_cols t Sq) in D. eapply eqv_entry; eauto.
Qed.
Lemma add_eqv a b t x x' y y' : sum_ty a b = Some t -> pos a -> pos b -> eqv a x x' -> eqv b y y' ->
  eqv t (vadd x y) (vadd x' y').
Proof.
  intros E Pa Pb H H'. pose proof (eqv_typed _ _ _ H). pose proof (eqv_typed_r _ _ _ H).
  pose proof (eqv_typed _ _ _ H'). pose proof (eqv_typed_r _ _ _ H').
  destruct (add_ok a b t x y) as [T1 G1]; auto. destruct (add_ok a b t x' y') as [T2 G2]; auto.
  destruct (sum_own a b t E Pa Pb) as (Pt & Dt & Da & Db).
  apply (eqv_ext t _ _ (rows t) (cols t)); auto.
  intros I J HI HJ. erewrite G1, G2 by eauto.
  rewrite (eqv_entry a x x' H (rows t) (cols t)), (eqv_entry b y y' H' (rows t) (cols t)); auto.
Qed.
Lemma sub_eqv a b t x x' y y' : sum_ty a b = Some t -> pos a -> pos b -> eqv a x x' -> eqv b y y' ->
  eqv t (vsub x y) (vsub x' y').
Proof.
  intros E Pa Pb H H'. pose proof (eqv_typed _ _ _ H). pose proof (eqv_typed_r _ _ _ H).
  pose proof (eqv_typed _ _ _ H'). pose proof (eqv_typed_r _ _ _ H').
  destruct (sub_ok a b t x y) as [T1 G1]; auto. destruct (sub_ok a b t x' y') as [T2 G2]; auto.
  destruct (sum_own a b t E Pa Pb) as (Pt & Dt & Da & Db).
  apply (eqv_ext t _ _ (rows t) (cols t)); auto.
  intros I J HI HJ. erewrite G1, G2 by eauto.
  rewrite (eqv_entry a x x' H (rows t) (cols t)), (eqv_entry b y y' H' (rows t) (cols t)); auto.
Qed.
Lemma outer_eqv : forall a b t x x' y y', outer_ty a b = Some t -> eqv a x x' -> eqv b y y' ->
  eqv t (vouterProduct x y) (vouterProduct x' y').
Proof.
  induction a; destruct b; cbn [outer_ty]; intros t x x' y y' E H H'; try discriminate;
    destruct x; try contradiction; destruct x'; try contradiction; destruct y; try contradiction; destruct y'; try contradiction;
    cbn [TensorSpec.eqv] in *; try (inversion E; subst; reflexivity).
  - dopt E F. cbn. eauto.
  - dsame E Hs. dopt E F. destruct H as (<- & <- & <- & <- & H), H' as (<- & <- & <- & <- & H').
    cbn [TensorModel.vouterProduct]. rewrite same_refl. apply eqv_M. intros. eapply IHa; eauto.
Qed.
Lemma ip_dims : forall a b t, ip_ty a b = Some t -> pos a -> pos b -> dims a (rows t) (cols t) /\ dims b (rows t) (cols t).
Proof.
  induction a; destruct b; cbn [ip_ty]; intros t E Pa Pb; try discriminate; try (inversion E; subst; split; exact Coq.Init.Logic.I);
    try dsame E Hs; dopt E F; cbn [pos] in *; (edestruct (IHa b u); intuition eauto); cbn [dims rows cols]; repeat split; auto; lia.
Qed.
Lemma inner_eqv a b t x x' y y' : ip_ty a b = Some t -> pos a -> pos b -> eqv a x x' -> eqv b y y' ->
  eqv (trace_ty t) (vlocalInnerProduct x y) (vlocalInnerProduct x' y').
Proof.
  intros E Pa Pb H H'. pose proof (eqv_typed _ _ _ H). pose proof (eqv_typed_r _ _ _ H).
  pose proof (eqv_typed _ _ _ H'). pose proof (eqv_typed_r _ _ _ H').
  destruct (ip_ok a b t x y) as [T1 G1]; auto. destruct (ip_ok a b t x' y') as [T2 G2]; auto.
  apply number_eqv; auto. rewrite G1, G2. destruct (ip_dims a b t E Pa Pb) as [Da Db].
  apply csum_ext. intros I HI. apply csum_ext. intros J HJ. apply in_box in HI, HJ.
  rewrite (eqv_entry a x x' H (rows t) (cols t)), (eqv_entry b y y' H' (rows t) (cols t)); auto.
Qed.

(** * Typing *)
Lemma real_pos t : pos t -> pos (real_ty t).
Proof. induction t; cbn; intuition. Qed.
Lemma complex_pos t : pos t -> pos (complex_ty t).
Proof. induction t; cbn; intuition. Qed.
Lemma outer_pos : forall a b t, outer_ty a b = Some t -> pos a -> pos b -> pos t.
Proof.
  induction a; destruct b; cbn [outer_ty]; intros t E Pa Pb; try discriminate;
    try (inversion E; exact Coq.Init.Logic.I); try dsame E Hs; dopt E F; cbn [pos] in *; intuition eauto.
Qed.
Lemma nt_pos e t : ntyped G e t -> pos t.
Proof.
  induction 1; auto using trace_pos, real_pos, complex_pos.
  - apply env_ok.
  - edestruct sum_own; eauto.
  - edestruct sum_own; eauto.
  - eauto using prod_pos.
  - eapply trK_pos; eauto.
  - eapply outer_pos; eauto.
  - eauto using prod_pos.
  - eauto using prod_pos.
  - eauto using prod_pos.
  - eapply trK_pos; [eauto|]. eauto using prod_pos.
  - cbn in *. eapply outer_pos; intuition eauto.
Qed.
Lemma nt_fun e t : ntyped G e t -> forall t', ntyped G e t' -> t = t'.
Proof.
  induction 1; intros u U; inversion U; subst; auto;
    repeat match goal with
    | IH : forall t', ntyped G ?a t' -> _ = t', H : ntyped G ?a _ |- _ => apply IH in H; subst
    end; congruence.
Qed.
Lemma nt_typed e t : ntyped G e t -> typed t (ev e).
Proof.
  induction 1; cbn [eval];
    repeat match goal with H : ntyped G ?a ?t |- _ => lazymatch goal with H' : pos t |- _ => fail | _ => pose proof (nt_pos _ _ H) end end.
  - apply env_ok.
  - auto.
  - now apply neg_ok.
  - eapply add_ok; eauto.
  - eapply sub_ok; eauto.
  - eapply mul_ok; eauto.
  - now apply adj_ok.
  - now apply conj_ok.
  - now apply transpose_ok.
  - now apply trace_ok.
  - eapply traceK_ok; eauto.
  - now apply real_ok.
  - now apply imag_ok.
  - now apply timesI_ok.
  - now apply timesMinusI_ok.
  - eapply outer_ok; eauto.
  - eapply ip_ok; eauto.
  - eapply eqv_typed, adjMultiply_ok; eauto.
  - eapply eqv_typed, multiplyAdj_ok; eauto.
  - eapply eqv_typed, adjMultiplyAdj_ok; eauto.
  - eapply (traceMultiply_num ta tb); eauto.
  - eapply eqv_typed, (traceKM_ok q ta tb); eauto.
  - cbn [pos] in *. eapply eqv_typed, (traceSpinOuter_ok n ta tb); eauto; tauto.
  - now apply realTrace_num.
  - eapply ip_real_num; eauto.
Qed.

Lemma prod_ip : forall a b x y, prod_ty a b = Some x -> ip_ty a b = Some y -> square a -> square b /\ x = y.
Proof.
  induction a; destruct b; cbn [prod_ty ip_ty square]; intros x y E1 E2 Hs; try discriminate; try contradiction;
    try (inversion E1; inversion E2; subst; split; [exact Coq.Init.Logic.I|reflexivity]);
    try (destruct (same _ _ _ _) eqn:Hs'; [|discriminate]);
    (destruct (prod_ty a b) eqn:F1; [|discriminate]); (destruct (ip_ty a b) eqn:F2; [|discriminate]);
    cbn in E1, E2; inversion E1; inversion E2; subst; destruct (IHa _ _ _ F1 F2 Hs) as [? ->]; auto.
Qed.
(** * The smart constructors *)
Ltac inv H := inversion H; subst; clear H.
Ltac tys := repeat match goal with
  | H : ntyped G ?a ?t |- _ => lazymatch goal with H' : pos t |- _ => fail | _ => pose proof (nt_pos _ _ H); pose proof (nt_typed _ _ H) end end.
Lemma mk_mul_ok l r t : ntyped G (mk_mul l r) t ->
  ntyped G (Mul l r) t /\ eqv t (ev (mk_mul l r)) (ev (Mul l r)).
Proof.
  assert (P : forall a b u, ntyped G (Mul a b) u -> ntyped G (Mul a b) u /\ eqv u (ev (Mul a b)) (ev (Mul a b)))
    by (intros; split; [auto|apply eqv_refl, nt_typed; auto]).
  assert (A : forall a b u, ntyped G (AdjMul (Id a) b) u -> ntyped G (Mul (Adj a) b) u /\ eqv u (ev (AdjMul (Id a) b)) (ev (Mul (Adj a) b))).
  { intros a b u H. inv H. inv H2. tys. split; [econstructor; eauto; econstructor; eauto|]. eapply adjMultiply_ok; eauto. }
  assert (B : forall a b u, ntyped G (MulAdj a (Id b)) u -> ntyped G (Mul a (Adj b)) u /\ eqv u (ev (MulAdj a (Id b))) (ev (Mul a (Adj b)))).
  { intros a b u H. inv H. inv H3. tys. split; [econstructor; eauto; econstructor; eauto|]. eapply multiplyAdj_ok; eauto. }
  assert (C : forall a b u, ntyped G (AdjMulAdj (Id a) (Id b)) u -> ntyped G (Mul (Adj a) (Adj b)) u /\ eqv u (ev (AdjMulAdj (Id a) (Id b))) (ev (Mul (Adj a) (Adj b)))).
  { intros a b u H. inv H. inv H2. inv H3. tys. split; [econstructor; eauto; econstructor; eauto|]. eapply adjMultiplyAdj_ok; eauto. }
  destruct l; cbn [mk_mul]; try (destruct r; auto; fail).
Qed.
Lemma mk_trace_ok l t u : ntyped G l u -> ntyped G (mk_trace l) t ->
  ntyped G (Trace l) t /\ eqv t (ev (mk_trace l)) (ev (Trace l)).
Proof.
  intros Hl H.
  assert (P : forall a, ntyped G (Trace a) t -> ntyped G (Trace a) t /\ eqv t (ev (Trace a)) (ev (Trace a)))
    by (intros; split; [auto|apply eqv_refl, nt_typed; auto]).
  destruct l; cbn [mk_trace] in *; auto; inv H; inv Hl;
    repeat match goal with H1 : ntyped G ?a ?x, H2 : ntyped G ?a ?y |- _ => pose proof (nt_fun _ _ H1 _ H2); subst; clear H2 end.
  - match goal with H1 : prod_ty ?a ?b = Some ?x, H2 : prod_ty ?a ?b = Some ?y |- _ => assert (x = y) by congruence; subst end.
    tys. edestruct prod_square as [_ Su]; [| | |]; eauto. split; [econstructor; eauto; econstructor; eauto|]. eapply traceMultiply_ok; eauto.
  - tys.
    match goal with H1 : prod_ty ?a ?b = Some ?x, H2 : ip_ty ?a ?b = Some ?y |- _ =>
      assert (square b /\ x = y) as [Sb ->] end.
    { eapply prod_ip; eauto. }
    edestruct prod_square as [_ Su]; [| | |]; eauto. split; [econstructor; eauto; econstructor; eauto|].
    eapply eqv_trans; [eapply ip_trace; eauto|].
    apply trace_eqv; eauto using prod_pos. apply eqv_sym. eapply adjMultiply_ok; eauto.
Qed.
Lemma mk_traceK_ok q l t u : ntyped G l u -> ntyped G (mk_traceK q l) t ->
  ntyped G (TraceK q l) t /\ eqv t (ev (mk_traceK q l)) (ev (TraceK q l)).
Proof.
  intros Hl H.
  assert (P : forall q a, ntyped G (TraceK q a) t -> ntyped G (TraceK q a) t /\ eqv t (ev (TraceK q a)) (ev (TraceK q a)))
    by (intros; split; [auto|apply eqv_refl, nt_typed; auto]).
  assert (M : forall q a b, ntyped G (TraceKMul q a b) t -> ntyped G (TraceK q (Mul a b)) t /\ eqv t (ev (TraceKMul q a b)) (ev (TraceK q (Mul a b)))).
  { intros q' a b H'. inv H'. tys. split; [econstructor; eauto; econstructor; eauto|]. eapply (traceKM_ok q' ta tb); eauto. }
  assert (O : forall a b, ntyped G (TraceSpinOuter a b) t -> ntyped G (TraceK Spin (Outer a b)) t /\ eqv t (ev (TraceSpinOuter a b)) (ev (TraceK Spin (Outer a b)))).
  { intros a b H'. inv H'. tys. split.
    - eapply TyTraceK; [eapply TyOuter; eauto; cbn [outer_ty]; rewrite same_refl; match goal with H : outer_ty _ _ = Some _ |- _ => rewrite H end; reflexivity|]. reflexivity.
    - cbn [pos] in *. eapply (traceSpinOuter_ok n ta tb); eauto; tauto. }
  destruct q, l; cbn [mk_traceK] in *; auto.
Qed.
Lemma mk_real_ok l t u : ntyped G l u -> ntyped G (mk_real l) t ->
  ntyped G (Real l) t /\ eqv t (ev (mk_real l)) (ev (Real l)).
Proof.
  intros Hl H.
  assert (P : forall a, ntyped G (Real a) t -> ntyped G (Real a) t /\ eqv t (ev (Real a)) (ev (Real a)))
    by (intros; split; [auto|apply eqv_refl, nt_typed; auto]).
  destruct l; cbn [mk_real] in *; auto; inv H; tys.
  - rewrite <- real_trace_ty. split; [econstructor; econstructor; eauto|]. rewrite real_trace_ty. cbn [eval].
    destruct (realTrace_num t0 (ev l)) as [T1 G1]; auto. destruct (trace_ok t0 (ev l)) as [T2 G2]; auto.
    apply number_eqv; auto; [rewrite <- real_trace_ty; now apply real_ok|]. rewrite G1. symmetry. now apply (number_real t0).
  - rewrite <- real_trace_ty. split; [econstructor; econstructor; eauto|]. rewrite real_trace_ty. cbn [eval].
    destruct (ip_real_num ta tb t0 (ev l1) (ev l2)) as [T1 G1]; auto. destruct (ip_ok ta tb t0 (ev l1) (ev l2)) as [T2 G2]; auto.
    apply number_eqv; auto; [rewrite <- real_trace_ty; now apply real_ok|]. rewrite G1. symmetry. now apply (number_real t0).
Qed.

(** * The theorem *)
Lemma build_ok : forall e, compiles G e -> forall t, ntyped G (build e) t ->
  ntyped G (plain e) t /\ eqv t (ev (build e)) (ev (plain e)).
Proof.
  assert (V : forall e t, ntyped G e t -> pos t) by (intros; eapply nt_pos; eauto).
  induction e; cbn [compiles build plain]; intros [_ C] t H.
  - split; [trivial|]. now apply eqv_refl, nt_typed.
  - inv H. destruct (IHe C _ H1) as [T E]. split; [now constructor|]. now apply neg_eqv.
  - destruct C as [C1 C2]. inv H. destruct (IHe1 C1 _ H2) as [T1 E1], (IHe2 C2 _ H3) as [T2 E2].
    split; [econstructor; eauto|]. eapply add_eqv; eauto.
  - destruct C as [C1 C2]. inv H. destruct (IHe1 C1 _ H2) as [T1 E1], (IHe2 C2 _ H3) as [T2 E2].
    split; [econstructor; eauto|]. eapply sub_eqv; eauto.
  - destruct C as [C1 C2]. apply mk_mul_ok in H as [H E]. inv H. destruct (IHe1 C1 _ H2) as [T1 E1], (IHe2 C2 _ H3) as [T2 E2].
    split; [econstructor; eauto|]. eapply eqv_trans; [exact E|]. eapply mul_eqv; eauto.
  - inv H. destruct (IHe C _ H1) as [T E]. split; [now constructor|]. now apply adj_eqv.
  - inv H. destruct (IHe C _ H1) as [T E]. split; [now constructor|]. now apply conj_eqv.
  - inv H. destruct (IHe C _ H1) as [T E]. split; [now constructor|]. now apply transpose_eqv.
  - assert (exists u, ntyped G (build e) u) as [u Hu] by (destruct e; apply C).
    destruct (mk_trace_ok _ _ _ Hu H) as [H' E']. inv H'. destruct (IHe C _ H1) as [T E]. split; [now constructor|].
    eapply eqv_trans; [exact E'|]. apply trace_eqv; eauto.
  - assert (exists u, ntyped G (build e) u) as [u Hu] by (destruct e; apply C).
    destruct (mk_traceK_ok _ _ _ _ Hu H) as [H' E']. inv H'. destruct (IHe C _ H2) as [T E]. split; [econstructor; eauto|].
    eapply eqv_trans; [exact E'|]. eapply traceK_eqv; eauto.
  - assert (exists u, ntyped G (build e) u) as [u Hu] by (destruct e; apply C).
    destruct (mk_real_ok _ _ _ Hu H) as [H' E']. inv H'. destruct (IHe C _ H1) as [T E]. split; [now constructor|].
    eapply eqv_trans; [exact E'|]. now apply real_eqv.
  - inv H. destruct (IHe C _ H1) as [T E]. split; [now constructor|]. now apply imag_eqv.
  - inv H. destruct (IHe C _ H1) as [T E]. split; [now constructor|]. now apply timesI_eqv.
  - inv H. destruct (IHe C _ H1) as [T E]. split; [now constructor|]. now apply timesMinusI_eqv.
  - destruct C as [C1 C2]. inv H. destruct (IHe1 C1 _ H2) as [T1 E1], (IHe2 C2 _ H3) as [T2 E2].
    split; [econstructor; eauto|]. eapply outer_eqv; eauto.
  - destruct C as [C1 C2]. inv H. destruct (IHe1 C1 _ H2) as [T1 E1], (IHe2 C2 _ H3) as [T2 E2].
    split; [econstructor; eauto|]. eapply inner_eqv; eauto.
Qed.
End Expr.
