(** A specialisation applied to a run of sites (FuseModel.v), entry by entry of the table. *)
From Coq Require Import ZArith List String Bool Lia Ring.
From Verif Require Import Base SetModel SetSpec EvalModel GammaModel KernLang KernSpec FuseModel FuseSpec.
Import ListNotations.
Local Open Scope string_scope.
Local Open Scope Z_scope.

Lemma upper_shift t i : upper (24 * t + i) = upper i.
Proof. unfold upper. now rewrite Z.add_comm, Z.mul_comm, Z_mod_plus_full. Qed.
Lemma re_part_shift t i : re_part (24 * t + i) = re_part i.
Proof.
  unfold re_part. replace (24 * t + i) with (i + (12 * t) * 2) by ring. now rewrite Z_mod_plus_full.
Qed.
Lemma mod_24_2 i : (i mod 24) mod 2 = i mod 2.
Proof.
  pose proof (Z.div_mod i 24 ltac:(lia)).
  replace (i mod 24) with (i + (-12 * (i / 24)) * 2) by lia. apply Z_mod_plus_full.
Qed.
(** The imaginary part next to a real part is in the same site and spin half. *)
Lemma re_next i : re_part i = true -> (i + 1) / 24 = i / 24 /\ upper (i + 1) = upper i.
Proof.
  unfold re_part, upper. intros E%Z.eqb_eq. rewrite <- mod_24_2 in E.
  pose proof (Z.mod_pos_bound i 24 ltac:(lia)) as B. pose proof (Z.div_mod i 24 ltac:(lia)) as D.
  pose proof (Z.div_mod (i mod 24) 2 ltac:(lia)) as D2. set (k := i mod 24 / 2) in *.
  assert (Q : (i + 1) / 24 = i / 24) by (symmetry; apply Z.div_unique with (i mod 24 + 1); lia).
  split; [exact Q|].
  assert (M : (i + 1) mod 24 = i mod 24 + 1) by (symmetry; apply Z.mod_unique with (i / 24); lia).
  rewrite M. destruct (Z.ltb_spec (i mod 24 + 1) 12), (Z.ltb_spec (i mod 24) 12); lia.
Qed.
Lemma im_prev i : re_part i = false -> (i - 1) / 24 = i / 24 /\ upper (i - 1) = upper i.
Proof.
  intros E. assert (E1 : re_part (i - 1) = true).
  { unfold re_part in *. apply Z.eqb_neq in E. apply Z.eqb_eq.
    pose proof (Z.mod_pos_bound i 2 ltac:(lia)). pose proof (Z.div_mod i 2 ltac:(lia)).
    replace (i - 1) with (0 + (i / 2) * 2) by lia. apply Z_mod_plus_full. }
  destruct (re_next _ E1) as [A B]. replace (i - 1 + 1) with i in A, B by ring. auto.
Qed.

Section Site.
  Context {R : Type} (rO rI : R) (radd rmul rsub rdiv : R -> R -> R) (ropp : R -> R).
  Context (RT : ring_theory rO rI radd rmul rsub ropp eq).
  Context (DIV : forall x y, rdiv x y = rmul x (rdiv rI y)).
  Variable (d : ptr) (env : path -> ptr) (loc : nat).
  Notation value := (value rO).

  Definition result (sp : special) (m : memory R) : @vec R :=
    assigned radd rmul rsub rdiv (s_op sp) (value m d) (kind (s_rhs sp))
      (meaning rO radd rmul rsub ropp (fun q => value m (env q)) [] (s_rhs sp)).

  (** The locals hold what [enter1] put there. *)
  Definition local_ok (sp : special) (m : memory R) (sd : sdef) : Prop :=
    let arg a k := match assoc a (s_objs sp) with Some q => value m (env q) k | None => rO end in
    match sd with
    | SRef _ => True
    | SId a => m loc 0 = Some (arg a 0)
    | SNeg a => m loc 0 = Some (ropp (arg a 0))
    | SInv a => m loc 0 = Some (rdiv rI (arg a 0))
    | SOne => m loc 0 = Some rI
    | SNegC a => m loc 0 = Some (ropp (arg a 0)) /\ m loc 1 = Some (ropp (arg a 1))
    end.
  Definition ready (V : nat) (sp : special) (m : memory R) : Prop :=
    operands_ok m d env loc V sp /\ Forall (local_ok sp m) (map snd (s_scal sp)).

  (** [run] does the work for the sites [t .. t+n-1]. *)
  Definition does_sites (V : nat) (sp : special) (t n : Z) (run : memory R -> res (memory R)) : Prop :=
    forall m, ready V sp m ->
    exists m', run m = Val m' /\ stored m m' (forward d (24 * t)) (24 * n) (fun i => result sp m (24 * t + i)).

  Definition entry_ok (sp : special) : Prop := forall V,
    (forall start lo hi, 0 <= start -> 0 <= lo <= hi -> start + hi <= Z.of_nat V ->
       does_sites V sp (start + lo) (hi - lo) (ordered_call rO radd rmul rsub ropp d env loc sp start lo hi)) /\
    (forall i, 0 <= i -> i + 1 <= Z.of_nat V ->
       does_sites V sp i 1 (unordered_call rO radd rmul rsub ropp d env loc sp i)).

  Lemma fwd_fwd (p : ptr) s lo : forward (forward p (24 * s)) (lo * 24) = forward p (24 * (s + lo)).
  Proof. unfold forward. cbn [fst snd]. f_equal. ring. Qed.
  Lemma value_fwd m p k i : value m (forward p k) i = value m p (k + i).
  Proof. unfold KernSpec.value, cell, forward. cbn [fst snd]. now rewrite Z.add_assoc. Qed.
  Lemma has_fwd (m : memory R) p len t k : 0 <= t -> 24 * t + k <= len -> has m p len -> has m (forward p (24 * t)) k.
  Proof.
    intros T K H i Hi. specialize (H (24 * t + i) ltac:(lia)). unfold cell, forward in *. cbn [fst snd].
    now rewrite <- Z.add_assoc.
  Qed.
  Lemma stored_ext (m m' : memory R) p len f g :
    (forall i, 0 <= i < len -> f i = g i) -> stored m m' p len f -> stored m m' p len g.
  Proof. intros E [A B]. split; [|exact B]. intros i Hi. rewrite <- E by lia. auto. Qed.
  Lemma value_loc (m : memory R) k v : m loc k = Some v -> value m (loc, 0) k = v.
  Proof. intros H. unfold KernSpec.value, cell. cbn [fst snd]. rewrite Z.add_0_l. now rewrite H. Qed.
  Lemma has_loc1 (m : memory R) v : m loc 0 = Some v -> has m (loc, 0) 1.
  Proof. intros H i Hi. replace i with 0 by lia. unfold cell. cbn [fst snd]. rewrite Z.add_0_l. congruence. Qed.
  Lemma has_loc2 (m : memory R) v w : m loc 0 = Some v -> m loc 1 = Some w -> has m (loc, 0) 2.
  Proof.
    intros H H1 i Hi. unfold cell. cbn [fst snd]. rewrite Z.add_0_l. assert (i = 0 \/ i = 1) as [->| ->] by lia; congruence.
  Qed.
  Lemma apart_fwd p q k k' : apart p q -> apart (forward p k) (forward q k').
  Proof. auto. Qed.
  Lemma same_fwd (p q : ptr) k : p = q \/ apart p q -> forward p k = forward q k \/ apart (forward p k) (forward q k).
  Proof. intros [->|H]; [now left|now right]. Qed.
  Lemma operands_forall (m : memory R) V sp : operands_ok m d env loc V sp ->
    Forall (fun '(q, k) => fst (env q) <> loc /\
      match k with
      | LVec => has m (env q) (24 * Z.of_nat V + slack sp) /\ (env q = d \/ apart (env q) d)
      | LReal => has m (env q) 1 /\ apart (env q) d
      | LCplx => has m (env q) 2 /\ apart (env q) d
      end) (operands [] (s_rhs sp)).
  Proof. intros (_ & _ & H). apply Forall_forall. intros [q k] I. exact (H q k I). Qed.
End Site.

Ltac forall_facts :=
  repeat match goal with
  | H : Forall _ (_ :: _) |- _ => apply Forall_cons_iff in H; destruct H
  | H : Forall _ [] |- _ => clear H
  | H : _ /\ _ |- _ => destruct H
  end.

Ltac site_sides :=
  match goal with
  | |- 0 <= _ => lia
  | |- has _ (forward _ _) _ => eapply has_fwd; [| |eassumption]; [lia|repeat match goal with |- context [if ?b then _ else _] => destruct b end; lia]
  | |- has _ (_, 0) 1 => eapply has_loc1; eassumption
  | |- has _ (_, 0) 2 => eapply has_loc2; eassumption
  | |- has _ _ _ => eassumption
  | |- apart (_, 0) _ => let E := fresh in intros E; cbn in E; congruence
  | |- apart _ _ => assumption
  | |- forward ?p _ = forward ?p _ \/ _ => left; reflexivity
  | |- forward _ _ = forward _ _ \/ _ => apply same_fwd; assumption
  end.

(** [K] : the theorem about the kernel; goal: [exists m', call ... = Val m' /\ stored ...]. *)
Ltac site_core K t n :=
  match goal with
  | |- exists m', call _ _ _ _ _ _ ?ps _ ?m = _ /\ _ =>
      let A := fresh "A" in
      pose (A := fun x : string => match args ps x with Some p => p | None => (O, 0) end);
      let m' := fresh "m" in let E := fresh "E" in let S := fresh "S" in
      destruct (K m A n) as (m' & E & S);
      [lia | subst A; cbn [args set String.eqb Ascii.eqb Bool.eqb]; site_sides
       | intros s l I; cbn [In] in I;
         repeat match type of I with _ \/ _ => destruct I as [I|I] end; try contradiction;
         injection I as <- <-; subst A; cbn [args set String.eqb Ascii.eqb Bool.eqb]; split; site_sides
       | intros s l I; cbn [In] in I;
         repeat match type of I with _ \/ _ => destruct I as [I|I] end; try contradiction;
         injection I as <- <-; subst A; cbn [args set String.eqb Ascii.eqb Bool.eqb]; split; site_sides
       | exists m'; split; [exact E|]; subst A; cbn [args set String.eqb Ascii.eqb Bool.eqb] in S;
         refine (stored_ext _ _ _ _ _ _ _ S) ]
  end.

(** Both sides as polynomials in the elements. *)
Ltac site_value DIV :=
  let i := fresh "i" in let Hi := fresh "Hi" in intros i Hi;
  unfold vplus, vminus, scale, cscale, g5, P_plus, P_minus, times_i;
  rewrite ?value_fwd, ?upper_shift, ?re_part_shift;
  try match goal with |- context [_ (KernSpec.value ?z ?m ?p ?i) ?y] => rewrite (DIV (KernSpec.value z m p i) y) end;
  repeat match goal with
  | H : _ ?loc ?k = Some _ |- context [KernSpec.value _ _ (?loc, 0) ?k] => rewrite (value_loc _ loc _ _ _ H)
  end;
  rewrite <- ?Z.add_assoc, <- ?Z.add_sub_assoc;
  rewrite ?upper_shift, ?re_part_shift;
  destruct (re_part i) eqn:RE;
  [try rewrite (proj2 (re_next i RE))|try rewrite (proj2 (im_prev i RE))];
  destruct (upper i); try ring.

Ltac site_entry E K DIV :=
  let V := fresh "V" in intros V;
  let fin := (
    let Hop := fresh "Hop" in let Hloc := fresh "Hloc" in let m := fresh "m" in
    intros m [Hop Hloc];
    let Hall := fresh "Hall" in let Hd := fresh "Hd" in let Hdl := fresh "Hdl" in
    pose proof (operands_forall _ _ _ _ _ _ Hop) as Hall; destruct Hop as (Hd & Hdl & _);
    let sl := eval vm_compute in (slack E) in change (slack E) with sl in *;
    cbn [E s_rhs s_scal operands app map snd] in Hall, Hloc;
    forall_facts; cbn [local_ok assoc E s_objs String.eqb Ascii.eqb Bool.eqb] in *; forall_facts) in
  split;
  [ let Hs := fresh "Hs" in let Hl := fresh "Hl" in let Hh := fresh "Hh" in
    intros start lo hi Hs Hl Hh; fin;
    unfold ordered_call; cbn -[call Z.mul Z.add Z.sub forward]; rewrite ?fwd_fwd;
    assert (Ht : 0 <= start + lo) by lia; assert (Hn : 0 <= hi - lo) by lia;
    assert (Hv : start + lo + (hi - lo) <= Z.of_nat V) by lia;
    generalize dependent (start + lo); generalize dependent (hi - lo); intros n Hn t Ht Hv;
    site_core K t n; site_value DIV
  | intros t Ht Hv; fin;
    unfold unordered_call; cbn -[call Z.mul Z.add Z.sub forward];
    site_core K t 1; site_value DIV ].
