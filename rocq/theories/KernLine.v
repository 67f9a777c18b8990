(** A symbolic executor for straight-line kernels (the 3x3 products), and its soundness.
    Nothing here models code of /repo. *)
From Coq Require Import ZArith List String Bool Lia.
From Verif Require Import Base KernLang KernSym KernSound KernSpec.
Import ListNotations.
Local Open Scope Z_scope.

(** Values in terms of the contents of the arrays on entry. *)
Inductive lexp :=
| LIn (p : string) (z : Z)
| LZero
| LAdd (a b : lexp)
| LSub (a b : lexp)
| LMul (a b : lexp)
| LNeg (a : lexp).

(** Locals; cells of the output that were written. *)
Record lst := Lst { lv : list (string * lexp); lc : list (Z * lexp) }.

Section Line.
  (** Lengths of the arrays; the output array. *)
  Context (lens : list (string * Z)) (out : string).

  Definition inside (p : string) (z : Z) : bool :=
    match get p lens with Some l => (0 <=? z) && (z <? l) | None => false end.

  Fixpoint leval (s : lst) (e : exp) : option lexp :=
    match e with
    | V x => get x (lv s)
    | Rd (At p (IC z)) =>
        if inside p z then
          if String.eqb p out then match zget z (lc s) with Some e => Some e | None => Some (LIn p z) end
          else Some (LIn p z)
        else None
    | Rd _ => None
    | Zero => Some LZero
    | Add a b => do x <- leval s a; do y <- leval s b; Some (LAdd x y)
    | Sub a b => do x <- leval s a; do y <- leval s b; Some (LSub x y)
    | Mul a b => do x <- leval s a; do y <- leval s b; Some (LMul x y)
    | Neg a => do x <- leval s a; Some (LNeg x)
    end.

  Definition lstore (s : lst) (l : place) (f : lexp -> lexp) : option lst :=
    match l with
    | At p (IC z) =>
        if inside p z && String.eqb p out then
          let old := match zget z (lc s) with Some e => e | None => LIn p z end in
          Some (Lst (lv s) ((z, f old) :: lc s))
        else None
    | _ => None
    end.

  Fixpoint lexec (c : stmt) (s : lst) : option lst :=
    match c with
    | Skip => Some s
    | Seq a b => do s1 <- lexec a s; lexec b s1
    | Assign x e => do v <- leval s e; Some (Lst (put x v (lv s)) (lc s))
    | Store l e => do v <- leval s e; lstore s l (fun _ => v)
    | StoreAdd l e => do v <- leval s e; lstore s l (fun w => LAdd w v)
    | StoreSub l e => do v <- leval s e; lstore s l (fun w => LSub w v)
    | _ => None
    end.

  Context {R : Type} (rO : R) (radd rmul rsub : R -> R -> R) (ropp : R -> R).
  Context (adr : string -> ptr) (m0 : memory R).
  Context (Hhas : forall p l, In (p, l) lens -> has m0 (adr p) l).
  Context (Hdis : forall p l lo i j, In (p, l) lens -> In (out, lo) lens -> p <> out ->
                  0 <= i < l -> 0 <= j < lo ->
                  ~ (fst (adr p) = fst (adr out) /\ snd (adr p) + i = snd (adr out) + j)).

  Fixpoint lden (X : string -> Z -> R) (e : lexp) : R :=
    match e with
    | LIn p z => X p z
    | LZero => rO
    | LAdd a b => radd (lden X a) (lden X b)
    | LSub a b => rsub (lden X a) (lden X b)
    | LMul a b => rmul (lden X a) (lden X b)
    | LNeg a => ropp (lden X a)
    end.
  Notation X := (fun p => value rO m0 (adr p)).

  Record lrep (st : state R) (s : lst) : Prop := {
    l_var : forall x e, get x (lv s) = Some e -> vars st x = Some (lden X e);
    l_ptr : forall p l, get p lens = Some l -> ptrs st p = Some (adr p);
    l_cell : forall z, inside out z = true ->
       cell (mem st) (adr out) z = match zget z (lc s) with Some e => Some (lden X e) | None => cell m0 (adr out) z end;
    l_same : forall b o, ~ (b = fst (adr out) /\ inside out (o - snd (adr out)) = true) -> mem st b o = m0 b o
  }.

  Lemma inside_len p z : inside p z = true -> exists l, In (p, l) lens /\ get p lens = Some l /\ 0 <= z < l.
  Proof.
    unfold inside. destruct (get p lens) as [l|] eqn:G; [|discriminate].
    rewrite andb_true_iff, Z.leb_le, Z.ltb_lt. intros H. exists l. split; [now apply get_in|]. auto.
  Qed.
  Lemma inside_cell p z : inside p z = true -> cell m0 (adr p) z = Some (value rO m0 (adr p) z).
  Proof.
    intros H. apply inside_len in H as (l & I & _ & H). unfold value.
    destruct (cell m0 (adr p) z) eqn:E; [auto|]. destruct (Hhas _ _ I z H E).
  Qed.

  Lemma leval_ok st s e v : lrep st s -> leval s e = Some v -> eval rO radd rmul rsub ropp st e = Val (lden X v, st).
  Proof.
    intros H. revert v. induction e; cbn; intros v E.
    - now rewrite (l_var _ _ H _ _ E).
    - destruct l as [p [|z| | |]| |]; try discriminate.
      destruct (inside p z) eqn:I; [|discriminate].
      destruct (inside_len _ _ I) as (l & Il & Gl & Hz).
      unfold locate. rewrite (l_ptr _ _ H _ _ Gl). cbn. unfold load. cbn.
      destruct (String.eqb_spec p out) as [->|N].
      + pose proof (l_cell _ _ H z I) as C. unfold cell in C. rewrite C. destruct (zget z (lc s)) eqn:Z; inv E; [reflexivity|].
        pose proof (inside_cell _ _ I) as C'. unfold cell in C'. now rewrite C'.
      + inv E. rewrite (l_same _ _ H).
        * pose proof (inside_cell _ _ I) as C'. unfold cell in C'. now rewrite C'.
        * intros [A B]. apply inside_len in B as (lo & Io & _ & Ho).
          apply (Hdis p l lo z (snd (adr p) + z - snd (adr out)) Il Io N Hz Ho). split; [auto|lia].
    - now inv E.
    - dob E. dob E. inv E. rewrite (IHe1 _ E0). cbn. now rewrite (IHe2 _ E1).
    - dob E. dob E. inv E. rewrite (IHe1 _ E0). cbn. now rewrite (IHe2 _ E1).
    - dob E. dob E. inv E. rewrite (IHe1 _ E0). cbn. now rewrite (IHe2 _ E1).
    - dob E. inv E. now rewrite (IHe _ E0).
  Qed.

  Lemma lstore_ok st s l f s' : lrep st s -> lstore s l f = Some s' ->
    exists a old, locate st l = Val (a, st) /\ load st a = Val (lden X old) /\
      (forall w, lden X (f old) = w -> exists st', store st a w = Val st' /\ lrep st' s').
  Proof.
    intros H E. unfold lstore in E. destruct l as [p [|z| | |]| |]; try discriminate.
    destruct (inside p z && String.eqb p out) eqn:B; [|discriminate]. inv E.
    apply andb_true_iff in B as [I Q]. apply String.eqb_eq in Q; subst p.
    destruct (inside_len _ _ I) as (l & Il & Gl & Hz).
    set (old := match zget z (lc s) with Some e => e | None => LIn out z end).
    assert (C : mem st (fst (adr out)) (snd (adr out) + z) = Some (lden X old)).
    { pose proof (l_cell _ _ H z I) as C. unfold cell in C. rewrite C. unfold old.
      destruct (zget z (lc s)); [reflexivity|]. exact (inside_cell _ _ I). }
    exists (fst (adr out), snd (adr out) + z), old. unfold locate. rewrite (l_ptr _ _ H _ _ Gl). cbn.
    split; [reflexivity|]. unfold load, store. cbn. rewrite C. split; [reflexivity|].
    intros w <-. cbn. eexists; split; [reflexivity|]. constructor; cbn.
    - exact (l_var _ _ H).
    - exact (l_ptr _ _ H).
    - intros z' I'. unfold cell, poke. cbn. rewrite Nat.eqb_refl. cbn.
      destruct (Z.eqb_spec z z') as [->|N].
      + now rewrite Z.eqb_refl.
      + destruct (Z.eqb_spec (snd (adr out) + z') (snd (adr out) + z)); [lia|]. exact (l_cell _ _ H z' I').
    - intros b o N. unfold poke. destruct (Nat.eqb_spec b (fst (adr out))) as [->|]; cbn; [|now apply (l_same _ _ H)].
      destruct (Z.eqb_spec o (snd (adr out) + z)) as [->|]; [|now apply (l_same _ _ H)].
      destruct N. split; [auto|]. now replace (snd (adr out) + z - snd (adr out)) with z by lia.
  Qed.

  Lemma lexec_ok c : forall st s s', lrep st s -> lexec c s = Some s' ->
    exists st', exec rO radd rmul rsub ropp c st = Val st' /\ lrep st' s'.
  Proof.
    induction c; cbn; intros st s s' H E; try discriminate.
    - inv E. eauto.
    - dob E. destruct (IHc1 _ _ _ H E0) as (st1 & -> & H1). cbn. eauto.
    - dob E. inv E. rewrite (leval_ok _ _ _ _ H E0). cbn. eexists; split; [reflexivity|].
      constructor; cbn; try apply H. intros y v G. unfold set. rewrite String.eqb_sym.
      destruct (String.eqb_spec x y) as [->|N]; [now inv G|].
      apply (l_var _ _ H). clear - G N. induction (lv s) as [|[k u] t IH]; cbn in *; [discriminate|].
      destruct (String.eqb_spec k x); cbn in G.
      + subst k. destruct (String.eqb_spec x y); [congruence|auto].
      + destruct (String.eqb k y); auto.
    - dob E. rewrite (leval_ok _ _ _ _ H E0). cbn.
      destruct (lstore_ok _ _ _ _ _ H E) as (a & old & -> & L & S). cbn. destruct (S _ eq_refl) as (st' & -> & H'). eauto.
    - dob E. rewrite (leval_ok _ _ _ _ H E0). cbn.
      destruct (lstore_ok _ _ _ _ _ H E) as (a & old & -> & L & S). cbn. rewrite L. cbn.
      destruct (S _ eq_refl) as (st' & S' & H'). cbn in S'. rewrite S'. eauto.
    - dob E. rewrite (leval_ok _ _ _ _ H E0). cbn.
      destruct (lstore_ok _ _ _ _ _ H E) as (a & old & -> & L & S). cbn. rewrite L. cbn.
      destruct (S _ eq_refl) as (st' & S' & H'). cbn in S'. rewrite S'. eauto.
  Qed.

  Lemma args_lens : forall p l, get p lens = Some l -> args (map (fun x => (fst x, adr (fst x))) lens) p = Some (adr p).
  Proof.
    clear Hhas Hdis. induction lens as [|[q k] t IH]; cbn; intros p l G; [discriminate|].
    unfold set. rewrite String.eqb_sym. destruct (String.eqb_spec q p) as [->|]; eauto.
  Qed.

  (** The whole call. *)
  Theorem line_ok : forall c s lo,
    lexec c (Lst [] []) = Some s -> get out lens = Some lo ->
    exists m',
      call rO radd rmul rsub ropp c (map (fun x => (fst x, adr (fst x))) lens) [] m0 = Val m' /\
      (forall z, 0 <= z < lo -> cell m' (adr out) z = match zget z (lc s) with Some e => Some (lden X e) | None => cell m0 (adr out) z end) /\
      (forall b o, ~ (b = fst (adr out) /\ snd (adr out) <= o < snd (adr out) + lo) -> m' b o = m0 b o).
  Proof.
    intros c s lo E G.
    destruct (lexec_ok c (mk_state (@undef R) (args []) (args (map (fun x => (fst x, adr (fst x))) lens)) m0) (Lst [] []) s)
      as (st & Ex & H).
    - constructor; cbn; try easy. exact args_lens.
    - exact E.
    - exists (mem st). unfold call. rewrite Ex. cbn. split; [reflexivity|]. split.
      + intros z Hz. apply (l_cell _ _ H). unfold inside. rewrite G. apply andb_true_iff. rewrite Z.leb_le, Z.ltb_lt. lia.
      + intros b o N. apply (l_same _ _ H). intros [A B]. apply N. split; [auto|].
        unfold inside in B. rewrite G, andb_true_iff, Z.leb_le, Z.ltb_lt in B. lia.
  Qed.
End Line.
