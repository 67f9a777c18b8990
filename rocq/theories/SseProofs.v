From Coq Require Import List Bool Arith NArith ZArith Lia.
From Coq Require Import Ring Ring_theory InitialRing Ring_polynom.
From Verif Require Import SseMachine SseSpec.
Import ListNotations.
Open Scope nat_scope.

(** * Finite maps *)

Lemma get_put {A} k v (l : list (N * A)) k' :
  get k' (put k v l) = if N.eqb k' k then Some v else get k' l.
Proof.
  induction l as [|[q u] l IH]; cbn.
  - destruct (N.eqb k' k); reflexivity.
  - destruct (N.eqb k q) eqn:E; cbn.
    + apply N.eqb_eq in E. subst q. destruct (N.eqb k' k); reflexivity.
    + destruct (N.eqb k' q) eqn:F.
      * apply N.eqb_eq in F. subst q.
        destruct (N.eqb k' k) eqn:G; [|reflexivity].
        apply N.eqb_eq in G. subst. rewrite N.eqb_refl in E. discriminate.
      * apply IH.
Qed.

Definition sub {A} (l l' : list (N * A)) : Prop := forall k v, get k l = Some v -> get k l' = Some v.

Lemma sub_put {A} k (v : A) l l' : sub l l' -> sub (put k v l) (put k v l').
Proof.
  intros H k' u. rewrite !get_put. destruct (N.eqb k' k); auto.
Qed.

Definition vmap {A B} (f : A -> B) (l : list (N * A)) : list (N * B) :=
  map (fun p => (fst p, f (snd p))) l.

Lemma get_map {A B} (f : A -> B) l k : get k (vmap f l) = option_map f (get k l).
Proof.
  induction l as [|[q u] l IH]; cbn; [reflexivity|].
  destruct (N.eqb k q); [reflexivity|apply IH].
Qed.

Lemma put_map {A B} (f : A -> B) l k v : put k (f v) (vmap f l) = vmap f (put k v l).
Proof.
  induction l as [|[q u] l IH]; cbn; [reflexivity|].
  destruct (N.eqb k q); [reflexivity|]. unfold vmap in *. cbn. now rewrite IH.
Qed.

(** * Windows: the few cells one pass of the loop looks at *)

Definition rd {V} (ws : list (list V)) (w j : nat) : option V :=
  match nth_error ws w with Some l => nth_error l j | None => None end.

Fixpoint app_nth {A} (n : nat) (f : A -> A) (l : list A) : list A :=
  match l, n with
  | [], _ => []
  | x :: r, 0 => f x :: r
  | x :: r, S n' => x :: app_nth n' f r
  end.

Definition wr {V} (ws : list (list V)) (w j : nat) (v : V) : list (list V) :=
  app_nth w (app_nth j (fun _ => v)) ws.

Lemma nth_app_nth {A} n (f : A -> A) l m :
  nth_error (app_nth n f l) m = if m =? n then option_map f (nth_error l m) else nth_error l m.
Proof.
  revert n m. induction l as [|x l IH]; intros [|n] [|m]; cbn; try reflexivity.
  - destruct (m =? n); reflexivity.
  - apply IH.
Qed.

Lemma rd_wr {V} (ws : list (list V)) w j v w' j' : rd ws w j <> None ->
  rd (wr ws w j v) w' j' = if (w' =? w) && (j' =? j) then Some v else rd ws w' j'.
Proof.
  intros H. unfold rd, wr in *. rewrite nth_app_nth.
  destruct (w' =? w) eqn:E; cbn; [|reflexivity].
  apply Nat.eqb_eq in E. subst w'.
  destruct (nth_error ws w) as [l|]; cbn; [|congruence].
  rewrite nth_app_nth. destruct (j' =? j) eqn:F; [|reflexivity].
  apply Nat.eqb_eq in F. subst j'. destruct (nth_error l j); [reflexivity|congruence].
Qed.

Lemma app_nth_map {A B} (g : A -> B) n (f : A -> A) (f' : B -> B) l :
  (forall x, g (f x) = f' (g x)) -> map g (app_nth n f l) = app_nth n f' (map g l).
Proof.
  intros H. revert n. induction l as [|x l IH]; intros [|n]; cbn; try reflexivity.
  - now rewrite H.
  - now rewrite IH.
Qed.

Definition wmap {V W} (f : V -> W) (ws : list (list V)) := map (map f) ws.

Lemma rd_map {V W} (f : V -> W) ws w j : rd (wmap f ws) w j = option_map f (rd ws w j).
Proof.
  unfold rd, wmap. rewrite nth_error_map. destruct (nth_error ws w) as [l|]; cbn; [|reflexivity].
  apply nth_error_map.
Qed.

Lemma wr_map {V W} (f : V -> W) ws w j v : wr (wmap f ws) w j (f v) = wmap f (wr ws w j v).
Proof.
  unfold wr, wmap. symmetry. apply app_nth_map. intros l. apply app_nth_map. reflexivity.
Qed.

(** * The machine on windows *)

Record lst (V : Type) := L {
  lregs : list (N * (V * V));
  lptrs : list (N * (nat * nat));
  lwin : list (list V) }.
Arguments L {V}. Arguments lregs {V}. Arguments lptrs {V}. Arguments lwin {V}.

Section Local.
  Context {V : Type}.
  Variable ar : arith V.
  Variable par : list bool.

  Definition lexec1 (i : instr) (s : lst V) : option (lst V) :=
    match i with
    | Load al d p o =>
        match get p (lptrs s) with
        | Some (w, q) =>
            if al && xorb (nth w par false) (Nat.odd (q + o)) then None
            else match rd (lwin s) w (q + o), rd (lwin s) w (S (q + o)) with
                 | Some x, Some y => Some (L (put d (x, y) (lregs s)) (lptrs s) (lwin s))
                 | _, _ => None
                 end
        | None => None
        end
    | LoadSd d p o =>
        match get p (lptrs s) with
        | Some (w, q) =>
            match rd (lwin s) w (q + o) with
            | Some x => Some (L (put d (x, a_ofZ ar 0) (lregs s)) (lptrs s) (lwin s))
            | None => None
            end
        | None => None
        end
    | Store al p o r =>
        match get p (lptrs s), get r (lregs s) with
        | Some (w, q), Some (x, y) =>
            if al && xorb (nth w par false) (Nat.odd (q + o)) then None
            else match rd (lwin s) w (q + o), rd (lwin s) w (S (q + o)) with
                 | Some _, Some _ =>
                     Some (L (lregs s) (lptrs s)
                             (wr (wr (lwin s) w (q + o) x) w (S (q + o)) y))
                 | _, _ => None
                 end
        | _, _ => None
        end
    | StoreL p o r =>
        match get p (lptrs s), get r (lregs s) with
        | Some (w, q), Some (x, y) =>
            match rd (lwin s) w (q + o) with
            | Some _ => Some (L (lregs s) (lptrs s) (wr (lwin s) w (q + o) x))
            | None => None
            end
        | _, _ => None
        end
    | StoreH p o r =>
        match get p (lptrs s), get r (lregs s) with
        | Some (w, q), Some (x, y) =>
            match rd (lwin s) w (q + o) with
            | Some _ => Some (L (lregs s) (lptrs s) (wr (lwin s) w (q + o) y))
            | None => None
            end
        | _, _ => None
        end
    | MovePtr p q =>
        match get q (lptrs s) with
        | Some a => Some (L (lregs s) (put p a (lptrs s)) (lwin s))
        | None => None
        end
    | Bump p k =>
        match get p (lptrs s) with
        | Some (w, q) => Some (L (lregs s) (put p (w, q + k) (lptrs s)) (lwin s))
        | None => None
        end
    | _ =>
        match alu ar i (lregs s) with
        | Some rg => Some (L rg (lptrs s) (lwin s))
        | None => None
        end
    end.

  Fixpoint lexec (l : list instr) (s : lst V) : option (lst V) :=
    match l with
    | [] => Some s
    | i :: r => match lexec1 i s with Some s' => lexec r s' | None => None end
    end.
End Local.

(** ** It follows maps of the numbers *)
Section Hom.
  Context {V W : Type} (av : arith V) (aw : arith W) (f : V -> W).
  Hypothesis fZ : forall z, f (a_ofZ av z) = a_ofZ aw z.
  Hypothesis fadd : forall x y, f (a_add av x y) = a_add aw (f x) (f y).
  Hypothesis fsub : forall x y, f (a_sub av x y) = a_sub aw (f x) (f y).
  Hypothesis fmul : forall x y, f (a_mul av x y) = a_mul aw (f x) (f y).

  Definition pmap (p : V * V) : W * W := (f (fst p), f (snd p)).
  Definition lmap (s : lst V) : lst W := L (vmap pmap (lregs s)) (lptrs s) (wmap f (lwin s)).

  Lemma alu_map i rg : alu aw i (vmap pmap rg) = option_map (vmap pmap) (alu av i rg).
  Proof.
    destruct i; cbn [alu]; try reflexivity; rewrite ?get_map;
      try (destruct (get a rg) as [[x y]|]; cbn [option_map]; [|reflexivity];
           destruct (get b rg) as [[x' y']|]; cbn [option_map]; [|reflexivity]);
      cbn [option_map]; rewrite <- put_map; f_equal; f_equal; unfold pmap, shuffle; cbn [fst snd];
      rewrite ?fadd, ?fsub, ?fmul, ?fZ; try reflexivity.
    destruct (Nat.odd imm), (Nat.odd (imm / 2)); reflexivity.
  Qed.

  Lemma lexec1_map par i s : lexec1 aw par i (lmap s) = option_map lmap (lexec1 av par i s).
  Proof.
    destruct s as [rg pt ws].
    destruct i; cbn [lexec1 lmap lregs lptrs lwin];
      try (rewrite alu_map;
           match goal with |- context [alu av ?i rg] => destruct (alu av i rg) end; reflexivity).
    - destruct (get p pt) as [[w q]|]; [|reflexivity].
      destruct (aligned && _); [reflexivity|]. rewrite !rd_map.
      destruct (rd ws w (q + o)); cbn [option_map]; [|reflexivity].
      destruct (rd ws w (S (q + o))); cbn [option_map]; [|reflexivity].
      unfold lmap; cbn [lregs lptrs lwin]. now rewrite <- put_map.
    - destruct (get p pt) as [[w q]|]; [|reflexivity]. rewrite !rd_map.
      destruct (rd ws w (q + o)); cbn [option_map]; [|reflexivity].
      unfold lmap; cbn [lregs lptrs lwin]. rewrite <- put_map. unfold pmap; cbn. now rewrite fZ.
    - destruct (get p pt) as [[w q]|]; [|reflexivity]. rewrite get_map.
      destruct (get r rg) as [[x y]|]; cbn [option_map pmap fst snd]; [|reflexivity].
      destruct (aligned && _); [reflexivity|]. rewrite !rd_map.
      destruct (rd ws w (q + o)); cbn [option_map]; [|reflexivity].
      destruct (rd ws w (S (q + o))); cbn [option_map]; [|reflexivity].
      unfold lmap; cbn [lregs lptrs lwin]. now rewrite !wr_map.
    - destruct (get p pt) as [[w q]|]; [|reflexivity]. rewrite get_map.
      destruct (get r rg) as [[x y]|]; cbn [option_map pmap fst snd]; [|reflexivity].
      rewrite !rd_map.
      destruct (rd ws w (q + o)); cbn [option_map]; [|reflexivity].
      unfold lmap; cbn [lregs lptrs lwin]. now rewrite !wr_map.
    - destruct (get p pt) as [[w q]|]; [|reflexivity]. rewrite get_map.
      destruct (get r rg) as [[x y]|]; cbn [option_map pmap fst snd]; [|reflexivity].
      rewrite !rd_map.
      destruct (rd ws w (q + o)); cbn [option_map]; [|reflexivity].
      unfold lmap; cbn [lregs lptrs lwin]. now rewrite !wr_map.
    - destruct (get q pt) as [[w' q']|]; reflexivity.
    - destruct (get p pt) as [[w' q']|]; reflexivity.
  Qed.

  Lemma lexec_map par l s : lexec aw par l (lmap s) = option_map lmap (lexec av par l s).
  Proof.
    revert s. induction l as [|i l IH]; intros s; [reflexivity|].
    cbn [lexec]. rewrite lexec1_map. destruct (lexec1 av par i s); cbn [option_map]; [apply IH|reflexivity].
  Qed.
End Hom.

(** ** It is what the machine does *)
Section Sim.
  Context {V : Type} (ar : arith V) (par : list bool).
  Variable wb : nat -> nat * nat.
  Variable ws0 : list (list V).
  Variable m0 : mem V.

  Hypothesis Hpar : forall w, nth w par false = Nat.odd (snd (wb w)).
  Hypothesis Hinj : forall w j w' j', rd ws0 w j <> None -> rd ws0 w' j' <> None ->
    fst (wb w) = fst (wb w') -> snd (wb w) + j = snd (wb w') + j' -> w = w' /\ j = j'.

  Definition memsim (ws : list (list V)) (m : mem V) : Prop :=
    (forall w j, rd ws w j = None <-> rd ws0 w j = None) /\
    (forall w j v, rd ws w j = Some v -> m (fst (wb w)) (snd (wb w) + j) = Some v) /\
    (forall b o, (forall w j, rd ws0 w j <> None -> ~ (b = fst (wb w) /\ o = snd (wb w) + j)) ->
       m b o = m0 b o).

  Definition sim (l : lst V) (s : st V) : Prop :=
    sub (lregs l) (regs s) /\
    (forall k w j, get k (lptrs l) = Some (w, j) -> get k (ptrs s) = Some (fst (wb w), snd (wb w) + j)) /\
    memsim (lwin l) (memory s).

  Lemma memsim_wr ws m w j v : memsim ws m -> rd ws w j <> None ->
    memsim (wr ws w j v) (setm m (fst (wb w)) (snd (wb w) + j) v).
  Proof.
    intros [H1 [H2 H3]] Hd.
    assert (Hd0 : rd ws0 w j <> None) by (intros E; apply Hd, H1, E).
    split; [|split].
    - intros w' j'. rewrite rd_wr by exact Hd.
      destruct ((w' =? w) && (j' =? j)) eqn:E; [|apply H1].
      apply andb_true_iff in E. destruct E as [E1 E2].
      apply Nat.eqb_eq in E1, E2. subst. split; [discriminate|congruence].
    - intros w' j' u. rewrite rd_wr by exact Hd. unfold setm.
      destruct ((w' =? w) && (j' =? j)) eqn:E.
      + apply andb_true_iff in E. destruct E as [E1 E2].
        apply Nat.eqb_eq in E1, E2. subst. rewrite !Nat.eqb_refl. cbn. auto.
      + intros Hu.
        destruct ((fst (wb w') =? fst (wb w)) && (snd (wb w') + j' =? snd (wb w) + j)) eqn:F;
          [|apply H2, Hu].
        apply andb_true_iff in F. destruct F as [F1 F2]. apply Nat.eqb_eq in F1, F2.
        assert (Hd' : rd ws0 w' j' <> None) by (intros G; apply H1 in G; congruence).
        destruct (Hinj _ _ _ _ Hd' Hd0 F1 F2) as [-> ->].
        rewrite !Nat.eqb_refl in E. discriminate.
    - intros b o Hno. unfold setm.
      destruct ((b =? fst (wb w)) && (o =? snd (wb w) + j)) eqn:F; [|apply H3, Hno].
      apply andb_true_iff in F. destruct F as [F1 F2]. apply Nat.eqb_eq in F1, F2.
      exfalso. apply (Hno w j Hd0). auto.
  Qed.

  Lemma alu_sub i rg rg' r : sub rg rg' -> alu ar i rg = Some r ->
    exists r', alu ar i rg' = Some r' /\ sub r r'.
  Proof.
    intros Hs. destruct i; cbn [alu]; intros E; try discriminate;
      try (destruct (get a rg) as [x|] eqn:Ea; [|discriminate];
           destruct (get b rg) as [y|] eqn:Eb; [|discriminate];
           rewrite (Hs _ _ Ea), (Hs _ _ Eb));
      injection E as <-; eexists; (split; [reflexivity|apply sub_put, Hs]).
  Qed.

  Lemma odd_off w q o : xorb (nth w par false) (Nat.odd (q + o)) = Nat.odd (snd (wb w) + q + o).
  Proof. rewrite Hpar, <- Nat.add_assoc. symmetry. apply Nat.odd_add. Qed.

  Lemma put_ptr (lp : list (N * (nat * nat))) (pt : list (N * (nat * nat))) p w j :
    (forall k w j, get k lp = Some (w, j) -> get k pt = Some (fst (wb w), snd (wb w) + j)) ->
    forall k w' j', get k (put p (w, j) lp) = Some (w', j') ->
      get k (put p (fst (wb w), snd (wb w) + j) pt) = Some (fst (wb w'), snd (wb w') + j').
  Proof.
    intros H k w' j'. rewrite !get_put. destruct (N.eqb k p); [|apply H].
    intros E. injection E as <- <-. reflexivity.
  Qed.

  Lemma sim1 i l s l' : sim l s -> lexec1 ar par i l = Some l' ->
    exists s', exec1 ar i s = Some s' /\ sim l' s'.
  Proof.
    destruct l as [lr lp lw], s as [rg pt m]. intros [Hr [Hp Hm]] E.
    cbn [lregs lptrs lwin regs ptrs memory] in *.
    assert (Hrd : forall w q o v, rd lw w (q + o) = Some v ->
              m (fst (wb w)) (snd (wb w) + q + o) = Some v).
    { intros w q o v Ev. rewrite <- Nat.add_assoc. now apply (proj1 (proj2 Hm)). }
    assert (HrdS : forall w q o v, rd lw w (S (q + o)) = Some v ->
              m (fst (wb w)) (S (snd (wb w) + q + o)) = Some v).
    { intros w q o v Ev. replace (S (snd (wb w) + q + o)) with (snd (wb w) + S (q + o)) by lia.
      now apply (proj1 (proj2 Hm)). }
    destruct i; cbn [lexec1 lregs lptrs lwin] in E; cbn [exec1 regs ptrs memory];
      try (match type of E with match ?x with _ => _ end = _ => destruct x as [r'|] eqn:Ea end;
           [|discriminate]; injection E as <-;
           destruct (alu_sub _ _ _ _ Hr Ea) as [r'' [Er Hs]]; rewrite Er;
           eexists; split; [reflexivity|]; split; [exact Hs|]; split; [exact Hp|exact Hm]).
    - destruct (get p lp) as [[w q]|] eqn:Ep; [|discriminate]. rewrite (Hp _ _ _ Ep).
      rewrite odd_off in E. destruct (aligned && _); [discriminate|].
      destruct (rd lw w (q + o)) as [x|] eqn:E1; [|discriminate].
      destruct (rd lw w (S (q + o))) as [y|] eqn:E2; [|discriminate].
      rewrite (Hrd _ _ _ _ E1), (HrdS _ _ _ _ E2). injection E as <-.
      eexists. split; [reflexivity|]. split; [apply sub_put, Hr|]. split; [exact Hp|exact Hm].
    - destruct (get p lp) as [[w q]|] eqn:Ep; [|discriminate]. rewrite (Hp _ _ _ Ep).
      destruct (rd lw w (q + o)) as [x|] eqn:E1; [|discriminate].
      rewrite (Hrd _ _ _ _ E1). injection E as <-.
      eexists. split; [reflexivity|]. split; [apply sub_put, Hr|]. split; [exact Hp|exact Hm].
    - destruct (get p lp) as [[w q]|] eqn:Ep; [|discriminate]. rewrite (Hp _ _ _ Ep).
      destruct (get r lr) as [[x y]|] eqn:Er; [|discriminate]. rewrite (Hr _ _ Er).
      rewrite odd_off in E. destruct (aligned && _); [discriminate|].
      destruct (rd lw w (q + o)) as [x0|] eqn:E1; [|discriminate].
      destruct (rd lw w (S (q + o))) as [y0|] eqn:E2; [|discriminate].
      rewrite (Hrd _ _ _ _ E1), (HrdS _ _ _ _ E2). injection E as <-.
      eexists. split; [reflexivity|]. split; [exact Hr|]. split; [exact Hp|]. cbn [lwin memory].
      replace (S (snd (wb w) + q + o)) with (snd (wb w) + S (q + o)) by lia.
      rewrite <- Nat.add_assoc.
      apply memsim_wr; [apply memsim_wr; [exact Hm|congruence]|].
      rewrite rd_wr by congruence. destruct (_ && _); congruence.
    - destruct (get p lp) as [[w q]|] eqn:Ep; [|discriminate]. rewrite (Hp _ _ _ Ep).
      destruct (get r lr) as [[x y]|] eqn:Er; [|discriminate]. rewrite (Hr _ _ Er).
      destruct (rd lw w (q + o)) as [x0|] eqn:E1; [|discriminate].
      rewrite (Hrd _ _ _ _ E1). injection E as <-.
      eexists. split; [reflexivity|]. split; [exact Hr|]. split; [exact Hp|]. cbn [lwin memory].
      rewrite <- Nat.add_assoc. apply memsim_wr; [exact Hm|congruence].
    - destruct (get p lp) as [[w q]|] eqn:Ep; [|discriminate]. rewrite (Hp _ _ _ Ep).
      destruct (get r lr) as [[x y]|] eqn:Er; [|discriminate]. rewrite (Hr _ _ Er).
      destruct (rd lw w (q + o)) as [x0|] eqn:E1; [|discriminate].
      rewrite (Hrd _ _ _ _ E1). injection E as <-.
      eexists. split; [reflexivity|]. split; [exact Hr|]. split; [exact Hp|]. cbn [lwin memory].
      rewrite <- Nat.add_assoc. apply memsim_wr; [exact Hm|congruence].
    - destruct (get q lp) as [[w j]|] eqn:Ep; [|discriminate]. rewrite (Hp _ _ _ Ep).
      injection E as <-. eexists. split; [reflexivity|]. split; [exact Hr|]. split; [|exact Hm].
      cbn [lptrs ptrs]. now apply put_ptr.
    - destruct (get p lp) as [[w j]|] eqn:Ep; [|discriminate]. rewrite (Hp _ _ _ Ep).
      injection E as <-. eexists. split; [reflexivity|]. split; [exact Hr|]. split; [|exact Hm].
      cbn [lptrs ptrs]. rewrite <- Nat.add_assoc. now apply put_ptr.
  Qed.

  Lemma simx c l s l' : sim l s -> lexec ar par c l = Some l' ->
    exists s', exec ar c s = Some s' /\ sim l' s'.
  Proof.
    revert l s. induction c as [|i c IH]; intros l s Hs E; cbn in *.
    - injection E as <-. eauto.
    - destruct (lexec1 ar par i l) as [l1|] eqn:E1; [|discriminate].
      destruct (sim1 _ _ _ _ Hs E1) as [s1 [E2 Hs1]]. rewrite E2. eauto.
  Qed.
End Sim.

Lemma wr_none {V} (ws : list (list V)) w1 j1 v w j : rd ws w j = None -> rd ws w1 j1 <> None ->
  rd (wr ws w1 j1 v) w j = None.
Proof.
  intros X D. rewrite rd_wr by exact D.
  destruct ((w =? w1) && (j =? j1)) eqn:F; [|exact X].
  apply andb_true_iff in F. destruct F as [F1 F2].
  apply Nat.eqb_eq in F1, F2. subst. congruence.
Qed.

Lemma lexec_none {V} (ar : arith V) par c l l' w j : lexec ar par c l = Some l' ->
  rd (lwin l) w j = None -> rd (lwin l') w j = None.
Proof.
  revert l. induction c as [|a c IHc]; intros l E X; cbn in E.
  - injection E as <-. exact X.
  - destruct (lexec1 ar par a l) as [l1|] eqn:E1; [|discriminate].
    apply (IHc _ E). clear IHc E. destruct l as [rg pt ws]. cbn [lwin] in X.
    destruct a; cbn [lexec1 lregs lptrs lwin] in E1;
      repeat match type of E1 with
        | match ?x with _ => _ end = _ => destruct x eqn:?; try discriminate
        end; injection E1 as <-; cbn [lwin]; try exact X.
    + apply wr_none; [apply wr_none; [exact X|congruence]|].
      rewrite rd_wr by congruence. match goal with |- (if ?b then _ else _) <> _ => destruct b end; congruence.
    + apply wr_none; [exact X|congruence].
    + apply wr_none; [exact X|congruence].
Qed.

(** * The loop *)
Section Loop.
  Context {V : Type} (ar : arith V).
  Variables (body : list instr) (par : list bool) (lp : list (N * nat)).
  Variables (sz nw : nat) (blk off : nat -> nat).
  Variable n : nat.
  Variable m0 : mem V.
  Variables (cs : nat -> list (N * (V * V))) (wsI wsO : nat -> list (list V)).

  Definition stride (w : nat) : nat := if w <? nw then sz else 0.
  Definition start : list (N * (nat * nat)) := vmap (fun w => (w, 0)) lp.

  Hypothesis Hsz : Nat.odd sz = false.
  Hypothesis Hpar : forall w, nth w par false = Nat.odd (off w).
  Hypothesis Hshape : forall i w j, i < n -> (rd (wsI i) w j <> None <-> w < nw /\ j < sz).
  Hypothesis Hinj : forall i i' w w' j j', i < n -> i' < n -> w < nw -> w' < nw -> j < sz -> j' < sz ->
    blk w = blk w' -> off w + i * sz + j = off w' + i' * sz + j' -> w = w'.
  Hypothesis Hin : forall i w j v, i < n -> rd (wsI i) w j = Some v -> m0 (blk w) (off w + i * sz + j) = Some v.
  Hypothesis Hit : forall i, i < n -> exists l',
    lexec ar par body (L (cs i) start (wsI i)) = Some l' /\ lwin l' = wsO i /\
    (forall k w, get k lp = Some w -> get k (lptrs l') = Some (w, stride w)) /\
    sub (cs (S i)) (lregs l').

  Lemma loop_snoc k s : loop ar (S k) body s =
    match loop ar k body s with Some s' => exec ar body s' | None => None end.
  Proof.
    revert s. induction k as [|k IH]; intros s.
    - cbn. destruct (exec ar body s); reflexivity.
    - cbn [loop] in *. destruct (exec ar body s); [apply IH|reflexivity].
  Qed.

  Lemma odd_mul i : Nat.odd (i * sz) = false.
  Proof. rewrite Nat.odd_mul, Hsz, andb_false_r. reflexivity. Qed.

  Lemma blocks i i' j j' : j < sz -> j' < sz -> i * sz + j = i' * sz + j' -> i = i' /\ j = j'.
  Proof. intros. assert (i = i') by nia. subst. lia. Qed.

  Lemma loop_sim s : sub (cs 0) (regs s) ->
    (forall k w, get k lp = Some w -> get k (ptrs s) = Some (blk w, off w)) ->
    memory s = m0 ->
    exists s', loop ar n body s = Some s' /\ sub (cs n) (regs s') /\
      (forall k w, get k lp = Some w -> get k (ptrs s') = Some (blk w, off w + n * stride w)) /\
      (forall i w j v, i < n -> rd (wsO i) w j = Some v ->
         memory s' (blk w) (off w + i * sz + j) = Some v) /\
      (forall b o, (forall i w j, i < n -> w < nw -> j < sz ->
          ~ (b = blk w /\ o = off w + i * sz + j)) -> memory s' b o = m0 b o).
  Proof.
    intros Hr Hp Hm.
    assert (G : forall k, k <= n -> exists s', loop ar k body s = Some s' /\ sub (cs k) (regs s') /\
      (forall q w, get q lp = Some w -> get q (ptrs s') = Some (blk w, off w + k * stride w)) /\
      (forall i w j v, i < k -> rd (wsO i) w j = Some v ->
         memory s' (blk w) (off w + i * sz + j) = Some v) /\
      (forall b o, (forall i w j, i < k -> w < nw -> j < sz ->
          ~ (b = blk w /\ o = off w + i * sz + j)) -> memory s' b o = m0 b o)).
    2: { apply G. lia. }
    induction k as [|k IH]; intros Hk.
    - exists s. split; [reflexivity|]. split; [exact Hr|].
      split; [intros q w E; rewrite (Hp _ _ E); f_equal; f_equal; lia|].
      split; [intros; lia|]. intros. now rewrite Hm.
    - destruct (IH ltac:(lia)) as [s1 [E1 [R1 [P1 [M1 F1]]]]].
      destruct (Hit k ltac:(lia)) as [l' [Ex [Ew [Eq Er]]]].
      set (wb := fun w => (blk w, off w + k * stride w)).
      assert (Hdom : forall w j, rd (wsI k) w j <> None -> w < nw /\ j < sz)
        by (intros w j; apply Hshape; lia).
      assert (Hst : forall w, w < nw -> stride w = sz).
      { intros w Hw. unfold stride. apply Nat.ltb_lt in Hw. now rewrite Hw. }
      destruct (simx ar par wb (wsI k) (memory s1)) with
        (c := body) (l := L (cs k) start (wsI k)) (s := s1) (l' := l') as [s2 [E2 S2]].
      + intros w. rewrite Hpar. unfold wb; cbn [snd]. rewrite Nat.odd_add.
        assert (Nat.odd (k * stride w) = false) as ->.
        { unfold stride. destruct (w <? nw); [apply odd_mul|]. now rewrite Nat.mul_0_r. }
        now rewrite xorb_false_r.
      + intros w j w' j' D D' B O. apply Hdom in D, D'. unfold wb in *; cbn [fst snd] in *.
        rewrite Hst in O by lia. rewrite Hst in O by lia.
        assert (w = w') by (apply (Hinj k k w w' j j'); lia). subst. split; [reflexivity|lia].
      + split; [exact R1|]. split.
        * cbn [lptrs]. intros q w j. unfold start. rewrite get_map.
          destruct (get q lp) as [w0|] eqn:E; [|discriminate]. cbn. intros X. injection X as <- <-.
          unfold wb; cbn. rewrite (P1 _ _ E). f_equal. f_equal. lia.
        * split; [reflexivity|]. split; [|reflexivity]. cbn [lwin].
          intros w j v Ev. assert (D : rd (wsI k) w j <> None) by congruence. apply Hdom in D.
          unfold wb; cbn [fst snd]. rewrite Hst by lia.
          rewrite F1; [apply Hin; [lia|exact Ev]|].
          intros i w' j' Hi Hw' Hj' [B O].
          assert (w = w') by (apply (Hinj k i w w' j j'); lia). subst.
          destruct (blocks k i j j'); lia.
      + exact Ex.
      + destruct S2 as [R2 [P2 [M2a [M2b M2c]]]].
        exists s2. split; [rewrite loop_snoc, E1; exact E2|].
        split; [intros q v Hq; apply R2, Er, Hq|].
        split.
        { intros q w E. rewrite (P2 _ _ _ (Eq _ _ E)). unfold wb; cbn [fst snd]. f_equal. f_equal. lia. }
        split.
        * intros i w j v Hi Ev. destruct (Nat.eq_dec i k) as [->|Hne].
          -- assert (D : rd (wsO k) w j <> None) by congruence.
             assert (D' : w < nw /\ j < sz).
             { apply Hdom. intros X. apply D. rewrite <- Ew. apply M2a, X. }
             specialize (M2b w j v). unfold wb in M2b; cbn [fst snd] in M2b.
             rewrite Hst in M2b by lia. apply M2b. now rewrite Ew.
          -- rewrite M2c; [apply M1; [lia|exact Ev]|].
             intros w' j' D [B O]. apply Hdom in D. unfold wb in B, O; cbn [fst snd] in B, O.
             rewrite Hst in O by lia.
             assert (Dj : w < nw /\ j < sz).
             { destruct (Hit i ltac:(lia)) as [li [Xi [Wi _]]].
               apply (Hshape i); [lia|]. intros X.
               assert (rd (wsO i) w j = None); [|congruence].
               rewrite <- Wi. exact (lexec_none _ _ _ _ _ _ _ Xi X). }
             assert (w = w') by (apply (Hinj i k w w' j j'); lia). subst.
             destruct (blocks i k j j'); lia.
        * intros b o Hno. rewrite M2c.
          -- apply F1. intros i w j Hi Hw Hj. apply Hno; lia.
          -- intros w j D [B O]. apply Hdom in D. unfold wb in B, O; cbn [fst snd] in B, O.
             rewrite Hst in O by lia. apply (Hno k w j); [lia|lia|lia|auto].
  Qed.
End Loop.

(** * Symbolic execution *)

Definition expr := PExpr Z.
Definition ear : arith expr := Arith expr (@PEc Z) (@PEadd Z) (@PEsub Z) (@PEmul Z).

Definition norm (e : expr) : Pol Z :=
  norm_subst 0%Z 1%Z Z.add Z.mul Z.sub Z.opp Zeq_bool (triv_div 0%Z 1%Z Zeq_bool) 0 [] e.
Definition peq (e e' : expr) : bool := Peq Zeq_bool (norm e) (norm e').

Section Ev.
  Variable R : cring.
  Definition ev (env : list R) : expr -> R :=
    PEeval (c0 R) (c1 R) (cadd R) (cmul R) (csub R) (copp R)
      (gen_phiZ (c0 R) (c1 R) (cadd R) (cmul R) (copp R)) id_phi_N (pow_N (c1 R) (cmul R)) env.

  Lemma peq_ok env e e' : peq e e' = true -> ev env e = ev env e'.
  Proof.
    intros H. unfold ev.
    pose proof (Eqsth R) as S1. pose proof (Eq_ext (cadd R) (cmul R) (copp R)) as S2.
    pose proof (gen_phiZ_morph S1 S2 (claw R)) as S3.
    refine (ring_correct S1 S2 (Rth_ARth S1 S2 (claw R)) S3 (pow_N_th _ _ S1)
              (triv_div_th S1 S2 (Rth_ARth S1 S2 (claw R)) S3) 0 env [] e e' I H).
  Qed.
End Ev.

Fixpoint eql {A} (f : A -> A -> bool) (l l' : list A) : bool :=
  match l, l' with
  | [], [] => true
  | x :: r, x' :: r' => f x x' && eql f r r'
  | _, _ => false
  end.

Definition check (body : list instr) (par : list bool) (lp : list (N * nat)) (sz nw : nat)
    (cI : list (N * (expr * expr))) (wI : list (list expr))
    (cO : list (N * (expr * expr))) (wO : list (list expr)) : bool :=
  match lexec ear par body (L cI (start lp) wI) with
  | Some l' =>
      eql (eql peq) (lwin l') wO &&
      forallb (fun p => match get (fst p) (lptrs l') with
                        | Some (w, j) => (w =? snd p) && (j =? stride sz nw (snd p))
                        | None => false
                        end) lp &&
      forallb (fun p => match get (fst p) (lregs l') with
                        | Some (x, y) => peq x (fst (snd p)) && peq y (snd (snd p))
                        | None => false
                        end) cO
  | None => false
  end.

Lemma get_in {A} k (l : list (N * A)) v : get k l = Some v -> In (k, v) l.
Proof.
  induction l as [|[q u] l IH]; cbn; [discriminate|].
  destruct (N.eqb k q) eqn:E.
  - intros X. injection X as <-. apply N.eqb_eq in E. subst. now left.
  - intros X. right. auto.
Qed.

Lemma check_ok (R : cring) body par lp sz nw cI wI cO wO (env : list R) :
  check body par lp sz nw cI wI cO wO = true ->
  exists l', lexec (arith_of R) par body
      (L (vmap (pmap (ev R env)) cI) (start lp) (wmap (ev R env) wI)) = Some l' /\
    lwin l' = wmap (ev R env) wO /\
    (forall k w, get k lp = Some w -> get k (lptrs l') = Some (w, stride sz nw w)) /\
    sub (vmap (pmap (ev R env)) cO) (lregs l').
Proof.
  unfold check. destruct (lexec ear par body _) as [l|] eqn:E; [|discriminate]. intros H.
  apply andb_true_iff in H. destruct H as [H H3]. apply andb_true_iff in H. destruct H as [H1 H2].
  pose proof (lexec_map ear (arith_of R) (ev R env) (fun _ => eq_refl) (fun _ _ => eq_refl)
                (fun _ _ => eq_refl) (fun _ _ => eq_refl) par body (L cI (start lp) wI)) as M.
  rewrite E in M. unfold lmap in M at 1. cbn [lregs lptrs lwin option_map] in M.
  eexists. split; [exact M|]. cbn [lwin lptrs lregs lmap]. split; [|split].
  - revert H1. generalize (lwin l) wO. clear. unfold wmap.
    assert (K : forall a b, eql peq a b = true -> map (ev R env) a = map (ev R env) b).
    { induction a as [|x a IH]; intros [|y b]; cbn; try discriminate; [reflexivity|].
      intros H. apply andb_true_iff in H. destruct H as [H1 H2].
      f_equal; [apply peq_ok, H1|apply IH, H2]. }
    induction l as [|x a IH]; intros [|y b]; cbn; try discriminate; [reflexivity|].
    intros H. apply andb_true_iff in H. destruct H as [H1 H2].
    f_equal; [apply K, H1|apply IH, H2].
  - intros k w G. apply get_in in G. rewrite forallb_forall in H2. specialize (H2 _ G).
    cbn [fst snd] in H2. destruct (get k (lptrs l)) as [[w' j]|]; [|discriminate].
    apply andb_true_iff in H2. destruct H2 as [X Y]. apply Nat.eqb_eq in X, Y. now subst.
  - intros k v. rewrite !get_map. destruct (get k cO) as [u|] eqn:G; [|discriminate].
    apply get_in in G. rewrite forallb_forall in H3. specialize (H3 _ G).
    cbn [fst snd] in H3. cbn [option_map]. intros X. injection X as <-.
    destruct (get k (lregs l)) as [[x y]|]; [|discriminate].
    apply andb_true_iff in H3. destruct H3 as [X Y]. cbn [option_map]. unfold pmap. cbn [fst snd].
    now rewrite (peq_ok _ _ _ _ X), (peq_ok _ _ _ _ Y).
Qed.

(** ** Kernels that change arrays, pass by pass *)
Definition wins {V} (nw sz : nat) (arr : nat -> nat -> V) : list (list V) :=
  map (fun w => map (arr w) (seq 0 sz)) (seq 0 nw).

Lemma rd_wins {V} nw sz (arr : nat -> nat -> V) w j :
  rd (wins nw sz arr) w j = if (w <? nw) && (j <? sz) then Some (arr w j) else None.
Proof.
  unfold rd, wins. rewrite nth_error_map.
  destruct (w <? nw) eqn:E; cbn [andb].
  - apply Nat.ltb_lt in E.
    rewrite (nth_error_nth' (seq 0 nw) 0) by (rewrite seq_length; exact E). rewrite seq_nth by exact E.
    cbn [option_map]. rewrite nth_error_map. destruct (j <? sz) eqn:F.
    + apply Nat.ltb_lt in F.
      rewrite (nth_error_nth' (seq 0 sz) 0) by (rewrite seq_length; exact F). rewrite seq_nth by exact F.
      reflexivity.
    + apply Nat.ltb_ge in F. replace (nth_error (seq 0 sz) j) with (@None nat); [reflexivity|].
      symmetry. apply nth_error_None. now rewrite seq_length.
  - apply Nat.ltb_ge in E. replace (nth_error (seq 0 nw) w) with (@None nat); [reflexivity|].
    symmetry. apply nth_error_None. now rewrite seq_length.
Qed.

Section Passes.
  Variable R : cring.
  Let ar := arith_of R.
  Variables (body : list instr) (lp : list (N * nat)) (sz nw : nat) (blk off : nat -> nat).
  Variables (T : nat) (m0 : mem R).
  Variables (arr arr' : nat -> nat -> nat -> R).  (* pass, window, word *)
  Variables (cs : nat -> list (N * (R * R))).
  Variables (par : list bool) (cI cO : list (N * (expr * expr))) (wI wO : list (list expr)).
  Variable env : nat -> list R.

  Hypothesis Hsz : Nat.odd sz = false.
  Hypothesis Hpar : forall w, nth w par false = Nat.odd (off w).
  Hypothesis Hap : forall w w', w < nw -> w' < nw -> w <> w' ->
    apart (blk w) (off w) (blk w') (off w') (T * sz).
  Hypothesis Hm : forall w i j, w < nw -> i < T -> j < sz ->
    m0 (blk w) (off w + i * sz + j) = Some (arr i w j).
  Hypothesis Hck : check body par lp sz nw cI wI cO wO = true.
  Hypothesis HcI : forall i, vmap (pmap (ev R (env i))) cI = cs i.
  Hypothesis HcO : forall i, vmap (pmap (ev R (env i))) cO = cs (S i).
  Hypothesis HwI : forall i, wmap (ev R (env i)) wI = wins nw sz (arr i).
  Hypothesis HwO : forall i, wmap (ev R (env i)) wO = wins nw sz (arr' i).

  Lemma passes s : sub (cs 0) (regs s) ->
    (forall k w, get k lp = Some w -> get k (ptrs s) = Some (blk w, off w)) ->
    memory s = m0 ->
    exists s', loop ar T body s = Some s' /\ sub (cs T) (regs s') /\
      (forall k w, get k lp = Some w -> get k (ptrs s') = Some (blk w, off w + T * stride sz nw w)) /\
      (forall w i j, w < nw -> i < T -> j < sz ->
         memory s' (blk w) (off w + i * sz + j) = Some (arr' i w j)) /\
      (forall b o, (forall w, w < nw -> ~ (b = blk w /\ off w <= o < off w + T * sz)) ->
         memory s' b o = m0 b o).
  Proof.
    intros Hr Hp Hms.
    destruct (loop_sim ar body par lp sz nw blk off T m0 cs (fun i => wins nw sz (arr i))
                (fun i => wins nw sz (arr' i))) with (s := s) as [s' [E [S1 [S2 [S3 S4]]]]]; auto.
    - intros i w j Hi. rewrite rd_wins, <- !Nat.ltb_lt.
      destruct (w <? nw), (j <? sz); cbn [andb]; split; try intros [X Y]; try intros X;
        try discriminate; try (exfalso; apply X; reflexivity); split; reflexivity.
    - intros i i' w w' j j' Hi Hi' Hw Hw' Hj Hj' B O.
      destruct (Nat.eq_dec w w') as [|N]; [assumption|exfalso].
      destruct (Hap w w' Hw Hw' N) as [X|[X|X]]; [congruence| |]; nia.
    - intros i w j v Hi. rewrite rd_wins.
      destruct (w <? nw) eqn:A, (j <? sz) eqn:B; cbn; try discriminate.
      apply Nat.ltb_lt in A, B. intros X. injection X as <-. apply Hm; assumption.
    - intros i Hi.
      destruct (check_ok R _ _ _ _ _ _ _ _ _ (env i) Hck) as [l' [X1 [X2 [X3 X4]]]].
      exists l'. rewrite HcI, HwI in X1. rewrite HwO in X2. rewrite HcO in X4.
      split; [exact X1|]. split; [exact X2|]. split; [exact X3|exact X4].
    - exists s'. split; [exact E|]. split; [exact S1|]. split; [exact S2|]. split.
      + intros w i j Hw Hi Hj. apply S3; [exact Hi|]. rewrite rd_wins.
        apply Nat.ltb_lt in Hw, Hj. now rewrite Hw, Hj.
      + intros b o Hno. apply S4. intros i w j Hi Hw Hj [-> ->]. apply (Hno w Hw).
        split; [reflexivity|]. nia.
  Qed.
End Passes.
