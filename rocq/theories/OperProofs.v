From Coq Require Import String List ZArith QArith Bool Lia.
From Verif Require Import OperModel OperSpec.
Import ListNotations.
Local Open Scope nat_scope.
Local Notation length := List.length.

(** * The tables *)
Definition is_pw (p : pat) : bool := match p with PW _ => true | _ => false end.
Fixpoint first_obj (ps : list pat) : nat := match ps with [] => 0 | p :: ps => if is_pw p then S (first_obj ps) else 0 end.
Definition pat_ok (j : nat) (p : pat) : bool := match p with PW k => Nat.eqb k j | _ => true end.
Definition list_eqb (a b : list nat) : bool := if list_eq_dec Nat.eq_dec a b then true else false.
Definition good_entry (e : entry) : bool :=
  list_eqb (e_made e) (seq 0 (length (e_args e)))
  && match meaning (e_tag e) with
     | Some (g, order) => String.eqb g (e_name e) && list_eqb order (seq 0 (length (e_args e)))
     | None => false
     end
  && forallb (pat_ok (first_obj (e_args e))) (e_args e) && negb (forallb is_pw (e_args e)).
Lemma all_good : forallb good_entry functions = true.
Proof. vm_compute. reflexivity. Qed.
Lemma list_eqb_eq a b : list_eqb a b = true -> a = b.
Proof. unfold list_eqb. now destruct (list_eq_dec Nat.eq_dec a b). Qed.
Lemma entry_facts e : In e functions ->
  e_made e = seq 0 (length (e_args e)) /\ meaning (e_tag e) = Some (e_name e, seq 0 (length (e_args e)))
  /\ (forall k, In (PW k) (e_args e) -> k = first_obj (e_args e)) /\ forallb is_pw (e_args e) = false.
Proof.
  intros H. pose proof all_good as G. rewrite forallb_forall in G. specialize (G e H). unfold good_entry in G.
  apply andb_true_iff in G. destruct G as [G G4]. apply andb_true_iff in G. destruct G as [G G3]. apply andb_true_iff in G. destruct G as [G1 G2].
  apply list_eqb_eq in G1. apply negb_true_iff in G4. rewrite forallb_forall in G3. split; [exact G1|]. split; [|split; [|exact G4]].
  - destruct (meaning (e_tag e)) as [[g o]|]; [|discriminate]. apply andb_true_iff in G2. destruct G2 as [G5 G6]. apply String.eqb_eq in G5. apply list_eqb_eq in G6. now subst.
  - intros k Hk. specialize (G3 _ Hk). now apply Nat.eqb_eq in G3.
Qed.

Lemma nth_error_seq n : forall k i, nth_error (seq k n) i = if i <? n then Some (k + i) else None.
Proof.
  induction n as [|n IH]; intros k i; [destruct i; reflexivity|]. destruct i as [|i]; cbn [seq nth_error]; [now rewrite Nat.add_0_r|].
  rewrite IH. change (S i <? S n) with (i <? n). destruct (i <? n); [|reflexivity]. f_equal. lia.
Qed.
Lemma pick_shift {A} (l2 : list A) : forall l1, pick (l1 ++ l2) (seq (length l1) (length l2)) = Some l2.
Proof.
  induction l2 as [|a l2 IH]; intros l1; [reflexivity|]. cbn [length seq pick]. rewrite nth_error_app2 by lia. rewrite Nat.sub_diag. cbn [nth_error].
  specialize (IH (l1 ++ [a])). rewrite <- app_assoc in IH. cbn [app] in IH. rewrite app_length in IH. cbn [length] in IH. rewrite Nat.add_1_r in IH. now rewrite IH.
Qed.
Lemma pick_all {A} (l : list A) n : length l = n -> pick l (seq 0 n) = Some l.
Proof. intros <-. exact (pick_shift l []). Qed.

#[local] Strategy opaque [functions tags].
(** * Expressions *)
Lemma uexp_rec2 {V} (P : uexp V -> Prop) : (forall w v, P (Obj w v)) -> (forall q, P (Num q)) ->
  (forall f args, Forall P args -> P (App f args)) -> forall u, P u.
Proof.
  intros HO HN HA. fix IH 1. intros [w v|q|f args]; [apply HO|apply HN|]. apply HA.
  induction args as [|a args IHl]; constructor; [apply IH|exact IHl].
Qed.
Section P.
Context {V : Type} (num : Q -> V) (fn : string -> list V -> V) (rnd : word -> Q -> Q) (ret : string -> list word -> word).
Notation build := (build num rnd ret).
Notation child := (child num rnd).
Notation children := (children num rnd).

Fixpoint build_all (l : list (uexp V)) : option (list (built V)) :=
  match l with
  | [] => Some []
  | u :: l => match build u, build_all l with Some b, Some r => Some (b :: r) | _, _ => None end
  end.
Lemma build_app f args : build (App f args) = match build_all args with Some bs => call num rnd ret f bs | None => None end.
Proof. reflexivity. Qed.
Fixpoint eval_all (l : list (tree V)) : option (list V) :=
  match l with
  | [] => Some []
  | t :: l => match eval fn t, eval_all l with Some v, Some r => Some (v :: r) | _, _ => None end
  end.
Lemma eval_node tag ts : eval fn (Node tag ts) =
  match eval_all ts, meaning tag with
  | Some vs, Some (g, order) => match pick vs order with Some args => Some (fn g args) | None => None end
  | _, _ => None
  end.
Proof. reflexivity. Qed.

(** Accepted operands: numbers where the patterns say so. *)
Lemma accept_length ps : forall bs : list (built V), accept_all ps bs = true -> length ps = length bs.
Proof. induction ps as [|p ps IH]; intros [|b bs] H; cbn in *; try discriminate; [reflexivity|]. apply andb_true_iff in H. f_equal. now apply IH. Qed.
Lemma accept_pw p (b : built V) : accepts p b = true -> is_pw p = match word_b b with Some _ => false | None => true end.
Proof. destruct p, b; cbn; congruence. Qed.
Lemma first_obj_word ps : forall bs : list (built V), accept_all ps bs = true -> forallb is_pw ps = false ->
  exists b, nth_error bs (first_obj ps) = Some b /\ word_b b = Some (first_word (map word_b bs)).
Proof.
  induction ps as [|p ps IH]; intros bs H N; [discriminate|]. destruct bs as [|b bs]; [discriminate|]. cbn [accept_all] in H. apply andb_true_iff in H. destruct H as [H1 H2].
  pose proof (accept_pw _ _ H1) as Hp. cbn [forallb first_obj] in *. destruct (is_pw p) eqn:E.
  - destruct (word_b b) eqn:Wb; [discriminate|]. cbn [andb] in N. destruct (IH bs H2 N) as (b' & A & B). exists b'. split; [exact A|]. rewrite B.
    unfold first_word. cbn [map flat_map]. rewrite Wb. reflexivity.
  - destruct (word_b b) eqn:Wb; [|discriminate]. exists b. split; [reflexivity|]. unfold first_word. cbn [map flat_map]. rewrite Wb. reflexivity.
Qed.
(** The children. *)
Definition made_of (w : word) (b : built V) : tree V * word :=
  match b with BObj x t | BExpr x t => (t, x) | BNum q => (Leaf (num (conv rnd w q)), w) end.
Lemma children_made all j w : (exists b, nth_error all j = Some b /\ word_b b = Some w) ->
  forall ps bs, accept_all ps bs = true -> (forall k, In (PW k) ps -> k = j) -> children bs all ps = Some (map (made_of w) bs).
Proof.
  intros (b0 & N & W). induction ps as [|p ps IH]; intros bs A K; destruct bs as [|b bs]; try discriminate; [reflexivity|].
  cbn [accept_all] in A. apply andb_true_iff in A. destruct A as [A1 A2]. cbn [OperModel.children map].
  assert (C : child all p b = Some (made_of w b)).
  { destruct b as [x t|x t|q]; cbn; [destruct p; reflexivity|destruct p; reflexivity|]. destruct p as [| |k]; try discriminate. rewrite (K k) by now left. rewrite N, W. reflexivity. }
  rewrite C, (IH bs A2); [reflexivity|]. intros k Hk. apply K. now right.
Qed.
Lemma made_word w b : snd (made_of w b) = or_word w (word_b b).
Proof. destruct b; reflexivity. Qed.

(** A call that compiles. *)
Lemma call_made f bs e : select f bs = [e] ->
  e_name e = f /\ call num rnd ret f bs = Some (let w := first_word (map word_b bs) in
     BExpr (ret f (map (or_word w) (map word_b bs))) (Node (e_tag e) (map (fun b => fst (made_of w b)) bs)))
  /\ meaning (e_tag e) = Some (f, seq 0 (length bs)).
Proof.
  intros S. assert (I : In e (select f bs)) by (rewrite S; now left). unfold select in I. apply filter_In in I. destruct I as [I1 I2].
  apply andb_true_iff in I2. destruct I2 as [I2 I3]. apply String.eqb_eq in I2. destruct (entry_facts e I1) as (F1 & F2 & F3 & F4).
  pose proof (accept_length _ _ I3) as L. split; [exact I2|]. split; [|now rewrite F2, I2, L]. unfold call. rewrite S.
  rewrite (children_made bs _ _ (first_obj_word _ _ I3 F4) _ _ I3 F3). rewrite F2, F1. rewrite pick_all by (rewrite map_length; now symmetry).
  cbv zeta. rewrite I2. f_equal. f_equal.
  - f_equal. rewrite !map_map. apply map_ext. intros b. apply made_word.
  - f_equal. now rewrite map_map.
Qed.

Lemma build_all_map args bs : build_all args = Some bs -> Forall2 (fun u b => build u = Some b) args bs.
Proof.
  revert bs. induction args as [|u args IH]; intros bs H; cbn [build_all] in H.
  - injection H as <-. constructor.
  - destruct (build u) as [b|] eqn:B; [|discriminate]. destruct (build_all args) as [r|]; [|discriminate]. injection H as <-. constructor; [exact B|now apply IH].
Qed.
Definition num_of (b : built V) : option Q := match b with BNum q => Some q | _ => None end.
Definition unum (u : uexp V) : option Q := match u with Num q => Some q | _ => None end.
Lemma f2_length {A B} (R : A -> B -> Prop) l m : Forall2 R l m -> length l = length m.
Proof. induction 1; cbn; congruence. Qed.
Lemma eval_child (d : uexp V -> V) w u b : value num fn b = Some (d u) -> num_of b = unum u -> eval fn (fst (made_of w b)) = Some (operand num rnd w d u).
Proof.
  destruct b as [x t|x t|q]; cbn [value num_of made_of fst]; intros A2 A3.
  - destruct u; cbn [unum operand] in *; try discriminate; exact A2.
  - destruct u; cbn [unum operand] in *; try discriminate; exact A2.
  - destruct u; cbn [unum operand] in *; try discriminate. injection A3 as ->. reflexivity.
Qed.
Lemma eval_children (d : uexp V -> V) w us bs : Forall2 (fun u b => value num fn b = Some (d u) /\ num_of b = unum u) us bs ->
  eval_all (map (fun b => fst (made_of w b)) bs) = Some (map (operand num rnd w d) us).
Proof.
  intros F. induction F as [|u b us bs [H1 H2] _ IHl]; [reflexivity|]. cbn [map eval_all]. rewrite IHl, (eval_child d w u b H1 H2). reflexivity.
Qed.
Lemma build_meaning u : forall b, build u = Some b ->
  word_b b = word_of ret u /\ value num fn b = Some (converted num fn rnd ret u) /\ num_of b = unum u.
Proof.
  induction u as [w v|q|f args IH] using uexp_rec2; intros b B.
  - injection B as <-. cbn. auto.
  - injection B as <-. cbn. auto.
  - rewrite build_app in B. destruct (build_all args) as [bs|] eqn:BA; [|discriminate]. apply build_all_map in BA.
    assert (S : exists e, select f bs = [e]).
    { unfold call in B. destruct (select f bs) as [|e [|e' r]]; try discriminate. now exists e. }
    destruct S as [e S]. destruct (call_made f bs e S) as (E1 & E2 & E3). rewrite E2 in B. cbv zeta in B. injection B as <-.
    assert (Ws : map word_b bs = map (word_of ret) args).
    { clear -IH BA. induction BA as [|u b us bs H _ IHl]; [reflexivity|]. inversion IH as [|x y P1 P2]; subst. cbn. f_equal; [now apply P1|now apply IHl]. }
    cbn [word_b value num_of unum word_of converted]. rewrite Ws. split; [reflexivity|]. split; [|reflexivity].
    set (w := first_word (map (word_of ret) args)). rewrite eval_node, E3.
    assert (Vs : eval_all (map (fun b => fst (made_of w b)) bs) = Some (map (operand num rnd w (converted num fn rnd ret)) args)).
    { apply eval_children. clear -IH BA. induction BA as [|u b us bs H _ IHl]; constructor; inversion IH as [|x y P1 P2]; subst; [exact (proj2 (P1 b H))|exact (IHl P2)]. }
    rewrite Vs. apply f2_length in BA. rewrite pick_all; [reflexivity|]. rewrite map_length. exact BA.
Qed.
Lemma kept_direct u : kept rnd ret u -> converted num fn rnd ret u = direct num fn u.
Proof.
  induction u as [w v|q|f args IH] using uexp_rec2; intros K; [reflexivity|reflexivity|]. cbn [converted direct kept] in *. f_equal.
  set (w := first_word (map (word_of ret) args)) in *. clearbody w. induction args as [|a args IHl]; [reflexivity|]. inversion IH as [|x y P1 P2]; subst. cbn [map fold_right] in *.
  destruct K as [K1 K2]. f_equal; [|now apply IHl]. destruct a; cbn [operand]; [now apply P1|now rewrite K1|now apply P1].
Qed.

(** * Which calls compile *)
Definition shape_b (b : built V) : shape := match b with BObj _ _ => SObj | BExpr _ _ => SExpr | BNum _ => SNum end.
Definition accepts_s (p : pat) (s : shape) : bool :=
  match p, s with PT, SObj | PE, SExpr | PW _, SNum => true | _, _ => false end.
Fixpoint accept_all_s (ps : list pat) (l : list shape) : bool :=
  match ps, l with
  | [], [] => true
  | p :: ps, s :: l => accepts_s p s && accept_all_s ps l
  | _, _ => false
  end.
Lemma accept_shape ps : forall bs, accept_all ps bs = accept_all_s ps (map shape_b bs).
Proof. induction ps as [|p ps IH]; intros [|b bs]; try reflexivity. cbn. rewrite IH. f_equal. destruct p, b; reflexivity. Qed.
Definition select_s (f : string) (l : list shape) : list entry :=
  filter (fun e => String.eqb (e_name e) f && accept_all_s (e_args e) l) functions.
Lemma select_shape f bs : select f bs = select_s f (map shape_b bs).
Proof. unfold select, select_s. apply filter_ext. intros e. now rewrite accept_shape. Qed.
Lemma build_shape u b : build u = Some b -> shape_b b = shape_of u.
Proof.
  destruct u as [w v|q|f args]; intros B.
  - now injection B as <-.
  - now injection B as <-.
  - rewrite build_app in B. destruct (build_all args) as [bs|]; [|discriminate]. unfold call in B. destruct (select f bs) as [|e [|e' r]]; try discriminate.
    destruct (OperModel.children num rnd bs bs (e_args e)); [|discriminate]. destruct (meaning (e_tag e)) as [[g o]|]; [|discriminate].
    destruct (pick l (e_made e)); [|discriminate]. now injection B as <-.
Qed.
End P.

Definition shapes1 : list (list shape) := [[SObj]; [SExpr]].
Definition shapes2 : list (list shape) :=
  [[SObj; SObj]; [SObj; SExpr]; [SObj; SNum]; [SExpr; SObj]; [SExpr; SExpr]; [SExpr; SNum]; [SNum; SObj]; [SNum; SExpr]].
Definition three : list shape := [SObj; SExpr; SNum].
Definition missing_b (l : list shape) : bool :=
  match l with [SExpr; SExpr; SNum] | [SExpr; SNum; SExpr] | [SNum; SObj; SObj] | [SNum; SNum; SNum] => true | _ => false end.
Definition shapes3 : list (list shape) :=
  filter (fun l => negb (missing_b l)) (flat_map (fun a => flat_map (fun b => map (fun c => [a; b; c]) three) three) three).
Definition one_found (f : string) (l : list shape) : bool := match select_s f l with [_] => true | _ => false end.
Definition none_found (f : string) (l : list shape) : bool := match select_s f l with [] => true | _ => false end.
Lemma found1 : forallb (fun f => forallb (one_found f) shapes1) unary = true.
Proof. vm_compute. reflexivity. Qed.
Lemma found2 : forallb (fun f => forallb (one_found f) shapes2) binary = true.
Proof. vm_compute. reflexivity. Qed.
Lemma found3 : forallb (fun f => forallb (one_found f) shapes3) ternary = true.
Proof. vm_compute. reflexivity. Qed.
Lemma not_found3 : forallb (fun f => forallb (none_found f) [[SExpr; SExpr; SNum]; [SExpr; SNum; SExpr]; [SNum; SObj; SObj]]) ternary = true.
Proof. vm_compute. reflexivity. Qed.
Lemma check {A} (p : string -> A -> bool) fs ls f l : forallb (fun f => forallb (p f) ls) fs = true -> In f fs -> In l ls -> p f l = true.
Proof. intros H Hf Hl. rewrite forallb_forall in H. specialize (H f Hf). cbn in H. rewrite forallb_forall in H. now apply H. Qed.
Lemma one_found_iff f l : one_found f l = true -> exists e, select_s f l = [e].
Proof. unfold one_found. destruct (select_s f l) as [|e [|e' r]]; try discriminate. now exists e. Qed.
Lemma found f l : (In f unary /\ length l = 1 \/ In f binary /\ length l = 2 \/ In f ternary /\ length l = 3) ->
  (exists s, In s l /\ s <> SNum) -> ~ missing l -> exists e, select_s f l = [e].
Proof.
  intros F (s & S1 & S2) M. apply one_found_iff. destruct F as [[F L]|[[F L]|[F L]]].
  - apply (check one_found _ _ f l found1 F). destruct l as [|a [|b l]]; try discriminate. destruct S1 as [->|[]]. destruct s; cbn; auto; congruence.
  - apply (check one_found _ _ f l found2 F). destruct l as [|a [|b [|c l]]]; try discriminate. destruct a, b; cbn; auto 20; exfalso; destruct S1 as [<-|[<-|[]]]; congruence.
  - apply (check one_found _ _ f l found3 F). destruct l as [|a [|b [|c [|d l]]]]; try discriminate. unfold shapes3. apply filter_In. split.
    + unfold three. destruct a, b, c; cbn; auto 40.
    + destruct a, b, c; try reflexivity; exfalso; try (apply M; unfold missing; auto; fail). destruct S1 as [<-|[<-|[<-|[]]]]; congruence.
Qed.
Lemma builds {V} (num : Q -> V) rnd ret u : proper u -> exists b, build num rnd ret u = Some b.
Proof.
  induction u as [w v|q|f args IH] using uexp_rec2; intros P; [eexists; reflexivity|eexists; reflexivity|]. cbn [proper] in P. destruct P as (P1 & P2 & P3 & P4).
  assert (B : exists bs, build_all num rnd ret args = Some bs).
  { clear -IH P4. induction args as [|a args IHl]; [exists []; reflexivity|]. inversion IH as [|x y Q1 Q2]; subst. cbn in P4. destruct P4 as [P4 P5].
    destruct (Q1 P4) as (b & B). destruct (IHl Q2 P5) as (bs & Bs). exists (b :: bs). cbn [build_all]. now rewrite B, Bs. }
  destruct B as (bs & B). rewrite build_app, B. assert (Sh : map shape_b bs = map shape_of args).
  { apply build_all_map in B. clear -B. induction B as [|u b us bs H _ IHl]; [reflexivity|]. cbn. f_equal; [now apply build_shape in H|exact IHl]. }
  destruct (found f (map shape_of args)) as (e & E).
  - rewrite map_length. exact P1.
  - exact P2.
  - exact P3.
  - rewrite <- Sh, <- select_shape in E. destruct (call_made num rnd ret f bs e E) as (_ & C & _). rewrite C. eexists. reflexivity.
Qed.
