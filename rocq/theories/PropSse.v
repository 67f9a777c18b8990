From Coq Require Import List Bool Arith NArith ZArith Lia Permutation.
From Coq Require Import Ring_theory InitialRing ZArithRing.
From Verif Require Import EvalModel SseMachine SseKernels SseSpec SseEval SseProofs SseMatrix SseFields SseElem SseCopy.
Import ListNotations.
Open Scope nat_scope.

(** The sites of a subset are sites of the lattice, none twice. *)
Definition subset_of (vol : nat) (s : subset) (l : list nat) : Prop :=
  (match s with Ordered a b => forall i, In i l <-> a <= i <= b | Listed tab => l = tab end) /\
  NoDup l /\ forall i, In i l -> i < vol.

Lemma subset_sites vol s l threads cs : subset_of vol s l -> 0 < threads ->
  Permutation cs (calls threads s) ->
  NoDup (visited cs) /\ (forall i, In i (visited cs) <-> In i l).
Proof.
  intros [H1 [H2 H3]] HT HP.
  assert (P : Permutation (visited cs) (sites s)).
  { rewrite <- (visited_calls threads s HT). unfold visited. apply Permutation_flat_map. exact HP. }
  assert (N : NoDup (sites s)).
  { destruct s as [a b|tab]; [apply seq_NoDup|]. subst l. exact H2. }
  split; [apply (Permutation_NoDup (Permutation_sym P) N)|].
  intros i. split.
  - intros Hi. apply (Permutation_in _ P) in Hi. destruct s as [a b|tab]; [|subst; exact Hi].
    apply H1. apply in_seq in Hi. lia.
  - intros Hi. apply (Permutation_in _ (Permutation_sym P)). destruct s as [a b|tab]; [|subst; exact Hi].
    apply H1 in Hi. apply in_seq. lia.
Qed.

(** d[s] = X*Y, d[s] += X*Y, d[s] -= X*Y with X, Y a field or the adjoint of one: every site
    of the subset gets the product, nothing else changes, whichever instruction set, number
    of threads and order of the threads' calls - if d is not the right operand, nor the
    left one under an adjoint. *)
Theorem C99_product : forall (R : cring) w g hl hr threads s l0 vol kb d l r (m : mem R) D L Q cs,
  0 < threads -> subset_of vol s l0 -> Permutation cs (calls threads s) ->
  d <> kb -> l <> kb -> r <> kb ->
  d <> r -> (hl = true -> d <> l) ->
  mats_at m d 0 vol D -> mats_at m l 0 vol L -> mats_at m r 0 vol Q ->
  exists m', evaluate_product (arith_of R) w g hl hr kb d l r cs m = Some m' /\
    (forall i, i < vol -> In i l0 -> mat_at m' d (18 * i)
       (assigned (arith_of R) g (D i) (mmul (arith_of R) (dag (arith_of R) hl (L i)) (dag (arith_of R) hr (Q i))))) /\
    (forall i, i < vol -> ~ In i l0 -> mat_at m' d (18 * i) (D i)) /\
    (forall b o, b <> kb -> b <> d \/ 18 * vol <= o -> m' b o = m b o).
Proof.
  intros R w g hl hr threads s l0 vol kb d l r m D L Q cs HT Hs HP Kd Kl Kr Hdr Hdl HD HL HQ.
  destruct (subset_sites _ _ _ _ _ Hs HT HP) as [N I]. destruct Hs as [_ [_ Hvol]].
  destruct (fields_product R w g hl hr kb d l r vol m D L Q cs) as [m' [E1 [E2 E3]]]; auto.
  - intros i Hi. apply Hvol, I, Hi.
  - exists m'. split; [exact E1|]. split; [|split; [|exact E3]].
    + intros i Hi H. specialize (E2 i Hi). cbn beta in E2. apply I in H. apply isin_in in H. rewrite H in E2. exact E2.
    + intros i Hi H. specialize (E2 i Hi). cbn beta in E2.
      destruct (isin i (visited cs)) eqn:X; [exfalso; apply H, I, isin_in, X|exact E2].
Qed.

(** d[s] = l, d[s] += l, d[s] -= l: always, also when d is l. *)
Theorem C99_copy : forall (R : cring) g threads s l0 vol kb d l (m : mem R) D L cs,
  0 < threads -> subset_of vol s l0 -> Permutation cs (calls threads s) ->
  d <> kb -> l <> kb ->
  mats_at m d 0 vol D -> mats_at m l 0 vol L ->
  exists m', evaluate_copy (arith_of R) g kb d l cs m = Some m' /\
    (forall i, i < vol -> In i l0 -> mat_at m' d (18 * i) (assigned (arith_of R) g (D i) (L i))) /\
    (forall i, i < vol -> ~ In i l0 -> mat_at m' d (18 * i) (D i)) /\
    (forall b o, b <> kb -> b <> d \/ 18 * vol <= o -> m' b o = m b o).
Proof.
  intros R g threads s l0 vol kb d l m D L cs HT Hs HP Kd Kl HD HL.
  destruct (subset_sites _ _ _ _ _ Hs HT HP) as [N I]. destruct Hs as [_ [_ Hvol]].
  destruct (fields_copy R g kb d l vol m D L cs) as [m' [E1 [E2 E3]]]; auto.
  - intros i Hi. apply Hvol, I, Hi.
  - exists m'. split; [exact E1|]. split; [|split; [|exact E3]].
    + intros i Hi H. specialize (E2 i Hi). cbn beta in E2. apply I in H. apply isin_in in H. rewrite H in E2. exact E2.
    + intros i Hi H. specialize (E2 i Hi). cbn beta in E2.
      destruct (isin i (visited cs)) eqn:X; [exfalso; apply H, I, isin_in, X|exact E2].
Qed.

(** The product of two single matrices, wherever they are (any alignment, l and r may be the
    same object). *)
Theorem C99_site : forall (R : cring) w hl hr d l r (m : mem R) D L Q,
  apart (fst d) (snd d) (fst l) (snd l) 18 -> apart (fst d) (snd d) (fst r) (snd r) 18 ->
  l = r \/ apart (fst l) (snd l) (fst r) (snd r) 18 ->
  mat_at m (fst d) (snd d) D -> mat_at m (fst l) (snd l) L -> mat_at m (fst r) (snd r) Q ->
  exists m', site_product (arith_of R) w hl hr d l r m = Some m' /\
    mat_at m' (fst d) (snd d) (mmul (arith_of R) (dag (arith_of R) hl L) (dag (arith_of R) hr Q)) /\
    only m m' (fst d) (snd d) 18.
Proof. exact site_ok. Qed.

(** ** Where it fails *)
Definition Zring : cring := CRing Z 0%Z 1%Z Z.add Z.mul Z.sub Z.opp Zth.
Definition Zar : arith Z := arith_of Zring.

(** Three fields of one site. *)
Definition wit_words (b : nat) : list Z :=
  nth b [[1; 2; 0; -1; 3; 1;  2; 0; 1; 1; -2; 1;  0; 1; 2; -1; 1; 3]%Z;
         [2; 1; 1; 0; -1; 2;  1; 1; 0; 3; 1; -2;  3; 0; -1; 1; 2; 1]%Z;
         [0; 1; 2; 2; 1; -1;  1; 0; 3; 1; 0; 1;  -1; 2; 1; 0; 2; 1]%Z] [].
Definition wit (b o : nat) : option Z := nth_error (wit_words b) o.
Definition wit_mat (b : nat) : matrix Z := unword (fun j => nth j (wit_words b) 0%Z).

Lemma wit_at b : b < 3 -> mats_at wit b 0 1 (fun _ => wit_mat b).
Proof.
  intros Hb i Hi r c Hr Hc. replace (0 + 18 * i) with 0 by lia.
  destruct b as [|[|[|b]]]; [| | |lia]; (destruct r as [|[|[|r]]]; [| | |lia]);
    (destruct c as [|[|[|c]]]; [| | |lia]); split; reflexivity.
Qed.

(** The result is not what it should be. *)
Definition wrong (w : isa) (g : assign) (hl hr : bool) (d l r : nat) : bool :=
  match evaluate_product Zar w g hl hr 3 d l r (calls 1 (Ordered 0 0)) wit with
  | Some m' => negb (eql (fun x y => match x, y with Some v, Some u => Z.eqb v u | _, _ => false end)
       (map (m' d) (seq 0 18))
       (map Some (words (assigned Zar g (wit_mat d) (mmul Zar (dag Zar hl (wit_mat l)) (dag Zar hr (wit_mat r)))))))
  | None => true
  end.

Lemma mat_list {V} (m : mem V) b A : mat_at m b 0 A -> map (m b) (seq 0 18) = map Some (words A).
Proof.
  rewrite mat_words. intros H. unfold words. cbn [seq map flat_map app].
  assert (K : forall j, j < 18 -> m b j = Some (word A j)) by exact H. clear H.
  repeat (apply f_equal2; [apply K; lia|]). reflexivity.
Qed.

Lemma eql_same {A} (f : A -> A -> bool) (l : list A) : (forall x, In x l -> f x x = true) -> eql f l l = true.
Proof.
  induction l as [|x l IH]; cbn; intros H; [reflexivity|]. rewrite (H x (or_introl eq_refl)). cbn.
  apply IH. intros y Hy. apply H. now right.
Qed.

Lemma all_wrong :
  forallb (fun w => forallb (fun g => forallb (fun hl => forallb (fun hr =>
    forallb (fun l => wrong w g hl hr 0 l 0) [0; 1] && (negb hl || wrong w g hl hr 0 0 1))
    [false; true]) [false; true]) [OpEq; OpAdd; OpSub]) [SSE2; SSE3] = true.
Proof. vm_compute. reflexivity. Qed.

(** d = X*d, and d = adj(d)*Y, are wrong: for both instruction sets, all three assignments,
    and every choice of adjoints there are fields of a single site for which the statement
    terminates with a wrong d.  d is field 0; field l is d or another one; so is r. *)
Theorem C99_aliased_refuted : forall w g hl hr l r, l < 2 -> r < 2 ->
  r = 0 \/ (hl = true /\ l = 0) ->
  exists (m : mem Z) D,
    (forall b, b < 2 -> mats_at m b 0 1 (fun _ => D b)) /\
    forall m', evaluate_product Zar w g hl hr 3 0 l r (calls 1 (Ordered 0 0)) m = Some m' ->
    ~ mat_at m' 0 0 (assigned Zar g (D 0) (mmul Zar (dag Zar hl (D l)) (dag Zar hr (D r)))).
Proof.
  intros w g hl hr l r Hl Hr Hc. exists wit, wit_mat. split; [intros b Hb; apply wit_at; lia|].
  intros m' E H. pose proof all_wrong as A. rewrite forallb_forall in A.
  assert (A1 := A w ltac:(destruct w; cbn; auto)). rewrite forallb_forall in A1.
  assert (A2 := A1 g ltac:(destruct g; cbn; auto)). rewrite forallb_forall in A2.
  assert (A3 := A2 hl ltac:(destruct hl; cbn; auto)). rewrite forallb_forall in A3.
  assert (A4 := A3 hr ltac:(destruct hr; cbn; auto)). apply andb_true_iff in A4. destruct A4 as [A4 A5].
  assert (W : wrong w g hl hr 0 l r = true).
  { destruct (Nat.eq_dec r 0) as [->|Nr].
    - rewrite forallb_forall in A4. apply A4. destruct l as [|[|l]]; cbn; auto; lia.
    - destruct Hc as [Hc|[-> ->]]; [contradiction|]. cbn in A5. replace r with 1 by lia. exact A5. }
  unfold wrong in W. rewrite E in W. rewrite (mat_list _ _ _ H) in W.
  rewrite eql_same in W; [discriminate W|]. intros x Hx. apply in_map_iff in Hx. destruct Hx as [v [<- _]].
  apply Z.eqb_refl.
Qed.

(** ** Examples *)

(** A field of two sites, u = v*adj(w), with three threads: the hypotheses of C99_product hold
    and the value is the one of the formula. *)
Definition two_words (b : nat) : list Z := (wit_words b ++ wit_words (2 - b))%list.
Definition two_sites (b o : nat) : option Z := nth_error (two_words b) o.
Definition two_mat (b i : nat) : matrix Z := unword (fun j => nth (18 * i + j) (two_words b) 0%Z).

Lemma two_at b : b < 3 -> mats_at two_sites b 0 2 (two_mat b).
Proof.
  intros Hb i Hi r c Hr Hc.
  destruct b as [|[|[|b]]]; [| | |lia]; (destruct i as [|[|i]]; [| |lia]);
    (destruct r as [|[|[|r]]]; [| | |lia]); (destruct c as [|[|[|c]]]; [| | |lia]); split; reflexivity.
Qed.

Lemma C99_case_hyps : subset_of 2 (Listed [1; 0]) [1; 0].
Proof.
  split; [reflexivity|]. split; [repeat constructor; cbn; intuition discriminate|].
  intros i [<-|[<-|[]]]; lia.
Qed.

Example C99_case : exists m',
  evaluate_product Zar SSE3 OpEq false true 3 0 1 2 (calls 3 (Listed [1; 0])) two_sites = Some m' /\
  mat_at m' 0 (18 * 1) (mmul Zar (two_mat 1 1) (madj Zar (two_mat 2 1))) /\
  m' 0 20 = Some 9%Z.
Proof.
  destruct (C99_product Zring SSE3 OpEq false true 3 (Listed [1; 0]) [1; 0] 2 3 0 1 2 two_sites
              (two_mat 0) (two_mat 1) (two_mat 2) (calls 3 (Listed [1; 0])) ltac:(lia) C99_case_hyps
              (Permutation_refl _) ltac:(lia) ltac:(lia) ltac:(lia) ltac:(lia) ltac:(discriminate)
              (two_at 0 ltac:(lia)) (two_at 1 ltac:(lia)) (two_at 2 ltac:(lia))) as [m' [E1 [E2 _]]].
  exists m'. split; [exact E1|].
  assert (K := E2 1 ltac:(lia) ltac:(left; reflexivity)). split; [exact K|].
  destruct (K 0 1 ltac:(lia) ltac:(lia)) as [K' _]. exact K'.
Qed.

(** u *= v, that is u = u*v: the destination is the left operand, which is allowed. *)
Example C99_left_case : exists m',
  evaluate_product Zar SSE2 OpEq false false 3 0 0 1 (calls 1 (Ordered 0 0)) wit = Some m' /\
  mat_at m' 0 0 (mmul Zar (wit_mat 0) (wit_mat 1)).
Proof.
  assert (H : subset_of 1 (Ordered 0 0) [0]).
  { split; [|split; [repeat constructor; cbn; tauto|intros i [<-|[]]; lia]]. intros i. cbn. lia. }
  destruct (C99_product Zring SSE2 OpEq false false 1 (Ordered 0 0) [0] 1 3 0 0 1 wit
              (fun _ => wit_mat 0) (fun _ => wit_mat 0) (fun _ => wit_mat 1) (calls 1 (Ordered 0 0))
              ltac:(lia) H (Permutation_refl _) ltac:(lia) ltac:(lia) ltac:(lia) ltac:(lia) ltac:(discriminate)
              (wit_at 0 ltac:(lia)) (wit_at 0 ltac:(lia)) (wit_at 1 ltac:(lia))) as [m' [E1 [E2 _]]].
  exists m'. split; [exact E1|]. exact (E2 0 ltac:(lia) ltac:(left; reflexivity)).
Qed.

(** v = X*v for X the rotation of the colours: the first row of the result is right, the
    second uses the new first row. *)
Definition swap_rows (b o : nat) : option Z :=
  if o <? 18 then
    match b with
    | 0 => Some (nth o [1; 0; 2; 0; 3; 0;  4; 0; 5; 0; 6; 0;  7; 0; 8; 0; 9; 0] 0)%Z
    | 1 => Some (nth o [0; 0; 1; 0; 0; 0;  1; 0; 0; 0; 0; 0;  0; 0; 0; 0; 1; 0] 0)%Z
    | _ => None
    end
  else None.
Example C99_swap_case :
  match evaluate_product Zar SSE2 OpEq false false 3 0 1 0 (calls 1 (Ordered 0 0)) swap_rows with
  | Some m' => map (m' 0) (seq 0 18) =
      map Some [4; 0; 5; 0; 6; 0;  4; 0; 5; 0; 6; 0;  7; 0; 8; 0; 9; 0]%Z
  | None => False
  end.
Proof. vm_compute. reflexivity. Qed.

Print Assumptions C99_product.
Print Assumptions C99_copy.
Print Assumptions C99_site.
Print Assumptions C99_aliased_refuted.
