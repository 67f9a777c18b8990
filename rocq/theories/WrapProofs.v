(** Proofs for the functions of real, integer and boolean objects. *)
From Coq Require Import String List ZArith Bool Lia Arith.
From Verif Require Import WrapModel WrapSpec.
Import ListNotations.
Local Open Scope nat_scope.
Local Open Scope string_scope.
#[local] Strategy opaque [pscalar rscalar words machine known].

(** A function of PScalars that calls the function of the same name on the elements, in order. *)
Definition std (f : string) (k : nat) : ex := Call f (map Arg (seq 0 k)).
Definition body (l : list fn) (f : string) (k : nat) : option ex := option_map f_body (lookup l f k).

(** Computed facts about the tables. *)
Definition is_arg (i : nat) (e : ex) : bool := match e with Arg j => Nat.eqb i j | _ => false end.
Fixpoint are_args (i : nat) (l : list ex) : bool := match l with [] => true | e :: r => is_arg i e && are_args (S i) r end.
Definition calls (g : string) (k : nat) (e : option ex) : bool :=
  match e with Some (Call h l) => String.eqb g h && are_args 0 l && Nat.eqb (List.length l) k | _ => false end.
Lemma are_args_eq : forall l i, are_args i l = true -> l = map Arg (seq i (List.length l)).
Proof.
  induction l as [|e l IH]; intros i H; [reflexivity|]. cbn in *. apply andb_true_iff in H. destruct H as [E H].
  destruct e as [j| |]; try discriminate. apply Nat.eqb_eq in E. subst j. f_equal. now apply IH.
Qed.
Lemma calls_eq g k l f e : calls g k (body l f k) = true -> lookup l f k = Some e -> f_body e = std g k.
Proof.
  unfold body. intros H E. rewrite E in H. cbn in H. destruct (f_body e) as [| |h r]; try discriminate.
  apply andb_true_iff in H. destruct H as [H K]. apply andb_true_iff in H. destruct H as [H A].
  apply String.eqb_eq in H. apply Nat.eqb_eq in K. apply are_args_eq in A. subst. unfold std. congruence.
Qed.

Section Tower.
Variable V : Type.
Variable ty : V -> wty.
Variable conv : wty -> V -> V.
Variable prim : string -> list V -> V.
Variable nought : wty -> V.
Variable truth : V -> bool.
Notation evalV := (eval V ty nought).
Notation wordV := (call_word V ty conv prim truth).
Notation realV := (call_real V ty conv prim nought truth).
Notation callV := (call V ty conv prim nought truth).

Fixpoint evals (c : string -> list V -> option V) (l : list ex) (ws : list V) : option (list V) :=
  match l with
  | [] => Some []
  | a :: r => match evalV c a ws, evals c r ws with Some v, Some vs => Some (v :: vs) | _, _ => None end
  end.
Lemma eval_call c f l ws : evalV c (Call f l) ws = match evals c l ws with Some vs => c f vs | None => None end.
Proof.
  cbn. match goal with |- match ?a with _ => _ end = _ => assert (E : a = evals c l ws) end.
  { induction l as [|e l IH]; [reflexivity|]. cbn. rewrite IH. reflexivity. }
  now rewrite E.
Qed.
Lemma evals_args c : forall ws pre, evals c (map Arg (seq (List.length pre) (List.length ws))) (pre ++ ws)%list = Some ws.
Proof.
  induction ws as [|w ws IH]; intros pre; [reflexivity|]. cbn. rewrite nth_error_app2 by lia. rewrite Nat.sub_diag. cbn.
  specialize (IH (pre ++ [w])%list). rewrite app_length, Nat.add_comm in IH. cbn in IH. rewrite <- app_assoc in IH. cbn in IH. now rewrite IH.
Qed.
Lemma eval_std c f ws : evalV c (std f (List.length ws)) ws = c f ws.
Proof. unfold std. rewrite eval_call. pose proof (evals_args c ws []) as E. cbn in E. now rewrite E. Qed.

(** A call on PScalars that goes to the function g of the elements. *)
Lemma call_step f g k n ws : calls g k (body pscalar f k) = true -> List.length ws = k -> callV (S n) f ws = callV n g ws.
Proof.
  intros C L. cbn [call]. rewrite L. destruct (lookup pscalar f k) as [e|] eqn:E; [|unfold body in C; rewrite E in C; discriminate].
  rewrite (calls_eq _ _ _ _ _ C E), <- L. apply eval_std.
Qed.
Lemma call_pass f k ws : calls f k (body pscalar f k) = true -> List.length ws = k -> forall n, callV n f ws = realV f ws.
Proof. intros C L. induction n as [|n IH]; [reflexivity|]. rewrite (call_step f f k) by assumption. exact IH. Qed.
(** A call on RScalars that goes to the function g of words. *)
Lemma real_step f g k ws : calls g k (body rscalar f k) = true -> List.length ws = k -> realV f ws = wordV g ws.
Proof.
  intros C L. unfold call_real. rewrite L. destruct (lookup rscalar f k) as [e|] eqn:E; [|unfold body in C; rewrite E in C; discriminate].
  rewrite (calls_eq _ _ _ _ _ C E), <- L. apply eval_std.
Qed.
Lemma call_through f g k n ws : calls f k (body pscalar f k) && calls g k (body rscalar f k) = true -> List.length ws = k -> callV n f ws = wordV g ws.
Proof. intros C L. apply andb_true_iff in C. destruct C as [C D]. rewrite (call_pass f k) by assumption. now apply (real_step f g k). Qed.

(** Computed checks over lists of names. *)
Definition none_word (f : string) (k : nat) : bool :=
  match candidates f k with [] => true | _ => false end.
Definition is_machine (f : string) (k : nat) : bool := existsb (fun p => String.eqb (fst p) f && Nat.eqb (snd p) k) machine.
Lemma word_prim f ws : none_word f (List.length ws) && is_machine f (List.length ws) = true -> wordV f ws = Some (prim f ws).
Proof.
  intros H. apply andb_true_iff in H. destruct H as [N M]. unfold call_word, none_word, is_machine in *.
  destruct (candidates f (List.length ws)); [|discriminate]. now rewrite M.
Qed.
Definition direct (k : nat) (f : string) : bool :=
  calls f k (body pscalar f k) && calls f k (body rscalar f k) && (none_word f k && is_machine f k).
Lemma direct_ok k f n ws : direct k f = true -> List.length ws = k -> callV n f ws = Some (prim f ws).
Proof.
  intros D L. unfold direct in D. apply andb_true_iff in D. destruct D as [D M]. rewrite (call_through f f k) by assumption.
  apply word_prim. now rewrite L.
Qed.
Lemma ones_ok : forallb (direct 1) ones = true. Proof. vm_compute. reflexivity. Qed.
Lemma twos_ok : forallb (direct 2) twos = true. Proof. vm_compute. reflexivity. Qed.
Definition to_product (f : string) : bool := calls f 2 (body pscalar f 2) && calls "operator*" 2 (body rscalar f 2).
Lemma products_ok : forallb to_product products = true. Proof. vm_compute. reflexivity. Qed.
Definition to_trace (f : string) : bool := calls "traceMultiply" 2 (body pscalar f 2).
Lemma traces_ok : forallb to_trace traces = true. Proof. vm_compute. reflexivity. Qed.
Definition to_same (f : string) : bool :=
  calls f 1 (body pscalar f 1) && match body rscalar f 1 with Some e => is_arg 0 e | None => false end.
Lemma same_ok : forallb to_same (same ++ ["imagTrace"])%list = true. Proof. vm_compute. reflexivity. Qed.
Lemma to_same_ok f n x : to_same f = true -> callV n f [x] = Some x.
Proof.
  intros H. unfold to_same in H. apply andb_true_iff in H. destruct H as [P R]. rewrite (call_pass f 1) by (assumption || reflexivity).
  unfold call_real, body in *. cbn [List.length]. destruct (lookup rscalar f 1) as [e|]; [|discriminate]. cbn in R.
  destruct (f_body e) as [i| |]; try discriminate. apply Nat.eqb_eq in R. subst i. reflexivity.
Qed.
Definition to_word (k : nat) (f : string) : bool := calls f k (body pscalar f k) && calls f k (body rscalar f k).
Lemma inners_ok : forallb (fun f => calls f 2 (body pscalar f 2)) inners = true. Proof. vm_compute. reflexivity. Qed.

(** ** Words: the choice of the function depends on the types only *)
Lemma choose_word f ws cands c r : candidates f (List.length ws) = c :: cands -> choose f (map ty ws) = r ->
  wordV f ws = match r with Some c => option_map (conv (w_ret c)) (weval V conv prim truth (w_body c) (converts V conv (w_args c) ws)) | None => None end.
Proof. intros C E. unfold call_word. now rewrite C, E. Qed.
End Tower.

(** ** Only the known functions have values *)
Definition in_known (f : string) (k : nat) : bool := existsb (fun p => String.eqb (fst p) f && Nat.eqb (snd p) k) known.
(** Every PScalar function calls one function g of the elements with the parameters in order; if g is known, so is it. *)
Definition step_known (e : fn) : bool :=
  match f_body e with
  | Call g l => calls g (f_arity e) (Some (f_body e)) && (negb (in_known g (f_arity e)) || in_known (f_name e) (f_arity e))
  | _ => false
  end.
Lemma steps_known : forallb step_known pscalar = true. Proof. vm_compute. reflexivity. Qed.
(** The RScalar functions that are not known call a function of words that does not exist. *)
Definition real_known (e : fn) : bool :=
  in_known (f_name e) (f_arity e)
  || match f_body e with
     | Call g l => calls g (f_arity e) (Some (f_body e)) && none_word g (f_arity e) && negb (is_machine g (f_arity e))
     | _ => false
     end.
Lemma reals_known : forallb real_known rscalar = true. Proof. vm_compute. reflexivity. Qed.
Lemma lookup_in l f k e : lookup l f k = Some e -> In e l /\ f_name e = f /\ f_arity e = k.
Proof.
  intros H. apply find_some in H. destruct H as [I H]. apply andb_true_iff in H. destruct H as [A B].
  apply String.eqb_eq in A. apply Nat.eqb_eq in B. auto.
Qed.
Lemma calls_std g k e : calls g k (Some e) = true -> e = std g k.
Proof.
  cbn. destruct e as [| |h r]; try discriminate. intros H.
  apply andb_true_iff in H. destruct H as [H K]. apply andb_true_iff in H. destruct H as [H A].
  apply String.eqb_eq in H. apply Nat.eqb_eq in K. apply are_args_eq in A. subst. unfold std. congruence.
Qed.
Section Only.
Variable V : Type.
Variable ty : V -> wty.
Variable conv : wty -> V -> V.
Variable prim : string -> list V -> V.
Variable nought : wty -> V.
Variable truth : V -> bool.
Notation realV := (call_real V ty conv prim nought truth).
Notation callV := (call V ty conv prim nought truth).
Lemma real_only f ws v : realV f ws = Some v -> in_known f (List.length ws) = true.
Proof.
  unfold call_real. destruct (lookup rscalar f (List.length ws)) as [e|] eqn:L; [|discriminate]. intros E.
  apply lookup_in in L. destruct L as (I & N & A). pose proof (proj1 (forallb_forall _ _) reals_known e I) as K. unfold real_known in K. rewrite N, A in K.
  destruct (in_known f (List.length ws)); [reflexivity|]. cbn [orb] in K. destruct (f_body e) as [| |g l] eqn:B; try discriminate.
  apply andb_true_iff in K. destruct K as [K M]. apply andb_true_iff in K. destruct K as [K N0].
  rewrite (calls_std _ _ _ K), eval_std in E. unfold call_word, none_word, is_machine in *. destruct (candidates g (List.length ws)); [|discriminate].
  apply negb_true_iff in M. rewrite M in E. discriminate.
Qed.
Lemma call_only : forall n f ws v, callV n f ws = Some v -> in_known f (List.length ws) = true.
Proof.
  induction n as [|n IH]; intros f ws v; [apply real_only|]. cbn [call]. destruct (lookup pscalar f (List.length ws)) as [e|] eqn:L; [|discriminate]. intros E.
  apply lookup_in in L. destruct L as (I & N & A). pose proof (proj1 (forallb_forall _ _) steps_known e I) as K. unfold step_known in K. rewrite N, A in K.
  destruct (f_body e) as [| |g l] eqn:B; try discriminate. apply andb_true_iff in K. destruct K as [K M].
  rewrite (calls_std _ _ _ K), eval_std in E. apply IH in E. rewrite E in M. exact M.
Qed.
End Only.
