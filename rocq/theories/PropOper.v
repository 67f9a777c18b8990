(** C94: operators and functions in expressions. *)
From Coq Require Import String List ZArith QArith Bool Lia.
From Verif Require Import OperModel OperSpec OperProofs.
Import ListNotations.
Local Open Scope nat_scope.
Local Open Scope string_scope.
#[local] Strategy opaque [functions tags].

(** ** What an expression means *)
(** Whatever expression is written with any of the operators and functions, to any depth, if it compiles then at every site it
    has the value of the functions written, applied to their operands in the order written; only a plain number is first
    converted to the word type of the first operand beside it that is no plain number. *)
Theorem C94_converted {V} (num : Q -> V) fn rnd ret u b : build num rnd ret u = Some b -> value num fn b = Some (converted num fn rnd ret u).
Proof. intros B. exact (proj1 (proj2 (build_meaning num fn rnd ret u b B))). Qed.
(** If those conversions change no number, it is just the value written. *)
Theorem C94_meaning {V} (num : Q -> V) fn rnd ret u b : build num rnd ret u = Some b -> kept rnd ret u -> value num fn b = Some (direct num fn u).
Proof. intros B K. rewrite <- (kept_direct num fn rnd ret u K). now apply C94_converted with (1 := B). Qed.
(** The word type of an expression is that of the function on the word types of its operands. *)
Theorem C94_word {V} (num : Q -> V) rnd ret u b : build num rnd ret u = Some b -> word_b b = word_of ret u.
Proof. intros B. exact (proj1 (build_meaning num (fun _ _ => num 0%Q) rnd ret u b B)). Qed.

(** ** Which expressions compile *)
(** Every function of one or two operands, and of three but for the combinations [missing], accepts any mixture of fields,
    expressions and plain numbers with one operand that is no plain number, to any depth, and no call is ambiguous. *)
Theorem C94_defined {V} (num : Q -> V) fn rnd ret u : proper u -> exists b, build num rnd ret u = Some b /\ value num fn b = Some (converted num fn rnd ret u).
Proof. intros P. destruct (builds num rnd ret u P) as (b & B). exists b. split; [exact B|now apply C94_converted with (1 := B)]. Qed.
(** FALSE: functions of three operands accept every mixture. Two expressions and a number, and a number and two fields, do not
    compile: where(a < b, c + d, 0) among them. *)
Theorem C94_missing_refuted {V} (num : Q -> V) rnd ret f args : In f ternary -> missing (map shape_of args) -> build num rnd ret (App f args) = None.
Proof.
  intros F M. rewrite build_app. destruct (build_all num rnd ret args) as [bs|] eqn:B; [|reflexivity]. assert (Sh : map shape_b bs = map shape_of args).
  { apply build_all_map in B. clear -B. induction B as [|u b us bs H _ IHl]; [reflexivity|]. cbn. f_equal; [now apply build_shape in H|exact IHl]. }
  unfold call. rewrite select_shape, Sh. assert (N : none_found f (map shape_of args) = true).
  { apply (check none_found _ _ f _ not_found3 F). destruct M as [-> |[-> | ->]]; cbn; auto. }
  unfold none_found in N. destruct (select_s f (map shape_of args)); [reflexivity|discriminate].
Qed.

(** ** What the conversion of plain numbers does *)
Lemma bool_conv rnd q : (q == 0)%Q \/ (q == 1)%Q \/ conv rnd Bool q = 1%Q.
Proof.
  unfold conv, zeroq, oneq. destruct (Z.eqb_spec (Qnum q) 0) as [E|E].
  - left. unfold Qeq. cbn. lia.
  - destruct (Z.eqb_spec (Qnum q) (Zpos (Qden q))) as [F|F]; [|right; right; reflexivity]. right. left. unfold Qeq. cbn. lia.
Qed.
(** FALSE: where(mask, q, r) is q where the mask is true and r elsewhere. The numbers take the word type of the mask: every
    number but 0 is 1, in both places, also when the other one is a field. *)
Theorem C94_where_refuted {V} (num : Q -> V) fn rnd ret mask q r : ~ (q == 0)%Q -> ~ (r == 0)%Q -> ~ (q == 1)%Q -> ~ (r == 1)%Q ->
  (forall x, proper x -> shape_of x <> SNum -> word_of ret x = Some Bool ->
     exists b, build num rnd ret (App "where" [x; Num q; Num r]) = Some b /\
       value num fn b = Some (fn "where" [converted num fn rnd ret x; num 1%Q; num 1%Q])) /\
  (forall w a, exists b, build num rnd ret (App "where" [Obj Bool mask; Num q; Obj w a]) = Some b /\ value num fn b = Some (fn "where" [mask; num 1%Q; a])) /\
  (forall w a, exists b, build num rnd ret (App "where" [Obj Bool mask; Obj w a; Num q]) = Some b /\ value num fn b = Some (fn "where" [mask; a; num 1%Q])).
Proof.
  intros Q0 R0 Q1 R1. assert (CQ : conv rnd Bool q = 1%Q) by (destruct (bool_conv rnd q) as [X|[X|X]]; [contradiction|contradiction|exact X]).
  assert (CR : conv rnd Bool r = 1%Q) by (destruct (bool_conv rnd r) as [X|[X|X]]; [contradiction|contradiction|exact X]).
  split; [|split].
  - intros x P S W. destruct (C94_defined num fn rnd ret (App "where" [x; Num q; Num r])) as (b & B & E).
    + cbn [proper map List.length fold_right]. split; [right; right; cbn; auto|]. split; [exists (shape_of x); split; [now left|exact S]|]. split; [|auto].
      unfold missing. destruct (shape_of x); cbn; intros [X|[X|X]]; congruence.
    + exists b. split; [exact B|]. rewrite E. cbn [converted map]. rewrite W. unfold first_word. cbn [flat_map word_of app].
      cbn [operand]. rewrite CQ, CR. f_equal. f_equal. f_equal. destruct x; [reflexivity|exfalso; now apply S|reflexivity].
  - intros w a. destruct (C94_defined num fn rnd ret (App "where" [Obj Bool mask; Num q; Obj w a])) as (b & B & E).
    + cbn [proper map List.length fold_right shape_of]. split; [right; right; cbn; auto|]. split; [exists SObj; split; [now left|discriminate]|]. split; [|auto].
      unfold missing. intros [X|[X|X]]; discriminate.
    + exists b. split; [exact B|]. rewrite E. cbn [converted map word_of operand]. unfold first_word. cbn [flat_map app]. now rewrite CQ.
  - intros w a. destruct (C94_defined num fn rnd ret (App "where" [Obj Bool mask; Obj w a; Num q])) as (b & B & E).
    + cbn [proper map List.length fold_right shape_of]. split; [right; right; cbn; auto|]. split; [exists SObj; split; [now left|discriminate]|]. split; [|auto].
      unfold missing. intros [X|[X|X]]; discriminate.
    + exists b. split; [exact B|]. rewrite E. cbn [converted map word_of operand]. unfold first_word. cbn [flat_map app]. now rewrite CQ.
Qed.
(** FALSE: a plain number keeps its value. Beside an integer field 5/2 is 2, in every function of two operands. *)
Theorem C94_number_refuted {V} (num : Q -> V) fn rnd ret f a : In f binary ->
  (exists b, build num rnd ret (App f [Obj Int a; Num (5 # 2)]) = Some b /\ value num fn b = Some (fn f [a; num 2%Q])) /\
  (exists b, build num rnd ret (App f [Num (5 # 2); Obj Int a]) = Some b /\ value num fn b = Some (fn f [num 2%Q; a])).
Proof.
  intros F. split.
  - destruct (C94_defined num fn rnd ret (App f [Obj Int a; Num (5 # 2)])) as (b & B & E).
    + cbn [proper map List.length fold_right shape_of]. split; [right; left; auto|]. split; [exists SObj; split; [now left|discriminate]|]. split; [|auto]. intros [X|[X|X]]; discriminate.
    + exists b. split; [exact B|]. rewrite E. reflexivity.
  - destruct (C94_defined num fn rnd ret (App f [Num (5 # 2); Obj Int a])) as (b & B & E).
    + cbn [proper map List.length fold_right shape_of]. split; [right; left; auto|]. split; [exists SObj; split; [right; now left|discriminate]|]. split; [|auto]. intros [X|[X|X]]; discriminate.
    + exists b. split; [exact B|]. rewrite E. reflexivity.
Qed.

(** ** Cases that meet the hypotheses *)
(** where(a < 3*b, -a, b*2) with double fields a = 5 and b = 2. *)
Definition case : uexp Q :=
  App "where" [App "operator<" [Obj Double 5%Q; App "operator*" [Num 3; Obj Double 2%Q]];
               App "operator-" [Obj Double 5%Q]; App "operator*" [Obj Double 2%Q; Num 2]].
Definition fns (f : string) (l : list Q) : Q :=
  match l with
  | [a] => Qopp a
  | [a; b] => if String.eqb f "operator*" then Qmult a b else if Qle_bool b a then 0 else 1
  | [a; b; c] => if Qeq_bool a 1 then b else c
  | _ => 0
  end.
Definition words (f : string) (l : list word) : word := if String.eqb f "operator<" then Bool else Double.
Example C94_case : proper case /\ kept (fun _ q => q) words case /\
  match build (fun q => q) (fun _ q => q) words case with Some b => value (fun q => q) fns b | None => None end = Some (-5)%Q.
Proof.
  split; [|split].
  - unfold case. cbn [proper map fold_right shape_of List.length]. repeat match goal with |- _ /\ _ => split | |- True => exact I end;
      try (right; right; split; [cbn; tauto|reflexivity]); try (right; left; split; [cbn; tauto|reflexivity]); try (left; split; [cbn; tauto|reflexivity]);
      try (intros [X|[X|X]]; discriminate).
    all: try (exists SExpr; split; [now left|discriminate]). all: try (exists SObj; split; [cbn; tauto|discriminate]).
  - cbn. tauto.
  - vm_compute. reflexivity.
Qed.
(** where(mask, 5, 7) on a site where the mask is false. *)
Example C94_case_where :
  match build (fun q => q) (fun _ q => q) words (App "where" [Obj Bool 0%Q; Num 5; Num 7]) with Some b => value (fun q => q) fns b | None => None end = Some 1%Q.
Proof. vm_compute. reflexivity. Qed.
Example C94_case_missing : missing (map shape_of [App "operator<" [Obj Double 1%Q; Obj Double 2%Q]; App "operator+" [Obj Double 1%Q; Obj Double 2%Q]; Num 0]).
Proof. left. reflexivity. Qed.

Print Assumptions C94_converted.
Print Assumptions C94_meaning.
Print Assumptions C94_word.
Print Assumptions C94_defined.
Print Assumptions C94_missing_refuted.
Print Assumptions C94_where_refuted.
Print Assumptions C94_number_refuted.
