(** C95: functions of real, integer and boolean objects. *)
From Coq Require Import String List ZArith Bool Lia Arith.
From Verif Require Import WrapModel WrapSpec WrapProofs.
Import ListNotations.
Local Open Scope nat_scope.
Local Open Scope string_scope.
#[local] Strategy opaque [pscalar rscalar words machine known].

Section Prop95.
Context {V : Type} (ty : V -> wty) (conv : wty -> V -> V) (prim : string -> list V -> V) (nought : wty -> V) (truth : V -> bool).
Notation callV := (call V ty conv prim nought truth).
Notation wordV := (call_word V ty conv prim truth).
Notation assignV := (assign V ty conv prim).

(** ** The operators and functions of C++ *)
(** Every operator, comparison and elementary function of real, integer and boolean objects, however many wrappers they are in,
    is that of C++ on the words, operands in the order written. *)
Theorem C95_machine n f ws : In f ones /\ List.length ws = 1 \/ In f twos /\ List.length ws = 2 -> callV n f ws = Some (prim f ws).
Proof.
  intros [[I L]|[I L]].
  - exact (direct_ok V ty conv prim nought truth 1 f n ws (proj1 (forallb_forall _ _) ones_ok f I) L).
  - exact (direct_ok V ty conv prim nought truth 2 f n ws (proj1 (forallb_forall _ _) twos_ok f I) L).
Qed.
(** Assignments with an operator make the operation and convert the result to the type of the destination. *)
Lemma assign_step f : (f = "operator=" \/ In f (map fst assigns)) -> forall n d r, assignV n f d r = assign_word V ty conv prim f d r.
Proof.
  intros I. assert (P : lookup_assign pscalar_assign f = Some f /\ lookup_assign rscalar_assign f = Some f).
  { destruct I as [-> |I]; [split; vm_compute; reflexivity|]. cbn in I. repeat (destruct I as [<- |I]; [split; vm_compute; reflexivity|]). destruct I. }
  destruct P as [P R]. induction n as [|n IH]; intros d r; cbn [assign]; [now rewrite R|]. rewrite P. apply IH.
Qed.
Theorem C95_assign n d r : assignV n "operator=" d r = Some (conv (ty d) r) /\
  (forall f g, In (f, g) assigns -> assignV n f d r = Some (conv (ty d) (prim g [d; r]))).
Proof.
  split; [rewrite assign_step; [reflexivity|now left]|]. intros f g I. rewrite assign_step.
  - cbn in I. repeat (destruct I as [[= <- <-]|I]; [reflexivity|]). destruct I.
  - right. apply in_map_iff. exists (f, g). auto.
Qed.

(** ** What leaves a real number alone, and products *)
Theorem C95_same n f x : In f same -> callV n f [x] = Some x.
Proof.
  intros I. apply to_same_ok. apply (proj1 (forallb_forall _ _) same_ok f). apply in_or_app. now left.
Qed.
Theorem C95_imag n x : callV n "imag" [x] = Some (nought (ty x)).
Proof. rewrite (call_pass V ty conv prim nought truth "imag" 1) by (vm_compute; reflexivity). reflexivity. Qed.
(** FALSE: the imaginary part of the trace of a real object is zero. It is the object. *)
Theorem C95_imagTrace_refuted n x : callV n "imagTrace" [x] = Some x.
Proof. apply to_same_ok. vm_compute. reflexivity. Qed.
Theorem C95_products n f a b : In f products \/ In f traces /\ n <> 0 -> callV n f [a; b] = Some (prim "operator*" [a; b]).
Proof.
  assert (P : forall m g, In g products -> callV m g [a; b] = Some (prim "operator*" [a; b])).
  { intros m g I. pose proof (proj1 (forallb_forall _ _) products_ok g I) as T.
    rewrite (call_through V ty conv prim nought truth g "operator*" 2) by (exact T || reflexivity). apply word_prim. vm_compute. reflexivity. }
  intros [I|[I N]]; [now apply P|]. destruct n as [|n]; [contradiction|].
  pose proof (proj1 (forallb_forall _ _) traces_ok f I) as T.
  rewrite (call_step V ty conv prim nought truth f "traceMultiply" 2) by (exact T || reflexivity). apply P. cbn. auto.
Qed.

(** ** Inner products, norms and sums *)
Lemma inner_word n f a b : In f inners -> exists g, In g ["localInnerProduct"; "localColorInnerProduct"] /\ callV n f [a; b] = wordV g [a; b].
Proof.
  intros I. cbn in I. destruct I as [<- |[<- |[<- |[]]]].
  - exists "localInnerProduct". split; [cbn; auto|]. now rewrite (call_through V ty conv prim nought truth _ "localInnerProduct" 2) by (vm_compute; reflexivity).
  - exists "localInnerProduct". split; [cbn; auto|]. now rewrite (call_through V ty conv prim nought truth _ "localInnerProduct" 2) by (vm_compute; reflexivity).
  - exists "localColorInnerProduct". split; [cbn; auto|]. now rewrite (call_through V ty conv prim nought truth _ "localColorInnerProduct" 2) by (vm_compute; reflexivity).
Qed.
Variable L : laws ty conv prim truth.
Ltac chosen := match goal with |- call_word _ _ _ _ _ ?f ?ws = _ =>
  erewrite (choose_word V ty conv prim truth f ws);
  [|vm_compute; reflexivity|cbn [map]; repeat match goal with H : ty ?x = _ |- context [ty ?x] => rewrite H end; vm_compute; reflexivity] end;
  cbn [weval w_body w_ret w_args converts map combine fst snd nth_error option_map].
Lemma same_conv v t : ty v = t -> conv t v = v.
Proof. intros <-. exact (conv_same _ _ _ _ L v). Qed.
Lemma twice v t : conv t (conv t v) = conv t v.
Proof. apply same_conv. apply (conv_ty _ _ _ _ L). Qed.
Lemma mul_conv t a b : t <> Bln -> conv t (prim "operator*" [conv t a; conv t b]) = prim "operator*" [conv t a; conv t b].
Proof.
  intros N. apply same_conv. rewrite (mul_ty _ _ _ _ L); rewrite !(conv_ty _ _ _ _ L); [reflexivity|reflexivity|exact N].
Qed.
(** The inner product of two reals, or of two integers or booleans, is their product in the type of sums: double for reals of
    which not both are single precision. *)
Theorem C95_inner n f a b : In f inners -> sum_type (ty a) = sum_type (ty b) -> ~ (ty a = Flt /\ ty b = Flt) ->
  callV n f [a; b] = Some (prim "operator*" [conv (sum_type (ty a)) a; conv (sum_type (ty a)) b]).
Proof.
  intros I E N. destruct (inner_word n f a b I) as (g & G & ->). clear I.
  destruct G as [<- |[<- |[]]]; destruct (ty a) eqn:A; destruct (ty b) eqn:B; cbn in E; try discriminate E; try (exfalso; apply N; auto; fail);
    chosen; cbn [sum_type]; f_equal; try rewrite (same_conv a Flt A); try rewrite (same_conv b Flt B); apply mul_conv; discriminate.
Qed.
(** Two singles are multiplied in single precision; only the result is made double. *)
Theorem C95_inner_single n f a b : In f inners -> ty a = Flt -> ty b = Flt -> callV n f [a; b] = Some (conv Dbl (prim "operator*" [a; b])).
Proof.
  intros I A B. destruct (inner_word n f a b I) as (g & G & ->). clear I.
  destruct G as [<- |[<- |[]]]; chosen; f_equal; now rewrite twice, (same_conv a _ A), (same_conv b _ B).
Qed.
(** FALSE: an integer and a real, or an unsigned and another integer, have an inner product: the call is ambiguous. *)
Theorem C95_inner_refuted n f a b : In f inners -> sum_type (ty a) <> sum_type (ty b) -> callV n f [a; b] = None.
Proof.
  intros I E. destruct (inner_word n f a b I) as (g & G & ->). clear I.
  destruct G as [<- |[<- |[]]]; destruct (ty a) eqn:A; destruct (ty b) eqn:B; cbn in E; try (exfalso; apply E; reflexivity); chosen; reflexivity.
Qed.
Theorem C95_norm2 n a : callV n "localNorm2" [a] =
  Some (match ty a with
        | Flt => conv Dbl (prim "operator*" [a; a])
        | t => prim "operator*" [conv (sum_type t) a; conv (sum_type t) a]
        end).
Proof.
  rewrite (call_through V ty conv prim nought truth _ "localNorm2" 1) by (vm_compute; reflexivity).
  destruct (ty a) eqn:A; chosen; cbn [sum_type]; f_equal; rewrite ?(same_conv a _ A), ?twice; try reflexivity;
    try (apply same_conv; rewrite (mul_ty _ _ _ _ L); rewrite ?(conv_ty _ _ _ _ L); congruence).
Qed.
Theorem C95_sum n a : callV n "sum" [a] = Some (conv (sum_type (ty a)) a).
Proof.
  rewrite (call_through V ty conv prim nought truth _ "sum" 1) by (vm_compute; reflexivity).
  destruct (ty a) eqn:A; chosen; cbn [sum_type]; f_equal; rewrite ?(same_conv a _ A), ?twice; reflexivity.
Qed.

(** ** Choice and conversion *)
(** where chooses, for two singles, two doubles, two integers or booleans, or one unsigned and something else (whose type the
    result then has). FALSE: for other combinations it does not compile - single and double, integer or boolean and real, two
    unsigned. *)
Theorem C95_where n m b c : callV n "where" [m; b; c] =
  option_map (fun t => conv t (if truth m then b else c)) (where_type (ty b) (ty c)).
Proof.
  rewrite (call_through V ty conv prim nought truth _ "where" 3) by (vm_compute; reflexivity).
  destruct (ty m) eqn:M; destruct (ty b) eqn:B; destruct (ty c) eqn:C; cbn [where_type option_map]; chosen; try reflexivity;
    rewrite ?(conv_truth _ _ _ _ L); destruct (truth m); cbn [option_map]; now rewrite ?twice.
Qed.
Theorem C95_casts n f t a : In (f, t) casts -> callV n f [a] = Some (conv t a).
Proof.
  intros I. cbn in I. destruct I as [[= <- <-]|[[= <- <-]|[[= <- <-]|[[= <- <-]|[]]]]].
  all: match goal with |- call _ _ _ _ _ _ _ ?f _ = _ => rewrite (call_through V ty conv prim nought truth f f 1) by (vm_compute; reflexivity) end.
  all: destruct (ty a) eqn:A; chosen; now rewrite twice.
Qed.
(** toWordType is the word; of an unsigned it does not compile. *)
Theorem C95_toWordType n a : callV n "toWordType" [a] = match ty a with Uns => None | _ => Some a end.
Proof.
  rewrite (call_through V ty conv prim nought truth _ "toWordType" 1) by (vm_compute; reflexivity).
  destruct (ty a) eqn:A; chosen; rewrite ?(same_conv a _ A); try reflexivity; now rewrite (same_conv a _ A).
Qed.
(** FALSE: booleans and unsigned integers can be set to zero and be copied under a mask. *)
Theorem C95_zero d : zero_rep V ty conv nought d = match ty d with Bln | Uns => None | t => Some (conv t (nought Int)) end.
Proof. unfold zero_rep. now destruct (ty d). Qed.
Theorem C95_copymask d m s : ty s = ty d ->
  copymask V ty conv truth d m s = match ty d with Bln | Uns => None | _ => Some (if truth m then s else d) end.
Proof. intros E. unfold copymask. rewrite <- E, (same_conv s _ eq_refl). now destruct (ty s). Qed.

(** ** Nothing else *)
(** No other function of reals has a real value: none gives a wrong one silently. *)
Theorem C95_only n f ws v : callV n f ws = Some v -> In (f, List.length ws) known.
Proof.
  intros E. apply call_only in E. unfold in_known in E. apply existsb_exists in E. destruct E as ((g & k) & I & E).
  apply andb_true_iff in E. destruct E as [F K]. apply String.eqb_eq in F. apply Nat.eqb_eq in K. cbn in F, K. now subst.
Qed.
(** FALSE: the functions of two operands that C++ has for words and expressions accept, fmod and ldexp, and operator~, work for
    objects, and so does transposeColor. PScalar has none of them, so no object in a PScalar has. *)
Theorem C95_missing_refuted n f ws : In f ["fmod"; "ldexp"; "operator~"; "transposeColor"] ->
  lookup pscalar f (List.length ws) = None /\ callV n f ws = None.
Proof.
  intros I. assert (P : forall l, (l = pscalar \/ l = rscalar) -> forall k, lookup l f k = None).
  { intros l Hl k. unfold lookup. destruct (find _ l) as [e|] eqn:E; [|reflexivity]. exfalso. apply find_some in E. destruct E as [E F].
    apply andb_true_iff in F. destruct F as [F _].
    assert (C : existsb (fun e => String.eqb (f_name e) f) l = true) by (apply existsb_exists; exists e; auto).
    cbn in I. destruct Hl as [-> | ->]; destruct I as [<- |[<- |[<- |[<- |[]]]]]; vm_compute in C; discriminate. }
  split; [apply P; now left|]. destruct n; cbn [call]; [unfold call_real|]; rewrite P; auto.
Qed.
End Prop95.

(** ** A machine *)
(** Integers rounded to 24 or 53 binary digits, or taken modulo 2^32. *)
Definition round (p z : Z) : Z :=
  let k := Z.max 0 (Z.log2 (Z.abs z) + 1 - p) in
  let q := Z.div (Z.abs z) (2 ^ k) in
  let r := Z.modulo (Z.abs z) (2 ^ k) in
  Z.sgn z * (if (2 * r <? 2 ^ k)%Z || ((2 * r =? 2 ^ k)%Z && Z.even q) then q else q + 1) * 2 ^ k.
Definition fit (t : wty) (z : Z) : Z :=
  match t with
  | Int => Z.modulo (z + 2 ^ 31) (2 ^ 32) - 2 ^ 31
  | Uns => Z.modulo z (2 ^ 32)
  | Flt => round 24 z
  | Dbl => round 53 z
  | Bln => if Z.eqb z 0 then 0 else 1
  end%Z.
Definition tyz (v : wty * Z) : wty := fst v.
Definition convz (t : wty) (v : wty * Z) : wty * Z := if wty_eqb t (fst v) then v else (t, fit t (snd v)).
Definition common (a b : wty) : wty :=
  match a, b with Dbl, _ | _, Dbl => Dbl | Flt, _ | _, Flt => Flt | Uns, _ | _, Uns => Uns | _, _ => Int end.
Definition primz (f : string) (l : list (wty * Z)) : wty * Z :=
  match l with
  | [a; b] => let t := common (fst a) (fst b) in
              if String.eqb f "operator<" then (Bln, if Z.ltb (snd a) (snd b) then 1 else 0)%Z
              else if String.eqb f "operator*" then (t, fit t (snd a * snd b)) else (t, fit t (snd a - snd b))
  | _ => (Int, 0%Z)
  end.
Definition truthz (v : wty * Z) : bool := negb (Z.eqb (snd v) 0).
Lemma machine_laws : laws tyz convz primz truthz.
Proof.
  split.
  - intros [t z]. unfold convz, tyz. cbn. now destruct t.
  - intros t [u z]. unfold convz, tyz. now destruct t, u.
  - intros [t a] [u b]. unfold tyz. cbn. intros <- N. destruct t; try reflexivity. now destruct N.
  - intros [t z]. unfold convz, truthz. destruct t; cbn; try reflexivity; now destruct (Z.eqb z 0).
Qed.
Notation callz := (call (wty * Z) tyz convz primz (fun t => (t, 0%Z)) truthz).
(** FALSE: norms and inner products of single precision reals are computed in double precision. The norm of 4097 is 16785408
    although 4097 * 4097 = 16785409 is a double. *)
Theorem C95_single_refuted : forall n,
  callz n "localNorm2" [(Flt, 4097)]%Z = Some (Dbl, 16785408)%Z /\
  primz "operator*" [convz Dbl (Flt, 4097); convz Dbl (Flt, 4097)]%Z = (Dbl, 16785409)%Z.
Proof. intros n. rewrite (C95_norm2 _ _ _ _ _ machine_laws). split; vm_compute; reflexivity. Qed.

(** ** Cases *)
Example C95_cases :
  (callz 2 "operator<" [(Int, 3); (Dbl, 5)] = Some (Bln, 1))%Z /\
  (callz 2 "operator-" [(Int, 3); (Int, 5)] = Some (Int, -2))%Z /\
  (callz 2 "where" [(Bln, 0); (Flt, 3); (Flt, 5)] = Some (Flt, 5))%Z /\
  (callz 2 "where" [(Bln, 0); (Flt, 3); (Dbl, 5)] = None)%Z /\
  (callz 2 "localInnerProduct" [(Flt, 4097); (Dbl, 4097)] = Some (Dbl, 16785409))%Z /\
  (callz 2 "traceSpinMultiply" [(Int, 3); (Int, 5)] = Some (Int, 15))%Z /\
  (callz 2 "imagTrace" [(Dbl, 3)] = Some (Dbl, 3))%Z /\
  (assign (wty * Z) tyz convz primz 2 "operator*=" (Int, 3) (Dbl, 5) = Some (Int, 15))%Z.
Proof. repeat split; vm_compute; reflexivity. Qed.

Print Assumptions C95_machine.
Print Assumptions C95_assign.
Print Assumptions C95_same.
Print Assumptions C95_imag.
Print Assumptions C95_imagTrace_refuted.
Print Assumptions C95_products.
Print Assumptions C95_inner.
Print Assumptions C95_inner_single.
Print Assumptions C95_inner_refuted.
Print Assumptions C95_norm2.
Print Assumptions C95_sum.
Print Assumptions C95_where.
Print Assumptions C95_casts.
Print Assumptions C95_toWordType.
Print Assumptions C95_zero.
Print Assumptions C95_copymask.
Print Assumptions C95_only.
Print Assumptions C95_missing_refuted.
Print Assumptions C95_single_refuted.
