(** What is said about operators in expressions. *)
From Coq Require Import String List ZArith QArith Bool.
From Verif Require Import OperModel.
Import ListNotations.
Local Open Scope nat_scope.
Local Open Scope string_scope.

Section Spec.
Context {V : Type} (num : Q -> V) (fn : string -> list V -> V) (rnd : word -> Q -> Q) (ret : string -> list word -> word).
(** The value of an expression at a site: every function applied to the values of its operands, in the order written. *)
Fixpoint direct (u : uexp V) : V :=
  match u with
  | Obj _ v => v
  | Num q => num q
  | App f args => fn f (map direct args)
  end.
(** The word type of an expression: that of the object, or what the function makes of those of its operands, a plain number
    counting as the first operand that is none. *)
Definition first_word (ws : list (option word)) : word :=
  match flat_map (fun o => match o with Some w => [w] | None => [] end) ws with w :: _ => w | [] => Bool end.
Definition or_word (w : word) (o : option word) : word := match o with Some x => x | None => w end.
Fixpoint word_of (u : uexp V) : option word :=
  match u with
  | Obj w _ => Some w
  | Num _ => None
  | App f args => let ws := map word_of args in Some (ret f (map (or_word (first_word ws)) ws))
  end.
(** The value with every plain number first converted to the word type of the first operand beside it that is no plain
    number. *)
Definition operand (w : word) (d : uexp V -> V) (u : uexp V) : V :=
  match u with Num q => num (conv rnd w q) | _ => d u end.
Fixpoint converted (u : uexp V) : V :=
  match u with
  | Obj _ v => v
  | Num q => num q
  | App f args => fn f (map (operand (first_word (map word_of args)) converted) args)
  end.
(** No plain number is changed by that conversion. *)
Fixpoint kept (u : uexp V) : Prop :=
  match u with
  | Obj _ _ | Num _ => True
  | App f args =>
      fold_right and True (map (fun a => match a with
                                         | Num q => conv rnd (first_word (map word_of args)) q = q
                                         | _ => kept a
                                         end) args)
  end.
(** The shape of an operand. *)
Inductive shape := SObj | SExpr | SNum.
Definition shape_of (u : uexp V) : shape := match u with Obj _ _ => SObj | Num _ => SNum | App _ _ => SExpr end.
End Spec.

(** The functions and their numbers of operands. *)
Definition unary : list string :=
  ["adj"; "conj"; "transpose"; "transposeColor"; "transposeSpin"; "trace"; "realTrace"; "imagTrace"; "traceColor"; "traceSpin";
   "real"; "imag"; "localNorm2"; "timesI"; "timesMinusI"; "seedToFloat";
   "spinProjectDir0Plus"; "spinProjectDir1Plus"; "spinProjectDir2Plus"; "spinProjectDir3Plus";
   "spinProjectDir0Minus"; "spinProjectDir1Minus"; "spinProjectDir2Minus"; "spinProjectDir3Minus";
   "spinReconstructDir0Plus"; "spinReconstructDir1Plus"; "spinReconstructDir2Plus"; "spinReconstructDir3Plus";
   "spinReconstructDir0Minus"; "spinReconstructDir1Minus"; "spinReconstructDir2Minus"; "spinReconstructDir3Minus";
   "chiralProjectPlus"; "chiralProjectMinus"; "acos"; "asin"; "atan"; "ceil"; "cos"; "cosh"; "exp"; "fabs"; "floor"; "log";
   "log10"; "sin"; "sinh"; "sqrt"; "tan"; "tanh"; "operator-"; "operator+"; "operator~"; "PETE_identity"; "operator!"].
Definition binary : list string :=
  ["cmplx"; "outerProduct"; "colorVectorContract"; "colorCrossProduct"; "localInnerProduct"; "localInnerProductReal";
   "localColorInnerProduct"; "quarkContract13"; "quarkContract14"; "quarkContract23"; "quarkContract24"; "quarkContract12";
   "quarkContract34"; "operator+"; "operator-"; "operator*"; "operator/"; "operator%"; "operator&"; "operator|"; "operator^";
   "ldexp"; "pow"; "fmod"; "atan2"; "operator<"; "operator<="; "operator>"; "operator>="; "operator=="; "operator!=";
   "operator&&"; "operator||"; "operator<<"; "operator>>"].
Definition ternary : list string := ["colorContract"; "where"].
(** The calls of functions of three operands that are missing. *)
Definition missing (l : list shape) : Prop :=
  l = [SExpr; SExpr; SNum] \/ l = [SExpr; SNum; SExpr] \/ l = [SNum; SObj; SObj].
(** An expression that can be written: known functions with the right number of operands, not all of them plain numbers. *)
Fixpoint proper {V} (u : uexp V) : Prop :=
  match u with
  | Obj _ _ | Num _ => True
  | App f args =>
      (In f unary /\ List.length args = 1%nat \/ In f binary /\ List.length args = 2%nat \/ In f ternary /\ List.length args = 3%nat)
      /\ (exists s, In s (map shape_of args) /\ s <> SNum) /\ ~ missing (map shape_of args)
      /\ fold_right and True (map proper args)
  end.
