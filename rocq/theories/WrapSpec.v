(** What functions of real, integer and boolean objects should be, in terms of the words of the machine. *)
From Coq Require Import String List ZArith Bool.
From Verif Require Import WrapModel.
Import ListNotations.
Local Open Scope nat_scope.
Local Open Scope string_scope.

(** The operators and functions that C++ has for words, with their numbers of operands. *)
Definition ones : list string :=
  ["operator!"; "operator+"; "operator-"; "acos"; "asin"; "atan"; "ceil"; "cos"; "cosh"; "exp"; "fabs"; "floor"; "log"; "log10";
   "sin"; "sinh"; "sqrt"; "tan"; "tanh"; "isnan"; "isinf"; "isnormal"; "isfinite"].
Definition twos : list string :=
  ["operator+"; "operator-"; "operator*"; "operator/"; "operator<<"; "operator>>"; "operator%"; "operator^"; "operator&";
   "operator|"; "operator<"; "operator<="; "operator>"; "operator>="; "operator=="; "operator!="; "operator&&"; "operator||";
   "pow"; "atan2"].
(** What leaves a real number as it is, and the products. *)
Definition same : list string := ["adj"; "conj"; "transpose"; "trace"; "realTrace"; "real"].
Definition products : list string := ["adjMultiply"; "multiplyAdj"; "adjMultiplyAdj"; "traceMultiply"; "outerProduct"].
Definition traces : list string := ["traceColorMultiply"; "traceSpinMultiply"].
Definition inners : list string := ["localInnerProduct"; "localInnerProductReal"; "localColorInnerProduct"].
(** The type in which sums of words of a type are made. *)
Definition sum_type (t : wty) : wty := match t with Int | Bln => Int | Uns => Uns | Flt | Dbl => Dbl end.
(** The type of where with words of these types as second and third operand, if both are single, both double, both int or bool,
    or one of them is unsigned and the other is not: then it takes the type of the other. *)
Definition where_type (a b : wty) : option wty :=
  match a, b with
  | Flt, Flt | Uns, Flt | Flt, Uns => Some Flt
  | Dbl, Dbl | Uns, Dbl | Dbl, Uns => Some Dbl
  | Int, Int | Int, Bln | Bln, Int | Bln, Bln | Uns, Int | Int, Uns | Uns, Bln | Bln, Uns => Some Int
  | _, _ => None
  end.
(** The conversions by name. *)
Definition casts : list (string * wty) := [("toInt", Int); ("toFloat", Flt); ("toDouble", Dbl); ("toBool", Bln)].
(** The assignments and the operations they make. *)
Definition assigns : list (string * string) :=
  [("operator+=", "operator+"); ("operator-=", "operator-"); ("operator*=", "operator*"); ("operator/=", "operator/");
   ("operator%=", "operator%"); ("operator|=", "operator|"); ("operator&=", "operator&"); ("operator^=", "operator^");
   ("operator<<=", "operator<<"); ("operator>>=", "operator>>")].
(** All functions of reals whose value is real, with their numbers of operands. *)
Definition known : list (string * nat) :=
  (map (fun f => (f, 1)) (ones ++ same ++ map fst casts ++ ["imag"; "imagTrace"; "localNorm2"; "sum"; "toWordType"])
  ++ map (fun f => (f, 2)) (twos ++ products ++ traces ++ inners) ++ [("where", 3)])%list.

(** What is taken of a machine: converting a word to its own type changes nothing, a converted word has the type asked for,
    the product of two words of one type other than bool has that type, and converting to bool keeps the truth. *)
Record laws {V} (ty : V -> wty) (conv : wty -> V -> V) (prim : string -> list V -> V) (truth : V -> bool) : Prop := {
  conv_same : forall v, conv (ty v) v = v;
  conv_ty : forall t v, ty (conv t v) = t;
  mul_ty : forall a b, ty a = ty b -> ty a <> Bln -> ty (prim "operator*" [a; b]) = ty a;
  conv_truth : forall v, truth (conv Bln v) = truth v }.
