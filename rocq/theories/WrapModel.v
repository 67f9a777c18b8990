(** Model of the functions of real, integer and boolean objects: the wrappers PScalar (include/qdp_primscalar.h) and RScalar
    (include/qdp_reality.h) around machine words, and the functions of words (include/qdp_simpleword.h). The constructors, the
    streams, and the results that are complex numbers are elsewhere. *)
From Coq Require Import String List ZArith Bool Arith.
Import ListNotations.
Local Open Scope nat_scope.
Local Open Scope string_scope.

(** The body of a function of wrappers: an expression in the elements of its parameters. Zero is S(0) with
    S = InternalScalar<T>::Type_t (include/qdp_reality.h 1218-1223). *)
Inductive ex := Arg (i : nat) | Zero | Call (f : string) (l : list ex).
(** One function: its line, name, number of parameters and body. The return types (UnaryReturn, BinaryReturn) are taken to
    be able to hold the value of the body. *)
Record fn := mkFn { f_line : Z; f_name : string; f_arity : nat; f_body : ex }.
(** The types of machine words, and the bodies of the functions of words. *)
Inductive wty := Int | Uns | Flt | Dbl | Bln.
Inductive wex := WArg (i : nat) | WCast (t : wty) (e : wex) | WMul (a b : wex) | WIf (c a b : wex).
Record wfn := mkWf { w_line : Z; w_name : string; w_args : list wty; w_ret : wty; w_body : wex }.
(** include/qdp_primscalar.h 233-1590, every function all of whose parameters are PScalars, in order; written by a script from the text. *)
Definition pscalar : list fn := [
   mkFn 387%Z "operator!" 1 (Call "operator!" [Arg 0]);
   mkFn 395%Z "operator+" 1 (Call "operator+" [Arg 0]);
   mkFn 403%Z "operator-" 1 (Call "operator-" [Arg 0]);
   mkFn 411%Z "operator+" 2 (Call "operator+" [Arg 0; Arg 1]);
   mkFn 419%Z "operator-" 2 (Call "operator-" [Arg 0; Arg 1]);
   mkFn 427%Z "operator*" 2 (Call "operator*" [Arg 0; Arg 1]);
   mkFn 435%Z "adjMultiply" 2 (Call "adjMultiply" [Arg 0; Arg 1]);
   mkFn 443%Z "multiplyAdj" 2 (Call "multiplyAdj" [Arg 0; Arg 1]);
   mkFn 459%Z "adjMultiplyAdj" 2 (Call "adjMultiplyAdj" [Arg 0; Arg 1]);
   mkFn 467%Z "operator/" 2 (Call "operator/" [Arg 0; Arg 1]);
   mkFn 481%Z "operator<<" 2 (Call "operator<<" [Arg 0; Arg 1]);
   mkFn 494%Z "operator>>" 2 (Call "operator>>" [Arg 0; Arg 1]);
   mkFn 502%Z "operator%" 2 (Call "operator%" [Arg 0; Arg 1]);
   mkFn 510%Z "operator^" 2 (Call "operator^" [Arg 0; Arg 1]);
   mkFn 518%Z "operator&" 2 (Call "operator&" [Arg 0; Arg 1]);
   mkFn 526%Z "operator|" 2 (Call "operator|" [Arg 0; Arg 1]);
   mkFn 540%Z "operator<" 2 (Call "operator<" [Arg 0; Arg 1]);
   mkFn 553%Z "operator<=" 2 (Call "operator<=" [Arg 0; Arg 1]);
   mkFn 566%Z "operator>" 2 (Call "operator>" [Arg 0; Arg 1]);
   mkFn 579%Z "operator>=" 2 (Call "operator>=" [Arg 0; Arg 1]);
   mkFn 592%Z "operator==" 2 (Call "operator==" [Arg 0; Arg 1]);
   mkFn 605%Z "operator!=" 2 (Call "operator!=" [Arg 0; Arg 1]);
   mkFn 618%Z "operator&&" 2 (Call "operator&&" [Arg 0; Arg 1]);
   mkFn 631%Z "operator||" 2 (Call "operator||" [Arg 0; Arg 1]);
   mkFn 643%Z "adj" 1 (Call "adj" [Arg 0]);
   mkFn 652%Z "conj" 1 (Call "conj" [Arg 0]);
   mkFn 661%Z "transpose" 1 (Call "transpose" [Arg 0]);
   mkFn 671%Z "trace" 1 (Call "trace" [Arg 0]);
   mkFn 680%Z "realTrace" 1 (Call "realTrace" [Arg 0]);
   mkFn 689%Z "imagTrace" 1 (Call "imagTrace" [Arg 0]);
   mkFn 698%Z "traceColor" 1 (Call "traceColor" [Arg 0]);
   mkFn 707%Z "traceSpin" 1 (Call "traceSpin" [Arg 0]);
   mkFn 715%Z "transposeSpin" 1 (Call "transposeSpin" [Arg 0]);
   mkFn 723%Z "traceMultiply" 2 (Call "traceMultiply" [Arg 0; Arg 1]);
   mkFn 731%Z "traceColorMultiply" 2 (Call "traceMultiply" [Arg 0; Arg 1]);
   mkFn 739%Z "traceSpinMultiply" 2 (Call "traceMultiply" [Arg 0; Arg 1]);
   mkFn 747%Z "traceSpinOuterProduct" 2 (Call "traceSpinOuterProduct" [Arg 0; Arg 1]);
   mkFn 755%Z "outerProduct" 2 (Call "outerProduct" [Arg 0; Arg 1]);
   mkFn 764%Z "real" 1 (Call "real" [Arg 0]);
   mkFn 773%Z "imag" 1 (Call "imag" [Arg 0]);
   mkFn 782%Z "acos" 1 (Call "acos" [Arg 0]);
   mkFn 790%Z "asin" 1 (Call "asin" [Arg 0]);
   mkFn 798%Z "atan" 1 (Call "atan" [Arg 0]);
   mkFn 806%Z "ceil" 1 (Call "ceil" [Arg 0]);
   mkFn 814%Z "cos" 1 (Call "cos" [Arg 0]);
   mkFn 822%Z "cosh" 1 (Call "cosh" [Arg 0]);
   mkFn 830%Z "exp" 1 (Call "exp" [Arg 0]);
   mkFn 838%Z "fabs" 1 (Call "fabs" [Arg 0]);
   mkFn 846%Z "floor" 1 (Call "floor" [Arg 0]);
   mkFn 854%Z "log" 1 (Call "log" [Arg 0]);
   mkFn 862%Z "log10" 1 (Call "log10" [Arg 0]);
   mkFn 870%Z "sin" 1 (Call "sin" [Arg 0]);
   mkFn 878%Z "sinh" 1 (Call "sinh" [Arg 0]);
   mkFn 886%Z "sqrt" 1 (Call "sqrt" [Arg 0]);
   mkFn 894%Z "tan" 1 (Call "tan" [Arg 0]);
   mkFn 902%Z "tanh" 1 (Call "tanh" [Arg 0]);
   mkFn 918%Z "isnan" 1 (Call "isnan" [Arg 0]);
   mkFn 931%Z "isinf" 1 (Call "isinf" [Arg 0]);
   mkFn 944%Z "isnormal" 1 (Call "isnormal" [Arg 0]);
   mkFn 957%Z "isfinite" 1 (Call "isfinite" [Arg 0]);
   mkFn 967%Z "pow" 2 (Call "pow" [Arg 0; Arg 1]);
   mkFn 975%Z "atan2" 2 (Call "atan2" [Arg 0; Arg 1]);
   mkFn 984%Z "cmplx" 2 (Call "cmplx" [Arg 0; Arg 1]);
   mkFn 995%Z "timesI" 1 (Call "timesI" [Arg 0]);
   mkFn 1003%Z "timesMinusI" 1 (Call "timesMinusI" [Arg 0]);
   mkFn 1012%Z "seedToFloat" 1 (Call "seedToFloat" [Arg 0]);
   mkFn 1126%Z "spinProjectDir0Minus" 1 (Call "spinProjectDir0Minus" [Arg 0]);
   mkFn 1134%Z "spinReconstructDir0Minus" 1 (Call "spinReconstructDir0Minus" [Arg 0]);
   mkFn 1143%Z "spinProjectDir1Minus" 1 (Call "spinProjectDir1Minus" [Arg 0]);
   mkFn 1151%Z "spinReconstructDir1Minus" 1 (Call "spinReconstructDir1Minus" [Arg 0]);
   mkFn 1160%Z "spinProjectDir2Minus" 1 (Call "spinProjectDir2Minus" [Arg 0]);
   mkFn 1168%Z "spinReconstructDir2Minus" 1 (Call "spinReconstructDir2Minus" [Arg 0]);
   mkFn 1177%Z "spinProjectDir3Minus" 1 (Call "spinProjectDir3Minus" [Arg 0]);
   mkFn 1185%Z "spinReconstructDir3Minus" 1 (Call "spinReconstructDir3Minus" [Arg 0]);
   mkFn 1194%Z "spinProjectDir0Plus" 1 (Call "spinProjectDir0Plus" [Arg 0]);
   mkFn 1202%Z "spinReconstructDir0Plus" 1 (Call "spinReconstructDir0Plus" [Arg 0]);
   mkFn 1211%Z "spinProjectDir1Plus" 1 (Call "spinProjectDir1Plus" [Arg 0]);
   mkFn 1219%Z "spinReconstructDir1Plus" 1 (Call "spinReconstructDir1Plus" [Arg 0]);
   mkFn 1228%Z "spinProjectDir2Plus" 1 (Call "spinProjectDir2Plus" [Arg 0]);
   mkFn 1236%Z "spinReconstructDir2Plus" 1 (Call "spinReconstructDir2Plus" [Arg 0]);
   mkFn 1245%Z "spinProjectDir3Plus" 1 (Call "spinProjectDir3Plus" [Arg 0]);
   mkFn 1253%Z "spinReconstructDir3Plus" 1 (Call "spinReconstructDir3Plus" [Arg 0]);
   mkFn 1262%Z "chiralProjectPlus" 1 (Call "chiralProjectPlus" [Arg 0]);
   mkFn 1270%Z "chiralProjectMinus" 1 (Call "chiralProjectMinus" [Arg 0]);
   mkFn 1280%Z "quarkContract13" 2 (Call "quarkContract13" [Arg 0; Arg 1]);
   mkFn 1287%Z "quarkContract14" 2 (Call "quarkContract14" [Arg 0; Arg 1]);
   mkFn 1294%Z "quarkContract23" 2 (Call "quarkContract23" [Arg 0; Arg 1]);
   mkFn 1301%Z "quarkContract24" 2 (Call "quarkContract24" [Arg 0; Arg 1]);
   mkFn 1308%Z "quarkContract12" 2 (Call "quarkContract12" [Arg 0; Arg 1]);
   mkFn 1315%Z "quarkContract34" 2 (Call "quarkContract34" [Arg 0; Arg 1]);
   mkFn 1335%Z "colorContract" 3 (Call "colorContract" [Arg 0; Arg 1; Arg 2]);
   mkFn 1351%Z "colorVectorContract" 2 (Call "colorVectorContract" [Arg 0; Arg 1]);
   mkFn 1368%Z "colorCrossProduct" 2 (Call "colorCrossProduct" [Arg 0; Arg 1]);
   mkFn 1411%Z "sum" 1 (Call "sum" [Arg 0]);
   mkFn 1437%Z "localNorm2" 1 (Call "localNorm2" [Arg 0]);
   mkFn 1450%Z "globalMax" 1 (Call "globalMax" [Arg 0]);
   mkFn 1464%Z "globalMin" 1 (Call "globalMin" [Arg 0]);
   mkFn 1483%Z "localInnerProduct" 2 (Call "localInnerProduct" [Arg 0; Arg 1]);
   mkFn 1502%Z "localInnerProductReal" 2 (Call "localInnerProductReal" [Arg 0; Arg 1]);
   mkFn 1516%Z "localColorInnerProduct" 2 (Call "localColorInnerProduct" [Arg 0; Arg 1]);
   mkFn 1534%Z "where" 3 (Call "where" [Arg 0; Arg 1; Arg 2]);
   mkFn 1544%Z "toInt" 1 (Call "toInt" [Arg 0]);
   mkFn 1552%Z "toFloat" 1 (Call "toFloat" [Arg 0]);
   mkFn 1560%Z "toDouble" 1 (Call "toDouble" [Arg 0]);
   mkFn 1568%Z "toBool" 1 (Call "toBool" [Arg 0]);
   mkFn 1576%Z "toWordType" 1 (Call "toWordType" [Arg 0])
  ].
(** include/qdp_reality.h 850-2530, every function all of whose parameters are RScalars and whose result is no complex number
    (that is, without cmplx, timesI and timesMinusI); written by a script. *)
Definition rscalar : list fn := [
   mkFn 854%Z "operator!" 1 (Call "operator!" [Arg 0]);
   mkFn 862%Z "operator+" 1 (Call "operator+" [Arg 0]);
   mkFn 870%Z "operator-" 1 (Call "operator-" [Arg 0]);
   mkFn 878%Z "operator+" 2 (Call "operator+" [Arg 0; Arg 1]);
   mkFn 886%Z "operator-" 2 (Call "operator-" [Arg 0; Arg 1]);
   mkFn 894%Z "operator*" 2 (Call "operator*" [Arg 0; Arg 1]);
   mkFn 902%Z "adjMultiply" 2 (Call "operator*" [Arg 0; Arg 1]);
   mkFn 913%Z "multiplyAdj" 2 (Call "operator*" [Arg 0; Arg 1]);
   mkFn 924%Z "adjMultiplyAdj" 2 (Call "operator*" [Arg 0; Arg 1]);
   mkFn 935%Z "operator/" 2 (Call "operator/" [Arg 0; Arg 1]);
   mkFn 950%Z "operator<<" 2 (Call "operator<<" [Arg 0; Arg 1]);
   mkFn 964%Z "operator>>" 2 (Call "operator>>" [Arg 0; Arg 1]);
   mkFn 972%Z "operator%" 2 (Call "operator%" [Arg 0; Arg 1]);
   mkFn 979%Z "operator^" 2 (Call "operator^" [Arg 0; Arg 1]);
   mkFn 986%Z "operator&" 2 (Call "operator&" [Arg 0; Arg 1]);
   mkFn 993%Z "operator|" 2 (Call "operator|" [Arg 0; Arg 1]);
   mkFn 1008%Z "operator<" 2 (Call "operator<" [Arg 0; Arg 1]);
   mkFn 1021%Z "operator<=" 2 (Call "operator<=" [Arg 0; Arg 1]);
   mkFn 1034%Z "operator>" 2 (Call "operator>" [Arg 0; Arg 1]);
   mkFn 1047%Z "operator>=" 2 (Call "operator>=" [Arg 0; Arg 1]);
   mkFn 1060%Z "operator==" 2 (Call "operator==" [Arg 0; Arg 1]);
   mkFn 1073%Z "operator!=" 2 (Call "operator!=" [Arg 0; Arg 1]);
   mkFn 1086%Z "operator&&" 2 (Call "operator&&" [Arg 0; Arg 1]);
   mkFn 1099%Z "operator||" 2 (Call "operator||" [Arg 0; Arg 1]);
   mkFn 1112%Z "adj" 1 (Arg 0);
   mkFn 1124%Z "conj" 1 (Arg 0);
   mkFn 1133%Z "transpose" 1 (Arg 0);
   mkFn 1152%Z "trace" 1 (Arg 0);
   mkFn 1169%Z "realTrace" 1 (Arg 0);
   mkFn 1186%Z "imagTrace" 1 (Arg 0);
   mkFn 1197%Z "traceMultiply" 2 (Call "operator*" [Arg 0; Arg 1]);
   mkFn 1209%Z "real" 1 (Arg 0);
   mkFn 1218%Z "imag" 1 (Zero);
   mkFn 1228%Z "acos" 1 (Call "acos" [Arg 0]);
   mkFn 1236%Z "asin" 1 (Call "asin" [Arg 0]);
   mkFn 1244%Z "atan" 1 (Call "atan" [Arg 0]);
   mkFn 1252%Z "ceil" 1 (Call "ceil" [Arg 0]);
   mkFn 1260%Z "cos" 1 (Call "cos" [Arg 0]);
   mkFn 1268%Z "cosh" 1 (Call "cosh" [Arg 0]);
   mkFn 1276%Z "exp" 1 (Call "exp" [Arg 0]);
   mkFn 1284%Z "fabs" 1 (Call "fabs" [Arg 0]);
   mkFn 1292%Z "floor" 1 (Call "floor" [Arg 0]);
   mkFn 1300%Z "log" 1 (Call "log" [Arg 0]);
   mkFn 1308%Z "log10" 1 (Call "log10" [Arg 0]);
   mkFn 1316%Z "sin" 1 (Call "sin" [Arg 0]);
   mkFn 1324%Z "sinh" 1 (Call "sinh" [Arg 0]);
   mkFn 1332%Z "sqrt" 1 (Call "sqrt" [Arg 0]);
   mkFn 1340%Z "tan" 1 (Call "tan" [Arg 0]);
   mkFn 1348%Z "tanh" 1 (Call "tanh" [Arg 0]);
   mkFn 1361%Z "isnan" 1 (Call "isnan" [Arg 0]);
   mkFn 1372%Z "isinf" 1 (Call "isinf" [Arg 0]);
   mkFn 1380%Z "isnormal" 1 (Call "isnormal" [Arg 0]);
   mkFn 1389%Z "isfinite" 1 (Call "isfinite" [Arg 0]);
   mkFn 1399%Z "pow" 2 (Call "pow" [Arg 0; Arg 1]);
   mkFn 1407%Z "atan2" 2 (Call "atan2" [Arg 0; Arg 1]);
   mkFn 1416%Z "outerProduct" 2 (Call "operator*" [Arg 0; Arg 1]);
   mkFn 1425%Z "seedToFloat" 1 (Call "seedToFloat" [Arg 0]);
   mkFn 1479%Z "toInt" 1 (Call "toInt" [Arg 0]);
   mkFn 1487%Z "toFloat" 1 (Call "toFloat" [Arg 0]);
   mkFn 1495%Z "toDouble" 1 (Call "toDouble" [Arg 0]);
   mkFn 1503%Z "toBool" 1 (Call "toBool" [Arg 0]);
   mkFn 1511%Z "toWordType" 1 (Call "toWordType" [Arg 0]);
   mkFn 1580%Z "sum" 1 (Call "sum" [Arg 0]);
   mkFn 1595%Z "globalMax" 1 (Call "globalMax" [Arg 0]);
   mkFn 1609%Z "globalMin" 1 (Call "globalMin" [Arg 0]);
   mkFn 1635%Z "localNorm2" 1 (Call "localNorm2" [Arg 0]);
   mkFn 1655%Z "localInnerProduct" 2 (Call "localInnerProduct" [Arg 0; Arg 1]);
   mkFn 1675%Z "localInnerProductReal" 2 (Call "localInnerProduct" [Arg 0; Arg 1]);
   mkFn 1689%Z "localColorInnerProduct" 2 (Call "localColorInnerProduct" [Arg 0; Arg 1]);
   mkFn 1707%Z "where" 3 (Call "where" [Arg 0; Arg 1; Arg 2])
  ].
(** include/qdp_primscalar.h 56-152 and include/qdp_reality.h 59-155, the assignments: line, name, and the assignment made to
    the element. *)
Definition pscalar_assign : list (Z * string * string) :=
  [(58%Z, "operator=", "operator=");
   (67%Z, "operator+=", "operator+=");
   (76%Z, "operator-=", "operator-=");
   (85%Z, "operator*=", "operator*=");
   (94%Z, "operator/=", "operator/=");
   (103%Z, "operator%=", "operator%=");
   (112%Z, "operator|=", "operator|=");
   (121%Z, "operator&=", "operator&=");
   (130%Z, "operator^=", "operator^=");
   (139%Z, "operator<<=", "operator<<=");
   (148%Z, "operator>>=", "operator>>=")].
Definition rscalar_assign : list (Z * string * string) :=
  [(61%Z, "operator=", "operator=");
   (70%Z, "operator+=", "operator+=");
   (79%Z, "operator-=", "operator-=");
   (88%Z, "operator*=", "operator*=");
   (97%Z, "operator/=", "operator/=");
   (106%Z, "operator%=", "operator%=");
   (115%Z, "operator|=", "operator|=");
   (124%Z, "operator&=", "operator&=");
   (133%Z, "operator^=", "operator^=");
   (142%Z, "operator<<=", "operator<<=");
   (151%Z, "operator>>=", "operator>>=")].
(** include/qdp_simpleword.h 200-478, every function of machine words that returns a word (without getSite); written by a script. *)
Definition words : list wfn := [
   mkWf 204%Z "conj" [Flt] Flt (WArg 0);
   mkWf 211%Z "conj" [Dbl] Dbl (WArg 0);
   mkWf 218%Z "conj" [Int] Int (WArg 0);
   mkWf 226%Z "transpose" [Flt] Flt (WArg 0);
   mkWf 233%Z "transpose" [Dbl] Dbl (WArg 0);
   mkWf 240%Z "transpose" [Int] Int (WArg 0);
   mkWf 250%Z "trace" [Flt] Flt (WArg 0);
   mkWf 258%Z "trace" [Dbl] Dbl (WArg 0);
   mkWf 266%Z "trace" [Int] Int (WArg 0);
   mkWf 282%Z "toInt" [Int] Int (WArg 0);
   mkWf 289%Z "toFloat" [Flt] Flt (WArg 0);
   mkWf 296%Z "toDouble" [Dbl] Dbl (WArg 0);
   mkWf 303%Z "toBool" [Bln] Bln (WArg 0);
   mkWf 311%Z "toWordType" [Int] Int (WArg 0);
   mkWf 318%Z "toWordType" [Flt] Flt (WArg 0);
   mkWf 325%Z "toWordType" [Dbl] Dbl (WArg 0);
   mkWf 332%Z "toWordType" [Bln] Bln (WArg 0);
   mkWf 341%Z "where" [Bln; Int; Int] Int (WIf (WArg 0) (WArg 1) (WArg 2));
   mkWf 347%Z "where" [Bln; Flt; Flt] Flt (WIf (WArg 0) (WArg 1) (WArg 2));
   mkWf 353%Z "where" [Bln; Dbl; Dbl] Dbl (WIf (WArg 0) (WArg 1) (WArg 2));
   mkWf 362%Z "sum" [Int] Int (WArg 0);
   mkWf 368%Z "localNorm2" [Int] Int (WMul (WArg 0) (WArg 0));
   mkWf 374%Z "localInnerProduct" [Int; Int] Int (WMul (WArg 0) (WArg 1));
   mkWf 380%Z "localColorInnerProduct" [Int; Int] Int (WMul (WArg 0) (WArg 1));
   mkWf 386%Z "sum" [Uns] Uns (WArg 0);
   mkWf 392%Z "localNorm2" [Uns] Uns (WMul (WArg 0) (WArg 0));
   mkWf 398%Z "localInnerProduct" [Uns; Uns] Uns (WMul (WArg 0) (WArg 1));
   mkWf 403%Z "localColorInnerProduct" [Uns; Uns] Uns (WMul (WArg 0) (WArg 1));
   mkWf 409%Z "sum" [Flt] Dbl (WCast Dbl (WArg 0));
   mkWf 415%Z "localNorm2" [Flt] Dbl (WCast Dbl (WMul (WArg 0) (WArg 0)));
   mkWf 421%Z "localInnerProduct" [Flt; Flt] Dbl (WCast Dbl (WMul (WArg 0) (WArg 1)));
   mkWf 426%Z "localColorInnerProduct" [Flt; Flt] Dbl (WCast Dbl (WMul (WArg 0) (WArg 1)));
   mkWf 432%Z "sum" [Dbl] Dbl (WArg 0);
   mkWf 438%Z "localNorm2" [Dbl] Dbl (WMul (WArg 0) (WArg 0));
   mkWf 444%Z "localInnerProduct" [Flt; Dbl] Dbl (WMul (WCast Dbl (WArg 0)) (WArg 1));
   mkWf 450%Z "localColorInnerProduct" [Flt; Dbl] Dbl (WMul (WCast Dbl (WArg 0)) (WArg 1));
   mkWf 456%Z "localInnerProduct" [Dbl; Flt] Dbl (WMul (WArg 0) (WCast Dbl (WArg 1)));
   mkWf 462%Z "localColorInnerProduct" [Dbl; Flt] Dbl (WMul (WArg 0) (WCast Dbl (WArg 1)));
   mkWf 468%Z "localInnerProduct" [Dbl; Dbl] Dbl (WMul (WArg 0) (WArg 1));
   mkWf 474%Z "localColorInnerProduct" [Dbl; Dbl] Dbl (WMul (WArg 0) (WArg 1))
  ].
(** include/qdp_simpleword.h 56-103: the types that zero_rep and copymask accept by reference. *)
Definition zero_types : list wty := [Int; Flt; Dbl].
Definition copymask_types : list wty := [Int; Flt; Dbl].
(** What C++ itself gives words: the operators, and the functions of <cmath> named in include/qdp_simpleword.h 15-44. *)
Definition machine : list (string * nat) :=
  [("operator!", 1); ("operator+", 1); ("operator-", 1); ("operator~", 1);
   ("operator+", 2); ("operator-", 2); ("operator*", 2); ("operator/", 2); ("operator<<", 2); ("operator>>", 2);
   ("operator%", 2); ("operator^", 2); ("operator&", 2); ("operator|", 2); ("operator<", 2); ("operator<=", 2);
   ("operator>", 2); ("operator>=", 2); ("operator==", 2); ("operator!=", 2); ("operator&&", 2); ("operator||", 2);
   ("acos", 1); ("asin", 1); ("atan", 1); ("ceil", 1); ("cos", 1); ("cosh", 1); ("exp", 1); ("fabs", 1); ("floor", 1);
   ("log", 1); ("log10", 1); ("sin", 1); ("sinh", 1); ("sqrt", 1); ("tan", 1); ("tanh", 1); ("isnan", 1); ("isinf", 1);
   ("isnormal", 1); ("isfinite", 1); ("pow", 2); ("atan2", 2); ("fmod", 2); ("ldexp", 2)].

Definition wty_eqb (a b : wty) : bool :=
  match a, b with Int, Int | Uns, Uns | Flt, Flt | Dbl, Dbl | Bln, Bln => true | _, _ => false end.
(** How C++ overload resolution ranks the conversion of a word of type a to a parameter of type p: exact match, promotion
    (bool to int, float to double), any other conversion. *)
Definition rank (a p : wty) : nat :=
  if wty_eqb a p then 0 else match a, p with Bln, Int | Flt, Dbl => 1 | _, _ => 2 end.
(** One function is better than another for these arguments: no conversion worse and one better. *)
Definition ranks (ts ps : list wty) : list nat := map (fun q => rank (fst q) (snd q)) (combine ts ps).
Definition better (ts : list wty) (c d : wfn) : bool :=
  forallb (fun q => Nat.leb (fst q) (snd q)) (combine (ranks ts (w_args c)) (ranks ts (w_args d)))
  && existsb (fun q => Nat.ltb (fst q) (snd q)) (combine (ranks ts (w_args c)) (ranks ts (w_args d))).
(** The function of words called, if the choice is not ambiguous: every conversion between words is possible, so all functions
    of the name and number of parameters are candidates. *)
Definition candidates (f : string) (k : nat) : list wfn :=
  filter (fun c => String.eqb (w_name c) f && Nat.eqb (List.length (w_args c)) k) words.
Definition choose (f : string) (ts : list wty) : option wfn :=
  let cs := candidates f (List.length ts) in
  find (fun c => forallb (fun d => Z.eqb (w_line c) (w_line d) || better ts c d) cs) cs.
(** The function of a wrapper called: its parameters are templates, so name and number decide. *)
Definition lookup (l : list fn) (f : string) (k : nat) : option fn :=
  find (fun e => String.eqb (f_name e) f && Nat.eqb (f_arity e) k) l.

Section Model.
(** Words of the machine: their type, conversion, the operators and functions of C++, zero of a type, and the
    truth of a word. *)
Variable V : Type.
Variable ty : V -> wty.
Variable conv : wty -> V -> V.
Variable prim : string -> list V -> V.
Variable nought : wty -> V.
Variable truth : V -> bool.

(** The value of the body of a function of words. include/qdp_simpleword.h *)
Fixpoint weval (e : wex) (ws : list V) : option V :=
  match e with
  | WArg i => nth_error ws i
  | WCast t a => option_map (conv t) (weval a ws)
  | WMul a b => match weval a ws, weval b ws with Some x, Some y => Some (prim "operator*" [x; y]) | _, _ => None end
  | WIf c a b => match weval c ws with
                 | Some x => if truth x then weval a ws else weval b ws
                 | None => None
                 end
  end.
Definition converts (ps : list wty) (ws : list V) : list V := map (fun q => conv (fst q) (snd q)) (combine ps ws).
(** A call on words: a function of include/qdp_simpleword.h if there is one of the name, else C++'s own; None if nothing fits
    or the choice is ambiguous, so that the program does not compile. *)
Definition call_word (f : string) (ws : list V) : option V :=
  match candidates f (List.length ws) with
  | [] => if existsb (fun p => String.eqb (fst p) f && Nat.eqb (snd p) (List.length ws)) machine then Some (prim f ws) else None
  | _ => match choose f (map ty ws) with
         | Some c => option_map (conv (w_ret c)) (weval (w_body c) (converts (w_args c) ws))
         | None => None
         end
  end.
(** The value of the body of a function of wrappers, the functions of the elements being given. *)
Fixpoint eval (call : string -> list V -> option V) (e : ex) (ws : list V) : option V :=
  match e with
  | Arg i => nth_error ws i
  | Zero => match ws with w :: _ => Some (nought (ty w)) | [] => None end
  | Call f l =>
      match (fix go (l : list ex) : option (list V) :=
               match l with
               | [] => Some []
               | a :: r => match eval call a ws, go r with Some v, Some vs => Some (v :: vs) | _, _ => None end
               end) l with
      | Some vs => call f vs
      | None => None
      end
  end.
(** A call on RScalars, then on RScalars inside n PScalars. The types of the library have two
    (include/qdp_scalarsite_defs.h 59-62, 76-79). *)
Definition call_real (f : string) (ws : list V) : option V :=
  match lookup rscalar f (List.length ws) with
  | Some e => eval call_word (f_body e) ws
  | None => None
  end.
Fixpoint call (n : nat) (f : string) (ws : list V) : option V :=
  match n with
  | 0 => call_real f ws
  | S m => match lookup pscalar f (List.length ws) with
           | Some e => eval (call m) (f_body e) ws
           | None => None
           end
  end.
(** An assignment to a word: the operation, converted to the type of the destination. *)
Definition assign_word (f : string) (d r : V) : option V :=
  if String.eqb f "operator=" then Some (conv (ty d) r)
  else match find (fun p => String.eqb (fst p ++ "=") f && Nat.eqb (snd p) 2) machine with
       | Some p => Some (conv (ty d) (prim (fst p) [d; r]))
       | None => None
       end.
Definition lookup_assign (l : list (Z * string * string)) (f : string) : option string :=
  option_map snd (find (fun p => String.eqb (snd (fst p)) f) l).
(** Assignments to wrappers. include/qdp_primscalar.h 56-152, include/qdp_reality.h 59-155 *)
Fixpoint assign (n : nat) (f : string) (d r : V) : option V :=
  match n with
  | 0 => match lookup_assign rscalar_assign f with Some g => assign_word g d r | None => None end
  | S m => match lookup_assign pscalar_assign f with Some g => assign m g d r | None => None end
  end.
(** zero_rep and copymask of wrappers go to the word. include/qdp_primscalar.h 1379-1384, 1585-1590, include/qdp_reality.h
    1520-1525, 1717-1722, include/qdp_simpleword.h 56-103 *)
Definition zero_rep (d : V) : option V :=
  if existsb (wty_eqb (ty d)) zero_types then Some (conv (ty d) (nought Int)) else None.
Definition copymask (d m s : V) : option V :=
  if existsb (wty_eqb (ty d)) copymask_types then Some (if truth m then conv (ty d) s else d) else None.
End Model.
