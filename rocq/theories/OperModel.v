(** Model of the operators and functions of expressions (include/QDPOperators.h, all of it; include/PETE/OperatorTags.h 40-779):
    which function a call selects, the tree it builds, and what the tree does at one site (include/PETE/ForEach.h). *)
From Coq Require Import String List ZArith QArith Bool.
Import ListNotations.
Local Open Scope nat_scope.
Local Open Scope string_scope.

(** What a parameter of an operator function accepts: a QDPType (a field, a scalar of the library), a QDPExpr, or a plain
    number, converted to the word type of parameter number j. *)
Inductive pat := PT | PE | PW (j : nat).
(** One function: its line, name and parameters, the tag of the node, and the parameters from which the children of the node
    are made, in order. *)
Record entry := mkEntry { e_line : Z; e_name : string; e_args : list pat; e_tag : string; e_made : list nat }.
(** include/QDPOperators.h 555-7650, every function in order, written by a script from the text. *)
Definition functions : list entry := [
   mkEntry 557%Z "adj" [PT] "FnAdjoint" [0];
   mkEntry 573%Z "conj" [PT] "FnConjugate" [0];
   mkEntry 589%Z "transpose" [PT] "FnTranspose" [0];
   mkEntry 605%Z "transposeColor" [PT] "FnTransposeColor" [0];
   mkEntry 621%Z "transposeSpin" [PT] "FnTransposeSpin" [0];
   mkEntry 637%Z "trace" [PT] "FnTrace" [0];
   mkEntry 654%Z "realTrace" [PT] "FnRealTrace" [0];
   mkEntry 671%Z "imagTrace" [PT] "FnImagTrace" [0];
   mkEntry 688%Z "traceColor" [PT] "FnTraceColor" [0];
   mkEntry 705%Z "traceSpin" [PT] "FnTraceSpin" [0];
   mkEntry 721%Z "real" [PT] "FnReal" [0];
   mkEntry 737%Z "imag" [PT] "FnImag" [0];
   mkEntry 756%Z "localNorm2" [PT] "FnLocalNorm2" [0];
   mkEntry 774%Z "timesI" [PT] "FnTimesI" [0];
   mkEntry 792%Z "timesMinusI" [PT] "FnTimesMinusI" [0];
   mkEntry 810%Z "seedToFloat" [PT] "FnSeedToFloat" [0];
   mkEntry 829%Z "spinProjectDir0Plus" [PT] "FnSpinProjectDir0Plus" [0];
   mkEntry 848%Z "spinProjectDir1Plus" [PT] "FnSpinProjectDir1Plus" [0];
   mkEntry 867%Z "spinProjectDir2Plus" [PT] "FnSpinProjectDir2Plus" [0];
   mkEntry 886%Z "spinProjectDir3Plus" [PT] "FnSpinProjectDir3Plus" [0];
   mkEntry 905%Z "spinProjectDir0Minus" [PT] "FnSpinProjectDir0Minus" [0];
   mkEntry 924%Z "spinProjectDir1Minus" [PT] "FnSpinProjectDir1Minus" [0];
   mkEntry 943%Z "spinProjectDir2Minus" [PT] "FnSpinProjectDir2Minus" [0];
   mkEntry 962%Z "spinProjectDir3Minus" [PT] "FnSpinProjectDir3Minus" [0];
   mkEntry 981%Z "spinReconstructDir0Plus" [PT] "FnSpinReconstructDir0Plus" [0];
   mkEntry 1000%Z "spinReconstructDir1Plus" [PT] "FnSpinReconstructDir1Plus" [0];
   mkEntry 1019%Z "spinReconstructDir2Plus" [PT] "FnSpinReconstructDir2Plus" [0];
   mkEntry 1038%Z "spinReconstructDir3Plus" [PT] "FnSpinReconstructDir3Plus" [0];
   mkEntry 1057%Z "spinReconstructDir0Minus" [PT] "FnSpinReconstructDir0Minus" [0];
   mkEntry 1076%Z "spinReconstructDir1Minus" [PT] "FnSpinReconstructDir1Minus" [0];
   mkEntry 1095%Z "spinReconstructDir2Minus" [PT] "FnSpinReconstructDir2Minus" [0];
   mkEntry 1114%Z "spinReconstructDir3Minus" [PT] "FnSpinReconstructDir3Minus" [0];
   mkEntry 1133%Z "chiralProjectPlus" [PT] "FnChiralProjectPlus" [0];
   mkEntry 1152%Z "chiralProjectMinus" [PT] "FnChiralProjectMinus" [0];
   mkEntry 1168%Z "acos" [PT] "FnArcCos" [0];
   mkEntry 1184%Z "asin" [PT] "FnArcSin" [0];
   mkEntry 1200%Z "atan" [PT] "FnArcTan" [0];
   mkEntry 1216%Z "ceil" [PT] "FnCeil" [0];
   mkEntry 1232%Z "cos" [PT] "FnCos" [0];
   mkEntry 1248%Z "cosh" [PT] "FnHypCos" [0];
   mkEntry 1264%Z "exp" [PT] "FnExp" [0];
   mkEntry 1280%Z "fabs" [PT] "FnFabs" [0];
   mkEntry 1296%Z "floor" [PT] "FnFloor" [0];
   mkEntry 1312%Z "log" [PT] "FnLog" [0];
   mkEntry 1328%Z "log10" [PT] "FnLog10" [0];
   mkEntry 1344%Z "sin" [PT] "FnSin" [0];
   mkEntry 1360%Z "sinh" [PT] "FnHypSin" [0];
   mkEntry 1376%Z "sqrt" [PT] "FnSqrt" [0];
   mkEntry 1392%Z "tan" [PT] "FnTan" [0];
   mkEntry 1408%Z "tanh" [PT] "FnHypTan" [0];
   mkEntry 1426%Z "operator-" [PT] "OpUnaryMinus" [0];
   mkEntry 1444%Z "operator+" [PT] "OpUnaryPlus" [0];
   mkEntry 1462%Z "operator~" [PT] "OpBitwiseNot" [0];
   mkEntry 1480%Z "PETE_identity" [PT] "OpIdentity" [0];
   mkEntry 1498%Z "operator!" [PT] "OpNot" [0];
   mkEntry 1518%Z "cmplx" [PT; PT] "FnCmplx" [0; 1];
   mkEntry 1542%Z "outerProduct" [PT; PT] "FnOuterProduct" [0; 1];
   mkEntry 1566%Z "colorVectorContract" [PT; PT] "FnColorVectorContract" [0; 1];
   mkEntry 1590%Z "colorCrossProduct" [PT; PT] "FnColorCrossProduct" [0; 1];
   mkEntry 1612%Z "localInnerProduct" [PT; PT] "FnLocalInnerProduct" [0; 1];
   mkEntry 1634%Z "localInnerProductReal" [PT; PT] "FnLocalInnerProductReal" [0; 1];
   mkEntry 1656%Z "localColorInnerProduct" [PT; PT] "FnLocalColorInnerProduct" [0; 1];
   mkEntry 1690%Z "quarkContract13" [PT; PT] "FnQuarkContract13" [0; 1];
   mkEntry 1724%Z "quarkContract14" [PT; PT] "FnQuarkContract14" [0; 1];
   mkEntry 1758%Z "quarkContract23" [PT; PT] "FnQuarkContract23" [0; 1];
   mkEntry 1792%Z "quarkContract24" [PT; PT] "FnQuarkContract24" [0; 1];
   mkEntry 1826%Z "quarkContract12" [PT; PT] "FnQuarkContract12" [0; 1];
   mkEntry 1860%Z "quarkContract34" [PT; PT] "FnQuarkContract34" [0; 1];
   mkEntry 1881%Z "operator+" [PT; PT] "OpAdd" [0; 1];
   mkEntry 1902%Z "operator-" [PT; PT] "OpSubtract" [0; 1];
   mkEntry 1923%Z "operator*" [PT; PT] "OpMultiply" [0; 1];
   mkEntry 1944%Z "operator/" [PT; PT] "OpDivide" [0; 1];
   mkEntry 1965%Z "operator%" [PT; PT] "OpMod" [0; 1];
   mkEntry 1986%Z "operator&" [PT; PT] "OpBitwiseAnd" [0; 1];
   mkEntry 2007%Z "operator|" [PT; PT] "OpBitwiseOr" [0; 1];
   mkEntry 2028%Z "operator^" [PT; PT] "OpBitwiseXor" [0; 1];
   mkEntry 2050%Z "ldexp" [PT; PT] "FnLdexp" [0; 1];
   mkEntry 2071%Z "pow" [PT; PT] "FnPow" [0; 1];
   mkEntry 2093%Z "fmod" [PT; PT] "FnFmod" [0; 1];
   mkEntry 2115%Z "atan2" [PT; PT] "FnArcTan2" [0; 1];
   mkEntry 2136%Z "operator<" [PT; PT] "OpLT" [0; 1];
   mkEntry 2157%Z "operator<=" [PT; PT] "OpLE" [0; 1];
   mkEntry 2178%Z "operator>" [PT; PT] "OpGT" [0; 1];
   mkEntry 2199%Z "operator>=" [PT; PT] "OpGE" [0; 1];
   mkEntry 2220%Z "operator==" [PT; PT] "OpEQ" [0; 1];
   mkEntry 2241%Z "operator!=" [PT; PT] "OpNE" [0; 1];
   mkEntry 2262%Z "operator&&" [PT; PT] "OpAnd" [0; 1];
   mkEntry 2284%Z "operator||" [PT; PT] "OpOr" [0; 1];
   mkEntry 2305%Z "operator<<" [PT; PT] "OpLeftShift" [0; 1];
   mkEntry 2326%Z "operator>>" [PT; PT] "OpRightShift" [0; 1];
   mkEntry 2342%Z "cmplx" [PT; PE] "FnCmplx" [0; 1];
   mkEntry 2358%Z "outerProduct" [PT; PE] "FnOuterProduct" [0; 1];
   mkEntry 2374%Z "colorVectorContract" [PT; PE] "FnColorVectorContract" [0; 1];
   mkEntry 2390%Z "colorCrossProduct" [PT; PE] "FnColorCrossProduct" [0; 1];
   mkEntry 2406%Z "localInnerProduct" [PT; PE] "FnLocalInnerProduct" [0; 1];
   mkEntry 2422%Z "localInnerProductReal" [PT; PE] "FnLocalInnerProductReal" [0; 1];
   mkEntry 2438%Z "localColorInnerProduct" [PT; PE] "FnLocalColorInnerProduct" [0; 1];
   mkEntry 2454%Z "quarkContract13" [PT; PE] "FnQuarkContract13" [0; 1];
   mkEntry 2470%Z "quarkContract14" [PT; PE] "FnQuarkContract14" [0; 1];
   mkEntry 2486%Z "quarkContract23" [PT; PE] "FnQuarkContract23" [0; 1];
   mkEntry 2502%Z "quarkContract24" [PT; PE] "FnQuarkContract24" [0; 1];
   mkEntry 2518%Z "quarkContract12" [PT; PE] "FnQuarkContract12" [0; 1];
   mkEntry 2534%Z "quarkContract34" [PT; PE] "FnQuarkContract34" [0; 1];
   mkEntry 2550%Z "operator+" [PT; PE] "OpAdd" [0; 1];
   mkEntry 2566%Z "operator-" [PT; PE] "OpSubtract" [0; 1];
   mkEntry 2582%Z "operator*" [PT; PE] "OpMultiply" [0; 1];
   mkEntry 2598%Z "operator/" [PT; PE] "OpDivide" [0; 1];
   mkEntry 2614%Z "operator%" [PT; PE] "OpMod" [0; 1];
   mkEntry 2630%Z "operator&" [PT; PE] "OpBitwiseAnd" [0; 1];
   mkEntry 2646%Z "operator|" [PT; PE] "OpBitwiseOr" [0; 1];
   mkEntry 2662%Z "operator^" [PT; PE] "OpBitwiseXor" [0; 1];
   mkEntry 2678%Z "ldexp" [PT; PE] "FnLdexp" [0; 1];
   mkEntry 2694%Z "pow" [PT; PE] "FnPow" [0; 1];
   mkEntry 2710%Z "fmod" [PT; PE] "FnFmod" [0; 1];
   mkEntry 2726%Z "atan2" [PT; PE] "FnArcTan2" [0; 1];
   mkEntry 2742%Z "operator<" [PT; PE] "OpLT" [0; 1];
   mkEntry 2758%Z "operator<=" [PT; PE] "OpLE" [0; 1];
   mkEntry 2774%Z "operator>" [PT; PE] "OpGT" [0; 1];
   mkEntry 2790%Z "operator>=" [PT; PE] "OpGE" [0; 1];
   mkEntry 2806%Z "operator==" [PT; PE] "OpEQ" [0; 1];
   mkEntry 2822%Z "operator!=" [PT; PE] "OpNE" [0; 1];
   mkEntry 2838%Z "operator&&" [PT; PE] "OpAnd" [0; 1];
   mkEntry 2854%Z "operator||" [PT; PE] "OpOr" [0; 1];
   mkEntry 2870%Z "operator<<" [PT; PE] "OpLeftShift" [0; 1];
   mkEntry 2886%Z "operator>>" [PT; PE] "OpRightShift" [0; 1];
   mkEntry 2902%Z "cmplx" [PE; PT] "FnCmplx" [0; 1];
   mkEntry 2918%Z "outerProduct" [PE; PT] "FnOuterProduct" [0; 1];
   mkEntry 2934%Z "colorVectorContract" [PE; PT] "FnColorVectorContract" [0; 1];
   mkEntry 2950%Z "colorCrossProduct" [PE; PT] "FnColorCrossProduct" [0; 1];
   mkEntry 2966%Z "localInnerProduct" [PE; PT] "FnLocalInnerProduct" [0; 1];
   mkEntry 2982%Z "localInnerProductReal" [PE; PT] "FnLocalInnerProductReal" [0; 1];
   mkEntry 2998%Z "localColorInnerProduct" [PE; PT] "FnLocalColorInnerProduct" [0; 1];
   mkEntry 3014%Z "quarkContract13" [PE; PT] "FnQuarkContract13" [0; 1];
   mkEntry 3030%Z "quarkContract14" [PE; PT] "FnQuarkContract14" [0; 1];
   mkEntry 3046%Z "quarkContract23" [PE; PT] "FnQuarkContract23" [0; 1];
   mkEntry 3062%Z "quarkContract24" [PE; PT] "FnQuarkContract24" [0; 1];
   mkEntry 3078%Z "quarkContract12" [PE; PT] "FnQuarkContract12" [0; 1];
   mkEntry 3094%Z "quarkContract34" [PE; PT] "FnQuarkContract34" [0; 1];
   mkEntry 3110%Z "operator+" [PE; PT] "OpAdd" [0; 1];
   mkEntry 3126%Z "operator-" [PE; PT] "OpSubtract" [0; 1];
   mkEntry 3142%Z "operator*" [PE; PT] "OpMultiply" [0; 1];
   mkEntry 3158%Z "operator/" [PE; PT] "OpDivide" [0; 1];
   mkEntry 3174%Z "operator%" [PE; PT] "OpMod" [0; 1];
   mkEntry 3190%Z "operator&" [PE; PT] "OpBitwiseAnd" [0; 1];
   mkEntry 3206%Z "operator|" [PE; PT] "OpBitwiseOr" [0; 1];
   mkEntry 3222%Z "operator^" [PE; PT] "OpBitwiseXor" [0; 1];
   mkEntry 3238%Z "ldexp" [PE; PT] "FnLdexp" [0; 1];
   mkEntry 3254%Z "pow" [PE; PT] "FnPow" [0; 1];
   mkEntry 3270%Z "fmod" [PE; PT] "FnFmod" [0; 1];
   mkEntry 3286%Z "atan2" [PE; PT] "FnArcTan2" [0; 1];
   mkEntry 3302%Z "operator<" [PE; PT] "OpLT" [0; 1];
   mkEntry 3318%Z "operator<=" [PE; PT] "OpLE" [0; 1];
   mkEntry 3334%Z "operator>" [PE; PT] "OpGT" [0; 1];
   mkEntry 3350%Z "operator>=" [PE; PT] "OpGE" [0; 1];
   mkEntry 3366%Z "operator==" [PE; PT] "OpEQ" [0; 1];
   mkEntry 3382%Z "operator!=" [PE; PT] "OpNE" [0; 1];
   mkEntry 3398%Z "operator&&" [PE; PT] "OpAnd" [0; 1];
   mkEntry 3414%Z "operator||" [PE; PT] "OpOr" [0; 1];
   mkEntry 3430%Z "operator<<" [PE; PT] "OpLeftShift" [0; 1];
   mkEntry 3446%Z "operator>>" [PE; PT] "OpRightShift" [0; 1];
   mkEntry 3462%Z "cmplx" [PT; PW 0] "FnCmplx" [0; 1];
   mkEntry 3478%Z "outerProduct" [PT; PW 0] "FnOuterProduct" [0; 1];
   mkEntry 3494%Z "colorVectorContract" [PT; PW 0] "FnColorVectorContract" [0; 1];
   mkEntry 3510%Z "colorCrossProduct" [PT; PW 0] "FnColorCrossProduct" [0; 1];
   mkEntry 3526%Z "localInnerProduct" [PT; PW 0] "FnLocalInnerProduct" [0; 1];
   mkEntry 3542%Z "localInnerProductReal" [PT; PW 0] "FnLocalInnerProductReal" [0; 1];
   mkEntry 3558%Z "localColorInnerProduct" [PT; PW 0] "FnLocalColorInnerProduct" [0; 1];
   mkEntry 3574%Z "quarkContract13" [PT; PW 0] "FnQuarkContract13" [0; 1];
   mkEntry 3590%Z "quarkContract14" [PT; PW 0] "FnQuarkContract14" [0; 1];
   mkEntry 3606%Z "quarkContract23" [PT; PW 0] "FnQuarkContract23" [0; 1];
   mkEntry 3622%Z "quarkContract24" [PT; PW 0] "FnQuarkContract24" [0; 1];
   mkEntry 3638%Z "quarkContract12" [PT; PW 0] "FnQuarkContract12" [0; 1];
   mkEntry 3654%Z "quarkContract34" [PT; PW 0] "FnQuarkContract34" [0; 1];
   mkEntry 3670%Z "operator+" [PT; PW 0] "OpAdd" [0; 1];
   mkEntry 3686%Z "operator-" [PT; PW 0] "OpSubtract" [0; 1];
   mkEntry 3702%Z "operator*" [PT; PW 0] "OpMultiply" [0; 1];
   mkEntry 3718%Z "operator/" [PT; PW 0] "OpDivide" [0; 1];
   mkEntry 3734%Z "operator%" [PT; PW 0] "OpMod" [0; 1];
   mkEntry 3750%Z "operator&" [PT; PW 0] "OpBitwiseAnd" [0; 1];
   mkEntry 3766%Z "operator|" [PT; PW 0] "OpBitwiseOr" [0; 1];
   mkEntry 3782%Z "operator^" [PT; PW 0] "OpBitwiseXor" [0; 1];
   mkEntry 3798%Z "ldexp" [PT; PW 0] "FnLdexp" [0; 1];
   mkEntry 3814%Z "pow" [PT; PW 0] "FnPow" [0; 1];
   mkEntry 3830%Z "fmod" [PT; PW 0] "FnFmod" [0; 1];
   mkEntry 3846%Z "atan2" [PT; PW 0] "FnArcTan2" [0; 1];
   mkEntry 3862%Z "operator<" [PT; PW 0] "OpLT" [0; 1];
   mkEntry 3878%Z "operator<=" [PT; PW 0] "OpLE" [0; 1];
   mkEntry 3894%Z "operator>" [PT; PW 0] "OpGT" [0; 1];
   mkEntry 3910%Z "operator>=" [PT; PW 0] "OpGE" [0; 1];
   mkEntry 3926%Z "operator==" [PT; PW 0] "OpEQ" [0; 1];
   mkEntry 3942%Z "operator!=" [PT; PW 0] "OpNE" [0; 1];
   mkEntry 3958%Z "operator&&" [PT; PW 0] "OpAnd" [0; 1];
   mkEntry 3974%Z "operator||" [PT; PW 0] "OpOr" [0; 1];
   mkEntry 3990%Z "operator<<" [PT; PW 0] "OpLeftShift" [0; 1];
   mkEntry 4006%Z "operator>>" [PT; PW 0] "OpRightShift" [0; 1];
   mkEntry 4022%Z "cmplx" [PW 1; PT] "FnCmplx" [0; 1];
   mkEntry 4038%Z "outerProduct" [PW 1; PT] "FnOuterProduct" [0; 1];
   mkEntry 4054%Z "colorVectorContract" [PW 1; PT] "FnColorVectorContract" [0; 1];
   mkEntry 4070%Z "colorCrossProduct" [PW 1; PT] "FnColorCrossProduct" [0; 1];
   mkEntry 4086%Z "localInnerProduct" [PW 1; PT] "FnLocalInnerProduct" [0; 1];
   mkEntry 4102%Z "localInnerProductReal" [PW 1; PT] "FnLocalInnerProductReal" [0; 1];
   mkEntry 4118%Z "localColorInnerProduct" [PW 1; PT] "FnLocalColorInnerProduct" [0; 1];
   mkEntry 4134%Z "quarkContract13" [PW 1; PT] "FnQuarkContract13" [0; 1];
   mkEntry 4150%Z "quarkContract14" [PW 1; PT] "FnQuarkContract14" [0; 1];
   mkEntry 4166%Z "quarkContract23" [PW 1; PT] "FnQuarkContract23" [0; 1];
   mkEntry 4182%Z "quarkContract24" [PW 1; PT] "FnQuarkContract24" [0; 1];
   mkEntry 4198%Z "quarkContract12" [PW 1; PT] "FnQuarkContract12" [0; 1];
   mkEntry 4214%Z "quarkContract34" [PW 1; PT] "FnQuarkContract34" [0; 1];
   mkEntry 4230%Z "operator+" [PW 1; PT] "OpAdd" [0; 1];
   mkEntry 4246%Z "operator-" [PW 1; PT] "OpSubtract" [0; 1];
   mkEntry 4262%Z "operator*" [PW 1; PT] "OpMultiply" [0; 1];
   mkEntry 4278%Z "operator/" [PW 1; PT] "OpDivide" [0; 1];
   mkEntry 4294%Z "operator%" [PW 1; PT] "OpMod" [0; 1];
   mkEntry 4310%Z "operator&" [PW 1; PT] "OpBitwiseAnd" [0; 1];
   mkEntry 4326%Z "operator|" [PW 1; PT] "OpBitwiseOr" [0; 1];
   mkEntry 4342%Z "operator^" [PW 1; PT] "OpBitwiseXor" [0; 1];
   mkEntry 4358%Z "ldexp" [PW 1; PT] "FnLdexp" [0; 1];
   mkEntry 4374%Z "pow" [PW 1; PT] "FnPow" [0; 1];
   mkEntry 4390%Z "fmod" [PW 1; PT] "FnFmod" [0; 1];
   mkEntry 4406%Z "atan2" [PW 1; PT] "FnArcTan2" [0; 1];
   mkEntry 4422%Z "operator<" [PW 1; PT] "OpLT" [0; 1];
   mkEntry 4438%Z "operator<=" [PW 1; PT] "OpLE" [0; 1];
   mkEntry 4454%Z "operator>" [PW 1; PT] "OpGT" [0; 1];
   mkEntry 4470%Z "operator>=" [PW 1; PT] "OpGE" [0; 1];
   mkEntry 4486%Z "operator==" [PW 1; PT] "OpEQ" [0; 1];
   mkEntry 4502%Z "operator!=" [PW 1; PT] "OpNE" [0; 1];
   mkEntry 4518%Z "operator&&" [PW 1; PT] "OpAnd" [0; 1];
   mkEntry 4534%Z "operator||" [PW 1; PT] "OpOr" [0; 1];
   mkEntry 4550%Z "colorContract" [PT; PT; PW 0] "FnColorContract" [0; 1; 2];
   mkEntry 4569%Z "where" [PT; PT; PW 0] "FnWhere" [0; 1; 2];
   mkEntry 4588%Z "colorContract" [PT; PW 0; PT] "FnColorContract" [0; 1; 2];
   mkEntry 4607%Z "where" [PT; PW 0; PT] "FnWhere" [0; 1; 2];
   mkEntry 4626%Z "colorContract" [PT; PW 0; PW 0] "FnColorContract" [0; 1; 2];
   mkEntry 4645%Z "where" [PT; PW 0; PW 0] "FnWhere" [0; 1; 2];
   mkEntry 4664%Z "colorContract" [PW 1; PT; PW 1] "FnColorContract" [0; 1; 2];
   mkEntry 4683%Z "where" [PW 1; PT; PW 1] "FnWhere" [0; 1; 2];
   mkEntry 4702%Z "colorContract" [PW 2; PW 2; PT] "FnColorContract" [0; 1; 2];
   mkEntry 4721%Z "where" [PW 2; PW 2; PT] "FnWhere" [0; 1; 2];
   mkEntry 4741%Z "operator<<" [PW 1; PT] "OpLeftShift" [0; 1];
   mkEntry 4757%Z "operator>>" [PW 1; PT] "OpRightShift" [0; 1];
   mkEntry 4792%Z "colorContract" [PT; PT; PT] "FnColorContract" [0; 1; 2];
   mkEntry 4816%Z "where" [PT; PT; PT] "FnWhere" [0; 1; 2];
   mkEntry 4837%Z "adj" [PE] "FnAdjoint" [0];
   mkEntry 4850%Z "conj" [PE] "FnConjugate" [0];
   mkEntry 4863%Z "transpose" [PE] "FnTranspose" [0];
   mkEntry 4876%Z "transposeColor" [PE] "FnTransposeColor" [0];
   mkEntry 4889%Z "transposeSpin" [PE] "FnTransposeSpin" [0];
   mkEntry 4902%Z "trace" [PE] "FnTrace" [0];
   mkEntry 4915%Z "realTrace" [PE] "FnRealTrace" [0];
   mkEntry 4928%Z "imagTrace" [PE] "FnImagTrace" [0];
   mkEntry 4941%Z "traceColor" [PE] "FnTraceColor" [0];
   mkEntry 4954%Z "traceSpin" [PE] "FnTraceSpin" [0];
   mkEntry 4967%Z "real" [PE] "FnReal" [0];
   mkEntry 4980%Z "imag" [PE] "FnImag" [0];
   mkEntry 4993%Z "localNorm2" [PE] "FnLocalNorm2" [0];
   mkEntry 5006%Z "timesI" [PE] "FnTimesI" [0];
   mkEntry 5019%Z "timesMinusI" [PE] "FnTimesMinusI" [0];
   mkEntry 5032%Z "seedToFloat" [PE] "FnSeedToFloat" [0];
   mkEntry 5045%Z "spinProjectDir0Plus" [PE] "FnSpinProjectDir0Plus" [0];
   mkEntry 5058%Z "spinProjectDir1Plus" [PE] "FnSpinProjectDir1Plus" [0];
   mkEntry 5071%Z "spinProjectDir2Plus" [PE] "FnSpinProjectDir2Plus" [0];
   mkEntry 5084%Z "spinProjectDir3Plus" [PE] "FnSpinProjectDir3Plus" [0];
   mkEntry 5097%Z "spinProjectDir0Minus" [PE] "FnSpinProjectDir0Minus" [0];
   mkEntry 5110%Z "spinProjectDir1Minus" [PE] "FnSpinProjectDir1Minus" [0];
   mkEntry 5123%Z "spinProjectDir2Minus" [PE] "FnSpinProjectDir2Minus" [0];
   mkEntry 5136%Z "spinProjectDir3Minus" [PE] "FnSpinProjectDir3Minus" [0];
   mkEntry 5149%Z "spinReconstructDir0Plus" [PE] "FnSpinReconstructDir0Plus" [0];
   mkEntry 5162%Z "spinReconstructDir1Plus" [PE] "FnSpinReconstructDir1Plus" [0];
   mkEntry 5175%Z "spinReconstructDir2Plus" [PE] "FnSpinReconstructDir2Plus" [0];
   mkEntry 5188%Z "spinReconstructDir3Plus" [PE] "FnSpinReconstructDir3Plus" [0];
   mkEntry 5201%Z "spinReconstructDir0Minus" [PE] "FnSpinReconstructDir0Minus" [0];
   mkEntry 5214%Z "spinReconstructDir1Minus" [PE] "FnSpinReconstructDir1Minus" [0];
   mkEntry 5227%Z "spinReconstructDir2Minus" [PE] "FnSpinReconstructDir2Minus" [0];
   mkEntry 5240%Z "spinReconstructDir3Minus" [PE] "FnSpinReconstructDir3Minus" [0];
   mkEntry 5253%Z "chiralProjectPlus" [PE] "FnChiralProjectPlus" [0];
   mkEntry 5266%Z "chiralProjectMinus" [PE] "FnChiralProjectMinus" [0];
   mkEntry 5279%Z "acos" [PE] "FnArcCos" [0];
   mkEntry 5292%Z "asin" [PE] "FnArcSin" [0];
   mkEntry 5305%Z "atan" [PE] "FnArcTan" [0];
   mkEntry 5318%Z "ceil" [PE] "FnCeil" [0];
   mkEntry 5331%Z "cos" [PE] "FnCos" [0];
   mkEntry 5344%Z "cosh" [PE] "FnHypCos" [0];
   mkEntry 5357%Z "exp" [PE] "FnExp" [0];
   mkEntry 5370%Z "fabs" [PE] "FnFabs" [0];
   mkEntry 5383%Z "floor" [PE] "FnFloor" [0];
   mkEntry 5396%Z "log" [PE] "FnLog" [0];
   mkEntry 5409%Z "log10" [PE] "FnLog10" [0];
   mkEntry 5422%Z "sin" [PE] "FnSin" [0];
   mkEntry 5435%Z "sinh" [PE] "FnHypSin" [0];
   mkEntry 5448%Z "sqrt" [PE] "FnSqrt" [0];
   mkEntry 5461%Z "tan" [PE] "FnTan" [0];
   mkEntry 5474%Z "tanh" [PE] "FnHypTan" [0];
   mkEntry 5487%Z "operator-" [PE] "OpUnaryMinus" [0];
   mkEntry 5500%Z "operator+" [PE] "OpUnaryPlus" [0];
   mkEntry 5513%Z "operator~" [PE] "OpBitwiseNot" [0];
   mkEntry 5526%Z "PETE_identity" [PE] "OpIdentity" [0];
   mkEntry 5539%Z "operator!" [PE] "OpNot" [0];
   mkEntry 5552%Z "cmplx" [PE; PE] "FnCmplx" [0; 1];
   mkEntry 5568%Z "outerProduct" [PE; PE] "FnOuterProduct" [0; 1];
   mkEntry 5584%Z "colorVectorContract" [PE; PE] "FnColorVectorContract" [0; 1];
   mkEntry 5600%Z "colorCrossProduct" [PE; PE] "FnColorCrossProduct" [0; 1];
   mkEntry 5616%Z "localInnerProduct" [PE; PE] "FnLocalInnerProduct" [0; 1];
   mkEntry 5632%Z "localInnerProductReal" [PE; PE] "FnLocalInnerProductReal" [0; 1];
   mkEntry 5648%Z "localColorInnerProduct" [PE; PE] "FnLocalColorInnerProduct" [0; 1];
   mkEntry 5664%Z "quarkContract13" [PE; PE] "FnQuarkContract13" [0; 1];
   mkEntry 5680%Z "quarkContract14" [PE; PE] "FnQuarkContract14" [0; 1];
   mkEntry 5696%Z "quarkContract23" [PE; PE] "FnQuarkContract23" [0; 1];
   mkEntry 5712%Z "quarkContract24" [PE; PE] "FnQuarkContract24" [0; 1];
   mkEntry 5728%Z "quarkContract12" [PE; PE] "FnQuarkContract12" [0; 1];
   mkEntry 5744%Z "quarkContract34" [PE; PE] "FnQuarkContract34" [0; 1];
   mkEntry 5760%Z "operator+" [PE; PE] "OpAdd" [0; 1];
   mkEntry 5776%Z "operator-" [PE; PE] "OpSubtract" [0; 1];
   mkEntry 5792%Z "operator*" [PE; PE] "OpMultiply" [0; 1];
   mkEntry 5808%Z "operator/" [PE; PE] "OpDivide" [0; 1];
   mkEntry 5824%Z "operator%" [PE; PE] "OpMod" [0; 1];
   mkEntry 5840%Z "operator&" [PE; PE] "OpBitwiseAnd" [0; 1];
   mkEntry 5856%Z "operator|" [PE; PE] "OpBitwiseOr" [0; 1];
   mkEntry 5872%Z "operator^" [PE; PE] "OpBitwiseXor" [0; 1];
   mkEntry 5888%Z "ldexp" [PE; PE] "FnLdexp" [0; 1];
   mkEntry 5904%Z "pow" [PE; PE] "FnPow" [0; 1];
   mkEntry 5920%Z "fmod" [PE; PE] "FnFmod" [0; 1];
   mkEntry 5936%Z "atan2" [PE; PE] "FnArcTan2" [0; 1];
   mkEntry 5952%Z "operator<" [PE; PE] "OpLT" [0; 1];
   mkEntry 5968%Z "operator<=" [PE; PE] "OpLE" [0; 1];
   mkEntry 5984%Z "operator>" [PE; PE] "OpGT" [0; 1];
   mkEntry 6000%Z "operator>=" [PE; PE] "OpGE" [0; 1];
   mkEntry 6016%Z "operator==" [PE; PE] "OpEQ" [0; 1];
   mkEntry 6032%Z "operator!=" [PE; PE] "OpNE" [0; 1];
   mkEntry 6048%Z "operator&&" [PE; PE] "OpAnd" [0; 1];
   mkEntry 6064%Z "operator||" [PE; PE] "OpOr" [0; 1];
   mkEntry 6080%Z "operator<<" [PE; PE] "OpLeftShift" [0; 1];
   mkEntry 6096%Z "operator>>" [PE; PE] "OpRightShift" [0; 1];
   mkEntry 6112%Z "colorContract" [PE; PE; PE] "FnColorContract" [0; 1; 2];
   mkEntry 6131%Z "where" [PE; PE; PE] "FnWhere" [0; 1; 2];
   mkEntry 6150%Z "cmplx" [PE; PW 0] "FnCmplx" [0; 1];
   mkEntry 6166%Z "outerProduct" [PE; PW 0] "FnOuterProduct" [0; 1];
   mkEntry 6182%Z "colorVectorContract" [PE; PW 0] "FnColorVectorContract" [0; 1];
   mkEntry 6198%Z "colorCrossProduct" [PE; PW 0] "FnColorCrossProduct" [0; 1];
   mkEntry 6214%Z "localInnerProduct" [PE; PW 0] "FnLocalInnerProduct" [0; 1];
   mkEntry 6230%Z "localInnerProductReal" [PE; PW 0] "FnLocalInnerProductReal" [0; 1];
   mkEntry 6246%Z "localColorInnerProduct" [PE; PW 0] "FnLocalColorInnerProduct" [0; 1];
   mkEntry 6262%Z "quarkContract13" [PE; PW 0] "FnQuarkContract13" [0; 1];
   mkEntry 6278%Z "quarkContract14" [PE; PW 0] "FnQuarkContract14" [0; 1];
   mkEntry 6294%Z "quarkContract23" [PE; PW 0] "FnQuarkContract23" [0; 1];
   mkEntry 6310%Z "quarkContract24" [PE; PW 0] "FnQuarkContract24" [0; 1];
   mkEntry 6326%Z "quarkContract12" [PE; PW 0] "FnQuarkContract12" [0; 1];
   mkEntry 6342%Z "quarkContract34" [PE; PW 0] "FnQuarkContract34" [0; 1];
   mkEntry 6358%Z "operator+" [PE; PW 0] "OpAdd" [0; 1];
   mkEntry 6374%Z "operator-" [PE; PW 0] "OpSubtract" [0; 1];
   mkEntry 6390%Z "operator*" [PE; PW 0] "OpMultiply" [0; 1];
   mkEntry 6406%Z "operator/" [PE; PW 0] "OpDivide" [0; 1];
   mkEntry 6422%Z "operator%" [PE; PW 0] "OpMod" [0; 1];
   mkEntry 6438%Z "operator&" [PE; PW 0] "OpBitwiseAnd" [0; 1];
   mkEntry 6454%Z "operator|" [PE; PW 0] "OpBitwiseOr" [0; 1];
   mkEntry 6470%Z "operator^" [PE; PW 0] "OpBitwiseXor" [0; 1];
   mkEntry 6486%Z "ldexp" [PE; PW 0] "FnLdexp" [0; 1];
   mkEntry 6502%Z "pow" [PE; PW 0] "FnPow" [0; 1];
   mkEntry 6518%Z "fmod" [PE; PW 0] "FnFmod" [0; 1];
   mkEntry 6534%Z "atan2" [PE; PW 0] "FnArcTan2" [0; 1];
   mkEntry 6550%Z "operator<" [PE; PW 0] "OpLT" [0; 1];
   mkEntry 6566%Z "operator<=" [PE; PW 0] "OpLE" [0; 1];
   mkEntry 6582%Z "operator>" [PE; PW 0] "OpGT" [0; 1];
   mkEntry 6598%Z "operator>=" [PE; PW 0] "OpGE" [0; 1];
   mkEntry 6614%Z "operator==" [PE; PW 0] "OpEQ" [0; 1];
   mkEntry 6630%Z "operator!=" [PE; PW 0] "OpNE" [0; 1];
   mkEntry 6646%Z "operator&&" [PE; PW 0] "OpAnd" [0; 1];
   mkEntry 6662%Z "operator||" [PE; PW 0] "OpOr" [0; 1];
   mkEntry 6678%Z "operator<<" [PE; PW 0] "OpLeftShift" [0; 1];
   mkEntry 6694%Z "operator>>" [PE; PW 0] "OpRightShift" [0; 1];
   mkEntry 6710%Z "cmplx" [PW 1; PE] "FnCmplx" [0; 1];
   mkEntry 6726%Z "outerProduct" [PW 1; PE] "FnOuterProduct" [0; 1];
   mkEntry 6742%Z "colorVectorContract" [PW 1; PE] "FnColorVectorContract" [0; 1];
   mkEntry 6758%Z "colorCrossProduct" [PW 1; PE] "FnColorCrossProduct" [0; 1];
   mkEntry 6774%Z "localInnerProduct" [PW 1; PE] "FnLocalInnerProduct" [0; 1];
   mkEntry 6790%Z "localInnerProductReal" [PW 1; PE] "FnLocalInnerProductReal" [0; 1];
   mkEntry 6806%Z "localColorInnerProduct" [PW 1; PE] "FnLocalColorInnerProduct" [0; 1];
   mkEntry 6822%Z "quarkContract13" [PW 1; PE] "FnQuarkContract13" [0; 1];
   mkEntry 6838%Z "quarkContract14" [PW 1; PE] "FnQuarkContract14" [0; 1];
   mkEntry 6854%Z "quarkContract23" [PW 1; PE] "FnQuarkContract23" [0; 1];
   mkEntry 6870%Z "quarkContract24" [PW 1; PE] "FnQuarkContract24" [0; 1];
   mkEntry 6886%Z "quarkContract12" [PW 1; PE] "FnQuarkContract12" [0; 1];
   mkEntry 6902%Z "quarkContract34" [PW 1; PE] "FnQuarkContract34" [0; 1];
   mkEntry 6918%Z "operator+" [PW 1; PE] "OpAdd" [0; 1];
   mkEntry 6934%Z "operator-" [PW 1; PE] "OpSubtract" [0; 1];
   mkEntry 6950%Z "operator*" [PW 1; PE] "OpMultiply" [0; 1];
   mkEntry 6966%Z "operator/" [PW 1; PE] "OpDivide" [0; 1];
   mkEntry 6982%Z "operator%" [PW 1; PE] "OpMod" [0; 1];
   mkEntry 6998%Z "operator&" [PW 1; PE] "OpBitwiseAnd" [0; 1];
   mkEntry 7014%Z "operator|" [PW 1; PE] "OpBitwiseOr" [0; 1];
   mkEntry 7030%Z "operator^" [PW 1; PE] "OpBitwiseXor" [0; 1];
   mkEntry 7046%Z "ldexp" [PW 1; PE] "FnLdexp" [0; 1];
   mkEntry 7062%Z "pow" [PW 1; PE] "FnPow" [0; 1];
   mkEntry 7078%Z "fmod" [PW 1; PE] "FnFmod" [0; 1];
   mkEntry 7094%Z "atan2" [PW 1; PE] "FnArcTan2" [0; 1];
   mkEntry 7110%Z "operator<" [PW 1; PE] "OpLT" [0; 1];
   mkEntry 7126%Z "operator<=" [PW 1; PE] "OpLE" [0; 1];
   mkEntry 7142%Z "operator>" [PW 1; PE] "OpGT" [0; 1];
   mkEntry 7158%Z "operator>=" [PW 1; PE] "OpGE" [0; 1];
   mkEntry 7174%Z "operator==" [PW 1; PE] "OpEQ" [0; 1];
   mkEntry 7190%Z "operator!=" [PW 1; PE] "OpNE" [0; 1];
   mkEntry 7206%Z "operator&&" [PW 1; PE] "OpAnd" [0; 1];
   mkEntry 7222%Z "operator||" [PW 1; PE] "OpOr" [0; 1];
   mkEntry 7238%Z "colorContract" [PE; PT; PW 0] "FnColorContract" [0; 1; 2];
   mkEntry 7257%Z "where" [PE; PT; PW 0] "FnWhere" [0; 1; 2];
   mkEntry 7276%Z "colorContract" [PE; PW 0; PT] "FnColorContract" [0; 1; 2];
   mkEntry 7295%Z "where" [PE; PW 0; PT] "FnWhere" [0; 1; 2];
   mkEntry 7314%Z "colorContract" [PE; PW 0; PW 0] "FnColorContract" [0; 1; 2];
   mkEntry 7333%Z "where" [PE; PW 0; PW 0] "FnWhere" [0; 1; 2];
   mkEntry 7352%Z "colorContract" [PT; PE; PW 0] "FnColorContract" [0; 1; 2];
   mkEntry 7371%Z "where" [PT; PE; PW 0] "FnWhere" [0; 1; 2];
   mkEntry 7390%Z "colorContract" [PT; PW 0; PE] "FnColorContract" [0; 1; 2];
   mkEntry 7409%Z "where" [PT; PW 0; PE] "FnWhere" [0; 1; 2];
   mkEntry 7428%Z "colorContract" [PW 1; PE; PT] "FnColorContract" [0; 1; 2];
   mkEntry 7447%Z "where" [PW 1; PE; PT] "FnWhere" [0; 1; 2];
   mkEntry 7466%Z "colorContract" [PW 1; PT; PE] "FnColorContract" [0; 1; 2];
   mkEntry 7485%Z "where" [PW 1; PT; PE] "FnWhere" [0; 1; 2];
   mkEntry 7504%Z "colorContract" [PW 1; PE; PE] "FnColorContract" [0; 1; 2];
   mkEntry 7523%Z "where" [PW 1; PE; PE] "FnWhere" [0; 1; 2];
   mkEntry 7542%Z "colorContract" [PW 1; PE; PW 1] "FnColorContract" [0; 1; 2];
   mkEntry 7561%Z "where" [PW 1; PE; PW 1] "FnWhere" [0; 1; 2];
   mkEntry 7580%Z "colorContract" [PW 2; PW 2; PE] "FnColorContract" [0; 1; 2];
   mkEntry 7599%Z "where" [PW 2; PW 2; PE] "FnWhere" [0; 1; 2];
   mkEntry 7619%Z "operator<<" [PW 1; PE] "OpLeftShift" [0; 1];
   mkEntry 7635%Z "operator>>" [PW 1; PE] "OpRightShift" [0; 1];
   mkEntry 7652%Z "colorContract" [PE; PT; PT] "FnColorContract" [0; 1; 2];
   mkEntry 7671%Z "where" [PE; PT; PT] "FnWhere" [0; 1; 2];
   mkEntry 7690%Z "colorContract" [PT; PE; PT] "FnColorContract" [0; 1; 2];
   mkEntry 7709%Z "where" [PT; PE; PT] "FnWhere" [0; 1; 2];
   mkEntry 7728%Z "colorContract" [PT; PT; PE] "FnColorContract" [0; 1; 2];
   mkEntry 7747%Z "where" [PT; PT; PE] "FnWhere" [0; 1; 2];
   mkEntry 7766%Z "colorContract" [PE; PE; PT] "FnColorContract" [0; 1; 2];
   mkEntry 7785%Z "where" [PE; PE; PT] "FnWhere" [0; 1; 2];
   mkEntry 7804%Z "colorContract" [PT; PE; PE] "FnColorContract" [0; 1; 2];
   mkEntry 7823%Z "where" [PT; PE; PE] "FnWhere" [0; 1; 2];
   mkEntry 7842%Z "colorContract" [PE; PT; PE] "FnColorContract" [0; 1; 2];
   mkEntry 7861%Z "where" [PE; PT; PE] "FnWhere" [0; 1; 2]
  ].
(** What a tag does with the values of the children: the function called and its arguments in order.
    include/QDPOperators.h 25-552 and include/PETE/OperatorTags.h 46-779 without the assignments. *)
Definition tags : list (string * (string * list nat)) := [
   ("FnAdjoint", ("adj", [0]));
   ("FnConjugate", ("conj", [0]));
   ("FnTranspose", ("transpose", [0]));
   ("FnTransposeColor", ("transposeColor", [0]));
   ("FnTransposeSpin", ("transposeSpin", [0]));
   ("FnTrace", ("trace", [0]));
   ("FnRealTrace", ("realTrace", [0]));
   ("FnImagTrace", ("imagTrace", [0]));
   ("FnTraceColor", ("traceColor", [0]));
   ("FnTraceSpin", ("traceSpin", [0]));
   ("FnReal", ("real", [0]));
   ("FnImag", ("imag", [0]));
   ("FnLocalNorm2", ("localNorm2", [0]));
   ("FnTimesI", ("timesI", [0]));
   ("FnTimesMinusI", ("timesMinusI", [0]));
   ("FnSeedToFloat", ("seedToFloat", [0]));
   ("FnSpinProjectDir0Plus", ("spinProjectDir0Plus", [0]));
   ("FnSpinProjectDir1Plus", ("spinProjectDir1Plus", [0]));
   ("FnSpinProjectDir2Plus", ("spinProjectDir2Plus", [0]));
   ("FnSpinProjectDir3Plus", ("spinProjectDir3Plus", [0]));
   ("FnSpinProjectDir0Minus", ("spinProjectDir0Minus", [0]));
   ("FnSpinProjectDir1Minus", ("spinProjectDir1Minus", [0]));
   ("FnSpinProjectDir2Minus", ("spinProjectDir2Minus", [0]));
   ("FnSpinProjectDir3Minus", ("spinProjectDir3Minus", [0]));
   ("FnSpinReconstructDir0Plus", ("spinReconstructDir0Plus", [0]));
   ("FnSpinReconstructDir1Plus", ("spinReconstructDir1Plus", [0]));
   ("FnSpinReconstructDir2Plus", ("spinReconstructDir2Plus", [0]));
   ("FnSpinReconstructDir3Plus", ("spinReconstructDir3Plus", [0]));
   ("FnSpinReconstructDir0Minus", ("spinReconstructDir0Minus", [0]));
   ("FnSpinReconstructDir1Minus", ("spinReconstructDir1Minus", [0]));
   ("FnSpinReconstructDir2Minus", ("spinReconstructDir2Minus", [0]));
   ("FnSpinReconstructDir3Minus", ("spinReconstructDir3Minus", [0]));
   ("FnChiralProjectPlus", ("chiralProjectPlus", [0]));
   ("FnChiralProjectMinus", ("chiralProjectMinus", [0]));
   ("FnCmplx", ("cmplx", [0; 1]));
   ("FnOuterProduct", ("outerProduct", [0; 1]));
   ("FnColorVectorContract", ("colorVectorContract", [0; 1]));
   ("FnColorCrossProduct", ("colorCrossProduct", [0; 1]));
   ("FnLocalInnerProduct", ("localInnerProduct", [0; 1]));
   ("FnLocalInnerProductReal", ("localInnerProductReal", [0; 1]));
   ("FnLocalColorInnerProduct", ("localColorInnerProduct", [0; 1]));
   ("FnQuarkContract13", ("quarkContract13", [0; 1]));
   ("FnQuarkContract14", ("quarkContract14", [0; 1]));
   ("FnQuarkContract23", ("quarkContract23", [0; 1]));
   ("FnQuarkContract24", ("quarkContract24", [0; 1]));
   ("FnQuarkContract12", ("quarkContract12", [0; 1]));
   ("FnQuarkContract34", ("quarkContract34", [0; 1]));
   ("FnColorContract", ("colorContract", [0; 1; 2]));
   ("FnArcCos", ("acos", [0]));
   ("FnArcSin", ("asin", [0]));
   ("FnArcTan", ("atan", [0]));
   ("FnCeil", ("ceil", [0]));
   ("FnCos", ("cos", [0]));
   ("FnHypCos", ("cosh", [0]));
   ("FnExp", ("exp", [0]));
   ("FnFabs", ("fabs", [0]));
   ("FnFloor", ("floor", [0]));
   ("FnLog", ("log", [0]));
   ("FnLog10", ("log10", [0]));
   ("FnSin", ("sin", [0]));
   ("FnHypSin", ("sinh", [0]));
   ("FnSqrt", ("sqrt", [0]));
   ("FnTan", ("tan", [0]));
   ("FnHypTan", ("tanh", [0]));
   ("OpUnaryMinus", ("operator-", [0]));
   ("OpUnaryPlus", ("operator+", [0]));
   ("OpBitwiseNot", ("operator~", [0]));
   ("OpIdentity", ("PETE_identity", [0]));
   ("OpNot", ("operator!", [0]));
   ("OpAdd", ("operator+", [0; 1]));
   ("OpSubtract", ("operator-", [0; 1]));
   ("OpMultiply", ("operator*", [0; 1]));
   ("OpDivide", ("operator/", [0; 1]));
   ("OpMod", ("operator%", [0; 1]));
   ("OpBitwiseAnd", ("operator&", [0; 1]));
   ("OpBitwiseOr", ("operator|", [0; 1]));
   ("OpBitwiseXor", ("operator^", [0; 1]));
   ("FnLdexp", ("ldexp", [0; 1]));
   ("FnPow", ("pow", [0; 1]));
   ("FnFmod", ("fmod", [0; 1]));
   ("FnArcTan2", ("atan2", [0; 1]));
   ("OpLT", ("operator<", [0; 1]));
   ("OpLE", ("operator<=", [0; 1]));
   ("OpGT", ("operator>", [0; 1]));
   ("OpGE", ("operator>=", [0; 1]));
   ("OpEQ", ("operator==", [0; 1]));
   ("OpNE", ("operator!=", [0; 1]));
   ("OpAnd", ("operator&&", [0; 1]));
   ("OpOr", ("operator||", [0; 1]));
   ("OpLeftShift", ("operator<<", [0; 1]));
   ("OpRightShift", ("operator>>", [0; 1]));
   ("FnWhere", ("where", [0; 1; 2]))
  ].

(** Machine words, WordType<C>::Type_t *)
Inductive word := Bool | Int | Float | Double.
(** The conversion of a plain number (a rational) to a word.  [rnd] is rounding to float and double; numbers too large for
    an int are not treated apart. *)
Definition whole (q : Q) : bool := (Z.eqb (Qnum q mod Zpos (Qden q)) 0)%Z.
Definition zeroq (q : Q) : bool := (Z.eqb (Qnum q) 0)%Z.
Definition oneq (q : Q) : bool := (Z.eqb (Qnum q) (Zpos (Qden q)))%Z.
Definition conv (rnd : word -> Q -> Q) (w : word) (q : Q) : Q :=
  match w with
  | Bool => if zeroq q || oneq q then q else 1%Q
  | Int => if whole q then q else inject_Z (Z.quot (Qnum q) (Zpos (Qden q)))
  | Float => rnd Float q
  | Double => rnd Double q
  end.

(** What the user writes. *)
Inductive uexp (V : Type) :=
| Obj (w : word) (v : V)                       (* a field or scalar of the library, with its value at the site *)
| Num (q : Q)                                  (* a plain number *)
| App (f : string) (args : list (uexp V)).     (* an operator or function *)
Arguments Obj {V}. Arguments Num {V}. Arguments App {V}.

(** The tree: UnaryNode, BinaryNode, TrinaryNode over references and scalars. *)
Inductive tree (V : Type) := Leaf (v : V) | Node (tag : string) (children : list (tree V)).
Arguments Leaf {V}. Arguments Node {V}.
Inductive built (V : Type) := BObj (w : word) (t : tree V) | BExpr (w : word) (t : tree V) | BNum (q : Q).
Arguments BObj {V}. Arguments BExpr {V}. Arguments BNum {V}.

Section Build.
Context {V : Type} (num : Q -> V) (rnd : word -> Q -> Q).
(** The word type of the result of a function: UnaryReturn, BinaryReturn, TrinaryReturn of the tag.  Any. *)
Context (ret : string -> list word -> word).

Definition accepts (p : pat) (b : built V) : bool :=
  match p, b with
  | PT, BObj _ _ | PE, BExpr _ _ | PW _, BNum _ => true
  | _, _ => false
  end.
Fixpoint accept_all (ps : list pat) (bs : list (built V)) : bool :=
  match ps, bs with
  | [], [] => true
  | p :: ps, b :: bs => accepts p b && accept_all ps bs
  | _, _ => false
  end.
Definition word_b (b : built V) : option word :=
  match b with BObj w _ | BExpr w _ => Some w | BNum _ => None end.
(** One child and its word type. *)
Definition child (bs : list (built V)) (p : pat) (b : built V) : option (tree V * word) :=
  match b, p with
  | BObj w t, _ | BExpr w t, _ => Some (t, w)
  | BNum q, PW j =>
      match nth_error bs j with
      | Some b' => match word_b b' with Some w => Some (Leaf (num (conv rnd w q)), w) | None => None end
      | None => None
      end
  | BNum _, _ => None
  end.
Fixpoint children (bs all : list (built V)) (ps : list pat) : option (list (tree V * word)) :=
  match bs, ps with
  | [], [] => Some []
  | b :: bs, p :: ps =>
      match child all p b, children bs all ps with
      | Some c, Some cs => Some (c :: cs)
      | _, _ => None
      end
  | _, _ => None
  end.
Fixpoint pick {A} (l : list A) (order : list nat) : option (list A) :=
  match order with
  | [] => Some []
  | i :: order => match nth_error l i, pick l order with Some a, Some r => Some (a :: r) | _, _ => None end
  end.
(** The call f(bs): the functions of that name that accept the operands.  None or more than one: the program does not
    compile. *)
Definition select (f : string) (bs : list (built V)) : list entry :=
  filter (fun e => String.eqb (e_name e) f && accept_all (e_args e) bs) functions.
Definition meaning (tag : string) : option (string * list nat) :=
  match find (fun x => String.eqb (fst x) tag) tags with Some x => Some (snd x) | None => None end.
Definition call (f : string) (bs : list (built V)) : option (built V) :=
  match select f bs with
  | [e] =>
      match children bs bs (e_args e), meaning (e_tag e) with
      | Some cs, Some (g, _) =>
          match pick cs (e_made e) with
          | Some made => Some (BExpr (ret g (map snd made)) (Node (e_tag e) (map fst made)))
          | None => None
          end
      | _, _ => None
      end
  | _ => None
  end.
Fixpoint build (u : uexp V) : option (built V) :=
  match u with
  | Obj w v => Some (BObj w (Leaf v))
  | Num q => Some (BNum q)
  | App f args =>
      match (fix all (l : list (uexp V)) : option (list (built V)) :=
               match l with
               | [] => Some []
               | u :: l => match build u, all l with Some b, Some r => Some (b :: r) | _, _ => None end
               end) args with
      | Some bs => call f bs
      | None => None
      end
  end.
End Build.

(** forEach over the tree at a site: children first, then the operator of the tag on their values.
    include/PETE/ForEach.h 84-180, include/PETE/Combiners.h (OpCombine) *)
Section Eval.
Context {V : Type} (fn : string -> list V -> V).
Fixpoint eval (t : tree V) : option V :=
  match t with
  | Leaf v => Some v
  | Node tag ts =>
      match (fix all (l : list (tree V)) : option (list V) :=
               match l with
               | [] => Some []
               | t :: l => match eval t, all l with Some v, Some r => Some (v :: r) | _, _ => None end
               end) ts, meaning tag with
      | Some vs, Some (g, order) => match pick vs order with Some args => Some (fn g args) | None => None end
      | _, _ => None
      end
  end.
End Eval.
Definition value {V} (num : Q -> V) (fn : string -> list V -> V) (b : built V) : option V :=
  match b with
  | BObj _ t | BExpr _ t => eval fn t
  | BNum q => Some (num q)
  end.
