From Coq Require Import List NArith ZArith.
From Verif Require Import SseMachine Sse4Machine SseSpinMachine.
Import ListNotations.
Open Scope N_scope.

(** The kernels of include/scalarsite_sse/sse_spin_proj_inlines.h (projections) and
    include/scalarsite_sse/sse_spin_recon_inlines.h (reconstructions), instruction by
    instruction.  Each has a part before the loop, the body of the loop and a part for the
    last site, all written out in the code.  Left out: _mm_prefetch, which only loads the
    cache, and what is printed when DEBUG is defined.  Four assignments v.floats[0..3] are
    one [SetPs]; the shuffles' immediates are decimal here. *)

(** inlineSpinProjDir0Plus, before the loop (sse_spin_proj_inlines.h 49-59). *)
Definition proj0plus_pre : list instrs :=
  [I4 (LoadPs 0 ps_src 0); I4 (LoadPs 1 ps_src 4); I4 (LoadPs 2 ps_src 8); I4 (LoadPs 3 ps_src 12);
   I4 (LoadPs 4 ps_src 16); I4 (LoadPs 5 ps_src 20); SetPs 7 (-1) 1 (-1) 1].

(** inlineSpinProjDir0Plus, the body of the loop (sse_spin_proj_inlines.h 62-128). *)
Definition proj0plus_body : list instrs :=
  [I4 (Bump4 ps_src 24); MovPs 6 4; I4 (ShufPs 6 6 5 27); I4 (MulV 6 6 7); I4 (AddV 0 0 6);
   I4 (StorePs ps_dst 0 0); MovPs 6 5; I4 (ShufPs 6 6 3 27); I4 (MulV 6 6 7); I4 (AddV 1 1 6);
   I4 (StorePs ps_dst 4 1); MovPs 6 3; I4 (ShufPs 6 6 4 27); I4 (MulV 6 6 7); I4 (AddV 2 2 6);
   I4 (StorePs ps_dst 8 2); I4 (Bump4 ps_dst 12); I4 (LoadPs 0 ps_src 0); I4 (LoadPs 1 ps_src 4);
   I4 (LoadPs 2 ps_src 8); I4 (LoadPs 3 ps_src 12); I4 (LoadPs 4 ps_src 16); I4 (LoadPs 5 ps_src 20)].

(** inlineSpinProjDir0Plus, after the loop (sse_spin_proj_inlines.h 134-185). *)
Definition proj0plus_last : list instrs :=
  [MovPs 6 4; I4 (ShufPs 6 6 5 27); I4 (MulV 6 6 7); I4 (AddV 0 0 6); I4 (StorePs ps_dst 0 0); MovPs 6 5;
   I4 (ShufPs 6 6 3 27); I4 (MulV 6 6 7); I4 (AddV 1 1 6); I4 (StorePs ps_dst 4 1); MovPs 6 3;
   I4 (ShufPs 6 6 4 27); I4 (MulV 6 6 7); I4 (AddV 2 2 6); I4 (StorePs ps_dst 8 2)].

(** inlineSpinProjDir0Minus, before the loop (sse_spin_proj_inlines.h 225-236). *)
Definition proj0minus_pre : list instrs :=
  [SetPs 7 (-1) 1 (-1) 1; I4 (LoadPs 0 ps_src 0); I4 (LoadPs 1 ps_src 4); I4 (LoadPs 2 ps_src 8);
   I4 (LoadPs 3 ps_src 12); I4 (LoadPs 4 ps_src 16); I4 (LoadPs 5 ps_src 20)].

(** inlineSpinProjDir0Minus, the body of the loop (sse_spin_proj_inlines.h 239-304). *)
Definition proj0minus_body : list instrs :=
  [I4 (Bump4 ps_src 24); MovPs 6 4; I4 (ShufPs 6 6 5 27); I4 (MulV 6 6 7); I4 (SubV 0 0 6);
   I4 (StorePs ps_dst 0 0); MovPs 6 5; I4 (ShufPs 6 6 3 27); I4 (MulV 6 6 7); I4 (SubV 1 1 6);
   I4 (StorePs ps_dst 4 1); MovPs 6 3; I4 (ShufPs 6 6 4 27); I4 (MulV 6 6 7); I4 (SubV 2 2 6);
   I4 (StorePs ps_dst 8 2); I4 (Bump4 ps_dst 12); I4 (LoadPs 0 ps_src 0); I4 (LoadPs 1 ps_src 4);
   I4 (LoadPs 2 ps_src 8); I4 (LoadPs 3 ps_src 12); I4 (LoadPs 4 ps_src 16); I4 (LoadPs 5 ps_src 20)].

(** inlineSpinProjDir0Minus, after the loop (sse_spin_proj_inlines.h 309-360). *)
Definition proj0minus_last : list instrs :=
  [MovPs 6 4; I4 (ShufPs 6 6 5 27); I4 (MulV 6 6 7); I4 (SubV 0 0 6); I4 (StorePs ps_dst 0 0); MovPs 6 5;
   I4 (ShufPs 6 6 3 27); I4 (MulV 6 6 7); I4 (SubV 1 1 6); I4 (StorePs ps_dst 4 1); MovPs 6 3;
   I4 (ShufPs 6 6 4 27); I4 (MulV 6 6 7); I4 (SubV 2 2 6); I4 (StorePs ps_dst 8 2)].

(** inlineSpinProjDir1Plus, before the loop (sse_spin_proj_inlines.h 399-410). *)
Definition proj1plus_pre : list instrs :=
  [SetPs 7 (-1) (-1) 1 1; I4 (LoadPs 0 ps_src 0); I4 (LoadPs 1 ps_src 4); I4 (LoadPs 2 ps_src 8);
   I4 (LoadPs 3 ps_src 12); I4 (LoadPs 4 ps_src 16); I4 (LoadPs 5 ps_src 20)].

(** inlineSpinProjDir1Plus, the body of the loop (sse_spin_proj_inlines.h 413-477). *)
Definition proj1plus_body : list instrs :=
  [I4 (Bump4 ps_src 24); MovPs 6 4; I4 (ShufPs 6 6 5 78); I4 (SubV 0 0 6); I4 (StorePs ps_dst 0 0);
   MovPs 6 5; I4 (ShufPs 6 6 3 78); I4 (MulV 6 6 7); I4 (AddV 1 1 6); I4 (StorePs ps_dst 4 1); MovPs 6 3;
   I4 (ShufPs 6 6 4 78); I4 (AddV 2 2 6); I4 (StorePs ps_dst 8 2); I4 (Bump4 ps_dst 12);
   I4 (LoadPs 0 ps_src 0); I4 (LoadPs 1 ps_src 4); I4 (LoadPs 2 ps_src 8); I4 (LoadPs 3 ps_src 12);
   I4 (LoadPs 4 ps_src 16); I4 (LoadPs 5 ps_src 20)].

(** inlineSpinProjDir1Plus, after the loop (sse_spin_proj_inlines.h 481-531). *)
Definition proj1plus_last : list instrs :=
  [MovPs 6 4; I4 (ShufPs 6 6 5 78); I4 (SubV 0 0 6); I4 (StorePs ps_dst 0 0); MovPs 6 5;
   I4 (ShufPs 6 6 3 78); I4 (MulV 6 6 7); I4 (AddV 1 1 6); I4 (StorePs ps_dst 4 1); MovPs 6 3;
   I4 (ShufPs 6 6 4 78); I4 (AddV 2 2 6); I4 (StorePs ps_dst 8 2)].

(** inlineSpinProjDir1Minus, before the loop (sse_spin_proj_inlines.h 566-577). *)
Definition proj1minus_pre : list instrs :=
  [SetPs 7 (-1) (-1) 1 1; I4 (LoadPs 0 ps_src 0); I4 (LoadPs 1 ps_src 4); I4 (LoadPs 2 ps_src 8);
   I4 (LoadPs 3 ps_src 12); I4 (LoadPs 4 ps_src 16); I4 (LoadPs 5 ps_src 20)].

(** inlineSpinProjDir1Minus, the body of the loop (sse_spin_proj_inlines.h 580-643). *)
Definition proj1minus_body : list instrs :=
  [I4 (Bump4 ps_src 24); MovPs 6 4; I4 (ShufPs 6 6 5 78); I4 (AddV 0 0 6); I4 (StorePs ps_dst 0 0);
   MovPs 6 5; I4 (ShufPs 6 6 3 78); I4 (MulV 6 6 7); I4 (SubV 1 1 6); I4 (StorePs ps_dst 4 1); MovPs 6 3;
   I4 (ShufPs 6 6 4 78); I4 (SubV 2 2 6); I4 (StorePs ps_dst 8 2); I4 (Bump4 ps_dst 12);
   I4 (LoadPs 0 ps_src 0); I4 (LoadPs 1 ps_src 4); I4 (LoadPs 2 ps_src 8); I4 (LoadPs 3 ps_src 12);
   I4 (LoadPs 4 ps_src 16); I4 (LoadPs 5 ps_src 20)].

(** inlineSpinProjDir1Minus, after the loop (sse_spin_proj_inlines.h 648-699). *)
Definition proj1minus_last : list instrs :=
  [MovPs 6 4; I4 (ShufPs 6 6 5 78); I4 (AddV 0 0 6); I4 (StorePs ps_dst 0 0); MovPs 6 5;
   I4 (ShufPs 6 6 3 78); I4 (MulV 6 6 7); I4 (SubV 1 1 6); I4 (StorePs ps_dst 4 1); MovPs 6 3;
   I4 (ShufPs 6 6 4 78); I4 (SubV 2 2 6); I4 (StorePs ps_dst 8 2)].

(** inlineSpinProjDir2Plus, before the loop (sse_spin_proj_inlines.h 737-755). *)
Definition proj2plus_pre : list instrs :=
  [SetPs 7 (-1) 1 (-1) 1; SetPs 6 (-1) 1 1 (-1); I4 (LoadPs 0 ps_src 0); I4 (LoadPs 1 ps_src 4);
   I4 (LoadPs 2 ps_src 8); I4 (LoadPs 3 ps_src 12); I4 (LoadPs 4 ps_src 16); I4 (LoadPs 5 ps_src 20)].

(** inlineSpinProjDir2Plus, the body of the loop (sse_spin_proj_inlines.h 758-823). *)
Definition proj2plus_body : list instrs :=
  [I4 (Bump4 ps_src 24); I4 (ShufPs 3 3 3 177); I4 (MulV 3 3 7); I4 (AddV 0 0 3); I4 (StorePs ps_dst 0 0);
   I4 (ShufPs 4 4 4 177); I4 (MulV 4 4 6); I4 (AddV 1 1 4); I4 (StorePs ps_dst 4 1); I4 (ShufPs 5 5 5 177);
   I4 (MulV 5 5 7); I4 (SubV 2 2 5); I4 (StorePs ps_dst 8 2); I4 (Bump4 ps_dst 12); I4 (LoadPs 0 ps_src 0);
   I4 (LoadPs 1 ps_src 4); I4 (LoadPs 2 ps_src 8); I4 (LoadPs 3 ps_src 12); I4 (LoadPs 4 ps_src 16);
   I4 (LoadPs 5 ps_src 20)].

(** inlineSpinProjDir2Plus, after the loop (sse_spin_proj_inlines.h 837-879). *)
Definition proj2plus_last : list instrs :=
  [I4 (ShufPs 3 3 3 177); I4 (MulV 3 3 7); I4 (AddV 0 0 3); I4 (StorePs ps_dst 0 0); I4 (ShufPs 4 4 4 177);
   I4 (MulV 4 4 6); I4 (AddV 1 1 4); I4 (StorePs ps_dst 4 1); I4 (ShufPs 5 5 5 177); I4 (MulV 5 5 7);
   I4 (SubV 2 2 5); I4 (StorePs ps_dst 8 2)].

(** inlineSpinProjDir2Minus, before the loop (sse_spin_proj_inlines.h 916-934). *)
Definition proj2minus_pre : list instrs :=
  [SetPs 7 (-1) 1 (-1) 1; SetPs 6 (-1) 1 1 (-1); I4 (LoadPs 0 ps_src 0); I4 (LoadPs 1 ps_src 4);
   I4 (LoadPs 2 ps_src 8); I4 (LoadPs 3 ps_src 12); I4 (LoadPs 4 ps_src 16); I4 (LoadPs 5 ps_src 20)].

(** inlineSpinProjDir2Minus, the body of the loop (sse_spin_proj_inlines.h 937-1002). *)
Definition proj2minus_body : list instrs :=
  [I4 (Bump4 ps_src 24); I4 (ShufPs 3 3 3 177); I4 (MulV 3 3 7); I4 (SubV 0 0 3); I4 (StorePs ps_dst 0 0);
   I4 (ShufPs 4 4 4 177); I4 (MulV 4 4 6); I4 (SubV 1 1 4); I4 (StorePs ps_dst 4 1); I4 (ShufPs 5 5 5 177);
   I4 (MulV 5 5 7); I4 (AddV 2 2 5); I4 (StorePs ps_dst 8 2); I4 (Bump4 ps_dst 12); I4 (LoadPs 0 ps_src 0);
   I4 (LoadPs 1 ps_src 4); I4 (LoadPs 2 ps_src 8); I4 (LoadPs 3 ps_src 12); I4 (LoadPs 4 ps_src 16);
   I4 (LoadPs 5 ps_src 20)].

(** inlineSpinProjDir2Minus, after the loop (sse_spin_proj_inlines.h 1016-1058). *)
Definition proj2minus_last : list instrs :=
  [I4 (ShufPs 3 3 3 177); I4 (MulV 3 3 7); I4 (SubV 0 0 3); I4 (StorePs ps_dst 0 0); I4 (ShufPs 4 4 4 177);
   I4 (MulV 4 4 6); I4 (SubV 1 1 4); I4 (StorePs ps_dst 4 1); I4 (ShufPs 5 5 5 177); I4 (MulV 5 5 7);
   I4 (AddV 2 2 5); I4 (StorePs ps_dst 8 2)].

(** inlineSpinProjDir3Plus, before the loop (sse_spin_proj_inlines.h 1094-1099). *)
Definition proj3plus_pre : list instrs :=
  [I4 (LoadPs 0 ps_src 0); I4 (LoadPs 1 ps_src 4); I4 (LoadPs 2 ps_src 8); I4 (LoadPs 3 ps_src 12);
   I4 (LoadPs 4 ps_src 16); I4 (LoadPs 5 ps_src 20)].

(** inlineSpinProjDir3Plus, the body of the loop (sse_spin_proj_inlines.h 1102-1121). *)
Definition proj3plus_body : list instrs :=
  [I4 (Bump4 ps_src 24); I4 (AddV 0 0 3); I4 (AddV 1 1 4); I4 (AddV 2 2 5); I4 (StorePs ps_dst 0 0);
   I4 (StorePs ps_dst 4 1); I4 (StorePs ps_dst 8 2); I4 (Bump4 ps_dst 12); I4 (LoadPs 0 ps_src 0);
   I4 (LoadPs 1 ps_src 4); I4 (LoadPs 2 ps_src 8); I4 (LoadPs 3 ps_src 12); I4 (LoadPs 4 ps_src 16);
   I4 (LoadPs 5 ps_src 20)].

(** inlineSpinProjDir3Plus, after the loop (sse_spin_proj_inlines.h 1127-1133). *)
Definition proj3plus_last : list instrs :=
  [I4 (AddV 0 0 3); I4 (AddV 1 1 4); I4 (AddV 2 2 5); I4 (StorePs ps_dst 0 0); I4 (StorePs ps_dst 4 1);
   I4 (StorePs ps_dst 8 2)].

(** inlineSpinProjDir3Minus, before the loop (sse_spin_proj_inlines.h 1170-1175). *)
Definition proj3minus_pre : list instrs :=
  [I4 (LoadPs 0 ps_src 0); I4 (LoadPs 1 ps_src 4); I4 (LoadPs 2 ps_src 8); I4 (LoadPs 3 ps_src 12);
   I4 (LoadPs 4 ps_src 16); I4 (LoadPs 5 ps_src 20)].

(** inlineSpinProjDir3Minus, the body of the loop (sse_spin_proj_inlines.h 1178-1197). *)
Definition proj3minus_body : list instrs :=
  [I4 (Bump4 ps_src 24); I4 (SubV 0 0 3); I4 (SubV 1 1 4); I4 (SubV 2 2 5); I4 (StorePs ps_dst 0 0);
   I4 (StorePs ps_dst 4 1); I4 (StorePs ps_dst 8 2); I4 (Bump4 ps_dst 12); I4 (LoadPs 0 ps_src 0);
   I4 (LoadPs 1 ps_src 4); I4 (LoadPs 2 ps_src 8); I4 (LoadPs 3 ps_src 12); I4 (LoadPs 4 ps_src 16);
   I4 (LoadPs 5 ps_src 20)].

(** inlineSpinProjDir3Minus, after the loop (sse_spin_proj_inlines.h 1202-1208). *)
Definition proj3minus_last : list instrs :=
  [I4 (SubV 0 0 3); I4 (SubV 1 1 4); I4 (SubV 2 2 5); I4 (StorePs ps_dst 0 0); I4 (StorePs ps_dst 4 1);
   I4 (StorePs ps_dst 8 2)].

(** inlineSpinReconDir0Plus, before the loop (sse_spin_recon_inlines.h 49-56). *)
Definition recon0plus_pre : list instrs :=
  [SetPs 6 1 (-1) 1 (-1); I4 (LoadPs 0 ps_src 0); I4 (LoadPs 1 ps_src 4); I4 (LoadPs 2 ps_src 8)].

(** inlineSpinReconDir0Plus, the body of the loop (sse_spin_recon_inlines.h 60-136). *)
Definition recon0plus_body : list instrs :=
  [I4 (Bump4 ps_src 12); I4 (StorePs ps_dst 0 0); I4 (StorePs ps_dst 4 1); I4 (StorePs ps_dst 8 2);
   MovPs 3 1; I4 (ShufPs 3 3 2 27); I4 (MulV 3 3 6); MovPs 4 2; I4 (ShufPs 4 4 0 27); I4 (MulV 4 4 6);
   MovPs 5 0; I4 (ShufPs 5 5 1 27); I4 (MulV 5 5 6); I4 (StorePs ps_dst 12 3); I4 (StorePs ps_dst 16 4);
   I4 (StorePs ps_dst 20 5); I4 (Bump4 ps_dst 24); I4 (LoadPs 0 ps_src 0); I4 (LoadPs 1 ps_src 4);
   I4 (LoadPs 2 ps_src 8)].

(** inlineSpinReconDir0Plus, after the loop (sse_spin_recon_inlines.h 158-207). *)
Definition recon0plus_last : list instrs :=
  [I4 (StorePs ps_dst 0 0); I4 (StorePs ps_dst 4 1); I4 (StorePs ps_dst 8 2); MovPs 3 1;
   I4 (ShufPs 3 3 2 27); I4 (MulV 3 3 6); MovPs 4 2; I4 (ShufPs 4 4 0 27); I4 (MulV 4 4 6); MovPs 5 0;
   I4 (ShufPs 5 5 1 27); I4 (MulV 5 5 6); I4 (StorePs ps_dst 12 3); I4 (StorePs ps_dst 16 4);
   I4 (StorePs ps_dst 20 5)].

(** inlineSpinReconDir0Minus, before the loop (sse_spin_recon_inlines.h 247-254). *)
Definition recon0minus_pre : list instrs :=
  [SetPs 6 (-1) 1 (-1) 1; I4 (LoadPs 0 ps_src 0); I4 (LoadPs 1 ps_src 4); I4 (LoadPs 2 ps_src 8)].

(** inlineSpinReconDir0Minus, the body of the loop (sse_spin_recon_inlines.h 257-333). *)
Definition recon0minus_body : list instrs :=
  [I4 (Bump4 ps_src 12); I4 (StorePs ps_dst 0 0); I4 (StorePs ps_dst 4 1); I4 (StorePs ps_dst 8 2);
   MovPs 3 1; I4 (ShufPs 3 3 2 27); I4 (MulV 3 3 6); MovPs 4 2; I4 (ShufPs 4 4 0 27); I4 (MulV 4 4 6);
   MovPs 5 0; I4 (ShufPs 5 5 1 27); I4 (MulV 5 5 6); I4 (StorePs ps_dst 12 3); I4 (StorePs ps_dst 16 4);
   I4 (StorePs ps_dst 20 5); I4 (Bump4 ps_dst 24); I4 (LoadPs 0 ps_src 0); I4 (LoadPs 1 ps_src 4);
   I4 (LoadPs 2 ps_src 8)].

(** inlineSpinReconDir0Minus, after the loop (sse_spin_recon_inlines.h 355-404). *)
Definition recon0minus_last : list instrs :=
  [I4 (StorePs ps_dst 0 0); I4 (StorePs ps_dst 4 1); I4 (StorePs ps_dst 8 2); MovPs 3 1;
   I4 (ShufPs 3 3 2 27); I4 (MulV 3 3 6); MovPs 4 2; I4 (ShufPs 4 4 0 27); I4 (MulV 4 4 6); MovPs 5 0;
   I4 (ShufPs 5 5 1 27); I4 (MulV 5 5 6); I4 (StorePs ps_dst 12 3); I4 (StorePs ps_dst 16 4);
   I4 (StorePs ps_dst 20 5)].

(** inlineSpinReconDir1Plus, before the loop (sse_spin_recon_inlines.h 443-457). *)
Definition recon1plus_pre : list instrs :=
  [SetPs 6 1 1 (-1) (-1); SetPs 7 (-1) (-1) (-1) (-1); I4 (LoadPs 0 ps_src 0); I4 (LoadPs 1 ps_src 4);
   I4 (LoadPs 2 ps_src 8)].

(** inlineSpinReconDir1Plus, the body of the loop (sse_spin_recon_inlines.h 461-534). *)
Definition recon1plus_body : list instrs :=
  [I4 (Bump4 ps_src 12); I4 (StorePs ps_dst 0 0); I4 (StorePs ps_dst 4 1); I4 (StorePs ps_dst 8 2);
   MovPs 3 1; I4 (ShufPs 3 3 2 78); MovPs 4 2; I4 (ShufPs 4 4 0 78); I4 (MulV 4 4 6); MovPs 5 0;
   I4 (ShufPs 5 5 1 78); I4 (MulV 5 5 7); I4 (StorePs ps_dst 12 3); I4 (StorePs ps_dst 16 4);
   I4 (StorePs ps_dst 20 5); I4 (Bump4 ps_dst 24); I4 (LoadPs 0 ps_src 0); I4 (LoadPs 1 ps_src 4);
   I4 (LoadPs 2 ps_src 8)].

(** inlineSpinReconDir1Plus, after the loop (sse_spin_recon_inlines.h 556-602). *)
Definition recon1plus_last : list instrs :=
  [I4 (StorePs ps_dst 0 0); I4 (StorePs ps_dst 4 1); I4 (StorePs ps_dst 8 2); MovPs 3 1;
   I4 (ShufPs 3 3 2 78); MovPs 4 2; I4 (ShufPs 4 4 0 78); I4 (MulV 4 4 6); MovPs 5 0; I4 (ShufPs 5 5 1 78);
   I4 (MulV 5 5 7); I4 (StorePs ps_dst 12 3); I4 (StorePs ps_dst 16 4); I4 (StorePs ps_dst 20 5)].

(** inlineSpinReconDir1Minus, before the loop (sse_spin_recon_inlines.h 631-644). *)
Definition recon1minus_pre : list instrs :=
  [SetPs 6 (-1) (-1) 1 1; SetPs 7 (-1) (-1) (-1) (-1); I4 (LoadPs 0 ps_src 0); I4 (LoadPs 1 ps_src 4);
   I4 (LoadPs 2 ps_src 8)].

(** inlineSpinReconDir1Minus, the body of the loop (sse_spin_recon_inlines.h 648-721). *)
Definition recon1minus_body : list instrs :=
  [I4 (Bump4 ps_src 12); I4 (StorePs ps_dst 0 0); I4 (StorePs ps_dst 4 1); I4 (StorePs ps_dst 8 2);
   MovPs 3 1; I4 (ShufPs 3 3 2 78); I4 (MulV 3 3 7); MovPs 4 2; I4 (ShufPs 4 4 0 78); I4 (MulV 4 4 6);
   MovPs 5 0; I4 (ShufPs 5 5 1 78); I4 (StorePs ps_dst 12 3); I4 (StorePs ps_dst 16 4);
   I4 (StorePs ps_dst 20 5); I4 (Bump4 ps_dst 24); I4 (LoadPs 0 ps_src 0); I4 (LoadPs 1 ps_src 4);
   I4 (LoadPs 2 ps_src 8)].

(** inlineSpinReconDir1Minus, after the loop (sse_spin_recon_inlines.h 744-790). *)
Definition recon1minus_last : list instrs :=
  [I4 (StorePs ps_dst 0 0); I4 (StorePs ps_dst 4 1); I4 (StorePs ps_dst 8 2); MovPs 3 1;
   I4 (ShufPs 3 3 2 78); I4 (MulV 3 3 7); MovPs 4 2; I4 (ShufPs 4 4 0 78); I4 (MulV 4 4 6); MovPs 5 0;
   I4 (ShufPs 5 5 1 78); I4 (StorePs ps_dst 12 3); I4 (StorePs ps_dst 16 4); I4 (StorePs ps_dst 20 5)].

(** inlineSpinReconDir2Plus, before the loop (sse_spin_recon_inlines.h 829-846). *)
Definition recon2plus_pre : list instrs :=
  [SetPs 5 1 (-1) 1 (-1); SetPs 6 1 (-1) (-1) 1; SetPs 7 (-1) 1 (-1) 1; I4 (LoadPs 0 ps_src 0);
   I4 (LoadPs 1 ps_src 4); I4 (LoadPs 2 ps_src 8)].

(** inlineSpinReconDir2Plus, the body of the loop (sse_spin_recon_inlines.h 850-923). *)
Definition recon2plus_body : list instrs :=
  [I4 (Bump4 ps_src 12); I4 (StorePs ps_dst 0 0); I4 (StorePs ps_dst 4 1); I4 (StorePs ps_dst 8 2);
   I4 (ShufPs 0 0 0 177); I4 (MulV 0 0 5); I4 (ShufPs 1 1 1 177); I4 (MulV 1 1 6); I4 (ShufPs 2 2 2 177);
   I4 (MulV 2 2 7); I4 (StorePs ps_dst 12 0); I4 (StorePs ps_dst 16 1); I4 (StorePs ps_dst 20 2);
   I4 (Bump4 ps_dst 24); I4 (LoadPs 0 ps_src 0); I4 (LoadPs 1 ps_src 4); I4 (LoadPs 2 ps_src 8)].

(** inlineSpinReconDir2Plus, after the loop (sse_spin_recon_inlines.h 946-992). *)
Definition recon2plus_last : list instrs :=
  [I4 (StorePs ps_dst 0 0); I4 (StorePs ps_dst 4 1); I4 (StorePs ps_dst 8 2); I4 (ShufPs 0 0 0 177);
   I4 (MulV 0 0 5); I4 (ShufPs 1 1 1 177); I4 (MulV 1 1 6); I4 (ShufPs 2 2 2 177); I4 (MulV 2 2 7);
   I4 (StorePs ps_dst 12 0); I4 (StorePs ps_dst 16 1); I4 (StorePs ps_dst 20 2)].

(** inlineSpinReconDir2Minus, before the loop (sse_spin_recon_inlines.h 1021-1038). *)
Definition recon2minus_pre : list instrs :=
  [SetPs 5 (-1) 1 (-1) 1; SetPs 6 (-1) 1 1 (-1); SetPs 7 1 (-1) 1 (-1); I4 (LoadPs 0 ps_src 0);
   I4 (LoadPs 1 ps_src 4); I4 (LoadPs 2 ps_src 8)].

(** inlineSpinReconDir2Minus, the body of the loop (sse_spin_recon_inlines.h 1042-1115). *)
Definition recon2minus_body : list instrs :=
  [I4 (Bump4 ps_src 12); I4 (StorePs ps_dst 0 0); I4 (StorePs ps_dst 4 1); I4 (StorePs ps_dst 8 2);
   I4 (ShufPs 0 0 0 177); I4 (MulV 0 0 5); I4 (ShufPs 1 1 1 177); I4 (MulV 1 1 6); I4 (ShufPs 2 2 2 177);
   I4 (MulV 2 2 7); I4 (StorePs ps_dst 12 0); I4 (StorePs ps_dst 16 1); I4 (StorePs ps_dst 20 2);
   I4 (Bump4 ps_dst 24); I4 (LoadPs 0 ps_src 0); I4 (LoadPs 1 ps_src 4); I4 (LoadPs 2 ps_src 8)].

(** inlineSpinReconDir2Minus, after the loop (sse_spin_recon_inlines.h 1138-1184). *)
Definition recon2minus_last : list instrs :=
  [I4 (StorePs ps_dst 0 0); I4 (StorePs ps_dst 4 1); I4 (StorePs ps_dst 8 2); I4 (ShufPs 0 0 0 177);
   I4 (MulV 0 0 5); I4 (ShufPs 1 1 1 177); I4 (MulV 1 1 6); I4 (ShufPs 2 2 2 177); I4 (MulV 2 2 7);
   I4 (StorePs ps_dst 12 0); I4 (StorePs ps_dst 16 1); I4 (StorePs ps_dst 20 2)].

(** inlineSpinReconDir3Plus, before the loop (sse_spin_recon_inlines.h 1224-1226). *)
Definition recon3plus_pre : list instrs :=
  [I4 (LoadPs 0 ps_src 0); I4 (LoadPs 1 ps_src 4); I4 (LoadPs 2 ps_src 8)].

(** inlineSpinReconDir3Plus, the body of the loop (sse_spin_recon_inlines.h 1230-1262). *)
Definition recon3plus_body : list instrs :=
  [I4 (Bump4 ps_src 12); I4 (StorePs ps_dst 0 0); I4 (StorePs ps_dst 4 1); I4 (StorePs ps_dst 8 2);
   I4 (StorePs ps_dst 12 0); I4 (StorePs ps_dst 16 1); I4 (StorePs ps_dst 20 2); I4 (Bump4 ps_dst 24);
   I4 (LoadPs 0 ps_src 0); I4 (LoadPs 1 ps_src 4); I4 (LoadPs 2 ps_src 8)].

(** inlineSpinReconDir3Plus, after the loop (sse_spin_recon_inlines.h 1286-1293). *)
Definition recon3plus_last : list instrs :=
  [I4 (StorePs ps_dst 0 0); I4 (StorePs ps_dst 4 1); I4 (StorePs ps_dst 8 2); I4 (StorePs ps_dst 12 0);
   I4 (StorePs ps_dst 16 1); I4 (StorePs ps_dst 20 2)].

(** inlineSpinReconDir3Minus, before the loop (sse_spin_recon_inlines.h 1321-1337). *)
Definition recon3minus_pre : list instrs :=
  [SetPs 7 (-1) (-1) (-1) (-1); I4 (LoadPs 0 ps_src 0); I4 (LoadPs 1 ps_src 4); I4 (LoadPs 2 ps_src 8)].

(** inlineSpinReconDir3Minus, the body of the loop (sse_spin_recon_inlines.h 1341-1377). *)
Definition recon3minus_body : list instrs :=
  [I4 (Bump4 ps_src 12); I4 (StorePs ps_dst 0 0); I4 (StorePs ps_dst 4 1); I4 (StorePs ps_dst 8 2);
   I4 (MulV 0 0 7); I4 (MulV 1 1 7); I4 (MulV 2 2 7); I4 (StorePs ps_dst 12 0); I4 (StorePs ps_dst 16 1);
   I4 (StorePs ps_dst 20 2); I4 (Bump4 ps_dst 24); I4 (LoadPs 0 ps_src 0); I4 (LoadPs 1 ps_src 4);
   I4 (LoadPs 2 ps_src 8)].

(** inlineSpinReconDir3Minus, after the loop (sse_spin_recon_inlines.h 1396-1408). *)
Definition recon3minus_last : list instrs :=
  [I4 (StorePs ps_dst 0 0); I4 (StorePs ps_dst 4 1); I4 (StorePs ps_dst 8 2); I4 (MulV 0 0 7);
   I4 (MulV 1 1 7); I4 (MulV 2 2 7); I4 (StorePs ps_dst 12 0); I4 (StorePs ps_dst 16 1);
   I4 (StorePs ps_dst 20 2)].

(** inlineAddSpinReconDir0Plus, before the loop (sse_spin_recon_inlines.h 1451-1475). *)
Definition add0plus_pre : list instrs :=
  [SetPs 6 1 (-1) 1 (-1); I4 (LoadPs 0 ps_src 0); I4 (LoadPs 1 ps_src 4); I4 (LoadPs 2 ps_src 8);
   I4 (LoadPs 3 ps_dst 0); I4 (LoadPs 4 ps_dst 4); I4 (LoadPs 5 ps_dst 8); I4 (AddV 3 3 0); I4 (AddV 4 4 1);
   I4 (AddV 5 5 2); I4 (StorePs ps_dst 0 3); I4 (StorePs ps_dst 4 4); I4 (StorePs ps_dst 8 5)].

(** inlineAddSpinReconDir0Plus, the body of the loop (sse_spin_recon_inlines.h 1480-1564). *)
Definition add0plus_body : list instrs :=
  [I4 (Bump4 ps_src 12); I4 (LoadPs 4 ps_dst 12); I4 (LoadPs 5 ps_dst 16); MovPs 3 1; I4 (ShufPs 3 3 2 27);
   I4 (MulV 3 3 6); I4 (AddV 4 3 4); I4 (LoadPs 3 ps_dst 20); I4 (StorePs ps_dst 12 4); MovPs 4 2;
   I4 (ShufPs 4 4 0 27); I4 (MulV 4 4 6); I4 (AddV 5 5 4); I4 (StorePs ps_dst 16 5); MovPs 5 0;
   I4 (ShufPs 5 5 1 27); I4 (MulV 5 5 6); I4 (AddV 3 3 5); I4 (StorePs ps_dst 20 3); I4 (Bump4 ps_dst 24);
   I4 (LoadPs 0 ps_src 0); I4 (LoadPs 1 ps_src 4); I4 (LoadPs 2 ps_src 8); I4 (LoadPs 3 ps_dst 0);
   I4 (LoadPs 4 ps_dst 4); I4 (LoadPs 5 ps_dst 8); I4 (AddV 3 3 0); I4 (AddV 4 4 1); I4 (AddV 5 5 2);
   I4 (StorePs ps_dst 0 3); I4 (StorePs ps_dst 4 4); I4 (StorePs ps_dst 8 5)].

(** inlineAddSpinReconDir0Plus, after the loop (sse_spin_recon_inlines.h 1569-1628). *)
Definition add0plus_last : list instrs :=
  [I4 (LoadPs 4 ps_dst 12); I4 (LoadPs 5 ps_dst 16); MovPs 3 1; I4 (ShufPs 3 3 2 27); I4 (MulV 3 3 6);
   I4 (AddV 4 3 4); I4 (LoadPs 3 ps_dst 20); I4 (StorePs ps_dst 12 4); MovPs 4 2; I4 (ShufPs 4 4 0 27);
   I4 (MulV 4 4 6); I4 (AddV 5 5 4); I4 (StorePs ps_dst 16 5); MovPs 5 0; I4 (ShufPs 5 5 1 27);
   I4 (MulV 5 5 6); I4 (AddV 3 3 5); I4 (StorePs ps_dst 20 3)].

(** inlineAddSpinReconDir0Minus, before the loop (sse_spin_recon_inlines.h 1668-1692). *)
Definition add0minus_pre : list instrs :=
  [SetPs 6 (-1) 1 (-1) 1; I4 (LoadPs 0 ps_src 0); I4 (LoadPs 1 ps_src 4); I4 (LoadPs 2 ps_src 8);
   I4 (LoadPs 3 ps_dst 0); I4 (LoadPs 4 ps_dst 4); I4 (LoadPs 5 ps_dst 8); I4 (AddV 3 3 0); I4 (AddV 4 4 1);
   I4 (AddV 5 5 2); I4 (StorePs ps_dst 0 3); I4 (StorePs ps_dst 4 4); I4 (StorePs ps_dst 8 5)].

(** inlineAddSpinReconDir0Minus, the body of the loop (sse_spin_recon_inlines.h 1697-1782). *)
Definition add0minus_body : list instrs :=
  [I4 (Bump4 ps_src 12); I4 (LoadPs 4 ps_dst 12); I4 (LoadPs 5 ps_dst 16); MovPs 3 1; I4 (ShufPs 3 3 2 27);
   I4 (MulV 3 3 6); I4 (AddV 4 3 4); I4 (LoadPs 3 ps_dst 20); I4 (StorePs ps_dst 12 4); MovPs 4 2;
   I4 (ShufPs 4 4 0 27); I4 (MulV 4 4 6); I4 (AddV 5 5 4); I4 (StorePs ps_dst 16 5); MovPs 5 0;
   I4 (ShufPs 5 5 1 27); I4 (MulV 5 5 6); I4 (AddV 3 3 5); I4 (StorePs ps_dst 20 3); I4 (Bump4 ps_dst 24);
   I4 (LoadPs 0 ps_src 0); I4 (LoadPs 1 ps_src 4); I4 (LoadPs 2 ps_src 8); I4 (LoadPs 3 ps_dst 0);
   I4 (LoadPs 4 ps_dst 4); I4 (LoadPs 5 ps_dst 8); I4 (AddV 3 3 0); I4 (AddV 4 4 1); I4 (AddV 5 5 2);
   I4 (StorePs ps_dst 0 3); I4 (StorePs ps_dst 4 4); I4 (StorePs ps_dst 8 5)].

(** inlineAddSpinReconDir0Minus, after the loop (sse_spin_recon_inlines.h 1787-1846). *)
Definition add0minus_last : list instrs :=
  [I4 (LoadPs 4 ps_dst 12); I4 (LoadPs 5 ps_dst 16); MovPs 3 1; I4 (ShufPs 3 3 2 27); I4 (MulV 3 3 6);
   I4 (AddV 4 3 4); I4 (LoadPs 3 ps_dst 20); I4 (StorePs ps_dst 12 4); MovPs 4 2; I4 (ShufPs 4 4 0 27);
   I4 (MulV 4 4 6); I4 (AddV 5 5 4); I4 (StorePs ps_dst 16 5); MovPs 5 0; I4 (ShufPs 5 5 1 27);
   I4 (MulV 5 5 6); I4 (AddV 3 3 5); I4 (StorePs ps_dst 20 3)].

(** inlineAddSpinReconDir1Plus, before the loop (sse_spin_recon_inlines.h 1887-1911). *)
Definition add1plus_pre : list instrs :=
  [SetPs 6 1 1 (-1) (-1); I4 (LoadPs 0 ps_src 0); I4 (LoadPs 1 ps_src 4); I4 (LoadPs 2 ps_src 8);
   I4 (LoadPs 3 ps_dst 0); I4 (LoadPs 4 ps_dst 4); I4 (LoadPs 5 ps_dst 8); I4 (AddV 3 3 0); I4 (AddV 4 4 1);
   I4 (AddV 5 5 2); I4 (StorePs ps_dst 0 3); I4 (StorePs ps_dst 4 4); I4 (StorePs ps_dst 8 5)].

(** inlineAddSpinReconDir1Plus, the body of the loop (sse_spin_recon_inlines.h 1916-1996). *)
Definition add1plus_body : list instrs :=
  [I4 (Bump4 ps_src 12); I4 (LoadPs 4 ps_dst 12); I4 (LoadPs 5 ps_dst 16); MovPs 3 1; I4 (ShufPs 3 3 2 78);
   I4 (AddV 4 4 3); I4 (StorePs ps_dst 12 4); I4 (LoadPs 3 ps_dst 20); MovPs 4 2; I4 (ShufPs 4 4 0 78);
   I4 (MulV 4 4 6); I4 (AddV 5 5 4); I4 (StorePs ps_dst 16 5); MovPs 5 0; I4 (ShufPs 5 5 1 78);
   I4 (SubV 3 3 5); I4 (StorePs ps_dst 20 3); I4 (Bump4 ps_dst 24); I4 (LoadPs 0 ps_src 0);
   I4 (LoadPs 1 ps_src 4); I4 (LoadPs 2 ps_src 8); I4 (LoadPs 3 ps_dst 0); I4 (LoadPs 4 ps_dst 4);
   I4 (LoadPs 5 ps_dst 8); I4 (AddV 3 3 0); I4 (AddV 4 4 1); I4 (AddV 5 5 2); I4 (StorePs ps_dst 0 3);
   I4 (StorePs ps_dst 4 4); I4 (StorePs ps_dst 8 5)].

(** inlineAddSpinReconDir1Plus, after the loop (sse_spin_recon_inlines.h 2001-2054). *)
Definition add1plus_last : list instrs :=
  [I4 (LoadPs 4 ps_dst 12); I4 (LoadPs 5 ps_dst 16); MovPs 3 1; I4 (ShufPs 3 3 2 78); I4 (AddV 4 4 3);
   I4 (StorePs ps_dst 12 4); I4 (LoadPs 3 ps_dst 20); MovPs 4 2; I4 (ShufPs 4 4 0 78); I4 (MulV 4 4 6);
   I4 (AddV 5 5 4); I4 (StorePs ps_dst 16 5); MovPs 5 0; I4 (ShufPs 5 5 1 78); I4 (SubV 3 3 5);
   I4 (StorePs ps_dst 20 3)].

(** inlineAddSpinReconDir1Minus, before the loop (sse_spin_recon_inlines.h 2130-2154). *)
Definition add1minus_pre : list instrs :=
  [SetPs 6 (-1) (-1) 1 1; I4 (LoadPs 0 ps_src 0); I4 (LoadPs 1 ps_src 4); I4 (LoadPs 2 ps_src 8);
   I4 (LoadPs 3 ps_dst 0); I4 (LoadPs 4 ps_dst 4); I4 (LoadPs 5 ps_dst 8); I4 (AddV 3 3 0); I4 (AddV 4 4 1);
   I4 (AddV 5 5 2); I4 (StorePs ps_dst 0 3); I4 (StorePs ps_dst 4 4); I4 (StorePs ps_dst 8 5)].

(** inlineAddSpinReconDir1Minus, the body of the loop (sse_spin_recon_inlines.h 2158-2237). *)
Definition add1minus_body : list instrs :=
  [I4 (Bump4 ps_src 12); I4 (LoadPs 4 ps_dst 12); I4 (LoadPs 5 ps_dst 16); MovPs 3 1; I4 (ShufPs 3 3 2 78);
   I4 (SubV 4 4 3); I4 (StorePs ps_dst 12 4); I4 (LoadPs 3 ps_dst 20); MovPs 4 2; I4 (ShufPs 4 4 0 78);
   I4 (MulV 4 4 6); I4 (AddV 5 5 4); I4 (StorePs ps_dst 16 5); MovPs 5 0; I4 (ShufPs 5 5 1 78);
   I4 (AddV 3 3 5); I4 (StorePs ps_dst 20 3); I4 (Bump4 ps_dst 24); I4 (LoadPs 0 ps_src 0);
   I4 (LoadPs 1 ps_src 4); I4 (LoadPs 2 ps_src 8); I4 (LoadPs 3 ps_dst 0); I4 (LoadPs 4 ps_dst 4);
   I4 (LoadPs 5 ps_dst 8); I4 (AddV 3 3 0); I4 (AddV 4 4 1); I4 (AddV 5 5 2); I4 (StorePs ps_dst 0 3);
   I4 (StorePs ps_dst 4 4); I4 (StorePs ps_dst 8 5)].

(** inlineAddSpinReconDir1Minus, after the loop (sse_spin_recon_inlines.h 2242-2295). *)
Definition add1minus_last : list instrs :=
  [I4 (LoadPs 4 ps_dst 12); I4 (LoadPs 5 ps_dst 16); MovPs 3 1; I4 (ShufPs 3 3 2 78); I4 (SubV 4 4 3);
   I4 (StorePs ps_dst 12 4); I4 (LoadPs 3 ps_dst 20); MovPs 4 2; I4 (ShufPs 4 4 0 78); I4 (MulV 4 4 6);
   I4 (AddV 5 5 4); I4 (StorePs ps_dst 16 5); MovPs 5 0; I4 (ShufPs 5 5 1 78); I4 (AddV 3 3 5);
   I4 (StorePs ps_dst 20 3)].

(** inlineAddSpinReconDir2Plus, before the loop (sse_spin_recon_inlines.h 2334-2362). *)
Definition add2plus_pre : list instrs :=
  [SetPs 6 1 (-1) 1 (-1); SetPs 7 1 (-1) (-1) 1; I4 (LoadPs 0 ps_src 0); I4 (LoadPs 1 ps_src 4);
   I4 (LoadPs 2 ps_src 8); I4 (LoadPs 3 ps_dst 0); I4 (LoadPs 4 ps_dst 4); I4 (LoadPs 5 ps_dst 8);
   I4 (AddV 3 3 0); I4 (AddV 4 4 1); I4 (AddV 5 5 2); I4 (StorePs ps_dst 0 3); I4 (StorePs ps_dst 4 4);
   I4 (StorePs ps_dst 8 5)].

(** inlineAddSpinReconDir2Plus, the body of the loop (sse_spin_recon_inlines.h 2366-2441). *)
Definition add2plus_body : list instrs :=
  [I4 (Bump4 ps_src 12); I4 (LoadPs 3 ps_dst 12); I4 (LoadPs 4 ps_dst 16); I4 (LoadPs 5 ps_dst 20);
   I4 (ShufPs 0 0 0 177); I4 (MulV 0 0 6); I4 (AddV 3 3 0); I4 (StorePs ps_dst 12 3); I4 (ShufPs 1 1 1 177);
   I4 (MulV 1 1 7); I4 (AddV 4 4 1); I4 (StorePs ps_dst 16 4); I4 (ShufPs 2 2 2 177); I4 (MulV 2 2 6);
   I4 (SubV 5 5 2); I4 (StorePs ps_dst 20 5); I4 (Bump4 ps_dst 24); I4 (LoadPs 0 ps_src 0);
   I4 (LoadPs 1 ps_src 4); I4 (LoadPs 2 ps_src 8); I4 (LoadPs 3 ps_dst 0); I4 (LoadPs 4 ps_dst 4);
   I4 (LoadPs 5 ps_dst 8); I4 (AddV 3 3 0); I4 (AddV 4 4 1); I4 (AddV 5 5 2); I4 (StorePs ps_dst 0 3);
   I4 (StorePs ps_dst 4 4); I4 (StorePs ps_dst 8 5)].

(** inlineAddSpinReconDir2Plus, after the loop (sse_spin_recon_inlines.h 2447-2496). *)
Definition add2plus_last : list instrs :=
  [I4 (LoadPs 3 ps_dst 12); I4 (LoadPs 4 ps_dst 16); I4 (LoadPs 5 ps_dst 20); I4 (ShufPs 0 0 0 177);
   I4 (MulV 0 0 6); I4 (AddV 3 3 0); I4 (StorePs ps_dst 12 3); I4 (ShufPs 1 1 1 177); I4 (MulV 1 1 7);
   I4 (AddV 4 4 1); I4 (StorePs ps_dst 16 4); I4 (ShufPs 2 2 2 177); I4 (MulV 2 2 6); I4 (SubV 5 5 2);
   I4 (StorePs ps_dst 20 5)].

(** inlineAddSpinReconDir2Minus, before the loop (sse_spin_recon_inlines.h 2534-2562). *)
Definition add2minus_pre : list instrs :=
  [SetPs 6 (-1) 1 (-1) 1; SetPs 7 (-1) 1 1 (-1); I4 (LoadPs 0 ps_src 0); I4 (LoadPs 1 ps_src 4);
   I4 (LoadPs 2 ps_src 8); I4 (LoadPs 3 ps_dst 0); I4 (LoadPs 4 ps_dst 4); I4 (LoadPs 5 ps_dst 8);
   I4 (AddV 3 3 0); I4 (AddV 4 4 1); I4 (AddV 5 5 2); I4 (StorePs ps_dst 0 3); I4 (StorePs ps_dst 4 4);
   I4 (StorePs ps_dst 8 5)].

(** inlineAddSpinReconDir2Minus, the body of the loop (sse_spin_recon_inlines.h 2566-2641). *)
Definition add2minus_body : list instrs :=
  [I4 (Bump4 ps_src 12); I4 (LoadPs 3 ps_dst 12); I4 (LoadPs 4 ps_dst 16); I4 (LoadPs 5 ps_dst 20);
   I4 (ShufPs 0 0 0 177); I4 (MulV 0 0 6); I4 (AddV 3 3 0); I4 (StorePs ps_dst 12 3); I4 (ShufPs 1 1 1 177);
   I4 (MulV 1 1 7); I4 (AddV 4 4 1); I4 (StorePs ps_dst 16 4); I4 (ShufPs 2 2 2 177); I4 (MulV 2 2 6);
   I4 (SubV 5 5 2); I4 (StorePs ps_dst 20 5); I4 (Bump4 ps_dst 24); I4 (LoadPs 0 ps_src 0);
   I4 (LoadPs 1 ps_src 4); I4 (LoadPs 2 ps_src 8); I4 (LoadPs 3 ps_dst 0); I4 (LoadPs 4 ps_dst 4);
   I4 (LoadPs 5 ps_dst 8); I4 (AddV 3 3 0); I4 (AddV 4 4 1); I4 (AddV 5 5 2); I4 (StorePs ps_dst 0 3);
   I4 (StorePs ps_dst 4 4); I4 (StorePs ps_dst 8 5)].

(** inlineAddSpinReconDir2Minus, after the loop (sse_spin_recon_inlines.h 2647-2696). *)
Definition add2minus_last : list instrs :=
  [I4 (LoadPs 3 ps_dst 12); I4 (LoadPs 4 ps_dst 16); I4 (LoadPs 5 ps_dst 20); I4 (ShufPs 0 0 0 177);
   I4 (MulV 0 0 6); I4 (AddV 3 3 0); I4 (StorePs ps_dst 12 3); I4 (ShufPs 1 1 1 177); I4 (MulV 1 1 7);
   I4 (AddV 4 4 1); I4 (StorePs ps_dst 16 4); I4 (ShufPs 2 2 2 177); I4 (MulV 2 2 6); I4 (SubV 5 5 2);
   I4 (StorePs ps_dst 20 5)].

(** inlineAddSpinReconDir3Plus, before the loop (sse_spin_recon_inlines.h 2741-2758). *)
Definition add3plus_pre : list instrs :=
  [I4 (LoadPs 0 ps_src 0); I4 (LoadPs 1 ps_src 4); I4 (LoadPs 2 ps_src 8); I4 (LoadPs 3 ps_dst 0);
   I4 (LoadPs 4 ps_dst 4); I4 (LoadPs 5 ps_dst 8); I4 (AddV 3 3 0); I4 (AddV 4 4 1); I4 (AddV 5 5 2);
   I4 (StorePs ps_dst 0 3); I4 (StorePs ps_dst 4 4); I4 (StorePs ps_dst 8 5)].

(** inlineAddSpinReconDir3Plus, the body of the loop (sse_spin_recon_inlines.h 2762-2799). *)
Definition add3plus_body : list instrs :=
  [I4 (Bump4 ps_src 12); I4 (LoadPs 3 ps_dst 12); I4 (LoadPs 4 ps_dst 16); I4 (LoadPs 5 ps_dst 20);
   I4 (AddV 3 3 0); I4 (AddV 4 4 1); I4 (AddV 5 5 2); I4 (StorePs ps_dst 12 3); I4 (StorePs ps_dst 16 4);
   I4 (StorePs ps_dst 20 5); I4 (Bump4 ps_dst 24); I4 (LoadPs 0 ps_src 0); I4 (LoadPs 1 ps_src 4);
   I4 (LoadPs 2 ps_src 8); I4 (LoadPs 3 ps_dst 0); I4 (LoadPs 4 ps_dst 4); I4 (LoadPs 5 ps_dst 8);
   I4 (AddV 3 3 0); I4 (AddV 4 4 1); I4 (AddV 5 5 2); I4 (StorePs ps_dst 0 3); I4 (StorePs ps_dst 4 4);
   I4 (StorePs ps_dst 8 5)].

(** inlineAddSpinReconDir3Plus, after the loop (sse_spin_recon_inlines.h 2805-2815). *)
Definition add3plus_last : list instrs :=
  [I4 (LoadPs 3 ps_dst 12); I4 (LoadPs 4 ps_dst 16); I4 (LoadPs 5 ps_dst 20); I4 (AddV 3 3 0);
   I4 (AddV 4 4 1); I4 (AddV 5 5 2); I4 (StorePs ps_dst 12 3); I4 (StorePs ps_dst 16 4);
   I4 (StorePs ps_dst 20 5)].

(** inlineAddSpinReconDir3Minus, before the loop (sse_spin_recon_inlines.h 2855-2872). *)
Definition add3minus_pre : list instrs :=
  [I4 (LoadPs 0 ps_src 0); I4 (LoadPs 1 ps_src 4); I4 (LoadPs 2 ps_src 8); I4 (LoadPs 3 ps_dst 0);
   I4 (LoadPs 4 ps_dst 4); I4 (LoadPs 5 ps_dst 8); I4 (AddV 3 3 0); I4 (AddV 4 4 1); I4 (AddV 5 5 2);
   I4 (StorePs ps_dst 0 3); I4 (StorePs ps_dst 4 4); I4 (StorePs ps_dst 8 5)].

(** inlineAddSpinReconDir3Minus, the body of the loop (sse_spin_recon_inlines.h 2876-2912). *)
Definition add3minus_body : list instrs :=
  [I4 (Bump4 ps_src 12); I4 (LoadPs 3 ps_dst 12); I4 (LoadPs 4 ps_dst 16); I4 (LoadPs 5 ps_dst 20);
   I4 (SubV 3 3 0); I4 (SubV 4 4 1); I4 (SubV 5 5 2); I4 (StorePs ps_dst 12 3); I4 (StorePs ps_dst 16 4);
   I4 (StorePs ps_dst 20 5); I4 (Bump4 ps_dst 24); I4 (LoadPs 0 ps_src 0); I4 (LoadPs 1 ps_src 4);
   I4 (LoadPs 2 ps_src 8); I4 (LoadPs 3 ps_dst 0); I4 (LoadPs 4 ps_dst 4); I4 (LoadPs 5 ps_dst 8);
   I4 (AddV 3 3 0); I4 (AddV 4 4 1); I4 (AddV 5 5 2); I4 (StorePs ps_dst 0 3); I4 (StorePs ps_dst 4 4);
   I4 (StorePs ps_dst 8 5)].

(** inlineAddSpinReconDir3Minus, after the loop (sse_spin_recon_inlines.h 2918-2928). *)
Definition add3minus_last : list instrs :=
  [I4 (LoadPs 3 ps_dst 12); I4 (LoadPs 4 ps_dst 16); I4 (LoadPs 5 ps_dst 20); I4 (SubV 3 3 0);
   I4 (SubV 4 4 1); I4 (SubV 5 5 2); I4 (StorePs ps_dst 12 3); I4 (StorePs ps_dst 16 4);
   I4 (StorePs ps_dst 20 5)].

(** The kernel of an operation, a direction and a sign: the functions named
    inlineSpinProjDirXY, inlineSpinReconDirXY and inlineAddSpinReconDirXY with X the
    direction and Y the sign (the same two files). *)
Definition spin_kernel (o : spin_op) (mu : dirn) (plus : bool) : kernel5 :=
  match o, mu, plus with
  | Project, Dir0, true => Kernel5 proj0plus_pre proj0plus_body proj0plus_last
  | Project, Dir0, false => Kernel5 proj0minus_pre proj0minus_body proj0minus_last
  | Project, Dir1, true => Kernel5 proj1plus_pre proj1plus_body proj1plus_last
  | Project, Dir1, false => Kernel5 proj1minus_pre proj1minus_body proj1minus_last
  | Project, Dir2, true => Kernel5 proj2plus_pre proj2plus_body proj2plus_last
  | Project, Dir2, false => Kernel5 proj2minus_pre proj2minus_body proj2minus_last
  | Project, Dir3, true => Kernel5 proj3plus_pre proj3plus_body proj3plus_last
  | Project, Dir3, false => Kernel5 proj3minus_pre proj3minus_body proj3minus_last
  | Reconstruct, Dir0, true => Kernel5 recon0plus_pre recon0plus_body recon0plus_last
  | Reconstruct, Dir0, false => Kernel5 recon0minus_pre recon0minus_body recon0minus_last
  | Reconstruct, Dir1, true => Kernel5 recon1plus_pre recon1plus_body recon1plus_last
  | Reconstruct, Dir1, false => Kernel5 recon1minus_pre recon1minus_body recon1minus_last
  | Reconstruct, Dir2, true => Kernel5 recon2plus_pre recon2plus_body recon2plus_last
  | Reconstruct, Dir2, false => Kernel5 recon2minus_pre recon2minus_body recon2minus_last
  | Reconstruct, Dir3, true => Kernel5 recon3plus_pre recon3plus_body recon3plus_last
  | Reconstruct, Dir3, false => Kernel5 recon3minus_pre recon3minus_body recon3minus_last
  | AddReconstruct, Dir0, true => Kernel5 add0plus_pre add0plus_body add0plus_last
  | AddReconstruct, Dir0, false => Kernel5 add0minus_pre add0minus_body add0minus_last
  | AddReconstruct, Dir1, true => Kernel5 add1plus_pre add1plus_body add1plus_last
  | AddReconstruct, Dir1, false => Kernel5 add1minus_pre add1minus_body add1minus_last
  | AddReconstruct, Dir2, true => Kernel5 add2plus_pre add2plus_body add2plus_last
  | AddReconstruct, Dir2, false => Kernel5 add2minus_pre add2minus_body add2minus_last
  | AddReconstruct, Dir3, true => Kernel5 add3plus_pre add3plus_body add3plus_last
  | AddReconstruct, Dir3, false => Kernel5 add3minus_pre add3minus_body add3minus_last
  end.
