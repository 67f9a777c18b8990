(** Every specialisation of the table does its sites (generated; one lemma per entry). *)
From Coq Require Import ZArith List String Bool Lia Ring.
From Verif Require Import Base SetModel SetSpec EvalModel GammaModel KernLang KernBlas KernG5 KernSpec KernVec.
From Verif Require Import FuseModel FuseSpec FuseTable FuseSite.
Import ListNotations.
Local Open Scope string_scope.
Local Open Scope Z_scope.
Local Opaque add_g5ProjMinus add_g5ProjPlus axmbyz_g5ProjMinus axmbyz_g5ProjPlus axmbyz_ig5 axmyz_g5ProjMinus axmyz_g5ProjPlus axpbyz_g5 axpbyz_g5ProjMinus axpbyz_g5ProjPlus axpbyz_ig5 axpyz_g5ProjMinus axpyz_g5ProjPlus g5_axmbyz scal_g5 scal_g5ProjMinus scal_g5ProjPlus sub_g5ProjMinus sub_g5ProjPlus vaxmby3 vaxmy3 vaxpby3 vaxpy3 vcaxmby3 vcaxmy3 vcaxpby3 vcaxpy3 vcscal vscal xmayz_g5 xmayz_g5ProjMinus xmayz_g5ProjPlus xmayz_ig5 xpayz_g5ProjMinus xpayz_g5ProjPlus xpayz_ig5.
Section Entries.
  Context {R : Type} (rO rI : R) (radd rmul rsub rdiv : R -> R -> R) (ropp : R -> R).
  Context (RT : ring_theory rO rI radd rmul rsub ropp eq).
  Context (DIV : forall x y, rdiv x y = rmul x (rdiv rI y)).
  Add Ring Rring : RT.
  Variable (d : ptr) (env : path -> ptr) (loc : nat).
  Notation entry := (entry_ok rO rI radd rmul rsub rdiv ropp d env loc).

  Lemma evaluate_r_53_ok : entry evaluate_r_53.
  Proof. site_entry evaluate_r_53 (vaxpy3_ok rO rI radd rmul rsub ropp RT) DIV. Qed.
  Lemma evaluate_r_116_ok : entry evaluate_r_116.
  Proof. site_entry evaluate_r_116 (vaxpy3_ok rO rI radd rmul rsub ropp RT) DIV. Qed.
  Lemma evaluate_r_177_ok : entry evaluate_r_177.
  Proof. site_entry evaluate_r_177 (vaxpy3_ok rO rI radd rmul rsub ropp RT) DIV. Qed.
  Lemma evaluate_r_258_ok : entry evaluate_r_258.
  Proof. site_entry evaluate_r_258 (vaxpy3_ok rO rI radd rmul rsub ropp RT) DIV. Qed.
  Lemma evaluate_r_341_ok : entry evaluate_r_341.
  Proof. site_entry evaluate_r_341 (vaxmy3_ok rO rI radd rmul rsub ropp RT) DIV. Qed.
  Lemma evaluate_r_418_ok : entry evaluate_r_418.
  Proof. site_entry evaluate_r_418 (vaxpy3_ok rO rI radd rmul rsub ropp RT) DIV. Qed.
  Lemma evaluate_r_499_ok : entry evaluate_r_499.
  Proof. site_entry evaluate_r_499 (vaxpy3_ok rO rI radd rmul rsub ropp RT) DIV. Qed.
  Lemma evaluate_r_567_ok : entry evaluate_r_567.
  Proof. site_entry evaluate_r_567 (vaxpy3_ok rO rI radd rmul rsub ropp RT) DIV. Qed.
  Lemma evaluate_r_634_ok : entry evaluate_r_634.
  Proof. site_entry evaluate_r_634 (vaxpy3_ok rO rI radd rmul rsub ropp RT) DIV. Qed.
  Lemma evaluate_r_718_ok : entry evaluate_r_718.
  Proof. site_entry evaluate_r_718 (vaxpy3_ok rO rI radd rmul rsub ropp RT) DIV. Qed.
  Lemma evaluate_r_804_ok : entry evaluate_r_804.
  Proof. site_entry evaluate_r_804 (vaxmy3_ok rO rI radd rmul rsub ropp RT) DIV. Qed.
  Lemma evaluate_r_883_ok : entry evaluate_r_883.
  Proof. site_entry evaluate_r_883 (vaxpy3_ok rO rI radd rmul rsub ropp RT) DIV. Qed.
  Lemma evaluate_r_965_ok : entry evaluate_r_965.
  Proof. site_entry evaluate_r_965 (vaxpy3_ok rO rI radd rmul rsub ropp RT) DIV. Qed.
  Lemma evaluate_r_1032_ok : entry evaluate_r_1032.
  Proof. site_entry evaluate_r_1032 (vaxmy3_ok rO rI radd rmul rsub ropp RT) DIV. Qed.
  Lemma evaluate_r_1097_ok : entry evaluate_r_1097.
  Proof. site_entry evaluate_r_1097 (vscal_ok rO rI radd rmul rsub ropp RT) DIV. Qed.
  Lemma evaluate_r_1157_ok : entry evaluate_r_1157.
  Proof. site_entry evaluate_r_1157 (vscal_ok rO rI radd rmul rsub ropp RT) DIV. Qed.
  Lemma evaluate_r_1217_ok : entry evaluate_r_1217.
  Proof. site_entry evaluate_r_1217 (vscal_ok rO rI radd rmul rsub ropp RT) DIV. Qed.
  Lemma evaluate_r_1276_ok : entry evaluate_r_1276.
  Proof. site_entry evaluate_r_1276 (vscal_ok rO rI radd rmul rsub ropp RT) DIV. Qed.
  Lemma evaluate_r_1334_ok : entry evaluate_r_1334.
  Proof. site_entry evaluate_r_1334 (vaxpy3_ok rO rI radd rmul rsub ropp RT) DIV. Qed.
  Lemma evaluate_r_1400_ok : entry evaluate_r_1400.
  Proof. site_entry evaluate_r_1400 (vaxmy3_ok rO rI radd rmul rsub ropp RT) DIV. Qed.
  Lemma evaluate_r_1462_ok : entry evaluate_r_1462.
  Proof. site_entry evaluate_r_1462 (vaxpby3_ok rO rI radd rmul rsub ropp RT) DIV. Qed.
  Lemma evaluate_r_1553_ok : entry evaluate_r_1553.
  Proof. site_entry evaluate_r_1553 (vaxpby3_ok rO rI radd rmul rsub ropp RT) DIV. Qed.
  Lemma evaluate_r_1650_ok : entry evaluate_r_1650.
  Proof. site_entry evaluate_r_1650 (vaxpby3_ok rO rI radd rmul rsub ropp RT) DIV. Qed.
  Lemma evaluate_r_1753_ok : entry evaluate_r_1753.
  Proof. site_entry evaluate_r_1753 (vaxpby3_ok rO rI radd rmul rsub ropp RT) DIV. Qed.
  Lemma evaluate_r_1843_ok : entry evaluate_r_1843.
  Proof. site_entry evaluate_r_1843 (vaxmby3_ok rO rI radd rmul rsub ropp RT) DIV. Qed.
  Lemma evaluate_r_1934_ok : entry evaluate_r_1934.
  Proof. site_entry evaluate_r_1934 (vaxmby3_ok rO rI radd rmul rsub ropp RT) DIV. Qed.
  Lemma evaluate_r_2031_ok : entry evaluate_r_2031.
  Proof. site_entry evaluate_r_2031 (vaxmby3_ok rO rI radd rmul rsub ropp RT) DIV. Qed.
  Lemma evaluate_r_2134_ok : entry evaluate_r_2134.
  Proof. site_entry evaluate_r_2134 (vaxmby3_ok rO rI radd rmul rsub ropp RT) DIV. Qed.
  Lemma evaluate_c_29_ok : entry evaluate_c_29.
  Proof. site_entry evaluate_c_29 (vcscal_ok rO rI radd rmul rsub ropp RT) DIV. Qed.
  Lemma evaluate_c_88_ok : entry evaluate_c_88.
  Proof. site_entry evaluate_c_88 (vcscal_ok rO rI radd rmul rsub ropp RT) DIV. Qed.
  Lemma evaluate_c_155_ok : entry evaluate_c_155.
  Proof. site_entry evaluate_c_155 (vcscal_ok rO rI radd rmul rsub ropp RT) DIV. Qed.
  Lemma evaluate_c_221_ok : entry evaluate_c_221.
  Proof. site_entry evaluate_c_221 (vcaxpy3_ok rO rI radd rmul rsub ropp RT) DIV. Qed.
  Lemma evaluate_c_285_ok : entry evaluate_c_285.
  Proof. site_entry evaluate_c_285 (vcaxpy3_ok rO rI radd rmul rsub ropp RT) DIV. Qed.
  Lemma evaluate_c_347_ok : entry evaluate_c_347.
  Proof. site_entry evaluate_c_347 (vcaxpy3_ok rO rI radd rmul rsub ropp RT) DIV. Qed.
  Lemma evaluate_c_413_ok : entry evaluate_c_413.
  Proof. site_entry evaluate_c_413 (vcaxpy3_ok rO rI radd rmul rsub ropp RT) DIV. Qed.
  Lemma evaluate_c_477_ok : entry evaluate_c_477.
  Proof. site_entry evaluate_c_477 (vcaxpy3_ok rO rI radd rmul rsub ropp RT) DIV. Qed.
  Lemma evaluate_c_560_ok : entry evaluate_c_560.
  Proof. site_entry evaluate_c_560 (vcaxpy3_ok rO rI radd rmul rsub ropp RT) DIV. Qed.
  Lemma evaluate_c_643_ok : entry evaluate_c_643.
  Proof. site_entry evaluate_c_643 (vcaxmy3_ok rO rI radd rmul rsub ropp RT) DIV. Qed.
  Lemma evaluate_c_725_ok : entry evaluate_c_725.
  Proof. site_entry evaluate_c_725 (vcaxmy3_ok rO rI radd rmul rsub ropp RT) DIV. Qed.
  Lemma evaluate_c_810_ok : entry evaluate_c_810.
  Proof. site_entry evaluate_c_810 (vcaxpy3_ok rO rI radd rmul rsub ropp RT) DIV. Qed.
  Lemma evaluate_c_894_ok : entry evaluate_c_894.
  Proof. site_entry evaluate_c_894 (vcaxpy3_ok rO rI radd rmul rsub ropp RT) DIV. Qed.
  Lemma evaluate_c_980_ok : entry evaluate_c_980.
  Proof. site_entry evaluate_c_980 (vcaxpy3_ok rO rI radd rmul rsub ropp RT) DIV. Qed.
  Lemma evaluate_c_1067_ok : entry evaluate_c_1067.
  Proof. site_entry evaluate_c_1067 (vcaxpy3_ok rO rI radd rmul rsub ropp RT) DIV. Qed.
  Lemma evaluate_c_1155_ok : entry evaluate_c_1155.
  Proof. site_entry evaluate_c_1155 (vcaxpby3_ok rO rI radd rmul rsub ropp RT) DIV. Qed.
  Lemma evaluate_c_1248_ok : entry evaluate_c_1248.
  Proof. site_entry evaluate_c_1248 (vcaxpby3_ok rO rI radd rmul rsub ropp RT) DIV. Qed.
  Lemma evaluate_c_1346_ok : entry evaluate_c_1346.
  Proof. site_entry evaluate_c_1346 (vcaxpby3_ok rO rI radd rmul rsub ropp RT) DIV. Qed.
  Lemma evaluate_c_1450_ok : entry evaluate_c_1450.
  Proof. site_entry evaluate_c_1450 (vcaxpby3_ok rO rI radd rmul rsub ropp RT) DIV. Qed.
  Lemma evaluate_c_1541_ok : entry evaluate_c_1541.
  Proof. site_entry evaluate_c_1541 (vcaxmby3_ok rO rI radd rmul rsub ropp RT) DIV. Qed.
  Lemma evaluate_c_1634_ok : entry evaluate_c_1634.
  Proof. site_entry evaluate_c_1634 (vcaxmby3_ok rO rI radd rmul rsub ropp RT) DIV. Qed.
  Lemma evaluate_c_1732_ok : entry evaluate_c_1732.
  Proof. site_entry evaluate_c_1732 (vcaxmby3_ok rO rI radd rmul rsub ropp RT) DIV. Qed.
  Lemma evaluate_c_1836_ok : entry evaluate_c_1836.
  Proof. site_entry evaluate_c_1836 (vcaxmby3_ok rO rI radd rmul rsub ropp RT) DIV. Qed.
  Lemma evaluate_g_51_ok : entry evaluate_g_51.
  Proof. site_entry evaluate_g_51 (xpayz_g5ProjPlus_ok rO rI radd rmul rsub ropp RT) DIV. Qed.
  Lemma evaluate_g_118_ok : entry evaluate_g_118.
  Proof. site_entry evaluate_g_118 (xpayz_g5ProjMinus_ok rO rI radd rmul rsub ropp RT) DIV. Qed.
  Lemma evaluate_g_184_ok : entry evaluate_g_184.
  Proof. site_entry evaluate_g_184 (xmayz_g5ProjPlus_ok rO rI radd rmul rsub ropp RT) DIV. Qed.
  Lemma evaluate_g_248_ok : entry evaluate_g_248.
  Proof. site_entry evaluate_g_248 (xmayz_g5ProjMinus_ok rO rI radd rmul rsub ropp RT) DIV. Qed.
  Lemma evaluate_g_314_ok : entry evaluate_g_314.
  Proof. site_entry evaluate_g_314 (add_g5ProjPlus_ok rO rI radd rmul rsub ropp RT) DIV. Qed.
  Lemma evaluate_g_374_ok : entry evaluate_g_374.
  Proof. site_entry evaluate_g_374 (add_g5ProjMinus_ok rO rI radd rmul rsub ropp RT) DIV. Qed.
  Lemma evaluate_g_434_ok : entry evaluate_g_434.
  Proof. site_entry evaluate_g_434 (sub_g5ProjPlus_ok rO rI radd rmul rsub ropp RT) DIV. Qed.
  Lemma evaluate_g_493_ok : entry evaluate_g_493.
  Proof. site_entry evaluate_g_493 (sub_g5ProjMinus_ok rO rI radd rmul rsub ropp RT) DIV. Qed.
  Lemma evaluate_g_551_ok : entry evaluate_g_551.
  Proof. site_entry evaluate_g_551 (xpayz_g5ProjPlus_ok rO rI radd rmul rsub ropp RT) DIV. Qed.
  Lemma evaluate_g_639_ok : entry evaluate_g_639.
  Proof. site_entry evaluate_g_639 (xpayz_g5ProjMinus_ok rO rI radd rmul rsub ropp RT) DIV. Qed.
  Lemma evaluate_g_727_ok : entry evaluate_g_727.
  Proof. site_entry evaluate_g_727 (xmayz_g5ProjPlus_ok rO rI radd rmul rsub ropp RT) DIV. Qed.
  Lemma evaluate_g_815_ok : entry evaluate_g_815.
  Proof. site_entry evaluate_g_815 (xmayz_g5ProjMinus_ok rO rI radd rmul rsub ropp RT) DIV. Qed.
  Lemma evaluate_g_902_ok : entry evaluate_g_902.
  Proof. site_entry evaluate_g_902 (axpyz_g5ProjPlus_ok rO rI radd rmul rsub ropp RT) DIV. Qed.
  Lemma evaluate_g_985_ok : entry evaluate_g_985.
  Proof. site_entry evaluate_g_985 (axpyz_g5ProjMinus_ok rO rI radd rmul rsub ropp RT) DIV. Qed.
  Lemma evaluate_g_1070_ok : entry evaluate_g_1070.
  Proof. site_entry evaluate_g_1070 (axmyz_g5ProjPlus_ok rO rI radd rmul rsub ropp RT) DIV. Qed.
  Lemma evaluate_g_1155_ok : entry evaluate_g_1155.
  Proof. site_entry evaluate_g_1155 (axmyz_g5ProjMinus_ok rO rI radd rmul rsub ropp RT) DIV. Qed.
  Lemma evaluate_g_1237_ok : entry evaluate_g_1237.
  Proof. site_entry evaluate_g_1237 (scal_g5ProjPlus_ok rO rI radd rmul rsub ropp RT) DIV. Qed.
  Lemma evaluate_g_1303_ok : entry evaluate_g_1303.
  Proof. site_entry evaluate_g_1303 (scal_g5ProjMinus_ok rO rI radd rmul rsub ropp RT) DIV. Qed.
  Lemma evaluate_g_1368_ok : entry evaluate_g_1368.
  Proof. site_entry evaluate_g_1368 (axpbyz_g5ProjPlus_ok rO rI radd rmul rsub ropp RT) DIV. Qed.
  Lemma evaluate_g_1467_ok : entry evaluate_g_1467.
  Proof. site_entry evaluate_g_1467 (axpbyz_g5ProjMinus_ok rO rI radd rmul rsub ropp RT) DIV. Qed.
  Lemma evaluate_g_1564_ok : entry evaluate_g_1564.
  Proof. site_entry evaluate_g_1564 (axmbyz_g5ProjPlus_ok rO rI radd rmul rsub ropp RT) DIV. Qed.
  Lemma evaluate_g_1660_ok : entry evaluate_g_1660.
  Proof. site_entry evaluate_g_1660 (axmbyz_g5ProjMinus_ok rO rI radd rmul rsub ropp RT) DIV. Qed.
  Lemma evaluate_g_1755_ok : entry evaluate_g_1755.
  Proof. site_entry evaluate_g_1755 (scal_g5_ok rO rI radd rmul rsub ropp RT) DIV. Qed.
  Lemma evaluate_g_1837_ok : entry evaluate_g_1837.
  Proof. site_entry evaluate_g_1837 (xmayz_g5_ok rO rI radd rmul rsub ropp RT) DIV. Qed.
  Lemma evaluate_g_1933_ok : entry evaluate_g_1933.
  Proof. site_entry evaluate_g_1933 (axpbyz_g5_ok rO rI radd rmul rsub ropp RT) DIV. Qed.
  Lemma evaluate_g_2039_ok : entry evaluate_g_2039.
  Proof. site_entry evaluate_g_2039 (g5_axmbyz_ok rO rI radd rmul rsub ropp RT) DIV. Qed.
  Lemma evaluate_g_2144_ok : entry evaluate_g_2144.
  Proof. site_entry evaluate_g_2144 (axpbyz_ig5_ok rO rI radd rmul rsub ropp RT) DIV. Qed.
  Lemma evaluate_g_2262_ok : entry evaluate_g_2262.
  Proof. site_entry evaluate_g_2262 (axmbyz_ig5_ok rO rI radd rmul rsub ropp RT) DIV. Qed.
  Lemma evaluate_g_2380_ok : entry evaluate_g_2380.
  Proof. site_entry evaluate_g_2380 (xpayz_ig5_ok rO rI radd rmul rsub ropp RT) DIV. Qed.
  Lemma evaluate_g_2487_ok : entry evaluate_g_2487.
  Proof. site_entry evaluate_g_2487 (xmayz_ig5_ok rO rI radd rmul rsub ropp RT) DIV. Qed.
  Lemma evaluate_g_2598_ok : entry evaluate_g_2598.
  Proof. site_entry evaluate_g_2598 (xpayz_ig5_ok rO rI radd rmul rsub ropp RT) DIV. Qed.
  Lemma evaluate_g_2704_ok : entry evaluate_g_2704.
  Proof. site_entry evaluate_g_2704 (xmayz_ig5_ok rO rI radd rmul rsub ropp RT) DIV. Qed.

  Theorem specials_ok : Forall entry specials.
  Proof.
    unfold specials.
    apply Forall_cons; [exact evaluate_r_53_ok|].
    apply Forall_cons; [exact evaluate_r_116_ok|].
    apply Forall_cons; [exact evaluate_r_177_ok|].
    apply Forall_cons; [exact evaluate_r_258_ok|].
    apply Forall_cons; [exact evaluate_r_341_ok|].
    apply Forall_cons; [exact evaluate_r_418_ok|].
    apply Forall_cons; [exact evaluate_r_499_ok|].
    apply Forall_cons; [exact evaluate_r_567_ok|].
    apply Forall_cons; [exact evaluate_r_634_ok|].
    apply Forall_cons; [exact evaluate_r_718_ok|].
    apply Forall_cons; [exact evaluate_r_804_ok|].
    apply Forall_cons; [exact evaluate_r_883_ok|].
    apply Forall_cons; [exact evaluate_r_965_ok|].
    apply Forall_cons; [exact evaluate_r_1032_ok|].
    apply Forall_cons; [exact evaluate_r_1097_ok|].
    apply Forall_cons; [exact evaluate_r_1157_ok|].
    apply Forall_cons; [exact evaluate_r_1217_ok|].
    apply Forall_cons; [exact evaluate_r_1276_ok|].
    apply Forall_cons; [exact evaluate_r_1334_ok|].
    apply Forall_cons; [exact evaluate_r_1400_ok|].
    apply Forall_cons; [exact evaluate_r_1462_ok|].
    apply Forall_cons; [exact evaluate_r_1553_ok|].
    apply Forall_cons; [exact evaluate_r_1650_ok|].
    apply Forall_cons; [exact evaluate_r_1753_ok|].
    apply Forall_cons; [exact evaluate_r_1843_ok|].
    apply Forall_cons; [exact evaluate_r_1934_ok|].
    apply Forall_cons; [exact evaluate_r_2031_ok|].
    apply Forall_cons; [exact evaluate_r_2134_ok|].
    apply Forall_cons; [exact evaluate_c_29_ok|].
    apply Forall_cons; [exact evaluate_c_88_ok|].
    apply Forall_cons; [exact evaluate_c_155_ok|].
    apply Forall_cons; [exact evaluate_c_221_ok|].
    apply Forall_cons; [exact evaluate_c_285_ok|].
    apply Forall_cons; [exact evaluate_c_347_ok|].
    apply Forall_cons; [exact evaluate_c_413_ok|].
    apply Forall_cons; [exact evaluate_c_477_ok|].
    apply Forall_cons; [exact evaluate_c_560_ok|].
    apply Forall_cons; [exact evaluate_c_643_ok|].
    apply Forall_cons; [exact evaluate_c_725_ok|].
    apply Forall_cons; [exact evaluate_c_810_ok|].
    apply Forall_cons; [exact evaluate_c_894_ok|].
    apply Forall_cons; [exact evaluate_c_980_ok|].
    apply Forall_cons; [exact evaluate_c_1067_ok|].
    apply Forall_cons; [exact evaluate_c_1155_ok|].
    apply Forall_cons; [exact evaluate_c_1248_ok|].
    apply Forall_cons; [exact evaluate_c_1346_ok|].
    apply Forall_cons; [exact evaluate_c_1450_ok|].
    apply Forall_cons; [exact evaluate_c_1541_ok|].
    apply Forall_cons; [exact evaluate_c_1634_ok|].
    apply Forall_cons; [exact evaluate_c_1732_ok|].
    apply Forall_cons; [exact evaluate_c_1836_ok|].
    apply Forall_cons; [exact evaluate_g_51_ok|].
    apply Forall_cons; [exact evaluate_g_118_ok|].
    apply Forall_cons; [exact evaluate_g_184_ok|].
    apply Forall_cons; [exact evaluate_g_248_ok|].
    apply Forall_cons; [exact evaluate_g_314_ok|].
    apply Forall_cons; [exact evaluate_g_374_ok|].
    apply Forall_cons; [exact evaluate_g_434_ok|].
    apply Forall_cons; [exact evaluate_g_493_ok|].
    apply Forall_cons; [exact evaluate_g_551_ok|].
    apply Forall_cons; [exact evaluate_g_639_ok|].
    apply Forall_cons; [exact evaluate_g_727_ok|].
    apply Forall_cons; [exact evaluate_g_815_ok|].
    apply Forall_cons; [exact evaluate_g_902_ok|].
    apply Forall_cons; [exact evaluate_g_985_ok|].
    apply Forall_cons; [exact evaluate_g_1070_ok|].
    apply Forall_cons; [exact evaluate_g_1155_ok|].
    apply Forall_cons; [exact evaluate_g_1237_ok|].
    apply Forall_cons; [exact evaluate_g_1303_ok|].
    apply Forall_cons; [exact evaluate_g_1368_ok|].
    apply Forall_cons; [exact evaluate_g_1467_ok|].
    apply Forall_cons; [exact evaluate_g_1564_ok|].
    apply Forall_cons; [exact evaluate_g_1660_ok|].
    apply Forall_cons; [exact evaluate_g_1755_ok|].
    apply Forall_cons; [exact evaluate_g_1837_ok|].
    apply Forall_cons; [exact evaluate_g_1933_ok|].
    apply Forall_cons; [exact evaluate_g_2039_ok|].
    apply Forall_cons; [exact evaluate_g_2144_ok|].
    apply Forall_cons; [exact evaluate_g_2262_ok|].
    apply Forall_cons; [exact evaluate_g_2380_ok|].
    apply Forall_cons; [exact evaluate_g_2487_ok|].
    apply Forall_cons; [exact evaluate_g_2598_ok|].
    apply Forall_cons; [exact evaluate_g_2704_ok|].
    apply Forall_nil.
  Qed.
End Entries.
