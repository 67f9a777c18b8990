(** The spin projection and reconstruction kernels. *)
From Coq Require Import ZArith List String Bool Lia Ring.
From Verif Require Import Base GammaModel GammaSpec KernLang KernSym KernSound KernSpec KernRun KernSpin KernVec.
Import ListNotations.
Local Open Scope string_scope.
Local Open Scope Z_scope.

Lemma lval_div k n c a m : (a mod m =? 0) && (0 <? m) = true ->
  lval k n (Lin c a 0) / m = a / m * k + c / m.
Proof.
  rewrite andb_true_iff, Z.eqb_eq, Z.ltb_lt. intros [A M]. unfold lval; cbn [c0 ck cn].
  rewrite (Z.div_mod a m) at 1 by lia. rewrite A.
  replace (c + (m * (a / m) + 0) * k + 0 * n) with (c + (a / m * k) * m) by ring.
  rewrite Z.div_add by lia. ring.
Qed.
Lemma index_lval k n a c : a * k + c = lval k n (Lin c a 0).
Proof. unfold lval; cbn [c0 ck cn]. ring. Qed.

Section Half.
  Context {R : Type} (rO rI : R) (radd rmul rsub : R -> R -> R) (ropp : R -> R).
  Context (RT : ring_theory rO rI radd rmul rsub ropp eq).
  Add Ring R_ring : RT.
  Notation O := (rcomplex_ops rO radd rsub ropp).

  Definition spin_check (c : stmt) (tmp : string) (ltmp li lo : Z) : option vcs :=
    let params := ["src"; "dst"; tmp] in
    do (s, v) <- sexec [] [] c (start params [("n_vec", Lin 0 0 1)] ["dst"] [tmp]);
    do (s0, v0) <- sexec [] [] c (start params [("n_vec", lconst 0)] ["dst"] [tmp]);
    if list_eqb (fun a b => String.eqb (fst a) (fst b) && lin_eqb (snd a) (snd b)) (sw s) [("dst", Lin 0 0 lo)]
       && list_eqb (fun a b => String.eqb (fst a) (fst b) && lin_eqb (snd a) (snd b)) (sw s0) [("dst", lconst 0)]
       && negb (String.eqb tmp "src") && negb (String.eqb tmp "dst")
       && (names_ok params ["dst"] [tmp] []
           && accesses_ok [("src", Lin 0 0 li); ("dst", Lin 0 0 lo); (tmp, lconst ltmp)] v && forallb (closed_vc params) v)
       && (names_ok params ["dst"] [tmp] []
           && accesses_ok [("src", lconst 0); ("dst", lconst 0); (tmp, lconst ltmp)] v0 && forallb (closed_vc params) v0)
       && forallb (fun p => negb (is_value p)) v0
    then Some (filter is_value v) else None.

  Theorem spin_run : forall c tmp ltmp li lo (g : (string -> @vec R) -> @vec R) v,
    spin_check c tmp ltmp li lo = Some v ->
    (forall X n, 1 <= n -> Forall (value_ok rO radd rmul rsub ropp X (fun _ => g X) (fun _ _ => rO) n) v) ->
    forall (m : memory R) (src dst t : ptr) (n : Z),
      0 <= n -> has m src (li * n) -> has m dst (lo * n) -> has m t ltmp ->
      apart src dst -> apart t src -> apart t dst ->
      exists m' (X : string -> @vec R),
        X "src" = value rO m src /\ X "dst" = value rO m dst /\
        call rO radd rmul rsub ropp c [("src", src); ("dst", dst); (tmp, t)] [("n_vec", n)] m = Val m' /\
        (forall i, 0 <= i < lo * n -> cell m' dst i = Some (g X i)) /\
        (forall b o, b <> fst t -> ~ (b = fst dst /\ snd dst <= o < snd dst + lo * n) -> m' b o = m b o).
  Proof.
    intros c tmp ltmp li lo g v E HV m src dst t n Hn Hs Hd Ht Hsd Hts Htd.
    unfold spin_check in E. dob E. destruct p as [s v1]. dob E. destruct p as [s0 v0].
    match type of E with (if ?b then _ else _) = _ => destruct b eqn:B; [|discriminate] end. inv E.
    rewrite !andb_true_iff in B. destruct B as [[[[[[W W0] T1] T2] B1] B0] Hv0].
    rewrite <- !andb_true_iff in B1, B0. apply sw_eqb in W, W0.
    rewrite negb_true_iff in T1, T2. apply String.eqb_neq in T1, T2.
    set (adr := fun x => if String.eqb x "src" then src else if String.eqb x "dst" then dst else t).
    assert (At : adr tmp = t).
    { unfold adr. destruct (String.eqb_spec tmp "src"); [contradiction|].
      destruct (String.eqb_spec tmp "dst"); [contradiction|reflexivity]. }
    set (X := fun x => value rO m (adr x)).
    assert (Hal : forall r q, In r ["src"; "dst"; tmp] -> In q ["dst"] -> r <> q -> ~ In r [tmp] ->
              apart (adr r) (adr q) \/ (In (r, q) [] /\ adr r = adr q)).
    { intros r q [<-|[<-|[<-|[]]]] [<-|[]] N N'; [left; exact Hsd|congruence|destruct N'; now left]. }
    assert (Hsc : forall l r, In l [tmp] -> In r ["src"; "dst"; tmp] -> r <> l -> apart (adr l) (adr r)).
    { intros l r [<-|[]] Ir N. rewrite At. destruct Ir as [<-|[<-|[<-|[]]]]; [exact Hts|exact Htd|congruence]. }
    assert (Hcall : map (fun x => (x, adr x)) ["src"; "dst"; tmp] = [("src", src); ("dst", dst); (tmp, t)]).
    { cbn [map]. rewrite At. reflexivity. }
    destruct (Z.eq_dec n 0) as [->|Hn0].
    - destruct (run_values rO radd rmul rsub ropp c ["src"; "dst"; tmp] "n_vec" (lconst 0) ["dst"] [tmp] [] [] s0 v0
                  [("src", lconst 0); ("dst", lconst 0); (tmp, lconst ltmp)] m adr 1
                  (fun _ => g X) (fun _ _ => rO)) as (m' & C1 & C2 & C3).
      + lia.
      + exact E1.
      + exact B0.
      + intros p l [I|[I|[I|[]]]]; injection I as <- <-; rewrite lval_const; try (intros i; lia).
        now rewrite At.
      + exact Hal.
      + exact Hsc.
      + replace (filter is_value v0) with (@nil (option lin * vc)); [constructor|].
        clear - Hv0. induction v0 as [|p v0 IH]; cbn in *; [reflexivity|].
        apply andb_true_iff in Hv0 as [A B]. rewrite negb_true_iff in A. rewrite A. auto.
      + rewrite W0, Hcall in *. exists m', X. do 2 (split; [reflexivity|]). split; [exact C1|]. split.
        * intros i Hi. lia.
        * intros b o Nb N. apply C3.
          -- intros q w [I|[]]. injection I as <- <-. rewrite lval_const. intros [-> D]. lia.
          -- intros l [<-|[]] _. now rewrite At.
    - destruct (run_values rO radd rmul rsub ropp c ["src"; "dst"; tmp] "n_vec" (Lin 0 0 1) ["dst"] [tmp] [] [] s v1
                  [("src", Lin 0 0 li); ("dst", Lin 0 0 lo); (tmp, lconst ltmp)] m adr n
                  (fun _ => g X) (fun _ _ => rO)) as (m' & C1 & C2 & C3).
      + lia.
      + exact E0.
      + exact B1.
      + assert (L : forall z, lval 0 n (Lin 0 0 z) = z * n) by (intros z; unfold lval; cbn [c0 ck cn]; lia).
        intros p l [I|[I|[I|[]]]]; injection I as <- <-; rewrite ?lval_const, ?L, ?At; assumption.
      + exact Hal.
      + exact Hsc.
      + apply HV. lia.
      + assert (L : forall z, lval 0 n (Lin 0 0 z) = z * n) by (intros z; unfold lval; cbn [c0 ck cn]; lia).
        rewrite W, Hcall in *. rewrite L, Z.mul_1_l in C1.
        exists m', X. do 2 (split; [reflexivity|]). split; [exact C1|]. split.
        * intros i Hi. apply (C2 "dst" (Lin 0 0 lo) i); [now left|]. now rewrite L.
        * intros b o Nb N. apply C3.
          -- intros q w [I|[]]. injection I as <- <-. rewrite L. exact N.
          -- intros l [<-|[]] _. now rewrite At.
  Qed.

  (** Element [i] of the result. *)
  Definition part (r : Z) (z : R * R) : R := if r =? 0 then fst z else snd z.
  Definition proj_elem (mu s : Z) (x : @vec R) (i : Z) : R :=
    match spinProject O (spinor x (i / 12) (i mod 6 / 2)) mu s with
    | Val h => part (i mod 2) (if i mod 12 <? 6 then fst h else snd h)
    | _ => rO
    end.
  Definition recon_elem (mu s : Z) (x : @vec R) (i : Z) : R :=
    match spinReconstruct O (half_spinor x (i / 24) (i mod 6 / 2)) mu s with
    | Val w => part (i mod 2) (el w (Z.to_nat (i mod 24 / 6)))
    | _ => rO
    end.

  Lemma proj_back mu s n x y :
    (mu = 0 \/ mu = 1 \/ mu = 2 \/ mu = 3) -> (s = 1 \/ s = -1) ->
    (forall i, 0 <= i < 12 * n -> y i = proj_elem mu s x i) ->
    forall site col, 0 <= site < n -> 0 <= col < 3 ->
      spinProject O (spinor x site col) mu s = Val (half_spinor y site col).
  Proof.
    intros Hmu Hs H site col Hsite Hcol.
    assert (Y : forall c, 0 <= c < 12 -> y (12 * site + c) = proj_elem mu s x (12 * site + c)) by (intros; apply H; lia).
    assert (exists h, spinProject O (spinor x site col) mu s = Val h) as [h Eh].
    { destruct Hmu as [->|[->|[->| ->]]], Hs as [->| ->]; eexists; reflexivity. }
    rewrite Eh. f_equal. unfold half_spinor.
    assert (col = 0 \/ col = 1 \/ col = 2) as [->|[->| ->]] by lia;
      rewrite !Y by lia; unfold proj_elem; rewrite !(index_lval site n);
      rewrite !lval_mod, !lval_div by reflexivity; cbn -[spinProject]; rewrite !Z.add_0_r;
      replace (match site with 0 => 0 | Z.pos y' => Z.pos y' | Z.neg y' => Z.neg y' end) with site by (now destruct site);
      rewrite Eh; now destruct h as [[? ?] [? ?]].
  Qed.

  Lemma recon_back mu s n x y :
    (mu = 0 \/ mu = 1 \/ mu = 2 \/ mu = 3) -> (s = 1 \/ s = -1) ->
    (forall i, 0 <= i < 24 * n -> y i = recon_elem mu s x i) ->
    forall site col, 0 <= site < n -> 0 <= col < 3 ->
      spinReconstruct O (half_spinor x site col) mu s = Val (spinor y site col).
  Proof.
    intros Hmu Hs H site col Hsite Hcol.
    assert (Y : forall c, 0 <= c < 24 -> y (24 * site + c) = recon_elem mu s x (24 * site + c)) by (intros; apply H; lia).
    assert (exists h, spinReconstruct O (half_spinor x site col) mu s = Val h) as [h Eh].
    { destruct Hmu as [->|[->|[->| ->]]], Hs as [->| ->]; eexists; reflexivity. }
    rewrite Eh. f_equal. unfold spinor.
    assert (col = 0 \/ col = 1 \/ col = 2) as [->|[->| ->]] by lia;
      rewrite !Y by lia; unfold recon_elem; rewrite !(index_lval site n);
      rewrite !lval_mod, !lval_div by reflexivity; cbn -[spinReconstruct]; rewrite !Z.add_0_r;
      replace (match site with 0 => 0 | Z.pos y' => Z.pos y' | Z.neg y' => Z.neg y' end) with site by (now destruct site);
      rewrite Eh; now destruct h as [[? ?] [? ?] [? ?] [? ?]].
  Qed.

  Lemma recon_add_back mu s n x y y' :
    (mu = 0 \/ mu = 1 \/ mu = 2 \/ mu = 3) -> (s = 1 \/ s = -1) ->
    (forall i, 0 <= i < 24 * n -> y' i = radd (y i) (recon_elem mu s x i)) ->
    forall site col, 0 <= site < n -> 0 <= col < 3 ->
      exists w, spinReconstruct O (half_spinor x site col) mu s = Val w /\
                spinor y' site col = vmap2 (e_add O) (spinor y site col) w.
  Proof.
    intros Hmu Hs H site col Hsite Hcol. exists (spinor (recon_elem mu s x) site col). split.
    - apply (recon_back mu s n); auto.
    - unfold spinor, vmap2. cbn [e_add q0 q1 q2 q3 rcomplex_ops fst snd el].
      rewrite !H by lia. reflexivity.
  Qed.

  Ltac consts :=
    repeat match goal with
    | |- context [Z.modulo (Zpos ?a) (Zpos ?b)] =>
        let r := eval vm_compute in (Z.modulo (Zpos a) (Zpos b)) in change (Z.modulo (Zpos a) (Zpos b)) with r
    | |- context [Z.modulo 0 (Zpos ?b)] => change (Z.modulo 0 (Zpos b)) with 0
    | |- context [Z.div (Zpos ?a) (Zpos ?b)] =>
        let r := eval vm_compute in (Z.div (Zpos a) (Zpos b)) in change (Z.div (Zpos a) (Zpos b)) with r
    | |- context [Z.div 0 (Zpos ?b)] => change (Z.div 0 (Zpos b)) with 0
    | |- context [Z.ltb ?a ?b] => let r := eval vm_compute in (Z.ltb a b) in change (Z.ltb a b) with r
    | |- context [Z.eqb ?a ?b] => let r := eval vm_compute in (Z.eqb a b) in change (Z.eqb a b) with r
    | |- context [Z.mul (Zpos ?a) (Zpos ?b)] =>
        let r := eval vm_compute in (Z.mul (Zpos a) (Zpos b)) in change (Z.mul (Zpos a) (Zpos b)) with r
    | |- context [Z.mul (Zpos ?a) 0] => change (Z.mul (Zpos a) 0) with 0
    | |- context [Z.add (Zpos ?a) (Zpos ?b)] =>
        let r := eval vm_compute in (Z.add (Zpos a) (Zpos b)) in change (Z.add (Zpos a) (Zpos b)) with r
    | |- context [Z.add 0 (Zpos ?b)] => change (Z.add 0 (Zpos b)) with (Zpos b)
    | |- context [Z.add (Zpos ?b) 0] => change (Z.add (Zpos b) 0) with (Zpos b)
    | |- context [Z.to_nat (Zpos ?a)] => let r := eval vm_compute in (Z.to_nat (Zpos a)) in change (Z.to_nat (Zpos a)) with r
    | |- context [Z.add 0 0] => change (Z.add 0 0) with 0
    end.

  Ltac spin_value :=
    unfold proj_elem, recon_elem, spinor, half_spinor;
    match goal with |- context [lval ?j ?n _] =>
      rewrite ?lval_mod, ?lval_div by reflexivity; consts; rewrite ?(Z.mul_1_l j), ?(Z.add_0_r j);
      rewrite ?(index_lval j n)
    end;
    cbn -[lval]; ring.
  Lemma project_ok mu s c v :
    (mu = 0 \/ mu = 1 \/ mu = 2 \/ mu = 3) -> (s = 1 \/ s = -1) ->
    spin_check c "tmp_spinor" 24 24 12 = Some v ->
    (forall X n, 1 <= n -> Forall (value_ok rO radd rmul rsub ropp X (fun _ => (fun X : string -> @vec R => proj_elem mu s (X "src")) X) (fun _ _ => rO) n) v) ->
    projects rO radd rmul rsub ropp mu s c.
  Proof.
    intros Hmu Hsg E HV m src dst t n Hn Hs Hd Ht Hsd Hts Htd.
    destruct (spin_run c _ _ _ _ (fun X : string -> @vec R => proj_elem mu s (X "src")) v E HV m src dst t n Hn Hs Hd Ht Hsd Hts Htd)
      as (m' & X & Xs & Xd & C1 & C2 & C3).
    exists m'. split; [exact C1|]. split; [intros i Hi; rewrite (C2 i Hi); discriminate|].
    split; [|exact C3]. apply (proj_back mu s n); auto.
    intros i Hi. unfold value at 1. rewrite (C2 i Hi), ?Xs, ?Xd. reflexivity.
  Qed.
  Lemma reconstruct_ok mu s c v :
    (mu = 0 \/ mu = 1 \/ mu = 2 \/ mu = 3) -> (s = 1 \/ s = -1) ->
    spin_check c "tmp_hspinor" 12 12 24 = Some v ->
    (forall X n, 1 <= n -> Forall (value_ok rO radd rmul rsub ropp X (fun _ => (fun X : string -> @vec R => recon_elem mu s (X "src")) X) (fun _ _ => rO) n) v) ->
    reconstructs rO radd rmul rsub ropp mu s c.
  Proof.
    intros Hmu Hsg E HV m src dst t n Hn Hs Hd Ht Hsd Hts Htd.
    destruct (spin_run c _ _ _ _ (fun X : string -> @vec R => recon_elem mu s (X "src")) v E HV m src dst t n Hn Hs Hd Ht Hsd Hts Htd)
      as (m' & X & Xs & Xd & C1 & C2 & C3).
    exists m'. split; [exact C1|]. split; [intros i Hi; rewrite (C2 i Hi); discriminate|].
    split; [|exact C3]. apply (recon_back mu s n); auto.
    intros i Hi. unfold value at 1. rewrite (C2 i Hi), ?Xs, ?Xd. reflexivity.
  Qed.
  Lemma add_reconstruct_ok mu s c v :
    (mu = 0 \/ mu = 1 \/ mu = 2 \/ mu = 3) -> (s = 1 \/ s = -1) ->
    spin_check c "tmp_hspinor" 12 12 24 = Some v ->
    (forall X n, 1 <= n -> Forall (value_ok rO radd rmul rsub ropp X (fun _ => (fun (X : string -> @vec R) i => radd (X "dst" i) (recon_elem mu s (X "src") i)) X) (fun _ _ => rO) n) v) ->
    adds_reconstruction rO radd rmul rsub ropp mu s c.
  Proof.
    intros Hmu Hsg E HV m src dst t n Hn Hs Hd Ht Hsd Hts Htd.
    destruct (spin_run c _ _ _ _ (fun (X : string -> @vec R) i => radd (X "dst" i) (recon_elem mu s (X "src") i)) v E HV m src dst t n Hn Hs Hd Ht Hsd Hts Htd)
      as (m' & X & Xs & Xd & C1 & C2 & C3).
    exists m'. split; [exact C1|]. split; [intros i Hi; rewrite (C2 i Hi); discriminate|].
    split; [|exact C3]. apply (recon_add_back mu s n); auto.
    intros i Hi. unfold value at 1. rewrite (C2 i Hi), ?Xs, ?Xd. reflexivity.
  Qed.

  Ltac spin_with L tmp lt li lo :=
    match goal with
    | |- _ ?c =>
        let r := eval vm_compute in (spin_check c tmp lt li lo) in
        match r with
        | Some ?l =>
            apply L with (v := l);
            [ auto | auto | vm_cast_no_check (eq_refl (Some l)) | intros X0 n0 Hn0; each ltac:(spin_value) ]
        end
    end.
  Ltac project := spin_with project_ok "tmp_spinor" 24 24 12.
  Ltac reconstruct := spin_with reconstruct_ok "tmp_hspinor" 12 12 24.
  Ltac add_reconstruct := spin_with add_reconstruct_ok "tmp_hspinor" 12 12 24.

  Lemma inlineSpinProjDir0Plus_ok : projects rO radd rmul rsub ropp 0 1 inlineSpinProjDir0Plus.
  Proof. project. Qed.
  Lemma inlineSpinReconDir0Plus_ok : reconstructs rO radd rmul rsub ropp 0 1 inlineSpinReconDir0Plus.
  Proof. reconstruct. Qed.
  Lemma inlineAddSpinReconDir0Plus_ok : adds_reconstruction rO radd rmul rsub ropp 0 1 inlineAddSpinReconDir0Plus.
  Proof. add_reconstruct. Qed.
  Lemma inlineSpinProjDir0Minus_ok : projects rO radd rmul rsub ropp 0 (-1) inlineSpinProjDir0Minus.
  Proof. project. Qed.
  Lemma inlineSpinReconDir0Minus_ok : reconstructs rO radd rmul rsub ropp 0 (-1) inlineSpinReconDir0Minus.
  Proof. reconstruct. Qed.
  Lemma inlineAddSpinReconDir0Minus_ok : adds_reconstruction rO radd rmul rsub ropp 0 (-1) inlineAddSpinReconDir0Minus.
  Proof. add_reconstruct. Qed.
  Lemma inlineSpinProjDir1Plus_ok : projects rO radd rmul rsub ropp 1 1 inlineSpinProjDir1Plus.
  Proof. project. Qed.
  Lemma inlineSpinReconDir1Plus_ok : reconstructs rO radd rmul rsub ropp 1 1 inlineSpinReconDir1Plus.
  Proof. reconstruct. Qed.
  Lemma inlineAddSpinReconDir1Plus_ok : adds_reconstruction rO radd rmul rsub ropp 1 1 inlineAddSpinReconDir1Plus.
  Proof. add_reconstruct. Qed.
  Lemma inlineSpinProjDir1Minus_ok : projects rO radd rmul rsub ropp 1 (-1) inlineSpinProjDir1Minus.
  Proof. project. Qed.
  Lemma inlineSpinReconDir1Minus_ok : reconstructs rO radd rmul rsub ropp 1 (-1) inlineSpinReconDir1Minus.
  Proof. reconstruct. Qed.
  Lemma inlineAddSpinReconDir1Minus_ok : adds_reconstruction rO radd rmul rsub ropp 1 (-1) inlineAddSpinReconDir1Minus.
  Proof. add_reconstruct. Qed.
  Lemma inlineSpinProjDir2Plus_ok : projects rO radd rmul rsub ropp 2 1 inlineSpinProjDir2Plus.
  Proof. project. Qed.
  Lemma inlineSpinReconDir2Plus_ok : reconstructs rO radd rmul rsub ropp 2 1 inlineSpinReconDir2Plus.
  Proof. reconstruct. Qed.
  Lemma inlineAddSpinReconDir2Plus_ok : adds_reconstruction rO radd rmul rsub ropp 2 1 inlineAddSpinReconDir2Plus.
  Proof. add_reconstruct. Qed.
  Lemma inlineSpinProjDir2Minus_ok : projects rO radd rmul rsub ropp 2 (-1) inlineSpinProjDir2Minus.
  Proof. project. Qed.
  Lemma inlineSpinReconDir2Minus_ok : reconstructs rO radd rmul rsub ropp 2 (-1) inlineSpinReconDir2Minus.
  Proof. reconstruct. Qed.
  Lemma inlineAddSpinReconDir2Minus_ok : adds_reconstruction rO radd rmul rsub ropp 2 (-1) inlineAddSpinReconDir2Minus.
  Proof. add_reconstruct. Qed.
  Lemma inlineSpinProjDir3Plus_ok : projects rO radd rmul rsub ropp 3 1 inlineSpinProjDir3Plus.
  Proof. project. Qed.
  Lemma inlineSpinReconDir3Plus_ok : reconstructs rO radd rmul rsub ropp 3 1 inlineSpinReconDir3Plus.
  Proof. reconstruct. Qed.
  Lemma inlineAddSpinReconDir3Plus_ok : adds_reconstruction rO radd rmul rsub ropp 3 1 inlineAddSpinReconDir3Plus.
  Proof. add_reconstruct. Qed.
  Lemma inlineSpinProjDir3Minus_ok : projects rO radd rmul rsub ropp 3 (-1) inlineSpinProjDir3Minus.
  Proof. project. Qed.
  Lemma inlineSpinReconDir3Minus_ok : reconstructs rO radd rmul rsub ropp 3 (-1) inlineSpinReconDir3Minus.
  Proof. reconstruct. Qed.
  Lemma inlineAddSpinReconDir3Minus_ok : adds_reconstruction rO radd rmul rsub ropp 3 (-1) inlineAddSpinReconDir3Minus.
  Proof. add_reconstruct. Qed.
End Half.
