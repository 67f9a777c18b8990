(** Proofs about NormModel.v. *)
From Coq Require Import ZArith String List Bool Lia Ring.
From Verif Require Import Base SetModel SetSpec SetProofs EvalSpec KernLang KernSpec KernBlas KernSums FuseModel FuseSpec NormModel NormSpec.
Import ListNotations.
Local Open Scope Z_scope.

Lemma sum_ext {R} (rO : R) radd (g h : Z -> R) k : (forall i, 0 <= i < Z.of_nat k -> g i = h i) -> sum rO radd g k = sum rO radd h k.
Proof. induction k as [|k IH]; intros H; [reflexivity|]. cbn [sum]. rewrite IH by (intros; apply H; lia). rewrite H by lia. reflexivity. Qed.

Lemma total_cons {A} (z : A) add a l : EvalSpec.total z add (a :: l) = add a (EvalSpec.total z add l).
Proof. reflexivity. Qed.

Section Proofs.
  Context {R : Type} (rO rI : R) (radd rmul rsub : R -> R -> R) (ropp : R -> R).
  Context (RT : ring_theory rO rI radd rmul rsub ropp eq).
  Add Ring R_ring : RT.
  Variables (la lb : nat) (junk : R).

  Section Reduce.
    Context {A : Type} (add : A -> A -> A) (zero : A) (CM : comm_monoid zero add).
    Variables (P : memory R -> Prop) (kern : Z -> Z -> memory R -> res (A * memory R)) (f : nat -> A) (V : nat).
    (** The kernel on a run of sites adds up [f] over them. *)
    Definition adds_up : Prop := forall i n m, (i + n <= V)%nat -> P m ->
      exists m', kern (Z.of_nat i) (Z.of_nat n) m = Val (EvalSpec.total zero add (map f (List.seq i n)), m') /\ P m'.
    Hypothesis K : adds_up.

    Lemma add_zero a : add a zero = a.
    Proof. rewrite (cm_comm _ _ CM). apply (cm_zero _ _ CM). Qed.

    Lemma site_loop_ok tab : forall acc m, Forall (fun i => (i < V)%nat) tab -> P m ->
      site_loop add (fun i => kern i 1) tab acc m = Val (add acc (EvalSpec.total zero add (map f tab))).
    Proof.
      induction tab as [|i r IH]; intros acc m Hb Hm; cbn [site_loop map EvalSpec.total fold_right].
      - now rewrite add_zero.
      - inversion Hb as [|? ? Hi Hr]; subst.
        destruct (K i 1%nat m ltac:(lia) Hm) as (m' & E & Hm'). change (Z.of_nat 1) with 1 in E. rewrite E. cbn [bind fst snd].
        rewrite (IH _ _ Hr Hm'). cbn [List.seq map EvalSpec.total fold_right]. rewrite add_zero, (cm_assoc _ _ CM). reflexivity.
    Qed.

    Lemma run_call s a b m : s_start s = Z.of_nat a -> s_end s = Z.of_nat b -> (a <= b)%nat -> s_table s = run_of a b ->
      (b < V)%nat -> P m ->
      exists m', kern (s_start s) (s_end s - s_start s + 1) m = Val (EvalSpec.total zero add (map f (s_table s)), m') /\ P m'.
    Proof.
      intros Ea Eb Hab Et Hb Hm. rewrite Ea, Eb, Et. unfold run_of.
      replace (Z.of_nat b - Z.of_nat a + 1) with (Z.of_nat (S b - a)) by lia. apply K; [lia|exact Hm].
    Qed.

    Lemma reduce_ok s m1 m2 : good_subset V s -> P m1 -> P m2 ->
      reduce add zero kern s m1 m2 = Val (EvalSpec.total zero add (map f (s_table s))).
    Proof.
      intros (Fl & ND & Bd) H1 H2. unfold reduce. destruct (s_ordRep s) eqn:Or.
      - destruct Fl as (_ & Fl & _). destruct (Fl Or) as (a & b & Hab & Ea & Eb & Et).
        assert (Hb : (b < V)%nat). { rewrite Forall_forall in Bd. apply Bd. rewrite Et. unfold run_of. apply in_seq. lia. }
        destruct (run_call s a b m1 Ea Eb Hab Et Hb H1) as (m' & E & _). rewrite E. reflexivity.
      - rewrite site_loop_ok by assumption. now rewrite (cm_zero _ _ CM).
    Qed.
  End Reduce.

  Lemma radd_cm : comm_monoid rO radd.
  Proof. constructor; intros; ring. Qed.
  Lemma cadd_cm : comm_monoid (rO, rO) (cadd radd).
  Proof. constructor; intros; unfold cadd; cbn [fst snd]; repeat match goal with a : (R * R)%type |- _ => destruct a end; cbn [fst snd]; f_equal; ring. Qed.

  (** ** Sums over a run of sites *)
  Lemma sum_app (g : Z -> R) a b : sum rO radd g (a + b) = radd (sum rO radd g a) (sum rO radd (fun i => g (Z.of_nat a + i)) b).
  Proof.
    induction b as [|b IH]; [rewrite Nat.add_0_r; cbn [sum]; ring|].
    replace (a + S b)%nat with (S (a + b)) by lia. cbn [sum]. rewrite IH, Nat2Z.inj_add. ring.
  Qed.

  (** [w] numbers per site. *)
  Lemma sum_sites (g : Z -> R) (w n : nat) : forall i,
    sum rO radd (fun j => g (Z.of_nat (w * i) + j)) (w * n) =
    EvalSpec.total rO radd (map (fun s => sum rO radd (fun j => g (Z.of_nat (w * s) + j)) w) (List.seq i n)).
  Proof.
    induction n as [|n IH]; intros i; [rewrite Nat.mul_0_r; reflexivity|].
    replace (w * S n)%nat with (w + w * n)%nat by lia. rewrite sum_app. cbn [List.seq map].
    rewrite total_cons, <- IH. f_equal. apply sum_ext. intros j _. f_equal. lia.
  Qed.

  (** ** The kernels *)
  Section Kernels.
    Variables (m0 : memory R) (x y : ptr) (V : nat).
    Hypotheses (Hx : has m0 x (24 * Z.of_nat V)) (Hy : has m0 y (24 * Z.of_nat V)).
    Hypotheses (Nxa : fst x <> la) (Nxb : fst x <> lb) (Nya : fst y <> la) (Nyb : fst y <> lb) (Nab : la <> lb).
    Let X := value rO m0 x.
    Let Y := value rO m0 y.
    Definition same (m : memory R) : Prop := forall b o, b <> la -> b <> lb -> m b o = m0 b o.
    Definition one (m : memory R) : Prop := same m /\ m la 0 <> None.
    Definition two (m : memory R) : Prop := same m /\ m la 0 <> None /\ m lb 0 <> None.

    Lemma cell_same m p i k : same m -> fst p <> la -> fst p <> lb -> cell m (at_site p i) k = cell m0 p (24 * i + k).
    Proof. intros S A B. unfold cell, at_site, forward. cbn [fst snd]. rewrite S by assumption. f_equal. lia. Qed.
    Lemma has_same m p (i n : nat) : same m -> fst p <> la -> fst p <> lb -> has m0 p (24 * Z.of_nat V) -> (i + n <= V)%nat ->
      has m (at_site p (Z.of_nat i)) (24 * Z.of_nat n).
    Proof. intros S A B H L k Hk. rewrite (cell_same m p _ k S A B). apply H. lia. Qed.
    Lemma value_same m p (i : nat) k : same m -> fst p <> la -> fst p <> lb ->
      value rO m (at_site p (Z.of_nat i)) k = value rO m0 p (24 * Z.of_nat i + k).
    Proof. intros S A B. unfold value. rewrite (cell_same m p _ k S A B). reflexivity. Qed.

    Ltac flat := unfold EvalSpec.total; cbn [map fold_right sum Nat.add Z.of_nat Pos.of_succ_nat Pos.succ Z.mul Z.add Pos.mul Pos.add Pos.add_carry Z.to_nat Pos.to_nat Pos.iter_op].

    (** From a kernel's specification to [adds_up]: outputs at the locals, [n] sites from site [i]. *)
    Lemma sumsq_adds : adds_up radd rO one (fun i n => sumsq_call rO radd rmul rsub ropp la (at_site x i) n) (site_norm rO radd rmul X) V.
    Proof.
      intros i n m L [S A].
      set (adr := fun q : string => if String.eqb q "Out" then (la, 0) else at_site x (Z.of_nat i)).
      destruct (local_sumsq_ok rO radd rmul rsub ropp m adr (Z.of_nat n)) as (m' & E & F & G).
      - lia.
      - intros q g [Q|[]]. injection Q as <- <-. intros k Hk. assert (k = 0) by lia. subst k. exact A.
      - intros q g q' g' [Q|[]] [Q'|[]]. congruence.
      - intros q [<-|[]]. apply (has_same m x i n S Nxa Nxb Hx L).
      - intros q r g [<-|[]] [Q|[]]. injection Q as <- <-. exact Nxa.
      - assert (E' : call rO radd rmul rsub ropp local_sumsq [("Out", (la, 0)); ("In", at_site x (Z.of_nat i))]%string
                       [("n_3vec"%string, Z.of_nat n)] m = Val m') by exact E.
        unfold sumsq_call. rewrite E'. cbn [bind].
        specialize (F "Out"%string _ (or_introl eq_refl)).
        assert (F' : m' la 0 = Some (sumsq rO radd rmul (value rO m (at_site x (Z.of_nat i))) (24 * Z.of_nat n))) by exact F.
        unfold load. cbn [fst snd]. rewrite F'. cbn [bind of_option].
        exists m'. split.
        + f_equal. f_equal. unfold sumsq.
          replace (Z.to_nat (24 * Z.of_nat n)) with (24 * n)%nat by lia.
          rewrite (sum_ext rO radd _ (fun j => (fun k => rmul (X k) (X k)) (Z.of_nat (24 * i) + j))).
          2: { intros j _. cbn beta. rewrite (value_same m x i j S Nxa Nxb). fold X. rewrite Nat2Z.inj_mul. reflexivity. }
          rewrite (sum_sites (fun k => rmul (X k) (X k)) 24 n i). f_equal. apply map_ext. intros s. unfold site_norm, site. rewrite Nat2Z.inj_mul. change (Z.of_nat 24) with 24.
          generalize (24 * Z.of_nat s). intros z. flat. ring.
        + split; [|congruence]. intros b o Ba Bb. rewrite G; [apply S; assumption|].
          intros q g [Q|[]]. injection Q as <- <-. intros [e _]. exact (Ba e).
    Qed.

    Lemma sum12 (f : Z -> R) : sum rO radd f 12 = EvalSpec.total rO radd (map f [0;1;2;3;4;5;6;7;8;9;10;11]).
    Proof. flat. ring. Qed.
    Lemma dot_total m i n (g : (Z -> R) -> (Z -> R) -> Z -> R) (h : nat -> R) : same m ->
      (forall x y x' y' c, (forall j, x j = x' j) -> (forall j, y j = y' j) -> g x y c = g x' y' c) ->
      (forall c, g X Y c = g X Y c) ->
      (forall s, h s = sum rO radd (fun c => g X Y (Z.of_nat (12 * s) + c)) 12) ->
      (forall x y i c, g (fun j => x (24 * i + j)) (fun j => y (24 * i + j)) c = g x y (12 * i + c)) ->
      sum rO radd (g (value rO m (at_site x (Z.of_nat i))) (value rO m (at_site y (Z.of_nat i)))) (Z.to_nat (12 * Z.of_nat n)) =
      EvalSpec.total rO radd (map h (List.seq i n)).
    Proof.
      intros S Ge _ Hh Gs. replace (Z.to_nat (12 * Z.of_nat n)) with (12 * n)%nat by lia.
      rewrite (sum_ext rO radd _ (fun c => g X Y (Z.of_nat (12 * i) + c))).
      - rewrite (sum_sites (g X Y) 12 n i). f_equal. apply map_ext. intros s. symmetry. apply Hh.
      - intros c _. rewrite (Ge _ _ (fun j => X (24 * Z.of_nat i + j)) (fun j => Y (24 * Z.of_nat i + j))).
        + rewrite Gs. f_equal. lia.
        + intros j. apply (value_same m x i j S Nxa Nxb).
        + intros j. apply (value_same m y i j S Nya Nyb).
    Qed.

    Let gre (x y : Z -> R) (j : Z) : R := radd (rmul (x (2 * j)) (y (2 * j))) (rmul (x (2 * j + 1)) (y (2 * j + 1))).
    Let gim (x y : Z -> R) (j : Z) : R := rsub (rmul (x (2 * j)) (y (2 * j + 1))) (rmul (x (2 * j + 1)) (y (2 * j))).

    Lemma re_total m i n : same m ->
      dot_re rO radd rmul (value rO m (at_site x (Z.of_nat i))) (value rO m (at_site y (Z.of_nat i))) (12 * Z.of_nat n) =
      EvalSpec.total rO radd (map (site_re rO radd rmul X Y) (List.seq i n)).
    Proof.
      intros S. apply (dot_total m i n gre); auto.
      - intros. unfold gre. congruence.
      - intros s. rewrite sum12. unfold site_re, site, gre. f_equal. apply map_ext. intros c. rewrite Nat2Z.inj_mul.
        change (Z.of_nat 12) with 12.
        replace (24 * Z.of_nat s + 2 * c) with (2 * (12 * Z.of_nat s + c)) by lia.
        replace (24 * Z.of_nat s + (2 * c + 1)) with (2 * (12 * Z.of_nat s + c) + 1) by lia. reflexivity.
      - intros. unfold gre. do 2 f_equal; f_equal; lia.
    Qed.
    Lemma im_total m i n : same m ->
      dot_im rO radd rmul rsub (value rO m (at_site x (Z.of_nat i))) (value rO m (at_site y (Z.of_nat i))) (12 * Z.of_nat n) =
      EvalSpec.total rO radd (map (site_im rO radd rmul rsub X Y) (List.seq i n)).
    Proof.
      intros S. apply (dot_total m i n gim); auto.
      - intros. unfold gim. congruence.
      - intros s. rewrite sum12. unfold site_im, site, gim. f_equal. apply map_ext. intros c. rewrite Nat2Z.inj_mul.
        change (Z.of_nat 12) with 12.
        replace (24 * Z.of_nat s + 2 * c) with (2 * (12 * Z.of_nat s + c)) by lia.
        replace (24 * Z.of_nat s + (2 * c + 1)) with (2 * (12 * Z.of_nat s + c) + 1) by lia. reflexivity.
      - intros. unfold gim. do 2 f_equal; f_equal; lia.
    Qed.

    Lemma vcdot_real_adds : adds_up radd rO one (fun i n => vcdot_real_call rO radd rmul rsub ropp la (at_site x i) (at_site y i) n)
      (site_re rO radd rmul X Y) V.
    Proof.
      intros i n m L [S A].
      set (adr := fun q : string => if String.eqb q "Out" then (la, 0)
                                    else if String.eqb q "V1" then at_site x (Z.of_nat i) else at_site y (Z.of_nat i)).
      destruct (l_vcdot_real_ok rO radd rmul rsub ropp m adr (Z.of_nat n)) as (m' & E & F & G).
      - lia.
      - intros q g [Q|[]]. injection Q as <- <-. intros k Hk. assert (k = 0) by lia. subst k. exact A.
      - intros q g q' g' [Q|[]] [Q'|[]]. congruence.
      - intros q [<-|[<-|[]]]; [apply (has_same m x i n S Nxa Nxb Hx L)|apply (has_same m y i n S Nya Nyb Hy L)].
      - intros q r g [<-|[<-|[]]] [Q|[]]; injection Q as <- <-; [exact Nxa|exact Nya].
      - assert (E' : call rO radd rmul rsub ropp l_vcdot_real
                       [("Out", (la, 0)); ("V1", at_site x (Z.of_nat i)); ("V2", at_site y (Z.of_nat i))]%string
                       [("n_3vec"%string, Z.of_nat n)] m = Val m') by exact E.
        unfold vcdot_real_call. rewrite E'. cbn [bind].
        specialize (F "Out"%string _ (or_introl eq_refl)).
        assert (F' : m' la 0 = Some (dot_re rO radd rmul (value rO m (at_site x (Z.of_nat i))) (value rO m (at_site y (Z.of_nat i))) (12 * Z.of_nat n)))
          by exact F.
        unfold load. cbn [fst snd]. rewrite F'. cbn [bind of_option].
        exists m'. split; [rewrite (re_total m i n S); reflexivity|].
        split; [|congruence]. intros b o Ba Bb. rewrite G; [apply S; assumption|].
        intros q g [Q|[]]. injection Q as <- <-. intros [e _]. exact (Ba e).
    Qed.

    Lemma total_pair l : EvalSpec.total (rO, rO) (cadd radd) (map (fun s => (site_re rO radd rmul X Y s, site_im rO radd rmul rsub X Y s)) l) =
      (EvalSpec.total rO radd (map (site_re rO radd rmul X Y) l), EvalSpec.total rO radd (map (site_im rO radd rmul rsub X Y) l)).
    Proof. induction l as [|a l IH]; [reflexivity|]. cbn [map]. rewrite !total_cons, IH. reflexivity. Qed.

    Lemma vcdot_adds : adds_up (cadd radd) (rO, rO) two (fun i n => vcdot_call rO radd rmul rsub ropp la lb (at_site x i) (at_site y i) n)
      (fun s => (site_re rO radd rmul X Y s, site_im rO radd rmul rsub X Y s)) V.
    Proof.
      intros i n m L (S & A & B).
      set (adr := fun q : string => if String.eqb q "Out_re" then (la, 0) else if String.eqb q "Out_im" then (lb, 0)
                                    else if String.eqb q "V1" then at_site x (Z.of_nat i) else at_site y (Z.of_nat i)).
      destruct (l_vcdot_ok rO radd rmul rsub ropp m adr (Z.of_nat n)) as (m' & E & F & G).
      - lia.
      - intros q g [Q|[Q|[]]]; injection Q as <- <-; intros k Hk; (assert (k = 0) by lia); subst k; [exact A|exact B].
      - intros q g q' g' [Q|[Q|[]]] [Q'|[Q'|[]]] Nq; injection Q as <- <-; injection Q' as <- <-; try congruence.
        + exact Nab.
        + intros e. apply Nab. symmetry. exact e.
      - intros q [<-|[<-|[]]]; [apply (has_same m x i n S Nxa Nxb Hx L)|apply (has_same m y i n S Nya Nyb Hy L)].
      - intros q r g [<-|[<-|[]]] [Q|[Q|[]]]; injection Q as <- <-; [exact Nxa|exact Nxb|exact Nya|exact Nyb].
      - assert (E' : call rO radd rmul rsub ropp l_vcdot
                       [("Out_re", (la, 0)); ("Out_im", (lb, 0)); ("V1", at_site x (Z.of_nat i)); ("V2", at_site y (Z.of_nat i))]%string
                       [("n_3vec"%string, Z.of_nat n)] m = Val m') by exact E.
        unfold vcdot_call. rewrite E'. cbn [bind].
        pose proof (F "Out_re"%string _ (or_introl eq_refl)) as F1.
        pose proof (F "Out_im"%string _ (or_intror (or_introl eq_refl))) as F2.
        assert (F1' : m' la 0 = Some (dot_re rO radd rmul (value rO m (at_site x (Z.of_nat i))) (value rO m (at_site y (Z.of_nat i))) (12 * Z.of_nat n)))
          by exact F1.
        assert (F2' : m' lb 0 = Some (dot_im rO radd rmul rsub (value rO m (at_site x (Z.of_nat i))) (value rO m (at_site y (Z.of_nat i))) (12 * Z.of_nat n)))
          by exact F2.
        unfold load. cbn [fst snd]. rewrite F1', F2'. cbn [bind of_option].
        exists m'. split; [rewrite total_pair, (re_total m i n S), (im_total m i n S); reflexivity|].
        split; [|split; congruence]. intros b o Ba Bb. rewrite G; [apply S; assumption|].
        intros q g [Q|[Q|[]]]; injection Q as <- <-; intros [e _]; [exact (Ba e)|exact (Bb e)].
    Qed.

    Lemma one_ok v : one (one_local la v m0).
    Proof. split; unfold one_local, poke.
      - intros b o Ba Bb. rewrite (proj2 (Nat.eqb_neq _ _) Ba). reflexivity.
      - rewrite Nat.eqb_refl. discriminate. Qed.
    Lemma one_again v m : one m -> one (one_local la v m).
    Proof. intros [S A]. split; unfold one_local, poke.
      - intros b o Ba Bb. rewrite (proj2 (Nat.eqb_neq _ _) Ba). apply S; assumption.
      - rewrite Nat.eqb_refl. discriminate. Qed.
    Lemma two_again v m : same m -> two (two_locals la lb v m).
    Proof. intros S. unfold two, two_locals, poke. split; [|split].
      - intros b o Ba Bb. rewrite (proj2 (Nat.eqb_neq _ _) Ba), (proj2 (Nat.eqb_neq _ _) Bb). apply S; assumption.
      - rewrite (proj2 (Nat.eqb_neq _ _) Nab), Nat.eqb_refl. discriminate.
      - rewrite Nat.eqb_refl. discriminate. Qed.
  End Kernels.
End Proofs.

(** ** All of it, node by node *)
Section Nodes.
  Context {R : Type} (rO rI : R) (radd rmul rsub : R -> R -> R) (ropp : R -> R).
  Context (RT : ring_theory rO rI radd rmul rsub ropp eq).
  Variables (la lb : nat) (junk : R).
  Notation X n := (value rO (n_mem n) (n_x n)).
  Notation Y n := (value rO (n_mem n) (n_y n)).

  Lemma norm2_node_ok n : node_ok la lb n ->
    norm2_node rO radd rmul rsub ropp la (n_x n) (n_sub n) (n_mem n) =
    Val (over rO radd (s_table (n_sub n)) (site_norm rO radd rmul (X n))).
  Proof.
    intros (G & Hx & Hy & A & B & C & D & N). unfold norm2_node, over.
    eapply reduce_ok with (P := one la lb (n_mem n)); try eassumption.
    - eapply radd_cm; eassumption.
    - eapply (sumsq_adds rO rI radd rmul rsub ropp RT la lb); eassumption.
    - apply one_ok.
    - apply one_ok.
  Qed.

  Lemma innerProductReal_node_ok n : node_ok la lb n ->
    innerProductReal_node rO radd rmul rsub ropp la junk (n_x n) (n_y n) (n_sub n) (n_mem n) =
    Val (over rO radd (s_table (n_sub n)) (site_re rO radd rmul (X n) (Y n))).
  Proof.
    intros (G & Hx & Hy & A & B & C & D & N). unfold innerProductReal_node, over.
    eapply reduce_ok with (P := one la lb (n_mem n)); try eassumption.
    - eapply radd_cm; eassumption.
    - eapply (vcdot_real_adds rO rI radd rmul rsub ropp RT la lb); eassumption.
    - apply one_ok.
    - apply one_ok.
  Qed.

  Lemma innerProduct_node_ok n : node_ok la lb n ->
    innerProduct_node rO radd rmul rsub ropp la lb junk (n_x n) (n_y n) (n_sub n) (n_mem n) =
    Val (over rO radd (s_table (n_sub n)) (site_re rO radd rmul (X n) (Y n)),
         over rO radd (s_table (n_sub n)) (site_im rO radd rmul rsub (X n) (Y n))).
  Proof.
    intros (G & Hx & Hy & A & B & C & D & N). unfold innerProduct_node, over.
    rewrite <- total_pair.
    eapply reduce_ok with (P := two la lb (n_mem n)); try eassumption.
    - eapply cadd_cm; eassumption.
    - eapply (vcdot_adds rO rI radd rmul rsub ropp RT la lb); eassumption.
    - apply two_again; [exact N|]. intros b o _ _. reflexivity.
    - apply two_again; [exact N|]. intros b o _ _. reflexivity.
  Qed.

  (** The subset [all] of a node with at least one site. *)
  Lemma all_run V s : good_subset V s -> (0 < V)%nat -> s_table s = List.seq 0 V ->
    s_start s = 0 /\ s_end s = Z.of_nat V - 1.
  Proof.
    intros ((F1 & F2 & _) & _) HV E.
    assert (Or : s_ordRep s = true) by (apply F1; exists 0%nat, (V - 1)%nat; rewrite E; f_equal; lia).
    destruct (F2 Or) as (a & b & Hab & Ea & Eb & Et). rewrite E in Et. unfold run_of in Et.
    assert (L : V = (S b - a)%nat) by (rewrite <- (seq_length V 0), Et, seq_length; reflexivity).
    destruct V as [|V]; [lia|]. rewrite <- L in Et. cbn [List.seq] in Et. injection Et as Ea' _. lia.
  Qed.

  Lemma all_call_ok {A} (add : A -> A -> A) zero (P : memory R -> Prop) kern f V s m :
    adds_up add zero P kern f V -> good_subset V s -> (0 < V)%nat -> s_table s = List.seq 0 V -> P m ->
    exists m', all_call kern s m = Val (EvalSpec.total zero add (map f (s_table s)), m') /\ P m'.
  Proof.
    intros K G HV E Hm. destruct (all_run V s G HV E) as [Es Ee]. unfold all_call. rewrite Es, Ee, E.
    replace (Z.of_nat V - 1 - 0 + 1) with (Z.of_nat V) by lia. apply (K 0%nat V m); [lia|exact Hm].
  Qed.

  Definition is_all (n : @node R) : Prop := (0 < n_vol n)%nat /\ s_table (n_sub n) = List.seq 0 (n_vol n).

  Lemma norm2_all_ok n : node_ok la lb n -> is_all n ->
    norm2_all rO radd rmul rsub ropp la (n_x n) (n_sub n) (n_mem n) =
    Val (over rO radd (s_table (n_sub n)) (site_norm rO radd rmul (X n))).
  Proof.
    intros (G & Hx & Hy & A & B & C & D & N) [HV E]. unfold norm2_all, over.
    edestruct (all_call_ok radd rO (one la lb (n_mem n))) as (m' & E' & _);
      [eapply (sumsq_adds rO rI radd rmul rsub ropp RT la lb (n_mem n) (n_x n) (n_y n)); eassumption|eassumption..|apply one_ok|].
    rewrite E'. reflexivity.
  Qed.
  Lemma innerProductReal_all_ok n : node_ok la lb n -> is_all n ->
    innerProductReal_all rO radd rmul rsub ropp la (n_x n) (n_y n) (n_sub n) (n_mem n) =
    Val (over rO radd (s_table (n_sub n)) (site_re rO radd rmul (X n) (Y n))).
  Proof.
    intros (G & Hx & Hy & A & B & C & D & N) [HV E]. unfold innerProductReal_all, over.
    edestruct (all_call_ok radd rO (one la lb (n_mem n))) as (m' & E' & _);
      [eapply (vcdot_real_adds rO rI radd rmul rsub ropp RT la lb (n_mem n) (n_x n) (n_y n)); eassumption|eassumption..|apply one_ok|].
    rewrite E'. reflexivity.
  Qed.
  Lemma innerProduct_all_ok n : node_ok la lb n -> is_all n ->
    innerProduct_all rO radd rmul rsub ropp la lb (n_x n) (n_y n) (n_sub n) (n_mem n) =
    Val (over rO radd (s_table (n_sub n)) (site_re rO radd rmul (X n) (Y n)),
         over rO radd (s_table (n_sub n)) (site_im rO radd rmul rsub (X n) (Y n))).
  Proof.
    intros (G & Hx & Hy & A & B & C & D & N) [HV E]. unfold innerProduct_all, over.
    edestruct (all_call_ok (cadd radd) (rO, rO) (two la lb (n_mem n))) as (m' & E' & _);
      [eapply (vcdot_adds rO rI radd rmul rsub ropp RT la lb (n_mem n) (n_x n) (n_y n)); eassumption|eassumption..
      |apply (two_again la lb (n_mem n)); [exact N|intros b o _ _; reflexivity]|].
    rewrite E'. cbn [bind fst]. rewrite total_pair. reflexivity.
  Qed.

  (** ** Arrays of fields *)
  Lemma array_loop_ok {A} (add : A -> A -> A) zero (CM : comm_monoid zero add) (P : memory R -> Prop) kern (v : nat -> A) ks :
    (forall k m, In k ks -> P m -> exists m', kern k m = Val (v k, m') /\ P m') ->
    forall acc m, P m -> array_loop add kern ks acc m = Val (add acc (EvalSpec.total zero add (map v ks))).
  Proof.
    induction ks as [|k r IH]; intros K acc m Hm; cbn [array_loop map].
    - unfold EvalSpec.total. cbn [fold_right]. rewrite (cm_comm _ _ CM), (cm_zero _ _ CM). reflexivity.
    - destruct (K k m (or_introl eq_refl) Hm) as (m' & E & Hm'). rewrite E. cbn [bind fst snd].
      rewrite IH with (m := m'); [|intros; apply K; [right|]; assumption|exact Hm'].
      rewrite total_cons, (cm_assoc _ _ CM). reflexivity.
  Qed.

  Lemma map_nth_seq {B} (f : ptr -> B) (d : ptr) xs : map (fun k => f (nth k xs d)) (List.seq 0 (List.length xs)) = map f xs.
  Proof.
    induction xs as [|x xs IH]; [reflexivity|]. cbn [List.length List.seq map nth]. f_equal.
    rewrite <- seq_shift, map_map. exact IH.
  Qed.
  Lemma map_nth_seq2 {B} (f : ptr -> ptr -> B) (d : ptr) xs : forall ys, List.length ys = List.length xs ->
    map (fun k => f (nth k xs d) (nth k ys d)) (List.seq 0 (List.length xs)) = map (fun p => f (fst p) (snd p)) (combine xs ys).
  Proof.
    induction xs as [|x xs IH]; intros [|y ys] L; try discriminate; [reflexivity|].
    cbn [List.length List.seq map nth combine fst snd]. f_equal. rewrite <- seq_shift, map_map. apply IH. now injection L.
  Qed.

  Variables (m0 : memory R) (V : nat) (s : subset).
  Hypotheses (G : good_subset V s) (HV : (0 < V)%nat) (Es : s_table s = List.seq 0 V) (Nab : la <> lb).
  Definition field_ok (x : ptr) : Prop := has m0 x (24 * Z.of_nat V) /\ fst x <> la /\ fst x <> lb.

  Lemma norm2_array_ok xs : Forall field_ok xs ->
    norm2_array rO radd rmul rsub ropp la junk xs s m0 =
    Val (EvalSpec.total rO radd (map (fun x => over rO radd (s_table s) (site_norm rO radd rmul (value rO m0 x))) xs)).
  Proof.
    intros H. unfold norm2_array. rewrite Forall_forall in H.
    rewrite (array_loop_ok radd rO (radd_cm rO rI radd rmul rsub ropp RT) (same la lb m0) _
      (fun k => over rO radd (s_table s) (site_norm rO radd rmul (value rO m0 (nth k xs (0%nat, 0)))))).
    - rewrite (cm_zero _ _ (radd_cm rO rI radd rmul rsub ropp RT)).
      rewrite (map_nth_seq (fun x => over rO radd (s_table s) (site_norm rO radd rmul (value rO m0 x)))). reflexivity.
    - intros k m Hk S. apply in_seq in Hk.
      assert (Ik : In (nth k xs (0%nat, 0)) xs) by (apply nth_In; lia). destruct (H _ Ik) as (Hx & Na & Nb).
      rewrite (nth_error_nth' xs (0%nat, 0)) by lia. cbn [bind of_option].
      edestruct (all_call_ok radd rO (one la lb m0)) as (m' & E & [S' _]);
        [eapply (sumsq_adds rO rI radd rmul rsub ropp RT la lb m0 (nth k xs (0%nat, 0)) (nth k xs (0%nat, 0))); eassumption
        |eassumption..| |].
      + assert (O : one la lb m0 (one_local la junk m)); [|exact O]. split.
        * intros b o Ba Bb. unfold one_local, poke. rewrite (proj2 (Nat.eqb_neq _ _) Ba). apply S; assumption.
        * unfold one_local, poke. rewrite Nat.eqb_refl. discriminate.
      + exists m'. split; [exact E|exact S'].
    - intros b o _ _. reflexivity.
  Qed.

  Lemma innerProductReal_array_ok xs ys : Forall field_ok xs -> Forall field_ok ys -> List.length ys = List.length xs ->
    innerProductReal_array rO radd rmul rsub ropp la xs ys s m0 =
    Val (EvalSpec.total rO radd (map (fun p => over rO radd (s_table s) (site_re rO radd rmul (value rO m0 (fst p)) (value rO m0 (snd p)))) (combine xs ys))).
  Proof.
    intros H H2 L. unfold innerProductReal_array. rewrite Forall_forall in H, H2.
    rewrite (array_loop_ok radd rO (radd_cm rO rI radd rmul rsub ropp RT) (same la lb m0) _
      (fun k => over rO radd (s_table s) (site_re rO radd rmul (value rO m0 (nth k xs (0%nat, 0))) (value rO m0 (nth k ys (0%nat, 0)))))).
    - rewrite (cm_zero _ _ (radd_cm rO rI radd rmul rsub ropp RT)).
      rewrite (map_nth_seq2 (fun x y => over rO radd (s_table s) (site_re rO radd rmul (value rO m0 x) (value rO m0 y)))) by exact L. reflexivity.
    - intros k m Hk S. apply in_seq in Hk.
      assert (Ik : In (nth k xs (0%nat, 0)) xs) by (apply nth_In; lia). destruct (H _ Ik) as (Hx & Na & Nb).
      assert (Jk : In (nth k ys (0%nat, 0)) ys) by (apply nth_In; lia). destruct (H2 _ Jk) as (Hy & Na2 & Nb2).
      rewrite (nth_error_nth' xs (0%nat, 0)), (nth_error_nth' ys (0%nat, 0)) by lia. cbn [bind of_option].
      edestruct (all_call_ok radd rO (one la lb m0)) as (m' & E & [S' _]);
        [eapply (vcdot_real_adds rO rI radd rmul rsub ropp RT la lb m0 (nth k xs (0%nat, 0)) (nth k ys (0%nat, 0))); eassumption
        |eassumption..| |].
      + assert (O : one la lb m0 (one_local la rO m)); [|exact O]. split.
        * intros b o Ba Bb. unfold one_local, poke. rewrite (proj2 (Nat.eqb_neq _ _) Ba). apply S; assumption.
        * unfold one_local, poke. rewrite Nat.eqb_refl. discriminate.
      + exists m'. split; [exact E|exact S'].
    - intros b o _ _. reflexivity.
  Qed.

  Lemma innerProduct_array_ok xs ys : Forall field_ok xs -> Forall field_ok ys -> List.length ys = List.length xs ->
    innerProduct_array rO radd rmul rsub ropp la lb xs ys s m0 =
    Val (EvalSpec.total rO radd (map (fun p => over rO radd (s_table s) (site_re rO radd rmul (value rO m0 (fst p)) (value rO m0 (snd p)))) (combine xs ys)),
         EvalSpec.total rO radd (map (fun p => over rO radd (s_table s) (site_im rO radd rmul rsub (value rO m0 (fst p)) (value rO m0 (snd p)))) (combine xs ys))).
  Proof.
    intros H H2 L. unfold innerProduct_array. rewrite Forall_forall in H, H2.
    rewrite (array_loop_ok (cadd radd) (rO, rO) (cadd_cm rO rI radd rmul rsub ropp RT) (same la lb m0) _
      (fun k => (over rO radd (s_table s) (site_re rO radd rmul (value rO m0 (nth k xs (0%nat, 0))) (value rO m0 (nth k ys (0%nat, 0)))),
                 over rO radd (s_table s) (site_im rO radd rmul rsub (value rO m0 (nth k xs (0%nat, 0))) (value rO m0 (nth k ys (0%nat, 0))))))).
    - rewrite (cm_zero _ _ (cadd_cm rO rI radd rmul rsub ropp RT)).
      rewrite (map_nth_seq2 (fun x y => (over rO radd (s_table s) (site_re rO radd rmul (value rO m0 x) (value rO m0 y)),
                                         over rO radd (s_table s) (site_im rO radd rmul rsub (value rO m0 x) (value rO m0 y))))) by exact L.
      f_equal. induction (combine xs ys) as [|p l IH]; [reflexivity|]. cbn [map]. rewrite !total_cons, IH. reflexivity.
    - intros k m Hk S. apply in_seq in Hk.
      assert (Ik : In (nth k xs (0%nat, 0)) xs) by (apply nth_In; lia). destruct (H _ Ik) as (Hx & Na & Nb).
      assert (Jk : In (nth k ys (0%nat, 0)) ys) by (apply nth_In; lia). destruct (H2 _ Jk) as (Hy & Na2 & Nb2).
      rewrite (nth_error_nth' xs (0%nat, 0)), (nth_error_nth' ys (0%nat, 0)) by lia. cbn [bind of_option].
      edestruct (all_call_ok (cadd radd) (rO, rO) (two la lb m0)) as (m' & E & [S' _]);
        [eapply (vcdot_adds rO rI radd rmul rsub ropp RT la lb m0 (nth k xs (0%nat, 0)) (nth k ys (0%nat, 0))); eassumption
        |eassumption..|apply (two_again la lb m0 Nab rO m); exact S|].
      exists m'. split; [|exact S']. unfold over. rewrite E, total_pair. reflexivity.
    - intros b o _ _. reflexivity.
  Qed.
End Nodes.
