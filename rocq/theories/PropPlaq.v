(** C106: the plaquette and the link of a gauge field. *)
From Coq Require Import List Arith ZArith Bool Lia Ring Ring_theory Permutation Setoid Morphisms.
From Verif Require Import Base ComplexModel PropComplex LayoutModel LayoutSpec LayoutProofs LayoutOk LayoutCases LayoutInt MapModel MapSpec MapProofs MapNN
  TensorModel TensorSpec TensorProofs LatIoModel LatIoSpec LatIoProofs LatIoOk IoNodeProofs PlaqModel PlaqSpec PlaqProofs.
Import ListNotations.
Local Open Scope nat_scope.

(** The number that is computed as an int before the division. *)
Definition divisor (L : list nat) (nc : nat) : Z :=
  (Z.of_nat (volume L) * Z.of_nat (length L) * (Z.of_nat (length L) - 1) * Z.of_nat nc)%Z.
Definition divisor_link (L : list nat) (nc : nat) : Z := (Z.of_nat (volume L) * Z.of_nat (length L) * Z.of_nat nc)%Z.

Section P.
Context {R : Type} (rO rI : R) (radd rmul rsub rdiv : R -> R -> R) (ropp : R -> R) (ofZ : Z -> R).
Context (Rth : ring_theory rO rI radd rmul rsub ropp (@eq R)).
Local Notation cx := (R * R)%type.
Local Notation cmul := (c_mul radd rmul rsub).
Local Notation rsum := (rsum rO radd).
Local Notation csum := (csum rO radd).
Local Notation cs := (TensorSpec.csum rO radd).
Local Notation mmul := (mmul rO radd rmul rsub).
Local Notation madj := (madj ropp).
Local Notation mtr := (mtr rO radd).
Local Notation plaquette := (plaquette rO radd rmul rsub ropp).
Local Notation link_trace := (link_trace rO radd).
Local Notation mesplq := (mesplq rO radd rmul rsub rdiv ropp ofZ).
Local Notation W x := (Sv (Sv (Rv x))).
Add Ring Rrq : Rth.
Add Ring Crq : (cring rO rI radd rmul rsub ropp Rth).

Lemma plaquette_trace n L (u : @gauge R) mu nu x : plaquette n L u mu nu x =
  fst (mtr n (mmul n (u mu x) (mmul n (mmul n (u nu (ahead L mu x)) (madj (u mu (ahead L nu x)))) (madj (u nu x))))).
Proof using All.
  unfold PlaqSpec.plaquette. f_equal. rewrite (csum_cs rO rI radd rmul rsub ropp Rth). unfold PlaqProofs.mtr, PlaqProofs.mmul, PlaqProofs.madj.
  apply (csum_ext rO rI radd rmul rsub ropp Rth). intros i _. rewrite (csum_cs rO rI radd rmul rsub ropp Rth).
  apply (csum_ext rO rI radd rmul rsub ropp Rth). intros j _. rewrite (csum_cs rO rI radd rmul rsub ropp Rth).
  rewrite <- (csum_mul_l rO rI radd rmul rsub ropp Rth).
  rewrite (csum_ext rO rI radd rmul rsub ropp Rth (seq 0 n) _ (fun k => cs (seq 0 n) (fun l =>
    cmul (cmul (cmul (u mu x i j) (u nu (ahead L mu x) j k)) (c_conj ropp (u mu (ahead L nu x) l k))) (c_conj ropp (u nu x i l)))))
    by (intros; now rewrite (csum_cs rO rI radd rmul rsub ropp Rth)).
  rewrite (csum_swap rO rI radd rmul rsub ropp Rth). apply (csum_ext rO rI radd rmul rsub ropp Rth). intros l _.
  rewrite <- (csum_mul_r rO rI radd rmul rsub ropp Rth), <- (csum_mul_l rO rI radd rmul rsub ropp Rth).
  apply (csum_ext rO rI radd rmul rsub ropp Rth). intros k _. ring.
Qed.

Lemma link_ok b n (u : @gauge R) mu : mu < length (build_size b) ->
  link (as_fields b n u) mu = Val (stored_all (lay_of b) (fun x => Sv (Mv Colour n (fun i j => Cv (u mu x i j))))).
Proof.
  intros H. unfold link, as_fields. rewrite nth_error_map, (nth_error_nth' _ 0) by (now rewrite seq_length).
  rewrite seq_nth by exact H. reflexivity.
Qed.
Lemma plane_ok b n (u : @gauge R) mu nu : build_ok b -> 0 < n -> mu < length (build_size b) -> nu < length (build_size b) ->
  plane rO radd rmul rsub ropp b (as_fields b n u) mu nu = Val (W (rsum (all_sites (build_size b)) (plaquette n (build_size b) u mu nu))).
Proof using All.
  intros HB Hn Hm Hv. unfold plane. rewrite !link_ok by assumption. cbn [bind].
  rewrite !(pshift_ok rO rI radd rmul rsub ropp Rth) by assumption. cbn [bind]. rewrite ?(each1_stored rO rI radd rmul rsub ropp Rth), ?(each2_stored rO rI radd rmul rsub ropp Rth), ?(each1_stored rO rI radd rmul rsub ropp Rth), ?(each2_stored rO rI radd rmul rsub ropp Rth), ?(each1_stored rO rI radd rmul rsub ropp Rth).
  pose proof (build_layout rO rI radd rmul rsub ropp Rth b HB) as Hl. f_equal.
  rewrite (stored_all_ext (lay_of b) _ (fun x => W (plaquette n (build_size b) u mu nu x)) Hl);
    [exact (psum_stored rO rI radd rmul rsub ropp Rth _ _ Hl)|].
  intros c _. cbv beta. rewrite plaquette_trace. apply (isM_trace rO rI radd rmul rsub ropp Rth n Hn).
  repeat (first [apply (isM_mul rO rI radd rmul rsub ropp Rth n Hn)|apply (isM_adj rO rI radd rmul rsub ropp Rth n Hn)|apply (isM_own rO rI radd rmul rsub ropp Rth n Hn)]).
Qed.
Lemma total_ok {A} (f : A -> res (@val R)) (h : A -> R) l r : (forall a, In a l -> f a = Val (W (h a))) ->
  total radd f l (W r) = Val (W (radd r (rsum l h))).
Proof using All.
  revert r. induction l as [|a l IH]; intros r H; cbn [total].
  - do 4 f_equal. change (r = radd r rO). ring.
  - rewrite H by now left. cbn [bind vadd]. rewrite IH by (intros; apply H; now right).
    change (rsum (a :: l) h) with (radd (h a) (rsum l h)). do 4 f_equal. ring.
Qed.
Lemma planes_sum nd (h : nat -> nat -> R) : 0 < nd ->
  rsum (planes nd) (fun p => h (fst p) (snd p)) = rsum (seq 0 nd) (fun mu => rsum (seq 0 mu) (h mu)).
Proof using All.
  intros H. unfold planes. rewrite (rsum_flat rO rI radd rmul rsub ropp Rth).
  destruct nd as [|d]; [lia|]. rewrite Nat.sub_succ, Nat.sub_0_r. cbn [seq].
  change (rsum (0 :: seq 1 d) (fun mu => rsum (seq 0 mu) (h mu))) with (radd rO (rsum (seq 1 d) (fun mu => rsum (seq 0 mu) (h mu)))).
  rewrite (rsum_ext rO rI radd rmul rsub ropp Rth (seq 1 d) _ (fun mu => rsum (seq 0 mu) (h mu))); [ring|].
  intros mu _. rewrite (rsum_map rO rI radd rmul rsub ropp Rth). reflexivity.
Qed.

Lemma int_in z : (0 <= z < 2 ^ 31)%Z -> int z = Val z.
Proof. intros H. unfold int. replace (_ && _)%bool with true; [reflexivity|]. symmetry. apply andb_true_iff. split; [apply Z.leb_le|apply Z.ltb_lt]; lia. Qed.
Lemma int_out z : (2 ^ 31 <= z)%Z -> int z = Undef.
Proof. intros H. unfold int. replace (z <? 2 ^ 31)%Z with false by (symmetry; apply Z.ltb_ge; lia). now rewrite andb_false_r. Qed.

Lemma int_cases z : int z = Val z \/ int z = Undef.
Proof. unfold int. destruct (_ && _)%bool; auto. Qed.

Lemma plaq_total b n (u : @gauge R) : build_ok b -> 0 < n ->
  total radd (fun p => plane rO radd rmul rsub ropp b (as_fields b n u) (fst p) (snd p)) (planes (length (build_size b))) (zero_val rO)
  = Val (W (plaquettes rO radd rmul rsub ropp n (build_size b) u)).
Proof using All.
  intros HB Hn. unfold zero_val.
  rewrite (total_ok _ (fun p => rsum (all_sites (build_size b)) (plaquette n (build_size b) u (fst p) (snd p)))).
  - rewrite (planes_sum _ (fun mu nu => rsum (all_sites (build_size b)) (plaquette n (build_size b) u mu nu)))
      by (destruct (build_layout rO rI radd rmul rsub ropp Rth b HB); assumption).
    do 4 f_equal. unfold plaquettes. ring.
  - intros [mu nu] I. unfold planes in I. apply in_flat_map in I as (m & Im & I). apply in_map_iff in I as (v & E & Iv).
    injection E as -> ->. apply in_seq in Im, Iv. apply plane_ok; cbn [fst snd]; auto; lia.
Qed.

(** In every build, the numbers are the sums over all sites and all pairs of
    directions, with the NERSC normalisation. *)
Theorem C106_value : forall b n (u : @gauge R), build_ok b -> 0 < n -> 2 <= length (build_size b) ->
  (divisor (build_size b) n < 2 ^ 31)%Z ->
  mesplq b n (as_fields b n u)
  = Val (rmul (plaquettes rO radd rmul rsub ropp n (build_size b) u) (rdiv (ofZ 2%Z) (ofZ (divisor (build_size b) n))),
         rdiv (links rO radd n (build_size b) u) (ofZ (divisor_link (build_size b) n))).
Proof using All.
  intros b n u HB Hn H2 HD. unfold PlaqModel.mesplq. rewrite plaq_total by assumption. cbn [bind word].
  unfold divisor, divisor_link in *. rewrite (vol_volume (build_size b)).
  assert (0 < volume (build_size b)) as HV by (apply volume_pos; destruct (build_layout rO rI radd rmul rsub ropp Rth b HB) as (_ & P & _); exact P).
  unfold product. cbn [fold_left bind].
  set (v := Z.of_nat (volume (build_size b))) in *. set (d := Z.of_nat (length (build_size b))) in *. set (m := Z.of_nat n) in *.
  assert (1 <= v /\ 2 <= d /\ 1 <= m)%Z as (Hv & Hd & Hm) by lia.
  assert (1 <= v * d)%Z by nia. assert (v * d <= v * d * (d - 1))%Z by nia.
  assert (v * d * (d - 1) <= v * d * (d - 1) * m)%Z by nia. assert (v * d * m <= v * d * (d - 1) * m)%Z by nia.
  rewrite (int_in (v * d)) by lia. cbn [bind]. rewrite (int_in (v * d * (d - 1))) by lia. cbn [bind].
  rewrite (int_in (v * d * (d - 1) * m)) by lia. cbn [bind].
  rewrite (int_in (v * d * m)) by (split; [nia|lia]). unfold zero_val at 1.
  rewrite (total_ok _ (fun mu => rsum (all_sites (build_size b)) (link_trace n u mu))).
  - cbn [bind word]. do 3 f_equal. unfold links. ring.
  - intros mu I. apply in_seq in I. rewrite link_ok by lia. cbn [bind]. rewrite !(each1_stored rO rI radd rmul rsub ropp Rth). f_equal.
    pose proof (build_layout rO rI radd rmul rsub ropp Rth b HB) as Hl.
    rewrite (stored_all_ext (lay_of b) _ (fun x => W (link_trace n u mu x)) Hl);
      [exact (psum_stored rO rI radd rmul rsub ropp Rth _ _ Hl)|].
    intros c _. cbv beta. unfold PlaqSpec.link_trace. rewrite (csum_cs rO rI radd rmul rsub ropp Rth).
    apply (isM_trace rO rI radd rmul rsub ropp Rth n Hn), (isM_own rO rI radd rmul rsub ropp Rth n Hn).
Qed.

(** The plaquette is the same for all fields related by a gauge transformation. *)
Theorem C106_gauge_invariant : forall b n (u : @gauge R) g, build_ok b -> 0 < n -> 2 <= length (build_size b) ->
  (divisor (build_size b) n < 2 ^ 31)%Z ->
  (forall x, in_lattice (build_size b) x -> unitary rO rI radd rmul rsub ropp n (g x)) ->
  exists w l l', mesplq b n (as_fields b n u) = Val (w, l) /\
    mesplq b n (as_fields b n (transformed rO radd rmul rsub ropp n (build_size b) g u)) = Val (w, l').
Proof using All.
  intros b n u g HB Hn H2 HD HU. rewrite !C106_value by assumption. do 3 eexists. split; [reflexivity|].
  f_equal. f_equal. f_equal. unfold plaquettes.
  apply (rsum_ext rO rI radd rmul rsub ropp Rth). intros mu Im. apply (rsum_ext rO rI radd rmul rsub ropp Rth). intros nu Iv.
  apply (rsum_ext rO rI radd rmul rsub ropp Rth). intros x Ix. apply all_sites_in in Ix. apply in_seq in Im, Iv.
  rewrite !plaquette_trace.
  set (L := build_size b) in *.
  assert (forall y, in_lattice L y -> meq n (mmul n (madj (g y)) (g y)) (mone rO rI)) as U.
  { intros y Hy i j Hi Hj. unfold PlaqProofs.mmul, PlaqProofs.madj, mone. rewrite <- (HU y Hy i j Hi Hj).
    now rewrite (csum_cs rO rI radd rmul rsub ropp Rth). }
  assert (forall m y, meq n (transformed rO radd rmul rsub ropp n L g u m y) (mmul n (mmul n (g y) (u m y)) (madj (g (ahead L m y))))) as T.
  { intros m y i j Hi Hj. unfold transformed, PlaqProofs.mmul, PlaqProofs.madj. rewrite (csum_cs rO rI radd rmul rsub ropp Rth).
    rewrite (csum_ext rO rI radd rmul rsub ropp Rth (seq 0 n) _ (fun k => cs (seq 0 n) (fun l => cmul (cmul (g y i k) (u m y k l)) (c_conj ropp (g (ahead L m y) j l)))))
      by (intros; now rewrite (csum_cs rO rI radd rmul rsub ropp Rth)).
    rewrite (csum_swap rO rI radd rmul rsub ropp Rth). apply (csum_ext rO rI radd rmul rsub ropp Rth). intros l _.
    now rewrite <- (csum_mul_r rO rI radd rmul rsub ropp Rth). }
  assert (ahead L nu (ahead L mu x) = ahead L mu (ahead L nu x)) as C by (unfold ahead; apply step_comm; [exact Ix|lia|lia]).
  assert (forall m, in_lattice L (ahead L m x)) as I1 by (intros m; apply step_in; exact Ix).
  assert (in_lattice L (ahead L mu (ahead L nu x))) as I2 by (apply step_in, I1).
  symmetry.
  rewrite <- (gauge_trace rO rI radd rmul rsub ropp Rth n Hn (g x) (g (ahead L mu x)) (g (ahead L nu x)) (g (ahead L mu (ahead L nu x)))) by auto.
  symmetry. f_equal. apply (mtr_p rO rI radd rmul rsub ropp Rth n Hn).
  pose proof (mmul_p rO rI radd rmul rsub ropp Rth n Hn) as MP. pose proof (madj_p rO rI radd rmul rsub ropp Rth n Hn) as AP.
  apply MP; [apply T|]. apply MP; [apply MP|].
  - rewrite <- C. apply T.
  - apply AP, T.
  - apply AP, T.
Qed.

(** When the product for the normalisation leaves int, the program is undefined. *)
Theorem C106_overflow : forall b n (u : @gauge R), build_ok b -> 0 < n -> 2 <= length (build_size b) ->
  (2 ^ 31 <= divisor (build_size b) n)%Z -> mesplq b n (as_fields b n u) = Undef.
Proof using All.
  intros b n u HB Hn H2 HD. unfold PlaqModel.mesplq. rewrite plaq_total by assumption. cbn [bind word].
  unfold divisor in *. rewrite (vol_volume (build_size b)). unfold product. cbn [fold_left bind].
  set (v := Z.of_nat (volume (build_size b))) in *. set (d := Z.of_nat (length (build_size b))) in *. set (m := Z.of_nat n) in *.
  destruct (int_cases (v * d)) as [E|E]; rewrite E; cbn [bind]; [|reflexivity].
  destruct (int_cases (v * d * (d - 1))) as [E'|E']; rewrite E'; cbn [bind]; [|reflexivity].
  rewrite int_out by exact HD. reflexivity.
Qed.
End P.
Print Assumptions C106_value.
Print Assumptions C106_gauge_invariant.
Print Assumptions C106_overflow.

(** FALSE for large lattices: with Nc = 3 and four dimensions, 64^3 x 256 has
    2^26 sites, which fits an int, but the product does not. *)
Theorem C106_large_refuted : exists L, adm1 LEXICO L /\ length L = 4 /\ (Z.of_nat (volume L) < 2 ^ 31)%Z /\
  forall u : @gauge Z, mesplq 0%Z Z.add Z.mul Z.sub Z.div Z.opp (fun z => z) (Single LEXICO L) 3 (as_fields (Single LEXICO L) 3 u) = Undef.
Proof.
  exists [64; 64; 64; 256].
  assert (V : Z.of_nat (volume [64; 64; 64; 256]) = 67108864%Z) by (cbn [volume]; rewrite !Nat2Z.inj_mul; reflexivity).
  assert (A : adm1 LEXICO [64; 64; 64; 256]) by (apply adm1_case; reflexivity).
  split; [exact A|]. split; [reflexivity|]. split; [rewrite V; reflexivity|].
  intros u. apply (C106_overflow 0%Z 1%Z Z.add Z.mul Z.sub Z.div Z.opp (fun z => z) InitialRing.Zth); [exact A|lia|cbn; lia|].
  unfold divisor. cbn [build_size lay_of scalar_layout l_size]. rewrite V. cbn [length]. lia.
Qed.
Print Assumptions C106_large_refuted.

(** Concrete cases: a 4 x 2 checkerboard lattice and two nodes, matrices of
    integers; rdiv shows the divisor. *)
Definition demo : @gauge Z := fun mu x i j => (Z.of_nat (mu + get x 0 * i + 1), Z.of_nat (get x 1 + j))%Z.
Definition turn (x : list nat) (i j : nat) : Z * Z :=
  if Nat.even (get x 0) then (if i =? j then (0%Z, 1%Z) else (0%Z, 0%Z)) else (if i =? j then (0%Z, 0%Z) else (1%Z, 0%Z)).
Example C106_case :
  build_ok (Single CB2 [4; 2]) /\ build_ok (Multi false LEXICO (lex_machine [2; 1]) [4; 2]) /\
  (divisor [4; 2]%nat 2%nat < 2 ^ 31)%Z /\
  (forall x, unitary 0%Z 1%Z Z.add Z.mul Z.sub Z.opp 2 (turn x)) /\
  mesplq 0%Z Z.add Z.mul Z.sub (fun a b => a * 1000000 + b)%Z Z.opp (fun z => z) (Single CB2 [4; 2]) 2 (as_fields (Single CB2 [4; 2]) 2 demo)
  = mesplq 0%Z Z.add Z.mul Z.sub (fun a b => a * 1000000 + b)%Z Z.opp (fun z => z) (Multi false LEXICO (lex_machine [2; 1]) [4; 2]) 2
      (as_fields (Multi false LEXICO (lex_machine [2; 1]) [4; 2]) 2 (transformed 0%Z Z.add Z.mul Z.sub Z.opp 2 [4; 2] (fun _ i j => if i =? j then (1, 0)%Z else (0, 0)%Z) demo)) /\
  plaquettes 0%Z Z.add Z.mul Z.sub Z.opp 2 [4; 2] demo
  = plaquettes 0%Z Z.add Z.mul Z.sub Z.opp 2 [4; 2] (transformed 0%Z Z.add Z.mul Z.sub Z.opp 2 [4; 2] turn demo) /\
  plaquettes 0%Z Z.add Z.mul Z.sub Z.opp 2 [4; 2] demo <> 0%Z.
Proof.
  split; [apply adm1_case; reflexivity|]. split; [apply admP_case; reflexivity|]. split; [reflexivity|]. split.
  - intros x i j Hi Hj. unfold turn. destruct (Nat.even (get x 0)); destruct i as [|[|]], j as [|[|]]; try lia; reflexivity.
  - split; [vm_compute; reflexivity|]. split; [vm_compute; reflexivity|vm_compute; discriminate].
Qed.
