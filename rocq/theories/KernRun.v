(** From an accepted symbolic run to a whole call of a kernel. *)
From Coq Require Import ZArith List String Bool Lia.
From Verif Require Import Base KernLang KernSym KernSound KernSpec.
Import ListNotations.
Local Open Scope Z_scope.

(** Non-negative for every [n >= 1]. *)
Definition nonneg (l : lin) : bool := (ck l =? 0) && (0 <=? cn l) && (0 <=? c0 l + cn l).

(** Is the access inside its array of [len] reals, for every round and every [n >= 1]? *)
Definition in_range (t : option lin) (o len : lin) : bool :=
  match t with
  | None => nonneg (Lin (c0 o) 0 (cn o)) && nonneg (lsub (lsub len (Lin (c0 o) 0 (cn o))) (lconst 1))
  | Some K => (ck K =? 0) && (0 <=? ck o) && nonneg (Lin (c0 o) 0 (cn o)) &&
              nonneg (lsub (lsub len (subst (lsub K (lconst 1)) o)) (lconst 1))
  end && (ck len =? 0).

Definition accesses_ok (lims : list (string * lin)) (v : vcs) : bool :=
  forallb (fun p => match snd p with
                    | Acc r o => match get r lims with Some l => in_range (fst p) o l | None => false end
                    | _ => true
                    end) v.

Definition is_value (p : option lin * vc) : bool := match snd p with Acc _ _ => false | _ => true end.

Fixpoint nodupb (l : list string) : bool :=
  match l with [] => true | x :: l' => negb (existsb (String.eqb x) l') && nodupb l' end.

(** The side conditions on the names. *)
Definition names_ok (params outs scr : list string) (al : list (string * string)) : bool :=
  nodupb outs &&
  forallb (fun q => existsb (String.eqb q) params && negb (existsb (String.eqb q) scr)) outs &&
  forallb (fun p => negb (existsb (String.eqb (fst p)) outs)) al.

Lemma existsb_eqb x l : existsb (String.eqb x) l = true <-> In x l.
Proof.
  rewrite existsb_exists. split.
  - intros (y & I & E). apply String.eqb_eq in E. now subst.
  - intros I. exists x. split; [auto|apply String.eqb_refl].
Qed.

Lemma nodupb_ok l : nodupb l = true -> NoDup l.
Proof.
  induction l as [|x l IH]; cbn; [constructor|]. rewrite andb_true_iff, negb_true_iff. intros [A B].
  constructor; [|auto]. rewrite <- existsb_eqb. congruence.
Qed.

Section Run.
  Context {R : Type} (rO : R) (radd rmul rsub : R -> R -> R) (ropp : R -> R).

  Lemma args_map {A} (adr : string -> A) l x :
    args (map (fun y => (y, adr y)) l) x = if existsb (String.eqb x) l then Some (adr x) else None.
  Proof.
    induction l as [|y l IH]; cbn; [reflexivity|]. unfold set.
    destruct (String.eqb_spec x y) as [->|]; cbn; [reflexivity|exact IH].
  Qed.

  Lemma nonneg_ok n l k : 1 <= n -> nonneg l = true -> 0 <= lval k n l.
  Proof.
    unfold nonneg, lval. rewrite !andb_true_iff, Z.eqb_eq, !Z.leb_le. intros Hn [[-> A] B].
    assert (0 <= cn l * (n - 1)) by (apply Z.mul_nonneg_nonneg; lia). lia.
  Qed.

  Lemma in_range_ok n t o len : 1 <= n -> in_range t o len = true ->
    match t with
    | None => 0 <= lval 0 n o < lval 0 n len
    | Some K => forall j, 0 <= j < lval 0 n K -> 0 <= lval j n o < lval 0 n len
    end.
  Proof.
    intros Hn. unfold in_range. destruct t as [K|]; rewrite !andb_true_iff.
    - rewrite !Z.eqb_eq, Z.leb_le. intros [[[[HK Ho] A] B] HL] j Hj.
      apply (nonneg_ok n _ 0 Hn) in A, B.
      rewrite !lval_sub, lval_const in B. unfold subst, lsub, lconst, lval in *.
      cbn [c0 ck cn] in *. rewrite HK in *. rewrite HL in *.
      assert (0 <= ck o * j) by (apply Z.mul_nonneg_nonneg; lia).
      assert (ck o * j <= ck o * (c0 K + 0 * 0 + cn K * n - 1)) by (apply Z.mul_le_mono_nonneg_l; lia).
      lia.
    - intros [[A B] HL]. apply Z.eqb_eq in HL.
      apply (nonneg_ok n _ 0 Hn) in A, B. rewrite !lval_sub, lval_const in B.
      unfold lval in *. cbn [c0 ck cn] in *. lia.
  Qed.

  (** The general statement.  The number of sites passed is [nl]: the symbol [n], or a constant. *)
  Theorem run_ok : forall c params cnt (nl : lin) outs scr al accs s v lims
      (m : memory R) (adr : string -> ptr) (n : Z) (g acc : string -> Z -> R),
    1 <= n ->
    sexec al accs c (start params [(cnt, nl)] outs scr) = Some (s, v) ->
    names_ok params outs scr al = true ->
    accesses_ok lims v = true ->
    (forall p l, In (p, l) lims -> has m (adr p) (lval 0 n l)) ->
    (forall r q, In r params -> In q outs -> r <> q -> ~ In r scr ->
       apart (adr r) (adr q) \/ (In (r, q) al /\ adr r = adr q)) ->
    (forall l r, In l scr -> In r params -> r <> l -> apart (adr l) (adr r)) ->
    Forall (fun p => is_value p = true ->
       ok rO radd rmul rsub ropp (fun x => if existsb (String.eqb x) params then Some (adr x) else None) m g acc n 0 p) v ->
    exists m',
      call rO radd rmul rsub ropp c (map (fun x => (x, adr x)) params) [(cnt, lval 0 n nl)] m = Val m' /\
      (forall q w i, In (q, w) (sw s) -> 0 <= i < lval 0 n w -> cell m' (adr q) i = Some (g q i)) /\
      (forall b o, (forall q w, In (q, w) (sw s) -> ~ (b = fst (adr q) /\ snd (adr q) <= o < snd (adr q) + lval 0 n w)) ->
         (forall l, In l scr -> In l params -> b <> fst (adr l)) -> m' b o = m b o).
  Proof.
    intros c params cnt nl outs scr al accs s v lims m adr n g acc Hn E Hnames Hacc Hlen Hal Hscr Hv.
    set (rp := fun x => if existsb (String.eqb x) params then Some (adr x) else None) in *.
    assert (Hrp : forall x p, rp x = Some p -> In x params /\ p = adr x).
    { intros x p. unfold rp. destruct (existsb _ _) eqn:X; [|discriminate]. intros Y; inv Y.
      apply existsb_eqb in X. auto. }
    unfold names_ok in Hnames. rewrite !andb_true_iff, !forallb_forall in Hnames.
    destruct Hnames as [[N1 N2] N3]. apply nodupb_ok in N1.
    assert (Po : forall q, In q outs -> In q params /\ ~ In q scr).
    { intros q I. specialize (N2 _ I). rewrite andb_true_iff, negb_true_iff in N2. destruct N2 as [A B].
      split; [now apply existsb_eqb|]. rewrite <- existsb_eqb. congruence. }
    assert (Hout : forall q q', In q outs -> In q' outs -> q <> q' -> apart (adr q) (adr q')).
    { intros q q' I I' N. destruct (Hal q q' (proj1 (Po _ I)) I' N (proj2 (Po _ I))) as [A|[A _]]; [auto|].
      specialize (N3 _ A). cbn in N3. rewrite negb_true_iff in N3.
      apply existsb_eqb in I. congruence. }
    assert (Hpair : forall x b f, rp x = Some (b, f) -> b = fst (adr x) /\ f = snd (adr x)).
    { intros x b f X. apply Hrp in X as [_ X]. now rewrite <- X. }
    destruct (sexec_ok rO radd rmul rsub ropp al accs rp m g acc outs scr n Hn) with
      (c := c) (k := 0) (s := start params [(cnt, nl)] outs scr) (s' := s) (v := v)
      (st := mk_state (@undef R) (args [(cnt, lval 0 n nl)]) (args (map (fun x => (x, adr x)) params)) m)
      as (st' & Ex & Rp).
    - intros r q b f fq Iq Nr Hr Hq. destruct (Hrp _ _ Hr) as [Ir _].
      apply Hpair in Hr as [-> ->], Hq as [Hb ->].
      unfold aliased. destruct (String.eqb_spec r q) as [->|N]; [auto|].
      destruct (Hal r q Ir Iq N Nr) as [A|[A B]].
      + unfold apart in A. congruence.
      + rewrite B. split; [|reflexivity]. cbn. apply existsb_exists. exists (r, q). split; [auto|].
        cbn. now rewrite !String.eqb_refl.
    - intros q q' b b' f f' I I' N H1 H2 ->. apply Hpair in H1 as [-> _], H2 as [H2 _].
      now apply (Hout q q').
    - intros l r b b' f f' I N H1 H2 ->. destruct (Hrp _ _ H2) as [Ir _].
      apply Hpair in H1 as [-> _], H2 as [H2 _]. now apply (Hscr l r).
    - exact N1.
    - intros q I. now apply Po.
    - (* the initial state *)
      constructor; cbn.
      + easy.
      + intros x l [X|[]]. inv X. unfold set. now rewrite String.eqb_refl.
      + intros x r o I. apply in_map_iff in I as (y & Y & I). inv Y.
        rewrite args_map. unfold rp. rewrite (proj2 (existsb_eqb _ _) I).
        destruct (adr r) as [b f]. exists b, f. split; [reflexivity|]. rewrite lval_const. now rewrite Z.add_0_r.
      + rewrite map_map. cbn. apply map_id.
      + rewrite map_map. cbn. apply map_id.
      + intros q w I. apply in_map_iff in I as (y & Y & I). inv Y. now rewrite lval_const.
      + intros q w b f i I. apply in_map_iff in I as (y & Y & I). inv Y. rewrite lval_const. lia.
      + reflexivity.
      + intros l c' b f I. apply in_map_iff in I as (y & Y & I). inv Y. split; [auto|discriminate].
    - exact E.
    - rewrite Forall_forall in Hv |- *. intros [t w] I. destruct (is_value (t, w)) eqn:V; [now apply Hv|].
      destruct w as [r o| | |]; try discriminate V.
      unfold accesses_ok in Hacc. rewrite forallb_forall in Hacc. specialize (Hacc _ I). cbn in Hacc.
      destruct (get r lims) as [l|] eqn:G; [|discriminate]. apply get_in in G.
      apply (in_range_ok n _ _ _ Hn) in Hacc. specialize (Hlen _ _ G). unfold has, cell in Hlen.
      unfold ok. cbn. destruct t as [K|].
      + intros j Hj b f Hr. apply Hpair in Hr as [-> ->]. apply Hlen. now apply Hacc.
      + intros b f Hr. apply Hpair in Hr as [-> ->]. now apply Hlen.
    - unfold call. rewrite Ex. cbn. exists (mem st'). split; [reflexivity|]. split.
      + intros q w i I Hi. destruct (Po q) as [Ip _].
        { rewrite <- (r_outs _ _ _ _ _ _ _ _ _ _ _ _ _ _ _ Rp). apply in_map_iff. exists (q, w); auto. }
        eapply (r_out _ _ _ _ _ _ _ _ _ _ _ _ _ _ _ Rp); eauto. unfold rp.
        rewrite (proj2 (existsb_eqb _ _) Ip). now destruct (adr q).
      + intros b o A B. apply (r_same _ _ _ _ _ _ _ _ _ _ _ _ _ _ _ Rp).
        * intros q w f I Hq C. apply Hpair in Hq as [-> ->]. eapply A; eauto.
        * intros l f I Hl. destruct (Hrp _ _ Hl) as [Ip _]. apply Hpair in Hl as [-> _]. now apply (B l).
  Qed.

  (** ** The values to be checked, in terms of the contents [X] of the arrays *)
  Fixpoint vden (X acc : string -> Z -> R) (n k : Z) (e : sexp) : R :=
    match e with
    | SIn p o => X p (lval k n o)
    | SAcc x o => acc x (lval k n o)
    | SZero => rO
    | SAdd a b => radd (vden X acc n k a) (vden X acc n k b)
    | SSub a b => rsub (vden X acc n k a) (vden X acc n k b)
    | SMul a b => rmul (vden X acc n k a) (vden X acc n k b)
    | SNeg a => ropp (vden X acc n k a)
    end.

  Definition value_ok1 (X g acc : string -> Z -> R) (n k : Z) (v : vc) : Prop :=
    match v with
    | Acc _ _ => True
    | Wr q o e => g q (lval k n o) = vden X acc n k e
    | Init x e => acc x 0 = vden X acc n k e
    | Step x e => acc x (k + 1) = vden X acc n k e
    end.
  Definition value_ok (X g acc : string -> Z -> R) (n : Z) (p : option lin * vc) : Prop :=
    match fst p with
    | None => value_ok1 X g acc n 0 (snd p)
    | Some K => forall j, 0 <= j < lval 0 n K -> value_ok1 X g acc n j (snd p)
    end.

  Fixpoint closed (params : list string) (e : sexp) : bool :=
    match e with
    | SIn p _ => existsb (String.eqb p) params
    | SAcc _ _ => true
    | SZero => true
    | SAdd a b | SSub a b | SMul a b => closed params a && closed params b
    | SNeg a => closed params a
    end.
  Definition closed_vc (params : list string) (p : option lin * vc) : bool :=
    match snd p with Acc _ _ => true | Wr _ _ e | Init _ e | Step _ e => closed params e end.

  Lemma vden_ok params adr m acc n k e : closed params e = true ->
    den rO radd rmul rsub ropp (fun x => if existsb (String.eqb x) params then Some (adr x) else None) m acc n k e
    = vden (fun x => value rO m (adr x)) acc n k e.
  Proof.
    induction e; cbn; rewrite ?andb_true_iff; intros H; try reflexivity.
    - unfold input, value, cell. rewrite H. now destruct (adr p).
    - destruct H. now rewrite IHe1, IHe2.
    - destruct H. now rewrite IHe1, IHe2.
    - destruct H. now rewrite IHe1, IHe2.
    - now rewrite IHe.
  Qed.

  Theorem run_values : forall c params cnt (nl : lin) outs scr al accs s v lims
      (m : memory R) (adr : string -> ptr) (n : Z) (g acc : string -> Z -> R),
    1 <= n ->
    sexec al accs c (start params [(cnt, nl)] outs scr) = Some (s, v) ->
    names_ok params outs scr al && accesses_ok lims v && forallb (closed_vc params) v = true ->
    (forall p l, In (p, l) lims -> has m (adr p) (lval 0 n l)) ->
    (forall r q, In r params -> In q outs -> r <> q -> ~ In r scr ->
       apart (adr r) (adr q) \/ (In (r, q) al /\ adr r = adr q)) ->
    (forall l r, In l scr -> In r params -> r <> l -> apart (adr l) (adr r)) ->
    Forall (value_ok (fun x => value rO m (adr x)) g acc n) (filter is_value v) ->
    exists m',
      call rO radd rmul rsub ropp c (map (fun x => (x, adr x)) params) [(cnt, lval 0 n nl)] m = Val m' /\
      (forall q w i, In (q, w) (sw s) -> 0 <= i < lval 0 n w -> cell m' (adr q) i = Some (g q i)) /\
      (forall b o, (forall q w, In (q, w) (sw s) -> ~ (b = fst (adr q) /\ snd (adr q) <= o < snd (adr q) + lval 0 n w)) ->
         (forall l, In l scr -> In l params -> b <> fst (adr l)) -> m' b o = m b o).
  Proof.
    intros c params cnt nl outs scr al accs s v lims m adr n g acc Hn E Hb Hlen Hal Hscr Hv.
    rewrite !andb_true_iff in Hb. destruct Hb as [[H1 H2] H3].
    eapply run_ok; eauto. rewrite forallb_forall in H3. rewrite Forall_forall in Hv |- *.
    intros [t w] I V. specialize (H3 _ I).
    assert (Hw : value_ok (fun x => value rO m (adr x)) g acc n (t, w)) by (apply Hv, filter_In; auto).
    revert Hw. unfold value_ok, ok. cbn [fst snd]. unfold closed_vc in H3. cbn [snd] in H3.
    destruct t as [K|]; destruct w; cbn [value_ok1 ok1]; try discriminate V;
      try (intros Hw; rewrite vden_ok by exact H3; exact Hw); intros Hw j Hj; rewrite vden_ok by exact H3; auto.
  Qed.

  (** ** Kernels that store one vector *)
  Definition elementwise_lims (n : lin) (out : string) (scalars arrays : list (string * Z)) (m : Z) : list (string * lin) :=
    (out, n) :: map (fun p => (fst p, lconst (snd p))) scalars ++
    map (fun p => (fst p, ladd n (lconst (m * snd p)))) arrays.

  Definition elementwise_check (c : stmt) (params : list string) (cnt out : string)
             (scalars arrays : list (string * Z)) : option vcs :=
    let al := map (fun p => (fst p, out)) arrays in
    let names := out :: map fst scalars ++ map fst arrays in
    do (s, v) <- sexec al [] c (start params [(cnt, Lin 0 0 1)] [out] []);
    do (s0, v0) <- sexec al [] c (start params [(cnt, lconst 0)] [out] []);
    if list_eqb (fun a b => String.eqb (fst a) (fst b) && lin_eqb (snd a) (snd b)) (sw s) [(out, Lin 0 0 24)]
       && list_eqb (fun a b => String.eqb (fst a) (fst b) && lin_eqb (snd a) (snd b)) (sw s0) [(out, lconst 0)]
       && forallb (fun x => existsb (String.eqb x) names) params
       && (names_ok params [out] [] al && accesses_ok (elementwise_lims (Lin 0 0 24) out scalars arrays 1) v
           && forallb (closed_vc params) v)
       && (names_ok params [out] [] al && accesses_ok (elementwise_lims (lconst 0) out scalars arrays 0) v0
           && forallb (closed_vc params) v0)
       && forallb (fun p => negb (is_value p)) v0
    then Some (filter is_value v) else None.

  Lemma sw_eqb (a b : list (string * lin)) :
    list_eqb (fun a b => String.eqb (fst a) (fst b) && lin_eqb (snd a) (snd b)) a b = true -> a = b.
  Proof.
    revert b. induction a as [|[x l] a IH]; intros [|[y l'] b]; cbn; try discriminate; [auto|].
    rewrite !andb_true_iff. intros [[A B] D]. apply String.eqb_eq in A. apply lin_eqb_eq in B.
    rewrite (IH _ D). congruence.
  Qed.

  Theorem elementwise_ok : forall c params cnt out scalars arrays f v,
    elementwise_check c params cnt out scalars arrays = Some v ->
    (forall X n, 1 <= n -> Forall (value_ok X (fun _ => f X) (fun _ _ => rO) n) v) ->
    elementwise rO radd rmul rsub ropp c params cnt out scalars arrays f.
  Proof.
    intros c params cnt out scalars arrays f v E HV m adr n Hn Hout Hsc Har.
    unfold elementwise_check in E. dob E. destruct p as [s v1]. dob E. destruct p as [s0 v0].
    match type of E with (if ?b then _ else _) = _ => destruct b eqn:B; [|discriminate] end. inv E.
    rewrite !andb_true_iff in B. destruct B as [[[[[W W0] Hp] B1] B0] Hv0].
    rewrite <- !andb_true_iff in B1, B0. apply sw_eqb in W, W0.
    rewrite forallb_forall in Hp.
    set (al := map (fun p => (fst p, out)) arrays) in *.
    assert (Hal : forall r q, In r params -> In q [out] -> r <> q -> ~ In r (@nil string) ->
              apart (adr r) (adr q) \/ (In (r, q) al /\ adr r = adr q)).
    { intros r q I [<-|[]] N _. specialize (Hp _ I). apply existsb_eqb in Hp.
      destruct Hp as [->|Hp]; [congruence|]. apply in_app_iff in Hp as [Hp|Hp];
        apply in_map_iff in Hp as ([x l] & X & Hp); cbn in X; subst x.
      - left. now apply (Hsc r l).
      - destruct (Har r l Hp) as [_ [A|A]]; [right|now left]. split; [|auto].
        unfold al. apply in_map_iff. exists (r, l). auto. }
    destruct (Z.eq_dec n 0) as [->|Hn0].
    - destruct (run_values c params cnt (lconst 0) [out] [] al [] s0 v0
                  (elementwise_lims (lconst 0) out scalars arrays 0) m adr 1
                  (fun _ => f (fun x => value rO m (adr x))) (fun _ _ => rO)) as (m' & C1 & C2 & C3).
      + lia.
      + exact E1.
      + exact B0.
      + intros p l [I|I].
        * inv I. intros i. rewrite lval_const. lia.
        * apply in_app_iff in I as [I|I]; apply in_map_iff in I as ([x k] & X & I); inv X; cbn [fst snd].
          -- rewrite lval_const. now apply Hsc.
          -- intros i. rewrite lval_add, !lval_const. lia.
      + exact Hal.
      + easy.
      + replace (filter is_value v0) with (@nil (option lin * vc)); [constructor|].
        clear - Hv0. induction v0 as [|p v0 IH]; cbn in *; [reflexivity|].
        apply andb_true_iff in Hv0 as [A B]. rewrite negb_true_iff in A. rewrite A. auto.
      + rewrite W0 in *. exists m'. split; [exact C1|]. split.
        * intros i Hi. lia.
        * intros b o N. apply C3; [|easy]. intros q w [I|[]]. inv I. rewrite lval_const. intros [-> D]. lia.
    - destruct (run_values c params cnt (Lin 0 0 1) [out] [] al [] s v1
                  (elementwise_lims (Lin 0 0 24) out scalars arrays 1) m adr n
                  (fun _ => f (fun x => value rO m (adr x))) (fun _ _ => rO)) as (m' & C1 & C2 & C3).
      + lia.
      + exact E0.
      + exact B1.
      + intros p l [I|I].
        * inv I. intros i Hi. apply Hout. unfold lval in Hi. cbn [c0 ck cn] in Hi. lia.
        * apply in_app_iff in I as [I|I]; apply in_map_iff in I as ([x k] & X & I); inv X; cbn [fst snd].
          -- rewrite lval_const. now apply Hsc.
          -- destruct (Har _ _ I) as [A _]. destruct (Z.eqb_spec n 0); [contradiction|].
             intros i Hi. apply A. rewrite lval_add, lval_const in Hi. unfold lval in Hi. cbn [c0 ck cn] in Hi. destruct k; lia.
      + exact Hal.
      + easy.
      + apply HV. lia.
      + assert (L24 : lval 0 n (Lin 0 0 24) = 24 * n) by (unfold lval; cbn [c0 ck cn]; lia).
        replace (lval 0 n (Lin 0 0 1)) with n in C1 by (unfold lval; cbn [c0 ck cn]; lia).
        rewrite W in *. exists m'. split; [exact C1|]. split.
        * intros i Hi. apply (C2 out (Lin 0 0 24) i); [now left|]. now rewrite L24.
        * intros b o N. apply C3; [|easy]. intros q w [I|[]]. inv I. rewrite L24. intros [-> D]. auto.
  Qed.
End Run.
