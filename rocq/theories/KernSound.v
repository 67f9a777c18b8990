(** The symbolic executor of KernSym.v may be trusted: if it accepts a kernel and everything it
    asks for holds, the kernel runs without leaving its arrays and memory ends up as it says. *)
From Coq Require Import ZArith List String Bool Lia.
From Verif Require Import Base KernLang KernSym.
Import ListNotations.
Local Open Scope Z_scope.

Ltac inv H := inversion H; subst; clear H.
(** Take apart [do .. <- e; f = Some r]. *)
Ltac dob H :=
  match type of H with
  | obind ?e _ = Some _ =>
      let E := fresh "E" in destruct e eqn:E in H; cbn [obind] in H; [ | discriminate H ]
  end.

Lemma get_in {A} x (l : list (string * A)) a : get x l = Some a -> In (x, a) l.
Proof.
  induction l as [|[y b] l IH]; cbn; [discriminate|].
  destruct (String.eqb_spec y x); intros E; [inv E; auto | right; auto].
Qed.

Lemma get_none {A} x (l : list (string * A)) : get x l = None -> ~ In x (map fst l).
Proof.
  induction l as [|[y b] l IH]; cbn; [auto|].
  destruct (String.eqb_spec y x); [discriminate|]. intros E [->|H]; [auto | exact (IH E H)].
Qed.

Lemma in_del {A} x y (a : A) l : In (y, a) (del x l) -> y <> x /\ In (y, a) l.
Proof.
  unfold del; rewrite filter_In; cbn. destruct (String.eqb_spec y x); cbn; intuition congruence.
Qed.

Lemma in_put {A} x y (a b : A) l : In (y, b) (put x a l) -> (y = x /\ b = a) \/ (y <> x /\ In (y, b) l).
Proof. intros [E|H]; [inv E; auto | right; now apply in_del in H]. Qed.

Lemma in_repl {A} x y (a b : A) l :
  In (y, b) (repl x a l) -> (y = x /\ b = a) \/ (y <> x /\ In (y, b) l).
Proof.
  unfold repl; rewrite in_map_iff. intros [[z c] [E H]]; cbn in E.
  destruct (String.eqb_spec z x); inv E; auto.
Qed.

Lemma repl_in {A} x y (a b : A) l : In (y, b) l -> y <> x -> In (y, b) (repl x a l).
Proof.
  intros H E. unfold repl; rewrite in_map_iff. exists (y, b); cbn.
  destruct (String.eqb_spec y x); [contradiction|auto].
Qed.

Lemma repl_in_eq {A} x (a b : A) l : In (x, b) l -> In (x, a) (repl x a l).
Proof.
  intros H. unfold repl; rewrite in_map_iff. exists (x, b); cbn. now rewrite String.eqb_refl.
Qed.

Lemma map_fst_repl {A} x (a : A) l : map fst (repl x a l) = map fst l.
Proof.
  unfold repl; rewrite map_map. apply map_ext. intros [y b]; cbn. now destruct (String.eqb y x).
Qed.

Lemma get_some {A} x (l : list (string * A)) a : In (x, a) l -> exists b, get x l = Some b.
Proof.
  induction l as [|[y b] l IH]; cbn; [easy|].
  destruct (String.eqb_spec y x); [eauto|]. intros [E|H]; [inv E; congruence|auto].
Qed.

Lemma nodup_in {A} x (l : list (string * A)) a b : NoDup (map fst l) -> In (x, a) l -> In (x, b) l -> a = b.
Proof.
  induction l as [|[y c] l IH]; cbn; [easy|]. intros N. inv N.
  intros [E1|I1] [E2|I2]; try congruence; auto.
  - inv E1. destruct H1. apply in_map_iff. now exists (x, b).
  - inv E2. destruct H1. apply in_map_iff. now exists (x, a).
Qed.

Lemma lin_eqb_eq a b : lin_eqb a b = true -> a = b.
Proof.
  unfold lin_eqb; rewrite !andb_true_iff, !Z.eqb_eq. destruct a, b; cbn. intuition congruence.
Qed.

Lemma sexp_eqb_eq : forall a b, sexp_eqb a b = true -> a = b.
Proof.
  induction a; intros b; destruct b; cbn; try discriminate; rewrite ?andb_true_iff.
  - intros [A B]. apply String.eqb_eq in A. apply lin_eqb_eq in B. congruence.
  - intros [A B]. apply String.eqb_eq in A. apply lin_eqb_eq in B. congruence.
  - auto.
  - intros [A B]. f_equal; auto.
  - intros [A B]. f_equal; auto.
  - intros [A B]. f_equal; auto.
  - intros A. f_equal; auto.
Qed.

Section Sound.
  Context {R : Type} (rO : R) (radd rmul rsub : R -> R -> R) (ropp : R -> R).
  Context (al : list (string * string)) (accs : list string).
  Context (rp : string -> option ptr) (m0 : memory R) (g : string -> Z -> R) (acc : string -> Z -> R).
  Context (outs scr : list string) (n : Z).
  Context (Hn : 1 <= n).
  Context (Halias : forall r q b f fq, In q outs -> ~ In r scr -> rp r = Some (b, f) -> rp q = Some (b, fq) ->
                      aliased al r q = true /\ f = fq).
  Context (Houts : forall q q' b b' f f', In q outs -> In q' outs -> q <> q' ->
                      rp q = Some (b, f) -> rp q' = Some (b', f') -> b <> b').
  Context (Hscr : forall l r b b' f f', In l scr -> r <> l ->
                      rp l = Some (b, f) -> rp r = Some (b', f') -> b <> b').

  Context (Hnd : NoDup outs).
  Context (Hdisj : forall q, In q outs -> ~ In q scr).

  Notation exec := (exec rO radd rmul rsub ropp).
  Notation eval := (eval rO radd rmul rsub ropp).

  Definition input (p : string) (i : Z) : R :=
    match rp p with
    | Some (b, f) => match m0 b (f + i) with Some v => v | None => rO end
    | None => rO
    end.

  Fixpoint den (k : Z) (e : sexp) : R :=
    match e with
    | SIn p o => input p (lval k n o)
    | SAcc x o => acc x (lval k n o)
    | SZero => rO
    | SAdd a b => radd (den k a) (den k b)
    | SSub a b => rsub (den k a) (den k b)
    | SMul a b => rmul (den k a) (den k b)
    | SNeg a => ropp (den k a)
    end.

  Definition ok1 (k : Z) (v : vc) : Prop :=
    match v with
    | Acc p o => forall b f, rp p = Some (b, f) -> m0 b (f + lval k n o) <> None
    | Wr q o e => g q (lval k n o) = den k e
    | Init x e => acc x 0 = den k e
    | Step x e => acc x (k + 1) = den k e
    end.

  Definition ok (k : Z) (p : option lin * vc) : Prop :=
    match fst p with
    | None => ok1 k (snd p)
    | Some K => forall j, 0 <= j < lval 0 n K -> ok1 j (snd p)
    end.

  Record rep (k : Z) (st : state R) (s : sst) : Prop := {
    r_var : forall x e, In (x, e) (sv s) -> vars st x = Some (den k e);
    r_int : forall x l, In (x, l) (si s) -> ints st x = Some (lval k n l);
    r_ptr : forall x r o, In (x, (r, o)) (sp s) ->
              exists b f, rp r = Some (b, f) /\ ptrs st x = Some (b, f + lval k n o);
    r_outs : map fst (sw s) = outs;
    r_scr : map fst (sl s) = scr;
    r_pos : forall q w, In (q, w) (sw s) -> 0 <= lval k n w;
    r_out : forall q w b f i, In (q, w) (sw s) -> rp q = Some (b, f) -> 0 <= i < lval k n w ->
              mem st b (f + i) = Some (g q i);
    r_same : forall b o,
              (forall q w f, In (q, w) (sw s) -> rp q = Some (b, f) -> ~ (f <= o < f + lval k n w)) ->
              (forall l f, In l scr -> rp l = Some (b, f) -> False) ->
              mem st b o = m0 b o;
    r_own : forall l c b f, In (l, c) (sl s) -> rp l = Some (b, f) ->
              (forall o, m0 b o <> None -> mem st b o <> None) /\
              (forall z e, zget z c = Some e -> mem st b (f + z) = Some (den k e))
  }.

  (** ** Integers *)
  Lemma lval_add k a b : lval k n (ladd a b) = lval k n a + lval k n b.
  Proof. unfold lval, ladd; cbn. ring. Qed.
  Lemma lval_sub k a b : lval k n (lsub a b) = lval k n a - lval k n b.
  Proof. unfold lval, lsub; cbn. ring. Qed.
  Lemma lval_const k z : lval k n (lconst z) = z.
  Proof. unfold lval, lconst; cbn. ring. Qed.
  Lemma lval_is_const k a : is_const a = true -> lval k n a = c0 a.
  Proof.
    unfold is_const; rewrite andb_true_iff, !Z.eqb_eq. intros [A B]. unfold lval. rewrite A, B. ring.
  Qed.
  Lemma lval_mul k a b c : lmul a b = Some c -> lval k n c = lval k n a * lval k n b.
  Proof.
    unfold lmul. destruct (is_const a) eqn:A.
    - intros E; inv E. rewrite (lval_is_const k a A). unfold lval; cbn. ring.
    - destruct (is_const b) eqn:B; [|discriminate].
      intros E; inv E. rewrite (lval_is_const k b B). unfold lval; cbn. ring.
  Qed.
  Lemma lin_leb_le k a b : lin_leb a b = true -> lval k n a <= lval k n b.
  Proof.
    unfold lin_leb; rewrite !andb_true_iff, !Z.eqb_eq, Z.leb_le. unfold lval.
    intros [[A B] C]. rewrite A, B. lia.
  Qed.
  Lemma lval_rounds k : lval k n rounds = k.
  Proof. unfold lval, rounds; cbn [c0 ck cn]. lia. Qed.
  Lemma lval_shift k a : lval k n (shift a) = lval (k + 1) n a.
  Proof. unfold lval, shift; cbn. ring. Qed.
  Lemma lval_subst k K a : ck K = 0 -> lval k n (subst K a) = lval (lval 0 n K) n a.
  Proof. unfold lval, subst; cbn. intros ->. ring. Qed.
  Lemma lval_gen k a b c : gen_lin a b = Some c -> lval 0 n c = lval k n a.
  Proof.
    unfold gen_lin. destruct (_ && _) eqn:E; [|discriminate]. intros H; inv H.
    rewrite !andb_true_iff, !Z.eqb_eq in E. destruct E as [[A _] _]. unfold lval; cbn. rewrite A. ring.
  Qed.

  Lemma sieval_ok k st s e l : rep k st s -> sieval s e = Some l -> ieval st e = Val (lval k n l).
  Proof.
    intros H. revert l. induction e; cbn; intros l E.
    - now rewrite (r_int _ _ _ H _ _ (get_in _ _ _ E)).
    - inv E. now rewrite lval_const.
    - dob E. dob E. inv E. rewrite (IHe1 _ E0), (IHe2 _ E1); cbn. now rewrite lval_add.
    - dob E. dob E. inv E. rewrite (IHe1 _ E0), (IHe2 _ E1); cbn. now rewrite lval_sub.
    - dob E. dob E. rewrite (IHe1 _ E0), (IHe2 _ E1); cbn. now rewrite (lval_mul _ _ _ _ E).
  Qed.

  (** ** Locals *)
  Lemma rep_int k st s x l : rep k st s -> rep k (set_int st x (lval k n l)) (s_int s x l).
  Proof.
    intros []; constructor; cbn; auto. intros y l' I. unfold set.
    apply in_put in I as [[-> ->]|[N I]]; [now rewrite String.eqb_refl|].
    destruct (String.eqb_spec y x); [contradiction|auto].
  Qed.
  Lemma rep_var k st s x e : rep k st s -> rep k (set_var st x (den k e)) (s_var s x e).
  Proof.
    intros []; constructor; cbn; auto. intros y l' I. unfold set.
    apply in_put in I as [[-> ->]|[N I]]; [now rewrite String.eqb_refl|].
    destruct (String.eqb_spec y x); [contradiction|auto].
  Qed.
  Lemma rep_ptr k st s x r o b f : rep k st s -> rp r = Some (b, f) ->
    rep k (set_ptr st x (b, f + lval k n o)) (s_ptr s x (r, o)).
  Proof.
    intros [] Hr; constructor; cbn; auto. intros y r' o' I. unfold set.
    apply in_put in I as [[-> E]|[N I]]; [inv E; rewrite String.eqb_refl; eauto|].
    destruct (String.eqb_spec y x); [contradiction|auto].
  Qed.

  Lemma slocate_ok k st s l r o s' : rep k st s -> slocate s l = Some (r, o, s') ->
    exists b f st', rp r = Some (b, f) /\ locate st l = Val ((b, f + lval k n o), st') /\ rep k st' s'.
  Proof.
    intros H E. destruct l as [p i|p i|p]; cbn in *.
    - dob E. destruct p0 as [r0 o0]. dob E. inv E.
      destruct (r_ptr _ _ _ H _ _ _ (get_in _ _ _ E0)) as (b & f & Hr & Hp).
      rewrite Hp, (sieval_ok _ _ _ _ _ H E1); cbn. exists b, f, st. rewrite lval_add, Z.add_assoc. auto.
    - dob E. destruct p0 as [r0 o0]. dob E. inv E.
      destruct (r_ptr _ _ _ H _ _ _ (get_in _ _ _ E0)) as (b & f & Hr & Hp).
      rewrite Hp, (r_int _ _ _ H _ _ (get_in _ _ _ E1)); cbn.
      exists b, f. eexists. rewrite lval_add, Z.add_assoc. split; [auto|]. split; [reflexivity|].
      replace (lval k n l + 1) with (lval k n (ladd l (lconst 1))) by now rewrite lval_add, lval_const.
      now apply rep_int.
    - dob E. destruct p0 as [r0 o0]. inv E.
      destruct (r_ptr _ _ _ H _ _ _ (get_in _ _ _ E0)) as (b & f & Hr & Hp).
      rewrite Hp; cbn. exists b, f. eexists. split; [auto|]. split; [reflexivity|].
      replace (f + lval k n o + 1) with (f + lval k n (ladd o (lconst 1))) by (rewrite lval_add, lval_const; ring).
      now apply rep_ptr.
  Qed.

  (** A cell of [r] that no output has reached yet still has its first contents. *)
  Lemma unwritten k st s r o b f :
    rep k st s -> rp r = Some (b, f) -> get r (sl s) = None ->
    forallb (fun p => negb (aliased al r (fst p)) || lin_leb (snd p) o) (sw s) = true ->
    mem st b (f + lval k n o) = m0 b (f + lval k n o).
  Proof.
    intros H Hr Hg Hf. apply (r_same _ _ _ H).
    - intros q w fq I Hq C.
      assert (Ns : ~ In r scr) by (rewrite <- (r_scr _ _ _ H); now apply get_none).
      assert (Io : In q outs) by (rewrite <- (r_outs _ _ _ H); apply in_map_iff; exists (q, w); auto).
      destruct (Halias r q b f fq Io Ns Hr Hq) as [A ->].
      rewrite forallb_forall in Hf. specialize (Hf _ I). cbn in Hf. rewrite A in Hf. cbn in Hf.
      apply (lin_leb_le k) in Hf. lia.
    - intros l fl Il Hl.
      assert (r <> l) by (rewrite <- (r_scr _ _ _ H) in Il; intros ->; now apply (get_none _ _ Hg)).
      now apply (Hscr l r b b fl f).
  Qed.

  Lemma sload_ok k st s r o b f e c : rep k st s -> rp r = Some (b, f) -> sload al s r o = Some (e, c) ->
    Forall (ok k) c -> load st (b, f + lval k n o) = Val (den k e).
  Proof.
    unfold sload, load; cbn. intros H Hr E Hc. destruct (get r (sl s)) as [ct|] eqn:Hg.
    - destruct (is_const o) eqn:C; [|discriminate]. dob E. inv E.
      destruct (r_own _ _ _ H _ _ _ _ (get_in _ _ _ Hg) Hr) as [_ D].
      rewrite (lval_is_const k o C), (D _ _ E0). reflexivity.
    - destruct (forallb _ _) eqn:F; [|discriminate]. inv E.
      inv Hc. cbn in H2. specialize (H2 b f Hr).
      rewrite (unwritten k st s r o b f H Hr Hg F); cbn. unfold input. rewrite Hr.
      destruct (m0 b (f + lval k n o)); [reflexivity|contradiction].
  Qed.

  Lemma poke_same (m : memory R) b o v : poke m b o v b o = Some v.
  Proof. unfold poke. now rewrite Nat.eqb_refl, Z.eqb_refl. Qed.
  Lemma poke_other (m : memory R) b o v b' o' : b' <> b \/ o' <> o -> poke m b o v b' o' = m b' o'.
  Proof.
    unfold poke. destruct (Nat.eqb_spec b' b), (Z.eqb_spec o' o); cbn; intuition congruence.
  Qed.

  Lemma sstore_ok k st s r o b f e s' c : rep k st s -> rp r = Some (b, f) ->
    sstore s r o e = Some (s', c) -> Forall (ok k) c ->
    exists st', store st (b, f + lval k n o) (den k e) = Val st' /\ rep k st' s'.
  Proof.
    unfold sstore, store; cbn. intros H Hr E Hc. destruct (get r (sl s)) as [ct|] eqn:Hg.
    - destruct (is_const o) eqn:C; [|discriminate]. inv E. inv Hc. cbn in H2. specialize (H2 b f Hr).
      pose proof (get_in _ _ _ Hg) as Ig.
      assert (Is : In r scr) by (rewrite <- (r_scr _ _ _ H); apply in_map_iff; exists (r, ct); auto).
      destruct (r_own _ _ _ H _ _ _ _ Ig Hr) as [D1 D2].
      destruct (mem st b (f + lval k n o)) eqn:M; [|exfalso; now apply (D1 _ H2)]. cbn.
      eexists; split; [reflexivity|]. destruct H; constructor; cbn; auto.
      + now rewrite map_fst_repl.
      + intros q w bq fq i I Hq Hi. rewrite poke_other; [eauto|]. left.
        destruct (string_dec q r) as [->|N].
        * exfalso. apply (Hdisj r); auto.
          rewrite <- r_outs0; apply in_map_iff; exists (r, w); auto.
        * intros ->. eapply (Hscr r q b b); eauto.
      + intros b' o' A B. rewrite poke_other; [auto|]. left. intros ->. eapply B; eauto.
      + intros l c' b' f' I Hl. apply in_repl in I as [[-> ->]|[N I]].
        * rewrite Hr in Hl; inv Hl. split.
          -- intros o' Ho'. destruct (Z.eq_dec o' (f' + lval k n o)) as [->|]; [now rewrite poke_same|].
             rewrite poke_other; auto.
          -- intros z e'. cbn. rewrite <- (lval_is_const k o C). destruct (Z.eqb_spec (lval k n o) z) as [<-|N].
             ++ intros E; inv E. apply poke_same.
             ++ intros E. rewrite poke_other; [auto|]. right. lia.
        * assert (b' <> b) by (intros ->; apply (Hscr r l b b f f'); auto).
          destruct (r_own0 _ _ _ _ I Hl) as [D3 D4]. split.
          -- intros o' Ho'. rewrite poke_other; auto.
          -- intros z e' E. rewrite poke_other; auto.
    - dob E. destruct (lin_eqb l o) eqn:L; [|discriminate]. apply lin_eqb_eq in L. subst l.
      inv E. inv Hc. inv H3. clear H5. cbn in H2, H4. specialize (H2 b f Hr).
      pose proof (get_in _ _ _ E0) as Iw.
      assert (Io : In r outs) by (rewrite <- (r_outs _ _ _ H); apply in_map_iff; exists (r, o); auto).
      assert (Fr : mem st b (f + lval k n o) = m0 b (f + lval k n o)).
      { apply (r_same _ _ _ H).
        - intros q w fq I Hq C.
          assert (In q outs) by (rewrite <- (r_outs _ _ _ H); apply in_map_iff; exists (q, w); auto).
          destruct (string_dec q r) as [->|N]; [|now apply (Houts q r b b fq f)].
          rewrite Hr in Hq; inv Hq. rewrite <- (r_outs _ _ _ H) in Hnd.
          rewrite (nodup_in _ _ _ _ Hnd I Iw) in C. lia.
        - intros l fl Il Hl.
          assert (r <> l) by (intros ->; now apply (Hdisj l)).
          now apply (Hscr l r b b fl f). }
      rewrite Fr. destruct (m0 b (f + lval k n o)) eqn:M; [|contradiction]. cbn.
      eexists; split; [reflexivity|]. destruct H; constructor; cbn; auto.
      + now rewrite map_fst_repl.
      + intros q w I. apply in_repl in I as [[-> ->]|[N I]]; [|eauto].
        rewrite lval_add, lval_const. specialize (r_pos0 _ _ Iw). lia.
      + intros q w bq fq i I Hq Hi. apply in_repl in I as [[-> ->]|[N I]].
        * rewrite Hr in Hq; inv Hq. rewrite lval_add, lval_const in Hi.
          destruct (Z.eq_dec i (lval k n o)) as [->|]; [rewrite poke_same; congruence|].
          rewrite poke_other by (right; lia). eapply r_out0; eauto. lia.
        * rewrite poke_other; [eauto|]. left. intros ->. apply (Houts q r b b fq f); auto.
          rewrite <- r_outs0; apply in_map_iff; exists (q, w); auto.
      + intros b' o' A B.
        assert (D : b' <> b \/ o' <> f + lval k n o).
        { destruct (Nat.eq_dec b' b) as [->|]; [right|now left].
          specialize (A r (ladd o (lconst 1)) f (repl_in_eq _ _ _ _ Iw) Hr).
          rewrite lval_add, lval_const in A. specialize (r_pos0 _ _ Iw). lia. }
        rewrite poke_other by exact D. apply r_same0; [|exact B].
        intros q w fq I Hq C. destruct (string_dec q r) as [->|N].
        * assert (E : w = o).
          { rewrite <- r_outs0 in Hnd. apply (nodup_in _ _ _ _ Hnd I Iw). }
          subst w. apply (A r (ladd o (lconst 1)) fq); [now apply (repl_in_eq _ _ o)|auto|].
          rewrite lval_add, lval_const. lia.
        * apply (A q w fq); auto. now apply repl_in.
      + intros l c' b' f' I Hl.
        assert (Il : In l scr) by (rewrite <- r_scr0; apply in_map_iff; exists (l, c'); auto).
        assert (b' <> b).
        { intros ->. apply (Hscr l r b b f' f); auto. intros ->. now apply (Hdisj l). }
        destruct (r_own0 _ _ _ _ I Hl) as [D1 D2]. split.
        * intros o' Ho'. rewrite poke_other; auto.
        * intros z e' E. rewrite poke_other; auto.
  Qed.

  Lemma seval_ok k : forall e st s v s' c, rep k st s -> seval al s e = Some (v, s', c) -> Forall (ok k) c ->
    exists st', eval st e = Val (den k v, st') /\ rep k st' s'.
  Proof.
    induction e; cbn; intros st s v s' c H E Hc.
    - dob E. inv E. rewrite (r_var _ _ _ H _ _ (get_in _ _ _ E0)); cbn. eauto.
    - dob E. destruct p as [[r o] s1]. dob E. destruct p as [e c1]. inv E.
      destruct (slocate_ok _ _ _ _ _ _ _ H E0) as (b & f & st1 & Hr & -> & H1). cbn.
      rewrite (sload_ok _ _ _ _ _ _ _ _ _ H1 Hr E1 Hc). cbn. eauto.
    - inv E. eauto.
    - dob E. destruct p as [[x s1] c1]. dob E. destruct p as [[y s2] c2]. inv E.
      apply Forall_app in Hc as [Hc1 Hc2].
      destruct (IHe1 _ _ _ _ _ H E0 Hc1) as (st1 & -> & H1). cbn.
      destruct (IHe2 _ _ _ _ _ H1 E1 Hc2) as (st2 & -> & H2). cbn. eauto.
    - dob E. destruct p as [[x s1] c1]. dob E. destruct p as [[y s2] c2]. inv E.
      apply Forall_app in Hc as [Hc1 Hc2].
      destruct (IHe1 _ _ _ _ _ H E0 Hc1) as (st1 & -> & H1). cbn.
      destruct (IHe2 _ _ _ _ _ H1 E1 Hc2) as (st2 & -> & H2). cbn. eauto.
    - dob E. destruct p as [[x s1] c1]. dob E. destruct p as [[y s2] c2]. inv E.
      apply Forall_app in Hc as [Hc1 Hc2].
      destruct (IHe1 _ _ _ _ _ H E0 Hc1) as (st1 & -> & H1). cbn.
      destruct (IHe2 _ _ _ _ _ H1 E1 Hc2) as (st2 & -> & H2). cbn. eauto.
    - dob E. destruct p as [[x s1] c1]. inv E.
      destruct (IHe _ _ _ _ _ H E0 Hc) as (st1 & -> & H1). cbn. eauto.
  Qed.

  (** ** The long loop *)
  Lemma den_gen k : forall a b c, gen_sexp a b = Some c -> den 0 c = den k a.
  Proof.
    induction a; intros b c; destruct b; cbn; try discriminate; intros E.
    - destruct (String.eqb_spec p p0); [|discriminate]. dob E. inv E. cbn. now rewrite (lval_gen k _ _ _ E0).
    - inv E. reflexivity.
    - dob E. dob E. inv E. cbn. now rewrite (IHa1 _ _ E0), (IHa2 _ _ E1).
    - dob E. dob E. inv E. cbn. now rewrite (IHa1 _ _ E0), (IHa2 _ _ E1).
    - dob E. dob E. inv E. cbn. now rewrite (IHa1 _ _ E0), (IHa2 _ _ E1).
    - dob E. inv E. cbn. now rewrite (IHa _ _ E0).
  Qed.
  Lemma den_shift k e : den k (shift_sexp e) = den (k + 1) e.
  Proof. induction e; cbn; rewrite ?lval_shift; congruence. Qed.
  Lemma den_subst k K e : ck K = 0 -> den k (subst_sexp K e) = den (lval 0 n K) e.
  Proof. intros H. induction e; cbn; rewrite ?lval_subst by exact H; congruence. Qed.

  Lemma in_gen_sv l l' x e : In (x, e) (gen_sv accs l l') ->
    exists a, In (x, a) l /\
      ((is_acc accs x = true /\ e = SAcc x rounds) \/
       (exists b, gen_sexp a b = Some e)).
  Proof.
    induction l as [|[y a] l IH]; cbn; [easy|].
    destruct (is_acc accs y) eqn:Y.
    - intros [E|I]; [inv E; eauto 8|]. destruct (IH I) as (a' & ? & ?); eauto.
    - destruct (get y l') as [b|]; [|intros I; destruct (IH I) as (a' & ? & ?); eauto].
      destruct (gen_sexp a b) eqn:G; [|intros I; destruct (IH I) as (a' & ? & ?); eauto].
      intros [E|I]; [inv E; eauto 8|]. destruct (IH I) as (a' & ? & ?); eauto.
  Qed.
  Lemma in_gen_si l l' x e : In (x, e) (gen_si l l') -> exists a b, In (x, a) l /\ gen_lin a b = Some e.
  Proof.
    induction l as [|[y a] l IH]; cbn; [easy|].
    destruct (get y l') as [b|]; [|intros I; destruct (IH I) as (a' & b' & ? & ?); eauto].
    destruct (gen_lin a b) eqn:G; [|intros I; destruct (IH I) as (a' & b' & ? & ?); eauto].
    intros [E|I]; [inv E; eauto 8|]. destruct (IH I) as (a' & b' & ? & ?); eauto.
  Qed.
  Lemma in_gen_sp l l' x r e : In (x, (r, e)) (gen_sp l l') ->
    exists a b, In (x, (r, a)) l /\ gen_lin a b = Some e.
  Proof.
    induction l as [|[y [q a]] l IH]; cbn; [easy|].
    destruct (get y l') as [[q' b]|]; [|intros I; destruct (IH I) as (a' & b' & ? & ?); eauto].
    destruct (String.eqb_spec q q'); [|intros I; destruct (IH I) as (a' & b' & ? & ?); eauto].
    destruct (gen_lin a b) eqn:G; [|intros I; destruct (IH I) as (a' & b' & ? & ?); eauto].
    intros [E|I]; [inv E; eauto 8|]. destruct (IH I) as (a' & b' & ? & ?); eauto.
  Qed.
  Lemma gen_sw_rel l l' w : gen_sw l l' = Some w ->
    map fst w = map fst l /\
    (forall q e, In (q, e) w -> exists a b, In (q, a) l /\ gen_lin a b = Some e) /\
    (forall q a, In (q, a) l -> exists e b, In (q, e) w /\ gen_lin a b = Some e).
  Proof.
    revert l' w. induction l as [|[y a] l IH]; intros [|[y' a'] l'] w; cbn; try discriminate.
    - intros E; inv E. cbn. repeat split; easy.
    - destruct (String.eqb_spec y y'); [|discriminate]. intros E. dob E. dob E. inv E.
      destruct (IH _ _ E1) as (A & B & C). cbn. split; [congruence|]. split.
      + intros q e [E|I]; [inv E; eauto 8|]. destruct (B _ _ I) as (? & ? & ? & ?); eauto.
      + intros q e [E|I]; [inv E; eauto 8|]. destruct (C _ _ I) as (? & ? & ? & ?); eauto.
  Qed.

  Lemma enter k st s s' inv : rep k st s -> gen accs s s' = Some inv -> Forall (ok k) (inits accs s) ->
    rep 0 st inv.
  Proof.
    unfold gen. intros H E Hc. dob E. inv E. destruct (gen_sw_rel _ _ _ E0) as (A & B & C).
    destruct H; constructor; cbn.
    - intros x e I. destruct (in_gen_sv _ _ _ _ I) as (a & Ia & [[X ->]|[b G]]).
      + rewrite (r_var0 _ _ Ia). f_equal. cbn. unfold inits in Hc. rewrite Forall_flat_map in Hc.
        rewrite Forall_forall in Hc. specialize (Hc _ Ia). cbn in Hc. rewrite X in Hc. inv Hc.
        cbn in H1. now rewrite <- H1.
      + rewrite (r_var0 _ _ Ia). now rewrite (den_gen k _ _ _ G).
    - intros x lx I. destruct (in_gen_si _ _ _ _ I) as (a & b & Ia & G).
      rewrite (r_int0 _ _ Ia). now rewrite (lval_gen k _ _ _ G).
    - intros x r o I. destruct (in_gen_sp _ _ _ _ _ I) as (a & b & Ia & G).
      rewrite (lval_gen k _ _ _ G). eauto.
    - congruence.
    - rewrite map_map. cbn. auto.
    - intros q w I. destruct (B _ _ I) as (a & b & Ia & G). rewrite (lval_gen k _ _ _ G). eauto.
    - intros q w b f i I Hq Hi. destruct (B _ _ I) as (a & b' & Ia & G).
      rewrite (lval_gen k _ _ _ G) in Hi. eauto.
    - intros b o D F. apply r_same0; auto. intros q w f I Hq.
      destruct (C _ _ I) as (e & b' & Ie & G). specialize (D _ _ _ Ie Hq).
      now rewrite (lval_gen k _ _ _ G) in D.
    - intros l' c b f I Hl. apply in_map_iff in I as ([l2 c2] & E & I). inv E.
      destruct (r_own0 _ _ _ _ I Hl). split; [auto|discriminate].
  Qed.

  Lemma again k st inv s : rep k st s -> preserved accs inv s = true -> Forall (ok k) (steps accs inv s) ->
    map fst (sl inv) = scr -> (forall l c, In (l, c) (sl inv) -> c = []) -> rep (k + 1) st inv.
  Proof.
    unfold preserved. rewrite !andb_true_iff. intros H [[[[P1 P2] P3] P4] P5] Hc Hs Hl.
    rewrite forallb_forall in P1, P2, P3.
    assert (W : map fst (sw s) = map fst (sw inv) /\
                (forall q w, In (q, w) (sw inv) -> In (q, shift w) (sw s)) /\
                (forall q w, In (q, w) (sw s) -> exists v, In (q, v) (sw inv) /\ w = shift v)).
    { clear - P4. revert P4. generalize (sw s), (sw inv).
      induction l as [|[q a] l IH]; intros [|[q' a'] l']; cbn; try discriminate.
      - intros _. repeat split; easy.
      - rewrite !andb_true_iff. intros [[E1 E2] E3]. apply String.eqb_eq in E1. apply lin_eqb_eq in E2.
        subst. destruct (IH _ E3) as (A & B & C). split; [congruence|]. split.
        + intros q w [E|I]; [inv E|]; auto.
        + intros q w [E|I]; [inv E; eauto 8|]. destruct (C _ _ I) as (v & ? & ?); eauto. }
    destruct W as (A & B & C).
    destruct H; constructor; cbn.
    - intros x e I. specialize (P1 _ I). cbn in P1. destruct (is_acc accs x) eqn:X.
      + apply andb_true_iff in P1 as [E G]. apply sexp_eqb_eq in E. subst e.
        destruct (get x (sv s)) as [e|] eqn:Gx; [|discriminate].
        rewrite (r_var0 _ _ (get_in _ _ _ Gx)). f_equal. cbn [den].
        unfold steps in Hc. rewrite Forall_flat_map, Forall_forall in Hc. specialize (Hc _ I). cbn in Hc.
        rewrite X, Gx in Hc. inv Hc. cbn in H1. rewrite lval_rounds. now symmetry.
      + destruct (get x (sv s)) as [e'|] eqn:Gx; [|discriminate]. apply sexp_eqb_eq in P1. subst e'.
        rewrite (r_var0 _ _ (get_in _ _ _ Gx)). now rewrite den_shift.
    - intros x l I. specialize (P2 _ I). cbn in P2.
      destruct (get x (si s)) as [e'|] eqn:Gx; [|discriminate]. apply lin_eqb_eq in P2. subst e'.
      rewrite (r_int0 _ _ (get_in _ _ _ Gx)). now rewrite lval_shift.
    - intros x r o I. specialize (P3 _ I). cbn in P3.
      destruct (get x (sp s)) as [[r' o']|] eqn:Gx; [|discriminate].
      apply andb_true_iff in P3 as [E1 E2]. apply String.eqb_eq in E1. apply lin_eqb_eq in E2. subst.
      rewrite <- lval_shift. eauto using get_in.
    - congruence.
    - auto.
    - intros q w I. rewrite <- lval_shift. eauto.
    - intros q w b f i I Hq Hi. rewrite <- lval_shift in Hi. eauto.
    - intros b o D F. apply r_same0; auto. intros q w f I Hq.
      destruct (C _ _ I) as (v & Iv & ->). rewrite lval_shift. eauto.
    - intros l c b f I Hl'. assert (In l scr) by (rewrite <- Hs; apply in_map_iff; exists (l, c); auto).
      rewrite <- r_scr0 in H. apply in_map_iff in H as ([l2 c2] & E & I2). cbn in E; subst l2.
      destruct (r_own0 _ _ _ _ I2 Hl'). split; [auto|]. rewrite (Hl _ _ I). discriminate.
  Qed.

  Lemma leave k st K inv : ck K = 0 -> rep (lval 0 n K) st inv -> (forall l c, In (l, c) (sl inv) -> c = []) ->
    rep k st (after K inv).
  Proof.
    intros HK H Hl. destruct H; constructor; cbn.
    - intros x e I. apply in_map_iff in I as ([y a] & E & I). inv E. cbn. rewrite den_subst by exact HK. eauto.
    - intros x l I. apply in_map_iff in I as ([y a] & E & I). inv E. cbn. rewrite lval_subst by exact HK. eauto.
    - intros x r o I. apply in_map_iff in I as ([y [q a]] & E & I). inv E. cbn.
      rewrite lval_subst by exact HK. eauto.
    - now rewrite map_map.
    - auto.
    - intros q w I. apply in_map_iff in I as ([y a] & E & I). inv E. cbn. rewrite lval_subst by exact HK. eauto.
    - intros q w b f i I Hq Hi. apply in_map_iff in I as ([y a] & E & I). inv E. cbn in Hi.
      rewrite lval_subst in Hi by exact HK. eauto.
    - intros b o D F. apply r_same0; auto. intros q w f I Hq.
      rewrite <- (lval_subst k) by exact HK. apply (D q (subst K w) f); [|auto].
      apply in_map_iff. exists (q, w); auto.
    - intros l c b f I Hl'. destruct (r_own0 _ _ _ _ I Hl'). split; [auto|]. rewrite (Hl _ _ I). discriminate.
  Qed.

  Lemma advance_ok k st s i step s' : rep k st s -> advance i step s = Some s' ->
    exists v, ints st i = Some v /\ rep k (set_int st i (v + Zpos step)) s'.
  Proof.
    unfold advance. intros H E. dob E. inv E. exists (lval k n l).
    rewrite (r_int _ _ _ H _ _ (get_in _ _ _ E0)). split; [reflexivity|].
    replace (lval k n l + Zpos step) with (lval k n (ladd l (lconst (Zpos step)))) by
      now rewrite lval_add, lval_const.
    now apply rep_int.
  Qed.

  Lemma srounds_ok k x y step K : srounds x y step = Some K ->
    ck K = 0 /\ 0 <= lval 0 n K /\ trips (lval k n x) (lval k n y) step = Z.to_nat (lval 0 n K).
  Proof.
    unfold srounds, trips. pose proof (lval_sub k y x) as D0. revert D0. generalize (lsub y x).
    intros d D0. rewrite <- D0. clear D0. destruct (_ && _) eqn:E; [|discriminate].
    destruct (_ && _) eqn:F in |- *; [|discriminate]. intros H; inv H.
    rewrite andb_true_iff in E, F. rewrite !Z.eqb_eq in E. rewrite !Z.leb_le in F.
    destruct E as [E1 E2], F as [F1 F2]. cbn [c0 ck cn] in *. split; [reflexivity|]. split.
    - unfold lval; cbn [c0 ck cn]. revert F1 F2. match goal with |- 0 <= ?b -> 0 <= ?a + ?b -> _ => generalize a, b end.
      clear - Hn. intros A B HB HA. assert (0 <= B * (n - 1)) by (apply Z.mul_nonneg_nonneg; lia). lia.
    - f_equal.
      unfold lval; cbn [c0 ck cn]. rewrite E1.
      assert (D : cn d = cn d / Zpos step * Zpos step).
      { rewrite (Z.div_mod (cn d) (Zpos step)) at 1 by easy. rewrite E2. ring. }
      rewrite D at 1.
      replace (c0 d + 0 * k + cn d / Zpos step * Zpos step * n + Zpos step - 1)
        with ((c0 d + Zpos step - 1) + (cn d / Zpos step * n) * Zpos step) by ring.
      rewrite Z.div_add by easy. ring.
  Qed.

  Definition cloop (f : state R -> res (state R)) i step : nat -> state R -> res (state R) :=
    fix loop (m : nat) (st : state R) : res (state R) :=
      match m with
      | O => Val st
      | S m' => bind (f st) (fun s1 => bind (of_option (ints s1 i)) (fun k => loop m' (set_int s1 i (k + Zpos step))))
      end.
  Definition sloop (f : sst -> option (sst * vcs)) i step : nat -> sst -> option (sst * vcs) :=
    fix loop (m : nat) (s : sst) : option (sst * vcs) :=
      match m with
      | O => Some (s, [])
      | S m' => do (s1, v1) <- f s; do s2 <- advance i step s1; do (s3, v2) <- loop m' s2; Some (s3, v1 ++ v2)
      end.
  Lemma cloop_S f i step m st : cloop f i step (S m) st =
    bind (f st) (fun s1 => bind (of_option (ints s1 i)) (fun k => cloop f i step m (set_int s1 i (k + Zpos step)))).
  Proof. reflexivity. Qed.
  Lemma sloop_S f i step m s : sloop f i step (S m) s =
    do (s1, v1) <- f s; do s2 <- advance i step s1; do (s3, v2) <- sloop f i step m s2; Some (s3, v1 ++ v2).
  Proof. reflexivity. Qed.

  Theorem sexec_ok : forall c k st s s' v, rep k st s -> sexec al accs c s = Some (s', v) -> Forall (ok k) v ->
    exists st', exec c st = Val st' /\ rep k st' s'.
  Proof.
    induction c as [ | c1 IH1 c2 IH2 | x e | l e | l e | l e | x e | p q e | e c IH | i a b step c IH ];
      intros k st s s' v H E Hv.
    - cbn in E. inv E. cbn. eauto.
    - cbn in E. dob E. destruct p as [s1 v1]. dob E. destruct p as [s2 v2]. inv E.
      apply Forall_app in Hv as [Hv1 Hv2]. cbn.
      destruct (IH1 _ _ _ _ _ H E0 Hv1) as (st1 & -> & H1). cbn. eauto.
    - cbn in E. dob E. destruct p as [[w s1] c1]. inv E.
      destruct (seval_ok _ _ _ _ _ _ _ H E0 Hv) as (st1 & Ev & H1). cbn. rewrite Ev. cbn.
      eexists; split; [reflexivity|]. now apply rep_var.
    - cbn in E. dob E. destruct p as [[w s1] c1]. dob E. destruct p as [[r o] s2]. dob E. destruct p as [s3 c2].
      inv E. apply Forall_app in Hv as [Hv1 Hv2].
      destruct (seval_ok _ _ _ _ _ _ _ H E0 Hv1) as (st1 & Ev & H1). cbn. rewrite Ev. cbn.
      destruct (slocate_ok _ _ _ _ _ _ _ H1 E1) as (b & f & st2 & Hr & -> & H2). cbn.
      apply (sstore_ok _ _ _ _ _ _ _ _ _ _ H2 Hr E2 Hv2).
    - cbn in E. dob E. destruct p as [[w s1] c1]. dob E. destruct p as [[r o] s2]. dob E. destruct p as [u c2].
      dob E. destruct p as [s3 c3]. inv E. apply Forall_app in Hv as [Hv1 Hv2]. apply Forall_app in Hv2 as [Hv2 Hv3].
      destruct (seval_ok _ _ _ _ _ _ _ H E0 Hv1) as (st1 & Ev & H1). cbn. rewrite Ev. cbn.
      destruct (slocate_ok _ _ _ _ _ _ _ H1 E1) as (b & f & st2 & Hr & -> & H2). cbn.
      rewrite (sload_ok _ _ _ _ _ _ _ _ _ H2 Hr E2 Hv2). cbn.
      apply (sstore_ok _ _ _ _ _ _ _ _ _ _ H2 Hr E3 Hv3).
    - cbn in E. dob E. destruct p as [[w s1] c1]. dob E. destruct p as [[r o] s2]. dob E. destruct p as [u c2].
      dob E. destruct p as [s3 c3]. inv E. apply Forall_app in Hv as [Hv1 Hv2]. apply Forall_app in Hv2 as [Hv2 Hv3].
      destruct (seval_ok _ _ _ _ _ _ _ H E0 Hv1) as (st1 & Ev & H1). cbn. rewrite Ev. cbn.
      destruct (slocate_ok _ _ _ _ _ _ _ H1 E1) as (b & f & st2 & Hr & -> & H2). cbn.
      rewrite (sload_ok _ _ _ _ _ _ _ _ _ H2 Hr E2 Hv2). cbn.
      apply (sstore_ok _ _ _ _ _ _ _ _ _ _ H2 Hr E3 Hv3).
    - cbn in E. dob E. inv E. cbn. rewrite (sieval_ok _ _ _ _ _ H E0). cbn.
      eexists; split; [reflexivity|]. now apply rep_int.
    - cbn in E. dob E. destruct p0 as [r o]. dob E. inv E.
      destruct (r_ptr _ _ _ H _ _ _ (get_in _ _ _ E0)) as (b & f & Hr & Hp).
      cbn. rewrite Hp, (sieval_ok _ _ _ _ _ H E1). cbn. rewrite <- Z.add_assoc, <- lval_add.
      eexists; split; [reflexivity|]. now apply rep_ptr.
    - cbn in E. dob E. cbn. rewrite (sieval_ok _ _ _ _ _ H E0). cbn.
      destruct (is_const l && _) eqn:C.
      + apply andb_true_iff in C as [C1 C2]. rewrite (lval_is_const k l C1).
        destruct (0 <? c0 l); [discriminate|]. inv E. eauto.
      + destruct (_ && _) eqn:D in E; [|discriminate].
        rewrite !andb_true_iff, Z.eqb_eq, Z.leb_le, Z.ltb_lt in D. destruct D as [[D1 D2] D3].
        assert (P : 0 <? lval k n l = true).
        { apply Z.ltb_lt. unfold lval. rewrite D1. nia. }
        rewrite P. eauto.
    - change (exec (For i a b step c) st) with
        (bind (ieval st a) (fun x => bind (ieval st b) (fun y =>
           cloop (exec c) i step (trips x y step) (set_int st i x)))).
      cbn [sexec] in E. dob E. dob E. rename l into x, l0 into y.
      rewrite (sieval_ok _ _ _ _ _ H E0), (sieval_ok _ _ _ _ _ H E1). cbn [bind].
      pose proof (rep_int k st s i x H) as H0.
      destruct (is_const x && is_const y) eqn:C.
      + apply andb_true_iff in C as [C1 C2]. rewrite (lval_is_const k x C1), (lval_is_const k y C2).
        rewrite (lval_is_const k x C1) in H0.
        change (sloop (sexec al accs c) i step (trips (c0 x) (c0 y) step) (s_int s i x) = Some (s', v)) in E.
        revert E H0 Hv. generalize (trips (c0 x) (c0 y) step), (set_int st i (c0 x)), (s_int s i x), v.
        clear - IH. induction n0 as [|m IHm]; intros st s v E H Hv.
        * cbn in E. inv E. exists st. auto.
        * rewrite sloop_S in E. rewrite cloop_S. dob E. destruct p as [s1 v1]. dob E. dob E. destruct p as [s3 v2]. inv E.
          apply Forall_app in Hv as [Hv1 Hv2].
          destruct (IH _ _ _ _ _ H E0 Hv1) as (st1 & -> & H1). cbn.
          destruct (advance_ok _ _ _ _ _ _ H1 E1) as (w & -> & H2). cbn. eauto.
      + dob E. rename l into K. dob E. destruct p as [s1 v1]. dob E. rename s0 into s2. dob E. rename s0 into inv0.
        dob E. destruct p as [s3 v3]. dob E. rename s0 into s4.
        destruct (_ && _) eqn:P in E; [|discriminate]. inv E.
        apply andb_true_iff in P as [P U].
        apply Forall_app in Hv as [Hi Hv]. apply Forall_app in Hv as [Hv Hs].
        destruct (srounds_ok k _ _ _ _ E2) as (HK & Kpos & ->).
        assert (Hsl : map fst (sl inv0) = scr /\ forall l c, In (l, c) (sl inv0) -> c = []).
        { revert E5. unfold gen. intros E5. dob E5. inv E5. cbn. split.
          - rewrite map_map. cbn. exact (r_scr _ _ _ H).
          - intros l2 c' I. apply in_map_iff in I as ([? ?] & I & _). inv I. reflexivity. }
        destruct Hsl as [Hs1 Hs2].
        assert (L : forall m j st, rep j st inv0 -> 0 <= j -> j + Z.of_nat m = lval 0 n K ->
                  exists st', cloop (exec c) i step m st = Val st' /\ rep (lval 0 n K) st' inv0).
        { clear H H0 Hi st. induction m as [|m IHm]; intros j st Hj Hj0 Hm.
          - cbn. exists st. replace (lval 0 n K) with j by lia. auto.
          - rewrite cloop_S.
            assert (V3 : Forall (ok j) v3).
            { apply Forall_forall. intros [t w] I. unfold untagged in U. rewrite forallb_forall in U.
              specialize (U _ I). cbn in U. destruct t; [discriminate|]. unfold ok. cbn.
              unfold tag in Hv. rewrite Forall_map, Forall_forall in Hv. specialize (Hv _ I). cbn in Hv.
              apply Hv. lia. }
            assert (V4 : Forall (ok j) (steps accs inv0 s4)).
            { apply Forall_forall. intros [t w] I.
              unfold tag in Hs. rewrite Forall_map, Forall_forall in Hs. specialize (Hs _ I). cbn in Hs.
              assert (T : t = None).
              { unfold steps in I. apply in_flat_map in I as ([y0 e0] & _ & I). cbn in I.
                destruct (is_acc accs y0); [|easy]. destruct (get y0 (sv s4)); [|easy].
                destruct I as [I|[]]. now inv I. }
              subst t. unfold ok. cbn. apply Hs. lia. }
            destruct (IH _ _ _ _ _ Hj E6 V3) as (st1 & -> & H1). cbn [bind].
            destruct (advance_ok _ _ _ _ _ _ H1 E7) as (w & -> & H2). cbn [bind of_option].
            apply (IHm (j + 1)); [|lia|lia]. eapply again; eauto. }
        destruct (L (Z.to_nat (lval 0 n K)) 0 (set_int st i (lval k n x))) as (st' & -> & H1).
        * eapply enter; eauto.
        * lia.
        * lia.
        * exists st'. split; [reflexivity|]. now apply leave.
  Qed.
End Sound.
