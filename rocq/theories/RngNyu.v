From Coq Require Import List Arith ZArith Bool Lia.
From Coq Require Import ZifyBool ZifyNat.
From Verif Require Import Base EvalModel RngModel RngSpec RngProofs.
Import ListNotations.
Local Open Scope Z_scope.
Ltac Zify.zify_post_hook ::= Z.div_mod_to_equations.

(** In-range RANNYU states: what setrn with 12-bit words gives, and every later state. *)
Definition ranny_ok (l : ranny) : Prop :=
  0 <= ll0 l <= 4395 /\ 0 <= ll1 l < 4096 /\ 0 <= ll2 l < 4096 /\ 0 <= ll3 l < 4096.
Definition low36 (l : ranny) : Z := 2 ^ 24 * ll1 l + 2 ^ 12 * ll2 l + ll3 l.


Lemma rannyu_step_ok l : ranny_ok l ->
  exists l', rannyu_step l = Val l' /\ ranny_ok l' /\
    low36 l' = (rannyu_multiplier * low36 l + 1) mod 2 ^ 36.
Proof.
  intros H. destruct l as [a b c d]. unfold ranny_ok, low36, rannyu_step, rannyu_multiplier in *.
  cbn [ll0 ll1 ll2 ll3] in *.
  assert (SB : forall x, 0 <= x -> 0 <= Z.shiftr x 12 <= x) by (clear; intros x Hx; rewrite shiftr12; lia).
  set (i3 := d * 821 + 1). set (i2 := c * 821 + d * 3513 + Z.shiftr i3 12).
  set (i1 := b * 821 + c * 3513 + d * 1 + Z.shiftr i2 12).
  set (i0 := a * 821 + b * 3513 + c * 1 + d * 0 + Z.shiftr i1 12).
  assert (B3 : 0 <= i3 <= 3361996) by (subst i3; lia).
  assert (D3 : i3 = 4096 * Z.shiftr i3 12 + i3 mod 4096) by (rewrite shiftr12; clearbody i3; clear; lia).
  assert (B2 : 0 <= i2 <= 17748551).
  { subst i2. rewrite shiftr12. clearbody i3. lia. }
  assert (D2 : i2 = 4096 * Z.shiftr i2 12 + i2 mod 4096) by (rewrite shiftr12; clearbody i2; clear; lia).
  assert (B1 : 0 <= i1 <= 17756158).
  { subst i1. rewrite shiftr12. clearbody i2. lia. }
  assert (D1 : i1 = 4096 * Z.shiftr i1 12 + i1 mod 4096) by (rewrite shiftr12; clearbody i1; clear; lia).
  assert (B0 : 0 <= i0 <= 18002545).
  { subst i0. rewrite shiftr12. clearbody i1. lia. }
  exists (mkR (Z.shiftr i0 12) (Z.land i1 4095) (Z.land i2 4095) (Z.land i3 4095)).
  split; [|split].
  - pose proof (SB i3 ltac:(lia)) as S3. pose proof (SB i2 ltac:(lia)) as S2. pose proof (SB i1 ltac:(lia)) as S1.
    clear SB D1 D2 D3.
    repeat (match goal with
            | |- bind (imul ?x ?y) _ = _ => rewrite (imul_ok x y) by (clear - H; lia); cbn [bind]
            | |- bind (iadd ?x ?y) _ = _ =>
                first [ rewrite (iadd_ok x y) by (clear - H; lia)
                      | rewrite (iadd_ok x y) by (change (-2147483648 <= i2 <= 2147483647); lia)
                      | rewrite (iadd_ok x y) by (change (-2147483648 <= i1 <= 2147483647); lia)
                      | rewrite (iadd_ok x y) by (change (-2147483648 <= i0 <= 2147483647); lia) ];
                cbn [bind]
            end).
    reflexivity.
  - cbn [ll0 ll1 ll2 ll3]. rewrite !land4095, shiftr12. clearbody i0 i1 i2 i3. lia.
  - cbn [ll0 ll1 ll2 ll3]. rewrite !land4095.
    assert (E3 : i3 = d * 821 + 1) by reflexivity.
    assert (E2 : i2 = c * 821 + d * 3513 + Z.shiftr i3 12) by reflexivity.
    assert (E1 : i1 = b * 821 + c * 3513 + d * 1 + Z.shiftr i2 12) by reflexivity.
    clearbody i0 i1 i2 i3. rewrite D1 in E1. rewrite D2 in E2. rewrite D3 in E3.
    set (q3 := Z.shiftr i3 12) in *. set (q2 := Z.shiftr i2 12) in *. set (q1 := Z.shiftr i1 12) in *.
    assert (R3 : 0 <= i3 mod 4096 < 4096) by (apply Z.mod_pos_bound; lia).
    assert (R2 : 0 <= i2 mod 4096 < 4096) by (apply Z.mod_pos_bound; lia).
    assert (R1 : 0 <= i1 mod 4096 < 4096) by (apply Z.mod_pos_bound; lia).
    set (r3 := i3 mod 4096) in *. set (r2 := i2 mod 4096) in *. set (r1 := i1 mod 4096) in *.
    clearbody q1 q2 q3 r1 r2 r3.
    pow2. apply Z.mod_unique_pos with (q := q1 + c + 3513 * b + 4096 * b); [lia|].
    clear - E1 E2 E3. lia.
Qed.

Lemma rannyu_ran_bound l : ranny_ok l -> 0 <= rannyu_ran l < 4396 * 2 ^ 36.
Proof. unfold ranny_ok, rannyu_ran. pow2. lia. Qed.

(** The generator run [n] times from a state. *)
Fixpoint rannyu_iter (n : nat) (l : ranny) : res ranny :=
  match n with O => Val l | S n' => bind (rannyu_step l) (rannyu_iter n') end.

Lemma rannyu_iter_ok n : forall l, ranny_ok l -> exists l', rannyu_iter n l = Val l' /\ ranny_ok l'.
Proof.
  induction n as [|n IH]; intros l H; [exists l; split; [reflexivity|exact H]|].
  cbn [rannyu_iter]. destruct (rannyu_step_ok l H) as (l1 & E & H1 & _). rewrite E. cbn [bind]. apply IH, H1.
Qed.

(** The numbers drawn by [n] successive calls of random(), and the final state. *)
Fixpoint rannyu_draw (n : nat) (st : rstate) : res (list Z * rstate) :=
  match n with
  | O => Val ([], st)
  | S n' => bind (rannyu_random st) (fun p =>
            bind (rannyu_draw n' (snd p)) (fun q => Val (fst p :: fst q, snd q)))
  end.
(** The numbers of [n] calls of the state-passing generator. *)
Fixpoint rannyu_numbers (n : nat) (l : ranny) : res (list Z) :=
  match n with
  | O => Val []
  | S n' => bind (rannyu_pure l) (fun p => bind (rannyu_numbers n' (snd p)) (fun q => Val (fst p :: q)))
  end.

Lemma rannyu_draw_inited n : forall l, bind (rannyu_draw n {| rs_seed := Some l; rs_inited := true |}) (fun p => Val (fst p))
  = rannyu_numbers n l.
Proof.
  induction n as [|n IH]; intros l; [reflexivity|].
  cbn [rannyu_draw rannyu_numbers]. unfold rannyu_random, rannyu_pure. cbn [rs_inited rs_seed of_option bind].
  destruct (rannyu_step l) as [l'| |]; cbn [bind fst snd]; try reflexivity.
  rewrite <- IH. destruct (rannyu_draw n _) as [[xs st]| |]; reflexivity.
Qed.

(** random() has been called: the flag stays set. *)
Lemma rannyu_draw_flag n st xs st' : (0 < n)%nat \/ rs_inited st = true -> rannyu_draw n st = Val (xs, st') ->
  rs_inited st' = true.
Proof.
  revert st xs st'. induction n as [|n IH]; intros st xs st' Hn E.
  - cbn [rannyu_draw] in E. injection E as <- <-. destruct Hn as [H|H]; [lia|exact H].
  - cbn [rannyu_draw] in E. destruct (rannyu_random st) as [[x st1]| |] eqn:E1; cbn [bind fst snd] in E; try discriminate.
    destruct (rannyu_draw n st1) as [[xs2 st2]| |] eqn:E2; cbn [bind fst snd] in E; try discriminate.
    injection E as <- <-. apply (IH st1 xs2 st2); [right|exact E2].
    unfold rannyu_random in E1. destruct (rs_inited st) eqn:Fl.
    + destruct (rs_seed st) as [l|]; cbn [of_option bind] in E1; try discriminate.
      destruct (rannyu_step l); cbn [bind] in E1; try discriminate. injection E1 as <- <-. exact Fl.
    + cbn [rs_seed rs_inited of_option bind] in E1.
      destruct (rannyu_step rannyu_default); cbn [bind] in E1; try discriminate. injection E1 as <- <-. reflexivity.
Qed.
