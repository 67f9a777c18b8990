From Coq Require Import List Bool Arith NArith Lia.
From Verif Require Import QioFileSpec QioFileModel QioFileProofs.
Import ListNotations.

(** A file whose handle was forgotten stays unfinished, whatever the program does. *)
Section Lost.
  Context {H D : Type}.
  Local Notation world := (world H D).

  Definition writes (w : world) (h p : nat) : Prop := exists rs, nth_error (hs w) h = Some (HWrite p rs).
  Definition points (w : world) (o h : nat) : Prop := exists b, nth_error (objs w) o = Some (Some b) /\ o_h b = Some h.

  (** The objects after a statement point where objects pointed before. *)
  Definition same_points (w w' : world) : Prop := forall o h, points w' o h -> exists o', points w o' h.

  (** The kinds of changes a statement makes. *)
  Inductive moves (w w' : world) : Prop :=
  | m_same : disk w' = disk w -> hs w' = hs w -> same_points w w' -> moves w w'
  | m_read : forall p rs, disk w' = disk w -> hs w' = hs w ++ [HRead p rs] ->
      (forall o h, points w' o h -> h = length (hs w) \/ exists o', points w o' h) -> moves w w'
  | m_write : forall p rs, disk w p <> Some Unfinished ->
      disk w' = upd (disk w) p (Some Unfinished) -> hs w' = hs w ++ [HWrite p rs] ->
      (forall o h, points w' o h -> h = length (hs w) \/ exists o', points w o' h) -> moves w w'
  | m_next : forall o h p rs rs', nth_error (hs w) h = Some (HRead p rs) -> points w o h ->
      disk w' = disk w -> hs w' = put (hs w) h (HRead p rs') -> same_points w w' -> moves w w'
  | m_more : forall o h p rs rs', nth_error (hs w) h = Some (HWrite p rs) -> points w o h ->
      disk w' = disk w -> hs w' = put (hs w) h (HWrite p rs') -> same_points w w' -> moves w w'
  | m_gone : forall o h, points w o h ->
      (disk w' = disk w \/ exists p rs, nth_error (hs w) h = Some (HWrite p rs) /\ disk w' = upd (disk w) p (Some (Whole rs))) ->
      hs w' = put (hs w) h HGone -> same_points w w' -> moves w w'.

  Lemma points_put : forall w o b b' d l h o', nth_error (objs w) o = Some (Some b) ->
    points {| disk := d; hs := l; objs := put (objs w) o (Some b') |} o' h -> (o_h b' = Some h \/ points w o' h).
  Proof.
    intros w o b b' d l h o' E (c & Ec & Hc). cbn in Ec. rewrite put_at in Ec. destruct (o' =? o).
    - destruct (nth_error (objs w) o'); [|discriminate]. injection Ec as <-. auto.
    - right. exists c. auto.
  Qed.

  Lemma handle_points : forall (w : world) o b h st, nth_error (objs w) o = Some (Some b) ->
    handle_at w b = Some (h, st) -> points w o h /\ nth_error (hs w) h = Some st.
  Proof.
    intros w o b h st E X. unfold handle_at in X. destruct (o_h b) as [h'|] eqn:Hh; [|discriminate].
    destruct (nth_error (hs w) h') eqn:N; [|discriminate]. injection X as <- <-. split; [exists b; auto|exact N].
  Qed.

  Lemma obj_at_nth : forall (w : world) o b, obj_at w o = Some b -> nth_error (objs w) o = Some (Some b).
  Proof.
    intros w o b E. unfold obj_at in E. destruct (nth_error (objs w) o) as [[c|]|]; congruence.
  Qed.

  Lemma same_refl : forall w d l, same_points w {| disk := d; hs := l; objs := objs w |}.
  Proof. intros w d l o h P. exists o. exact P. Qed.

  Lemma close_moves : forall w o ok w', close_obj w o ok = Some w' -> moves w w'.
  Proof.
    intros w o ok w' C. unfold close_obj in C. destruct (obj_at w o) as [b|] eqn:E; [|discriminate].
    apply obj_at_nth in E.
    assert (Sp : forall d l k st, same_points w {| disk := d; hs := l;
       objs := put (objs w) o (Some {| o_kind := k; o_state := st; o_iop := false; o_h := o_h b |}) |}).
    { intros d l k st o' h P. destruct (points_put _ _ _ _ _ _ _ _ E P) as [Q|Q]; [|exists o'; exact Q].
      exists o. exists b. auto. }
    destruct (o_iop b).
    - unfold qio_close in C. destruct (handle_at w b) as [[h st]|] eqn:X; [|discriminate].
      destruct (handle_points _ _ _ _ _ E X) as [P N].
      destruct st as [p rs|p rs|], (o_kind b); try discriminate; injection C as <-.
      + apply (m_gone _ _ o h P); cbn; auto.
      + apply (m_gone _ _ o h P); cbn; auto. destruct ok; [right; exists p, rs; auto | left; reflexivity].
    - injection C as <-. apply m_same; cbn; auto.
  Qed.

  Lemma open_points : forall w o b d l o' h, nth_error (objs w) o = Some (Some b) ->
    points {| disk := d; hs := l; objs := put (objs w) o (Some (opened b (length (hs w)))) |} o' h ->
    h = length (hs w) \/ exists o', points w o' h.
  Proof.
    intros w o b d l o' h E P. destruct (points_put _ _ _ _ _ _ _ _ E P) as [Q|Q].
    - cbn in Q. left. congruence.
    - right. exists o'. exact Q.
  Qed.

  Lemma step_moves : forall excl w x,
    match step excl w x with Ran w' _ => moves w w' | Stop w' => w' = w | Undefined => True end.
  Proof.
    intros excl w x. destruct x as [k|o p|o p m|o ok|o ok|o|o|o r ok|o|o|o|o bd|o]; cbn [step].
    - apply m_same; cbn; auto. intros o h (c & Ec & Hc). cbn in Ec. rewrite end_at in Ec. destruct (o =? _).
      + injection Ec as <-. discriminate.
      + exists o. exists c. auto.
    - destruct (obj_at w o) as [b|] eqn:E; [|exact I]. apply obj_at_nth in E.
      destruct (o_kind b); [|exact I]. destruct (disk w p) as [[rs|]|]; try exact I; [|reflexivity].
      apply (m_read _ _ p rs); cbn; auto. intros o' h P. apply (open_points _ _ _ _ _ _ _ E P).
    - destruct (obj_at w o) as [b|] eqn:E; [|exact I]. apply obj_at_nth in E.
      destruct (o_kind b); [exact I|]. destruct (existsb _ _); [exact I|].
      assert (Go : forall rs, disk w p <> Some Unfinished -> moves w
        {| disk := upd (disk w) p (Some Unfinished); hs := hs w ++ [HWrite p rs];
           objs := put (objs w) o (Some (opened b (length (hs w)))) |}).
      { intros rs Np. apply (m_write _ _ p rs Np); cbn; auto. intros o' h P. apply (open_points _ _ _ _ _ _ _ E P). }
      destruct (disk w p) as [[rs|]|]; [|exact I|].
      + destruct m; [destruct excl; [reflexivity|]|..]; apply Go; discriminate.
      + destruct m; apply Go; discriminate.
    - destruct (close_obj w o ok) as [w'|] eqn:C; [|exact I]. apply (close_moves _ _ _ _ C).
    - destruct (close_obj w o ok) as [w'|] eqn:C; [|exact I]. apply close_moves in C.
      assert (Sp : same_points w' {| disk := disk w'; hs := hs w'; objs := put (objs w') o None |}).
      { intros o' h (c & Ec & Hc). cbn in Ec. rewrite put_at in Ec. destruct (o' =? o).
        - destruct (nth_error (objs w') o'); discriminate.
        - exists o'. exists c. auto. }
      assert (Tr : same_points w w' -> same_points w {| disk := disk w'; hs := hs w'; objs := put (objs w') o None |}).
      { intros S o' h P. destruct (Sp _ _ P) as [o2 P2]. apply (S _ _ P2). }
      destruct C.
      + apply m_same; cbn; auto.
      + apply (m_read _ _ p rs); cbn; auto. intros o' h P. destruct (Sp _ _ P) as [o2 P2]. apply (H2 _ _ P2).
      + apply (m_write _ _ p rs); cbn; auto. intros o' h P. destruct (Sp _ _ P) as [o2 P2]. apply (H3 _ _ P2).
      + apply (m_next _ _ o0 h p rs rs'); cbn; auto.
      + apply (m_more _ _ o0 h p rs rs'); cbn; auto.
      + apply (m_gone _ _ o0 h); cbn; auto.
    - destruct (obj_at w o) as [b|] eqn:E; [|exact I]. destruct (o_kind b); [|exact I].
      destruct (handle_at w b) as [[h [p [|r rest]|p rs|]]|]; try exact I; [reflexivity|].
      apply m_same; auto. intros o' h' P. exists o'. exact P.
    - destruct (obj_at w o) as [b|] eqn:E; [|exact I]. apply obj_at_nth in E. destruct (o_kind b); [|exact I].
      destruct (handle_at w b) as [[h [p [|r rest]|p rs|]]|] eqn:X; try exact I; [reflexivity|].
      destruct (handle_points _ _ _ _ _ E X) as [P N].
      apply (m_next _ _ o h p (r :: rest) rest); cbn; auto. apply same_refl.
    - destruct (obj_at w o) as [b|] eqn:E; [|exact I]. apply obj_at_nth in E. destruct (o_kind b); [exact I|].
      destruct (handle_at w b) as [[h [p rest|p rs|]]|] eqn:X; try exact I.
      destruct (handle_points _ _ _ _ _ E X) as [P N]. destruct ok; [|reflexivity].
      apply (m_more _ _ o h p rs (rs ++ [r])); cbn; auto. apply same_refl.
    - destruct (obj_at w o); [|exact I]. apply m_same; auto. intros o' h' P. exists o'. exact P.
    - destruct (obj_at w o) as [b|]; [|exact I]. destruct (o_kind b); [|exact I].
      apply m_same; auto. intros o' h' P. exists o'. exact P.
    - destruct (obj_at w o) as [b|]; [|exact I]. destruct (o_state b); [|exact I].
      apply m_same; auto. intros o' h' P. exists o'. exact P.
    - destruct (obj_at w o) as [b|] eqn:E; [|exact I]. apply obj_at_nth in E. apply m_same; cbn; auto.
      intros o' h P. destruct (points_put _ _ _ _ _ _ _ _ E P) as [Q|Q]; [|exists o'; exact Q].
      exists o. exists b. auto.
    - destruct (obj_at w o) as [b|] eqn:E; [|exact I]. apply obj_at_nth in E. apply m_same; cbn; auto.
      intros o' h (c & Ec & Hc). cbn in Ec. rewrite end_at in Ec. destruct (o' =? _).
      + injection Ec as <-. exists o. exists b. auto.
      + exists o'. exists c. auto.
  Qed.

  (** Files being written are unfinished, each has one handle. *)
  Definition tidy (w : world) : Prop :=
    (forall h p, writes w h p -> disk w p = Some Unfinished) /\
    (forall h h' p, writes w h p -> writes w h' p -> h = h').

  Lemma writes_put : forall (w w' : world) h st, hs w' = put (hs w) h st ->
    (forall p rs, st = HWrite p rs -> writes w h p) -> forall h' p, writes w' h' p -> writes w h' p.
  Proof.
    intros w w' h st E S h' p (rs & N). rewrite E, put_at in N. destruct (Nat.eqb_spec h' h) as [Q|Q].
    - subst h'. destruct (nth_error (hs w) h); [|discriminate]. injection N as ->. apply (S _ _ eq_refl).
    - exists rs. exact N.
  Qed.

  Lemma moves_tidy : forall w w', moves w w' -> tidy w -> tidy w'.
  Proof.
    intros w w' M [T U]. destruct M as [Ed Eh _|p rs Ed Eh _|p rs Np Ed Eh _|o h p rs rs' N _ Ed Eh _|o h p rs rs' N _ Ed Eh _|o h _ Ed Eh _].
    - assert (W : forall h p, writes w' h p -> writes w h p) by (intros h p (rs & N); exists rs; congruence).
      split; [intros h p X; rewrite Ed; eauto | intros h h' p X Y; eauto].
    - assert (W : forall h p, writes w' h p -> writes w h p).
      { intros h q (rs1 & N). rewrite Eh, end_at in N. destruct (h =? _); [discriminate|]. exists rs1. exact N. }
      split; [intros h q X; rewrite Ed; eauto | intros h h' q X Y; eauto].
    - assert (W : forall h q, writes w' h q -> (h = length (hs w) /\ q = p) \/ (writes w h q /\ q <> p)).
      { intros h q (rs1 & N). rewrite Eh, end_at in N. destruct (Nat.eqb_spec h (length (hs w))) as [Q|Q].
        - injection N as <- _. auto.
        - right. assert (X : writes w h q) by (exists rs1; exact N). split; [exact X|].
          intros ->. apply Np. apply (T _ _ X). }
      split.
      + intros h q X. rewrite Ed. unfold upd. destruct (W _ _ X) as [[_ ->]|[Y Nq]].
        * rewrite Nat.eqb_refl. reflexivity.
        * destruct (Nat.eqb_spec q p); [contradiction|]. apply (T _ _ Y).
      + intros h h' q X Y. destruct (W _ _ X) as [[A1 A2]|[A1 A2]], (W _ _ Y) as [[B1 B2]|[B1 B2]]; try congruence.
        apply (U _ _ _ A1 B1).
    - assert (W := writes_put w w' h _ Eh ltac:(discriminate)).
      split; [intros h1 q X; rewrite Ed; eauto | intros h1 h' q X Y; eauto].
    - assert (W := writes_put w w' h (HWrite p rs') Eh ltac:(intros q r Q; injection Q as <- _; exists rs; exact N)).
      split; [intros h1 q X; rewrite Ed; eauto | intros h1 h' q X Y; eauto].
    - assert (W := writes_put w w' h _ Eh ltac:(discriminate)).
      assert (Ng : forall q, ~ writes w' h q).
      { intros q (rs & N). rewrite Eh, put_at, Nat.eqb_refl in N. destruct (nth_error (hs w) h); discriminate. }
      split; [|intros h1 h' q X Y; eauto].
      intros h1 q X. pose proof (W _ _ X) as X'. destruct Ed as [Ed|(p & rs & N & Ed)]; rewrite Ed.
      + apply (T _ _ X').
      + unfold upd. destruct (Nat.eqb_spec q p) as [->|Nq]; [|apply (T _ _ X')].
        assert (h1 = h) by (apply (U _ _ p X'); exists rs; exact N). subst h1. destruct (Ng _ X).
  Qed.

  (** Nobody points to the handle that writes [p]. *)
  Definition forgotten (w : world) (h p : nat) : Prop := writes w h p /\ forall o, ~ points w o h.

  Lemma moves_forgotten : forall w w' h p, moves w w' -> forgotten w h p -> forgotten w' h p.
  Proof.
    intros w w' h p M [(rs0 & W) F].
    assert (L : h < length (hs w)) by (apply nth_error_Some; congruence).
    destruct M as [Ed Eh Sp|q rs Ed Eh Sp|q rs Nq Ed Eh Sp|o h1 q rs rs' N P Ed Eh Sp|o h1 q rs rs' N P Ed Eh Sp|o h1 P Ed Eh Sp].
    - split; [exists rs0; congruence|]. intros o P. destruct (Sp _ _ P) as [o' Q]. apply (F _ Q).
    - split; [exists rs0; rewrite Eh, nth_error_app1 by exact L; exact W|].
      intros o P. destruct (Sp _ _ P) as [->|[o' Q]]; [lia|]. apply (F _ Q).
    - split; [exists rs0; rewrite Eh, nth_error_app1 by exact L; exact W|].
      intros o P. destruct (Sp _ _ P) as [->|[o' Q]]; [lia|]. apply (F _ Q).
    - split; [exists rs0; rewrite Eh, put_other; [exact W | intros ->; apply (F _ P)]|].
      intros o' P'. destruct (Sp _ _ P') as [o2 Q]. apply (F _ Q).
    - split; [exists rs0; rewrite Eh, put_other; [exact W | intros ->; apply (F _ P)]|].
      intros o' P'. destruct (Sp _ _ P') as [o2 Q]. apply (F _ Q).
    - split; [exists rs0; rewrite Eh, put_other; [exact W | intros ->; apply (F _ P)]|].
      intros o' P'. destruct (Sp _ _ P') as [o2 Q]. apply (F _ Q).
  Qed.

  Lemma run_tidy : forall excl l w, tidy w ->
    match run excl w l with Done w' _ => tidy w' | Stopped w' _ => tidy w' | NoMeaning => True end.
  Proof.
    induction l as [|x l IH]; intros w T; cbn; [exact T|].
    pose proof (step_moves excl w x) as M. destruct (step excl w x) as [w' y|w'|]; [|subst; exact T|exact I].
    specialize (IH w' (moves_tidy _ _ M T)). destruct (run excl w' l); auto.
  Qed.

  Lemma run_forgotten : forall excl l w h p, tidy w -> forgotten w h p ->
    match run excl w l with
    | Done w' _ => disk w' p = Some Unfinished
    | Stopped w' _ => disk w' p = Some Unfinished
    | NoMeaning => True
    end.
  Proof.
    induction l as [|x l IH]; intros w h p T F; cbn.
    - destruct F as [F _]. apply (proj1 T _ _ F).
    - pose proof (step_moves excl w x) as M. destruct (step excl w x) as [w' y|w'|]; [| |exact I].
      + specialize (IH w' h p (moves_tidy _ _ M T) (moves_forgotten _ _ _ _ M F)).
        destruct (run excl w' l); auto.
      + subst. destruct F as [F _]. apply (proj1 T _ _ F).
  Qed.

  (** ** Objects of programs that copy none point to different handles *)
  Definition apart (w : world) : Prop :=
    (forall o h, points w o h -> h < length (hs w)) /\
    (forall o o' h, points w o h -> points w o' h -> o = o').

  Definition copies (x : op H D) : bool := match x with Copy _ => true | _ => false end.

  Lemma apart_opened : forall w o b d st, nth_error (objs w) o = Some (Some b) -> apart w ->
    apart {| disk := d; hs := hs w ++ [st]; objs := put (objs w) o (Some (opened b (length (hs w)))) |}.
  Proof.
    intros w o b d st E [L U].
    assert (C : forall o' h, points {| disk := d; hs := hs w ++ [st]; objs := put (objs w) o (Some (opened b (length (hs w)))) |} o' h ->
              (o' = o /\ h = length (hs w)) \/ (o' <> o /\ points w o' h)).
    { intros o' h (c & Ec & Hc). cbn in Ec. rewrite put_at in Ec. destruct (Nat.eqb_spec o' o) as [->|Q].
      - rewrite E in Ec. injection Ec as <-. cbn in Hc. left. split; congruence.
      - right. split; [exact Q|]. exists c. auto. }
    split.
    - intros o' h P. cbn. rewrite app_length. cbn. destruct (C _ _ P) as [[_ ->]|[_ Q]]; [lia|]. specialize (L _ _ Q). lia.
    - intros o1 o2 h P1 P2. destruct (C _ _ P1) as [[-> ->]|[N1 Q1]], (C _ _ P2) as [[-> X]|[N2 Q2]]; auto.
      + specialize (L _ _ Q2). lia.
      + specialize (L _ _ Q1). lia.
      + apply (U _ _ _ Q1 Q2).
  Qed.

  Lemma apart_same : forall w w', (forall o h, points w' o h -> points w o h) -> length (hs w') = length (hs w) -> apart w -> apart w'.
  Proof.
    intros w w' S E [L U]. split.
    - intros o h P. rewrite E. apply (L o h (S _ _ P)).
    - intros o o' h P Q. apply (U _ _ h (S _ _ P) (S _ _ Q)).
  Qed.

  Lemma put_same_handle : forall (w : world) o b b' d l, nth_error (objs w) o = Some (Some b) -> o_h b' = o_h b ->
    forall o' h, points {| disk := d; hs := l; objs := put (objs w) o (Some b') |} o' h -> points w o' h.
  Proof.
    intros w o b b' d l E Eh o' h (c & Ec & Hc). cbn in Ec. rewrite put_at in Ec. destruct (Nat.eqb_spec o' o) as [->|Q].
    - rewrite E in Ec. injection Ec as <-. exists b. split; [exact E|congruence].
    - exists c. auto.
  Qed.

  Lemma close_apart : forall w o ok w', close_obj w o ok = Some w' -> apart w -> apart w'.
  Proof.
    intros w o ok w' C A. unfold close_obj in C. destruct (obj_at w o) as [b|] eqn:E; [|discriminate].
    apply obj_at_nth in E. destruct (o_iop b).
    - unfold qio_close in C. destruct (handle_at w b) as [[h st]|] eqn:X; [|discriminate].
      destruct st as [p rs|p rs|], (o_kind b); try discriminate; injection C as <-;
        (apply (apart_same w); [| cbn; rewrite put_length; reflexivity | exact A]);
        apply (put_same_handle _ _ _ _ _ _ E); reflexivity.
    - injection C as <-. apply (apart_same w); [|reflexivity|exact A].
      apply (put_same_handle _ _ _ _ _ _ E). reflexivity.
  Qed.

  Lemma step_apart : forall excl w x, copies x = false -> apart w ->
    match step excl w x with Ran w' _ => apart w' | Stop w' => apart w' | Undefined => True end.
  Proof.
    intros excl w x C A. destruct x as [k|o p|o p m|o ok|o ok|o|o|o r ok|o|o|o|o bd|o]; cbn [step]; try discriminate.
    - apply (apart_same w); [|reflexivity|exact A]. intros o h (c & Ec & Hc). cbn in Ec. rewrite end_at in Ec.
      destruct (o =? _); [injection Ec as <-; discriminate|]. exists c. auto.
    - destruct (obj_at w o) as [b|] eqn:E; [|exact I]. apply obj_at_nth in E.
      destruct (o_kind b); [|exact I]. destruct (disk w p) as [[rs|]|]; try exact I; [|exact A].
      apply apart_opened; auto.
    - destruct (obj_at w o) as [b|] eqn:E; [|exact I]. apply obj_at_nth in E.
      destruct (o_kind b); [exact I|]. destruct (existsb _ _); [exact I|].
      destruct (disk w p) as [[rs|]|]; [|exact I|].
      + destruct m; [destruct excl; [exact A|]|..]; apply apart_opened; auto.
      + destruct m; apply apart_opened; auto.
    - destruct (close_obj w o ok) as [w'|] eqn:X; [|exact I]. apply (close_apart _ _ _ _ X A).
    - destruct (close_obj w o ok) as [w'|] eqn:X; [|exact I]. apply close_apart in X; [|exact A].
      apply (apart_same w'); [|reflexivity|exact X]. intros o' h (c & Ec & Hc). cbn in Ec. rewrite put_at in Ec.
      destruct (o' =? o); [destruct (nth_error (objs w') o'); discriminate|]. exists c. auto.
    - destruct (obj_at w o) as [b|]; [|exact I]. destruct (o_kind b); [|exact I].
      destruct (handle_at w b) as [[h [p [|r rest]|p rs|]]|]; try exact I; exact A.
    - destruct (obj_at w o) as [b|]; [|exact I]. destruct (o_kind b); [|exact I].
      destruct (handle_at w b) as [[h [p [|r rest]|p rs|]]|]; try exact I; [exact A|].
      apply (apart_same w); [intros o' h' P; exact P | cbn; apply put_length | exact A].
    - destruct (obj_at w o) as [b|]; [|exact I]. destruct (o_kind b); [exact I|].
      destruct (handle_at w b) as [[h [p rest|p rs|]]|]; try exact I. destruct ok; [|exact A].
      apply (apart_same w); [intros o' h' P; exact P | cbn; apply put_length | exact A].
    - destruct (obj_at w o); [exact A|exact I].
    - destruct (obj_at w o) as [b|]; [|exact I]. destruct (o_kind b); [exact A|exact I].
    - destruct (obj_at w o) as [b|]; [|exact I]. destruct (o_state b); [exact A|exact I].
    - destruct (obj_at w o) as [b|] eqn:E; [|exact I]. apply obj_at_nth in E.
      apply (apart_same w); [|reflexivity|exact A]. apply (put_same_handle _ _ _ _ _ _ E). reflexivity.
  Qed.

  Lemma run_apart : forall excl l w, forallb (fun x => negb (copies x)) l = true -> apart w ->
    match run excl w l with Done w' _ => apart w' | Stopped w' _ => apart w' | NoMeaning => True end.
  Proof.
    induction l as [|x l IH]; intros w C A; cbn; [exact A|]. cbn in C. apply andb_prop in C. destruct C as [C1 C2].
    apply negb_true_iff in C1. pose proof (step_apart excl w x C1 A) as S.
    destruct (step excl w x) as [w' y|w'|]; [|exact S|exact I].
    specialize (IH w' C2 S). destruct (run excl w' l); auto.
  Qed.

  Lemma world0_tidy : forall d, tidy (world0 d).
  Proof. intro d. split; [intros h p (rs & N)|intros h h' p (rs & N)]; destruct h; discriminate. Qed.
  Lemma world0_apart : forall d, apart (world0 d).
  Proof. intro d. split; [intros o h (b & N & _)|intros o o' h (b & N & _)]; destruct o; discriminate. Qed.

  (** Opening an open writer forgets its handle. *)
  Lemma reopen_forgets : forall excl w o b h p x w' y, (exists q m, x = OpenWrite o q m) ->
    apart w -> nth_error (objs w) o = Some (Some b) -> o_h b = Some h -> writes w h p ->
    step excl w x = Ran w' y -> forgotten w' h p.
  Proof.
    intros excl w o b h p x w' y (q & m & ->) [L U] E Hh (rs0 & W) S. cbn in S.
    assert (Eb : obj_at w o = Some b) by (unfold obj_at; rewrite E; reflexivity). rewrite Eb in S.
    assert (Lh : h < length (hs w)) by (apply nth_error_Some; congruence).
    assert (Go : forall d st, forgotten {| disk := d; hs := hs w ++ [st]; objs := put (objs w) o (Some (opened b (length (hs w)))) |} h p).
    { intros d st. split.
      - exists rs0. cbn. rewrite nth_error_app1 by exact Lh. exact W.
      - intros o' (c & Ec & Hc). cbn in Ec. rewrite put_at in Ec. destruct (Nat.eqb_spec o' o) as [->|Q].
        + rewrite E in Ec. injection Ec as <-. cbn in Hc. injection Hc as Hc. lia.
        + apply Q. apply (U _ _ h); [exists c; auto | exists b; auto]. }
    destruct (o_kind b); [discriminate|]. destruct (existsb _ _); [discriminate|].
    destruct (disk w q) as [[rs|]|]; [|discriminate|].
    - destruct m; [destruct excl; [discriminate|]|..]; injection S as <- _; apply Go.
    - destruct m; injection S as <- _; apply Go.
  Qed.

  Lemma run_app : forall excl (l l' : list (op H D)) (w : world),
    run excl w (l ++ l') =
    match run excl w l with
    | Done w' ys => match run excl w' l' with
                    | Done w'' zs => Done w'' (ys ++ zs)
                    | Stopped w'' zs => Stopped w'' (ys ++ zs)
                    | NoMeaning => NoMeaning
                    end
    | Stopped w' ys => Stopped w' ys
    | NoMeaning => NoMeaning
    end.
  Proof.
    induction l as [|x l IH]; intros l' w; cbn.
    - destruct (run excl w l'); reflexivity.
    - destruct (step excl w x) as [w' y|w'|]; [|reflexivity|reflexivity]. rewrite IH.
      destruct (run excl w' l) as [w2 ys|w2 ys|]; [|reflexivity|reflexivity].
      destruct (run excl w2 l'); reflexivity.
  Qed.
End Lost.
