(** Proofs about XML input: which texts are read as one number. *)
From Coq Require Import String List Arith NArith ZArith Bool Sorted Ascii Lia.
From Verif Require Import Base NerscHeader NerscText XmlModel XmlSpec XmlProofs XmlRound.
Import ListNotations.
Local Open Scope nat_scope.
Local Notation length := List.length.

Lemma skip_split s : exists ws, spaces ws /\ s = ws ++ skip_ws s.
Proof.
  induction s as [|c s (ws & H & E)]; [exists []; split; [constructor|reflexivity]|]. cbn [skip_ws]. destruct (is_space c) eqn:S.
  - exists (c :: ws). split; [now constructor|]. cbn [app]. now rewrite <- E.
  - exists []. split; [constructor|reflexivity].
Qed.
Lemma digit_ten c d : digit 10 c = Some d -> (48 <= c <= 57)%N /\ d = (c - 48)%N.
Proof.
  intros H. assert (A : (48 <= c <= 57)%N \/ ~ (48 <= c <= 57)%N) by lia. destruct A as [A|A].
  - split; [exact A|]. rewrite (digit10 c A) in H. now inversion H.
  - rewrite (digit10_none c A) in H. discriminate.
Qed.
Lemma digits_split s : forall n a q m r, digits 10 n a s = (q, m, r) ->
  exists ds, s = ds ++ r /\ q = n + length ds /\ Forall (fun c => (48 <= c <= 57)%N) ds /\ m = fold_left (fun a c => (10 * a + (c - 48))%N) ds a.
Proof.
  induction s as [|c s IH]; intros n a q m r H; cbn [digits] in H.
  - inversion H; subst. exists []. cbn [length]. split; [reflexivity|]. split; [lia|]. split; [constructor|reflexivity].
  - destruct (digit 10 c) as [d|] eqn:D.
    + destruct (digit_ten c d D) as [R ->]. destruct (IH _ _ _ _ _ H) as (ds & -> & -> & F & ->).
      exists (c :: ds). cbn [length app fold_left]. split; [reflexivity|]. split; [lia|]. split; [now constructor|reflexivity].
    + inversion H; subst. exists []. cbn [length]. split; [reflexivity|]. split; [lia|]. split; [constructor|reflexivity].
Qed.
Lemma extract_got k s z r : extract k s = Got z r -> exists ws tok neg m, s = ws ++ tok ++ r /\ spaces ws /\ numeral tok neg m /\ means k neg m z.
Proof.
  unfold extract. destruct (skip_split s) as (ws & H & E). destruct (skip_ws s) as [|c s1] eqn:K; [discriminate|].
  destruct (sign (c :: s1)) as [neg s2] eqn:SG. destruct (digits 10 0 0 s2) as [[q m] r'] eqn:D.
  destruct (digits_split _ _ _ _ _ _ D) as (ds & E2 & EQ & F & EM). destruct q as [|q]; [discriminate|].
  destruct (fits k neg m) as [z'|] eqn:FI; [|discriminate]. intros HG. inversion HG; subst z' r'. clear HG. rewrite E.
  assert (DD : dec_digits ds) by (split; [intros ->; cbn [length] in EQ; lia|exact F]).
  apply means_fits in FI. cbn [Nat.add] in EQ. change (m = dec_value ds) in EM. subst m s2.
  cbn [sign] in SG. destruct (N.eqb_spec c 45) as [->|N1]; [|destruct (N.eqb_spec c 43) as [->|N2]]; inversion SG; subst.
  - exists ws, (45%N :: ds), true, (dec_value ds). split; [reflexivity|]. split; [exact H|]. split; [now constructor|exact FI].
  - exists ws, (43%N :: ds), false, (dec_value ds). split; [reflexivity|]. split; [exact H|]. split; [now constructor|exact FI].
  - exists ws, ds, false, (dec_value ds). split; [|split; [exact H|split; [now constructor|exact FI]]].
    f_equal. congruence.
Qed.
Lemma at_end_nil s : at_end s = true <-> s = [].
Proof. destruct s; split; intros H; try reflexivity; discriminate. Qed.
Lemma skip_nil s : skip_ws s = [] -> spaces s.
Proof. intros H. destruct (skip_split s) as (ws & S & E). rewrite H, app_nil_r in E. now subst. Qed.
Lemma stops_spaces ws : spaces ws -> stops ws.
Proof. destruct ws as [|c r]; intros H; [apply stops_nil|]. inversion H; subst. now apply stops_space. Qed.

Lemma word_split s : s = word_of s ++ skipn (length (word_of s)) s.
Proof. induction s as [|c s IH]; [reflexivity|]. cbn [word_of]. destruct (is_space c); [reflexivity|]. cbn [length skipn app]. now rewrite <- IH. Qed.
Lemma word_of_word tok b : Forall (fun c => is_space c = false) tok -> spaces b -> word_of (tok ++ b) = tok.
Proof.
  intros H S. induction H as [|c t H _ IH].
  - cbn [app]. destruct b as [|c b]; [reflexivity|]. inversion S; subst. cbn [word_of]. now rewrite H1.
  - cbn [app word_of]. now rewrite H, IH.
Qed.
Lemma skipn_length_app {A} (a b : list A) : skipn (length a) (a ++ b) = b.
Proof. induction a as [|x a IH]; [reflexivity|]. exact IH. Qed.
Lemma get_num_one k s z : get_num k s = Ret z <-> one_number k s z.
Proof.
  assert (G : (forall k', k = k' -> k' <> KBool -> (match extract k' s with Got z r => if at_end (skip_ws r) then Ret z else Raise | Fail _ => Raise end = Ret z <->
    exists a tok b, s = a ++ tok ++ b /\ spaces a /\ spaces b /\ exists neg m, numeral tok neg m /\ means k' neg m z))).
  { intros k' _ _. split.
    - destruct (extract k' s) as [z' r|] eqn:E; [|discriminate]. destruct (at_end (skip_ws r)) eqn:A; [|discriminate]. intros [= ->].
      destruct (extract_got _ _ _ _ E) as (a & tok & neg & m & -> & S & N & M). exists a, tok, r. split; [reflexivity|]. split; [exact S|].
      split; [apply skip_nil; now apply at_end_nil|]. now exists neg, m.
    - intros (a & tok & b & -> & Sa & Sb & neg & m & N & M). rewrite (extract_numeral k' a tok neg m b Sa N (stops_spaces b Sb)).
      apply means_fits in M. rewrite M. now rewrite (skip_spaces_all b Sb). }
  destruct k as [n|n|]; [apply (G (Signed n) eq_refl); discriminate|apply (G (Unsigned n) eq_refl); discriminate|]. clear G.
  cbn [get_num one_number]. split.
  - destruct (skip_split s) as (a & Sa & Ea). set (w := skip_ws s) in *. pose proof (word_split w) as W. intros H.
    destruct (at_end (skip_ws (skipn (length (word_of w)) w))) eqn:A; [|discriminate].
    exists a, (word_of w), (skipn (length (word_of w)) w). split; [now rewrite <- W, <- Ea|]. split; [exact Sa|].
    split; [apply skip_nil; now apply at_end_nil|].
    destruct (same (word_of w) (txt "true")) eqn:T; [left; split; [now apply same_spec|now inversion H]|].
    destruct (same (word_of w) (txt "false")) eqn:F; [right; split; [now apply same_spec|now inversion H]|discriminate].
  - intros (a & tok & b & -> & Sa & Sb & T). rewrite (skip_spaces a _ Sa).
    assert (C : Forall (fun c => is_space c = false) tok /\ exists c r, tok = c :: r).
    { destruct T as [[-> _]|[-> _]]; (split; [vm_compute; repeat constructor|vm_compute; eauto]). }
    destruct C as [C (c & r & EC)]. assert (K : skip_ws (tok ++ b) = tok ++ b).
    { rewrite EC. cbn [app skip_ws]. rewrite EC in C. inversion C as [|? ? C1 C2]; subst. now rewrite C1. }
    rewrite K, (word_of_word tok b C Sb), skipn_length_app, (skip_spaces_all b Sb). cbn [at_end].
    destruct T as [[-> ->]|[-> ->]]; vm_compute; reflexivity.
Qed.
Lemma get_num_raise k s : (forall z, get_num k s <> Ret z) -> get_num k s = Raise.
Proof.
  intros H. destruct (get_num k s) as [z| | |] eqn:E; [now destruct (H z)|reflexivity| |]; exfalso; revert E; clear;
  destruct k; cbn [get_num]; repeat match goal with |- context [match ?x with _ => _ end] => destruct x end; discriminate.
Qed.
