(** C87: XML input on several nodes. *)
From Coq Require Import String List Arith NArith ZArith Bool Ascii Lia.
From Verif Require Import Base NerscHeader NerscText XmlModel XmlSpec XmlProofs XmlRound XmlOne XmlNodesModel XmlNodesProofs.
Import ListNotations.
Local Open Scope nat_scope.
Local Notation length := List.length.

(** The primary node does what a single node does. *)
Theorem C87_primary t x p : fst (fst (run0 x (read_prog t p))) = read t x p.
Proof. exact (res0_read t x p). Qed.

(** As long as no query fails, every program has the same result on all nodes, and every message is received. *)
Theorem C87_agree A x (p : prog A) r ms : moderate x -> run0 x p = (r, ms, false) -> forall rest, run1 p (ms ++ rest) = Ends r rest.
Proof. intros M H. now apply (in_step x p M). Qed.

Lemma strict_ok {A} x (p : prog A) v : moderate x -> strict p -> res0 x p = Ret v ->
  exists ms, run0 x p = (Ret v, ms, false) /\ forall rest, run1 p (ms ++ rest) = Ends (Ret v) rest.
Proof.
  intros M S R. pose proof (strict_failed x p S) as F. unfold failed, res0 in *. destruct (run0 x p) as [[r ms] b] eqn:E. cbn [fst snd] in *. subst r.
  destruct b; [discriminate (F eq_refl)|]. exists ms. split; [reflexivity|]. now apply (in_step x p M).
Qed.
(** What the primary node reads all nodes get. *)
Theorem C87_read t x p v : moderate x -> read t x p = Ret v ->
  exists ms, run0 x (read_prog t p) = (Ret v, ms, false) /\ forall rest, run1 (read_prog t p) (ms ++ rest) = Ends (Ret v) rest.
Proof. intros M R. apply strict_ok; [exact M|apply strict_read|]. now rewrite res0_read. Qed.
(** The same for any number of things, one after the other. *)
Theorem C87_sequence x l vs : moderate x -> Forall2 (fun e v => read (fst e) x (snd e) = Ret v) l vs ->
  exists ms, run0 x (read_all l) = (Ret vs, ms, false) /\ run1 (read_all l) ms = Ends (Ret vs) [].
Proof.
  intros M H. destruct (strict_ok x (read_all l) vs M) as (ms & E & R).
  - apply strict_map. intros e. apply strict_read.
  - unfold read_all. rewrite res0_map. induction H as [|e v l vs H _ IH]; [reflexivity|]. cbn [omap]. rewrite res0_read, H. cbn [obind]. now rewrite IH.
  - exists ms. split; [exact E|]. specialize (R []). now rewrite app_nil_r in R.
Qed.
(** Asking how often something is there before reading it keeps the nodes together, whether it is there or not. *)
Theorem C87_optional t x p d : moderate x -> count x p = 0 \/ (exists v, read t x p = Ret v /\ count x p = 1) ->
  exists v ms, run0 x (read_optional t p d) = (Ret v, ms, false) /\ (forall rest, run1 (read_optional t p d) (ms ++ rest) = Ends (Ret v) rest) /\
  if count x p =? 0 then v = d else read t x p = Ret v.
Proof.
  intros M H. assert (S : strict (read_optional t p d)).
  { apply strict_bind; [apply strict_count|]. intros n. destruct (n =? 0); [constructor|apply strict_read]. }
  assert (E : res0 x (read_optional t p d) = if count x p =? 0 then Ret d else read t x p).
  { unfold read_optional. rewrite res0_bind, res0_count. cbn [obind]. destruct (count x p =? 0); [reflexivity|apply res0_read]. }
  destruct H as [H|(v & R & H)]; rewrite H in *.
  - destruct (strict_ok x _ d M S E) as (ms & A & B). now exists d, ms.
  - rewrite R in E. destruct (strict_ok x _ v M S E) as (ms & A & B). now exists v, ms.
Qed.
(** An array of numbers whose text is no list of numbers is refused on all nodes. *)
Theorem C87_list_refused c k x p n : moderate x -> node_at x p = Ret n -> read (TSeq c (TNum k)) x p = Raise ->
  exists ms, run0 x (read_prog (TSeq c (TNum k)) p) = (Raise, ms, false) /\
  forall rest, run1 (read_prog (TSeq c (TNum k)) p) (ms ++ rest) = Ends Raise rest.
Proof.
  intros M E R. rewrite <- res0_read in R. unfold res0 in R. destruct (run0 x (read_prog (TSeq c (TNum k)) p)) as [[r ms] b] eqn:Q. cbn [fst] in R. subst r.
  assert (b = false).
  { revert Q. destruct c; cbn [read_prog]; rewrite run0_bind; unfold ask_str; cbn [run0 answer]; rewrite E; cbn [run0 fst snd orb];
      match goal with |- context [pbind (local ?m) _] => destruct m end; cbn [local pbind run0]; intros Q; inversion Q; reflexivity. }
  subst b. exists ms. split; [reflexivity|]. now apply (in_step x _ M).
Qed.

(** ** What fails on the primary node *)
Lemma num_raise k x p : read (TNum k) x p = Raise -> answer x (QNum k p) = None.
Proof.
  cbn [read answer]. destruct (node_cases x p) as [[n ->]| ->]; [|reflexivity]. cbn [obind]. destruct (get_num_cases k (xtext n)) as [[z ->]| ->]; [discriminate|reflexivity].
Qed.
Lemma num_ret k x p z : read (TNum k) x p = Ret (VNum z) -> answer x (QNum k p) = Some (ANum z) /\ in_kind k z.
Proof.
  cbn [read answer]. destruct (node_cases x p) as [[n ->]| ->]; [|discriminate]. cbn [obind]. destruct (get_num_cases k (xtext n)) as [[z' G]|G]; rewrite G; [|discriminate].
  intros [= ->]. split; [reflexivity|]. exact (get_num_in_kind _ _ _ G).
Qed.
(** A number that is missing or misspelt: the primary node throws, the others wait. *)
Theorem C87_alone_refuted k x p : read (TNum k) x p = Raise ->
  run0 x (read_prog (TNum k) p) = (Raise, [], true) /\ run1 (read_prog (TNum k) p) [] = Waits.
Proof.
  intros H. split; [|reflexivity]. cbn [read_prog]. rewrite run0_bind. unfold ask_num. cbn [run0]. now rewrite (num_raise k x p H).
Qed.
(** If the exception is caught and a default taken, the other nodes take the next number for the missing one, ... *)
Definition with_default {A} (k1 k2 : kind) (p1 p2 : path) (d : value) (g : value -> value -> prog A) : prog A :=
  pbind (ptry (read_prog (TNum k1) p1) (PRet d)) (fun a => pbind (read_prog (TNum k2) p2) (fun b => g a b)).
Lemma default_primary A k1 k2 x p1 p2 d (g : value -> value -> prog A) z :
  read (TNum k1) x p1 = Raise -> read (TNum k2) x p2 = Ret (VNum z) ->
  exists r ms b, run0 x (g d (VNum z)) = (r, ms, b) /\ run0 x (with_default k1 k2 p1 p2 d g) = (r, le (width k2) z :: ms, true).
Proof.
  intros H1 H2. apply num_raise in H1. apply num_ret in H2. destruct H2 as [H2 _]. destruct (run0 x (g d (VNum z))) as [[r ms] b] eqn:G.
  exists r, ms, b. split; [reflexivity|]. unfold with_default. rewrite run0_bind. cbn [read_prog ask_num pbind ptry run0]. rewrite H1. rewrite H2. cbn [pbind]. rewrite G. reflexivity.
Qed.
Theorem C87_shift_refuted A k x p1 p2 d (g : value -> value -> prog A) z :
  read (TNum k) x p1 = Raise -> read (TNum k) x p2 = Ret (VNum z) ->
  exists r ms b, run0 x (g d (VNum z)) = (r, ms, b) /\ run0 x (with_default k k p1 p2 d g) = (r, le (width k) z :: ms, true) /\
  run1 (with_default k k p1 p2 d g) (le (width k) z :: ms) = run1 (pbind (read_prog (TNum k) p2) (fun b => g (VNum z) b)) ms.
Proof.
  intros H1 H2. destruct (default_primary A k k x p1 p2 d g z H1 H2) as (r & ms & b & E1 & E2). exists r, ms, b. split; [exact E1|]. split; [exact E2|].
  apply num_ret in H2. destruct H2 as [_ H2]. unfold with_default. cbn [read_prog ask_num pbind ptry run1 receive]. now rewrite get_number_le by exact H2.
Qed.
(** ... and wait for ever when the primary node has finished, ... *)
Theorem C87_wait_refuted k x p1 p2 d z : read (TNum k) x p1 = Raise -> read (TNum k) x p2 = Ret (VNum z) ->
  run0 x (with_default k k p1 p2 d (fun a b => PRet (a, b))) = (Ret (d, VNum z), [le (width k) z], true) /\
  run1 (with_default k k p1 p2 d (fun a b => PRet (a, b))) [le (width k) z] = Waits.
Proof.
  intros H1 H2. destruct (C87_shift_refuted _ k x p1 p2 d (fun a b => PRet (a, b)) z H1 H2) as (r & ms & b & E1 & E2 & E3).
  cbn [run0] in E1. inversion E1; subst. split; [exact E2|]. rewrite E3. reflexivity.
Qed.
(** ... or, if the next number has another size, take part in a broadcast of another size. *)
Theorem C87_size_refuted A k1 k2 x p1 p2 d (g : value -> value -> prog A) z :
  read (TNum k1) x p1 = Raise -> read (TNum k2) x p2 = Ret (VNum z) -> width k1 <> width k2 ->
  exists r ms, run0 x (with_default k1 k2 p1 p2 d g) = (r, ms, true) /\ run1 (with_default k1 k2 p1 p2 d g) ms = Garbled.
Proof.
  intros H1 H2 W. destruct (default_primary A k1 k2 x p1 p2 d g z H1 H2) as (r & ms & b & E1 & E2). exists r. eexists. split; [exact E2|].
  unfold with_default. cbn [read_prog ask_num pbind ptry run1 receive get_number]. rewrite le_length. destruct (Nat.eqb_spec (width k2) (width k1)); [congruence|reflexivity].
Qed.

(** ** The hypotheses can be met *)
Definition doc87 : xml :=
  Elem "" [] [Elem "in" [] [Elem "mass" (txt "12") []; Elem "nt" (txt " -7 ") []; Elem "on" (txt "true") [];
    Elem "ks" (txt "1 x") []; Elem "v" [] [Elem "elem" (txt "ab") []; Elem "elem" [] []]]].
Definition in87 (s : string) : path := down "in" ++ down s.
Example C87_example :
  moderate doc87 /\
  run0 doc87 (read_all [(TNum (Signed 32), in87 "nt"); (TSeq Vector TStr, in87 "v"); (TNum KBool, in87 "on")])
  = (Ret [VNum (-7); VSeq [VStr (txt "ab"); VStr []]; VNum 1],
     [[249; 255; 255; 255]; [2; 0; 0; 0]; [2; 0; 0; 0]; [97; 98]; [0; 0; 0; 0]; []; [1]]%N, false) /\
  run1 (read_all [(TNum (Signed 32), in87 "nt"); (TSeq Vector TStr, in87 "v"); (TNum KBool, in87 "on")])
     [[249; 255; 255; 255]; [2; 0; 0; 0]; [2; 0; 0; 0]; [97; 98]; [0; 0; 0; 0]; []; [1]]%N
  = Ends (Ret [VNum (-7); VSeq [VStr (txt "ab"); VStr []]; VNum 1]) [] /\
  read (TNum (Signed 32)) doc87 (in87 "none") = Raise /\ read (TNum (Signed 32)) doc87 (in87 "mass") = Ret (VNum 12) /\
  read (TSeq Multi1d (TNum (Signed 32))) doc87 (in87 "ks") = Raise /\
  run1 (read_prog (TSeq Multi1d (TNum (Signed 32))) (in87 "ks")) [[3; 0; 0; 0]; txt "1 x"]%N = Ends Raise [] /\
  run1 (with_default (Signed 32) (Signed 32) (in87 "none") (in87 "mass") (VNum 5)
          (fun a b => PAsk (QNum (Signed 32) (in87 "nt")) (fun c => PRet (a, b)) PThrow)) [[12; 0; 0; 0]; [249; 255; 255; 255]]%N = Waits.
Proof. split; [split; vm_compute; reflexivity|]. do 6 (split; [vm_compute; reflexivity|]). vm_compute. reflexivity. Qed.

Print Assumptions C87_primary.
Print Assumptions C87_agree.
Print Assumptions C87_read.
Print Assumptions C87_sequence.
Print Assumptions C87_optional.
Print Assumptions C87_list_refused.
Print Assumptions C87_alone_refuted.
Print Assumptions C87_shift_refuted.
Print Assumptions C87_wait_refuted.
Print Assumptions C87_size_refuted.
