(** C50, C71: memory. *)
From Coq Require Import List ZArith Bool Lia.
From Verif Require Import Base AllocModel AllocSpec AllocProofs.
Import ListNotations.
Local Open Scope Z_scope.

(** ** C50 *)
(** For every history: the blocks held by the user are apart, each lies in one block of the system (the i-th
    in the i-th, so that as many are held as the system has given), each is aligned if the alignment is a
    power of two, a block can be given back, which returns the memory it lies in and no other, and the
    program ends only because of an address that is not held. *)
Theorem C50_default (A : Z) (cs : list call) : 1 <= A < 2 ^ 31 -> system_ok Default A cs start -> sizes_ok A cs ->
  match run Default A cs start with
  | Val (h, rs) =>
      let l := live cs rs [] in
      ForallOrdPairs apart l /\ Forall2 within l (raw h) /\
      (forall k, 0 <= k -> A = 2 ^ k -> Forall (fun b => (A | fst b)) l) /\
      (forall p, In p (map fst l) <-> exists h', step Default A (Free p) h = Val (h', Done)) /\
      (forall p h', step Default A (Free p) h = Val (h', Done) -> Forall2 within (drop p l) (raw h')) /\
      (forall p, ~ In p (map fst l) <-> step Default A (Free p) h = Abort)
  | Abort => exists cs1 p cs2 h rs, cs = cs1 ++ Free p :: cs2 /\ run Default A cs1 start = Val (h, rs) /\ ~ In p (map fst (live cs1 rs []))
  | Undef => False
  end.
Proof.
  intros HA SY SZ. assert (K := run_default A cs HA [] start (inv_start _ _) SY SZ).
  destruct (run Default A cs start) as [[h rs]| |]; [|exact K|exact K]. destruct K as (es & I & L). cbv zeta. cbn [map] in L. rewrite <- L.
  assert (A1 : 1 <= A) by lia.
  split; [apply (inv_live_apart _ _ _ _ A1 I)|]. split; [apply (inv_forall2 _ _ _ _ A1 I)|]. split; [|split; [|split]].
  - intros k Hk E. apply (inv_aligned _ _ _ _ k Hk E I).
  - intros p. split.
    + intros IN. destruct (free_live _ _ _ _ _ A1 I IN) as [E _]. eauto.
    + intros (h' & E). destruct (in_dec Z.eq_dec p (map fst (map e_live es))) as [IN|N]; [assumption|].
      rewrite (free_unknown_default _ _ _ _ I N) in E. discriminate.
  - intros p h' E. destruct (in_dec Z.eq_dec p (map fst (map e_live es))) as [IN|N].
    + destruct (free_live _ _ _ _ _ A1 I IN) as [E' I']. rewrite E in E'. injection E' as ->. rewrite <- remove_live. apply (inv_forall2 _ _ _ _ A1 I').
    + rewrite (free_unknown_default _ _ _ _ I N) in E. discriminate.
  - intros p. split; [apply (free_unknown_default _ _ _ _ I)|]. intros E IN. destruct (free_live _ _ _ _ _ A1 I IN) as [E' _]. congruence.
Qed.
Print Assumptions C50_default.

(** An alignment that is not a power of two, which configure accepts, is not kept: some answer of the
    system gives a misaligned block, whatever its size. *)
Theorem C50_alignment_refuted (A n : Z) : 1 < A < 2 ^ 31 -> (forall k, 0 <= k -> A <> 2 ^ k) -> 0 <= n < 2 ^ 63 ->
  exists u, let cs := [Allocate n (Some u)] in system_ok Default A cs start /\ sizes_ok A cs /\
  exists h p, run Default A cs start = Val (h, [Ret p]) /\ ~ (A | p).
Proof.
  intros HA NP HN. destruct (misaligned A HA NP) as (u & U & U2 & M). exists u. cbv zeta.
  assert (BY : bytes_to_alloc A n = n + A).
  { unfold bytes_to_alloc. apply wrap_small. change (2 ^ 64) with 18446744073709551616. change (2 ^ 63) with 9223372036854775808 in HN. change (2 ^ 31) with 2147483648 in HA. lia. }
  split; [|split].
  - cbn [system_ok call_ok answer_ok]. rewrite BY. change (2 ^ 64) with 18446744073709551616. change (2 ^ 63) with 9223372036854775808 in HN. change (2 ^ 31) with 2147483648 in HA.
    change (2 ^ 34) with 17179869184 in U2. split; [split; [lia|split; [lia|split; [lia|constructor]]]|].
    destruct (step Default A (Allocate n (Some u)) start) as [[? ?]| |]; exact I.
  - constructor; [|constructor]. change (2 ^ 64) with 18446744073709551616. change (2 ^ 63) with 9223372036854775808 in HN. change (2 ^ 31) with 2147483648 in HA. lia.
  - eexists. exists (align A u). split; [reflexivity|assumption].
Qed.
Print Assumptions C50_alignment_refuted.

(** A request within A bytes of 2^64 succeeds with a block that is far too small. *)
Theorem C50_size_refuted (A n u : Z) : 1 <= A < 2 ^ 31 -> 2 ^ 64 - A <= n < 2 ^ 64 -> 0 < u -> u + (n + A - 2 ^ 64) < 2 ^ 64 ->
  system_ok Default A [Allocate n (Some u)] start /\
  exists h p, run Default A [Allocate n (Some u)] start = Val (h, [Ret p]) /\ raw h = [(u, n + A - 2 ^ 64)] /\ n + A - 2 ^ 64 < n /\ n + A - 2 ^ 64 < A.
Proof.
  intros HA HN U L. assert (BY : bytes_to_alloc A n = n + A - 2 ^ 64).
  { unfold bytes_to_alloc, wrap. symmetry. apply (Z.mod_unique _ _ 1); [left|]; change (2 ^ 31) with 2147483648 in HA; change (2 ^ 64) with 18446744073709551616 in *; lia. }
  split.
  - cbn [system_ok call_ok answer_ok]. rewrite BY. split; [split; [|split; [assumption|split; [assumption|constructor]]]|].
    + change (2 ^ 31) with 2147483648 in HA. change (2 ^ 64) with 18446744073709551616 in *. lia.
    + destruct (step Default A (Allocate n (Some u)) start) as [[? ?]| |]; exact I.
  - eexists. exists (align A u). split; [reflexivity|]. cbn [raw]. rewrite BY. split; [reflexivity|].
    change (2 ^ 31) with 2147483648 in HA. change (2 ^ 64) with 18446744073709551616 in *. lia.
Qed.
Print Assumptions C50_size_refuted.

(** The pool: a failed request returns a null pointer; blocks that are not null are apart, inside the
    memory of the pool and aligned; the program ends only after two failures. *)
Theorem C50_pool (A : Z) (cs : list call) : 1 <= A < 2 ^ 31 -> system_ok Pool A cs start -> sizes_ok A cs ->
  match run Pool A cs start with
  | Val (h, rs) =>
      let l := live cs rs [] in
      ForallOrdPairs apart l /\ Forall2 within l (raw h) /\
      (forall k, 0 <= k -> A = 2 ^ k -> Forall (fun b => (A | fst b)) l) /\
      (forall p, In p (map fst l) -> exists h', step Pool A (Free p) h = Val (h', Done) /\ Forall2 within (drop p l) (raw h'))
  | Abort => exists cs1 n cs2 h rs, cs = cs1 ++ Allocate n None :: cs2 /\ run Pool A cs1 start = Val (h, rs) /\ In (Ret 0) rs
  | Undef => False
  end.
Proof.
  intros HA SY SZ. assert (K := run_pool A cs HA [] start (inv_start _ _) SY SZ).
  destruct (run Pool A cs start) as [[h rs]| |]; [| |exact K].
  2:{ destruct K as (cs1 & n & cs2 & h & rs & E & R & [D|D]); [discriminate|]. exists cs1, n, cs2, h, rs. auto. }
  destruct K as (es & I & L). cbv zeta. cbn [map] in L. rewrite <- L.
  assert (A1 : 1 <= A) by lia.
  split; [apply (inv_live_apart _ _ _ _ A1 I)|]. split; [apply (inv_forall2 _ _ _ _ A1 I)|]. split.
  - intros k Hk E. apply (inv_aligned _ _ _ _ k Hk E I).
  - intros p IN. destruct (free_live _ _ _ _ _ A1 I IN) as [E I']. eexists. split; [exact E|]. rewrite <- remove_live. apply (inv_forall2 _ _ _ _ A1 I').
Qed.
Print Assumptions C50_pool.
(** Freeing an address the pool never gave out goes unnoticed. *)
Theorem C50_pool_unknown_refuted (A : Z) (cs : list call) h rs p : 1 <= A < 2 ^ 31 -> system_ok Pool A cs start -> sizes_ok A cs ->
  run Pool A cs start = Val (h, rs) -> ~ In p (map fst (live cs rs [])) -> p <> 0 -> step Pool A (Free p) h = Val (h, Done).
Proof.
  intros HA SY SZ R N PZ. assert (K := run_pool A cs HA [] start (inv_start _ _) SY SZ). rewrite R in K. destruct K as (es & I & L).
  cbn [map] in L. rewrite <- L in N. apply (free_unknown_pool A es h p I N PZ).
Qed.
Print Assumptions C50_pool_unknown_refuted.

Ltac decide_all :=
  repeat (cbn [system_ok call_ok answer_ok sizes_ok lat_system_ok lat_sizes_ok snd]; match goal with
  | |- context [bytes_to_alloc ?A ?n] => let b := eval vm_compute in (bytes_to_alloc A n) in change (bytes_to_alloc A n) with b
  | |- context [raw ?h] => let b := eval vm_compute in (raw h) in change (raw h) with b
  | |- match ?r with Val _ => _ | _ => _ end => let b := eval vm_compute in r in change r with b; cbv beta iota
  | |- _ /\ _ => split
  | |- Forall _ _ => constructor
  | |- True => exact I
  | |- apart _ _ => unfold apart; cbn; lia
  | |- _ <= _ => vm_compute; discriminate
  | |- _ < _ => reflexivity
  end).
(** Three blocks, one given back, its place used again, and a failure. *)
Definition calls : list call :=
  [Allocate 100 (Some 4098); Allocate 0 (Some 8193); Allocate 48 (Some 12345); Free 4112; Allocate 60 (Some 4096); Allocate 10 None].
Example C50_case :
  system_ok Default 16 calls start /\ sizes_ok 16 calls /\ system_ok Pool 16 calls start /\
  match run Default 16 calls start with
  | Val (h, rs) => rs = [Ret 4112; Ret 8208; Ret 12352; Done; Ret 4096; BadAlloc] /\ live calls rs [] = [(4096, 60); (12352, 48); (8208, 0)]
  | _ => False
  end /\
  match run Pool 16 calls start with
  | Val (h, rs) => rs = [Ret 4112; Ret 8208; Ret 12352; Done; Ret 4096; Ret 0] /\ step Pool 16 (Allocate 10 None) h = Abort
  | _ => False
  end.
Proof.
  split; [|split; [|split; [|split]]]; unfold calls.
  - decide_all.
  - unfold sizes_ok. decide_all.
  - decide_all.
  - vm_compute. auto.
  - vm_compute. auto.
Qed.
Example C50_misaligned : ~ (24 | align 24 16) /\ (forall k, 0 <= k -> 24 <> 2 ^ k).
Proof.
  split; [intros [z E]; change (align 24 16) with 32 in E; lia|]. intros k Hk E. destruct (Z_lt_dec k 5) as [L|L].
  - assert (C : k = 0 \/ k = 1 \/ k = 2 \/ k = 3 \/ k = 4) by lia. destruct C as [->|[->|[->|[->| ->]]]]; discriminate.
  - assert (2 ^ 5 <= 2 ^ k) by (apply Z.pow_le_mono_r; lia). change (2 ^ 5) with 32 in *. lia.
Qed.

(** ** C71: lattice objects *)
Theorem C71_lattices (A k sites : Z) (cs : list lat_call) : 0 <= k < 31 -> A = 2 ^ k -> 0 <= sites ->
  scopes_ok cs (fun _ => false) -> lat_system_ok Default A sites cs (fun _ => None, start) -> lat_sizes_ok A sites cs ->
  match lat_run Default A sites cs (fun _ => None, start) with
  | Val (s, h) =>
      let o := owned sites cs (fun _ => None) in
      (forall x n, o x = Some n -> exists p b, s x = Some (mkLat true p) /\ (A | p) /\ In b (raw h) /\ within (p, n) b) /\
      (forall x y n m p q, x <> y -> o x = Some n -> o y = Some m -> s x = Some (mkLat true p) -> s y = Some (mkLat true q) -> apart (p, n) (q, m)) /\
      ((forall x, o x = None) -> raw h = [])
  | Abort => exists c, In c cs /\ exists x sz, c = New x sz None
  | Undef => False
  end.
Proof.
  intros Hk EA HS SC SY SZ. assert (HA : 1 <= A < 2 ^ 31).
  { subst A. split; [|apply Z.pow_lt_mono_r; lia]. assert (0 < 2 ^ k) by (apply Z.pow_pos_nonneg; lia). lia. }
  assert (R := lat_run_ok A sites cs HA HS _ _ _ _ (linv_start A) SC SY SZ).
  destruct (lat_run Default A sites cs (fun _ => None, start)) as [[s h]| |]; [|exact R|exact R].
  destruct R as (vs & used & [(es & I & L) ND OW VA US]). cbn [fst snd] in *. cbv zeta.
  set (o := owned sites cs (fun _ => None)) in *. assert (A1 : 1 <= A) by lia.
  assert (AL := inv_aligned _ _ _ _ k ltac:(lia) EA I). assert (WI := inv_forall2 _ _ _ _ A1 I). assert (AP := inv_live_apart _ _ _ _ A1 I). rewrite L in *.
  assert (OWN : forall x n, o x = Some n -> exists p, s x = Some (mkLat true p) /\ In (p, n) (map e_live es) /\ In x vs).
  { intros x n O. specialize (VA x). rewrite O in VA. destruct VA as ([m p] & E & M). cbn in M. subst m. exists p. split; [assumption|].
    assert (IN : In x vs) by (apply OW; congruence). split; [|assumption]. rewrite L. apply in_map_iff. exists x. rewrite E, O. auto. }
  rewrite L in OWN. split; [|split].
  - intros x n O. destruct (OWN x n O) as (p & E & IN & _). exists p.
    assert (X : exists b, In b (raw h) /\ within (p, n) b).
    { clear - WI IN. induction WI as [|a b l1 l2 W _ IH]; [destruct IN|]. destruct IN as [->|IN]; [exists b; split; [left; reflexivity|assumption]|].
      destruct (IH IN) as (b' & ? & ?). exists b'. split; [right; assumption|assumption]. }
    destruct X as (b & B1 & B2). exists b. split; [assumption|]. split; [|split; assumption]. rewrite Forall_forall in AL. exact (AL (p, n) IN).
  - intros x y n m p q NE O1 O2 E1 E2.
    assert (X1 : In x vs) by (apply OW; congruence). assert (X2 : In y vs) by (apply OW; congruence).
    set (f := fun x => (match s x with Some l => l_F l | None => 0 end, match o x with Some n => n | None => 0 end)) in *.
    assert (F1 : f x = (p, n)) by (unfold f; rewrite E1, O1; reflexivity). assert (F2 : f y = (q, m)) by (unfold f; rewrite E2, O2; reflexivity).
    rewrite <- F1, <- F2. clear - AP X1 X2 NE. induction vs as [|z vs IH]; [destruct X1|]. cbn in AP. inversion AP; subst.
    destruct X1 as [->|X1], X2 as [->|X2]; [congruence| | |auto].
    + match goal with H : Forall _ _ |- _ => rewrite Forall_forall in H; apply H end. apply in_map. assumption.
    + match goal with H : Forall _ _ |- _ => rewrite Forall_forall in H; specialize (H (f x) (in_map _ _ _ X1)) end. unfold apart in *. tauto.
  - intros NO. assert (V : vs = []) by (destruct vs as [|x vs]; [reflexivity|]; exfalso; apply (proj1 (OW x)); [left; reflexivity|apply NO]).
    subst vs. cbn in WI. inversion WI. reflexivity.
Qed.
Print Assumptions C71_lattices.
(** With the pool, a lattice for which there is no memory is made all the same, with a null pointer. *)
Theorem C71_pool_refuted (A sites sz : Z) x : 1 <= A < 2 ^ 31 ->
  exists s h, lat_run Pool A sites [New x sz None] (fun _ => None, start) = Val (s, h) /\ s x = Some (mkLat true 0).
Proof.
  intros HA. cbn [lat_run lat_step]. unfold alloc_mem. cbn [step]. unfold pool_allocate. rewrite null_align by assumption. cbn.
  eexists. eexists. split; [reflexivity|]. unfold set_lat. rewrite Nat.eqb_refl. reflexivity.
Qed.
Print Assumptions C71_pool_refuted.
Definition objects : list lat_call := [New 0 72 (Some 100001); New 1 8 (Some 200000); View 2 0; Delete 0; New 3 96 (Some 100017); Delete 2; Delete 1; Delete 3].
Example C71_case : scopes_ok objects (fun _ => false) /\ lat_system_ok Default 64 16 objects (fun _ => None, start) /\ lat_sizes_ok 64 16 objects /\
  match lat_run Default 64 16 objects (fun _ => None, start) with Val (s, h) => raw h = [] | _ => False end /\
  match lat_run Default 64 16 (firstn 5 objects) (fun _ => None, start) with Val (s, h) => s 3%nat = Some (mkLat true 100032) | _ => False end.
Proof.
  split; [|split; [|split; [|split]]]; unfold objects.
  - repeat (split; [reflexivity || (vm_compute; discriminate)|]). exact I.
  - decide_all.
  - unfold lat_sizes_ok. decide_all.
  - vm_compute. reflexivity.
  - vm_compute. reflexivity.
Qed.
