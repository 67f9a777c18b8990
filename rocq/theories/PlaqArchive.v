(** Archives with the plaquette and the link as they are computed. *)
From Coq Require Import List Arith ZArith Bool Lia Ring_theory.
From Verif Require Import Base ComplexModel LayoutModel LayoutSpec LayoutOk MapModel MapSpec MapProofs TensorModel LatIoModel LatIoSpec
  NerscModel NerscSpec NerscHeader.
From Verif Require PlaqModel PlaqSpec PlaqProofs PropPlaq.
Import ListNotations.
Local Open Scope nat_scope.

Section Measured.
  Context {R : Type} (rO : R) (radd rmul rsub rdiv : R -> R -> R) (ropp : R -> R) (ofZ : Z -> R).

  (** multi1d<LatticeColorMatrix> (include/qdp_outer.h, include/qdp_defs.h): the links of the archive model
      as fields of nested types; Nc is 3. *)
  Definition storage (b : build) (u : @gauge R) : list (@PlaqModel.pfield R) :=
    map (fun dd => map (fun q => map (fun i => Sv (Mv Colour 3 (fun r s => Cv (u dd q i r s))))
      (seq 0 (l_sites (lay_of b)))) (seq 0 (l_nodes (lay_of b)))) (seq 0 (length (build_size b))).
  (** mesplq(w_plaq, link, u), lib/qdp_iogauge.cc 514, 694 and 722.  Simplified: Double is the type of the
      numbers in the links; when mesplq is undefined the numbers are arbitrary ([junk]). *)
  Definition measured (junk : R * R) (b : build) (u : @gauge R) : R * R :=
    match PlaqModel.mesplq rO radd rmul rsub rdiv ropp ofZ b 3 (storage b u) with Val p => p | _ => junk end.

End Measured.

Lemma storage_fields {R} b (u : @gauge R) : layout_ok (lay_of b) -> storage b u = PlaqSpec.as_fields b 3 (link_at b u).
  Proof.
    intros Hl. unfold storage, PlaqSpec.as_fields. apply map_ext. intros dd. unfold stored_all. apply map_ext_in. intros q Hq.
    unfold stored. apply map_ext_in. intros i Hi. apply in_seq in Hq, Hi. unfold link_at.
    destruct (lay_inv (lay_of b) Hl q i) as [E1 E2]; [lia|lia|]. now rewrite E1, E2.
  Qed.

Lemma read_close {A F} (strtod : list N -> option F) L (rO : A) radd rmul rsub cast mesplq close e b h0 u0 file h G :
  readArchiv strtod L rO radd rmul rsub cast mesplq (fun _ _ => true) e b h0 u0 file = Val (h, G) ->
  readArchiv strtod L rO radd rmul rsub cast mesplq close e b h0 u0 file
  = if close (w_plaq h) (fst (mesplq b G)) && close (link h) (snd (mesplq b G)) then Val (h, G) else Abort.
Proof.
  unfold readArchiv. destruct (readArchivHeader _ _ _ _) as [[h' st]| |]; cbn [bind]; try discriminate.
  destruct (read_payload _ _ _ _ _ _ _ _ _ _ _ _) as [[[u c] st']| |]; cbn [bind]; try discriminate.
  destruct (negb (c =? checksum h')%N); [discriminate|]. cbn [negb]. intros E. injection E as <- <-.
  destruct (close (w_plaq h') _); cbn [negb andb]; [|reflexivity]. destruct (close (link h') _); reflexivity.
Qed.

Section Same.
  Context {R : Type} (rO rI : R) (radd rmul rsub : R -> R -> R) (ropp : R -> R).
  Context (Rth : ring_theory rO rI radd rmul rsub ropp (@eq R)).
  Lemma csum_same n (f g : nat -> R * R) : (forall i, i < n -> f i = g i) -> PlaqSpec.csum rO radd n f = PlaqSpec.csum rO radd n g.
  Proof using All.
    intros H. unfold PlaqSpec.csum.
    f_equal; apply (PlaqProofs.rsum_ext rO rI radd rmul rsub ropp Rth); intros i Hi; apply in_seq in Hi; rewrite H; auto; lia.
  Qed.
  Lemma plaquettes_same n L (u v : @PlaqSpec.gauge R) :
    (forall dd c i j, dd < length L -> in_lattice L c -> i < n -> j < n -> u dd c i j = v dd c i j) ->
    PlaqSpec.plaquettes rO radd rmul rsub ropp n L u = PlaqSpec.plaquettes rO radd rmul rsub ropp n L v /\
    PlaqSpec.links rO radd n L u = PlaqSpec.links rO radd n L v.
  Proof using All.
    intros H. split.
    - unfold PlaqSpec.plaquettes. do 3 (apply (PlaqProofs.rsum_ext rO rI radd rmul rsub ropp Rth); intros ? ?).
      apply in_seq in H0, H1. apply LatIoProofs.all_sites_in in H2. unfold PlaqSpec.plaquette. f_equal.
      do 4 (apply csum_same; intros ? ?). pose proof (fun m => MapNN.step_in L true m _ H2) as S. unfold PlaqSpec.ahead.
      rewrite !H by (auto; lia). reflexivity.
    - unfold PlaqSpec.links. do 2 (apply (PlaqProofs.rsum_ext rO rI radd rmul rsub ropp Rth); intros ? ?).
      apply in_seq in H0. apply LatIoProofs.all_sites_in in H1. unfold PlaqSpec.link_trace. f_equal. apply csum_same. intros.
      apply H; auto; lia.
  Qed.
  Lemma measured_ok rdiv (ofZ : Z -> R) junk b u : build_ok b -> 2 <= length (build_size b) -> (PropPlaq.divisor (build_size b) 3 < 2 ^ 31)%Z ->
    measured rO radd rmul rsub rdiv ropp ofZ junk b u
    = (rmul (PlaqSpec.plaquettes rO radd rmul rsub ropp 3 (build_size b) (link_at b u)) (rdiv (ofZ 2%Z) (ofZ (PropPlaq.divisor (build_size b) 3))),
       rdiv (PlaqSpec.links rO radd 3 (build_size b) (link_at b u)) (ofZ (PropPlaq.divisor_link (build_size b) 3))).
  Proof using All.
    intros HB HL HD. unfold measured.
    rewrite storage_fields by (apply (PlaqProofs.build_layout rO rI radd rmul rsub ropp Rth b HB)).
    rewrite (PropPlaq.C106_value rO rI radd rmul rsub rdiv ropp ofZ Rth) by (auto; lia). reflexivity.
  Qed.
End Same.
