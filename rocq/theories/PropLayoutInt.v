(** C79: the site numbering in int arithmetic. *)
From Coq Require Import List Arith ZArith Bool Lia.
From Verif Require Import Base LayoutModel LayoutSpec LayoutProofs LayoutInt LayoutIntOk.
Import ListNotations.

(** The volume is computed exactly when it is below 2^31; otherwise its computation overflows. *)
Theorem C79_volume : forall L : list nat, positive L ->
  ((Z.of_nat (volume L) < 2 ^ 31)%Z -> vol_int (map Z.of_nat L) = Val (Z.of_nat (volume L))) /\
  ((2 ^ 31 <= Z.of_nat (volume L))%Z -> vol_int (map Z.of_nat L) = Undef).
Proof.
  intros L H. destruct (vol_int_ok L H) as [A B]. split; [exact A|]. intros F. apply B. unfold fits. lia.
Qed.
Print Assumptions C79_volume.

(** Below that size no sum or product of the numbering overflows, and its result is the position in the order. *)
Theorem C79_site_number : forall (k : layout_kind) (L c : list nat),
  0 < length L -> (Z.of_nat (volume L) < 2 ^ 31)%Z -> in_lattice L c ->
  local_site_int k (map Z.of_nat c) (map Z.of_nat L) =
    Val (Z.of_nat (match k with CB3D => lexnum_t L c | _ => lexnum L c end)).
Proof.
  intros k L c Hn F Hc. fold (ints c) (ints L). rewrite (local_site_int_ok k L c Hn Hc F). f_equal. f_equal.
  pose proof (in_lattice_length L c Hc) as El.
  destruct k; try (apply local_site_lexnum; [discriminate|exact Hn|exact El]).
  apply local_site_lexnum_t; assumption.
Qed.
Print Assumptions C79_site_number.

(** The way back: the coordinates computed for the number of a site are those of the site. *)
Theorem C79_coordinates : forall (k : layout_kind) (L c : list nat),
  0 < length L -> (Z.of_nat (volume L) < 2 ^ 31)%Z -> in_lattice L c ->
  bind (local_site_int k (map Z.of_nat c) (map Z.of_nat L)) (fun p => crtesn_int k p (map Z.of_nat L)) =
    Val (map Z.of_nat c).
Proof.
  intros k L c Hn F Hc. fold (ints c) (ints L). rewrite (local_site_int_ok k L c Hn Hc F). cbn [bind].
  pose proof (in_lattice_positive L c Hc) as HL.
  rewrite (crtesn_int_ok k L _ HL (local_site_lt k c L Hn Hc) F).
  rewrite crtesn_local_site by assumption. reflexivity.
Qed.
Print Assumptions C79_coordinates.

(** The sum of the coordinates, of which the checkerboard is the parity. *)
Theorem C79_coordinate_sum : forall L c : list nat,
  (Z.of_nat (volume L) < 2 ^ 31)%Z -> in_lattice L c ->
  sum_loop (map Z.of_nat c) 0 = Val (Z.of_nat (list_sum c)).
Proof. intros L c F Hc. exact (sum_int_ok L c Hc F). Qed.
Print Assumptions C79_coordinate_sum.

(** 192 x 192 x 192 x 256 is numbered, 256 x 256 x 256 x 128 overflows. *)
Example C79_case : in_lattice [4;3;2;5] [3;2;1;4] /\ (Z.of_nat (volume [4;3;2;5]%nat) < 2 ^ 31)%Z /\
  local_site_int CB3D [3;2;1;4]%Z [4;3;2;5]%Z = Val 119%Z /\
  vol_int [192;192;192;256]%Z = Val 1811939328%Z /\ vol_int [256;256;256;128]%Z = Undef.
Proof.
  split; [repeat constructor|]. split; [reflexivity|]. split; [reflexivity|]. split; reflexivity.
Qed.
