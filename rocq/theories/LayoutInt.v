(** The site numbering in 32-bit int arithmetic: lib/qdp_layout.cc:71-163 and the loops for the volume.
    Everywhere else site numbers are natural numbers; here it is shown when that is exact. *)
From Coq Require Import List Arith ZArith Bool Lia.
From Verif Require Import Base LayoutModel.
Import ListNotations.

(** A result of an int operation; overflow is undefined. *)
Definition int (z : Z) : res Z := if ((- 2 ^ 31 <=? z) && (z <? 2 ^ 31))%Z then Val z else Undef.

(** vol *= nrow[i], lib/qdp_scalar_layout.cc:196-199, lib/qdp_parscalar_layout.cc:245-247. *)
Fixpoint vol_loop (L : list Z) (v : Z) : res Z :=
  match L with [] => Val v | l :: r => bind (int (v * l)%Z) (vol_loop r) end.
Definition vol_int (L : list Z) : res Z := vol_loop L 1.

(** order = latt_size[wrapmu]*(coord[mmu] + order), for the given mmu in turn; lib/qdp_layout.cc:108-113, 157-158. *)
Fixpoint order_loop (L coord : list Z) (wrap : nat -> nat) (mus : list nat) (order : Z) : res Z :=
  match mus with
  | [] => Val order
  | mu :: r =>
      bind (int (nth mu coord 0 + order)%Z) (fun s =>
      bind (int (nth (wrap mu) L 0 * s)%Z) (order_loop L coord wrap r))
  end.
(** local_site, lib/qdp_layout.cc:102-119 and 153-163. *)
Definition local_site_int (k : layout_kind) (coord L : list Z) : res Z :=
  let n := length L in
  match k with
  | CB3D =>
      bind (order_loop L coord (fun mu => if mu =? 0 then n - 1 else mu - 1) (rev (seq 0 (n - 1))) 0) (fun order =>
      int (order + nth (n - 1) coord 0)%Z)
  | _ =>
      bind (order_loop L coord (fun mu => mu - 1) (rev (seq 1 (n - 1))) 0) (fun order =>
      int (order + nth 0 coord 0)%Z)
  end.

(** crtesn, lib/qdp_layout.cc:71-95 and 125-146: remainders and quotients by the extents; division by zero is undefined. *)
Fixpoint crt_loop (L : list Z) (dims : list nat) (ipos : Z) (coord : list Z) : res (list Z) :=
  match dims with
  | [] => Val coord
  | ix :: r =>
      let l := nth ix L 0%Z in
      if (l =? 0)%Z then Undef
      else bind (int (Z.rem ipos l)) (fun c => bind (int (Z.quot ipos l)) (fun p =>
           crt_loop L r p (firstn ix coord ++ c :: skipn (S ix) coord)))
  end.
Definition crtesn_int (k : layout_kind) (ipos : Z) (L : list Z) : res (list Z) :=
  crt_loop L (crt_dims k (length L)) ipos (repeat 0%Z (length L)).

(** for m: cb += coord[m], lib/qdp_scalar_layout.cc:346-347, lib/qdp_parscalar_layout.cc:468-469. *)
Fixpoint sum_loop (coord : list Z) (cb : Z) : res Z :=
  match coord with [] => Val cb | c :: r => bind (int (cb + c)%Z) (sum_loop r) end.
