(** The data part of gauge configurations in the NERSC archive format: computeChecksum, readArchiv and
    writeArchiv of lib/qdp_scalar_specific.cc (single process) and lib/qdp_parscalar_specific.cc (several
    nodes).  The text header is in NerscHeader.v.

    Simplifications as in LatIoModel.v.  REAL is any type [A] with the arithmetic used by the code;
    conversion to and from float and double are functions on bit patterns.  Nc is 3.  Messages deliver the bytes
    sent.  The arrays su3 live through all sites in the code; here each link starts with an empty one and
    using an element that was not stored for that link is undefined (it would be what an earlier link left). *)
From Coq Require Import List Arith NArith ZArith Bool.
From Verif Require Import Base LayoutModel SetModel CrcModel IoModel LatIoModel.
Import ListNotations.
Local Open Scope nat_scope.

Section Archive.
  Context {A : Type} (rO : A) (radd rmul rsub : A -> A -> A).
  Local Notation "x + y" := (radd x y).
  Local Notation "x - y" := (rsub x y).
  Local Notation "x * y" := (rmul x y).
  (** toFloat: the bits of the float; (REAL) of the float (4) or double (8) with the given bits. *)
  Context (narrow : A -> N) (cast : nat -> N -> A).
  (** The byte order of the machine; Nd. *)
  Variables (e : endian) (Nd : nat).

  (** ColorMatrix: row, column; multi1d<LatticeColorMatrix>: direction, node, local site. *)
  Definition cmatrix := nat -> nat -> A * A.
  Definition gauge := nat -> nat -> nat -> cmatrix.
  Definition poke (m : cmatrix) (ii kk : nat) (z : A * A) : cmatrix :=
    fun i j => if (i =? ii) && (j =? kk) then z else m i j.
  Definition gset (u : gauge) (dd q i : nat) (m : cmatrix) : gauge :=
    fun dd' q' i' => if (dd' =? dd) && (q' =? q) && (i' =? i) then m else u dd' q' i'.

  (** REAL su3[3][3][2] *)
  Definition array := nat -> option A.
  Definition empty : array := fun _ => None.
  Definition store (i : nat) (x : A) (a : array) : array := fun j => if j =? i then Some x else a j.
  Definition su3 (ii kk c : nat) : nat := (6 * ii + 2 * kk + c)%nat.
  Definition dump (n : nat) (a : array) : res (list A) := mapM (fun i => of_option (a i)) (seq 0 n).

  (** The copying loops, qdp_parscalar_specific.cc:941-948, 957-964, 1182-1188, 1196-1202;
      qdp_scalar_specific.cc:93-99, 108-114, 277-283, 287-293. *)
  Definition pack (rows : nat) (m : cmatrix) : array :=
    fold_left (fun a kk =>
      fold_left (fun a ii => store (su3 ii kk 1) (snd (m ii kk)) (store (su3 ii kk 0) (fst (m ii kk)) a))
        (seq 0 rows) a) (seq 0 3) empty.

  (** The floats of one link, and of all links of a site. *)
  Definition link_words (mat_size : nat) (m : cmatrix) : res (list N) :=
    bind (dump mat_size (pack (if mat_size =? 12 then 2 else 3) m)) (fun l => Val (map narrow l)).
  Definition site_words (mat_size : nat) (u : gauge) (q i : nat) : res (list N) :=
    bind (mapM (fun dd => link_words mat_size (u dd q i)) (seq 0 Nd)) (fun l => Val (concat l)).

  (** n_uint32_t += *)
  Definition add32 (x y : N) : N := ((x + y) mod 2 ^ 32)%N.

  (** computeChecksum, qdp_parscalar_specific.cc:912-990, qdp_scalar_specific.cc:65-142. *)
  Definition computeChecksum (b : build) (mat_size : nat) (u : gauge) : res N :=
    if (mat_size =? 12) || (mat_size =? 18) then
      bind (mapM (fun q =>
              bind (mapM (fun i => site_words mat_size u q i) (seq 0 (l_sites (lay_of b)))) (fun l =>
                Val (fold_left add32 (concat l) 0%N))) (seq 0 (l_nodes (lay_of b)))) (fun l =>
        Val (fold_left add32 l 0%N))
    else Abort.

  (** writeArchiv(cfg_out, u, mat_size), qdp_scalar_specific.cc:260-302 (one writeArray per link) and
      qdp_parscalar_specific.cc:1142-1238 (one per site). *)
  Definition write_payload (b : build) (mat_size : nat) (u : gauge) (st : stream) : res stream :=
    bind (match b with
          | Single k L =>
              write_all (fun p st =>
                bind (link_words mat_size (u (snd p) 0 (linearSiteIndex1 k L (crt (lay_of b) (fst p))))) (fun ws =>
                bind (write_array e (image e 4 ws) 4 mat_size st) (fun r => Val (snd r))))
                (list_prod (seq 0 (vol L)) (seq 0 Nd)) st
          | Multi _ k M L =>
              write_all (fun site st =>
                let c := crt (lay_of b) site in
                bind (site_words mat_size u (nodeNumberP M L c) (linearSiteIndexP k M L c)) (fun ws =>
                bind (write_array e (image e 4 ws) 4 (mat_size * Nd)%nat st) (fun r => Val (snd r))))
                (seq 0 (vol L)) st
          end) (fun st' => if s_fail st' then Abort else Val st').

  (** The 32-bit words of a buffer added to the checksum; qdp_parscalar_specific.cc:1039-1041,
      qdp_scalar_specific.cc:187-189. *)
  Definition add_words (bs : list N) (checksum : N) : N :=
    fold_left add32 (unimage e 4 (length bs / 4) bs) checksum.

  (** The third row from the first two; qdp_parscalar_specific.cc:1095-1111, qdp_scalar_specific.cc:216-232. *)
  Definition third_row (a : array) : res array :=
    bind (dump 12 a) (fun l =>
    match l with
    | [r00; i00; r01; i01; r02; i02; r10; i10; r11; i11; r12; i12] =>
        Val (store (su3 2 2 1) (r01 * i10 + i01 * r10 - r00 * i11 - i00 * r11)
            (store (su3 2 2 0) (r00 * r11 - i00 * i11 - r01 * r10 + i01 * i10)
            (store (su3 2 1 1) (r00 * i12 + i00 * r12 - r02 * i10 - i02 * r10)
            (store (su3 2 1 0) (r02 * r10 - i02 * i10 - r00 * r12 + i00 * i12)
            (store (su3 2 0 1) (r02 * i11 + i02 * r11 - r01 * i12 - i01 * r12)
            (store (su3 2 0 0) (r01 * r12 - i01 * i12 - r02 * r11 + i02 * i11) a))))))
    | _ => Undef
    end).

  (** Copy to the array, complete it, copy to a matrix; qdp_parscalar_specific.cc:1070-1122,
      qdp_scalar_specific.cc:192-244. *)
  Fixpoint fill_matrix (a : array) (ps : list (nat * nat)) (m : cmatrix) : res cmatrix :=
    match ps with
    | [] => Val m
    | (kk, ii) :: r =>
        bind (of_option (a (su3 ii kk 0))) (fun x => bind (of_option (a (su3 ii kk 1))) (fun y =>
        fill_matrix a r (poke m ii kk (x, y))))
    end.
  Definition unpack (mat_size : nat) (l : list A) : res cmatrix :=
    if length l <=? 18 then
      let a := fun i => nth_error l i in
      bind (if mat_size =? 12 then third_row a else Val a) (fun a =>
      fill_matrix a (list_prod (seq 0 3) (seq 0 3)) (fun _ _ => (rO, rO)))
    else Undef.

  (** Fewer than [n] bytes can be read: std::istream::read sets the fail bit. *)
  Definition too_short (n : nat) (st : stream) : bool := s_fail st || (length (s_data st) <? s_get st + n)%nat.
  (** readArrayPrimaryNode into a buffer, qdp_io.cc:714-731: a short read replaces the beginning of the buffer and sets the
      fail bit, nothing is tested, and the whole buffer is swapped.  Before the first read the buffer has no contents. *)
  Definition read_over (size nmemb : nat) (buf : option (list N)) (st : stream) : res (list N * stream) :=
    if too_short (size * nmemb)%nat st then
      bind (of_option buf) (fun old =>
      let got := if s_fail st then [] else skipn (s_get st) (s_data st) in
      let bs := got ++ skipn (length got) old in
      let st1 := add_crc bs (set_fail (at_get (s_get st + length got)%nat st)) in
      if big_endian e then Val (bs, st1) else bind (byte_swap e bs size nmemb) (fun bs' => Val (bs', st1)))
    else read_array e size nmemb st.

  (** readArchiv of the single-process build, qdp_scalar_specific.cc:155-249: the loop over sites and
      directions; after each matrix the stream is tested (179-181; the contents of the buffer do not matter then). *)
  Fixpoint read_links (k : layout_kind) (L : list nat) (mat_size float_size : nat) (ps : list (nat * nat))
      (u : gauge) (checksum : N) (st : stream) : res (gauge * N * stream) :=
    match ps with
    | [] => Val (u, checksum, st)
    | (site, dd) :: r =>
        if too_short (float_size * mat_size)%nat st then Abort else
        bind (read_array e float_size mat_size st) (fun '(bs, st1) =>
        bind (unpack mat_size (map (cast float_size) (unimage e float_size mat_size bs))) (fun m =>
        read_links k L mat_size float_size r
          (gset u dd 0 (linearSiteIndex1 k L (crtesn k site L)) m) (add_words bs checksum) st1))
    end.

  (** readArchiv of the multi-node build, qdp_parscalar_specific.cc:1024-1059: all sites into the array
      [input] of their node, by way of [recv_buf], *)
  Fixpoint read_input (lay : layout) (mat_size float_size : nat) (sites : list nat)
      (recv_buf : option (list N)) (input : field) (checksum : N) (st : stream) : res (field * N * stream) :=
    match sites with
    | [] => Val (input, checksum, st)
    | site :: r =>
        let c := crt lay site in
        bind (read_over float_size (mat_size * Nd)%nat recv_buf st) (fun '(bs, st1) =>
        read_input lay mat_size float_size r (Some bs) (fset input (l_node lay c) (l_lin lay c) bs) (add_words bs checksum) st1)
    end.
  (** and from there into the field, 1065-1125. *)
  Fixpoint convert (mat_size float_size : nat) (ps : list (nat * nat * nat)) (input : field) (u : gauge) : res gauge :=
    match ps with
    | [] => Val u
    | (q, i, dd) :: r =>
        if length (input q i) =? (float_size * mat_size * Nd)%nat then
          bind (unpack mat_size (map (cast float_size) (unimage e float_size mat_size
                  (skipn (float_size * mat_size * dd)%nat (input q i))))) (fun m =>
          convert mat_size float_size r input (gset u dd q i m))
        else Undef
    end.

  (** float_size is 4 or 8, everything else is refused by the header reader. *)
  Definition read_payload (b : build) (mat_size float_size : nat) (u : gauge) (st : stream) : res (gauge * N * stream) :=
    if (float_size =? 4) || (float_size =? 8) then
      match b with
      | Single k L => read_links k L mat_size float_size (list_prod (seq 0 (vol L)) (seq 0 Nd)) u 0%N st
      | Multi _ k M L =>
          let lay := par_layout k M L in
          bind (read_input lay mat_size float_size (seq 0 (vol L)) None (fun _ _ => []) 0%N st) (fun '(input, checksum, st1) =>
          bind (convert mat_size float_size
                  (list_prod (list_prod (seq 0 (l_nodes lay)) (seq 0 (l_sites lay))) (seq 0 Nd)) input u) (fun u1 =>
          Val (u1, checksum, st1)))
      end
    else Abort.
End Archive.
