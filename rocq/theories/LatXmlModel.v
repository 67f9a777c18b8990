(** XML output of lattice fields and of what they hold (the operators << of XMLWriter).

    Contract of XMLSimpleWriter (not part of /repo): it keeps a stack of open tags; closeTag without
    an open tag ends the program; attributes appear with the tag in the order given.  White space
    for indentation is left out.  The texts of numbers are those of C86 and C89: a word stands for
    its text here, and an attribute for the numbers in it (separated by single blanks). *)
From Coq Require Import String List Arith Bool.
From Verif Require Import Base LayoutModel LatIoModel.
Import ListNotations.
Local Open Scope nat_scope.
Local Notation length := List.length.

Section Words.
  (** The words of machine type: int, float, double, bool. *)
  Variable W : Type.

  (** What a site holds: include/qdp_primvector.h, qdp_primmatrix.h, qdp_primseed.h, qdp_reality.h.
      PScalar and RScalar (include/qdp_primscalar.h 220-223, qdp_reality.h 224-227), and OScalar
      around it all (include/qdp_outer.h 208-211), only pass their content on and are left out. *)
  Inductive obj :=
  | Num (w : W)
  | Cplx (re im : obj)
  | Vec (spin : bool) (n : nat) (e : nat -> obj)
  | Mat (n : nat) (e : nat -> nat -> obj)
  | Seed (e : nat -> obj).

  Definition attr := (string * list nat)%type.
  Inductive tree := Tag (name : string) (attrs : list attr) (kids : list tree) | Txt (w : W).

  (** The writer of the primary node: open tags with what is in them so far, innermost first; the
      last one stands for the document.  On other nodes nothing is written (lib/qdp_xmlio.cc
      636-666, 689-738).  [None]: the program ended. *)
  Definition frame := (string * list attr * list tree)%type.
  Definition writer := list frame.
  (** openTag, lib/qdp_xmlio.cc 636-640, 648-652 *)
  Definition open_tag (s : string) (al : list attr) (w : writer) : option writer := Some ((s, al, []) :: w).
  (** closeTag, lib/qdp_xmlio.cc 662-666 *)
  Definition close_tag (w : writer) : option writer :=
    match w with
    | (s, al, k) :: (s', al', k') :: r => Some ((s', al', k' ++ [Tag s al k]) :: r)
    | _ => None
    end.
  (** operator<< of machine types, lib/qdp_xmlio.cc 689-738 *)
  Definition put_word (x : W) (w : writer) : option writer :=
    match w with (s, al, k) :: r => Some ((s, al, k ++ [Txt x]) :: r) | [] => None end.

  Definition obind {A B} (r : option A) (f : A -> option B) : option B := match r with Some a => f a | None => None end.
  (** for(int i=0; ...): the body for all given numbers *)
  Fixpoint loop {A} (f : A -> writer -> option writer) (l : list A) (w : writer) : option writer :=
    match l with [] => Some w | i :: r => obind (f i w) (loop f r) end.
  (** openTag, something, closeTag *)
  Definition tagged (s : string) (al : list attr) (f : writer -> option writer) (w : writer) : option writer :=
    obind (open_tag s al w) (fun w1 => obind (f w1) close_tag).

  (** operator<<(XMLWriter&, .): RComplex (include/qdp_reality.h 430-440), PVector
      (include/qdp_primvector.h 205-224) and PSpinVector (include/qdp_primspinvec.h 173-192), PMatrix (include/qdp_primmatrix.h 194-216), PSeed (include/qdp_primseed.h 173-187). *)
  Fixpoint put (d : obj) (w : writer) : option writer :=
    match d with
    | Num x => put_word x w
    | Cplx re im => obind (tagged "re" [] (put re) w) (tagged "im" [] (put im))
    | Vec spin n e => tagged (if spin then "SpinVector"%string else "Vector"%string) [] (loop (fun i => tagged "elem" [("row"%string, [i])] (put (e i))) (seq 0 n)) w
    | Mat n e =>
        tagged "Matrix" [] (loop (fun i => loop (fun j =>
          tagged "elem" [("row"%string, [i]); ("col"%string, [j])] (put (e i j))) (seq 0 n)) (seq 0 n)) w
    | Seed e => tagged "Seed" [] (loop (fun i => tagged "elem" [] (put (e i))) (seq 0 4)) w
    end.

  (** A field: node -> local site -> value. *)
  Definition xfield := nat -> nat -> obj.

  (** The attributes of a site: os << coord[0], then the others with a blank in front. *)
  Definition site_attrs (site : nat) (coord : list nat) : list attr :=
    [("site"%string, [site]); ("coord"%string, get coord 0 :: map (get coord) (seq 1 (length coord - 1)))].

  (** operator<<(XMLWriter&, const OLattice<T>&) in single-process builds:
      include/qdp_scalar_specific.h 2055-2083. *)
  Definition put_single (lay : layout) (F : xfield) (w : writer) : option writer :=
    tagged "OLattice" [] (loop (fun site =>
      tagged "elem" (site_attrs site (crt lay site)) (put (F 0 (l_lin_lex lay site)))) (seq 0 (vol (l_size lay)))) w.

  (** Multi-node builds: include/qdp_parscalar_specific.h 2497-2550.  [buf q] is recv_buf on node q
      ([None]: not set).  QDPInternal::route brings the buffer of the source to node 0; what nodes
      on the way find in theirs afterwards is arbitrary ([stray]). *)
  Fixpoint put_sites (lay : layout) (F : xfield) (stray : nat -> nat -> option obj) (sites : list nat)
      (buf : nat -> option obj) (w : writer) : option writer :=
    match sites with
    | [] => Some w
    | site :: r =>
        let coord := crt lay site in
        let node := l_node lay coord in
        let linear := l_lin lay coord in
        let buf1 := fun q => if q =? node then Some (F q linear) else buf q in
        let buf2 := if negb (node =? 0)
                    then fun q => if q =? 0 then buf1 node else if q =? node then buf1 q else stray site q
                    else buf1 in
        obind (tagged "elem" (site_attrs site coord) (fun w1 => obind (buf2 0) (fun d => put d w1)) w)
          (put_sites lay F stray r buf2)
    end.
  Definition put_multi (lay : layout) (F : xfield) (stray : nat -> nat -> option obj) (w : writer) : option writer :=
    tagged "OLattice" [] (put_sites lay F stray (seq 0 (vol (l_size lay))) (fun _ => None)) w.

  Definition put_lattice (b : build) (F : xfield) (stray : nat -> nat -> option obj) (w : writer) : option writer :=
    match b with Single k L => put_single (scalar_layout k L) F w | Multi _ k M L => put_multi (par_layout k M L) F stray w end.
End Words.
