(** Model of maps (shifts): lib/qdp_map.cc, lib/qdp_scalar_specific.cc:23-45,
    include/qdp_scalar_specific.h:1733-1848, lib/qdp_parscalar_specific.cc:29-243,
    include/qdp_parscalar_specific.h:1907-2125, lib/qdp_util.cc:128-169.

    A lattice field on one node is the list of its site values in index order (OLattice's
    array).  Sites and coordinates are [nat], signs are [Z]; no overflow. *)
From Coq Require Import List Arith ZArith Bool.
From Verif Require Import Base LayoutModel.
Import ListNotations.
Local Open Scope nat_scope.

(** MapFunc::operator()(coord, isign) and ArrayMapFunc::operator()(coord, isign, dir). *)
Definition mapfunc := list nat -> Z -> list nat.
Definition arrayfunc := list nat -> Z -> nat -> list nat.

(** sgnum: lib/qdp_map.cc:37 *)
Definition sgnum (x : Z) : Z := if (0 <? x)%Z then 1%Z else (-1)%Z.

(** NearestNeighborMapFunc::operator(), lib/qdp_map.cc:24-32; C's % is Z.rem. *)
Definition NearestNeighborMapFunc (nrow : list nat) : arrayfunc := fun coord sign dir =>
  upd dir (Z.to_nat (Z.rem (Z.of_nat (get coord dir) + sgnum sign + 4 * Z.of_nat (get nrow dir))
                           (Z.of_nat (get nrow dir)))) coord.

(** The packaged map functions: lib/qdp_map.cc:56-66, 96-107, 134-147. *)
Definition PackageArrayMapFunc (pmap : arrayfunc) (dir : nat) : mapfunc :=
  fun coord isign => pmap coord isign dir.
Definition PackageBiDirectionalMapFunc (pmap : mapfunc) (mult : Z) : mapfunc :=
  fun coord isign => pmap coord (mult * isign)%Z.
Definition PackageArrayBiDirectionalMapFunc (pmap : arrayfunc) (mult : Z) (dir : nat) : mapfunc :=
  fun coord isign => pmap coord (mult * isign)%Z dir.

(** ** Single-process maps *)

(** Map::make: lib/qdp_scalar_specific.cc:23-45, the table goffsets. *)
Definition map_make1 (lay : layout) (func : mapfunc) : list nat :=
  map (fun linear => l_lin lay (func (l_coord lay 0 linear) 1%Z)) (seq 0 (l_sites lay)).

(** Evaluation of map(l): include/qdp_scalar_specific.h:1763-1778 inside the site loop of
    an assignment: each destination site i reads l at goff[i]. *)
Definition map_apply1 {T} (goff : list nat) (l : list T) : res (list T) :=
  mapM (fun i => bind (of_option (nth_error goff i)) (fun s => of_option (nth_error l s)))
       (seq 0 (length l)).

(** BiDirectionalMap::make, lib/qdp_map.cc:111-124; ArrayMap::make, 71-85;
    ArrayBiDirectionalMap::make, 151-170.  The two-dimensional table bimapsa(s,dir) is
    modelled as a list of two lists. *)
Definition bimap_make1 (lay : layout) (func : mapfunc) : list (list nat) :=
  [map_make1 lay (PackageBiDirectionalMapFunc func (-1));
   map_make1 lay (PackageBiDirectionalMapFunc func 1)].
Definition arraymap_make1 (lay : layout) (func : arrayfunc) (numArray : nat) : list (list nat) :=
  map (fun dir => map_make1 lay (PackageArrayMapFunc func dir)) (seq 0 numArray).
Definition arraybimap_make1 (lay : layout) (func : arrayfunc) (numArray : nat)
  : list (list (list nat)) :=
  [map (fun dir => map_make1 lay (PackageArrayBiDirectionalMapFunc func (-1) dir)) (seq 0 numArray);
   map (fun dir => map_make1 lay (PackageArrayBiDirectionalMapFunc func 1 dir)) (seq 0 numArray)].

(** Selection [(isign+1)>>1]: include/qdp_scalar_specific.h:1952,1964 (BiDirectionalMap)
    and 2017,2029 (ArrayBiDirectionalMap); a negative index is undefined. *)
Definition isign_index (isign : Z) : res nat :=
  let k := Z.shiftr (isign + 1) 1 in if (k <? 0)%Z then Undef else Val (Z.to_nat k).

Definition bimap_apply1 {T} (bm : list (list nat)) (l : list T) (isign : Z) : res (list T) :=
  bind (isign_index isign) (fun k =>
  bind (of_option (nth_error bm k)) (fun goff => map_apply1 goff l)).
Definition arraymap_apply1 {T} (am : list (list nat)) (l : list T) (dir : nat) : res (list T) :=
  bind (of_option (nth_error am dir)) (fun goff => map_apply1 goff l).
Definition arraybimap_apply1 {T} (abm : list (list (list nat))) (l : list T) (isign : Z) (dir : nat)
  : res (list T) :=
  bind (isign_index isign) (fun k =>
  bind (of_option (nth_error abm k)) (fun row =>
  bind (of_option (nth_error row dir)) (fun goff => map_apply1 goff l))).

(** The global object [shift], initialised by initDefaultMaps (lib/qdp_map.cc:42-48) with
    numArray() = Nd (line 34); shift(l,isign,dir). *)
Definition shift1 {T} (lay : layout) (l : list T) (isign : Z) (dir : nat) : res (list T) :=
  arraybimap_apply1
    (arraybimap_make1 lay (NearestNeighborMapFunc (l_size lay)) (length (l_size lay))) l isign dir.

(** ** uniquify_list: lib/qdp_util.cc:128-169

    [d] is the list of unique entries found so far, [prev] the previous element.  Line 137
    reads element 0 unconditionally, which is undefined for an empty list. *)
Fixpoint uniq_loop (d : list nat) (prev_node : nat) (ll : list nat) : list nat :=
  match ll with
  | [] => d
  | this_node :: ll' =>
      let d' := if negb (this_node =? prev_node)
                then if existsb (fun x => x =? this_node) d then d else d ++ [this_node]
                else d in
      uniq_loop d' this_node ll'
  end.
Definition uniquify_list (ll : list nat) : res (list nat) :=
  match ll with [] => Undef | x :: ll' => Val (uniq_loop [x] x ll') end.

(** ** Multi-node maps *)

(** The members of Map (include/qdp_parscalar_specific.h, private part of class Map).
    Entries of soffsets that are never written hold unspecified values: [None]. *)
Record pmap := {
  goffsets : list nat; srcnode : list nat; dstnode : list nat;
  offnodeP : bool;
  srcenodes : list nat; destnodes : list nat;
  srcenodes_num : list nat; destnodes_num : list nat;
  soffsets : list (option nat) }.

(** lib/qdp_parscalar_specific.cc:156-186: how many sites have their (off-node) partner on
    each node of the list. *)
Definition count_nodes (my_node : nat) (nodes : list nat) (partner : list nat) : list nat :=
  fold_left
    (fun num this_node =>
       if negb (this_node =? my_node) then
         (fix bump (nodes num : list nat) : list nat :=
            match nodes, num with
            | n :: nodes', c :: num' =>
                if n =? this_node then S c :: num' else c :: bump nodes' num'
            | _, _ => num
            end) nodes num
       else num)
    partner (repeat 0 (length nodes)).

(** lib/qdp_parscalar_specific.cc:219-231: the loop filling soffsets, an array of [size]
    elements; writing past its end is undefined. *)
Definition fill_soffsets (lay : layout) (my_node dest : nat) (func : mapfunc) (size : nat)
  : res (list (option nat)) :=
  let written :=
    fold_left
      (fun acc i =>
         let fcoord := func (l_coord lay dest i) 1%Z in
         if l_node lay fcoord =? my_node then acc ++ [l_lin lay fcoord] else acc)
      (seq 0 (l_sites lay)) [] in
  if size <? length written then Undef
  else Val (map Some written ++ repeat None (size - length written)).

(** Map::make on node [my_node], lib/qdp_parscalar_specific.cc:29-243. *)
Definition map_makeP (lay : layout) (func : mapfunc) (my_node : nat) : res pmap :=
  let sites := seq 0 (l_sites lay) in
  let fcoord linear := func (l_coord lay my_node linear) 1%Z in
  let bcoord linear := func (l_coord lay my_node linear) (-1)%Z in
  let goff := map (fun linear => l_lin lay (fcoord linear)) sites in          (* 66 *)
  let src := map (fun linear => l_node lay (fcoord linear)) sites in          (* 67 *)
  let dst := map (fun linear => l_node lay (bcoord linear)) sites in          (* 70 *)
  bind (uniquify_list src) (fun srcenodes_tmp =>                              (* 84 *)
  bind (uniquify_list dst) (fun destnodes_tmp =>                              (* 85 *)
  let not_me n := negb (n =? my_node) in
  let cnt_srcenodes := length (filter not_me srcenodes_tmp) in                (* 90-93 *)
  let cnt_destnodes := length (filter not_me destnodes_tmp) in                (* 95-98 *)
  if (0 <? cnt_srcenodes) && (cnt_destnodes =? 0) then Abort                  (* 113 *)
  else if (cnt_srcenodes =? 0) && (0 <? cnt_destnodes) then Abort             (* 116 *)
  else if cnt_srcenodes =? 0 then                                             (* 120-132 *)
    Val {| goffsets := goff; srcnode := src; dstnode := dst; offnodeP := false;
           srcenodes := []; destnodes := []; srcenodes_num := []; destnodes_num := [];
           soffsets := [] |}
  else
    let srce := filter not_me srcenodes_tmp in                                (* 138-140 *)
    let dest := filter not_me destnodes_tmp in                                (* 142-144 *)
    let snum := count_nodes my_node srce src in
    let dnum := count_nodes my_node dest dst in
    if negb (length srce =? 1) then Abort                                     (* 205 *)
    else if negb (length dest =? 1) then Abort                                (* 208 *)
    else
      bind (fill_soffsets lay my_node (get dest 0) func (get dnum 0)) (fun soff =>
      Val {| goffsets := goff; srcnode := src; dstnode := dst; offnodeP := true;
             srcenodes := srce; destnodes := dest; srcenodes_num := snum; destnodes_num := dnum;
             soffsets := soff |}))).

(** The send buffer of a node, include/qdp_parscalar_specific.h:1982-1989. *)
Definition send_buf {T} (m : pmap) (l : list T) : res (list T) :=
  mapM (fun s => bind (of_option s) (fun k => of_option (nth_error l k))) (soffsets m).

(** The message exchange (QMP_declare_receive_from / send_to / start / wait,
    include/qdp_parscalar_specific.h:2031-2070) seen from node [me].  QMP itself is not
    modelled; a receive completes only if the named source sends to this node a message of
    the announced length, and a send only if the named destination receives from this node;
    otherwise the call hangs or fails, which is [Undef] here.  [maps] and [field] list the
    Map objects and source fields of all nodes. *)
Definition recv_buf {T} (maps : list pmap) (field : list (list T)) (me : nat) : res (list T) :=
  bind (of_option (nth_error maps me)) (fun m =>
  let srce := get (srcenodes m) 0 in
  let dest := get (destnodes m) 0 in
  bind (of_option (nth_error maps srce)) (fun ms =>
  bind (of_option (nth_error maps dest)) (fun md =>
  bind (of_option (nth_error field srce)) (fun ls =>
  if offnodeP ms && (get (destnodes ms) 0 =? me)
     && (get (destnodes_num ms) 0 =? get (srcenodes_num m) 0)
     && offnodeP md && (get (srcenodes md) 0 =? me)
     && (get (srcenodes_num md) 0 =? get (destnodes_num m) 0)
  then send_buf ms ls else Undef)))).

(** The scatter into the destination, include/qdp_parscalar_specific.h:1995-2013 and
    2084-2091: a running index [ri] into the receive buffer. *)
Fixpoint unpack {T} (my_node : nat) (recv l : list T) (goff src : list nat) : res (list T) :=
  match goff, src with
  | g :: goff', s :: src' =>
      if negb (s =? my_node) then
        match recv with
        | [] => Undef
        | r :: recv' => bind (unpack my_node recv' l goff' src') (fun d => Val (r :: d))
        end
      else
        bind (of_option (nth_error l g)) (fun v =>
        bind (unpack my_node recv l goff' src') (fun d => Val (v :: d)))
  | _, _ => Val []
  end.

(** Map::operator() on node [me], include/qdp_parscalar_specific.h:1907-2125. *)
Definition map_applyP {T} (maps : list pmap) (field : list (list T)) (me : nat) : res (list T) :=
  bind (of_option (nth_error maps me)) (fun m =>
  bind (of_option (nth_error field me)) (fun l =>
  if offnodeP m then
    bind (recv_buf maps field me) (fun recv => unpack me recv l (goffsets m) (srcnode m))
  else map_apply1 (goffsets m) l)).

(** All nodes build the map, then all nodes apply it. *)
Definition run_mapP {T} (lay : layout) (func : mapfunc) (field : list (list T))
  : res (list (list T)) :=
  bind (mapM (map_makeP lay func) (seq 0 (l_nodes lay))) (fun maps =>
  mapM (map_applyP maps field) (seq 0 (l_nodes lay))).

(** shift(l,isign,dir) on all nodes: initDefaultMaps and
    ArrayBiDirectionalMap::operator(), include/qdp_parscalar_specific.h:2410-2442. *)
Definition shiftP {T} (lay : layout) (field : list (list T)) (isign : Z) (dir : nat)
  : res (list (list T)) :=
  bind (isign_index isign) (fun k =>
  bind (of_option (nth_error [(-1)%Z; 1%Z] k)) (fun mult =>
  if dir <? length (l_size lay)
  then run_mapP lay
         (PackageArrayBiDirectionalMapFunc (NearestNeighborMapFunc (l_size lay)) mult dir) field
  else Undef)).
