(** Model of XMLArrayWriter: an array written to an XML document piece by piece (include/qdp_xmlio.h 1115-1181,
    lib/qdp_xmlio.cc 1393-1521; docs/usr/io.dox 303-330).

    The document is the list of marks put on the stream of the writer that was given to the constructor.  Indentation,
    line ends and attributes are left out: no reader of the library looks at them.  What is modelled is the primary node;
    on the others openTag and closeTag do nothing (lib/qdp_xmlio.cc 636-690) and the rest of the state is the same.
    [elements_written] is unbounded here (an int in the code). *)
From Coq Require Import String.
From Coq Require Import List ZArith Bool.
From Verif Require Import XmlModel.
Import ListNotations.
Local Open Scope Z_scope.

Inductive mark := Op (s : string) | Cl (s : string) | Tx (b : list N).

(** The fields of XMLArrayWriter (include/qdp_xmlio.h 1158-1173), the stack of names that XMLSimpleWriter keeps for each
    writer of its own, and the stack of the writer given to the constructor, whose stream is shared (getOstream, 1175).
    [rooted]: this writer has opened a tag before. *)
Record arr := mkArr {
  stream : list mark; outer : list string;
  names : list string; rooted : bool;
  initP : bool; arrayTag : bool; context : nat; written : Z; asize : Z }.

Definition put (m : mark) (a : arr) : arr :=
  mkArr (stream a ++ [m]) (outer a) (names a) (rooted a) (initP a) (arrayTag a) (context a) (written a) (asize a).

(** The constructor, include/qdp_xmlio.h 1125-1132. *)
Definition start (st : list mark) (out : list string) (size : Z) : arr :=
  mkArr st out [] false false false 0 0 size.

(** XMLSimpleWriter::openTag, reached from XMLWriter::openTag (lib/qdp_xmlio.cc 636-640): third-party code, taken at its
    contract.  What it does with a second outermost tag is not to be seen in this repository: [Wild]. *)
Definition open_tag (s : string) (a : arr) : out arr :=
  match names a with
  | [] => if rooted a then Wild else
          Ret (mkArr (stream a ++ [Op s]) (outer a) [s] true (initP a) (arrayTag a) (context a) (written a) (asize a))
  | _ :: _ => Ret (mkArr (stream a ++ [Op s]) (outer a) (s :: names a) true
                     (initP a) (arrayTag a) (context a) (written a) (asize a))
  end.
(** XMLSimpleWriter::closeTag (from lib/qdp_xmlio.cc 655-660): the innermost open tag of this writer is closed; with none
    open the program ends. *)
Definition close_tag (a : arr) : out arr :=
  match names a with
  | [] => Halt
  | s :: r => Ret (mkArr (stream a ++ [Cl s]) (outer a) r (rooted a)
                     (initP a) (arrayTag a) (context a) (written a) (asize a))
  end.

(** openArray, lib/qdp_xmlio.cc 1402-1424. *)
Definition open_array (s : string) (a : arr) : out arr :=
  if initP a then Halt else
  if arrayTag a then Halt else
  match context a with
  | S _ => Halt
  | O => obind (open_tag s a) (fun a =>
         Ret (mkArr (stream a) (outer a) (names a) (rooted a) false true (context a) (written a) (asize a)))
  end.
(** closeArray, 1426-1446. *)
Definition close_array (a : arr) : out arr :=
  if negb (initP a) then Halt else
  match context a with
  | S _ => Halt
  | O => obind (close_tag a) (fun a =>
         if (0 <? asize a) && negb (written a =? asize a) then Halt else
         Ret (mkArr (stream a) (outer a) (names a) (rooted a) false false (context a) 0 (asize a)))
  end.
(** openStruct, 1448-1485.  [simpleElements] is always false (1131, 1445, 1466): left out. *)
Definition open_struct (s : string) (a : arr) : out arr :=
  if negb (arrayTag a) then open_array s a else
  if negb (initP a) && negb (written a =? 0) then Halt else
  obind (open_tag (match context a with O => "elem"%string | S _ => s end) a) (fun a =>
  Ret (mkArr (stream a) (outer a) (names a) (rooted a) true (arrayTag a) (S (context a)) (written a) (asize a))).
(** closeStruct, 1487-1515.  Only STRUCT is ever put on the stack of contexts (1482-1483). *)
Definition close_struct (a : arr) : out arr :=
  if negb (initP a) then Halt else
  match context a with
  | O => close_array a
  | S c => obind (close_tag a) (fun a =>
           Ret (mkArr (stream a) (outer a) (names a) (rooted a) (initP a) (arrayTag a) c
                  (match c with O => written a + 1 | S _ => written a end) (asize a)))
  end.
(** The destructor, 1396-1400. *)
Definition destroy (a : arr) : out arr := if initP a then close_array a else Ret a.

(** What a program does with the array writer and with the writer beneath it.
    [Push s]: push(xml, s), lib/qdp_xmlio.cc 749 (openStruct is virtual, include/qdp_xmlio.h 524); push(xml) is [Push ""], 1518.
    [Pop]: pop(xml), 752, 1521.
    [Tag s], [EndTag]: openTag and closeTag, as called by every write of a number, a string, a complex number or an array
    (lib/qdp_xmlio.cc 790-800, include/qdp_xmlio.h 748-780, include/qdp_reality.h 430-440); not virtual.
    [Text b]: xml << b.
    [OutPush s], [OutPop]: push and pop on the writer beneath. *)
Inductive cmd := Push (s : string) | Pop | Tag (s : string) | EndTag | Text (b : list N) | OutPush (s : string) | OutPop.

Definition exec (c : cmd) (a : arr) : out arr :=
  match c with
  | Push s => open_struct s a
  | Pop => close_struct a
  | Tag s => open_tag s a
  | EndTag => close_tag a
  | Text b => Ret (put (Tx b) a)
  | OutPush s => Ret (mkArr (stream a ++ [Op s]) (s :: outer a) (names a) (rooted a)
                        (initP a) (arrayTag a) (context a) (written a) (asize a))
  | OutPop => match outer a with
              | [] => Halt
              | s :: r => Ret (mkArr (stream a ++ [Cl s]) r (names a) (rooted a)
                                 (initP a) (arrayTag a) (context a) (written a) (asize a))
              end
  end.
Fixpoint run (l : list cmd) (a : arr) : out arr :=
  match l with [] => Ret a | c :: l => obind (exec c a) (run l) end.
