(** The text header of NERSC gauge archives, and whole archives: lib/qdp_iogauge.cc.

    Simplifications: Nd = 4 and Nc = 3 (the functions abort for other values, except that readArchivHeader
    alone also takes Nc = 4).  Real numbers [F] are printed and parsed by abstract functions: [show] is
    operator<<, [strtod] what %lf makes of the characters.  size_t values are nat.  Decimal numbers that do not fit
    an int and hexadecimal ones that do not fit 64 bits are undefined (the C standard leaves them so).  "0x"
    not followed by a digit is no number.  Messages to the terminal are left out. *)
From Coq Require Import String List Arith NArith ZArith Bool Ascii.
From Verif Require Import Base LayoutModel CrcModel IoModel LatIoModel NerscModel.
Import ListNotations.
Local Open Scope nat_scope.

(** ** C library and iostream functions *)

Definition txt (s : string) : list N := map N_of_ascii (list_ascii_of_string s).
Definition same (a b : list N) : bool := if list_eq_dec N.eq_dec a b then true else false.
(** isspace *)
Definition is_space (c : N) : bool := ((9 <=? c) && (c <=? 13) || (c =? 32))%N.
Fixpoint skip_ws (s : list N) : list N :=
  match s with c :: r => if is_space c then skip_ws r else s | [] => [] end.
(** find_first_not_of(' ') *)
Fixpoint skip_blanks (s : list N) : list N :=
  match s with c :: r => if (c =? 32)%N then skip_blanks r else s | [] => [] end.
Fixpoint word_of (s : list N) : list N :=
  match s with c :: r => if is_space c then [] else c :: word_of r | [] => [] end.
(** find('=') *)
Fixpoint after_equal (s : list N) : option (list N) :=
  match s with c :: r => if (c =? 61)%N then Some r else after_equal r | [] => None end.

(** The characters before a conversion in a format of sscanf: a blank stands for any white space. *)
Fixpoint scan_text (fmt s : list N) : option (list N) :=
  match fmt with
  | [] => Some s
  | f :: fmt' =>
      if is_space f then scan_text fmt' (skip_ws s)
      else match s with c :: r => if (c =? f)%N then scan_text fmt' r else None | [] => None end
  end.

Definition digit (base c : N) : option N :=
  (let d := if (48 <=? c) && (c <=? 57) then c - 48
            else if (97 <=? c) && (c <=? 102) then c - 87
            else if (65 <=? c) && (c <=? 70) then c - 55 else 99 in
   if d <? base then Some d else None)%N.
(** The digits at the start: how many, their value, and what follows. *)
Fixpoint digits (base : N) (n : nat) (acc : N) (s : list N) : nat * N * list N :=
  match s with
  | c :: r => match digit base c with Some d => digits base (S n) (base * acc + d)%N r | None => (n, acc, s) end
  | [] => (n, acc, [])
  end.
Definition sign (s : list N) : bool * list N :=
  match s with c :: r => if (c =? 45)%N then (true, r) else if (c =? 43)%N then (false, r) else (false, s) | [] => (false, s) end.
(** %d *)
Definition scan_dec (s : list N) : res (option (Z * list N)) :=
  let '(neg, s1) := sign (skip_ws s) in
  match digits 10 0 0 s1 with
  | (O, _, _) => Val None
  | (_, v, r) =>
      let z := (if neg then - Z.of_N v else Z.of_N v)%Z in
      if ((- 2 ^ 31 <=? z) && (z <? 2 ^ 31))%Z then Val (Some (z, r)) else Undef
  end.
(** %lx *)
Definition scan_hex (s : list N) : res (option N) :=
  let '(neg, s1) := sign (skip_ws s) in
  let s2 := match s1 with z :: x :: r => if ((z =? 48) && ((x =? 120) || (x =? 88)))%N then r else s1 | _ => s1 end in
  match digits 16 0 0 s2 with
  | (O, _, _) => Val None
  | (_, v, _) => if (v <? 2 ^ 64)%N then Val (Some (if neg then (2 ^ 64 - v) mod 2 ^ 64 else v)%N) else Undef
  end.
(** sscanf with the text, then one number; sscanf "NAME_%d = %d" *)
Definition scan_field (fmt : string) (line : list N) : res (option Z) :=
  match scan_text (txt fmt) line with
  | None => Val None
  | Some s => bind (scan_dec s) (fun o => Val (option_map fst o))
  end.
Definition scan_numbered (fmt : string) (line : list N) : res (option (Z * Z)) :=
  match scan_text (txt fmt) line with
  | None => Val None
  | Some s =>
      bind (scan_dec s) (fun o =>
      match o with
      | None => Val None
      | Some (dd, r) =>
          match scan_text (txt " = ") r with
          | None => Val None
          | Some r' => bind (scan_dec r') (fun o => Val (option_map (fun p => (dd, fst p)) o))
          end
      end)
  end.

(** operator<< of integers *)
Definition digit_char (d : N) : N := (if d <? 10 then 48 + d else 87 + d)%N.
Fixpoint show_loop (fuel : nat) (base n : N) (acc : list N) : list N :=
  match fuel with
  | O => acc
  | S k => let acc' := digit_char (n mod base) :: acc in
           if (n / base =? 0)%N then acc' else show_loop k base (n / base)%N acc'
  end.
Definition show_nat (base n : N) : list N := show_loop (S (N.to_nat (N.size n))) base n [].
Definition show_int (z : Z) : list N :=
  match z with Zneg p => 45%N :: show_nat 10 (Npos p) | _ => show_nat 10 (Z.to_N z) end.

(** The checksum in the XML form of a header: written to a string in hexadecimal, 184-189, and read from it with
    operator>> of a default stream, 154-160 (no digits: 0; too large: the largest value). *)
Definition xml_checksum (c : N) : N :=
  match digits 10 0 0 (show_nat 16 c) with (O, _, _) => 0 | (_, v, _) => N.min v (2 ^ 32 - 1) end%N.

(** ** The header *)
Section Header.
  Context {F : Type} (show : F -> list N) (strtod : list N -> option F).

  (** ArchivGauge_t, include/qdp_iogauge.h:48-74.  Elements of nrow that were not stored are None. *)
  Record header := mkHeader {
    nrow : list (option Z); boundary : list Z; w_plaq : F; link : F; mat_size : nat; float_size : nat;
    checksum : N; sequence_number : Z; ensemble_id : list N; ensemble_label : list N; creator : list N;
    creator_hardware : list N; creation_date : list N; archive_date : list N }.
  Definition set_nrow x h := mkHeader x (boundary h) (w_plaq h) (link h) (mat_size h) (float_size h) (checksum h)
    (sequence_number h) (ensemble_id h) (ensemble_label h) (creator h) (creator_hardware h) (creation_date h) (archive_date h).
  Definition set_boundary x h := mkHeader (nrow h) x (w_plaq h) (link h) (mat_size h) (float_size h) (checksum h)
    (sequence_number h) (ensemble_id h) (ensemble_label h) (creator h) (creator_hardware h) (creation_date h) (archive_date h).
  Definition set_w_plaq x h := mkHeader (nrow h) (boundary h) x (link h) (mat_size h) (float_size h) (checksum h)
    (sequence_number h) (ensemble_id h) (ensemble_label h) (creator h) (creator_hardware h) (creation_date h) (archive_date h).
  Definition set_link x h := mkHeader (nrow h) (boundary h) (w_plaq h) x (mat_size h) (float_size h) (checksum h)
    (sequence_number h) (ensemble_id h) (ensemble_label h) (creator h) (creator_hardware h) (creation_date h) (archive_date h).
  Definition set_mat_size x h := mkHeader (nrow h) (boundary h) (w_plaq h) (link h) x (float_size h) (checksum h)
    (sequence_number h) (ensemble_id h) (ensemble_label h) (creator h) (creator_hardware h) (creation_date h) (archive_date h).
  Definition set_float_size x h := mkHeader (nrow h) (boundary h) (w_plaq h) (link h) (mat_size h) x (checksum h)
    (sequence_number h) (ensemble_id h) (ensemble_label h) (creator h) (creator_hardware h) (creation_date h) (archive_date h).
  Definition set_checksum x h := mkHeader (nrow h) (boundary h) (w_plaq h) (link h) (mat_size h) (float_size h) x
    (sequence_number h) (ensemble_id h) (ensemble_label h) (creator h) (creator_hardware h) (creation_date h) (archive_date h).
  Definition set_sequence_number x h := mkHeader (nrow h) (boundary h) (w_plaq h) (link h) (mat_size h) (float_size h) (checksum h)
    x (ensemble_id h) (ensemble_label h) (creator h) (creator_hardware h) (creation_date h) (archive_date h).
  Definition set_ensemble_id x h := mkHeader (nrow h) (boundary h) (w_plaq h) (link h) (mat_size h) (float_size h) (checksum h)
    (sequence_number h) x (ensemble_label h) (creator h) (creator_hardware h) (creation_date h) (archive_date h).
  Definition set_ensemble_label x h := mkHeader (nrow h) (boundary h) (w_plaq h) (link h) (mat_size h) (float_size h) (checksum h)
    (sequence_number h) (ensemble_id h) x (creator h) (creator_hardware h) (creation_date h) (archive_date h).
  Definition set_creator x h := mkHeader (nrow h) (boundary h) (w_plaq h) (link h) (mat_size h) (float_size h) (checksum h)
    (sequence_number h) (ensemble_id h) (ensemble_label h) x (creator_hardware h) (creation_date h) (archive_date h).
  Definition set_creator_hardware x h := mkHeader (nrow h) (boundary h) (w_plaq h) (link h) (mat_size h) (float_size h) (checksum h)
    (sequence_number h) (ensemble_id h) (ensemble_label h) (creator h) x (creation_date h) (archive_date h).
  Definition set_creation_date x h := mkHeader (nrow h) (boundary h) (w_plaq h) (link h) (mat_size h) (float_size h) (checksum h)
    (sequence_number h) (ensemble_id h) (ensemble_label h) (creator h) (creator_hardware h) x (archive_date h).
  Definition set_archive_date x h := mkHeader (nrow h) (boundary h) (w_plaq h) (link h) (mat_size h) (float_size h) (checksum h)
    (sequence_number h) (ensemble_id h) (ensemble_label h) (creator h) (creator_hardware h) (creation_date h) x.
  Definition put_nth {X} (i : nat) (x : X) (l : list X) : res (list X) :=
    if i <? length l then Val (firstn i l ++ x :: skipn (S i) l) else Undef.

  (** Layout::lattSize() *)
  Variable lattSize : list nat.
  Definition Nd := 4.

  (** The body of the loop, qdp_iogauge.cc:249-435; the number is lat_size_cnt. *)
  Definition scan_real (fmt : string) (line : list N) : option F :=
    match scan_text (txt fmt) line with Some s => strtod s | None => None end.
  Definition datatype (value : list N) (h : header) : res header :=
    if same value (txt "4D_SU3_GAUGE_3x3") then Val (set_mat_size 18 h)
    else if same value (txt "4D_SU3_GAUGE") then Val (set_mat_size 12 h)
    else Abort.                                  (* 4D_SU4_GAUGE needs Nc == 4 *)
  Definition floating_point (value : list N) (h : header) : res header :=
    if same value (txt "IEEE32BIG") || same value (txt "IEEE32") then Val (set_float_size 4 h)
    else if same value (txt "IEEE64BIG") then Val (set_float_size 8 h)
    else Abort.
  Definition dimension (p : Z * Z) (hc : header * nat) : res (header * nat) :=
    let '(dd, itmp) := p in let '(h, cnt) := hc in
    if ((dd <? 1) || (Z.of_nat Nd <? dd))%Z then Abort
    else bind (put_nth (Z.to_nat (dd - 1)) (Some itmp) (nrow h)) (fun l => Val (set_nrow l h, S cnt)).
  Definition bound (p : Z * Z) (h : header) : res header :=
    let '(dd, itmp) := p in
    if ((dd <? 1) || (Z.of_nat Nd <? dd))%Z then Abort
    else bind (put_nth (Z.to_nat (dd - 1)) itmp (boundary h)) (fun l => Val (set_boundary l h)).
  Definition when {X} (b : bool) (f : X -> X) (x : X) : X := if b then f x else x.

  Definition process_line (line : list N) (hc : header * nat) : res (header * nat) :=
    match word_of (skip_ws line) with
    | [] => Abort
    | token =>
        match after_equal line with
        | None => Abort
        | Some rest =>
            let value := skip_blanks rest in
            let is name := same token (txt name) in
            let '(h, cnt) := hc in
            bind (if is "DATATYPE"%string then datatype value h else Val h) (fun h =>
            let h := match scan_real "PLAQUETTE = " line with Some x => set_w_plaq x h | None => h end in
            let h := match scan_real "LINK_TRACE = " line with Some x => set_link x h | None => h end in
            bind (match scan_text (txt "CHECKSUM = ") line with Some s => scan_hex s | None => Val None end) (fun o =>
            let h := match o with Some x => set_checksum (x mod 2 ^ 32)%N h | None => h end in
            bind (scan_field "SEQUENCE_NUMBER = " line) (fun o =>
            let h := match o with Some x => set_sequence_number x h | None => h end in
            let h := when (is "ENSEMBLE_LABEL"%string) (set_ensemble_label value) h in
            let h := when (is "ENSEMBLE_ID"%string) (set_ensemble_id value) h in
            let h := when (is "CREATOR"%string) (set_creator value) h in
            let h := when (is "CREATOR_MACHINE"%string) (set_creator_hardware value) h in
            let h := when (is "CREATOR_HARDWARE"%string) (set_creator_hardware value) h in
            let h := when (is "CREATION_DATE"%string) (set_creation_date value) h in
            let h := when (is "ARCHIVE_DATE"%string) (set_archive_date value) h in
            bind (scan_numbered "DIMENSION_" line) (fun o =>
            bind (match o with Some p => dimension p (h, cnt) | None => Val (h, cnt) end) (fun '(h, cnt) =>
            bind (scan_numbered "BOUNDARY_" line) (fun o =>
            bind (match o with Some p => bound p h | None => Val h end) (fun h =>
            bind (if is "FLOATING_POINT"%string then floating_point value h else Val h) (fun h =>
            Val (h, cnt)))))))))
        end
    end.

  (** while (1), 243-435.  Each turn takes a line from the file or aborts, so as many turns as the file has bytes,
      and one more, are enough. *)
  Fixpoint read_lines (fuel : nat) (hc : header * nat) (st : stream) : res (header * nat * stream) :=
    match fuel with
    | O => Undef
    | S k =>
        bind (read_string 128 st) (fun '(line, st) =>
        if same line (txt "END_HEADER") then Val (hc, st)
        else bind (process_line line hc) (fun hc => read_lines k hc st))
    end.

  (** The comparison at the end, 441-455. *)
  Definition check_size (h : header) (cnt : nat) : res unit :=
    if cnt =? Nd then
      bind (mapM of_option (nrow h)) (fun l =>
      if list_eq_dec Z.eq_dec l (map Z.of_nat lattSize) then Val tt else Abort)
    else Abort.

  (** readArchivHeader, 213-456. *)
  Definition readArchivHeader (h : header) (st : stream) : res (header * stream) :=
    let h := set_nrow (repeat None Nd) h in
    bind (read_string 128 st) (fun '(line, st) =>
    if same line (txt "BEGIN_HEADER") then
      let h := set_mat_size 18 h in
      bind (read_lines (S (length (s_data st))) (h, 0) st) (fun '((h, cnt), st) =>
      bind (check_size h cnt) (fun _ => Val (h, st)))
    else Abort).

  (** writeArchivHeader, 600-664: the text, *)
  Definition boundary_line (p : nat * Z) : res (list N) :=
    let '(i, x) := p in
    let name := (txt "BOUNDARY_" ++ show_int (Z.of_nat (i + 1)) ++ txt " = ")%list in
    if (x =? 1)%Z then Val (name ++ txt "PERIODIC" ++ [10%N])%list
    else if (x =? -1)%Z then Val (name ++ txt "ANTIPERIODIC" ++ [10%N])%list
    else Abort.
  Definition header_text (h : header) : res (list N) :=
    bind (mapM (fun i => match nth_error (boundary h) i with Some x => boundary_line (i, x) | None => Undef end) (seq 0 Nd))
      (fun bs => Val (
        txt "BEGIN_HEADER" ++ [10] ++
        txt "CHECKSUM = " ++ show_nat 16 (checksum h) ++ [10] ++
        txt "LINK_TRACE = " ++ show (link h) ++ [10] ++
        txt "PLAQUETTE = " ++ show (w_plaq h) ++ [10] ++
        txt "DATATYPE = 4D_SU3_GAUGE" ++ [10] ++
        txt "HDR_VERSION = 1.0" ++ [10] ++
        txt "STORAGE_FORMAT = 1.0" ++ [10] ++
        flat_map (fun i => txt "DIMENSION_" ++ show_int (Z.of_nat i) ++ txt " = " ++
                           show_int (Z.of_nat (nth (i - 1)%nat lattSize 0%nat)) ++ [10]) (seq 1 Nd) ++
        concat bs ++
        txt "ENSEMBLE_ID = " ++ ensemble_id h ++ [10] ++
        txt "ENSEMBLE_LABEL = " ++ ensemble_label h ++ [10] ++
        txt "SEQUENCE_NUMBER = " ++ show_int (sequence_number h) ++ [10] ++
        txt "CREATOR = " ++ creator h ++ [10] ++
        txt "CREATOR_HARDWARE = " ++ creator_hardware h ++ [10] ++
        txt "CREATION_DATE = " ++ creation_date h ++ [10] ++
        txt "ARCHIVE_DATE = " ++ archive_date h ++ [10] ++
        txt "FLOATING_POINT = IEEE32BIG" ++ [10] ++
        txt "END_HEADER" ++ [10])%N%list).
  (** and the call of writeArray. *)
  Definition writeArchivHeader (e : endian) (h : header) (st : stream) : res stream :=
    bind (header_text h) (fun t => bind (write_array e t 1 (length t) st) (fun r => Val (snd r))).

  (** ** Whole archives *)
  Section Archive.
    Context {A : Type} (rO : A) (radd rmul rsub : A -> A -> A) (narrow : A -> N) (cast : nat -> N -> A).
    (** mesplq, and whether two numbers differ by no more than tol. *)
    Context (mesplq : build -> @gauge A -> F * F) (close : F -> F -> bool).

    (** writeArchiv(header, u, file), 689-707. *)
    Definition writeArchiv (e : endian) (b : build) (h : header) (u : @gauge A) : res (header * stream) :=
      let h := set_link (snd (mesplq b u)) (set_w_plaq (fst (mesplq b u)) h) in
      bind (computeChecksum narrow Nd b (mat_size h) u) (fun c =>
      let h := set_checksum c h in
      bind (writeArchivHeader e h file_writer) (fun st =>
      bind (write_payload narrow e Nd b (mat_size h) u st) (fun st => Val (h, st)))).

    (** readArchiv(header, u, file), 492-526. *)
    Definition readArchiv (e : endian) (b : build) (h : header) (u : @gauge A) (file : list N) : res (header * @gauge A) :=
      bind (readArchivHeader h (file_reader file)) (fun '(h, st) =>
      bind (read_payload rO radd rmul rsub cast e Nd b (mat_size h) (float_size h) u st) (fun '(u, c, st) =>
      if negb (c =? checksum h)%N then Abort
      else if negb (close (w_plaq h) (fst (mesplq b u))) then Abort
      else if negb (close (link h) (snd (mesplq b u))) then Abort
      else Val (h, u))).
  End Archive.
End Header.
