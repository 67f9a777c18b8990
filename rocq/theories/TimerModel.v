(** Model of the stopwatch (lib/qdp_stopwatch.cc) and of profiling (lib/qdp_profile.cc, include/qdp_profile.h). *)
From Coq Require Import List ZArith Bool.
From Verif Require Import Base.
Import ListNotations.
Local Open Scope Z_scope.

(** * Stopwatch *)

(** struct timeval: seconds and microseconds. *)
Definition timeval := (Z * Z)%type.
(** include/qdp_stopwatch.h 46-56.  stoppedP is true only inside stop().  [t_start] is [None] until it is set. *)
Record watch := mkWatch { w_sec : Z; w_usec : Z; startedP : bool; state_ok : bool; t_start : option timeval }.
(** lib/qdp_stopwatch.cc 14-21 *)
Definition new_watch : watch := mkWatch 0 0 false true None.
(** 62-69 *)
Definition reset (w : watch) : watch := mkWatch 0 0 false true (t_start w).
(** 71-86; the argument is what gettimeofday gives, [None] if it fails. *)
Definition start (w : watch) (now : option timeval) : watch :=
  match now with
  | Some t => mkWatch (w_sec w) (w_usec w) true true (Some t)
  | None => mkWatch (w_sec w) (w_usec w) true false (t_start w)
  end.
(** calcDuration with startedP and stoppedP both true, 25-60: the seconds, the microseconds and the new state.  In the error
    state it returns with both left unset, and stop() adds them up: [Undef]. *)
Definition calc_duration (ok : bool) (t0 : option timeval) (t1 : timeval) : res (Z * Z * bool) :=
  if negb ok then Undef else
  match t0 with
  | None => Undef
  | Some t0 =>
      if fst t1 <? fst t0 then Val (0, 0, false)
      else if snd t1 <? snd t0 then Val (fst t1 - fst t0 - 1, 1000000 + (snd t1 - snd t0), ok)
      else Val (fst t1 - fst t0, snd t1 - snd t0, ok)
  end.
(** 88-116.  A failing gettimeofday leaves t_end alone and sets the error state. *)
Definition stop (w : watch) (now : option timeval) : res watch :=
  if startedP w then
    match now with
    | None => Undef
    | Some t1 =>
        bind (calc_duration (state_ok w) (t_start w) t1) (fun '(s, u, ok) =>
        Val (mkWatch (w_sec w + s) (w_usec w + u) false ok (t_start w)))
    end
  else Val w.
(** getTimeInMicroseconds, 118-121 (exact in double precision below 2^53). *)
Definition microseconds (w : watch) : Z := w_usec w + w_sec w * 1000000.

Inductive click := Start (now : option timeval) | Stop (now : option timeval) | Reset.
Definition click_one (w : watch) (c : click) : res watch :=
  match c with
  | Start t => Val (start w t)
  | Stop t => stop w t
  | Reset => Val (reset w)
  end.
Fixpoint click_all (w : watch) (h : list click) : res watch :=
  match h with
  | [] => Val w
  | c :: h => bind (click_one w c) (fun w => click_all w h)
  end.

(** * Profiling, with QDP_USE_PROFILING *)

(** An object static QDPProfile_t prof of one evaluate or sum function (include/qdp_profile.h 54-82). *)
Record tally := mkTally { time : Z; count : Z }.
(** prof_level, infostack (levels only), profqueue (latest first: section and the objects registered in it, in order), and
    the static objects that have been constructed. *)
Record prof := mkProf { level : Z; infos : list Z; queue : list (nat * list nat); objs : nat -> option tally }.
Definition start_prof : prof := mkProf 0 [] [] (fun _ => None).

(** unsigned long *)
Definition ulong (z : Z) : Z := z mod 2 ^ 64.
Definition upd (o : nat -> option tally) (e : nat) (t : tally) : nat -> option tally :=
  fun x => if Nat.eqb x e then Some t else o x.

Inductive act :=
| Push (lev : Z) (section : nat) | Pop | SetLevel (lev : Z)
| Enter (e : nat) (now : Z) | Leave (e : nat) (now : Z)
| Print.

(** lib/qdp_profile.cc 164-181 *)
Definition push (p : prof) (lev : Z) (sec : nat) : prof :=
  mkProf lev (lev :: infos p) ((sec, []) :: queue p) (objs p).
(** 183-195: the level is set to that of the top of the stack, which is then removed. *)
Definition pop (p : prof) : res prof :=
  match infos p with
  | [] => Abort
  | l :: r => Val (mkProf l r (queue p) (objs p))
  end.
(** registerProfile, 197-217 *)
Definition register (p : prof) (e : nat) : res prof :=
  match queue p with
  | [] => Abort
  | (s, es) :: r => Val (mkProf (level p) (infos p) ((s, es ++ [e]) :: r) (objs p))
  end.
(** The constructor of the static object, run on the first call only, include/qdp_profile.h 65-82, then
    prof.time -= getClockTime(), include/qdp_scalar_specific.h 159-160 *)
Definition enter (p : prof) (e : nat) (now : Z) : res prof :=
  match objs p e with
  | Some t => Val (mkProf (level p) (infos p) (queue p) (upd (objs p) e (mkTally (ulong (time t - now)) (count t))))
  | None =>
      bind (if 0 <? level p then register p e else Val p) (fun p =>
      Val (mkProf (level p) (infos p) (queue p) (upd (objs p) e (mkTally (ulong (0 - now)) 0))))
  end.
(** prof.time += getClockTime(); prof.count++, include/qdp_scalar_specific.h 182-183 *)
Definition leave (p : prof) (e : nat) (now : Z) : res prof :=
  match objs p e with
  | Some t => Val (mkProf (level p) (infos p) (queue p) (upd (objs p) e (mkTally (ulong (time t + now)) (count t + 1))))
  | None => Undef
  end.
(** printProfile, lib/qdp_profile.cc 108-148: what it prints, oldest section first, and the queue emptied. *)
Definition line_of (p : prof) (e : nat) : option (nat * Z * Z) :=
  match objs p e with
  | Some t => if 0 <? count t then Some (e, count t, time t) else None
  | None => None
  end.
Fixpoint lines_of (p : prof) (es : list nat) : list (nat * Z * Z) :=
  match es with
  | [] => []
  | e :: es => match line_of p e with Some l => l :: lines_of p es | None => lines_of p es end
  end.
Fixpoint printed (p : prof) (q : list (nat * list nat)) : list (nat * list (nat * Z * Z)) :=
  match q with
  | [] => []
  | (s, []) :: q => printed p q
  | (s, es) :: q => (s, lines_of p es) :: printed p q
  end.
Definition report (p : prof) : list (nat * list (nat * Z * Z)) := printed p (rev (queue p)).
Definition print (p : prof) : prof := mkProf (level p) (infos p) [] (objs p).

Definition act_one (p : prof) (a : act) : res prof :=
  match a with
  | Push l s => Val (push p l s)
  | Pop => pop p
  | SetLevel l => Val (mkProf l (infos p) (queue p) (objs p))
  | Enter e t => enter p e t
  | Leave e t => leave p e t
  | Print => Val (print p)
  end.
Fixpoint act_all (p : prof) (h : list act) : res prof :=
  match h with
  | [] => Val p
  | a :: h => bind (act_one p a) (fun p => act_all p h)
  end.
