(** * What rebuffering must preserve: the plain stream of frames *)
From Verif Require Import Prelude Rebuffer.

(** A module in state [s] stands for the stream [rem] ([R s rem]): asked for a positive multiple of [N]
    frames (with [mult = false]: for [N] frames) it delivers the next ones, or all that are left.  With [eofok = false] it need only answer requests
    that do not reach beyond the end. *)
Definition serves {A S} (eofok mult : bool) (N : Z) (pull : S -> Z -> res (list (option A) * S)) (R : S -> list (option A) -> Prop) : Prop :=
  forall s rem n, R s rem -> 0 < n -> n mod N = 0 -> (mult = false -> n = N) -> (eofok = true \/ n <= zlen rem) ->
    exists s', pull s n = Ok (zfirstn n rem, s') /\ R s' (zskipn n rem).

(** The simplest such source: a list. *)
Definition listPull {A} (s : list (option A)) (n : Z) : res (list (option A) * list (option A)) :=
  Ok (zfirstn n s, zskipn n s).

(** Successive requests made to the rebuffering module; stops at the first short chunk, as its callers do. *)
Fixpoint rebReads {B : Build} {A S} (pull : S -> Z -> res (list (option A) * S)) (N : Z) (multipleOf : bool)
    (r : rebuffer A) (s : S) (reqs : list Z) : res (list (list (option A))) :=
  match reqs with
  | [] => Ok []
  | n :: reqs' =>
      do (c, r, s) <- rebPull pull N multipleOf (Z.to_nat n) r s n;
      if zlen c <? n then Ok [c]
      else do l <- rebReads pull N multipleOf r s reqs'; Ok (c :: l)
  end.

(** The same requests made to the stream itself. *)
Fixpoint streamReads {A} (rem : list A) (reqs : list Z) : list (list A) :=
  match reqs with
  | [] => []
  | n :: reqs' => if zlen rem <? n then [rem] else zfirstn n rem :: streamReads (zskipn n rem) reqs'
  end.

(** ** Writing *)

(** A sink that records every chunk of frames it receives. *)
Definition recordPush {A} (s : list (list (option A))) (buf : list (option A)) (n : Z) : res (list (list (option A))) :=
  Ok (s ++ [zfirstn n buf]).

(** Calls made to the rebuffering module while writing: a write of frames, or a sync. *)
Inductive wop (A : Type) := Write (frames : list A) | Sync.
Arguments Write {A}. Arguments Sync {A}.

(** The frames written by a history of calls. *)
Fixpoint written {A} (ops : list (wop A)) : list A :=
  match ops with [] => [] | Write l :: ops' => l ++ written ops' | Sync :: ops' => written ops' end.

(** Running a history of writes through the module into a sink, ending with the sync of afCloseFile. *)
Fixpoint rebWrites {B : Build} {A S} (push : S -> list (option A) -> Z -> res S) (N : Z) (multipleOf : bool)
    (r : rebuffer A) (outb : list (option A)) (s : S) (ws : list (list A)) : res (rebuffer A * list (option A) * S) :=
  match ws with
  | [] => Ok (r, outb, s)
  | w :: ws' =>
      do (r, outb, s) <- rebPush push N multipleOf (length w) r outb s (map Some w);
      rebWrites push N multipleOf r outb s ws'
  end.
Definition rebSync {B : Build} {A S} (push : S -> list (option A) -> Z -> res S) (N : Z)
    (r : rebuffer A) (outb : list (option A)) (s : S) : res (rebuffer A * list (option A) * S) :=
  do r <- rebSync1 N r; rebSync2 push N r outb s.
