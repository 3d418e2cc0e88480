(** * modules/RebufferModule.cpp: conversion between fixed-size blocks and arbitrary requests

    Buffers are lists of frames; positions and counts are in frames (the code multiplies every one of them
    by m_bytesPerFrame).  A read or write outside a buffer is [UB], a failed assert is [Abort].  The module
    upstream (pull) or downstream (push) is a function over an arbitrary state [S]. *)
From Verif Require Import Prelude.

(** memcpy from [src] at [pos], [n] frames. *)
Definition slice {A} (src : list A) (pos n : Z) : res (list A) :=
  if n =? 0 then Ok []
  else if (0 <=? pos) && (0 <=? n) && (pos + n <=? zlen src) then Ok (zfirstn n (zskipn pos src)) else UB.

(** memcpy of [src] to [dst] at [pos]. *)
Definition blit {A} (dst : list A) (pos : Z) (src : list A) : res (list A) :=
  if zlen src =? 0 then Ok dst
  else if (0 <=? pos) && (pos + zlen src <=? zlen dst)
  then Ok (zfirstn pos dst ++ src ++ zskipn (pos + zlen src) dst) else UB.

(** RebufferModule.h: m_eof, m_sentShortChunk, m_buffer, m_offset, m_savedBuffer, m_savedOffset.
    Buffers come from [new char[]], so their initial frames are arbitrary ([None]). *)
Record rebuffer (A : Type) := mkReb {
  r_eof : bool; r_sent : bool; r_buffer : list (option A); r_offset : Z;
  r_saved : list (option A); r_savedOffset : Z }.
Arguments mkReb {A}. Arguments r_eof {A}. Arguments r_sent {A}. Arguments r_buffer {A}. Arguments r_offset {A}.
Arguments r_saved {A}. Arguments r_savedOffset {A}.

(** RebufferModule.cpp:29-46, 54-58 (FixedToVariable) *)
Definition rebInitPull {A} (N : Z) : rebuffer A := mkReb false false (zrepeat None N) N [] (-1).
(** RebufferModule.cpp:29-46, 60-65 (VariableToFixed) *)
Definition rebInitPush {A} (N : Z) : rebuffer A := mkReb false false (zrepeat None N) 0 (zrepeat None N) (-1).

Section Pull.
Context {B : Build}.
Context {A S : Type}.
(** The source module: asked for n frames, delivers a chunk (its length is the chunk's frameCount). *)
Variable pull : S -> Z -> res (list (option A) * S).
Variable N : Z.
Variable multipleOf : bool.

Definition offsetOkPull (off : Z) : bool := (0 <? off) && (off <=? N).

(** RebufferModule.cpp:107-151: the pull loop.  Loop state: end of file seen, m_buffer, m_offset, the output
    chunk, outBuffer position, framesToPull. *)
Fixpoint pullLoop (fuel : nat) (eof : bool) (buffer : list (option A)) (offset : Z)
    (out : list (option A)) (outPos ftp : Z) (s : S)
  : res (bool * list (option A) * Z * list (option A) * Z * S) :=
  if eof || (ftp <=? 0) then Ok (eof, buffer, offset, out, ftp, s)
  else match fuel with
  | O => OutOfFuel
  | Datatypes.S fuel' =>
      let requested := if multipleOf then (Z.quot (ftp - 1) N + 1) * N else N in
      do _ <- rassert (0 <? requested);
      do (inb, s) <- pull s requested;
      let received := zlen inb in
      let eof := negb (received =? requested) in
      do seg <- slice inb 0 (Z.min ftp received);
      do out <- blit out outPos seg;
      let outPos := outPos + received in
      let ftp := ftp - received in
      do _ <- rassert (negb multipleOf || eof || (ftp <=? 0));
      if ftp <? 0 then
        do _ <- rassert (offset =? N);
        let offset := N + ftp in
        do _ <- rassert (offsetOkPull offset);
        do seg <- slice inb (received + ftp) (N - offset);
        do buffer <- blit buffer offset seg;
        pullLoop fuel' eof buffer offset out outPos ftp s
      else
        do _ <- rassert (offset =? N);
        pullLoop fuel' eof buffer offset out outPos ftp s
  end.

(** RebufferModule.cpp:85-166 [runPull] for a request of [n] frames.  The output chunk has room for exactly
    [n] frames; the result is the chunk delivered.  [fuel] bounds the pull loop. *)
Definition rebPull (fuel : nat) (r : rebuffer A) (s : S) (n : Z) : res (list (option A) * rebuffer A * S) :=
  do _ <- rassert (offsetOkPull (r_offset r));
  do _ <- rassert (negb (r_sent r));
  let out := zrepeat None n in
  do (out, outPos, ftp, offset) <-
    (if r_offset r <? N then
       let buffered := N - r_offset r in
       let k := Z.min n buffered in
       do seg <- slice (r_buffer r) (r_offset r) k;
       do out <- blit out 0 seg;
       Ok (out, buffered, n - buffered, r_offset r + k)
     else Ok (out, 0, n, r_offset r));
  do (eof, buffer, offset, out, ftp, s) <- pullLoop fuel (r_eof r) (r_buffer r) offset out outPos ftp s;
  if eof && (0 <? ftp) then
    do _ <- rassert (offset =? N);
    do _ <- rassert (offsetOkPull offset);
    Ok (zfirstn (n - ftp) out, mkReb eof true buffer offset (r_saved r) (r_savedOffset r), s)
  else
    do _ <- rassert (ftp <=? 0);
    do _ <- rassert (offset =? N + ftp);
    do _ <- rassert (offsetOkPull offset);
    Ok (out, mkReb eof (r_sent r) buffer offset (r_saved r) (r_savedOffset r), s).

(** RebufferModule.cpp:168-174 [reset1] (and reset2, which only asserts). *)
Definition rebReset (r : rebuffer A) : rebuffer A :=
  mkReb false false (r_buffer r) N (r_saved r) (r_savedOffset r).
End Pull.

Section Push.
Context {B : Build}.
Context {A S : Type}.
(** The sink module's runPush: the whole chunk buffer and the chunk's frameCount. *)
Variable push : S -> list (option A) -> Z -> res S.
Variable N : Z.
Variable multipleOf : bool.

Definition offsetOkPush (off : Z) : bool := (0 <=? off) && (off <? N).

(** RebufferModule.cpp:212-227: one block per iteration.  [outb] is the contents of the output chunk (its
    first m_offset frames were copied from m_buffer), [inb] the frames not yet consumed. *)
Fixpoint pushLoop (fuel : nat) (outb : list (option A)) (offset : Z) (inb : list (option A)) (s : S)
  : res (list (option A) * Z * list (option A) * S) :=
  if negb (N <=? offset + zlen inb) then Ok (outb, offset, inb, s)
  else match fuel with
  | O => OutOfFuel
  | Datatypes.S fuel' =>
      let n := N - offset in
      do seg <- slice inb 0 n;
      do outb <- blit outb offset seg;
      do s <- push s outb N;
      pushLoop fuel' outb 0 (zskipn n inb) s
  end.

(** RebufferModule.cpp:181-248 [runPush].  [outb] is the output chunk's buffer, whose old contents are
    whatever the previous call left there. *)
Definition rebPush (fuel : nat) (r : rebuffer A) (outb : list (option A)) (s : S) (inb : list (option A))
  : res (rebuffer A * list (option A) * S) :=
  do _ <- rassert (offsetOkPush (r_offset r));
  do (outb, offset, inb, s) <-
    (if N <=? r_offset r + zlen inb then
       do seg <- slice (r_buffer r) 0 (r_offset r);
       do outb <- blit outb 0 seg;
       do (outb, offset, inb, s) <-
         (if multipleOf then
            let n := Z.quot (r_offset r + zlen inb) N * N in
            do _ <- rassert (r_offset r <? n);
            do seg <- slice inb 0 (n - r_offset r);
            do outb <- blit outb (r_offset r) seg;
            do s <- push s outb n;
            Ok (outb, 0, zskipn (n - r_offset r) inb, s)
          else pushLoop fuel outb (r_offset r) inb s);
       do _ <- rassert (offset =? 0);
       Ok (outb, offset, inb, s)
     else Ok (outb, r_offset r, inb, s));
  do _ <- rassert (offset + zlen inb <? N);
  do buffer <- blit (r_buffer r) offset inb;
  let offset := offset + zlen inb in
  do _ <- rassert (offsetOkPush offset);
  Ok (mkReb (r_eof r) (r_sent r) buffer offset (r_saved r) (r_savedOffset r), outb, s).

(** RebufferModule.cpp:250-257 [sync1] *)
Definition rebSync1 (r : rebuffer A) : res (rebuffer A) :=
  do _ <- rassert (offsetOkPush (r_offset r));
  Ok (mkReb (r_eof r) (r_sent r) (r_buffer r) (r_offset r) (r_buffer r) (r_offset r)).

(** RebufferModule.cpp:259-271 [sync2] *)
Definition rebSync2 (r : rebuffer A) (outb : list (option A)) (s : S) : res (rebuffer A * list (option A) * S) :=
  do _ <- rassert (offsetOkPush (r_offset r));
  do seg <- slice (r_buffer r) 0 (r_offset r);
  do outb <- blit outb 0 seg;
  do s <- push s outb (r_offset r);
  do _ <- rassert (offsetOkPush (r_savedOffset r));
  Ok (mkReb (r_eof r) (r_sent r) (r_saved r) (r_savedOffset r) (r_saved r) (r_savedOffset r), outb, s).
End Push.
