(** * Reading from a source that fails or delivers less than asked: File.cpp, data.cpp, modules/{PCM,G711,BlockCodec,FileModule,ModuleState}.cpp

    [Reader] models reading where read(2) delivers everything that is in the file; here it may deliver fewer bytes than asked for, or none and report an
    error (a medium with bad sectors, a network file, a pipe, a virtual file of the application, a signal). *)
From Verif Require Import Prelude FileIO Rebuffer Reader ReaderSpec.

(** The answers of read(2) to come, in order: how many bytes it delivers at most, negative for an error; once they are used up it delivers all there are. *)
Definition source := list Z.

(** File.cpp:124-127 [FilePOSIX::read]: one call of read(2); and FileModule.cpp:40-48 with the callers' [bytesRead >= 0 ? ... : 0]: an error moves nothing and counts as no bytes. *)
Definition dread (d : source) (f : file) (n : Z) : list Z * file * source :=
  let '(data, f') := fread f n in
  match d with
  | [] => (data, f', [])
  | a :: d => let data := if a <? 0 then [] else zfirstn a data in (data, mkFile (fbytes f) (fpos f + zlen data), d)
  end.

Section Faults.
Context {B : Build}.
Context {F V : Type}.
Variable c : codec F.
Variable conv : F -> V.
Variable hasConv : bool.
Variable seekok : bool.

(** PCM.cpp:141-182 and G711.cpp:183-217 [runPull]; FileModule.cpp:72-86 [reportReadError] clears Track::filemodhappy and reports the first error. *)
Definition perFramePullF (isPCM : bool) (bpf : Z) (dec : list Z -> F) (s : file * rtrack * source) (n : Z)
  : res (list (option F) * (file * rtrack * source)) :=
  let '(f, t, d) := s in
  let want := if isPCM && negb (t_totalf t =? -1) && (t_totalf t <? t_nextf t + n)
              then t_totalf t - t_nextf t else n in
  if (want <? 0) || (bpf <=? 0) then UB else
  let '(data, f, d) := dread d f (bpf * want) in
  let got := Z.quot (zlen data) bpf in
  let pos := t_nextpos t + zlen data in
  do _ <- rassert (negb seekok || (ftell f =? pos));
  let happy := t_happy t && ((got =? want) || (t_totalf t =? -1)) in
  Ok (map (fun b => Some (dec b)) (chunksOf (Z.to_nat got) bpf data),
      (f, mkRT (t_first t) (t_nextf t + got) (t_totalf t) pos (t_ignore t) (t_nextv t) (t_totalv t) happy, d)).

(** BlockCodec.cpp:40-69 [runPull] *)
Definition blockPullF (fpp bpp : Z) (decB : list Z -> res (list F)) (s : file * rtrack * source) (n : Z)
  : res (list (option F) * (file * rtrack * source)) :=
  let '(f, t, d) := s in
  if (fpp <=? 0) || (bpp <=? 0) then UB else
  do _ <- rassert (Z.rem n fpp =? 0);
  let blockCount := Z.quot n fpp in
  let '(data, f, d) := dread d f (bpp * blockCount) in
  let blocksRead := Z.quot (zlen data) bpp in
  do bs <- rmapM decB (chunksOf (Z.to_nat blocksRead) bpp data);
  let framesRead := blocksRead * fpp in
  let pos := t_nextpos t + zlen data in
  do _ <- rassert (ftell f =? pos);
  let happy := t_happy t && negb (framesRead <? n) in
  Ok (map Some (concat bs),
      (f, mkRT (t_first t) (t_nextf t + framesRead) (t_totalf t) pos (t_ignore t) (t_nextv t) (t_totalv t) happy, d)).

(** One pull by the application through the module chain: see Reader.v [userPull]. *)
Definition userPullF (st : rstate F) (d : source) (n : Z) : res (list (option V) * rstate F * source) :=
  do (chunk, st, d) <-
    (match c with
     | PerFrame isPCM bpf dec =>
         do (chunk, (f, t, d)) <- perFramePullF isPCM bpf dec (rs_file st, rs_track st, d) n;
         Ok (chunk, mkRS f t (rs_reb st), d)
     | Blocks fpp bpp decB =>
         do (chunk, r, (f, t, d)) <- rebPull (blockPullF fpp bpp decB) fpp false (Z.to_nat n) (rs_reb st) (rs_file st, rs_track st, d) n;
         Ok (chunk, mkRS f t r, d)
     end);
  let out := map (option_map conv) chunk in
  Ok (if hasConv then out ++ zrepeat None (n - zlen out) else out, st, d).

(** data.cpp:206-229: the loop of afReadFrames; a chunk during which an error was reported is not counted. *)
Fixpoint readLoopF (fuel : nat) (st : rstate F) (d : source) (eof : bool) (acc : list (option V)) (n : Z)
  : res (list (option V) * rstate F * source) :=
  if negb (t_happy (rs_track st) && negb eof && (zlen acc <? n)) then Ok (acc, st, d)
  else match fuel with
  | O => OutOfFuel
  | Datatypes.S fuel' =>
      let topull := if zlen acc <=? n - ATOMIC then ATOMIC else n - zlen acc in
      do (chunk, st, d) <- userPullF st d topull;
      if t_happy (rs_track st)
      then readLoopF fuel' st d (zlen chunk <? topull) (acc ++ chunk) n
      else readLoopF fuel' st d eof acc n
  end.

(** data.cpp:122-236 [afReadFrames]: the frames counted, whether an error was reported (AF_BAD_READ), and the new state. *)
Definition afReadFramesF (st : rstate F) (d : source) (wanted : Z) : res (list (option V) * bool * rstate F * source) :=
  let f := if seekok then fseek (rs_file st) (t_nextpos (rs_track st)) else rs_file st in
  let t := rs_track st in
  let n := if t_totalv t =? -1 then wanted
           else let left := t_totalv t - t_nextv t in if left <? wanted then left else wanted in
  let st := mkRS f (setHappy t true) (rs_reb st) in
  do (st, d, eof) <-
    (if negb (t_ignore t =? 0) then
       if t_ignore t <? 0 then UB else
       do (chunk, st, d) <- userPullF st d (t_ignore t);
       Ok (setTrack st (setIgnore (rs_track st) 0), d, zlen chunk <? t_ignore t)
     else Ok (st, d, false));
  do (out, st, d) <- readLoopF (Z.to_nat n + 1) st d eof [] n;
  Ok (out, negb (t_happy (rs_track st)), setTrack st (setNextv (rs_track st) (t_nextv (rs_track st) + zlen out)), d).

(** The calls of an application ([rop], ReaderSpec.v): what each returned and whether it reported an error.  Only reading reads the source. *)
Definition fstep (st : rstate F) (d : source) (o : rop) : res (rout V * bool * rstate F * source) :=
  match o with
  | Read n => do (l, e, st, d) <- afReadFramesF st d n; Ok (Frames l, e, st, d)
  | Seek k => let '(z, st) := afSeekFrame c st k in Ok (Number z, false, st, d)
  | Tell => let '(z, st) := afTellFrame c st in Ok (Number z, false, st, d)
  | FrameCount => Ok (Number (afGetFrameCount st), false, st, d)
  end.
(** The run goes on until a call does not return. *)
Fixpoint frun (st : rstate F) (d : source) (ops : list rop) : list (res (rout V * bool)) :=
  match ops with
  | [] => []
  | o :: ops =>
      match fstep st d o with
      | Ok (r, e, st, d) => Ok (r, e) :: frun st d ops
      | UB => [UB] | Abort => [Abort] | OutOfFuel => [OutOfFuel]
      end
  end.

(** An application that wants [n] frames from position [p] on; after a call that returned fewer it seeks to another position and back before it goes on. It makes at most
    [calls] reads. *)
Fixpoint readRecovering (calls : nat) (st : rstate F) (d : source) (p n : Z) : res (list (option V) * rstate F * source) :=
  match calls with
  | O => Ok ([], st, d)
  | S calls =>
      do (l, _, st, d) <- afReadFramesF st d n;
      if zlen l =? n then Ok (l, st, d) else
      let p := p + zlen l in
      let '(_, st) := afSeekFrame c st (if p =? 0 then 1 else 0) in
      let '(_, st) := afSeekFrame c st p in
      do (l', st, d) <- readRecovering calls st d p (n - zlen l);
      Ok (l ++ l', st, d)
  end.
End Faults.
