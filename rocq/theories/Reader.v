(** * Reading and seeking: data.cpp, format.cpp, modules/{PCM,G711,BlockCodec,ModuleState,SimpleModule}.cpp

    A frame at the file module's output is a value of type [F], a frame given to the application a value of
    type [V]; the conversion modules between them act frame by frame and are one function [conv : F -> V]
    ([hasConv] says whether there is at least one of them).  A chunk is a list of [option]: [None] marks a
    frame whose contents the code left unspecified.  File and virtual sample rates are equal, so that
    the position conversions of ModuleState::setup are the identity (proved in [Rates] for the double arithmetic of the
    code); [Virtual] models other rates and changes of the virtual format. *)
From Verif Require Import Prelude FileIO Rebuffer.

(** The file modules: PCM and G.711 (a fixed number of bytes per frame), and the block codecs. *)
Inductive codec (F : Type) :=
| PerFrame (isPCM : bool) (bpf : Z) (dec : list Z -> F)
| Blocks (fpp bpp : Z) (decB : list Z -> res (list F)).
Arguments PerFrame {F}. Arguments Blocks {F}.

(** Track.h: fields used while reading. *)
Record rtrack := mkRT {
  t_first : Z; t_nextf : Z; t_totalf : Z; t_nextpos : Z; t_ignore : Z; t_nextv : Z; t_totalv : Z; t_happy : bool }.

Record rstate (F : Type) := mkRS { rs_file : file; rs_track : rtrack; rs_reb : rebuffer F }.
Arguments mkRS {F}. Arguments rs_file {F}. Arguments rs_track {F}. Arguments rs_reb {F}.

Section Reader.
Context {B : Build}.
Context {F V : Type}.
Variable c : codec F.
Variable conv : F -> V.
Variable hasConv : bool.
Variable seekok : bool.

(** PCM.cpp:141-182 and G711.cpp:183-217 [runPull]; G.711 does not limit the request itself.  A negative
    byte count becomes a huge size_t; a zero frame size is divided by. *)
Definition perFramePull (isPCM : bool) (bpf : Z) (dec : list Z -> F) (s : file * rtrack) (n : Z)
  : res (list (option F) * (file * rtrack)) :=
  let '(f, t) := s in
  let want := if isPCM && negb (t_totalf t =? -1) && (t_totalf t <? t_nextf t + n)
              then t_totalf t - t_nextf t else n in
  if (want <? 0) || (bpf <=? 0) then UB else
  let '(d, f) := fread f (bpf * want) in
  let got := Z.quot (zlen d) bpf in
  let pos := t_nextpos t + zlen d in
  do _ <- rassert (negb seekok || (ftell f =? pos));
  let happy := t_happy t && ((got =? want) || (t_totalf t =? -1)) in
  Ok (map (fun b => Some (dec b)) (chunksOf (Z.to_nat got) bpf d),
      (f, mkRT (t_first t) (t_nextf t + got) (t_totalf t) pos (t_ignore t) (t_nextv t) (t_totalv t) happy)).

(** BlockCodec.cpp:40-69 [runPull] *)
Definition blockPull (fpp bpp : Z) (decB : list Z -> res (list F)) (s : file * rtrack) (n : Z)
  : res (list (option F) * (file * rtrack)) :=
  let '(f, t) := s in
  if (fpp <=? 0) || (bpp <=? 0) then UB else
  do _ <- rassert (Z.rem n fpp =? 0);
  let blockCount := Z.quot n fpp in
  let '(d, f) := fread f (bpp * blockCount) in
  let blocksRead := Z.quot (zlen d) bpp in
  do bs <- rmapM decB (chunksOf (Z.to_nat blocksRead) bpp d);
  let framesRead := blocksRead * fpp in
  let pos := t_nextpos t + zlen d in
  do _ <- rassert (ftell f =? pos);
  let happy := t_happy t && negb (framesRead <? n) in
  Ok (map Some (concat bs),
      (f, mkRT (t_first t) (t_nextf t + framesRead) (t_totalf t) pos (t_ignore t) (t_nextv t) (t_totalv t) happy)).

(** One pull by the application: the module chain of ModuleState.cpp:254-444 (file module, rebuffering for
    block codecs with multiple_of = false per units.cpp:313-337, then the converters).
    SimpleModule.cpp:27-31 [runPull] leaves its output chunk's frameCount as requested. *)
Definition userPull (st : rstate F) (n : Z) : res (list (option V) * rstate F) :=
  do (chunk, st) <-
    (match c with
     | PerFrame isPCM bpf dec =>
         do (chunk, (f, t)) <- perFramePull isPCM bpf dec (rs_file st, rs_track st) n;
         Ok (chunk, mkRS f t (rs_reb st))
     | Blocks fpp bpp decB =>
         do (chunk, r, (f, t)) <- rebPull (blockPull fpp bpp decB) fpp false (Z.to_nat n) (rs_reb st) (rs_file st, rs_track st) n;
         Ok (chunk, mkRS f t r)
     end);
  let out := map (option_map conv) chunk in
  Ok (if hasConv then out ++ zrepeat None (n - zlen out) else out, st).

Definition setTrack (st : rstate F) (t : rtrack) : rstate F := mkRS (rs_file st) t (rs_reb st).
Definition setHappy (t : rtrack) (b : bool) : rtrack :=
  mkRT (t_first t) (t_nextf t) (t_totalf t) (t_nextpos t) (t_ignore t) (t_nextv t) (t_totalv t) b.
Definition setIgnore (t : rtrack) (n : Z) : rtrack :=
  mkRT (t_first t) (t_nextf t) (t_totalf t) (t_nextpos t) n (t_nextv t) (t_totalv t) (t_happy t).
Definition setNextv (t : rtrack) (n : Z) : rtrack :=
  mkRT (t_first t) (t_nextf t) (t_totalf t) (t_nextpos t) (t_ignore t) n (t_totalv t) (t_happy t).

(** afinternal.h: _AF_ATOMIC_NVFRAMES *)
Definition ATOMIC : Z := 1024.

(** data.cpp:206-229: the loop of afReadFrames; [acc] is what has been counted so far (vframe frames). *)
Fixpoint readLoop (fuel : nat) (st : rstate F) (eof : bool) (acc : list (option V)) (n : Z)
  : res (list (option V) * rstate F) :=
  if negb (t_happy (rs_track st) && negb eof && (zlen acc <? n)) then Ok (acc, st)
  else match fuel with
  | O => OutOfFuel
  | Datatypes.S fuel' =>
      let topull := if zlen acc <=? n - ATOMIC then ATOMIC else n - zlen acc in
      do (chunk, st) <- userPull st topull;
      if t_happy (rs_track st)
      then readLoop fuel' st (zlen chunk <? topull) (acc ++ chunk) n
      else readLoop fuel' st eof acc n
  end.

(** data.cpp:122-236 [afReadFrames]: returns the frames counted and the new state. *)
Definition afReadFrames (st : rstate F) (wanted : Z) : res (list (option V) * rstate F) :=
  let f := if seekok then fseek (rs_file st) (t_nextpos (rs_track st)) else rs_file st in
  let t := rs_track st in
  let n := if t_totalv t =? -1 then wanted
           else let left := t_totalv t - t_nextv t in if left <? wanted then left else wanted in
  let st := mkRS f (setHappy t true) (rs_reb st) in
  do (st, eof) <-
    (if negb (t_ignore t =? 0) then
       if t_ignore t <? 0 then UB else
       do (chunk, st) <- userPull st (t_ignore t);
       Ok (setTrack st (setIgnore (rs_track st) 0), zlen chunk <? t_ignore t)
     else Ok (st, false));
  do (out, st) <- readLoop (Z.to_nat n + 1) st eof [] n;
  Ok (out, setTrack st (setNextv (rs_track st) (t_nextv (rs_track st) + zlen out))).

(** ModuleState.cpp:109-201 [setup] while reading with ModuleState.cpp:213-228 [reset]: RebufferModule
    reset1, BlockCodec.cpp:71-87 reset1/reset2, PCM.cpp:184-190 and G711.cpp:219-227 reset2. *)
Definition setupRead (st : rstate F) : rstate F :=
  let t := rs_track st in
  let fframepos := t_nextv t in
  match c with
  | PerFrame _ bpf _ =>
      mkRS (rs_file st)
        (mkRT (t_first t) fframepos (t_totalf t) (t_first t + bpf * fframepos) 0 fframepos (t_totalf t) true) (rs_reb st)
  | Blocks fpp bpp _ =>
      let nextf := Z.quot fframepos fpp * fpp in
      mkRS (rs_file st)
        (mkRT (t_first t) nextf (t_totalf t) (t_first t + bpp * Z.quot nextf fpp) (fframepos - nextf) fframepos (t_totalf t) true)
        (rebReset fpp (rs_reb st))
  end.

(** format.cpp:101-143 [afSeekFrame] (the modules are set up: see [openRead]) and 145-148 [afTellFrame]. *)
Definition afSeekFrame (st : rstate F) (frame : Z) : Z * rstate F :=
  let t := rs_track st in
  if frame <? 0 then (t_nextv t, st)
  else if frame =? t_nextv t then (t_nextv t, st)
  else
    let frame := if negb (t_totalv t =? -1) && (t_totalv t <? frame) then t_totalv t - 1 else frame in
    let st := setupRead (setTrack st (setNextv t frame)) in
    (t_nextv (rs_track st), st).
Definition afTellFrame (st : rstate F) : Z * rstate F := afSeekFrame st (-1).

(** format.cpp:189-202 [afGetFrameCount] *)
Definition afGetFrameCount (st : rstate F) : Z := t_totalv (rs_track st).

(** State after afOpenFile: FileModule.cpp:30-38, ModuleState.cpp:52-107 (init), for audio data at [first]
    and [total] frames according to the header, and the setup that the first call after it performs (ModuleState.cpp:42-44: the
    chain starts dirty).  [Virtual] has that setup at its place; C69 shows that the results are the same. *)
Definition openRead (bytes : list Z) (first total : Z) : rstate F :=
  setupRead (mkRS (mkFile bytes first) (mkRT first 0 total first 0 0 total true)
    (match c with PerFrame _ _ _ => rebInitPull 1 | Blocks fpp _ _ => rebInitPull fpp end)).
End Reader.
