(** * Writing and syncing: data.cpp, openclose.cpp, modules/{PCM,G711,BlockCodec,FileModule,ModuleState}.cpp

    A frame given by the application is a value of type [V]; the conversion modules act frame by frame and
    are one function [conv : V -> F]; the file module encodes values of type [F].  File and virtual sample
    rates are equal.  Writing never fails here; Disk.v models writes that do. *)
From Verif Require Import Prelude FileIO Rebuffer Reader.

(** The file modules when writing.  [E] is the state a block encoder keeps between blocks. *)
Inductive wcodec (F E : Type) :=
| WPerFrame (isPCM : bool) (bpf : Z) (enc : F -> list Z)
| WBlocks (fpp bpp : Z) (encB : E -> list F -> res (list Z * E)).
Arguments WPerFrame {F E}. Arguments WBlocks {F E}.

(** Track.h: fields used while writing; the last two are the file module's saved position (sync1). *)
Record wtrack := mkWT {
  w_first : Z; w_nextf : Z; w_totalf : Z; w_nextpos : Z; w_after : Z; w_dsize : Z; w_nextv : Z; w_totalv : Z;
  w_savedpos : Z; w_savednext : Z }.

(** [ws_out] is the buffer of the chunk between the rebuffering module and the encoder. *)
Record wstate (F E : Type) := mkWS {
  ws_file : file; ws_track : wtrack; ws_enc : E; ws_reb : rebuffer F; ws_out : list (option F) }.
Arguments mkWS {F E}. Arguments ws_file {F E}. Arguments ws_track {F E}. Arguments ws_enc {F E}.
Arguments ws_reb {F E}. Arguments ws_out {F E}.

(** FileModule.cpp:50-59 [write] *)
Definition fmWrite (f : file) (t : wtrack) (data : list Z) : file * wtrack :=
  (fwrite f data,
   mkWT (w_first t) (w_nextf t) (w_totalf t) (w_nextpos t + zlen data) (w_after t) (w_dsize t + zlen data)
        (w_nextv t) (w_totalv t) (w_savedpos t) (w_savednext t)).

(** nextfframe += n; totalfframes = nextfframe *)
Definition advance (t : wtrack) (n : Z) : wtrack :=
  mkWT (w_first t) (w_nextf t + n) (w_nextf t + n) (w_nextpos t) (w_after t) (w_dsize t)
       (w_nextv t) (w_totalv t) (w_savedpos t) (w_savednext t).

Section Writer.
Context {B : Build}.
Context {F V E : Type}.
Variable c : wcodec F E.
Variable conv : V -> F.
(** What an encoder reads from chunk memory that was never written. *)
Variable junk : F.
Variable seekok : bool.
(** _AFfilehandle::update of the file format. *)
Variable upd : file -> wtrack -> file.

(** PCM.cpp:92-120 and G711.cpp:123-154 [runPush] *)
Definition perFramePush (bpf : Z) (enc : F -> list Z) (f : file) (t : wtrack) (chunk : list F) : res (file * wtrack) :=
  if bpf <=? 0 then UB else
  let data := concat (map enc chunk) in
  let '(f, t) := fmWrite f t data in
  let t := advance t (Z.quot (zlen data) bpf) in
  do _ <- rassert (negb seekok || (ftell f =? w_nextpos t));
  Ok (f, t).

Definition unjunk (o : option F) : F := match o with Some x => x | None => junk end.

(** BlockCodec.cpp:97-104: encoding block after block out of the input chunk. *)
Fixpoint encodeLoop (fpp : Z) (encB : E -> list F -> res (list Z * E)) (n : nat) (e : E) (buf : list (option F))
  : res (list Z * E) :=
  match n with
  | O => Ok ([], e)
  | S n' =>
      do blk <- slice buf 0 fpp;
      do (b, e) <- encB e (map unjunk blk);
      do (bs, e) <- encodeLoop fpp encB n' e (zskipn fpp buf);
      Ok (b ++ bs, e)
  end.

(** BlockCodec.cpp:89-118 [runPush] *)
Definition blockPush (fpp bpp : Z) (encB : E -> list F -> res (list Z * E)) (s : file * wtrack * E)
    (buf : list (option F)) (n : Z) : res (file * wtrack * E) :=
  let '(f, t, e) := s in
  if (fpp <=? 0) || (bpp <=? 0) then UB else
  let blockCount := Z.quot (n + fpp - 1) fpp in
  do (data, e) <- encodeLoop fpp encB (Z.to_nat blockCount) e buf;
  let '(f, t) := fmWrite f t data in
  let framesWritten := Z.min (Z.quot (zlen data) bpp * fpp) n in
  let t := advance t framesWritten in
  do _ <- rassert (ftell f =? w_nextpos t);
  Ok (f, t, e).

(** One chunk pushed through the module chain. *)
Definition userPush (st : wstate F E) (chunk : list V) : res (wstate F E) :=
  match c with
  | WPerFrame _ bpf enc =>
      do (f, t) <- perFramePush bpf enc (ws_file st) (ws_track st) (map conv chunk);
      Ok (mkWS f t (ws_enc st) (ws_reb st) (ws_out st))
  | WBlocks fpp bpp encB =>
      do (r, out, (f, t, e)) <- rebPush (blockPush fpp bpp encB) fpp false (length chunk)
           (ws_reb st) (ws_out st) (ws_file st, ws_track st, ws_enc st) (map Some (map conv chunk));
      Ok (mkWS f t e r out)
  end.

(** data.cpp:99-114: the loop of afWriteFrames. *)
Fixpoint writeLoop (fuel : nat) (st : wstate F E) (samples : list V) (vframe n : Z) : res (wstate F E * Z) :=
  if negb (vframe <? n) then Ok (st, vframe)
  else match fuel with
  | O => OutOfFuel
  | Datatypes.S fuel' =>
      let count := if vframe <=? n - ATOMIC then ATOMIC else n - vframe in
      do chunk <- slice samples vframe count;
      do st <- userPush st chunk;
      writeLoop fuel' st samples (vframe + count) n
  end.

Definition wsetFile (st : wstate F E) (f : file) : wstate F E :=
  mkWS f (ws_track st) (ws_enc st) (ws_reb st) (ws_out st).
Definition wsetTrack (st : wstate F E) (t : wtrack) : wstate F E :=
  mkWS (ws_file st) t (ws_enc st) (ws_reb st) (ws_out st).

(** data.cpp:42-120 [afWriteFrames] for a buffer of exactly the frames written. *)
Definition afWriteFrames (st : wstate F E) (samples : list V) : res (Z * wstate F E) :=
  let st := if seekok then wsetFile st (fseek (ws_file st) (w_nextpos (ws_track st))) else st in
  do (st, vframe) <- writeLoop (Z.to_nat (zlen samples) + 1) st samples 0 (zlen samples);
  let t := ws_track st in
  Ok (vframe, wsetTrack st (mkWT (w_first t) (w_nextf t) (w_totalf t) (w_nextpos t) (w_after t) (w_dsize t)
                              (w_nextv t + vframe) (w_totalv t + vframe) (w_savedpos t) (w_savednext t))).

(** [sync1] of the file module: PCM.cpp:122-126 stores the position and the frame number in ints
    (PCM.cpp:69-70), G711.cpp:156-160 and BlockCodec.cpp:120-124 keep them at full width. *)
Definition fileSync1 (t : wtrack) : wtrack :=
  let narrow := match c with WPerFrame true _ _ => s32 | _ => fun x => x end in
  mkWT (w_first t) (w_nextf t) (w_totalf t) (w_nextpos t) (w_after t) (w_dsize t) (w_nextv t) (w_totalv t)
       (narrow (w_nextpos t)) (narrow (w_nextf t)).

(** [sync2] of the file module: PCM.cpp:128-137, G711.cpp:162-172, BlockCodec.cpp:126-132 *)
Definition fileSync2 (f : file) (t : wtrack) : res wtrack :=
  let mustMatch := match c with WPerFrame _ _ _ => seekok | WBlocks _ _ _ => true end in
  do _ <- rassert (negb mustMatch || (ftell f =? w_nextpos t));
  Ok (mkWT (w_first t) (w_savednext t) (w_totalf t) (w_savedpos t) (ftell f) (w_dsize t) (w_nextv t) (w_totalv t)
           (w_savedpos t) (w_savednext t)).

(** ModuleState.cpp:230-242 [sync]: every module's sync1, then every module's sync2 from the application's
    side to the file's. *)
Definition modulesSync (st : wstate F E) : res (wstate F E) :=
  let t := fileSync1 (ws_track st) in
  match c with
  | WPerFrame _ _ _ => do t <- fileSync2 (ws_file st) t; Ok (wsetTrack st t)
  | WBlocks fpp bpp encB =>
      do r <- rebSync1 fpp (ws_reb st);
      do (r, out, (f, t, e)) <- rebSync2 (blockPush fpp bpp encB) fpp r (ws_out st) (ws_file st, t, ws_enc st);
      do t <- fileSync2 f t;
      Ok (mkWS f t e r out)
  end.

(** openclose.cpp:408-443 [afSyncFile] while writing; afCloseFile (445-466) does the same and closes. *)
Definition afSyncFile (st : wstate F E) : res (wstate F E) :=
  do st <- modulesSync st;
  Ok (wsetFile st (upd (ws_file st) (ws_track st))).

(** State after afOpenFile for writing: a header of [hdr] was written and the audio data starts at [first]
    (ModuleState.cpp:63-69 seeks there, FileModule.cpp:30-38).  [cap] frames fit in the chunk before the
    encoder; nothing was written to it yet. *)
Definition openWrite (hdr : list Z) (first cap : Z) (e : E) : wstate F E :=
  mkWS (mkFile hdr first) (mkWT first 0 0 first 0 0 0 0 (-1) (-1)) e
    (match c with WPerFrame _ _ _ => rebInitPush 1 | WBlocks fpp _ _ => rebInitPush fpp end) (zrepeat None cap).

(** A history of calls. *)
Inductive wop := Write (l : list V) | Sync.
Definition wstep (st : wstate F E) (o : wop) : res (wstate F E) :=
  match o with
  | Write l => do (_, st) <- afWriteFrames st l; Ok st
  | Sync => afSyncFile st
  end.
Fixpoint wrun (st : wstate F E) (ops : list wop) : res (wstate F E) :=
  match ops with [] => Ok st | o :: ops' => do st <- wstep st o; wrun st ops' end.
End Writer.
Arguments Write {V}. Arguments Sync {V}.
