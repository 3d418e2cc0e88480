(** * Writing to a disk that may be full: File.cpp, data.cpp, openclose.cpp, modules/{PCM,G711,BlockCodec,FileModule,ModuleState}.cpp

    [Writer] models writing when every byte is accepted; here write(2) may accept fewer bytes than asked for, or none and report an error.  The header
    is written over bytes that are already in the file, which needs no space: those writes succeed. *)
From Verif Require Import Prelude FileIO Rebuffer Reader Writer.

(** The answers of write(2) to come, in order: how many bytes may be accepted, negative for an error; once they are used up everything is accepted. *)
Definition disk := list Z.

(** File.cpp:136-139 [FilePOSIX::write]: one call of write(2), which accepts a prefix of the data; its result, the file and the remaining answers. *)
Definition dwrite (d : disk) (f : file) (data : list Z) : Z * file * disk :=
  match d with
  | [] => (zlen data, fwrite f data, [])
  | a :: d => if a <? 0 then (-1, f, d) else let taken := zfirstn a data in (zlen taken, fwrite f taken, d)
  end.

(** FileModule.cpp:50-59 [write]: the position and the data size advance by what was accepted *)
Definition fmWriteD (d : disk) (f : file) (t : wtrack) (data : list Z) : Z * file * wtrack * disk :=
  let '(n, f, d) := dwrite d f data in
  let t := if 0 <? n then mkWT (w_first t) (w_nextf t) (w_totalf t) (w_nextpos t + n) (w_after t) (w_dsize t + n) (w_nextv t) (w_totalv t) (w_savedpos t) (w_savednext t) else t in
  (n, f, t, d).

(** Track::filemodhappy (FileModule.cpp:88-116 [reportWriteError] clears it and reports the first error). *)
Record dstate (F E : Type) := mkDS { ds_state : wstate F E; ds_happy : bool; ds_disk : disk }.
Arguments mkDS {F E}. Arguments ds_state {F E}. Arguments ds_happy {F E}. Arguments ds_disk {F E}.

Section Disk.
Context {B : Build}.
Context {F V E : Type}.
Variable c : wcodec F E.
Variable conv : V -> F.
Variable junk : F.
Variable seekok : bool.
Variable upd : file -> wtrack -> file.

(** PCM.cpp:92-120 and G711.cpp:123-154 [runPush] *)
Definition perFramePushD (bpf : Z) (enc : F -> list Z) (f : file) (t : wtrack) (happy : bool) (d : disk) (chunk : list F) : res (file * wtrack * bool * disk) :=
  if bpf <=? 0 then UB else
  let '(written, f, t, d) := fmWriteD d f t (concat (map enc chunk)) in
  let n := if 0 <=? written then Z.quot written bpf else 0 in
  let happy := happy && (n =? zlen chunk) in
  let t := advance t n in
  do _ <- rassert (negb seekok || (ftell f =? w_nextpos t));
  Ok (f, t, happy, d).

(** BlockCodec.cpp:89-118 [runPush] *)
Definition blockPushD (fpp bpp : Z) (encB : E -> list F -> res (list Z * E)) (s : file * wtrack * E * bool * disk)
    (buf : list (option F)) (n : Z) : res (file * wtrack * E * bool * disk) :=
  let '(f, t, e, happy, d) := s in
  if (fpp <=? 0) || (bpp <=? 0) then UB else
  let blockCount := Z.quot (n + fpp - 1) fpp in
  do (data, e) <- encodeLoop junk fpp encB (Z.to_nat blockCount) e buf;
  let '(written, f, t, d) := fmWriteD d f t data in
  let blocks := if 0 <=? written then Z.quot written bpp else 0 in
  let framesWritten := Z.min (blocks * fpp) n in
  let t := advance t framesWritten in
  do _ <- rassert (ftell f =? w_nextpos t);
  Ok (f, t, e, happy && negb (framesWritten <? n), d).

(** One chunk pushed through the module chain; the rebuffering module does not look at the outcome. *)
Definition userPushD (s : dstate F E) (chunk : list V) : res (dstate F E) :=
  let st := ds_state s in
  match c with
  | WPerFrame _ bpf enc =>
      do (f, t, happy, d) <- perFramePushD bpf enc (ws_file st) (ws_track st) (ds_happy s) (ds_disk s) (map conv chunk);
      Ok (mkDS (mkWS f t (ws_enc st) (ws_reb st) (ws_out st)) happy d)
  | WBlocks fpp bpp encB =>
      do (r, out, (f, t, e, happy, d)) <- rebPush (blockPushD fpp bpp encB) fpp false (length chunk)
           (ws_reb st) (ws_out st) (ws_file st, ws_track st, ws_enc st, ds_happy s, ds_disk s) (map Some (map conv chunk));
      Ok (mkDS (mkWS f t e r out) happy d)
  end.

(** data.cpp:99-114: the loop of afWriteFrames, left after the first chunk that failed, which is not counted. *)
Fixpoint writeLoopD (fuel : nat) (s : dstate F E) (samples : list V) (vframe n : Z) : res (dstate F E * Z) :=
  if negb (vframe <? n) then Ok (s, vframe)
  else match fuel with
  | O => OutOfFuel
  | Datatypes.S fuel' =>
      let count := if vframe <=? n - ATOMIC then ATOMIC else n - vframe in
      do chunk <- slice samples vframe count;
      do s <- userPushD s chunk;
      if negb (ds_happy s) then Ok (s, vframe) else writeLoopD fuel' s samples (vframe + count) n
  end.

(** data.cpp:42-120 [afWriteFrames]: the number of frames it returns, and whether an error was reported (AF_BAD_WRITE). *)
Definition afWriteFramesD (s : dstate F E) (samples : list V) : res (Z * dstate F E) :=
  let st := ds_state s in
  let st := if seekok then wsetFile st (fseek (ws_file st) (w_nextpos (ws_track st))) else st in
  do (s, vframe) <- writeLoopD (Z.to_nat (zlen samples) + 1) (mkDS st true (ds_disk s)) samples 0 (zlen samples);
  let t := ws_track (ds_state s) in
  Ok (vframe, mkDS (wsetTrack (ds_state s) (mkWT (w_first t) (w_nextf t) (w_totalf t) (w_nextpos t) (w_after t) (w_dsize t)
                              (w_nextv t + vframe) (w_totalv t + vframe) (w_savedpos t) (w_savednext t))) (ds_happy s) (ds_disk s)).

(** ModuleState.cpp:230-242 [sync]: filemodhappy is looked at between the modules' sync1, which write nothing, and their sync2, which write the last block. *)
Definition modulesSyncD (s : dstate F E) : res (bool * dstate F E) :=
  let st := ds_state s in
  let t := fileSync1 c (ws_track st) in
  match c with
  | WPerFrame _ _ _ => do t <- fileSync2 c seekok (ws_file st) t; Ok (true, mkDS (wsetTrack st t) true (ds_disk s))
  | WBlocks fpp bpp encB =>
      do r <- rebSync1 fpp (ws_reb st);
      do (r, out, (f, t, e, happy, d)) <- rebSync2 (blockPushD fpp bpp encB) fpp r (ws_out st) (ws_file st, t, ws_enc st, true, ds_disk s);
      do t <- fileSync2 c seekok f t;
      Ok (true, mkDS (mkWS f t e r out) happy d)
  end.

(** openclose.cpp:408-443 [afSyncFile] while writing: success or failure *)
Definition afSyncFileD (s : dstate F E) : res (bool * dstate F E) :=
  do (ok, s) <- modulesSyncD s;
  if negb ok then Ok (false, s) else
  Ok (true, mkDS (wsetFile (ds_state s) (upd (ws_file (ds_state s)) (ws_track (ds_state s)))) (ds_happy s) (ds_disk s)).

(** openclose.cpp:445-466 [afCloseFile]: the result of the sync is not used; the file descriptor is closed and 0 returned. *)
Definition afCloseFileD (s : dstate F E) : res (Z * file) :=
  do (_, s) <- afSyncFileD s;
  Ok (0, ws_file (ds_state s)).

(** An application that gives up after the first write that does not return the number of frames it was asked to write: the sum of the counts returned. *)
Fixpoint writeUntilShort (s : dstate F E) (ws : list (list V)) : res (Z * dstate F E) :=
  match ws with
  | [] => Ok (0, s)
  | w :: ws =>
      do (r, s) <- afWriteFramesD s w;
      if r <? zlen w then Ok (r, s) else do (k, s) <- writeUntilShort s ws; Ok (r + k, s)
  end.

(** An application that, after a short count, tries again from the first frame that was not counted; it makes at most [n] calls and returns the frames it could not deliver. *)
Fixpoint writeAgain (n : nat) (s : dstate F E) (samples : list V) : res (list V * dstate F E) :=
  match n with
  | O => Ok (samples, s)
  | S n =>
      if zlen samples <=? 0 then Ok ([], s) else
      do (r, s) <- afWriteFramesD s samples;
      writeAgain n s (zskipn r samples)
  end.
End Disk.
