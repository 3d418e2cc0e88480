(** * The calls on an open file, with whatever arguments: the checks of format.cpp, data.cpp, pcm.cpp, openclose.cpp, FileHandle.cpp

    [Virtual] and [VirtualWrite] model what the functions do once their arguments are accepted; here are the arguments as C passes
    them, the checks, and the functions that report settings.  A handle is the open file's or the null one (a handle whose file was
    closed points to freed memory and is not modelled).  The error handler (error.c) only prints. *)
From Verif Require Import Prelude FileIO Rebuffer Reader ReaderSpec Writer ByteOrder Convert Float Arrange Rates Memory Virtual VirtualWrite.

Inductive call :=
| ARead (n : Z)                        (* afReadFrames *)
| AWrite (l : list frame)              (* afWriteFrames *)
| ASeek (k : Z) | ATell | ASync | AFrameCount
| ASetByteOrder (o : Z)
| ASetSampleFormat (sf w : Z)
| ASetChannels (n : Z)
| ASetRate (r : spec_float)
| ASetMapping (p : pcmInfo)            (* afSetVirtualPCMMapping *)
| ASetTrackMapping (p : pcmInfo)       (* afSetTrackPCMMapping *)
| ASetMatrix (m : option (list spec_float))
| AGetChannels (virtual : bool)
| AGetByteOrder (virtual : bool)
| AGetRate (virtual : bool)
| AGetSampleFormat (virtual : bool)
| AGetMapping (virtual : bool).

(** What a call gives back: an int or frame count, frames, a double, two ints or a mapping through pointers; [Nothing]: the function
    returns no value and stores nothing. *)
Inductive answer := Num (z : Z) | Got (l : list (option (res frame))) | Real (r : spec_float) | Two (a b : Z) | Mapping (p : pcmInfo) | Nothing.

(** audiofile.h:79, 94-95, 130-133 *)
Definition AF_DEFAULT_TRACK := 1001.
Definition orderNumber (o : order) : Z := match o with BigEndian => 501 | LittleEndian => 502 end.
Definition sampfmtNumber (s : sampfmt) : Z := match s with TWOSCOMP => 401 | UNSIGNED => 402 | FLOAT => 403 | DOUBLE => 404 end.
(** format.cpp:160-161 *)
Definition orderOf (n : Z) : option order := if n =? 501 then Some BigEndian else if n =? 502 then Some LittleEndian else None.
(** the switch of util.cpp:322-359 *)
Definition sampfmtOf (n : Z) : option sampfmt :=
  if n =? 402 then Some UNSIGNED else if n =? 401 then Some TWOSCOMP else if n =? 403 then Some FLOAT else if n =? 404 then Some DOUBLE else None.

Section API.
Context {B : Build}.
Context {E : Type}.
Variable wrapv : bool.
Variable host : order.
Variable rc : codec frame.
Variable wc : wcodec frame E.
Variable junk : frame.
Variable seekok : bool.
Variable upd : file -> wtrack -> file.
Variable cap : Z.

(** FileHandle.h: an open file; m_access is which of the two it is *)
Inductive handle := OpenedToRead (v : vstate) | OpenedToWrite (y : ystate E).
Definition fileFormat (h : handle) : format := match h with OpenedToRead v => v_file v | OpenedToWrite y => y_file y end.
Definition userFormat (h : handle) : format := match h with OpenedToRead v => v_user v | OpenedToWrite y => y_user y end.
Definition fileRate (h : handle) : spec_float := match h with OpenedToRead v => v_frate v | OpenedToWrite y => y_frate y end.
Definition userRate (h : handle) : spec_float := match h with OpenedToRead v => v_vrate v | OpenedToWrite y => y_vrate y end.

Definition ofRead (x : res (rout (res frame) * vstate)) : res (answer * handle) :=
  do (a, v) <- x; Ok (match a with Number z => Num z | Frames l => Got l end, OpenedToRead v).
Definition ofWrite (x : res (Z * ystate E)) : res (answer * handle) := do (a, y) <- x; Ok (Num a, OpenedToWrite y).
(** a function of [Virtual] that exists for files opened either way *)
Definition both (h : handle) (o : vop) : res (answer * handle) :=
  match h with OpenedToRead v => ofRead (vstep wrapv host rc seekok v o) | OpenedToWrite y => ofWrite (ycall wrapv host cap y o) end.
(** util.cpp:71-84 [_af_filehandle_ok] and FileHandle.cpp:166-175 [getTrack]: [refused] is returned unless both succeed *)
Definition onTrack (valid : bool) (track : Z) (h : handle) (refused : answer) (k : res (answer * handle)) : res (answer * handle) :=
  if negb valid then Ok (refused, h) else if negb (track =? AF_DEFAULT_TRACK) then Ok (refused, h) else k.
Definition choose (virtual : bool) (h : handle) : format := if virtual then userFormat h else fileFormat h.

(** [valid]: whether the handle is the open file's.  FileHandle.cpp:177-197 [checkCanRead], [checkCanWrite] *)
Definition astep (h : handle) (valid : bool) (track : Z) (c : call) : res (answer * handle) :=
  let failed := Num (-1) in
  match c with
  | ARead n =>                                    (* data.cpp:134-142 *)
      if negb valid then Ok (failed, h) else
      match h with
      | OpenedToWrite _ => Ok (failed, h)
      | OpenedToRead v => onTrack true track h failed (ofRead (vRead wrapv host rc seekok v n))
      end
  | AWrite l =>                                   (* data.cpp:50-58 *)
      if negb valid then Ok (failed, h) else
      match h with
      | OpenedToRead _ => Ok (failed, h)
      | OpenedToWrite y => onTrack true track h failed (ofWrite (yWrite wrapv host wc junk seekok cap y l))
      end
  | ASeek k =>                                    (* format.cpp:103-112 *)
      if negb valid then Ok (failed, h) else
      match h with
      | OpenedToWrite _ => Ok (failed, h)
      | OpenedToRead v => onTrack true track h failed (ofRead (vSeek wrapv host rc v k))
      end
  | ATell =>                                      (* format.cpp:145-148 *)
      if negb valid then Ok (failed, h) else
      match h with
      | OpenedToWrite _ => Ok (failed, h)
      | OpenedToRead v => onTrack true track h failed (ofRead (vSeek wrapv host rc v (-1)))
      end
  | ASync =>                                      (* openclose.cpp:408-443 *)
      if negb valid then Ok (failed, h) else
      match h with
      | OpenedToRead v => Ok (Num 0, h)
      | OpenedToWrite y => ofWrite (ySync wrapv host wc junk seekok upd cap y)
      end
  | AFrameCount => onTrack valid track h failed (both h VFrameCount)   (* format.cpp:189-202 *)
  | ASetByteOrder o =>                            (* format.cpp:150-170 *)
      onTrack valid track h failed (match orderOf o with None => Ok (failed, h) | Some o => both h (SetByteOrder o) end)
  | ASetSampleFormat sf w =>                      (* format.cpp:265-283 *)
      onTrack valid track h failed (match sampfmtOf sf with None => Ok (failed, h) | Some sf => both h (SetSampleFormat sf w) end)
  | ASetChannels n => onTrack valid track h failed (both h (SetChannels n))      (* format.cpp:298-315 *)
  | ASetRate r => onTrack valid track h failed (both h (SetRate r))              (* format.cpp:328-347 *)
  | ASetMapping p => onTrack valid track h failed (both h (SetMapping p))        (* pcm.cpp:84-101 *)
  | ASetTrackMapping p => onTrack valid track h failed (both h (SetTrackMapping p))   (* pcm.cpp:103-132 *)
  | ASetMatrix m =>                               (* format.cpp:349-375 *)
      onTrack valid track h Nothing (do (_, h) <- both h (SetMatrix m); Ok (Nothing, h))
  | AGetChannels v => onTrack valid track h failed (Ok (Num (channelCount (choose v h)), h))             (* format.cpp:223-233, 375-385 *)
  | AGetByteOrder v => onTrack valid track h failed (Ok (Num (orderNumber (byteOrder (choose v h))), h)) (* format.cpp:172-194 *)
  | AGetRate v => onTrack valid track h (Real (dOfZ (-1))) (Ok (Real (if v then userRate h else fileRate h), h))     (* format.cpp:211-221, 316-326 *)
  | AGetSampleFormat v =>                         (* format.cpp:235-263 *)
      onTrack valid track h Nothing (Ok (Two (sampfmtNumber (sampleFormat (choose v h))) (sampleWidth (choose v h)), h))
  | AGetMapping v => onTrack valid track h Nothing (Ok (Mapping (pcm (choose v h)), h))                  (* pcm.cpp:134-174 *)
  end.

(** One call after the other; each is a handle, a track id and the rest. *)
Fixpoint arun (h : handle) (l : list (bool * Z * call)) : res (list answer * handle) :=
  match l with
  | [] => Ok ([], h)
  | (valid, track, c) :: l => do (a, h) <- astep h valid track c; do (as', h) <- arun h l; Ok (a :: as', h)
  end.
End API.
