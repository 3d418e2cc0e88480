(** * Changing the virtual format while a file is open for reading: format.cpp, pcm.cpp, modules/ModuleState.cpp

    The functions that set the virtual format only record it and mark the module chain as out of date; the next call that
    needs the chain rebuilds it (ModuleState::setup), at the position the file is at.  Frames are lists of samples
    ([Arrange.smp]); [c] decodes the file's bytes into frames of the file's format. *)
From Verif Require Import Prelude FileIO Rebuffer Reader ReaderSpec ByteOrder Convert Float Arrange Rates Memory.

Definition frame : Type := list smp.

(** Track.h: the fields that describe the formats and the chain: f and f.sampleRate, v and v.sampleRate, channelMatrix;
    ModuleState: m_isDirty, m_modules (the converters); and the reader state of [Reader]. *)
Record vstate := VS {
  v_file : format; v_frate : spec_float; v_user : format; v_vrate : spec_float; v_matrix : option (list (list spec_float));
  v_dirty : bool; v_chain : list module; v_rs : rstate frame }.

(** The calls.  An argument the library refuses without effect (an unknown byte order or sample format) is left out. *)
Inductive vop :=
| VRead (n : Z) | VSeek (k : Z) | VTell | VFrameCount
| SetByteOrder (o : order)
| SetSampleFormat (sf : sampfmt) (w : Z)
| SetChannels (n : Z)
| SetRate (r : spec_float)
| SetMapping (p : pcmInfo)
| SetTrackMapping (p : pcmInfo)
| SetMatrix (m : option (list spec_float)).

Definition withOrder (f : format) (o : order) : format :=
  {| sampleFormat := sampleFormat f; sampleWidth := sampleWidth f; channelCount := channelCount f; byteOrder := o; compressed := compressed f; pcm := pcm f |}.
Definition withChannels (f : format) (n : Z) : format :=
  {| sampleFormat := sampleFormat f; sampleWidth := sampleWidth f; channelCount := n; byteOrder := byteOrder f; compressed := compressed f; pcm := pcm f |}.
Definition withPCM (f : format) (p : pcmInfo) : format :=
  {| sampleFormat := sampleFormat f; sampleWidth := sampleWidth f; channelCount := channelCount f; byteOrder := byteOrder f; compressed := compressed f; pcm := p |}.

Section Virtual.
Context {B : Build}.
Variable wrapv : bool.
Variable host : order.
Variable c : codec frame.
Variable seekok : bool.

(** ModuleState.cpp:188-193 with 213-228 [reset]: RebufferModule reset1, BlockCodec.cpp:71-87, PCM.cpp:184-190,
    G711.cpp:219-227, as [Reader.setupRead] but with the positions in the file and for the caller kept apart. *)
Definition resetAt (fframepos nextv totalv : Z) (st : rstate frame) : rstate frame :=
  let t := rs_track st in
  match c with
  | PerFrame _ bpf _ =>
      mkRS (rs_file st)
        (mkRT (t_first t) fframepos (t_totalf t) (t_first t + bpf * fframepos) 0 nextv totalv true) (rs_reb st)
  | Blocks fpp bpp _ =>
      let nextf := Z.quot fframepos fpp * fpp in
      mkRS (rs_file st)
        (mkRT (t_first t) nextf (t_totalf t) (t_first t + bpp * Z.quot nextf fpp) (fframepos - nextf) nextv totalv true)
        (rebReset fpp (rs_reb st))
  end.

(** ModuleState.cpp:108-205 [setup] while reading; AF_FAIL is [None].  The buffers are [Memory]'s (C67). *)
Definition setup (st : vstate) : res (option vstate) :=
  let t := rs_track (v_rs st) in
  do fframepos <- scaleFrame (t_nextv t) (v_frate st) (v_vrate st);
  if compressed (v_user st) then Ok None else
  do r <- arrange wrapv host true (v_file st) (v_user st) (v_matrix st);
  match r with
  | None => Ok None
  | Some ms =>
      do totalv <- (if t_totalf t =? -1 then Ok (-1) else scaleTotal (t_totalf t) (v_vrate st) (v_frate st));
      do nextv <- scaleFrame fframepos (v_vrate st) (v_frate st);
      Ok (Some (VS (v_file st) (v_frate st) (v_user st) (v_vrate st) (v_matrix st) false ms (resetAt fframepos nextv totalv (v_rs st))))
  end.
(** [if (track->ms->isDirty() && track->ms->setup(file, track) == AF_FAIL) return -1] (data.cpp:146, format.cpp:114, 198) *)
Definition refresh (st : vstate) : res (option vstate) := if v_dirty st then setup st else Ok (Some st).
Definition onRS (st : vstate) (r : rstate frame) : vstate :=
  VS (v_file st) (v_frate st) (v_user st) (v_vrate st) (v_matrix st) (v_dirty st) (v_chain st) r.
Definition isNil {A} (l : list A) : bool := match l with [] => true | _ => false end.

(** data.cpp:122-236 [afReadFrames]: [Reader.afReadFrames] with the chain in use.  A frame is the result of the
    conversions, which can be undefined (C59). *)
Definition vRead (st : vstate) (n : Z) : res (rout (res frame) * vstate) :=
  do o <- refresh st;
  match o with
  | None => Ok (Number (-1), st)
  | Some st =>
      do (l, r) <- afReadFrames c (runChain (v_chain st)) (negb (isNil (v_chain st))) seekok (v_rs st) n;
      Ok (Frames l, onRS st r)
  end.
(** format.cpp:101-143 [afSeekFrame]: the second [setup] is unconditional. *)
Definition vSeek (st : vstate) (k : Z) : res (rout (res frame) * vstate) :=
  do o <- refresh st;
  match o with
  | None => Ok (Number (-1), st)
  | Some st =>
      let t := rs_track (v_rs st) in
      if k <? 0 then Ok (Number (t_nextv t), st)
      else if k =? t_nextv t then Ok (Number (t_nextv t), st)
      else
        let k := if negb (t_totalv t =? -1) && (t_totalv t <? k) then t_totalv t - 1 else k in
        let st := onRS st (setTrack (v_rs st) (setNextv t k)) in
        do o <- setup st;
        Ok (match o with
            | None => (Number (-1), st)
            | Some st => (Number (t_nextv (rs_track (v_rs st))), st)
            end)
  end.
(** format.cpp:189-202 [afGetFrameCount] *)
Definition vFrameCount (st : vstate) : res (rout (res frame) * vstate) :=
  do o <- refresh st;
  Ok (match o with None => (Number (-1), st) | Some st => (Number (t_totalv (rs_track (v_rs st))), st) end).

Definition dirtyWith (st : vstate) (f v : format) (vrate : spec_float) (m : option (list (list spec_float))) : vstate :=
  VS f (v_frate st) v vrate m true (v_chain st) (v_rs st).
Definition vstep (st : vstate) (o : vop) : res (rout (res frame) * vstate) :=
  match o with
  | VRead n => vRead st n
  | VSeek k => vSeek st k
  | VTell => vSeek st (-1)                        (* format.cpp:145-148 *)
  | VFrameCount => vFrameCount st
  | SetByteOrder o =>                             (* format.cpp:150-170 *)
      Ok (Number 0, dirtyWith st (v_file st) (withOrder (v_user st) o) (v_vrate st) (v_matrix st))
  | SetSampleFormat sf w =>                       (* format.cpp:265-283 *)
      Ok (match setSampleFormat (v_user st) sf w with
          | None => (Number (-1), st)
          | Some v => (Number 0, dirtyWith st (v_file st) v (v_vrate st) (v_matrix st))
          end)
  | SetChannels n =>                              (* format.cpp:298-315: the matrix is dropped *)
      Ok (Number 0, dirtyWith st (v_file st) (withChannels (v_user st) n) (v_vrate st) None)
  | SetRate r =>                                  (* format.cpp:328-347; [rate < 0] is false for a NaN *)
      Ok (if SFltb r (S754_zero false) then (Number (-1), st)
          else (Number 0, dirtyWith st (v_file st) (v_user st) r (v_matrix st)))
  | SetMapping p =>                               (* pcm.cpp:84-104 *)
      Ok (Number 0, dirtyWith st (v_file st) (withPCM (v_user st) p) (v_vrate st) (v_matrix st))
  | SetTrackMapping p =>                          (* pcm.cpp:106-137 *)
      Ok (Number 0, dirtyWith st (withPCM (v_file st) p) (v_user st) (v_vrate st) (v_matrix st))
  | SetMatrix None =>                             (* format.cpp:349-360: nothing is marked *)
      Ok (Number 0, VS (v_file st) (v_frate st) (v_user st) (v_vrate st) None (v_dirty st) (v_chain st) (v_rs st))
  | SetMatrix (Some m) =>                         (* format.cpp:362-374: v.channelCount rows of f.channelCount entries *)
      let inC := channelCount (v_file st) in let outC := channelCount (v_user st) in
      if (outC * inC <=? zlen m) && inS 32 (outC * inC) then
        Ok (Number 0, VS (v_file st) (v_frate st) (v_user st) (v_vrate st) (Some (groups (Z.to_nat inC) (Z.to_nat outC) m)) (v_dirty st) (v_chain st) (v_rs st))
      else UB
  end.
Fixpoint vrun (st : vstate) (ops : list vop) : res (list (rout (res frame))) :=
  match ops with
  | [] => Ok []
  | o :: ops' => do (r, st) <- vstep st o; do l <- vrun st ops'; Ok (r :: l)
  end.

(** openclose.cpp:375-398, FileModule.cpp:30-38, ModuleState.cpp:42-44 and 52-107: after afOpenFile the virtual format is
    the file's in the machine's byte order, uncompressed, and the chain is yet to be built.  [bytes], [first], [total]: the
    file, where its audio data starts and how many frames it has. *)
Definition vopen (f : format) (rate : spec_float) (bytes : list Z) (first total : Z) : vstate :=
  VS f rate {| sampleFormat := sampleFormat f; sampleWidth := sampleWidth f; channelCount := channelCount f; byteOrder := host; compressed := false; pcm := pcm f |}
     rate None true []
     (mkRS (mkFile bytes first) (mkRT first 0 total first 0 0 total true) (match c with PerFrame _ _ _ => rebInitPull 1 | Blocks fpp _ _ => rebInitPull fpp end)).
End Virtual.
