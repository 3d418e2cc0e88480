(** * Changing the virtual format while a file is open for writing: format.cpp, pcm.cpp, data.cpp, modules/ModuleState.cpp

    As [Virtual], on top of [Writer].  Rebuilding the chain allocates new chunks, so what the buffer before the encoder
    held is lost; the rebuffering module, and with it the frames that do not fill a block yet, is kept. *)
From Coq Require Import Floats.SpecFloat.
From Verif Require Import Prelude FileIO Rebuffer Reader Writer ByteOrder Convert Float Arrange Rates Memory Virtual.

(** Track.h and ModuleState, as [Virtual.vstate]. *)
Record ystate (E : Type) := YS {
  y_file : format; y_frate : spec_float; y_user : format; y_vrate : spec_float; y_matrix : option (list (list spec_float));
  y_dirty : bool; y_chain : list module; y_ws : wstate frame E }.
Arguments YS {E}. Arguments y_file {E}. Arguments y_frate {E}. Arguments y_user {E}. Arguments y_vrate {E}. Arguments y_matrix {E}.
Arguments y_dirty {E}. Arguments y_chain {E}. Arguments y_ws {E}.

(** The calls: writing, syncing (or closing), and those of [Virtual]. *)
Inductive yop := YWrite (l : list frame) | YSync | YCall (o : vop).

Section VirtualWrite.
Context {B : Build}.
Context {E : Type}.
Variable wrapv : bool.
Variable host : order.
Variable c : wcodec frame E.
Variable junk : frame.
Variable seekok : bool.
Variable upd : file -> wtrack -> file.
(** The frames that fit in the chunk before the encoder (C67 has its size in bytes). *)
Variable cap : Z.

(** nextvframe = totalvframes = n *)
Definition setCounts (t : wtrack) (n : Z) : wtrack :=
  mkWT (w_first t) (w_nextf t) (w_totalf t) (w_nextpos t) (w_after t) (w_dsize t) n n (w_savedpos t) (w_savednext t).
Definition onWS (st : ystate E) (w : wstate frame E) : ystate E :=
  YS (y_file st) (y_frate st) (y_user st) (y_vrate st) (y_matrix st) (y_dirty st) (y_chain st) w.

(** ModuleState.cpp:108-205 [setup] while writing; AF_FAIL is [None]. *)
Definition ysetup (st : ystate E) : res (option (ystate E)) :=
  let w := y_ws st in let t := ws_track w in
  do fframepos <- scaleFrame (w_nextv t) (y_frate st) (y_vrate st);
  if compressed (y_user st) then Ok None else
  do r <- arrange wrapv host false (y_user st) (y_file st) (y_matrix st);
  match r with
  | None => Ok None
  | Some ms =>
      do n <- scaleTrunc fframepos (y_vrate st) (y_frate st);
      Ok (Some (YS (y_file st) (y_frate st) (y_user st) (y_vrate st) (y_matrix st) false ms
        (mkWS (ws_file w) (setCounts t n) (ws_enc w) (ws_reb w) (zrepeat None cap))))
  end.
(** data.cpp:60, openclose.cpp:420, format.cpp:198 *)
Definition yrefresh (st : ystate E) : res (option (ystate E)) := if y_dirty st then ysetup st else Ok (Some st).

(** data.cpp:42-120 [afWriteFrames].  The conversions are applied to all frames before the first is stored, not to 1024 at a
    time; only what happens before undefined behaviour differs. *)
Definition yWrite (st : ystate E) (l : list frame) : res (Z * ystate E) :=
  do o <- yrefresh st;
  match o with
  | None => Ok (-1, st)
  | Some st =>
      do l' <- rmapM (runChain (y_chain st)) l;
      do (n, w) <- afWriteFrames c (fun x => x) junk seekok (y_ws st) l';
      Ok (n, onWS st w)
  end.
(** openclose.cpp:408-443 [afSyncFile] *)
Definition ySync (st : ystate E) : res (Z * ystate E) :=
  do o <- yrefresh st;
  match o with
  | None => Ok (-1, st)
  | Some st => do w <- afSyncFile c junk seekok upd (y_ws st); Ok (0, onWS st w)
  end.
(** format.cpp:189-202 [afGetFrameCount] *)
Definition yFrameCount (st : ystate E) : res (Z * ystate E) :=
  do o <- yrefresh st;
  Ok (match o with None => (-1, st) | Some st => (w_totalv (ws_track (y_ws st)), st) end).

Definition ydirtyWith (st : ystate E) (f v : format) (vrate : spec_float) (m : option (list (list spec_float))) : ystate E :=
  YS f (y_frate st) v vrate m true (y_chain st) (y_ws st).
(** The same functions as in [Virtual.vstep]; reading, seeking and telling fail on a file open for writing
    (data.cpp:132, format.cpp:107). *)
Definition ycall (st : ystate E) (o : vop) : res (Z * ystate E) :=
  match o with
  | VRead _ | VSeek _ | VTell => Ok (-1, st)
  | VFrameCount => yFrameCount st
  | SetByteOrder o => Ok (0, ydirtyWith st (y_file st) (withOrder (y_user st) o) (y_vrate st) (y_matrix st))
  | SetSampleFormat sf w =>
      Ok (match setSampleFormat (y_user st) sf w with
          | None => (-1, st)
          | Some v => (0, ydirtyWith st (y_file st) v (y_vrate st) (y_matrix st))
          end)
  | SetChannels n => Ok (0, ydirtyWith st (y_file st) (withChannels (y_user st) n) (y_vrate st) None)
  | SetRate r => Ok (if SFltb r (S754_zero false) then (-1, st) else (0, ydirtyWith st (y_file st) (y_user st) r (y_matrix st)))
  | SetMapping p => Ok (0, ydirtyWith st (y_file st) (withPCM (y_user st) p) (y_vrate st) (y_matrix st))
  | SetTrackMapping p => Ok (0, ydirtyWith st (withPCM (y_file st) p) (y_user st) (y_vrate st) (y_matrix st))
  | SetMatrix None => Ok (0, YS (y_file st) (y_frate st) (y_user st) (y_vrate st) None (y_dirty st) (y_chain st) (y_ws st))
  | SetMatrix (Some m) =>
      let inC := channelCount (y_file st) in let outC := channelCount (y_user st) in
      if (outC * inC <=? zlen m) && inS 32 (outC * inC) then
        Ok (0, YS (y_file st) (y_frate st) (y_user st) (y_vrate st) (Some (groups (Z.to_nat inC) (Z.to_nat outC) m)) (y_dirty st) (y_chain st) (y_ws st))
      else UB
  end.
Definition ystep (st : ystate E) (o : yop) : res (Z * ystate E) :=
  match o with YWrite l => yWrite st l | YSync => ySync st | YCall o => ycall st o end.
Fixpoint yrun (st : ystate E) (ops : list yop) : res (list Z * ystate E) :=
  match ops with
  | [] => Ok ([], st)
  | o :: ops' => do (r, st) <- ystep st o; do (l, st) <- yrun st ops'; Ok (r :: l, st)
  end.

(** State after afOpenFile for writing (openclose.cpp:375-398): file format [f], virtual format [v], both at rate [rate]; the
    chain is yet to be built.  The buffer [openWrite] puts before the encoder is replaced by the first [ysetup]. *)
Definition yopen (f v : format) (rate : spec_float) (hdr : list Z) (first : Z) (e : E) : ystate E :=
  YS f rate v rate None true [] (openWrite c hdr first cap e).
End VirtualWrite.
