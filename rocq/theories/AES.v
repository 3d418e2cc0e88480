(** * AES channel status data: aes.cpp, FileHandle.cpp:242-257, Track.cpp:74-75

    A null setup or file handle is [None].  Buffers are 24 bytes, as the functions' parameter types ask. *)
From Verif Require Import Prelude HeaderIO Metadata AIFF.

(** Track.h:37-54 (aesDataSet), one per track of the setup *)
Record trackSetup := TrackSetup { st_id : Z; st_aes : bool }.
(** Track.h:56-75; with whether the file is open for writing (FileHandle.h m_access) *)
Record trackAES := TrackAES { ta_id : Z; ta_has : bool; ta_data : list Z }.
Record aesHandle := AESHandle { ah_writing : bool; ah_tracks : list trackAES }.

(** aes.cpp:40-62 *)
Definition afInitAESChannelDataTo (s : option (list trackSetup)) (trackid : Z) (willBeData : bool) : option (list trackSetup) :=
  match s with
  | None => None
  | Some ts => Some (update st_id trackid (fun t => TrackSetup (st_id t) willBeData) ts)
  end.
Definition afInitAESChannelData (s : option (list trackSetup)) (trackid : Z) := afInitAESChannelDataTo s trackid true.

(** Track.cpp:74-75 then FileHandle.cpp:242-257: the tracks of a file opened for writing *)
Definition openWriteAES (ts : list trackSetup) : aesHandle := AESHandle true (map (fun t => TrackAES (st_id t) (st_aes t) (zrepeat 0 24)) ts).
(** A file opened for reading has the one default track (Track.cpp:61-75); AIFF.cpp:131-151 sets its data from an AESD chunk *)
Definition openReadAES (found : option (list Z)) : aesHandle :=
  AESHandle false [TrackAES AF_DEFAULT_TRACK (match found with Some _ => true | None => false end) (match found with Some d => d | None => zrepeat 0 24 end)].

(** aes.cpp:64-84: the result and what the buffer, if there is one, then contains ([None]: it is not touched) *)
Definition afGetAESChannelData (h : option aesHandle) (trackid : Z) : Z * option (list Z) :=
  match h with
  | None => (-1, None)
  | Some h =>
      match lookup ta_id trackid (ah_tracks h) with
      | None => (-1, None)
      | Some t => if negb (ta_has t) then (0, Some (zrepeat 0 24)) else (1, Some (ta_data t))
      end
  end.
(** aes.cpp:86-112 *)
Definition afSetAESChannelData (h : option aesHandle) (trackid : Z) (buf : list Z) : option aesHandle :=
  match h with
  | None => None
  | Some h =>
      match lookup ta_id trackid (ah_tracks h) with
      | None => Some h
      | Some t =>
          if negb (ah_writing h) then Some h
          else if ta_has t then Some (AESHandle (ah_writing h) (update ta_id trackid (fun t => TrackAES (ta_id t) (ta_has t) buf) (ah_tracks h)))
          else Some h
      end
  end.
(** AIFF.cpp:929-950, as far as the track's data is concerned: what the AESD chunk is written from *)
Definition aesToWrite (h : aesHandle) : option (list Z) :=
  match ah_tracks h with t :: _ => if ta_has t then Some (ta_data t) else None | [] => None end.
