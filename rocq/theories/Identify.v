(** * openclose.cpp:48-76: which format a file is in *)
From Verif Require Import Prelude FileIO HeaderIO Chunks.
From Verif Require NeXT AVR AIFF IFF IRCAM VOC SampleVision CAF NIST WAVE.

(** FLACFile.cpp:52-59 [recognize] (the same without FLAC support) *)
Definition T_fLaC : list Z := [102; 76; 97; 67].
Definition flacRecognize (f : file) : bool :=
  let '(b, _) := fread (fseek f 0) 4 in (zlen b =? 4) && teq b T_fLaC.
(** Raw.cpp:57-60 [recognize] *)
Definition rawRecognize (f : file) : bool := false.

(** units.cpp:56-269: the [recognize] entries in the order of the table, none for the formats that are not implemented
    (6, 7, 8, 14); the format of entry [i] is [i] (audiofile.h:100-118). *)
Definition recognizers : list (option (file -> bool)) :=
  [ Some rawRecognize; Some (AIFF.aiffRecognize true); Some (AIFF.aiffRecognize false); Some NeXT.nextRecognize;
    Some WAVE.waveRecognize; Some IRCAM.ircamRecognize; None; None; None; Some AVR.avrRecognize; Some IFF.iffRecognize;
    Some SampleVision.smpRecognize; Some VOC.vocRecognize; Some NIST.nistRecognize; None; Some CAF.cafRecognize; Some flacRecognize ].

(** openclose.cpp:58-68: the loop, from entry [i] on *)
Fixpoint identifyFrom (i : Z) (l : list (option (file -> bool))) (f : file) : Z :=
  match l with
  | [] => -1
  | r :: l => if match r with Some g => g f | None => false end then i else identifyFrom (i + 1) l f
  end.
(** openclose.cpp:48-76 [_af_identify] of a file that can be sought in; every recognizer seeks to 0 first, and the position is
    restored at the end, so the file is as before.  A file that cannot be sought in is AF_FILE_UNKNOWN (50-54). *)
Definition afIdentify (canSeek : bool) (f : file) : Z := if canSeek then identifyFrom 0 recognizers f else -1.
