(** * format.cpp:71-99 with util.cpp:263-308: the size of a frame, as afGetFrameSize and afGetVirtualFrameSize report it *)
From Coq Require Import Floats.SpecFloat.
From Verif Require Import Prelude FileIO Rebuffer Reader Writer Codecs HeaderIO Raw ByteOrder Convert Float Arrange Rates Memory Virtual VirtualWrite API.

(** util.cpp:263-308 [_af_format_frame_size]: an int product, converted to float and divided by the factor of the compression
    (units.cpp:271-368).  The sample size of util.cpp:263-284 is the same function as AudioFormat.cpp:32-49. *)
Definition frameSize (c : compression) (stretch : bool) (f : format) : res spec_float :=
  do n <- ck32 (bytesPerSample stretch f * channelCount f);
  Ok (SFdiv 24 128 (fOfZ n) (squishFactor c)).

(** format.cpp:77-87 [afGetFrameSize] ([virtual] false; [c]: the track's compression) and 89-99 [afGetVirtualFrameSize]
    (openclose.cpp:386: the virtual format has no compression).  The answer is a float. *)
Definition afGetFrameSize {E} (c : compression) (h : handle (E := E)) (valid : bool) (track : Z) (virtual stretch : bool) : res spec_float :=
  if negb valid then Ok (fOfZ (-1)) else if negb (track =? AF_DEFAULT_TRACK) then Ok (fOfZ (-1))
  else frameSize (if virtual then CNone else c) stretch (choose virtual h).
