(** * SampleVision.cpp: Sample Vision files: mono, 16 bits, little-endian.  Sample rates are whole numbers of hertz. *)
From Verif Require Import Prelude ByteOrder FileIO Writer Codecs HeaderIO Chunks VOC.

(** SampleVision.cpp:31-34 *)
Definition smpMagic : list Z := [83;79;85;78;68;32;83;65;77;80;76;69;32;68;65;84;65;32].   (* "SOUND SAMPLE DATA " *)
Definition smpVersion : list Z := [50;46;49;32].                                             (* "2.1 " *)

(** ** Writing *)
(** SampleVision.cpp:262-273: magic number, version, name and comment of blanks *)
Definition smpPre : list Z := smpMagic ++ smpVersion ++ zrepeat 32 30 ++ zrepeat 32 60.
Definition smpFirst : Z := 116.
(** SampleVision.cpp:257-285 [writeInit] *)
Definition smpInit : list Z := smpPre ++ le4 0.
(** SampleVision.cpp:321-335 [writeLoops], 337-350 [writeMarkers] *)
Definition smpLoop : list Z := le4 0xffffffff ++ le4 0 ++ sampleBytes LittleEndian 1 0 ++ le2 0.
Definition smpMarker : list Z := zrepeat 32 10 ++ le4 0xffffffff.
Definition times8 {A} (l : list A) : list A := l ++ l ++ l ++ l ++ l ++ l ++ l ++ l.
(** SampleVision.cpp:297-319 [writeTrailer]; the conversion of the rate to uint32_t is defined below 2^32 *)
Definition smpTrailer (rate : Z) : list Z :=
  le2 0 ++ times8 smpLoop ++ times8 smpMarker ++ sampleBytes LittleEndian 1 60 ++ le4 rate ++ le4 0 ++ le4 0.
(** SampleVision.cpp:287-295 [update] *)
Definition smpUpdate (rate : Z) (f : file) (t : wtrack) : file :=
  let f := fwrite (fseek f 112) (le4 (w_totalf t)) in
  fwrite (fseek f (w_after t)) (smpTrailer rate).

(** SampleVision.cpp:77-84 [recognize]; strncmp stops at a zero byte, of which the magic number has none *)
Definition smpRecognize (f : file) : bool :=
  let '(b, _) := fread (fseek f 0) 18 in (zlen b =? 18) && teq b smpMagic.

(** ** Reading *)
(** A C string: the bytes before the first zero. *)
Fixpoint cstr (l : list Z) : list Z := match l with [] => [] | x :: l => if x =? 0 then [] else x :: cstr l end.
Fixpoint dropBlanks (l : list Z) : list Z := match l with [] => [] | x :: r => if x =? 32 then dropBlanks r else l end.
(** SampleVision.cpp:57-65 [trimTrailingSpaces]: never removes the first character *)
Definition trimBlanks (l : list Z) : list Z := match l with [] => [] | x :: r => x :: rev (dropBlanks (rev r)) end.
(** SampleVision.cpp:163-175, 240-255: a text field of [n] bytes; a shorter one leaves part of the array uninitialised *)
Definition smpText (n type : Z) : hP (list (Z * list Z)) :=
  let! d := hread n in
  if negb (zlen d =? n) then fun _ => UB else
  let s := trimBlanks (cstr d) in
  hret (match s with [] => [] | _ => [(type, s)] end).
(** SampleVision.cpp:213-226 [parseLoops], 228-238 [parseMarkers]: the values are not used *)
Definition smpReadLoop : hP unit :=
  let! _ := tryU LittleEndian 4 in let! _ := tryU LittleEndian 4 in let! _ := tryU LittleEndian 1 in let! _ := tryU LittleEndian 2 in hret tt.
Definition smpReadMarker : hP unit := let! _ := hread 10 in let! _ := tryU LittleEndian 4 in hret tt.
Fixpoint hrepeat (n : nat) (p : hP unit) : hP unit := match n with O => hret tt | S n => let! _ := p in hrepeat n p end.
(** SampleVision.cpp:176-211 *)
Definition smpTail : hP parsed :=
  let! count := readU LittleEndian 4 in
  let! first := htell in
  let dsize := u32 (2 * count) in
  let! _ := hskip dsize in
  let! _ := tryU LittleEndian 2 in
  let! _ := hrepeat 8 smpReadLoop in
  let! _ := hrepeat 8 smpReadMarker in
  let! _ := tryU LittleEndian 1 in
  let! rate := readU LittleEndian 4 in
  let! _ := tryU LittleEndian 4 in
  let! _ := tryU LittleEndian 4 in
  hret (mkParsed (mkFmt rate TwosComp 16 1 LittleEndian CNone 1 2) first dsize count).
(** SampleVision.cpp:145-211 [readInit]: the track and the miscellaneous data *)
Definition smpRead : hP (parsed * list (Z * list Z)) :=
  let! _ := hseek 0 in
  let! magic := hread 18 in
  if negb (zlen magic =? 18) then hfail else
  if negb (teq magic smpMagic) then hfail else
  let! version := hread 4 in
  if negb (zlen version =? 4) then hfail else
  if negb (teq version smpVersion) then hfail else
  let! name := smpText 30 203 in
  let! comment := smpText 60 210 in
  let! p := smpTail in
  hret (p, name ++ comment).
