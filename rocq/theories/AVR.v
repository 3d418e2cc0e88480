(** * AVR.cpp: Audio Visual Research files *)
From Verif Require Import Prelude ByteOrder FileIO Writer Codecs HeaderIO.

Definition avr_magic : list Z := [50; 66; 73; 84].   (* "2BIT" *)
Definition avrFirst : Z := 128.

(** AVR.cpp:292-314: the fields before the size field.  [name] is the file's base name, cut or padded with
    zeros to eight bytes.  The sample rate is a double converted to uint32_t, defined below 2^32 only. *)
Definition avrPre (name : list Z) (f : format) : list Z :=
  avr_magic ++ name ++
  sampleBytes BigEndian 2 (if f_chan f =? 1 then 0 else 0xffff) ++
  sampleBytes BigEndian 2 (f_width f) ++
  sampleBytes BigEndian 2 (match f_sf f with Unsigned => 0 | _ => 0xffff end) ++
  sampleBytes BigEndian 2 0 ++ sampleBytes BigEndian 2 0xffff ++
  sampleBytes BigEndian 4 (Z.lor (u32 (f_rate f)) 0xff000000).
(** AVR.cpp:325-336 *)
Definition avrPost : list Z := zrepeat 0 (26 + 64).

(** AVR.cpp:316-330 and 253-260: size, loop start, loop end *)
Definition avrSizes (total : Z) : list Z :=
  sampleBytes BigEndian 4 total ++ sampleBytes BigEndian 4 0 ++ sampleBytes BigEndian 4 total.

(** AVR.cpp:274-341 [writeInit] *)
Definition avrInit (name : list Z) (f : format) : list Z := avrPre name f ++ avrSizes 0 ++ avrPost.

(** AVR.cpp:243-263 [update] *)
Definition avrUpdate (f : file) (t : wtrack) : file := fwrite (fseek f 26) (avrSizes (w_totalf t)).

(** AVR.cpp:64-74 [recognize] *)
Definition avrRecognize (f : file) : bool :=
  let '(b, _) := fread (fseek f 0) 4 in if list_eq_dec Z.eq_dec b avr_magic then true else false.

(** AVR.cpp:121-169: the end of [readInit], with the field values *)
Definition avrTail (mono resolution sign rate size : Z) : hP parsed :=
  if negb (sign =? 0) && negb (sign =? 0xffff) then hfail else
  let sf := if sign =? 0 then Unsigned else TwosComp in
  if negb (resolution =? 8) && negb (resolution =? 16) then hfail else
  if negb (mono =? 0) && negb (mono =? 0xffff) then hfail else
  let ch := if mono =? 0 then 1 else 2 in
  let! bpp := hlift (bppPCM resolution ch) in
  let! first := htell in
  hret (mkParsed (mkFmt (Z.land rate 0xffffff) sf resolution ch BigEndian CNone 1 bpp) first (s64 (u64 (size * (resolution / 8 * ch)))) size).

(** AVR.cpp:76-169 [readInit] *)
Definition avrRead : hP parsed :=
  let! _ := hseek 0 in
  let! magic := hread 4 in
  if negb (zlen magic =? 4) then hfail else
  if negb (if list_eq_dec Z.eq_dec magic avr_magic then true else false) then hfail else
  let! _ := hread 8 in
  let! mono := readU BigEndian 2 in
  let! resolution := readU BigEndian 2 in
  let! sign := readU BigEndian 2 in
  let! _ := tryU BigEndian 2 in
  let! _ := tryU BigEndian 2 in
  let! rate := readU BigEndian 4 in
  let! size := readU BigEndian 4 in
  let! _ := tryU BigEndian 4 in
  let! _ := tryU BigEndian 4 in
  let! _ := hread 26 in
  let! _ := hread 64 in
  avrTail mono resolution sign rate size.
