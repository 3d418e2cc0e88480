(** * IRCAM.cpp: Berkeley/IRCAM/CARL sound files.  Sample rates are doubles, stored as floats. *)
From Verif Require Import Prelude ByteOrder FileIO Writer Codecs HeaderIO Float FloatBits.

(** IRCAM.cpp:70-77 *)
Definition vax_le := [0x64; 0xa3; 1; 0].   Definition vax_be := [0; 1; 0xa3; 0x64].
Definition sun_be := [0x64; 0xa3; 2; 0].   Definition sun_le := [0; 2; 0xa3; 0x64].
Definition mips_le := [0x64; 0xa3; 3; 0].  Definition mips_be := [0; 3; 0xa3; 0x64].
Definition next_be := [0x64; 0xa3; 4; 0].  Definition next_le := [0; 4; 0xa3; 0x64].
Definition isMagic (l : list (list Z)) (m : list Z) : bool := existsb (fun x => if list_eq_dec Z.eq_dec m x then true else false) l.
Definition ircamMagics := [vax_le; vax_be; sun_be; sun_le; mips_le; mips_be; next_be; next_le].
(** IRCAM.cpp:242-246 *)
Definition ircamLE := [vax_le; sun_le; mips_le; next_le].

(** IRCAM.cpp:44-54 and 381-419: None where writeInit reports an error; the unsigned case of a compressed format is decided by the compression *)
Definition packMode {R} (f : formatOf R) : option Z :=
  match f_comp f with
  | CUlaw => Some 0x20001
  | CAlaw => Some 0x10001
  | CNone =>
      match f_sf f with
      | TwosComp => let n := Z.quot (f_width f + 7) 8 in
          if n =? 1 then Some 1 else if n =? 2 then Some 2 else if n =? 3 then Some 3 else if n =? 4 then Some 0x40004 else None
      | Float => if f_width f =? 32 then Some 4 else if f_width f =? 64 then Some 8 else None
      | Double => if f_width f =? 32 then Some 4 else if f_width f =? 64 then Some 8 else None
      | Unsigned => None
      end
  | _ => None
  end.
Definition ircamFirst : Z := 1024.
(** IRCAM.cpp:350-434 [writeInit], on a machine of byte order [host]: the fields are written in the machine's order.  The conversion of
    the rate rounds to the nearest float. *)
Definition ircamInit (host : order) (f : formatOf spec_float) : option (list Z) :=
  match packMode f with
  | None => None
  | Some mode => Some ((match host with LittleEndian => vax_le | BigEndian => sun_be end) ++
      sampleBytes host 4 (bits32 (toFloat (f_rate f))) ++ sampleBytes host 4 (f_chan f) ++ sampleBytes host 4 mode ++ zrepeat 0 (1024 - 16))
  end.
(** IRCAM.cpp:436-439 [update] does nothing *)
Definition ircamUpdate (f : file) (t : wtrack) : file := f.

(** IRCAM.cpp:100-123 [recognize] *)
Definition ircamRecognize (f : file) : bool :=
  let '(b, _) := fread (fseek f 0) 4 in (zlen b =? 4) && isMagic ircamMagics b.

(** IRCAM.cpp:258-347: the end of [readInit] with the values of the fields; [le] tells whether the magic number is of a little-endian machine *)
Definition ircamTail (host : order) (le : bool) (rate channels mode : Z) : hP (parsedOf spec_float) :=
  let order := if le then LittleEndian else BigEndian in
  if negb (channels =? 1) && negb (channels =? 2) && negb (channels =? 4) then hfail else
  let rate := toDouble (of32 rate) in
  let pcm o sf w :=
    let! bpp := hlift (bppPCM w channels) in
    hret (mkFmt rate sf w channels o CNone 1 bpp) in
  let! fm :=
    (if mode =? 1 then pcm host TwosComp 8
     else if mode =? 2 then pcm order TwosComp 16
     else if mode =? 3 then pcm order TwosComp 24
     else if mode =? 0x40004 then pcm order TwosComp 32
     else if mode =? 4 then pcm order Float 32
     else if mode =? 8 then pcm order Double 64
     else if mode =? 0x10001 then hret (mkFmt rate TwosComp 16 channels host CAlaw 1 channels)
     else if mode =? 0x20001 then hret (mkFmt rate TwosComp 16 channels host CUlaw 1 channels)
     else hfail) in
  let! len := hlength in
  hret (mkParsed fm 1024 (len - 1024) (computeTotal 0 (len - 1024) fm)).
(** IRCAM.cpp:216-347 [readInit] *)
Definition ircamRead (host : order) : hP (parsedOf spec_float) :=
  let! _ := hseek 0 in
  let! magic := hread 4 in
  if negb (zlen magic =? 4) then hfail else
  if negb (isMagic ircamMagics magic) then hfail else
  let le := isMagic ircamLE magic in
  let order := if le then LittleEndian else BigEndian in
  let! rate := readU order 4 in
  let! channels := readU order 4 in
  let! mode := readU order 4 in
  ircamTail host le rate channels mode.
