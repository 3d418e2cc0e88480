(** * File setups and opening a file for writing: Setup.cpp, pcm.cpp, compression.cpp, aes.cpp, Marker.cpp, Instrument.cpp, Loop.cpp,
    Miscellaneous.cpp (the afInit... functions), every format's completeSetup, openclose.cpp [_afOpenFile].

    Simplifications: a setup has exactly one track (afInitTrackIDs never changes that); sampleWidthSet equals sampleFormatSet (both are
    only set by afInitSampleFormat); no function sets an instrument's loopSet, so it is false throughout; memory does not run out; the
    FLAC file format and the FLAC compression are not modelled. *)
From Verif Require Import Prelude ByteOrder Convert Float HeaderIO VOC IRCAM NIST WAVE Extended.
From Verif Require Arrange.

Definition order_eqb (a b : order) : bool := match a, b with BigEndian, BigEndian | LittleEndian, LittleEndian => true | _, _ => false end.

(** audiofile.h: the implemented file formats (units.cpp:57-262) *)
Inductive ffmt := F_RAW | F_AIFFC | F_AIFF | F_NEXT | F_WAVE | F_IRCAM | F_AVR | F_IFF | F_SMP | F_VOC | F_NIST | F_CAF.

(** AudioFormat.h:38-102: the fields a setup determines *)
Record aformat := AFmt { a_rate : spec_float; a_sf : sampfmt; a_width : Z; a_order : order; a_pcm : Arrange.pcmInfo; a_chan : Z; a_comp : compression }.

(** Setup.h: one file setup; [su_inst] lists the instruments' ids and numbers of loops, [su_misc] the ids and types of the miscellaneous chunks *)
Record setup := Su {
  su_file : ffmt; su_fmt : aformat; su_rateSet : bool; su_sfSet : bool; su_orderSet : bool; su_chanSet : bool; su_compSet : bool;
  su_aes : bool; su_markSet : bool; su_marks : Z; su_instSet : bool; su_inst : list (Z * Z); su_miscSet : bool; su_misc : list (Z * Z) }.

Definition withFmt (s : setup) (f : aformat) : setup :=
  Su (su_file s) f (su_rateSet s) (su_sfSet s) (su_orderSet s) (su_chanSet s) (su_compSet s) (su_aes s) (su_markSet s) (su_marks s) (su_instSet s)
     (su_inst s) (su_miscSet s) (su_misc s).

Definition toA (sf : sampfmt) : Arrange.sampfmt :=
  match sf with TwosComp => Arrange.TWOSCOMP | Unsigned => Arrange.UNSIGNED | Float => Arrange.FLOAT | Double => Arrange.DOUBLE end.
(** util.cpp:320-361 [_af_set_sample_format]: width and mapping; [None]: refused, nothing changes *)
Definition widthAndPCM (sf : sampfmt) (w : Z) : option (Z * Arrange.pcmInfo) :=
  match Arrange.setSampleFormat (Arrange.Build_format Arrange.TWOSCOMP 16 1 LittleEndian false Arrange.floatMapping) (toA sf) w with
  | Some f => Some (Arrange.sampleWidth f, Arrange.pcm f)
  | None => None
  end.
Definition setSF (f : aformat) (sf : sampfmt) (w : Z) : aformat :=
  match widthAndPCM sf w with
  | Some (w, m) => AFmt (a_rate f) sf w (a_order f) m (a_chan f) (a_comp f)
  | None => f
  end.
Definition setOrder (f : aformat) (o : order) : aformat := AFmt (a_rate f) (a_sf f) (a_width f) o (a_pcm f) (a_chan f) (a_comp f).

(** Setup.cpp:42-97 and 148-183: afNewFileSetup on a machine of byte order [host] *)
Definition newSetup (host : order) : setup :=
  Su (match host with BigEndian => F_AIFFC | LittleEndian => F_WAVE end)
     (AFmt (dOfZ 44100) TwosComp 16 host (Arrange.signedMapping kInt16) 2 CNone)
     false false false false false false false 4 false [(2001, 2)] false [].

(** ** The afInit... functions *)
Inductive scall :=
| SFileFormat (f : ffmt)               (* afInitFileFormat with an implemented format *)
| SChannels (n : Z)
| SSampleFormat (sf : sampfmt) (w : Z)
| SUnknownFormat                       (* afInitSampleFormat with an unknown sample format *)
| SByteOrder (o : order)
| SRate (r : spec_float)
| SCompression (c : compression)
| SPCMMapping (m : Arrange.pcmInfo)
| SAES (b : bool)
| SMarkIDs (n : Z)
| SInstIDs (ids : list Z)
| SLoopIDs (inst : Z) (ids : list Z)
| SMiscIDs (ids : list Z)
| SMiscType (id type : Z).

Fixpoint distinct (l : list Z) : bool := match l with [] => true | x :: l => negb (existsb (Z.eqb x) l) && distinct l end.
(** The first entry with this id gets the new value (Setup.h: getInstrument, getMiscellaneous). *)
Fixpoint setFirst (id v : Z) (l : list (Z * Z)) : list (Z * Z) :=
  match l with [] => [] | (i, x) :: l => if i =? id then (i, v) :: l else (i, x) :: setFirst id v l end.

(** Setup.cpp:283-376, pcm.cpp:67-83, compression.cpp:62-76, aes.cpp:40-66, Marker.cpp:42-74, Instrument.cpp:80-98, Loop.cpp:37-55,
    Miscellaneous.cpp:41-72 and 90-98.  Refused arguments leave the setup unchanged.  A negative number of markers is not modelled. *)
Definition scallStep (s : setup) (c : scall) : setup :=
  let f := su_fmt s in
  match c with
  | SFileFormat ff => Su ff f (su_rateSet s) (su_sfSet s) (su_orderSet s) (su_chanSet s) (su_compSet s) (su_aes s) (su_markSet s) (su_marks s) (su_instSet s)
      (su_inst s) (su_miscSet s) (su_misc s)
  | SChannels n => if n <? 1 then s else
      Su (su_file s) (AFmt (a_rate f) (a_sf f) (a_width f) (a_order f) (a_pcm f) n (a_comp f)) (su_rateSet s) (su_sfSet s) (su_orderSet s) true (su_compSet s)
         (su_aes s) (su_markSet s) (su_marks s) (su_instSet s) (su_inst s) (su_miscSet s) (su_misc s)
  | SSampleFormat sf w =>
      Su (su_file s) (setSF f sf w) (su_rateSet s) true (su_orderSet s) (su_chanSet s) (su_compSet s) (su_aes s) (su_markSet s) (su_marks s) (su_instSet s)
         (su_inst s) (su_miscSet s) (su_misc s)
  | SUnknownFormat =>
      Su (su_file s) f (su_rateSet s) true (su_orderSet s) (su_chanSet s) (su_compSet s) (su_aes s) (su_markSet s) (su_marks s) (su_instSet s)
         (su_inst s) (su_miscSet s) (su_misc s)
  | SByteOrder o =>
      Su (su_file s) (setOrder f o) (su_rateSet s) (su_sfSet s) true (su_chanSet s) (su_compSet s) (su_aes s) (su_markSet s) (su_marks s) (su_instSet s)
         (su_inst s) (su_miscSet s) (su_misc s)
  | SRate r => if SFleb r (dOfZ 0) then s else
      Su (su_file s) (AFmt r (a_sf f) (a_width f) (a_order f) (a_pcm f) (a_chan f) (a_comp f)) true (su_sfSet s) (su_orderSet s) (su_chanSet s) (su_compSet s)
         (su_aes s) (su_markSet s) (su_marks s) (su_instSet s) (su_inst s) (su_miscSet s) (su_misc s)
  | SCompression c =>
      Su (su_file s) (AFmt (a_rate f) (a_sf f) (a_width f) (a_order f) (a_pcm f) (a_chan f) c) (su_rateSet s) (su_sfSet s) (su_orderSet s) (su_chanSet s) true
         (su_aes s) (su_markSet s) (su_marks s) (su_instSet s) (su_inst s) (su_miscSet s) (su_misc s)
  | SPCMMapping m => withFmt s (AFmt (a_rate f) (a_sf f) (a_width f) (a_order f) m (a_chan f) (a_comp f))
  | SAES b => Su (su_file s) f (su_rateSet s) (su_sfSet s) (su_orderSet s) (su_chanSet s) (su_compSet s) b (su_markSet s) (su_marks s) (su_instSet s)
      (su_inst s) (su_miscSet s) (su_misc s)
  | SMarkIDs n => if n <? 0 then s else
      Su (su_file s) f (su_rateSet s) (su_sfSet s) (su_orderSet s) (su_chanSet s) (su_compSet s) (su_aes s) true n (su_instSet s) (su_inst s) (su_miscSet s)
         (su_misc s)
  | SInstIDs ids => if negb (distinct ids) then s else
      Su (su_file s) f (su_rateSet s) (su_sfSet s) (su_orderSet s) (su_chanSet s) (su_compSet s) (su_aes s) (su_markSet s) (su_marks s) true
         (map (fun i => (i, 2)) ids) (su_miscSet s) (su_misc s)
  | SLoopIDs i ids => if negb (distinct ids) then s else
      Su (su_file s) f (su_rateSet s) (su_sfSet s) (su_orderSet s) (su_chanSet s) (su_compSet s) (su_aes s) (su_markSet s) (su_marks s) (su_instSet s)
         (setFirst i (zlen ids) (su_inst s)) (su_miscSet s) (su_misc s)
  | SMiscIDs ids =>
      Su (su_file s) f (su_rateSet s) (su_sfSet s) (su_orderSet s) (su_chanSet s) (su_compSet s) (su_aes s) (su_markSet s) (su_marks s) (su_instSet s)
         (su_inst s) true (map (fun i => (i, 0)) ids)
  | SMiscType i t =>
      Su (su_file s) f (su_rateSet s) (su_sfSet s) (su_orderSet s) (su_chanSet s) (su_compSet s) (su_aes s) (su_markSet s) (su_marks s) (su_instSet s)
         (su_inst s) (su_miscSet s) (setFirst i t (su_misc s))
  end.

(** ** completeSetup: whether the setup is accepted, and the track's format, which it changes in the caller's setup even when it refuses *)
Definition outcome : Type := bool * aformat.
Definition refuseIf (bad : bool) (f : aformat) (k : outcome) : outcome := if bad then (false, f) else k.
Definition isComp (f : aformat) : bool := negb (compression_eqb (a_comp f) CNone).
Definition isSF (f : aformat) (sf : sampfmt) : bool := sampfmt_eqb (a_sf f) sf.
Definition isIntF (f : aformat) : bool := isSF f TwosComp || isSF f Unsigned.
Definition inComp (f : aformat) (l : list compression) : bool := existsb (compression_eqb (a_comp f)) l.
Definition inWidth (f : aformat) (l : list Z) : bool := existsb (Z.eqb (a_width f)) l.
Definition badWidth (f : aformat) : bool := (a_width f <? 1) || (32 <? a_width f).
(** the wrong byte order was asked for and matters (AudioFormat.cpp:122-125 [isByteOrderSignificant]) *)
Definition wrongOrder (s : setup) (f : aformat) (o : order) : bool :=
  negb (isComp f) && su_orderSet s && negb (order_eqb (a_order f) o) && (8 <? a_width f).
Definition forceOrder (f : aformat) (o : order) : aformat := if isComp f then f else setOrder f o.
Definition hasMarks (s : setup) : bool := su_markSet s && negb (su_marks s =? 0).
Definition hasInst (s : setup) : bool := su_instSet s && negb (zlen (su_inst s) =? 0).
Definition hasMisc (s : setup) : bool := su_miscSet s && negb (zlen (su_misc s) =? 0).
Definition miscOutside (s : setup) (l : list Z) : bool := su_miscSet s && negb (forallb (fun m => existsb (Z.eqb (snd m)) l) (su_misc s)).
Definition rateBad (s : setup) (f : aformat) : bool := su_rateSet s && SFleb (a_rate f) (dOfZ 0).

(** WAVE.cpp:828-1027; 843-866: compressed, 867-941: linear.  Only one instrument; its loops are checked only if loopSet. *)
Definition waveSF (s : setup) (f : aformat) : outcome :=
  if isComp f then (true, if su_sfSet s then setSF f (a_sf f) (a_width f) else setSF f TwosComp 16)
  else if su_sfSet s then
    match a_sf f with
    | Float => (true, if a_width f =? 32 then f else setSF f Float 32)
    | Double => (true, if a_width f =? 64 then f else setSF f Double 64)
    | Unsigned => if badWidth f then (false, f) else (true, if 8 <? a_width f then setSF f TwosComp (a_width f) else f)
    | TwosComp => if badWidth f then (false, f) else (true, if a_width f <=? 8 then setSF f Unsigned (a_width f) else f)
    end
  else (true, AFmt (a_rate f) TwosComp 16 (a_order f) (a_pcm f) (a_chan f) (a_comp f)).
Definition waveComplete (s : setup) : outcome :=
  let '(ok, f) := waveSF s (su_fmt s) in
  refuseIf (negb ok) f (
  refuseIf (negb (inComp f [CNone; CUlaw; CAlaw; CIMA; CMSADPCM])) f (
  refuseIf (wrongOrder s f LittleEndian) f (
  let f := forceOrder f LittleEndian in
  refuseIf (su_aes s) f (
  refuseIf (su_instSet s && (1 <? zlen (su_inst s))) f (
  refuseIf (miscOutside s [201; 202; 203; 210; 211; 212]) f (true, f)))))).
(** AIFF.cpp:599-703 *)
Definition aiffComplete (aifc : bool) (s : setup) : outcome :=
  let f := su_fmt s in
  refuseIf (su_sfSet s && isSF f Unsigned) f (
  refuseIf (su_sfSet s && negb aifc && negb (isSF f TwosComp)) f (
  let f := if su_sfSet s then f else setSF f TwosComp (a_width f) in
  refuseIf (isSF f TwosComp && badWidth f) f (
  refuseIf (negb aifc && isComp f) f (
  refuseIf (negb (inComp f [CNone; CUlaw; CAlaw; CIMA])) f (
  refuseIf (wrongOrder s f BigEndian) f (
  let f := forceOrder f BigEndian in
  refuseIf (su_instSet s && (1 <? zlen (su_inst s))) f (
  refuseIf (su_instSet s && match su_inst s with (_, loops) :: _ => negb (loops =? 2) | [] => false end) f (
  refuseIf (miscOutside s [201; 202; 203; 204; 205; 206]) f (true, f))))))))).
(** NeXT.cpp:217-294 *)
Definition nextComplete (s : setup) : outcome :=
  let f := su_fmt s in
  let f := if isSF f Unsigned then setSF f TwosComp (a_width f) else f in
  refuseIf (isSF f TwosComp && negb (inWidth f [8; 16; 24; 32])) f (
  refuseIf (negb (inComp f [CNone; CUlaw; CAlaw])) f (
  refuseIf (wrongOrder s f BigEndian) f (
  let f := forceOrder f BigEndian in
  refuseIf (su_aes s || hasMarks s || hasInst s || hasMisc s) f (true, f)))).
(** IRCAM.cpp:125-214 *)
Definition ircamComplete (s : setup) : outcome :=
  let f := su_fmt s in
  refuseIf (su_sfSet s && isSF f Unsigned) f (
  refuseIf (su_sfSet s && isSF f TwosComp && negb (inWidth f [8; 16; 24; 32])) f (
  refuseIf (rateBad s f) f (
  refuseIf (su_chanSet s && negb (existsb (Z.eqb (a_chan f)) [1; 2; 4])) f (
  refuseIf (su_compSet s && negb (inComp f [CNone; CUlaw; CAlaw])) f (
  refuseIf (su_aes s || hasMarks s || hasInst s || hasMisc s) f (true, f)))))).
(** AVR.cpp:169-238 *)
Definition avrComplete (s : setup) : outcome :=
  let f := su_fmt s in
  refuseIf (negb (isIntF f)) f (
  refuseIf (negb (inWidth f [8; 16])) f (
  refuseIf (isComp f) f (
  refuseIf (negb (order_eqb (a_order f) BigEndian) && su_orderSet s) f (
  let f := setOrder f BigEndian in
  refuseIf (su_aes s || hasMarks s || hasInst s || hasMisc s) f (true, f))))).
(** IFF.cpp:245-318; the types of miscellaneous chunks are not checked *)
Definition iffComplete (s : setup) : outcome :=
  let f := su_fmt s in
  refuseIf (su_sfSet s && negb (isSF f TwosComp)) f (
  refuseIf (su_sfSet s && negb (a_width f =? 8)) f (
  refuseIf (su_chanSet s && negb (a_chan f =? 1)) f (
  refuseIf (isComp f) f (
  let f := setSF (AFmt (a_rate f) (a_sf f) (a_width f) BigEndian (a_pcm f) 1 (a_comp f)) TwosComp 8 in
  refuseIf (hasMarks s || su_aes s || hasInst s) f (true, f))))).
(** SampleVision.cpp:86-150: another byte order is overruled *)
Definition smpComplete (s : setup) : outcome :=
  let f := su_fmt s in
  refuseIf (su_sfSet s && negb (isSF f TwosComp && (a_width f =? 16))) f (
  let f := if su_sfSet s then f else setSF f TwosComp (a_width f) in
  let f := setOrder f LittleEndian in
  refuseIf (su_compSet s && isComp f) f (
  refuseIf (hasMarks s || su_aes s || hasInst s || hasMisc s) f (true, f))).
(** VOC.cpp:100-180 *)
Definition vocComplete (s : setup) : outcome :=
  let f := su_fmt s in
  refuseIf (su_sfSet s && negb (isIntF f)) f (
  refuseIf (su_sfSet s && ((isSF f TwosComp && negb (a_width f =? 16)) || (isSF f Unsigned && negb (a_width f =? 8)))) f (
  let f := if su_sfSet s then f else setSF f TwosComp (a_width f) in
  refuseIf (wrongOrder s f LittleEndian) f (
  let f := forceOrder f LittleEndian in
  refuseIf (negb (inComp f [CNone; CUlaw; CAlaw])) f (
  refuseIf (hasMarks s || su_aes s || hasInst s || hasMisc s) f (true, f))))).
(** NIST.cpp:78-159 *)
Definition nistComplete (s : setup) : outcome :=
  let f := su_fmt s in
  refuseIf (su_sfSet s && ((isSF f TwosComp && ((a_width f <? 1) || (16 <? a_width f))) || negb (isSF f TwosComp))) f (
  refuseIf (rateBad s f) f (
  refuseIf (su_compSet s && negb (inComp f [CNone; CUlaw; CAlaw])) f (
  refuseIf (su_aes s || hasMarks s || hasInst s || hasMisc s) f (true, f)))).
(** CAF.cpp:177-249 *)
Definition cafComplete (host : order) (s : setup) : outcome :=
  let f := su_fmt s in
  refuseIf (su_sfSet s && isSF f Unsigned) f (
  let f := if su_sfSet s then f else setSF f TwosComp (a_width f) in
  refuseIf (isSF f TwosComp && badWidth f) f (
  let f := if su_orderSet s then f else setOrder f host in
  refuseIf (negb (inComp f [CNone; CUlaw; CAlaw; CIMA; CALAC])) f (
  refuseIf (hasMarks s || su_aes s || hasInst s || hasMisc s) f (true, f)))).
(** Raw.cpp:137-190: nothing about the audio format is checked *)
Definition rawComplete (s : setup) : outcome :=
  let f := su_fmt s in refuseIf (su_aes s || hasMarks s || hasInst s || hasMisc s) f (true, f).
(** units.cpp:57-262: the table of completeSetup functions *)
Definition complete (host : order) (s : setup) : outcome :=
  match su_file s with
  | F_RAW => rawComplete s
  | F_AIFFC => aiffComplete true s
  | F_AIFF => aiffComplete false s
  | F_NEXT => nextComplete s
  | F_WAVE => waveComplete s
  | F_IRCAM => ircamComplete s
  | F_AVR => avrComplete s
  | F_IFF => iffComplete s
  | F_SMP => smpComplete s
  | F_VOC => vocComplete s
  | F_NIST => nistComplete s
  | F_CAF => cafComplete host s
  end.
(** What completeSetup leaves in the caller's setup. *)
Definition afterOpen (host : order) (s : setup) : setup := withFmt s (snd (complete host s)).

(** ** writeInit: true when the header is written, false when an error is reported.  Only what can fail or be undefined. *)
(** Conversion of a double to an unsigned type of [n] bits. *)
Definition rateTo (n : Z) (r : spec_float) : res Z := match truncZ r with Some z => toUnsigned n z | None => UB end.
Definition aZ (f : aformat) (rate : Z) : format :=
  (* frames per packet and bytes per packet: WAVE.cpp:1567-1608, else 0 *)
  let '(fpp, bpp) := match a_comp f with CIMA => (505, 256 * a_chan f) | CMSADPCM => (500, 256 * a_chan f) | _ => (0, 0) end in
  mkFmt rate (a_sf f) (a_width f) (a_chan f) (a_order f) (a_comp f) fpp bpp.
Definition aF (f : aformat) : formatOf spec_float := mkFmt (a_rate f) (a_sf f) (a_width f) (a_chan f) (a_order f) (a_comp f) 0 0.
(** NeXT.cpp:296-322, WAVE.cpp:1071-1195 and 1514-1535, IRCAM.cpp:350-434, AVR.cpp:240-306, IFF.cpp:320-410, SampleVision.cpp:259-290,
    VOC.cpp:360-436 (with its assertion 393-394), NIST.cpp:378-454 (assertion 385), AIFF.cpp:812-860 and CAF.cpp:251-275 (doubles are
    written as such), Raw.cpp:109-130. *)
Definition writeInit {B : Build} (ff : ffmt) (f : aformat) : res bool :=
  match ff with
  | F_RAW | F_SMP | F_CAF => Ok true
  | F_AIFF | F_AIFFC => do _ <- toExtended (a_rate f); Ok true
  | F_NEXT | F_AVR => do _ <- rateTo 32 (a_rate f); Ok true
  | F_IFF => do _ <- rateTo 16 (a_rate f); Ok true
  | F_WAVE => match truncZ (a_rate f) with None => UB | Some z => do _ <- fmtBytes (aZ f z); Ok true end
  | F_IRCAM => Ok (match packMode (aF f) with Some _ => true | None => false end)
  | F_VOC => do _ <- rassert (vocWritable (aZ f 0)); do _ <- rateTo 32 (a_rate f); Ok true
  | F_NIST => do z <- toInt 32 (a_rate f); do _ <- rassert (nistWritable (aZ f z)); Ok true
  end.

(** ** ModuleState::initFileModule *)
Definition isNaN (x : spec_float) : bool := match x with S754_nan => true | _ => false end.
(** modules/G711.cpp:63-81, IMA.cpp:339-363, MSADPCM.cpp:416-440, ALAC.cpp:337-370, PCM.cpp:40-48 (assertions) *)
Definition native16 (host : order) (f : aformat) : bool := isSF f TwosComp && (a_width f =? 16) && order_eqb (a_order f) host.
Definition formatOk {B : Build} (host : order) (f : aformat) : res bool :=
  match a_comp f with
  | CNone =>
      do _ <- rassert (negb (isNaN (Arrange.slope (a_pcm f)) || isNaN (Arrange.intercept (a_pcm f)) ||
                             isNaN (Arrange.minClip (a_pcm f)) || isNaN (Arrange.maxClip (a_pcm f))));
      Ok true
  | CUlaw | CAlaw => Ok (native16 host f)
  | CIMA | CMSADPCM => Ok (((a_chan f =? 1) || (a_chan f =? 2)) && native16 host f)
  | CALAC => Ok ((a_chan f <=? 8) && isSF f TwosComp && inWidth f [16; 20; 24; 32])
  | CFLAC => UB   (* not modelled *)
  end.
(** ALAC.cpp:363-368: a wrong byte order is corrected in the track's format *)
Definition okFormat (host : order) (f : aformat) : aformat := match a_comp f with CALAC => setOrder f host | _ => f end.
(** The codecs with parameters find none in a raw file: initcompress returns no module and leaves the number of frames per chunk
    uninitialised, and initFileModule goes on with both (ModuleState.cpp:72-95). *)
Definition initModule (ff : ffmt) (f : aformat) : res unit :=
  match ff, a_comp f with
  | F_RAW, (CIMA | CMSADPCM | CALAC | CFLAC) => UB
  | _, _ => Ok tt
  end.

(** openclose.cpp:323-398: the track's file format and virtual format *)
Definition virtualOf (host : order) (user f : aformat) : aformat :=
  AFmt (a_rate user) (a_sf user) (a_width f) host (a_pcm user) (a_chan f) CNone.
(** openclose.cpp:277-404 [_afOpenFile] for writing: [None] when it fails; otherwise the file format and the virtual format. *)
Definition openWrite {B : Build} (host : order) (s : setup) : res (option (aformat * aformat)) :=
  let '(ok, f) := complete host s in
  if negb ok then Ok None
  else
    do w <- writeInit (su_file s) f;
    if negb w then Ok None
    else
      do k <- formatOk host f;
      if negb k then Ok None
      else
        do _ <- initModule (su_file s) f;
        Ok (Some (okFormat host f, virtualOf host (su_fmt s) f)).
