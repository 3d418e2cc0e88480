(** * AIFF.cpp: AIFF and AIFF-C files

    Tags are their four bytes in file order.  [aifc]: the file format is AF_FILE_AIFFC (isAIFFC).  [host]: the
    machine's byte order.  Allocation succeeds.  Sample rates are doubles. *)
From Verif Require Import Prelude ByteOrder FileIO Writer Codecs HeaderIO Chunks Float Extended.

Definition T_FORM := [70; 79; 82; 77].
Definition T_AIFF := [65; 73; 70; 70].
Definition T_AIFC := [65; 73; 70; 67].
Definition T_FVER := [70; 86; 69; 82].
Definition T_COMM := [67; 79; 77; 77].
Definition T_MARK := [77; 65; 82; 75].
Definition T_INST := [73; 78; 83; 84].
Definition T_AESD := [65; 69; 83; 68].
Definition T_SSND := [83; 83; 78; 68].
Definition T_NAME := [78; 65; 77; 69].
Definition T_AUTH := [65; 85; 84; 72].
Definition T_COPY := [40; 99; 41; 32].
Definition T_ANNO := [65; 78; 78; 79].
Definition T_APPL := [65; 80; 80; 76].
Definition T_MIDI := [77; 73; 68; 73].
Definition T_NONE := [78; 79; 78; 69].
Definition T_twos := [116; 119; 111; 115].
Definition T_in24 := [105; 110; 50; 52].
Definition T_in32 := [105; 110; 51; 50].
Definition T_ACE2 := [65; 67; 69; 50].
Definition T_ACE8 := [65; 67; 69; 56].
Definition T_MAC3 := [77; 65; 67; 51].
Definition T_MAC6 := [77; 65; 67; 54].
Definition T_ulaw := [117; 108; 97; 119].
Definition T_ULAW := [85; 76; 65; 87].
Definition T_alaw := [97; 108; 97; 119].
Definition T_ALAW := [65; 76; 65; 87].
Definition T_fl32 := [102; 108; 51; 50].
Definition T_FL32 := [70; 76; 51; 50].
Definition T_fl64 := [102; 108; 54; 52].
Definition T_FL64 := [70; 76; 54; 52].
Definition T_sowt := [115; 111; 119; 116].
Definition T_ima4 := [105; 109; 97; 52].
(** "not compressed", "32-bit Floating Point", "64-bit Floating Point", "CCITT G.711 u-law", "CCITT G.711 A-law",
    "IMA 4:1 compression" *)
Definition N_none := [110; 111; 116; 32; 99; 111; 109; 112; 114; 101; 115; 115; 101; 100].
Definition N_fl32 := [51; 50; 45; 98; 105; 116; 32; 70; 108; 111; 97; 116; 105; 110; 103; 32; 80; 111; 105; 110; 116].
Definition N_fl64 := [54; 52; 45; 98; 105; 116; 32; 70; 108; 111; 97; 116; 105; 110; 103; 32; 80; 111; 105; 110; 116].
Definition N_ulaw := [67; 67; 73; 84; 84; 32; 71; 46; 55; 49; 49; 32; 117; 45; 108; 97; 119].
Definition N_alaw := [67; 67; 73; 84; 84; 32; 71; 46; 55; 49; 49; 32; 65; 45; 108; 97; 119].
Definition N_ima4 := [73; 77; 65; 32; 52; 58; 49; 32; 99; 111; 109; 112; 114; 101; 115; 115; 105; 111; 110].

Definition be2 := sampleBytes BigEndian 2.
Definition be4 := sampleBytes BigEndian 4.

(** ** Pascal strings *)
(** AIFF.cpp:1198-1221 [writePString]: the bytes written *)
Definition pstring (s : list Z) : list Z :=
  if 255 <? zlen s then [] else zlen s :: s ++ (if zlen s mod 2 =? 0 then [0] else []).
(** AIFF.cpp:1186-1196 [readPString]: [None] when the file ends early *)
Definition readPString : hP (option (list Z)) :=
  let! l := hread 1 in
  match l with
  | [n] => let! s := hread n in hret (if zlen s =? n then Some s else None)
  | _ => hret None
  end.

(** ** Metadata kept in the file *)
(** A marker: id, position, name.  *)
Record amarker := AMarker { am_id : Z; am_pos : Z; am_name : list Z }.
(** The numbers of an INST chunk: base note, detune, low note, high note, low velocity, high velocity, gain, and play
    mode, begin and end marker of the sustain and release loops. *)
Record ainst := AInst {
  ai_base : Z; ai_detune : Z; ai_lonote : Z; ai_hinote : Z; ai_lovel : Z; ai_hivel : Z; ai_gain : Z;
  ai_smode : Z; ai_sbegin : Z; ai_send : Z; ai_rmode : Z; ai_rbegin : Z; ai_rend : Z }.
(** [ax_misc]: type and contents of the miscellaneous chunks; contents never written by the application are zeros
    (writeMiscellaneous seeks over them in a new file). *)
Record aextra := AExtra { ax_marks : list amarker; ax_inst : ainst; ax_aes : option (list Z); ax_misc : list (Z * list Z) }.

(** ** Writing *)
(** AIFF.cpp:1087-1107 [writeFVER] *)
Definition fverBytes : list Z := T_FVER ++ be4 4 ++ be4 0xa2805140.

(** AIFF.cpp:830-877: compression tag and name.  Unsigned data and other compressions are refused by completeSetup. *)
Definition commName (f : formatOf spec_float) : list Z * list Z :=
  match f_comp f with
  | CNone => match f_sf f with TwosComp => (T_NONE, N_none) | Float => (T_fl32, N_fl32) | Double => (T_fl64, N_fl64) | Unsigned => ([0;0;0;0], []) end
  | CUlaw => (T_ulaw, N_ulaw)
  | CAlaw => (T_alaw, N_alaw)
  | CIMA => (T_ima4, N_ima4)
  | _ => ([0;0;0;0], [])
  end.
Definition extBytesOf (rate : spec_float) : list Z := match toExtended rate with Ok b => b | _ => [] end.
(** AIFF.cpp:812-921 [writeCOMM]; framesPerPacket is a size_t *)
Definition commBytes (aifc : bool) (f : formatOf spec_float) (total : Z) : list Z :=
  let '(tag, name) := commName f in
  let frames := match f_comp f with CIMA => u64 total / f_fpp f | _ => total end in
  T_COMM ++ be4 (if aifc then 22 + zlen name + 1 else 18) ++ be2 (f_chan f) ++ be4 frames ++ be2 (f_width f) ++ extBytesOf (f_rate f)
  ++ (if aifc then tag ++ pstring name else []).

(** AIFF.cpp:1035-1085 [writeMARK]: the number of markers is converted to uint16_t; the length field is written last, over
    a zero, which leaves the same bytes. *)
Definition markEntry (m : amarker) : list Z := be2 (am_id m) ++ be4 (am_pos m) ++ pstring (am_name m).
Definition markBytes (ms : list amarker) : list Z :=
  match ms with
  | [] => []
  | _ => let body := be2 (zlen ms) ++ concat (map markEntry (zfirstn (u16 (zlen ms)) ms)) in T_MARK ++ be4 (zlen body) ++ body
  end.

(** AIFF.cpp:978-1033 [writeINST] *)
Definition instBytes (i : ainst) : list Z :=
  T_INST ++ be4 20 ++
  sampleBytes BigEndian 1 (ai_base i) ++ sampleBytes BigEndian 1 (ai_detune i) ++ sampleBytes BigEndian 1 (ai_lonote i) ++ sampleBytes BigEndian 1 (ai_hinote i) ++
  sampleBytes BigEndian 1 (ai_lovel i) ++ sampleBytes BigEndian 1 (ai_hivel i) ++ be2 (ai_gain i) ++
  be2 (ai_smode i) ++ be2 (ai_sbegin i) ++ be2 (ai_send i) ++ be2 (ai_rmode i) ++ be2 (ai_rbegin i) ++ be2 (ai_rend i).

(** AIFF.cpp:927-950 [writeAESD] *)
Definition aesBytes (a : option (list Z)) : list Z := match a with None => [] | Some d => T_AESD ++ be4 24 ++ d end.

(** AIFF.cpp:1125-1139; other types are refused by completeSetup *)
Definition miscTag (type : Z) : list Z :=
  if type =? 203 then T_NAME else if type =? 202 then T_AUTH else if type =? 201 then T_COPY else if type =? 204 then T_ANNO
  else if type =? 206 then T_MIDI else if type =? 205 then T_APPL else [0;0;0;0].
(** AIFF.cpp:1109-1162 [writeMiscellaneous] *)
Definition miscBytes (ms : list (Z * list Z)) : list Z := concat (map (fun m => chunk BigEndian (miscTag (fst m)) (snd m)) ms).

(** AIFF.cpp:952-976 [writeSSND] *)
Definition ssndBytes (dsize : Z) : list Z := T_SSND ++ be4 (dsize + 8) ++ be4 0 ++ be4 0.

(** Everything after the form type: AIFF.cpp:775-784 and 799-808.  The offsets remembered from writeInit are those where
    update writes again. *)
Definition aiffBody (aifc : bool) (f : formatOf spec_float) (x : aextra) (total dsize : Z) : list Z :=
  (if aifc then fverBytes else []) ++ commBytes aifc f total ++ markBytes (ax_marks x) ++ instBytes (ax_inst x) ++ aesBytes (ax_aes x)
  ++ miscBytes (ax_misc x) ++ ssndBytes dsize.
Definition formTag (aifc : bool) : list Z := if aifc then T_AIFC else T_AIFF.
(** AIFF.cpp:758-787 [writeInit] *)
Definition aiffInit (aifc : bool) (f : formatOf spec_float) (x : aextra) : list Z := T_FORM ++ be4 0 ++ formTag aifc ++ aiffBody aifc f x 0 0.
Definition aiffFirst (aifc : bool) (f : formatOf spec_float) (x : aextra) : Z := 12 + zlen (aiffBody aifc f x 0 0).
(** AIFF.cpp:789-810 [update] *)
Definition aiffUpdate (aifc : bool) (fm : formatOf spec_float) (x : aextra) (f : file) (t : wtrack) : file :=
  let f := fwrite (fseek f 4) (be4 (flength f - 8)) in
  fwrite (fseek f 12) (aiffBody aifc fm x (w_totalf t) (w_dsize t)).

(** ** Reading *)
(** What was found so far; the contents of a miscellaneous chunk and of a name are the bytes that were there, with the size
    the file announced (the memory beyond them is not initialised). *)
Record aiffSt := AiffSt {
  as_fmt : option (formatOf spec_float); as_total : Z; as_ssnd : bool; as_first : Z; as_dsize : Z;
  as_marks : list (Z * amarker); as_inst : option ainst; as_aes : option (list Z); as_misc : list (Z * Z * list Z) }.
Definition aiffSt0 := AiffSt None 0 false 0 0 [] None None [].

Definition withFmt (s : aiffSt) (f : formatOf spec_float) (total : Z) : aiffSt :=
  AiffSt (Some f) total (as_ssnd s) (as_first s) (as_dsize s) (as_marks s) (as_inst s) (as_aes s) (as_misc s).
(** util.cpp:318-340, after AIFF.cpp:437-441: integer samples of 1 to 32 bits only *)
Definition commDone (s : aiffSt) (rate : spec_float) (sf : sampfmt) (width ch : Z) (o : order) (c : compression) (fpp bpp total : Z) : hP aiffSt :=
  match sf with
  | TwosComp | Unsigned => if (width <? 1) || (32 <? width) then hfail else hret (withFmt s (mkFmt rate sf width ch o c fpp bpp) total)
  | Float => hret (withFmt s (mkFmt rate sf 32 ch o c fpp bpp) total)
  | Double => hret (withFmt s (mkFmt rate sf 64 ch o c fpp bpp) total)
  end.
Definition commPCM (s : aiffSt) (rate : spec_float) (sf : sampfmt) (width ch : Z) (o : order) (total : Z) : hP aiffSt :=
  let! bpp := hlift (bppPCM width ch) in commDone s rate sf width ch o CNone 1 bpp total.
(** AIFF.cpp:365-435: by compression type.  [name]: what readPString returned; an unread name would be printed. *)
Definition commAIFC (host : order) (s : aiffSt) (ch frames width : Z) (rate : spec_float) (id : list Z) (name : option (list Z)) : hP aiffSt :=
  if teq id T_NONE || teq id T_twos then commPCM s rate TwosComp width ch BigEndian frames
  else if teq id T_in24 then commPCM s rate TwosComp 24 ch BigEndian frames
  else if teq id T_in32 then commPCM s rate TwosComp 32 ch BigEndian frames
  else if teq id T_ACE2 || teq id T_ACE8 || teq id T_MAC3 || teq id T_MAC6 then
    match name with Some _ => hfail | None => fun _ => UB end
  else if teq id T_ulaw || teq id T_ULAW then commDone s rate TwosComp 16 ch host CUlaw 1 ch frames
  else if teq id T_alaw || teq id T_ALAW then commDone s rate TwosComp 16 ch host CAlaw 1 ch frames
  else if teq id T_fl32 || teq id T_FL32 then commPCM s rate Float 32 ch BigEndian frames
  else if teq id T_fl64 || teq id T_FL64 then commPCM s rate Double 64 ch BigEndian frames
  else if teq id T_sowt then commPCM s rate TwosComp width ch LittleEndian frames
  else if teq id T_ima4 then commDone s rate TwosComp 16 ch host CIMA 64 (34 * ch) (frames * 64)
  else hfail.
(** AIFF.cpp:321-444 [parseCOMM] *)
Definition parseCOMM (aifc : bool) (host : order) (s : aiffSt) : hP aiffSt :=
  let! ch := readU BigEndian 2 in
  if ch =? 0 then hfail else
  let! frames := readU BigEndian 4 in
  let! width := readU BigEndian 2 in
  let! rb := hread 10 in
  let! rate := hlift (fromExtended rb) in
  if aifc then
    let! id := readTag in
    let! name := readPString in
    commAIFC host s ch frames width rate id name
  else commPCM s rate TwosComp width ch BigEndian frames.

(** AIFF.cpp:277-312: the loop of [parseMARK] *)
Fixpoint parseMarks (n : nat) : hP (list (Z * amarker)) :=
  match n with
  | O => hret []
  | S n' =>
      let! id := readU0 BigEndian 2 in
      let! pos := readU0 BigEndian 4 in
      let! sb := hread 1 in
      let sizeByte := match sb with [b] => b | _ => 0 end in
      let! name := hread sizeByte in
      let! _ := (if sizeByte mod 2 =? 0 then hskip 1 else hret tt) in
      let! ms := parseMarks n' in
      hret ((sizeByte, AMarker id pos name) :: ms)
  end.
(** AIFF.cpp:261-315 [parseMARK]; a file without markers keeps what an earlier MARK chunk gave, but no marker is counted *)
Definition parseMARK (s : aiffSt) : hP aiffSt :=
  let! n := readU BigEndian 2 in
  let! ms := parseMarks (Z.to_nat n) in
  hret (AiffSt (as_fmt s) (as_total s) (as_ssnd s) (as_first s) (as_dsize s) ms (as_inst s) (as_aes s) (as_misc s)).

(** AIFF.cpp:196-256 [parseINST] *)
Definition parseINST (s : aiffSt) : hP aiffSt :=
  let! base := readU BigEndian 1 in
  let! detune := readU BigEndian 1 in
  let! lonote := readU BigEndian 1 in
  let! hinote := readU BigEndian 1 in
  let! lovel := readU BigEndian 1 in
  let! hivel := readU BigEndian 1 in
  let! gain := readU BigEndian 2 in
  let! smode := readU BigEndian 2 in
  let! sbegin := readU BigEndian 2 in
  let! send := readU BigEndian 2 in
  let! rmode := readU BigEndian 2 in
  let! rbegin := readU BigEndian 2 in
  let! rend := readU BigEndian 2 in
  hret (AiffSt (as_fmt s) (as_total s) (as_ssnd s) (as_first s) (as_dsize s) (as_marks s)
    (Some (AInst base (s8 detune) lonote hinote lovel hivel (s16 gain) smode sbegin send rmode rbegin rend)) (as_aes s) (as_misc s)).

(** AIFF.cpp:130-152 [parseAESD]; readInit ignores its result *)
Definition parseAESD {B : Build} (s : aiffSt) (size : Z) : hP aiffSt :=
  let! _ := hassert (size =? 24) in
  let! d := hread 24 in
  hret (AiffSt (as_fmt s) (as_total s) (as_ssnd s) (as_first s) (as_dsize s) (as_marks s) (as_inst s)
    (Some (if zlen d =? 24 then d else match as_aes s with Some a => a | None => zrepeat 0 24 end)) (as_misc s)).

(** AIFF.cpp:158-190 [parseMiscellaneous] *)
Definition tagMisc (tag : list Z) : option Z :=
  if teq tag T_NAME then Some 203 else if teq tag T_AUTH then Some 202 else if teq tag T_COPY then Some 201 else if teq tag T_ANNO then Some 204
  else if teq tag T_APPL then Some 205 else if teq tag T_MIDI then Some 206 else None.
Definition parseMisc (s : aiffSt) (type size : Z) : hP aiffSt :=
  if size =? 0 then hret s else
  let! d := hread size in
  hret (AiffSt (as_fmt s) (as_total s) (as_ssnd s) (as_first s) (as_dsize s) (as_marks s) (as_inst s) (as_aes s) (as_misc s ++ [(type, size, d)])).

(** AIFF.cpp:450-465 [parseSSND]; size is a size_t *)
Definition parseSSND (s : aiffSt) (size : Z) : hP aiffSt :=
  let! offset := readU BigEndian 4 in
  let! _ := tryU BigEndian 4 in
  let! p := htell in
  hret (AiffSt (as_fmt s) (as_total s) true (p + offset) (s64 (u64 (size - 8 - offset))) (as_marks s) (as_inst s) (as_aes s) (as_misc s)).

(** AIFF.cpp:500-548 *)
Definition aiffChunk {B : Build} (aifc : bool) (host : order) (s : aiffSt) (tag : list Z) (size : Z) : hP aiffSt :=
  if teq tag T_COMM then parseCOMM aifc host s
  else if teq tag T_FVER then let! _ := tryU BigEndian 4 in hret s
  else if teq tag T_INST then parseINST s
  else if teq tag T_MARK then parseMARK s
  else if teq tag T_AESD then parseAESD s size
  else match tagMisc tag with
  | Some ty => parseMisc s ty size
  | None => if teq tag T_SSND then if as_ssnd s then hfail else parseSSND s size else hret s
  end.

(** AIFF.cpp:467-573 [readInit] *)
Definition aiffRead {B : Build} (aifc : bool) (host : order) (fuel : nat) : hP aiffSt :=
  let! _ := hseek 0 in
  let! type := hread 4 in
  let! size := readU BigEndian 4 in
  let! form := hread 4 in
  if negb (teq type T_FORM) || negb (teq form T_AIFF || teq form T_AIFC) then hfail else
  chunkLoop BigEndian u64 (aiffChunk aifc host) fuel size 4 aiffSt0.

(** AIFF.cpp:575-601 [recognizeAIFF], [recognizeAIFFC] *)
Definition aiffRecognize (aifc : bool) (f : file) : bool :=
  let '(b, f) := fread (fseek f 0) 8 in
  if negb (zlen b =? 8) || negb (teq (zfirstn 4 b) T_FORM) then false else
  let '(c, _) := fread f 4 in teq c (formTag aifc).

(** The format, data position and frame count the rest of the library then uses (openclose.cpp:375-398): without a COMM
    chunk the track's format was never initialised. *)
Definition aiffParsed (s : aiffSt) : res (parsedOf spec_float) :=
  match as_fmt s with None => UB | Some f => Ok (mkParsed f (as_first s) (as_dsize s) (as_total s)) end.
Definition aiffOpen {B : Build} (aifc : bool) (host : order) (fuel : nat) : hP (parsedOf spec_float) :=
  let! s := aiffRead aifc host fuel in hlift (aiffParsed s).
