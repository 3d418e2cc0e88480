(** * WAVE.cpp: WAVE files

    Tags are their four bytes in file order.  [host]: the machine's byte order.  Allocation succeeds unless the size asked
    for is negative.  Sample rates are whole numbers of hertz. *)
From Verif Require Import Prelude ByteOrder FileIO Writer Codecs HeaderIO Chunks VOC SampleVision.
From Verif Require MSADPCM.

Definition T_RIFF := [82; 73; 70; 70].
Definition T_WAVE := [87; 65; 86; 69].
Definition T_fmt := [102; 109; 116; 32].
Definition T_data := [100; 97; 116; 97].
Definition T_fact := [102; 97; 99; 116].
Definition T_inst := [105; 110; 115; 116].
Definition T_INST := [73; 78; 83; 84].
Definition T_cue := [99; 117; 101; 32].
Definition T_LIST := [76; 73; 83; 84].
Definition T_list := [108; 105; 115; 116].
Definition T_plst := [112; 108; 115; 116].
Definition T_adtl := [97; 100; 116; 108].
Definition T_labl := [108; 97; 98; 108].
Definition T_note := [110; 111; 116; 101].
Definition T_INFO := [73; 78; 70; 79].
Definition T_IART := [73; 65; 82; 84].
Definition T_INAM := [73; 78; 65; 77].
Definition T_ICOP := [73; 67; 79; 80].
Definition T_ICMT := [73; 67; 77; 84].
Definition T_ICRD := [73; 67; 82; 68].
Definition T_ISFT := [73; 83; 70; 84].

(** ** Metadata kept in the file *)
(** A marker: id, position, name and comment (C strings). *)
Record wmarker := WMarker { wm_id : Z; wm_pos : Z; wm_name : list Z; wm_comment : list Z }.
(** [wx_misc]: type and contents of the miscellaneous chunks; contents never written by the application are zeros
    (writeMiscellaneous seeks over them in a new file). *)
Record wextra := WExtra { wx_misc : list (Z * list Z); wx_marks : list wmarker }.

(** ** Writing *)
(** WAVE.cpp:1281-1299 [misc_type_to_wave] *)
Definition waveMiscTag (type : Z) : option (list Z) :=
  if type =? 202 then Some T_IART else if type =? 203 then Some T_INAM else if type =? 201 then Some T_ICOP
  else if type =? 210 then Some T_ICMT else if type =? 211 then Some T_ICRD else if type =? 212 then Some T_ISFT else None.
(** WAVE.cpp:1301-1391 [writeMiscellaneous] *)
Definition infoEntry (m : Z * list Z) : list Z :=
  match waveMiscTag (fst m) with None => [] | Some tag => chunk LittleEndian tag (snd m) end.
Definition infoBytes (ms : list (Z * list Z)) : list Z :=
  match ms with
  | [] => []
  | _ => let es := concat (map infoEntry ms) in T_LIST ++ le4 (4 + zlen es) ++ T_INFO ++ es
  end.

(** WAVE.cpp:1494-1512 [writeZString], [zStringLength] *)
Definition zstring (s : list Z) : list Z := s ++ [0] ++ (if (zlen s + 1) mod 2 =? 0 then [] else [0]).
(** WAVE.cpp:1393-1492 [writeCues] *)
Definition cueEntry (i : nat) (m : wmarker) : list Z := le4 (wm_id m) ++ le4 (Z.of_nat i) ++ T_data ++ le4 0 ++ le4 0 ++ le4 (wm_pos m).
Fixpoint cueEntries (i : nat) (ms : list wmarker) : list Z := match ms with [] => [] | m :: ms => cueEntry i m ++ cueEntries (S i) ms end.
Definition labelEntry (m : wmarker) : list Z :=
  T_labl ++ le4 (4 + zlen (zstring (wm_name m))) ++ le4 (wm_id m) ++ zstring (wm_name m) ++
  T_note ++ le4 (4 + zlen (zstring (wm_comment m))) ++ le4 (wm_id m) ++ zstring (wm_comment m).
Definition cueBytes (ms : list wmarker) : list Z :=
  match ms with
  | [] => []
  | _ => T_cue ++ le4 (4 + zlen ms * 24) ++ le4 (zlen ms) ++ cueEntries 0 ms ++
         T_LIST ++ le4 (4 + zlen (concat (map labelEntry ms))) ++ T_adtl ++ concat (map labelEntry ms)
  end.

(** units.cpp:271-369: the compression ratio; util.cpp:261-281 sample sizes *)
Definition squish (c : compression) : Z := match c with CUlaw | CAlaw => 2 | CIMA | CMSADPCM => 4 | _ => 1 end.
Definition sampleSize (f : format) : Z := match f_sf f with Float => 4 | Double => 8 | _ => Z.quot (f_width f + 7) 8 end.
(** Conversion of a floating point number with this integral part to an unsigned type of [n] bits. *)
Definition toUnsigned (n x : Z) : res Z := if (0 <=? x) && (x <? 2 ^ n) then Ok x else UB.
Definition isInt (f : format) : bool := match f_sf f with TwosComp | Unsigned => true | _ => false end.
(** WAVE.cpp:1084-1137: chunk size, format tag, block align, bits per sample *)
Definition fmtFields (f : format) : res (Z * Z * Z * Z) :=
  match f_comp f with
  | CNone => do fs <- ck32 (sampleSize f * f_chan f); do ba <- toUnsigned 16 fs; Ok (16, if isInt f then 1 else 3, ba, 8 * sampleSize f)
  | CUlaw => Ok (18, 0x101, f_chan f, 8)
  | CAlaw => Ok (18, 0x102, f_chan f, 8)
  | CIMA => Ok (20, 0x11, f_bpp f, 4)
  | CMSADPCM => Ok (50, 2, f_bpp f, 4)
  | _ => UB
  end.
(** WAVE.cpp:1165-1192 *)
Definition fmtTail (f : format) : list Z :=
  match f_comp f with
  | CUlaw | CAlaw => le2 0
  | CIMA => le2 2 ++ le2 (f_fpp f)
  | CMSADPCM => le2 (2 + 2 + 7 * 4) ++ le2 (f_fpp f) ++ le2 7 ++ concat (map (fun c => le2 (fst c) ++ le2 (snd c)) MSADPCM.defaultCoefficients)
  | _ => []
  end.
(** WAVE.cpp:1071-1195 [writeFormat]: sample rate and byte rate are converted from double to uint32_t; compression types
    other than these are refused by completeSetup. *)
Definition fmtBytes (f : format) : res (list Z) :=
  do (cs, tag, ba, bits) <- fmtFields f;
  do rate <- toUnsigned 32 (f_rate f);
  do fs <- ck32 (sampleSize f * f_chan f);
  do avg <- toUnsigned 32 (Z.quot (f_rate f * fs) (squish (f_comp f)));
  do avg <- match f_comp f with CIMA | CMSADPCM => toUnsigned 32 (Z.quot (f_rate f * f_bpp f) (f_fpp f)) | _ => Ok avg end;
  Ok (T_fmt ++ le4 cs ++ le2 tag ++ le2 (f_chan f) ++ le4 rate ++ le4 avg ++ le2 ba ++ le2 bits ++ fmtTail f).
(** WAVE.cpp:1197-1226 [writeFrameCount] *)
Definition hasFact (f : format) : bool := negb (compression_eqb (f_comp f) CNone && isInt f).
Definition factBytes (f : format) (total : Z) : list Z := if hasFact f then T_fact ++ le4 4 ++ le4 total else [].

(** WAVE.cpp:1228-1241 [writeData] and 1514-1535 [writeInit]; [fb]: what writeFormat wrote *)
Definition waveBody (fb : list Z) (f : format) (x : wextra) (total dsize : Z) : list Z :=
  infoBytes (wx_misc x) ++ cueBytes (wx_marks x) ++ fb ++ factBytes f total ++ T_data ++ le4 dsize.
Definition waveInit (fb : list Z) (f : format) (x : wextra) : list Z := T_RIFF ++ le4 0 ++ T_WAVE ++ waveBody fb f x 0 0.
Definition waveFirst (fb : list Z) (f : format) (x : wextra) : Z := 12 + zlen (waveBody fb f x 0 0).
(** Where update writes again: the offsets writeInit remembered. *)
Definition offMark (x : wextra) : Z := 12 + zlen (infoBytes (wx_misc x)).
Definition offFact (fb : list Z) (x : wextra) : Z := offMark x + zlen (cueBytes (wx_marks x)) + zlen fb.
Definition offSize (fb : list Z) (f : format) (x : wextra) : Z := offFact fb x + zlen (factBytes f 0) + 4.
(** WAVE.cpp:1243-1279 [update]; [x]: the extras when the file was opened, [x']: now *)
Definition waveUpdate (fb : list Z) (fm : format) (x x' : wextra) (f : file) (t : wtrack) : file :=
  let f := if hasFact fm then fwrite (fseek f (offFact fb x)) (factBytes fm (w_totalf t)) else f in
  let f := fwrite (fseek f (offSize fb fm x)) (le4 (w_dsize t)) in
  let f := fwrite (fseek f 4) (le4 (flength f - 8)) in
  let f := fwrite (fseek f 12) (infoBytes (wx_misc x')) in
  fwrite (fseek f (offMark x)) (cueBytes (wx_marks x')).

(** ** Reading *)
(** What was found so far.  Names and comments of markers are the bytes that were read into the buffer that holds them
    (which need not end in a zero); the contents of a miscellaneous chunk come with the size the file announced. *)
Record wname := WName { wn_id : Z; wn_pos : Z; wn_name : list Z; wn_comment : list Z }.
Record waveSt := WaveSt {
  wv_fmt : option format; wv_coefs : list (option Z * option Z); wv_data : bool; wv_first : Z; wv_dsize : Z; wv_fact : option Z;
  wv_marks : list wname; wv_misc : list (Z * Z * list Z) }.
Definition waveSt0 := WaveSt None [] false 0 0 None [] [].
Definition withFormat (s : waveSt) (f : format) (c : list (option Z * option Z)) : waveSt :=
  WaveSt (Some f) c (wv_data s) (wv_first s) (wv_dsize s) (wv_fact s) (wv_marks s) (wv_misc s).
Definition withMarks (s : waveSt) (m : list wname) : waveSt :=
  WaveSt (wv_fmt s) (wv_coefs s) (wv_data s) (wv_first s) (wv_dsize s) (wv_fact s) m (wv_misc s).
Definition withMisc (s : waveSt) (m : list (Z * Z * list Z)) : waveSt :=
  WaveSt (wv_fmt s) (wv_coefs s) (wv_data s) (wv_first s) (wv_dsize s) (wv_fact s) (wv_marks s) m.

Definition G_tail := [0x00; 0x00; 0x00; 0x00; 0x10; 0x00; 0x80; 0x00; 0x00; 0xaa; 0x00; 0x38; 0x9b; 0x71].
Definition G_pcm := [1; 0] ++ G_tail.
Definition G_float := [3; 0] ++ G_tail.
Definition G_ulaw := [7; 0] ++ G_tail.
Definition G_alaw := [6; 0] ++ G_tail.

(** A value that is used although the file may have ended before it. *)
Definition present (v : option Z) : hP Z := match v with Some x => hret x | None => fun _ => UB end.
(** WAVE.cpp:438-444: uncompressed formats *)
Definition fmtPCM (s : waveSt) (rate : Z) (sf : sampfmt) (width ch : Z) : hP waveSt :=
  let! bpp := hlift (bppPCM width ch) in hret (withFormat s (mkFmt rate sf width ch LittleEndian CNone 1 bpp) (wv_coefs s)).
Definition fmtInt (s : waveSt) (rate bits width ch : Z) : hP waveSt := fmtPCM s rate (if bits <=? 8 then Unsigned else TwosComp) width ch.
Definition fmtFloat (s : waveSt) (rate bits ch : Z) : hP waveSt :=
  if bits =? 64 then fmtPCM s rate Double 64 ch else fmtPCM s rate Float 32 ch.
(** WAVE.cpp:287-291 *)
Fixpoint readCoefs (n : nat) : hP (list (option Z * option Z)) :=
  match n with
  | O => hret []
  | S n => let! a := tryU LittleEndian 2 in let! b := tryU LittleEndian 2 in let! r := readCoefs n in
           hret ((option_map s16 a, option_map s16 b) :: r)
  end.
(** WAVE.cpp:264-315: an unsuitable number of channels is reported but not refused; the array of coefficients has 256 entries *)
Definition fmtMS {B : Build} (host : order) (s : waveSt) (rate ch : Z) (ba : option Z) : hP waveSt :=
  let! _ := tryU LittleEndian 2 in
  let! _ := tryU LittleEndian 2 in
  let! spb := readU LittleEndian 2 in
  let! n := readU LittleEndian 2 in
  let! _ := hassert ((7 <=? n) && (n <=? 255)) in
  if 256 <? n then fun _ => UB else
  let! coefs := readCoefs (Z.to_nat n) in
  let! ba := present ba in
  hret (withFormat s (mkFmt rate TwosComp 16 ch host CMSADPCM spb ba) coefs).
(** WAVE.cpp:317-348: neither a number of bits other than 4 nor an inconsistent block size is refused *)
Definition fmtIMA (host : order) (s : waveSt) (rate ch : Z) (ba : option Z) : hP waveSt :=
  let! _ := readU LittleEndian 2 in
  let! _ := tryU LittleEndian 2 in
  let! spb := readU LittleEndian 2 in
  let! _ := hlift (ck32 ((spb + 14) / 8 * 4 * ch)) in
  let! ba := present ba in
  hret (withFormat s (mkFmt rate TwosComp 16 ch host CIMA spb ba) (wv_coefs s)).
(** WAVE.cpp:350-413 *)
Definition fmtExt (host : order) (s : waveSt) (rate ch : Z) : hP waveSt :=
  let! bits := tryU LittleEndian 2 in
  let! _ := tryU LittleEndian 2 in
  let! valid := tryU LittleEndian 2 in
  let! _ := tryU LittleEndian 4 in
  let! g := hread 16 in
  if negb (zlen g =? 16) then fun _ => UB else
  if teq g G_pcm then
    let! bits := present bits in
    if (bits =? 0) || (32 <? bits) then hfail else
    let! valid := present valid in
    fmtInt s rate bits (if (valid <=? bits) && ((valid + 7) / 8 =? (bits + 7) / 8) then valid else bits) ch
  else if teq g G_float then let! bits := present bits in fmtFloat s rate bits ch
  else if teq g G_alaw then hret (withFormat s (mkFmt rate TwosComp 16 ch host CAlaw 1 ch) (wv_coefs s))
  else if teq g G_ulaw then hret (withFormat s (mkFmt rate TwosComp 16 ch host CUlaw 1 ch) (wv_coefs s))
  else hfail.
(** WAVE.cpp:175-445 [parseFormat] *)
Definition parseFormat {B : Build} (host : order) (s : waveSt) : hP waveSt :=
  let! tag := readU LittleEndian 2 in
  let! ch := readU LittleEndian 2 in
  let! rate := tryU LittleEndian 4 in
  let! _ := tryU LittleEndian 4 in
  let! ba := tryU LittleEndian 2 in
  if ch =? 0 then hfail else
  let! rate := present rate in
  if tag =? 1 then
    let! bits := readU LittleEndian 2 in
    if (bits =? 0) || (32 <? bits) then hfail else fmtInt s rate bits bits ch
  else if (tag =? 7) || (tag =? 0x101) then hret (withFormat s (mkFmt rate TwosComp 16 ch host CUlaw 1 ch) (wv_coefs s))
  else if (tag =? 6) || (tag =? 0x102) then hret (withFormat s (mkFmt rate TwosComp 16 ch host CAlaw 1 ch) (wv_coefs s))
  else if tag =? 3 then let! bits := readU LittleEndian 2 in fmtFloat s rate bits ch
  else if tag =? 2 then fmtMS host s rate ch ba
  else if tag =? 0x11 then fmtIMA host s rate ch ba
  else if tag =? 0xfffe then fmtExt host s rate ch
  else hfail.

(** WAVE.cpp:163-173 [parseFrameCount] *)
Definition parseFact (s : waveSt) : hP waveSt :=
  let! n := readU LittleEndian 4 in
  hret (WaveSt (wv_fmt s) (wv_coefs s) (wv_data s) (wv_first s) (wv_dsize s) (Some n) (wv_marks s) (wv_misc s)).
(** WAVE.cpp:447-455 [parseData] *)
Definition parseData (s : waveSt) (size : Z) : hP waveSt :=
  let! p := htell in
  hret (WaveSt (wv_fmt s) (wv_coefs s) true p size (wv_fact s) (wv_marks s) (wv_misc s)).
(** WAVE.cpp:457-479 [parsePlayList]: nothing of it is kept; the position after it does not matter *)
Definition parsePlayList (s : waveSt) : hP waveSt := let! _ := readU LittleEndian 4 in hret s.

(** WAVE.cpp:498-522: the loop of [parseCues] *)
Fixpoint parseCueEntries (n : nat) : hP (list wname) :=
  match n with
  | O => hret []
  | S n =>
      let! id := readU LittleEndian 4 in
      let! _ := tryU LittleEndian 4 in
      let! _ := tryU LittleEndian 4 in
      let! _ := tryU LittleEndian 4 in
      let! _ := tryU LittleEndian 4 in
      let! pos := readU LittleEndian 4 in
      let! r := parseCueEntries n in
      hret (WName (s32 id) pos [0] [0] :: r)
  end.
(** WAVE.cpp:481-525 [parseCues]; Marker.cpp:250-257: the count is converted to int and then to size_t *)
Definition parseCues (s : waveSt) : hP waveSt :=
  let! n := readU LittleEndian 4 in
  if 2 ^ 31 <=? n then hfail else
  let! ms := parseCueEntries (Z.to_nat n) in
  hret (withMarks s ms).

(** Track.cpp:133-143 [getMarker] and WAVE.cpp:551-564: the first marker with the id gets the buffer *)
Fixpoint setBuffer (label : bool) (id : Z) (buf : list Z) (ms : list wname) : list wname :=
  match ms with
  | [] => []
  | m :: ms => if wn_id m =? id then (if label then WName (wn_id m) (wn_pos m) buf (wn_comment m) else WName (wn_id m) (wn_pos m) (wn_name m) buf) :: ms
               else m :: setBuffer label id buf ms
  end.
(** WAVE.cpp:527-585 [parseADTLSubChunk] *)
Fixpoint adtlLoop (fuel : nat) (endPos : Z) (s : waveSt) : hP waveSt :=
  let! p := htell in
  if negb (p <? endPos) then hret s else
  match fuel with
  | O => fun _ => OutOfFuel
  | S fuel =>
      let! tag := readTag in
      let! size := readU LittleEndian 4 in
      if teq tag T_labl || teq tag T_note then
        let! id := readU LittleEndian 4 in
        let! buf := hread (u32 (size - 4)) in
        let! _ := (if size mod 2 =? 0 then hret tt else hskip 1) in
        adtlLoop fuel endPos (withMarks s (setBuffer (teq tag T_labl) (s32 id) buf (wv_marks s)))
      else
        let! _ := hskip (u32 (size + size mod 2)) in
        adtlLoop fuel endPos s
  end.
(** WAVE.cpp:600-611 *)
Definition waveMiscType (tag : list Z) : option Z :=
  if teq tag T_IART then Some 202 else if teq tag T_INAM then Some 203 else if teq tag T_ICOP then Some 201
  else if teq tag T_ICMT then Some 210 else if teq tag T_ICRD then Some 211 else if teq tag T_ISFT then Some 212 else None.
(** WAVE.cpp:587-638 [parseINFOSubChunk] *)
Fixpoint infoLoop (fuel : nat) (endPos : Z) (s : waveSt) : hP waveSt :=
  let! p := htell in
  if negb (p <? endPos) then hret s else
  match fuel with
  | O => fun _ => OutOfFuel
  | S fuel =>
      let! tag := readTag in
      let! size := readU LittleEndian 4 in
      let! s := match waveMiscType tag with
                | Some ty => let! d := hread size in hret (withMisc s (wv_misc s ++ [(ty, size, d)]))
                | None => let! _ := hskip size in hret s
                end in
      let! _ := (if size mod 2 =? 0 then hret tt else hskip 1) in
      infoLoop fuel endPos s
  end.
(** WAVE.cpp:640-663 [parseList].  The loops read at least eight bytes each time round or end: no more rounds than the file
    has bytes ([C38_wave_terminates_partial]). *)
Definition parseList (s : waveSt) (size : Z) : hP waveSt :=
  let! tag := readTag in
  let! p := htell in
  let! len := hlength in
  if teq tag T_adtl then adtlLoop (S (Z.to_nat len)) (p + u32 (size - 4)) s
  else if teq tag T_INFO then infoLoop (S (Z.to_nat len)) (p + u32 (size - 4)) s
  else hret s.

(** WAVE.cpp:725-788; instrument chunks are read and dropped (665-682) *)
Definition waveChunk {B : Build} (host : order) (s : waveSt) (tag : list Z) (size : Z) : hP waveSt :=
  if teq tag T_fmt then parseFormat host s
  else if teq tag T_data then match wv_fmt s with None => hfail | Some _ => parseData s size end
  else if teq tag T_inst then hret s
  else if teq tag T_fact then parseFact s
  else if teq tag T_cue then parseCues s
  else if teq tag T_LIST || teq tag T_list then parseList s size
  else if teq tag T_INST then hret s
  else if teq tag T_plst then parsePlayList s
  else hret s.

(** WAVE.cpp:698-826 [readInit] *)
Definition waveRead {B : Build} (host : order) (fuel : nat) : hP waveSt :=
  let! _ := hseek 0 in
  let! type := readTag in
  let! size := tryU LittleEndian 4 in
  let! form := readTag in
  let! _ := hassert (teq type T_RIFF) in
  let! _ := hassert (teq form T_WAVE) in
  let! size := present size in
  chunkLoop LittleEndian u32 (waveChunk host) fuel size 4 waveSt0.
(** WAVE.cpp:802-825 *)
Definition waveParsed (s : waveSt) : option parsed :=
  match wv_fmt s with
  | None => None
  | Some f =>
      if negb (wv_data s) then None else
      match wv_fact s with
      | Some n => Some (mkParsed f (wv_first s) (wv_dsize s) n)
      | None => if negb (f_bpp f =? 0) && negb (f_fpp f =? 0) then Some (mkParsed f (wv_first s) (wv_dsize s) (computeTotal 0 (wv_dsize s) f)) else None
      end
  end.
Definition waveOpen {B : Build} (host : order) (fuel : nat) : hP (parsed * waveSt) :=
  let! s := waveRead host fuel in match waveParsed s with None => hfail | Some p => hret (p, s) end.

(** Marker.cpp [afGetMarkName], [afGetMarkComment] on what was read: a C string; without a terminating zero the bytes after
    the buffer are used. *)
Definition markText (buf : list Z) : res (list Z) := if existsb (Z.eqb 0) buf then Ok (cstr buf) else UB.

(** WAVE.cpp:684-696 [recognize] *)
Definition waveRecognize (f : file) : bool :=
  let '(b, f) := fread (fseek f 0) 8 in
  if negb (zlen b =? 8) || negb (teq (zfirstn 4 b) T_RIFF) then false else
  let '(c, _) := fread f 4 in (zlen c =? 4) && teq c T_WAVE.
