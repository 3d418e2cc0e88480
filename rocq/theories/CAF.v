(** * CAF.cpp: Core Audio Format files, big-endian headers.  Sample rates are doubles. *)
From Verif Require Import Prelude ByteOrder FileIO Writer Codecs HeaderIO Chunks Float FloatBits PacketTable.

Notation cfmt := (formatOf spec_float).
Definition be8 := sampleBytes BigEndian 8.
Definition beU := sampleBytes BigEndian 4.

(** CAF.cpp tags *)
Definition T_caff : list Z := [99;97;102;102].
Definition T_desc : list Z := [100;101;115;99].
Definition T_data : list Z := [100;97;116;97].
Definition T_pakt : list Z := [112;97;107;116].
Definition T_kuki : list Z := [107;117;107;105].
Definition T_lpcm : list Z := [108;112;99;109].
Definition T_ulaw : list Z := [117;108;97;119].
Definition T_alaw : list Z := [97;108;97;119].
Definition T_ima4 : list Z := [105;109;97;52].
Definition T_alac : list Z := [97;108;97;99].

(** ** Writing *)
(** CAF.cpp:152-158: tag, version and flags *)
Definition cafMagic : list Z := T_caff ++ [0; 1; 0; 0].
(** CAF.cpp:524-572: format identifier, flags, bytes per packet, frames per packet, bits per channel; [f_bpp] is what
    bytesPerFrame(false) gives for PCM and the packet size for IMA and ALAC. *)
Definition cafFields (f : cfmt) : list Z * Z * Z * Z * Z :=
  match f_comp f with
  | CUlaw => (T_ulaw, 0, f_chan f, 1, 8)
  | CAlaw => (T_alaw, 0, f_chan f, 1, 8)
  | CIMA => (T_ima4, 0, f_bpp f, f_fpp f, 16)
  | CALAC => (T_alac, if f_width f =? 16 then 1 else if f_width f =? 20 then 2 else if f_width f =? 24 then 3 else if f_width f =? 32 then 4
                      else (match f_order f with LittleEndian => 2 | BigEndian => 0 end) + (match f_sf f with Float | Double => 1 | _ => 0 end),
              f_bpp f, f_fpp f, f_width f)
  | _ => (T_lpcm, (match f_order f with LittleEndian => 2 | BigEndian => 0 end) + (match f_sf f with Float | Double => 1 | _ => 0 end),
          f_bpp f, 1, f_width f)
  end.
(** CAF.cpp:515-585 [writeDescription] *)
Definition cafDesc (f : cfmt) : list Z :=
  let '(id, flags, bpp, fpp, bits) := cafFields f in
  T_desc ++ be8 32 ++ be8 (bits64 (f_rate f)) ++ id ++ beU flags ++ beU bpp ++ beU fpp ++ beU (f_chan f) ++ beU bits.
(** CAF.cpp:587-610 [writeData] *)
Definition cafData (length : Z) : list Z := T_data ++ be8 length ++ beU 0.
Definition cafFirst : Z := 68.
(** CAF.cpp:154-178 [writeInit], no cookie data (for ALAC, which has it, see ALACModule) *)
Definition cafPre (f : cfmt) : list Z := cafMagic ++ cafDesc f.
Definition cafInit (f : cfmt) : list Z := cafPre f ++ cafData (-1).
(** CAF.cpp:251-260 [update] with neither cookie data nor packet table: the data chunk's header is rewritten where it was
    (52), then [writePacketTable] seeks to the end of the data. *)
Definition cafUpdate (f : file) (t : wtrack) : file := fseek (fwrite (fseek f 52) (cafData (w_dsize t + 4))) (w_after t).

(** CAF.cpp:87-98 [recognize] *)
Definition cafRecognize (f : file) : bool :=
  let '(b, _) := fread (fseek f 0) 8 in
  (zlen b =? 8) && teq (zfirstn 4 b) T_caff && teq (zskipn 4 b) [0; 1; 0; 0].

(** ** Reading *)
(** A signed 64-bit addition. *)
Definition ck64 (x : Z) : res Z := if inS 64 x then Ok x else UB.
(** FileHandle.cpp:473-482 [readTag] with its result checked *)
Definition needTag : hP (list Z) := fun f =>
  let '(d, f) := fread f 4 in if zlen d =? 4 then Ok (Some (d, f)) else Ok None.
(** File.cpp:152-164: lseek(2) refuses a negative offset and leaves the position alone *)
Definition lseek (off : Z) : hP Z := fun f => if off <? 0 then Ok (Some (-1, f)) else Ok (Some (off, fseek f off)).

Record cafSt := CafSt { cs_fmt : option cfmt; cs_first : Z; cs_dsize : Z; cs_total : Z; cs_pt : option ptable; cs_cookie : option (list Z) }.
Definition cafSt0 := CafSt None 0 0 0 None None.
Definition cafSetFmt (s : cafSt) (f : cfmt) : cafSt := CafSt (Some f) (cs_first s) (cs_dsize s) (cs_total s) (cs_pt s) (cs_cookie s).

(** CAF.cpp:291-372: the description, with the values of its fields.  channelCount, sampleWidth: unsigned fields stored in int. *)
Definition cafDescTail (host : order) (s : cafSt) (rate : spec_float) (id : list Z) (flags bpp fpp chan bits : Z) : hP cafSt :=
  if chan =? 0 then hfail else
  let ch := s32 chan in
  if teq id T_lpcm then
    let o := if Z.testbit flags 1 then LittleEndian else BigEndian in
    if Z.testbit flags 0 then
      if negb (bits =? 32) && negb (bits =? 64) then hfail else
      let sf := if bits =? 32 then Float else Double in
      let! b := hlift (bppPCM bits ch) in
      hret (cafSetFmt s (mkFmt rate sf bits ch o CNone 1 b))
    else
      let w := s32 bits in
      if (w <? 1) || (32 <? w) then hfail else
      let! b := hlift (bppPCM w ch) in
      hret (cafSetFmt s (mkFmt rate TwosComp w ch o CNone 1 b))
  else if teq id T_ulaw then hret (cafSetFmt s (mkFmt rate TwosComp 16 ch host CUlaw 1 chan))
  else if teq id T_alaw then hret (cafSetFmt s (mkFmt rate TwosComp 16 ch host CAlaw 1 chan))
  else if teq id T_ima4 then
    let! b := hlift (ck32 (34 * ch)) in
    hret (cafSetFmt s (mkFmt rate TwosComp 16 ch host CIMA 64 (u64 b)))
  else if teq id T_alac then
    if flags =? 1 then hret (cafSetFmt s (mkFmt rate TwosComp 16 ch host CALAC fpp 0))
    else if flags =? 2 then hret (cafSetFmt s (mkFmt rate TwosComp 20 ch host CALAC fpp 0))
    else if flags =? 3 then hret (cafSetFmt s (mkFmt rate TwosComp 24 ch host CALAC fpp 0))
    else if flags =? 4 then hret (cafSetFmt s (mkFmt rate TwosComp 32 ch host CALAC fpp 0))
    else hfail
  else hfail.
(** CAF.cpp:262-373 [parseDescription] *)
Definition cafParseDesc (host : order) (s : cafSt) : hP cafSt :=
  let! rate := needU BigEndian 8 in
  let! id := needTag in
  let! flags := needU BigEndian 4 in
  let! bpp := needU BigEndian 4 in
  let! fpp := needU BigEndian 4 in
  let! chan := needU BigEndian 4 in
  let! bits := needU BigEndian 4 in
  cafDescTail host s (of64 rate) id flags bpp fpp chan bits.
(** CAF.cpp:375-390 [parseData]: without a description before it, the packet sizes are uninitialised *)
Definition cafParseData (s : cafSt) (length : Z) : hP cafSt :=
  let! _ := needU BigEndian 4 in
  let! p := htell in
  let! len := hlength in
  let! dsize := hlift (if length =? -1 then Ok (len - p) else ck64 (length - 4)) in
  match cs_fmt s with
  | None => fun _ => UB
  | Some fm => hret (CafSt (Some fm) p dsize (computeTotal (cs_total s) dsize fm) (cs_pt s) (cs_cookie s))
  end.
(** CAF.cpp:447-495 [parsePacketTable] *)
Definition cafParsePakt {B : Build} (s : cafSt) (length : Z) : hP cafSt :=
  let! t := paktParse length in
  match t with
  | None => hret s
  | Some t => hret (CafSt (cs_fmt s) (cs_first s) (cs_dsize s) (pt_valid t) (Some t) (cs_cookie s))
  end.
(** CAF.cpp:497-513 [parseCookieData]: operator new of a negative (so, as size_t, enormous) length throws an exception that
    nothing catches.  Simplification: other allocations succeed. *)
Definition cafParseCookie (s : cafSt) (length : Z) : hP cafSt :=
  if length <? 0 then fun _ => Abort else
  let! d := hread length in
  if negb (zlen d =? length) then hfail else
  hret (CafSt (cs_fmt s) (cs_first s) (cs_dsize s) (cs_total s) (cs_pt s) (Some d)).
(** CAF.cpp:126-148: one chunk *)
Definition cafChunk {B : Build} (host : order) (s : cafSt) (tag : list Z) (length : Z) : hP cafSt :=
  if teq tag T_desc then cafParseDesc host s
  else if teq tag T_data then cafParseData s length
  else if teq tag T_pakt then cafParsePakt s length
  else if teq tag T_kuki then cafParseCookie s length
  else hret s.
(** CAF.cpp:110-152: the loop over the chunks; the chunk length is signed and not checked *)
Definition cafLength (len cur : Z) (tag : list Z) (length : Z) : Z := if teq tag T_data && (length =? -1) then len - cur else length.
Fixpoint cafLoop {B : Build} (host : order) (fuel : nat) (len cur : Z) (s : cafSt) : hP cafSt :=
  if negb (cur <? len) then hret s else
  match fuel with
  | O => fun _ => OutOfFuel
  | S fuel =>
      let! tag := needTag in
      let! l := needU BigEndian 8 in
      let length := cafLength len (cur + 12) tag (s64 l) in
      let! s := cafChunk host s tag length in
      let! target := hlift (ck64 (cur + 12 + length)) in
      let! cur := lseek target in
      cafLoop host fuel len cur s
  end.
(** CAF.cpp:100-152 [readInit] *)
Definition cafRead {B : Build} (host : order) (fuel : nat) : hP cafSt :=
  let! _ := hseek 8 in
  let! cur := htell in
  let! len := hlength in
  cafLoop host fuel len cur cafSt0.
(** What afOpenFile (openclose.cpp:375-398) uses: without a description the format was never initialised. *)
Definition cafParsed (s : cafSt) : res (parsedOf spec_float) :=
  match cs_fmt s with None => UB | Some f => Ok (mkParsed f (cs_first s) (cs_dsize s) (cs_total s)) end.
Definition cafOpen {B : Build} (host : order) (fuel : nat) : hP (parsedOf spec_float) :=
  let! s := cafRead host fuel in hlift (cafParsed s).
