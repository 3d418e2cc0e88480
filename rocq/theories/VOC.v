(** * VOC.cpp: Creative Voice files, little-endian.  Sample rates are whole numbers of hertz. *)
From Verif Require Import Prelude ByteOrder FileIO Writer Codecs HeaderIO Chunks.

(** VOC.cpp:39-40: "Creative Voice File\x1a" *)
Definition vocMagic : list Z := [67;114;101;97;116;105;118;101;32;86;111;105;99;101;32;70;105;108;101;26].
Definition le2 := sampleBytes LittleEndian 2.
Definition le4 := sampleBytes LittleEndian 4.

(** ** Writing *)
(** VOC.cpp:365-371; the checksum is an int converted to uint16_t *)
Definition vocPre : list Z := vocMagic ++ le2 0x1a ++ le2 0x114 ++ le2 (0x1234 + (-1 - 0x114)).
(** VOC.cpp:402-420 *)
Definition vocFormat (f : format) : Z :=
  match f_comp f with CUlaw => 7 | CAlaw => 6 | _ => match f_sf f with Unsigned => 0 | _ => 4 end end.
Definition vocBits (f : format) : Z := match f_comp f with CUlaw | CAlaw => 8 | _ => f_width f end.
(** VOC.cpp:385-436 [writeSoundData]: the block size is shifted left by 8 in uint32_t, the type in the low byte.  The assertion on the format
    (393-394) is [vocWritable]. *)
Definition vocSound (f : format) (dsize : Z) : list Z :=
  le4 ((12 + dsize) * 256 + 9) ++ le4 (f_rate f) ++ sampleBytes LittleEndian 1 (vocBits f) ++ sampleBytes LittleEndian 1 (f_chan f) ++ le2 (vocFormat f) ++ le4 0.
Definition vocWritable (f : format) : bool :=
  match f_sf f with TwosComp => f_width f =? 16 | Unsigned => f_width f =? 8 | _ => false end.
Definition vocFirst : Z := 42.
(** VOC.cpp:360-376 [writeInit] *)
Definition vocInit (f : format) : list Z := vocPre ++ vocSound f 0.
(** VOC.cpp:378-383 [update], 438-446 [writeTerminator] *)
Definition vocUpdate (fm : format) (f : file) (t : wtrack) : file :=
  let f := fwrite (fseek f 26) (vocSound fm (w_dsize t)) in
  fwrite (fseek f (w_first t + w_dsize t)) [0].

(** VOC.cpp:89-98 [recognize] *)
Definition vocRecognize (f : file) : bool :=
  let '(b, _) := fread (fseek f 0) 20 in (zlen b =? 20) && teq b vocMagic.

(** ** Reading *)
(** The track while reading: [vs_ext] what an extended information block said (channels, rate). *)
Record vocSt := VocSt { vs_fmt : option format; vs_ext : option (Z * Z); vs_first : Z; vs_dsize : Z; vs_total : Z }.
Definition vocSt0 := VocSt None None 0 0 0.
Definition vocFound (s : vocSt) : bool := match vs_fmt s with Some _ => true | None => false end.

(** VOC.cpp:207-259: sound data, old style *)
Definition vocOld (s : vocSt) : hP vocSt :=
  if vocFound s then hfail else
  let! divisor := readU LittleEndian 1 in
  let! codec := readU LittleEndian 1 in
  let '(ch, rate) := match vs_ext s with Some e => e | None => (1, Z.quot 1000000 (256 - divisor)) end in
  if negb (codec =? 0) then hfail else
  let! bpp := hlift (bppPCM 8 ch) in
  let! p := htell in
  let! len := hlength in
  let fm := mkFmt rate Unsigned 8 ch LittleEndian CNone 1 bpp in
  hret (VocSt (Some fm) (vs_ext s) p (len - 1 - p) (computeTotal (vs_total s) (len - 1 - p) fm)).
(** VOC.cpp:260-282: extended information; the quotient is unsigned *)
Definition vocExt (s : vocSt) : hP vocSt :=
  if vocFound s then hfail else
  let! divisor := readU LittleEndian 2 in
  let! _ := readU LittleEndian 1 in
  let! stereo := readU LittleEndian 1 in
  let ch := if stereo =? 0 then 1 else 2 in
  hret (VocSt (vs_fmt s) (Some (ch, (256000000 / ch) / (65536 - divisor))) (vs_first s) (vs_dsize s) (vs_total s)).
(** VOC.cpp:301-347: the end of the new sound data block, with the field values *)
Definition vocNewTail (host : order) (s : vocSt) (size rate ch code : Z) : hP vocSt :=
  if ch =? 0 then hfail else
  let! p := htell in
  let dsize := u32 (size - 12) in
  let pcm sf w := (let! bpp := hlift (bppPCM w ch) in hret (mkFmt rate sf w ch LittleEndian CNone 1 bpp)) in
  let! fm :=
    (if code =? 0 then pcm Unsigned 8
     else if code =? 4 then pcm TwosComp 16
     else if code =? 6 then hret (mkFmt rate TwosComp 16 ch host CAlaw 1 ch)
     else if code =? 7 then hret (mkFmt rate TwosComp 16 ch host CUlaw 1 ch)
     else hfail) in
  hret (VocSt (Some fm) (vs_ext s) p dsize (computeTotal (vs_total s) dsize fm)).
(** VOC.cpp:283-347: sound data, new style *)
Definition vocNew (host : order) (s : vocSt) (size : Z) : hP vocSt :=
  if vocFound s then hfail else
  let! rate := readU LittleEndian 4 in
  let! _ := tryU LittleEndian 1 in
  let! ch := readU LittleEndian 1 in
  let! code := readU LittleEndian 2 in
  let! _ := tryU LittleEndian 4 in
  vocNewTail host s size rate ch code.
Definition vocBlock (host : order) (s : vocSt) (type size : Z) : hP vocSt :=
  if type =? 1 then vocOld s else if type =? 8 then vocExt s else if type =? 9 then vocNew host s size else hret s.
(** VOC.cpp:196-353 *)
Fixpoint vocLoop (host : order) (fuel : nat) (len pos : Z) (s : vocSt) : hP vocSt :=
  if negb (pos <? len) then hret s else
  match fuel with
  | O => fun _ => OutOfFuel
  | S fuel =>
      let! h := tryU LittleEndian 4 in
      match h with
      | None => hret s
      | Some h =>
          let! s := vocBlock host s (h mod 256) (h / 256) in
          let pos := pos + (4 + h / 256) in
          let! _ := hseek pos in
          vocLoop host fuel len pos s
      end
  end.
(** VOC.cpp:182-356 [readInit] *)
Definition vocRead (host : order) (fuel : nat) : hP vocSt :=
  let! _ := hseek 20 in
  let! _ := tryU LittleEndian 2 in
  let! _ := tryU LittleEndian 2 in
  let! _ := tryU LittleEndian 2 in
  let! pos := htell in
  let! len := hlength in
  vocLoop host fuel len pos vocSt0.
(** What the rest of the library uses: without sound data the format was never initialised. *)
Definition vocOpen (host : order) (fuel : nat) : hP parsed :=
  let! s := vocRead host fuel in
  hlift (match vs_fmt s with None => UB | Some f => Ok (mkParsed f (vs_first s) (vs_dsize s) (vs_total s)) end).
