(** * NeXT.cpp: .snd / .au headers *)
From Verif Require Import Prelude ByteOrder FileIO Writer Codecs HeaderIO.

Definition snd_magic : list Z := [46; 115; 110; 100].   (* ".snd" *)

(** NeXT.cpp:324-353 [nextencodingtype] with the constants of 66-97 *)
Definition nextEncoding (f : format) : Z :=
  match f_comp f with
  | CUlaw => 1
  | CAlaw => 27
  | CNone =>
      match f_sf f with
      | TwosComp => if f_width f =? 8 then 2 else if f_width f =? 16 then 3 else if f_width f =? 24 then 4 else if f_width f =? 32 then 5 else 0
      | Float => 6
      | Double => 7
      | Unsigned => 0
      end
  | _ => 0
  end.

(** NeXT.cpp:302-322 [writeHeader]: everything is converted to uint32_t.  The conversion of the double
    sample rate is defined below 2^32 only. *)
Definition nextHeader (f : format) (offset length : Z) : list Z :=
  snd_magic ++ sampleBytes BigEndian 4 offset ++ sampleBytes BigEndian 4 length ++ sampleBytes BigEndian 4 (nextEncoding f) ++
  sampleBytes BigEndian 4 (f_rate f) ++ sampleBytes BigEndian 4 (f_chan f).

(** NeXT.cpp:296-300 [update] *)
Definition nextUpdate (fm : format) (f : file) (t : wtrack) : file :=
  fwrite (fseek f 0) (nextHeader fm (w_first t) (w_dsize t)).

(** NeXT.cpp:355-367 [writeInit]: the header is written before the data offset is known. *)
Definition nextInit (fm : format) : list Z := nextHeader fm 0 0.
Definition nextFirst : Z := 28.

(** NeXT.cpp:106-207 [readInit] *)
Definition nextRead {B : Build} (host : order) : hP parsed :=
  let! _ := hseek 0 in
  let! id := hread 4 in
  let! _ := hassert (if list_eq_dec Z.eq_dec id snd_magic then true else false) in
  let! offset := readU BigEndian 4 in
  let! len := readU BigEndian 4 in
  let! encoding := readU BigEndian 4 in
  let! rate := readU BigEndian 4 in
  let! chan := readU BigEndian 4 in
  if chan =? 0 then hfail else
  let! fileLen := hlength in
  let available := fileLen - offset in
  let size := if (len =? 0xffffffff) || (available <? len) then u32 available else len in
  let ch := s32 chan in
  let pcm sf width :=
    let! bpp := hlift (bppPCM width ch) in
    let fm := mkFmt rate sf width ch BigEndian CNone 1 bpp in
    hret (mkParsed fm offset size (computeTotal 0 size fm)) in
  let g711 c :=
    let fm := mkFmt rate TwosComp 16 ch host c 1 (u64 ch) in
    hret (mkParsed fm offset size (computeTotal 0 size fm)) in
  if encoding =? 1 then g711 CUlaw
  else if encoding =? 27 then g711 CAlaw
  else if encoding =? 2 then pcm TwosComp 8
  else if encoding =? 3 then pcm TwosComp 16
  else if encoding =? 4 then pcm TwosComp 24
  else if encoding =? 5 then pcm TwosComp 32
  else if encoding =? 6 then pcm Float 32
  else if encoding =? 7 then pcm Double 64
  else hfail.

(** NeXT.cpp:209-219 [recognize] *)
Definition nextRecognize (f : file) : bool :=
  let '(b, _) := fread (fseek f 0) 4 in if list_eq_dec Z.eq_dec b snd_magic then true else false.
