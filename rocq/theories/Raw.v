(** * Raw.cpp: files without a header, described by the caller's setup *)
From Verif Require Import Prelude ByteOrder FileIO Writer Codecs HeaderIO Float.

(** units.cpp:271-368: the factor by which a compression makes samples smaller *)
Definition squishFactor (c : compression) : spec_float :=
  match c with CNone | CFLAC | CALAC => fOfZ 1 | CUlaw | CAlaw => fOfZ 2 | CIMA | CMSADPCM => fOfZ 4 end.
(** util.cpp:263-284 [_af_format_sample_size_uncompressed], not stretched *)
Definition sampleSize {R} (fm : formatOf R) : Z :=
  match f_sf fm with Float => 4 | Double => 8 | _ => Z.quot (f_width fm + 7) 8 end.
(** util.cpp:295-308 [_af_format_frame_size], converted to int as in Raw.cpp:102: the product is an int, the quotient a float *)
Definition rawFrameSize {R} (fm : formatOf R) : res Z :=
  do n <- ck32 (sampleSize fm * f_chan fm);
  toInt 32 (SFdiv 24 128 (fOfZ n) (squishFactor (f_comp fm))).

(** Raw.cpp:62-107 [readInit].  [offset], [count]: what afInitDataOffset and afInitFrameCount set (Setup.cpp:385-426); the
    format [fm] is the setup's (FileHandle.cpp:234-260).  The file is seekable: its length is known. *)
Definition rawRead {R} (fm : formatOf R) (offset count : option Z) : hP (parsedOf R) :=
  let first := match offset with Some o => o | None => 0 end in
  match count with
  | Some n => hret (mkParsed fm first 0 n)
  | None =>
      let! size := hlength in
      if size <? first then hfail
      else
        let! frame := hlift (rawFrameSize fm) in
        if frame =? 0 then fun _ => UB   (* division by zero *)
        else hret (mkParsed fm first (size - first) (Z.quot (size - first) frame))
  end.

(** Raw.cpp:109-128 [writeInit] and 130-133 [update]: no header, the audio data starts at the offset *)
Definition rawInit : list Z := [].
Definition rawFirst (offset : option Z) : Z := match offset with Some o => o | None => 0 end.
Definition rawUpdate (f : file) (t : wtrack) : file := f.
