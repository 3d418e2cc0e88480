(** * IFF.cpp: IFF/8SVX files: mono, 8 bits, big-endian.  Sample rates are whole numbers of hertz. *)
From Verif Require Import Prelude ByteOrder FileIO Writer Codecs HeaderIO Chunks AIFF.

Definition T_8SVX := [56; 83; 86; 88].
Definition T_VHDR := [86; 72; 68; 82].
Definition T_BODY := [66; 79; 68; 89].

(** ** Writing *)
(** IFF.cpp:358-405 [writeVHDR].  The conversion of the rate to uint16_t is defined below 65536 only. *)
Definition vhdrBytes (rate total : Z) : list Z :=
  T_VHDR ++ be4 20 ++ be4 total ++ be4 0 ++ be4 0 ++ be2 rate ++ sampleBytes BigEndian 1 0 ++ sampleBytes BigEndian 1 0 ++ be4 65536.
(** IFF.cpp:459-475: a type the format does not know leaves a tag of zeros, and completeSetup does not refuse it *)
Definition iffMiscTag (type : Z) : list Z :=
  if type =? 203 then T_NAME else if type =? 202 then T_AUTH else if type =? 201 then T_COPY else if type =? 204 then T_ANNO else [0;0;0;0].
(** IFF.cpp:447-497 [writeMiscellaneous]; contents never written by the application are zeros *)
Definition iffMiscBytes (ms : list (Z * list Z)) : list Z := concat (map (fun m => chunk BigEndian (iffMiscTag (fst m)) (snd m)) ms).
(** IFF.cpp:329-334, 343-345 without the pad byte *)
Definition iffBody (rate : Z) (ms : list (Z * list Z)) (total : Z) : list Z := vhdrBytes rate total ++ iffMiscBytes ms ++ T_BODY ++ be4 total.
(** IFF.cpp:320-337 [writeInit] *)
Definition iffInit (rate : Z) (ms : list (Z * list Z)) : list Z := T_FORM ++ be4 0 ++ T_8SVX ++ iffBody rate ms 0.
Definition iffFirst (rate : Z) (ms : list (Z * list Z)) : Z := 12 + zlen (iffBody rate ms 0).
(** IFF.cpp:339-356 [update]; IFF.cpp:430-438: the pad byte, chunkSize being a uint32_t *)
Definition iffUpdate (rate : Z) (ms : list (Z * list Z)) (f : file) (t : wtrack) : file :=
  let body := iffBody rate ms (w_totalf t) in
  let f := fwrite (fseek f 12) body in
  let n := u32 (w_totalf t) in
  let f := if n mod 2 =? 1 then fwrite (fseek f (12 + zlen body + n)) [0] else f in
  fwrite (fseek f 4) (be4 (flength f - 8)).

(** ** Reading *)
Record iffSt := IffSt { is_fmt : option format; is_total : Z; is_first : Z; is_dsize : Z; is_misc : list (Z * Z * list Z) }.
Definition iffSt0 := IffSt None 0 0 0 [].

(** IFF.cpp:125-158 [parseVHDR]: only the rate is used; other fields may be missing *)
Definition parseVHDR (s : iffSt) : hP iffSt :=
  let! _ := tryU BigEndian 4 in
  let! _ := tryU BigEndian 4 in
  let! _ := tryU BigEndian 4 in
  let! rate := readU BigEndian 2 in
  let! _ := tryU BigEndian 1 in
  let! _ := tryU BigEndian 1 in
  let! _ := tryU BigEndian 4 in
  hret (IffSt (Some (mkFmt rate TwosComp 8 1 BigEndian CNone 1 1)) (is_total s) (is_first s) (is_dsize s) (is_misc s)).
(** IFF.cpp:160-178 [parseBODY] *)
Definition parseBODY (s : iffSt) (size : Z) : hP iffSt :=
  let! p := htell in hret (IffSt (is_fmt s) size p size (is_misc s)).
(** IFF.cpp:89-120 [parseMiscellaneous]; its failure is ignored *)
Definition iffTagMisc (tag : list Z) : option Z :=
  if teq tag T_NAME then Some 203 else if teq tag T_AUTH then Some 202 else if teq tag T_COPY then Some 201 else if teq tag T_ANNO then Some 204 else None.
Definition iffMisc (s : iffSt) (type size : Z) : hP iffSt :=
  if size =? 0 then hret s else
  let! d := hread size in
  hret (IffSt (is_fmt s) (is_total s) (is_first s) (is_dsize s) (is_misc s ++ [(type, size, d)])).
(** IFF.cpp:209-224 *)
Definition iffChunk (s : iffSt) (tag : list Z) (size : Z) : hP iffSt :=
  if teq tag T_VHDR then parseVHDR s
  else if teq tag T_BODY then parseBODY s size
  else match iffTagMisc tag with Some ty => iffMisc s ty size | None => hret s end.
(** IFF.cpp:180-245 [readInit] *)
Definition iffRead (fuel : nat) : hP iffSt :=
  let! _ := hseek 0 in
  let! type := readTag in
  let! size := readU BigEndian 4 in
  let! form := readTag in
  if negb (teq type T_FORM) || negb (teq form T_8SVX) then hfail else
  chunkLoop BigEndian u64 iffChunk fuel size 4 iffSt0.
(** IFF.cpp:61-73 [recognize] *)
Definition iffRecognize (f : file) : bool :=
  let '(b, f) := fread (fseek f 0) 8 in
  if negb (zlen b =? 8) || negb (teq (zfirstn 4 b) T_FORM) then false else
  let '(c, _) := fread f 4 in teq c T_8SVX.
(** What the rest of the library uses (openclose.cpp:375-398): without a VHDR chunk the format was never initialised. *)
Definition iffOpen (fuel : nat) : hP parsed :=
  let! s := iffRead fuel in
  hlift (match is_fmt s with None => UB | Some f => Ok (mkParsed f (is_first s) (is_dsize s) (is_total s)) end).
