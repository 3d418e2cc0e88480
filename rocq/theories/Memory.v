(** * Chunk buffers: the converter modules as they act on memory

    [Arrange] models the converters on sample values; here they act on byte buffers of the capacity
    ModuleState::setup allocates.  Reading or writing beyond a buffer is [UB]. *)
From Verif Require Import Prelude ByteOrder Convert Float FloatBits Arrange ArrangeProofs.

(** AudioFormat.cpp:51-55 [bytesPerFrame]: size_t arithmetic on a 64-bit machine; channelCount is an int. *)
Definition bytesPerFrame (stretch : bool) (f : format) : Z := u64 (bytesPerSample stretch f * u64 (channelCount f)).

(** ** The format of a module's output chunk *)
Definition setFmt (f : format) (sf : sampfmt) (w : Z) (p : pcmInfo) : format :=
  {| sampleFormat := sf; sampleWidth := w; channelCount := channelCount f; byteOrder := byteOrder f; compressed := compressed f; pcm := p |}.
(** The [describe] methods of SimpleModule.h: Swap 47-51, ConvertSign 149-161, Expand3To4 234-237, Compress4To3 281-284,
    ConvertIntToFloat 338-343, ConvertInt 413-420 with 454-462, ConvertFloat 508-523, Clip 555-558, ConvertFloatToIntClip
    622-627, Transform 726-729; ApplyChannelMatrix SimpleModule.cpp:78-83.  The output chunk starts as a copy of the
    input chunk's format (ModuleState.cpp:453).  [packed] is not part of [format]; no size depends on it.
    Simplification: the PCM mapping, on which no size depends either, is kept by the sign and matrix modules. *)
Definition describe (m : module) (f : format) : format :=
  match m with
  | MSwap => {| sampleFormat := sampleFormat f; sampleWidth := sampleWidth f; channelCount := channelCount f;
                byteOrder := match byteOrder f with BigEndian => LittleEndian | LittleEndian => BigEndian end;
                compressed := compressed f; pcm := pcm f |}
  | MExpand3 _ | MCompress3 _ => f
  | MSign _ fs => setFmt f (if fs then UNSIGNED else TWOSCOMP) (sampleWidth f) (pcm f)
  | MClip _ p => setFmt f (sampleFormat f) (sampleWidth f) p
  | MIntToFloat _ dbl => if dbl then setFmt f DOUBLE 64 (pcm f) else setFmt f FLOAT 32 (pcm f)
  | MTransform _ _ o => setFmt f (sampleFormat f) (sampleWidth f) o
  | MIntToInt _ o => setFmt f (sampleFormat f) ((codenum o + 1) * 8) (signedMapping o)
  | MFloatToInt _ o _ om => setFmt f TWOSCOMP ((codenum o + 1) * 8) om
  | MFloatToFloat dbl => if dbl then setFmt f DOUBLE 64 (pcm f) else setFmt f FLOAT 32 (pcm f)
  | MMatrix _ rows => {| sampleFormat := sampleFormat f; sampleWidth := sampleWidth f; channelCount := zlen rows;
                         byteOrder := byteOrder f; compressed := compressed f; pcm := pcm f |}
  end.
(** The formats of the chunks from the input of the first module to the output of the last. *)
Fixpoint formats (ms : list module) (f : format) : list format :=
  f :: match ms with [] => [] | m :: ms' => formats ms' (describe m f) end.
(** The file modules' [describe] on reading: IMA.cpp:365-370, MSADPCM.cpp:331-336, ALAC.cpp:162-167, G711.cpp:179-183 set
    the byte order to native and the compression type to none; PCM has none (Module.cpp:47-49). *)
Definition fileDescribe (host : order) (f : format) : format :=
  if compressed f then {| sampleFormat := sampleFormat f; sampleWidth := sampleWidth f; channelCount := channelCount f;
                          byteOrder := host; compressed := false; pcm := pcm f |}
  else f.

(** ** ModuleState.cpp:108-179 [setup]: the size of the buffers *)
(** [int bufsize = frameCount * f.bytesPerFrame(true)]: a size_t product converted to int. *)
Definition bufSize (frames : Z) (f : format) : Z := s32 (u64 (frames * bytesPerFrame true f)).
(** _AF_ATOMIC_NVFRAMES, afinternal.h *)
Definition atomicFrames : Z := 1024.
(** ModuleState.cpp:124-179.  [f1]: the format of the chunk between the file module and the converters, [ms] the converters
    from there (reading) or to there (writing, where [formats] is computed from the caller's side), [packet]: the frames per
    packet when the codec needs a rebuffer module ([RebufferModule::maxPull]/[maxPush], RebufferModule.cpp:68-84, with
    multiple_of false as for all codecs), [own]: FileModule::bufferSize when overridden (ALAC.cpp:273-277).
    Reading 127-151: sizes of all chunks but the first, at 1024 frames, or a packet between file module and rebuffer;
    FileModule.cpp:119-125: inChunk->frameCount * outChunk bytes per frame, the same numbers.  Writing 153-176: symmetric.
    [maxbufsize] starts at 0 and goes to [allocate(size_t)]. *)
Definition maxBufSize (fs : list format) (f1 : format) (packet : option Z) (own : option Z) : Z :=
  let frames := match packet with Some n => n | None => atomicFrames end in
  let file := match own with Some s => s | None => bufSize frames f1 end in
  fold_left Z.max (map (bufSize atomicFrames) fs ++ [bufSize frames f1; file]) 0.
Definition readCapacity (ms : list module) (f1 : format) (packet own : option Z) : Z :=
  maxBufSize (formats ms f1) f1 packet own.
Definition writeCapacity (ms : list module) (v : format) (packet own : option Z) : Z :=
  maxBufSize (formats ms v) (last (formats ms v) v) packet own.

(** ** Samples in memory *)
(** sizeof of the C types the converters use (IntTypes, SimpleModule.h:105-116). *)
Definition tysize (t : ty) : nat :=
  match t with
  | TI kInt8 | TU kInt8 => 1%nat
  | TI kInt16 | TU kInt16 => 2%nat
  | TI kInt24 | TU kInt24 | TI kInt32 | TU kInt32 => 4%nat
  | TF => 4%nat
  | TD => 8%nat
  end.
(** The sample stored in the bytes [b] in byte order [o]: two's complement, unsigned, IEEE 754. *)
Definition dec (o : order) (t : ty) (b : list Z) : smp :=
  match t with
  | TI c => SI c (sN (8 * zlen b) (load o b))
  | TU c => SU c (load o b)
  | TF => SF (of32 (load o b))
  | TD => SD (of64 (load o b))
  end.
(** Storing a sample: the C types have the sizes of [tysize]. *)
Definition enc (o : order) (s : smp) : list Z :=
  match s with
  | SI c z | SU c z => store o (tysize (tyOf s)) (uN (cbits c) z)
  | SF f => store o 4 (bits32 f)
  | SD f => store o 8 (bits64 f)
  end.

(** [n] groups of [k] elements. *)
Fixpoint groups {A} (k n : nat) (l : list A) : list (list A) :=
  match n with O => [] | S n' => firstn k l :: groups k n' (skipn k l) end.

(** Storing [d] at the start of a buffer. *)
Definition put (d buffer : list Z) : res (list Z) :=
  if zlen d <=? zlen buffer then Ok (d ++ zskipn (zlen d) buffer) else UB.
(** A loop [for i < count: out[i] = g(in[i])] over elements of [kin] bytes.  The input and output buffers are different
    objects, so reading everything first is the same. *)
Definition mapCells (kin : nat) (g : list Z -> res (list Z)) (count : Z) (inb outb : list Z) : res (list Z) :=
  if Z.of_nat kin * Z.max 0 count <=? zlen inb then
    do os <- rmapM g (groups kin (Z.to_nat count) inb); put (concat os) outb
  else UB.

(** The type a converter reads its input as. *)
Definition inTy (m : module) : option ty :=
  match m with
  | MSwap | MExpand3 _ | MCompress3 _ => None
  | MSign c fs => Some (if fs then TI c else TU c)
  | MClip c _ | MMatrix c _ => Some (codeTy c)
  | MIntToFloat c _ => Some (TI c)
  | MTransform dbl _ _ => Some (if dbl then TD else TF)
  | MIntToInt i _ => Some (TI i)
  | MFloatToInt dbl _ _ _ => Some (if dbl then TD else TF)
  | MFloatToFloat toDbl => Some (if toDbl then TF else TD)
  end.

(** [run] of a module: [f] is the format of the input chunk, [n] its frame count.
    Swap: SimpleModule.h:52-95, [bytesPerSample(false)] of the input format decides the element size, [assert(false)] in
    other cases.  Expand3To4 238-272, Compress4To3 285-324.  The counts are int (80, 240, 287, 348, ...) or size_t
    (164, 425 and 527) products; 425 is passed on as int. *)
Definition runMem (host : order) (m : module) (f : format) (n : Z) (inb outb : list Z) : res (list Z) :=
  let count := s32 (u64 (n * u64 (channelCount f))) in
  match m with
  | MSwap =>
      let k := bytesPerSample false f in
      if (k =? 2) || (k =? 3) || (k =? 4) || (k =? 8) then mapCells (Z.to_nat k) (fun b => Ok (swap_sample host b)) count inb outb else Abort
  | MExpand3 sg => mapCells 3 (fun b => rmap (fun x => store host 4 (u32 x)) (expand3 host sg b)) count inb outb
  | MCompress3 sg => mapCells 4 (fun b => Ok (compress4 host (if sg then s32 (load host b) else load host b))) count inb outb
  | MMatrix c rows =>
      (* SimpleModule.cpp:108-128: frames of m_inChannels samples; [int frameCount] *)
      let k := tysize (codeTy c) in
      let ch := Z.to_nat (channelCount f) in
      mapCells (k * ch) (fun b => rmap (fun ss => concat (map (enc host) ss)) (runModule m (map (dec host (codeTy c)) (groups k ch b)))) (s32 n) inb outb
  | _ =>
      match inTy m with
      | Some t => mapCells (tysize t) (fun b => rmap (enc host) (run1 m (dec host t b)))
                    (match m with MSign _ _ | MFloatToFloat _ => u64 (n * u64 (channelCount f)) | _ => count end) inb outb
      | None => Abort
      end
  end.

(** ** Running the whole chain on buffers

    SimpleModule.cpp:26-37: [runPull] asks the source for the frames, then converts; [runPush] converts, then pushes: either
    way the conversions happen from the first module to the last, each from its input chunk to its output chunk.
    [cur]: the contents of the input chunk of the first module; [bufs]: the buffers of the chunks in between; [final]: that
    of the last chunk. *)
Fixpoint runMods (host : order) (ms : list module) (f : format) (n : Z) (cur : list Z) (bufs : list (list Z)) (final : list Z) : res (list Z) :=
  match ms with
  | [] => UB
  | [m] => runMem host m f n cur final
  | m :: ms' =>
      match bufs with
      | b :: bufs' => do o <- runMem host m f n cur b; runMods host ms' (describe m f) n o bufs' final
      | [] => UB
      end
  end.
(** A pull of [n] frames: the file module (or the rebuffer module's memcpy, RebufferModule.cpp:100, 127) stores [data], the
    frames as the file module delivers them, in its output chunk, which is the caller's buffer when there is no converter. *)
Definition pullMem (host : order) (ms : list module) (f1 : format) (n : Z) (data : list Z) (bufs : list (list Z)) (user : list Z) : res (list Z) :=
  match ms with
  | [] => put data user
  | _ => match bufs with
         | b :: bufs' => do c <- put data b; runMods host ms f1 n c bufs' user
         | [] => UB
         end
  end.
(** A push of [n] frames: the converters run from the caller's buffer; the file module (or the rebuffer module) then reads
    the first [size] bytes of its input chunk. *)
Definition pushMem (host : order) (ms : list module) (v : format) (n : Z) (user : list Z) (bufs : list (list Z)) (lastb : list Z) (size : Z) : res (list Z) :=
  do o <- (match ms with [] => Ok user | _ => runMods host ms v n user bufs lastb end);
  if size <=? zlen o then Ok (zfirstn size o) else UB.

(** data.cpp:209-236: afReadFrames reads the frames in pieces of 1024, the [i]-th to [samples + bytes_per_vframe * vframe].
    Here the data of each pull is given ([Reader] models where it comes from), with its number of frames and what the
    buffers contain beforehand. *)
Fixpoint readMem (host : order) (ms : list module) (f1 v : format) (pulls : list (Z * list Z * list (list Z))) (vframe : Z) (samples : list Z) : res (list Z) :=
  match pulls with
  | [] => Ok samples
  | (n, data, bufs) :: ps =>
      let off := bytesPerFrame true v * vframe in
      if (0 <=? off) && (off <=? zlen samples) then
        do u <- pullMem host ms f1 n data bufs (zskipn off samples);
        readMem host ms f1 v ps (vframe + n) (zfirstn off samples ++ u)
      else UB
  end.
