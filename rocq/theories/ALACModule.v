(** * ALAC in CAF files: modules/ALAC.cpp, the codec's configuration, and what CAF.cpp does for ALAC

    A frame is the list of its samples.  File and virtual sample rates are equal.  No I/O errors (FileIO).  The chunk buffers of
    ModuleState::setup hold whatever their memory held; a seek allocates them again, and the model keeps the old ones: nothing depends on
    their contents. *)
From Verif Require Import Prelude ByteOrder FileIO Rebuffer Reader ReaderSpec Writer Codecs HeaderIO Chunks Float FloatBits PacketTable CAF.
From Verif Require Import ALACBits ALACGolomb ALACPredict ALACCodec ALACSearch ALACStream.

Definition beW := sampleBytes BigEndian 2.

(** ** The configuration ("magic cookie") *)
(** ALACEncoder.cpp:1183-1196 [GetConfig] of an encoder that has not encoded anything (mMaxFrameBytes and mAvgBitRate are 0); the fields are in the
    order of ALACAudioTypes.h:162-176.  [rate] is the sample rate converted to uint32_t (ALACEncoder.cpp:1251). *)
Definition alacConfig (fr depth channels rate : Z) : list Z :=
  beU fr ++ [0; u8 depth; PB0; MB0; KB0; u8 channels] ++ beW 255 ++ beU 0 ++ beU 0 ++ beU rate.
(** ALACAudioTypes.h:101-125 *)
Definition layoutTags : list Z :=
  [100 * 65536 + 1; 101 * 65536 + 2; 113 * 65536 + 3; 116 * 65536 + 4; 120 * 65536 + 5; 124 * 65536 + 6; 142 * 65536 + 7; 127 * 65536 + 8].
(** ALACEncoder.cpp:1198-1241 [GetMagicCookieSize], [GetMagicCookie] *)
Definition alacCookie (fr depth channels rate : Z) : list Z :=
  alacConfig fr depth channels rate ++
  (if 2 <? channels then [0; 0; 0; 24; 99; 104; 97; 110; 0; 0; 0; 0] ++ beU (nth (Z.to_nat (channels - 1)) layoutTags 0) ++ beU 0 ++ beU 0 else []).

(** Comparing bytes one after another as [&&] does. *)
Fixpoint bytesAt (b : list Z) (i : Z) (w : list Z) : res bool :=
  match w with [] => Ok true | x :: w' => do y <- aget b i; if y =? x then bytesAt b (i + 1) w' else Ok false end.
(** ALACDecoder.cpp:88-146 [Init]; [None]: the decoder reports an error and has no buffers.  Simplification: the buffers can be allocated. *)
Definition alacInit (b : list Z) : res (option config) :=
  do frma <- bytesAt b 4 [102; 114; 109; 97];
  let off := if frma then 12 else 0 in
  do alac <- bytesAt b (off + 4) [97; 108; 97; 99];
  let off := if alac then off + 12 else off in
  if 24 <=? u32 (zlen b - off) then
    do c <- slice b off 24;
    do v <- aget c 4; do depth <- aget c 5; do pb <- aget c 6; do mb <- aget c 7; do kb <- aget c 8;
    Ok (if v <=? 0 then Some (Config (be_val (zfirstn 4 c)) depth pb mb kb) else None)
  else Ok None.

(** ** Writing *)
(** CAF.cpp:656-676 [writeCookieData] *)
Definition cafKuki (c : list Z) : list Z := T_kuki ++ be8 (zlen c) ++ c.
(** CAF.cpp:154-178 [writeInit] with CAF.cpp:704-740 [initALACCompressionParams]: zeros in place of the configuration *)
Definition alacInitFile (f : cfmt) : list Z :=
  cafPre f ++ cafKuki (zrepeat 0 (if 2 <? f_chan f then 48 else 24)) ++ cafData (-1).
(** where the audio data starts *)
Definition alacFirst (channels : Z) : Z := 52 + (12 + (if 2 <? channels then 48 else 24)) + 16.
(** CAF.cpp:251-260 [update]; the packet table goes behind the data (612-654) *)
Definition alacUpdate (cookie : list Z) (f : file) (t : wtrack) (pt : ptable) : file :=
  let f := fwrite (fseek f 52) (cafKuki cookie) in
  let f := fwrite (fseek f (52 + (12 + zlen cookie))) (cafData (w_dsize t + 4)) in
  fwrite (fseek f (w_after t)) (paktChunk pt).

(** File, track, packet table, memory of the encoder, buffer it writes to, filemodhappy. *)
Definition asink : Type := file * wtrack * ptable * (Z -> chan) * list Z * bool.
Record astate := AS { as_sink : asink; as_reb : rebuffer (list Z); as_out : list (option (list Z)) }.
Definition as_file (st : astate) : file := let '(f, _, _, _, _, _) := as_sink st in f.

Section Writer.
Context {B : Build} {W : Arith} {V : Type}.
Variables fr depth channels : Z.
Variable conv : V -> list Z.
(** What the encoder reads from chunk memory that was never written. *)
Variable junk : list Z.
Variable cookie : list Z.

(** ALAC.cpp:279-322 [runPush]: the frame counts of the track are not touched *)
Definition alacPush (s : asink) (buf : list (option (list Z))) (n : Z) : res asink :=
  let '(f, t, pt, enc, b, happy) := s in
  do blk <- slice buf 0 n;
  do r <- encodePacket fr depth channels enc b (concat (map (unjunk junk) blk)) n;
  match fst r with
  | None => Ok (f, t, pt, snd r, b, false)
  | Some (b', size) =>
      do _ <- rassert (size <=? bufferSize fr depth channels);
      let '(f, t) := fmWrite f t (zfirstn size b') in
      let pt := ptAppend pt size in
      Ok (f, t, mkPT (pt_valid pt + n) (pt_priming pt) (pt_remainder pt) (pt_sizes pt), snd r, b', happy)
  end.

(** A chunk from the application through the converters and the rebuffering module (multiple_of is false: units.cpp:354-368). *)
Definition aUserPush (st : astate) (chunk : list V) : res astate :=
  do (r, out, s) <- rebPush alacPush fr false (length chunk) (as_reb st) (as_out st) (as_sink st) (map Some (map conv chunk));
  Ok (AS s r out).

(** data.cpp:99-115: the loop of afWriteFrames *)
Fixpoint aWriteLoop (fuel : nat) (st : astate) (samples : list V) (vframe n : Z) : res (astate * Z) :=
  if negb (vframe <? n) then Ok (st, vframe)
  else match fuel with
  | O => OutOfFuel
  | S fuel' =>
      let count := if vframe <=? n - ATOMIC then ATOMIC else n - vframe in
      do chunk <- slice samples vframe count;
      do st <- aUserPush st chunk;
      if negb (snd (as_sink st)) then Ok (st, vframe) else aWriteLoop fuel' st samples (vframe + count) n
  end.

(** data.cpp:42-120 [afWriteFrames] on a seekable file *)
Definition aWriteFrames (st : astate) (samples : list V) : res (Z * astate) :=
  let '(f, t, pt, enc, b, _) := as_sink st in
  let st := AS (fseek f (w_nextpos t), t, pt, enc, b, true) (as_reb st) (as_out st) in
  do (st, vframe) <- aWriteLoop (Z.to_nat (zlen samples) + 1) st samples 0 (zlen samples);
  let '(f, t, pt, enc, b, happy) := as_sink st in
  let t := mkWT (w_first t) (w_nextf t) (w_totalf t) (w_nextpos t) (w_after t) (w_dsize t)
                (w_nextv t + vframe) (w_totalv t + vframe) (w_savedpos t) (w_savednext t) in
  Ok (vframe, AS (f, t, pt, enc, b, happy) (as_reb st) (as_out st)).

(** ALAC.cpp:324-328 [sync1] *)
Definition alacSync1 (t : wtrack) : wtrack :=
  mkWT (w_first t) (w_nextf t) (w_totalf t) (w_nextpos t) (w_after t) (w_dsize t) (w_nextv t) (w_totalv t) (w_nextpos t) (w_nextf t).
(** ALAC.cpp:330-338 [sync2]: the packet table is not set back *)
Definition alacSync2 (f : file) (t : wtrack) : res wtrack :=
  do _ <- rassert (ftell f =? w_nextpos t);
  Ok (mkWT (w_first t) (w_savednext t) (w_totalf t) (w_savedpos t) (ftell f) (w_dsize t) (w_nextv t) (w_totalv t) (w_savedpos t) (w_savednext t)).
(** ModuleState.cpp:230-242 [sync] and openclose.cpp:408-443 [afSyncFile] (and afCloseFile, 445-466) *)
Definition aSyncFile (st : astate) : res astate :=
  let '(f, t, pt, enc, b, happy) := as_sink st in
  do r <- rebSync1 fr (as_reb st);
  do (r, out, (f, t, pt, enc, b, happy)) <- rebSync2 alacPush fr r (as_out st) (f, alacSync1 t, pt, enc, b, happy);
  do t <- alacSync2 f t;
  Ok (AS (alacUpdate cookie f t pt, t, pt, enc, b, happy) r out).

(** After afOpenFile: the header has been written; [b] is the buffer for packets and [cap] frames fit in the chunk before the encoder.
    PacketTable.cpp:32-37. *)
Definition aOpenWrite (hdr : list Z) (first cap : Z) (b : list Z) : astate :=
  AS (mkFile hdr first, mkWT first 0 0 first 0 0 0 0 (-1) (-1), mkPT 0 0 0 [], fun _ => freshChan, b, true) (rebInitPush fr) (zrepeat None cap).

Definition awstep (st : astate) (o : wop) : res astate :=
  match o with Write l => do (_, st) <- aWriteFrames st l; Ok st | Sync => aSyncFile st end.
Fixpoint awrun (st : astate) (ops : list wop) : res astate :=
  match ops with [] => Ok st | o :: ops' => do st <- awstep st o; awrun st ops' end.
End Writer.

(** ** Reading *)
(** The file module: file, track, m_currentPacket, the buffer a packet is read into, the buffer it is decoded to. *)
Definition asource : Type := file * rtrack * Z * list Z * list Z.
Record arstate := ARS { ar_src : asource; ar_reb : rebuffer (list Z) }.
Definition ar_track (st : arstate) : rtrack := let '(_, t, _, _, _) := ar_src st in t.
Definition ar_file (st : arstate) : file := let '(f, _, _, _, _) := ar_src st in f.
Definition ar_set (st : arstate) (f : file) (t : rtrack) : arstate :=
  let '(_, _, cur, inb, outb) := ar_src st in ARS (f, t, cur, inb, outb) (ar_reb st).

Section Reader.
Context {B : Build} {W : Arith} {V : Type}.
Variable g : config.
Variables fr depth channels : Z.
Variable pt : ptable.
Variable conv : list Z -> V.
Variable hasConv : bool.

(** ALAC.cpp:228-256 [runPull].  After a read error the chunk keeps the length asked for. *)
Definition alacPull (s : asource) (n : Z) : res (list (option (list Z)) * asource) :=
  let '(f, t, cur, inb, outb) := s in
  if s32 (zlen (pt_sizes pt)) <=? cur then Ok ([], s) else
  do size <- aget (pt_sizes pt) cur;
  do _ <- rassert (size <=? bufferSize fr depth channels);
  if zlen inb <? size then UB else
  let '(d, f) := fread f size in
  let inb := d ++ zskipn (zlen d) inb in
  let nextpos := t_nextpos t + zlen d in
  if zlen d <? size then
    Ok (zrepeat None n, (f, mkRT (t_first t) (t_nextf t) (t_totalf t) nextpos (t_ignore t) (t_nextv t) (t_totalv t) false, cur, inb, outb))
  else
    do r <- decode g inb size fr channels outb;
    Ok (map Some (chunksOf (Z.to_nat (r_frames r)) channels (r_out r)),
        (f, mkRT (t_first t) (t_nextf t) (t_totalf t) nextpos (t_ignore t) (t_nextv t) (t_totalv t) (t_happy t), cur + 1, inb, r_out r)).

(** ModuleState.cpp:254-444, as [Reader.userPull] *)
Definition aUserPull (st : arstate) (n : Z) : res (list (option V) * arstate) :=
  do (chunk, r, s) <- rebPull alacPull fr false (Z.to_nat n) (ar_reb st) (ar_src st) n;
  let out := map (option_map conv) chunk in
  Ok (if hasConv then out ++ zrepeat None (n - zlen out) else out, ARS s r).

(** data.cpp:206-229 *)
Fixpoint aReadLoop (fuel : nat) (st : arstate) (eof : bool) (acc : list (option V)) (n : Z) : res (list (option V) * arstate) :=
  if negb (t_happy (ar_track st) && negb eof && (zlen acc <? n)) then Ok (acc, st)
  else match fuel with
  | O => OutOfFuel
  | S fuel' =>
      let topull := if zlen acc <=? n - ATOMIC then ATOMIC else n - zlen acc in
      do (chunk, st) <- aUserPull st topull;
      if t_happy (ar_track st)
      then aReadLoop fuel' st (zlen chunk <? topull) (acc ++ chunk) n
      else aReadLoop fuel' st eof acc n
  end.

(** data.cpp:122-236 [afReadFrames] on a seekable file *)
Definition aReadFrames (st : arstate) (wanted : Z) : res (list (option V) * arstate) :=
  let t := ar_track st in
  let f := fseek (ar_file st) (t_nextpos t) in
  let n := if t_totalv t =? -1 then wanted
           else let left := t_totalv t - t_nextv t in if left <? wanted then left else wanted in
  let st := ar_set st f (setHappy t true) in
  do (st, eof) <-
    (if negb (t_ignore t =? 0) then
       if t_ignore t <? 0 then UB else
       do (chunk, st) <- aUserPull st (t_ignore t);
       Ok (ar_set st (ar_file st) (setIgnore (ar_track st) 0), zlen chunk <? t_ignore t)
     else Ok (st, false));
  do (out, st) <- aReadLoop (Z.to_nat n + 1) st eof [] n;
  Ok (out, ar_set st (ar_file st) (setNextv (ar_track st) (t_nextv (ar_track st) + zlen out))).

(** ModuleState.cpp:109-228 [setup], [reset]; ALAC.cpp:258-271 [reset1], [reset2] *)
Definition aSetupRead (st : arstate) : res arstate :=
  let '(f, t, _, inb, outb) := ar_src st in
  do (pos, frame, ignore) <- alacSeek pt (t_first t) fr (t_nextv t);
  Ok (ARS (f, mkRT (t_first t) frame (t_totalf t) pos ignore (t_nextv t) (t_totalf t) true, s32 (u64 (t_nextv t) / fr), inb, outb)
          (rebReset fr (ar_reb st))).

(** format.cpp:101-148 [afSeekFrame], [afTellFrame] *)
Definition aSeekFrame (st : arstate) (frame : Z) : res (Z * arstate) :=
  let t := ar_track st in
  if frame <? 0 then Ok (t_nextv t, st)
  else if frame =? t_nextv t then Ok (t_nextv t, st)
  else
    let frame := if negb (t_totalv t =? -1) && (t_totalv t <? frame) then t_totalv t - 1 else frame in
    do st <- aSetupRead (ar_set st (ar_file st) (setNextv t frame));
    Ok (t_nextv (ar_track st), st).

(** After afOpenFile: the data at [first], [total] frames. *)
Definition aOpenRead (bytes : list Z) (first total : Z) (inb outb : list Z) : res arstate :=
  aSetupRead (ARS (mkFile bytes first, mkRT first 0 total first 0 0 total true, 0, inb, outb) (rebInitPull fr)).

(** A history of calls (those of ReaderSpec). *)
Definition arstep (st : arstate) (o : rop) : res (rout V * arstate) :=
  match o with
  | Read n => do (l, st) <- aReadFrames st n; Ok (Frames l, st)
  | Seek k => do (z, st) <- aSeekFrame st k; Ok (Number z, st)
  | Tell => do (z, st) <- aSeekFrame st (-1); Ok (Number z, st)
  | FrameCount => Ok (Number (t_totalv (ar_track st)), st)
  end.
Fixpoint arrun (st : arstate) (ops : list rop) : res (list (rout V)) :=
  match ops with [] => Ok [] | o :: ops' => do (r, st) <- arstep st o; do l <- arrun st ops'; Ok (r :: l) end.
End Reader.
