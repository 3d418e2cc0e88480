(** * sfcommands/sfconvert.c: copying a sound file into another format

    The library's part is [Virtual] (the input) and [VirtualWrite] (the output); here is the program on top of it.  The
    formats of both files are arguments: choosing them from the command line (sfconvert.c:73-208) is not modelled. *)
From Coq Require Import Floats.SpecFloat.
From Verif Require Import Prelude FileIO Rebuffer Reader ReaderSpec Writer ByteOrder Convert Float Arrange Rates Memory Virtual VirtualWrite.

(** sfconvert.c:326 [kBufferFrameCount] *)
Definition bufferFrames : Z := 65536.
(** sfconvert.c:324 with format.cpp:89-99 and util.cpp:263-308: the size of a virtual frame, a float (the virtual format is
    uncompressed: the factor is 1) converted to int. *)
Definition virtualFrameSize (v : format) : res Z :=
  do n <- ck32 (bytesPerSample true v * channelCount v);
  toInt 32 (SFdiv 24 128 (fOfZ n) (fOfZ 1)).
(** sfconvert.c:327: the bytes allocated; an int product.  malloc is assumed to succeed. *)
Definition copyBuffer (v : format) : res Z := do s <- virtualFrameSize v; ck32 (bufferFrames * s).

(** What afReadFrames stored in the buffer, read by afWriteFrames: memory that was never stored, and samples that are the
    result of an undefined conversion, cannot be used. *)
Fixpoint stored1 (l : list (option (res frame))) : res (list frame) :=
  match l with
  | [] => Ok []
  | None :: _ => UB
  | Some x :: l' => do fr <- x; do r <- stored1 l'; Ok (fr :: r)
  end.

Section Convert.
Context {B : Build}.
Context {E : Type}.
Variable wrapv : bool.
Variable host : order.
Variable cin : codec frame.
Variable cout : wcodec frame E.
Variable junk : frame.
Variable upd : file -> wtrack -> file.
Variable cap : Z.
Notation ystate := (ystate E).

(** sfconvert.c:334-361, the loop of [copyaudiodata]; [size]: bytes in the buffer.  The result says whether all went well. *)
Fixpoint copyLoop (fuel : nat) (size total written : Z) (vst : vstate) (yst : ystate) : res (bool * ystate) :=
  if written <? total then
    match fuel with
    | O => OutOfFuel
    | S fuel =>
        let left := total - written in
        let toRead := if bufferFrames <? left then bufferFrames else left in
        if size <? toRead * bytesPerFrame true (v_user vst) then UB else
        do (r, vst) <- vRead wrapv host cin true vst toRead;
        match r with
        | Number n => if n <? toRead then Ok (false, yst) else UB    (* afReadFrames never returns a count without frames *)
        | Frames l =>
            if zlen l <? toRead then Ok (false, yst) else
            do frames <- stored1 l;
            do (n, yst) <- yWrite wrapv host cout junk true cap yst frames;
            if n <? zlen l then Ok (false, yst) else
            copyLoop fuel size total (written + n) vst yst
        end
    end
  else Ok (true, yst).
(** sfconvert.c:322-366 [copyaudiodata]; every turn of the loop adds at least one frame. *)
Definition copyAudioData (vst : vstate) (yst : ystate) : res (bool * ystate) :=
  do size <- copyBuffer (v_user vst);
  do (r, vst) <- vFrameCount wrapv host cin vst;
  match r with Number total => copyLoop (Z.to_nat total) size total 0 vst yst | Frames _ => UB end.

(** sfconvert.c:210-264, from the moment both files are open: the output's virtual format is set to the input's, the audio
    is copied, the files are closed, and the output is removed ([None]) if copying failed.  The result of closing is ignored. *)
Definition sfconvert (inFormat : format) (vst : vstate) (yst : ystate) : res (option file) :=
  do (a, yst) <- ycall wrapv host cap yst (SetChannels (channelCount inFormat));
  do (b, yst) <- ycall wrapv host cap yst (SetSampleFormat (sampleFormat inFormat) (sampleWidth inFormat));
  do (ok, yst) <- copyAudioData vst yst;
  do (d, yst) <- ySync wrapv host cout junk true upd cap yst;
  Ok (if ok then Some (ws_file (y_ws yst)) else None).
End Convert.
