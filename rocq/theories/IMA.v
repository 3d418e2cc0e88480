(** * modules/IMA.cpp: IMA ADPCM, and the block loops of modules/BlockCodec.cpp

    A buffer of decoded audio is a list of frames, a frame the list of its samples, one per channel;
    stepping a sample pointer by channelCount (IMA.cpp:187,299) is taking the same channel of the
    next frame.  Encoded data is a list of bytes consumed and produced in order. *)
From Verif Require Import Prelude.

(** IMA.cpp:116-120 *)
Definition indexTable : list Z := [-1; -1; -1; -1; 2; 4; 6; 8; -1; -1; -1; -1; 2; 4; 6; 8].

(** IMA.cpp:122-133 *)
Definition stepTable : list Z :=
 [7; 8; 9; 10; 11; 12; 13; 14; 16; 17;
  19; 21; 23; 25; 28; 31; 34; 37; 41; 45;
  50; 55; 60; 66; 73; 80; 88; 97; 107; 118;
  130; 143; 157; 173; 190; 209; 230; 253; 279; 307;
  337; 371; 408; 449; 494; 544; 598; 658; 724; 796;
  876; 963; 1060; 1166; 1282; 1411; 1552; 1707; 1878; 2066;
  2272; 2499; 2749; 3024; 3327; 3660; 4026; 4428; 4871; 5358;
  5894; 6484; 7132; 7845; 8630; 9493; 10442; 11487; 12635; 13899;
  15289; 16818; 18500; 20350; 22385; 24623; 27086; 29794; 32767].

(** IMA.cpp:42-52; the constructor gives (0, 0). *)
Record adpcmState := mkState { previousValue : Z; index : Z }.
Definition initState : adpcmState := mkState 0 0.

(** IMA.cpp:135-140 *)
Definition clamp (x low high : Z) : Z := if x <? low then low else if x >? high then high else x.

(** pcm.h MIN_INT16, MAX_INT16 *)
Definition clamp16 (x : Z) : Z := clamp x (-32768) 32767.

(** IMA.cpp:142-160 [decodeSample].  No step of the arithmetic can leave the int range for a 16-bit
    previousValue, so plain Z arithmetic is used; the two table reads are checked. *)
Definition decodeSample (st : adpcmState) (code : Z) : res (Z * adpcmState) :=
  do step <- aget stepTable (index st);
  let diff := Z.shiftr step 3 in
  let diff := if Z.testbit code 2 then diff + step else diff in
  let diff := if Z.testbit code 1 then diff + Z.shiftr step 1 else diff in
  let diff := if Z.testbit code 0 then diff + Z.shiftr step 2 else diff in
  let predictor := if Z.testbit code 3 then previousValue st - diff else previousValue st + diff in
  do adj <- aget indexTable code;
  let st' := mkState (clamp16 predictor) (clamp (index st + adj) 0 88) in
  Ok (previousValue st', st').

(** IMA.cpp:237-275 [encodeSample] *)
Definition encodeSample (st : adpcmState) (sample : Z) : res (Z * adpcmState) :=
  do step <- aget stepTable (index st);
  let diff := sample - previousValue st in
  let vpdiff := Z.shiftr step 3 in
  let code := if diff <? 0 then 8 else 0 in
  let diff := if diff <? 0 then - diff else diff in
  let '(code, diff, vpdiff) :=
    if diff >=? step then (Z.lor code 4, diff - step, vpdiff + step) else (code, diff, vpdiff) in
  let step := Z.shiftr step 1 in
  let '(code, diff, vpdiff) :=
    if diff >=? step then (Z.lor code 2, diff - step, vpdiff + step) else (code, diff, vpdiff) in
  let step := Z.shiftr step 1 in
  let '(code, vpdiff) :=
    if diff >=? step then (Z.lor code 1, vpdiff + step) else (code, vpdiff) in
  let vpdiff := if Z.testbit code 3 then - vpdiff else vpdiff in
  do adj <- aget indexTable code;
  Ok (Z.land code 15, mkState (clamp16 (previousValue st + vpdiff)) (clamp (index st + adj) 0 88)).

(** ** Columns of a buffer *)

(** The samples of channel [c]: the pointer [buffer + c] stepped by channelCount. *)
Definition column (c : nat) (frames : list (list Z)) : res (list Z) :=
  rmapM (fun f => aget f (Z.of_nat c)) frames.

(** Writing channel [c] of [n] consecutive frames from each channel's list of samples. *)
Definition interleave (n : nat) (cols : list (list Z)) : list (list Z) :=
  map (fun k => map (fun col => nth k col 0) cols) (seq 0 n).

(** Thread a list of states through a per-channel step (the [for c] loops). *)
Fixpoint forChannels {S A : Type} (step : nat -> S -> res (A * S)) (c : nat) (sts : list S)
  : res (list A * list S) :=
  match sts with
  | [] => Ok ([], [])
  | st :: sts' =>
      do (a, st') <- step c st;
      do (l, sts'') <- forChannels step (Datatypes.S c) sts';
      Ok (a :: l, st' :: sts'')
  end.

(** ** Encoding *)

(** One byte, two samples (IMA.cpp:298-302 and 328-330). *)
Fixpoint encodePairs (st : adpcmState) (samples : list Z) : res (list Z * adpcmState) :=
  match samples with
  | x :: y :: rest =>
      do (lo, st) <- encodeSample st x;
      do (hi, st) <- encodeSample st y;
      do (bytes, st) <- encodePairs st rest;
      Ok (Z.lor lo (Z.shiftl hi 4) :: bytes, st)
  | _ => Ok ([], st)
  end.

(** IMA.cpp:281-289: the WAVE block header of one channel. *)
Definition headerWAVE (st : adpcmState) : list Z :=
  [Z.land (previousValue st) 255; u8 (Z.shiftr (previousValue st) 8); u8 (index st); 0].

(** IMA.cpp:291-307: one iteration of the outer loop encodes eight frames; [n] counts iterations,
    [frames] is the input pointer.  Reading past the buffer is undefined behaviour. *)
Fixpoint encodeGroupsWAVE (n : nat) (sts : list adpcmState) (frames : list (list Z))
  : res (list Z * list adpcmState) :=
  match n with
  | O => Ok ([], sts)
  | S n' =>
      if (length frames <? 8)%nat then UB else
      do (groups, sts) <- forChannels
           (fun c st => do col <- column c (firstn 8 frames); encodePairs st col) 0 sts;
      do (bytes, sts) <- encodeGroupsWAVE n' sts (skipn 8 frames);
      Ok (concat groups ++ bytes, sts)
  end.

(** Number of iterations of [for (n=0; n<framesPerPacket-1; n+=8)] (IMA.cpp:179,291). *)
Definition groupsWAVE (framesPerPacket : Z) : nat := Z.to_nat ((framesPerPacket - 1 + 7) / 8).

(** IMA.cpp:277-310 [encodeBlockWAVE] *)
Definition encodeBlockWAVE (framesPerPacket : Z) (sts : list adpcmState) (frames : list (list Z))
  : res (list Z * list adpcmState) :=
  do (bytes, sts') <- encodeGroupsWAVE (groupsWAVE framesPerPacket) sts frames;
  Ok (concat (map headerWAVE sts) ++ bytes, sts').

(** IMA.cpp:316-334: one channel of a QuickTime block. *)
Definition encodeChannelQT (framesPerPacket : Z) (frames : list (list Z)) (c : nat) (st : adpcmState)
  : res (list Z * adpcmState) :=
  let st := mkState (Z.land (previousValue st) (Z.lnot 127)) (index st) in
  let header := [Z.land (Z.shiftr (previousValue st) 8) 255;
                 Z.lor (Z.land (previousValue st) 128) (Z.land (index st) 127)] in
  if zlen frames <? framesPerPacket then UB else
  do col <- column c (zfirstn framesPerPacket frames);
  do (bytes, st) <- encodePairs st col;
  Ok (header ++ bytes, st).

(** IMA.cpp:312-337 [encodeBlockQT]; framesPerPacket is even (64). *)
Definition encodeBlockQT (framesPerPacket : Z) (sts : list adpcmState) (frames : list (list Z))
  : res (list Z * list adpcmState) :=
  do (groups, sts) <- forChannels (encodeChannelQT framesPerPacket frames) 0 sts;
  Ok (concat groups, sts).

(** ** Decoding.  Bytes are consumed from the block; running out is an out-of-bounds read. *)

(** [*encoded & 0xf] then [*encoded >> 4] for each of [bytes] (IMA.cpp:184-191, 216-222). *)
Fixpoint decodePairs (st : adpcmState) (bytes : list Z) : res (list Z * adpcmState) :=
  match bytes with
  | [] => Ok ([], st)
  | b :: rest =>
      do (x, st) <- decodeSample st (Z.land b 15);
      do (y, st) <- decodeSample st (Z.shiftr b 4);
      do (l, st) <- decodePairs st rest;
      Ok (x :: y :: l, st)
  end.

(** IMA.cpp:166-177: the block headers; the previous contents of the state are overwritten. *)
Fixpoint decodeHeadersWAVE (channels : nat) (encoded : list Z) : res (list adpcmState * list Z) :=
  match channels with
  | O => Ok ([], encoded)
  | S ch' =>
      match encoded with
      | e0 :: e1 :: e2 :: _ :: rest =>
          let p := Z.lor (Z.shiftl e1 8) e0 in
          let p := if Z.testbit e1 7 then p - 65536 else p in
          do (sts, rest) <- decodeHeadersWAVE ch' rest;
          Ok (mkState p e2 :: sts, rest)
      | _ => UB
      end
  end.

(** IMA.cpp:181-192: four bytes for each channel in turn. *)
Fixpoint decodeGroup (sts : list adpcmState) (encoded : list Z)
  : res (list (list Z) * list adpcmState * list Z) :=
  match sts with
  | [] => Ok ([], [], encoded)
  | st :: sts' =>
      if (length encoded <? 4)%nat then UB else
      do (col, st) <- decodePairs st (firstn 4 encoded);
      do (cols, sts'', rest) <- decodeGroup sts' (skipn 4 encoded);
      Ok (col :: cols, st :: sts'', rest)
  end.

(** IMA.cpp:179-195 *)
Fixpoint decodeGroupsWAVE (n : nat) (sts : list adpcmState) (encoded : list Z)
  : res (list (list Z) * list adpcmState) :=
  match n with
  | O => Ok ([], sts)
  | S n' =>
      do (cols, sts, rest) <- decodeGroup sts encoded;
      do (frames, sts) <- decodeGroupsWAVE n' sts rest;
      Ok (interleave 8 cols ++ frames, sts)
  end.

(** IMA.cpp:162-198 [decodeBlockWAVE]: the frames written to [decoded] and the final states.  Writing
    more than framesPerPacket frames (framesPerPacket - 1 not a multiple of 8) would leave the output
    block: undefined behaviour. *)
Definition decodeBlockWAVE (framesPerPacket : Z) (channels : nat) (encoded : list Z)
  : res (list (list Z) * list adpcmState) :=
  do (sts, rest) <- decodeHeadersWAVE channels encoded;
  do (frames, sts') <- decodeGroupsWAVE (groupsWAVE framesPerPacket) sts rest;
  let all := map previousValue sts :: frames in
  if zlen all >? framesPerPacket then UB else Ok (all, sts').

(** IMA.cpp:205-223: one channel of a QuickTime block; returns the unread bytes. *)
Definition decodeChannelQT (framesPerPacket : Z) (encoded : list Z)
  : res (list Z * adpcmState * list Z) :=
  match encoded with
  | e0 :: e1 :: rest =>
      let p := Z.lor (Z.shiftl e0 8) (Z.land e1 128) in
      let p := if Z.testbit p 15 then p - 65536 else p in
      let st := mkState (clamp16 p) (Z.land e1 127) in
      let n := (framesPerPacket + 1) / 2 in
      if zlen rest <? n then UB else
      do (col, st) <- decodePairs st (zfirstn n rest);
      Ok (col, st, zskipn n rest)
  | _ => UB
  end.

Fixpoint decodeChannelsQT (framesPerPacket : Z) (channels : nat) (encoded : list Z)
  : res (list (list Z) * list adpcmState) :=
  match channels with
  | O => Ok ([], [])
  | S ch' =>
      do (col, st, rest) <- decodeChannelQT framesPerPacket encoded;
      do (cols, sts) <- decodeChannelsQT framesPerPacket ch' rest;
      Ok (col :: cols, st :: sts)
  end.

(** IMA.cpp:201-226 [decodeBlockQT] *)
Definition decodeBlockQT (framesPerPacket : Z) (channels : nat) (encoded : list Z)
  : res (list (list Z) * list adpcmState) :=
  do (cols, sts) <- decodeChannelsQT framesPerPacket channels encoded;
  Ok (interleave (Z.to_nat framesPerPacket) cols, sts).

(** ** Block loops (BlockCodec.cpp) *)

(** BlockCodec.cpp:94-99: encode [n] consecutive blocks; the input buffer holds at least that many. *)
Fixpoint encodeBlocks {S : Type} (enc : S -> list (list Z) -> res (list Z * S)) (fpp : nat)
  (n : nat) (st : S) (frames : list (list Z)) : res (list Z * S) :=
  match n with
  | O => Ok ([], st)
  | Datatypes.S n' =>
      do (bytes, st) <- enc st (firstn fpp frames);
      do (rest, st) <- encodeBlocks enc fpp n' st (skipn fpp frames);
      Ok (bytes ++ rest, st)
  end.

(** BlockCodec.cpp:53-59: decode [n] consecutive blocks of [bpp] bytes. *)
Fixpoint decodeBlocks (dec : list Z -> res (list (list Z))) (bpp : nat) (n : nat) (data : list Z)
  : res (list (list Z)) :=
  match n with
  | O => Ok []
  | S n' =>
      do frames <- dec (firstn bpp data);
      do rest <- decodeBlocks dec bpp n' (skipn bpp data);
      Ok (frames ++ rest)
  end.

(** WAVE.cpp:1556-1570, AIFF.cpp:1170-1184, CAF.cpp:687-701 [initIMACompressionParams]. *)
Definition imaWAVE_fpp : Z := 505.
Definition imaWAVE_bpp (channels : nat) : Z := 256 * Z.of_nat channels.
Definition imaQT_fpp : Z := 64.
Definition imaQT_bpp (channels : nat) : Z := 34 * Z.of_nat channels.
