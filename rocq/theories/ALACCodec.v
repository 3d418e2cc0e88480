(** * The packets of the Apple Lossless codec

    /repo/libaudiofile/alac/ALACEncoder.cpp, ALACDecoder.cpp, matrix_enc.c and matrix_dec.c.

    Audio data is a list of sample values, interleaved by channel: 16-bit and 32-bit samples as they are in memory; a
    20- or 24-bit sample takes three bytes, and the model holds the signed number in those three bytes (the code puts
    it together from the bytes, matrix_enc.c:110, 154 and elsewhere; packing is C07). *)
From Verif Require Import Prelude PreludeFacts MetadataProofs ALACBits ALACGolomb ALACGolombProofs ALACPredict.

(** Every [stride]-th sample from number [i] on; outside the buffer it is undefined behaviour. *)
Fixpoint column (n : nat) (xs : list Z) (i stride : Z) : res (list Z) :=
  match n with
  | O => Ok []
  | S n' => do x <- aget xs i; do r <- column n' xs (i + stride) stride; Ok (x :: r)
  end.
Fixpoint storeColumn (out : list Z) (i stride : Z) (ys : list Z) : res (list Z) :=
  match ys with
  | [] => Ok out
  | y :: ys' => do out <- aset out i y; storeColumn out (i + stride) stride ys'
  end.

(** ** Mixing *)

(** ALACEncoder.cpp:296-301 and 825-830: bytes cut off each sample, in bits *)
Definition shiftOf (depth : Z) : Z := if depth =? 32 then 16 else if 24 <=? depth then 8 else 0.
(** matrix_enc.c:111-112, 155-156, 315-316 and 330-331: 20 bits are at the top of the 24; other depths are taken as they are *)
Definition inputOf (depth x : Z) : Z := if depth =? 20 then Z.shiftr x 4 else x.
(** matrix_enc.c:170-174, 283-287, ALACEncoder.cpp:863-867, 878-881: [x & mask] and [x >> shift] (no shift: 0 and [x]) *)
Definition lowOf (depth x : Z) : Z := Z.land (inputOf depth x) (2 ^ shiftOf depth - 1).
Definition highOf (depth x : Z) : Z := Z.shiftr (inputOf depth x) (shiftOf depth).
(** matrix_enc.c:58-345, mix16/20/24/32 for one frame *)
Definition mixOne {W : Arith} (mixbits mixres : Z) (lr : Z * Z) : res (Z * Z) :=
  let '(l, r) := lr in
  if mixres =? 0 then Ok (l, r)
  else
    do a <- i32 (mixres * l);
    do b <- i32 ((2 ^ mixbits - mixres) * r);
    do s <- i32 (a + b);
    do v <- i32 (l - r);
    Ok (Z.shiftr s mixbits, v).
(** matrix_dec.c:58-300, unmix16/20/24/32 for one frame; a shift by 32 or more is undefined *)
Definition unmixOne {W : Arith} (mixbits mixres : Z) (uv : Z * Z) : res (Z * Z) :=
  let '(u, v) := uv in
  if mixres =? 0 then Ok (u, v)
  else if 31 <? mixbits then UB
  else
    do m <- i32 (mixres * v);
    do s <- i32 (u + v);
    do l <- i32 (s - Z.shiftr m mixbits);
    do r <- i32 (l - v);
    Ok (l, r).
(** matrix_dec.c: what is stored for a value [y] of the predictor and the bits [low] that were shifted off; ALACDecoder.cpp:330-361
    and 553-577.  16- and 20-bit output takes no notice of shifted bits. *)
Definition outputOf (depth shift y low : Z) : Z :=
  let z := if shift =? 0 then y else Z.lor (Z.shiftl y shift) low in
  if depth =? 16 then s16 y
  else if depth =? 20 then sN 24 (Z.shiftl y 4)
  else if depth =? 24 then sN 24 z
  else s32 z.

(** ** Encoding *)

(** BitBufferWrite calls in order: (bits, value) *)
Fixpoint bbWrites (b : list Z) (p : Z) (l : fields) : res (list Z) :=
  match l with
  | [] => Ok b
  | (n, v) :: l' => do b' <- bbWrite b p v n; bbWrites b' (p + n) l'
  end.

(** What the search loops of the encoder decide on (ALACEncoder.cpp:311-437 and 884-930): the mixing weight, the numbers of
    coefficients, the coefficients the predictors start with (left behind by the previous blocks and by the search itself), and
    whether to give up on compression at once.  The theorems hold for any choice of the kind [choiceOk], so the search is not modelled. *)
Record choice := Choice { c_res : Z; c_numU : Z; c_numV : Z; c_coefsU : list Z; c_coefsV : list Z; c_escape : bool }.
Definition choiceOk (c : choice) : Prop :=
  0 <= c_res c <= 4 /\ (c_numU c = 4 \/ c_numU c = 8) /\ (c_numV c = 4 \/ c_numV c = 8) /\
  zlen (c_coefsU c) = c_numU c /\ zlen (c_coefsV c) = c_numV c /\ Forall (inRange 16) (c_coefsU c) /\ Forall (inRange 16) (c_coefsV c).

(** ALACEncoder.cpp:440-445, 728-740, 937-941, 985-990: the header; [flags] is [bytesShifted << 1] or 1 *)
Definition headFields (frameSize n flags : Z) : fields :=
  let partial := if n =? frameSize then 0 else 1 in
  [(12, 0); (4, Z.lor (Z.shiftl partial 3) flags)] ++ (if partial =? 1 then [(32, n)] else []).
(** ALACEncoder.cpp:452-459, 945-948: mode 0, DENSHIFT_DEFAULT 9, pbFactor 4 *)
Definition paramFields (num : Z) (coefs : list Z) : fields :=
  [(8, Z.lor (Z.shiftl 0 4) 9); (8, Z.lor (Z.shiftl 4 5) num)] ++ map (fun c => (16, c)) coefs.
(** ALACEncoder.cpp:434 and 927, in bits; simplification: no wrap-around, the code counts in uint32_t *)
Definition escapeBits (frameSize depth n elems : Z) : Z := n * depth * elems + (if n =? frameSize then 0 else 32) + 16.

(** ALACEncoder.cpp:732-785, EncodeStereoEscape; the sample's low [depth] bits *)
Definition stereoEscape (frameSize depth : Z) (b : list Z) (p : Z) (ls rs : list Z) : res (list Z * Z) :=
  let l := headFields frameSize (zlen ls) 1 ++
           concat (map (fun lr => [(depth, inputOf depth (fst lr)); (depth, inputOf depth (snd lr))]) (combine ls rs)) in
  do b <- bbWrites b p l; Ok (b, p + fbits l).
(** ALACEncoder.cpp:263-520, EncodeStereo *)
Definition encodeStereo {W : Arith} (frameSize depth : Z) (ch : choice) (b : list Z) (p : Z) (xs : list Z) (i stride n : Z) : res (list Z * Z) :=
  let shift := shiftOf depth in
  let chanBits := depth - shift + 1 in
  do ls <- column (Z.to_nat n) xs i stride;
  do rs <- column (Z.to_nat n) xs (i + 1) stride;
  if c_escape ch then stereoEscape frameSize depth b p ls rs
  else
    do uv <- rmapM (mixOne 2 (c_res ch)) (combine (map (highOf depth) ls) (map (highOf depth) rs));
    let l := headFields frameSize n (Z.shiftl (shift / 8) 1) ++ [(8, 2); (8, c_res ch)] ++
             paramFields (c_numU ch) (c_coefsU ch) ++ paramFields (c_numV ch) (c_coefsV ch) ++
             (if shift =? 0 then []
              else map (fun lr => (shift * 2, Z.lor (Z.shiftl (lowOf depth (fst lr)) shift) (lowOf depth (snd lr)))) (combine ls rs)) in
    do b <- bbWrites b p l;
    do eu <- pc_block frameSize (c_numU ch) chanBits 9 (c_coefsU ch) (map fst uv);
    do bp <- dyn_comp stdAg chanBits b (p + fbits l) eu;
    do ev <- pc_block frameSize (c_numV ch) chanBits 9 (c_coefsV ch) (map snd uv);
    do bp <- dyn_comp stdAg chanBits (fst bp) (snd bp) ev;
    if escapeBits frameSize depth n 2 <=? snd bp - p then stereoEscape frameSize depth (fst bp) p ls rs
    else Ok bp.

(** ALACEncoder.cpp:985-1018 *)
Definition monoEscape (frameSize depth : Z) (b : list Z) (p : Z) (ls : list Z) : res (list Z * Z) :=
  let l := headFields frameSize (zlen ls) 1 ++ map (fun x => (depth, inputOf depth x)) ls in
  do b <- bbWrites b p l; Ok (b, p + fbits l).
(** ALACEncoder.cpp:791-1018, EncodeMono *)
Definition encodeMono {W : Arith} (frameSize depth : Z) (ch : choice) (b : list Z) (p : Z) (xs : list Z) (i stride n : Z) : res (list Z * Z) :=
  let shift := shiftOf depth in
  let chanBits := depth - shift in
  do ls <- column (Z.to_nat n) xs i stride;
  if c_escape ch then monoEscape frameSize depth b p ls
  else
    let l := headFields frameSize n (Z.shiftl (shift / 8) 1) ++ [(16, 0)] ++ paramFields (c_numU ch) (c_coefsU ch) ++
             (if shift =? 0 then [] else map (fun x => (shift, lowOf depth x)) ls) in
    do b <- bbWrites b p l;
    do eu <- pc_block frameSize (c_numU ch) chanBits 9 (c_coefsU ch) (map (highOf depth) ls);
    do bp <- dyn_comp stdAg chanBits b (p + fbits l) eu;
    if escapeBits frameSize depth n 1 <=? snd bp - p then monoEscape frameSize depth (fst bp) p ls
    else Ok bp.

(** ALACBitUtilities.h:57-68: the element tags *)
Definition ID_SCE := 0. Definition ID_CPE := 1. Definition ID_LFE := 3. Definition ID_END := 7.
(** ALACEncoder.cpp:82-92, sChannelMaps *)
Definition channelMap (channels : Z) : Z :=
  nth (Z.to_nat (channels - 1))
    [ID_SCE; ID_CPE;
     Z.lor (Z.shiftl ID_CPE 3) ID_SCE;
     Z.lor (Z.lor (Z.shiftl ID_SCE 9) (Z.shiftl ID_CPE 3)) ID_SCE;
     Z.lor (Z.lor (Z.shiftl ID_CPE 9) (Z.shiftl ID_CPE 3)) ID_SCE;
     Z.lor (Z.lor (Z.lor (Z.shiftl ID_SCE 15) (Z.shiftl ID_CPE 9)) (Z.shiftl ID_CPE 3)) ID_SCE;
     Z.lor (Z.lor (Z.lor (Z.lor (Z.shiftl ID_SCE 18) (Z.shiftl ID_SCE 15)) (Z.shiftl ID_CPE 9)) (Z.shiftl ID_CPE 3)) ID_SCE;
     Z.lor (Z.lor (Z.lor (Z.lor (Z.shiftl ID_SCE 21) (Z.shiftl ID_CPE 15)) (Z.shiftl ID_CPE 9)) (Z.shiftl ID_CPE 3)) ID_SCE] 0.
(** ALACEncoder.cpp:1086 *)
Definition elementTag (channels c : Z) : Z := Z.shiftr (Z.land (channelMap channels) (Z.shiftl 7 (c * 3))) (c * 3).

(** ALACEncoder.cpp:1040-1134: the channels of a packet; one and two channels have code of their own (1040-1064) that does the same.
    [None]: kALAC_ParamError. *)
Fixpoint encodeLoop {W : Arith} (fuel : nat) (frameSize depth channels : Z) (pick : Z -> choice) (b : list Z) (p : Z) (xs : list Z) (c n mono stereo lfe : Z)
  : res (option (list Z * Z)) :=
  if channels <=? c then Ok (Some (b, p)) else
  match fuel with
  | O => OutOfFuel
  | S fuel' =>
      let tag := elementTag channels c in
      if tag =? ID_SCE then
        do b <- bbWrites b p [(3, tag); (4, mono)];
        do bp <- encodeMono frameSize depth (pick c) b (p + 7) xs c channels n;
        encodeLoop fuel' frameSize depth channels pick (fst bp) (snd bp) xs (c + 1) n (u8 (mono + 1)) stereo lfe
      else if tag =? ID_CPE then
        do b <- bbWrites b p [(3, tag); (4, stereo)];
        do bp <- encodeStereo frameSize depth (pick c) b (p + 7) xs c channels n;
        encodeLoop fuel' frameSize depth channels pick (fst bp) (snd bp) xs (c + 2) n mono (u8 (stereo + 1)) lfe
      else if tag =? ID_LFE then
        do b <- bbWrites b p [(3, tag); (4, lfe)];
        do bp <- encodeMono frameSize depth (pick c) b (p + 7) xs c channels n;
        encodeLoop fuel' frameSize depth channels pick (fst bp) (snd bp) xs (c + 1) n mono stereo (u8 (lfe + 1))
      else Ok None
  end.
(** ALACEncoder.cpp:1025-1163, Encode: [n] frames of [xs] into the buffer [b]; the result is the buffer and the size of the packet. *)
Definition encode {W : Arith} (frameSize depth channels : Z) (pick : Z -> choice) (b xs : list Z) (n : Z) : res (option (list Z * Z)) :=
  do r <- encodeLoop (Z.to_nat channels) frameSize depth channels pick b 0 xs 0 n 0 0 0;
  match r with
  | None => Ok None
  | Some (b, p) =>
      do b <- bbWrite b p ID_END 3;
      do b <- bbByteAlign b (p + 3);
      Ok (Some (b, alignUp (p + 3) / 8))
  end.

(** ** Decoding *)

(** The decoder's configuration, from the magic cookie (ALACDecoder.cpp:86-146).  Its buffers have [g_frame] elements. *)
Record config := Config { g_frame : Z; g_depth : Z; g_pb : Z; g_mb : Z; g_kb : Z }.

Fixpoint readMany (count : nat) (b : list Z) (p n : Z) : res (list Z) :=
  match count with
  | O => Ok []
  | S k => do x <- bbRead b p n; do r <- readMany k b (p + n) n; Ok (x :: r)
  end.
Record head := Head { h_partial : bool; h_bytes : Z; h_escape : bool; h_samples : Z; h_pos : Z }.
(** ALACDecoder.cpp:204-236 and 376-409; [None]: kALAC_ParamError *)
Definition readHead (b : list Z) (p n : Z) : res (option head) :=
  do inst <- bbReadSmall b p 4;
  do unused <- bbRead b (p + 4) 12;
  if negb (unused =? 0) then Ok None else
  do h <- bbRead b (p + 16) 4;
  let bytes := Z.land (Z.shiftr h 1) 3 in
  if bytes =? 3 then Ok None else
  let esc := negb (Z.land h 1 =? 0) in
  if negb (Z.shiftr h 3 =? 0) then
    do hi <- bbRead b (p + 20) 16;
    do lo <- bbRead b (p + 36) 16;
    Ok (Some (Head true bytes esc (Z.lor (u32 (Z.shiftl hi 16)) lo) (p + 52)))
  else Ok (Some (Head false bytes esc n (p + 20))).
Record params := Params { q_mode : Z; q_den : Z; q_pb : Z; q_num : Z; q_coefs : list Z; q_pos : Z }.
(** ALACDecoder.cpp:244-253, 417-434 *)
Definition readParams (b : list Z) (p : Z) : res params :=
  do h <- bbRead b p 8;
  do h2 <- bbRead b (p + 8) 8;
  let num := Z.land h2 31 in
  do cs <- readMany (Z.to_nat num) b (p + 16) 16;
  Ok (Params (Z.shiftr h 4) (Z.land h 15) (Z.shiftr h2 5) num (map s16 cs) (p + 16 + 16 * num)).
(** ALACDecoder.cpp:264-279, 444-477: dyn_decomp and the predictor *)
Definition readResidual {W : Arith} (g : config) (chanBits : Z) (b : list Z) (size p n : Z) (q : params) : res (option (list Z * Z)) :=
  if (chanBits <? 1) && (0 <? n) then UB else
  do r <- dyn_decomp {| ag_mb := g_mb g; ag_pb := g_pb g * q_pb q / 4; ag_kb := g_kb g |} chanBits b size p n (g_frame g);
  match r with
  | None => Ok None
  | Some (ds, p) =>
      do ds <- (if q_mode q =? 0 then Ok ds else unpc_block (g_frame g) 31 chanBits 0 [] ds);
      do ys <- unpc_block (g_frame g) (q_num q) chanBits (q_den q) (q_coefs q) ds;
      Ok (Some (ys, p))
  end.
(** ALACDecoder.cpp:284-307 and 479-512: one uncompressed sample.  More than 16 bits are read in two parts. *)
Definition readRaw (b : list Z) (p chanBits : Z) : res Z :=
  if chanBits <=? 16 then do v <- bbRead b p chanBits; Ok (signExtend chanBits v)
  else
    do v <- bbRead b p 16;
    do w <- bbRead b (p + 16) (chanBits - 16);
    Ok (Z.lor (Z.shiftr (s32 (Z.shiftl v 16)) (32 - chanBits)) w).
Fixpoint readRaws (count : nat) (b : list Z) (p chanBits : Z) : res (list Z) :=
  match count with
  | O => Ok []
  | S k => do x <- readRaw b p chanBits; do r <- readRaws k b (p + chanBits) chanBits; Ok (x :: r)
  end.
(** One sample of each of two channels in turn. *)
Fixpoint unzip2 (l : list Z) : list (Z * Z) :=
  match l with x :: y :: l' => (x, y) :: unzip2 l' | _ => [] end.

(** What an element leaves: an error ends the packet; otherwise the position, the number of frames and the output buffer. *)
Definition element := option (Z * Z * list Z).

(** ALACDecoder.cpp:198-365, a mono or LFE element.  [BitBufferAdvance] takes a uint32_t. *)
Definition decodeMono {W : Arith} (g : config) (b : list Z) (size p n c channels : Z) (out : list Z) : res element :=
  do h <- readHead b p n;
  match h with
  | None => Ok None
  | Some h =>
      let n := h_samples h in
      let bytes := h_bytes h in
      let chanBits := g_depth g - bytes * 8 in
      do r <-
        (if h_escape h then
           if (chanBits <? 1) || (g_frame g <? n) then UB else
           do us <- readRaws (Z.to_nat n) b (h_pos h) chanBits;
           Ok (Some (us, 0, map (fun _ => 0) us, h_pos h + chanBits * n))
         else
           do _ <- bbRead b (h_pos h) 8;
           do _ <- bbRead b (h_pos h + 8) 8;
           do q <- readParams b (h_pos h + 16);
           let start := q_pos q in
           let p := if bytes =? 0 then start else start + u32 (bytes * 8 * n) in
           do r <- readResidual g chanBits b size p n q;
           match r with
           | None => Ok None
           | Some (us, p) =>
               do lows <- (if bytes =? 0 then Ok (map (fun _ => 0) us) else readMany (Z.to_nat n) b start (bytes * 8));
               Ok (Some (us, bytes * 8, lows, p))
           end);
      match r with
      | None => Ok None
      | Some (us, shift, lows, p) =>
          do out <- storeColumn out c channels (map (fun ul => outputOf (g_depth g) shift (fst ul) (snd ul)) (combine us lows));
          Ok (Some (p, n, out))
      end
  end.

(** ALACDecoder.cpp:367-582, a channel pair.  Simplification: the two channels are stored one after the other. *)
Definition decodeStereo {W : Arith} (g : config) (b : list Z) (size p n c channels : Z) (out : list Z) : res element :=
  do h <- readHead b p n;
  match h with
  | None => Ok None
  | Some h =>
      let n := h_samples h in
      let bytes := h_bytes h in
      let chanBits := g_depth g - bytes * 8 + 1 in
      do r <-
        (if h_escape h then
           if (g_depth g <? 1) || (g_frame g <? n) then UB else
           do us <- readRaws (Z.to_nat (2 * n)) b (h_pos h) (g_depth g);
           Ok (Some (unzip2 us, 0, map (fun _ => (0, 0)) (unzip2 us), 0, 0, h_pos h + g_depth g * (2 * n)))
         else
           do mixBits <- bbRead b (h_pos h) 8;
           do mixRes <- bbRead b (h_pos h + 8) 8;
           do qU <- readParams b (h_pos h + 16);
           do qV <- readParams b (q_pos qU);
           let start := q_pos qV in
           let p := if bytes =? 0 then start else start + u32 (bytes * 8 * 2 * n) in
           do r <- readResidual g chanBits b size p n qU;
           match r with
           | None => Ok None
           | Some (us, p) =>
               do r <- readResidual g chanBits b size p n qV;
               match r with
               | None => Ok None
               | Some (vs, p) =>
                   do lows <- (if bytes =? 0 then Ok (map (fun _ => (0, 0)) us)
                               else do l <- readMany (Z.to_nat (2 * n)) b start (bytes * 8); Ok (unzip2 l));
                   Ok (Some (combine us vs, bytes * 8, lows, mixBits, s8 mixRes, p))
               end
           end);
      match r with
      | None => Ok None
      | Some (uv, shift, lows, mixBits, mixRes, p) =>
          do lr <- rmapM (unmixOne mixBits mixRes) uv;
          do out <- storeColumn out c channels (map (fun x => outputOf (g_depth g) shift (fst (fst x)) (fst (snd x))) (combine lr lows));
          do out <- storeColumn out (c + 1) channels (map (fun x => outputOf (g_depth g) shift (snd (fst x)) (snd (snd x))) (combine lr lows));
          Ok (Some (p, n, out))
      end
  end.

(** ALACDecoder.cpp:672-687, FillElement: the new position; [None]: kALAC_ParamError *)
Definition fillElement (b : list Z) (size p : Z) : res (option Z) :=
  do c <- bbReadSmall b p 4;
  do cp <- (if c =? 15 then do e <- bbReadSmall b (p + 4) 8; Ok (c + e - 1, p + 12) else Ok (c, p + 4));
  let p := snd cp + 8 * fst cp in
  if p / 8 <=? size then Ok (Some p) else Ok None.
(** ALACDecoder.cpp:693-720, DataStreamElement.  Simplification: BitBufferReadOne, which looks at one byte only, is read like the rest. *)
Definition dataElement (b : list Z) (size p : Z) : res (option Z) :=
  do _ <- bbReadSmall b p 4;
  do a <- bbReadSmall b (p + 4) 1;
  do c <- bbReadSmall b (p + 5) 8;
  do cp <- (if c =? 255 then do e <- bbReadSmall b (p + 13) 8; Ok (c + e, p + 21) else Ok (c, p + 13));
  let p := if a =? 0 then snd cp else alignUp (snd cp) in
  let p := p + 8 * fst cp in
  if p / 8 <=? size then Ok (Some p) else Ok None.

(** ALACDecoder.cpp:640-662: channels that are missing are silent; 20-bit ones are left as they are *)
Fixpoint silence (fuel : nat) (depth n c channels : Z) (out : list Z) : res (list Z) :=
  if channels <=? c then Ok out else
  match fuel with
  | O => OutOfFuel
  | S fuel' =>
      do out <- (if depth =? 20 then Ok out else storeColumn out c channels (zrepeat 0 n));
      silence fuel' depth n (c + 1) channels out
  end.
(** Whether an error was reported, the number of frames and the output buffer. *)
Record decoded := Decoded { r_error : bool; r_frames : Z; r_out : list Z }.
Definition endSilent (err : bool) (depth n c channels frames : Z) (out : list Z) : res decoded :=
  do out <- silence (Z.to_nat channels) depth n c channels out; Ok (Decoded err frames out).

(** ALACDecoder.cpp:185-668, Decode.  Every element takes at least three bits of the packet, so that [8 * size + 1] turns of the loop
    are enough. *)
Fixpoint decodeLoop {W : Arith} (fuel : nat) (g : config) (b : list Z) (size p n c channels frames : Z) (out : list Z) : res decoded :=
  match fuel with
  | O => OutOfFuel
  | S fuel' =>
      if size <=? p / 8 then Ok (Decoded true frames out) else
      do tag <- bbReadSmall b p 3;
      let p := p + 3 in
      let go (p n c frames : Z) (out : list Z) :=
        if channels <=? c then endSilent false (g_depth g) n c channels frames out
        else decodeLoop fuel' g b size p n c channels frames out in
      if (tag =? ID_SCE) || (tag =? ID_LFE) then
        do e <- decodeMono g b size p n c channels out;
        match e with
        | None => Ok (Decoded true frames out)
        | Some (p, n, out) => go p n (c + 1) n out
        end
      else if tag =? ID_CPE then
        if channels <? c + 2 then endSilent false (g_depth g) n c channels frames out else
        do e <- decodeStereo g b size p n c channels out;
        match e with
        | None => Ok (Decoded true frames out)
        | Some (p, n, out) => go p n (c + 2) n out
        end
      else if tag =? ID_END then Ok (Decoded false frames out)
      else if tag =? 4 then
        do e <- dataElement b size p;
        match e with None => endSilent true (g_depth g) n c channels frames out | Some p => go p n c frames out end
      else if tag =? 6 then
        do e <- fillElement b size p;
        match e with None => endSilent true (g_depth g) n c channels frames out | Some p => go p n c frames out end
      else endSilent true (g_depth g) n c channels frames out
  end.
(** The packet is the first [size] bytes of [b]; [n] frames are asked for. *)
Definition decode {W : Arith} (g : config) (b : list Z) (size n channels : Z) (out : list Z) : res decoded :=
  if channels <=? 0 then Ok (Decoded true n out)
  else decodeLoop (Z.to_nat (8 * size + 1)) g b size 0 n 0 channels n out.
