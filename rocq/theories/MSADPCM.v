(** * modules/MSADPCM.cpp: Microsoft ADPCM

    All int arithmetic is checked ([ck32]).  A block of decoded audio is the flat list of its
    interleaved samples, as the code walks it; [mono] says whether channelCount is 1 (only 1 and 2
    channels pass _af_ms_adpcm_format_ok, MSADPCM.cpp:416-423). *)
From Verif Require Import Prelude.

(** MSADPCM.cpp:44-57 *)
Record ms_state := mkMs { predictorIndex : Z; delta : Z; sample1 : Z; sample2 : Z }.
Definition ms_init : ms_state := mkMs 0 16 0 0.

(** MSADPCM.cpp:91-96 and pcm.h limits. *)
Definition clampZ (x low high : Z) : Z := if x <? low then low else if x >? high then high else x.

(** MSADPCM.cpp:98-102 *)
Definition adaptationTable : list Z :=
  [230; 230; 230; 230; 307; 409; 512; 614; 768; 614; 512; 409; 307; 230; 230; 230].

(** WAVE.cpp:1574-1583: the coefficients written by the library. *)
Definition defaultCoefficients : list (Z * Z) :=
  [(256, 0); (512, -256); (0, 0); (192, 64); (240, 0); (460, -208); (392, -232)].

(** MSADPCM.cpp:108-109 and 130-131: the linear prediction. *)
Definition predict (st : ms_state) (coef : Z * Z) : res Z :=
  do p <- ck32 (sample1 st * fst coef);
  do q <- ck32 (sample2 st * snd coef);
  do t <- ck32 (p + q);
  Ok (Z.shiftr t 8).

(** [(code & 0x08) ? (code - 0x10) : code] *)
Definition signedCode (code : Z) : Z := if Z.testbit code 3 then code - 16 else code.

(** MSADPCM.cpp:105-124 [decodeSample] *)
Definition decodeSample (st : ms_state) (code : Z) (coef : Z * Z) : res (Z * ms_state) :=
  do p <- predict st coef;
  do d <- ck32 (signedCode code * delta st);
  do l <- ck32 (p + d);
  let linearSample := clampZ l (-32768) 32767 in
  do a <- aget adaptationTable code;
  do t <- ck32 (delta st * a);
  let dl := Z.shiftr t 8 in
  let dl := if dl <? 16 then 16 else dl in
  Ok (s16 linearSample, mkMs (predictorIndex st) dl (s16 linearSample) (sample1 st)).

(** MSADPCM.cpp:127-147 [encodeSample]; C integer division truncates. *)
Definition encodeSample (st : ms_state) (sample : Z) (coef : Z * Z) : res (Z * ms_state) :=
  do predictor <- predict st coef;
  do code <- ck32 (sample - predictor);
  let bias := Z.quot (delta st) 2 in
  let bias := if code <? 0 then - bias else bias in
  do num <- ck32 (code + bias);
  if delta st =? 0 then UB else
  let code := Z.quot num (delta st) in
  let code := Z.land (clampZ code (-8) 7) 15 in
  do d <- ck32 (signedCode code * delta st);
  do predictor <- ck32 (predictor + d);
  do a <- aget adaptationTable code;
  do t <- ck32 (a * delta st);
  let dl := Z.shiftr t 8 in
  let dl := if dl <? 16 then 16 else dl in
  Ok (code, mkMs (predictorIndex st) dl (s16 (clampZ predictor (-32768) 32767)) (sample1 st)).

(** MSADPCM.cpp:275-282: the sample loop of [encodeBlock].  For mono, state[0] and state[1] are the
    same object. *)
Fixpoint encodePairs (mono : bool) (c0 c1 : Z * Z) (s0 s1 : ms_state) (samples : list Z)
  : res (list Z * ms_state * ms_state) :=
  match samples with
  | x :: y :: rest =>
      do (code1, s0) <- encodeSample s0 x c0;
      let s1 := if mono then s0 else s1 in
      do (code2, s1) <- encodeSample s1 y c1;
      let s0 := if mono then s1 else s0 in
      do (bytes, s0, s1) <- encodePairs mono c0 c1 s0 s1 rest;
      Ok (Z.lor (Z.shiftl code1 4) code2 :: bytes, s0, s1)
  | [] => Ok ([], s0, s1)
  | _ => UB
  end.

(** MSADPCM.cpp:211-226: the sample loop of [decodeBlock] over the code bytes. *)
Fixpoint decodePairs (mono : bool) (c0 c1 : Z * Z) (s0 s1 : ms_state) (bytes : list Z)
  : res (list Z * ms_state * ms_state) :=
  match bytes with
  | [] => Ok ([], s0, s1)
  | b :: rest =>
      do (x, s0) <- decodeSample s0 (Z.shiftr b 4) c0;
      let s1 := if mono then s0 else s1 in
      do (y, s1) <- decodeSample s1 (Z.land b 15) c1;
      let s0 := if mono then s1 else s0 in
      do (l, s0, s1) <- decodePairs mono c0 c1 s0 s1 rest;
      Ok (x :: y :: l, s0, s1)
  end.

(** MSADPCM.cpp:302-311: the error of one coefficient pair over samples 2..4 of a channel. *)
Definition predictorError (x0 x1 x2 x3 x4 : Z) (coef : Z * Z) : res Z :=
  let err c p2 p1 :=
    do a <- ck32 (fst coef * p1); do b <- ck32 (snd coef * p2); do t <- ck32 (a + b);
    do e <- ck32 (c - Z.shiftr t 8); ck32 (Z.abs e) in
  do e2 <- err x2 x0 x1;
  do e3 <- err x3 x1 x2;
  do s <- ck32 (e2 + e3);
  do e4 <- err x4 x2 x3;
  do s <- ck32 (s + e4);
  Ok (Z.quot s 12).

(** MSADPCM.cpp:295-321: best index and error so far; the loop stops at a zero error. *)
Fixpoint choose (x0 x1 x2 x3 x4 : Z) (k : Z) (coefs : list (Z * Z)) (bestI bestE : Z) : res (Z * Z) :=
  match coefs with
  | [] => Ok (bestI, bestE)
  | c :: rest =>
      do e <- predictorError x0 x1 x2 x3 x4 c;
      let '(bestI, bestE) := if e <? bestE then (k, e) else (bestI, bestE) in
      if e =? 0 then Ok (bestI, bestE) else choose x0 x1 x2 x3 x4 (k + 1) rest bestI bestE
  end.

(** MSADPCM.cpp:287-329 for one channel, whose first five samples are [x0..x4]. *)
Definition choosePredictor (coefs : list (Z * Z)) (x0 x1 x2 x3 x4 : Z) (st : ms_state) : res ms_state :=
  do (i, e) <- choose x0 x1 x2 x3 x4 0 coefs 0 2147483647;
  let e := if e <? 16 then 16 else e in
  Ok (mkMs (u8 i) e (sample1 st) (sample2 st)).

(** Two bytes, low first (MSADPCM.cpp:244-245, 257-258, 263-264). *)
Definition put16 (x : Z) : list Z := [Z.land x 255; u8 (Z.shiftr x 8)].

(** MSADPCM.cpp:231-285 [encodeBlock], one channel. *)
Definition encodeBlock1 (coefs : list (Z * Z)) (st : ms_state) (samples : list Z)
  : res (list Z * ms_state) :=
  match samples with
  | x0 :: x1 :: x2 :: x3 :: x4 :: _ =>
      do st <- choosePredictor coefs x0 x1 x2 x3 x4 st;
      let st := mkMs (predictorIndex st) (delta st) x1 x0 in
      do c <- aget coefs (predictorIndex st);
      do (bytes, st', _) <- encodePairs true c c st st (skipn 2 samples);
      Ok ([predictorIndex st] ++ put16 (delta st) ++ put16 (sample1 st) ++ put16 (sample2 st) ++ bytes, st')
  | _ => UB
  end.

(** MSADPCM.cpp:231-285 [encodeBlock], two channels. *)
Definition encodeBlock2 (coefs : list (Z * Z)) (sl sr : ms_state) (samples : list Z)
  : res (list Z * ms_state * ms_state) :=
  match samples with
  | l0 :: r0 :: l1 :: r1 :: l2 :: r2 :: l3 :: r3 :: l4 :: r4 :: _ =>
      do sl <- choosePredictor coefs l0 l1 l2 l3 l4 sl;
      do sr <- choosePredictor coefs r0 r1 r2 r3 r4 sr;
      let sl := mkMs (predictorIndex sl) (delta sl) l1 l0 in
      let sr := mkMs (predictorIndex sr) (delta sr) r1 r0 in
      do cl <- aget coefs (predictorIndex sl);
      do cr <- aget coefs (predictorIndex sr);
      do (bytes, sl', sr') <- encodePairs false cl cr sl sr (skipn 4 samples);
      Ok ([predictorIndex sl; predictorIndex sr] ++ put16 (delta sl) ++ put16 (delta sr) ++
          put16 (sample1 sl) ++ put16 (sample1 sr) ++ put16 (sample2 sl) ++ put16 (sample2 sr) ++ bytes, sl', sr')
  | _ => UB
  end.

(** [(encoded[1]<<8) | encoded[0]] (MSADPCM.cpp:176,183,189). *)
Definition get16 (lo hi : Z) : Z := Z.lor (Z.shiftl hi 8) lo.

(** MSADPCM.cpp:150-229 [decodeBlock].  [n] is the number of iterations of the sample loop,
    ceil((framesPerPacket - 2) * channelCount / 2); reading past the block is undefined behaviour and a
    predictor index out of range fails the assertion of line 170.  Coefficients come from the file. *)
Definition decodeBlock1 {B : Build} (coefs : list (Z * Z)) (n : nat) (encoded : list Z) : res (list Z) :=
  match encoded with
  | i :: d0 :: d1 :: a0 :: a1 :: b0 :: b1 :: rest =>
      do _ <- rassert (i <? zlen coefs);
      do c <- aget coefs i;
      let st := mkMs i (get16 d0 d1) (s16 (get16 a0 a1)) (s16 (get16 b0 b1)) in
      if (length rest <? n)%nat then UB else
      do (l, _, _) <- decodePairs true c c st st (firstn n rest);
      Ok (sample2 st :: sample1 st :: l)
  | _ => UB
  end.

Definition decodeBlock2 {B : Build} (coefs : list (Z * Z)) (n : nat) (encoded : list Z) : res (list Z) :=
  match encoded with
  | i :: j :: d0 :: d1 :: e0 :: e1 :: a0 :: a1 :: f0 :: f1 :: b0 :: b1 :: g0 :: g1 :: rest =>
      do _ <- rassert (i <? zlen coefs);
      do _ <- rassert (j <? zlen coefs);
      do cl <- aget coefs i;
      do cr <- aget coefs j;
      let sl := mkMs i (get16 d0 d1) (s16 (get16 a0 a1)) (s16 (get16 b0 b1)) in
      let sr := mkMs j (get16 e0 e1) (s16 (get16 f0 f1)) (s16 (get16 g0 g1)) in
      if (length rest <? n)%nat then UB else
      do (l, _, _) <- decodePairs false cl cr sl sr (firstn n rest);
      Ok (sample2 sl :: sample2 sr :: sample1 sl :: sample1 sr :: l)
  | _ => UB
  end.

(** WAVE.cpp:1589-1590 *)
Definition msadpcm_fpp : Z := 500.
Definition msadpcm_bpp (channels : Z) : Z := 256 * channels.
