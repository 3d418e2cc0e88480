(** * modules/ModuleState.cpp, modules/SimpleModule.h: the chain of sample converters

    A sample in a buffer is an integer of one of the in-memory types or a float or a double.  Byte order and
    3-byte packing change how an integer sample is laid out, not its value, so at this level the swap, expand
    and compress modules do nothing (their effect on the bytes is C05 and C07). *)
From Verif Require Import Prelude ByteOrder Convert Float.

(** modules/Module.h:31-40 [FormatCode] *)
Inductive code := kI (c : intcode) | kFloat | kDouble.
Definition code_eqb (a b : code) : bool :=
  match a, b with
  | kI a, kI b => codenum a =? codenum b
  | kFloat, kFloat | kDouble, kDouble => true
  | _, _ => false
  end.

(** AudioFormat.h: PCMInfo *)
Record pcmInfo := { slope : spec_float; intercept : spec_float; minClip : spec_float; maxClip : spec_float }.
Inductive sampfmt := TWOSCOMP | UNSIGNED | FLOAT | DOUBLE.
(** AudioFormat.h: the fields of AudioFormat [arrange] uses. *)
Record format := { sampleFormat : sampfmt; sampleWidth : Z; channelCount : Z; byteOrder : order; compressed : bool; pcm : pcmInfo }.

Definition isUnsigned (f : format) : bool := match sampleFormat f with UNSIGNED => true | _ => false end.
Definition isIntegerF (f : format) : bool := match sampleFormat f with UNSIGNED | TWOSCOMP => true | _ => false end.
(** AudioFormat.cpp:32-49 [bytesPerSample] *)
Definition bytesPerSample (stretch : bool) (f : format) : Z :=
  match sampleFormat f with
  | FLOAT => 4
  | DOUBLE => 8
  | _ => let size := Z.quot (sampleWidth f + 7) 8 in if negb (compressed f) && (size =? 3) && stretch then 4 else size
  end.

(** pcm.cpp:40-62: the default mappings *)
Definition signedMapping (c : intcode) : pcmInfo :=
  {| slope := dOfZ (2 ^ (bits c - 1)); intercept := dOfZ 0; minClip := dOfZ (- 2 ^ (bits c - 1)); maxClip := dOfZ (2 ^ (bits c - 1) - 1) |}.
Definition unsignedMapping (c : intcode) : pcmInfo :=
  {| slope := dOfZ (2 ^ (bits c - 1)); intercept := dOfZ (2 ^ (bits c - 1)); minClip := dOfZ 0; maxClip := dOfZ (2 ^ bits c - 1) |}.
Definition floatMapping : pcmInfo := {| slope := dOfZ 1; intercept := dOfZ 0; minClip := dOfZ 0; maxClip := dOfZ 0 |}.

(** ModuleState.cpp:255-276 [getFormatCode]; integer widths outside 1..32 have no code. *)
Definition getFormatCode (f : format) : option code :=
  match sampleFormat f with
  | FLOAT => Some kFloat
  | DOUBLE => Some kDouble
  | _ => match bytesPerSample false f with
         | 1 => Some (kI kInt8) | 2 => Some (kI kInt16) | 3 => Some (kI kInt24) | 4 => Some (kI kInt32)
         | _ => None
         end
  end.

(** util.cpp:320-361 [_af_set_sample_format]: [None] when the format is refused. *)
Definition setSampleFormat (f : format) (sf : sampfmt) (w : Z) : option format :=
  let set w m := Some {| sampleFormat := sf; sampleWidth := w; channelCount := channelCount f; byteOrder := byteOrder f; compressed := compressed f; pcm := m |} in
  match sf with
  | FLOAT => set 32 floatMapping
  | DOUBLE => set 64 floatMapping
  | _ =>
      if (w <? 1) || (32 <? w) then None
      else let m c := if match sf with TWOSCOMP => true | _ => false end then signedMapping c else unsignedMapping c in
           match Z.quot (w + 7) 8 with
           | 1 => set w (m kInt8) | 2 => set w (m kInt16) | 3 => set w (m kInt24) | _ => set w (m kInt32)
           end
  end.

(** The modules of modules/SimpleModule.h. *)
Inductive module :=
| MSwap
| MExpand3 (isSigned : bool)
| MCompress3 (isSigned : bool)
| MSign (c : intcode) (fromSigned : bool)
| MClip (c : code) (m : pcmInfo)
| MIntToFloat (i : intcode) (double : bool)
| MTransform (double : bool) (i o : pcmInfo)
| MIntToInt (i o : intcode)
| MFloatToInt (double : bool) (o : intcode) (im om : pcmInfo)
| MFloatToFloat (toDbl : bool)
| MMatrix (c : code) (rows : list (list spec_float)).

(** ModuleState.cpp:280-290 [isTrivialIntMapping], [isTrivialIntClip] *)
Definition trivialMapping (m : pcmInfo) (c : code) : bool :=
  match c with
  | kI c => SFeqb (slope m) (slope (signedMapping c)) && SFeqb (intercept m) (intercept (signedMapping c))
  | _ => false
  end.
Definition trivialClip (m : pcmInfo) (c : code) : bool :=
  match c with
  | kI c => SFeqb (minClip m) (minClip (signedMapping c)) && SFeqb (maxClip m) (maxClip (signedMapping c))
  | _ => false
  end.
Definition shiftPCM (m : pcmInfo) (shift : spec_float) : pcmInfo :=
  {| slope := slope m; intercept := dadd (intercept m) shift; minClip := dadd (minClip m) shift; maxClip := dadd (maxClip m) shift |}.

(** [-(1 << (bits - 1))] in int (SimpleModule.h:155, 459): overflows for 32 bits, where [wrapv] says that the
    compiler lets signed negation wrap. *)
Definition negShift (wrapv : bool) (n : Z) : res Z :=
  let t := - s32 (2 ^ (n - 1)) in if inS 32 t then Ok t else if wrapv then Ok (s32 t) else UB.

(** SimpleModule.cpp:130-174 with double entries. *)
Definition dhalf (h : Z) : spec_float := dldexp (dOfZ h) (-1).
Definition matrixRows (isReading : bool) (inC outC : Z) (user : option (list (list spec_float))) : list (list spec_float) :=
  match user with
  | Some m => if isReading then m else transpose_for_writing (Z.to_nat inC) (Z.to_nat outC) m (dOfZ 0)
  | None => map (map dhalf) (default_matrix (Z.to_nat inC) (Z.to_nat outC))
  end.

Definition when {A} (b : bool) (l : list A) : list A := if b then l else [].

(** ModuleState.cpp:325-403, the part of [arrange] that deals with values: sign, clipping, mapping, conversion,
    channels.  [uin], [uout]: whether the formats are unsigned; [mtx]: the channel matrix module, if needed.
    The chunk formats matter only through their PCM mapping after the sign module (line 330).
    The byte count of an integer format (SimpleModule.h:152) is that of its code. *)
Definition arrangeCore (wrapv uin uout : bool) (infc outfc : code) (pin pout : pcmInfo) (mtx : list module) : res (list module) :=
  (* 326-330 *)
  do im <- (match uin, infc with
            | true, kI c => do s <- negShift wrapv (bits c); Ok (shiftPCM pin (dOfZ s))
            | _, _ => Ok pin
            end);
  let m3 := match uin, infc with true, kI c => [MSign c false] | _, _ => [] end in
  (* 333-339 *)
  let om := match uout, outfc with true, kI c => shiftPCM pout (minClip (signedMapping c)) | _, _ => pout end in
  (* 342 *)
  let m4 := when (SFltb (minClip im) (maxClip im) && negb (trivialClip im infc)) [MClip infc im] in
  (* 348-351 *)
  let transforming := (negb (SFeqb (slope im) (slope om)) || negb (SFeqb (intercept im) (intercept om)))
                      && negb (trivialMapping im infc && trivialMapping om outfc) in
  (* 354-366 *)
  let '(m5, infc) :=
    match infc, transforming with
    | kI c, true =>
        let dbl := code_eqb infc (kI kInt32) || code_eqb outfc kDouble || code_eqb outfc (kI kInt32) in
        ([MIntToFloat c dbl], if dbl then kDouble else kFloat)
    | _, _ => ([], infc)
    end in
  (* 368 *)
  let m6 := when (transforming && code_eqb infc kDouble && match outfc with kI _ => false | _ => true end) [MTransform true im om] in
  (* 372-383; ConvertInt::describe (459) computes the negated shift *)
  do m7 <- (match infc, outfc with
            | kI i, kI o => if codenum i =? codenum o then Ok [] else do _ <- negShift wrapv (bits o); Ok [MIntToInt i o]
            | kI i, kFloat => Ok [MIntToFloat i false]
            | kI i, kDouble => Ok [MIntToFloat i true]
            | kFloat, kI o => Ok [MFloatToInt false o im om]
            | kDouble, kI o => Ok [MFloatToInt true o im om]
            | kFloat, kDouble => Ok [MFloatToFloat true]
            | kDouble, kFloat => Ok [MFloatToFloat false]
            | _, _ => Ok []
            end);
  let already := match infc, outfc with kFloat, kI _ | kDouble, kI _ => true | _, _ => false end in
  (* 385 *)
  let m8 := when (transforming && negb already && negb (code_eqb infc kDouble)) [MTransform (code_eqb outfc kDouble) im om] in
  (* 395 *)
  let m10 := when (negb already && SFltb (minClip om) (maxClip om) && negb (trivialClip om outfc)) [MClip outfc om] in
  (* 402 *)
  do m11 <- (match uout, outfc with
             | true, kI c => do _ <- negShift wrapv (bits c); Ok [MSign c true]
             | _, _ => Ok []
             end);
  Ok (m3 ++ m4 ++ m5 ++ m6 ++ m7 ++ m8 ++ mtx ++ m10 ++ m11).

(** ModuleState.cpp:293-444 [arrange], without the file and rebuffer modules.  [AF_FAIL] is [None]. *)
Definition arrange (wrapv : bool) (host : order) (isReading : bool) (fin fout : format) (matrix : option (list (list spec_float))) : res (option (list module)) :=
  match getFormatCode fin, getFormatCode fout with
  | Some infc, Some outfc =>
      let ne a b := match a, b with BigEndian, LittleEndian | LittleEndian, BigEndian => true | _, _ => false end in
      (* 314-323 *)
      let m1 := when (ne (byteOrder fin) host && (1 <? bytesPerSample (negb isReading) fin) && negb (compressed fin)) [MSwap] in
      let m2 := when (isIntegerF fin && (bytesPerSample false fin =? 3) && (isReading || compressed fin)) [MExpand3 (negb (isUnsigned fin))] in
      (* 388 *)
      let m9 := when (negb (channelCount fin =? channelCount fout)) [MMatrix outfc (matrixRows isReading (channelCount fin) (channelCount fout) matrix)] in
      do core <- arrangeCore wrapv (isUnsigned fin) (isUnsigned fout) infc outfc (pcm fin) (pcm fout) m9;
      (* 406-419 *)
      let m12 := when (isIntegerF fout && (bytesPerSample false fout =? 3) && (negb isReading || compressed fout)) [MCompress3 (negb (isUnsigned fout))] in
      let m13 := when (ne (byteOrder fout) host && (1 <? bytesPerSample isReading fout) && negb (compressed fout)) [MSwap] in
      Ok (Some (m1 ++ m2 ++ core ++ m12 ++ m13))
  | _, _ => Ok None
  end.

(** ** Running the chain *)

(** A sample in memory: signed or unsigned integer of a code, float, double. *)
Inductive smp := SI (c : intcode) (z : Z) | SU (c : intcode) (z : Z) | SF (f : spec_float) | SD (f : spec_float).

(** std::min and std::max *)
Definition fmin (a b : spec_float) : spec_float := if SFltb b a then b else a.
Definition fmax (a b : spec_float) : spec_float := if SFltb a b then b else a.

(** SimpleModule.h:753-757 (Transform) and 675-676 (ConvertFloatToIntClip): [m * src + b] in double. *)
Definition affine (i o : pcmInfo) (x : spec_float) : spec_float :=
  let m := ddiv (slope o) (slope i) in
  let b := dsub (intercept o) (dmul m (intercept i)) in
  dadd (dmul m x) b.

(** SimpleModule.h:670-690: the sample as a double already. *)
Definition floatToIntClip (w : Z) (i o : pcmInfo) (x : spec_float) : res Z :=
  toInt w (fmax (fmin (affine i o x) (maxClip o)) (minClip o)).

(** A sample of the wrong type for the module: the buffer would be read as something it is not.  [Abort] marks
    that case; C59 shows that it does not happen. *)
Definition run1 (m : module) (s : smp) : res smp :=
  match m, s with
  | MSwap, _ | MExpand3 _, _ | MCompress3 _, _ => Ok s
  | MSign c true, SI c' z => if codenum c =? codenum c' then rmap (SU c) (signedToUnsigned c z) else Abort
  | MSign c false, SU c' z => if codenum c =? codenum c' then Ok (SI c (unsignedToSigned c z)) else Abort
  | MClip (kI c) p, SI c' z =>
      if codenum c =? codenum c' then do lo <- toInt (cbits c) (minClip p); do hi <- toInt (cbits c) (maxClip p); Ok (SI c (clipInt lo hi z)) else Abort
  | MClip kFloat p, SF f => Ok (SF (fmax (fmin f (toFloat (maxClip p))) (toFloat (minClip p))))
  | MClip kDouble p, SD f => Ok (SD (fmax (fmin f (maxClip p)) (minClip p)))
  | MIntToFloat c dbl, SI c' z => if codenum c =? codenum c' then Ok (if dbl then SD (dOfZ z) else SF (fOfZ z)) else Abort
  | MTransform true i o, SD f => Ok (SD (affine i o f))
  | MTransform false i o, SF f => Ok (SF (toFloat (affine i o (toDouble f))))
  | MIntToInt i o, SI c z => if codenum i =? codenum c then rmap (SI o) (convertInt i o z) else Abort
  | MFloatToInt true o i p, SD f => rmap (SI o) (floatToIntClip (cbits o) i p f)
  | MFloatToInt false o i p, SF f => rmap (SI o) (floatToIntClip (cbits o) i p (toDouble f))
  | MFloatToFloat true, SF f => Ok (SD (toDouble f))
  | MFloatToFloat false, SD f => Ok (SF (toFloat f))
  | _, _ => Abort
  end.

(** SimpleModule.cpp:108-128 [ApplyChannelMatrix::run<T>]: a frame. *)
Definition ofSmp (c : code) (s : smp) : spec_float :=
  match s with SI _ z => dOfZ z | SU _ z => dOfZ z | SF f => toDouble f | SD f => f end.
Definition toSmp (c : code) (t : spec_float) : res smp :=
  match c with kI c => rmap (SI c) (toInt (cbits c) t) | kFloat => Ok (SF (toFloat t)) | kDouble => Ok (SD t) end.
Definition hasCode (c : code) (s : smp) : bool :=
  match c, s with kI c, SI c' _ => codenum c =? codenum c' | kFloat, SF _ => true | kDouble, SD _ => true | _, _ => false end.

Definition runModule (m : module) (frame : list smp) : res (list smp) :=
  match m with
  | MMatrix c rows => if forallb (hasCode c) frame then matrix_frame (ofSmp c) (toSmp c) dmul dadd (dOfZ 0) rows frame else Abort
  | _ => rmapM (run1 m) frame
  end.
Fixpoint runChain (ms : list module) (frame : list smp) : res (list smp) :=
  match ms with
  | [] => Ok frame
  | m :: ms' => do f <- runModule m frame; runChain ms' f
  end.
