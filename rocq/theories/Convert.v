(** * modules/SimpleModule.h / .cpp: the integer sample converters

    Buffers are lists of sample values (the in-memory C integers); floating-point samples are
    modelled separately in [FloatConv]. *)
From Verif Require Import Prelude ByteOrder.

(** modules/Module.h FormatCode (integer part) *)
Inductive intcode := kInt8 | kInt16 | kInt24 | kInt32.

(** Number of significant bits ((Format + 1) * CHAR_BIT, SimpleModule.h:125,456). *)
Definition bits (c : intcode) : Z :=
  match c with kInt8 => 8 | kInt16 => 16 | kInt24 => 24 | kInt32 => 32 end.
(** Bits of the C type holding a sample in memory (IntTypes, SimpleModule.h:107-117). *)
Definition cbits (c : intcode) : Z :=
  match c with kInt8 => 8 | kInt16 => 16 | kInt24 => 32 | kInt32 => 32 end.
(** Numeric FormatCode. *)
Definition codenum (c : intcode) : Z :=
  match c with kInt8 => 0 | kInt16 => 1 | kInt24 => 2 | kInt32 => 3 end.

(** SimpleModule.h:125-127 *)
Definition kScaleBits (c : intcode) : Z := (codenum c + 1) * 8 - 1.
Definition kMaxSignedValue (c : intcode) : Z :=
  Z.shiftl (Z.shiftl 1 (kScaleBits c - 1) - 1) 1 + 1.
Definition kMinSignedValue (c : intcode) : Z := - kMaxSignedValue c - 1.

(** SimpleModule.h:129-132 [signedToUnsigned]: int subtraction (signed overflow is undefined
    behaviour, possible only for kInt32), result converted to the unsigned type. *)
Definition signedToUnsigned (c : intcode) (x : Z) : res Z :=
  do t <- ck32 (x - kMinSignedValue c); Ok (uN (cbits c) t).

(** SimpleModule.h:134-137 [unsignedToSigned].  For 8 and 16 bits the addition is done in int; for
    24 and 32 bits in unsigned int, where the constant wraps; either way the result converted to
    the signed type is the value modulo 2^n. *)
Definition unsignedToSigned (c : intcode) (x : Z) : Z :=
  sN (cbits c) (uN 32 (uN (cbits c) x + kMinSignedValue c)).

(** SimpleModule.h:254-271 [Expand3To4Module::run]: one sample.  [t] is int32_t or uint32_t. *)
Definition expand3 (host : order) (isSigned : bool) (b : list Z) : res Z :=
  match b with
  | [c0; c1; c2] =>
      let t := match host with
               | BigEndian => Z.lor (Z.lor (Z.shiftl c0 24) (Z.shiftl c1 16)) (Z.shiftl c2 8)
               | LittleEndian => Z.lor (Z.lor (Z.shiftl c2 24) (Z.shiftl c1 16)) (Z.shiftl c0 8)
               end in
      let t := if isSigned then s32 t else u32 t in
      Ok (Z.shiftr t 8)
  | _ => UB
  end.

(** SimpleModule.h:297-323 [Compress4To3Module::run] and [extract3]: one sample. *)
Definition compress4 (host : order) (x : Z) : list Z :=
  match host with
  | BigEndian => [Z.land (Z.shiftr x 16) 255; Z.land (Z.shiftr x 8) 255; Z.land x 255]
  | LittleEndian => [Z.land x 255; Z.land (Z.shiftr x 8) 255; Z.land (Z.shiftr x 16) 255]
  end.

(** SimpleModule.h:392-402,468-492 [ConvertInt]: [x << (out-in)*8] or [x >> (in-out)*8], stored in
    the signed type of the output code.  A left shift leaving the int range is undefined
    behaviour; shifting a negative value left is taken as multiplication, as every supported
    compiler does (and C++20 requires). *)
Definition convertInt (i o : intcode) (x : Z) : res Z :=
  if codenum i >? codenum o
  then Ok (sN (cbits o) (Z.shiftr x ((codenum i - codenum o) * 8)))
  else do t <- ck32 (Z.shiftl x ((codenum o - codenum i) * 8)); Ok (sN (cbits o) t).

(** SimpleModule.h:588-604 [Clip::run] for the integer types, limits already converted to the
    sample type. *)
Definition clipInt (minValue maxValue x : Z) : Z := Z.max (Z.min x maxValue) minValue.

(** ** Channel matrix (SimpleModule.cpp:39-174)

    The arithmetic type of the matrix is a parameter: [D] with [mul], [add], [zero] and the
    conversions sample -> D and D -> sample.  [NativeMatrix] below instantiates it. *)
Section Matrix.
  Context {T D : Type}.
  Variables (ofT : T -> D) (toT : D -> res T) (mul add : D -> D -> D) (zero : D).

  (** SimpleModule.cpp:122-125: the inner loop for one output channel. *)
  Fixpoint dot (row : list D) (frame : list T) (acc : D) : D :=
    match row, frame with
    | m :: row', x :: frame' => dot row' frame' (add acc (mul (ofT x) m))
    | _, _ => acc
    end.

  (** SimpleModule.cpp:117-126: one frame; [rows] are the consecutive runs of m_inChannels entries of
      m_matrix. *)
  Definition matrix_frame (rows : list (list D)) (frame : list T) : res (list T) :=
    rmapM (fun row => toT (dot row frame zero)) rows.

  (** SimpleModule.cpp:115-127: all frames. *)
  Definition matrix_run (rows : list (list D)) (frames : list (list T)) : res (list (list T)) :=
    rmapM (matrix_frame rows) frames.

  (** SimpleModule.cpp:57-63: for writing the user's matrix (given by rows of outChannels entries, one
      per input channel) is transposed. *)
  Definition transpose_for_writing (inC outC : nat) (matrix : list (list D)) (dflt : D) : list (list D) :=
    map (fun j => map (fun i => nth j (nth i matrix []) dflt) (seq 0 inC)) (seq 0 outC).
End Matrix.

(** SimpleModule.cpp:130-174 [initDefaultMatrix], entries in halves (2 stands for 1.0, 1 for .5): the
    built-in entries 0, .5 and 1 and sums of at most a few products of 32-bit samples are exact in
    double arithmetic, so the model computes 2*t exactly in Z. *)
Definition identity_rows (inC outC : nat) : list (list Z) :=
  map (fun j => map (fun i => if (i =? j)%nat then 2 else 0) (seq 0 inC)) (seq 0 outC).
Definition default_matrix (inC outC : nat) : list (list Z) :=
  match inC, outC with
  | 1%nat, 2%nat => [[2]; [2]]
  | 1%nat, 4%nat => [[2]; [2]; [0]; [0]]
  | 2%nat, 1%nat => [[1; 1]]
  | 2%nat, 4%nat => [[2; 0]; [0; 2]; [0; 0]; [0; 0]]
  | 4%nat, 1%nat => [[1; 1; 1; 1]]
  | 4%nat, 2%nat => [[2; 0; 2; 0]; [0; 2; 0; 2]]
  | _, _ => identity_rows inC outC
  end.

(** SimpleModule.cpp:125 [*output++ = t] for an integer sample type of [w] bits: truncation toward
    zero; out of range is undefined behaviour.  [t2] is 2*t. *)
Definition store_half (w : Z) (t2 : Z) : res Z :=
  let t := Z.quot t2 2 in if inS w t then Ok t else UB.

(** ApplyChannelMatrix::run<intN_t> with the built-in matrix. *)
Definition mix_int (w : Z) (rows : list (list Z)) (frames : list (list Z)) : res (list (list Z)) :=
  matrix_run (fun x => x) (store_half w) Z.mul Z.add 0 rows frames.
