(** * PacketTable.cpp and the packet table chunk of CAF.cpp *)
From Verif Require Import Prelude ByteOrder FileIO Codecs HeaderIO.

(** PacketTable.h:101-128 *)
Record ptable := mkPT { pt_valid : Z; pt_priming : Z; pt_remainder : Z; pt_sizes : list Z }.

(** PacketTable.cpp:58-61 [append] *)
Definition ptAppend (t : ptable) (n : Z) : ptable :=
  mkPT (pt_valid t) (pt_priming t) (pt_remainder t) (pt_sizes t ++ [n]).

(** PacketTable.cpp:63-69 [startOfPacket]: off_t plus size_t is computed in 64-bit unsigned and converted back;
    an index at or beyond the number of packets reads outside the vector. *)
Fixpoint startLoop (n : nat) (sizes : list Z) (i offset : Z) : res Z :=
  match n with
  | O => Ok offset
  | S n' => do x <- aget sizes i; startLoop n' sizes (i + 1) (s64 (u64 (u64 offset + x)))
  end.
Definition startOfPacket (t : ptable) (packet : Z) : res Z := startLoop (Z.to_nat packet) (pt_sizes t) 0 0.

(** CAF.cpp:392-406 [readBERInteger]: the value and the new *numBytes; [input] is what is left of the buffer
    (its length is *numBytes on entry).  The loop makes at most six rounds. *)
Fixpoint berLoop (fuel : nat) (input : list Z) (result size : Z) : res (Z * Z) :=
  match fuel with
  | O => OutOfFuel
  | S fuel' =>
      do data <- aget input size;
      let result := u32 (Z.lor (u32 (Z.shiftl result 7)) (Z.land data 0x7f)) in
      let size := size + 1 in
      if 5 <? size then Ok (0, zlen input)
      else if negb (Z.land data 0x80 =? 0) && (size <? zlen input) then berLoop fuel' input result size
      else Ok (result, size)
  end.
Definition readBER (input : list Z) : res (Z * Z) := berLoop 6 input 0 0.

(** CAF.cpp:408-445 [encodeBERInteger]; [value] is a uint32_t, the bytes are stored through a uint8_t pointer. *)
Definition encodeBER (value : Z) : list Z :=
  if Z.land value 0x7f =? value then [u8 value]
  else if Z.land value 0x3fff =? value then [u8 (Z.lor (Z.shiftr value 7) 0x80); u8 (Z.land value 0x7f)]
  else if Z.land value 0x1fffff =? value then
    [u8 (Z.lor (Z.shiftr value 14) 0x80); u8 (Z.lor (Z.land (Z.shiftr value 7) 0x7f) 0x80); u8 (Z.land value 0x7f)]
  else if Z.land value 0x0fffffff =? value then
    [u8 (Z.lor (Z.shiftr value 21) 0x80); u8 (Z.lor (Z.land (Z.shiftr value 14) 0x7f) 0x80);
     u8 (Z.lor (Z.land (Z.shiftr value 7) 0x7f) 0x80); u8 (Z.land value 0x7f)]
  else
    [u8 (Z.lor (Z.shiftr value 28) 0x80); u8 (Z.lor (Z.land (Z.shiftr value 21) 0x7f) 0x80);
     u8 (Z.lor (Z.land (Z.shiftr value 14) 0x7f) 0x80); u8 (Z.lor (Z.land (Z.shiftr value 7) 0x7f) 0x80); u8 (Z.land value 0x7f)].

(** CAF.cpp:476-486: the loop over the table *)
Fixpoint tableLoop (fuel : nat) (data : list Z) (position : Z) (acc : list Z) : res (list Z) :=
  match fuel with
  | O => OutOfFuel
  | S fuel' =>
      if position <? zlen data then
        do r <- readBER (zskipn position data);
        let '(v, n) := r in
        if v =? 0 then Ok acc else tableLoop fuel' data (position + n) (acc ++ [v])
      else Ok acc
  end.

(** CAF.cpp:447-495 [parsePacketTable]: [None] when the chunk has no packets (the track keeps what it had).
    Simplification: allocating the buffer succeeds. *)
Definition paktParse {B : Build} (length : Z) : hP (option ptable) :=
  if length <? 24 then hfail else
  let! numPackets := needU BigEndian 8 in
  let! numValid := needU BigEndian 8 in
  let! priming := needU BigEndian 4 in
  let! remainder := needU BigEndian 4 in
  if numPackets =? 0 then hret None else
  let tableLength := length - 24 in
  let! data := hread tableLength in
  if negb (zlen data =? tableLength) then hfail else
  let! sizes := hlift (tableLoop (S (List.length data)) data 0 []) in
  let! _ := hassert (numPackets =? zlen sizes) in
  hret (Some (mkPT (s64 numValid) (s32 priming) (s32 remainder) sizes)).

(** CAF.cpp:627-637: the encoded sizes, each first converted to uint32_t *)
Definition paktTable (sizes : list Z) : list Z := flat_map (fun x => encodeBER (u32 x)) sizes.

(** CAF.cpp:612-654 [writePacketTable]: the chunk. *)
Definition pakt_tag : list Z := [112; 97; 107; 116].
Definition paktBody (t : ptable) : list Z :=
  sampleBytes BigEndian 8 (zlen (pt_sizes t)) ++ sampleBytes BigEndian 8 (pt_valid t) ++
  sampleBytes BigEndian 4 (pt_priming t) ++ sampleBytes BigEndian 4 (pt_remainder t) ++ paktTable (pt_sizes t).
Definition paktChunk (t : ptable) : list Z :=
  pakt_tag ++ sampleBytes BigEndian 8 (24 + zlen (paktTable (pt_sizes t))) ++ paktBody t.

(** modules/ALAC.cpp:258-271 [reset1], [reset2]: seeking to [next]; the file position, the frame the packet
    starts with and the frames to skip.  [next] is nonnegative; the division is by a size_t; the packet number
    is kept in an int. *)
Definition alacSeek (t : ptable) (first fpp next : Z) : res (Z * Z * Z) :=
  if fpp =? 0 then UB else
  let cur := s32 (u64 next / fpp) in
  let frame := s64 (u64 (u64 cur * fpp)) in
  if cur <? 0 then UB else
  do s <- startOfPacket t cur;
  Ok (first + s, frame, next - frame).
