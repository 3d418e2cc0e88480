(** * byteorder.h and the integer I/O of FileHandle.cpp *)
From Verif Require Import Prelude.

(** byteorder.h:34-37 [_af_byteswap_int16]; x is a uint16_t promoted to int, result truncated. *)
Definition byteswap16 (x : Z) : Z := u16 (Z.lor (Z.shiftr x 8) (Z.shiftl x 8)).

(** byteorder.h:39-45 [_af_byteswap_int32] (uint32_t arithmetic). *)
Definition byteswap32 (x : Z) : Z :=
  Z.lor (Z.lor (Z.lor (u32 (Z.shiftl (Z.land x 0xff) 24))
                      (u32 (Z.shiftl (Z.land x 0xff00) 8)))
               (Z.shiftr (Z.land x 0xff0000) 8))
        (Z.shiftr (Z.land x 0xff000000) 24).

(** byteorder.h:47-57 [_af_byteswap_int64] (uint64_t arithmetic). *)
Definition byteswap64 (x : Z) : Z :=
  Z.lor (Z.lor (Z.lor (Z.lor (Z.lor (Z.lor (Z.lor
    (u64 (Z.shiftl (Z.land x 0xff) 56))
    (u64 (Z.shiftl (Z.land x 0xff00) 40)))
    (u64 (Z.shiftl (Z.land x 0xff0000) 24)))
    (u64 (Z.shiftl (Z.land x 0xff000000) 8)))
    (Z.shiftr (Z.land x 0xff00000000) 8))
    (Z.shiftr (Z.land x 0xff0000000000) 24))
    (Z.shiftr (Z.land x 0xff000000000000) 40))
    (Z.shiftr (Z.land x 0xff00000000000000) 56).

(** Byte orders (audiofile.h AF_BYTEORDER_*; the host order is the macro _AF_BYTEORDER_NATIVE,
    byteorder.h:28-32, here an explicit parameter). *)
Inductive order := BigEndian | LittleEndian.
Definition order_eqb (a b : order) : bool :=
  match a, b with BigEndian, BigEndian | LittleEndian, LittleEndian => true | _, _ => false end.

(** How the host stores an [n]-byte unsigned object in memory, and reads one. *)
Definition store (host : order) (n : nat) (x : Z) : list Z :=
  match host with BigEndian => be_bytes n x | LittleEndian => le_bytes n x end.
Definition load (host : order) (l : list Z) : Z :=
  match host with BigEndian => be_val l | LittleEndian => le_val l end.

(** byteorder.h:83-91 [byteswap], by object size. *)
Definition byteswap (n : nat) (x : Z) : Z :=
  match n with
  | 2%nat => byteswap16 x
  | 4%nat => byteswap32 x
  | 8%nat => byteswap64 x
  | _ => x
  end.

(** FileHandle.cpp:362-370 [swapValue] with byteorder.h:93-115 [bigToHost]/[littleToHost]. *)
Definition swapValue (host : order) (n : nat) (x : Z) (fmt : order) : Z :=
  if order_eqb host fmt then x else byteswap n x.

(** FileHandle.cpp:372-378 [readSwap] applied to the bytes read ([None]: short read, line 375);
    readU16/readU32/readU64 (390-413) are the instances n = 2, 4, 8.  readFloat/readDouble
    (420-428) are the instances n = 4, 8 on the bit pattern. *)
Definition readSwap (host fmt : order) (n : nat) (l : list Z) : option (Z * list Z) :=
  if (n <=? length l)%nat
  then Some (swapValue host n (load host (firstn n l)) fmt, skipn n l)
  else None.

(** FileHandle.cpp:380-385 [writeSwap]: the bytes handed to the file. *)
Definition writeSwap (host fmt : order) (n : nat) (x : Z) : list Z :=
  store host n (swapValue host n x fmt).

(** FileHandle.cpp:387,430 [readU8]/[writeU8]. *)
Definition readU8b (l : list Z) : option (Z * list Z) :=
  match l with b :: l' => Some (b, l') | [] => None end.

(** modules/SimpleModule.h:86-95: the 3-byte case of [SwapModule::runSwap]; 2, 4 and 8 bytes use
    [byteswap] on the loaded value (78-83).  One sample given as its bytes in memory. *)
Definition swap_sample (host : order) (bytes : list Z) : list Z :=
  match bytes with
  | [b0; b1; b2] => [b2; b1; b0]
  | _ => store host (length bytes) (byteswap (length bytes) (load host bytes))
  end.
