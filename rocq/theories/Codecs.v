(** * The file modules of the library as writers and readers of frames

    A frame is the list of its samples.  These definitions only connect the sample and block codecs (G711,
    IMA, MSADPCM, ByteOrder) to the frame machinery of Writer and Reader. *)
From Verif Require Import Prelude ByteOrder G711 FileIO Reader Writer IMA.
From Verif Require MSADPCM.

(** One integer sample of [n] bytes as it is stored (PCM.cpp:92-106 writes the chunk as it is; the byte
    swapping and 24-bit packing modules before it are those of Convert and ByteOrder).  Samples are two's
    complement or unsigned: both store the value modulo 256^n. *)
Definition sampleBytes (o : order) (n : nat) (x : Z) : list Z :=
  match o with BigEndian => be_bytes n x | LittleEndian => le_bytes n x end.
Definition sampleOf (o : order) (sgn : bool) (n : nat) (b : list Z) : Z :=
  let v := match o with BigEndian => be_val b | LittleEndian => le_val b end in
  if sgn then sN (8 * Z.of_nat n) v else v.

(** PCM.cpp *)
Definition pcmW (o : order) (n : nat) (ch : Z) : wcodec (list Z) unit :=
  WPerFrame true (Z.of_nat n * ch) (fun fr => concat (map (sampleBytes o n) fr)).
Definition pcmR (o : order) (sgn : bool) (n : nat) (ch : Z) : codec (list Z) :=
  PerFrame true (Z.of_nat n * ch) (fun b => map (sampleOf o sgn n) (chunksOf (Z.to_nat ch) (Z.of_nat n) b)).

(** G711.cpp:123-136, 183-200 *)
Definition ulawW (ch : Z) : wcodec (list Z) unit := WPerFrame false ch linear2ulaw_buf.
Definition ulawR (ch : Z) : codec (list Z) := PerFrame false ch ulaw2linear_buf.
Definition alawW (ch : Z) : wcodec (list Z) unit := WPerFrame false ch linear2alaw_buf.
Definition alawR (ch : Z) : codec (list Z) := PerFrame false ch alaw2linear_buf.

(** IMA.cpp:57-95 *)
Definition imaQTW (ch : nat) : wcodec (list Z) (list adpcmState) := WBlocks imaQT_fpp (imaQT_bpp ch) (encodeBlockQT imaQT_fpp).
Definition imaQTR (ch : nat) : codec (list Z) :=
  Blocks imaQT_fpp (imaQT_bpp ch) (fun b => rmap fst (decodeBlockQT imaQT_fpp ch b)).
Definition imaWAVEW (ch : nat) : wcodec (list Z) (list adpcmState) := WBlocks imaWAVE_fpp (imaWAVE_bpp ch) (encodeBlockWAVE imaWAVE_fpp).
Definition imaWAVER (ch : nat) : codec (list Z) :=
  Blocks imaWAVE_fpp (imaWAVE_bpp ch) (fun b => rmap fst (decodeBlockWAVE imaWAVE_fpp ch b)).

(** MSADPCM.cpp:94-149; the chunk holds the samples of one frame after the other. *)
Definition ms1Enc (e : list MSADPCM.ms_state) (b : list (list Z)) : res (list Z * list MSADPCM.ms_state) :=
    match e with
    | [st] => do (d, st) <- MSADPCM.encodeBlock1 MSADPCM.defaultCoefficients st (concat b); Ok (d, [st])
    | _ => UB
    end.
Definition ms1W : wcodec (list Z) (list MSADPCM.ms_state) := WBlocks MSADPCM.msadpcm_fpp (MSADPCM.msadpcm_bpp 1) ms1Enc.
Definition ms2Enc (e : list MSADPCM.ms_state) (b : list (list Z)) : res (list Z * list MSADPCM.ms_state) :=
    match e with
    | [sl; sr] => do (d, sl, sr) <- MSADPCM.encodeBlock2 MSADPCM.defaultCoefficients sl sr (concat b); Ok (d, [sl; sr])
    | _ => UB
    end.
Definition ms2W : wcodec (list Z) (list MSADPCM.ms_state) := WBlocks MSADPCM.msadpcm_fpp (MSADPCM.msadpcm_bpp 2) ms2Enc.
Fixpoint pairUp (l : list Z) : list (list Z) :=
  match l with x :: y :: l' => [x; y] :: pairUp l' | _ => [] end.
Definition ms1R {B : Build} : codec (list Z) :=
  Blocks MSADPCM.msadpcm_fpp (MSADPCM.msadpcm_bpp 1) (fun b =>
    rmap (map (fun x => [x])) (MSADPCM.decodeBlock1 MSADPCM.defaultCoefficients 249 b)).
Definition ms2R {B : Build} : codec (list Z) :=
  Blocks MSADPCM.msadpcm_fpp (MSADPCM.msadpcm_bpp 2) (fun b =>
    rmap pairUp (MSADPCM.decodeBlock2 MSADPCM.defaultCoefficients 498 b)).
