(** * What IMA ADPCM coding is supposed to reproduce: the encoder's own reconstruction *)
From Verif Require Import Prelude IMA.

(** Encoder state after coding sample [x] (its [previousValue] is the encoder's idea of [x]). *)
Definition estep (st : adpcmState) (x : Z) : adpcmState :=
  match encodeSample st x with Ok (_, st') => st' | _ => st end.

(** All channels of one frame. *)
Definition frameStep (sts : list adpcmState) (frame : list Z) : list adpcmState :=
  map (fun '(st, x) => estep st x) (combine sts frame).

(** The encoder's reconstruction of a sequence of frames, and its final states. *)
Fixpoint reconFrames (sts : list adpcmState) (frames : list (list Z)) : list (list Z) :=
  match frames with
  | [] => []
  | f :: rest => let sts' := frameStep sts f in map previousValue sts' :: reconFrames sts' rest
  end.
Definition finalStates (sts : list adpcmState) (frames : list (list Z)) : list adpcmState :=
  fold_left frameStep frames sts.

(** A legal codec state, and a buffer of frames with [ch] channels. *)
Definition legal (st : adpcmState) : Prop :=
  -32768 <= previousValue st <= 32767 /\ 0 <= index st <= 88.
Definition frames_of (ch : nat) (frames : list (list Z)) : Prop := Forall (fun f => length f = ch) frames.

(** QuickTime blocks start from the state rounded down to a multiple of 128. *)
Definition roundQT (st : adpcmState) : adpcmState :=
  mkState (128 * (previousValue st / 128)) (index st).

(** The reconstruction of a QuickTime stream of [n] blocks of [fpp] frames. *)
Fixpoint reconStreamQT (fpp n : nat) (sts : list adpcmState) (frames : list (list Z)) : list (list Z) :=
  match n with
  | O => []
  | S n' => reconFrames (map roundQT sts) (firstn fpp frames) ++
            reconStreamQT fpp n' (finalStates (map roundQT sts) (firstn fpp frames)) (skipn fpp frames)
  end.

(** Decoding of a sequence of codes by one channel. *)
Fixpoint decodeCodes (st : adpcmState) (codes : list Z) : res (list Z * adpcmState) :=
  match codes with
  | [] => Ok ([], st)
  | c :: rest => do (x, st) <- decodeSample st c; do (l, st) <- decodeCodes st rest; Ok (x :: l, st)
  end.
