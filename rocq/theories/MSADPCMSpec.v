(** * What MS ADPCM coding is supposed to reproduce: the encoder's own reconstruction *)
From Verif Require Import Prelude MSADPCM.

(** Encoder state after coding [x]; its [sample1] is the reconstruction of [x]. *)
Definition mstep (coef : Z * Z) (st : ms_state) (x : Z) : ms_state :=
  match encodeSample st x coef with Ok (_, st') => st' | _ => st end.

(** The reconstruction of one channel's samples. *)
Fixpoint mrecon (coef : Z * Z) (st : ms_state) (xs : list Z) : list Z :=
  match xs with
  | [] => []
  | x :: rest => let st' := mstep coef st x in sample1 st' :: mrecon coef st' rest
  end.

(** Interleaving of two channels. *)
Fixpoint zip2 (l r : list Z) : list Z :=
  match l, r with x :: l', y :: r' => x :: y :: zip2 l' r' | _, _ => [] end.

Definition s16ok (x : Z) : Prop := -32768 <= x <= 32767.

(** Encoder states: step at least 16 and representable in 16 bits, samples 16-bit. *)
Definition msInv (st : ms_state) : Prop :=
  16 <= delta st <= 65535 /\ s16ok (sample1 st) /\ s16ok (sample2 st).

(** Coefficient pairs whose prediction cannot overflow. *)
Definition coefOk (c : Z * Z) : Prop := Z.abs (fst c) + Z.abs (snd c) <= 768.

(** Decoding a sequence of codes of one channel. *)
Fixpoint decodeCodes (c : Z * Z) (st : ms_state) (codes : list Z) : res (list Z * ms_state) :=
  match codes with
  | [] => Ok ([], st)
  | k :: rest => do (x, st) <- decodeSample st k c; do (l, st) <- decodeCodes c st rest; Ok (x :: l, st)
  end.
