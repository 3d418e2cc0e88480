(** * What a written file must contain *)
From Verif Require Import Prelude FileIO Writer.

Section Spec.
Context {F V E : Type}.

(** Cutting frames into blocks of [n]; a short last block is completed with the frames at the same places
    of the block before it ([prev]; memory contents at the start). *)
Fixpoint cut (fuel : nat) (n : Z) (prev : list F) (l : list F) : list (list F) :=
  match fuel, l with
  | O, _ | _, [] => []
  | S fuel', _ => let b := zfirstn n l ++ zskipn (zlen l) prev in b :: cut fuel' n b (zskipn n l)
  end.

(** Encoding the blocks one after the other. *)
Fixpoint encodeAll (encB : E -> list F -> res (list Z * E)) (e : E) (blocks : list (list F)) : res (list Z) :=
  match blocks with
  | [] => Ok []
  | b :: blocks' => do (d, e) <- encB e b; do ds <- encodeAll encB e blocks'; Ok (d ++ ds)
  end.

(** The bytes of the audio data for the frames [l]. *)
Definition audio (c : wcodec F E) (junk : F) (e0 : E) (l : list F) : res (list Z) :=
  match c with
  | WPerFrame _ _ enc => Ok (concat (map enc l))
  | WBlocks fpp _ encB => encodeAll encB e0 (cut (length l) fpp (zrepeat junk fpp) l)
  end.

(** A codec that does what its sizes promise on every valid block: [okF] and [okE] describe valid frames
    and encoder states. *)
Definition lawful (c : wcodec F E) (okF : F -> Prop) (okE : E -> Prop) : Prop :=
  match c with
  | WPerFrame _ bpf enc => 0 < bpf /\ forall x, okF x -> zlen (enc x) = bpf
  | WBlocks fpp bpp encB => 0 < fpp /\ 0 < bpp /\
      forall e b, okE e -> zlen b = fpp -> Forall okF b ->
        exists d e', encB e b = Ok (d, e') /\ zlen d = bpp /\ okE e'
  end.

(** Bytes [from, from + n) of a file. *)
Definition region (bytes : list Z) (from n : Z) : list Z := zfirstn n (zskipn from bytes).

(** What was written by a history, in order. *)
Definition written (ops : list (@wop V)) : list V := concat (map (fun o => match o with Write l => l | Sync => [] end) ops).
End Spec.
