(** * What reading must look like: an array of frames and a position *)
From Verif Require Import Prelude FileIO Reader.

(** The frames a file holds, according to its codec: [total] frames starting at byte [first]. *)
Definition holds {F} (c : codec F) (bytes : list Z) (first total : Z) (frames : list F) : Prop :=
  0 <= first /\ 0 <= total /\
  match c with
  | PerFrame _ bpf dec =>
      0 < bpf /\ first + bpf * total <= zlen bytes /\
      frames = map dec (chunksOf (Z.to_nat total) bpf (zskipn first bytes))
  | Blocks fpp bpp decB =>
      0 < fpp /\ 0 < bpp /\
      exists nblocks blocks, first + bpp * Z.of_nat nblocks <= zlen bytes /\
        rmapM decB (chunksOf nblocks bpp (zskipn first bytes)) = Ok blocks /\
        Forall (fun b => zlen b = fpp) blocks /\ total <= fpp * Z.of_nat nblocks /\
        frames = zfirstn total (concat blocks)
  end.

(** The abstract machine: frames of the track and the read position. *)
Record amachine (V : Type) := mkA { a_frames : list V; a_pos : Z }.
Arguments mkA {V}. Arguments a_frames {V}. Arguments a_pos {V}.

Inductive rop := Read (n : Z) | Seek (k : Z) | Tell | FrameCount.
Inductive rout (V : Type) := Frames (l : list (option V)) | Number (z : Z).
Arguments Frames {V}. Arguments Number {V}.

(** A read returns the next min(n, remaining) frames; a seek goes to the frame asked for, or the last
    frame when beyond the end; negative seeks leave the position. *)
Definition astep {V} (a : amachine V) (o : rop) : rout V * amachine V :=
  let total := zlen (a_frames a) in
  match o with
  | Read n => let k := Z.max 0 (Z.min n (total - a_pos a)) in
      (Frames (map Some (zfirstn k (zskipn (a_pos a) (a_frames a)))), mkA (a_frames a) (a_pos a + k))
  | Seek k => let p := if k <? 0 then a_pos a else if total <? k then total - 1 else k in
      (Number p, mkA (a_frames a) p)
  | Tell => (Number (a_pos a), a)
  | FrameCount => (Number total, a)
  end.
Fixpoint arun {V} (a : amachine V) (ops : list rop) : list (rout V) :=
  match ops with [] => [] | o :: ops' => let '(r, a) := astep a o in r :: arun a ops' end.

(** The library run on the same calls. *)
Section Run.
Context {B : Build}.
Context {F V : Type} (c : codec F) (conv : F -> V) (hasConv seekok : bool).
Definition cstep (st : rstate F) (o : rop) : res (rout V * rstate F) :=
  match o with
  | Read n => do (l, st) <- afReadFrames c conv hasConv seekok st n; Ok (Frames l, st)
  | Seek k => let '(z, st) := afSeekFrame c st k in Ok (Number z, st)
  | Tell => let '(z, st) := afTellFrame c st in Ok (Number z, st)
  | FrameCount => Ok (Number (afGetFrameCount st), st)
  end.
Fixpoint crun (st : rstate F) (ops : list rop) : res (list (rout V)) :=
  match ops with
  | [] => Ok []
  | o :: ops' => do (r, st) <- cstep st o; do l <- crun st ops'; Ok (r :: l)
  end.
End Run.
