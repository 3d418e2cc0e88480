(** * C76: a file whose end is missing *)
From Verif Require Import Prelude PreludeFacts FileIO Rebuffer Reader ReaderSpec ReaderProofs PropertiesReader IMA Faults FaultsProofs PropertiesFaults Truncated Promised.

(** ** Specification *)

(** Of the audio data beginning at byte [first] the first [L] bytes of the file contain at least [m] frames: as samples of [bpf] bytes, or in whole blocks. *)
Definition contains {F} (c : codec F) (first m L : Z) : Prop :=
  match c with
  | PerFrame _ bpf _ => first + bpf * m <= L
  | Blocks fpp bpp _ => exists k, 0 <= k /\ m <= fpp * k /\ first + bpp * k <= L
  end.
(** Calls that, made with the position at [pos], neither read past nor seek beyond frame [m]. *)
Fixpoint within (m pos : Z) (ops : list rop) : Prop :=
  match ops with
  | [] => True
  | Read n :: ops => pos + n <= m /\ within m (pos + Z.max 0 n) ops
  | Seek k :: ops => k <= m /\ within m (if k <? 0 then pos else k) ops
  | _ :: ops => within m pos ops
  end.

(** ** A prefix of a file holds a prefix of its frames *)
Lemma holds_prefix {F} (c : codec F) bytes first total frames m L : holds c bytes first total frames -> 0 <= m <= total -> contains c first m L ->
  holds c (zfirstn L bytes) first m (zfirstn m frames).
Proof.
  intros (H1 & H2 & H3) Hm HL. split; [exact H1|]. split; [lia|].
  assert (SK : forall x, zskipn first (zfirstn x bytes) = zfirstn (x - first) (zskipn first bytes)).
  { intros x. unfold zskipn, zfirstn. rewrite skipn_firstn_comm. f_equal. lia. }
  destruct c as [p bpf dec|fpp bpp decB]; cbn [contains] in HL.
  - destruct H3 as (A & Hl & ->). split; [exact A|]. assert (0 <= bpf * m <= bpf * total) by nia. split; [rewrite zlen_firstn; lia|].
    rewrite SK, chunksOf_firstn by lia. unfold zfirstn at 1. rewrite firstn_map. f_equal.
    replace (Z.to_nat total) with (Z.to_nat m + (Z.to_nat total - Z.to_nat m))%nat by lia. rewrite chunksOf_app by lia. rewrite firstn_exact by apply chunksOf_length. reflexivity.
  - destruct H3 as (A1 & A2 & nb & blocks & Hl & E & Af & Ht & ->). destruct HL as (k & K1 & K2 & K3). split; [exact A1|]. split; [exact A2|].
    set (j := Nat.min (Z.to_nat k) nb). exists j, (firstn j blocks).
    assert (Lb : length blocks = nb) by (apply rmapM_length in E; rewrite chunksOf_length in E; exact E).
    assert (Hj : bpp * Z.of_nat j <= bpp * k /\ bpp * Z.of_nat j <= bpp * Z.of_nat nb) by (unfold j; nia).
    split; [rewrite zlen_firstn; lia|]. split; [|split; [|split]].
    + rewrite SK, chunksOf_firstn by lia. replace nb with (j + (nb - j))%nat in E by (unfold j; lia). rewrite chunksOf_app in E by lia.
      apply ReaderProofs.rmapM_app in E. destruct E as (b1 & b2 & E1 & E2 & Eb & _). rewrite E1, Eb. f_equal. symmetry. apply firstn_exact.
      apply rmapM_length in E1. rewrite chunksOf_length in E1. exact E1.
    + apply (Forall_firstn _ (Z.of_nat j)) in Af. unfold zfirstn in Af. rewrite Nat2Z.id in Af. exact Af.
    + unfold j. destruct (Nat.min_spec (Z.to_nat k) nb) as [[_ ->]|[_ ->]]; lia.
    + rewrite zfirstn_zfirstn by lia. replace (Z.min m total) with m by lia.
      rewrite <- (firstn_skipn j blocks) at 1. rewrite concat_app. apply zfirstn_app_l. rewrite (zlen_chunk_frames _ fpp); [|apply (Forall_firstn _ (Z.of_nat j)) in Af; unfold zfirstn in Af; rewrite Nat2Z.id in Af; exact Af].
      unfold zlen. rewrite firstn_length, Lb. unfold j. destruct (Nat.min_spec (Z.to_nat k) nb) as [[_ ->]|[_ ->]]; nia.
Qed.

(** ** The calls *)
Section Run.
Context {B : Build}.
Context {F V : Type} (c : codec F) (conv : F -> V) (hasConv : bool) (bytes : list Z) (first m total : Z) (stream : list F) (frames : list V).
Hypothesis HS : streamOf c bytes first m stream.
Hypothesis Hf : zlen frames = total.
Hypothesis Hp : map conv (zfirstn m stream) = zfirstn m frames.
Hypothesis Hm : 0 <= m <= total.

Lemma crun_within : forall ops st pos, inv c true bytes first m stream st pos -> within m pos ops ->
  crun c conv hasConv true (promised total st) ops = Ok (arun (mkA frames pos) ops).
Proof.
  induction ops as [|o ops IH]; intros st pos HI W; [reflexivity|]. pose proof HI as (I1 & I2 & I3 & I4 & I5 & _).
  destruct o as [n|k| |]; cbn [crun cstep arun astep a_frames a_pos within] in *.
  - destruct W as [W1 W2]. rewrite (afReadFrames_promised c conv hasConv m total Hm st pos n stream bytes first HI W1).
    destruct (afReadFrames_ok c conv hasConv true bytes first m stream HS st pos n HI) as (st' & E & I'). cbv zeta in E, I'. rewrite E. cbn [through rbind].
    rewrite Hf. replace (Z.max 0 (Z.min n (m - pos))) with (Z.max 0 n) in * by lia. replace (Z.max 0 (Z.min n (total - pos))) with (Z.max 0 n) by lia.
    rewrite (IH st' _ I' W2). cbn [rbind]. do 4 f_equal.
    assert (C : forall X (l : list X), zfirstn (Z.max 0 n) (zskipn pos l) = zfirstn (Z.max 0 n) (zskipn pos (zfirstn m l))).
    { intros X l. replace (zskipn pos (zfirstn m l)) with (zfirstn (m - pos) (zskipn pos l)).
      - rewrite zfirstn_zfirstn by lia. f_equal. lia.
      - unfold zskipn, zfirstn. rewrite skipn_firstn_comm. f_equal. lia. }
    rewrite C, (C _ frames), <- Hp. unfold zfirstn at 1. rewrite <- firstn_map. unfold zskipn at 1. rewrite <- skipn_map. reflexivity.
  - destruct W as [W1 W2]. rewrite (afSeekFrame_promised c m total Hm st k I3 W1).
    destruct (afSeekFrame_ok c true bytes first m stream HS st pos k eq_refl HI ltac:(lia)) as [E I']. cbv zeta in E, I'.
    rewrite Hf. replace (m <? k) with false in * by lia. replace (total <? k) with false by lia.
    destruct (afSeekFrame c st k) as [z st']. cbn [fst snd] in *. cbn [rbind]. rewrite (IH st' _ I' W2). cbn [rbind]. now rewrite E.
  - unfold afTellFrame, afSeekFrame. cbn [Z.ltb Z.compare rbind]. rewrite (IH st pos HI W). cbn [rbind promised rs_track promise t_nextv]. now rewrite I4.
  - cbn [rbind]. rewrite (IH st pos HI W). cbn [rbind]. unfold afGetFrameCount. cbn [promised rs_track promise t_totalv]. now rewrite Hf.
Qed.
End Run.

(** ** Theorems *)

(** However much of its end a file is missing, whatever calls are made: each returns, reads return the next frames of the complete file, and a read that returns fewer of them than it was
    asked for and the header promises reports an error ([conforms], PropertiesFaults.v; after an error the next read is promised nothing until a seek to another position). *)
Theorem C76_truncated_files_conform :
  forall (B : Build) (F V : Type) (c : codec F) (conv : F -> V) (hasConv : bool) bytes first total frames (L : Z) ops,
    holds c bytes first total frames -> seeksAllowed total ops ->
    conforms (mkA (map conv frames) 0) false ops (frun c conv hasConv true (openRead c (zfirstn L bytes) first total) [] ops).
Proof.
  intros B F V c conv hasConv bytes first total frames L ops H Hs.
  destruct (frun_cut c conv hasConv true L ops _ _ (open_cut c L bytes first total)) as (d & ->). now apply C75_every_source.
Qed.
Print Assumptions C76_truncated_files_conform.

(** The frames that are there are read as if nothing were missing: as long as the calls stay within them, each returns what it returns for the complete file. *)
Theorem C76_frames_that_are_there :
  forall (B : Build) (F V : Type) (c : codec F) (conv : F -> V) (hasConv : bool) bytes first total frames (L m : Z) ops,
    holds c bytes first total frames -> 0 <= m <= total -> contains c first m L -> within m 0 ops ->
    crun c conv hasConv true (openRead c (zfirstn L bytes) first total) ops = Ok (arun (mkA (map conv frames) 0) ops).
Proof.
  intros B F V c conv hasConv bytes first total frames L m ops H Hm HL W.
  pose proof (holds_prefix c bytes first total frames m L H Hm HL) as H'. destruct (holds_stream c _ _ _ _ H') as (stream & HS & E).
  rewrite (openRead_promised c m total). eapply crun_within with (bytes := zfirstn L bytes) (first := first) (m := m) (stream := stream); auto.
  - rewrite zlen_map. eapply holds_len; eauto.
  - rewrite <- E. unfold zfirstn. now rewrite firstn_map.
  - apply open_inv; auto.
Qed.
Print Assumptions C76_frames_that_are_there.

Example C76_example_pcm (B : Build) :
  let bytes := [1;2;3;4; 10;0; 20;0; 255;255; 7;0] in
  let ops := [Read 1; FrameCount; Read 1; Tell; Seek 0; Read 2] in
  holds pcm16 bytes 4 4 [10; 20; -1; 7] /\ contains pcm16 4 2 9 /\ within 2 0 ops /\
  frun pcm16 Z.opp true true (openRead pcm16 (zfirstn 9 bytes) 4 4) [] (ops ++ [Seek 1; Read 3; Tell])
    = [Ok (Frames [Some (-10)], false); Ok (Number 4, false); Ok (Frames [Some (-20)], false); Ok (Number 2, false); Ok (Number 0, false);
       Ok (Frames [Some (-10); Some (-20)], false); Ok (Number 1, false); Ok (Frames [], true); Ok (Number 1, false)].
Proof. split; [unfold holds, pcm16; repeat split; vm_compute; congruence|]. split; [cbn; lia|]. split; [cbn; lia|]. vm_compute. reflexivity. Qed.

Example C76_example_blocks (B : Build) :
  (exists frames, holds imaqt qtfile 1 100 frames) /\ contains imaqt 1 64 40 /\ within 64 0 [Read 30; Read 34; Seek 5; Read 59] /\
  rmap (map (fun o => match o with Frames l => zlen l | Number z => z end)) (crun imaqt (fun x => x) false true (openRead imaqt (zfirstn 40 qtfile) 1 100) [Read 30; Read 34; Seek 5; Read 59])
    = Ok [30; 34; 5; 59].
Proof.
  split; [destruct (proj1 (C23_example_ima B)) as (fr & H & _); exists fr; exact H|]. split; [exists 1; cbn; lia|]. split; [cbn; lia|]. vm_compute. reflexivity.
Qed.
