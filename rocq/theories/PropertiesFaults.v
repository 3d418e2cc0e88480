(** * C75: a source that fails, or delivers less than asked, while a file is read *)
From Verif Require Import Prelude PreludeFacts FileIO Rebuffer Reader ReaderSpec ReaderProofs PropertiesReader IMA Faults FaultsProofs.

(** ** Specification *)

(** What the calls of an application may return.  The file is an array of frames with a position ([amachine], ReaderSpec.v).  A read returns the next frames: all it was asked for
    that there are, or, if it reports an error, possibly fewer; the position moves past those returned, no further.  After an error the next read is not promised anything
    ([adrift]) until a seek has gone to another position.  No other call reports an error, and all return. *)
Inductive conforms {V} : amachine V -> bool -> list rop -> list (res (rout V * bool)) -> Prop :=
| conforms_end a adrift : conforms a adrift [] []
| conforms_read frames pos n ops outs r (error : bool) :
    let k := Z.max 0 (Z.min n (zlen frames - pos)) in
    0 <= r <= k -> (if error then r < k \/ k = 0 else r = k) ->
    conforms (mkA frames (pos + r)) error ops outs ->
    conforms (mkA frames pos) false (Read n :: ops) (Ok (Frames (map Some (zfirstn r (zskipn pos frames))), error) :: outs)
| conforms_adrift a n ops outs : conforms a true (Read n :: ops) outs
| conforms_seek a k ops outs (adrift : bool) :
    conforms (snd (astep a (Seek k))) (adrift && ((k <? 0) || (k =? a_pos a))) ops outs ->
    conforms a adrift (Seek k :: ops) (Ok (fst (astep a (Seek k)), false) :: outs)
| conforms_tell a ops outs adrift : conforms a adrift ops outs -> conforms a adrift (Tell :: ops) (Ok (Number (a_pos a), false) :: outs)
| conforms_count a ops outs adrift : conforms a adrift ops outs -> conforms a adrift (FrameCount :: ops) (Ok (Number (zlen (a_frames a)), false) :: outs).

(** ** The calls *)
Section Run.
Context {B : Build}.
Context {F V : Type} (c : codec F) (conv : F -> V) (hasConv : bool) (bytes : list Z) (first total : Z) (stream : list F).
Hypothesis HS : streamOf c bytes first total stream.

Lemma cut r pos : 0 <= r -> 0 <= pos -> pos + r <= total -> zfirstn r (zskipn pos stream) = zfirstn r (zskipn pos (zfirstn total stream)).
Proof.
  intros. replace (zskipn pos (zfirstn total stream)) with (zfirstn (total - pos) (zskipn pos stream)).
  - rewrite zfirstn_zfirstn by lia. f_equal. lia.
  - unfold zskipn, zfirstn. rewrite skipn_firstn_comm. f_equal. lia.
Qed.
Lemma cut_map r pos : 0 <= r -> 0 <= pos -> pos + r <= total ->
  map conv (zfirstn r (zskipn pos stream)) = zfirstn r (zskipn pos (map conv (zfirstn total stream))).
Proof.
  intros. rewrite cut by lia. unfold zskipn at 2. rewrite skipn_map. unfold zfirstn at 3. rewrite firstn_map. reflexivity.
Qed.

Lemma frun_ok : forall ops st d pos adrift, (if adrift : bool then drift c bytes first total st pos else inv c true bytes first total stream st pos) ->
  seeksAllowed total ops -> conforms (mkA (map conv (zfirstn total stream)) pos) adrift ops (frun c conv hasConv true st d ops).
Proof.
  assert (HT : 0 <= total <= zlen stream) by (destruct HS as (_ & HT & _); lia).
  assert (Lt : zlen (map conv (zfirstn total stream)) = total) by (rewrite zlen_map, zlen_firstn; lia).
  induction ops as [|o ops IH]; intros st d pos adrift HI Hz; [constructor|].
  assert (Hz' : seeksAllowed total ops) by (destruct Hz as [Hz|Hz]; [left; auto|right; inversion Hz; auto]).
  assert (D : drift c bytes first total st pos) by (destruct adrift; [exact HI|eapply inv_drift; exact HI]).
  pose proof D as (D1 & D2 & D3 & D4 & D5 & D6 & D7).
  destruct o as [n|k| |]; cbn [frun fstep].
  - destruct adrift; [constructor|].
    destruct (afReadFramesF_ok c conv hasConv bytes first total stream HS st d pos n HI) as (r & e & st' & d' & E & R & _ & P). cbv zeta in *.
    rewrite E. cbn [rbind]. rewrite cut_map by lia. constructor; rewrite ?Lt; [exact R|destruct e; apply P|].
    apply IH; [|exact Hz']. destruct e; apply P.
  - assert (HK : 0 < total \/ k <= 0) by (destruct Hz as [Hz|Hz]; [auto|inversion Hz; auto]).
    destruct (afSeekFrameF_ok c bytes first total stream HS st pos k D HK) as [E I1]. cbv zeta in *.
    destruct (afSeekFrame c st k) as [z st'] eqn:Es. cbn [fst snd] in E, I1. cbn [rbind].
    pose proof (conforms_seek (mkA (map conv (zfirstn total stream)) pos) k ops (frun c conv hasConv true st' d ops) adrift) as C.
    cbv beta zeta iota delta [astep fst snd a_frames a_pos] in C. rewrite Lt in C. rewrite <- E in C. apply C. apply IH; [|exact Hz'].
    destruct ((k <? 0) || (k =? pos)) eqn:Ek.
    + destruct I1 as [-> I1]. rewrite E, I1, andb_true_r. exact HI.
    + rewrite E, andb_false_r. exact I1.
  - unfold afTellFrame, afSeekFrame. cbn [Z.ltb Z.compare rbind]. rewrite D4. change pos with (a_pos (mkA (map conv (zfirstn total stream)) pos)) at 2. constructor. apply IH; auto.
  - cbn [rbind]. unfold afGetFrameCount. rewrite D3. rewrite <- Lt at 2.
    change (map conv (zfirstn total stream)) with (a_frames (mkA (map conv (zfirstn total stream)) pos)) at 2. constructor. apply IH; auto.
Qed.

(** On a perfect source nothing is reported. *)
Lemma frun_perfect : forall ops st pos, inv c true bytes first total stream st pos -> seeksAllowed total ops ->
  frun c conv hasConv true st [] ops = map (fun r => Ok (r, false)) (arun (mkA (map conv (zfirstn total stream)) pos) ops).
Proof.
  assert (HT : 0 <= total <= zlen stream) by (destruct HS as (_ & HT & _); lia).
  assert (Lt : zlen (map conv (zfirstn total stream)) = total) by (rewrite zlen_map, zlen_firstn; lia).
  induction ops as [|o ops IH]; intros st pos HI Hz; [reflexivity|].
  assert (Hz' : seeksAllowed total ops) by (destruct Hz as [Hz|Hz]; [left; auto|right; inversion Hz; auto]).
  pose proof (inv_drift _ _ _ _ _ _ _ HI) as D. pose proof D as (D1 & D2 & D3 & D4 & D5 & D6 & D7).
  destruct o as [n|k| |]; cbn [frun fstep arun astep a_frames a_pos map]; rewrite ?Lt.
  - destruct (afReadFramesF_ok c conv hasConv bytes first total stream HS st [] pos n HI) as (r & e & st' & d' & E & R & L & P). cbv zeta in *.
    rewrite E. cbn [rbind]. rewrite cut_map by lia. destruct e; [cbn [length] in P; lia|]. destruct P as [-> P].
    destruct d' as [|x d']; [|cbn [length] in L; lia]. f_equal. apply IH; auto.
  - assert (HK : 0 < total \/ k <= 0) by (destruct Hz as [Hz|Hz]; [auto|inversion Hz; auto]).
    destruct (afSeekFrame_ok c true bytes first total stream HS st pos k eq_refl HI HK) as [E I1]. cbv zeta in *.
    destruct (afSeekFrame c st k) as [z st'] eqn:Es. cbn [fst snd] in E, I1. cbn [rbind]. rewrite E. f_equal. apply IH; auto.
  - unfold afTellFrame, afSeekFrame. cbn [Z.ltb Z.compare rbind]. rewrite D4. f_equal. apply IH; auto.
  - unfold afGetFrameCount. rewrite D3. f_equal. apply IH; auto.
Qed.

(** An application that seeks away and back after an error gets everything, if the source does not fail for ever. *)
Lemma recovering : forall calls st d p n, inv c true bytes first total stream st p -> 0 < n -> p + n <= total -> (length d < calls)%nat ->
  exists st' d', readRecovering c conv hasConv true calls st d p n = Ok (map Some (map conv (zfirstn n (zskipn p stream))), st', d') /\
    inv c true bytes first total stream st' (p + n).
Proof.
  assert (HT : 0 <= total <= zlen stream) by (destruct HS as (_ & HT & _); lia).
  induction calls as [|calls IH]; intros st d p n HI Hn Hp Hc; [lia|]. cbn [readRecovering].
  destruct (afReadFramesF_ok c conv hasConv bytes first total stream HS st d p n HI) as (r & e & st1 & d1 & E & R & L & P). cbv zeta in *. rewrite E. cbn [rbind].
  assert (P0 : 0 <= p) by (destruct HI as (_ & _ & _ & _ & Q & _); lia).
  replace (Z.max 0 (Z.min n (total - p))) with n in * by lia.
  assert (Lr : zlen (map (@Some V) (map conv (zfirstn r (zskipn p stream)))) = r) by (rewrite !zlen_map, zlen_firstn, zlen_skipn by lia; lia).
  rewrite Lr. destruct (Z.eqb_spec r n) as [->|Ne].
  - destruct e.
    + destruct P as [P _]. lia.
    + exists st1, d1. split; [reflexivity|apply P].
  - destruct e; [|destruct P as [P _]; lia]. destruct P as (_ & D & Ld).
    set (q := if p + r =? 0 then 1 else 0). assert (Hq : 0 <= q <= total /\ q <> p + r) by (unfold q; destruct (Z.eqb_spec (p + r) 0); lia).
    destruct (afSeekFrameF_ok c bytes first total stream HS st1 (p + r) q D ltac:(lia)) as [_ I1]. cbv zeta in I1.
    replace ((q <? 0) || (q =? p + r)) with false in I1 by lia. replace (q <? 0) with false in I1 by lia. replace (total <? q) with false in I1 by lia.
    destruct (afSeekFrame c st1 q) as [z st2]. cbn [snd] in I1.
    destruct (afSeekFrame_ok c true bytes first total stream HS st2 q (p + r) eq_refl I1 ltac:(lia)) as [_ I2]. cbv zeta in I2.
    replace (p + r <? 0) with false in I2 by lia. replace (total <? p + r) with false in I2 by lia. destruct (afSeekFrame c st2 (p + r)) as [z2 st3]. cbn [snd] in I2.
    destruct (IH st3 d1 (p + r) (n - r) I2 ltac:(lia) ltac:(lia) ltac:(lia)) as (st' & d' & E' & I'). rewrite E'. cbn [rbind].
    exists st', d'. split; [|replace (p + n) with (p + r + (n - r)) by lia; exact I']. do 3 f_equal.
    rewrite <- !map_app. do 2 f_equal. replace n with (r + (n - r)) at 2 by lia. rewrite (zfirstn_split r (n - r)) by lia. rewrite zskipn_zskipn by lia. reflexivity.
Qed.
End Run.

(** ** Every answer of the source, every history of calls *)

(** Whatever the source answers, no call goes wrong as long as a seek to another position comes between a read that reported an error and the next read. *)
Theorem C75_every_source :
  forall (B : Build) (F V : Type) (c : codec F) (conv : F -> V) (hasConv : bool) bytes first total frames (d : source) ops,
    holds c bytes first total frames -> seeksAllowed total ops ->
    conforms (mkA (map conv frames) 0) false ops (frun c conv hasConv true (openRead c bytes first total) d ops).
Proof.
  intros B F V c conv hasConv bytes first total frames d ops H Hs. destruct (holds_stream c bytes first total frames H) as (stream & HS & ->).
  apply frun_ok with (bytes := bytes) (first := first); auto. apply open_inv; auto.
Qed.
Print Assumptions C75_every_source.

(** Without failures: the same as [Reader], and no error is reported. *)
Theorem C75_without_failures :
  forall (B : Build) (F V : Type) (c : codec F) (conv : F -> V) (hasConv : bool) bytes first total frames ops,
    holds c bytes first total frames -> seeksAllowed total ops ->
    frun c conv hasConv true (openRead c bytes first total) [] ops = map (fun r => Ok (r, false)) (arun (mkA (map conv frames) 0) ops) /\
    crun c conv hasConv true (openRead c bytes first total) ops = Ok (arun (mkA (map conv frames) 0) ops).
Proof.
  intros B F V c conv hasConv bytes first total frames ops H Hs. split; [|now apply history]. destruct (holds_stream c bytes first total frames H) as (stream & HS & ->).
  apply frun_perfect with (bytes := bytes) (first := first); auto. apply open_inv; auto.
Qed.
Print Assumptions C75_without_failures.

(** An application that after a short read seeks to another position and back gets every frame of the file, in as many reads as the source gives short answers, and one more. *)
Theorem C75_seek_away_and_back_recovers :
  forall (B : Build) (F V : Type) (c : codec F) (conv : F -> V) (hasConv : bool) bytes first total frames (d : source),
    holds c bytes first total frames -> 0 < total ->
    exists st d', readRecovering c conv hasConv true (length d + 1) (openRead c bytes first total) d 0 total = Ok (map Some (map conv frames), st, d').
Proof.
  intros B F V c conv hasConv bytes first total frames d H Ht. destruct (holds_stream c bytes first total frames H) as (stream & HS & ->).
  destruct (recovering c conv hasConv bytes first total stream HS (length d + 1) (openRead c bytes first total) d 0 total) as (st & d' & E & _); try lia.
  { apply open_inv; auto. }
  exists st, d'. rewrite E. rewrite zskipn_0 by lia. reflexivity.
Qed.
Print Assumptions C75_seek_away_and_back_recovers.

(** ** What happens without the seek *)

(** 16-bit PCM, three frames 1, 2, 3, and a read(2) that delivers three bytes: the application gets nothing and an error, and then, going on, 0x0300, the second half of a frame and the
    first of the next, and the library reports nothing.  A seek to the position it is at, which is what afTellFrame says, does not help. *)
Theorem C75_going_on_after_an_error_refuted :
  forall B : Build, let bytes := [1;0; 2;0; 3;0] in
    holds pcm16 bytes 0 3 [1; 2; 3] /\
    frun pcm16 (fun x => x) false true (openRead pcm16 bytes 0 3) [3] [Read 3; Tell; Read 1]
      = [Ok (Frames [], true); Ok (Number 0, false); Ok (Frames [Some 768], false)] /\
    frun pcm16 (fun x => x) false true (openRead pcm16 bytes 0 3) [3] [Read 3; Tell; Seek 0; Read 1]
      = [Ok (Frames [], true); Ok (Number 0, false); Ok (Number 0, false); Ok (Frames [Some 768], false)] /\
    frun pcm16 (fun x => x) false true (openRead pcm16 bytes 0 3) [3] [Read 3; Tell; Seek 1; Seek 0; Read 1]
      = [Ok (Frames [], true); Ok (Number 0, false); Ok (Number 1, false); Ok (Number 0, false); Ok (Frames [Some 1], false)].
Proof. intros B bytes. split; [unfold holds, pcm16; repeat split; vm_compute; congruence|]. repeat split; vm_compute; reflexivity. Qed.
Print Assumptions C75_going_on_after_an_error_refuted.

(** With a conversion in the chain, frames that were never read are counted: after a short read of two frames the third is delivered first, and two frames of whatever was in memory follow. *)
Theorem C75_frames_made_up_refuted :
  forall B : Build, frun pcm16 Z.opp true true (openRead pcm16 [1;0; 2;0; 3;0] 0 3) [4] [Read 3; Read 3; Tell]
      = [Ok (Frames [], true); Ok (Frames [Some (-3); None; None], false); Ok (Number 3, false)].
Proof. intros B. vm_compute. reflexivity. Qed.
Print Assumptions C75_frames_made_up_refuted.

(** A block codec: the next read fails an assertion; in a release build it returns nothing, or, with a conversion, frames of whatever was in memory. *)
Theorem C75_block_codec_after_an_error_refuted :
  (forall hasConv, frun (B := Debug) imaqt (fun x => x) hasConv true (openRead imaqt qtfile 1 100) [20] [Read 10; Read 10] = [Ok (Frames [], true); Abort]) /\
  frun (B := Release) imaqt (fun x => x) false true (openRead imaqt qtfile 1 100) [20] [Read 10; Read 10] = [Ok (Frames [], true); Ok (Frames [], false)] /\
  frun (B := Release) imaqt (fun x => x) true true (openRead imaqt qtfile 1 100) [20] [Read 10; Read 10] = [Ok (Frames [], true); Ok (Frames (repeat None 10), false)].
Proof. split; [intros []; vm_compute; reflexivity|]. split; vm_compute; reflexivity. Qed.
Print Assumptions C75_block_codec_after_an_error_refuted.

(** ** Instances *)
Example C75_example_pcm (B : Build) :
  let bytes := [1;2;3;4; 10;0; 20;0; 255;255; 7] in
  holds pcm16 bytes 4 3 [10; 20; -1] /\ seeksAllowed 3 [Read 2; Tell; Seek 0; Seek 1; Read 5; FrameCount] /\
  frun pcm16 Z.opp true true (openRead pcm16 bytes 4 3) [4; -1] [Read 2; Read 1; Tell; Seek 0; Seek 1; Read 5; FrameCount]
    = [Ok (Frames [Some (-10); Some (-20)], false); Ok (Frames [], true); Ok (Number 2, false); Ok (Number 0, false); Ok (Number 1, false);
       Ok (Frames [Some (-20); Some 1], false); Ok (Number 3, false)] /\
  rmap (fun x => fst (fst x)) (readRecovering pcm16 Z.opp true true 4 (openRead pcm16 bytes 4 3) [3; -1; 5] 0 3) = Ok [Some (-10); Some (-20); Some 1].
Proof.
  split; [unfold holds, pcm16; repeat split; vm_compute; congruence|]. split; [left; lia|]. split; vm_compute; reflexivity.
Qed.
Example C75_example_blocks (B : Build) :
  (exists frames, holds imaqt qtfile 1 100 frames /\ zlen frames = 100) /\
  rmap (fun x => map (fun v => match v with Some _ => true | None => false end) (fst (fst x)))
    (readRecovering imaqt (fun x => x) false true 4 (openRead imaqt qtfile 1 100) [34; 10; -1] 0 100) = Ok (repeat true 100).
Proof. split; [exact (proj1 (C23_example_ima B))|]. vm_compute. reflexivity. Qed.
